Require Import Coq.ZArith.ZArith Coq.Lists.List Coq.Bool.Bool Coq.micromega.Lia.
Require Import Verif.Susp_Model Verif.Susp_Spec Verif.Susp_Proofs Verif.Susp_Proofs2 Verif.Susp_Proofs3.
Import ListNotations.

Lemma upd_id : forall i f w, (forall e, In e w -> did e = i -> f e = e) -> upd i f w = w.
Proof. intros i f w X. unfold upd. induction w as [|a w IH]; [reflexivity |]. cbn. rewrite IH by (intros e E; apply X; right; exact E). destruct (Nat.eqb (did a) i) eqn:Q; [| reflexivity]. apply Nat.eqb_eq in Q. rewrite X; auto. left. reflexivity. Qed.
Lemma on_step : forall c w cl m s i op, ok w -> J c w cl m s -> J c (after w (On i)) cl m (fst (step c s (On i) op)).
Proof.
  intros c w cl m s i op [ND [L1 T1]] [O [M [MM [K IV]]]]. cbn [after step]. rewrite O. destruct (find_dev i w) as [d|] eqn:FD.
  - destruct (find_some_ _ _ _ FD) as [DW DI]. assert (UN : forall e, In e w -> did e = i -> e = d) by (intros e E Q; apply (same_did w); auto; congruence).
    destruct (off d) eqn:OD.
    + rewrite fst_then. cbn [fst]. set (s1 := fst (device_added c s d)). assert (E1 : core s1 = c_added c (core s) d) by apply core_added.
      assert (O1 : others s1 = w) by (change (others (core s1) = w); rewrite E1, added_others; exact O).
      assert (M1 : mode s1 = m) by (change (mode (core s1) = m); rewrite E1, added_mode; exact M).
      assert (LF : forall k, LI (upd i (enabled true) w) k <-> LI w k \/ (k = did d /\ lidsw d = true)).
      { intro k. split.
        - intros [e [A [B [C D]]]]. apply in_upd in A. destruct A as [x [X Y]]. destruct (Nat.eqb (did x) i) eqn:Q; subst e; [| left; exists x; auto]. apply Nat.eqb_eq in Q. rewrite (UN x X Q) in *. right. cbn in B, C. auto.
        - intros [[e [A [B [C D]]]]|[A B]].
          + exists e. split; [| auto]. apply in_upd. exists e. split; [exact A |]. destruct (Nat.eqb (did e) i) eqn:Q; [| reflexivity]. unfold enabled. destruct e; cbn in *. subst. reflexivity.
          + exists (enabled true d). split; [apply in_upd; exists d; split; [exact DW | rewrite DI, Nat.eqb_refl; reflexivity] | cbn; auto]. }
      assert (TF : forall k, TI (upd i (enabled true) w) k <-> TI w k \/ (k = did d /\ tmsw d = true)).
      { intro k. split.
        - intros [e [A [B [C D]]]]. apply in_upd in A. destruct A as [x [X Y]]. destruct (Nat.eqb (did x) i) eqn:Q; subst e; [| left; exists x; auto]. apply Nat.eqb_eq in Q. rewrite (UN x X Q) in *. right. cbn in B, C. auto.
        - intros [[e [A [B [C D]]]]|[A B]].
          + exists e. split; [| auto]. apply in_upd. exists e. split; [exact A |]. destruct (Nat.eqb (did e) i) eqn:Q; [| reflexivity]. unfold enabled. destruct e; cbn in *. subst. reflexivity.
          + exists (enabled true d). split; [apply in_upd; exists d; split; [exact DW | rewrite DI, Nat.eqb_refl; reflexivity] | cbn; auto]. }
      assert (SF : forall k, TO (upd i (enabled true) w) k <-> TO w k).
      { intro k. split.
        - intros [e [A [B C]]]. apply in_upd in A. destruct A as [x [X Y]]. exists x. destruct (Nat.eqb (did x) i); subst e; auto.
        - intros [e [A [B C]]]. exists (if Nat.eqb (did e) i then enabled true e else e). split; [apply in_upd; exists e; auto |]. destruct (Nat.eqb (did e) i); auto. }
      refine (conj _ (conj M1 (conj MM (conj _ _)))); [cbn; rewrite O1; unfold set_off, upd, enabled; reflexivity | intros k X; apply LF; left; apply K; exact X |].
      apply others_in. apply core_in. rewrite E1. eapply inv_congr; [apply (inv_added c (LI w) (TI w) (TO w) cl (UM w) (CM w) (core s) d) | | | | | |].
      * apply core_out. exact IV.
      * intros LS k [e [A [B [C D]]]]. assert (did e = did d) by (apply L1; auto). rewrite (UN e A ltac:(congruence)) in D. congruence.
      * intros LS k [e [A [B [C D]]]]. assert (did e = did d) by (apply T1; auto). rewrite (UN e A ltac:(congruence)) in D. congruence.
      * intro X. destruct (K _ X) as [e [A [B [C D]]]]. rewrite (UN e A ltac:(congruence)) in D. congruence.
      * split; [intros [e [A [B C]]]; rewrite (UN e A ltac:(congruence)) in C; exact C | intro X; exists d; auto].
      * intro k. rewrite LF. reflexivity.
      * intro k. rewrite TF. reflexivity.
      * intros k _. rewrite SF. reflexivity.
      * tauto.
      * intros [e [A [B C]]]. apply in_upd in A. destruct A as [x [X Y]]. destruct (Nat.eqb (did x) i) eqn:Q; subst e; [| left; exists x; auto]. apply Nat.eqb_eq in Q. rewrite (UN x X Q) in *. right. exact B.
      * assert (CF : forall x, In x w -> mouse x = true -> CM (upd i (enabled true) w)) by (intros x X Y; exists (if Nat.eqb (did x) i then enabled true x else x); split; [apply in_upd; exists x; auto | destruct (Nat.eqb (did x) i); auto]).
        intros [[e [A B]]|X]; [apply (CF e); auto | apply (CF d); auto].
    + rewrite upd_id; [exact (conj O (conj M (conj MM (conj K IV)))) |]. intros e E Q. rewrite (UN e E Q). unfold enabled. destruct d; cbn in *; subst; reflexivity.
  - rewrite upd_id; [exact (conj O (conj M (conj MM (conj K IV)))) |]. intros e E Q. destruct (find_none_ _ _ _ FD E Q).
Qed.
Lemma reason_lid : forall c s (b : bool) op, core (fst (if b then tp_suspend c s LID else tp_resume c op s LID)) = with_reason (core s) LID b.
Proof. intros c s [|] op; [apply core_suspend | apply core_resume]. Qed.
Lemma reason_tm : forall c s (b : bool) op, core (fst (if b then tp_suspend c s TABLET_MODE else tp_resume c op s TABLET_MODE)) = with_reason (core s) TABLET_MODE b.
Proof. intros c s [|] op; [apply core_suspend | apply core_resume]. Qed.
Lemma lid_step : forall c w cl m s i b op, allowed w (Lid i b) -> J c w cl m s -> J c (after w (Lid i b)) (closed1 cl (Lid i b)) m (fst (step c s (Lid i b) op)).
Proof.
  intros c w cl m s i b op AL [O [M [MM [K IV]]]]. cbn [step after]. rewrite O. change (set_lidstate i b w) with (upd i (lid_ b) w). assert (LW : LI w i) by exact AL.
  assert (LF : forall k, LI (upd i (lid_ b) w) k <-> LI w k).
  { intro k. split; [intros [e [A X]]; apply in_upd in A; destruct A as [x [Y Z]]; exists x; destruct (Nat.eqb (did x) i); subst e; auto | intros [e [A X]]; exists (if Nat.eqb (did e) i then lid_ b e else e); split; [apply in_upd; exists e; auto | destruct (Nat.eqb (did e) i); auto]]. }
  assert (TF : forall k, TI (upd i (lid_ b) w) k <-> TI w k).
  { intro k. split; [intros [e [A X]]; apply in_upd in A; destruct A as [x [Y Z]]; exists x; destruct (Nat.eqb (did x) i); subst e; auto | intros [e [A X]]; exists (if Nat.eqb (did e) i then lid_ b e else e); split; [apply in_upd; exists e; auto | destruct (Nat.eqb (did e) i); auto]]. }
  assert (SF : forall k, TO (upd i (lid_ b) w) k <-> TO w k).
  { intro k. split; [intros [e [A X]]; apply in_upd in A; destruct A as [x [Y Z]]; exists x; destruct (Nat.eqb (did x) i); subst e; auto | intros [e [A X]]; exists (if Nat.eqb (did e) i then lid_ b e else e); split; [apply in_upd; exists e; auto | destruct (Nat.eqb (did e) i); auto]]. }
  assert (UF : UM (upd i (lid_ b) w) -> UM w) by (intros [e [A X]]; apply in_upd in A; destruct A as [x [Y Z]]; exists x; destruct (Nat.eqb (did x) i); subst e; auto).
  assert (CF : CM w -> CM (upd i (lid_ b) w)) by (intros [e [A X]]; exists (if Nat.eqb (did e) i then lid_ b e else e); split; [apply in_upd; exists e; auto | destruct (Nat.eqb (did e) i); auto]).
  assert (KF : forall k, In k (closed1 cl (Lid i b)) -> LI (upd i (lid_ b) w) k) by (intros k X; apply LF; destruct b; cbn in X; [destruct X as [<-|X]; auto | apply in_remove in X; apply K; apply X]).
  assert (IV0 : Inv c (LI (upd i (lid_ b) w)) (TI (upd i (lid_ b) w)) (TO (upd i (lid_ b) w)) cl (UM (upd i (lid_ b) w)) (CM (upd i (lid_ b) w)) s).
  { eapply inv_congr; [exact IV | | | | | |]; auto; try tauto; intro k; [rewrite LF | rewrite TF | rewrite SF]; tauto. }
  cbn zeta. set (s0 := with_others s (upd i (lid_ b) w)). destruct IV0 as [A [B [D [E [F [G H]]]]]]. destruct (lid_of s) as [j|] eqn:LO.
  - destruct (Nat.eqb i j) eqn:Q.
    + apply Nat.eqb_eq in Q. subst j. set (s1 := fst (if b then tp_suspend c s0 LID else tp_resume c op s0 LID)). assert (E1 : core s1 = with_reason (core s0) LID b) by apply reason_lid.
      refine (conj _ (conj _ (conj MM (conj KF _)))).
      * change (others (core s1) = upd i (lid_ b) w). rewrite E1. reflexivity.
      * change (mode (core s1) = m). rewrite E1. exact M.
      * apply core_in. rewrite E1. refine (conj _ (conj _ (conj D (conj E (conj F (conj G H)))))); cbn; rewrite LO; [exact A |].
        destruct b; cbn; [split; [intros _; exists i; auto | reflexivity] |]. split; [discriminate |]. intros [k [X Y]]. injection X as <-. apply in_remove in Y. destruct Y as [_ Y]. contradiction.
    + apply Nat.eqb_neq in Q. exfalso. destruct (proj1 (A j) eq_refl) as [IN _]. assert (X : Some j = Some i) by (apply A; split; [exact IN | apply LF; exact LW]). congruence.
  - cbn [fst]. refine (conj eq_refl (conj M (conj MM (conj KF _)))). unfold s0. apply others_in. refine (conj _ (conj _ (conj D (conj E (conj F (conj G H)))))); rewrite LO; [exact A |]. rewrite B. split; intros [k [X _]]; discriminate.
Qed.
Lemma tm_step : forall c w cl m s i b op, allowed w (Tm i b) -> J c w cl m s -> J c (after w (Tm i b)) cl m (fst (step c s (Tm i b) op)).
Proof.
  intros c w cl m s i b op AL [O [M [MM [K IV]]]]. cbn [step after]. rewrite O. change (set_tmstate i b w) with (upd i (tablet b) w).
  assert (LF : forall k, LI (upd i (tablet b) w) k <-> LI w k).
  { intro k. split; [intros [e [A X]]; apply in_upd in A; destruct A as [x [Y Z]]; exists x; destruct (Nat.eqb (did x) i); subst e; auto | intros [e [A X]]; exists (if Nat.eqb (did e) i then tablet b e else e); split; [apply in_upd; exists e; auto | destruct (Nat.eqb (did e) i); auto]]. }
  assert (TF : forall k, TI (upd i (tablet b) w) k <-> TI w k).
  { intro k. split; [intros [e [A X]]; apply in_upd in A; destruct A as [x [Y Z]]; exists x; destruct (Nat.eqb (did x) i); subst e; auto | intros [e [A X]]; exists (if Nat.eqb (did e) i then tablet b e else e); split; [apply in_upd; exists e; auto | destruct (Nat.eqb (did e) i); auto]]. }
  assert (SI : TO (upd i (tablet b) w) i <-> b = true).
  { split; [intros [e [A [X Y]]]; apply in_upd in A; destruct A as [x [Z V]]; destruct (Nat.eqb (did x) i) eqn:Q; subst e; [exact Y | apply Nat.eqb_neq in Q; contradiction] |].
    intros ->. destruct AL as [d [A [X _]]]. exists (tablet true d). split; [apply in_upd; exists d; split; [exact A | rewrite X, Nat.eqb_refl; reflexivity] | auto]. }
  assert (SN : forall k, k <> i -> (TO (upd i (tablet b) w) k <-> TO w k)).
  { intros k NK. split; [intros [e [A [X Y]]]; apply in_upd in A; destruct A as [x [Z V]]; exists x; destruct (Nat.eqb (did x) i) eqn:Q; subst e; auto; apply Nat.eqb_eq in Q; exfalso; apply NK; cbn in X; congruence |].
    intros [e [A [X Y]]]. exists e. split; [| auto]. apply in_upd. exists e. split; [exact A |]. replace (Nat.eqb (did e) i) with false by (symmetry; apply Nat.eqb_neq; congruence). reflexivity. }
  assert (UF : UM (upd i (tablet b) w) -> UM w) by (intros [e [A X]]; apply in_upd in A; destruct A as [x [Y Z]]; exists x; destruct (Nat.eqb (did x) i); subst e; auto).
  assert (CF : CM w -> CM (upd i (tablet b) w)) by (intros [e [A X]]; exists (if Nat.eqb (did e) i then tablet b e else e); split; [apply in_upd; exists e; auto | destruct (Nat.eqb (did e) i); auto]).
  assert (KF : forall k, In k cl -> LI (upd i (tablet b) w) k) by (intros k X; apply LF; apply K; exact X).
  cbn zeta. set (s0 := with_others s (upd i (tablet b) w)). destruct (tm_of s) as [j|] eqn:TO_.
  - destruct (Nat.eqb i j) eqn:Q.
    + apply Nat.eqb_eq in Q. subst j. set (s1 := fst (if b then tp_suspend c s0 TABLET_MODE else tp_resume c op s0 TABLET_MODE)). assert (E1 : core s1 = with_reason (core s0) TABLET_MODE b) by apply reason_tm.
      refine (conj _ (conj _ (conj MM (conj KF _)))).
      * change (others (core s1) = upd i (tablet b) w). rewrite E1. reflexivity.
      * change (mode (core s1) = m). rewrite E1. exact M.
      * apply core_in. rewrite E1. destruct IV as [A [B [D [E [F [G H]]]]]]. refine (conj _ (conj B (conj _ (conj _ (conj F (conj _ _)))))).
        -- intro k. rewrite LF. apply A.
        -- intro k. rewrite TF. apply D.
        -- cbn. rewrite TO_. split; [intros ->; exists i; split; [reflexivity | apply SI; reflexivity] |]. intros [k [X Y]]. injection X as <-. apply SI. exact Y.
        -- auto.
        -- intro X. split; [apply H; exact X | apply CF; apply H; exact X].
    + apply Nat.eqb_neq in Q. cbn [fst]. exfalso. destruct IV as [_ [_ [D _]]]. rewrite TO_ in D. destruct (proj1 (D j) eq_refl) as [IN [NM _]]. assert (X : Some j = Some i) by (apply D; split; [exact IN | split; [exact NM | exact AL]]). congruence.
  - refine (conj eq_refl (conj M (conj MM (conj KF _)))). unfold s0. apply others_in. destruct IV as [A [B [D [E [F [G H]]]]]]. refine (conj _ (conj B (conj _ (conj _ (conj F (conj _ _)))))).
    + intro k. rewrite LF. apply A.
    + intro k. rewrite TF. apply D.
    + rewrite E, TO_. split; intros [k [X _]]; discriminate.
    + auto.
    + intro X. split; [apply H; exact X | apply CF; apply H; exact X].
Qed.
Lemma mode_step : forall c w cl m s v op, J c w cl m s -> J c w cl (set1 c m (SetMode v)) (fst (step c s (SetMode v) op)).
Proof.
  intros c w cl m s v op [O [M [MM [K IV]]]]. cbn [step]. unfold set_mode. rewrite M.
  assert (DO : forall x, (x = 0 \/ x = 1 \/ x = 2)%Z -> J c w cl x (fst (fst (if Z.eqb x m then ((s, []), true)
    else if Z.eqb x 0 then (then_ (then_ (tp_resume c op s SENDEVENTS) (fun s1 => tp_resume c op s1 EXTERNAL_MOUSE)) (fun s2 => (with_mode s2 x, [])), true)
    else if Z.eqb x 1 then (then_ (then_ (tp_suspend c s SENDEVENTS) (fun s1 => tp_resume c op s1 EXTERNAL_MOUSE)) (fun s2 => (with_mode s2 x, [])), true)
    else if Z.eqb x 2 then (then_ (then_ (if existsb mouse (others s) then tp_suspend c s EXTERNAL_MOUSE else (s, [])) (fun s1 => tp_resume c op s1 SENDEVENTS)) (fun s2 => (with_mode s2 x, [])), true)
    else ((s, []), false))))).
  { intros x HX. destruct (Z.eqb x m) eqn:XM; [apply Z.eqb_eq in XM; subst x; exact (conj O (conj M (conj MM (conj K IV)))) |]. destruct IV as [A [B [D [E [F [G H]]]]]].
    destruct HX as [-> | [-> | ->]]; cbn [Z.eqb Pos.eqb fst]; rewrite !fst_then; cbn [fst].
    - set (s1 := fst (tp_resume c op (fst (tp_resume c op s SENDEVENTS)) EXTERNAL_MOUSE)). assert (E1 : core s1 = with_reason (with_reason (core s) SENDEVENTS false) EXTERNAL_MOUSE false) by (unfold s1; rewrite !core_resume; reflexivity).
      refine (conj _ (conj eq_refl (conj (or_introl eq_refl) (conj K _)))); [change (others (core s1) = w); rewrite E1; exact O |].
      apply core_in. change (core (with_mode s1 0)) with (with_mode (core s1) 0). rewrite E1. refine (conj A (conj B (conj D (conj E (conj eq_refl (conj _ _)))))); cbn; discriminate.
    - set (s1 := fst (tp_resume c op (fst (tp_suspend c s SENDEVENTS)) EXTERNAL_MOUSE)). assert (E1 : core s1 = with_reason (with_reason (core s) SENDEVENTS true) EXTERNAL_MOUSE false) by (unfold s1; rewrite core_resume, core_suspend; reflexivity).
      refine (conj _ (conj eq_refl (conj (or_intror (or_introl eq_refl)) (conj K _)))); [change (others (core s1) = w); rewrite E1; exact O |].
      apply core_in. change (core (with_mode s1 1)) with (with_mode (core s1) 1). rewrite E1. refine (conj A (conj B (conj D (conj E (conj eq_refl (conj _ _)))))); cbn; discriminate.
    - rewrite O. set (s1 := fst (tp_resume c op _ SENDEVENTS)).
      assert (NM : r_mouse s = false) by (destruct (r_mouse s) eqn:R; auto; destruct (H eq_refl) as [X _]; rewrite M in X; rewrite X in XM; discriminate XM).
      assert (E1 : core s1 = with_reason (with_reason (core s) EXTERNAL_MOUSE (existsb mouse w)) SENDEVENTS false).
      { unfold s1. rewrite core_resume. f_equal. destruct (existsb mouse w); [apply core_suspend |]. cbn. unfold core, with_power, with_reason. cbn. rewrite NM. reflexivity. }
      refine (conj _ (conj eq_refl (conj (or_intror (or_intror eq_refl)) (conj K _)))); [change (others (core s1) = w); rewrite E1; exact O |].
      apply core_in. change (core (with_mode s1 2)) with (with_mode (core s1) 2). rewrite E1. refine (conj A (conj B (conj D (conj E (conj eq_refl (conj _ _)))))); cbn.
      + intros _ [d [X [Y _]]]. apply existsb_exists. exists d. auto.
      + intro X. split; [reflexivity |]. apply existsb_exists in X. exact X. }
  assert (SAME : J c w cl m s) by (exact (conj O (conj M (conj MM (conj K IV))))).
  assert (Z3 : forall x, (0 <= x)%Z -> Z.land 3 x = x -> (x = 0 \/ x = 1 \/ x = 2 \/ x = 3)%Z) by (intros x P X; pose proof (Z.land_ones x 2 ltac:(lia)) as L; change (Z.ones 2) with 3%Z in L; change (2 ^ 2)%Z with 4%Z in L; rewrite Z.land_comm in X; rewrite L in X; pose proof (Z.mod_pos_bound x 4 ltac:(lia)); lia).
  assert (Z1 : forall x, (0 <= x)%Z -> Z.land 1 x = x -> (x = 0 \/ x = 1)%Z) by (intros x P X; pose proof (Z.land_ones x 1 ltac:(lia)) as L; change (Z.ones 1) with 1%Z in L; change (2 ^ 1)%Z with 2%Z in L; rewrite Z.land_comm in X; rewrite L in X; pose proof (Z.mod_pos_bound x 2 ltac:(lia)); lia).
  assert (NN : forall k x, (0 <= k)%Z -> Z.land k x = x -> (0 <= x)%Z) by (intros k x P X; rewrite <- X; apply Z.land_nonneg; auto).
  unfold get_modes. cbn zeta. cbn [set1]. destruct (internal c) eqn:IN.
  - destruct (Z.eqb (Z.land 3 v) v) eqn:LV; cbn [negb].
    + apply Z.eqb_eq in LV. destruct (Z3 v (NN 3%Z v ltac:(lia) LV) LV) as [-> | [-> | [-> | ->]]].
      * apply (DO 0%Z). auto.
      * apply (DO 1%Z). auto.
      * apply (DO 2%Z). auto.
      * apply (DO 1%Z). auto.
    + cbn [fst]. destruct (Z.eqb v 0) eqn:V0; [apply Z.eqb_eq in V0; subst v; discriminate |]. destruct (Z.eqb v 1) eqn:V1; [apply Z.eqb_eq in V1; subst v; discriminate |].
      destruct (Z.eqb v 2) eqn:V2; [apply Z.eqb_eq in V2; subst v; discriminate |]. destruct (Z.eqb v 3) eqn:V3; [apply Z.eqb_eq in V3; subst v; discriminate |]. exact SAME.
  - rewrite !andb_false_r. destruct (Z.eqb (Z.land 1 v) v) eqn:LV; cbn [negb].
    + apply Z.eqb_eq in LV. destruct (Z1 v (NN 1%Z v ltac:(lia) LV) LV) as [-> | ->]; [apply (DO 0%Z) | apply (DO 1%Z)]; auto.
    + cbn [fst]. destruct (Z.eqb v 0) eqn:V0; [apply Z.eqb_eq in V0; subst v; discriminate |]. destruct (Z.eqb v 1) eqn:V1; [apply Z.eqb_eq in V1; subst v; discriminate |]. exact SAME.
Qed.
Lemma J_step : forall c w cl m s x op, ok w -> ok (after w x) -> allowed w x -> J c w cl m s -> J c (after w x) (closed1 cl x) (set1 c m x) (fst (step c s x op)).
Proof.
  intros c w cl m s x op K K' AL H. destruct x.
  - destruct AL as [A B]. apply plug_step; auto.
  - apply unplug_step; auto.
  - apply off_step; auto. apply K.
  - apply on_step; auto.
  - apply lid_step; auto.
  - apply tm_step; auto.
  - apply mode_step; auto.
Qed.
Lemma J_run : forall c h w cl m s, sane w (map fst h) -> J c w cl m s -> J c (fold_left after (map fst h) w) (fold_left closed1 (map fst h) cl) (fold_left (set1 c) (map fst h) m) (run c s h).
Proof.
  intros c h. induction h as [|[x o] h IH]; intros w cl m s SA H; [exact H |]. cbn in *. destruct SA as [A [B C]]. apply IH; [exact C |]. apply J_step; auto. destruct h as [|[y p] h]; cbn in C; [exact C | apply C].
Qed.
(** The start *)
Lemma meet_inv : forall c op l k s, ok (k ++ l) -> mode s = 0%Z -> Inv c (LI k) (TI k) (TO k) [] False False s -> mode (fold_left (meet c op) l s) = 0%Z /\ others (fold_left (meet c op) l s) = others s /\ Inv c (LI (k ++ l)) (TI (k ++ l)) (TO (k ++ l)) [] False False (fold_left (meet c op) l s).
Proof.
  intros c op l. induction l as [|d l IH]; intros k s K M IV; [rewrite app_nil_r; auto |]. cbn [fold_left].
  assert (KK : (k ++ [d]) ++ l = k ++ d :: l) by (rewrite <- app_assoc; reflexivity). destruct K as [ND [L1 T1]].
  assert (NW : forall e, In e k -> did e <> did d).
  { intros e E Q. rewrite map_app in ND. cbn in ND. apply NoDup_remove_2 in ND. apply ND. apply in_or_app. left. rewrite <- Q. apply in_map. exact E. }
  assert (ID : In d (k ++ d :: l)) by (apply in_or_app; right; left; reflexivity). assert (IK : forall e, In e k -> In e (k ++ d :: l)) by (intros; apply in_or_app; auto).
  set (s1 := fst (device_added c s d)). assert (E1 : core s1 = c_added c (core s) d) by apply core_added.
  assert (M1 : mode s1 = 0%Z) by (change (mode (core s1) = 0%Z); rewrite E1, added_mode; exact M). assert (O1 : others s1 = others s) by (change (others (core s1) = others s); rewrite E1, added_others; reflexivity).
  assert (I1 : Inv c (fun i => LI k i \/ (i = did d /\ lidsw d = true)) (fun i => TI k i \/ (i = did d /\ tmsw d = true)) (TO (k ++ [d])) [] (False \/ mouse d = true) (False \/ mouse d = true) s1).
  { apply core_in. rewrite E1. apply inv_added.
    - apply core_out. eapply inv_congr; [exact IV | | | | | |]; try tauto. intros i [e [A [B _]]]. rewrite TO_app. split; [auto |]. intros [X|[X _]]; auto. exfalso. apply (NW e A). congruence.
    - intros LS i [e [A [B [C _]]]]. apply (NW e A). apply L1; auto.
    - intros LS i [e [A [B [C _]]]]. apply (NW e A). apply T1; auto.
    - intros [].
    - rewrite TO_app. split; [intros [[e [A [B _]]]|[_ X]]; [destruct (NW e A B) | exact X] | auto]. }
  assert (R1 : r_mouse s1 = false) by (destruct (r_mouse s1) eqn:R; auto; destruct I1 as [_ [_ [_ [_ [_ [_ X]]]]]]; destruct (X R) as [Y _]; rewrite M1 in Y; discriminate).
  set (s2 := meet c op s d). assert (H2 : mode s2 = 0%Z /\ others s2 = others s /\ Inv c (LI (k ++ [d])) (TI (k ++ [d])) (TO (k ++ [d])) [] False False s2).
  { unfold s2, meet. cbn zeta. fold s1. destruct (off d) eqn:OD.
    - set (s3 := fst (device_removed c op s1 d)). assert (E3 : core s3 = c_removed (core s1) d) by apply core_removed.
      refine (conj _ (conj _ _)); [change (mode (core s3) = 0%Z); rewrite E3, removed_mode; exact M1 | change (others (core s3) = others s); rewrite E3, removed_others; exact O1 |].
      assert (M3 : mode s3 = 0%Z) by (change (mode (core s3) = 0%Z); rewrite E3, removed_mode; exact M1).
      assert (I3 : Inv c (fun i => (LI k i \/ (i = did d /\ lidsw d = true)) /\ i <> did d) (fun i => (TI k i \/ (i = did d /\ tmsw d = true)) /\ i <> did d) (TO (k ++ [d])) [] False (exists e, In e (others s1) /\ did e <> did d /\ mouse e = true) s3).
      { apply core_in. rewrite E3. change (@nil nat) with (remove Nat.eq_dec (did d) []). eapply inv_removed; [apply core_out; exact I1 | apply mouse_else | tauto | tauto]. }
      assert (R3 : r_mouse s3 = false) by (destruct (r_mouse s3) eqn:R; auto; destruct I3 as [_ [_ [_ [_ [_ [_ X]]]]]]; destruct (X R) as [Y _]; rewrite M3 in Y; discriminate).
      assert (I4 : Inv c (fun i => (LI k i \/ (i = did d /\ lidsw d = true)) /\ i <> did d) (fun i => (TI k i \/ (i = did d /\ tmsw d = true)) /\ i <> did d) (TO (k ++ [d])) [] False False s3).
      { destruct I3 as [A [B [D [E [F [G H]]]]]]. refine (conj A (conj B (conj D (conj E (conj F (conj G _)))))). rewrite R3. discriminate. }
      eapply inv_congr; [exact I4 | | | | | |]; try tauto.
      + intro i. rewrite LI_app, OD. split; [intros [[X|[X _]] Y]; [auto | contradiction] | intros [X|[_ [_ X]]]; [| discriminate]; split; [auto |]]. destruct X as [e [A [B _]]]. rewrite <- B. apply NW. exact A.
      + intro i. rewrite TI_app, OD. split; [intros [[X|[X _]] Y]; [auto | contradiction] | intros [X|[_ [_ X]]]; [| discriminate]; split; [auto |]]. destruct X as [e [A [B _]]]. rewrite <- B. apply NW. exact A.
    - refine (conj M1 (conj O1 _)).
      assert (I4 : Inv c (fun i => LI k i \/ (i = did d /\ lidsw d = true)) (fun i => TI k i \/ (i = did d /\ tmsw d = true)) (TO (k ++ [d])) [] False False s1).
      { destruct I1 as [A [B [D [E [F [G H]]]]]]. refine (conj A (conj B (conj D (conj E (conj F (conj _ _)))))); [intros _ [] |]. rewrite R1. discriminate. }
      eapply inv_congr; [exact I4 | | | | | |]; try tauto.
      + intro i. rewrite LI_app, OD. intuition.
      + intro i. rewrite TI_app, OD. intuition. }
  destruct H2 as [M2 [O2 I2]]. destruct (IH (k ++ [d]) s2) as [A [B C]]; [rewrite KK; exact (conj ND (conj L1 T1)) | exact M2 | exact I2 |]. rewrite KK in C. rewrite <- O2. auto.
Qed.
Lemma J_init : forall c op ds, ok ds -> J c ds [] 0 (init c op ds).
Proof.
  intros c op ds K. unfold init. destruct (meet_inv c op ds [] (init0 ds) K eq_refl) as [A [B C]].
  - refine (conj _ (conj _ (conj _ (conj _ (conj eq_refl (conj _ _)))))); cbn; try discriminate; intros; (split; [discriminate |]); [intros [_ [e [[] _]]] | intros [e [_ []]] | intros [_ [_ [e [[] _]]]] | intros [e [X _]]; discriminate].
  - refine (conj B (conj A (conj (or_introl eq_refl) (conj _ _)))); [intros i [] |]. destruct C as [A1 [B1 [D [E [F [G H]]]]]]. refine (conj A1 (conj B1 (conj D (conj E (conj F (conj _ _)))))); [intro X; rewrite A in X; discriminate | intro X; destruct (H X) as [_ []]].
Qed.
