Require Import Coq.ZArith.ZArith Coq.Lists.List Coq.Bool.Bool Coq.micromega.Lia.
Require Import Verif.Susp_Model Verif.Susp_Spec Verif.Susp_Proofs Verif.Susp_Proofs2.
Import ListNotations.

Definition LI (w : list dev) (i : nat) : Prop := exists d, In d w /\ did d = i /\ lidsw d = true /\ off d = false.
Definition TI (w : list dev) (i : nat) : Prop := exists d, In d w /\ did d = i /\ tmsw d = true /\ off d = false.
Definition TO (w : list dev) (i : nat) : Prop := exists d, In d w /\ did d = i /\ tmstate d = true.
Definition UM (w : list dev) : Prop := exists d, In d w /\ mouse d = true /\ off d = false.
Definition CM (w : list dev) : Prop := exists d, In d w /\ mouse d = true.
Lemma same_did : forall w d e, NoDup (map did w) -> In d w -> In e w -> did d = did e -> d = e.
Proof.
  induction w as [|x w IH]; intros d e N D E Q; [destruct D |]. cbn in N. inversion N as [|? ? N1 N2]. subst. destruct D as [->|D], E as [->|E]; auto.
  - exfalso. apply N1. rewrite Q. apply in_map. exact E.
  - exfalso. apply N1. rewrite <- Q. apply in_map. exact D.
Qed.
Lemma in_upd : forall i f w d, In d (upd i f w) <-> exists e, In e w /\ d = if Nat.eqb (did e) i then f e else e.
Proof. intros i f w d. unfold upd. rewrite in_map_iff. split; intros [e [A B]]; exists e; auto. Qed.
Lemma find_some_ : forall i w d, find_dev i w = Some d -> In d w /\ did d = i.
Proof. intros i w d H. apply find_some in H. destruct H as [A B]. apply Nat.eqb_eq in B. auto. Qed.
Lemma find_none_ : forall i w d, find_dev i w = None -> In d w -> did d <> i.
Proof. intros i w d H D E. apply (find_none _ _ H) in D. apply Nat.eqb_neq in D. contradiction. Qed.
Lemma LI_app : forall w d i, LI (w ++ [d]) i <-> LI w i \/ (i = did d /\ lidsw d = true /\ off d = false).
Proof. intros. unfold LI. split. - intros [e [A B]]. apply in_app_iff in A. destruct A as [A|[<-|[]]]; [left; exists e; auto | right; destruct B as [B1 B2]; auto]. - intros [[e [A B]]|[A B]]; [exists e; split; [apply in_or_app; auto | exact B] | exists d; split; [apply in_or_app; right; left; reflexivity | auto]]. Qed.
Lemma TI_app : forall w d i, TI (w ++ [d]) i <-> TI w i \/ (i = did d /\ tmsw d = true /\ off d = false).
Proof. intros. unfold TI. split. - intros [e [A B]]. apply in_app_iff in A. destruct A as [A|[<-|[]]]; [left; exists e; auto | right; destruct B as [B1 B2]; auto]. - intros [[e [A B]]|[A B]]; [exists e; split; [apply in_or_app; auto | exact B] | exists d; split; [apply in_or_app; right; left; reflexivity | auto]]. Qed.
Lemma TO_app : forall w d i, TO (w ++ [d]) i <-> TO w i \/ (i = did d /\ tmstate d = true).
Proof. intros. unfold TO. split. - intros [e [A B]]. apply in_app_iff in A. destruct A as [A|[<-|[]]]; [left; exists e; auto | right; destruct B as [B1 B2]; auto]. - intros [[e [A B]]|[A B]]; [exists e; split; [apply in_or_app; auto | exact B] | exists d; split; [apply in_or_app; right; left; reflexivity | auto]]. Qed.
Definition J (c : pad) (w : list dev) (cl : list nat) (m : Z) (s : state) : Prop :=
  others s = w /\ mode s = m /\ (m = 0 \/ m = 1 \/ m = 2)%Z /\ (forall i, In i cl -> LI w i) /\ Inv c (LI w) (TI w) (TO w) cl (UM w) (CM w) s.

Lemma plug_step : forall c w cl m s d op, ok (w ++ [d]) -> ~ In (did d) (map did w) -> off d = false -> J c w cl m s -> J c (w ++ [d]) cl m (fst (step c s (Plug d) op)).
Proof.
  intros c w cl m s d op [ND [L1 T1]] FR OFF [O [M [MM [K IV]]]].
  assert (NW : forall e, In e w -> did e <> did d) by (intros e E Q; apply FR; rewrite <- Q; apply in_map; exact E).
  assert (E : core (fst (step c s (Plug d) op)) = c_added c (core (with_others s (w ++ [d]))) d) by (cbn [step]; rewrite O; apply core_added).
  refine (conj _ (conj _ (conj MM (conj _ _)))).
  - change (others (core (fst (step c s (Plug d) op))) = w ++ [d]). rewrite E, added_others. reflexivity.
  - change (mode (core (fst (step c s (Plug d) op))) = m). rewrite E, added_mode. exact M.
  - intros i H. apply LI_app. left. apply K. exact H.
  - apply core_in. rewrite E.
    assert (I0 : Inv c (LI w) (TI w) (TO (w ++ [d])) cl (UM w) (CM w) (core (with_others s (w ++ [d])))).
    { apply core_out. apply others_in. eapply inv_congr; [exact IV | | | | | |]; try tauto. intros i [e [E1 [E2 _]]]. rewrite TO_app. split; [auto |]. intros [X|[X _]]; auto. exfalso. apply (NW e E1). congruence. }
    assert (I1 : Inv c (fun i => LI w i \/ i = did d /\ lidsw d = true) (fun i => TI w i \/ i = did d /\ tmsw d = true) (TO (w ++ [d])) cl (UM w \/ mouse d = true) (CM w \/ mouse d = true) (c_added c (core (with_others s (w ++ [d]))) d)).
    { apply inv_added; auto.
      - intros LS i [e [E1 [E2 [E3 _]]]]. apply (NW e E1). apply L1; auto; apply in_or_app; [left | right; left]; auto.
      - intros LS i [e [E1 [E2 [E3 _]]]]. apply (NW e E1). apply T1; auto; apply in_or_app; [left | right; left]; auto.
      - intro X. destruct (K _ X) as [e [E1 [E2 _]]]. apply (NW e E1 E2).
      - rewrite TO_app. split; [intros [[e [E1 [E2 _]]]|[_ X]]; [destruct (NW e E1 E2) | exact X] | auto]. }
    eapply inv_congr; [exact I1 | | | | | |]; try tauto.
    + intro i. rewrite LI_app, OFF. intuition.
    + intro i. rewrite TI_app, OFF. intuition.
    + intros [e [E1 E2]]. apply in_app_iff in E1. destruct E1 as [E1|[<-|[]]]; [left; exists e; auto | right; apply E2].
    + intros [[e [E1 E2]]|X]; [exists e; split; [apply in_or_app; auto | exact E2] | exists d; split; [apply in_or_app; right; left; reflexivity | exact X]].
Qed.
Lemma mouse_else : forall w i, existsb (fun e => negb (Nat.eqb (did e) i) && mouse e) w = true <-> exists e, In e w /\ did e <> i /\ mouse e = true.
Proof.
  intros w i. rewrite existsb_exists. split; intros [e [A B]]; exists e; split; auto.
  - apply andb_true_iff in B. destruct B as [B C]. apply negb_true_iff, Nat.eqb_neq in B. auto.
  - apply andb_true_iff. rewrite negb_true_iff, Nat.eqb_neq. exact B.
Qed.
Lemma gone : forall c w cl s d, others s = w -> Inv c (LI w) (TI w) (TO w) cl (UM w) (CM w) s ->
  Inv c (fun i => LI w i /\ i <> did d) (fun i => TI w i /\ i <> did d) (TO w) (remove Nat.eq_dec (did d) cl) (exists e, In e w /\ did e <> did d /\ mouse e = true /\ off e = false) (exists e, In e w /\ did e <> did d /\ mouse e = true) (c_removed s d).
Proof.
  intros c w cl s d O IV. eapply inv_removed; [exact IV | rewrite O; apply mouse_else | |].
  - intros [e [A [_ B]]]. exists e. auto.
  - intros [e [A [B [C _]]]]. exists e. auto.
Qed.
Lemma unplug_step : forall c w cl m s i op, J c w cl m s -> J c (after w (Unplug i)) (remove Nat.eq_dec i cl) m (fst (step c s (Unplug i) op)).
Proof.
  intros c w cl m s i op [O [M [MM [K IV]]]]. cbn [after step].
  assert (FL : forall e, In e (filter (fun d => negb (Nat.eqb (did d) i)) w) <-> In e w /\ did e <> i) by (intro e; rewrite filter_In, negb_true_iff, Nat.eqb_neq; reflexivity).
  assert (LF : forall k, LI (filter (fun d => negb (Nat.eqb (did d) i)) w) k <-> LI w k /\ k <> i).
  { intro k. split; [intros [e [A B]]; apply FL in A; destruct A as [A1 A2]; destruct B as [B1 B2]; split; [exists e; auto | congruence] | intros [[e [A [B C]]] D]; exists e; split; [apply FL; split; [exact A | congruence] | auto]]. }
  assert (TF : forall k, TI (filter (fun d => negb (Nat.eqb (did d) i)) w) k <-> TI w k /\ k <> i).
  { intro k. split; [intros [e [A B]]; apply FL in A; destruct A as [A1 A2]; destruct B as [B1 B2]; split; [exists e; auto | congruence] | intros [[e [A [B C]]] D]; exists e; split; [apply FL; split; [exact A | congruence] | auto]]. }
  assert (KF : forall k, In k (remove Nat.eq_dec i cl) -> LI (filter (fun d => negb (Nat.eqb (did d) i)) w) k) by (intros k X; apply in_remove in X; apply LF; split; [apply K |]; apply X).
  rewrite O. destruct (find_dev i w) as [d|] eqn:FD.
  - destruct (find_some_ _ _ _ FD) as [DW DI]. rewrite !fst_then. cbn [fst].
    set (s1 := fst (device_removed c op s d)). assert (E1 : core s1 = c_removed (core s) d) by apply core_removed.
    assert (G1 : Inv c (fun k => LI w k /\ k <> did d) (fun k => TI w k /\ k <> did d) (TO w) (remove Nat.eq_dec (did d) cl) (exists e, In e w /\ did e <> did d /\ mouse e = true /\ off e = false) (exists e, In e w /\ did e <> did d /\ mouse e = true) s1).
    { apply core_in. rewrite E1. apply gone; [exact O |]. apply core_out. exact IV. }
    assert (O1 : others s1 = w) by (change (others (core s1) = w); rewrite E1, removed_others; exact O).
    assert (M1 : mode s1 = m) by (change (mode (core s1) = m); rewrite E1, removed_mode; exact M).
    set (s2 := fst (if off d then _ else _)).
    assert (H2 : others s2 = w /\ mode s2 = m /\ Inv c (fun k => LI w k /\ k <> did d) (fun k => TI w k /\ k <> did d) (TO w) (remove Nat.eq_dec (did d) cl) (exists e, In e w /\ did e <> did d /\ mouse e = true /\ off e = false) (exists e, In e w /\ did e <> did d /\ mouse e = true) s2).
    { unfold s2. destruct (off d); [cbn; auto |]. assert (E2 : core (fst (device_removed c op s1 d)) = c_removed (core s1) d) by apply core_removed. refine (conj _ (conj _ _)).
      - change (others (core (fst (device_removed c op s1 d))) = w). rewrite E2, removed_others. exact O1.
      - change (mode (core (fst (device_removed c op s1 d))) = m). rewrite E2, removed_mode. exact M1.
      - apply core_in. rewrite E2. eapply inv_congr; [eapply inv_removed with (U' := exists e, In e w /\ did e <> did d /\ mouse e = true /\ off e = false) (C' := exists e, In e w /\ did e <> did d /\ mouse e = true); [apply core_out; exact G1 | change (others (core s1)) with (others s1); rewrite O1; apply mouse_else | auto |] | | | | | |]; cbn beta; try tauto.
        + intros [e [A [B [C _]]]]. exists e. auto.
        + intros k [_ X]. split; [intro Y; apply in_remove in Y; apply Y | intro Y; apply in_in_remove; auto]. }
    destruct H2 as [O2 [M2 G2]]. refine (conj _ (conj M2 (conj MM (conj KF _)))); [cbn; rewrite O2; reflexivity |]. apply others_in. rewrite DI in G2. eapply inv_congr; [exact G2 | | | | | |].
    + intro k. rewrite LF. reflexivity.
    + intro k. rewrite TF. reflexivity.
    + intros k [_ X]. split; intros [e [A [B C]]]; exists e; (split; [| auto]); [apply FL; split; [exact A | congruence] | apply FL in A; apply A].
    + tauto.
    + intros [e [A B]]. apply FL in A. exists e. split; [apply A | split; [apply A | apply B]].
    + intros [e [A [B C]]]. exists e. split; [apply FL; auto | exact C].
  - assert (FW : filter (fun d => negb (Nat.eqb (did d) i)) w = w).
    { assert (X : forall d, In d w -> did d <> i) by (intros d; apply find_none_; exact FD). clear -X. induction w as [|a w IH]; [reflexivity |]. cbn. replace (Nat.eqb (did a) i) with false by (symmetry; apply Nat.eqb_neq; apply X; left; reflexivity). cbn. f_equal. apply IH. intros d D. apply X. right. exact D. }
    rewrite FW in *. refine (conj O (conj M (conj MM (conj KF _)))). eapply inv_congr; [exact IV | | | | | |]; try tauto. intros k X. apply LF in X. split; [intro Y; apply in_in_remove; [apply X | exact Y] | intro Y; apply in_remove in Y; apply Y].
Qed.
Lemma off_step : forall c w cl m s i op, J c w cl m s -> NoDup (map did w) -> J c (after w (Off i)) (remove Nat.eq_dec i cl) m (fst (step c s (Off i) op)).
Proof.
  intros c w cl m s i op [O [M [MM [K IV]]]] ND. cbn [after step].
  assert (LF : forall k, LI (upd i (enabled false) w) k <-> LI w k /\ k <> i).
  { intro k. split.
    - intros [e [A [B [C D]]]]. apply in_upd in A. destruct A as [x [X Y]]. destruct (Nat.eqb (did x) i) eqn:Q; subst e; [discriminate D |]. apply Nat.eqb_neq in Q. split; [exists x; auto | congruence].
    - intros [[e [A [B [C D]]]] E]. exists e. split; [| auto]. apply in_upd. exists e. split; [exact A |]. replace (Nat.eqb (did e) i) with false by (symmetry; apply Nat.eqb_neq; congruence). reflexivity. }
  assert (TF : forall k, TI (upd i (enabled false) w) k <-> TI w k /\ k <> i).
  { intro k. split.
    - intros [e [A [B [C D]]]]. apply in_upd in A. destruct A as [x [X Y]]. destruct (Nat.eqb (did x) i) eqn:Q; subst e; [discriminate D |]. apply Nat.eqb_neq in Q. split; [exists x; auto | congruence].
    - intros [[e [A [B [C D]]]] E]. exists e. split; [| auto]. apply in_upd. exists e. split; [exact A |]. replace (Nat.eqb (did e) i) with false by (symmetry; apply Nat.eqb_neq; congruence). reflexivity. }
  assert (SF : forall k, TO (upd i (enabled false) w) k <-> TO w k).
  { intro k. split.
    - intros [e [A [B C]]]. apply in_upd in A. destruct A as [x [X Y]]. exists x. destruct (Nat.eqb (did x) i); subst e; auto.
    - intros [e [A [B C]]]. exists (if Nat.eqb (did e) i then enabled false e else e). split; [apply in_upd; exists e; auto |]. destruct (Nat.eqb (did e) i); auto. }
  assert (KF : forall k, In k (remove Nat.eq_dec i cl) -> LI (upd i (enabled false) w) k) by (intros k X; apply in_remove in X; apply LF; split; [apply K |]; apply X).
  assert (UF : UM (upd i (enabled false) w) -> exists e, In e w /\ did e <> i /\ mouse e = true /\ off e = false).
  { intros [e [A [B C]]]. apply in_upd in A. destruct A as [x [X Y]]. destruct (Nat.eqb (did x) i) eqn:Q; subst e; [discriminate C |]. apply Nat.eqb_neq in Q. exists x. auto. }
  assert (CF : CM w -> CM (upd i (enabled false) w)).
  { intros [e [A B]]. exists (if Nat.eqb (did e) i then enabled false e else e). split; [apply in_upd; exists e; auto |]. destruct (Nat.eqb (did e) i); auto. }
  rewrite O. destruct (find_dev i w) as [d|] eqn:FD.
  - destruct (find_some_ _ _ _ FD) as [DW DI]. destruct (off d) eqn:OD.
    + assert (UW : upd i (enabled false) w = w).
      { assert (X : forall e, In e w -> did e = i -> enabled false e = e) by (intros e E Q; assert (e = d) by (apply (same_did w); auto; congruence); subst e; unfold enabled; cbn; rewrite <- OD; destruct d; reflexivity).
        clear -X. unfold upd. induction w as [|a w IH]; [reflexivity |]. cbn. rewrite IH by (intros e E; apply X; right; exact E). destruct (Nat.eqb (did a) i) eqn:Q; [| reflexivity]. apply Nat.eqb_eq in Q. rewrite X; auto. left. reflexivity. }
      rewrite UW in *. refine (conj O (conj M (conj MM (conj KF _)))). eapply inv_congr; [exact IV | | | | | |]; try tauto. intros k X. apply LF in X. split; [intro Y; apply in_in_remove; [apply X | exact Y] | intro Y; apply in_remove in Y; apply Y].
    + rewrite fst_then. cbn [fst]. set (s1 := fst (device_removed c op s d)). assert (E1 : core s1 = c_removed (core s) d) by apply core_removed.
      assert (O1 : others s1 = w) by (change (others (core s1) = w); rewrite E1, removed_others; exact O).
      assert (M1 : mode s1 = m) by (change (mode (core s1) = m); rewrite E1, removed_mode; exact M).
      refine (conj _ (conj M1 (conj MM (conj KF _)))); [cbn; rewrite O1; unfold set_off, upd, enabled; reflexivity |]. apply others_in. apply core_in. rewrite E1.
      eapply inv_congr; [apply (gone c w cl (core s) d O); apply core_out; exact IV | | | | | |]; cbn beta.
      * intro k. rewrite LF, DI. reflexivity.
      * intro k. rewrite TF, DI. reflexivity.
      * intros k _. rewrite SF. reflexivity.
      * rewrite DI. tauto.
      * rewrite DI. exact UF.
      * intros [e [A [_ B]]]. apply CF. exists e. auto.
  - assert (UW : upd i (enabled false) w = w).
    { assert (X : forall d, In d w -> did d <> i) by (intros d; apply find_none_; exact FD). clear -X. unfold upd. induction w as [|a w IH]; [reflexivity |]. cbn. rewrite IH by (intros e E; apply X; right; exact E). replace (Nat.eqb (did a) i) with false by (symmetry; apply Nat.eqb_neq; apply X; left; reflexivity). reflexivity. }
    rewrite UW in *. refine (conj O (conj M (conj MM (conj KF _)))). eapply inv_congr; [exact IV | | | | | |]; try tauto. intros k X. apply LF in X. split; [intro Y; apply in_in_remove; [apply X | exact Y] | intro Y; apply in_remove in Y; apply Y].
Qed.
