(** Invariant of the whole pipeline over legal histories. *)
Require Import Coq.ZArith.ZArith Coq.Lists.List Coq.Bool.Bool Coq.micromega.Lia Coq.Logic.FinFun.
Require Verif.Debounce_Model Verif.Debounce_Spec Verif.Debounce_Proofs.
Require Verif.MiddleButton_Model Verif.MiddleButton_Spec Verif.MiddleButton_Proofs Verif.MiddleButton_Proofs2 Verif.Scroll_Model.
Require Import Verif.Keys_Model Verif.Pipeline_Model Verif.Pipeline_Spec Verif.Pipeline_Proofs Verif.Pipeline_Proofs2.
Import ListNotations.
Open Scope Z_scope.
Local Arguments Z.eqb : simpl never.
Local Arguments Z.add : simpl never.
Local Arguments Z.leb : simpl never.
Local Arguments Z.ltb : simpl never.

Lemma mouse_range : forall c, mouse_button c -> MiddleButton_Model.BTN_LEFT <= c < MiddleButton_Model.BTN_LEFT + 32.
Proof. unfold mouse_button, MiddleButton_Model.BTN_LEFT. lia. Qed.

Lemma physical_ok : forall any s rep c t p,
  PREL s rep -> mouse_button c -> p = negb (rep c) -> (c = 274 -> ~ shared s) -> (shared s -> rep 274 = false) ->
  (quietc any s \/ allup (upd rep c p)) ->
  POK any s (upd rep c p) (physical_button any s t (to_left_handed (s_left s) c) p).
Proof.
  intros any s rep c t p (dc & Hl & Hr & HI & HS) Hc Hp H274 Hsh Hq.
  unfold physical_button.
  set (c' := to_left_handed (s_left s) c).
  assert (Hc' : mouse_button c') by (apply lh_mouse; auto).
  assert (Hp' : p = negb (mapped s rep c')).
  { unfold mapped, c'. rewrite lh_inv. auto. }
  destruct (MiddleButton_Model.physical_button (s_mb s) t c' p) as [m' l] eqn:E.
  assert (E' : MiddleButton_Model.mstep (s_mb s) (MiddleButton_Model.Button c' t p) = (m', l)) by exact E.
  assert (Hrep : forall x, MiddleButton_Spec.hw_step (mapped s rep) (MiddleButton_Model.Button c' t p) x = mapped s (upd rep c p) x).
  { intros x. cbn [MiddleButton_Spec.hw_step]. unfold mapped, upd.
    destruct (Z.eqb_spec x c') as [Hx|Hx]; destruct (Z.eqb_spec (to_left_handed (s_left s) x) c) as [E1|E1]; auto.
    - exfalso. apply E1. rewrite Hx. unfold c'. apply lh_inv.
    - exfalso. apply Hx. unfold c'. rewrite <- E1. symmetry. apply lh_inv. }
  eapply mb_stage with (rep := rep) (o := MiddleButton_Model.Button c' t p) (dc := dc) (Hl := Hl) (Hr := Hr); eauto.
  - discriminate.
  - intros t0 c0 p0 Eo. inversion Eo; subst. split; auto. intros E2. apply H274.
    unfold c' in E2. apply (lh_middle (s_left s)). exact E2.
  - rewrite Hp'. apply MiddleButton_Proofs.step_button; auto. apply mouse_range; auto.
  - destruct Hq as [Hq|Hq]; auto. right; left. split; auto.
    pose proof (allup_last (mapped s rep) dc Hl Hr (s_mb s) c' t HI (mouse_range _ Hc')) as AL.
    rewrite <- Hp', E' in AL. apply AL. intros x. rewrite Hrep. apply Hq.
Qed.

Lemma middle_timer_ok : forall any s rep now m' l,
  MiddleButton_Model.timeout (s_mb s) now = (m', l) ->
  PREL s rep -> MiddleButton_Model.m_timer (s_mb s) <> None -> (shared s -> rep 274 = false) ->
  POK any s rep (deliver any (set_mb s m') l).
Proof.
  intros any s rep now m' l E (dc & Hl & Hr & HI & HS) Ht Hsh.
  eapply mb_stage with (rep := rep) (o := MiddleButton_Model.Timeout now) (dc := dc) (Hl := Hl) (Hr := Hr); eauto;
    try discriminate.
  - apply MiddleButton_Proofs.step_timeout; auto.
  - right; right. intros c t p H. eapply (timeout_presses (s_mb s) now). rewrite E. exact H.
Qed.

Lemma POK_dead : forall any s rep r, POK any s rep r -> s_dead (fst r) = false.
Proof. intros any s rep r ((dc & Hl & Hr & _ & (_ & _ & _ & _ & D)) & _). exact D. Qed.

Lemma from_debounce_ok : forall l any s rep,
  PREL s rep -> Debounce_Proofs.tog rep l -> Debounce_Proofs.nobug l ->
  (forall c t p, In (Debounce_Model.Notify c t p) l -> mouse_button c /\ (c = 274 -> ~ shared s)) ->
  (shared s -> rep 274 = false) ->
  (quietc any s \/ l = [] \/ (length l = 1%nat /\ allup (Debounce_Proofs.em_after rep l))) ->
  POK any s (Debounce_Proofs.em_after rep l) (from_debounce any s l).
Proof.
  induction l as [|[c t p|] l IH]; intros any s rep HP HT HB HC Hsh Hq.
  - cbn [from_debounce Debounce_Proofs.em_after]. unfold POK. cbn [fst snd gd va].
    split; auto. split; auto. split; auto. split; auto. split; auto. split; auto. intros _ (? & ? & []).
  - cbn [from_debounce]. destruct HT as [HT1 HT2]. cbn [Debounce_Proofs.nobug] in HB.
    destruct (HC c t p (or_introl eq_refl)) as [Hc1 Hc2].
    assert (N : POK any s (upd rep c p) (physical_button any s t (to_left_handed (s_left s) c) p)).
    { apply physical_ok; auto.
      - rewrite HT1, negb_involutive. auto.
      - destruct Hq as [Hq|[Hq|[Hq1 Hq2]]]; auto; [discriminate|].
        destruct l; [|discriminate]. right. exact Hq2. }
    destruct (physical_button any s t (to_left_handed (s_left s) c) p) as [s1 o1].
    pose proof (POK_dead _ _ _ _ N) as D. cbn [fst] in D. unfold andthen. rewrite D.
    destruct N as (N1 & N2 & N3 & N4 & N5 & N6 & N7). cbn [fst snd] in *.
    destruct Hq as [Hq|[Hq|[Hq1 Hq2]]]; [|discriminate|].
    + assert (Hcfg : cfg s1 = cfg s).
      { destruct N5 as [N5|(N5 & N5' & _)]; auto. destruct Hq as [Hq|Hq]; [congruence|]. unfold nopend in *. congruence. }
      assert (Hshare : shared s1 -> shared s).
      { intros (S1 & S2 & S3). unfold cfg in Hcfg. inversion Hcfg. unfold shared. repeat split; auto; congruence. }
      assert (R : POK any s1 (Debounce_Proofs.em_after (upd rep c p) l) (from_debounce any s1 l)).
      { apply IH; auto.
        - intros c0 t0 p0 H. destruct (HC c0 t0 p0 (or_intror H)) as [U1 U2]. split; [exact U1|]. intros E0 S0. apply (U2 E0). auto.
        - intros S1. specialize (Hshare S1). unfold upd. destruct (Z.eqb_spec 274 c) as [<-|]; [exfalso; apply Hc2; auto|auto].
        - left. destruct Hq as [Hq|Hq]; [left; auto|right; unfold nopend in *; congruence]. }
      destruct (from_debounce any s1 l) as [s2 o2].
      destruct R as (R1 & R2 & R3 & R4 & R5 & R6 & R7). cbn [fst snd] in *.
      unfold POK. cbn [fst snd]. split; auto. split.
      { rewrite gd_app. split; auto. eapply gd_ext; [|exact R2]. intros; symmetry; auto. }
      split; [intros x; rewrite va_app, <- R3; apply va_ext; auto|].
      split; [congruence|]. split.
      { destruct R5 as [R5|R5]; [left; congruence|right; auto]. }
      split.
      { intros Ha (t0 & c0 & H). apply in_app_or in H. destruct H as [H|H].
        - assert (nopend s1) by (apply N6; eauto). destruct R5 as [R5|(_ & R5 & _)]; auto. unfold nopend in *; congruence.
        - apply R6; eauto. }
      auto.
    + destruct l; [|discriminate]. cbn [from_debounce Debounce_Proofs.em_after]. rewrite app_nil_r.
      unfold POK. cbn [fst snd]. repeat (split; auto).
  - cbn in HB. contradiction.
Qed.

(** The frame handed to the debouncer. *)
Definition in_range (f : Z -> bool) : Prop := forall c, f c = true -> mouse_button c.

Lemma filter_none : forall A (f : A -> bool) l, (forall x, In x l -> f x = false) -> filter f l = [].
Proof.
  induction l as [|a l IH]; intros H; auto. cbn. rewrite (H a (or_introl eq_refl)). apply IH. intros; apply H; right; auto.
Qed.
Lemma in_mouse : forall c, In c mouse_buttons <-> mouse_button c.
Proof.
  intros c. unfold mouse_buttons, mouse_button. rewrite in_map_iff. split.
  - intros (n & <- & H). apply in_seq in H. lia.
  - intros H. exists (Z.to_nat c). rewrite Z2Nat.id by lia. split; auto. apply in_seq. lia.
Qed.
Lemma is_button_mouse : forall c, In c mouse_buttons -> is_button c = true.
Proof.
  assert (H : forallb is_button mouse_buttons = true) by reflexivity.
  rewrite forallb_forall in H. exact H.
Qed.
Lemma all_codes_split : all_codes = map Z.of_nat (seq 0 272) ++ mouse_buttons ++ map Z.of_nat (seq 288 480).
Proof. vm_compute. reflexivity. Qed.
Lemma nodup_mouse : NoDup mouse_buttons.
Proof.
  unfold mouse_buttons. apply FinFun.Injective_map_NoDup; [|apply seq_NoDup]. intros a b. apply Nat2Z.inj.
Qed.
Lemma filter_split : forall A (f : A -> bool) l1 l2 l3, (forall x, In x l1 -> f x = false) -> (forall x, In x l3 -> f x = false) ->
  filter f (l1 ++ l2 ++ l3) = filter f l2.
Proof.
  intros A f l1 l2 l3 H1 H3. rewrite !filter_app, (filter_none _ _ l1), (filter_none _ _ l3) by auto. cbn [app]. apply app_nil_r.
Qed.
Lemma filter_codes : forall f, (forall x, ~ mouse_button x -> f x = false) -> filter f all_codes = filter f mouse_buttons.
Proof.
  intros f N. rewrite all_codes_split. apply filter_split; intros x Hx; apply N; apply in_map_iff in Hx; destruct Hx as (n & <- & Hn);
    apply in_seq in Hn; unfold mouse_button; lia.
Qed.
Local Opaque all_codes mouse_buttons.
Lemma changed_moved : forall p, in_range (p_hw p) -> in_range (p_last p) ->
  changed p = map (fun c => (c, p_hw p c)) (moved p).
Proof.
  intros p H1 H2. unfold changed. apply f_equal. rewrite filter_codes.
  - apply filter_ext_in. intros c Hc. rewrite is_button_mouse; auto.
  - intros x Hx. destruct (p_hw p x) eqn:A; [exfalso; apply Hx; auto|].
    destruct (p_last p x) eqn:B; [exfalso; apply Hx; auto|]. cbn. apply andb_false_r.
Qed.
Lemma moved_frame_ok : forall p, Debounce_Spec.frame_ok (p_last p) (map (fun c => (c, p_hw p c)) (moved p)).
Proof.
  intros p. unfold Debounce_Spec.frame_ok. rewrite map_map. cbn [fst].
  rewrite map_id. unfold moved. split; [apply NoDup_filter, nodup_mouse|].
  split.
  - rewrite map_length. etransitivity; [apply NoDup_incl_length with (l' := mouse_buttons)|vm_compute; auto].
    + apply NoDup_filter, nodup_mouse.
    + intros x Hx. apply filter_In in Hx. tauto.
  - intros c b H. apply in_map_iff in H. destruct H as (x & E & H). inversion E; subst.
    apply filter_In in H. destruct H as [_ H]. destruct (p_hw p c), (p_last p c); auto; discriminate.
Qed.
Lemma press_hw_moved : forall (hw : Z -> bool) l f c,
  Debounce_Spec.press_hw f (map (fun c => (c, hw c)) l) c = if existsb (Z.eqb c) l then hw c else f c.
Proof.
  intros hw. induction l as [|x l IH] using rev_ind; intros f c; auto.
  rewrite map_app. unfold Debounce_Spec.press_hw in *. rewrite fold_left_app. cbn [map fold_left fst snd].
  rewrite existsb_app. cbn [existsb]. rewrite orb_false_r. destruct (Z.eqb_spec c x) as [->|Hn].
  - rewrite orb_true_r. auto.
  - rewrite orb_false_r. apply IH.
Qed.
Lemma press_moved : forall p c, in_range (p_hw p) -> in_range (p_last p) ->
  Debounce_Spec.press_hw (p_last p) (map (fun c => (c, p_hw p c)) (moved p)) c = p_hw p c.
Proof.
  intros p c H1 H2. rewrite press_hw_moved. destruct (existsb (Z.eqb c) (moved p)) eqn:E; auto.
  destruct (Bool.eqb (p_hw p c) (p_last p c)) eqn:F; [apply eqb_prop in F; auto|].
  exfalso. assert (T : existsb (Z.eqb c) (moved p) = true); [|congruence].
  apply existsb_exists. exists c. split; [|apply Z.eqb_refl]. unfold moved. apply filter_In. rewrite F. split; auto.
  apply in_mouse. destruct (p_hw p c) eqn:A; [apply H1; auto|]. destruct (p_last p c) eqn:B; [apply H2; auto|discriminate].
Qed.

Definition any_down (p : ps) := any_button_down (p_hw p).
Lemma any_false : forall p, in_range (p_hw p) -> any_down p = false -> allup (p_hw p).
Proof.
  intros p H E c. destruct (p_hw p c) eqn:F; auto. exfalso.
  assert (T : any_down p = true); [|congruence].
  unfold any_down, any_button_down. apply existsb_exists. exists c. split; auto. apply in_mouse. auto.
Qed.

(** The invariant. *)
Definition PINV (now : Z) (p : ps) (v : Z -> bool) : Prop :=
  exists rep lt,
    Debounce_Proofs.GInv (p_deb p) (p_last p) rep now lt /\
    in_range (p_hw p) /\ in_range (p_last p) /\ in_range rep /\
    PREL (p_ds p) rep /\
    (shared (p_ds p) -> p_hw p 274 = false /\ p_last p 274 = false /\ rep 274 = false) /\
    (p_key p = false -> forall c, p_hw p c = p_last p c) /\
    (forall c, v c = vw (p_ds p) c).

Lemma GInv_now : forall d hw em now now' lt, now <= now' ->
  Debounce_Proofs.GInv d hw em now lt -> Debounce_Proofs.GInv d hw em now' lt.
Proof.
  intros d hw em now now' lt H (A & B & C & D). split; auto. split; [eapply Debounce_Proofs.TInv_weaken; eauto|].
  split; [lia|]. intros P. specialize (D P). lia.
Qed.
Lemma GInv_ext : forall d hw hw' em now lt, (forall c, hw c = hw' c) ->
  Debounce_Proofs.GInv d hw em now lt -> Debounce_Proofs.GInv d hw' em now lt.
Proof.
  intros d hw hw' em now lt H (A & B & C). split; auto. eapply Debounce_Proofs.Inv_ext; [| |exact A]; auto.
Qed.

(** How configuration evolves in one step. *)
Definition cfg_step (p p' : ps) (l : list pout) : Prop :=
  (cfg (p_ds p') = cfg (p_ds p) \/ ((forall c, p_hw p' c = false) /\ forall c, vw (p_ds p') c = false)) /\
  ((forall c, p_hw p' c = false) -> (exists t c, In (PButton t c false) l) -> nopend (p_ds p')).

Definition STEP (now : Z) (p : ps) (v : Z -> bool) (o : pop) : Prop :=
  let r := pstep p o in
  PINV (op_time now o) (fst r) (va v (snd r)) /\ gd v (snd r) /\ cfg_step p (fst r) (snd r).

Lemma PINV_dead : forall now p v, PINV now p v -> s_dead (p_ds p) = false.
Proof. intros now p v (rep & lt & _ & _ & _ & _ & (dc & Hl & Hr & _ & (_ & _ & _ & _ & D)) & _). exact D. Qed.

Lemma any_allup : forall hw, (forall c, hw c = false) -> any_button_down hw = false.
Proof.
  intros hw H. unfold any_button_down. destruct (existsb hw mouse_buttons) eqn:E; auto.
  apply existsb_exists in E. destruct E as (x & _ & E). rewrite H in E. discriminate.
Qed.

Lemma from_POK : forall now p v rep' lt' d' last' key' rel' any r,
  POK any (p_ds p) rep' r -> any = any_down p -> in_range (p_hw p) ->
  (forall c, v c = vw (p_ds p) c) ->
  Debounce_Proofs.GInv d' last' rep' now lt' ->
  in_range last' -> in_range rep' ->
  (forall c, p_hw p c = last' c) ->
  (shared (p_ds p) -> p_hw p 274 = false /\ rep' 274 = false) ->
  let p' := mkPS (p_hw p) last' key' rel' d' (fst r) in
  PINV now p' (va v (snd r)) /\ gd v (snd r) /\ cfg_step p p' (snd r).
Proof.
  intros now p v rep' lt' d' last' key' rel' any r (R1 & R2 & R3 & R4 & R5 & R6 & R7) -> Hr1 Hv HG Hr2 Hr3 Hk Hsh p'.
  assert (Hup : cfg (fst r) = cfg (p_ds p) \/ ((forall c, p_hw p c = false) /\ forall c, vw (fst r) c = false)).
  { destruct R5 as [R5|(R5 & R5' & R5'')]; auto. right. split; [apply any_false; auto|].
    intros c. unfold vw. rewrite (PREL_up _ _ R1 R5''). reflexivity. }
  split.
  - exists rep', lt'. cbn [p' p_deb p_last p_hw p_ds p_key]. split; auto. split; auto. split; auto. split; auto. split; auto.
    split.
    { intros (S1 & S2 & S3). destruct R5 as [R5|(R5 & R5' & R5'')].
      - destruct Hsh as [H1 H2]; [unfold shared, cfg in *; inversion R5; repeat split; auto; congruence|].
        rewrite <- Hk. auto.
      - pose proof (any_false p Hr1 R5) as A. rewrite <- Hk. rewrite (A 274), (R5'' 274). auto. }
    split; auto. intros c. rewrite <- R3. apply va_ext. auto.
  - split; [eapply gd_ext; [|exact R2]; auto|].
    split; cbn [p' p_hw p_ds]; auto.
    intros Hall He. apply R6; auto. unfold any_down. apply any_allup; auto.
Qed.

(** An operation that leaves counts, emulation and configuration alone. *)
Lemma quiet_step : forall now now' p p' v l,
  PINV now p v -> now <= now' -> (forall c, p_hw p' c = p_hw p c) -> p_last p' = p_last p -> p_deb p' = p_deb p ->
  (p_key p' = false -> p_key p = false) ->
  (exists s', p_ds p' = s' /\ (forall rep, PREL (p_ds p) rep -> PREL s' rep) /\ s_cnt s' = s_cnt (p_ds p) /\
     (shared s' -> shared (p_ds p)) /\ cfg s' = cfg (p_ds p)) ->
  gd v l -> va v l = v -> (forall t c, ~ In (PButton t c false) l) ->
  PINV now' p' (va v l) /\ gd v l /\ cfg_step p p' l.
Proof.
  intros now now' p p' v l (rep & lt & HG & R1 & R2 & R3 & HP & HJ & HK & HV) Hn Ehw El Ed Ek (s' & Es & EP & Ec & Esh & Ecfg) Hg Hva Hno.
  split; [|split; auto].
  - rewrite Hva. exists rep, lt. rewrite El, Ed, Es. split; [eapply GInv_now; eauto|].
    split; [intros c Hc; rewrite Ehw in Hc; auto|]. split; auto. split; auto. split; auto.
    split; [intros S; rewrite Ehw; auto|]. split; [intros K c; rewrite Ehw; auto|].
    intros c. rewrite HV. unfold vw. rewrite Ec. auto.
  - split; [left; rewrite Es; auto|]. intros _ (t & c & H). exfalso. eapply Hno; eauto.
Qed.

Lemma relative_motion_shape : forall s t dx dy, s_dead s = false ->
  let r := relative_motion s t dx dy in
  (forall rep, PREL s rep -> PREL (fst r) rep) /\ s_cnt (fst r) = s_cnt s /\ s_mb (fst r) = s_mb s /\
  cfg (fst r) = cfg s /\ wants (fst r) = wants s /\
  forall v, gd v (snd r) /\ va v (snd r) = v /\ forall t c p, ~ In (PButton t c p) (snd r).
Proof.
  intros s t dx dy Hd. unfold relative_motion.
  assert (Hsc : forall s1, (forall rep, PREL s rep -> PREL s1 rep) -> s_cnt s1 = s_cnt s -> s_mb s1 = s_mb s ->
     cfg s1 = cfg s -> wants s1 = wants s ->
     let r := (let '(scr, o) := Scroll_Model.post_scroll (s_scr s1) t (Coq.QArith.QArith_base.inject_Z dx) (Coq.QArith.QArith_base.inject_Z dy) in
                  (set_scr s1 scr, map PAxis o)) in
     (forall rep, PREL s rep -> PREL (fst r) rep) /\ s_cnt (fst r) = s_cnt s /\ s_mb (fst r) = s_mb s /\
     cfg (fst r) = cfg s /\ wants (fst r) = wants s /\
     forall v, gd v (snd r) /\ va v (snd r) = v /\ forall t c p, ~ In (PButton t c p) (snd r)).
  { intros s1 H1 H2 H3 H4 H5. destruct (Scroll_Model.post_scroll _ _ _ _) as [scr o]. cbn [fst snd].
    split; [exact H1|]. split; [exact H2|]. split; [exact H3|]. split; [exact H4|]. split; [exact H5|].
    intros v. destruct (gd_axis o v). split; auto. split; auto. intros t0 c p H6. apply in_map_iff in H6.
    destruct H6 as (x & H6 & _). discriminate. }
  assert (Hmo : let r := (s, if (dx =? 0) && (dy =? 0) then [] else [PMotion t dx dy]) in
     (forall rep, PREL s rep -> PREL (fst r) rep) /\ s_cnt (fst r) = s_cnt s /\ s_mb (fst r) = s_mb s /\
     cfg (fst r) = cfg s /\ wants (fst r) = wants s /\
     forall v, gd v (snd r) /\ va v (snd r) = v /\ forall t c p, ~ In (PButton t c p) (snd r)).
  { cbn [fst snd]. do 5 (split; [auto|]). intros v. destruct ((dx =? 0) && (dy =? 0)); cbn; repeat split; auto;
      intros t0 c p H; intuition discriminate. }
  destruct (s_method s) eqn:Hm; [|exact Hmo].
  destruct (s_state s) eqn:Hst; [exact Hmo| | |apply Hsc; auto].
  - cbn [fst snd]. do 5 (split; [auto|]). intros v. cbn. tauto.
  - apply Hsc; auto. intros rep (dc & Hl & Hr & A & (B1 & B2 & B3)). exists dc, Hl, Hr. split; [exact A|].
    split; [exact B1|]. split; [|exact B3]. intros Hm'. destruct (B2 Hm') as (C1 & C2 & C3 & C4). split; auto. split; auto. split; auto.
    unfold lockrel in *. cbn [set_state s_lockst s_state s_button] in *. rewrite Hst in C3.
    destruct (s_lockst s); auto; try discriminate; destruct C3; split; auto; discriminate.
Qed.

Lemma em_mouse : forall l rep, in_range rep ->
  (forall c t p, In (Debounce_Model.Notify c t p) l -> mouse_button c) -> in_range (Debounce_Proofs.em_after rep l).
Proof.
  induction l as [|[c t p|] l IH]; intros rep H HC; auto; cbn [Debounce_Proofs.em_after].
  - apply IH; [|intros; eapply HC; right; eauto]. intros x Hx. unfold Debounce_Proofs.upd in Hx.
    destruct (Z.eqb_spec x c) as [Ex|]; [rewrite Ex; apply (HC c t p); left; auto|auto].
  - apply IH; auto. intros; eapply HC; right; eauto.
Qed.
Lemma em_silent : forall l rep c, (forall t p, ~ In (Debounce_Model.Notify c t p) l) ->
  Debounce_Proofs.em_after rep l c = rep c.
Proof.
  induction l as [|[x t p|] l IH]; intros rep c H; auto; cbn [Debounce_Proofs.em_after].
  - rewrite IH; [|intros t0 p0 Hi; apply (H t0 p0); right; auto].
    apply Debounce_Proofs.upd_other. intros ->. apply (H t p). left; auto.
  - apply IH. intros t0 p0 Hi; apply (H t0 p0); right; auto.
Qed.

(** Delivering what the debouncer notified, for a frame or a timer. *)
Lemma deb_deliver : forall now p v rep lt s1 d' l last' rel',
  (forall rep', PREL (p_ds p) rep' -> PREL s1 rep') -> s_cnt s1 = s_cnt (p_ds p) -> s_mb s1 = s_mb (p_ds p) ->
  cfg s1 = cfg (p_ds p) -> wants s1 = wants (p_ds p) ->
  PREL (p_ds p) rep -> in_range (p_hw p) -> in_range rep ->
  (shared (p_ds p) -> p_hw p 274 = false /\ rep 274 = false) ->
  (forall c, v c = vw (p_ds p) c) ->
  Debounce_Proofs.GInv d' last' (Debounce_Proofs.em_after rep l) now lt ->
  Debounce_Proofs.tog rep l -> Debounce_Proofs.nobug l ->
  (forall c, p_hw p c = last' c) ->
  (forall c t q, In (Debounce_Model.Notify c t q) l -> mouse_button c) ->
  (shared (p_ds p) -> forall t q, ~ In (Debounce_Model.Notify 274 t q) l) ->
  (nopend (p_ds p) \/ l = [] \/ (length l = 1%nat /\ forall c, Debounce_Proofs.em_after rep l c = p_hw p c)) ->
  let r := from_debounce (any_down p) s1 l in
  let p' := mkPS (p_hw p) last' false rel' d' (fst r) in
  PINV now p' (va v (snd r)) /\ gd v (snd r) /\ cfg_step p p' (snd r).
Proof.
  intros now p v rep lt s1 d' l last' rel' H1 H2 H3 H4 H5 HP R1 R3 HJ HV HG HT HB HK HC H274 Hq.
  assert (Hsh : shared s1 -> shared (p_ds p)).
  { intros (A & B & C). unfold cfg in H4. inversion H4. rewrite H3 in A. unfold shared. repeat split; auto; congruence. }
  assert (Hpok : POK (any_down p) s1 (Debounce_Proofs.em_after rep l) (from_debounce (any_down p) s1 l)).
  { apply from_debounce_ok; auto.
    - intros c t q Hi. split; [eapply HC; eauto|]. intros -> S. eapply (H274 (Hsh S)); eauto.
    - intros S. apply HJ; auto.
    - destruct Hq as [Hq|[Hq|[Hq1 Hq2]]]; [left; right; unfold nopend in *; congruence|auto|].
      destruct (any_down p) eqn:A; [left; left; auto|]. right; right. split; auto.
      intros c. rewrite Hq2. apply any_false; auto. }
  intros r p'. set (q := mkPS (p_hw p) (p_last p) (p_key p) (p_rel p) (p_deb p) s1).
  assert (X := from_POK now q v (Debounce_Proofs.em_after rep l) lt d' last' false rel' (any_down p) r Hpok eq_refl R1).
  assert (Y : cfg_step q p' (snd r) -> cfg_step p p' (snd r)).
  { unfold cfg_step. cbn [q p_ds]. rewrite H4. auto. }
  destruct X as (X1 & X2 & X3); auto.
  - intros c. rewrite HV. unfold vw. cbn [q p_ds]. rewrite H2. auto.
  - intros c Hc. rewrite <- HK in Hc. auto.
  - apply em_mouse; auto.
  - cbn [q p_ds p_hw]. intros S. destruct (HJ (Hsh S)) as [A B]. split; auto. rewrite em_silent; auto.
Qed.

Lemma pending_nopend : forall p, nopend (p_ds p) \/ pending p.
Proof.
  intros p. unfold nopend, pending, wants, cfg.
  destruct (Bool.bool_dec (s_wleft (p_ds p)) (s_left (p_ds p))); [|right; auto].
  destruct (Bool.bool_dec (s_wmethod (p_ds p)) (s_method (p_ds p))); [|right; auto].
  destruct (Z.eq_dec (s_wbutton (p_ds p)) (s_button (p_ds p))); [|right; auto].
  destruct (Bool.bool_dec (s_wlock (p_ds p)) (s_lock (p_ds p))); [|right; auto].
  left. congruence.
Qed.

Local Opaque changed.
Lemma step_syn : forall now p v t, PINV now p v -> op_ok now p (Syn t) -> STEP now p v (Syn t).
Proof.
  intros now p v t HP [Ht Hq]. unfold STEP. cbn [op_time] in *.
  pose proof (PINV_dead _ _ _ HP) as Hd. unfold pstep. rewrite Hd. unfold handle_state.
  pose proof HP as (rep & lt & HG & R1 & R2 & R3 & HR & HJ & HK & HV).
  assert (Hs1 : exists s1 o1, (match p_rel p with Some (dx, dy) => relative_motion (p_ds p) t dx dy | None => (p_ds p, []) end) = (s1, o1) /\
     (forall rep, PREL (p_ds p) rep -> PREL s1 rep) /\ s_cnt s1 = s_cnt (p_ds p) /\ s_mb s1 = s_mb (p_ds p) /\
     cfg s1 = cfg (p_ds p) /\ wants s1 = wants (p_ds p) /\
     forall v, gd v o1 /\ va v o1 = v /\ forall t c p, ~ In (PButton t c p) o1).
  { destruct (p_rel p) as [[dx dy]|].
    - pose proof (relative_motion_shape (p_ds p) t dx dy Hd) as H. destruct (relative_motion (p_ds p) t dx dy) as [s1 o1].
      exists s1, o1. split; auto.
    - exists (p_ds p), []. do 6 (split; [auto|]). intros v0. cbn. tauto. }
  destruct Hs1 as (s1 & o1 & -> & S1 & S2 & S3 & S4 & S5 & S6).
  assert (Hsh1 : shared s1 -> shared (p_ds p)).
  { intros (A & B & C). unfold cfg in S4. inversion S4. rewrite S3 in A. unfold shared. repeat split; auto; congruence. }
  destruct (S6 v) as (G1 & G2 & G3).
  destruct (p_key p) eqn:Kp.
  - rewrite (changed_moved p R1 R2).
    destruct (moved p) as [|c0 mv] eqn:Em.
    + cbn [map]. cbn [fst snd].
      rewrite app_nil_r.
      assert (Hsame : forall c, p_hw p c = p_last p c).
      { intros c. pose proof (press_moved p c R1 R2) as E. rewrite Em in E. cbn in E. auto. }
      split; [|split; auto].
      * rewrite G2. exists rep, lt. cbn [p_deb p_last p_hw p_ds p_key]. split; [eapply GInv_now; [exact Ht|]; eapply GInv_ext; [|exact HG]; auto|].
        split; auto. split; auto. split; auto. split; auto. split; [intros S; specialize (HJ (Hsh1 S)); tauto|]. split; auto.
        intros c. rewrite HV. unfold vw. rewrite S2. auto.
      * split; [left; cbn [p_ds]; auto|]. intros _ (t0 & c & H). exfalso. eapply G3; eauto.
    + cbn [map]. rewrite <- Em in *.
      change ((c0, p_hw p c0) :: map (fun c => (c, p_hw p c)) mv) with (map (fun c => (c, p_hw p c)) (c0 :: mv)).
      set (ch := map (fun c => (c, p_hw p c)) (c0 :: mv)) in *.
      assert (Ech : ch = map (fun c => (c, p_hw p c)) (moved p)) by (unfold ch; congruence).
      pose proof (moved_frame_ok p) as FO. rewrite <- Ech in FO.
      pose proof (Debounce_Proofs.frame_step_G (p_deb p) (p_last p) rep ch t now lt FO HG Ht) as FG. cbv zeta in FG.
      assert (Hphw : forall c, Debounce_Spec.press_hw (p_last p) ch c = p_hw p c) by (intros; rewrite Ech; apply press_moved; auto).
      assert (Hout : forall c t' q, In (Debounce_Model.Notify c t' q) (snd (Debounce_Model.handle_frame (p_deb p) ch t)) ->
         In c (moved p) \/ rep c = true \/ p_last p c = true).
      { intros c t' q Hi. destruct (rep c) eqn:Er; auto. destruct (p_last p c) eqn:El; auto.
        destruct (in_dec Z.eq_dec c (moved p)) as [|Hni]; auto. exfalso.
        eapply (Pipeline_Proofs2.frame_silent (p_deb p) (p_last p) rep ch t c t' q); eauto.
        - apply HG.
        - rewrite Ech, map_map. cbn [fst]. rewrite map_id. auto. }
      assert (Hcalm : pending p -> let l := snd (Debounce_Model.handle_frame (p_deb p) ch t) in
          l = [] \/ (length l = 1%nat /\ forall c, Debounce_Proofs.em_after rep l c = p_hw p c)).
      { intros Hp. destruct (Hq Hp) as [E0|[[T1 T2] [c1 E1]]]; [congruence|].
        destruct HG as (HI & HT & HS').
        destruct (settled_rep _ _ _ _ HI HT T1 T2) as [Hrep Hst].
        assert (Ech1 : ch = [(c1, p_hw p c1)]) by (rewrite Ech, E1; auto).
        assert (Hb : p_hw p c1 = negb (p_last p c1)) by (apply FO; rewrite Ech1; left; auto).
        pose proof (calm_frame (p_deb p) (p_last p) rep c1 (p_hw p c1) t Hst HI Hb) as C.
        rewrite Ech1. destruct C as [-> | ->]; [left; auto|right]. split; auto.
        intros c. cbn [Debounce_Proofs.em_after]. unfold Debounce_Proofs.upd.
        pose proof (Hphw c) as E2. rewrite Ech1 in E2. unfold Debounce_Spec.press_hw in E2. cbn [fold_left fst snd] in E2.
        rewrite <- E2. destruct (c =? c1); auto. }
      destruct (Debounce_Model.handle_frame (p_deb p) ch t) as [d' l]. cbn [fst snd] in *.
      destruct FG as (FG1 & FG2 & FG3 & _).
      pose proof (deb_deliver t p v rep (Debounce_Proofs.lstamp lt l) s1 d' l (p_hw p) None S1 S2 S3 S4 S5 HR R1 R3) as X.
      cbv zeta in X. fold (any_down p).
      change (match ch with [] => (p_deb p, (s1, [])) | _ :: _ => (d', from_debounce (any_down p) s1 l) end)
        with (d', from_debounce (any_down p) s1 l).
      destruct (from_debounce (any_down p) s1 l) as [s2 o2]. cbn [fst snd] in *.
      destruct X as (X1 & X2 & X3); auto.
      * intros S. destruct (HJ S) as (J1 & J2 & J3). auto.
      * eapply GInv_ext; [|exact FG1]. auto.
      * intros c t' q Hi. destruct (Hout _ _ _ Hi) as [Hi'|[Hi'|Hi']]; auto.
        unfold moved in Hi'. apply filter_In in Hi'. apply in_mouse. tauto.
      * intros S t' q Hi. destruct (HJ S) as (J1 & J2 & J3). destruct (Hout _ _ _ Hi) as [Hi'|[Hi'|Hi']]; try congruence.
        unfold moved in Hi'. apply filter_In in Hi'. rewrite J1, J2 in Hi'. destruct Hi'; discriminate.
      * destruct (pending_nopend p) as [N|N]; auto.
      * rewrite va_app, gd_app, G2. split; auto. split; auto. split; [apply X3|].
        intros Hall (t0 & c & Hin). apply in_app_or in Hin. destruct Hin as [Hin|Hin]; [exfalso; eapply G3; eauto|].
        apply X3; eauto.
  - cbn [fst snd]. eapply quiet_step with (p := p); eauto.
    + cbn [p_ds]. exists s1. split; auto.
Qed.

Lemma step_fire : forall now p v (short : bool) t, PINV now p v ->
  let o := if short then DebounceTimerShort t else DebounceTimer t in
  op_ok now p o -> STEP now p v o.
Proof.
  intros now p v short t HP o [Ht Hok]. unfold STEP.
  assert (Et : op_time now o = t) by (unfold o; destruct short; auto). rewrite Et in *.
  assert (Hfire : p_key p = false /\ Debounce_Proofs.fire_ok (p_deb p) (if short then Debounce_Model.FireShort t else Debounce_Model.FireLong t)).
  { unfold o in Hok. destruct short; exact Hok. }
  destruct Hfire as [Hk Hf].
  assert (Eo : pstep p o = with_deb p (Debounce_Model.dstep (p_deb p) (if short then Debounce_Model.FireShort t else Debounce_Model.FireLong t))).
  { unfold pstep. rewrite (PINV_dead _ _ _ HP). unfold o. destruct short; auto. }
  rewrite Eo. clear Eo o Hok Et. set (dop := if short then Debounce_Model.FireShort t else Debounce_Model.FireLong t) in *.
  destruct HP as (rep & lt & HG & R1 & R2 & R3 & HR & HJ & HK & HV).
  pose proof (Debounce_Proofs.dstep_G (p_deb p) (p_last p) rep dop now lt) as G.
  assert (Et : Debounce_Spec.op_time dop = t) by (unfold dop; destruct short; auto).
  assert (Eh : Debounce_Spec.hw_step (p_last p) dop = p_last p) by (unfold dop; destruct short; auto).
  rewrite Et, Eh in G. specialize (G ltac:(unfold dop; destruct short; exact I) Hf HG Ht). cbv zeta in G.
  pose proof (fire_shape (p_deb p) (p_last p) rep short t (proj1 HG)) as FS. fold dop in FS. cbv zeta in FS.
  pose proof (fun c t' q => fire_silent (p_deb p) (p_last p) rep short t c t' q (proj1 HG)) as FI. fold dop in FI.
  unfold with_deb. destruct (Debounce_Model.dstep (p_deb p) dop) as [d' l]. cbn [fst snd] in *.
  destruct G as (G1 & G2 & G3 & _). specialize (FS G3).
  pose proof (deb_deliver t p v rep (Debounce_Proofs.lstamp lt l) (p_ds p) d' l (p_last p) (p_rel p)) as X. cbv zeta in X.
  fold (any_down p). rewrite Hk. destruct (from_debounce (any_down p) (p_ds p) l) as [s2 o2]. cbn [fst snd] in *.
  apply X; auto.
  - intros S. destruct (HJ S) as (J1 & J2 & J3). auto.
  - intros c t' q Hi. destruct (rep c) eqn:E1; [auto|]. destruct (p_last p c) eqn:E2; [auto|]. exfalso. eapply FI; eauto.
  - intros S t' q Hi. destruct (HJ S) as (J1 & J2 & J3). eapply FI; eauto.
  - right. destruct FS as [->|[(t' & q & El) Hem]]; auto. right. split; [rewrite El; auto|].
    intros c. rewrite Hem. symmetry. auto.
Qed.
