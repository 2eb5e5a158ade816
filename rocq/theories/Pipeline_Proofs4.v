Require Import Coq.ZArith.ZArith Coq.Lists.List Coq.Bool.Bool Coq.micromega.Lia.
Require Verif.Debounce_Model Verif.Debounce_Spec Verif.Debounce_Proofs.
Require Verif.MiddleButton_Model Verif.MiddleButton_Spec Verif.MiddleButton_Proofs Verif.MiddleButton_Proofs2 Verif.Scroll_Model.
Require Import Verif.Keys_Model Verif.Pipeline_Model Verif.Pipeline_Spec Verif.Pipeline_Proofs Verif.Pipeline_Proofs2 Verif.Pipeline_Proofs3.
Import ListNotations.
Open Scope Z_scope.
Local Arguments Z.eqb : simpl never.
Local Arguments Z.add : simpl never.
Local Arguments Z.leb : simpl never.
Local Arguments Z.ltb : simpl never.

Lemma step_key : forall now p v c x, PINV now p v -> op_ok now p (Key c x) -> STEP now p v (Key c x).
Proof.
  intros now p v c x HP [Ht [Hc H274]]. unfold STEP. cbn [op_time] in *.
  unfold pstep. rewrite (PINV_dead _ _ _ HP). cbn [fst snd va gd].
  unfold process_key.
  assert (Same : PINV now p v /\ True /\ cfg_step p p []).
  { split; auto. split; auto. split; [left; auto|]. intros _ (? & ? & []). }
  destruct (x =? 2); [exact Same|]. rewrite is_button_mouse by (apply in_mouse; auto). cbn [negb].
  destruct ((negb (x =? 0) && p_hw p c) || ((x =? 0) && negb (p_hw p c))) eqn:E; [exact Same|]. clear Same.
  destruct HP as (rep & lt & HG & R1 & R2 & R3 & HR & HJ & HK & HV).
  split; [|split; [auto|split; [left; auto|intros _ (? & ? & [])]]].
  exists rep, lt. cbn [p_deb p_last p_hw p_ds p_key]. split; auto.
  split; [intros y Hy; unfold upd in Hy; destruct (Z.eqb_spec y c) as [Ey|]; [rewrite Ey; auto|auto]|].
  split; auto. split; auto. split; auto. split.
  - intros S. destruct (HJ S) as (J1 & J2 & J3). split; auto. unfold upd. destruct (Z.eqb_spec 274 c) as [Ec|]; auto.
    exfalso. destruct S as (S1 & S2 & S3). eapply H274; eauto.
  - split; [discriminate|auto].
Qed.

Lemma step_rel : forall now p v dx dy, PINV now p v -> STEP now p v (Rel dx dy).
Proof.
  intros now p v dx dy HP. unfold STEP. cbn [op_time].
  unfold pstep. rewrite (PINV_dead _ _ _ HP). cbn [fst snd].
  eapply quiet_step with (p := p); eauto; try reflexivity; try lia; cbn; auto.
  exists (p_ds p). auto 10.
Qed.

Lemma step_mtimer : forall now p v t, PINV now p v -> op_ok now p (MiddleTimer t) -> STEP now p v (MiddleTimer t).
Proof.
  intros now p v t HP [Ht [Hk Hdue]]. unfold STEP. cbn [op_time] in *.
  unfold pstep. rewrite (PINV_dead _ _ _ HP).
  pose proof HP as (rep & lt & HG & R1 & R2 & R3 & HR & HJ & HK & HV).
  destruct (MiddleButton_Model.timeout (s_mb (p_ds p)) t) as [m' l] eqn:E.
  unfold with_ds. fold (any_down p). cbn [fst snd].
  assert (HPOK : POK (any_down p) (p_ds p) rep (deliver (any_down p) (set_mb (p_ds p) m') l)).
  { eapply middle_timer_ok; eauto.
    - destruct Hdue as (e & He & _). congruence.
    - intros S. destruct (HJ S) as (J1 & J2 & J3). auto. }
  destruct (deliver (any_down p) (set_mb (p_ds p) m') l) as [s2 o2]. cbn [fst snd].
  apply (from_POK t p v rep lt (p_deb p) (p_last p) (p_key p) (p_rel p) (any_down p) (s2, o2)); auto.
  - eapply GInv_now; eauto.
  - intros S. destruct (HJ S) as (J1 & J2 & J3). auto.
Qed.

Lemma step_stimer : forall now p v t, PINV now p v -> op_ok now p (ScrollTimer t) -> STEP now p v (ScrollTimer t).
Proof.
  intros now p v t HP [Ht [Hk Hdue]]. unfold STEP. cbn [op_time] in *.
  unfold pstep. rewrite (PINV_dead _ _ _ HP). unfold with_ds. cbn [fst snd].
  eapply quiet_step with (p := p) (now := now); eauto; try reflexivity; cbn [va gd]; auto.
  cbn [p_ds]. exists (set_state (set_timer (p_ds p) None) B_READY). split; auto. split; [|auto].
  intros rep (dc & Hl & Hr & A & (B1 & B2 & B3)). exists dc, Hl, Hr. split; [exact A|].
  split; [exact B1|]. split; [|exact B3]. intros Hm'. destruct (B2 Hm') as (C1 & C2 & C3 & C4). split; auto. split; auto. split; auto.
  unfold lockrel in *. cbn [set_state set_timer s_lockst s_state s_button] in *.
  destruct (s_lockst (p_ds p)); auto; try discriminate; destruct C3; split; auto; discriminate.
Qed.

(** Configuration calls: a new state [s'] of the stage. *)
Lemma settled_facts : forall now p v, PINV now p v -> settled p -> p_key p = false ->
  exists rep lt, Debounce_Proofs.GInv (p_deb p) (p_last p) rep now lt /\ PREL (p_ds p) rep /\
    (forall c, rep c = p_hw p c).
Proof.
  intros now p v (rep & lt & HG & R1 & R2 & R3 & HR & HJ & HK & HV) [T1 T2] Hk.
  exists rep, lt. split; auto. split; auto. destruct HG as (HI & HT & _).
  destruct (settled_rep _ _ _ _ HI HT T1 T2) as [H _]. intros c. rewrite H. symmetry. auto.
Qed.

Lemma step_cfg : forall now p v s', PINV now p v -> settled p -> p_key p = false ->
  s_mb s' = s_mb (p_ds p) -> s_cnt s' = s_cnt (p_ds p) ->
  (forall dc, SREL (p_ds p) dc -> (any_down p = true \/ forall x, dc x = 0) -> SREL s' dc) ->
  (any_down p = true -> cfg s' = cfg (p_ds p)) ->
  PINV now (mkPS (p_hw p) (p_last p) (p_key p) (p_rel p) (p_deb p) s') v /\ True /\
  cfg_step p (mkPS (p_hw p) (p_last p) (p_key p) (p_rel p) (p_deb p) s') [].
Proof.
  intros now p v s' (rep & lt & HG & R1 & R2 & R3 & HR & HJ & HK & HV) [T1 T2] Hk E1 E2 HS Hc.
  assert (Hrep : forall c, rep c = p_hw p c).
  { destruct HG as (HI & HT & _). destruct (settled_rep _ _ _ _ HI HT T1 T2) as [H _]. intros c. rewrite H. symmetry. auto. }
  assert (HA : any_down p = true \/ (any_down p = false /\ allup (p_hw p) /\ allup rep)).
  { destruct (any_down p) eqn:A; auto. right. split; auto. pose proof (any_false p R1 A) as U.
    split; auto. intros c. rewrite Hrep. auto. }
  split; [|split; [auto|]].
  - exists rep, lt. cbn [p_deb p_last p_hw p_ds p_key]. split; auto. split; auto. split; auto. split; auto.
    split.
    { destruct HR as (dc & Hl & Hr & A & B). exists dc, Hl, Hr. rewrite E1. split.
      - eapply INV_ext; [| |exact A]; auto. intros c. unfold mapped.
        destruct HA as [HA|(_ & _ & U)]; [|rewrite !U; auto].
        specialize (Hc HA). unfold cfg in Hc. inversion Hc. congruence.
      - apply HS; auto. destruct HA as [HA|(_ & _ & U)]; auto. right.
        apply (INV_allup _ _ _ _ _ A). intros c. apply U. }
    split.
    { intros (S1 & S2 & S3). destruct HA as [HA|(_ & U1 & U2)].
      - apply HJ. specialize (Hc HA). unfold cfg in Hc. inversion Hc. unfold shared. rewrite E1 in S1. repeat split; auto; congruence.
      - rewrite <- HK by auto. auto. }
    split; auto. intros c. rewrite HV. unfold vw. rewrite E2. auto.
  - split.
    + cbn [p_ds p_hw]. destruct HA as [HA|(_ & U1 & U2)]; [left; auto|right]. split; auto.
      intros c. unfold vw. rewrite E2, (PREL_up _ _ HR U2). reflexivity.
    + intros _ (? & ? & []).
Qed.

Lemma change_left_SREL : forall any s b dc, SREL s dc -> SREL (change_left any (set_left s (s_left s) b)) dc.
Proof.
  intros any s b dc H. unfold change_left. destruct (Bool.eqb _ _); [exact H|]. destruct any; exact H.
Qed.
Lemma change_scroll_SREL : forall any s wm wb wl dc, SREL s dc -> mouse_button wb ->
  (any = true \/ forall x, dc x = 0) -> SREL (change_scroll any (set_want s wm wb wl)) dc.
Proof.
  intros any s wm wb wl dc (A & B & C & D & E) Hw Hq.
  assert (H1 : SREL (set_want s wm wb wl) dc).
  { split; [exact A|]. split; [exact B|]. split; [auto|]. split; auto. }
  unfold change_scroll. destruct (_ && _ && _); [exact H1|]. destruct any; [exact H1|].
  destruct Hq as [Hq|Hz]; [discriminate|].
  assert (Hall : forall c, s_cnt s c = 0).
  { intros c. destruct (s_method s && (c =? s_button s)) eqn:F.
    - apply andb_true_iff in F. destruct F as [F1 F2]. apply Z.eqb_eq in F2. subst c. apply B; auto.
    - rewrite A; auto. }
  unfold SREL, lockrel. cbn [set_want s_method s_button s_cnt s_wmethod s_wbutton s_wlock s_dead s_lockst s_state s_mb].
  split; [intros; rewrite Hall, Hz; auto|]. split; [|auto].
  intros Hm. rewrite Hall, Hz. split; [auto|]. split; [lia|]. split; [|auto].
  destruct wl; auto; discriminate.
Qed.
Lemma change_scroll_cfg : forall s wm wb wl, cfg (change_scroll true (set_want s wm wb wl)) = cfg s.
Proof. intros. unfold change_scroll. destruct (_ && _ && _); reflexivity. Qed.
Lemma change_scroll_same : forall any s wm wb wl,
  s_mb (change_scroll any (set_want s wm wb wl)) = s_mb s /\ s_cnt (change_scroll any (set_want s wm wb wl)) = s_cnt s.
Proof. intros. unfold change_scroll. destruct (_ && _ && _); [auto|]. destruct any; auto. Qed.
Lemma change_left_same : forall any s b,
  s_mb (change_left any (set_left s (s_left s) b)) = s_mb s /\ s_cnt (change_left any (set_left s (s_left s) b)) = s_cnt s.
Proof. intros. unfold change_left. destruct (Bool.eqb _ _); [auto|]. destruct any; auto. Qed.

Lemma step_setmiddle : forall now p v b, PINV now p v -> op_ok now p (SetMiddle b) -> STEP now p v (SetMiddle b).
Proof.
  intros now p v b HP [Ht [Hk Hen]]. unfold STEP. cbn [op_time] in *.
  unfold pstep. rewrite (PINV_dead _ _ _ HP). unfold with_ds. cbn [fst snd va gd].
  pose proof HP as (rep & lt & HG & R1 & R2 & R3 & HR & HJ & HK & HV).
  assert (Hup : b = true -> MiddleButton_Model.m_enabled (s_mb (p_ds p)) = false -> allup rep /\ allup (p_hw p)).
  { intros Hb He. destruct (Hen Hb He) as [[T1 T2] U]. split; auto. destruct HG as (HI & HT & _).
    destruct (settled_rep _ _ _ _ HI HT T1 T2) as [H _]. intros c. rewrite H, <- HK by auto. auto. }
  split; [|split; [auto|split; [left; reflexivity|intros _ (? & ? & [])]]].
  exists rep, lt. cbn [p_deb p_last p_hw p_ds p_key]. split; auto. split; auto. split; auto. split; auto.
  split.
  { destruct HR as (dc & Hl & Hr & A & B).
    pose proof (MiddleButton_Proofs.step_config (mapped (p_ds p) rep) dc Hl Hr (s_mb (p_ds p)) b A) as SC.
    destruct SC as (SC & _).
    { intros Hb He c. unfold mapped. apply (Hup Hb He). }
    cbn [MiddleButton_Model.mstep fst snd MiddleButton_Spec.hw_step] in SC.
    exists dc, (MiddleButton_Spec.hold_step MiddleButton_Model.BTN_LEFT Hl (MiddleButton_Model.Config b, [])), (MiddleButton_Spec.hold_step MiddleButton_Model.BTN_RIGHT Hr (MiddleButton_Model.Config b, [])).
    split; [|exact B]. cbn [set_mb s_mb s_left].
    eapply INV_ext; [| |exact SC]; [intros; reflexivity|]. intros c. cbn. lia. }
  split; [|split; auto].
  intros (S1 & S2 & S3). cbn [set_mb s_mb s_method s_button] in *.
  destruct (MiddleButton_Model.m_enabled (s_mb (p_ds p))) eqn:En.
  - apply HJ. unfold shared. auto.
  - assert (Hb : b = true).
    { unfold MiddleButton_Model.set_config, MiddleButton_Model.apply_config in S1. cbn in S1. rewrite En in S1.
      destruct b; auto; cbn in S1; congruence. }
    destruct (Hup Hb eq_refl) as [U1 U2]. rewrite <- HK by auto. auto.
Qed.

Lemma release_none : forall codes any s t, (forall c, s_cnt s c = 0) -> release_buttons any s t codes = (s, []).
Proof.
  induction codes as [|c codes IH]; intros any s t H; auto. cbn [release_buttons]. rewrite (H c). cbn. apply IH; auto.
Qed.

Lemma step_suspend : forall now p v t, PINV now p v -> op_ok now p (Suspend t) -> STEP now p v (Suspend t).
Proof.
  intros now p v t HP [Ht (Hk & [T1 T2] & Hup)]. unfold STEP. cbn [op_time] in *.
  unfold pstep. rewrite (PINV_dead _ _ _ HP). unfold neutral.
  pose proof HP as (rep & lt & HG & R1 & R2 & R3 & HR & HJ & HK & HV).
  assert (Urep : allup rep).
  { destruct HG as (HI & HT & _). destruct (settled_rep _ _ _ _ HI HT T1 T2) as [H _]. intros c. rewrite H, <- HK by auto. auto. }
  rewrite release_none by (apply (PREL_up _ _ HR Urep)). cbn [fst snd va gd].
  apply (quiet_step now t p _ v []); auto; cbn [p_hw p_last p_deb p_key p_ds va gd]; auto.
  exists (p_ds p). auto 10.
Qed.

Lemma step_ok : forall now p v o, PINV now p v -> op_ok now p o -> STEP now p v o.
Proof.
  intros now p v o HP Ho. destruct o.
  - apply step_key; auto.
  - apply step_rel; auto.
  - apply step_syn; auto.
  - apply (step_fire now p v false); auto.
  - apply (step_fire now p v true); auto.
  - apply step_mtimer; auto.
  - apply step_stimer; auto.
  - destruct Ho as [_ (Hk & Hs)]. unfold STEP, pstep. rewrite (PINV_dead _ _ _ HP).
    apply step_cfg; auto; try apply change_left_same.
    + intros dc H _. apply change_left_SREL; auto.
    + fold (any_down p). intros ->. unfold change_left. destruct (Bool.eqb _ _); reflexivity.
  - apply step_setmiddle; auto.
  - destruct Ho as [_ (Hk & Hs)]. unfold STEP, pstep. rewrite (PINV_dead _ _ _ HP).
    apply step_cfg; auto; try apply change_scroll_same.
    + intros dc H Hq. apply change_scroll_SREL; auto. apply H.
    + fold (any_down p). intros ->. apply change_scroll_cfg.
  - destruct Ho as [_ (Hk & Hs & Hm)]. unfold STEP, pstep. rewrite (PINV_dead _ _ _ HP).
    apply step_cfg; auto; try apply change_scroll_same.
    + intros dc H Hq. apply change_scroll_SREL; auto.
    + fold (any_down p). intros ->. apply change_scroll_cfg.
  - destruct Ho as [_ (Hk & Hs)]. unfold STEP, pstep. rewrite (PINV_dead _ _ _ HP).
    apply step_cfg; auto; try apply change_scroll_same.
    + intros dc H Hq. apply change_scroll_SREL; auto. apply H.
    + fold (any_down p). intros ->. apply change_scroll_cfg.
  - apply step_suspend; auto.
  - destruct Ho as [_ []].
Qed.

Lemma prun_cons : forall p o ops, prun p (o :: ops) =
  (fst (prun (fst (pstep p o)) ops), snd (pstep p o) ++ snd (prun (fst (pstep p o)) ops)).
Proof. intros. cbn [prun]. destruct (pstep p o) as [p1 o1]. cbn [fst snd]. destruct (prun p1 ops); auto. Qed.

Definition end_time (now : Z) (ops : list pop) : Z := fold_left op_time ops now.

Lemma run_ok : forall ops now p v, PINV now p v -> legal now p ops ->
  PINV (end_time now ops) (fst (prun p ops)) (va v (snd (prun p ops))) /\ gd v (snd (prun p ops)).
Proof.
  induction ops as [|o ops IH]; intros now p v HP HL.
  - cbn. auto.
  - destruct HL as [Ho HL]. destruct (step_ok now p v o HP Ho) as (A & B & _).
    rewrite prun_cons. cbn [fst snd]. rewrite va_app, gd_app.
    destruct (IH _ _ _ A HL) as [C D]. split; auto.
Qed.

Lemma PINV_init : forall quirk left middle method button lock scr now, 0 <= now -> mouse_button button ->
  PINV now (ps_init quirk left middle method button lock scr) (fun _ => false).
Proof.
  intros quirk left middle method button lock scr now Hn Hb. exists (fun _ => false), 0. unfold ps_init. cbn [p_deb p_last p_hw p_ds p_key].
  split; [apply Debounce_Proofs.GInv_init; auto|].
  split; [discriminate|]. split; [discriminate|]. split; [discriminate|]. split.
  - exists (fun _ => 0), None, None. split; [apply (MiddleButton_Proofs2.INV_init middle)|].
    unfold SREL, lockrel. cbn. split; auto. split; [|auto].
    intros Hm. split; auto. split; [lia|]. split; auto. destruct lock; auto; discriminate.
  - split; auto.
Qed.

Lemma hw_model : forall ops now p v f, PINV now p v -> legal now p ops -> (forall c, p_hw p c = f c) ->
  forall c, p_hw (fst (prun p ops)) c = fold_left hw_step ops f c.
Proof.
  induction ops as [|o ops IH]; intros now p v f HP HL Hf c; [apply Hf|].
  destruct HL as [Ho HL]. destruct (step_ok now p v o HP Ho) as (A & _).
  rewrite prun_cons. cbn [fst fold_left]. eapply IH; eauto.
  clear c. intros c. pose proof (PINV_dead _ _ _ HP) as Hd. unfold pstep. rewrite Hd.
  destruct o; cbn [hw_step fst with_ds p_hw]; auto.
  - unfold process_key. destruct (value =? 2); auto. destruct Ho as [_ [Hc _]].
    rewrite is_button_mouse by (apply in_mouse; auto). cbn [negb].
    destruct (Z.eqb_spec value 0) as [->|Hv]; cbn [negb andb orb].
    + rewrite ?orb_false_r. destruct (p_hw p code) eqn:E; cbn [negb p_hw].
      * unfold upd. destruct (c =? code); auto.
      * destruct (Z.eqb_spec c code) as [->|]; [rewrite <- E; auto|auto].
    + rewrite orb_false_r. destruct (p_hw p code) eqn:E; cbn [p_hw].
      * destruct (Z.eqb_spec c code) as [->|]; [rewrite <- E; auto|auto].
      * unfold upd. destruct (c =? code); auto.
  - unfold handle_state. destruct (match p_rel p with Some _ => _ | None => _ end) as [s1 o1].
    destruct (p_key p); [|apply Hf]. destruct (changed p) as [|x l]; [apply Hf|].
    destruct (Debounce_Model.handle_frame _ _ _) as [d l']. destruct (from_debounce _ _ _); apply Hf.
  - unfold with_deb. destruct (Debounce_Model.dstep _ _). destruct (from_debounce _ _ _). apply Hf.
  - unfold with_deb. destruct (Debounce_Model.dstep _ _). destruct (from_debounce _ _ _). apply Hf.
  - destruct (MiddleButton_Model.timeout _ _). apply Hf.
  - unfold neutral. destruct (release_buttons _ _ _ _). cbn [fst p_hw]. destruct Ho as [_ (_ & _ & Hu)].
    rewrite <- Hf. symmetry. apply Hu.
  - destruct Ho as [_ []].
Qed.
