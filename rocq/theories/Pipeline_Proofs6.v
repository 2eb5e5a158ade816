(** Suspending and removing a mouse; what settles when. *)
Require Import Coq.ZArith.ZArith Coq.Lists.List Coq.Bool.Bool Coq.micromega.Lia.
Require Verif.Debounce_Model Verif.Debounce_Spec Verif.Debounce_Proofs.
Require Verif.MiddleButton_Model Verif.MiddleButton_Spec Verif.MiddleButton_Proofs Verif.MiddleButton_Proofs2 Verif.Scroll_Model.
Require Import Verif.Keys_Model Verif.Pipeline_Model Verif.Pipeline_Spec Verif.Pipeline_Proofs Verif.Pipeline_Proofs2 Verif.Pipeline_Proofs3 Verif.Pipeline_Proofs4.
Import ListNotations.
Open Scope Z_scope.
Local Arguments Z.eqb : simpl never.
Local Arguments Z.add : simpl never.
Local Arguments Z.leb : simpl never.
Local Arguments Z.ltb : simpl never.

Definition SUSP (s : ds) : Prop :=
  (forall c, 0 <= s_cnt s c <= 1) /\ (forall c, s_cnt s c <> 0 -> mouse_button c) /\
  (s_left s = true -> s_cnt s 272 = 0 /\ s_cnt s 273 = 0) /\
  (s_method s = true -> s_cnt s (s_button s) = 0) /\ s_dead s = false.

Lemma lh_same : forall l c, (l = true -> c <> 272 /\ c <> 273) -> to_left_handed l c = c.
Proof.
  intros l c H. unfold to_left_handed, BTN_LEFT, BTN_RIGHT. destruct l; auto. destruct (H eq_refl).
  destruct (Z.eqb_spec c 272); [contradiction|]. destruct (Z.eqb_spec c 273); [contradiction|]. auto.
Qed.

Lemma release_exact : forall codes s t, NoDup codes -> SUSP s ->
  let r := release_buttons true s t codes in
  snd r = map (fun c => PButton t c false) (filter (vw s) codes) /\
  (forall c, s_cnt (fst r) c = if existsb (Z.eqb c) codes then 0 else s_cnt s c) /\
  cfg (fst r) = cfg s /\ wants (fst r) = wants s /\ s_mb (fst r) = s_mb s /\ s_timer (fst r) = s_timer s /\ s_dead (fst r) = false.
Proof.
  induction codes as [|c codes IH]; intros s t Hn HS.
  - cbn. repeat split; auto. apply HS.
  - inversion Hn; subst. cbn [release_buttons filter existsb].
    pose proof HS as (B & M & L & S & D).
    destruct (Z.eqb_spec (s_cnt s c) 0) as [E|E]; cbn [orb].
    + cbv zeta. destruct (IH s t H2 HS) as (A1 & A2 & A3). unfold vw at 1. rewrite E. change (0 <? 0) with false. cbv iota.
      split; auto. split; auto. intros x. rewrite A2. destruct (Z.eqb_spec x c) as [->|]; cbn [orb]; auto.
      destruct (existsb (Z.eqb c) codes); auto.
    + rewrite is_button_mouse by (apply in_mouse; auto). cbn [negb].
      assert (E1 : s_cnt s c = 1) by (specialize (B c); lia). rewrite E1.
      assert (Hnb : notify_button true s t (to_left_handed (s_left s) c) false = (set_cnt s (upd (s_cnt s) c 0), [PButton t c false])).
      { rewrite lh_same; [|intros Hl; destruct (L Hl); split; intros ->; congruence].
        unfold notify_button. destruct (s_method s && (c =? s_button s)) eqn:Em.
        - apply andb_true_iff in Em. destruct Em as [Em Ec]. apply Z.eqb_eq in Ec. specialize (S Em). congruence.
        - rewrite (post_release true s t c 1); [|auto|auto|lia]. change (1 =? 1) with true. change (1 - 1) with 0. cbv iota.
          fold (commit true (set_cnt s (upd (s_cnt s) c 0))).
          destruct (commit_facts true (set_cnt s (upd (s_cnt s) c 0))) as (_ & Q & _). rewrite Q by (left; auto). auto. }
      set (s1 := set_cnt s (upd (s_cnt s) c 0)) in *.
      assert (HS1 : SUSP s1).
      { unfold SUSP, s1. cbn. split; [intros x; unfold upd; destruct (x =? c); [lia|apply B]|].
        split; [intros x; unfold upd; destruct (x =? c); [congruence|apply M]|].
        split; [intros Hl; destruct (L Hl); unfold upd; destruct (272 =? c), (273 =? c); auto|].
        split; [intros Hm; unfold upd; destruct (_ =? c); auto|auto]. }
      destruct (IH s1 t H2 HS1) as (A1 & A2 & A3 & A4 & A5 & A6 & A7). cbv zeta in *.
      destruct (release_buttons true s1 t codes) as [s2 o2] eqn:E2. cbn [fst snd] in *. subst o2.
      match goal with |- snd ?r = _ /\ _ => assert (R : r = (s2, PButton t c false :: map (fun c0 : Z => PButton t c0 false) (filter (vw s1) codes))) end.
      { change (1 <? 1) with false. unfold andthen. rewrite D, Hnb. change (s_dead s1) with (s_dead s). rewrite D.
        replace (s_cnt s1 c) with 0 by (unfold s1; cbn; rewrite upd_same; auto). change (0 =? 0) with true. cbn [negb].
        rewrite E2. reflexivity. }
      rewrite R. cbn [fst snd].
      assert (Vc : vw s c = true) by (unfold vw; rewrite E1; auto). rewrite Vc. cbn [app map].
      split.
      * f_equal. f_equal. apply filter_ext_in. intros x Hx. unfold vw, s1. cbn. rewrite upd_other; auto. intros ->. contradiction.
      * split; [|auto]. intros x. rewrite A2. unfold s1. cbn [set_cnt s_cnt]. destruct (Z.eqb_spec x c) as [->|N]; cbn [orb].
        -- rewrite upd_same. destruct (existsb _ codes); auto.
        -- rewrite upd_other by auto. auto.
Qed.

(** How often each button counts. *)
Lemma INV_le1 : forall hw cnt Hl Hr m, MiddleButton_Proofs.INV hw cnt Hl Hr m ->
  (MiddleButton_Model.m_enabled m = false \/ hw 274 = false) -> forall c, 0 <= cnt c <= 1.
Proof.
  intros hw cnt Hl Hr m (A & B & C) H c.
  assert (Hb : forall b, 0 <= MiddleButton_Proofs.b2z b <= 1) by (intros []; cbn; lia).
  destruct (MiddleButton_Spec.other c) eqn:O; [rewrite B by auto; apply Hb|].
  assert (K : c = 272 \/ c = 273 \/ c = 274).
  { unfold MiddleButton_Spec.other, MiddleButton_Model.BTN_LEFT, MiddleButton_Model.BTN_RIGHT, MiddleButton_Model.BTN_MIDDLE in O.
    destruct (Z.eqb_spec c 272); auto. destruct (Z.eqb_spec c 273); auto. destruct (Z.eqb_spec c 274); auto. discriminate. }
  unfold MiddleButton_Model.BTN_LEFT, MiddleButton_Model.BTN_RIGHT, MiddleButton_Model.BTN_MIDDLE in *.
  destruct (MiddleButton_Model.m_enabled m) eqn:En.
  - destruct H as [H|H]; [discriminate|]. destruct C as [_ C]. rewrite H in C.
    unfold MiddleButton_Proofs.SINV in C.
    destruct (MiddleButton_Model.m_state m); cbn in C; repeat match goal with X : _ /\ _ |- _ => destruct X end;
      destruct K as [->|[->| ->]]; repeat match goal with X : cnt _ = _ |- _ => rewrite X end; try apply Hb; try lia.
  - destruct C as (_ & _ & _ & C1 & C2 & C3 & _). destruct K as [->|[->| ->]]; rewrite ?C1, ?C2, ?C3; apply Hb.
Qed.

Lemma prun_app : forall a b p, prun p (a ++ b) =
  (fst (prun (fst (prun p a)) b), snd (prun p a) ++ snd (prun (fst (prun p a)) b)).
Proof.
  induction a as [|o a IH]; intros b p.
  - cbn. destruct (prun p b); auto.
  - cbn [app]. rewrite !prun_cons. cbn [fst snd]. rewrite IH. cbn [fst snd]. rewrite app_assoc. auto.
Qed.
Lemma legal_app : forall a b now p, legal now p (a ++ b) <->
  legal now p a /\ legal (end_time now a) (fst (prun p a)) b.
Proof.
  induction a as [|o a IH]; intros b now p.
  - cbn. tauto.
  - cbn [app legal end_time fold_left]. rewrite IH, prun_cons. cbn [fst]. unfold end_time. tauto.
Qed.

Section Runs.
Variables (quirk left middle method lock : bool) (button : Z) (scr : Scroll_Model.scr) (now : Z) (ops : list pop).
Let p0 := ps_init quirk left middle method button lock scr.
Hypothesis Hnow : 0 <= now.
Hypothesis Hbutton : mouse_button button.
Hypothesis HL : legal now p0 ops.
Let p := fst (prun p0 ops).
Let outs := snd (prun p0 ops).

Lemma final_PINV : PINV (end_time now ops) p (va (fun _ => false) outs).
Proof. apply run_ok; auto. apply PINV_init; auto. Qed.
Lemma final_gd : gd (fun _ => false) outs.
Proof. apply (run_ok ops now p0 (fun _ => false)); auto. apply PINV_init; auto. Qed.
Lemma final_view : forall c, client_down c outs = vw (p_ds p) c.
Proof.
  intros c. destruct final_PINV as (rep & lt & _ & _ & _ & _ & _ & _ & _ & HV). rewrite <- HV.
  destruct (gd_alternates outs (fun _ => false) c final_gd) as [_ E]. rewrite E. reflexivity.
Qed.
Lemma final_hw : forall c, p_hw p c = hw_after ops c.
Proof. intros c. unfold p. eapply hw_model; eauto. apply PINV_init; auto. Qed.

Lemma buttons_lemma : (forall c, alternates true (transitions c outs)) /\ ~ In PAbort outs /\ ~ In PBug outs.
Proof.
  split; [intros c; apply (gd_alternates outs (fun _ => false) c final_gd)|apply (gd_noabort _ _ final_gd)].
Qed.

Lemma released_lemma : settled p -> p_key p = false -> (forall c, hw_after ops c = false) ->
  forall c, client_down c outs = false.
Proof.
  intros Hs Hk Hu c. rewrite final_view.
  destruct (settled_facts _ _ _ final_PINV Hs Hk) as (rep & lt & _ & HR & E).
  unfold vw. rewrite (PREL_up _ _ HR); auto. intros x. rewrite E, final_hw. auto.
Qed.

Lemma b2z_pos : forall b, (0 <? MiddleButton_Proofs.b2z b) = b.
Proof. intros []; reflexivity. Qed.
Lemma exact_lemma : settled p -> p_key p = false -> MiddleButton_Model.m_enabled (s_mb (p_ds p)) = false ->
  forall c, (s_method (p_ds p) = true -> c <> s_button (p_ds p)) ->
  client_down c outs = hw_after ops (to_left_handed (s_left (p_ds p)) c).
Proof.
  intros Hs Hk He c Hc. rewrite final_view.
  destruct (settled_facts _ _ _ final_PINV Hs Hk) as (rep & lt & _ & (dc & Hl & Hr & (A & B & C) & (S & _)) & E).
  rewrite He in C. destruct C as (_ & _ & _ & C1 & C2 & C3 & _).
  unfold vw. rewrite S.
  2:{ destruct (s_method (p_ds p)); auto. cbn. apply Z.eqb_neq; auto. }
  assert (D : dc c = MiddleButton_Proofs.b2z (mapped (p_ds p) rep c)).
  { destruct (MiddleButton_Spec.other c) eqn:O; [auto|].
    unfold MiddleButton_Spec.other in O. apply negb_false_iff in O. apply orb_true_iff in O. rewrite orb_true_iff in O.
    destruct O as [[O|O]|O]; apply Z.eqb_eq in O; subst; auto. }
  rewrite D, b2z_pos. unfold mapped. rewrite E. apply final_hw.
Qed.

Lemma susp_state : settled p -> p_key p = false ->
  (s_left (p_ds p) = true -> client_down 272 outs = false /\ client_down 273 outs = false) ->
  (MiddleButton_Model.m_enabled (s_mb (p_ds p)) = true -> hw_after ops 274 = false) ->
  SUSP (p_ds p) /\ (any_down p = true \/ forall c, s_cnt (p_ds p) c = 0).
Proof.
  intros Hs Hk Hl Hm.
  pose proof final_PINV as (rep0 & lt0 & _ & R1 & _).
  destruct (settled_facts _ _ _ final_PINV Hs Hk) as (rep & lt & HG & HR & E).
  assert (HR' := HR).
  destruct HR as (dc & HHl & HHr & A & (S1 & S2 & S3 & S4 & S5)).
  assert (Le : forall c, 0 <= dc c <= 1).
  { eapply INV_le1; [exact A|]. destruct (MiddleButton_Model.m_enabled _); auto. right.
    unfold mapped. rewrite (proj2 (lh_middle _ 274) eq_refl), E, final_hw. auto. }
  assert (Cn : forall c, 0 <= s_cnt (p_ds p) c <= 1).
  { intros c. destruct (s_method (p_ds p) && (c =? s_button (p_ds p))) eqn:Em.
    - apply andb_true_iff in Em. destruct Em as [Em Ec]. apply Z.eqb_eq in Ec. subst. destruct (S2 Em) as [-> _]. lia.
    - rewrite S1; auto. }
  split.
  - split; auto. split.
    { intros c Hc.
      destruct (s_method (p_ds p) && (c =? s_button (p_ds p))) eqn:Em.
      - apply andb_true_iff in Em. destruct Em as [Em Ec]. apply Z.eqb_eq in Ec. subst. destruct (S2 Em) as [Z0 _]. congruence.
      - rewrite S1 in Hc by auto. destruct (MiddleButton_Spec.other c) eqn:O.
        + destruct A as (_ & A & _). rewrite A in Hc by auto. unfold mapped in Hc.
          destruct (rep (to_left_handed (s_left (p_ds p)) c)) eqn:Er; [|cbn in Hc; congruence].
          rewrite E in Er. apply R1 in Er. rewrite <- (lh_inv (s_left (p_ds p)) c). apply lh_mouse; auto.
        + unfold MiddleButton_Spec.other in O. apply negb_false_iff in O. apply orb_true_iff in O. rewrite orb_true_iff in O.
          unfold mouse_button.
          destruct O as [[O|O]|O]; apply Z.eqb_eq in O; subst; split; vm_compute; congruence. }
    split.
    { intros L. destruct (Hl L) as [L1 L2]. rewrite final_view in L1, L2. unfold vw in *.
      apply Z.ltb_ge in L1. apply Z.ltb_ge in L2. pose proof (Cn 272). pose proof (Cn 273). lia. }
    split; auto. intros Em. apply S2; auto.
  - destruct (any_down p) eqn:Ad; auto. right. apply (PREL_up _ _ HR').
    intros c. rewrite E. apply (any_false p); auto.
Qed.

Lemma nodup_all : NoDup all_codes.
Proof.
  unfold all_codes. apply FinFun.Injective_map_NoDup; [|apply seq_NoDup]. intros a b. apply Nat2Z.inj.
Qed.
Local Opaque all_codes mouse_buttons.
Lemma release_all : forall s t any, SUSP s -> (any = true \/ forall c, s_cnt s c = 0) ->
  let r := release_buttons any s t all_codes in
  snd r = map (fun c => PButton t c false) (filter (vw s) mouse_buttons) /\
  (forall c, s_cnt (fst r) c = 0) /\ s_mb (fst r) = s_mb s /\ s_timer (fst r) = s_timer s.
Proof.
  clear. intros s t any HS [-> | H0].
  - destruct (release_exact all_codes s t nodup_all HS) as (A1 & A2 & _ & _ & A3 & A4 & _). cbv zeta. rewrite A1.
    pose proof HS as (B & M & _).
    split.
    + apply f_equal. apply filter_codes.
      intros x Hx. unfold vw. apply Z.ltb_ge. specialize (B x). specialize (M x).
      destruct (Z.eq_dec (s_cnt s x) 0); [lia|]. exfalso; auto.
    + split; auto. intros c. rewrite A2. destruct (existsb (Z.eqb c) all_codes) eqn:X; auto.
      destruct (Z.eq_dec (s_cnt s c) 0) as [|N]; auto. exfalso.
      assert (In c all_codes).
      { rewrite all_codes_split. apply in_or_app. right. apply in_or_app. left. apply in_mouse. auto. }
      assert (existsb (Z.eqb c) all_codes = true) by (apply existsb_exists; exists c; split; auto; apply Z.eqb_refl). congruence.
  - cbv zeta. rewrite release_none by auto. cbn [fst snd].
    rewrite filter_none; [auto|]. intros x _. unfold vw. rewrite H0. reflexivity.
Qed.

Lemma suspend_lemma : forall t, settled p -> p_key p = false ->
  (s_left (p_ds p) = true -> client_down 272 outs = false /\ client_down 273 outs = false) ->
  (MiddleButton_Model.m_enabled (s_mb (p_ds p)) = true -> hw_after ops 274 = false) ->
  snd (pstep p (Suspend t)) = map (fun c => PButton t c false) (filter (fun c => client_down c outs) mouse_buttons) /\
  snd (pstep p (Remove t)) = map (fun c => PButton t c false) (filter (fun c => client_down c outs) mouse_buttons).
Proof.
  intros t Hs Hk Hl Hm. destruct (susp_state Hs Hk Hl Hm) as [A B].
  assert (E : filter (fun c => client_down c outs) mouse_buttons = filter (vw (p_ds p)) mouse_buttons).
  { apply filter_ext. exact final_view. }
  rewrite E. unfold pstep. rewrite (PINV_dead _ _ _ final_PINV). unfold neutral. split.
  - destruct (release_all _ t (any_button_down (p_hw p)) A B) as (R & _).
    destruct (release_buttons _ _ _ _) as [s' o']. exact R.
  - set (m' := MiddleButton_Model.mkMB _ _ _ None _ _). cbn [with_ds fst p_hw p_ds].
    set (s1 := set_timer (set_mb (p_ds p) m') None).
    assert (A' : SUSP s1) by exact A.
    destruct (release_all _ t (any_button_down (p_hw p)) A' B) as (R & _).
    destruct (release_buttons _ _ _ _) as [s' o']. exact R.
Qed.

(** Removal leaves no timer armed. *)
Lemma remove_lemma : forall t, settled p -> p_key p = false ->
  (s_left (p_ds p) = true -> client_down 272 outs = false /\ client_down 273 outs = false) ->
  (MiddleButton_Model.m_enabled (s_mb (p_ds p)) = true -> hw_after ops 274 = false) ->
  let p' := fst (pstep p (Remove t)) in
  settled p' /\ s_timer (p_ds p') = None /\ MiddleButton_Model.m_timer (s_mb (p_ds p')) = None.
Proof.
  intros t Hs Hk Hl Hm. destruct (susp_state Hs Hk Hl Hm) as [A B].
  unfold pstep. rewrite (PINV_dead _ _ _ final_PINV). unfold neutral.
  set (m' := MiddleButton_Model.mkMB _ _ _ None _ _). cbn [with_ds fst p_hw p_ds].
  set (s1 := set_timer (set_mb (p_ds p) m') None).
  assert (A' : SUSP s1) by exact A.
  destruct (release_all _ t (any_button_down (p_hw p)) A' B) as (_ & _ & R1 & R2).
  destruct (release_buttons _ _ _ _) as [s' o']. cbn [fst snd p_ds p_deb p_hw p_last p_key p_rel] in *.
  rewrite R1, R2. split; [split; reflexivity|]. split; reflexivity.
Qed.

Lemma config_lemma : forall o, op_ok (end_time now ops) p o ->
  let p' := fst (pstep p o) in
  (cfg (p_ds p') <> cfg (p_ds p) ->
   (forall c, hw_after (ops ++ [o]) c = false) /\ forall c, client_down c (outs ++ snd (pstep p o)) = false) /\
  ((forall c, hw_after (ops ++ [o]) c = false) -> (exists t c, In (PButton t c false) (snd (pstep p o))) ->
   ~ pending p').
Proof.
  intros o Ho p'. destruct (step_ok _ _ _ o final_PINV Ho) as (A & B & C1 & C2).
  assert (HW : forall c, p_hw p' c = hw_after (ops ++ [o]) c).
  { intros c. unfold hw_after. rewrite fold_left_app. cbn [fold_left].
    pose proof (hw_model [o] _ p _ (hw_after ops) final_PINV (conj Ho I) final_hw c) as X.
    rewrite prun_cons in X. exact X. }
  split.
  - intros Hc. destruct C1 as [C1|[C1 C1']]; [contradiction|]. split; [intros c; rewrite <- HW; auto|].
    intros c. destruct A as (rep & lt & _ & _ & _ & _ & _ & _ & _ & HV).
    destruct (gd_alternates (outs ++ snd (pstep p o)) (fun _ => false) c) as [_ E].
    { apply gd_app. split; [apply final_gd|exact B]. }
    unfold client_down. rewrite <- E, va_app, HV. apply C1'.
  - intros Hu He [Hp|[Hp|[Hp|Hp]]]; (assert (N : nopend (p_ds p')) by (apply C2; auto; intros c; rewrite HW; auto));
      unfold nopend, wants, cfg in N; inversion N; congruence.
Qed.
End Runs.
