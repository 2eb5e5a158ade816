(** Proofs about tablet pads: what rings and strips report; left-handed use *)
Require Import Coq.ZArith.ZArith Coq.QArith.QArith Coq.Lists.List Coq.Bool.Bool Coq.micromega.Lia Coq.micromega.Lqa.
Require Import Verif.Pad_Model Verif.Pad_Spec Verif.Pad_Proofs Verif.Pad_Proofs2 Verif.Pad_Proofs3 Verif.Pad_Proofs4 Verif.Pad_Proofs5 Verif.Pad_Proofs6.
Import ListNotations.
Open Scope Z_scope.
Local Opaque codes.

Lemma notify_reports : forall nb m e t down mask cs gs gs' l, notify_mask nb m e t down mask cs gs = Some (gs', l) -> reports l = [].
Proof.
  intros nb m e t down mask. induction cs as [|c cs IH]; intros gs gs' l H; cbn in H; [injection H as <- <-; reflexivity|].
  destruct (mask c); [|eapply IH; eassumption]. destruct (m c) as [|n|k]; [eapply IH; eassumption| |].
  - destruct (find _ gs) as [g|]; [|discriminate]. destruct (notify_mask nb m e t down mask cs _) as [[gs2 l2]|] eqn:N; [|discriminate]. injection H as <- <-. cbn. eapply IH, N.
  - destruct (notify_mask nb m e t down mask cs gs) as [[gs2 l2]|] eqn:N; [|discriminate]. injection H as <- <-. cbn. eapply IH, N.
Qed.
Definition report_of (lg : Z -> Q) (d : device) (p : pad) (e : env) (a : axis) : bool * Z * option Q :=
  (is_ring a, axis_number a, if misc_term p && (misc e =? 0) then Some (-1)%Q else if is_ring a then handle_ring d (lh p) a (value e a) else handle_strip lg d (lh p) a (value e a)).
Lemma axis_reports : forall lg d p e t a l, notify_axis lg d p e t a = Some l -> reports l = if changed p a then [report_of lg d p e a] else [].
Proof.
  intros lg d p e t a l H. unfold notify_axis in H. destruct (changed p a); [|injection H as <-; reflexivity]. destruct (has_abs d a); [|discriminate]. unfold report_of. destruct (is_ring a); destruct (find _ _); try discriminate; injection H as <-; reflexivity.
Qed.
Definition ax_ok (p : pad) : Prop := ax_upd p = existsb (changed p) axes4.
Definition same_frame (p : pad) (f : frame) : Prop := ax_ok p /\ (forall a, changed p a = f_moved f a) /\ misc_term p = f_misc f /\ mode p = f_mode f.
Lemma flush_reports : forall lg d p e t p' l, ax_ok p -> flush lg d p e t = Some (p', l) ->
  reports l = flat_map (fun a => if changed p a then [report_of lg d p e a] else []) axes4 /\ ax_upd p' = false /\ (forall a, changed p' a = false) /\ misc_term p' = (if existsb (changed p) axes4 then false else misc_term p) /\ mode p' = mode p.
Proof.
  intros lg d p e t p' l AO H. unfold flush in H. destruct (flush_axes lg d p e t) as [[p1 l1]|] eqn:F1; [|discriminate]. destruct (flush_released p1 e t) as [[p2 l2]|] eqn:F2; [|discriminate]. destruct (flush_pressed p2 e t) as [[p3 l3]|] eqn:F3; [|discriminate]. injection H as <- <-.
  assert (A : reports l1 = flat_map (fun a => if changed p a then [report_of lg d p e a] else []) axes4 /\ ax_upd p1 = false /\ (forall a, changed p1 a = false) /\ misc_term p1 = (if existsb (changed p) axes4 then false else misc_term p) /\ mode p1 = mode p).
  { unfold flush_axes in F1. unfold ax_ok in AO. destruct (ax_upd p) eqn:AU.
    - destruct (notify_axes lg d p e t) as [l0|] eqn:N; [|discriminate]. injection F1 as <- <-. rewrite <- AO. cbn [ax_upd changed misc_term mode]. split; [|auto]. unfold notify_axes, app_opt in N. destruct (notify_axis lg d p e t RING1) as [r1|] eqn:E1; [|discriminate]. destruct (notify_axis lg d p e t RING2) as [r2|] eqn:E2; [|discriminate]. destruct (notify_axis lg d p e t STRIP1) as [r3|] eqn:E3; [|discriminate]. destruct (notify_axis lg d p e t STRIP2) as [r4|] eqn:E4; [|discriminate].
      injection N as <-. apply axis_reports in E1, E2, E3, E4. unfold reports in *. rewrite !flat_map_app, E1, E2, E3, E4. cbn [axes4 flat_map]. rewrite app_nil_r. reflexivity.
    - injection F1 as <- <-. assert (C : forall a, changed p a = false). { intros a. cbn in AO. destruct a; destruct (changed p RING1), (changed p RING2), (changed p STRIP1), (changed p STRIP2); try discriminate; reflexivity. } rewrite <- AO. split; [cbn; rewrite !C; reflexivity|auto]. }
  destruct A as (A1 & A2 & A3 & A4 & A5). assert (B : reports l2 = [] /\ ax_upd p2 = ax_upd p1 /\ changed p2 = changed p1 /\ misc_term p2 = misc_term p1 /\ mode p2 = mode p1).
  { unfold flush_released in F2. destruct (released_upd p1); [|injection F2 as <- <-; auto]. destruct (notify_mask _ _ _ _ _ _ _ _) as [[gs l0]|] eqn:N; [|discriminate]. injection F2 as <- <-. apply notify_reports in N. auto. }
  destruct B as (B1 & B2 & B3 & B4 & B5). assert (C : reports l3 = [] /\ ax_upd p3 = ax_upd p2 /\ changed p3 = changed p2 /\ misc_term p3 = misc_term p2 /\ mode p3 = mode p2).
  { unfold flush_pressed in F3. destruct (pressed_upd p2); [|injection F3 as <- <-; auto]. destruct (notify_mask _ _ _ _ _ _ _ _) as [[gs l0]|] eqn:N; [|discriminate]. injection F3 as <- <-. apply notify_reports in N. auto. }
  destruct C as (C1 & C2 & C3 & C4 & C5). cbn [save_prev ax_upd changed misc_term mode]. unfold reports in *. rewrite !flat_map_app, A1, B1, C1. cbn [app]. rewrite !app_nil_r. rewrite C2, B2, C3, B3, C4, B4, C5, B5. auto.
Qed.
Lemma suspend_reports : forall lg d p e t p' l, pad_ok p -> ax_ok p -> suspend lg d p e t = Some (p', l) ->
  ax_upd p' = false /\ (forall a, changed p' a = false) /\ misc_term p' = (if existsb (changed p) axes4 then false else misc_term p) /\ mode p' = mode p.
Proof.
  intros lg d p e t p' l K A H. unfold suspend in H. destruct (release_ok (tl codes) p K) as (RA & (RB1 & RB2 & RB3 & RB4 & RB5) & RC & RD & RE & RF & RG & _). apply flush_reports in H; [|unfold ax_ok; rewrite RE, RF; exact A]. rewrite RE, RG, RB4 in H. apply H.
Qed.
Lemma step_frame : forall lg d p i p' o f, pad_ok p -> same_frame p f -> pstep lg d p i = Some (p', o) -> same_frame p' (frame1 f i).
Proof.
  intros lg d p i p' o f K (F0 & F1 & F2 & F3) H.
  assert (EX : existsb (f_moved f) axes4 = existsb (changed p) axes4) by (cbn; rewrite !F1; reflexivity).
  assert (FL : forall r m, ax_upd r = false -> (forall a, changed r a = false) -> misc_term r = (if existsb (changed p) axes4 then false else misc_term p) -> mode r = m -> same_frame r (frame_end f m)).
  { intros r m X1 X2 X3 X4. unfold same_frame, ax_ok. cbn [frame_end f_moved f_misc f_mode]. rewrite EX. split; [cbn; rewrite X1, !X2; reflexivity|]. split; [exact X2|]. split; [|exact X4]. rewrite X3, F2. reflexivity. }
  destruct i as [a| | |c v|e t|e t|m e t|b]; cbn [pstep] in H; cbn [frame1].
  - injection H as <- <-. split; [unfold ax_ok; cbn; destruct a; cbn; rewrite ?orb_true_r; reflexivity|]. cbn. split; [intros x; rewrite F1; reflexivity|auto].
  - injection H as <- <-. split; [exact F0|]. cbn. auto.
  - injection H as <- <-. split; auto.
  - injection H as <- <-. unfold process_key. destruct (v =? 2); split; auto.
  - destruct (flush_reports _ _ _ _ _ _ _ F0 H) as (_ & X1 & X2 & X3 & X4). apply FL; congruence || auto.
  - destruct (suspend_reports _ _ _ _ _ _ _ K F0 H) as (X1 & X2 & X3 & X4). apply FL; congruence || auto.
  - unfold set_mode in H. rewrite <- F3. destruct (Z.eqb_spec (Z.land get_modes m) m) as [L|L]; cbn [negb] in H.
    + destruct (Z.eqb_spec m (mode p)); [injection H as <- <-; split; auto|]. destruct (land1 m L) as [-> | ->].
      * change (0 =? 0) with true in *. injection H as <- <-. split; [exact F0|]. cbn. auto.
      * change (1 =? 0) with false in *. change (1 =? 1) with true. destruct (suspend lg d p e t) as [[q r]|] eqn:S; [|discriminate]. injection H as <- <-. destruct (suspend_reports _ _ _ _ _ _ _ K F0 S) as (X1 & X2 & X3 & X4). apply FL; auto.
    + injection H as <- <-. assert (M0 : m <> 0) by (intros ->; apply L; reflexivity). assert (M1 : m <> 1) by (intros ->; apply L; reflexivity). destruct (m =? mode p); [split; auto|]. destruct (Z.eqb_spec m 0); [contradiction|]. destruct (Z.eqb_spec m 1); [contradiction|]. split; auto.
  - injection H as <- <-. unfold set_left_handed. destruct (reversible d); [|split; auto]. cbn [snd]. match goal with |- context [if ?x then _ else _] => destruct x end; split; auto.
Qed.
Lemma run_frame : forall lg d l p p' o f, pad_ok p -> same_frame p f -> prun lg d p l = Some (p', o) -> same_frame p' (fold_left frame1 l f).
Proof.
  intros lg d. induction l as [|i l IH]; intros p p' o f K F H; cbn [prun] in H; [injection H as <- <-; exact F|]. destruct (pstep lg d p i) as [[q r]|] eqn:S; [|discriminate]. destruct (prun lg d q l) as [[q2 r2]|] eqn:E; [|discriminate]. injection H as <- <-. cbn [fold_left]. eapply IH; [|eapply step_frame; eassumption|exact E]. eapply step_spec; eassumption.
Qed.
(** ** Left-handed use *)
Lemma step_left : forall lg d p i p' o, pad_ok p -> pstep lg d p i = Some (p', o) ->
  lh_want p' = (match i with SetLeftHanded b => if reversible d then b else lh_want p | _ => lh_want p end) /\
  (lh p' = lh p \/ (lh p' = lh_want p' /\ any_down p' = false)).
Proof.
  intros lg d p i p' o K H. assert (AD : forall q q', bits q' = bits q -> any_down q' = any_down q) by (intros q q' E; unfold any_down; rewrite E; reflexivity).
  assert (F : forall q e t r s, pad_ok q -> lh q = lh p -> lh_want q = lh_want p -> flush lg d q e t = Some (r, s) -> lh_want r = lh_want p /\ (lh r = lh p \/ (lh r = lh_want r /\ any_down r = false))).
  { intros q e t r s Q1 Q2 Q3 Q4. destruct (flush_spec _ _ _ _ _ _ _ Q1 Q4) as (_ & (_ & _ & _ & _ & X) & B & _ & _ & _ & _ & _ & _ & _ & _ & Y). rewrite X, Q3. split; [reflexivity|]. destruct Y as [Y|[Y Z0]]; [left; congruence|right]. split; [congruence|]. rewrite (AD q r B). exact Z0. }
  assert (SU : forall e t r s, suspend lg d p e t = Some (r, s) -> lh_want r = lh_want p /\ (lh r = lh p \/ (lh r = lh_want r /\ any_down r = false))).
  { intros e t r s X. destruct (release_ok (tl codes) p K) as (RA & (RB1 & RB2 & RB3 & RB4 & RB5) & RC & RD & RE & RF & RG & RH & _). exact (F _ e t r s RA RH RB5 X). }
  destruct i as [a| | |c v|e t|e t|m e t|b]; cbn [pstep] in H; try (injection H as <- <-; split; auto; fail).
  - injection H as <- <-. unfold process_key. destruct (v =? 2); split; auto.
  - eapply F; [exact K|reflexivity|reflexivity|exact H].
  - eapply SU, H.
  - unfold set_mode in H. destruct (negb (Z.land get_modes m =? m)); [injection H as <- <-; auto|]. destruct (m =? mode p); [injection H as <- <-; auto|]. destruct (m =? 0); [injection H as <- <-; auto|]. destruct (suspend lg d p e t) as [[q r]|] eqn:S; [|discriminate]. injection H as <- <-. exact (SU e t q r S).
  - injection H as <- <-. unfold set_left_handed. destruct (reversible d); [|auto]. cbn [snd lh lh_want]. destruct (Bool.eqb (lh p) b); [split; [reflexivity|left; reflexivity]|]. cbn [change_left_handed lh lh_want]. split; [reflexivity|]. unfold any_down. cbn [bits]. cbn [change_left_handed bits]. destruct (existsb (bits p) codes); auto.
Qed.
