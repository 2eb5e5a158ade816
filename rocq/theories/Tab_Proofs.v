(** * Proofs about tablet tools: reading and writing the state *)
Require Import Coq.ZArith.ZArith Coq.QArith.QArith Coq.Lists.List Coq.Bool.Bool Coq.micromega.Lia.
From Verif Require Import Tab_Model Tab_Spec.
Import ListNotations.
Open Scope Z_scope.

Ltac fields := cbn [axes_upd pressed_upd btn_down released_upd tool_upd contact leaving outp entering econt lcont oor changed ax smooth_pt hidx hcount samples cur_val prev_val absv locals globals next_tid btn pbtn tstate ptstate ctype cid cserial touch_dev arb rot_dev rot_lh rotate want_rotate lh lh_want need_force timer forced last_time in_progress crash hang set_axes_upd set_pressed_upd set_btn_down set_released_upd set_tool_upd set_contact set_leaving set_outp set_entering set_econt set_lcont set_oor set_changed set_ax set_smooth_pt set_hidx set_hcount set_samples set_cur_val set_prev_val set_absv set_locals set_globals set_next_tid set_btn set_pbtn set_tstate set_ptstate set_ctype set_cid set_cserial set_touch_dev set_arb set_rot_dev set_rot_lh set_rotate set_want_rotate set_lh set_lh_want set_need_force set_timer set_forced set_last_time set_in_progress set_crash set_hang].
Ltac fields_in H := cbn [axes_upd pressed_upd btn_down released_upd tool_upd contact leaving outp entering econt lcont oor changed ax smooth_pt hidx hcount samples cur_val prev_val absv locals globals next_tid btn pbtn tstate ptstate ctype cid cserial touch_dev arb rot_dev rot_lh rotate want_rotate lh lh_want need_force timer forced last_time in_progress crash hang set_axes_upd set_pressed_upd set_btn_down set_released_upd set_tool_upd set_contact set_leaving set_outp set_entering set_econt set_lcont set_oor set_changed set_ax set_smooth_pt set_hidx set_hcount set_samples set_cur_val set_prev_val set_absv set_locals set_globals set_next_tid set_btn set_pbtn set_tstate set_ptstate set_ctype set_cid set_cserial set_touch_dev set_arb set_rot_dev set_rot_lh set_rotate set_want_rotate set_lh set_lh_want set_need_force set_timer set_forced set_last_time set_in_progress set_crash set_hang] in H.
(** A state that differs in the axes, their history and the error flags only *)
Definition put (s : tab) (changed_ : axis -> bool) (ax_ : axes) (smooth_pt_ : Z * Z) (hidx_ : nat) (hcount_ : nat) (samples_ : nat -> axes) (crash_ : bool) (hang_ : bool) : tab := Tab (axes_upd s) (pressed_upd s) (btn_down s) (released_upd s) (tool_upd s) (contact s) (leaving s) (outp s) (entering s) (econt s) (lcont s) (oor s) changed_ ax_ smooth_pt_ hidx_ hcount_ samples_ (cur_val s) (prev_val s) (absv s) (locals s) (globals s) (next_tid s) (btn s) (pbtn s) (tstate s) (ptstate s) (ctype s) (cid s) (cserial s) (touch_dev s) (arb s) (rot_dev s) (rot_lh s) (rotate s) (want_rotate s) (lh s) (lh_want s) (need_force s) (timer s) (forced s) (last_time s) (in_progress s) crash_ hang_.
Ltac pfields := cbn [put axes_upd pressed_upd btn_down released_upd tool_upd contact leaving outp entering econt lcont oor changed ax smooth_pt hidx hcount samples cur_val prev_val absv locals globals next_tid btn pbtn tstate ptstate ctype cid cserial touch_dev arb rot_dev rot_lh rotate want_rotate lh lh_want need_force timer forced last_time in_progress crash hang set_axes_upd set_pressed_upd set_btn_down set_released_upd set_tool_upd set_contact set_leaving set_outp set_entering set_econt set_lcont set_oor set_changed set_ax set_smooth_pt set_hidx set_hcount set_samples set_cur_val set_prev_val set_absv set_locals set_globals set_next_tid set_btn set_pbtn set_tstate set_ptstate set_ctype set_cid set_cserial set_touch_dev set_arb set_rot_dev set_rot_lh set_rotate set_want_rotate set_lh set_lh_want set_need_force set_timer set_forced set_last_time set_in_progress set_crash set_hang].
(** The other fields are the same *)
Definition same (s s' : tab) : Prop := axes_upd s' = axes_upd s /\ pressed_upd s' = pressed_upd s /\ btn_down s' = btn_down s /\ released_upd s' = released_upd s /\ tool_upd s' = tool_upd s /\ contact s' = contact s /\ leaving s' = leaving s /\ outp s' = outp s /\ entering s' = entering s /\ econt s' = econt s /\ lcont s' = lcont s /\ oor s' = oor s /\ cur_val s' = cur_val s /\ prev_val s' = prev_val s /\ absv s' = absv s /\ locals s' = locals s /\ globals s' = globals s /\ next_tid s' = next_tid s /\ btn s' = btn s /\ pbtn s' = pbtn s /\ tstate s' = tstate s /\ ptstate s' = ptstate s /\ ctype s' = ctype s /\ cid s' = cid s /\ cserial s' = cserial s /\ touch_dev s' = touch_dev s /\ arb s' = arb s /\ rot_dev s' = rot_dev s /\ rot_lh s' = rot_lh s /\ rotate s' = rotate s /\ want_rotate s' = want_rotate s /\ lh s' = lh s /\ lh_want s' = lh_want s /\ need_force s' = need_force s /\ timer s' = timer s /\ forced s' = forced s /\ last_time s' = last_time s /\ in_progress s' = in_progress s.
(** ... but for the flags sending an event changes and the rotation *)
Definition rest (s s' : tab) : Prop := btn_down s' = btn_down s /\ tool_upd s' = tool_upd s /\ oor s' = oor s /\ cur_val s' = cur_val s /\ prev_val s' = prev_val s /\ absv s' = absv s /\ locals s' = locals s /\ globals s' = globals s /\ next_tid s' = next_tid s /\ btn s' = btn s /\ pbtn s' = pbtn s /\ tstate s' = tstate s /\ ptstate s' = ptstate s /\ ctype s' = ctype s /\ cid s' = cid s /\ cserial s' = cserial s /\ touch_dev s' = touch_dev s /\ arb s' = arb s /\ rot_dev s' = rot_dev s /\ rot_lh s' = rot_lh s /\ lh_want s' = lh_want s /\ need_force s' = need_force s /\ timer s' = timer s /\ forced s' = forced s /\ last_time s' = last_time s /\ in_progress s' = in_progress s.

Lemma same_refl : forall s, same s s.
Proof. intros s. unfold same. tauto. Qed.
Lemma same_trans : forall a b c, same a b -> same b c -> same a c.
Proof. unfold same. intros a b c H1 H2. decompose [and] H1. decompose [and] H2. repeat split; congruence. Qed.
Lemma rest_refl : forall s, rest s s.
Proof. intros s. unfold rest. tauto. Qed.
Lemma rest_trans : forall a b c, rest a b -> rest b c -> rest a c.
Proof. unfold rest. intros a b c H1 H2. decompose [and] H1. decompose [and] H2. repeat split; congruence. Qed.
Lemma same_rest : forall a b, same a b -> rest a b.
Proof. unfold same, rest. intros a b H. decompose [and] H. repeat split; assumption. Qed.

Ltac same_tac := unfold same; fields; repeat split; reflexivity.

Lemma need_abs_same : forall d s a, same s (need_abs d s a).
Proof. intros d s a. unfold need_abs. destruct (has_abs d a); [apply same_refl | same_tac]. Qed.
Lemma update_xy_same : forall d s, same s (update_xy d s).
Proof. intros. unfold update_xy. destruct (changed s X || changed s Y); [same_tac | apply same_refl]. Qed.
Lemma update_pressure_same : forall d s o, same s (update_pressure d s o).
Proof. intros. unfold update_pressure. destruct (changed s PRESSURE); [|apply same_refl]. eapply same_trans; [apply (need_abs_same d s PRESSURE) | same_tac]. Qed.
Lemma update_distance_same : forall d s, same s (update_distance d s).
Proof. intros. unfold update_distance. destruct (changed s DISTANCE); [|apply same_refl]. eapply same_trans; [apply (need_abs_same d s DISTANCE) | same_tac]. Qed.
Lemma update_slider_same : forall d s, same s (update_slider d s).
Proof. intros. unfold update_slider. destruct (changed s SLIDER); [|apply same_refl]. eapply same_trans; [apply (need_abs_same d s SLIDER) | same_tac]. Qed.
Lemma update_tilt_same : forall d s, same s (update_tilt d s).
Proof.
  intros. unfold update_tilt. destruct (changed s TILT_X || changed s TILT_Y); [|apply same_refl].
  eapply same_trans; [apply (need_abs_same d s TILT_X)|]. eapply same_trans; [apply (need_abs_same d _ TILT_Y) | same_tac].
Qed.
Lemma update_wheel_same : forall d s, same s (update_wheel d s).
Proof. intros. unfold update_wheel. destruct (changed s REL_WHEEL); same_tac. Qed.
Lemma update_rotation_same : forall d s, same s (update_rotation d s).
Proof.
  intros. unfold update_rotation. destruct (is_mouse (ctype s)).
  - destruct (changed s TILT_X || changed s TILT_Y); same_tac.
  - eapply same_trans with (b := if changed s ROTATION_Z then set_ax (need_abs d s ROTATION_Z) (set_rotation (ax (need_abs d s ROTATION_Z)) (artpen_rotation d (absv (need_abs d s ROTATION_Z) ROTATION_Z))) else s).
    + destruct (changed s ROTATION_Z); [|apply same_refl]. eapply same_trans; [apply (need_abs_same d s ROTATION_Z) | same_tac].
    + cbv zeta. match goal with |- same ?x _ => destruct (lh x) eqn:E end; [same_tac | apply same_refl].
Qed.
Lemma history_push_same : forall d n s a, same s (history_push d n s a).
Proof.
  induction n as [|n IH]; intros s a; cbn [history_push].
  - match goal with |- same _ (if ?b then _ else _) => destruct b end; same_tac.
  - match goal with |- same _ (if ?b then _ else _) => destruct b end; [|same_tac].
    eapply same_trans; [|apply IH]. same_tac.
Qed.
Lemma smoothen_same : forall d s, same s (fst (smoothen d s)).
Proof. intros. unfold smoothen. cbn [fst]. destruct (Nat.leb (hsize d) (hcount s)); [apply same_refl | same_tac]. Qed.
Lemma process_delta_same : forall d s o a t, same s (fst (process_delta d s o a t)).
Proof. intros. unfold process_delta. cbn [fst]. same_tac. Qed.
Lemma check_notify_same : forall d s o t s' a rc, check_notify_axes d s o t = (s', a, rc) -> same s s'.
Proof.
  intros d s o t s' a rc H. unfold check_notify_axes in H.
  set (s1 := if existsb (changed s) all_axes then _ else s) in H.
  assert (H1 : same s s1).
  { unfold s1. destruct (existsb (changed s) all_axes); [|apply same_refl].
    eapply same_trans; [|apply update_rotation_same]. eapply same_trans; [|apply update_wheel_same]. eapply same_trans; [|apply update_tilt_same].
    eapply same_trans; [|apply update_slider_same]. eapply same_trans; [|apply update_distance_same]. eapply same_trans; [|apply update_pressure_same].
    apply update_xy_same. }
  clearbody s1.
  set (s2 := if econt s1 || lcont s1 then set_hcount s1 0%nat else s1) in H.
  assert (H2 : same s1 s2). { unfold s2. destruct (econt s1 || lcont s1); [same_tac | apply same_refl]. }
  clearbody s2.
  pose proof (history_push_same d (hsize d) s2 (ax s2)) as H3. set (s3 := history_push d (hsize d) s2 (ax s2)) in *. clearbody s3.
  pose proof (smoothen_same d s3) as H4. destruct (smoothen d s3) as [s4 a4]. cbn [fst] in H4.
  pose proof (process_delta_same d s4 o a4 t) as H5. destruct (process_delta d s4 o a4 t) as [s5 a5]. cbn [fst] in H5.
  injection H as <- _ _. exact (same_trans _ _ _ H1 (same_trans _ _ _ H2 (same_trans _ _ _ H3 (same_trans _ _ _ H4 H5)))).
Qed.

(** ** The events without axes and times *)
Inductive aev := AIn (o : tool) | AOut (o : tool) | ATip (o : tool) (b : bool) | AAxis (o : tool) (b : bool) | ABtn (o : tool) (b : bool) (c : Z) (p : bool).
Definition erase1 (e : tev) : list aev :=
  match e with
  | EProx _ o true _ _ => [AIn o] | EProx _ o false _ _ => [AOut o] | ETip _ o b _ _ => [ATip o b] | EAxis _ o b _ _ => [AAxis o b]
  | EButton _ o b _ c p => [ABtn o b c p] | _ => []
  end.
Definition erase (l : list tev) : list aev := flat_map erase1 l.
Lemma erase_app : forall a b, erase (a ++ b) = erase a ++ erase b.
Proof. intros. unfold erase. apply flat_map_app. Qed.

Definition btn_events (o : tool) (b : bool) (f : Z -> bool) (p : bool) : list aev := map (fun c => ABtn o b c p) (filter f buttons).
Definition tip_after (s : tab) : bool := if econt s then true else if lcont s then false else contact s.
Definition sent (s : tab) (o : tool) : list aev :=
  (if entering s then [AIn o] else []) ++
  (if econt s then [ATip o true] else if lcont s then [ATip o false] else if axes_upd s && negb (leaving s) && negb (entering s) then [AAxis o (contact s)] else []) ++
  (if released_upd s then btn_events o (tip_after s) (fun c => pbtn s c && negb (btn s c)) false else []) ++
  (if pressed_upd s then btn_events o (tip_after s) (fun c => btn s c && negb (pbtn s c)) true else []) ++
  (if leaving s then [AOut o] else []).

Lemma erase_notify : forall s o t p, erase (notify_buttons s o t p) = btn_events o (contact s) (fun c => if p then btn s c && negb (pbtn s c) else pbtn s c && negb (btn s c)) p.
Proof.
  intros. unfold notify_buttons, btn_events. induction (filter (fun c => if p then btn s c && negb (pbtn s c) else pbtn s c && negb (btn s c)) buttons) as [|x l IH]; [reflexivity|].
  cbn [map erase flat_map erase1 app]. f_equal. exact IH.
Qed.
Lemma change_rotation_rest : forall s b, rest s (fst (change_rotation s b)) /\ erase (snd (change_rotation s b)) = [] /\
  (axes_upd (fst (change_rotation s b)) = axes_upd s /\ pressed_upd (fst (change_rotation s b)) = pressed_upd s /\ released_upd (fst (change_rotation s b)) = released_upd s
   /\ contact (fst (change_rotation s b)) = contact s /\ leaving (fst (change_rotation s b)) = leaving s /\ outp (fst (change_rotation s b)) = outp s
   /\ entering (fst (change_rotation s b)) = entering s /\ econt (fst (change_rotation s b)) = econt s /\ lcont (fst (change_rotation s b)) = lcont s).
Proof.
  intros s b. unfold change_rotation, apply_rotation. cbv zeta. cbn [fst snd]. fields.
  split; [|split].
  - destruct (Bool.eqb (rotate s) (lh s || rot_lh s)); [|destruct (negb (outp s))]; unfold rest; fields; repeat split; reflexivity.
  - match goal with |- erase (match ?x with _ => _ end) = _ => destruct x end; [destruct b|]; reflexivity.
  - destruct (Bool.eqb (rotate s) (lh s || rot_lh s)); [|destruct (negb (outp s))]; fields; repeat split; reflexivity.
Qed.
Lemma change_left_rest : forall s, rest s (fst (change_to_left_handed s)) /\ erase (snd (change_to_left_handed s)) = [] /\
  (axes_upd (fst (change_to_left_handed s)) = axes_upd s /\ pressed_upd (fst (change_to_left_handed s)) = pressed_upd s /\ released_upd (fst (change_to_left_handed s)) = released_upd s
   /\ contact (fst (change_to_left_handed s)) = contact s /\ leaving (fst (change_to_left_handed s)) = leaving s /\ outp (fst (change_to_left_handed s)) = outp s
   /\ entering (fst (change_to_left_handed s)) = entering s /\ econt (fst (change_to_left_handed s)) = econt s /\ lcont (fst (change_to_left_handed s)) = lcont s).
Proof.
  intros s. unfold change_to_left_handed. destruct (Bool.eqb (lh s) (lh_want s)).
  - cbn [fst snd]. split; [apply rest_refl | split; [reflexivity|]]. repeat split; reflexivity.
  - destruct (change_rotation_rest (set_lh s (lh_want s)) true) as (R & E & F). split; [|split; [exact E | exact F]].
    eapply rest_trans; [|exact R]. unfold rest. fields. repeat split; reflexivity.
Qed.

(** What one call of tablet_send_events does *)
Record sends (s s' : tab) (o : tool) (out : list tev) : Prop := {
  sd_out : erase out = sent s o;
  sd_rest : rest s s';
  sd_axes : axes_upd s' = false; sd_pressed : pressed_upd s' = false; sd_released : released_upd s' = false;
  sd_contact : contact s' = tip_after s; sd_leaving : leaving s' = false; sd_outp : outp s' = outp s || leaving s;
  sd_entering : entering s' = false; sd_econt : econt s' = false; sd_lcont : lcont s' = lcont s && econt s }.
Lemma tab_eta : forall s, s = Tab (axes_upd s) (pressed_upd s) (btn_down s) (released_upd s) (tool_upd s) (contact s) (leaving s) (outp s) (entering s) (econt s) (lcont s) (oor s) (changed s) (ax s) (smooth_pt s) (hidx s) (hcount s) (samples s) (cur_val s) (prev_val s) (absv s) (locals s) (globals s) (next_tid s) (btn s) (pbtn s) (tstate s) (ptstate s) (ctype s) (cid s) (cserial s) (touch_dev s) (arb s) (rot_dev s) (rot_lh s) (rotate s) (want_rotate s) (lh s) (lh_want s) (need_force s) (timer s) (forced s) (last_time s) (in_progress s) (crash s) (hang s).
Proof. intros s. case s. intros. reflexivity. Qed.

(** The part of tablet_send_events behind the axes *)
Definition send_tail (s : tab) (a : axes) (o : tool) (t : Z) : tab * list tev :=
  let '(s, a, o1) := send_prox_in s o a t in
  let '(s, a, o2, sent) := send_tip s o a t in
  let '(s, a, o3) := if sent then (s, a, []) else send_axes s o a t in
  let s := set_changed (set_econt s false) no_axes in
  let '(s, o4) := send_buttons s o t in
  let '(s, o5, gone) := send_prox_out s o a t in
  let '(s, o6) := if gone then let '(s, o6) := change_to_left_handed s in (set_hcount (apply_rotation s) 0%nat, o6) else (s, []) in
  (s, o1 ++ o2 ++ o3 ++ o4 ++ o5 ++ o6)%list.
Lemma send_events_eq : forall d s o t, send_events d s o t =
  let '(s1, a, o0) := if leaving s then (set_axes_upd s false, ax s, [])
    else let '(s, a, rc) := check_notify_axes d s o t in (s, a, if rc then update_rect d s t else []) in
  let '(s2, o1) := send_tail s1 a o t in (s2, o0 ++ o1)%list.
Proof.
  intros. unfold send_events, send_tail.
  destruct (if leaving s then _ else _) as [[s1 a] o0].
  destruct (send_prox_in s1 o a t) as [[s2 a2] o1]. destruct (send_tip s2 o a2 t) as [[[s3 a3] o2] snt].
  destruct (if snt then _ else _) as [[s4 a4] o3]. destruct (send_buttons (set_changed (set_econt s4 false) no_axes) o t) as [s5 o4].
  destruct (send_prox_out s5 o a4 t) as [[s6 o5] gone].
  destruct (if gone then _ else _) as [s7 o6]. reflexivity.
Qed.
Lemma apply_rotation_rest : forall s, rest s (apply_rotation s) /\
  (axes_upd (apply_rotation s) = axes_upd s /\ pressed_upd (apply_rotation s) = pressed_upd s /\ released_upd (apply_rotation s) = released_upd s
   /\ contact (apply_rotation s) = contact s /\ leaving (apply_rotation s) = leaving s /\ outp (apply_rotation s) = outp s
   /\ entering (apply_rotation s) = entering s /\ econt (apply_rotation s) = econt s /\ lcont (apply_rotation s) = lcont s).
Proof.
  intros s. unfold apply_rotation. destruct (Bool.eqb (rotate s) (want_rotate s)); [|destruct (negb (outp s))]; unfold rest; fields; repeat split; reflexivity.
Qed.
(** The last step of tablet_send_events *)
Lemma gone_rest : forall s, let r := change_to_left_handed s in let s' := set_hcount (apply_rotation (fst r)) 0%nat in
  rest s s' /\ erase (snd r) = [] /\
  (axes_upd s' = axes_upd s /\ pressed_upd s' = pressed_upd s /\ released_upd s' = released_upd s
   /\ contact s' = contact s /\ leaving s' = leaving s /\ outp s' = outp s /\ entering s' = entering s /\ econt s' = econt s /\ lcont s' = lcont s).
Proof.
  intros s r s'. destruct (change_left_rest s) as (R & E & F). fold r in R, E, F.
  destruct (apply_rotation_rest (fst r)) as (R2 & F2).
  split; [|split; [exact E|]].
  - eapply rest_trans; [exact R|]. eapply rest_trans; [exact R2|]. unfold s', rest. fields. repeat split; reflexivity.
  - unfold s'. fields. decompose [and] F. decompose [and] F2. repeat split; congruence.
Qed.
Definition sent_tail (s : tab) (o : tool) : list aev :=
  (if entering s then [AIn o] else []) ++
  (if econt s then [ATip o true] else if lcont s then [ATip o false] else if axes_upd s && negb (entering s) then [AAxis o (contact s)] else []) ++
  (if released_upd s then btn_events o (tip_after s) (fun c => pbtn s c && negb (btn s c)) false else []) ++
  (if pressed_upd s then btn_events o (tip_after s) (fun c => btn s c && negb (pbtn s c)) true else []) ++
  (if leaving s then [AOut o] else []).
Lemma send_tail_sends : forall s a o t, erase (snd (send_tail s a o t)) = sent_tail s o /\
  (let s' := fst (send_tail s a o t) in rest s s' /\ axes_upd s' = false /\ pressed_upd s' = false /\ released_upd s' = false /\ contact s' = tip_after s /\ leaving s' = false
    /\ outp s' = outp s || leaving s /\ entering s' = false /\ econt s' = false /\ lcont s' = lcont s && econt s).
Proof.
  intros s a o t. unfold send_tail, send_prox_in.
  set (P := if negb (entering s) then _ else _).
  set (s1 := set_axes_upd (set_changed (set_entering s false) (if entering s then no_axes else changed s)) (axes_upd s && negb (entering s))).
  assert (HP : exists a1 o1, P = (s1, a1, o1) /\ erase o1 = (if entering s then [AIn o] else [])).
  { unfold P, s1. destruct (entering s) eqn:Een; cbn [negb].
    - rewrite andb_false_r. exists (no_delta a), [EProx t o true (changed s) a]. split; reflexivity.
    - exists a, []. split; [|reflexivity]. f_equal. f_equal. rewrite (tab_eta s) at 1. unfold set_axes_upd, set_changed, set_entering. fields. rewrite Een, andb_true_r. reflexivity. }
  destruct HP as (a1 & o1 & -> & E1).
  assert (HT : exists s3 a3 o23, (let '(s, a, o2, sent) := send_tip s1 o a1 t in let '(s, a, o3) := if sent then (s, a, []) else send_axes s o a t in (s, a, o2 ++ o3)%list) = (s3, a3, o23)
    /\ erase o23 = (if econt s then [ATip o true] else if lcont s then [ATip o false] else if axes_upd s && negb (entering s) then [AAxis o (contact s)] else [])
    /\ rest s s3 /\ axes_upd s3 = false /\ pressed_upd s3 = pressed_upd s /\ released_upd s3 = released_upd s /\ contact s3 = tip_after s /\ leaving s3 = leaving s /\ outp s3 = outp s
    /\ entering s3 = false /\ lcont s3 = lcont s && econt s).
  { unfold send_tip, send_axes, tip_after, s1. fields. destruct (econt s) eqn:Ee; [|destruct (lcont s) eqn:El].
    - eexists; eexists; eexists; split; [reflexivity|]. cbn [app]. split; [reflexivity|]. unfold rest. fields. rewrite ?andb_true_r, ?Ee. repeat split; reflexivity.
    - eexists; eexists; eexists; split; [reflexivity|]. cbn [app]. split; [reflexivity|]. unfold rest. fields. rewrite ?Ee. repeat split; reflexivity.
    - destruct (axes_upd s && negb (entering s)) eqn:Ea; cbn [negb].
      + eexists; eexists; eexists; split; [reflexivity|]. cbn [app]. split; [reflexivity|]. unfold rest. fields. rewrite ?Ee, ?El. repeat split; reflexivity.
      + eexists; eexists; eexists; split; [reflexivity|]. cbn [app]. split; [reflexivity|]. unfold rest. fields. rewrite ?Ee, ?El. repeat split; reflexivity. }
  destruct HT as (s3 & a3 & o23 & HT & E2 & R3 & F3).
  destruct (send_tip s1 o a1 t) as [[[sA aA] o2] snt]. destruct (if snt then _ else _) as [[sB aB] o3].
  injection HT as <- <- HO. clearbody s1. clear s1 sA aA snt.
  unfold send_buttons. cbv zeta. fields.
  unfold send_prox_out. fields.
  set (q := if released_upd sB then _ else _). set (q' := if pressed_upd sB then _ else _).
  assert (E4 : erase (q ++ q') = (if released_upd s then btn_events o (tip_after s) (fun c => pbtn s c && negb (btn s c)) false else []) ++
     (if pressed_upd s then btn_events o (tip_after s) (fun c => btn s c && negb (pbtn s c)) true else [])).
  { decompose [and] F3. unfold rest in R3. decompose [and] R3. rewrite erase_app. f_equal; [unfold q | unfold q'].
    - replace (released_upd sB) with (released_upd s) by congruence. destruct (released_upd s); [|reflexivity]. rewrite erase_notify. fields.
      replace (contact sB) with (tip_after s) by congruence. replace (pbtn sB) with (pbtn s) by congruence. replace (btn sB) with (btn s) by congruence. reflexivity.
    - replace (pressed_upd sB) with (pressed_upd s) by congruence. destruct (pressed_upd s); [|reflexivity]. rewrite erase_notify. fields.
      replace (contact sB) with (tip_after s) by congruence. replace (pbtn sB) with (pbtn s) by congruence. replace (btn sB) with (btn s) by congruence. reflexivity. }
  clearbody q q'.
  destruct F3 as (A1 & A2 & A3 & A4 & A5 & A6 & A7 & A8).
  destruct (leaving sB) eqn:EL; cbn [negb].
  - match goal with |- context [change_to_left_handed ?x] => set (s5 := x) end.
    pose proof (gone_rest s5) as G. cbv zeta in G. destruct (change_to_left_handed s5) as [s6 o6]. cbn [fst snd] in G |- *. destruct G as (G1 & G2 & G3).
    split.
    + rewrite <- HO, erase_app in E2. rewrite !erase_app in E4. rewrite !erase_app, G2, E1. unfold sent_tail. rewrite <- E2, <- A5.
      match goal with |- context [erase [EProx ?a ?b ?c ?d ?e]] => change (erase [EProx a b c d e]) with [AOut b] end.
      rewrite app_nil_r, <- !app_assoc. f_equal. f_equal. f_equal. rewrite !app_assoc, E4. reflexivity.
    + decompose [and] G3. split; [|].
      * eapply rest_trans; [exact R3|]. eapply rest_trans; [|exact G1]. unfold s5, rest. fields. repeat split; reflexivity.
      * unfold s5 in *. fields_in H. repeat match goal with H : _ = _ |- _ => progress fields_in H end.
        rewrite <- A5. rewrite orb_true_r. fields. repeat split; congruence.
  - cbn [fst snd]. split.
    + rewrite <- HO, erase_app in E2. rewrite !erase_app in E4. rewrite !erase_app, E1. unfold sent_tail. rewrite <- E2, <- A5.
      change (erase []) with (@nil aev). rewrite <- !app_assoc. f_equal. f_equal. f_equal. rewrite !app_assoc, E4, app_nil_r. reflexivity.
    + rewrite <- A5. rewrite orb_false_r. split; [|].
      * eapply rest_trans; [exact R3|]. unfold rest. fields. repeat split; reflexivity.
      * fields. repeat split; congruence.
Qed.
Lemma send_events_sends : forall d s o t s' out, send_events d s o t = (s', out) -> sends s s' o out.
Proof.
  intros d s o t s' out H. rewrite send_events_eq in H. destruct (leaving s) eqn:EL.
  - destruct (send_tail_sends (set_axes_upd s false) (ax s) o t) as (E & F). cbv zeta in F. destruct (send_tail (set_axes_upd s false) (ax s) o t) as [s2 o1].
    injection H as <- <-. cbn [fst snd app] in *. unfold sent_tail, tip_after in *. fields_in E. fields_in F.
    destruct F as (F1 & F2 & F3 & F4 & F5 & F6 & F7 & F8 & F9 & F10).
    constructor; unfold tip_after; try assumption.
    rewrite E. unfold sent, tip_after. rewrite EL. cbn [negb]. rewrite andb_false_r. cbn [andb]. reflexivity.
  - destruct (check_notify_axes d s o t) as [[s1 a] rc] eqn:EC. apply check_notify_same in EC.
    destruct (send_tail_sends s1 a o t) as (E & F). cbv zeta in F. destruct (send_tail s1 a o t) as [s2 o1].
    injection H as <- <-. cbn [fst snd] in *.
    destruct F as (F1 & F2 & F3 & F4 & F5 & F6 & F7 & F8 & F9 & F10).
    pose proof (same_rest _ _ EC) as RC. unfold same in EC.
    assert (ET : tip_after s1 = tip_after s). { unfold tip_after. decompose [and] EC. replace (econt s1) with (econt s) by congruence. replace (lcont s1) with (lcont s) by congruence. replace (contact s1) with (contact s) by congruence. reflexivity. }
    decompose [and] EC.
    constructor.
    + rewrite erase_app. replace (erase (if rc then update_rect d s1 t else [])) with (@nil aev).
      2: { destruct rc; [|reflexivity]. unfold update_rect. destruct (touch_dev s1), (arb s1); reflexivity. }
      cbn [app]. rewrite E. unfold sent_tail, sent. rewrite ET. rewrite EL. cbn [negb]. rewrite andb_true_r.
      repeat match goal with H : _ s1 = _ s |- _ => rewrite H; clear H end. rewrite EL. reflexivity.
    + eapply rest_trans; eassumption.
    + assumption.
    + assumption.
    + assumption.
    + congruence.
    + assumption.
    + congruence.
    + assumption.
    + assumption.
    + congruence.
Qed.
