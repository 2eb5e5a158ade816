(** * Proofs about tablet tools: the rounds of tablet_flush; events only in proximity *)
Require Import Coq.ZArith.ZArith Coq.QArith.QArith Coq.Lists.List Coq.Bool.Bool Coq.micromega.Lia.
From Verif Require Import Tab_Model Tab_Spec Tab_Proofs Tab_Proofs2.
Import ListNotations.
Open Scope Z_scope.

(** All but the tool lists *)
Definition kept_tools (s s' : tab) : Prop := axes_upd s' = axes_upd s /\ pressed_upd s' = pressed_upd s /\ btn_down s' = btn_down s /\ released_upd s' = released_upd s /\ tool_upd s' = tool_upd s /\ contact s' = contact s /\ leaving s' = leaving s /\ outp s' = outp s /\ entering s' = entering s /\ econt s' = econt s /\ lcont s' = lcont s /\ oor s' = oor s /\ changed s' = changed s /\ ax s' = ax s /\ smooth_pt s' = smooth_pt s /\ hidx s' = hidx s /\ hcount s' = hcount s /\ samples s' = samples s /\ cur_val s' = cur_val s /\ prev_val s' = prev_val s /\ absv s' = absv s /\ btn s' = btn s /\ pbtn s' = pbtn s /\ tstate s' = tstate s /\ ptstate s' = ptstate s /\ ctype s' = ctype s /\ cid s' = cid s /\ cserial s' = cserial s /\ touch_dev s' = touch_dev s /\ arb s' = arb s /\ rot_dev s' = rot_dev s /\ rot_lh s' = rot_lh s /\ rotate s' = rotate s /\ want_rotate s' = want_rotate s /\ lh s' = lh s /\ lh_want s' = lh_want s /\ need_force s' = need_force s /\ timer s' = timer s /\ forced s' = forced s /\ last_time s' = last_time s /\ in_progress s' = in_progress s /\ crash s' = crash s /\ hang s' = hang s.
(** What is left alone on the way from finding the tool to sending *)
Definition kept_prep (s s' : tab) : Prop := axes_upd s' = axes_upd s /\ pressed_upd s' = pressed_upd s /\ btn_down s' = btn_down s /\ tool_upd s' = tool_upd s /\ contact s' = contact s /\ leaving s' = leaving s /\ outp s' = outp s /\ entering s' = entering s /\ oor s' = oor s /\ smooth_pt s' = smooth_pt s /\ hidx s' = hidx s /\ hcount s' = hcount s /\ samples s' = samples s /\ cur_val s' = cur_val s /\ prev_val s' = prev_val s /\ absv s' = absv s /\ next_tid s' = next_tid s /\ pbtn s' = pbtn s /\ tstate s' = tstate s /\ ptstate s' = ptstate s /\ ctype s' = ctype s /\ cid s' = cid s /\ cserial s' = cserial s /\ touch_dev s' = touch_dev s /\ arb s' = arb s /\ rot_dev s' = rot_dev s /\ rot_lh s' = rot_lh s /\ rotate s' = rotate s /\ want_rotate s' = want_rotate s /\ lh s' = lh s /\ lh_want s' = lh_want s /\ need_force s' = need_force s /\ timer s' = timer s /\ forced s' = forced s /\ last_time s' = last_time s /\ in_progress s' = in_progress s /\ crash s' = crash s /\ hang s' = hang s.
(** What tablet_update_proximity_state leaves alone *)
Definition kept_prox (s s' : tab) : Prop := axes_upd s' = axes_upd s /\ btn_down s' = btn_down s /\ released_upd s' = released_upd s /\ tool_upd s' = tool_upd s /\ contact s' = contact s /\ econt s' = econt s /\ lcont s' = lcont s /\ ax s' = ax s /\ smooth_pt s' = smooth_pt s /\ hidx s' = hidx s /\ hcount s' = hcount s /\ samples s' = samples s /\ cur_val s' = cur_val s /\ prev_val s' = prev_val s /\ absv s' = absv s /\ locals s' = locals s /\ globals s' = globals s /\ next_tid s' = next_tid s /\ tstate s' = tstate s /\ ptstate s' = ptstate s /\ ctype s' = ctype s /\ cid s' = cid s /\ cserial s' = cserial s /\ touch_dev s' = touch_dev s /\ arb s' = arb s /\ rot_dev s' = rot_dev s /\ rot_lh s' = rot_lh s /\ rotate s' = rotate s /\ want_rotate s' = want_rotate s /\ lh s' = lh s /\ lh_want s' = lh_want s /\ need_force s' = need_force s /\ timer s' = timer s /\ forced s' = forced s /\ last_time s' = last_time s /\ in_progress s' = in_progress s /\ crash s' = crash s /\ hang s' = hang s.
Lemma get_tool_spec : forall d s ty id se s' o, get_tool d s ty id se = (s', o) -> kept_tools s s' /\ ttype o = ty.
Proof.
  intros d s ty id se s' o H. unfold get_tool in H.
  assert (HL : forall l, find (fun o => ttype o =? ty) l = Some o -> ttype o = ty). { intros l E. apply find_some in E. destruct E as [_ E]. apply Z.eqb_eq in E. exact E. }
  assert (KR : kept_tools s s) by (unfold kept_tools; repeat split; reflexivity).
  destruct (if se =? 0 then None else find (fun o => (ttype o =? ty) && (tserial o =? se)) (globals s)) as [x|] eqn:EG.
  { injection H as <- <-. split; [exact KR|]. destruct (se =? 0); [discriminate|]. apply find_some in EG. destruct EG as [_ EG]. apply andb_prop in EG. destruct EG as [EG _]. apply Z.eqb_eq in EG. exact EG. }
  destruct (find (fun o => ttype o =? ty) (locals s)) as [x|] eqn:EL.
  { injection H as <- <-. split; [exact KR | exact (HL _ EL)]. }
  injection H as <- <-. split; [|reflexivity]. destruct (se =? 0); unfold kept_tools; fields; repeat split; reflexivity.
Qed.
(** What happens between finding the tool and sending *)
Definition prepare (d : device) (s : tab) (o : tool) : tab * tool :=
  if leaving s then
    let s := set_released_upd (set_btn s (fun _ => false)) true in
    (if contact s then set_lcont s true else s, o)
  else if axes_upd s || entering s then
    let s := if entering s then set_changed s (caps o) else s in
    let o := detect_offset d s o in
    let s := put_tool s o in
    let s := detect_contact d s o in
    (sanitize_mouse_rotation (sanitize_pressure_distance d s o), o)
  else (s, o).
Definition round (d : device) (s : tab) (t : Z) : tab * option (tool * bool) :=
  let '(s, twice) := update_tool_state s t in
  if ctype s =? 0 then (s, None) else
  let '(s, o) := get_tool d s (ctype s) (cid s) (cserial s) in
  let s := if is_mouse (ttype o) then update_proximity_state d s o else s in
  if outp s || oor s then (s, None) else
  let '(s, o) := prepare d s o in (s, Some (o, twice)).
Lemma flush_eq : forall d n s t, flush d (S n) s t =
  match round d s t with
  | (s1, None) => (s1, [])
  | (s1, Some (o, tw)) => let '(s2, o1) := send_events d s1 o t in if tw then let '(s3, o2) := flush d n s2 t in (s3, o1 ++ o2)%list else (s2, o1)
  end.
Proof.
  intros. cbn [flush]. unfold round. destruct (update_tool_state s t) as [s1 tw]. destruct (ctype s1 =? 0); [reflexivity|].
  destruct (get_tool d s1 (ctype s1) (cid s1) (cserial s1)) as [s2 o]. set (s3 := if is_mouse (ttype o) then update_proximity_state d s2 o else s2). clearbody s3.
  destruct (outp s3 || oor s3); [reflexivity|]. unfold prepare.
  destruct (if leaving s3 then _ else _) as [s4 o4]. reflexivity.
Qed.
Lemma detect_offset_same : forall d s o, tid (detect_offset d s o) = tid o /\ ttype (detect_offset d s o) = ttype o /\ tserial (detect_offset d s o) = tserial o /\ caps (detect_offset d s o) = caps o.
Proof.
  intros. unfold detect_offset. repeat match goal with |- context [if ?b then _ else _] => destruct b end; repeat split; reflexivity.
Qed.
Lemma kept_prep_refl : forall s, kept_prep s s.
Proof. intros s. unfold kept_prep. repeat split; reflexivity. Qed.
Lemma kept_prep_trans : forall a b c, kept_prep a b -> kept_prep b c -> kept_prep a c.
Proof. unfold kept_prep. intros a b c H1 H2. decompose [and] H1. decompose [and] H2. repeat split; congruence. Qed.
Ltac kp := unfold kept_prep; fields; repeat split; reflexivity.
Lemma detect_contact_kept : forall d s o, kept_prep s (detect_contact d s o).
Proof. intros. unfold detect_contact. repeat match goal with |- context [if ?b then _ else _] => destruct b end; kp. Qed.
Lemma sanitize_pd_kept : forall d s o, kept_prep s (sanitize_pressure_distance d s o).
Proof. intros. unfold sanitize_pressure_distance. repeat match goal with |- context [if ?b then _ else _] => destruct b end; kp. Qed.
Lemma sanitize_mr_kept : forall s, kept_prep s (sanitize_mouse_rotation s).
Proof. intros. unfold sanitize_mouse_rotation. repeat match goal with |- context [if ?b then _ else _] => destruct b end; kp. Qed.
Lemma prepare_spec : forall d s o s' o', prepare d s o = (s', o') -> kept_prep s s' /\ tid o' = tid o /\ ttype o' = ttype o /\ tserial o' = tserial o /\ caps o' = caps o.
Proof.
  intros d s o s' o' H. unfold prepare in H. destruct (leaving s).
  { injection H as <- <-. split; [|repeat split; reflexivity]. fields. destruct (contact s); kp. }
  destruct (axes_upd s || entering s).
  - cbv zeta in H. set (s1 := if entering s then set_changed s (caps o) else s) in H.
    assert (K1 : kept_prep s s1). { unfold s1. destruct (entering s); kp. } clearbody s1.
    injection H as <- <-. split; [|apply detect_offset_same].
    eapply kept_prep_trans; [exact K1|]. eapply kept_prep_trans; [|apply sanitize_mr_kept]. eapply kept_prep_trans; [|apply sanitize_pd_kept].
    eapply kept_prep_trans; [|apply detect_contact_kept]. unfold put_tool. kp.
  - injection H as <- <-. split; [apply kept_prep_refl | repeat split; reflexivity].
Qed.
Record prox_state (d : device) (s s' : tab) : Prop := {
  ps_kept : kept_prox s s';
  ps_case : s' = s
    \/ (has_abs d DISTANCE = true /\ (absv s DISTANCE <> 0 /\ absv s DISTANCE < dist_max d) /\ oor s || outp s = true /\ oor s' = false /\ outp s' = false /\ entering s' = true /\ leaving s' = leaving s
        /\ pressed_upd s' = true /\ btn s' = (fun c => btn s c || pbtn s c) /\ pbtn s' = (fun _ => false))
    \/ (oor s = false /\ outp s = false /\ entering s = true /\ oor s' = true /\ outp s' = false /\ entering s' = false /\ leaving s' = leaving s
        /\ pressed_upd s' = pressed_upd s /\ btn s' = btn s /\ pbtn s' = pbtn s)
    \/ (oor s = false /\ outp s = false /\ entering s = false /\ oor s' = false /\ outp s' = false /\ entering s' = false /\ leaving s' = true
        /\ pressed_upd s' = pressed_upd s /\ btn s' = btn s /\ pbtn s' = pbtn s) }.
Lemma prox_state_spec : forall d s o, prox_state d s (update_proximity_state d s o).
Proof.
  intros d s o. unfold update_proximity_state.
  assert (KR : kept_prox s s) by (unfold kept_prox; repeat split; reflexivity).
  destruct (has_abs d DISTANCE) eqn:EH; cbn [negb]; [|constructor; [exact KR | left; reflexivity]].
  destruct (absv s DISTANCE =? 0) eqn:E0; [constructor; [exact KR | left; reflexivity]|]. apply Z.eqb_neq in E0.
  destruct (absv s DISTANCE <? dist_max d) eqn:EM; cbn [andb].
  - apply Z.ltb_lt in EM. destruct (oor s || outp s) eqn:EO.
    + unfold force_presses. constructor; [unfold kept_prox; fields; repeat split; reflexivity|]. right; left. fields.
      split; [exact EH|]. split; [split; [exact E0 | exact EM]|]. repeat split; assumption || reflexivity.
    + constructor; [exact KR | left; reflexivity].
  - destruct (oor s || outp s) eqn:EO; [constructor; [exact KR | left; reflexivity]|]. apply orb_false_iff in EO. destruct EO as [EO1 EO2].
    destruct (entering s) eqn:EE; (constructor; [unfold kept_prox; fields; repeat split; reflexivity|]); right; right; [left|right]; fields; repeat split; assumption || reflexivity.
Qed.

(** ** Events only in proximity *)
Definition tool_a (e : aev) : tool := match e with AIn o | AOut o | ATip o _ | AAxis o _ | ABtn o _ _ _ => o end.
Definition prox_a (p : option tool) (e : aev) : option tool := match e with AIn o => Some o | AOut _ => None | _ => p end.
Definition ok1 (p : option tool) (e : aev) : Prop := match e with AIn _ => True | _ => exists o, p = Some o /\ ttype o = ttype (tool_a e) end.
Fixpoint acc1 (p : option tool) (l : list aev) : Prop := match l with [] => True | e :: l => ok1 p e /\ acc1 (prox_a p e) l end.
Definition view1 (p : option tool) (l : list aev) : option tool := fold_left prox_a l p.
Lemma acc1_app : forall a b p, acc1 p (a ++ b) <-> acc1 p a /\ acc1 (view1 p a) b.
Proof. induction a as [|e a IH]; intros b p; cbn [app acc1 view1 fold_left]; [tauto|]. rewrite IH. unfold view1. tauto. Qed.
Lemma view1_app : forall a b p, view1 p (a ++ b) = view1 (view1 p a) b.
Proof. intros. unfold view1. apply fold_left_app. Qed.
Definition Inv1 (s : tab) (p : option tool) : Prop := outp s = false -> oor s = false -> entering s = false -> exists o, p = Some o /\ ttype o = ctype s.

Lemma view1_btn : forall o b f pr p, view1 p (btn_events o b f pr) = p.
Proof. intros. unfold btn_events. induction (filter f buttons) as [|x l IH]; [reflexivity | exact IH]. Qed.
Lemma acc1_btn : forall o b f pr o0, ttype o0 = ttype o -> acc1 (Some o0) (btn_events o b f pr).
Proof.
  intros o b f pr o0 H. unfold btn_events. induction (filter f buttons) as [|x l IH]; [exact I|]. cbn [map acc1 ok1 prox_a tool_a]. split; [exists o0; split; [reflexivity | exact H] | exact IH].
Qed.
Lemma sent_acc1 : forall s o p, ttype o = ctype s -> (entering s = false -> exists o', p = Some o' /\ ttype o' = ctype s) ->
  acc1 p (sent s o) /\ (leaving s = false -> exists o', view1 p (sent s o) = Some o' /\ ttype o' = ctype s).
Proof.
  intros s o p HO HP. unfold sent.
  assert (H0 : exists o', view1 p (if entering s then [AIn o] else []) = Some o' /\ ttype o' = ctype s).
  { destruct (entering s); [exists o; split; [reflexivity | exact HO] | exact (HP eq_refl)]. }
  destruct H0 as (o' & V & T). rewrite !acc1_app, !view1_app, V.
  set (mid := if econt s then _ else _).
  assert (HM : acc1 (Some o') mid /\ view1 (Some o') mid = Some o').
  { unfold mid. destruct (econt s); [|destruct (lcont s); [|destruct (axes_upd s && negb (leaving s) && negb (entering s))]];
      (split; [|reflexivity]); cbn [acc1 ok1 tool_a prox_a]; try exact I; split; try exact I; exists o'; split; congruence. }
  destruct HM as [M1 M2]. rewrite M2.
  set (rl := if released_upd s then _ else _). set (pr := if pressed_upd s then _ else _).
  assert (HR : acc1 (Some o') rl /\ view1 (Some o') rl = Some o').
  { unfold rl. destruct (released_upd s); [|split; [exact I | reflexivity]]. split; [apply acc1_btn; congruence | apply view1_btn]. }
  assert (HQ : acc1 (Some o') pr /\ view1 (Some o') pr = Some o').
  { unfold pr. destruct (pressed_upd s); [|split; [exact I | reflexivity]]. split; [apply acc1_btn; congruence | apply view1_btn]. }
  destruct HR as [R1 R2]. destruct HQ as [Q1 Q2]. rewrite R2, Q2. split.
  - split; [destruct (entering s); cbn; auto|]. split; [exact M1|]. split; [exact R1|]. split; [exact Q1|].
    destruct (leaving s); [|exact I]. cbn [acc1 ok1 tool_a prox_a]. split; [exists o'; split; congruence | exact I].
  - intros EL. rewrite EL. exists o'. split; [reflexivity | exact T].
Qed.
Lemma round_inv1 : forall d s t p s' r, Inv1 s p -> round d s t = (s', r) ->
  match r with
  | None => Inv1 s' p
  | Some (o, _) => ttype o = ctype s' /\ outp s' = false /\ oor s' = false /\ (entering s' = false -> exists o', p = Some o' /\ ttype o' = ctype s')
  end.
Proof.
  intros d s t p s' r I0 H. unfold round in H. destruct (update_tool_state s t) as [s1 tw] eqn:EU. apply uts_spec in EU. destruct EU as [UK UC].
  assert (I1 : Inv1 s1 p).
  { unfold Inv1 in *. intros O R E. assert (R0 : oor s = false). { unfold kept in UK. decompose [and] UK. congruence. }
    destruct UC as [(U0 & U1 & U2 & U3 & U4 & U5 & U6 & U7 & U8) | (U0 & U1 & U2 & U3 & U4)].
    - rewrite U4. apply I0; congruence.
    - destruct (uts_on s); destruct U4 as (V1 & V2 & V3 & V4); [congruence|]. rewrite V1. apply I0; congruence. }
  clear UK UC I0. destruct (ctype s1 =? 0); [injection H as <- <-; exact I1|].
  destruct (get_tool d s1 (ctype s1) (cid s1) (cserial s1)) as [s2 o] eqn:EG. apply get_tool_spec in EG. destruct EG as [GK GT].
  assert (I2 : Inv1 s2 p /\ ttype o = ctype s2). { unfold kept_tools in GK. decompose [and] GK. split; [|congruence]. unfold Inv1 in *. intros. replace (ctype s2) with (ctype s1) by congruence. apply I1; congruence. }
  clear I1 GK GT. destruct I2 as [I2 T2]. clear s1 tw || idtac.
  set (s3 := if is_mouse (ttype o) then update_proximity_state d s2 o else s2) in H.
  assert (I3 : Inv1 s3 p /\ ttype o = ctype s3).
  { unfold s3. destruct (is_mouse (ttype o)); [|split; assumption]. destruct (prox_state_spec d s2 o) as [PK PC]. set (s4 := update_proximity_state d s2 o) in *. clearbody s4.
    assert (C4 : ctype s4 = ctype s2). { unfold kept_prox in PK. decompose [and] PK. congruence. }
    split; [|congruence]. unfold Inv1 in *. intros O R E. rewrite C4. destruct PC as [-> | [PC | [PC | PC]]]; [apply I2; assumption | | |]; decompose [and] PC; try congruence. apply I2; congruence. }
  clearbody s3. destruct I3 as [I3 T3]. destruct (outp s3) eqn:EO; [injection H as <- <-; exact I3|]. destruct (oor s3) eqn:ER; cbn [orb] in H; [injection H as <- <-; exact I3|].
  destruct (prepare d s3 o) as [s4 o4] eqn:EP. apply prepare_spec in EP. destruct EP as (PK & P1 & P2 & P3 & P4). injection H as <- <-.
  unfold kept_prep in PK. decompose [and] PK. split; [congruence|]. split; [congruence|]. split; [congruence|].
  intros E. replace (ctype s4) with (ctype s3) by congruence. apply I3; congruence.
Qed.
Lemma flush_inv1 : forall d n s t p s' out, Inv1 s p -> flush d n s t = (s', out) -> acc1 p (erase out) /\ Inv1 s' (view1 p (erase out)).
Proof.
  intros d. induction n as [|n IH]; intros s t p s' out I0 H.
  { cbn [flush] in H. injection H as <- <-. split; [exact I|]. exact I0. }
  rewrite flush_eq in H. destruct (round d s t) as [s1 r] eqn:ER. pose proof (round_inv1 _ _ _ _ _ _ I0 ER) as R. destruct r as [[o tw]|].
  2: { injection H as <- <-. split; [exact I | exact R]. }
  destruct R as (T & O & RR & E). destruct (send_events d s1 o t) as [s2 o1] eqn:ES. apply send_events_sends in ES. destruct ES.
  destruct (sent_acc1 s1 o p T E) as [A V].
  assert (I2 : Inv1 s2 (view1 p (erase o1))).
  { unfold Inv1. intros O2 R2 E2. rewrite sd_outp, O in O2. cbn [orb] in O2. rewrite sd_out. destruct (V O2) as (o' & V1 & V2). exists o'. split; [exact V1|].
    unfold rest in sd_rest. decompose [and] sd_rest. congruence. }
  destruct tw.
  - destruct (flush d n s2 t) as [s3 o2] eqn:EF. injection H as <- <-. destruct (IH _ _ _ _ _ I2 EF) as [A2 I3].
    rewrite erase_app, acc1_app, view1_app. split; [split; [rewrite sd_out; exact A | exact A2] | exact I3].
  - injection H as <- <-. split; [rewrite sd_out; exact A | exact I2].
Qed.
Lemma set_touch_spec : forall s w r t, erase (snd (set_touch_enabled s w r t)) = [] /\ (fst (set_touch_enabled s w r t) = s \/ fst (set_touch_enabled s w r t) = set_arb s w).
Proof. intros. unfold set_touch_enabled. destruct (touch_dev s); cbn [fst snd]; split; auto. Qed.
Lemma toggle_spec : forall d s t, erase (snd (toggle_touch d s t)) = [] /\ exists w, fst (toggle_touch d s t) = s \/ fst (toggle_touch d s t) = set_arb s w.
Proof.
  intros. unfold toggle_touch. destruct (oor s || leaving s || outp s).
  { destruct (set_touch_spec s NOT_ACTIVE None t) as [A B]. split; [exact A | exists NOT_ACTIVE; exact B]. }
  destruct (Qeq_bool (fst (tilt (ax s))) 0).
  { destruct (set_touch_spec s IGNORE_ALL None t) as [A B]. split; [exact A | exists IGNORE_ALL; exact B]. }
  destruct (arb s); try (destruct (set_touch_spec s IGNORE_RECT (Some (arb_rect d s)) t) as [A B]; split; [exact A | exists IGNORE_RECT; exact B]).
  split; [reflexivity | exists NOT_ACTIVE; left; reflexivity].
Qed.
Lemma syn_inv1 : forall d n s t p s' out, Inv1 s p -> syn d n s t = (s', out) -> acc1 p (erase out) /\ Inv1 s' (view1 p (erase out)).
Proof.
  intros d n s t p s' out I0 H. unfold syn in H. destruct (flush d n s t) as [s1 o1] eqn:EF. destruct (flush_inv1 _ _ _ _ _ _ _ I0 EF) as [A I1].
  destruct (toggle_spec d s1 t) as [TO (w & TS)]. destruct (toggle_touch d s1 t) as [s2 o2]. cbn [fst snd] in *. injection H as <- <-.
  rewrite erase_app, TO, app_nil_r. split; [exact A|]. unfold Inv1, reset_state in *. fields. destruct TS as [-> | ->]; fields; exact I1.
Qed.
Lemma inv1_quiet : forall s s' p, Inv1 s p -> outp s' = outp s -> oor s' = oor s -> entering s' = entering s -> ctype s' = ctype s -> Inv1 s' p.
Proof. unfold Inv1. intros s s' p H A B C D O R E. rewrite D. apply H; congruence. Qed.
Lemma change_rotation_inv1 : forall s b p, Inv1 s p -> acc1 p (erase (snd (change_rotation s b))) /\ Inv1 (fst (change_rotation s b)) (view1 p (erase (snd (change_rotation s b)))).
Proof.
  intros s b p H. destruct (change_rotation_rest s b) as (R & E & F). rewrite E. split; [exact I|]. unfold rest in R. decompose [and] R. decompose [and] F.
  apply (inv1_quiet s); assumption.
Qed.
Lemma step_inv1 : forall d n s i p s' out, Inv1 s p -> step d n s i = (s', out) -> acc1 p (erase out) /\ Inv1 s' (view1 p (erase out)).
Proof.
  intros d n s i p s' out I0 H. unfold step in H. destruct i.
  - assert (HH : s' = (if match a with REL_WHEEL => true | _ => false end then s else process_absolute d s a v) /\ out = []).
    { destruct a; injection H as <- <-; split; reflexivity. }
    destruct HH as [-> ->]. split; [exact I|]. unfold process_absolute.
    destruct a; try exact I0; (destruct (negb (has_abs d _)); [exact I0|]); fields; destruct (fuzzed _ _ _ _); (apply (inv1_quiet s); [exact I0| | | |]); reflexivity.
  - injection H as <- <-. split; [exact I|]. apply (inv1_quiet s); [exact I0| | | |]; reflexivity.
  - injection H as <- <-. split; [exact I|]. unfold process_wheel. destruct (negb (has_abs d REL_WHEEL)); [exact I0|]. apply (inv1_quiet s); [exact I0| | | |]; reflexivity.
  - injection H as <- <-. split; [exact I|]. unfold process_tool. destruct (negb (tool_enabled d ty)); [exact I0|]. apply (inv1_quiet s); [exact I0| | | |]; reflexivity.
  - injection H as <- <-. split; [exact I|]. unfold process_touch. destruct (dev_axis d PRESSURE); [exact I0|]. destruct down; (apply (inv1_quiet s); [exact I0| | | |]); reflexivity.
  - injection H as <- <-. split; [exact I|]. unfold update_button. destruct (negb (known_button c)); [exact I0|]. destruct down; (apply (inv1_quiet s); [exact I0| | | |]); reflexivity.
  - injection H as <- <-. split; [exact I|]. unfold process_serial. destruct (v =? -1); [exact I0|]. apply (inv1_quiet s); [exact I0| | | |]; reflexivity.
  - exact (syn_inv1 _ _ _ _ _ _ _ I0 H).
  - destruct (timer s) as [x|]; [|injection H as <- <-; split; [exact I | exact I0]]. destruct (x <=? now); [|injection H as <- <-; split; [exact I | exact I0]].
    unfold timeout in H. fields_in H. destruct (contact s || btn_down s).
    { injection H as <- <-. split; [exact I|]. unfold set_prox_timer. fields. destruct (need_force s); (apply (inv1_quiet s); [exact I0| | | |]); reflexivity. }
    destruct (_ <? last_time s).
    { injection H as <- <-. split; [exact I|]. unfold set_prox_timer. fields. destruct (need_force s); (apply (inv1_quiet s); [exact I0| | | |]); reflexivity. }
    destruct (syn d n _ now) as [s1 o1] eqn:ES. injection H as <- <-.
    assert (I1 : Inv1 (process_tool d (set_in_progress (set_timer s None) true) PEN false) p).
    { unfold process_tool. destruct (negb (tool_enabled d PEN)); (apply (inv1_quiet s); [exact I0| | | |]); reflexivity. }
    destruct (syn_inv1 _ _ _ _ _ _ _ I1 ES) as [A I2]. split; [exact A|]. apply (inv1_quiet s1); [exact I2| | | |]; reflexivity.
  - unfold suspend in H. destruct (set_touch_spec s NOT_ACTIVE None now) as [TO TS]. destruct (set_touch_enabled s NOT_ACTIVE None now) as [s1 o1]. cbn [fst snd] in *.
    assert (I1 : Inv1 s1 p). { destruct TS as [-> | ->]; [exact I0|]. apply (inv1_quiet s); [exact I0| | | |]; reflexivity. }
    destruct (outp s1). { injection H as <- <-. rewrite TO. split; [exact I | exact I1]. }
    destruct (flush d n (set_leaving s1 true) now) as [s2 o2] eqn:EF. injection H as <- <-. rewrite erase_app, TO. cbn [app].
    eapply flush_inv1; [|exact EF]. apply (inv1_quiet s1); [exact I1| | | |]; reflexivity.
  - injection H as <- <-. split; [exact I|]. apply (inv1_quiet s); [exact I0| | | |]; reflexivity.
  - unfold device_added in H. set (s1 := if touchscreen || ext_touchpad then _ else s) in H.
    assert (I1 : Inv1 s1 p). { unfold s1. destruct (touchscreen || ext_touchpad); [|exact I0]. apply (inv1_quiet s); [exact I0| | | |]; reflexivity. } clearbody s1.
    destruct ext_touchpad; [|injection H as <- <-; split; [exact I | exact I1]]. destruct left; [|injection H as <- <-; split; [exact I|]; apply (inv1_quiet s1); [exact I1| | | |]; reflexivity].
    pose proof (change_rotation_inv1 (set_rot_lh (set_rot_dev s1 (Some id)) true) true p) as C. rewrite H in C. apply C. apply (inv1_quiet s1); [exact I1| | | |]; reflexivity.
  - unfold device_removed in H. set (s1 := if is_dev (touch_dev s) id then _ else s) in H.
    assert (I1 : Inv1 s1 p). { unfold s1. destruct (is_dev (touch_dev s) id); [|exact I0]. apply (inv1_quiet s); [exact I0| | | |]; reflexivity. } clearbody s1.
    destruct (is_dev (rot_dev s1) id); [|injection H as <- <-; split; [exact I | exact I1]].
    pose proof (change_rotation_inv1 (set_rot_lh (set_rot_dev s1 None) false) true p) as C. rewrite H in C. apply C. apply (inv1_quiet s1); [exact I1| | | |]; reflexivity.
  - unfold left_toggled in H. destruct (rot_dev s); [|injection H as <- <-; split; [exact I | exact I0]].
    pose proof (change_rotation_inv1 (set_rot_lh s left) false p) as C. rewrite H in C. apply C. apply (inv1_quiet s); [exact I0| | | |]; reflexivity.
  - destruct (reversible d); [|injection H as <- <-; split; [exact I | exact I0]].
    destruct (change_left_rest (set_lh_want s left)) as (R & E & F). rewrite H in R, E, F. cbn [fst snd] in *. rewrite E. split; [exact I|]. unfold rest in R. decompose [and] R. decompose [and] F.
    apply (inv1_quiet s); assumption.
  - injection H as <- <-. split; [exact I|]. apply (inv1_quiet s); [exact I0| | | |]; reflexivity.
Qed.
Lemma run_inv1 : forall d n l s p s' out, Inv1 s p -> run d n s l = (s', out) -> acc1 p (erase out).
Proof.
  intros d n. induction l as [|i l IH]; intros s p s' out I0 H; cbn [run] in H.
  { injection H as <- <-. exact I. }
  destruct (step d n s i) as [s1 o1] eqn:ES. destruct (run d n s1 l) as [s2 o2] eqn:ER. injection H as <- <-.
  destruct (step_inv1 _ _ _ _ _ _ _ I0 ES) as [A I1]. rewrite erase_app, acc1_app. split; [exact A | exact (IH _ _ _ _ I1 ER)].
Qed.
(** What tablet_check_initial_proximity finds *)
Lemma post_added_spec : forall d s down misc now, let s' := post_added d s down misc now in
  match find (fun ty => tool_enabled d ty && down ty) [PEN; ERASER; BRUSH; PENCIL; AIRBRUSH; MOUSE; LENS] with
  | None => s' = s
  | Some ty => tstate s' = bit ty /\ ptstate s' = bit ty /\ ctype s' = ty /\ entering s' = true /\ outp s' = false /\ cserial s' = 0
      /\ axes_upd s' = axes_upd s /\ pressed_upd s' = pressed_upd s /\ released_upd s' = released_upd s /\ contact s' = contact s /\ leaving s' = leaving s
      /\ econt s' = econt s /\ lcont s' = lcont s /\ oor s' = oor s /\ btn s' = btn s /\ pbtn s' = pbtn s /\ tool_upd s' = tool_upd s /\ absv s' = absv s
      /\ locals s' = locals s /\ globals s' = globals s /\ next_tid s' = next_tid s /\ arb s' = arb s /\ touch_dev s' = touch_dev s /\ btn_down s' = btn_down s
      /\ forced s' = forced s
  end.
Proof.
  intros d s down misc now. unfold post_added. destruct (find _ _) as [ty|]; [|reflexivity]. cbv zeta. unfold update_tool, set_prox_timer.
  destruct (need_force _); fields; repeat split; reflexivity.
Qed.
Lemma start_inv1 : forall d w, Inv1 (start d w) None.
Proof.
  intros d w. unfold start. pose proof (post_added_spec d (init d (w_globals w) (w_values w)) (w_down w) (w_misc w) (w_now w)) as H. cbv zeta in H.
  set (s := post_added _ _ _ _ _) in *. clearbody s. destruct (find _ _) as [ty|].
  - decompose [and] H. unfold Inv1. intros; congruence.
  - rewrite H. unfold Inv1. intros X. cbn [init outp] in X. discriminate X.
Qed.
