(** * Tablet tools: axis values over frames and histories *)
Require Import Coq.ZArith.ZArith Coq.QArith.QArith Coq.Lists.List Coq.Bool.Bool Coq.micromega.Lia Coq.micromega.Lqa.
From Verif Require Import Tab_Model Tab_Spec2 Tab_Proofs Tab_Proofs7 Tab_Proofs8.
Import ListNotations.
Open Scope Z_scope.
Ltac fr H := eapply G_frame; [| | | | | | exact H]; reflexivity.

Definition prepare (d : device) (s : tab) (o : tool) : tab * tool :=
  if leaving s then
    let s := set_released_upd (set_btn s (fun _ => false)) true in
    (if contact s then set_lcont s true else s, o)
  else if axes_upd s || entering s then
    let s := if entering s then set_changed s (caps o) else s in
    let o := detect_offset d s o in
    let s := put_tool s o in
    let s := detect_contact d s o in
    (sanitize_mouse_rotation (sanitize_pressure_distance d s o), o)
  else (s, o).
Lemma flush_eq : forall d n s t, flush d (S n) s t =
  let '(s, twice) := update_tool_state s t in
  if ctype s =? 0 then (s, []) else
  let '(s, o) := get_tool d s (ctype s) (cid s) (cserial s) in
  let s := if is_mouse (ttype o) then update_proximity_state d s o else s in
  if outp s || oor s then (s, []) else
  let '(s, o) := prepare d s o in
  let '(s, o1) := send_events d s o t in
  if twice then let '(s, o2) := flush d n s t in (s, o1 ++ o2)%list else (s, o1).
Proof. reflexivity. Qed.
Lemma prepare_G : forall d s o, sane d -> suits d o -> G d s -> G d (fst (prepare d s o)) /\ suits d (snd (prepare d s o)).
Proof.
  intros d s o SA SU H. unfold prepare. destruct (leaving s).
  - cbv zeta. cbn [fst snd]. split; [|exact SU]. destruct (contact _); fr H.
  - destruct (axes_upd s || entering s); [|split; assumption]. cbv zeta. cbn [fst snd]. set (s1 := if entering s then set_changed s (caps o) else s).
    assert (H1 : G d s1) by (unfold s1; destruct (entering s); [apply G_caps; assumption | exact H]). clearbody s1. pose proof (detect_offset_suits d s1 o SA SU) as SU'. split; [|exact SU'].
    apply G_sanitize_mr, G_sanitize_pd, G_detect_contact, G_put_tool; assumption.
Qed.
Lemma prepare_absv : forall d s o, absv (fst (prepare d s o)) = absv s.
Proof.
  intros d s o. unfold prepare. destruct (leaving s); [cbv zeta; cbn [fst]; destruct (contact _); reflexivity|]. destruct (axes_upd s || entering s); [|reflexivity]. cbv zeta. cbn [fst].
  set (s1 := if entering s then set_changed s (caps o) else s). assert (H1 : absv s1 = absv s) by (unfold s1; destruct (entering s); reflexivity). clearbody s1.
  set (o1 := detect_offset d s1 o). clearbody o1. set (s2 := put_tool s1 o1). assert (H2 : absv s2 = absv s) by exact H1. clearbody s2.
  set (s3 := detect_contact d s2 o1). assert (H3 : absv s3 = absv s).
  { unfold s3, detect_contact. cbv zeta. destruct (negb (caps o1 PRESSURE)); [exact H2|]. destruct (negb (has_abs d PRESSURE)); [exact H2|]. match goal with |- context [if ?a then set_lcont _ _ else if ?b then _ else _] => destruct a; [|destruct b] end; exact H2. }
  clearbody s3. set (s4 := sanitize_pressure_distance d s3 o1). assert (H4 : absv s4 = absv s).
  { unfold s4, sanitize_pressure_distance. cbv zeta. destruct (negb (has_abs d PRESSURE && has_abs d DISTANCE)); [exact H3|]. destruct (negb (changed s3 DISTANCE) && negb (changed s3 PRESSURE)); [exact H3|].
    destruct ((amin d DISTANCE <? absv s3 DISTANCE) && (amin d PRESSURE <? absv s3 PRESSURE)); [destruct (p_offset o1 <? absv s3 PRESSURE); exact H3|].
    destruct (changed s3 PRESSURE && negb (p_offset o1 <? absv s3 PRESSURE)); [|exact H3]. destruct (Qeq_bool (pressure (ax s3)) 0); exact H3. }
  clearbody s4. unfold sanitize_mouse_rotation. destruct (is_mouse (ctype s4) && (changed s4 TILT_X || changed s4 TILT_Y)); exact H4.
Qed.
Lemma get_tool_absv : forall d s ty id sr, absv (fst (get_tool d s ty id sr)) = absv s.
Proof. intros d s ty id sr. unfold get_tool. cbv zeta. destruct (if sr =? 0 then None else find _ (globals s)); [reflexivity|]. destruct (find _ (locals s)); [reflexivity|]. cbn [fst]. destruct (sr =? 0); reflexivity. Qed.
Lemma prox_state_absv : forall d s o, absv (update_proximity_state d s o) = absv s.
Proof.
  intros d s o. unfold update_proximity_state. cbv zeta. destruct (negb (has_abs d DISTANCE)); [reflexivity|]. destruct (absv s DISTANCE =? 0); [reflexivity|]. destruct ((absv s DISTANCE <? dist_max d) && (oor s || outp s)); [reflexivity|].
  destruct (absv s DISTANCE <? dist_max d); [reflexivity|]. destruct (oor s || outp s); [reflexivity|]. destruct (entering s); reflexivity.
Qed.
Lemma flush_G : forall d n s t s' out, sane d -> G d s -> flush d n s t = (s', out) -> G d s' /\ Forall (ev_ok d) out.
Proof.
  intros d n. induction n as [|n IH]; intros s t s' out SA H E.
  - cbn [flush] in E. injection E as <- <-. split; [fr H | constructor].
  - rewrite flush_eq in E. pose proof (G_six d s _ (six_uts s t) H) as H1. destruct (update_tool_state s t) as [s1 tw]. cbn [fst] in H1.
    destruct (ctype s1 =? 0); [injection E as <- <-; split; [exact H1 | constructor]|]. destruct (G_get_tool d s1 (ctype s1) (cid s1) (cserial s1) SA H1) as [H2 SU]. destruct (get_tool d s1 (ctype s1) (cid s1) (cserial s1)) as [s2 o]. cbn [fst snd] in H2, SU.
    cbv zeta in E. set (s3 := if is_mouse (ttype o) then update_proximity_state d s2 o else s2) in E. assert (H3 : G d s3) by (unfold s3; destruct (is_mouse (ttype o)); [apply G_prox_state; assumption | exact H2]). clearbody s3.
    destruct (outp s3 || oor s3); [injection E as <- <-; split; [exact H3 | constructor]|]. destruct (prepare_G d s3 o SA SU H3) as [H4 SU4]. destruct (prepare d s3 o) as [s4 o4]. cbn [fst snd] in H4, SU4.
    destruct (send_events d s4 o4 t) as [s5 o5] eqn:E5. destruct (G_send_events _ _ _ _ _ _ SA SU4 H4 E5) as [H5 F5]. destruct tw; [|injection E as <- <-; split; assumption].
    destruct (flush d n s5 t) as [s6 o6] eqn:E6. destruct (IH _ _ _ _ SA H5 E6) as [H6 F6]. injection E as <- <-. split; [exact H6 | apply Forall_app; split; assumption].
Qed.
Lemma flush_fresh : forall d n s t s' out, flush d n s t = (s', out) -> absv s' = absv s /\ ((forall e, In e out -> is_leave e = false) -> Forall (fresh d (absv s)) out).
Proof.
  intros d n. induction n as [|n IH]; intros s t s' out E.
  - cbn [flush] in E. injection E as <- <-. split; [reflexivity | constructor].
  - rewrite flush_eq in E. pose proof (six_uts s t) as H1. destruct (update_tool_state s t) as [s1 tw]. cbn [fst] in H1. assert (V1 : absv s1 = absv s) by (unfold six in H1; congruence). clear H1.
    destruct (ctype s1 =? 0); [injection E as <- <-; split; [exact V1 | constructor]|]. pose proof (get_tool_absv d s1 (ctype s1) (cid s1) (cserial s1)) as V2. destruct (get_tool d s1 (ctype s1) (cid s1) (cserial s1)) as [s2 o]. cbn [fst] in V2.
    cbv zeta in E. set (s3 := if is_mouse (ttype o) then update_proximity_state d s2 o else s2) in E. assert (V3 : absv s3 = absv s) by (unfold s3; destruct (is_mouse (ttype o)); rewrite ?prox_state_absv; congruence). clearbody s3.
    destruct (outp s3 || oor s3); [injection E as <- <-; split; [exact V3 | constructor]|]. pose proof (prepare_absv d s3 o) as V4. destruct (prepare d s3 o) as [s4 o4]. cbn [fst] in V4.
    destruct (send_events d s4 o4 t) as [s5 o5] eqn:E5. destruct (send_fresh _ _ _ _ _ _ E5) as [V5 F5]. rewrite V4, V3 in *. destruct tw; [|injection E as <- <-; split; [exact V5 | exact F5]].
    destruct (flush d n s5 t) as [s6 o6] eqn:E6. destruct (IH _ _ _ _ E6) as [V6 F6]. rewrite V5 in *. injection E as <- <-. split; [exact V6|]. intros L. apply Forall_app. split; [apply F5 | apply F6]; intros e IN; apply L; apply in_or_app; tauto.
Qed.

(** ** Histories *)
Lemma toggle_quiet : forall d s t e, In e (snd (toggle_touch d s t)) -> axes_of e = None /\ (news e = fun _ => false) /\ is_leave e = false.
Proof.
  intros d s t e. unfold toggle_touch, set_touch_enabled. destruct (oor s || leaving s || outp s); [|destruct (Qeq_bool (fst (tilt (ax s))) 0); [|destruct (arb s)]]; destruct (touch_dev s); cbn [snd In]; intros IN; try contradiction;
    destruct IN as [<- | []]; repeat split; reflexivity.
Qed.
Lemma toggle_six : forall d s t, six (fst (toggle_touch d s t)) = six s.
Proof. intros d s t. unfold toggle_touch, set_touch_enabled. destruct (oor s || leaving s || outp s); [|destruct (Qeq_bool (fst (tilt (ax s))) 0); [|destruct (arb s)]]; destruct (touch_dev s); reflexivity. Qed.
Lemma quiet_ok : forall d l, (forall e, In e l -> axes_of e = None) -> Forall (ev_ok d) l.
Proof. intros d l H. apply Forall_forall. intros e IN a X. rewrite (H e IN) in X. discriminate X. Qed.
Lemma syn_G : forall d n s t s' out, sane d -> G d s -> syn d n s t = (s', out) -> G d s' /\ Forall (ev_ok d) out.
Proof.
  intros d n s t s' out SA H E. unfold syn in E. destruct (flush d n s t) as [s1 o1] eqn:E1. destruct (flush_G _ _ _ _ _ _ SA H E1) as [H1 F1]. pose proof (toggle_six d s1 t) as S2. pose proof (toggle_quiet d s1 t) as Q2.
  destruct (toggle_touch d s1 t) as [s2 o2]. cbn [fst snd] in S2, Q2. injection E as <- <-. split; [pose proof (G_six d _ _ S2 H1) as H2; fr H2|]. apply Forall_app. split; [exact F1 | apply quiet_ok; intros e IN; apply (Q2 e IN)].
Qed.
Lemma syn_fresh : forall d n s t s' out, syn d n s t = (s', out) -> absv s' = absv s /\ ((forall e, In e out -> is_leave e = false) -> Forall (fresh d (absv s)) out).
Proof.
  intros d n s t s' out E. unfold syn in E. destruct (flush d n s t) as [s1 o1] eqn:E1. destruct (flush_fresh _ _ _ _ _ _ E1) as [H1 F1]. pose proof (toggle_six d s1 t) as S2. pose proof (toggle_quiet d s1 t) as Q2.
  destruct (toggle_touch d s1 t) as [s2 o2]. cbn [fst snd] in S2, Q2. injection E as <- <-. split; [unfold six in S2; cbn [absv set_last_time reset_state set_btn_down set_tool_upd set_pbtn]; congruence|]. intros L. apply Forall_app.
  split; [apply F1; intros e IN; apply L, in_or_app; tauto | apply fresh_silent; intros e IN; apply (Q2 e IN)].
Qed.
Lemma process_absolute_absv : forall d s a v, absv (process_absolute d s a v) = if has_abs d a then aupd (absv s) a v else absv s.
Proof. intros d s a v. unfold process_absolute. destruct (has_abs d a); cbn [negb]; [|reflexivity]. cbv zeta. match goal with |- context [if fuzzed ?a ?b ?c ?d then _ else _] => destruct (fuzzed a b c d) end; reflexivity. Qed.
Lemma process_absolute_G : forall d s a v, (has_abs d a = true -> amin d a <= v <= amax d a) -> G d s -> G d (process_absolute d s a v).
Proof.
  intros d s a v F H. unfold process_absolute. destruct (has_abs d a) eqn:E; cbn [negb]; [|exact H]. cbv zeta. set (s1 := set_prev_val (set_absv s (aupd (absv s) a v)) _).
  assert (H1 : G d s1). { eapply (G_frame d (set_absv s (aupd (absv s) a v))); try reflexivity. apply G_absv; [|exact H]. intros b HB. unfold aupd. destruct (axis_eqb b a) eqn:EB; [|exact (g_absv _ _ H b HB)]. assert (b = a) by (destruct a, b; try discriminate EB; reflexivity). subst b. exact (F eq_refl). }
  clearbody s1. destruct (fuzzed d (prev_val s1 a) a v); [exact H1|]. eapply (G_frame d (set_changed s1 (aupd (changed s1) a true))); try reflexivity. apply G_changed; [|exact H1].
  intros b R. unfold aupd. destruct (axis_eqb b a) eqn:EB; [|intros X; left; exact X]. intros _. right. assert (b = a) by (destruct a, b; try discriminate EB; reflexivity). congruence.
Qed.
Definition quiet_left (s : tab) (b : bool) := change_rotation s b.
Lemma device_added_G : forall d s id a b l, G d s -> G d (fst (device_added s id a b l)) /\ Forall (ev_ok d) (snd (device_added s id a b l)).
Proof.
  intros d s id a b l H. unfold device_added. cbv zeta. set (s1 := if a || b then _ else s). assert (H1 : G d s1) by (unfold s1; destruct (a || b); [fr H | exact H]). clearbody s1. destruct b; [|split; [exact H1 | constructor]].
  destruct l; [apply G_change_rotation; fr H1 | cbn [fst snd]; split; [fr H1 | constructor]].
Qed.
Lemma device_removed_G : forall d s id, G d s -> G d (fst (device_removed s id)) /\ Forall (ev_ok d) (snd (device_removed s id)).
Proof.
  intros d s id H. unfold device_removed. cbv zeta. set (s1 := if is_dev (touch_dev s) id then _ else s). assert (H1 : G d s1) by (unfold s1; destruct (is_dev (touch_dev s) id); [fr H | exact H]). clearbody s1.
  destruct (is_dev (rot_dev s1) id); [apply G_change_rotation; fr H1 | split; [exact H1 | constructor]].
Qed.
Lemma step_G : forall d n s i s' out, sane d -> fair_input d i -> G d s -> step d n s i = (s', out) -> G d s' /\ Forall (ev_ok d) out.
Proof.
  intros d n s i s' out SA FI H E. destruct i; cbn [step fair_input] in *.
  - destruct a; injection E as <- <-; (split; [|constructor]); try (apply process_absolute_G; assumption). exact H.
  - injection E as <- <-. split; [fr H | constructor].
  - injection E as <- <-. split; [|constructor]. unfold process_wheel. destruct (negb (has_abs d REL_WHEEL)); [exact H|]. eapply (G_frame d (set_ax (set_changed s (aupd (changed s) REL_WHEEL true)) (set_wheel_discrete (ax s) (- v)))); try reflexivity.
    apply G_ax; [exact (g_ax _ _ H)|]. apply G_changed; [|exact H]. intros a R. unfold aupd. destruct a; cbn in R |- *; intros X; first [discriminate R | left; exact X].
  - injection E as <- <-. split; [|constructor]. unfold process_tool. destruct (negb (tool_enabled d ty)); [exact H | fr H].
  - injection E as <- <-. split; [|constructor]. unfold process_touch. destruct (dev_axis d PRESSURE); [exact H|]. destruct down; fr H.
  - injection E as <- <-. split; [|constructor]. unfold update_button. destruct (negb (known_button c)); [exact H|]. destruct down; fr H.
  - injection E as <- <-. split; [|constructor]. unfold process_serial. destruct (v =? -1); [exact H | fr H].
  - exact (syn_G _ _ _ _ _ _ SA H E).
  - destruct (timer s) as [x|]; [|injection E as <- <-; split; [exact H | constructor]]. destruct (x <=? now); [|injection E as <- <-; split; [exact H | constructor]].
    unfold timeout in E. cbn [contact btn_down last_time set_timer] in E. destruct (contact s || btn_down s); [injection E as <- <-; split; [apply G_prox_timer; fr H | constructor]|].
    destruct ((now - FORCED_PROXOUT_TIMEOUT) mod 2 ^ 64 <? last_time s); [injection E as <- <-; split; [apply G_prox_timer; fr H | constructor]|].
    assert (H1 : G d (process_tool d (set_in_progress (set_timer s None) true) PEN false)). { unfold process_tool. destruct (negb (tool_enabled d PEN)); fr H. }
    destruct (syn d n (process_tool d (set_in_progress (set_timer s None) true) PEN false) now) as [s1 o1] eqn:E1. destruct (syn_G _ _ _ _ _ _ SA H1 E1) as [H2 F2]. injection E as <- <-. split; [fr H2 | exact F2].
  - unfold suspend, set_touch_enabled in E.
    match type of E with (match ?x with _ => _ end) = _ => assert (X1 : G d (fst x) /\ Forall (ev_ok d) (snd x)) end.
    { destruct (touch_dev s); cbn [fst snd]; [split; [fr H|]; apply ev_one; intros a X; discriminate X | split; [exact H | constructor]]. }
    match type of E with (match ?x with _ => _ end) = _ => destruct x as [s1 o1] end. cbn [fst snd] in X1. destruct X1 as [H1 F1]. destruct (outp s1); [injection E as <- <-; split; assumption|].
    destruct (flush d n (set_leaving s1 true) now) as [s2 o2] eqn:E2. assert (H1' : G d (set_leaving s1 true)) by fr H1. destruct (flush_G _ _ _ _ _ _ SA H1' E2) as [H2 F2]. injection E as <- <-. split; [exact H2 | apply Forall_app; split; assumption].
  - injection E as <- <-. split; [apply G_absv; assumption | constructor].
  - pose proof (device_added_G d s id touchscreen ext_touchpad left H) as X. rewrite E in X. exact X.
  - pose proof (device_removed_G d s id H) as X. rewrite E in X. exact X.
  - unfold left_toggled in E. destruct (rot_dev s); [|injection E as <- <-; split; [exact H | constructor]]. assert (H1 : G d (set_rot_lh s left)) by fr H. pose proof (G_change_rotation d _ false H1) as X. rewrite E in X. exact X.
  - destruct (reversible d); [|injection E as <- <-; split; [exact H | constructor]]. assert (H1 : G d (set_lh_want s left)) by fr H. pose proof (G_change_left d _ H1) as X. rewrite E in X. exact X.
  - injection E as <- <-. split; [apply G_globals; assumption | constructor].
Qed.
Lemma six_cserial : forall s v, six (set_cserial s v) = six s.  Proof. reflexivity. Qed.
Lemma six_cid : forall s v, six (set_cid s v) = six s.  Proof. reflexivity. Qed.
Lemma six_ptstate : forall s v, six (set_ptstate s v) = six s.  Proof. reflexivity. Qed.
Lemma six_tstate : forall s v, six (set_tstate s v) = six s.  Proof. reflexivity. Qed.
Lemma six_post_added : forall d s f m now, six (post_added d s f m now) = six s.
Proof.
  intros d s f m now. unfold post_added. destruct (find _ _) as [ty|]; [|reflexivity]. cbv zeta. rewrite six_cserial, six_cid, six_prox_timer, six_update_tool, six_ptstate, six_tstate. reflexivity.
Qed.
Lemma init_G : forall d g v, sane d -> within d v -> Forall (suits d) g -> G d (init d g v).
Proof. intros d g v SA V GL. pose proof (axes0_ranges d SA) as A. constructor; unfold init; cbn [ax samples absv locals globals changed]; [exact A | intros _; exact A | exact V | constructor | exact GL | intros a _ X; discriminate X]. Qed.
Lemma start_G : forall d w, sane d -> within d (w_values w) -> Forall (suits d) (w_globals w) -> G d (start d w).
Proof. intros d w SA V GL. unfold start. apply (G_six d (init d (w_globals w) (w_values w))); [apply six_post_added | apply init_G; assumption]. Qed.
Lemma run_G : forall d n l s s' out, sane d -> Forall (fair_input d) l -> G d s -> run d n s l = (s', out) -> G d s' /\ Forall (ev_ok d) out.
Proof.
  intros d n l. induction l as [|i l IH]; intros s s' out SA F H E; cbn [run] in E; [injection E as <- <-; split; [exact H | constructor]|].
  inversion F as [|? ? F1 F2]; subst. destruct (step d n s i) as [s1 o1] eqn:E1. destruct (run d n s1 l) as [s2 o2] eqn:E2. destruct (step_G _ _ _ _ _ _ SA F1 H E1) as [H1 O1]. destruct (IH _ _ _ SA F2 H1 E2) as [H2 O2].
  injection E as <- <-. split; [exact H2 | apply Forall_app; split; assumption].
Qed.
Lemma change_rotation_quiet : forall s b e, In e (snd (change_rotation s b)) -> (news e = fun _ => false).
Proof. intros s b e IN. unfold change_rotation in IN. cbv zeta in IN. cbn [snd] in IN. destruct (touch_dev _); [|destruct IN]. destruct b; [|destruct IN]. destruct IN as [<- | []]. reflexivity. Qed.
Lemma change_rotation_absv : forall s b, absv (fst (change_rotation s b)) = absv s.
Proof.
  intros s b. unfold change_rotation, apply_rotation. cbv zeta. cbn [fst]. match goal with |- context [if Bool.eqb ?a ?b then _ else _] => destruct (Bool.eqb a b) end; [reflexivity|].
  match goal with |- context [if negb ?a then _ else _] => destruct (negb a) end; reflexivity.
Qed.
Lemma step_fresh : forall d n s i s' out, step d n s i = (s', out) ->
  absv s' = kernel_step d (absv s) i /\ ((forall e, In e out -> is_leave e = false) -> Forall (fresh d (absv s)) out).
Proof.
  intros d n s i s' out E. destruct i; cbn [step kernel_step] in *.
  - destruct a; injection E as <- <-; (split; [|constructor]); try apply process_absolute_absv. reflexivity.
  - injection E as <- <-. split; [reflexivity | constructor].
  - injection E as <- <-. split; [|constructor]. unfold process_wheel. destruct (negb (has_abs d REL_WHEEL)); reflexivity.
  - injection E as <- <-. split; [|constructor]. unfold process_tool. destruct (negb (tool_enabled d ty)); reflexivity.
  - injection E as <- <-. split; [|constructor]. unfold process_touch. destruct (dev_axis d PRESSURE); [reflexivity|]. destruct down; reflexivity.
  - injection E as <- <-. split; [|constructor]. unfold update_button. destruct (negb (known_button c)); [reflexivity|]. destruct down; reflexivity.
  - injection E as <- <-. split; [|constructor]. unfold process_serial. destruct (v =? -1); reflexivity.
  - exact (syn_fresh _ _ _ _ _ _ E).
  - destruct (timer s) as [x|]; [|injection E as <- <-; split; [reflexivity | constructor]]. destruct (x <=? now); [|injection E as <- <-; split; [reflexivity | constructor]].
    unfold timeout in E. cbn [contact btn_down last_time set_timer] in E. assert (PT : forall y, absv (set_prox_timer (set_timer s None) y) = absv s) by (intros y; unfold set_prox_timer; destruct (need_force _); reflexivity).
    destruct (contact s || btn_down s); [injection E as <- <-; split; [apply PT | constructor]|].
    destruct ((now - FORCED_PROXOUT_TIMEOUT) mod 2 ^ 64 <? last_time s); [injection E as <- <-; split; [apply PT | constructor]|].
    assert (H1 : absv (process_tool d (set_in_progress (set_timer s None) true) PEN false) = absv s). { unfold process_tool. destruct (negb (tool_enabled d PEN)); reflexivity. }
    destruct (syn d n (process_tool d (set_in_progress (set_timer s None) true) PEN false) now) as [s1 o1] eqn:E1. destruct (syn_fresh _ _ _ _ _ _ E1) as [H2 F2]. rewrite H1 in *. injection E as <- <-. split; [exact H2 | exact F2].
  - unfold suspend, set_touch_enabled in E.
    match type of E with (match ?x with _ => _ end) = _ => assert (X1 : absv (fst x) = absv s /\ (forall e, In e (snd x) -> news e = fun _ => false)) end.
    { destruct (touch_dev s); cbn [fst snd]; (split; [reflexivity|]); intros e IN; [destruct IN as [<- | []]; reflexivity | destruct IN]. }
    match type of E with (match ?x with _ => _ end) = _ => destruct x as [s1 o1] end. cbn [fst snd] in X1. destruct X1 as [H1 F1]. destruct (outp s1); [injection E as <- <-; split; [exact H1 | intros _; apply fresh_silent; exact F1]|].
    destruct (flush d n (set_leaving s1 true) now) as [s2 o2] eqn:E2. destruct (flush_fresh _ _ _ _ _ _ E2) as [H2 F2]. cbn [absv set_leaving] in H2, F2. rewrite H1 in *. injection E as <- <-. split; [exact H2|]. intros L. apply Forall_app.
    split; [apply fresh_silent; exact F1 | apply F2; intros e IN; apply L, in_or_app; tauto].
  - injection E as <- <-. split; [reflexivity | constructor].
  - unfold device_added in E. cbv zeta in E. set (s1 := if touchscreen || ext_touchpad then _ else s) in E. assert (H1 : absv s1 = absv s) by (unfold s1; destruct (touchscreen || ext_touchpad); reflexivity). clearbody s1.
    destruct ext_touchpad; [destruct left|]; try (injection E as <- <-; split; [exact H1 | constructor]).
    pose proof (change_rotation_absv (set_rot_lh (set_rot_dev s1 (Some id)) true) true) as A. pose proof (change_rotation_quiet (set_rot_lh (set_rot_dev s1 (Some id)) true) true) as B. rewrite E in A, B. cbn [fst snd] in A, B.
    split; [rewrite A; exact H1 | intros _; apply fresh_silent; exact B].
  - unfold device_removed in E. cbv zeta in E. set (s1 := if is_dev (touch_dev s) id then _ else s) in E. assert (H1 : absv s1 = absv s) by (unfold s1; destruct (is_dev (touch_dev s) id); reflexivity). clearbody s1.
    destruct (is_dev (rot_dev s1) id); [|injection E as <- <-; split; [exact H1 | constructor]].
    pose proof (change_rotation_absv (set_rot_lh (set_rot_dev s1 None) false) true) as A. pose proof (change_rotation_quiet (set_rot_lh (set_rot_dev s1 None) false) true) as B. rewrite E in A, B. cbn [fst snd] in A, B.
    split; [rewrite A; exact H1 | intros _; apply fresh_silent; exact B].
  - unfold left_toggled in E. destruct (rot_dev s); [|injection E as <- <-; split; [reflexivity | constructor]]. pose proof (change_rotation_absv (set_rot_lh s left) false) as A. pose proof (change_rotation_quiet (set_rot_lh s left) false) as B. rewrite E in A, B. cbn [fst snd] in A, B.
    split; [exact A | intros _; apply fresh_silent; exact B].
  - destruct (reversible d); [|injection E as <- <-; split; [reflexivity | constructor]]. unfold change_to_left_handed in E. destruct (Bool.eqb _ _); [injection E as <- <-; split; [reflexivity | constructor]|].
    match type of E with change_rotation ?x ?b = _ => pose proof (change_rotation_absv x b) as A; pose proof (change_rotation_quiet x b) as B end. rewrite E in A, B. cbn [fst snd] in A, B. split; [exact A | intros _; apply fresh_silent; exact B].
  - injection E as <- <-. split; [reflexivity | constructor].
Qed.
Lemma run_kernel : forall d n l s, absv (fst (run d n s l)) = fold_left (kernel_step d) l (absv s).
Proof.
  intros d n l. induction l as [|i l IH]; intros s; cbn [run fold_left]; [reflexivity|]. destruct (step d n s i) as [s1 o1] eqn:E1. destruct (step_fresh _ _ _ _ _ _ E1) as [V _]. specialize (IH s1).
  destruct (run d n s1 l) as [s2 o2]. cbn [fst] in *. rewrite IH, V. reflexivity.
Qed.
Lemma start_absv : forall d w, absv (start d w) = w_values w.
Proof. intros d w. unfold start. pose proof (six_post_added d (init d (w_globals w) (w_values w)) (w_down w) (w_misc w) (w_now w)) as E. unfold six in E. change (w_values w) with (absv (init d (w_globals w) (w_values w))) at 2. congruence. Qed.
