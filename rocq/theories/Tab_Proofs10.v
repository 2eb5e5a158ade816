(** * Tablet tools: touch arbitration *)
Require Import Coq.ZArith.ZArith Coq.QArith.QArith Coq.Lists.List Coq.Bool.Bool Coq.micromega.Lia Coq.micromega.Lqa.
From Verif Require Import Tab_Model Tab_Spec Tab_Spec2 Tab_Proofs Tab_Proofs2 Tab_Proofs3 Tab_Proofs4 Tab_Proofs5 Tab_Proofs6 Tab_Proofs7 Tab_Proofs8 Tab_Proofs9.
Import ListNotations.
Open Scope Z_scope.

Definition two (s : tab) := (touch_dev s, arb s).
Fixpoint acc_rect (x : arbitration) (l : list tev) : Prop :=
  match l with [] => True | e :: l => match e with OArb _ w _ => acc_rect w l | ORect _ _ => x = IGNORE_RECT /\ acc_rect x l | _ => acc_rect x l end end.
Definition is_arb (e : tev) : bool := match e with OArb _ _ _ => true | _ => false end.
Definition is_rect (e : tev) : bool := match e with ORect _ _ => true | _ => false end.
Lemma told_app : forall a b x, told_from x (a ++ b) = told_from (told_from x a) b.
Proof. intros a b x. unfold told_from. apply fold_left_app. Qed.
Lemma acc_rect_app : forall a b x, acc_rect x (a ++ b) <-> acc_rect x a /\ acc_rect (told_from x a) b.
Proof.
  induction a as [|e a IH]; intros b x; cbn [app acc_rect]; [cbn; tauto|]. change (told_from x (e :: a)) with (told_from (match e with OArb _ w _ => w | _ => x end) a).
  destruct e; rewrite IH; try tauto.
Qed.
Lemma quiet_told : forall l x, (forall e, In e l -> is_arb e = false) -> told_from x l = x.
Proof. induction l as [|e l IH]; intros x H; [reflexivity|]. pose proof (H e (or_introl eq_refl)) as E. unfold told_from. cbn [fold_left]. destruct e; try discriminate E; apply IH; intros y Y; apply H; right; exact Y. Qed.
Lemma quiet_acc : forall l x, (forall e, In e l -> is_arb e = false) -> (forall e, In e l -> is_rect e = true -> x = IGNORE_RECT) -> acc_rect x l.
Proof.
  induction l as [|e l IH]; intros x H R; [exact I|]. pose proof (H e (or_introl eq_refl)) as E. pose proof (R e (or_introl eq_refl)) as RE. assert (A : acc_rect x l) by (apply IH; intros y Y; [apply H | apply R]; right; exact Y).
  destruct e; try discriminate E; cbn [acc_rect]; try exact A. split; [apply RE; reflexivity | exact A].
Qed.
(** ** What leaves arbitration alone *)
Lemma two_uts : forall s t, two (fst (update_tool_state s t)) = two s.
Proof.
  intros s t. unfold update_tool_state.
  set (s1 := if forced s && tool_upd s && (tstate s =? 0) then _ else s). assert (E1 : two s1 = two s) by (unfold s1; destruct (forced s && tool_upd s && (tstate s =? 0)); reflexivity).
  cbv zeta. set (s2 := if axes_upd s1 then _ else s1).
  assert (E2 : two s2 = two s).
  { rewrite <- E1. unfold s2. destruct (axes_upd s1); [|reflexivity]. destruct (forced s1); [destruct (negb (tool_upd s1) && (tstate s1 =? 0)); reflexivity|]. destruct ((tstate s1 =? 0) && (ctype s1 =? 0)); reflexivity. }
  clearbody s2. clear s1 E1. destruct (tstate s2 =? ptstate s2); [exact E2|].
  set (tw := negb (Z.land (tstate s2) (tstate s2 - 1) =? 0)). set (new := if tw then Z.lxor (tstate s2) (ptstate s2) else 0). set (s3 := if tw then set_tstate s2 0 else s2).
  assert (E3 : two s3 = two s) by (unfold s3; destruct tw; exact E2). clearbody s3. clear E2. set (ty := ffs (Z.lxor (tstate s3) (ptstate s3)) - 1).
  set (s4 := if ty <? 0 then set_crash s3 true else s3). assert (E4 : two s4 = two s) by (unfold s4; destruct (ty <? 0); exact E3). clearbody s4. clear E3.
  set (state := negb (Z.land (tstate s4) (bit ty) =? 0)). set (s5 := update_tool s4 ty state).
  assert (E5 : two s5 = two s). { unfold s5, update_tool. destruct state; [exact E4|]. destruct (negb (outp s4)); exact E4. }
  clearbody s5. clear E4. set (s6 := if ty =? PEN then _ else s5).
  assert (E6 : two s6 = two s). { unfold s6. destruct (ty =? PEN); [|exact E5]. destruct state; [unfold set_prox_timer; destruct (need_force s5); exact E5|]. destruct (negb (in_progress s5)); exact E5. }
  clearbody s6. destruct (negb (new =? 0)); exact E6.
Qed.
Lemma two_get_tool : forall d s ty id sr, two (fst (get_tool d s ty id sr)) = two s.
Proof. intros d s ty id sr. unfold get_tool. cbv zeta. destruct (if sr =? 0 then None else find _ (globals s)); [reflexivity|]. destruct (find _ (locals s)); [reflexivity|]. cbn [fst]. destruct (sr =? 0); reflexivity. Qed.
Lemma two_prox_state : forall d s o, two (update_proximity_state d s o) = two s.
Proof.
  intros d s o. unfold update_proximity_state. cbv zeta. destruct (negb (has_abs d DISTANCE)); [reflexivity|]. destruct (absv s DISTANCE =? 0); [reflexivity|]. destruct ((absv s DISTANCE <? dist_max d) && (oor s || outp s)); [reflexivity|].
  destruct (absv s DISTANCE <? dist_max d); [reflexivity|]. destruct (oor s || outp s); [reflexivity|]. destruct (entering s); reflexivity.
Qed.
Lemma two_prepare : forall d s o, two (fst (Tab_Proofs9.prepare d s o)) = two s.
Proof.
  intros d s o. unfold Tab_Proofs9.prepare. destruct (leaving s); [cbv zeta; cbn [fst]; destruct (contact _); reflexivity|]. destruct (axes_upd s || entering s); [|reflexivity]. cbv zeta. cbn [fst].
  set (s1 := if entering s then set_changed s (caps o) else s). assert (H1 : two s1 = two s) by (unfold s1; destruct (entering s); reflexivity). clearbody s1.
  set (o1 := detect_offset d s1 o). clearbody o1. set (s2 := put_tool s1 o1). assert (H2 : two s2 = two s) by exact H1. clearbody s2.
  set (s3 := detect_contact d s2 o1). assert (H3 : two s3 = two s).
  { unfold s3, detect_contact. cbv zeta. destruct (negb (caps o1 PRESSURE)); [exact H2|]. destruct (negb (has_abs d PRESSURE)); [exact H2|]. match goal with |- context [if ?a then set_lcont _ _ else if ?b then _ else _] => destruct a; [|destruct b] end; exact H2. }
  clearbody s3. set (s4 := sanitize_pressure_distance d s3 o1). assert (H4 : two s4 = two s).
  { unfold s4, sanitize_pressure_distance. cbv zeta. destruct (negb (has_abs d PRESSURE && has_abs d DISTANCE)); [exact H3|]. destruct (negb (changed s3 DISTANCE) && negb (changed s3 PRESSURE)); [exact H3|].
    destruct ((amin d DISTANCE <? absv s3 DISTANCE) && (amin d PRESSURE <? absv s3 PRESSURE)); [destruct (p_offset o1 <? absv s3 PRESSURE); exact H3|].
    destruct (changed s3 PRESSURE && negb (p_offset o1 <? absv s3 PRESSURE)); [|exact H3]. destruct (Qeq_bool (pressure (ax s3)) 0); exact H3. }
  clearbody s4. unfold sanitize_mouse_rotation. destruct (is_mouse (ctype s4) && (changed s4 TILT_X || changed s4 TILT_Y)); exact H4.
Qed.
Lemma two_send : forall d s o t s' out, send_events d s o t = (s', out) -> two s' = two s.
Proof. intros d s o t s' out E. pose proof (sd_rest _ _ _ _ (send_events_sends _ _ _ _ _ _ E)) as R. unfold rest in R. decompose [and] R. unfold two. congruence. Qed.
Definition mild (x : arbitration) (e : tev) : Prop := is_arb e = false /\ (is_rect e = true -> x = IGNORE_RECT).
Lemma mild_plain : forall x e, is_arb e = false -> is_rect e = false -> mild x e.
Proof. intros x e A B. split; [exact A | rewrite B; discriminate]. Qed.
Lemma mild_send : forall d s o t s' out, send_events d s o t = (s', out) -> Forall (mild (arb s)) out.
Proof.
  intros d s o t s' out E. unfold send_events in E.
  match type of E with (match ?x with _ => _ end) = _ => assert (X0 : Forall (mild (arb s)) (snd x)) end.
  { destruct (leaving s); [constructor|]. destruct (check_notify_axes d s o t) as [[s1 a1] rc] eqn:EC. assert (A1 : arb s1 = arb s).
    { pose proof (check_notify_same _ _ _ _ _ _ _ EC) as SM. unfold same in SM. decompose [and] SM. assumption. }
    cbn [snd]. destruct rc; [|constructor]. unfold update_rect. destruct (touch_dev s1); [|constructor]. rewrite A1. destruct (arb s); try constructor; [|constructor]. split; reflexivity. }
  match type of E with (match ?x with _ => _ end) = _ => destruct x as [[s0 a0] o0] end. cbn [snd] in X0. unfold send_prox_in in E.
  match type of E with (match ?x with _ => _ end) = _ => assert (X1 : Forall (mild (arb s)) (snd x)) end.
  { destruct (negb (entering s0)); repeat constructor; discriminate. }
  match type of E with (match ?x with _ => _ end) = _ => destruct x as [[s1 a1] o1] end. cbn [snd] in X1. unfold send_tip in E.
  match type of E with (match ?x with _ => _ end) = _ => assert (X2 : Forall (mild (arb s)) (snd (fst x))) end.
  { destruct (econt s1); [|destruct (lcont s1)]; repeat constructor; discriminate. }
  match type of E with (match ?x with _ => _ end) = _ => destruct x as [[[s2 a2] o2] b] end. cbn [fst snd] in X2. unfold send_axes in E.
  match type of E with (match ?x with _ => _ end) = _ => assert (X3 : Forall (mild (arb s)) (snd x)) end.
  { destruct b; [constructor|]. destruct (negb (axes_upd s2)); repeat constructor; discriminate. }
  match type of E with (match ?x with _ => _ end) = _ => destruct x as [[s3 a3] o3] end. cbn [snd] in X3. cbv zeta in E. set (s3' := set_changed (set_econt s3 false) no_axes) in E. clearbody s3'.
  unfold send_buttons in E. cbv zeta in E. set (o4 := ((if released_upd s3' then _ else []) ++ _)%list) in E. set (s4 := set_pressed_upd (set_released_upd s3' false) false) in E.
  assert (X4 : Forall (mild (arb s)) o4).
  { assert (N : forall x p, Forall (mild (arb s)) (notify_buttons x o t p)) by (intros x p; unfold notify_buttons; apply Forall_forall; intros e IN; apply in_map_iff in IN; destruct IN as (c & <- & _); apply mild_plain; reflexivity).
    unfold o4. apply Forall_app. split; [destruct (released_upd s3') | destruct (pressed_upd _)]; try constructor; apply N. }
  clearbody s4 o4. unfold send_prox_out in E.
  match type of E with (match ?x with _ => _ end) = _ => assert (X5 : Forall (mild (arb s)) (snd (fst x))) end.
  { destruct (negb (leaving s4)); repeat constructor; discriminate. }
  match type of E with (match ?x with _ => _ end) = _ => destruct x as [[s5 o5] g] end. cbn [fst snd] in X5.
  match type of E with (match ?x with _ => _ end) = _ => assert (X6 : Forall (mild (arb s)) (snd x)) end.
  { destruct g; [|constructor]. unfold change_to_left_handed, change_rotation. cbv zeta. destruct (Bool.eqb (lh s5) (lh_want s5)); [constructor|]. cbn [fst snd]. destruct (touch_dev _); repeat constructor. discriminate. }
  match type of E with (match ?x with _ => _ end) = _ => destruct x as [s6 o6] end. cbn [snd] in X6. injection E as <- <-. repeat (apply Forall_app; split; try assumption).
Qed.
Lemma flush_two : forall d n s t s' out, flush d n s t = (s', out) -> two s' = two s /\ Forall (mild (arb s)) out.
Proof.
  intros d n. induction n as [|n IH]; intros s t s' out E.
  - cbn [flush] in E. injection E as <- <-. split; [reflexivity | constructor].
  - rewrite flush_eq in E. pose proof (two_uts s t) as V1. destruct (update_tool_state s t) as [s1 tw]. cbn [fst] in V1.
    destruct (ctype s1 =? 0); [injection E as <- <-; split; [exact V1 | constructor]|]. pose proof (two_get_tool d s1 (ctype s1) (cid s1) (cserial s1)) as V2. destruct (get_tool d s1 (ctype s1) (cid s1) (cserial s1)) as [s2 o]. cbn [fst] in V2.
    cbv zeta in E. set (s3 := if is_mouse (ttype o) then update_proximity_state d s2 o else s2) in E. assert (V3 : two s3 = two s) by (unfold s3; destruct (is_mouse (ttype o)); rewrite ?two_prox_state; congruence). clearbody s3.
    destruct (outp s3 || oor s3); [injection E as <- <-; split; [exact V3 | constructor]|]. pose proof (two_prepare d s3 o) as V4. destruct (Tab_Proofs9.prepare d s3 o) as [s4 o4]. cbn [fst] in V4.
    destruct (send_events d s4 o4 t) as [s5 o5] eqn:E5. pose proof (two_send _ _ _ _ _ _ E5) as V5. pose proof (mild_send _ _ _ _ _ _ E5) as F5. assert (A4 : arb s4 = arb s) by (unfold two in V4, V3; congruence). rewrite A4 in F5.
    destruct tw; [|injection E as <- <-; split; [congruence | exact F5]].
    destruct (flush d n s5 t) as [s6 o6] eqn:E6. destruct (IH _ _ _ _ E6) as [V6 F6]. assert (A5 : arb s5 = arb s) by (unfold two in V5; congruence). rewrite A5 in F6. injection E as <- <-. split; [congruence | apply Forall_app; split; assumption].
Qed.
Lemma mild_told : forall x l, Forall (mild x) l -> told_from x l = x /\ acc_rect x l.
Proof. intros x l F. rewrite Forall_forall in F. split; [apply quiet_told; intros e IN; apply (F e IN) | apply quiet_acc; intros e IN; apply (F e IN)]. Qed.
(** ** Steps *)
Definition tracks (s s' : tab) (out : list tev) : Prop := arb s' = told_from (arb s) out /\ acc_rect (arb s) out.
Lemma set_touch_tracks : forall s w r t, tracks s (fst (set_touch_enabled s w r t)) (snd (set_touch_enabled s w r t)) /\ touch_dev (fst (set_touch_enabled s w r t)) = touch_dev s.
Proof. intros s w r t. unfold set_touch_enabled, tracks. destruct (touch_dev s) eqn:E; cbn [fst snd]; repeat split; cbn [touch_dev set_arb]; exact E. Qed.
Lemma toggle_tracks : forall d s t, tracks s (fst (toggle_touch d s t)) (snd (toggle_touch d s t)) /\ touch_dev (fst (toggle_touch d s t)) = touch_dev s.
Proof.
  intros d s t. unfold toggle_touch. destruct (oor s || leaving s || outp s); [apply set_touch_tracks|]. destruct (Qeq_bool (fst (tilt (ax s))) 0); [apply set_touch_tracks|].
  destruct (arb s); try apply set_touch_tracks. repeat split; reflexivity.
Qed.
Lemma tracks_app : forall s s1 s2 a b, tracks s s1 a -> tracks s1 s2 b -> tracks s s2 (a ++ b).
Proof. intros s s1 s2 a b [A B] [C D]. split; [rewrite told_app, <- A; exact C|]. apply acc_rect_app. split; [exact B | rewrite <- A; exact D]. Qed.
Lemma tracks_flush : forall d n s t s' out, flush d n s t = (s', out) -> tracks s s' out /\ touch_dev s' = touch_dev s.
Proof. intros d n s t s' out E. destruct (flush_two _ _ _ _ _ _ E) as [V F]. destruct (mild_told _ _ F) as [A B]. unfold two in V. injection V as V1 V2. split; [split; [congruence | exact B] | exact V1]. Qed.
Lemma tracks_syn : forall d n s t s' out, syn d n s t = (s', out) -> tracks s s' out /\ touch_dev s' = touch_dev s.
Proof.
  intros d n s t s' out E. unfold syn in E. destruct (flush d n s t) as [s1 o1] eqn:E1. destruct (tracks_flush _ _ _ _ _ _ E1) as [T1 V1]. destruct (toggle_tracks d s1 t) as [T2 V2]. destruct (toggle_touch d s1 t) as [s2 o2]. cbn [fst snd] in T2, V2.
  injection E as <- <-. pose proof (tracks_app _ _ _ _ _ T1 T2) as T. split; [exact T | cbn [touch_dev set_last_time reset_state set_btn_down set_tool_upd set_pbtn]; congruence].
Qed.
Lemma tracks_quiet : forall s s' out, arb s' = arb s -> (forall e, In e out -> is_arb e = false /\ is_rect e = false) -> tracks s s' out.
Proof. intros s s' out A Q. destruct (mild_told (arb s) out) as [B C]; [apply Forall_forall; intros e IN; destruct (Q e IN); apply mild_plain; assumption|]. split; [congruence | exact C]. Qed.
Lemma change_rotation_two : forall s b, two (fst (change_rotation s b)) = two s /\ forall e, In e (snd (change_rotation s b)) -> is_arb e = false /\ is_rect e = false.
Proof.
  intros s b. unfold change_rotation, apply_rotation. cbv zeta. cbn [fst snd]. split.
  - match goal with |- context [if Bool.eqb ?a ?b then _ else _] => destruct (Bool.eqb a b) end; [reflexivity|]. match goal with |- context [if negb ?a then _ else _] => destruct (negb a) end; reflexivity.
  - intros e IN. destruct (touch_dev _); [|destruct IN]. destruct b; [|destruct IN]. destruct IN as [<- | []]. split; reflexivity.
Qed.
Lemma tracks_rot : forall s x b s' out, two x = two s \/ arb x = arb s -> change_rotation x b = (s', out) -> tracks s s' out /\ touch_dev s' = touch_dev x.
Proof.
  intros s x b s' out H E. destruct (change_rotation_two x b) as [V Q]. rewrite E in V, Q. cbn [fst snd] in V, Q. unfold two in V. injection V as V1 V2. split; [|exact V1]. apply tracks_quiet; [|exact Q].
  destruct H as [H | H]; [unfold two in H; congruence | congruence].
Qed.
Definition touch_after (x : option nat) (i : input) : option nat :=
  match i with IAdded id a b _ => if a || b then Some id else x | IRemoved id => if is_dev x id then None else x | _ => x end.
Lemma step_tracks : forall d n s i s' out, step d n s i = (s', out) -> tracks s s' out /\ touch_dev s' = touch_after (touch_dev s) i.
Proof.
  intros d n s i s' out E.
  assert (SIMPLE : forall x, two x = two s -> tracks s x [] /\ touch_dev x = touch_dev s).
  { intros x H. unfold two in H. injection H as H1 H2. split; [apply tracks_quiet; [exact H2 | intros e []] | exact H1]. }
  destruct i; cbn [step touch_after] in *.
  - destruct a; injection E as <- <-; apply SIMPLE; try reflexivity; unfold process_absolute; destruct (negb _); try reflexivity; cbv zeta; match goal with |- context [if fuzzed ?a ?b ?c ?d then _ else _] => destruct (fuzzed a b c d) end; reflexivity.
  - injection E as <- <-. apply SIMPLE. reflexivity.
  - injection E as <- <-. apply SIMPLE. unfold process_wheel. destruct (negb (has_abs d REL_WHEEL)); reflexivity.
  - injection E as <- <-. apply SIMPLE. unfold process_tool. destruct (negb (tool_enabled d ty)); reflexivity.
  - injection E as <- <-. apply SIMPLE. unfold process_touch. destruct (dev_axis d PRESSURE); [reflexivity|]. destruct down; reflexivity.
  - injection E as <- <-. apply SIMPLE. unfold update_button. destruct (negb (known_button c)); [reflexivity|]. destruct down; reflexivity.
  - injection E as <- <-. apply SIMPLE. unfold process_serial. destruct (v =? -1); reflexivity.
  - exact (tracks_syn _ _ _ _ _ _ E).
  - destruct (timer s) as [x|]; [|injection E as <- <-; apply SIMPLE; reflexivity]. destruct (x <=? now); [|injection E as <- <-; apply SIMPLE; reflexivity].
    unfold timeout in E. cbn [contact btn_down last_time set_timer] in E. assert (PT : forall y, two (set_prox_timer (set_timer s None) y) = two s) by (intros y; unfold set_prox_timer; destruct (need_force _); reflexivity).
    destruct (contact s || btn_down s); [injection E as <- <-; apply SIMPLE, PT|].
    destruct ((now - FORCED_PROXOUT_TIMEOUT) mod 2 ^ 64 <? last_time s); [injection E as <- <-; apply SIMPLE, PT|].
    assert (H1 : two (process_tool d (set_in_progress (set_timer s None) true) PEN false) = two s). { unfold process_tool. destruct (negb (tool_enabled d PEN)); reflexivity. }
    destruct (syn d n (process_tool d (set_in_progress (set_timer s None) true) PEN false) now) as [s1 o1] eqn:E1. destruct (tracks_syn _ _ _ _ _ _ E1) as [T1 V1]. unfold two in H1. pose proof (f_equal fst H1) as HT. pose proof (f_equal snd H1) as HA. cbn [fst snd] in HT, HA. injection E as <- <-.
    unfold tracks in *. cbn [arb touch_dev set_forced set_in_progress]. rewrite <- HA, <- HT. split; [exact T1 | exact V1].
  - unfold suspend in E. destruct (set_touch_tracks s NOT_ACTIVE None now) as [T1 V1]. destruct (set_touch_enabled s NOT_ACTIVE None now) as [s1 o1]. cbn [fst snd] in T1, V1. destruct (outp s1); [injection E as <- <-; split; assumption|].
    destruct (flush d n (set_leaving s1 true) now) as [s2 o2] eqn:E2. destruct (tracks_flush _ _ _ _ _ _ E2) as [T2 V2]. injection E as <- <-. split; [eapply tracks_app; [exact T1 | exact T2] | rewrite V2; exact V1].
  - injection E as <- <-. apply SIMPLE. reflexivity.
  - unfold device_added in E. cbv zeta in E. set (s1 := if touchscreen || ext_touchpad then _ else s) in E.
    assert (H1 : arb s1 = arb s /\ touch_dev s1 = if touchscreen || ext_touchpad then Some id else touch_dev s) by (unfold s1; destruct (touchscreen || ext_touchpad); split; reflexivity). clearbody s1. destruct H1 as [A1 V1].
    assert (S1 : forall x, two x = two s1 -> tracks s x [] /\ touch_dev x = if touchscreen || ext_touchpad then Some id else touch_dev s). { intros x H. unfold two in H. injection H as X1 X2. split; [apply tracks_quiet; [congruence | intros e []] | congruence]. }
    destruct ext_touchpad; [destruct left|]; try (injection E as <- <-; apply S1; reflexivity).
    assert (A2 : arb (set_rot_lh (set_rot_dev s1 (Some id)) true) = arb s) by exact A1. destruct (tracks_rot s _ _ _ _ (or_intror A2) E) as [T V]. split; [exact T | rewrite V; exact V1].
  - unfold device_removed in E. cbv zeta in E. set (s1 := if is_dev (touch_dev s) id then _ else s) in E.
    assert (H1 : arb s1 = arb s /\ touch_dev s1 = if is_dev (touch_dev s) id then None else touch_dev s) by (unfold s1; destruct (is_dev (touch_dev s) id); split; reflexivity). clearbody s1. destruct H1 as [A1 V1].
    destruct (is_dev (rot_dev s1) id); [|injection E as <- <-; split; [apply tracks_quiet; [exact A1 | intros e []] | exact V1]].
    assert (A2 : arb (set_rot_lh (set_rot_dev s1 None) false) = arb s) by exact A1. destruct (tracks_rot s _ _ _ _ (or_intror A2) E) as [T V]. split; [exact T | rewrite V; exact V1].
  - unfold left_toggled in E. destruct (rot_dev s); [|injection E as <- <-; apply SIMPLE; reflexivity]. exact (tracks_rot s (set_rot_lh s left) _ _ _ (or_introl eq_refl) E).
  - destruct (reversible d); [|injection E as <- <-; apply SIMPLE; reflexivity]. unfold change_to_left_handed in E. destruct (Bool.eqb _ _); [injection E as <- <-; apply SIMPLE; reflexivity|].
    match type of E with change_rotation ?x ?b = _ => exact (tracks_rot s x _ _ _ (or_introl eq_refl) E) end.
  - injection E as <- <-. apply SIMPLE. reflexivity.
Qed.
Lemma run_tracks : forall d n l s s' out, run d n s l = (s', out) -> tracks s s' out /\ touch_dev s' = fold_left touch_after l (touch_dev s).
Proof.
  intros d n l. induction l as [|i l IH]; intros s s' out E; cbn [run fold_left] in *; [injection E as <- <-; split; [split; [reflexivity | exact I] | reflexivity]|].
  destruct (step d n s i) as [s1 o1] eqn:E1. destruct (run d n s1 l) as [s2 o2] eqn:E2. destruct (step_tracks _ _ _ _ _ _ E1) as [T1 V1]. destruct (IH _ _ _ E2) as [T2 V2]. injection E as <- <-.
  split; [exact (tracks_app _ _ _ _ _ T1 T2) | congruence].
Qed.
Lemma start_two : forall d w, two (start d w) = (None, NOT_ACTIVE).
Proof.
  intros d w. unfold start. assert (H : forall s f m now, two (post_added d s f m now) = two s); [|rewrite H; reflexivity].
  assert (A : forall s v, two (set_cserial s v) = two s) by reflexivity. assert (B : forall s v, two (set_cid s v) = two s) by reflexivity. assert (C : forall s v, two (set_ptstate s v) = two s) by reflexivity. assert (D : forall s v, two (set_tstate s v) = two s) by reflexivity.
  assert (E : forall s v, two (set_prox_timer s v) = two s) by (intros s v; unfold set_prox_timer; destruct (need_force s); reflexivity).
  assert (F : forall s ty, two (update_tool s ty true) = two s) by reflexivity.
  intros s f m now. unfold post_added. destruct (find _ _) as [ty|]; [|reflexivity]. cbv zeta. rewrite A, B, E, F, C, D. reflexivity.
Qed.
(** ** The state a frame ends in *)
Lemma syn_arb : forall d n s t s' out, syn d n s t = (s', out) -> touch_dev s <> None -> (arb s' = NOT_ACTIVE <-> oor s' || leaving s' || outp s' = true).
Proof.
  intros d n s t s' out E TD. unfold syn in E. destruct (flush d n s t) as [s1 o1] eqn:E1. destruct (tracks_flush _ _ _ _ _ _ E1) as [_ V1]. assert (TD1 : touch_dev s1 <> None) by congruence. clear E1 V1 TD.
  unfold toggle_touch, set_touch_enabled in E. destruct (touch_dev s1) as [x|]; [|congruence]. destruct (oor s1 || leaving s1 || outp s1) eqn:EO.
  - injection E as <- _. cbn [arb oor leaving outp set_last_time reset_state set_btn_down set_tool_upd set_pbtn set_arb]. rewrite EO. tauto.
  - destruct (Qeq_bool (fst (tilt (ax s1))) 0); [|destruct (arb s1) eqn:EA]; injection E as <- _; cbn [arb oor leaving outp set_last_time reset_state set_btn_down set_tool_upd set_pbtn set_arb]; rewrite EO, ?EA; split; discriminate.
Qed.
Lemma tilt_zero : forall d s, G d s -> has_abs d TILT_X = false -> Qeq_bool (fst (tilt (ax s))) 0 = true.
Proof. intros d s H N. destruct (g_ax _ _ H) as (_ & _ & _ & _ & [A B] & _). unfold most_tilt in A, B. rewrite N in A, B. cbn [negb] in A, B. apply Qeq_bool_iff. lra. Qed.
Definition no_rect (e : tev) : Prop := forall t r, e <> OArb t IGNORE_RECT r.
Lemma syn_no_rect : forall d n s t s' out, sane d -> G d s -> has_abs d TILT_X = false -> syn d n s t = (s', out) -> Forall no_rect out.
Proof.
  intros d n s t s' out SA H N E. unfold syn in E. destruct (flush d n s t) as [s1 o1] eqn:E1. destruct (flush_G _ _ _ _ _ _ SA H E1) as [H1 _]. destruct (flush_two _ _ _ _ _ _ E1) as [_ F1]. pose proof (tilt_zero _ _ H1 N) as TZ.
  assert (X : Forall no_rect (snd (toggle_touch d s1 t))).
  { unfold toggle_touch, set_touch_enabled. rewrite TZ. destruct (oor s1 || leaving s1 || outp s1); destruct (touch_dev s1); constructor; try constructor; intros x r; discriminate. }
  destruct (toggle_touch d s1 t) as [s2 o2]. cbn [snd] in X. injection E as _ <-. apply Forall_app. split; [|exact X]. rewrite Forall_forall in *. intros e IN y r ->. destruct (F1 _ IN) as [Y _]. discriminate Y.
Qed.
Lemma step_no_rect : forall d n s i s' out, sane d -> G d s -> has_abs d TILT_X = false -> step d n s i = (s', out) -> Forall no_rect out.
Proof.
  intros d n s i s' out SA H N E. destruct (match i with ISyn _ | ITimer _ | ISuspend _ => true | _ => false end) eqn:EI.
  - destruct i; try discriminate EI; cbn [step] in E.
    + exact (syn_no_rect _ _ _ _ _ _ SA H N E).
    + destruct (timer s) as [x|]; [|injection E as _ <-; constructor]. destruct (x <=? now); [|injection E as _ <-; constructor]. unfold timeout in E. cbn [contact btn_down last_time set_timer] in E.
      destruct (contact s || btn_down s); [injection E as _ <-; constructor|]. destruct ((now - FORCED_PROXOUT_TIMEOUT) mod 2 ^ 64 <? last_time s); [injection E as _ <-; constructor|].
      assert (H1 : G d (process_tool d (set_in_progress (set_timer s None) true) PEN false)). { unfold process_tool. destruct (negb (tool_enabled d PEN)); fr H. }
      destruct (syn d n (process_tool d (set_in_progress (set_timer s None) true) PEN false) now) as [s1 o1] eqn:E1. injection E as _ <-. exact (syn_no_rect _ _ _ _ _ _ SA H1 N E1).
    + unfold suspend in E. assert (X : Forall no_rect (snd (set_touch_enabled s NOT_ACTIVE None now))) by (unfold set_touch_enabled; destruct (touch_dev s); constructor; try constructor; intros x r; discriminate).
      destruct (set_touch_enabled s NOT_ACTIVE None now) as [s1 o1]. cbn [snd] in X. destruct (outp s1); [injection E as _ <-; exact X|].
      destruct (flush d n (set_leaving s1 true) now) as [s2 o2] eqn:E2. destruct (flush_two _ _ _ _ _ _ E2) as [_ F2]. injection E as _ <-. apply Forall_app. split; [exact X|].
      rewrite Forall_forall in *. intros e IN y r ->. destruct (F2 _ IN) as [Y _]. discriminate Y.
  - assert (Q : forall e, In e out -> is_arb e = false).
    { destruct i; try discriminate EI; cbn [step] in E; try (injection E as _ <-; intros e []).
      - destruct a; injection E as _ <-; intros e [].
      - unfold device_added in E. cbv zeta in E. destruct ext_touchpad; [destruct left|]; try (injection E as _ <-; intros e []). match type of E with change_rotation ?x ?b = _ => pose proof (proj2 (change_rotation_two x b)) as Q end. rewrite E in Q. intros e IN. apply (Q e IN).
      - unfold device_removed in E. cbv zeta in E. destruct (is_dev _ id); destruct (is_dev _ id); try (injection E as _ <-; intros e []); match type of E with change_rotation ?x ?b = _ => pose proof (proj2 (change_rotation_two x b)) as Q end; rewrite E in Q; intros e IN; apply (Q e IN).
      - unfold left_toggled in E. destruct (rot_dev s); [|injection E as _ <-; intros e []]. match type of E with change_rotation ?x ?b = _ => pose proof (proj2 (change_rotation_two x b)) as Q end. rewrite E in Q. intros e IN. apply (Q e IN).
      - destruct (reversible d); [|injection E as _ <-; intros e []]. unfold change_to_left_handed in E. destruct (Bool.eqb _ _); [injection E as _ <-; intros e []|].
        match type of E with change_rotation ?x ?b = _ => pose proof (proj2 (change_rotation_two x b)) as Q end. rewrite E in Q. intros e IN. apply (Q e IN). }
    apply Forall_forall. intros e IN y r ->. specialize (Q _ IN). discriminate Q.
Qed.
Lemma run_no_rect : forall d n l s s' out, sane d -> Forall (fair_input d) l -> G d s -> has_abs d TILT_X = false -> run d n s l = (s', out) -> Forall no_rect out.
Proof.
  intros d n l. induction l as [|i l IH]; intros s s' out SA F H N E; cbn [run] in E; [injection E as _ <-; constructor|].
  inversion F as [|? ? F1 F2]; subst. destruct (step d n s i) as [s1 o1] eqn:E1. destruct (run d n s1 l) as [s2 o2] eqn:E2. destruct (step_G _ _ _ _ _ _ SA F1 H E1) as [H1 _].
  injection E as _ <-. apply Forall_app. split; [exact (step_no_rect _ _ _ _ _ _ SA H N E1) | exact (IH _ _ _ SA F2 H1 N E2)].
Qed.
