(** * C42, continued: what is reported, thresholds, clearing; and C29's inputs are what the touchpad produces *)
Require Import Coq.ZArith.ZArith Coq.Lists.List Coq.Bool.Bool Lia.
Require Import Verif.Tp_Model Verif.Tp_Spec Verif.Tp_Proofs Verif.Tp_Proofs2.
Require Verif.Tap_Model Verif.Tap_Spec.
Import ListNotations.
Open Scope Z_scope.

(** The count of fingers without a slot is the one the BTN_TOOL_* buttons last reported: one for BTN_TOOL_FINGER, two for BTN_TOOL_DOUBLETAP ...
    (BTN_TOOL_QUINTTAP makes it an unknown number above four and is left out here.) *)
Theorem C42_tools_as_reported : forall l (fi : bool), never_quint l -> let f := tools l (if fi then fake_finger_set no_fake BTN_TOOL_FINGER true else no_fake) in
  fake_finger_count f = fingers_reported fi l /\ f_touch f = last_value BTN_TOUCH false l.
Proof. intros. apply reported_spec. assumption. Qed.
Print Assumptions C42_tools_as_reported.
(** So on a single-touch touchpad the fingers down after a frame are the fingers reported while BTN_TOUCH is on: nothing else matters. *)
Theorem C42_single_touch_as_reported : forall nt ns sl a (fi : bool) l d, never_quint l -> (4 <= nt)%nat ->
  let r := run (init nt ns sl false ByFake false false a fi) (l ++ [Ev Syn d]) in
  exists f, snd r = snd (run (init nt ns sl false ByFake false false a fi) l) ++ [f] /\
    down_count f = if last_value BTN_TOUCH false l then fingers_reported fi l else 0.
Proof.
  intros nt ns sl a fi l d Q N. destruct (count_frame nt ns sl false ByFake false false a fi l d) as (f & E & C). exists f. split; [exact E|]. rewrite <- C.
  destruct (reported_spec l fi Q) as [R1 R2].
  set (s0 := init nt ns sl false ByFake false false a fi) in *.
  pose proof (init_inv nt ns sl false ByFake false false a fi) as H0. fold s0 in H0.
  assert (LE : 0 <= fingers_reported fi l <= 4) by (unfold fingers_reported; repeat match goal with |- context [if ?b then _ else _] => destruct b end; lia).
  destruct (run_inv l _ _ H0) as (ds & H1). destruct (run_fakes l _ _ H0) as (FK & MO & HM & _ & _ & LT).
  assert (NO : fake_finger_count (fakes (fst (run s0 l))) <> FAKE_FINGER_OVERFLOW) by (rewrite FK; change (fakes s0) with (if fi then fake_finger_set no_fake BTN_TOOL_FINGER true else no_fake); rewrite R1; unfold FAKE_FINGER_OVERFLOW; lia).
  rewrite run_app. cbn [fst run istep step]. cbn [post_process with_touches nfd].
  rewrite (frame_nfd ds _ d H1 MO) by exact NO. rewrite (present_st ds _ H1 HM) by exact NO. rewrite FK, LT. change (fakes s0) with (if fi then fake_finger_set no_fake BTN_TOOL_FINGER true else no_fake). rewrite R1, R2.
  change (touches s0) with (repeat touch0 nt). rewrite repeat_length. destruct (last_value BTN_TOUCH false l); lia.
Qed.
Print Assumptions C42_single_touch_as_reported.

(** A touch that begins, stays or ends has been down (tapping looks at this to see whether an ending touch ever began). *)
Theorem C42_was_down : forall nt ns sl mt h sy al a (fi : bool) l f t,
  In f (snd (run (init nt ns sl mt h sy al a fi) l)) -> In t f -> ts t = BEGIN \/ ts t = UPDATE \/ ts t = MAYBE_END \/ ts t = END -> was_down t = true.
Proof.
  intros nt ns sl mt h sy al a fi l f t IF IT C. pose proof (wd_run l _ (init_wd nt ns sl mt h sy al a fi)) as W. rewrite Forall_forall in W. specialize (W f IF). rewrite Forall_forall in W. specialize (W t IT).
  unfold wd in W. destruct C as [C|[C|[C|C]]]; rewrite C in W; exact W.
Qed.
Print Assumptions C42_was_down.

(** Clearing the touchpad's state (suspend, tablet mode, removal) ends every finger: in the frame sent for it none is down. *)
Theorem C42_cleared : forall nt ns sl mt h sy al a (fi : bool) l d, let r := run (init nt ns sl mt h sy al a fi) (l ++ [Clear d]) in
  exists f, snd r = snd (run (init nt ns sl mt h sy al a fi) l) ++ [f] /\ Forall (fun t => still_down t = false) f /\ nfd (fst r) = 0.
Proof.
  intros nt ns sl mt h sy al a fi l d r. destruct (run_inv l _ _ (init_inv nt ns sl mt h sy al a fi)) as (ds & H).
  destruct (clear_down ds _ d H) as (A & B). unfold r. rewrite run_app. cbn [run istep]. destruct (clear_state (fst (run (init nt ns sl mt h sy al a fi) l)) d) as [s1 f]. cbn [fst snd] in *. exists f. auto.
Qed.
Print Assumptions C42_cleared.

(** Touchpads with pressure: a finger in a slot that was down stays down until its pressure, as last reported, is below the low threshold;
    one that hovers comes down when it reaches the high one.  Only slots the kernel reported something for are looked at.
    (Unless more fingers are reported than there are slots.) *)
Theorem C42_pressure : forall nt ns sl lo hi a (fi : bool) l d f j,
  (ns <= nt)%nat -> (sl < ns)%nat -> length a = ns -> no_resync l -> slots_below ns l -> (j < ns)%nat -> never_quint l -> fingers_reported fi l <= Z.of_nat ns ->
  let s0 := init nt ns sl true (ByPressure lo hi) false false a fi in
  snd (run s0 (l ++ [Ev Syn d])) = snd (run s0 l) ++ [f] ->
  let before := nth j (touches (fst (run s0 l))) touch0 in
  let p := last_pressure j sl 0 l in
  still_down (nth j f touch0) = match ts before with UPDATE => negb (dirty before) || pressed_hard lo hi p true | HOVERING => dirty before && pressed_hard lo hi p false | _ => false end.
Proof.
  intros nt ns sl lo hi a fi l d f j L1 L2 L3 NR SB LJ NQ FR s0 E before p.
  pose proof (init_inv nt ns sl true (ByPressure lo hi) false false a fi) as H0. fold s0 in H0.
  assert (S0 : slots_inv false {| act := a; cur := sl |} s0) by (apply init_slots; auto; discriminate).
  destruct (run_slots false l _ _ s0 H0 S0 SB NR) as (S1 & S2).
  destruct (run_inv l _ _ H0) as (ds & H1). destruct (run_fakes l _ _ H0) as (FK & MO & _).
  rewrite run_app in E. cbn [snd run istep step fst] in E. apply app_inv_head in E. injection E as E. subst f.
  rewrite (pressure_slot ds _ _ d j lo hi H1 S1 MO).
  - destruct (values_run l _ _ s0 j H0 S0 SB NR LJ) as (V & _). fold before in V. change (nth j (touches s0) touch0) with (nth j (repeat touch0 nt) touch0) in V. rewrite nth_repeat in V. cbn [cur pressure touch0] in V. fold p in V. unfold soft. fold before. rewrite V. reflexivity.
  - rewrite S2. exact LJ.
  - left. rewrite FK, S2. change (fakes s0) with (if fi then fake_finger_set no_fake BTN_TOOL_FINGER true else no_fake). destruct (reported_spec l fi NQ) as [R1 _]. rewrite R1. exact FR.
Qed.
Print Assumptions C42_pressure.
(** Touchpads with touch sizes: the same with both axes of the ellipse. *)
Theorem C42_size : forall nt ns sl lo hi a (fi : bool) l d f j,
  (ns <= nt)%nat -> (sl < ns)%nat -> length a = ns -> no_resync l -> slots_below ns l -> (j < ns)%nat ->
  let s0 := init nt ns sl true (BySize lo hi) false false a fi in
  snd (run s0 (l ++ [Ev Syn d])) = snd (run s0 l) ++ [f] ->
  let before := nth j (touches (fst (run s0 l))) touch0 in
  let major := last_major j sl 0 l in let minor := last_minor j sl 0 l in
  still_down (nth j f touch0) = match ts before with UPDATE => negb (dirty before) || big_enough lo hi major minor true | HOVERING => dirty before && big_enough lo hi major minor false | _ => false end.
Proof.
  intros nt ns sl lo hi a fi l d f j L1 L2 L3 NR SB LJ s0 E before ma mi.
  pose proof (init_inv nt ns sl true (BySize lo hi) false false a fi) as H0. fold s0 in H0.
  assert (S0 : slots_inv false {| act := a; cur := sl |} s0) by (apply init_slots; auto; discriminate).
  destruct (run_slots false l _ _ s0 H0 S0 SB NR) as (S1 & S2).
  destruct (run_inv l _ _ H0) as (ds & H1). destruct (run_fakes l _ _ H0) as (FK & MO & _).
  rewrite run_app in E. cbn [snd run istep step fst] in E. apply app_inv_head in E. injection E as E. subst f.
  rewrite (size_slot ds _ _ d j lo hi H1 S1 MO) by (rewrite S2; exact LJ).
  destruct (values_run l _ _ s0 j H0 S0 SB NR LJ) as (_ & V & W). fold before in V, W. change (nth j (touches s0) touch0) with (nth j (repeat touch0 nt) touch0) in V, W. rewrite nth_repeat in V, W. cbn [cur major minor touch0] in V, W. fold ma in V. fold mi in W. unfold soft. fold before. rewrite V, W. reflexivity.
Qed.
Print Assumptions C42_size.

(** ** What tapping is given *)
(** Tapping sees of a touch its state, whether it changed and whether it has been down; what else it looks at (palm, thumb, moved) is free. *)
Definition shows (t : touch) (f : Tap_Model.finger) : Prop := Tap_Model.fs f = ts t /\ Tap_Model.fdirty f = dirty t /\ Tap_Model.fwas_down f = was_down t.
(** The frames among tapping's inputs are the touchpad's frames; times do not go back, and in between only fingers that are not down begin. *)
Fixpoint fed (now : Z) (was : list bool) (frames : list (list touch)) (l : list Tap_Model.input) : Prop :=
  match l with
  | [] => True
  | i :: r =>
      match i with
      | Tap_Model.Begin n => nth n was false = false /\ fed now was frames r
      | Tap_Model.Frame f _ t => now <= t /\ match frames with [] => False | g :: frames => Forall2 shows g f /\ fed t (map still_down g) frames r end
      | Tap_Model.Timer t | Tap_Model.SetEnabled _ t | Tap_Model.Suspend t | Tap_Model.Resume t | Tap_Model.ReleaseAll t | Tap_Model.Off t => now <= t /\ fed t was frames r
      | Tap_Model.On => ~ In true was /\ fed now was frames r
      | Tap_Model.SetMap _ | Tap_Model.SetDrag _ | Tap_Model.SetDragLock _ => fed now was frames r
      end
  end.
Lemma fed_legal : forall l now was frames, legal was frames -> Forall (Forall wd) frames -> fed now was frames l -> Tap_Spec.legal now was l.
Proof.
  induction l as [|i l IH]; intros now was frames L W F; [exact Logic.I|]. destruct i; cbn [fed Tap_Spec.legal] in *; try (destruct F as [F1 F2]; split; [exact F1|]); eauto.
  destruct frames as [|g frames]; [contradiction|]. destruct F2 as [F2 F3]. destruct L as [L1 L2]. inversion W as [|? ? W1 W2]; subst.
  assert (X : Forall2 Tap_Spec.follows was l0 /\ map still_down g = map Tap_Model.is_down l0).
  { clear - F2 L1 W1. revert was L1. induction F2 as [|t f g l0 (S1 & S2 & S3) F2 IH]; intros was L1; inversion L1 as [|b ? was' ? T T']; subst; [split; [constructor|reflexivity]|]. inversion W1; subst.
    destruct (IH H2 _ T') as [I1 I2]. split.
    - constructor; [|exact I1]. unfold touch_follows, Tap_Spec.follows, wd in *. rewrite S1, S2, S3. destruct b; [destruct T as [T|[T D]]|destruct T as [T|[T|[T D]]]]; rewrite T in *; auto 6.
    - cbn [map]. rewrite I2. f_equal. unfold still_down, Tap_Model.is_down. rewrite S1. reflexivity. }
  destruct X as [X1 X2]. split; [exact X1|]. rewrite <- X2. eapply IH; eauto.
Qed.
(** Whatever the kernel sends to the touchpad, tapping is given a legal sequence of frames: what is proved of tapping for legal inputs
    holds of the touchpad's. *)
Theorem C42_frames_are_legal_for_tapping : forall nt ns sl mt h sy al a (fi : bool) l now taps,
  fed now (repeat false nt) (snd (run (init nt ns sl mt h sy al a fi) l)) taps -> Tap_Spec.legal now (repeat false nt) taps.
Proof.
  intros nt ns sl mt h sy al a fi l now taps F. eapply fed_legal; [|apply wd_run, init_wd|exact F]. apply run_legal. apply init_inv.
Qed.
Print Assumptions C42_frames_are_legal_for_tapping.

(** ** Concrete cases *)
Definition press_case : list input := [Ev (TrackingId 1) false; Ev (Pressure 25) false; Ev Syn false; Ev (Pressure 12) false].
Example press_hyps : no_resync press_case /\ slots_below 2 press_case /\ never_quint press_case /\ fingers_reported false press_case = 0 /\
  let s0 := init 2 2 0 true (ByPressure 10 20) false false [false; false] false in
  ts (nth 0 (touches (fst (run s0 press_case))) touch0) = UPDATE /\ last_pressure 0 0 0 press_case = 12 /\
  map (map ts) (snd (run s0 (press_case ++ [Ev Syn false]))) = [[BEGIN; NONE]; [UPDATE; NONE]].
Proof. vm_compute. repeat split. Qed.
Definition size_case : list input := [Ev (TrackingId 1) false; Ev (Major 25) false; Ev (Minor 11) false; Ev Syn false; Ev (Major 9) false].
Example size_hyps : no_resync size_case /\ slots_below 2 size_case /\
  let s0 := init 2 2 0 true (BySize 10 20) false false [false; false] false in
  ts (nth 0 (touches (fst (run s0 size_case))) touch0) = UPDATE /\ last_major 0 0 0 size_case = 9 /\ last_minor 0 0 0 size_case = 11 /\
  map (map ts) (snd (run s0 (size_case ++ [Ev Syn false]))) = [[BEGIN; NONE]; [END; NONE]].
Proof. vm_compute. repeat split. Qed.
Example two_reported : let l := [Ev (Key BTN_TOUCH true) false; Ev (Key BTN_TOOL_DOUBLETAP true) false; Ev (Key BTN_TOOL_QUADTAP true) false] in never_quint l /\ fingers_reported false l = 2 /\ last_value BTN_TOUCH false l = true.
Proof. vm_compute. repeat split. Qed.
Example cleared_case : map (map ts) (snd (run (init 2 2 0 true (ByPressure 10 20) false false [false; false] false) (press_case ++ [Clear false]))) = [[BEGIN; NONE]; [END; NONE]].
Proof. vm_compute. reflexivity. Qed.
Definition as_finger (t : touch) : Tap_Model.finger :=
  {| Tap_Model.fs := ts t; Tap_Model.fdirty := dirty t; Tap_Model.fwas_down := was_down t; Tap_Model.palm := false; Tap_Model.thumb_tap := false; Tap_Model.thumb := false; Tap_Model.palm_tap := false; Tap_Model.moved := false |}.
Definition down_up : list input := [Ev (TrackingId 1) false; Ev (Key BTN_TOUCH true) false; Ev (Key BTN_TOOL_FINGER true) false; Ev Syn false; Ev (TrackingId (-1)) false; Ev (Key BTN_TOUCH false) false; Ev (Key BTN_TOOL_FINGER false) false; Ev Syn false].
Example fed_case : let fr := snd (run (init 2 2 0 true ByFake false false [false; false] false) down_up) in
  fed 0 [false; false] fr [Tap_Model.Begin 0; Tap_Model.Frame (map as_finger (nth 0 fr [])) false 10; Tap_Model.Frame (map as_finger (nth 1 fr [])) false 20; Tap_Model.Timer 30].
Proof. vm_compute. repeat split; try discriminate; repeat constructor. Qed.
