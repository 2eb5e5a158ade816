(** * C42: the touchpad's fingers follow the hardware *)
Require Import Coq.ZArith.ZArith Coq.Lists.List Coq.Bool.Bool Lia.
Require Import Verif.Tp_Model Verif.Tp_Spec Verif.Tp_Proofs.
Import ListNotations.
Open Scope Z_scope.

(** Whatever the kernel sends, in whatever order, and whenever the touchpad is suspended, cleared or resumed:
    seen frame by frame, every touch is absent or hovers, begins, stays down, and ends before it can begin again.
    A beginning and an end each show up in exactly one frame.  No assumption on the events. *)
Theorem C42_touch_lifecycle : forall nt ns sl mt h sy al a (fi : bool) l, legal (repeat false nt) (snd (run (init nt ns sl mt h sy al a fi) l)).
Proof. intros. apply run_legal. apply init_inv. Qed.
Print Assumptions C42_touch_lifecycle.

(** The number of fingers the rest of the driver works with is the number of touches that are down in the frame. *)
Theorem C42_finger_count_is_touches_down : forall nt ns sl mt h sy al a (fi : bool) l d, let r := run (init nt ns sl mt h sy al a fi) (l ++ [Ev Syn d]) in
  exists f, snd r = snd (run (init nt ns sl mt h sy al a fi) l) ++ [f] /\ nfd (fst r) = down_count f.
Proof. intros. apply count_frame. Qed.
Print Assumptions C42_finger_count_is_touches_down.

(** No assert() fails, as long as the kernel ends fingers only in slots that have one (suspend and resume included). *)
Theorem C42_asserts_hold : forall nt ns sl mt h sy al a (fi : bool) l, kernel_ok {| act := a; cur := sl |} l -> ok (fst (run (init nt ns sl mt h sy al a fi) l)) = true.
Proof. intros nt ns sl mt h sy al a fi l K. eapply run_ok; [apply init_inv|reflexivity| |exact K]. intros _. cbn. lia. Qed.
Print Assumptions C42_asserts_hold.

(** No ghost fingers: on a multitouch touchpad (without the two vendor workarounds that make up fingers) a touch that is down in a frame
    is a slot with a finger in it, or one of the fingers above the number of slots that BTN_TOOL_* reports. *)
Theorem C42_no_ghost_finger : forall nt ns sl h a (fi : bool) l d f j,
  (ns <= nt)%nat -> (sl < ns)%nat -> length a = ns -> no_resync l -> slots_below ns l ->
  snd (run (init nt ns sl true h false false a fi) (l ++ [Ev Syn d])) = snd (run (init nt ns sl true h false false a fi) l) ++ [f] ->
  let tool := fake_finger_count (tools l (if fi then fake_finger_set no_fake BTN_TOOL_FINGER true else no_fake)) in
  still_down (nth j f touch0) = true ->
  if Nat.ltb j ns then nth j (act (krun {| act := a; cur := sl |} l)) false = true else tool <> FAKE_FINGER_OVERFLOW -> Z.of_nat j < tool.
Proof.
  intros nt ns sl h a fi l d f j L1 L2 L3 NR SB E tool D. set (s0 := init nt ns sl true h false false a fi) in *.
  pose proof (init_inv nt ns sl true h false false a fi) as H0. fold s0 in H0.
  destruct (run_slots false l _ {| act := a; cur := sl |} s0 H0) as (S1 & S2); [apply init_slots; auto; discriminate|exact SB|exact NR|].
  destruct (run_inv l _ _ H0) as (ds & H1). destruct (run_fakes l _ _ H0) as (FK & _).
  rewrite run_app in E. cbn [snd run istep step fst] in E. apply app_inv_head in E. injection E as E. subst f.
  pose proof (frame_no_ghost false ds _ _ d j H1 S1 D) as G. rewrite S2, FK in G. exact G.
Qed.
Print Assumptions C42_no_ghost_finger.

(** With all fingers lifted, nothing is down. *)
Theorem C42_all_lifted : forall nt ns sl h a (fi : bool) l d,
  (ns <= nt)%nat -> (sl < ns)%nat -> length a = ns -> no_resync l -> slots_below ns l ->
  act (krun {| act := a; cur := sl |} l) = repeat false ns ->
  fake_finger_count (tools l (if fi then fake_finger_set no_fake BTN_TOOL_FINGER true else no_fake)) = 0 ->
  nfd (fst (run (init nt ns sl true h false false a fi) (l ++ [Ev Syn d]))) = 0.
Proof.
  intros nt ns sl h a fi l d L1 L2 L3 NR SB AE T0. destruct (count_frame nt ns sl true h false false a fi l d) as (f & E & N). rewrite N.
  rewrite <- cnt_down2.
  assert (X : forall j, still_down (nth j f touch0) = false).
  { intros j. destruct (still_down (nth j f touch0)) eqn:D; auto. exfalso. pose proof (C42_no_ghost_finger nt ns sl h a fi l d f j L1 L2 L3 NR SB E D) as G. cbv zeta in G. rewrite T0, AE in G.
    destruct (Nat.ltb j ns); [rewrite nth_repeat in G; discriminate|]. assert (NO : 0 <> FAKE_FINGER_OVERFLOW) by (unfold FAKE_FINGER_OVERFLOW; lia). specialize (G NO). lia. }
  clear E N. revert X. induction f as [|t f IH]; intros X; cbn [cnt]; auto. rewrite IH by (intros j; apply (X (S j))). change (is_down t) with (still_down t). pose proof (X O) as X0. cbn [nth] in X0. rewrite X0. reflexivity.
Qed.
Print Assumptions C42_all_lifted.

(** Touchpads without pressure or touch size (most of them): when BTN_TOUCH is off nothing is down; when it is on, the count is the one
    BTN_TOOL_* reports, if the slots have fingers to match. Exactly: *)
Theorem C42_finger_count : forall nt ns sl (fi : bool) l d,
  (ns <= nt)%nat -> (sl < ns)%nat -> only_events l -> slots_below ns l ->
  let f := tools l (if fi then fake_finger_set no_fake BTN_TOOL_FINGER true else no_fake) in
  let fingers := fake_finger_count f in
  let slots := count_true (act (krun {| act := repeat false ns; cur := sl |} l)) in
  fingers <> FAKE_FINGER_OVERFLOW -> fingers <= Z.of_nat nt ->
  nfd (fst (run (init nt ns sl true ByFake false false (repeat false ns) fi) (l ++ [Ev Syn d]))) =
    if f_touch f then Z.min fingers (slots + Z.max 0 (fingers - Z.of_nat ns)) else 0.
Proof.
  intros nt ns sl fi l d L1 L2 OE SB f fingers slots NO LE. set (s0 := init nt ns sl true ByFake false false (repeat false ns) fi) in *.
  pose proof (init_inv nt ns sl true ByFake false false (repeat false ns) fi) as H0. fold s0 in H0.
  destruct (run_slots true l _ {| act := repeat false ns; cur := sl |} s0 H0) as (S1 & S2); [apply init_slots; auto using repeat_length|exact SB|exact OE|].
  destruct (run_inv l _ _ H0) as (ds & H1). destruct (run_fakes l _ _ H0) as (FK & MO & _ & _ & _ & LT).
  rewrite run_app. cbn [fst run istep step]. cbn [post_process with_touches nfd].
  rewrite (frame_nfd ds _ d H1 MO); rewrite FK; [|exact NO]. change (fakes s0) with (if fi then fake_finger_set no_fake BTN_TOOL_FINGER true else no_fake). fold f. fold fingers.
  rewrite (present_slots ds _ _ H1 S1) by (rewrite FK; exact NO). rewrite FK, S2, LT. change (fakes s0) with (if fi then fake_finger_set no_fake BTN_TOOL_FINGER true else no_fake). fold f. fold fingers. change (num_slots s0) with ns.
  change (touches s0) with (repeat touch0 nt). rewrite repeat_length, (Z.min_l fingers (Z.of_nat nt)) by exact LE. reflexivity.
Qed.
Print Assumptions C42_finger_count.
Theorem C42_finger_count_matches : forall nt ns sl (fi : bool) l d,
  (ns <= nt)%nat -> (sl < ns)%nat -> only_events l -> slots_below ns l ->
  let f := tools l (if fi then fake_finger_set no_fake BTN_TOOL_FINGER true else no_fake) in
  let fingers := fake_finger_count f in
  fingers <> FAKE_FINGER_OVERFLOW -> fingers <= Z.of_nat nt -> f_touch f = true ->
  Z.min fingers (Z.of_nat ns) <= count_true (act (krun {| act := repeat false ns; cur := sl |} l)) ->
  nfd (fst (run (init nt ns sl true ByFake false false (repeat false ns) fi) (l ++ [Ev Syn d]))) = fingers.
Proof.
  intros nt ns sl fi l d L1 L2 OE SB f fingers NO LE FT ENOUGH. rewrite C42_finger_count by auto. fold f. rewrite FT. fold fingers. lia.
Qed.
Print Assumptions C42_finger_count_matches.
(** Single-touch touchpads: BTN_TOUCH and BTN_TOOL_* alone decide, at any time, clears and resumes included. *)
Theorem C42_finger_count_single_touch : forall nt ns sl a (fi : bool) l d,
  let f := tools l (if fi then fake_finger_set no_fake BTN_TOOL_FINGER true else no_fake) in
  let fingers := fake_finger_count f in
  fingers <> FAKE_FINGER_OVERFLOW -> fingers <= Z.of_nat nt ->
  nfd (fst (run (init nt ns sl false ByFake false false a fi) (l ++ [Ev Syn d]))) = if f_touch f then fingers else 0.
Proof.
  intros nt ns sl a fi l d f fingers NO LE. set (s0 := init nt ns sl false ByFake false false a fi) in *.
  pose proof (init_inv nt ns sl false ByFake false false a fi) as H0. fold s0 in H0.
  destruct (run_inv l _ _ H0) as (ds & H1). destruct (run_fakes l _ _ H0) as (FK & MO & HM & _ & _ & LT).
  rewrite run_app. cbn [fst run istep step]. cbn [post_process with_touches nfd].
  rewrite (frame_nfd ds _ d H1 MO); rewrite FK; [|exact NO]. change (fakes s0) with (if fi then fake_finger_set no_fake BTN_TOOL_FINGER true else no_fake). fold f. fold fingers.
  rewrite (present_st ds _ H1 HM) by (rewrite FK; exact NO). rewrite FK, LT. change (fakes s0) with (if fi then fake_finger_set no_fake BTN_TOOL_FINGER true else no_fake). fold f. fold fingers.
  change (touches s0) with (repeat touch0 nt). rewrite repeat_length. pose proof (ffc_range f). fold fingers in H. destruct (f_touch f); lia.
Qed.
Print Assumptions C42_finger_count_single_touch.

(** Not true: "after a suspend and resume, events still go to the touch the kernel means".  The driver remembers the slot it was at before;
    the kernel, which may be at another one by then, does not repeat it.  Here the finger is lifted and slot 0 is selected while the touchpad is off:
    the next finger, in slot 0, is taken for slot 1. *)
Definition stale : list input :=
  [Ev (Slot 1) false; Ev (TrackingId 7) false; Ev (Key BTN_TOUCH true) false; Ev (Key BTN_TOOL_FINGER true) false; Ev Syn false;
   Clear false; Resync [false; false] 0;
   Ev (TrackingId 8) false; Ev (Key BTN_TOUCH true) false; Ev (Key BTN_TOOL_FINGER true) false; Ev Syn false].
Theorem C42_slot_after_resume_refuted : exists l j, let s := fst (run (init 3 2 0 true ByFake false false [false; false] false) l) in let k := krun {| act := [false; false]; cur := 0 |} l in
  kernel_ok {| act := [false; false]; cur := 0 |} l /\ slots_below 2 l /\ still_down (nth j (touches s) touch0) = true /\ nth j (act k) false = false.
Proof. exists stale, 1%nat. vm_compute. repeat split; intros; try discriminate; auto. Qed.
Print Assumptions C42_slot_after_resume_refuted.

(** ** Concrete cases *)
(** Two slots, three fingers: two in slots, the third only as BTN_TOOL_TRIPLETAP; then all are lifted. *)
Definition three : list input :=
  [Ev (Slot 0) false; Ev (TrackingId 1) false; Ev (Slot 1) false; Ev (TrackingId 2) false; Ev (Key BTN_TOUCH true) false; Ev (Key BTN_TOOL_TRIPLETAP true) false].
Definition lift3 : list input :=
  [Ev (Slot 0) false; Ev (TrackingId (-1)) false; Ev (Slot 1) false; Ev (TrackingId (-1)) false; Ev (Key BTN_TOUCH false) false; Ev (Key BTN_TOOL_TRIPLETAP false) false].
Example three_hyps : only_events three /\ slots_below 2 three /\ kernel_ok {| act := [false; false]; cur := 0 |} (three ++ [Ev Syn false] ++ lift3) /\ no_resync (three ++ [Ev Syn false] ++ lift3) /\
  fake_finger_count (tools three no_fake) = 3 /\ f_touch (tools three no_fake) = true /\ count_true (act (krun {| act := [false; false]; cur := 0 |} three)) = 2 /\
  act (krun {| act := [false; false]; cur := 0 |} (three ++ [Ev Syn false] ++ lift3)) = repeat false 2 /\ fake_finger_count (tools (three ++ [Ev Syn false] ++ lift3) no_fake) = 0.
Proof. vm_compute. repeat split; intros; try discriminate; auto. Qed.
Example three_frames : let r := run (init 4 2 0 true ByFake false false [false; false] false) (three ++ [Ev Syn false] ++ lift3 ++ [Ev Syn false]) in
  map (map ts) (snd r) = [[BEGIN; BEGIN; BEGIN; NONE]; [END; END; END; NONE]] /\ nfd (fst r) = 0 /\ nfd (fst (run (init 4 2 0 true ByFake false false [false; false] false) (three ++ [Ev Syn false]))) = 3.
Proof. vm_compute. auto. Qed.
(** Pressure: hovering until the pressure is high enough, ended below the low threshold, hovering again. *)
Example pressure_frames : map (map ts) (snd (run (init 2 2 0 true (ByPressure 10 20) false false [false; false] false)
    [Ev (TrackingId 1) false; Ev (Pressure 15) false; Ev Syn false; Ev (Pressure 20) false; Ev Syn false; Ev (Pressure 11) false; Ev Syn false; Ev (Pressure 5) false; Ev Syn false; Ev (Pressure 15) false; Ev Syn false])) =
  [[HOVERING; NONE]; [BEGIN; NONE]; [UPDATE; NONE]; [END; NONE]; [HOVERING; NONE]].
Proof. vm_compute. reflexivity. Qed.
Example single_touch_case : nfd (fst (run (init 3 1 0 false ByFake false false [] false) ([Ev (Key BTN_TOUCH true) false; Ev (Key BTN_TOOL_DOUBLETAP true) false; Ev Axis false] ++ [Ev Syn false]))) = 2.
Proof. vm_compute. reflexivity. Qed.
(** Outside kernel_ok an assert does fail: a finger ended in an empty slot. *)
Example assert_can_fail : ok (fst (run (init 2 2 0 true ByFake false false [false; false] false) [Ev (TrackingId (-1)) false])) = false.
Proof. vm_compute. reflexivity. Qed.
