(** * Tap-to-click: the properties *)
Require Import Coq.ZArith.ZArith Coq.Lists.List Coq.Bool.Bool Coq.micromega.Lia.
Require Verif.Tp_Model Verif.Tp_Spec.
Require Import Verif.Tap_Model Verif.Tap_Spec Verif.Tap_Proofs Verif.Tap_Proofs2 Verif.Tap_Proofs3 Verif.Tap_Proofs4.
Import ListNotations.
Open Scope Z_scope.

(** C29.  Whatever fingers, clicks, timers and settings do, tapping presses and releases in turn, each release of the button that was pressed;
    no assertion fails and no "invalid tap event" is logged. *)
Theorem taps_alternate : forall n pad en start l, legal start (repeat false n) l ->
  exists h, held None (out (run (init n pad en) l)) = Some h.
Proof. intros n pad en start l L. pose proof (inv_run l start start _ _ (inv_init n pad en start) L) as [C _ _]. eexists. apply (c_held _ _ _ _ _ C). Qed.
Print Assumptions taps_alternate.
Theorem taps_in_order : forall n pad en start l, legal start (repeat false n) l -> in_order start (out (run (init n pad en) l)).
Proof. intros n pad en start l L. pose proof (inv_run l start start _ _ (inv_init n pad en start) L) as [C _ _]. apply (c_order _ _ _ _ _ C). Qed.
Print Assumptions taps_in_order.
Theorem taps_assert : forall n pad en start l, legal start (repeat false n) l -> ok (run (init n pad en) l) = true /\ bug (run (init n pad en) l) = false.
Proof. intros n pad en start l L. pose proof (inv_run l start start _ _ (inv_init n pad en start) L) as [C _ _]. split; [apply (c_ok _ _ _ _ _ C)|apply (c_bug _ _ _ _ _ C)]. Qed.
Print Assumptions taps_assert.

(** C29.  No press without its release: when no finger is left that counts, a timer is set that runs out within 300 ms, and when it does the button is released,
    with a time not in the future. *)
Theorem tap_released_when_lifted : forall n pad en start l b, legal start (repeat false n) l ->
  let s := run (init n pad en) l in let now := last_time start l in
  held None (out s) = Some (Some b) -> counted (last_down (repeat false n) l) (marks s) = 0 ->
  exists e, timer s = Some e /\ e <= now + 300000 /\
    forall t, e <= t -> now <= t -> exists u, u <= t /\ out (step s (Timer t)) = out s ++ [{| at_time := u; but := b; down := false |}].
Proof.
  intros n pad en start l b L s now H C. destruct (held_and_lifted start now _ s b (inv_run l start start _ _ (inv_init n pad en start) L) H C) as (e & E1 & E2 & E3).
  exists e. split; [exact E1|]. split; [exact E2|]. intros t T1 T2. destruct (E3 t T1 T2) as (u & U1 & U2). exists u. split; [lia|exact U2].
Qed.
Print Assumptions tap_released_when_lifted.
(** With no finger on the touchpad none counts. *)
Theorem no_finger_none_counted : forall was ms, ~ In true was -> counted was ms = 0.
Proof. exact counted_none. Qed.
Print Assumptions no_finger_none_counted.

(** C29.  While tapping is disabled, suspended or the device is off, no button is held, and frames and timers send nothing. *)
Theorem no_tap_while_disabled : forall n pad en start l, legal start (repeat false n) l ->
  last_enabled en l = false \/ last_suspended l = true \/ last_off l = true ->
  let s := run (init n pad en) l in held None (out s) = Some None /\
  forall f c t, out (step s (Frame f c t)) = out s /\ out (step s (Timer t)) = out s.
Proof.
  intros n pad en start l L D s. destruct (conf_run l (init n pad en)) as (E1 & E2 & E3). fold s in E1, E2, E3.
  pose proof (inv_run l start start _ _ (inv_init n pad en start) L) as [C _ N]. fold s in C, N.
  assert (X : tap_enabled s && negb (off s) = false).
  { unfold tap_enabled. rewrite E1, E2, E3. cbn [enabled suspended off init]. unfold last_suspended, last_off in D. destruct D as [D|[D|D]]; rewrite D; cbn; rewrite ?andb_false_r; reflexivity. }
  rewrite X in N. destruct N as [N1 N2]. split; [rewrite (c_held _ _ _ _ _ C), N1; reflexivity|]. intros f c t. split.
  - cbn [step]. unfold handle_state. replace (off s || negb (tap_enabled s)) with true by (destruct (off s), (tap_enabled s); cbn in *; congruence). apply (fields_update_map s).
  - cbn [step]. unfold timeout. destruct (timer s) as [e|]; [|reflexivity]. destruct (e <=? t); [|reflexivity]. unfold handle_event. cbn [st clear_timer with_timer]. rewrite N1. cbn [idle_event st clear_timer with_timer]. rewrite N1. reflexivity.
Qed.
Print Assumptions no_tap_while_disabled.
(** C29.  Disabling, suspending, turning off or clearing the touchpad's state releases a held button at once; nothing else is sent. *)
Theorem disabling_releases : forall n pad en start l i t, legal start (repeat false n) l -> last_time start l <= t ->
  i = ReleaseAll t \/ i = Off t \/ (last_enabled en l = true /\ last_suspended l = false /\ (i = SetEnabled false t \/ i = Suspend t)) ->
  let s := run (init n pad en) l in
  out (step s i) = out s ++ match held None (out s) with Some (Some b) => [{| at_time := t; but := b; down := false |}] | _ => [] end.
Proof.
  intros n pad en start l i t L T I s. destruct (conf_run l (init n pad en)) as (E1 & E2 & E3). fold s in E1, E2, E3. cbn [enabled suspended off init] in E1, E2, E3.
  pose proof (inv_run l start start _ _ (inv_init n pad en start) L) as [C _ N]. fold s in C, N. pose proof (core_mono _ _ _ _ _ _ C T) as C1.
  rewrite (c_held _ _ _ _ _ C). destruct (release_all_facts start t s C1) as (_ & _ & _ & _ & _ & _ & _ & R).
  assert (G : out (release_all s t) = out s ++ match Some (option_map (button_of (map_ s)) (pressed_of (st s))) with Some (Some b) => [{| at_time := t; but := b; down := false |}] | _ => [] end).
  { rewrite R. destruct (pressed_of (st s)); reflexivity. }
  assert (EU : forall z su en', enabled z && negb (suspended z) = true -> en' && negb su = false -> out (enabled_update z su en' t) = out (release_all z t)).
  { clear. intros z su en' A B. unfold enabled_update, tap_enabled. cbn [enabled suspended]. rewrite A, B. cbn [Bool.eqb]. destruct z. unfold release_all. cbn. destruct p1, p2, p3; reflexivity. }
  destruct I as [-> |[-> |(A & B & I)]]; [exact G|exact G|]. assert (A1 : enabled s && negb (suspended s) = true) by (rewrite E1, E2; unfold last_suspended in B; rewrite A, B; reflexivity).
  destruct I as [-> | ->]; cbn [step]; rewrite EU; auto. rewrite andb_false_r. reflexivity.
Qed.
Print Assumptions disabling_releases.

(** C29.  A single finger on an idle touchpad: a tap, with the times of touching and lifting, unless it is a palm or a thumb, moves too far or stays 180 ms; then nothing.
    (With tap-and-drag off; see below for the delayed release.) *)
Theorem one_finger_tap : forall n pad en start l i j b t0 mid e t1, legal start (repeat false n) l ->
  let s := run (init n pad en) l in
  st s = IDLE -> tap_enabled s = true -> off s = false -> drag s = false -> n = (i + S j)%nat ->
  fs b = Tp_Model.BEGIN -> fdirty b = true -> Forall (fun m => match m with Moves f _ => fs f = Tp_Model.UPDATE | _ => True end) mid ->
  fs e = Tp_Model.END -> fdirty e = true -> fwas_down e = true ->
  out (run s (one_finger i j b t0 mid e t1)) =
    out s ++ if is_no_tap b t0 mid e then [] else [{| at_time := t0; but := LEFT; down := true |}; {| at_time := t1; but := LEFT; down := false |}].
Proof.
  intros n pad en start l i j b t0 mid e t1 L s ST EN OF DR NN B1 B2 M E1 E2 E3.
  pose proof (inv_run l start start _ _ (inv_init n pad en start) L) as [C LM N]. fold s in C, LM, N. rewrite EN, OF in N.
  pose proof (c_nf _ _ _ _ _ C) as CF. rewrite ST in CF. cbn in CF.
  assert (S : ses i j (out s) s).
  { constructor; auto. rewrite LM. clear - NN L. revert L. assert (G : forall l now was, length was = n -> legal now was l -> length (last_down was l) = n).
    { induction l0 as [|x l0 IH]; intros now was W LG; [exact W|]. destruct x; cbn [legal last_down] in *; try (apply (IH now was W); tauto); try (eapply IH; [|apply LG]; exact W).
      destruct LG as (_ & F & LG). apply (IH t _ ltac:(rewrite map_length; rewrite <- (Forall2_length' _ _ _ F); exact W) LG). }
    intros L. rewrite (G l start _ (repeat_length _ _) L). exact NN. }
  pose proof (one_finger_spec i j b t0 mid e t1 s (out s) S ST ltac:(lia) B1 B2 M E1 E2 E3) as X. cbv zeta in X. destruct (is_no_tap b t0 mid e); [rewrite app_nil_r; exact X|apply X].
Qed.
Print Assumptions one_finger_tap.

(** C29.  Taps with any number of fingers, in a row, with the settings changed in between: each sends one click of the button for that many fingers,
    pressed at the time the last finger came and released at the time the first one left; taps with more than three fingers send nothing. *)
Theorem taps_in_a_row : forall n pad l, Forall (fine n) l -> out (run (init n pad true) (concat (map inputs_of l))) = concat (map (click_of n) l).
Proof. intros n pad l F. apply (taps_in_a_row_spec n l (init n pad true) (rest_init n pad) F). Qed.
Print Assumptions taps_in_a_row.

(** C29.  Once a finger has moved too far nothing is pressed until a frame in which no finger stays that was there before. *)
Theorem no_press_after_moving : forall n pad en start l f c t r, legal start (repeat false n) (l ++ Frame f c t :: r) ->
  let s := run (init n pad en) l in
  off s = false -> tap_enabled s = true -> moves_away f (marks s) = true -> some_finger_stays (step s (Frame f c t)) r ->
  exists x, out (run s (Frame f c t :: r)) = out (step s (Frame f c t)) ++ x /\ Forall (fun e => down e = false) x.
Proof.
  intros n pad en start l f c t r L s O E M S. assert (G : forall l now was r, legal now was (l ++ r) -> legal now was l /\ legal (last_time now l) (last_down was l) r).
  { induction l0 as [|x l0 IH]; intros now was r0 LG; [split; [exact I|exact LG]|]. destruct x; cbn [legal last_time last_down app] in *;
      repeat match goal with H : _ /\ _ |- _ => destruct H end; match goal with H : legal _ _ (l0 ++ r0) |- _ => destruct (IH _ _ _ H) end; repeat split; assumption. }
  destruct (G l start _ _ L) as [L1 L2].
  apply (moved_quiet start (last_time start l) (last_down (repeat false n) l) s f c t r (inv_run l start start _ _ (inv_init n pad en start) L1) L2 O E M S).
Qed.
Print Assumptions no_press_after_moving.

(** ** Cases that meet the hypotheses *)
Definition fg (x : Tp_Model.tstate) : finger := {| fs := x; fdirty := true; fwas_down := match x with Tp_Model.UPDATE | Tp_Model.END => true | _ => false end; palm := false; thumb_tap := false; thumb := false; palm_tap := false; moved := false |}.
Definition pal (f : finger) : finger := {| fs := fs f; fdirty := fdirty f; fwas_down := fwas_down f; palm := true; thumb_tap := false; thumb := false; palm_tap := false; moved := false |}.
Definition thb (f : finger) : finger := {| fs := fs f; fdirty := fdirty f; fwas_down := fwas_down f; palm := false; thumb_tap := true; thumb := true; palm_tap := false; moved := false |}.
Definition mov (f : finger) : finger := {| fs := fs f; fdirty := fdirty f; fwas_down := fwas_down f; palm := false; thumb_tap := false; thumb := false; palm_tap := false; moved := true |}.
Definition bg := fg Tp_Model.BEGIN. Definition up_ := fg Tp_Model.UPDATE. Definition en_ := fg Tp_Model.END. Definition no_ := nothing.
Ltac follow := repeat (constructor; [cbn; auto|]); try constructor.
(** Two fingers tap; the button is held when they are gone, until the timer runs out. *)
Definition two : list input := frames [([bg; no_], 1000); ([up_; bg], 2000)] ++ frames [([en_; up_], 50000); ([no_; en_], 60000)].
Example two_legal : legal 0 [false; false] two.
Proof. cbn. repeat (split; [first [lia|reflexivity|follow]|]); exact I. Qed.
Example two_held : let s := run (init 2 true true) two in held None (out s) = Some (Some RIGHT) /\ counted (last_down [false; false] two) (marks s) = 0 /\ timer s = Some 260000 /\
  out (step s (Timer 260000)) = [{| at_time := 2000; but := RIGHT; down := true |}; {| at_time := 50000; but := RIGHT; down := false |}].
Proof. vm_compute. repeat split. Qed.
Example two_disabled : out (step (run (init 2 true true) two) (SetEnabled false 100000)) = [{| at_time := 2000; but := RIGHT; down := true |}; {| at_time := 100000; but := RIGHT; down := false |}].
Proof. reflexivity. Qed.
Definition two_tap : a_tap := {| tap_map_ := LMR; tap_drag := true; arrive := [([bg; no_], 1000); ([up_; bg], 2000)]; leave := [([en_; up_], 50000); ([no_; en_], 60000)]; later := 260000 |}.
Definition one_tap_ : a_tap := {| tap_map_ := LMR; tap_drag := false; arrive := [([no_; bg], 301000)]; leave := [([no_; up_], 350000); ([no_; en_], 360000)]; later := 960000 |}.
Example rows : Forall (fine 2) [two_tap; one_tap_] /\ concat (map (click_of 2) [two_tap; one_tap_]) =
  [{| at_time := 2000; but := MIDDLE; down := true |}; {| at_time := 50000; but := MIDDLE; down := false |}; {| at_time := 301000; but := LEFT; down := true |}; {| at_time := 360000; but := LEFT; down := false |}].
Proof.
  split; [|reflexivity]. constructor; [|constructor; [|constructor]]; unfold fine; cbn; repeat match goal with |- _ /\ _ => split end; try reflexivity; try exact I; try (vm_compute; discriminate); follow.
Qed.
Example one_case : let s := run (init 3 true true) [SetDrag false] in st s = IDLE /\ tap_enabled s = true /\ drag s = false /\
  is_no_tap bg 1000 [Moves up_ 20000; TimeIs 170000] en_ = false /\ is_no_tap bg 1000 [Moves up_ 20000; TimeIs 181000] en_ = true /\
  out (run s (one_finger 1 1 bg 1000 [Moves up_ 20000; TimeIs 170000] en_ 175000)) = [{| at_time := 1000; but := LEFT; down := true |}; {| at_time := 175000; but := LEFT; down := false |}] /\
  out (run s (one_finger 1 1 bg 1000 [Moves up_ 20000; TimeIs 181000] en_ 185000)) = [].
Proof. vm_compute. repeat split. Qed.
(** Two fingers scroll, one is lifted and comes back: no tap. *)
Example moving_case : let s := run (init 2 true true) [Begin 0; Begin 1; Frame [bg; bg] false 1000] in
  let f := [mov up_; up_] in let r := [Frame [up_; en_] false 3000; Begin 1; Frame [up_; bg] false 4000; Frame [up_; en_] false 5000] in
  moves_away f (marks s) = true /\ some_finger_stays (step s (Frame f false 2000)) r /\ legal 0 [false; false] ([Begin 0; Begin 1; Frame [bg; bg] false 1000] ++ Frame f false 2000 :: r).
Proof.
  cbv zeta. split; [vm_compute; reflexivity|]. split; [vm_compute; repeat split|].
  cbn [app legal nth]. repeat (split; [first [lia|reflexivity|follow]|]). exact I.
Qed.

(** ** What does not hold *)
(** A tap after a tap is not always one: a click of a clickpad with the thumb, with no finger that counts, swallows the next tap. *)
Theorem tap_after_thumb_click_refuted : exists l, legal 0 [false; false] l /\
  let s := run (init 2 true true) l in tap_enabled s = true /\ off s = false /\ last_down [false; false] l = [false; false] /\ timer s = None /\ held None (out s) = Some None /\
  out (run s (frames [([bg; no_], 1000000)] ++ frames [([en_; no_], 1050000)] ++ [Timer 2000000])) = out s.
Proof.
  exists [Begin 0; Frame [thb bg; no_] true 1000; Frame [thb en_; no_] false 200000]. split; [cbn; repeat (split; [first [lia|reflexivity|follow]|]); exact I|]. vm_compute. repeat split.
Qed.
Print Assumptions tap_after_thumb_click_refuted.
(** A finger that moved and is taken for a palm only when it lifts swallows the next tap as well. *)
Theorem tap_after_late_palm_refuted : exists l, legal 0 [false; false] l /\
  let s := run (init 2 true true) l in tap_enabled s = true /\ off s = false /\ last_down [false; false] l = [false; false] /\ timer s = None /\ held None (out s) = Some None /\
  out (run s (frames [([bg; no_], 1000000)] ++ frames [([en_; no_], 1050000)] ++ [Timer 2000000])) = out s.
Proof.
  exists [Begin 0; Frame [bg; no_] false 1000; Frame [mov up_; no_] false 20000; Frame [pal en_; no_] false 200000]. split; [cbn; repeat (split; [first [lia|reflexivity|follow]|]); exact I|]. vm_compute. repeat split.
Qed.
Print Assumptions tap_after_late_palm_refuted.
(** A new mapping set while the release of a tap is pending is not used for the next tap, although the touchpad was idle in between. *)
Theorem new_map_applies_when_idle_refuted : exists l, legal 0 [false; false] l /\
  let s := run (init 2 true true) l in want_map s = LMR /\ last_down [false; false] l = [false; false] /\ timer s = None /\ held None (out s) = Some None /\
  out (run s (frames [([bg; bg], 1000000)] ++ frames [([en_; en_], 1050000)])) = out s ++ [{| at_time := 1000000; but := RIGHT; down := true |}].
Proof.
  exists (two ++ [SetMap LMR; Timer 260000]). split; [cbn; repeat (split; [first [lia|reflexivity|follow]|]); exact I|]. vm_compute. repeat split.
Qed.
Print Assumptions new_map_applies_when_idle_refuted.
(** When the dragging finger is taken for a palm the button is released with the time of the first tap's end, however long ago that was. *)
Theorem drag_release_time_refuted : exists l f t, legal 0 [false; false] (l ++ [Frame f false t]) /\
  let s := run (init 2 true true) l in held None (out s) = Some (Some LEFT) /\ last_time 0 l = 9000000 /\
  out (step s (Frame f false t)) = out s ++ [{| at_time := 50000; but := LEFT; down := false |}].
Proof.
  exists (frames [([bg; no_], 1000); ([en_; no_], 50000); ([bg; no_], 100000); ([mov up_; no_], 110000); ([up_; no_], 9000000)]), [pal up_; no_], 9010000.
  split; [cbn; repeat (split; [first [lia|reflexivity|follow]|]); exact I|]. vm_compute. repeat split.
Qed.
Print Assumptions drag_release_time_refuted.
