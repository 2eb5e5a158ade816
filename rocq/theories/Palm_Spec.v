(** * Palms, typing, trackpoint: specification *)
(** What the user does, in terms of the inputs alone: keys held, modifiers held, contacts, clean contacts. *)
Require Import Coq.ZArith.ZArith Coq.Lists.List Coq.Bool.Bool Coq.QArith.QArith.
Require Import Verif.Palm_Model.
Require Verif.Es_Model Verif.Gest_Model.
Import ListNotations.
Open Scope Z_scope.

(** Which touches may move the pointer, scroll or take part in a gesture in the frame [f] that comes after the history [l]
    ([n] touches; [b]: disable-while-typing at the start) *)
Definition moving (c : config) (n : nat) (b : bool) (m0 : Es_Model.smethod) (l : list input) (f : list seen) (g : bool) (u : option nat) (t : Z) : list bool :=
  snd (frame c (run c (init n b m0) l) f g u t).

(** ** The keyboard *)
(** The setting after a history *)
Fixpoint dwt_after (b : bool) (l : list input) : bool := match l with [] => b | SetDwt x :: r => dwt_after x r | _ :: r => dwt_after b r end.
(** Ctrl, Alt, Shift, Meta (left and right), Fn, Caps Lock, Tab and Compose *)
Definition modifier (k : Z) : Prop := In k [29; 97; 56; 100; 42; 54; 125; 126; 464; 58; 15; 127].
(** The keys below F1 that are no modifiers *)
Definition typewriter (k : Z) : Prop := k < 59 /\ ~ modifier k.
(** The keys that are held, of those on keyboards that are still there *)
Fixpoint held_from (h : list Z) (l : list input) : list Z :=
  match l with
  | [] => h
  | Key k true _ :: r => held_from (k :: h) r
  | Key k false _ :: r => held_from (remove Z.eq_dec k h) r
  | Unplug :: r => held_from [] r
  | _ :: r => held_from h r
  end.
Definition held (l : list input) : list Z := held_from [] l.
(** The modifiers that were pressed while the option was on and have not been released *)
Fixpoint mods_from (b : bool) (h : list Z) (l : list input) : list Z :=
  match l with
  | [] => h
  | Key k true _ :: r => mods_from b (if b && existsb (Z.eqb k) [29; 97; 56; 100; 42; 54; 125; 126; 464; 58; 15; 127] then k :: h else h) r
  | Key k false _ :: r => mods_from b (remove Z.eq_dec k h) r
  | SetDwt x :: r => mods_from x h r
  | _ :: r => mods_from b h r
  end.
(** Pressing [k] after [l] is typing: the option is on, the key is a typewriter key, no modifier is held *)
Definition types (b : bool) (l : list input) (k : Z) : Prop := dwt_after b l = true /\ typewriter k /\ mods_from b [] l = [].
(** No keyboard is removed, key presses come at [t0] or later, timers are looked at before [t1] only *)
Definition until (t0 t1 : Z) (l : list input) : Prop := forall i, In i l -> match i with Unplug => False | Key _ true t => t0 <= t | KbTimer t => t < t1 | _ => True end.
(** Keys are pressed and timers looked at not later than [r] *)
Definition by_ (r : Z) (l : list input) : Prop := forall i, In i l -> match i with Key _ true t | KbTimer t => t <= r | _ => True end.
Definition from (r : Z) (l : list input) : Prop := forall i, In i l -> match i with Key _ true t | KbTimer t => r <= t | _ => True end.
Definition no_press (l : list input) : Prop := forall k t, ~ In (Key k true t) l.

(** ** Contacts *)
(** In all frames of [l], touch [i] is shown as one that goes on *)
Definition goes_on (i : nat) (l : list input) : Prop :=
  forall f, (exists g u t, In (Frame f g u t) l) \/ (exists w t, In (Arb w f t) l) -> exists v, nth_error f i = Some v /\ st v = UPDATE /\ fresh v = false.
(** Neither too much pressure nor too big nor reported as a palm *)
Definition calm (c : config) (v : seen) : Prop :=
  (use_pressure c = true -> pressure v <= pressure_threshold c) /\ (use_size c = true -> major v <= size_threshold c /\ minor v <= size_threshold c) /\ (use_mt_tool c = true -> toolpalm v = false).
Definition all_calm (c : config) (i : nat) (l : list input) : Prop := forall f g u t v, In (Frame f g u t) l -> nth_error f i = Some v -> calm c v.
(** Outside the zones along the left, right and upper edge *)
Definition outside_edges (c : config) (v : seen) : Prop := left_edge c <= px v <= right_edge c /\ upper_edge c <= py v.
(** A finger that comes down outside the edges *)
Definition lands (c : config) (v : seen) : Prop := st v = BEGIN /\ fresh v = true /\ dirty v = true /\ outside_edges c v /\ calm c v.
(** The last frame of the history shows no finger *)
Definition no_finger (f : list seen) : Prop := forall v, In v f -> st v <> BEGIN /\ st v <> UPDATE.
Fixpoint idle_from (b : bool) (l : list input) : Prop :=
  match l with
  | [] => b = true
  | Frame f _ _ _ :: r => (no_finger f /\ idle_from true r) \/ (~ no_finger f /\ idle_from false r)
  | _ :: r => idle_from b r
  end.
(** Nothing but [i] is on the touchpad *)
Definition alone (i : nat) (f : list seen) : Prop := forall j v, nth_error f j = Some v -> j <> i -> st v = NONE.
(** Thumb detection does not come in: the touchpad does not do it, or in the frames of [m] the finger at [i] is the only one, above the thumb area, and no finger was there in the last frame before *)
Definition lone (c : config) (i : nat) (x : input) : Prop :=
  match x with Frame f _ u _ => alone i f /\ u = None /\ (forall v, nth_error f i = Some v -> py v < upper_thumb_line c) | _ => True end.
Definition no_thumb (c : config) (l : list input) (i : nat) (m : list input) : Prop :=
  detect_thumbs c = false \/ (idle_from true l /\ forall x, In x m -> lone c i x).
(** Neither the trackpoint nor a pen was used *)
Definition no_trackpoint (l : list input) : Prop := forall t, ~ In (Point t) l.
Definition no_pen (l : list input) : Prop := forall w f t, ~ In (Arb w f t) l.
(** A history of a touchpad with [n] touches: every frame shows all of them *)
Definition sized (n : nat) (l : list input) : Prop := forall i, In i l -> match i with Frame f _ _ _ | Arb _ f _ => length f = n | _ => True end.

(** ** The trackpoint *)
(** Its events come at [t0] or later, timers are looked at before [t1] only *)
Definition points_until (t0 t1 : Z) (l : list input) : Prop := forall i, In i l -> match i with Point t => t0 <= t | TpTimer t => t < t1 | _ => True end.
Definition points_by (r : Z) (l : list input) : Prop := forall t, In (Point t) l -> t <= r.
Definition points_from (r : Z) (l : list input) : Prop := forall t, In (Point t) l -> r <= t.
(** Of any three events in a row, two are 40 ms or more apart *)
Definition no_burst (l : list input) : Prop :=
  forall a t1 b t2 d t3 e, l = a ++ Point t1 :: b ++ Point t2 :: d ++ Point t3 :: e -> no_trackpoint b -> no_trackpoint d ->
  (exists s, In (TpTimer s) b /\ t1 + 40000 <= s) \/ (exists s, In (TpTimer s) d /\ t2 + 40000 <= s).

(** ** Palms *)
(** More pressure, or a bigger area, than a finger has *)
Definition too_hard (c : config) (v : seen) : Prop := use_pressure c = true /\ pressure_threshold c < pressure v.
Definition too_big (c : config) (v : seen) : Prop := use_size c = true /\ (size_threshold c < major v \/ size_threshold c < minor v).
(** The kernel never says that [i] is a palm *)
Definition never_tool (i : nat) (l : list input) : Prop := forall f v, (exists g u t, In (Frame f g u t) l) \/ (exists w t, In (Arb w f t) l) -> nth_error f i = Some v -> toolpalm v = false.
(** A pen stays: it is not said to be gone *)
Definition pen_stays (l : list input) : Prop := forall f t, ~ In (Arb ARB_NONE f t) l.
(** In the zone along the left, right or upper edge *)
Definition in_edge_zone (c : config) (v : seen) : Prop := px v < left_edge c \/ right_edge c < px v \/ py v < upper_edge c.
(** The finger that came down at ([x], [y]) in an edge zone moved away from that edge: from the left or right edge, in no direction that may be straight up or down; from the upper edge, in none that is not downwards.
    The set of directions a movement may have: bits 0 to 7 for N, NE, E, SE, S, SW, W, NW. *)
Definition moves_away (c : config) (x y : Z) (v : seen) : Prop :=
  let d := Gest_Model.get_direction (gp c) (Gest_Model.mm (gp c) (inject_Z (px v - x), inject_Z (py v - y))) in
  ((x < left_edge c \/ right_edge c < x) /\ d <> 0%N /\ (d < 256)%N /\ N.testbit d 0 = false /\ N.testbit d 4 = false) \/
  (left_edge c <= x <= right_edge c /\ y < upper_edge c /\ d <> 0%N /\ (d < 256)%N /\ (forall k, In k [0; 1; 2; 6; 7]%N -> N.testbit d k = false)).
(** Touch [i] is alone in the frames of [l], and stays in the edge zone until 200 ms after [t0] *)
Definition edge_stays (c : config) (i : nat) (t0 : Z) (l : list input) : Prop := forall f g u t v, In (Frame f g u t) l -> nth_error f i = Some v -> alone i f /\ (in_edge_zone c v \/ t0 + 200000 <= t).
(** A touch comes down in an edge zone, not on a software button nor on the strip for edge scrolling *)
Definition lands_in_edge (c : config) (v : seen) : Prop :=
  st v = BEGIN /\ fresh v = true /\ dirty v = true /\ in_edge_zone c v /\ calm c v /\ (is_clickpad c = true -> soft v = false) /\ redge v = false.
