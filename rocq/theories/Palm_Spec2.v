(** * Thumbs: specification *)
(** Where a thumb rests, how fast a touch was lately, and clean contacts; in terms of the inputs alone. *)
Require Import Coq.ZArith.ZArith Coq.Lists.List Coq.Bool.Bool.
Require Import Verif.Palm_Model Verif.Palm_Spec.
Require Verif.Es_Model Verif.Gest_Model.
Import ListNotations.
Open Scope Z_scope.

(** The scroll method after a history *)
Fixpoint method_after (m : Es_Model.smethod) (l : list input) : Es_Model.smethod := match l with [] => m | SetScroll x :: r => method_after x r | _ :: r => method_after m r end.
(** Where a thumb may rest: below the upper line, unless edge scrolling is used; between the upper and the lower line only if the touchpad cannot tell by size or pressure, or the size is a thumb's: long and narrow *)
Definition thumb_place (c : config) (m : Es_Model.smethod) (v : seen) : bool :=
  (upper_thumb_line c <=? py v) && match m with Es_Model.M_EDGE => false | _ => true end &&
  ((lower_thumb_line c <? py v) || (negb (th_use_size c) && negb (th_use_pressure c)) || (th_use_size c && (th_size c <? major v) && (5 * minor v <? 3 * th_size c))).
(** How fast a touch was lately: one more for every fast frame, up to 15, one less for every other *)
Definition count (v : seen) (k : Z) : Z := if dirty v && fast v then Z.min 15 (k + 1) else Z.max 0 (k - 1).
(** [i] rested like a thumb in all frames of [l]: where a thumb may rest whenever it is reported, and not fast for ten frames *)
Fixpoint rests (c : config) (i : nat) (m : Es_Model.smethod) (k : Z) (l : list input) : bool :=
  match l with
  | [] => true
  | Frame f _ _ _ :: r => match nth_error f i with Some v => (negb (dirty v) || (thumb_place c m v && (k <? 10))) && rests c i m (count v k) r | None => rests c i m k r end
  | SetScroll x :: r => rests c i x k r
  | _ :: r => rests c i m k r
  end.
(** The count after a contact's frames *)
Fixpoint excess (i : nat) (k : Z) (l : list input) : Z :=
  match l with
  | [] => k
  | Frame f _ _ _ :: r => match nth_error f i with Some v => excess i (count v k) r | None => excess i k r end
  | _ :: r => excess i k r
  end.
(** [i] is the only one in all frames of [l], and no gesture makes it a thumb *)
Definition only (i : nat) (l : list input) : Prop := forall f g u t, In (Frame f g u t) l -> alone i f /\ u = None.
(** [i] and [j] are the only ones *)
Definition pair_ (i j : nat) (f : list seen) : Prop := forall k v, nth_error f k = Some v -> k <> i -> k <> j -> st v = NONE.
(** A clean contact of [i] that goes on in the last frame of the history: down outside the edge zones, never too hard, too big or a palm by the kernel's word *)
Definition clean_contact (c : config) (i : nat) (h : list input) : Prop :=
  exists l f g u t m v, h = l ++ Frame f g u t :: m /\ nth_error f i = Some v /\ lands c v /\ goes_on i m /\ all_calm c i m.
(** Two touches less than 35 mm times 25 mm apart; and more than 25 mm one above the other; distances of positions in device units times the resolution *)
Definition near (c : config) (v w : seen) : Prop := Z.abs (hx v - hx w) < 35 * Gest_Model.rx (gp c) /\ Z.abs (hy v - hy w) < 25 * Gest_Model.ry (gp c).
Definition beyond (c : config) (v w : seen) : Prop := 35 * Gest_Model.rx (gp c) < Z.abs (hx v - hx w) \/ 25 * Gest_Model.ry (gp c) < Z.abs (hy v - hy w).
(** [v] is more than 25 mm below [w] *)
Definition far_below (c : config) (v w : seen) : Prop := 25 * Gest_Model.ry (gp c) < hy v - hy w.

(** Only touches, timers and settings: neither keyboard, trackpoint nor pen *)
Definition touches_only (l : list input) : Prop := no_press l /\ no_trackpoint l /\ no_pen l.
(** [j] comes down, in the frame [f] at [t], beside [i], which came down at [t0] as the first after an idle time and was alone until then; both cleanly *)
Definition joined (c : config) (n : nat) (l : list input) (f0 : list seen) (g0 : bool) (t0 : Z) (m : list input) (f : list seen) (g : bool) (t : Z) (i j : nat) (v w : seen) : Prop :=
  detect_thumbs c = true /\ idle_from true l /\ touches_only ((l ++ Frame f0 g0 None t0 :: m) ++ [Frame f g None t]) /\ sized n ((l ++ Frame f0 g0 None t0 :: m) ++ [Frame f g None t]) /\
  (exists v0, nth_error f0 i = Some v0 /\ lands c v0) /\ goes_on i (m ++ [Frame f g None t]) /\ all_calm c i (m ++ [Frame f g None t]) /\ only i (Frame f0 g0 None t0 :: m) /\
  i <> j /\ nth_error f i = Some v /\ nth_error f j = Some w /\ lands c w /\ pair_ i j f.
