(** * Edge scrolling: what is specified *)
Require Import Coq.ZArith.ZArith Coq.QArith.QArith Coq.Lists.List Coq.Bool.Bool.
Require Verif.Tp_Model.
Require Import Verif.Es_Model.
Import ListNotations.
Open Scope Z_scope.

(** The events of touch [k] *)
Definition from (k : nat) (o : list (nat * axis * Q)) : list (axis * Q) :=
  map (fun x => (snd (fst x), snd x)) (filter (fun x => Nat.eqb (fst (fst x)) k) o).
(** Scroll sequences: motion on one axis, ended by one zero event on it.  [None]: no sequence is open. *)
Fixpoint open_after (d : option axis) (o : list (axis * Q)) : option (option axis) :=
  match o with
  | [] => Some d
  | (a, v) :: o =>
      match d, Qeq_bool v 0 with
      | None, true => None
      | None, false => open_after (Some a) o
      | Some b, z => match a, b with VERTICAL, VERTICAL | HORIZONTAL, HORIZONTAL => open_after (if z then None else Some b) o | _, _ => None end
      end
  end.
(** What the client sees of one axis: is the last event a zero event? *)
Definition on_axis (a : axis) (o : list (nat * axis * Q)) : list Q :=
  map snd (filter (fun x => match snd (fst x), a with VERTICAL, VERTICAL | HORIZONTAL, HORIZONTAL => true | _, _ => false end) o).
(** ** Frames as the touch code produces them *)
(** None: up, Some b: down and [b] says whether it is a palm or thumb; that does not change while the finger is down. *)
Definition follows (ph : option bool) (f : eft) : Prop :=
  py f <= 2147483647 /\
  match st f with
  | Tp_Model.NONE | Tp_Model.HOVERING => ph = None
  | Tp_Model.BEGIN => ph = None /\ dirty f = true
  | Tp_Model.UPDATE => ph = Some (bad f)
  | Tp_Model.END => ph = Some (bad f) /\ dirty f = true
  | Tp_Model.MAYBE_END => False
  end.
Definition phase (f : eft) : option bool := match st f with Tp_Model.BEGIN | Tp_Model.UPDATE => Some (bad f) | _ => None end.
(** The scroll method is not changed and the device not suspended while a finger is down ([Silent] frames only follow other silent frames or lifted fingers). *)
Fixpoint legal (silent : bool) (ph : list (option bool)) (l : list einput) : Prop :=
  match l with
  | [] => True
  | EFrame fs h _ :: l => Forall2 follows ph fs /\ (h = Silent -> silent = true \/ Forall (fun x => x = None) ph) /\ legal (match h with Silent => true | _ => false end) (map phase fs) l
  | ESetScroll m :: l => Forall (fun x => x = None) ph /\ legal silent ph l
  | _ :: l => legal silent ph l
  end.
Fixpoint last_phases (ph : list (option bool)) (l : list einput) : list (option bool) :=
  match l with [] => ph | EFrame fs _ _ :: l => last_phases (map phase fs) l | _ :: l => last_phases ph l end.
(** ** One finger's life *)
(** The rightmost 7 mm; the bottom 7 mm, if the touchpad is a clickpad or at least 40 mm high *)
Definition in_edge (p : epad) (a : axis) (f : eft) : Prop :=
  match a with
  | VERTICAL => maxx p - px f < 7 * resx p
  | HORIZONTAL => maxy p - py f < 7 * resy p /\ (clickpad p = true \/ 40 * resy p <= maxy p - miny p)
  end.
Definition along (a : axis) (f : eft) : Z := match a with VERTICAL => py f | HORIZONTAL => px f end.
Definition value (a : axis) (f : eft) : Q := match a with VERTICAL => ny f | HORIZONTAL => nx f end.
Definition three_mm (p : epad) (a : axis) : Z := 3 * match a with VERTICAL => resy p | HORIZONTAL => resx p end.
(** Touch [k] in this input *)
Definition frame_of (k : nat) (i : einput) : option eft := match i with EFrame fs _ _ => nth_error fs k | _ => None end.
Definition begins (k : nat) (i : einput) : Prop := exists f, frame_of k i = Some f /\ st f = Tp_Model.BEGIN.
(** In every frame in which it changed the finger is in the edge *)
Definition stays_in_edge (p : epad) (a : axis) (k : nat) (l : list einput) : Prop := Forall (fun i => forall f, frame_of k i = Some f -> dirty f = true -> in_edge p a f) l.
Definition areas_after (b : bool) (l : list einput) : bool := fold_left (fun b i => match i with ESetClick c => c | _ => b end) l b.
(** The finger has been [put down] in the edge at [t0], has stayed in it through [w], and with [lock] it starts scrolling *)
Definition starts_scrolling (p : epad) (areas : bool) (k : nat) (a : axis) (l1 : list einput) (b : einput) (w : list einput) (lock : einput) : Prop :=
  exists fs h t0 f0, b = EFrame fs h t0 /\ nth_error fs k = Some f0 /\ st f0 = Tp_Model.BEGIN /\ in_edge p a f0 /\ Forall (fun i => ~ begins k i) w /\ stays_in_edge p a k w /\
    ((exists f, frame_of k lock = Some f /\ in_edge p a f /\ three_mm p a <= Z.abs (along a f - along a f0)) \/
     (exists t, lock = ETimer k t /\ t0 + 300000 <= t /\ areas_after areas l1 = false)).
(** Input [x] does not disturb a scrolling touch [k]: it moves, another timer, button or configuration event *)
Definition undisturbed (k : nat) (x : einput) : Prop :=
  match x with EFrame fs h _ => h = Posted /\ exists f, nth_error fs k = Some f /\ st f = Tp_Model.UPDATE | EStop => False | _ => True end.
(** A frame, posted, in which the finger is down, has moved and is in the edge; its motion is not zero on the axis *)
Definition scroll_frame (p : epad) (a : axis) (k : nat) (x : einput) (f : eft) : Prop :=
  exists fs t, x = EFrame fs Posted t /\ nth_error fs k = Some f /\ st f = Tp_Model.UPDATE /\ dirty f = true /\ bad f = false /\ in_edge p a f /\ Qeq_bool (value a f) 0 = false.
Definition other (a : axis) : axis := match a with VERTICAL => HORIZONTAL | HORIZONTAL => VERTICAL end.
(** A finger is not lifted in the very frame in which scrolling is stopped *)
Definition lifts_cleanly (k : nat) (x : einput) : Prop := match x with EFrame fs h _ => forall f, nth_error fs k = Some f -> st f = Tp_Model.END -> h = Posted \/ h = Silent | _ => True end.
(** ** Histories without these restrictions: palms are detected late, the device is suspended, the method changed at any time *)
Definition follows_loosely (down : bool) (f : eft) : Prop :=
  match st f with
  | Tp_Model.NONE | Tp_Model.HOVERING => down = false
  | Tp_Model.BEGIN => down = false /\ dirty f = true
  | Tp_Model.UPDATE => down = true
  | Tp_Model.END => down = true /\ dirty f = true
  | Tp_Model.MAYBE_END => False
  end.
Fixpoint any_history (ph : list bool) (l : list einput) : Prop :=
  match l with
  | [] => True
  | EFrame fs _ _ :: l => Forall2 follows_loosely ph fs /\ any_history (map (fun f => match phase f with Some _ => true | None => false end) fs) l
  | _ :: l => any_history ph l
  end.
Fixpoint last_down (ph : list bool) (l : list einput) : list bool :=
  match l with [] => ph | EFrame fs _ _ :: l => last_down (map (fun f => match phase f with Some _ => true | None => false end) fs) l | _ :: l => last_down ph l end.
