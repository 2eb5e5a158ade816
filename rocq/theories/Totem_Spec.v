(** * The totem: specification *)
Require Import Coq.ZArith.ZArith Coq.QArith.QArith Coq.Lists.List Coq.Bool.Bool.
Require Import Verif.Totem_Model.
Import ListNotations.
Open Scope Z_scope.

(** ** What is on the surface *)
(** One slot: values last sent by the device, whether something is on the surface, whether there was at the end of the last frame, and whether a value came in this frame *)
Record place := { val : kern; on : bool; was : bool; fresh : bool }.
Record world := { now : nat; places : list place; held : bool (* the button *) }.
Fixpoint nth_upd {A} (i : nat) (f : A -> A) (l : list A) : list A := match l, i with [], _ => [] | a :: r, O => f a :: r | a :: r, S j => a :: nth_upd j f r end.
Definition is_value (c : code) : bool := match c with TRACKING_ID | OTHER => false | _ => true end.
Definition says (c : code) (v : Z) (p : place) : place :=
  {| val := kernel c v (val p); on := match c with TRACKING_ID => Z.leb 0 v | _ => on p end; was := was p; fresh := fresh p || is_value c |}.
Definition frame_end (p : place) : place := {| val := val p; on := on p; was := on p; fresh := false |}.
Definition happens (w : world) (e : input) : world :=
  match e with
  | Slot v => {| now := Z.to_nat v; places := places w; held := held w |}
  | Abs c v => {| now := now w; places := nth_upd (now w) (says c v) (places w); held := held w |}
  | Btn0 v => if Z.eqb v 2 then w else {| now := now w; places := places w; held := negb (Z.eqb v 0) |}
  | Syn => {| now := now w; places := map frame_end (places w); held := held w |}
  | _ => w
  end.
(** The device behaves: slot numbers exist; in a frame a slot is put down only where nothing was, and not both put down and taken up; the totem is not disabled *)
Definition behaves1 (w : world) (e : input) : Prop :=
  match e with
  | Slot v => 0 <= v < Z.of_nat (length (places w))
  | Abs TRACKING_ID v => exists p, nth_error (places w) (now w) = Some p /\ (0 <= v -> on p = false /\ was p = false) /\ (v < 0 -> on p = true -> was p = true)
  | Suspend | Resume _ _ => False
  | _ => True
  end.
Fixpoint behaves (w : world) (l : list input) : Prop := match l with [] => True | e :: r => behaves1 w e /\ behaves (happens w e) r end.
Definition at_start (ks : list kern) (k : nat) : world :=
  {| now := k; places := map (fun v => {| val := v; on := negb (Z.eqb (k_id v) (-1)); was := negb (Z.eqb (k_id v) (-1)); fresh := false |}) ks; held := false |}.
Definition history (ks : list kern) (k : nat) (l : list input) : world := fold_left happens l (at_start ks k).

(** ** What a caller is told *)
(** The life of a tool: into proximity, down, axes and buttons, up, out of proximity *)
Inductive life := Out | In_ | Down | Up | Wrong.
Definition live1 (t : nat) (z : life) (o : out) : life :=
  match o with
  | Prox u b _ _ _ => if Nat.eqb u t then match z, b with Out, true => In_ | Up, false => Out | _, _ => Wrong end else z
  | Tip u b _ _ _ => if Nat.eqb u t then match z, b with In_, true => Down | Down, false => Up | _, _ => Wrong end else z
  | Axis u b _ _ _ => if Nat.eqb u t then match z, b with Down, true => Down | _, _ => Wrong end else z
  | Button u _ _ _ _ => if Nat.eqb u t then match z with Down => Down | _ => Wrong end else z
  | Assert => Wrong
  | _ => z
  end.
Definition lives (t : nat) (l : list out) : life := fold_left (live1 t) l Out.
(** The button: pressed and released in turn *)
Definition press1 (z : option bool) (o : out) : option bool :=
  match o, z with Button _ _ _ _ b, Some h => if Bool.eqb b h then None else Some b | _, _ => z end.
Definition pressed (l : list out) : option bool := fold_left press1 l (Some false).
(** What the touch device was told last: the place to be ignored *)
Definition told1 (d : nat) (z : option rect) (o : out) : option rect :=
  match o with Toggle u r => if Nat.eqb u d then r else z | Update u r => if Nat.eqb u d then Some r else z | _ => z end.
Definition told (d : nat) (l : list out) : option rect := fold_left (told1 d) l None.
(** The touch device that belongs to the totem: the first that came and is still there *)
Definition partner1 (z : option nat) (e : input) : option nat :=
  match e, z with Added d true, None => Some d | Removed d, Some u => if Nat.eqb d u then None else z | _, _ => z end.
Definition partner (d : option nat) (l : list input) : option nat := fold_left partner1 l d.
(** The place to be ignored: 100 mm by 100 mm around the first totem on the surface *)
Definition ignored (c : cfg) (k : kern) : rect := (Z.quot (k_x k - minx c) (resx c) - 30, Z.quot (k_y k - miny c) (resy c) - 30, 100, 100).
(** The axes say what the device says *)
Definition says_what (c : cfg) (k : kern) (a : axes) : Prop :=
  x a = k_x k /\ y a = k_y k /\ rotation a = Z.rem (360 - k_angle k) 360 /\ major a = size (k_major k) (rmajor c) /\ minor a = size (k_minor k) (rminor c).
Definition axes_of (o : out) : option axes := match o with Prox _ _ a _ _ | Tip _ _ a _ _ | Axis _ _ a _ _ | Button _ _ a _ _ => Some a | _ => None end.
Definition tool_of (o : out) : option nat := match o with Prox t _ _ _ _ | Tip t _ _ _ _ | Axis t _ _ _ _ | Button t _ _ _ _ => Some t | _ => None end.
(** The totem on the surface in the first slot that has one *)
Definition first_on (l : list place) : option place := find on l.
(** A history from the start: [ks] is on the surface then, the current slot is [k], [d] is a touch device of the same hardware *)
Definition events (c : cfg) (ks : list kern) (k : nat) (d : option nat) (l : list input) : list out := snd (start c ks k d) ++ snd (run c (fst (start c ks k d)) l).
(** The totem after a history, the tools of its slots, and what is sent at the end of the next frame *)
Definition after (c : cfg) (ks : list kern) (k : nat) (d : option nat) (l : list input) : totem := fst (run c (fst (start c ks k d)) l).
Definition owner (c : cfg) (ks : list kern) (k : nat) (d : option nat) (l : list input) (i : nat) (t : nat) : Prop := exists s, nth_error (slots (after c ks k d l)) i = Some s /\ tool s = Some t.
Definition frame (c : cfg) (ks : list kern) (k : nat) (d : option nat) (l : list input) : list out := snd (step c (after c ks k d l) Syn).
