(** Tap-and-drag: what is specified *)
Require Import Coq.ZArith.ZArith Coq.Lists.List Coq.Bool.Bool.
Require Verif.Tp_Model.
Require Import Verif.Tap_Model Verif.Tap_Spec.
Import ListNotations.
Open Scope Z_scope.

(** The settings as last made: tap-and-drag is on and drag lock off unless the caller says otherwise. *)
Definition last_drag (l : list input) : bool := fold_left (fun b i => match i with SetDrag e => e | _ => b end) l true.
Definition last_draglock (l : list input) : bool := fold_left (fun b i => match i with SetDragLock e => e | _ => b end) l false.

(** One finger put down, moving or resting, and lifted.  [looks]: times before at which the clock is looked at; [at_], [behind]: number of places for touches before and behind the finger's *)
Record stroke := { at_ : nat; behind : nat; looks : list Z; s_begin : finger; t_begin : Z; s_hold : list meanwhile; s_end : finger; t_end : Z }.
Definition put_down (x : stroke) : list input :=
  map Timer (looks x) ++ [Begin (at_ x); Frame (alone (at_ x) (behind x) (s_begin x)) false (t_begin x)] ++ map (meanwhile_input (at_ x) (behind x)) (s_hold x).
Definition lift (x : stroke) : input := Frame (alone (at_ x) (behind x) (s_end x)) false (t_end x).
Definition stroke_inputs (x : stroke) : list input := put_down x ++ [lift x].
(** The finger is put down before [deadline]; it is no palm and no thumb *)
Definition calm_finger (f : finger) : Prop := palm f = false /\ thumb f = false /\ thumb_tap f = false /\ palm_tap f = false.
Definition proper (n : nat) (deadline : Z) (x : stroke) : Prop :=
  n = (at_ x + S (behind x))%nat /\ Forall (fun t => t < deadline) (looks x) /\ fs (s_begin x) = Tp_Model.BEGIN /\ fdirty (s_begin x) = true /\ calm_finger (s_begin x) /\
  Forall (fun m => match m with Moves f _ => fs f = Tp_Model.UPDATE /\ calm_finger f | TimeIs _ => True end) (s_hold x) /\
  fs (s_end x) = Tp_Model.END /\ fdirty (s_end x) = true /\ fwas_down (s_end x) = true /\ calm_finger (s_end x).
(** It moves too far for a tap, or rests 180 ms *)
Definition drags (x : stroke) : bool := existsb (fun m => match m with Moves f _ => fdirty f && moved f | TimeIs t => t_begin x + 180000 <=? t end) (s_hold x).
(** Strokes that each drag and follow each other within 300 ms; the deadline for the next *)
Fixpoint strokes_ok (n : nat) (deadline : Z) (l : list stroke) : Prop :=
  match l with [] => True | x :: l => proper n deadline x /\ drags x = true /\ strokes_ok n (t_end x + 300000) l end.
Fixpoint next_deadline (d : Z) (l : list stroke) : Z := match l with [] => d | x :: l => next_deadline (t_end x + 300000) l end.

(** A tap with one to three fingers *)
Record calm_tap := { comes : list (list finger * Z); goes : list (list finger * Z) }.
Definition tap_inputs (x : calm_tap) : list input := frames (comes x) ++ frames (goes x).
Definition fingers_of (n : nat) (x : calm_tap) : Z := how_many (downs (repeat false n) (comes x)).
Definition proper_tap (n : nat) (x : calm_tap) : Prop :=
  calm Tp_Model.END (repeat false n) (comes x) /\ calm Tp_Model.BEGIN (downs (repeat false n) (comes x)) (goes x) /\
  1 <= fingers_of n x <= 3 /\ how_many (downs (downs (repeat false n) (comes x)) (goes x)) = 0.
(** How long the next finger may take: 180, 200 or 220 ms *)
Definition drag_deadline (n : nat) (x : calm_tap) : Z := last_with Tp_Model.END 0 (goes x) + 160000 + fingers_of n x * 20000.
Definition pressed_at (n : nat) (x : calm_tap) : Z := last_with Tp_Model.BEGIN 0 (comes x).
Definition lifted_at (n : nat) (x : calm_tap) : Z := first_with Tp_Model.END 0 (goes x).
Definition press (b : button) (t : Z) : bev := {| at_time := t; but := b; down := true |}.
Definition release (b : button) (t : Z) : bev := {| at_time := t; but := b; down := false |}.
Definition last_map (l : list input) : tap_map := fold_left (fun b i => match i with SetMap e => e | _ => b end) l LRM.
