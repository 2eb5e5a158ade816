(** What a client of scroll events relies on, stated on the axis events and
    on the finger/pointer motion handed to the scroll code. *)
Require Import Coq.QArith.QArith Coq.QArith.Qabs Coq.ZArith.ZArith Coq.Lists.List Coq.Bool.Bool.
Require Import Verif.Scroll_Model.
Import ListNotations.
Open Scope Q_scope.

Inductive axis := Vertical | Horizontal.

(** The values a client sees on an axis, in order. *)
Definition value (a : axis) (o : sout) : option Q :=
  match o, a with Axis _ v _, Vertical => v | Axis _ _ h, Horizontal => h end.
Definition values (a : axis) (l : list sout) : list Q :=
  flat_map (fun o => match value a o with Some q => [q] | None => [] end) l.

(** Scroll sequences: one or more non-zero values, then exactly one zero.
    [scrolling] says whether a sequence is in progress. *)
Fixpoint sequences (scrolling : bool) (l : list Q) : Prop :=
  match l with
  | [] => True
  | q :: r => if is0 q then scrolling = true /\ sequences false r else sequences true r
  end.
(** Whether a sequence is in progress after these values. *)
Definition in_progress (l : list Q) : bool := negb (is0 (last l 0)).

(** The motion on an axis since the last stop, latest first. *)
Definition motion1 (a : axis) (dx dy : Q) : Q := match a with Vertical => dy | Horizontal => dx end.
Fixpoint since_stop (a : axis) (acc : list Q) (ops : list sop) : list Q :=
  match ops with
  | [] => acc
  | Post _ dx dy :: r => since_stop a (motion1 a dx dy :: acc) r
  | Stop _ :: r => since_stop a [] r
  | SetNatural _ :: r => since_stop a acc r
  end.
Definition motion (a : axis) (ops : list sop) : list Q := since_stop a [] ops.
Definition sum (l : list Q) : Q := fold_right Qplus 0 l.

(** The motion once reached the threshold: at some point the accumulated
    distance was at least [thr], or a single movement was at least [dlock]. *)
Definition engaged (thr dlock : Q) (m : list Q) : Prop :=
  exists later d earlier, m = later ++ d :: earlier /\
    (thr <= Qabs (sum (d :: earlier)) \/ dlock <= Qabs d).

(** The sign with which motion is reported. *)
Definition sign (a : axis) (natural inverted : bool) (q : Q) : Q :=
  match a with
  | Vertical => if natural then - q else q
  | Horizontal => if xorb natural inverted then - q else q
  end.
Definition natural_after (nat : bool) (ops : list sop) : bool :=
  fold_left (fun n o => match o with SetNatural b => b | _ => n end) ops nat.
