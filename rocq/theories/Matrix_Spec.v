(** What calibration, rotation and scaling are documented to do. *)
Require Import Coq.ZArith.ZArith Coq.QArith.QArith Coq.Lists.List.
Require Import Verif.Matrix_Model.
Import ListNotations.
Open Scope Q_scope.

(** The affine map of the API's six values
    [ a b c ; d e f ]. *)
Definition affine (v : list Q) (x y : Q) : Q * Q :=
  match v with
  | [a; b; c; d; e; f] => (a * x + b * y + c, d * x + e * y + f)
  | _ => (x, y)
  end.
(** Device coordinates to multiples of the axis range and back. *)
Definition range (a : absinfo) : Q := inject_Z (maximum a - minimum a + 1).
Definition normal (a : absinfo) (v : Q) : Q := (v - inject_Z (minimum a)) / range a.
Definition unnormal (a : absinfo) (u : Q) : Q := u * range a + inject_Z (minimum a).
(** The calibrated point, before the fraction is dropped. *)
Definition calibrated (ax ay : absinfo) (v : list Q) (x y : Z) : Q * Q :=
  let p := affine v (normal ax (inject_Z x)) (normal ay (inject_Z y)) in (unnormal ax (fst p), unnormal ay (snd p)).
Definition drop (p : Q * Q) : Z * Z := (to_int (fst p), to_int (snd p)).
(** The fraction is dropped toward zero. *)
Definition truncates (q : Q) (z : Z) : Prop :=
  (0 <= q -> inject_Z z <= q /\ q < inject_Z z + 1) /\ (q <= 0 -> q <= inject_Z z /\ inject_Z z - 1 < q).

Definition same (m1 m2 : matrix) : Prop := forall r c, (r < 3)%nat -> (c < 3)%nat -> m1 r c == m2 r c.
(** A matrix whose last row is 0 0 1, applied to a point without rounding. *)
Definition apply (m : matrix) (p : Q * Q) : Q * Q :=
  (fst p * m 0%nat 0%nat + snd p * m 0%nat 1%nat + m 0%nat 2%nat, fst p * m 1%nat 0%nat + snd p * m 1%nat 1%nat + m 1%nat 2%nat).
Definition aff (m : matrix) : Prop := m 2%nat 0%nat == 0 /\ m 2%nat 1%nat == 0 /\ m 2%nat 2%nat == 1.
Definition qpair (p q : Q * Q) : Prop := fst p == fst q /\ snd p == snd q.
(** Clockwise quarter turns, y pointing down. *)
Definition quarter (p : Z * Z) : Z * Z := (- snd p, fst p)%Z.
Fixpoint quarters (n : nat) (p : Z * Z) : Z * Z := match n with O => p | S k => quarter (quarters k p) end.
