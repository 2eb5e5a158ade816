(** Specification for C59: distances on a touchpad, in its own units. *)
From Coq Require Import ZArith.
From Verif Require Import Thr_Model.
Open Scope Z_scope.

(** An axis the kernel can give: some extent and a resolution, in int. *)
Definition sane (a : axis) : Prop :=
  amin a < amax a /\ 0 < ares a /\ -2147483648 <= amin a /\ amax a <= 2147483647.

(** [closer u a w n]: a point [u] units from a side is closer to it than [w] mm
    and than [n] percent of the axis. *)
Definition closer (u : Z) (a : axis) (w n : Z) : Prop :=
  u < w * ares a /\ 100 * u < n * (amax a - amin a).

(** At least that wide, in mm. *)
Definition at_least (a : axis) (w : Z) : Prop := w * ares a <= amax a - amin a.
