(** Specification for C60. *)
From Coq Require Import ZArith List.
Import ListNotations.
Open Scope Z_scope.

(** [jump l n f]: after the timestamps [l], oldest first, the timestamp [n] tells
    of a jump, the hardware's interval being [f]: the last zero was followed by
    [f], not above 20 ms, then by some not above [2 f], and [n] is above. *)
Definition jump (l : list Z) (n f : Z) : Prop :=
  exists before between,
    l = before ++ 0 :: f :: between /\
    0 < f <= 20000 /\ (forall m, In m between -> 0 < m <= 2 * f) /\ 2 * f < n.

(** A timestamp the kernel can give. *)
Definition stamp_ok (n : Z) : Prop := 0 <= n < 4294967296.
