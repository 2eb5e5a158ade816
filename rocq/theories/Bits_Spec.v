(** A bit array as a set of bit numbers: bit b is bit (b mod W) of word (b / W). *)
Require Import Coq.ZArith.ZArith Coq.Lists.List.
Open Scope Z_scope.

Definition in_array (W : Z) (a : list Z) (b : Z) : Prop := 0 <= b < W * Z.of_nat (length a).
Definition word_ok (W x : Z) : Prop := 0 <= x < 2 ^ W.
Definition member (W : Z) (a : list Z) (b : Z) : bool := Z.testbit (nth (Z.to_nat (b / W)) a 0) (b mod W).
