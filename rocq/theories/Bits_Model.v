(** Bit arrays, /repo/src/util-bits.h.  An array is the list of its words, each
    of [W] bits: W = 8 for the unsigned char functions, W = 64 (LP64) for the
    unsigned long ones.  [None]: access outside the array or a negative shift
    (undefined behaviour). *)
Require Import Coq.ZArith.ZArith Coq.Lists.List.
Import ListNotations.
Open Scope Z_scope.

Fixpoint update (a : list Z) (i : nat) (f : Z -> Z) : option (list Z) :=
  match a, i with
  | [], _ => None
  | x :: r, O => Some (f x :: r)
  | x :: r, S j => match update r j f with Some r' => Some (x :: r') | None => None end
  end.
Definition word (W bit : Z) : nat := Z.to_nat (bit / W).
Definition mask (W bit : Z) : Z := Z.shiftl 1 (bit mod W).

(** bit_is_set and long_bit_is_set, /repo/src/util-bits.h:45-49, /repo/src/util-bits.h:63-67 *)
Definition bit_is_set (W : Z) (a : list Z) (bit : Z) : option bool :=
  if bit <? 0 then None
  else match nth_error a (word W bit) with
  | None => None
  | Some x => Some (negb (Z.land x (mask W bit) =? 0))
  end.
(** set_bit and long_set_bit, /repo/src/util-bits.h:51-55, /repo/src/util-bits.h:69-73; the result is stored in W bits *)
Definition set_bit (W : Z) (a : list Z) (bit : Z) : option (list Z) :=
  if bit <? 0 then None else update a (word W bit) (fun x => (Z.lor x (mask W bit)) mod 2 ^ W).
(** clear_bit and long_clear_bit, /repo/src/util-bits.h:57-61, /repo/src/util-bits.h:75-79 *)
Definition clear_bit (W : Z) (a : list Z) (bit : Z) : option (list Z) :=
  if bit <? 0 then None else update a (word W bit) (fun x => (Z.land x (Z.lnot (mask W bit))) mod 2 ^ W).
(** long_set_bit_state, /repo/src/util-bits.h:81-88 *)
Definition set_bit_state (W : Z) (a : list Z) (bit state : Z) : option (list Z) :=
  if state =? 0 then clear_bit W a bit else set_bit W a bit.
(** long_any_bit_set, /repo/src/util-bits.h:90-101; [None]: the assertion fails or the array is
    shorter than [size] *)
Fixpoint any_loop (a : list Z) (size : nat) : option bool :=
  match size with
  | O => Some false
  | S n => match a with [] => None | x :: r => if x =? 0 then any_loop r n else Some true end
  end.
Definition any_bit_set (a : list Z) (size : nat) : option bool :=
  match size with O => None | _ => any_loop a size end.
(** NLONGS and NCHARS, /repo/src/util-bits.h:37-38 *)
Definition nwords (W x : Z) : Z := (x + W - 1) / W.
