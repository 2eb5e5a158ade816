(** What the string helpers should do. *)
Require Import Coq.Strings.Ascii Coq.Strings.String Coq.ZArith.ZArith Coq.Lists.List Coq.Bool.Bool.
Require Import Verif.Str_Model.
Import ListNotations.
Open Scope Z_scope.

(** ** Numerals *)
(** The characters of the digits in order. *)
Definition alphabet : str := S "0123456789abcdef".
Definition alphabet_upper : str := S "0123456789ABCDEF".
Definition digit_value (base : Z) (c : ascii) (v : Z) : Prop :=
  0 <= v < base /\
  (nth_error alphabet (Z.to_nat v) = Some c \/ nth_error alphabet_upper (Z.to_nat v) = Some c).
(** Positional notation, most significant digit first. *)
Inductive numeral (base : Z) : str -> Z -> Prop :=
| num_one : forall c v, digit_value base c v -> numeral base [c] v
| num_more : forall s n c v, numeral base s n -> digit_value base c v -> numeral base (s ++ [c]) (n * base + v).
(** Blanks, a sign, a numeral (base 16: perhaps with 0x). *)
Definition blank (c : ascii) : Prop := In c (S " " ++ map ascii_of_nat [9; 10; 11; 12; 13]%nat).
Definition signs : list (str * Z) := [([], 1); (S "+", 1); (S "-", -1)].
Definition prefixes (base : Z) : list str := [] :: if base =? 16 then [S "0x"; S "0X"] else [].
Definition integer (base : Z) (s : str) (v : Z) : Prop :=
  exists ws sg k pre ds n, s = ws ++ sg ++ pre ++ ds /\ Forall blank ws /\ In (sg, k) signs /\
    In pre (prefixes base) /\ numeral base ds n /\ v = k * n.

(** ** Words *)
(** [splits seps s ws]: [ws] are the maximal runs of non-separators of [s]. *)
Definition all_in (seps s : str) : Prop := Forall (fun c => In c seps) s.
Definition none_in (seps s : str) : Prop := Forall (fun c => ~ In c seps) s.
Inductive splits (seps : str) : str -> list str -> Prop :=
| sp_nil : forall g, all_in seps g -> splits seps g []
| sp_last : forall g w, all_in seps g -> w <> [] -> none_in seps w -> splits seps (g ++ w) [w]
| sp_cons : forall g w c s ws, all_in seps g -> w <> [] -> none_in seps w -> In c seps ->
    splits seps (c :: s) ws -> splits seps (g ++ w ++ c :: s) (w :: ws).
