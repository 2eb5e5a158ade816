(** Strings of bytes, and the number a run of digits stands for. *)
Require Import Coq.ZArith.ZArith Coq.Lists.List.
Import ListNotations.
Open Scope Z_scope.

Definition bytes (s : list Z) : Prop := Forall (fun c => 1 <= c <= 255) s.
Definition digit (c : Z) : Prop := 48 <= c <= 57.
Definition value (s : list Z) : Z := fold_left (fun v c => 10 * v + (c - 48)) s 0.
(** A number without leading zeros, or more exactly not starting with 0. *)
Definition number (s : list Z) : Prop := Forall digit s /\ hd 48 s <> 48.
Definition no_digit_first (s : list Z) : Prop := match s with c :: _ => ~ digit c | [] => True end.
