(** Time: units and what a rate limiter promises. *)
Require Import Coq.Strings.String Coq.ZArith.ZArith Coq.Lists.List Coq.Bool.Bool.
Require Import Verif.Time_Model.
Import ListNotations.
Open Scope Z_scope.

(** Length of a unit in microseconds. *)
Definition unit_us (u : string) : option Z :=
  if String.eqb u "us" then Some 1
  else if String.eqb u "ms" then Some 1000
  else if String.eqb u "s" then Some 1000000
  else if String.eqb u "min" then Some (60 * 1000000)
  else if String.eqb u "h" then Some (60 * 60 * 1000000)
  else if String.eqb u "d" then Some (24 * 60 * 60 * 1000000)
  else None.

(** Clock readings: positive and not decreasing. *)
Inductive clock : Z -> list Z -> Prop :=
| ck_nil : forall t, clock t []
| ck_cons : forall t u r, t <= u -> 0 < u -> clock u r -> clock t (u :: r).
(** A call is let through unless it exceeds the limit. *)
Definition passed (s : rl_state) : bool := match s with EXCEEDED => false | _ => true end.
(** Calls let through at a time in [a, b]. *)
Definition passes (a b : Z) (l : list (Z * rl_state)) : Z :=
  Z.of_nat (length (filter (fun e => passed (snd e) && (a <=? fst e) && (fst e <=? b)) l)).
