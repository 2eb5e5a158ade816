(** What a log of timer events must look like. *)
Require Import Coq.ZArith.ZArith Coq.Lists.List Coq.Bool.Bool Coq.Arith.Arith.
Require Import Verif.Timer_Model.
Import ListNotations.
Open Scope Z_scope.

(** The expiry a timer is armed for after a log: the last request made since
    it was last cancelled or fired. *)
Definition armed_step (id : nat) (a : option Z) (e : tev) : option Z :=
  match e with
  | ESet i x => if (i =? id)%nat then Some x else a
  | ECancel i => if (i =? id)%nat then None else a
  | EFired i _ => if (i =? id)%nat then None else a
  | EAssert => a
  end.
Definition armed (log : list tev) (id : nat) : option Z :=
  fold_left (armed_step id) log None.

(** Every firing is of a timer that was armed at that moment and due. *)
Definition fires_only_when_due (log : list tev) : Prop :=
  forall before id now after, log = before ++ EFired id now :: after ->
    exists e, armed before id = Some e /\ e <= now.

(** The earliest expiry of the timers armed after a log. *)
Definition is_earliest (log : list tev) (e : Z) : Prop :=
  (forall id x, armed log id = Some x -> e <= x) /\
  ((exists id, armed log id = Some e) \/
   (e = UINT64_MAX /\ forall id x, armed log id = Some x -> UINT64_MAX <= x)).
