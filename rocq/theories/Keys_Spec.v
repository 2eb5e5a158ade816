(** Key events as a client sees them. *)
Require Import Coq.ZArith.ZArith Coq.Lists.List Coq.Bool.Bool.
Require Import Verif.Keys_Model.
Import ListNotations.
Open Scope Z_scope.

(** Presses (true) and releases (false) of key [c]. *)
Definition key_transitions (c : Z) (l : list kout) : list bool :=
  flat_map (fun o => match o with KKey _ c' p => if c' =? c then [p] else [] | _ => [] end) l.
(** true, false, true, ... beginning with [expect]. *)
Fixpoint alternates (expect : bool) (l : list bool) : Prop :=
  match l with [] => True | b :: r => b = expect /\ alternates (negb expect) r end.
(** The key is down for the client. *)
Definition client_down (c : Z) (l : list kout) : bool := last (key_transitions c l) false.

(** The keys the kernel says are down: nothing is while suspended, and
    autorepeat (value 2) says nothing. *)
Definition kernel_step (f : Z -> bool) (o : kop) : Z -> bool :=
  match o with
  | Suspend _ => fun _ => false
  | EvKey _ c v => if v =? 2 then f else fun x => if x =? c then negb (v =? 0) else f x
  end.
Definition kernel_down (ops : list kop) : Z -> bool := fold_left kernel_step ops (fun _ => false).

(** For a seat: presses of [c] in [evs] not matched by later releases,
    a release with nothing pressed not counting. *)
Fixpoint unmatched (n : Z) (c : Z) (evs : list (Z * bool)) : Z :=
  match evs with
  | [] => n
  | (c', p) :: r =>
      unmatched (if c' =? c then (if p then n + 1 else Z.max 0 (n - 1)) else n) c r
  end.
