(** Model of the timer subsystem, /repo/src/timer.c.

    A timer is a number; the list of armed timers, in list order, holds pairs
    (timer, expiry) -- a timer is in the list iff timer->expire != 0.  The
    log records what happens to timers, in order, oldest first; it is the
    observable behaviour and is not part of the C state.
    Timer callbacks are arbitrary: a callback is any function from the log so
    far (everything any code could know), the timer that fired and the time to
    the timer calls it makes.  timerfd_settime is assumed to succeed. *)
Require Import Coq.ZArith.ZArith Coq.Lists.List Coq.Bool.Bool Coq.Arith.Arith.
Import ListNotations.
Open Scope Z_scope.

Definition UINT64_MAX : Z := 2 ^ 64 - 1.

Inductive tev :=
| ESet (id : nat) (expire : Z)
| ECancel (id : nat)
| EFired (id : nat) (now : Z)
| EAssert.      (** assert(expire) failed, /repo/src/timer.c:107 *)

(** struct libinput.timer, /repo/src/libinput-private.h:128-133; the initial
    value of next_expiry is 0 (zalloc). *)
Record tstate := mkT {
  t_list : list (nat * Z);
  t_next : Z;
  t_log : list tev
}.
Definition timer_init : tstate := mkT [] 0 [].

(** libinput_timer_arm_timer_fd, /repo/src/timer.c:61-84: the earliest expiry *)
Definition earliest (l : list (nat * Z)) : Z :=
  fold_left (fun e x => if snd x <? e then snd x else e) l UINT64_MAX.

Fixpoint in_list (id : nat) (l : list (nat * Z)) : bool :=
  match l with [] => false | (i, _) :: r => (i =? id)%nat || in_list id r end.
Fixpoint update_expire (id : nat) (e : Z) (l : list (nat * Z)) : list (nat * Z) :=
  match l with
  | [] => []
  | (i, x) :: r => if (i =? id)%nat then (i, e) :: r else (i, x) :: update_expire id e r
  end.
Fixpoint remove_id (id : nat) (l : list (nat * Z)) : list (nat * Z) :=
  match l with
  | [] => []
  | (i, x) :: r => if (i =? id)%nat then r else (i, x) :: remove_id id r
  end.

(** libinput_timer_set_flags, /repo/src/timer.c:86-114 (the sanity warnings of
    lines 91-105 have no effect on the state). *)
Definition timer_set (id : nat) (e : Z) (s : tstate) : tstate :=
  if e =? 0 then mkT (t_list s) (t_next s) (t_log s ++ [EAssert])
  else
    let l := if in_list id (t_list s) then update_expire id e (t_list s)
             else (id, e) :: t_list s in
    mkT l (earliest l) (t_log s ++ [ESet id e]).

(** libinput_timer_cancel, /repo/src/timer.c:122-131 *)
Definition timer_cancel (id : nat) (s : tstate) : tstate :=
  if in_list id (t_list s) then
    let l := remove_id id (t_list s) in
    mkT l (earliest l) (t_log s ++ [ECancel id])
  else mkT (t_list s) (t_next s) (t_log s ++ [ECancel id]).

Inductive tcmd := CSet (id : nat) (expire : Z) | CCancel (id : nat).
Definition do_cmd (s : tstate) (c : tcmd) : tstate :=
  match c with CSet id e => timer_set id e s | CCancel id => timer_cancel id s end.

Section Handler.
  Variable cb : list tev -> nat -> Z -> list tcmd.

  (** The first timer in the list that is due, /repo/src/timer.c:139-143. *)
  Fixpoint first_due (now : Z) (l : list (nat * Z)) : option nat :=
    match l with
    | [] => None
    | (i, e) :: r => if e <=? now then Some i else first_due now r
    end.

  (** One round of libinput_timer_handler, /repo/src/timer.c:138-157: find the
      first due timer, disarm it, call it; [None] when the loop ends. *)
  Definition handler_round (now : Z) (s : tstate) : option tstate :=
    match first_due now (t_list s) with
    | None => None
    | Some id =>
        let l := remove_id id (t_list s) in
        let s1 := mkT l (earliest l) (t_log s ++ [EFired id now]) in
        Some (fold_left do_cmd (cb (t_log s1) id now) s1)
    end.

  (** The goto loop, cut after [fuel] rounds: [None] means the loop is still
      running. *)
  Fixpoint handler (fuel : nat) (now : Z) (s : tstate) : option tstate :=
    match handler_round now s with
    | None => Some s
    | Some s' => match fuel with
                 | O => None
                 | S f => handler f now s'
                 end
    end.

  (** libinput_timer_flush, /repo/src/timer.c:237-245 *)
  Definition timer_flush (fuel : nat) (now : Z) (s : tstate) : option tstate :=
    if (t_next s =? 0) || (now <? t_next s) then Some s
    else handler fuel now s.

  (** What a program does: timer calls from outside callbacks, rounds of the
      handler at some time. *)
  Inductive top := TCmd (c : tcmd) | TRound (now : Z).
  Definition tstep (s : tstate) (o : top) : tstate :=
    match o with
    | TCmd c => do_cmd s c
    | TRound now => match handler_round now s with Some s' => s' | None => s end
    end.
  Definition trun (ops : list top) : tstate := fold_left tstep ops timer_init.
End Handler.
