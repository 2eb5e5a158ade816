(** C09: timers fire when due, never early, never after being cancelled. *)
Require Import Coq.ZArith.ZArith Coq.Lists.List Coq.Bool.Bool Coq.Arith.Arith.
Require Import Verif.Timer_Model Verif.Timer_Spec Verif.Timer_Proofs.
Import ListNotations.
Open Scope Z_scope.

(** Whatever the program and the callbacks do, every firing is of a timer that
    was requested, not cancelled and not fired since, and whose requested
    expiry has been reached. *)
Theorem timer_fires_only_when_due :
  forall (cb : list tev -> nat -> Z -> list tcmd) (ops : list top),
    fires_only_when_due (t_log (trun cb ops)).
Proof. exact fires_due_lemma. Qed.
Print Assumptions timer_fires_only_when_due.

(** When a dispatch at [now] is over, no armed timer is due: none was missed,
    even those armed or changed by callbacks. *)
Theorem timer_dispatch_misses_none :
  forall cb ops fuel now s',
    handler cb fuel now (trun cb ops) = Some s' ->
    fires_only_when_due (t_log s') /\
    forall id e, armed (t_log s') id = Some e -> now < e.
Proof. exact handler_complete_lemma. Qed.
Print Assumptions timer_dispatch_misses_none.

(** The same for the flush done before each device event. *)
Theorem timer_flush_misses_none :
  forall cb ops fuel now s', now < UINT64_MAX ->
    timer_flush cb fuel now (trun cb ops) = Some s' ->
    forall id e, armed (t_log s') id = Some e -> now < e.
Proof. exact flush_complete_lemma. Qed.
Print Assumptions timer_flush_misses_none.

(** A dispatch ends, after at most as many rounds as there are armed timers,
    if callbacks only arm timers for later. *)
Theorem timer_dispatch_terminates :
  forall cb ops now,
    (forall log id c, In c (cb log id now) -> match c with CSet _ e => now < e | CCancel _ => True end) ->
    exists s', handler cb (length (t_list (trun cb ops))) now (trun cb ops) = Some s'.
Proof.
  exact (fun cb ops now H =>
    handler_terminates_lemma cb ops now
      (fun log id => proj2 (Forall_forall (future_cmd now) (cb log id now)) (H log id))).
Qed.
Print Assumptions timer_dispatch_terminates.

(** The wake-up programmed in the kernel is the earliest expiry of the armed
    timers (or none was ever programmed and none is armed). *)
Theorem timer_wakeup_is_earliest :
  forall cb ops, let s := trun cb ops in
    is_earliest (t_log s) (t_next s) \/
    (t_next s = 0 /\ forall id, armed (t_log s) id = None).
Proof. exact next_earliest_lemma. Qed.
Print Assumptions timer_wakeup_is_earliest.

(** Among the due timers the first one in the list fires first, ... *)
Theorem handler_fires_first_due :
  forall cb ops now s',
    handler_round cb now (trun cb ops) = Some s' ->
    exists l1 id e l2 rest, t_list (trun cb ops) = l1 ++ (id, e) :: l2 /\ e <= now /\
      (forall j x, In (j, x) l1 -> now < x) /\
      t_log s' = t_log (trun cb ops) ++ EFired id now :: rest.
Proof. exact round_order_lemma. Qed.
Print Assumptions handler_fires_first_due.

(** ... where a newly armed timer goes to the front and re-arming an armed one
    does not move it. *)
Theorem arming_order :
  forall cb ops id e, e <> 0 ->
    let s := trun cb ops in
    t_list (timer_set id e s) =
      match armed (t_log s) id with
      | None => (id, e) :: t_list s
      | Some _ => map (fun x => if (fst x =? id)%nat then (id, e) else x) (t_list s)
      end.
Proof. exact arm_position_lemma. Qed.
Print Assumptions arming_order.

(** Two timers; the callback of timer 1 cancels timer 2 and re-arms itself. *)
Definition demo_cb (log : list tev) (id : nat) (now : Z) : list tcmd :=
  if (id =? 1)%nat then [CCancel 2; CSet 1 (now + 50)] else [].
Example demo_cancel_in_callback :
  option_map (fun s => (t_log s, t_list s, t_next s))
    (handler demo_cb 3 100 (trun demo_cb [TCmd (CSet 2 100); TCmd (CSet 1 90); TCmd (CSet 3 200)]))
  = Some ([ESet 2 100; ESet 1 90; ESet 3 200; EFired 1 100; ECancel 2; ESet 1 150],
          [(1%nat, 150); (3%nat, 200)], 150).
Proof. reflexivity. Qed.
Example demo_hyp : forall log id c, In c (demo_cb log id 100) ->
  match c with CSet _ e => 100 < e | CCancel _ => True end.
Proof.
  intros log id c. unfold demo_cb. destruct (id =? 1)%nat; simpl; [|tauto].
  intros [<-|[<-|[]]]; [exact I|reflexivity].
Qed.
