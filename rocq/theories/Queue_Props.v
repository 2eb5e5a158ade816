(** Property theorems C01 and C02. *)
Require Import Coq.Arith.Arith Coq.Lists.List.
Require Import Verif.Queue_Model Verif.Queue_Spec Verif.Queue_Proofs.
Import ListNotations.

(** C01: everything observable from any history of posts, gets and peeks is
    what a FIFO list gives. *)
Theorem queue_refines_fifo : forall (E : Type) (etype : E -> nat) (ops : list (op E)),
  snd (run E etype queue_init ops) = snd (fifo_run E etype fifo_init ops).
Proof. exact queue_refines_fifo_lemma. Qed.
Print Assumptions queue_refines_fifo.

(** C01: without allocation failures, what was posted is what was received
    followed by what is still queued, and draining hands out exactly that. *)
Theorem queue_no_loss : forall (E : Type) (etype : E -> nat) (ops : list (op E)),
  all_alloc_ok E ops ->
  exists pending,
    posted E ops = received E (snd (run E etype queue_init ops)) ++ pending /\
    snd (run E etype (fst (run E etype queue_init ops)) (repeat OpGet (length pending)))
      = map ObsEvent pending /\
    snd (step E etype
           (fst (run E etype (fst (run E etype queue_init ops)) (repeat OpGet (length pending))))
           OpGet) = ObsNull.
Proof. exact queue_no_loss_lemma. Qed.
Print Assumptions queue_no_loss.

(** C02 *)
Theorem peek_agrees_with_get : forall (E : Type) (etype : E -> nat) (ops : list (op E)),
  let q := fst (run E etype queue_init ops) in
  fst (step E etype q OpPeek) = q /\
  match snd (step E etype q OpGet) with
  | ObsNull => snd (step E etype q OpPeek) = ObsType 0
  | ObsEvent e => snd (step E etype q OpPeek) = ObsType (etype e)
  | _ => False
  end.
Proof. exact peek_agrees_lemma. Qed.
Print Assumptions peek_agrees_with_get.

(** C01: array indices stay inside the allocation. *)
Theorem queue_indices_in_bounds : forall (E : Type) (etype : E -> nat) (ops : list (op E)),
  let q := fst (run E etype queue_init ops) in
  q_out E q < q_len E q /\ q_in E q < q_len E q /\ q_count E q <= q_len E q.
Proof. exact queue_mem_safe_lemma. Qed.
Print Assumptions queue_indices_in_bounds.

(** A history that wraps, grows twice (once per growth branch) and drains. *)
Definition demo_ops : list (op nat) :=
  map (OpPost true) [1;2;3] ++ [OpGet; OpGet] ++ map (OpPost true) [4;5;6;7;8;9;10;11;12]
  ++ [OpPeek] ++ repeat OpGet 11.
Example queue_demo_hyp : all_alloc_ok nat demo_ops.
Proof. intros ok e H. simpl in H. repeat (destruct H as [H|H]; [inversion H; reflexivity|]). destruct H. Qed.
Example queue_demo :
  received nat (snd (run nat (fun n => n) queue_init demo_ops)) = [1;2;3;4;5;6;7;8;9;10;11;12]
  /\ q_len nat (fst (run nat (fun n => n) queue_init demo_ops)) = 16.
Proof. vm_compute. auto. Qed.
Example queue_demo_alloc_failure :
  received nat (snd (run nat (fun n => n) queue_init
     (map (OpPost true) [1;2;3;4] ++ [OpPost false 5] ++ repeat OpGet 5))) = [1;2;3;4].
Proof. vm_compute. auto. Qed.
