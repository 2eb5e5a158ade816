(** What a user expects of the event queue: a FIFO list.  Written without
    reference to the ring buffer.  The only trace of the implementation is
    the capacity, needed to say when a failed allocation can matter: it
    starts at 4 and doubles when a successful post finds the queue full. *)
Require Import Coq.Arith.Arith Coq.Lists.List.
Require Import Verif.Queue_Model.
Import ListNotations.

Section Spec.
  Variable E : Type.
  Variable etype : E -> nat.

  Record fifo := mkFifo { f_items : list E; f_cap : nat }.

  Definition fifo_init : fifo := mkFifo [] 4.

  Definition fifo_step (f : fifo) (o : op E) : fifo * obs E :=
    match o with
    | OpPost ok e =>
        if length (f_items f) =? f_cap f then
          if ok then (mkFifo (f_items f ++ [e]) (f_cap f + f_cap f), ObsPosted)
          else (f, ObsPosted)
        else (mkFifo (f_items f ++ [e]) (f_cap f), ObsPosted)
    | OpGet =>
        match f_items f with
        | [] => (f, ObsNull)
        | e :: es => (mkFifo es (f_cap f), ObsEvent e)
        end
    | OpPeek =>
        (f, match f_items f with
            | [] => ObsType 0
            | e :: _ => ObsType (etype e)
            end)
    end.

  Fixpoint fifo_run (f : fifo) (ops : list (op E)) : fifo * list (obs E) :=
    match ops with
    | [] => (f, [])
    | o :: os => let (f1, b) := fifo_step f o in
                 let (f2, bs) := fifo_run f1 os in
                 (f2, b :: bs)
    end.

  (** The events posted, resp. received, in a history. *)
  Definition posted (ops : list (op E)) : list E :=
    flat_map (fun o => match o with OpPost _ e => [e] | _ => [] end) ops.
  Definition received (bs : list (obs E)) : list E :=
    flat_map (fun b => match b with ObsEvent e => [e] | _ => [] end) bs.
  Definition all_alloc_ok (ops : list (op E)) : Prop :=
    forall ok e, In (OpPost ok e) ops -> ok = true.
End Spec.

Arguments mkFifo {E}.
Arguments fifo_init {E}.
Arguments f_items {E}.
Arguments f_cap {E}.
