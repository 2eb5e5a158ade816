(** Model of the event queue of a libinput context.
    Models /repo/src/libinput.c:2923-3002 and the initialisation in
    libinput_init (/repo/src/libinput.c:1764-1806).

    Simplifications: [size_t] is [nat] (no overflow of the buffer size);
    the contents of the array behind [libinput->events] is a total function
    from indices to cells, with [None] for memory that was never written;
    the device reference taken per event is modelled in Refcount_Model.v. *)
Require Import Coq.Arith.Arith Coq.Bool.Bool Coq.Lists.List.
Import ListNotations.

Section Queue.
  (** The event type; only [etype] is ever inspected by the queue. *)
  Variable E : Type.
  Variable etype : E -> nat.

  (** struct libinput, fields events, events_len, events_count, events_in,
      events_out: /repo/src/libinput-private.h:134-139. *)
  Record queue := mkQueue {
    q_buf : nat -> option E;
    q_len : nat;
    q_count : nat;
    q_in : nat;
    q_out : nat
  }.

  (** libinput_init, /repo/src/libinput.c:1776-1777: events_len = 4, zalloc. *)
  Definition queue_init : queue := mkQueue (fun _ => None) 4 0 0 0.

  (** memmove(events + dst, events + src, n * sizeof *events), as used in
      /repo/src/libinput.c:2958-2960. *)
  Definition memmove (b : nat -> option E) (dst src n : nat) : nat -> option E :=
    fun i => if (dst <=? i) && (i <? dst + n) then b (src + (i - dst)) else b i.

  (** events[i] = e, /repo/src/libinput.c:2972. *)
  Definition store (b : nat -> option E) (i : nat) (e : E) : nat -> option E :=
    fun j => if j =? i then Some e else b j.

  (** The growth branch, /repo/src/libinput.c:2938-2966 (after realloc
      succeeded).  The first branch sets events_in to the *old* length. *)
  Definition grow (q : queue) : queue :=
    let new_len := q_len q * 2 in
    if (0 <? q_count q) && (q_in q =? 0) then
      mkQueue (q_buf q) new_len (q_count q) (q_len q) (q_out q)
    else if (0 <? q_count q) && (q_in q <=? q_out q) then
      let move_len := q_len q - q_out q in
      let new_out := new_len - move_len in
      mkQueue (memmove (q_buf q) new_out (q_out q) move_len)
              new_len (q_count q) (q_in q) new_out
    else
      mkQueue (q_buf q) new_len (q_count q) (q_in q) (q_out q).

  (** libinput_post_event, /repo/src/libinput.c:2923-2974.  [alloc_ok] is the
      success of realloc; on failure the function returns early and the event
      is dropped (lines 2943-2948). *)
  Definition post_event (alloc_ok : bool) (e : E) (q : queue) : queue :=
    let c := q_count q + 1 in
    if q_len q <? c then
      if alloc_ok then
        let g := grow q in
        mkQueue (store (q_buf g) (q_in g) e) (q_len g) c
                ((q_in g + 1) mod q_len g) (q_out g)
      else q
    else
      mkQueue (store (q_buf q) (q_in q) e) (q_len q) c
              ((q_in q + 1) mod q_len q) (q_out q).

  (** libinput_get_event, /repo/src/libinput.c:2976-2990.  The outer option is
      NULL / non-NULL; the inner one is the content of the cell, [None] being
      an uninitialised pointer. *)
  Definition get_event (q : queue) : option (option E) * queue :=
    if q_count q =? 0 then (None, q)
    else (Some (q_buf q (q_out q)),
          mkQueue (q_buf q) (q_len q) (q_count q - 1) (q_in q)
                  ((q_out q + 1) mod q_len q)).

  (** libinput_next_event_type, /repo/src/libinput.c:2992-3002; 0 is
      LIBINPUT_EVENT_NONE; the inner [None] is a read through an uninitialised
      pointer. *)
  Definition next_event_type (q : queue) : option nat :=
    if q_count q =? 0 then Some 0
    else match q_buf q (q_out q) with
         | Some e => Some (etype e)
         | None => None
         end.

  (** What a program can do with the queue: the library posts events, the
      caller gets them or peeks at the next type. *)
  Inductive op := OpPost (alloc_ok : bool) (e : E) | OpGet | OpPeek.

  (** What is observable from each operation. *)
  Inductive obs :=
  | ObsPosted
  | ObsNull
  | ObsEvent (e : E)
  | ObsType (t : nat)
  | ObsGarbage.   (** an uninitialised pointer was handed out or read *)

  Definition step (q : queue) (o : op) : queue * obs :=
    match o with
    | OpPost ok e => (post_event ok e q, ObsPosted)
    | OpGet => match get_event q with
               | (None, q') => (q', ObsNull)
               | (Some (Some e), q') => (q', ObsEvent e)
               | (Some None, q') => (q', ObsGarbage)
               end
    | OpPeek => (q, match next_event_type q with
                    | Some t => ObsType t
                    | None => ObsGarbage
                    end)
    end.

  Fixpoint run (q : queue) (ops : list op) : queue * list obs :=
    match ops with
    | [] => (q, [])
    | o :: os => let (q1, b) := step q o in
                 let (q2, bs) := run q1 os in
                 (q2, b :: bs)
    end.
End Queue.

Arguments queue_init {E}.
Arguments ObsPosted {E}.
Arguments ObsNull {E}.
Arguments ObsEvent {E} e.
Arguments ObsType {E} t.
Arguments ObsGarbage {E}.
Arguments OpPost {E} alloc_ok e.
Arguments OpGet {E}.
Arguments OpPeek {E}.
