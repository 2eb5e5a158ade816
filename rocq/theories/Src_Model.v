(** Model: the event sources of a context (libinput.c:151-155, 1728-1761,
    1844-1852, 2101-2132): files in an epoll set with a function to call, and
    libinput_dispatch.

    A source is an identity; its memory is gone once it is freed (memory that is
    handed out again is a new identity).  What the functions that are called do
    is arbitrary: any sequence of libinput_add_fd and libinput_remove_source,
    other effects are modelled elsewhere.  epoll_wait reports any of the files in
    the set, each at most once, at most 32.  The clock snapshot in
    libinput_dispatch is left out. *)
From Coq Require Import ZArith List Bool Arith.
Import ListNotations.

Definition id := nat.

(** struct libinput_source: its fd (libinput.c:151-155); [None]: freed or never
    allocated.  [epoll]: the sources in the epoll set.  [destroy]:
    libinput->source_destroy_list. *)
Record state := {
  heap : id -> option Z;
  epoll : list id;
  destroy : list id;
  next : id
}.

(** libinput_init, libinput.c:1784: no source yet *)
Definition init : state := {| heap := fun _ => None; epoll := []; destroy := []; next := 0 |}.

(** a write to a source's memory (modelling device) *)
Definition set (h : id -> option Z) (i : id) (v : option Z) : id -> option Z :=
  fun j => if Nat.eqb j i then v else h j.

(** What can be seen from outside: a source added or removed, its function
    called, its memory freed. *)
Inductive obs := Added (i : id) | Removed (i : id) | Called (i : id) | Freed (i : id).

(** What callers do.  [Add fd ok]: libinput_add_fd; [ok]: epoll_ctl succeeds. *)
Inductive op := Add (fd : Z) (ok : bool) | Remove (i : id).

(** [Misuse]: a caller removes what is no source any more.  [Bad_memory]: the
    library itself reads a source that is freed. *)
Inductive result (A : Type) := Ok (v : A) | Misuse | Bad_memory.
Arguments Ok {A} v.
Arguments Misuse {A}.
Arguments Bad_memory {A}.

(** libinput_add_fd, libinput.c:1728-1752: epoll_ctl refuses a negative fd *)
Definition add_fd (s : state) (fd : Z) (ok : bool) : state * list obs :=
  if ok && Z.leb 0 fd
  then ({| heap := set (heap s) (next s) (Some fd); epoll := epoll s ++ [next s];
           destroy := destroy s; next := S (next s) |}, [Added (next s)])
  else (s, []).

(** libinput_remove_source, libinput.c:1754-1761 *)
Definition remove_source (s : state) (i : id) : result (state * list obs) :=
  match heap s i with
  | None => Misuse
  | Some fd =>
      if Z.eqb fd (-1) then Misuse
      else Ok ({| heap := set (heap s) i (Some (-1)%Z);
                  epoll := remove Nat.eq_dec i (epoll s);
                  destroy := i :: destroy s; next := next s |}, [Removed i])
  end.

(** the two functions callers have, libinput.c:1728-1761 *)
Definition do_op (s : state) (o : op) : result (state * list obs) :=
  match o with
  | Add fd ok => Ok (add_fd s fd ok)
  | Remove i => remove_source s i
  end.

(** what a called function does, one after the other (libinput.c:2125) *)
Fixpoint do_ops (s : state) (l : list op) : result (state * list obs) :=
  match l with
  | [] => Ok (s, [])
  | o :: r =>
      match do_op s o with
      | Ok (s1, t1) =>
          match do_ops s1 r with
          | Ok (s2, t2) => Ok (s2, t1 ++ t2)
          | Misuse => Misuse
          | Bad_memory => Bad_memory
          end
      | Misuse => Misuse
      | Bad_memory => Bad_memory
      end
  end.

(** The loop of libinput_dispatch, libinput.c:2120-2126; [does] is what each
    source's function does when it is called *)
Fixpoint loop (s : state) (ready : list id) (does : id -> list op) : result (state * list obs) :=
  match ready with
  | [] => Ok (s, [])
  | i :: r =>
      match heap s i with
      | None => Bad_memory
      | Some fd =>
          if Z.eqb fd (-1) then loop s r does
          else
            match do_ops s (does i) with
            | Ok (s1, t1) =>
                match loop s1 r does with
                | Ok (s2, t2) => Ok (s2, Called i :: t1 ++ t2)
                | Misuse => Misuse
                | Bad_memory => Bad_memory
                end
            | Misuse => Misuse
            | Bad_memory => Bad_memory
            end
      end
  end.

(** libinput_drop_destroyed_sources, libinput.c:1844-1852 *)
Definition drop_destroyed (s : state) : state * list obs :=
  ({| heap := fold_left (fun h i => set h i None) (destroy s) (heap s);
      epoll := epoll s; destroy := []; next := next s |}, map Freed (destroy s)).

(** libinput_dispatch, libinput.c:2101-2132, on what epoll_wait reports; [None]
    for a report: it fails *)
Definition dispatch (s : state) (report : option (list id)) (does : id -> list op)
    : result (state * list obs) :=
  match report with
  | None => Ok (s, [])
  | Some ready =>
      match loop s ready does with
      | Ok (s1, t1) => let '(s2, t2) := drop_destroyed s1 in Ok (s2, t1 ++ t2)
      | Misuse => Misuse
      | Bad_memory => Bad_memory
      end
  end.

(** What can happen to a context: a call outside libinput_dispatch (suspending,
    adding or removing devices), or libinput_dispatch. *)
Inductive action :=
| Do (o : op)
| Dispatch (report : option (list id)) (does : id -> list op).

(** one thing that happens (libinput.c:1728-1761, 2101-2132) *)
Definition act (s : state) (a : action) : result (state * list obs) :=
  match a with
  | Do o => do_op s o
  | Dispatch report does => dispatch s report does
  end.

(** What the kernel may report: files in the set, each once, 32 at most. *)
Definition possible (s : state) (a : action) : Prop :=
  match a with
  | Dispatch (Some ready) _ => NoDup ready /\ incl ready (epoll s) /\ length ready <= 32
  | _ => True
  end.

(** [history s l s' t]: from [s] the actions [l] lead to [s'] with the
    observations [t], all of them possible and none a misuse. *)
Inductive history : state -> list action -> state -> list obs -> Prop :=
| h_nil : forall s, history s [] s []
| h_cons : forall s a s1 t1 l s2 t2,
    possible s a -> act s a = Ok (s1, t1) -> history s1 l s2 t2 ->
    history s (a :: l) s2 (t1 ++ t2).
