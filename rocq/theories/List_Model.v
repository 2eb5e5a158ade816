(** Doubly linked lists, /repo/src/util-list.c and /repo/src/util-list.h, over a
    memory of list nodes.  An address is an integer, 0 is NULL.  Every non-NULL
    address holds a node (prev, next); following NULL cannot happen once the
    assertions hold, see the theorems.  [None]: an assertion fails. *)
Require Import Coq.ZArith.ZArith Coq.Lists.List Coq.Bool.Bool.
Import ListNotations.
Open Scope Z_scope.

(** struct list, /repo/src/util-list.h:61-64 *)
Record node := { prev : Z; next : Z }.
Definition mem := Z -> node.
Definition store (m : mem) (a : Z) (n : node) : mem := fun x => if x =? a then n else m x.
Definition set_prev (m : mem) (a v : Z) : mem := store m a {| prev := v; next := next (m a) |}.
Definition set_next (m : mem) (a v : Z) : mem := store m a {| prev := prev (m a); next := v |}.

(** list_init, /repo/src/util-list.c:34-39 *)
Definition list_init (m : mem) (l : Z) : mem := set_next (set_prev m l l) l l.
(** the first assertion *)
Definition linked (m : mem) (l : Z) : bool := negb (next (m l) =? 0) && negb (prev (m l) =? 0).
(** list_empty, /repo/src/util-list.c:81-88 *)
Definition list_empty (m : mem) (l : Z) : option bool := if linked m l then Some (next (m l) =? l) else None.
(** the second assertion: the node is in no list *)
Definition unused (m : mem) (e : Z) : bool :=
  ((next (m e) =? 0) && (prev (m e) =? 0)) || (match list_empty m e with Some b => b | None => false end).
(** list_insert, /repo/src/util-list.c:41-53 *)
Definition list_insert (m : mem) (l e : Z) : option mem :=
  if linked m l && unused m e then
    let m1 := set_prev m e l in
    let m2 := set_next m1 e (next (m1 l)) in
    let m3 := set_next m2 l e in
    Some (set_prev m3 (next (m3 e)) e)
  else None.
(** list_append, /repo/src/util-list.c:55-67 *)
Definition list_append (m : mem) (l e : Z) : option mem :=
  if linked m l && unused m e then
    let m1 := set_next m e l in
    let m2 := set_prev m1 e (prev (m1 l)) in
    let m3 := set_prev m2 l e in
    Some (set_next m3 (prev (m3 e)) e)
  else None.
(** list_remove, /repo/src/util-list.c:69-79 *)
Definition list_remove (m : mem) (e : Z) : option mem :=
  if linked m e then
    let m1 := set_next m (prev (m e)) (next (m e)) in
    let m2 := set_prev m1 (next (m1 e)) (prev (m1 e)) in
    let m3 := set_next m2 e 0 in
    Some (set_prev m3 e 0)
  else None.

(** list_for_each, /repo/src/util-list.h:174-177: the nodes visited; [None]: still going when
    the fuel is used up *)
Fixpoint for_each (fuel : nat) (m : mem) (head pos : Z) : option (list Z) :=
  match fuel with
  | O => None
  | S f => if pos =? head then Some []
           else match for_each f m head (next (m pos)) with Some l => Some (pos :: l) | None => None end
  end.
Definition list_for_each (fuel : nat) (m : mem) (head : Z) : option (list Z) := for_each fuel m head (next (m head)).

(** list_for_each_safe, /repo/src/util-list.h:191-196, whose body removes the node if [del] says
    so: the nodes visited and the final memory.  [tmp] is read before the body
    runs. *)
Fixpoint for_each_safe (fuel : nat) (del : Z -> bool) (m : mem) (head pos tmp : Z) : option (list Z * mem) :=
  match fuel with
  | O => None
  | S f => if pos =? head then Some ([], m)
           else match (if del pos then list_remove m pos else Some m) with
           | None => None
           | Some m1 => match for_each_safe f del m1 head tmp (next (m1 tmp)) with
                        | Some (l, m2) => Some (pos :: l, m2)
                        | None => None
                        end
           end
  end.
Definition list_for_each_safe (fuel : nat) (del : Z -> bool) (m : mem) (head : Z) : option (list Z * mem) :=
  for_each_safe fuel del m head (next (m head)) (next (m (next (m head)))).
