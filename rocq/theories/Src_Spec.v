(** Specification for C58, on what can be seen: which sources are added, removed,
    called and freed, in which order. *)
From Coq Require Import List.
Import ListNotations.
From Verif Require Import Src_Model.

(** [before a b t]: somewhere in [t], [a] comes before [b]. *)
Definition before (a b : obs) (t : list obs) : Prop :=
  exists t1 t2 t3, t = t1 ++ a :: t2 ++ b :: t3.

(** The sources called in [t], in order. *)
Fixpoint calls (t : list obs) : list id :=
  match t with
  | [] => []
  | Called i :: r => i :: calls r
  | _ :: r => calls r
  end.

(** [l] is [m] with some left out. *)
Inductive sublist : list id -> list id -> Prop :=
| sub_nil : sublist [] []
| sub_skip : forall x l m, sublist l m -> sublist l (x :: m)
| sub_keep : forall x l m, sublist l m -> sublist (x :: l) (x :: m).
