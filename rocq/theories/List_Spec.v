(** A list head with its elements in order: from the head along [next] through
    all of them back to the head, and back along [prev]. *)
Require Import Coq.ZArith.ZArith Coq.Lists.List.
Require Import Verif.List_Model.
Import ListNotations.
Open Scope Z_scope.

(** [b] follows [a] in both directions. *)
Definition link (m : mem) (a b : Z) : Prop := next (m a) = b /\ prev (m b) = a.
Fixpoint chain (m : mem) (path : list Z) : Prop :=
  match path with
  | a :: (b :: _) as r => link m a b /\ chain m r
  | _ => True
  end.
Definition is_list (m : mem) (h : Z) (l : list Z) : Prop :=
  NoDup (h :: l) /\ ~ In 0 (h :: l) /\ chain m (h :: l ++ [h]).
(** A node in no list: zeroed or initialised. *)
Definition free_node (m : mem) (e : Z) : Prop :=
  e <> 0 /\ (next (m e) = 0 /\ prev (m e) = 0 \/ next (m e) = e /\ prev (m e) = e).
(** Memory outside [s] is untouched. *)
Definition same_outside (s : list Z) (m m' : mem) : Prop := forall x, ~ In x s -> m' x = m x.
