(** C26: the linked lists every other part is built on. *)
Require Import Coq.ZArith.ZArith Coq.Lists.List Coq.Bool.Bool.
Require Import Verif.List_Model Verif.List_Spec Verif.List_Proofs.
Import ListNotations.
Open Scope Z_scope.

(** Initialising makes an empty list and touches nothing else. *)
Theorem list_init_empty : forall m h, h <> 0 -> is_list (list_init m h) h [] /\ same_outside [h] m (list_init m h).
Proof. exact init_spec. Qed.
Print Assumptions list_init_empty.

(** The emptiness test. *)
Theorem list_empty_iff : forall m h l, is_list m h l -> list_empty m h = Some (match l with [] => true | _ => false end).
Proof. exact empty_spec. Qed.
Print Assumptions list_empty_iff.

(** Inserting puts a free node first, appending puts it last; neither fails. *)
Theorem list_insert_first : forall m h l e, is_list m h l -> free_node m e -> ~ In e (h :: l) ->
  exists m', list_insert m h e = Some m' /\ is_list m' h (e :: l) /\ same_outside (e :: h :: l) m m'.
Proof. exact insert_spec. Qed.
Print Assumptions list_insert_first.
Theorem list_append_last : forall m h l e, is_list m h l -> free_node m e -> ~ In e (h :: l) ->
  exists m', list_append m h e = Some m' /\ is_list m' h (l ++ [e]) /\ same_outside (e :: h :: l) m m'.
Proof. exact append_spec. Qed.
Print Assumptions list_append_last.

(** Removing needs only the element; the rest keeps its order and the element
    is free again. *)
Theorem list_remove_element : forall m h l1 e l2, is_list m h (l1 ++ e :: l2) ->
  exists m', list_remove m e = Some m' /\ is_list m' h (l1 ++ l2) /\ next (m' e) = 0 /\ prev (m' e) = 0 /\
             same_outside (h :: l1 ++ e :: l2) m m'.
Proof. exact remove_spec. Qed.
Print Assumptions list_remove_element.

(** Operations on one list leave every list that shares no node with it alone. *)
Theorem list_others_unchanged : forall m m' s h l, same_outside s m m' -> (forall x, In x (h :: l) -> ~ In x s) ->
  is_list m h l -> is_list m' h l.
Proof. exact other_list. Qed.
Print Assumptions list_others_unchanged.

(** Adding a node that is in a list fails an assertion whatever the target;
    so does removing, testing or adding to a zeroed node. *)
Theorem list_misuse_caught : forall m h l g k x, is_list m h l -> In x l ->
  list_insert m g x = None /\ list_append m g x = None /\
  (next (m k) = 0 -> list_remove m k = None /\ list_empty m k = None /\ list_insert m k x = None).
Proof. exact misuse. Qed.
Print Assumptions list_misuse_caught.

(** Iterating visits the elements in order and ends. *)
Theorem list_for_each_visits : forall m h l fuel, is_list m h l -> (length l < fuel)%nat -> list_for_each fuel m h = Some l.
Proof. exact for_each_spec. Qed.
Print Assumptions list_for_each_visits.
(** So does the safe iteration while any set of elements is removed on the way;
    the others stay, in order. *)
Theorem list_for_each_safe_visits : forall del m h l fuel, is_list m h l -> (length l < fuel)%nat ->
  exists m', list_for_each_safe fuel del m h = Some (l, m') /\ is_list m' h (filter (fun x => negb (del x)) l) /\
    same_outside (h :: l) m m' /\ (forall x, In x l -> del x = true -> next (m' x) = 0 /\ prev (m' x) = 0).
Proof. exact for_each_safe_spec. Qed.
Print Assumptions list_for_each_safe_visits.

(** Two lists with three and one elements, built from zeroed memory. *)
Definition m0 : mem := fun _ => {| prev := 0; next := 0 |}.
Definition built : option mem :=
  let m := list_init (list_init m0 10) 20 in
  match list_append m 10 11 with Some m => match list_append m 10 12 with Some m => match list_insert m 10 13 with
  | Some m => list_append m 20 21 | None => None end | None => None end | None => None end.
Example built_ok : exists m, built = Some m /\ is_list m 10 [13; 11; 12] /\ is_list m 20 [21] /\ free_node m 14.
Proof.
  eexists. split; [reflexivity|]. split; [|split].
  - split; [repeat (constructor; [cbn; intuition discriminate|]); constructor|]. split; [cbn; intuition discriminate|]. cbn. repeat split; reflexivity.
  - split; [repeat (constructor; [cbn; intuition discriminate|]); constructor|]. split; [cbn; intuition discriminate|]. cbn. repeat split; reflexivity.
  - split; [discriminate|left; split; reflexivity].
Qed.
Example built_walk : match built with
  | Some m => (list_for_each 9 m 10, match list_for_each_safe 9 Z.odd m 10 with Some (v, m') => Some (v, list_for_each 9 m' 10, list_for_each 9 m' 20) | None => None end)
  | None => (None, None) end = (Some [13; 11; 12], Some ([13; 11; 12], Some [12], Some [21])).
Proof. reflexivity. Qed.
(** A plain iteration that removes the current element does not work: the
    zeroed node sends it to NULL. *)
Example plain_iteration_unsafe : match built with
  | Some m => match list_remove m 13 with Some m' => next (m' 13) | None => 1 end | None => 1 end = 0.
Proof. reflexivity. Qed.
