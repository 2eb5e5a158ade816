(** C27: bit arrays. *)
Require Import Coq.ZArith.ZArith Coq.Lists.List Coq.Bool.Bool Coq.micromega.Lia.
Require Import Verif.Bits_Model Verif.Bits_Spec Verif.Bits_Proofs.
Import ListNotations.
Open Scope Z_scope.

(** A test reads exactly the bit asked for. *)
Theorem bits_test : forall W, 0 < W -> forall a b, in_array W a b -> bit_is_set W a b = Some (member W a b).
Proof. exact test_lemma. Qed.
Print Assumptions bits_test.
(** Setting, clearing or assigning changes that bit and no other. *)
Theorem bits_set : forall W, 0 < W -> forall a b, in_array W a b -> Forall (word_ok W) a ->
  exists a', set_bit W a b = Some a' /\ length a' = length a /\ Forall (word_ok W) a' /\
    forall c, in_array W a c -> member W a' c = if c =? b then true else member W a c.
Proof. exact set_lemma. Qed.
Print Assumptions bits_set.
Theorem bits_clear : forall W, 0 < W -> forall a b, in_array W a b -> Forall (word_ok W) a ->
  exists a', clear_bit W a b = Some a' /\ length a' = length a /\ Forall (word_ok W) a' /\
    forall c, in_array W a c -> member W a' c = if c =? b then false else member W a c.
Proof. exact clear_lemma. Qed.
Print Assumptions bits_clear.
Theorem bits_state : forall W, 0 < W -> forall a b st, in_array W a b -> Forall (word_ok W) a ->
  exists a', set_bit_state W a b st = Some a' /\ length a' = length a /\ Forall (word_ok W) a' /\
    forall c, in_array W a c -> member W a' c = if c =? b then negb (st =? 0) else member W a c.
Proof. exact state_lemma. Qed.
Print Assumptions bits_state.
Example bits_ex : in_array 8 [255; 0] 9 /\ Forall (word_ok 8) [255; 0] /\ set_bit 8 [255; 0] 9 = Some [255; 2] /\
  clear_bit 8 [255; 0] 7 = Some [127; 0] /\ bit_is_set 64 [0; 2^63] 127 = Some true /\ set_bit_state 64 [0] 5 1 = Some [32].
Proof. split; [unfold in_array; cbn; lia|]. split; [repeat constructor; unfold word_ok; lia|]. vm_compute. auto. Qed.

(** Any bit set: exactly if one of the first [size] words has a member. *)
Theorem bits_any : forall W, 0 < W -> forall a size, Forall (word_ok W) a -> (0 < size <= length a)%nat ->
  exists v, any_bit_set a size = Some v /\ (v = true <-> exists b, 0 <= b < W * Z.of_nat size /\ member W a b = true).
Proof. exact any_lemma. Qed.
Print Assumptions bits_any.
Example bits_any_ex : any_bit_set [0; 4] 1 = Some false /\ any_bit_set [0; 4] 2 = Some true.
Proof. vm_compute. auto. Qed.

(** Only an index outside the array goes wrong. *)
Theorem bits_out_of_bounds : forall W, 0 < W -> forall a b, ~ in_array W a b ->
  bit_is_set W a b = None /\ set_bit W a b = None /\ clear_bit W a b = None.
Proof. exact oob_lemma. Qed.
Print Assumptions bits_out_of_bounds.
Example bits_oob_ex : ~ in_array 8 [0] 8.
Proof. unfold in_array. cbn. lia. Qed.

(** An array of NLONGS(x) words holds x bits and wastes less than a word. *)
Theorem bits_size : forall W, 0 < W -> forall x, 0 <= x -> x <= nwords W x * W < x + W.
Proof. exact nwords_lemma. Qed.
Print Assumptions bits_size.
Example bits_size_ex : nwords 64 768 = 12 /\ nwords 64 769 = 13 /\ nwords 8 0 = 0.
Proof. vm_compute. auto. Qed.
