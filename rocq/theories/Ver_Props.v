(** C28: version ordering of file names. *)
Require Import Coq.ZArith.ZArith Coq.Lists.List Coq.micromega.Lia.
Require Import Verif.Ver_Model Verif.Ver_Spec Verif.Ver_Proofs.
Import ListNotations.
Open Scope Z_scope.

(** Zero exactly for equal strings. *)
Theorem ver_zero : forall l r, bytes l -> bytes r -> (strverscmp l r = 0 <-> l = r).
Proof. exact zero_lemma. Qed.
Print Assumptions ver_zero.
(** Swapping the strings swaps the sign. *)
Theorem ver_antisymmetric : forall l r, bytes l -> bytes r -> (strverscmp l r < 0 <-> 0 < strverscmp r l).
Proof. exact anti_lemma. Qed.
Print Assumptions ver_antisymmetric.
(** Transitive, so sorting by it is well defined. *)
Theorem ver_transitive : forall a b c, bytes a -> bytes b -> bytes c ->
  strverscmp a b < 0 -> strverscmp b c < 0 -> strverscmp a c < 0.
Proof. exact trans_lemma. Qed.
Print Assumptions ver_transitive.
(** After a common prefix the numbers decide: the smaller number first, however
    many digits each has and whatever follows. *)
Theorem ver_numeric : forall p d1 d2 t1 t2, bytes (p ++ d1 ++ t1) -> bytes (p ++ d2 ++ t2) -> no_digit_first (rev p) ->
  number d1 -> number d2 -> d1 <> [] -> no_digit_first t1 -> no_digit_first t2 -> value d1 < value d2 ->
  strverscmp (p ++ d1 ++ t1) (p ++ d2 ++ t2) < 0.
Proof. exact numeric_lemma. Qed.
Print Assumptions ver_numeric.
(** Where no digit is involved it is the byte order, a prefix first. *)
Theorem ver_plain : forall p c d t1 t2, bytes (p ++ c :: t1) -> bytes (p ++ d :: t2) -> no_digit_first (rev p) ->
  ~ digit c -> ~ digit d -> c < d ->
  strverscmp (p ++ c :: t1) (p ++ d :: t2) < 0 /\ strverscmp p (p ++ d :: t2) < 0.
Proof. exact plain_lemma. Qed.
Print Assumptions ver_plain.
(** strverscmp(3) compares byte by byte unless both strings have a digit where
    they differ or the digits before are a common number.  This function puts a
    non-zero digit after every non-digit instead: "a1" after "ab", although '1'
    is before 'b'. *)
Theorem ver_digit_refuted : exists p c d, bytes (p ++ [c]) /\ bytes (p ++ [d]) /\ no_digit_first (rev p) /\ ~ digit d /\ c < d /\
  0 < strverscmp (p ++ [c]) (p ++ [d]).
Proof.
  exists [97], 49, 98. split; [repeat (constructor; [lia|]); constructor|]. split; [repeat (constructor; [lia|]); constructor|].
  split; [cbn; unfold digit; lia|]. split; [unfold digit; lia|]. split; [lia|]. reflexivity.
Qed.
Print Assumptions ver_digit_refuted.

(** "10-a.quirks" before "9-b.quirks"?  No: 9 before 10. *)
Example ver_files : number [49; 48] /\ number [57] /\ value [57] < value [49; 48] /\ no_digit_first [45; 97] /\
  strverscmp ([] ++ [57] ++ [45; 98]) ([] ++ [49; 48] ++ [45; 97]) = -1 /\ strverscmp [97; 48; 49] [97; 48] = -207.
Proof.
  split; [split; [repeat (constructor; [unfold digit; lia|]); constructor|cbn; lia]|].
  split; [split; [repeat (constructor; [unfold digit; lia|]); constructor|cbn; lia]|].
  split; [reflexivity|]. split; [cbn; unfold digit; lia|]. split; reflexivity.
Qed.
