(** C18, C20, C39: strings. *)
Require Import Coq.Strings.Ascii Coq.Strings.String Coq.ZArith.ZArith Coq.Lists.List Coq.Bool.Bool.
Require Import Verif.Str_Model Verif.Str_Spec Verif.Str_Proofs Verif.Str_Proofs2.
Import ListNotations.
Open Scope Z_scope.

(** C18, signed: a string is accepted exactly if it is an integer in the range
    of int, and the result is its value. *)
Theorem atoi_exact : forall base s v, base = 8 \/ base = 10 \/ base = 16 ->
  (safe_atoi_base base s = Some v <-> integer base s v /\ -2147483648 <= v <= 2147483647).
Proof. exact atoi_lemma. Qed.
Print Assumptions atoi_exact.

(** [integer] gives a string at most one value. *)
Theorem integer_unique : forall base s v w, base = 8 \/ base = 10 \/ base = 16 ->
  integer base s v -> integer base s w -> v = w.
Proof. exact integer_fun. Qed.
Print Assumptions integer_unique.

(** C18, unsigned: exactly what is accepted.  Missing for the full property:
    values that do not fit an unsigned int are accepted modulo 2^32, see
    [atou_range_refuted]. *)
Theorem atou_partial : forall base s v, base = 8 \/ base = 10 \/ base = 16 ->
  (safe_atou_base base s = Some v <->
   exists n, integer base s n /\ (0 <= n < 2^63 \/ - 2^64 < n < - 2^63) /\ v = n mod 2^32).
Proof. exact atou_lemma. Qed.
Print Assumptions atou_partial.

Lemma num1 : forall base c v, digit_value base c v -> numeral base [c] v.
Proof. intros. constructor. auto. Qed.
Ltac dv := split; [split; [discriminate|reflexivity]|first [left; reflexivity|right; reflexivity]].

(** C18 is false for unsigned numbers: 2^32 is accepted as 0, and so is a
    negative number as 1. *)
Theorem atou_range_refuted :
  safe_atou (S "4294967296") = Some 0 /\ integer 10 (S "4294967296") 4294967296 /\
  safe_atou (S "-18446744073709551615") = Some 1.
Proof.
  split; [vm_compute; reflexivity|]. split; [|vm_compute; reflexivity].
  exists [], [], 1, [], (S "4294967296"), 4294967296.
  split; [reflexivity|]. split; [constructor|]. split; [left; reflexivity|]. split; [left; reflexivity|]. split; [|reflexivity].
  apply dig_numeral; [right; left; reflexivity|discriminate|].
  repeat (eapply dig_cons; [vm_compute; reflexivity|]). cbn. constructor.
Qed.
Print Assumptions atou_range_refuted.

Example atoi_1 : safe_atoi (S " -42") = Some (-42). Proof. vm_compute. reflexivity. Qed.
Example atoi_2 : safe_atoi (S "42 ") = None. Proof. vm_compute. reflexivity. Qed.
Example atoi_3 : safe_atoi (S "2147483648") = None. Proof. vm_compute. reflexivity. Qed.
Example atoi_4 : safe_atou_base 16 (S "0xFf") = Some 255. Proof. vm_compute. reflexivity. Qed.
Example atoi_5 : safe_atou_base 16 (S "0x") = None. Proof. vm_compute. reflexivity. Qed.
Example integer_ex : integer 16 (S " +0x1f") 31.
Proof.
  exists (S " "), (S "+"), 1, (S "0x"), (S "1f"), 31.
  split; [reflexivity|]. split; [constructor; [left; reflexivity|constructor]|].
  split; [right; left; reflexivity|]. split; [right; left; reflexivity|]. split; [|reflexivity].
  apply (num_more 16 [("1")%char] 1 "f" 15); [constructor|]; dv.
Qed.

(** C20: splitting returns the maximal runs of non-separators, which are unique;
    NULL if there are none.  The loop always ends. *)
Theorem strv_splits : forall seps s, exists ws, splits seps s ws /\ (forall ws', splits seps s ws' -> ws' = ws) /\
  strv_from_string s seps = Some (match ws with [] => None | _ => Some ws end).
Proof. exact strv_lemma. Qed.
Print Assumptions strv_splits.

(** C20: joining and splitting again. *)
Theorem strv_roundtrip : forall seps j ws s, j <> [] -> all_in seps j ->
  Forall (fun w => w <> [] /\ none_in seps w) ws ->
  strv_join ws j = Some (Some s) -> strv_from_string s seps = Some (Some ws).
Proof. exact roundtrip_lemma. Qed.
Print Assumptions strv_roundtrip.
Example strv_ex : strv_join [S "one"; S "two"; S "three"] (S ", ") = Some (Some (S "one, two, three")) /\
  strv_from_string (S "one, two, three") (S " ,") = Some (Some [S "one"; S "two"; S "three"]).
Proof. split; vm_compute; reflexivity. Qed.
Example strv_hyp : S ", " <> [] /\ all_in (S " ,") (S ", ") /\
  Forall (fun w => w <> [] /\ none_in (S " ,") w) [S "one"; S "two"; S "three"].
Proof.
  split; [discriminate|]. split.
  - apply Forall_forall. intros c [<-|[<-|[]]]; cbn; auto.
  - repeat (apply Forall_cons; [split; [discriminate|apply Forall_forall]|]); [| | |constructor];
      intros c H D; cbn in H, D; repeat (destruct H as [H|H]; [subst c; destruct D as [D|[D|[]]]; discriminate D|]); contradiction.
Qed.

(** C39: stripping, prefix and suffix tests, file names. *)
Theorem strip_exact : forall s what, exists a b, s = a ++ strstrip s what ++ b /\ all_in what a /\ all_in what b /\
  (strstrip s what = [] \/
   (exists c r, strstrip s what = c :: r /\ ~ In c what) /\ exists k d, strstrip s what = k ++ [d] /\ ~ In d what).
Proof. exact strip_lemma. Qed.
Print Assumptions strip_exact.
Theorem startswith_exact : forall s p, strstartswith s p = true <-> p <> [] /\ exists r, s = p ++ r.
Proof. exact starts_lemma. Qed.
Print Assumptions startswith_exact.
Theorem endswith_exact : forall s p, strendswith s p = true <-> p <> [] /\ exists r, s = r ++ p.
Proof. exact ends_lemma. Qed.
Print Assumptions endswith_exact.
Theorem basename_exact : forall s b, safe_basename s = Some b <->
  b <> [] /\ ~ In slash b /\ (s = b \/ exists d, s = d ++ slash :: b).
Proof. exact basename_lemma. Qed.
Print Assumptions basename_exact.
Theorem trunkname_exact : forall s,
  (safe_basename s = None -> trunkname s = []) /\
  forall b, safe_basename s = Some b ->
    (~ In dot b -> trunkname s = b) /\
    (forall t e, b = t ++ dot :: e -> ~ In dot e -> trunkname s = t).
Proof. exact trunk_lemma. Qed.
Print Assumptions trunkname_exact.
Example names_ex : safe_basename (S "/usr/share/50-x.quirks") = Some (S "50-x.quirks") /\
  trunkname (S "/usr/share/50-x.a.quirks") = S "50-x.a" /\ trunkname (S "dir/") = [] /\
  strendswith (S "a.quirks") (S ".quirks") = true /\ strstrip (S "  [x ] ") (S " []") = S "x".
Proof. vm_compute. auto. Qed.
