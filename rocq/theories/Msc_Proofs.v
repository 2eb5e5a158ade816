(** Proofs for C60. *)
From Coq Require Import ZArith List Bool Lia.
Import ListNotations.
From Verif Require Import Msc_Model Msc_Spec.
Open Scope Z_scope.

Lemma state_snoc : forall l n, state_after (l ++ [n]) = after (process (state_after l) n 0 []).
Proof. intros. unfold state_after. now rewrite fold_left_app. Qed.

Lemma after_any : forall m n now ts, after (process m n now ts) = after (process m n 0 []).
Proof.
  intros. unfold process. destruct (n =? 0); [reflexivity|].
  destruct (st m); try reflexivity. destruct (_ <? n); reflexivity.
Qed.

Lemma double : forall f, 0 < f <= 20000 -> (f * 2) mod U32 = 2 * f.
Proof. intros. unfold U32. rewrite Z.mod_small; lia. Qed.

(** The state after a zero, an interval and stamps that are no jump. *)
Lemma state_delay : forall between before f,
  0 < f <= 20000 -> (forall m, In m between -> 0 < m <= 2 * f) ->
  state_after (before ++ 0 :: f :: between) = {| st := EXPECT_DELAY; interval := f |}.
Proof.
  induction between as [|n l IH] using rev_ind; intros before f F B.
  - replace (before ++ [0; f]) with ((before ++ [0]) ++ [f]) by (rewrite <- app_assoc; reflexivity).
    rewrite !state_snoc. cbn -[LONG Z.ltb]. unfold process. cbn [st].
    replace (f =? 0) with false by (symmetry; apply Z.eqb_neq; lia).
    replace (LONG <? f) with false by (symmetry; apply Z.ltb_ge; unfold LONG; lia). reflexivity.
  - replace (before ++ 0 :: f :: l ++ [n]) with ((before ++ 0 :: f :: l) ++ [n])
      by (rewrite <- app_assoc; reflexivity).
    rewrite state_snoc, IH.
    2: assumption.
    2: intros m M; apply B, in_app_iff; auto.
    assert (N : 0 < n <= 2 * f) by (apply B, in_app_iff; cbn; auto).
    unfold process. cbn [st interval].
    replace (n =? 0) with false by (symmetry; apply Z.eqb_neq; lia).
    rewrite double by assumption.
    replace (2 * f <? n) with false by (symmetry; apply Z.ltb_ge; lia). reflexivity.
Qed.

(** ... and only after these. *)
Lemma state_inv : forall l, (forall n, In n l -> stamp_ok n) ->
  match st (state_after l) with
  | EXPECT_FIRST => exists before, l = before ++ [0]
  | EXPECT_DELAY => exists before f between,
      l = before ++ 0 :: f :: between /\ 0 < f <= 20000 /\
      (forall m, In m between -> 0 < m <= 2 * f) /\ interval (state_after l) = f
  | IGNORE => True
  end.
Proof.
  induction l as [|n l IH] using rev_ind; intros K; [exact I|].
  assert (KN : stamp_ok n) by (apply K, in_app_iff; cbn; auto). unfold stamp_ok in KN.
  specialize (IH ltac:(intros m M; apply K, in_app_iff; auto)).
  rewrite state_snoc. unfold process. destruct (n =? 0) eqn:Z.
  { apply Z.eqb_eq in Z. subst n. cbn. eauto. }
  apply Z.eqb_neq in Z.
  destruct (st (state_after l)) eqn:S; cbn [after].
  - rewrite S. exact I.
  - destruct (LONG <? n) eqn:L; cbn [st interval]; [exact I|].
    apply Z.ltb_ge in L. unfold LONG in L. destruct IH as [b ->].
    exists b, n, []. rewrite <- app_assoc. split; [reflexivity|]. split; [lia|]. split; [intros m []|reflexivity].
  - destruct IH as [b [f [m [E [F [M G]]]]]]. rewrite G, double by assumption.
    destruct (2 * f <? n) eqn:L; cbn [after st]; [exact I|]. rewrite S.
    apply Z.ltb_ge in L. exists b, f, (m ++ [n]). subst l.
    split; [rewrite <- app_assoc; reflexivity|]. split; [assumption|]. split; [|assumption].
    intros k H. apply in_app_iff in H. destruct H as [H|[<-|[]]]; [now apply M|lia].
Qed.

Lemma fix_nth : forall l now j f i k p,
  nth_error l k = Some p ->
  nth_error (fix_points now j f i l) k =
  Some {| time := (now - j - (f * (i + Z.of_nat k)) mod U32) mod U64; x := x p; y := y p |}.
Proof.
  induction l as [|q r IH]; intros now j f i [|k] p E; cbn in E; try discriminate.
  - injection E as ->. cbn [fix_points nth_error Z.of_nat]. now rewrite Z.add_0_r.
  - cbn [fix_points nth_error]. rewrite (IH _ _ _ _ _ _ E). do 2 f_equal.
    replace (i + 1 + Z.of_nat k) with (i + Z.of_nat (S k)) by lia. reflexivity.
Qed.

Lemma fix_length : forall l now j f i, length (fix_points now j f i l) = length l.
Proof. induction l; intros; cbn; [reflexivity|]. now rewrite IHl. Qed.
