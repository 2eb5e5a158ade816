(** Proofs for C59. *)
From Coq Require Import ZArith Bool Lia.
From Verif Require Import Thr_Model Thr_Spec.
Open Scope Z_scope.

(** Truncation: towards zero, by less than one. *)
Lemma quot_bounds : forall n d, 0 < d -> n - d < d * Z.quot n d < n + d.
Proof.
  intros n d H. pose proof (Z.quot_rem' n d) as E. pose proof (Z.rem_bound_abs n d) as B.
  assert (Z.abs (Z.rem n d) < Z.abs d) by (apply B; lia). lia.
Qed.

(** An integer is below (above) a truncated number only if it is below (above)
    the number itself. *)
Lemma below_quot : forall x n d, 0 < d -> x < Z.quot n d -> d * x < n.
Proof.
  intros x n d H L. pose proof (Z.quot_rem' n d) as E. pose proof (Z.rem_bound_abs n d) as B.
  assert (Z.abs (Z.rem n d) < Z.abs d) by (apply B; lia). nia.
Qed.

Lemma above_quot : forall x n d, 0 < d -> Z.quot n d < x -> n < d * x.
Proof.
  intros x n d H L. pose proof (Z.quot_rem' n d) as E. pose proof (Z.rem_bound_abs n d) as B.
  assert (Z.abs (Z.rem n d) < Z.abs d) by (apply B; lia). nia.
Qed.

(** ... and a point a whole unit below (above) the number is below (above). *)
Lemma quot_below : forall x n d, 0 < d -> d * (x + 1) <= n -> x < Z.quot n d.
Proof. intros x n d H L. pose proof (quot_bounds n d H). nia. Qed.

Lemma quot_above : forall x n d, 0 < d -> n <= d * (x - 1) -> Z.quot n d < x.
Proof. intros x n d H L. pose proof (quot_bounds n d H). nia. Qed.

Lemma percent_bounds : forall a n, 0 <= n <= 100 -> amin a <= amax a ->
  amin a <= percent a n <= amax a /\ Z.abs (100 * (percent a n - amin a) - n * (amax a - amin a)) < 100.
Proof.
  intros a n Hn Ha. unfold percent, range.
  set (q := Z.quot (100 * amin a + n * (amax a - amin a)) 100).
  pose proof (quot_bounds (100 * amin a + n * (amax a - amin a)) 100 ltac:(lia)) as B. fold q in B.
  split; [|lia].
  split.
  - apply Z.nlt_ge. intros L. unfold q in L. apply above_quot in L; [|lia]. nia.
  - apply Z.nlt_ge. intros L. unfold q in L. apply below_quot in L; [|lia]. nia.
Qed.

Lemma quot_mono : forall a b d, 0 < d -> a <= b -> Z.quot a d <= Z.quot b d.
Proof. intros. now apply Z.quot_le_mono. Qed.

Lemma to_units_sane : forall a n, 0 < ares a ->
  to_units a n (100 * ares a) = Z.quot (n + 100 * amin a) 100.
Proof.
  intros a n H. unfold to_units.
  replace (n * ares a + 100 * ares a * amin a) with ((n + 100 * amin a) * ares a) by ring.
  apply Z.quot_mul_cancel_r; lia.
Qed.
