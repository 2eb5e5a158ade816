Require Import Coq.ZArith.ZArith Coq.Lists.List Coq.Bool.Bool Coq.micromega.Lia.
Require Import Verif.Bits_Model Verif.Bits_Spec.
Import ListNotations.
Open Scope Z_scope.

Lemma mask_spec : forall W b n, 0 < W -> 0 <= b -> 0 <= n -> Z.testbit (mask W b) n = (n =? b mod W).
Proof.
  intros W b n HW HB HN. unfold mask. rewrite Z.shiftl_1_l. pose proof (Z.mod_pos_bound b W HW).
  destruct (Z.eqb_spec n (b mod W)) as [->|NE].
  - apply Z.pow2_bits_true. lia.
  - apply Z.pow2_bits_false. lia.
Qed.
Lemma update_ok : forall a i f x, nth_error a i = Some x -> exists a', update a i f = Some a' /\ length a' = length a /\
  nth_error a' i = Some (f x) /\ forall j, j <> i -> nth_error a' j = nth_error a j.
Proof.
  induction a as [|y a IH]; intros [|i] f x H; cbn in *; try discriminate.
  - injection H as <-. exists (f y :: a). repeat split; auto. intros [|j] HJ; [congruence|reflexivity].
  - destruct (IH i f x H) as (a' & -> & L & N & O). exists (y :: a'). repeat split; cbn; auto.
    intros [|j] HJ; auto. cbn. apply O. congruence.
Qed.
Lemma update_none : forall a i f, nth_error a i = None -> update a i f = None.
Proof. induction a as [|y a IH]; intros [|i] f H; cbn in *; auto; [discriminate|]. rewrite IH; auto. Qed.
Lemma word_in : forall W a b, 0 < W -> in_array W a b -> exists x, nth_error a (word W b) = Some x.
Proof.
  intros W a b HW [H0 H1]. unfold word. destruct (nth_error a (Z.to_nat (b / W))) eqn:E; eauto.
  apply nth_error_None in E. exfalso. assert (b / W < Z.of_nat (length a)) by (apply Z.div_lt_upper_bound; lia).
  pose proof (Z.div_pos b W H0 HW). lia.
Qed.
Lemma word_out : forall W a b, 0 < W -> 0 <= b -> ~ in_array W a b -> nth_error a (word W b) = None.
Proof.
  intros W a b HW HB H. apply nth_error_None. unfold word. unfold in_array in H.
  assert (Z.of_nat (length a) <= b / W) by (apply Z.div_le_lower_bound; lia). lia.
Qed.

Section Ops.
Variable W : Z.
Hypothesis HW : 0 < W.

Lemma fits_bits : forall x n, word_ok W x -> W <= n -> Z.testbit x n = false.
Proof.
  intros x n [H0 H1] HN. destruct (Z.eq_dec x 0) as [->|NZ]; [apply Z.bits_0|].
  apply Z.bits_above_log2; [lia|]. assert (Z.log2 x < W) by (apply Z.log2_lt_pow2; lia). lia.
Qed.
Lemma test_lemma : forall a b, in_array W a b -> bit_is_set W a b = Some (member W a b).
Proof.
  intros a b HI. destruct (word_in W a b HW HI) as (x & E). unfold bit_is_set.
  replace (b <? 0) with false by (symmetry; apply Z.ltb_ge; destruct HI; lia). rewrite E. f_equal.
  unfold member. replace (nth (Z.to_nat (b / W)) a 0) with x by (symmetry; apply nth_error_nth; exact E).
  pose proof (Z.mod_pos_bound b W HW). destruct HI as [HB _].
  destruct (Z.testbit x (b mod W)) eqn:T.
  - apply negb_true_iff. apply Z.eqb_neq. intros Z0. assert (G : Z.testbit (Z.land x (mask W b)) (b mod W) = true).
    { rewrite Z.land_spec, T, mask_spec by lia. rewrite Z.eqb_refl. reflexivity. }
    rewrite Z0, Z.bits_0 in G. discriminate.
  - apply negb_false_iff. apply Z.eqb_eq. apply Z.bits_inj'. intros n Hn. rewrite Z.land_spec, Z.bits_0, mask_spec by lia.
    destruct (Z.eqb_spec n (b mod W)) as [->|]; [rewrite T; auto|apply andb_false_r].
Qed.
Lemma oob_lemma : forall a b, ~ in_array W a b -> bit_is_set W a b = None /\ set_bit W a b = None /\ clear_bit W a b = None.
Proof.
  intros a b H. unfold bit_is_set, set_bit, clear_bit. destruct (Z.ltb_spec b 0); auto.
  pose proof (word_out W a b HW ltac:(lia) H) as E. rewrite E, !update_none by auto. auto.
Qed.

Lemma change_lemma : forall (f : Z -> Z) v a b, in_array W a b -> Forall (word_ok W) a ->
  (forall x, word_ok W x -> word_ok W (f x) /\ forall n, 0 <= n < W -> Z.testbit (f x) n = if n =? b mod W then v else Z.testbit x n) ->
  exists a', update a (word W b) f = Some a' /\ length a' = length a /\ Forall (word_ok W) a' /\
    forall c, in_array W a c -> member W a' c = if c =? b then v else member W a c.
Proof.
  intros f v a b HI HF Hf. destruct (word_in W a b HW HI) as (x & E). destruct (update_ok a (word W b) f x E) as (a' & U & L & N & O).
  assert (HX : word_ok W x) by (rewrite Forall_forall in HF; apply HF; eapply nth_error_In; eauto). destruct (Hf x HX) as [F1 F2].
  exists a'. split; auto. split; auto. split.
  - apply Forall_forall. intros y IY. apply In_nth_error in IY. destruct IY as (j & EJ). destruct (Nat.eq_dec j (word W b)) as [->|NJ].
    + rewrite N in EJ. injection EJ as <-. auto.
    + rewrite O in EJ by auto. rewrite Forall_forall in HF. apply HF. eapply nth_error_In; eauto.
  - intros c HC. unfold member. pose proof (Z.mod_pos_bound c W HW). pose proof (Z.mod_pos_bound b W HW). destruct HI as [HB HB'], HC as [HC HC'].
    pose proof (Z.div_pos b W HB HW). pose proof (Z.div_pos c W HC HW).
    destruct (Nat.eq_dec (Z.to_nat (c / W)) (word W b)) as [EW|NW].
    + rewrite EW. rewrite (nth_error_nth a' _ 0 N), (nth_error_nth a _ 0 E). rewrite F2 by lia.
      unfold word in EW. assert (c / W = b / W) by lia.
      destruct (Z.eqb_spec (c mod W) (b mod W)) as [EM|NM].
      * replace (c =? b) with true; auto. symmetry. apply Z.eqb_eq. rewrite (Z.div_mod c W), (Z.div_mod b W) by lia. congruence.
      * replace (c =? b) with false; auto. symmetry. apply Z.eqb_neq. congruence.
    + replace (c =? b) with false by (symmetry; apply Z.eqb_neq; intros ->; apply NW; reflexivity).
      f_equal. pose proof (O _ NW) as OO.
      destruct (nth_error a (Z.to_nat (c / W))) eqn:EA.
      * rewrite (nth_error_nth a' _ 0 OO), (nth_error_nth a _ 0 EA). reflexivity.
      * apply nth_error_None in EA, OO. rewrite !nth_overflow by auto. reflexivity.
Qed.
Lemma mod_ok : forall x, word_ok W (x mod 2 ^ W).
Proof. intros x. apply Z.mod_pos_bound. apply Z.pow_pos_nonneg; lia. Qed.

Lemma set_lemma : forall a b, in_array W a b -> Forall (word_ok W) a ->
  exists a', set_bit W a b = Some a' /\ length a' = length a /\ Forall (word_ok W) a' /\
    forall c, in_array W a c -> member W a' c = if c =? b then true else member W a c.
Proof.
  intros a b HI HF. unfold set_bit. replace (b <? 0) with false by (symmetry; apply Z.ltb_ge; destruct HI; lia).
  apply change_lemma; auto. intros x HX. split; [apply mod_ok|]. intros n Hn.
  rewrite Z.mod_pow2_bits_low by lia. rewrite Z.lor_spec, mask_spec by (destruct HI; lia).
  destruct (n =? b mod W); auto using orb_true_r, orb_false_r.
Qed.
Lemma clear_lemma : forall a b, in_array W a b -> Forall (word_ok W) a ->
  exists a', clear_bit W a b = Some a' /\ length a' = length a /\ Forall (word_ok W) a' /\
    forall c, in_array W a c -> member W a' c = if c =? b then false else member W a c.
Proof.
  intros a b HI HF. unfold clear_bit. replace (b <? 0) with false by (symmetry; apply Z.ltb_ge; destruct HI; lia).
  apply change_lemma; auto. intros x HX. split; [apply mod_ok|]. intros n Hn.
  rewrite Z.mod_pow2_bits_low by lia. rewrite Z.land_spec, Z.lnot_spec, mask_spec by (destruct HI; lia).
  destruct (n =? b mod W); auto using andb_false_r, andb_true_r.
Qed.
Lemma state_lemma : forall a b st, in_array W a b -> Forall (word_ok W) a ->
  exists a', set_bit_state W a b st = Some a' /\ length a' = length a /\ Forall (word_ok W) a' /\
    forall c, in_array W a c -> member W a' c = if c =? b then negb (st =? 0) else member W a c.
Proof.
  intros a b st HI HF. unfold set_bit_state. destruct (st =? 0); [apply clear_lemma|apply set_lemma]; auto.
Qed.

Lemma word_zero : forall x, word_ok W x -> (x <> 0 <-> exists n, 0 <= n < W /\ Z.testbit x n = true).
Proof.
  intros x HX. split.
  - intros NZ. destruct HX as [H0 H1]. exists (Z.log2 x). split; [split; [apply Z.log2_nonneg|apply Z.log2_lt_pow2; lia]|].
    apply Z.bit_log2. lia.
  - intros (n & _ & T) ->. rewrite Z.bits_0 in T. discriminate.
Qed.
Lemma any_lemma : forall a size, Forall (word_ok W) a -> (0 < size <= length a)%nat ->
  exists v, any_bit_set a size = Some v /\ (v = true <-> exists b, 0 <= b < W * Z.of_nat size /\ member W a b = true).
Proof.
  intros a size HF HS.
  assert (G : exists v, any_loop a size = Some v /\ (v = true <-> exists i x, (i < size)%nat /\ nth_error a i = Some x /\ x <> 0)).
  { assert (HS' : (size <= length a)%nat) by lia. clear HS HF. revert size HS'. induction a as [|x a IH]; intros [|n] HS; cbn in *; try lia.
    - exists false. split; auto. split; [discriminate|]. intros (i & y & H & _). lia.
    - exists false. split; auto. split; [discriminate|]. intros (i & y & H & _). lia.
    - destruct (Z.eqb_spec x 0) as [->|NZ].
      + destruct (IH n ltac:(lia)) as (v & E & HV). exists v. split; auto. rewrite HV. split.
        * intros (i & y & A & B & C). exists (S i), y. split; [lia|auto].
        * intros ([|i] & y & A & B & C); cbn in B; [congruence|]. exists i, y. split; [lia|auto].
      + exists true. split; auto. split; auto. intros _. exists 0%nat, x. split; [lia|auto]. }
  destruct G as (v & E & HV). exists v. split; [destruct size; [lia|exact E]|]. rewrite HV. clear E HV v. split.
  - intros (i & x & Hi & EX & NZ). assert (HX : word_ok W x) by (rewrite Forall_forall in HF; apply HF; eapply nth_error_In; eauto).
    apply (word_zero x HX) in NZ. destruct NZ as (n & Hn & T). exists (W * Z.of_nat i + n). split; [nia|]. unfold member.
    replace ((W * Z.of_nat i + n) / W) with (Z.of_nat i) by (symmetry; rewrite Z.mul_comm, Z.div_add_l by lia; rewrite Z.div_small by lia; lia).
    replace ((W * Z.of_nat i + n) mod W) with n by (symmetry; rewrite Z.add_comm, Z.mul_comm, Z.mod_add by lia; apply Z.mod_small; lia).
    rewrite Nat2Z.id. rewrite (nth_error_nth a i 0 EX). auto.
  - intros (b & Hb & M). unfold member in M. pose proof (Z.mod_pos_bound b W HW). pose proof (Z.div_pos b W ltac:(lia) HW).
    assert (b / W < Z.of_nat size) by (apply Z.div_lt_upper_bound; lia).
    destruct (nth_error a (Z.to_nat (b / W))) as [x|] eqn:EX.
    + exists (Z.to_nat (b / W)), x. split; [lia|]. split; auto. rewrite (nth_error_nth a _ 0 EX) in M. intros ->. rewrite Z.bits_0 in M. discriminate.
    + apply nth_error_None in EX. lia.
Qed.
Lemma nwords_lemma : forall x, 0 <= x -> x <= nwords W x * W < x + W.
Proof.
  intros x HX. unfold nwords. pose proof (Z.div_mod (x + W - 1) W ltac:(lia)). pose proof (Z.mod_pos_bound (x + W - 1) W HW).
  set (q := (x + W - 1) / W) in *. set (r := (x + W - 1) mod W) in *. lia.
Qed.
End Ops.
