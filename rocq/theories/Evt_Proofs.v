(** Proofs for C56: bits, and events that say truly what struct they are. *)
From Coq Require Import ZArith List Bool Lia.
From Verif Require Import Evt_Model Evt_Spec.
Import ListNotations.
Open Scope Z_scope.

Lemma land_bit : forall a k, 0 <= k ->
  (Z.land a (Z.shiftl 1 k) =? 0) = negb (Z.testbit a k).
Proof.
  intros a k K. rewrite Z.shiftl_1_l.
  destruct (Z.testbit a k) eqn:T; simpl.
  - apply Z.eqb_neq. intro Z0.
    assert (B : Z.testbit (Z.land a (2 ^ k)) k = false) by (rewrite Z0; apply Z.bits_0).
    rewrite Z.land_spec, T, Z.pow2_bits_true in B by lia. discriminate.
  - apply Z.eqb_eq. apply Z.bits_inj'. intros j J.
    rewrite Z.land_spec, Z.bits_0.
    destruct (Z.eq_dec j k) as [->|N].
    + rewrite T. reflexivity.
    + rewrite Z.pow2_bits_false by lia. apply andb_false_r.
Qed.

Lemma bit_flag : forall a k, 0 <= k -> bit_is_set a k = flag (Z.testbit a k).
Proof.
  intros a k K. unfold bit_is_set. rewrite land_bit by exact K.
  destruct (Z.testbit a k); reflexivity.
Qed.

Lemma bit_none : forall k, 0 <= k -> bit_is_set 0 k = 0.
Proof. intros k K. rewrite bit_flag by exact K. rewrite Z.bits_0. reflexivity. Qed.

(** The axis bits of a scroll event. *)
Lemma scroll_has : forall e axes axis, mem e pointer__axes = axes ->
  has_axis e axis = match scroll axes axis 1 1 with Some v => v | None => 0 end.
Proof.
  intros e axes axis M. unfold has_axis, scroll. rewrite M.
  destruct (Z.eqb_spec axis 1) as [->|N1].
  - rewrite land_bit by lia. destruct (Z.testbit axes 1); reflexivity.
  - destruct (Z.eqb_spec axis 0) as [->|N0].
    + rewrite land_bit by lia. destruct (Z.testbit axes 0); reflexivity.
    + reflexivity.
Qed.

Lemma scroll_value : forall e axes axis fx fy, mem e pointer__axes = axes ->
  axis_value e axis fx fy =
  match scroll axes axis (mem e fy) (mem e fx) with
  | Some v => Returns v
  | None => Client_bug 0
  end.
Proof.
  intros e axes axis fx fy M. unfold axis_value. rewrite (scroll_has e axes axis M). unfold scroll.
  destruct (Z.eqb_spec axis 1) as [->|N1].
  - destruct (Z.testbit axes 1); reflexivity.
  - destruct (Z.eqb_spec axis 0) as [->|N0].
    + destruct (Z.testbit axes 0); reflexivity.
    + reflexivity.
Qed.

(** The events the notify functions make. *)
Lemma made : forall caps n e, notify caps n = Some e -> e = make n.
Proof.
  intros caps n e H. unfold notify in H.
  destruct (asks_for n) as [f|]; [destruct (caps f)|]; congruence.
Qed.

Lemma made_kind : forall n, sensible n -> kind (typ (make n)) = Some (struct_of (make n)).
Proof. intros n S. destruct n; try reflexivity; destruct S as [-> | ->]; reflexivity. Qed.

Ltac bits :=
  repeat match goal with
  | |- context [bit_is_set 0 ?k] => rewrite (bit_none k) by lia
  | |- context [bit_is_set ?a ?k] => rewrite (bit_flag a k) by lia
  end.

Lemma call_tells : forall d n a, sensible n ->
  call d a (make n) =
  match tells d n a with Some v => Returns v | None => Client_bug (nothing a) end.
Proof.
  intros d n a S. destruct n; cbn [sensible] in S;
    try (destruct S as [-> | ->]);
    destruct a; try reflexivity;
    try (cbn; bits; reflexivity).
  - cbn - [has_axis scroll].
    erewrite scroll_has by reflexivity. reflexivity.
  - cbn - [axis_value scroll].
    erewrite scroll_value by reflexivity. reflexivity.
  - cbn - [axis_value scroll].
    erewrite scroll_value by reflexivity. reflexivity.
Qed.
