(** Proofs about touches: legality of the event stream. *)
Require Import Coq.ZArith.ZArith Coq.Lists.List Coq.Bool.Bool Coq.micromega.Lia.
Require Import Verif.Touch_Model Verif.Touch_Spec.
Import ListNotations.
Open Scope Z_scope.

Lemma find_seq : forall (P : Z -> bool) len s,
  match find P (map Z.of_nat (seq s len)) with
  | Some i => Z.of_nat s <= i < Z.of_nat s + Z.of_nat len /\ P i = true /\ forall j, Z.of_nat s <= j < i -> P j = false
  | None => forall j, Z.of_nat s <= j < Z.of_nat s + Z.of_nat len -> P j = false
  end.
Proof.
  induction len as [|len IH]; intros s; [cbn [seq map find]; lia|].
  cbn [seq map find]. destruct (P (Z.of_nat s)) eqn:E.
  - repeat split; auto; lia.
  - specialize (IH (S s)). destruct (find _ _).
    + destruct IH as (A & B & C). split; [lia|]. split; auto. intros j Hj.
      destruct (Z.eq_dec j (Z.of_nat s)) as [->|]; auto. apply C. lia.
    + intros j Hj. destruct (Z.eq_dec j (Z.of_nat s)) as [->|]; auto. apply IH. lia.
Qed.

Lemma first_free_spec : forall m,
  (first_free m = -1 /\ forall j, 0 <= j < 32 -> Z.testbit m j = true) \/
  (0 <= first_free m < 32 /\ Z.testbit m (first_free m) = false /\
   forall j, 0 <= j < first_free m -> Z.testbit m j = true).
Proof.
  intros m. unfold first_free.
  pose proof (find_seq (fun i => negb (Z.testbit m i)) 32 0) as H.
  destruct (find _ _).
  - right. destruct H as (A & B & C). split; [lia|]. split.
    + destruct (Z.testbit m z); auto; discriminate.
    + intros j Hj. specialize (C j ltac:(lia)). destruct (Z.testbit m j); auto; discriminate.
  - left. split; auto. intros j Hj. specialize (H j ltac:(lia)). destruct (Z.testbit m j); auto; discriminate.
Qed.

(** The seat map, who uses which seat slot, and the client's view agree. *)
Record J (m : Z) (A : nat -> Z -> Z) (v : view) : Prop := {
  j_view : forall k i n, In (k, i, n) v <-> A k i = n /\ n <> -1;
  j_range : forall k i, A k i <> -1 -> 0 <= A k i < 32;
  j_map : forall n, 0 <= n -> (Z.testbit m n = true <-> exists k i, A k i = n);
  j_uniq : forall k i k' i', A k i = A k' i' -> A k i <> -1 -> k = k' /\ i = i';
  j_nodup : NoDup (map fst v)
}.

Definition ov (A : nat -> Z -> Z) (k : nat) (a : Z -> Z) : nat -> Z -> Z :=
  fun j i => if Nat.eqb j k then a i else A j i.
Definition u1 (a : Z -> Z) (i n : Z) : Z -> Z := fun x => if x =? i then n else a x.

Lemma J_ext : forall m A B v, (forall k i, A k i = B k i) -> J m A v -> J m B v.
Proof.
  intros m A B v E [H1 H2 H3 H4 H5]. split; auto.
  - intros. rewrite <- E. auto.
  - intros k i. rewrite <- E. auto.
  - intros n Hn. rewrite (H3 n Hn). split; intros (k & i & H); exists k, i; rewrite <- H; auto.
  - intros k i k' i'. rewrite <- !E. auto.
Qed.

Lemma in_drop : forall k i x v, In x (drop k i v) <-> In x v /\ fst x <> (k, i).
Proof.
  intros k i [[k' i'] n] v. unfold drop. rewrite filter_In. cbn [fst snd].
  split; intros [H1 H2]; split; auto.
  - intros E. inversion E; subst. rewrite Nat.eqb_refl, Z.eqb_refl in H2. discriminate.
  - destruct (Nat.eqb_spec k' k), (Z.eqb_spec i' i); subst; auto; congruence.
Qed.

Lemma map_fst_filter : forall (P : nat * Z * Z -> bool) v, NoDup (map fst v) -> NoDup (map fst (filter P v)).
Proof.
  induction v as [|x v IH]; intros H; cbn; auto. inversion H; subst.
  destruct (P x); cbn; auto. constructor; auto. intros I. apply H2. apply in_map_iff in I.
  destruct I as (y & E & I). apply filter_In in I. rewrite <- E. apply in_map. tauto.
Qed.

Lemma J_alloc : forall m A k a v i n, J m (ov A k a) v -> a i = -1 -> n = first_free m -> n <> -1 ->
  J (Z.setbit m n) (ov A k (u1 a i n)) ((k, i, n) :: v) /\
  (forall n', ~ In (k, i, n') v) /\ 0 <= n < 32 /\ (forall k' i', ~ In (k', i', n) v) /\
  (forall n', 0 <= n' < n -> exists k' i', In (k', i', n') v).
Proof.
  intros m A k a v i n [H1 H2 H3 H4 H5] Ha En Hn.
  destruct (first_free_spec m) as [[F _]|(F1 & F2 & F3)]; [congruence|]. rewrite <- En in *.
  assert (O : ov A k a k i = -1) by (unfold ov; rewrite Nat.eqb_refl; auto).
  assert (N1 : forall n', ~ In (k, i, n') v) by (intros n' I; apply H1 in I; destruct I; congruence).
  assert (N2 : forall k' i', ov A k a k' i' <> n).
  { intros k' i' E. assert (Z.testbit m n = true) by (apply H3; [lia|eauto]). congruence. }
  assert (W : forall k' i', ov A k (u1 a i n) k' i' = if Nat.eqb k' k && (i' =? i) then n else ov A k a k' i').
  { intros. unfold ov, u1. destruct (Nat.eqb k' k), (i' =? i); auto. }
  assert (D : forall k' i', Nat.eqb k' k && (i' =? i) = true <-> k' = k /\ i' = i).
  { intros. rewrite andb_true_iff, Nat.eqb_eq, Z.eqb_eq. tauto. }
  split; [split|].
  - intros k' i' n'. rewrite W. cbn [In]. rewrite (H1 k' i' n').
    destruct (Nat.eqb k' k && (i' =? i)) eqn:E.
    + apply D in E. destruct E; subst k' i'. rewrite O. split; [intros [I|[I1 I2]]; [inversion I; subst; auto|congruence]|].
      intros [? ?]; subst; auto.
    + split; [intros [I|?]; auto; inversion I; subst k' i'|auto].
      rewrite Nat.eqb_refl, Z.eqb_refl in E. discriminate.
  - intros k' i'. rewrite W. destruct (_ && _); auto.
  - intros n' Hn'. rewrite Z.setbit_eqb by lia. rewrite orb_true_iff, (H3 n' Hn'). split.
    + intros [E|(k' & i' & E)]; [apply Z.eqb_eq in E; subst n'; exists k, i; rewrite W, Nat.eqb_refl, Z.eqb_refl; auto|].
      exists k', i'. rewrite W. destruct (_ && _) eqn:X; auto. apply D in X. destruct X; subst k' i'. lia.
    + intros (k' & i' & E). rewrite W in E. destruct (_ && _); [left; apply Z.eqb_eq; auto|right; eauto].
  - intros k1 i1 k2 i2. rewrite !W.
    destruct (Nat.eqb k1 k && (i1 =? i)) eqn:E1, (Nat.eqb k2 k && (i2 =? i)) eqn:E2; auto.
    + apply D in E1, E2. intuition congruence.
    + intros E. symmetry in E. apply N2 in E. contradiction.
    + intros E. apply N2 in E. contradiction.
  - cbn. constructor; auto. intros I. apply in_map_iff in I. destruct I as ([[? ?] n'] & E & I).
    cbn in E. inversion E; subst. apply N1 in I. auto.
  - split; auto. split; [lia|]. split.
    + intros k' i' I. apply H1 in I. destruct I as [I _]. apply N2 in I. auto.
    + intros n' Hn'. specialize (F3 n' ltac:(lia)). apply H3 in F3; [|lia].
      destruct F3 as (k' & i' & E). exists k', i'. apply H1. split; auto. lia.
Qed.

Lemma J_free : forall m A k a v i, J m (ov A k a) v -> a i <> -1 ->
  J (Z.clearbit m (a i)) (ov A k (u1 a i (-1))) (drop k i v) /\ In (k, i, a i) v.
Proof.
  intros m A k a v i [H1 H2 H3 H4 H5] Ha.
  assert (O : ov A k a k i = a i) by (unfold ov; rewrite Nat.eqb_refl; auto).
  pose proof (H2 k i) as R. rewrite O in R. specialize (R Ha).
  assert (W : forall k' i', ov A k (u1 a i (-1)) k' i' = if Nat.eqb k' k && (i' =? i) then -1 else ov A k a k' i').
  { intros. unfold ov, u1. destruct (Nat.eqb k' k), (i' =? i); auto. }
  assert (D : forall k' i', Nat.eqb k' k && (i' =? i) = true <-> k' = k /\ i' = i).
  { intros. rewrite andb_true_iff, Nat.eqb_eq, Z.eqb_eq. tauto. }
  split; [split|].
  - intros k' i' n'. rewrite in_drop, W. cbn [fst]. rewrite H1.
    destruct (_ && _) eqn:E.
    + apply D in E. destruct E; subst. intuition congruence.
    + split; [tauto|]. intros [? ?]. split; auto. intros X. inversion X; subst.
      rewrite Nat.eqb_refl, Z.eqb_refl in E. discriminate.
  - intros k' i'. rewrite W. destruct (_ && _); auto. congruence.
  - intros n Hn. rewrite Z.clearbit_eqb. rewrite andb_true_iff, (H3 n Hn), negb_true_iff, Z.eqb_neq. split.
    + intros [(k' & i' & E) X]. exists k', i'. rewrite W. destruct (_ && _) eqn:Y; auto.
      apply D in Y. destruct Y; subst k' i'. congruence.
    + intros (k' & i' & E). rewrite W in E. destruct (_ && _) eqn:Y; [lia|]. split; [eauto|].
      intros X. assert (Q : k = k' /\ i = i') by (apply H4; congruence).
      destruct Q; subst k' i'. rewrite Nat.eqb_refl, Z.eqb_refl in Y. discriminate.
  - intros k1 i1 k2 i2. rewrite !W.
    destruct (Nat.eqb k1 k && (i1 =? i)) eqn:E1, (Nat.eqb k2 k && (i2 =? i)) eqn:E2; auto; try congruence.
  - apply map_fst_filter; auto.
  - apply H1. auto.
Qed.

Lemma legal_app : forall a v v1 b v2, legal v a v1 -> legal v1 b v2 -> legal v (a ++ b) v2.
Proof. intros a v v1 b v2 H. induction H; intros; cbn; auto; econstructor; eauto. Qed.

(** Device [k], from map [m] and seat slots [a], may emit [o] and end in [m'], [a']. *)
Definition Sound (k : nat) (m : Z) (a : Z -> Z) (m' : Z) (a' : Z -> Z) (o : list tout) : Prop :=
  forall A v, J m (ov A k a) v -> exists v', J m' (ov A k a') v' /\ legal v (map (fun e => (k, e)) o) v'.

Lemma ov_ext : forall A k a b, (forall i, a i = b i) -> forall j i, ov A k a j i = ov A k b j i.
Proof. intros. unfold ov. destruct (Nat.eqb j k); auto. Qed.
Lemma Sound_ext : forall k m a m' a' o b b', (forall i, a i = b i) -> (forall i, a' i = b' i) ->
  Sound k m a m' a' o -> Sound k m b m' b' o.
Proof.
  intros k m a m' a' o b b' E E' H A v HJ.
  destruct (H A v) as (v' & H1 & H2).
  { eapply J_ext; [|exact HJ]. intros. apply ov_ext. auto. }
  exists v'. split; auto. eapply J_ext; [|exact H1]. intros. apply ov_ext; auto.
Qed.
Lemma Sound_refl : forall k m a, Sound k m a m a [].
Proof. intros k m a A v H. exists v. split; auto. constructor. Qed.
Lemma Sound_same : forall k m a b, (forall i, a i = b i) -> Sound k m a m b [].
Proof. intros. eapply Sound_ext; [| |apply (Sound_refl k m a)]; auto. Qed.
Lemma Sound_trans : forall k m a m1 a1 o1 m2 a2 o2,
  Sound k m a m1 a1 o1 -> Sound k m1 a1 m2 a2 o2 -> Sound k m a m2 a2 (o1 ++ o2).
Proof.
  intros k m a m1 a1 o1 m2 a2 o2 H1 H2 A v HJ.
  destruct (H1 A v HJ) as (v1 & J1 & L1). destruct (H2 A v1 J1) as (v2 & J2 & L2).
  exists v2. split; auto. rewrite map_app. eapply legal_app; eauto.
Qed.
Lemma Sound_frame : forall k m a t, Sound k m a m a [TFrame t].
Proof. intros k m a t A v H. exists v. split; auto. cbn. constructor. constructor. Qed.

Lemma u1_same : forall a i n, a i = n -> forall x, a x = u1 a i n x.
Proof. intros a i n H x. unfold u1. destruct (Z.eqb_spec x i); subst; auto. Qed.

(** the seat slot of a slot of a device *)
Definition sv (touch : bool) (s : slot) : Z := if touch then sl_seat s else -1.

Section WithHyst.
Variable hyst : point -> point -> point.

Lemma mt_down_sound : forall k touch m s i t a, a i = sv touch s ->
  let '(m', s', o) := mt_down touch m s i t in Sound k m a m' (u1 a i (sv touch s')) o.
Proof.
  intros k touch m s i t a Ha. unfold mt_down, sv in *.
  destruct touch; cbn [negb]; [|apply Sound_same, u1_same; auto].
  destruct (Z.eqb_spec (sl_seat s) (-1)) as [E|E]; cbn [negb].
  2:{ apply Sound_same, u1_same; auto. }
  destruct (Z.eqb_spec (first_free m) (-1)) as [F|F].
  - cbn. apply Sound_same, u1_same. congruence.
  - cbn [sl_seat]. intros A v HJ. rewrite E in Ha.
    destruct (J_alloc m A k a v i (first_free m) HJ Ha eq_refl F) as (H1 & H2 & H3 & H4 & H5).
    eexists; split; eauto. cbn. constructor; auto. constructor.
Qed.

Lemma mt_motion_sound : forall k touch want m s i t a, a i = sv touch s ->
  let '(m', s', o) := mt_motion hyst touch want m s i t in Sound k m a m' (u1 a i (sv touch s')) o.
Proof.
  intros k touch want m s i t a Ha. unfold mt_motion, sv in *.
  destruct touch; cbn [negb]; [|apply Sound_same, u1_same; auto].
  destruct (Z.eqb_spec (sl_seat s) (-1)) as [E|E].
  { apply Sound_same, u1_same; auto. }
  assert (D : sl_seat (fst (defuzz hyst want s)) = sl_seat s).
  { unfold defuzz. destruct want; cbn [negb]; auto. destruct (_ && _); auto. }
  destruct (defuzz hyst want s) as [s' dr]. cbn [fst] in D. rewrite D.
  destruct dr; [apply Sound_same, u1_same; auto|].
  intros A v HJ. exists v. split.
  - eapply J_ext; [|exact HJ]. apply ov_ext, u1_same. auto.
  - cbn. constructor; [|constructor]. apply (j_view _ _ _ HJ). unfold ov. rewrite Nat.eqb_refl. auto.
Qed.

Lemma mt_up_sound : forall k touch m s i t a, a i = sv touch s ->
  let '(m', s', o) := mt_up touch m s i t in Sound k m a m' (u1 a i (sv touch s')) o.
Proof.
  intros k touch m s i t a Ha. unfold mt_up, sv in *.
  destruct touch; cbn [negb]; [|apply Sound_same, u1_same; auto].
  destruct (Z.eqb_spec (sl_seat s) (-1)) as [E|E].
  - cbn. apply Sound_same, u1_same; congruence.
  - cbn. intros A v HJ. rewrite <- Ha in *. destruct (J_free m A k a v i HJ E) as [H1 H2].
    eexists. split; eauto. cbn. constructor; auto. constructor.
Qed.

Lemma mt_cancel_sound : forall k touch m s i t a, a i = sv touch s ->
  let '(m', s', o) := mt_cancel touch m s i t in Sound k m a m' (u1 a i (sv touch s')) o.
Proof.
  intros k touch m s i t a Ha. unfold mt_cancel, sv in *.
  destruct touch; cbn [negb]; [|apply Sound_same, u1_same; auto].
  destruct (Z.eqb_spec (sl_seat s) (-1)) as [E|E].
  - cbn. apply Sound_same, u1_same; congruence.
  - cbn. intros A v HJ. rewrite <- Ha in *. destruct (J_free m A k a v i HJ E) as [H1 H2].
    eexists. split; eauto. cbn. constructor; auto. constructor.
Qed.

Lemma flush_slot_sound : forall k d m s i t a, a i = sv (dv_touch d) s ->
  let '(m', s', o, _) := flush_slot hyst d m s i t in Sound k m a m' (u1 a i (sv (dv_touch d) s')) o.
Proof.
  intros k d m s0 i t a Ha. unfold flush_slot. cbv zeta.
  set (s := mkSlot false (sl_state s0) (sl_seat s0) (sl_point s0) (sl_center s0) (sl_palm s0)).
  assert (Hs : a i = sv (dv_touch d) s) by exact Ha.
  set (x := match sl_palm s with P_NEW => _ | _ => _ end).
  assert (H : let '(m', s', o, _) := x in Sound k m a m' (u1 a i (sv (dv_touch d) s')) o).
  { subst x. destruct (sl_palm s).
    - destruct (sl_state s).
      + apply Sound_same, u1_same; auto.
      + destruct (arbitrate d s).
        * apply Sound_same, u1_same; auto.
        * pose proof (mt_down_sound k (dv_touch d) m s i t a Hs) as P.
          destruct (mt_down _ _ _ _ _) as [[? ?] ?]; auto.
      + pose proof (mt_motion_sound k (dv_touch d) (dv_hyst d) m s i t a Hs) as P.
        destruct (mt_motion _ _ _ _ _ _ _) as [[? ?] ?]; auto.
      + pose proof (mt_up_sound k (dv_touch d) m s i t a Hs) as P.
        destruct (mt_up _ _ _ _ _) as [[? ?] ?]; auto.
    - pose proof (mt_cancel_sound k (dv_touch d) m s i t a Hs) as P.
      destruct (sl_state s); [|apply Sound_same, u1_same; auto| |];
        destruct (mt_cancel _ _ _ _ _) as [[? ?] ?]; exact P.
    - apply Sound_same, u1_same; auto.
    - apply Sound_same, u1_same; auto. }
  destruct x as [[[m1 s1] o1] sn]. exact H.
Qed.

(** writing the seat slots of a list of slots into [a] from index [i] *)
Fixpoint over (touch : bool) (a : Z -> Z) (i : Z) (l : list slot) : Z -> Z :=
  match l with [] => a | s :: r => over touch (u1 a i (sv touch s)) (i + 1) r end.

Lemma over_at : forall touch l a i x,
  over touch a i l x =
  if (i <=? x) then match nth_error l (Z.to_nat (x - i)) with Some s => sv touch s | None => a x end else a x.
Proof.
  induction l as [|s l IH]; intros a i x.
  - cbn [over]. destruct (i <=? x); auto. destruct (Z.to_nat (x - i)); auto.
  - cbn [over]. rewrite IH. unfold u1.
    destruct (Z.leb_spec (i + 1) x), (Z.leb_spec i x); try lia.
    + replace (Z.to_nat (x - i)) with (S (Z.to_nat (x - (i + 1)))) by lia. cbn [nth_error].
      destruct (nth_error l _); auto. destruct (Z.eqb_spec x i); auto; lia.
    + replace x with i by lia. replace (i - i) with 0 by lia. cbn. rewrite Z.eqb_refl. auto.
    + destruct (Z.eqb_spec x i); auto; lia.
Qed.

Definition agrees (touch : bool) (a : Z -> Z) (i : Z) (l : list slot) : Prop :=
  forall j s, nth_error l j = Some s -> a (i + Z.of_nat j) = sv touch s.
Lemma agrees_tail : forall touch a i s l n, agrees touch a i (s :: l) -> agrees touch (u1 a i n) (i + 1) l.
Proof.
  intros touch a i s l n H j s' E. unfold u1. destruct (Z.eqb_spec (i + 1 + Z.of_nat j) i); [lia|].
  replace (i + 1 + Z.of_nat j) with (i + Z.of_nat (S j)) by lia. apply H. exact E.
Qed.
Lemma agrees_head : forall touch a i s l, agrees touch a i (s :: l) -> a i = sv touch s.
Proof. intros touch a i s l H. specialize (H 0%nat s eq_refl). rewrite Z.add_0_r in H. auto. Qed.

Lemma flush_mt_sound : forall k d l m i t sent a, agrees (dv_touch d) a i l ->
  let '(m', l', o, _) := flush_mt hyst d m l i t sent in
  length l' = length l /\ Sound k m a m' (over (dv_touch d) a i l') o.
Proof.
  induction l as [|s l IH]; intros m i t sent a H; cbn [flush_mt].
  - split; auto. apply Sound_refl.
  - destruct (sl_dirty s); cbn [negb].
    + pose proof (flush_slot_sound k d m s i t a (agrees_head _ _ _ _ _ H)) as P.
      destruct (flush_slot hyst d m s i t) as [[[m1 s1] o1] sn].
      specialize (IH m1 (i + 1) t (match sn with Some b => b | None => sent end)
                   (u1 a i (sv (dv_touch d) s1)) (agrees_tail _ _ _ _ _ _ H)).
      destruct (flush_mt _ _ _ _ _ _ _) as [[[m2 l2] o2] sent2]. destruct IH as [E P2].
      split; [cbn; congruence|]. cbn [over]. eapply Sound_trans; eauto.
    + assert (Hs := agrees_head _ _ _ _ _ H).
      specialize (IH m (i + 1) t sent (u1 a i (sv (dv_touch d) s)) (agrees_tail _ _ _ _ _ _ H)).
      destruct (flush_mt _ _ _ _ _ _ _) as [[[m2 l2] o2] sent2]. destruct IH as [E P2].
      split; [cbn; congruence|]. cbn [over].
      eapply Sound_trans with (o1 := []); [|exact P2]. apply Sound_same, u1_same; auto.
Qed.

Lemma cancel_slots_sound : forall k touch r l m i t a, agrees touch a i l ->
  let '(m', l', o) := cancel_slots touch r m l i t in
  length l' = length l /\ Sound k m a m' (over touch a i l') o.
Proof.
  induction l as [|s l IH]; intros m i t a H; cbn [cancel_slots].
  - split; auto. apply Sound_refl.
  - assert (Hs := agrees_head _ _ _ _ _ H).
    set (x := if _ && _ then _ else _).
    assert (P : let '(m1, s1, o1) := x in Sound k m a m1 (u1 a i (sv touch s1)) o1).
    { subst x. destruct (_ && _); [apply mt_cancel_sound; auto|apply Sound_same, u1_same; auto]. }
    destruct x as [[m1 s1] o1].
    specialize (IH m1 (i + 1) t (u1 a i (sv touch s1)) (agrees_tail _ _ _ _ _ _ H)).
    destruct (cancel_slots _ _ _ _ _ _) as [[m2 l2] o2]. destruct IH as [E P2].
    split; [cbn; congruence|]. cbn [over]. eapply Sound_trans; eauto.
Qed.

(** all seat slots of a device *)
Definition aof (d : dev) (i : Z) : Z :=
  if i =? -1 then (if dv_touch d then dv_st d else -1)
  else if i <? 0 then -1
  else match nth_error (dv_slots d) (Z.to_nat i) with Some s => sv (dv_touch d) s | None => -1 end.

Lemma aof_agrees : forall d, agrees (dv_touch d) (aof d) 0 (dv_slots d).
Proof.
  intros d j s H. unfold aof. destruct (Z.eqb_spec (0 + Z.of_nat j) (-1)); [lia|].
  destruct (Z.ltb_spec (0 + Z.of_nat j) 0); [lia|]. rewrite Z.add_0_l, Nat2Z.id, H. auto.
Qed.
Lemma over_aof : forall d l, length l = length (dv_slots d) ->
  forall i, over (dv_touch d) (aof d) 0 l i = aof (set_slots d l) i.
Proof.
  intros d l H i. rewrite over_at. unfold aof. cbn [dv_touch dv_st dv_slots set_slots].
  destruct (Z.leb_spec 0 i).
  - destruct (Z.eqb_spec i (-1)); [lia|]. destruct (Z.ltb_spec i 0); [lia|]. rewrite Z.sub_0_r.
    destruct (nth_error l (Z.to_nat i)) eqn:E; auto.
    apply nth_error_None in E. rewrite H in E. apply nth_error_None in E. rewrite E. auto.
  - destruct (Z.eqb_spec i (-1)); auto. destruct (Z.ltb_spec i 0); [auto|lia].
Qed.

Lemma aof_st : forall d n i, aof (set_st d n) i = u1 (aof d) (-1) (if dv_touch d then n else -1) i.
Proof.
  intros. unfold aof, u1. cbn. destruct (Z.eqb_spec i (-1)); auto.
Qed.
Lemma aof_st_val : forall d, aof d (-1) = if dv_touch d then dv_st d else -1.
Proof. reflexivity. Qed.

Lemma st_down_sound : forall k m d t,
  let '(m', d', o) := st_down m d t in Sound k m (aof d) m' (aof d') o.
Proof.
  intros k m d t. unfold st_down. destruct (dv_touch d) eqn:T; cbn [negb]; [|apply Sound_refl].
  destruct (Z.eqb_spec (dv_st d) (-1)) as [E|E]; cbn [negb]; [|apply Sound_refl].
  destruct (Z.eqb_spec (first_free m) (-1)) as [F|F].
  - apply Sound_same. intros i. rewrite aof_st, T, F. apply u1_same. rewrite aof_st_val, T; auto.
  - intros A v HJ. assert (Ha : aof d (-1) = -1) by (rewrite aof_st_val, T; auto).
    destruct (J_alloc m A k (aof d) v (-1) (first_free m) HJ Ha eq_refl F) as (H1 & H2 & H3 & H4 & H5).
    eexists; split.
    + eapply J_ext; [|exact H1]. apply ov_ext. intros i. rewrite aof_st, T. auto.
    + cbn. constructor; auto. constructor.
Qed.
Lemma st_motion_sound : forall k m d t, dv_touch d = true ->
  let '(m', d', o) := st_motion m d t in Sound k m (aof d) m' (aof d') o.
Proof.
  intros k m d t T. unfold st_motion. destruct (Z.eqb_spec (dv_st d) (-1)); [apply Sound_refl|].
  intros A v HJ. exists v. split; auto. cbn. constructor; [|constructor].
  apply (j_view _ _ _ HJ). unfold ov. rewrite Nat.eqb_refl, aof_st_val, T. auto.
Qed.
Lemma st_up_sound : forall k m d t,
  let '(m', d', o) := st_up m d t in Sound k m (aof d) m' (aof d') o.
Proof.
  intros k m d t. unfold st_up. destruct (dv_touch d) eqn:T; cbn [negb]; [|apply Sound_refl].
  destruct (Z.eqb_spec (dv_st d) (-1)) as [E|E].
  - apply Sound_same. intros i. rewrite aof_st, T. apply u1_same. rewrite aof_st_val, T; auto.
  - intros A v HJ. assert (Ha : aof d (-1) = dv_st d) by (rewrite aof_st_val, T; auto). rewrite <- Ha in *.
    destruct (J_free m A k (aof d) v (-1) HJ E) as [H1 H2]. eexists. split.
    + eapply J_ext; [|exact H1]. apply ov_ext. intros i. rewrite aof_st, T. auto.
    + cbn. constructor; auto. constructor.
Qed.
Lemma st_cancel_sound : forall k m d t,
  let '(m', d', o) := st_cancel m d t in Sound k m (aof d) m' (aof d') o.
Proof.
  intros k m d t. unfold st_cancel. destruct (dv_touch d) eqn:T; cbn [negb]; [|apply Sound_refl].
  destruct (Z.eqb_spec (dv_st d) (-1)) as [E|E].
  - apply Sound_same. intros i. rewrite aof_st, T. apply u1_same. rewrite aof_st_val, T; auto.
  - intros A v HJ. assert (Ha : aof d (-1) = dv_st d) by (rewrite aof_st_val, T; auto). rewrite <- Ha in *.
    destruct (J_free m A k (aof d) v (-1) HJ E) as [H1 H2]. eexists. split.
    + eapply J_ext; [|exact H1]. apply ov_ext. intros i. rewrite aof_st, T. auto.
    + cbn. constructor; auto. constructor.
Qed.

Lemma aof_pend : forall d a b c e i, aof (set_pend d a b c e) i = aof d i.
Proof. reflexivity. Qed.

Lemma handle_state_sound : forall k m d t,
  let '(m', d', o) := handle_state hyst m d t in Sound k m (aof d) m' (aof d') o.
Proof.
  intros k m d t. unfold handle_state.
  set (x := if dv_pdown d then _ else _).
  assert (X : let '(m', d', o) := x in Sound k m (aof d) m' (aof d') o).
  { subst x. destruct (dv_pdown d); [apply st_down_sound|].
    destruct (dv_pmotion d && dv_touch d) eqn:E; [apply andb_prop in E; apply st_motion_sound; tauto|apply Sound_refl]. }
  destruct x as [[m1 d1] o1].
  set (y := if dv_pup d1 then _ else _).
  assert (Y : let '(m', d', o) := y in Sound k m1 (aof d1) m' (aof d') o).
  { subst y. destruct (dv_pup d1); [apply st_up_sound|apply Sound_refl]. }
  destruct y as [[m2 d2] o2]. cbv zeta.
  set (z := if dv_pmt d2 then _ else _).
  assert (Z : let '(m', l, o, _) := z in Sound k m2 (aof d2) m' (aof (set_slots d2 l)) o).
  { subst z. destruct (dv_pmt d2).
    - pose proof (flush_mt_sound k d2 (dv_slots d2) m2 0 t false (aof d2) (aof_agrees d2)) as P.
      destruct (flush_mt _ _ _ _ _ _ _) as [[[m3 l] o3] n3]. destruct P as [E P].
      eapply Sound_ext; [| |exact P]; auto. intros. apply over_aof; auto.
    - apply Sound_same. intros i. destruct d2; auto. }
  destruct z as [[[m3 l] o3] n3].
  eapply Sound_trans; [exact X|]. eapply Sound_trans; [exact Y|]. eapply Sound_trans; [exact Z|].
  change (aof (set_pend (set_slots d2 l) false false false false)) with (aof (set_slots d2 l)).
  destruct n3; [apply Sound_frame|apply Sound_refl].
Qed.

Lemma cancel_touches_sound : forall k m d r t,
  let '(m', d', o) := cancel_touches m d r t in Sound k m (aof d) m' (aof d') o.
Proof.
  intros k m d r t. unfold cancel_touches.
  set (x := if (match r with None => true | Some r0 => in_rect (dv_abs d) r0 end) then _ else _).
  assert (X : let '(m', d', o) := x in Sound k m (aof d) m' (aof d') o).
  { subst x. destruct (match r with None => true | Some r0 => in_rect (dv_abs d) r0 end); [apply st_cancel_sound|apply Sound_refl]. }
  destruct x as [[m1 d1] o1].
  pose proof (cancel_slots_sound k (dv_touch d1) r (dv_slots d1) m1 0 t (aof d1) (aof_agrees d1)) as P.
  destruct (cancel_slots _ _ _ _ _ _) as [[m2 l] o2]. destruct P as [E P].
  eapply Sound_trans; [exact X|]. eapply Sound_trans.
  - eapply Sound_ext; [| |exact P]; [auto|]. intros. apply over_aof; auto.
  - destruct (nonempty o1 || nonempty o2); [apply Sound_frame|apply Sound_refl].
Qed.

Lemma aof_arb : forall d a b c e i, aof (set_arb d a b c e) i = aof d i.
Proof. reflexivity. Qed.

Lemma nth_update : forall f l n j, nth_error (update l n f) j =
  if Nat.eqb j n then option_map f (nth_error l j) else nth_error l j.
Proof.
  induction l as [|s l IH]; intros n j; cbn [update].
  - destruct j; cbn [nth_error option_map]; match goal with |- context [Nat.eqb ?a ?b] => destruct (Nat.eqb a b) end; auto.
  - destruct n, j; cbn [nth_error Nat.eqb]; auto.
Qed.

Lemma aof_touch_slot : forall d f, (forall s, sl_seat (f s) = sl_seat s) -> forall i, aof d i = aof (touch_slot d f) i.
Proof.
  intros d f H i. unfold aof. cbn [touch_slot set_pend set_slots dv_touch dv_st dv_slots].
  destruct (i =? -1); auto. destruct (i <? 0); auto. rewrite nth_update.
  destruct (Nat.eqb _ _); auto. destruct (nth_error _ _); auto. cbn. unfold sv. cbn. rewrite H. auto.
Qed.

Lemma tstep_sound : forall k m d o,
  let '(m', d', l) := tstep hyst m d o in Sound k m (aof d) m' (aof d') l.
Proof.
  intros k m d o. destruct o as [v|v p|v|v|p|v|v|v|t|t|w r t|r|t]; unfold tstep; cbv beta zeta.
  1-5: destruct (dv_inarb d); [apply Sound_refl|]; destruct (dv_mt d); [|apply Sound_refl]; apply Sound_same.
  - reflexivity.
  - apply aof_touch_slot. intros s. destruct (0 <=? v); auto.
  - apply aof_touch_slot. auto.
  - apply aof_touch_slot. auto.
  - apply aof_touch_slot. auto.
  - destruct (dv_inarb d); [apply Sound_refl|]. destruct (dv_mt d); apply Sound_same; reflexivity.
  - destruct (dv_inarb d); [apply Sound_refl|]. destruct (dv_mt d); apply Sound_same; reflexivity.
  - destruct (dv_inarb d); [apply Sound_refl|]. destruct (dv_mt d); [apply Sound_same; reflexivity|].
    destruct (v =? 2); [|destruct (v =? 0)]; apply Sound_same; reflexivity.
  - destruct (dv_inarb d); [apply Sound_refl|]. apply handle_state_sound.
  - apply cancel_touches_sound.
  - unfold toggle_touch. destruct (arb_eqb w (dv_arb d)); [apply Sound_refl|]. destruct w.
    + apply Sound_same; reflexivity.
    + pose proof (cancel_touches_sound k m (set_arb d (dv_inarb d) (dv_arb d) (dv_rect d) None) None t) as P.
      destruct (cancel_touches _ _ _ _) as [[m1 d1] o1]. exact P.
    + pose proof (cancel_touches_sound k m d (Some r) t) as P.
      destruct (cancel_touches _ _ _ _) as [[m1 d1] o1]. exact P.
  - apply Sound_same; reflexivity.
  - apply Sound_same; reflexivity.
Qed.

Definition aw (w : seat) : nat -> Z -> Z := fun k i => aof (w_dev w k) i.

Lemma wstep_sound : forall w a v, J (w_map w) (aw w) v ->
  let '(w', o) := wstep hyst w a in exists v', J (w_map w') (aw w') v' /\ legal v o v'.
Proof.
  intros w [k o] v HJ. unfold wstep.
  pose proof (tstep_sound k (w_map w) (w_dev w k) o) as P.
  destruct (tstep hyst (w_map w) (w_dev w k) o) as [[m d] l].
  destruct (P (aw w) v) as (v' & J' & L).
  { eapply J_ext; [|exact HJ]. intros j i. unfold ov, aw. destruct (Nat.eqb_spec j k); subst; auto. }
  exists v'. split; auto. eapply J_ext; [|exact J']. intros j i. unfold ov, aw. cbn [w_dev].
  destruct (Nat.eqb j k); auto.
Qed.

Lemma wrun_sound : forall ops w v, J (w_map w) (aw w) v ->
  let '(w', o) := wrun hyst w ops in exists v', J (w_map w') (aw w') v' /\ legal v o v'.
Proof.
  induction ops as [|a ops IH]; intros w v HJ; cbn [wrun].
  - exists v. split; auto. constructor.
  - pose proof (wstep_sound w a v HJ) as P. destruct (wstep hyst w a) as [w1 o1].
    destruct P as (v1 & J1 & L1). specialize (IH w1 v1 J1). destruct (wrun hyst w1 ops) as [w2 o2].
    destruct IH as (v2 & J2 & L2). exists v2. split; auto. eapply legal_app; eauto.
Qed.

Lemma J_init : forall w, new_seat w -> J (w_map w) (aw w) [].
Proof.
  intros w [Hm Hd].
  assert (N : forall k i, aw w k i = -1).
  { intros k i. unfold aw. destruct (Hd k) as (touch & mt & hp & hy & ab & hx & pts & cur & E & Hx).
    rewrite E. unfold aof, dev_init. cbn [dv_touch dv_st dv_slots].
    destruct (i =? -1). { destruct touch; auto. rewrite Hx; auto. }
    destruct (i <? 0); auto. rewrite nth_error_map. destruct (nth_error pts _); auto.
    cbn. unfold sv. destruct touch; auto. }
  split.
  - intros k i n. rewrite N. cbn. split; [tauto|]. intros [? ?]. congruence.
  - intros k i. rewrite N. congruence.
  - intros n Hn. rewrite Hm, Z.testbit_0_l. split; [discriminate|]. intros (k & i & E). rewrite N in E. lia.
  - intros k i k' i'. rewrite N. congruence.
  - constructor.
Qed.

Lemma J_ok : forall m A v, J m A v -> seat_slots_ok v.
Proof.
  intros m A v [H1 H2 H3 H4 H5]. split; [|split; auto].
  - assert (U : forall x y, In x v -> In y v -> snd x = snd y -> x = y).
    { intros [[k i] n] [[k' i'] n'] I I' E. cbn in E. subst n'. apply H1 in I, I'.
      destruct I as [I N], I' as [I' _]. destruct (H4 k i k' i') as [? ?]; subst; congruence. }
    clear -H5 U. induction v as [|x v IH]; cbn; constructor.
    + intros I. apply in_map_iff in I. destruct I as (y & E & I).
      assert (y = x) by (apply U; cbn; auto). subst y. cbn in H5. inversion H5; subst.
      apply H1. apply in_map; auto.
    + apply IH; [inversion H5; auto|]. intros; apply U; cbn; auto.
  - apply Forall_forall. intros [[k i] n] I. apply H1 in I. destruct I as [E N]. cbn. rewrite <- E. apply H2. congruence.
Qed.

Lemma legal_lemma : forall w ops, new_seat w ->
  exists v, legal [] (snd (wrun hyst w ops)) v /\ seat_slots_ok v.
Proof.
  intros w ops H. pose proof (wrun_sound ops w [] (J_init w H)) as P.
  destruct (wrun hyst w ops) as [w' o]. destruct P as (v & J' & L). exists v. split; auto. eapply J_ok; eauto.
Qed.

(** The view is determined by the events. *)
Lemma legal_det : forall a v v1, legal v a v1 -> forall v2, legal v a v2 -> v1 = v2.
Proof. intros a v v1 H. induction H; intros v2 H'; inversion H'; subst; auto. Qed.
Lemma legal_split : forall a b v v', legal v (a ++ b) v' -> exists v1, legal v a v1 /\ legal v1 b v'.
Proof.
  induction a as [|e a IH]; intros b v v' H.
  - exists v. split; auto. constructor.
  - cbn in H. inversion H; subst;
      match goal with L : legal _ (a ++ b) _ |- _ => destruct (IH _ _ _ L) as (v1 & A & B) end;
      exists v1; (split; [|auto]); econstructor; eauto.
Qed.
End WithHyst.
