(** Proofs about touches: fingers and touches agree. *)
Require Import Coq.ZArith.ZArith Coq.Lists.List Coq.Bool.Bool Coq.micromega.Lia.
Require Import Verif.Touch_Model Verif.Touch_Spec Verif.Touch_Proofs Verif.Touch_Proofs2.
Import ListNotations.
Open Scope Z_scope.

Section WithHyst.
Variable hyst : point -> point -> point.

Definition adv (s : sstate) : sstate := match s with S_BEGIN => S_UPDATE | S_END => S_NONE | x => x end.
Definition fingerlike (p : palm) : Prop := p = P_NONE \/ p = P_NEW.

Lemma flush_slot_fin : forall d m s i t,
  let tc := dv_touch d in
  (sv tc s <> -1 -> fingerlike (sl_palm s) /\ sl_state s <> S_NONE) ->
  (sl_state s = S_BEGIN -> sv tc s = -1) \/ (sl_palm s = P_NONE /\ dv_arb d = A_NOT_ACTIVE) ->
  let '(m', s', o, _) := flush_slot hyst d m s i t in
  sl_dirty s' = false /\ sl_state s' = adv (sl_state s) /\
  (sv tc s' <> -1 -> sl_palm s' = P_NONE /\ sl_state s' = S_UPDATE) /\
  (sl_palm s = P_NONE -> dv_arb d = A_NOT_ACTIVE -> sl_palm s' = P_NONE) /\
  (dv_hyst d = false -> sl_point s' = sl_point s) /\
  (forall u j n p, In (TDown u j n p) o \/ In (TMotion u j n p) o -> j = i /\ p = sl_point s).
Proof.
  intros d m s i t tc H1 H2. unfold flush_slot. subst tc. destruct s as [dy st se po ce pa].
  cbn [sl_dirty sl_state sl_seat sl_point sl_center sl_palm] in *.
  unfold fingerlike, sv in *. cbn [sl_seat] in *.
  destruct pa.
  - destruct st.
    + cbn. split; auto. split; auto. split; [intros X; destruct (H1 X); congruence|]. split; auto. split; auto. intros; tauto.
    + unfold arbitrate. cbn [sl_point].
      destruct H2 as [H2|[_ H2]].
      * specialize (H2 eq_refl).
        destruct (match dv_arb d with A_IGNORE_RECT => _ | _ => _ end) eqn:A.
        { cbn. split; auto. split; auto. split; [congruence|]. split; [|split; auto; intros; tauto].
          intros _ E. rewrite E in A. discriminate. }
        unfold mt_down. cbn [sl_seat].
        destruct (dv_touch d); cbn; [|repeat split; auto; intros; try tauto; congruence].
        destruct (se =? -1); cbn; [|repeat split; auto; intros; try tauto; congruence].
        destruct (first_free m =? -1); cbn; repeat split; auto; intros; try tauto.
        -- destruct H as [[E|[]]|[E|[]]]; inversion E; auto.
        -- destruct H as [[E|[]]|[E|[]]]; inversion E; auto.
      * rewrite H2. unfold mt_down. cbn [sl_seat].
        destruct (dv_touch d); cbn; [|repeat split; auto; intros; try tauto; congruence].
        destruct (se =? -1); cbn; [|repeat split; auto; intros; try tauto; congruence].
        destruct (first_free m =? -1); cbn; repeat split; auto; intros; try tauto.
        -- destruct H as [[E|[]]|[E|[]]]; inversion E; auto.
        -- destruct H as [[E|[]]|[E|[]]]; inversion E; auto.
    + unfold mt_motion. cbn [sl_seat].
      destruct (dv_touch d); cbn; [|repeat split; auto; intros; try tauto; congruence].
      destruct (Z.eqb_spec se (-1)); cbn; [repeat split; auto; intros; try tauto; congruence|].
      unfold defuzz. destruct (dv_hyst d); cbn.
      * destruct (_ && _); cbn; repeat split; auto; intros; try tauto; try discriminate;
          match goal with H : _ \/ _ |- _ => destruct H as [[E|[]]|[E|[]]]; inversion E; auto end.
      * repeat split; auto; intros;
          match goal with H : _ \/ _ |- _ => destruct H as [[E|[]]|[E|[]]]; inversion E; auto end.
    + unfold mt_up. cbn [sl_seat].
      destruct (dv_touch d); cbn; [|repeat split; auto; intros; try tauto; congruence].
      destruct (Z.eqb_spec se (-1)); cbn; repeat split; auto; intros; try tauto; try congruence;
        match goal with H : _ \/ _ |- _ => destruct H as [[E|[]]|[E|[]]]; inversion E; auto end.
  - assert (NB : st <> S_BEGIN -> let '(m', s', o) := mt_cancel (dv_touch d) m (mkSlot false st se po ce P_NEW) i t in
       (if dv_touch d then sl_seat s' else -1) = -1 /\ sl_point s' = po /\ sl_dirty s' = false /\ sl_state s' = st /\
       (forall u j n p, In (TDown u j n p) o \/ In (TMotion u j n p) o -> j = i /\ p = po)).
    { intros _. unfold mt_cancel. cbn [sl_seat]. destruct (dv_touch d); cbn; [|repeat split; auto; tauto].
      destruct (Z.eqb_spec se (-1)); cbn; repeat split; auto; intros; try tauto;
        match goal with H : _ \/ _ |- _ => destruct H as [[E|[]]|[E|[]]]; inversion E; auto end. }
    destruct st; cbn [sl_state].
    2:{ cbn. destruct H2 as [H2|[H2 _]]; [|discriminate]. specialize (H2 eq_refl).
        repeat split; auto; intros; try tauto; congruence. }
    all: specialize (NB ltac:(discriminate)); destruct (mt_cancel _ _ _ _ _) as [[m' s'] o]; cbn;
      destruct NB as (N1 & N2 & N3 & N4 & N5); rewrite N4; cbn; repeat split; auto; intros;
      try discriminate; try congruence; eapply N5; eauto.
  - cbn. split; auto. split; [destruct st; auto|]. split; [intros X; destruct (H1 X) as [[?|?] ?]; discriminate|]. split; [discriminate|]. split; auto. intros; tauto.
  - cbn. split; auto. split; [destruct st; auto|]. split; [intros X; destruct (H1 X) as [[?|?] ?]; discriminate|]. split; [discriminate|]. split; auto. intros; tauto.
Qed.

Definition slot_pre (d : dev) (s : slot) : Prop :=
  (sv (dv_touch d) s <> -1 -> fingerlike (sl_palm s) /\ sl_state s <> S_NONE) /\
  ((sl_state s = S_BEGIN -> sv (dv_touch d) s = -1) \/ (sl_palm s = P_NONE /\ dv_arb d = A_NOT_ACTIVE)).
Definition slot_post (d : dev) (s s' : slot) : Prop :=
  sl_dirty s' = false /\ sl_state s' = adv (sl_state s) /\
  (sv (dv_touch d) s' <> -1 -> sl_palm s' = P_NONE /\ sl_state s' = S_UPDATE) /\
  (sl_palm s = P_NONE -> dv_arb d = A_NOT_ACTIVE -> sl_palm s' = P_NONE) /\
  (dv_hyst d = false -> sl_point s' = sl_point s).

Lemma flush_mt_fin : forall d l m i t sent, Forall (slot_pre d) l ->
  let '(m', l', o, _) := flush_mt hyst d m l i t sent in
  Forall2 (fun s s' => if sl_dirty s then slot_post d s s' else s' = s) l l' /\
  (forall u j n p, In (TDown u j n p) o \/ In (TMotion u j n p) o ->
     exists x s, nth_error l x = Some s /\ j = i + Z.of_nat x /\ p = sl_point s).
Proof.
  induction l as [|s l IH]; intros m i t sent H; cbn [flush_mt].
  - split; [constructor|]. cbn. tauto.
  - inversion H as [|? ? [P1 P2] HF]; subst. destruct (sl_dirty s) eqn:D; cbn [negb].
    + pose proof (flush_slot_fin d m s i t P1 P2) as P. destruct (flush_slot hyst d m s i t) as [[[m1 s1] o1] sn].
      specialize (IH m1 (i + 1) t (match sn with Some b => b | None => sent end) HF).
      destruct (flush_mt _ _ _ _ _ _ _) as [[[m2 l2] o2] sent2]. destruct IH as [I1 I2].
      destruct P as (Q1 & Q2 & Q3 & Q4 & Q5 & Q6). split.
      * constructor; auto. rewrite D. unfold slot_post. auto.
      * intros u j n p I. rewrite !in_app_iff in I.
        assert (C : (In (TDown u j n p) o1 \/ In (TMotion u j n p) o1) \/ (In (TDown u j n p) o2 \/ In (TMotion u j n p) o2)) by tauto.
        destruct C as [C|C].
        -- destruct (Q6 _ _ _ _ C) as [-> ->]. exists 0%nat, s. cbn. repeat split; auto. lia.
        -- destruct (I2 _ _ _ _ C) as (x & s0 & E & -> & ->). exists (S x), s0. cbn [nth_error]. repeat split; auto. lia.
    + specialize (IH m (i + 1) t sent HF).
      destruct (flush_mt _ _ _ _ _ _ _) as [[[m2 l2] o2] sent2]. destruct IH as [I1 I2]. split.
      * constructor; auto. rewrite D. auto.
      * intros u j n p C. destruct (I2 _ _ _ _ C) as (x & s0 & E & -> & ->). exists (S x), s0. cbn [nth_error]. repeat split; auto. lia.
Qed.

(** The device's slots and the fingers agree; [pl]: no palms and no pen. *)
Record Fi (pl : bool) (N : nat) (d : dev) (f : fingers) : Prop := {
  fi_mt : dv_mt d = true; fi_arb : dv_inarb d = false;
  fi_st : aof d (-1) = -1;
  fi_nst : dv_pdown d = false /\ dv_pmotion d = false /\ dv_pup d = false;
  fi_cur : f_cur f = Z.of_nat (dv_cur d); fi_in : (dv_cur d < N)%nat; fi_len : length (dv_slots d) = N;
  fi_pl : pl = true -> dv_arb d = A_NOT_ACTIVE /\ Forall (fun s => sl_palm s = P_NONE) (dv_slots d);
  fi_slot : forall j s, nth_error (dv_slots d) j = Some s ->
    let z := Z.of_nat j in
    (f_down f z = true <-> sl_state s = S_BEGIN \/ sl_state s = S_UPDATE) /\
    (sl_dirty s = false -> (sl_state s = S_UPDATE \/ sl_state s = S_NONE) /\ f_sync f z = f_down f z) /\
    (sl_dirty s = true -> dv_pmt d = true) /\
    (sl_state s = S_UPDATE -> f_sync f z = true) /\
    (sv (dv_touch d) s <> -1 -> f_sync f z = true /\ fingerlike (sl_palm s) /\ sl_state s <> S_NONE) /\
    (pl = false -> sl_state s = S_BEGIN -> sv (dv_touch d) s = -1) /\
    (dv_hyst d = false -> sl_point s = f_pos f z)
}.

Lemma Fi_pre : forall pl N d f, Fi pl N d f -> Forall (slot_pre d) (dv_slots d).
Proof.
  intros pl N d f H. apply Forall_forall. intros s I. apply In_nth_error in I. destruct I as [j E].
  destruct (fi_slot _ _ _ _ H j s E) as (A & B & C & D & F & G & K). split.
  - intros X. destruct (F X) as (_ & ? & ?). auto.
  - destruct pl; [right|left; auto]. destruct (fi_pl _ _ _ _ H eq_refl) as [P Q]. split; auto.
    rewrite Forall_forall in Q. apply Q. eapply nth_error_In; eauto.
Qed.

Lemma handle_state_mt : forall m d t, dv_pdown d = false -> dv_pmotion d = false -> dv_pup d = false ->
  handle_state hyst m d t =
  let '(m3, l, o3, need3) := if dv_pmt d then flush_mt hyst d m (dv_slots d) 0 t false else (m, dv_slots d, [], false) in
  (m3, set_pend (set_slots d l) false false false false, o3 ++ (if need3 then [TFrame t] else [])).
Proof. intros m d t A B C. unfold handle_state. rewrite A, B. cbn [andb]. rewrite C. cbn. reflexivity. Qed.

Lemma Forall2_len : forall (A B : Type) (R : A -> B -> Prop) l l', Forall2 R l l' -> length l = length l'.
Proof. induction 1; cbn; auto. Qed.
Lemma Forall2_nth : forall (A B : Type) (R : A -> B -> Prop) l l', Forall2 R l l' ->
  forall j b, nth_error l' j = Some b -> exists a, nth_error l j = Some a /\ R a b.
Proof. induction 1; intros j b E; destruct j; cbn in *; try discriminate; eauto. inversion E; subst. eauto. Qed.

Lemma Fi_syn : forall pl N m d f t k, Fi pl N d f ->
  let '(_, d', o) := handle_state hyst m d t in
  Fi pl N d' (fstep k f (k, Syn t)) /\
  (forall u j n p, In (TDown u j n p) o \/ In (TMotion u j n p) o -> dv_hyst d = false -> p = f_pos f j).
Proof.
  intros pl N m d f t k H. destruct (fi_nst _ _ _ _ H) as (N1 & N2 & N3).
  rewrite handle_state_mt; auto.
  assert (P : let '(m', l', o, _) := (if dv_pmt d then flush_mt hyst d m (dv_slots d) 0 t false else (m, dv_slots d, [], false)) in
    Forall2 (fun s s' => if sl_dirty s then slot_post d s s' else s' = s) (dv_slots d) l' /\
    (forall u j n p, In (TDown u j n p) o \/ In (TMotion u j n p) o ->
       exists x s, nth_error (dv_slots d) x = Some s /\ j = 0 + Z.of_nat x /\ p = sl_point s)).
  { destruct (dv_pmt d) eqn:E.
    - apply flush_mt_fin. eapply Fi_pre; eauto.
    - split; [|cbn; tauto].
      assert (Q : forall l, Forall (fun s => sl_dirty s = false) l ->
        Forall2 (fun s s' => if sl_dirty s then slot_post d s s' else s' = s) l l).
      { induction l; intros X; constructor; inversion X; subst; auto. rewrite H2; auto. }
      apply Q. apply Forall_forall. intros s I. apply In_nth_error in I. destruct I as [j E'].
      destruct (fi_slot _ _ _ _ H j s E') as (_ & _ & C & _). destruct (sl_dirty s); auto. specialize (C eq_refl). congruence. }
  destruct (if dv_pmt d then _ else _) as [[[m3 l] o3] n3]. destruct P as [P1 P2]. split.
  - assert (Len : length l = length (dv_slots d)) by (symmetry; eapply Forall2_len; eauto).
    destruct H as [H1 H2 H3 H4 H5 H6 H7 H8 H9]. unfold fstep. cbn [fst snd]. rewrite Nat.eqb_refl. cbn [negb].
    split; cbn [dv_mt dv_inarb dv_pdown dv_pmotion dv_pup dv_cur dv_slots dv_arb dv_touch dv_pmt dv_hyst set_pend set_slots f_cur f_down f_sync f_pos]; auto.
    + congruence.
    + intros E. destruct (H8 E) as [A B]. split; auto. apply Forall_forall. intros s' I.
      apply In_nth_error in I. destruct I as [j E'].
      destruct (Forall2_nth _ _ _ _ _ P1 _ _ E') as (s & E1 & R). assert (sl_palm s = P_NONE).
      { rewrite Forall_forall in B. apply B. eapply nth_error_In; eauto. }
      destruct (sl_dirty s); [|congruence]. destruct R as (_ & _ & _ & R & _). auto.
    + intros j s' E'. destruct (Forall2_nth _ _ _ _ _ P1 _ _ E') as (s & E1 & R).
      specialize (H9 j s E1). cbv zeta in *. destruct H9 as (A & B & C & D & F & G & K).
      destruct (sl_dirty s) eqn:Dy.
      * destruct R as (R1 & R2 & R3 & R4 & R5). rewrite R2.
        split; [rewrite A; destruct (sl_state s); cbn; intuition discriminate|].
        split; [intros _; split; auto; destruct (sl_state s); cbn; auto|].
        split; [congruence|].
        split; [intros X; apply A; destruct (sl_state s); cbn in X; auto; discriminate|].
        split; [intros X; destruct (R3 X) as [Y Z]; rewrite R2 in Z; unfold fingerlike; rewrite Y, Z|].
        { split; [apply A; destruct (sl_state s); cbn in Z; auto; discriminate|]. split; auto. discriminate. }
        split; [intros _ X; destruct (sl_state s); discriminate|]. intros X. rewrite R5; auto.
      * subst s'. destruct (B eq_refl) as [B1 B2]. split; [auto|]. split; [auto|]. split; [congruence|].
        split; [intros X; apply A; auto|]. split; [|split; auto].
        intros X. destruct (F X) as (F1 & F2 & F3). split; auto. congruence.
  - intros u j n p I Hy. rewrite !in_app_iff in I.
    assert (C : In (TDown u j n p) o3 \/ In (TMotion u j n p) o3).
    { destruct n3; cbn in I; intuition discriminate. }
    destruct (P2 _ _ _ _ C) as (x & s & E & -> & ->). rewrite Z.add_0_l.
    destruct (fi_slot _ _ _ _ H x s E) as (_ & _ & _ & _ & _ & _ & K). auto.
Qed.

Lemma nth_update_len : forall f l n, length (update l n f) = length l.
Proof. induction l; intros n; cbn; auto. destruct n; cbn; auto. Qed.

(** events that change one slot *)
Lemma Fi_touch : forall pl N d f g f',
  Fi pl N d f -> f_cur f' = f_cur f -> f_sync f' = f_sync f ->
  (forall z, z <> f_cur f -> f_down f' z = f_down f z /\ f_pos f' z = f_pos f z) ->
  (forall s, sl_seat (g s) = sl_seat s) ->
  (pl = true -> forall s, sl_palm s = P_NONE -> sl_palm (g s) = P_NONE) ->
  (forall s, let z := f_cur f in
     (f_down f z = true <-> sl_state s = S_BEGIN \/ sl_state s = S_UPDATE) ->
     (sl_state s = S_UPDATE -> f_sync f z = true) ->
     (sv (dv_touch d) s <> -1 -> f_sync f z = true /\ fingerlike (sl_palm s) /\ sl_state s <> S_NONE) ->
     (pl = false -> sl_state s = S_BEGIN -> sv (dv_touch d) s = -1) ->
     (dv_hyst d = false -> sl_point s = f_pos f z) ->
     (f_down f' z = true <-> sl_state (g s) = S_BEGIN \/ sl_state (g s) = S_UPDATE) /\
     (sl_state (g s) = S_UPDATE -> f_sync f z = true) /\
     (sv (dv_touch d) s <> -1 -> fingerlike (sl_palm (g s)) /\ sl_state (g s) <> S_NONE) /\
     (pl = false -> sl_state (g s) = S_BEGIN -> sv (dv_touch d) s = -1) /\
     (dv_hyst d = false -> sl_point (g s) = f_pos f' z)) ->
  Fi pl N (touch_slot d g) f'.
Proof.
  intros pl N d f g f' H Ec Es Eo Hg Hpl Hs.
  assert (St : aof (touch_slot d g) (-1) = -1) by (rewrite <- aof_touch_slot; auto; apply fi_st with (1 := H)).
  destruct H as [H1 H2 H3 H4 H5 H6 H7 H8 H9].
  split; cbn [touch_slot dv_mt dv_inarb dv_pdown dv_pmotion dv_pup dv_cur dv_slots dv_arb dv_touch dv_pmt dv_hyst set_pend set_slots]; auto.
  - congruence.
  - rewrite nth_update_len. auto.
  - intros E. destruct (H8 E) as [A B]. split; auto. apply Forall_forall. intros s' I.
    apply In_nth_error in I. destruct I as [j E']. rewrite nth_update in E'.
    assert (Q : forall s, nth_error (dv_slots d) j = Some s -> sl_palm s = P_NONE).
    { intros s X. rewrite Forall_forall in B. apply B. eapply nth_error_In; eauto. }
    destruct (Nat.eqb j (dv_cur d)); [|auto]. destruct (nth_error (dv_slots d) j) eqn:X; [|discriminate].
    cbn in E'. inversion E'; subst. cbn. auto.
  - intros j s' E'. rewrite nth_update in E'. cbv zeta. rewrite Es.
    destruct (Nat.eqb_spec j (dv_cur d)) as [->|Hne].
    + destruct (nth_error (dv_slots d) (dv_cur d)) as [s|] eqn:X; [|discriminate]. cbn in E'. inversion E'; subst s'.
      cbn [sl_dirty sl_state sl_palm sl_point]. specialize (H9 _ _ X). cbv zeta in H9. rewrite <- H5 in *.
      destruct H9 as (A & B & C & D & F & G & K).
      destruct (Hs s A D F G K) as (S1 & S2 & S3 & S4 & S5).
      unfold sv in *. cbn [sl_seat]. rewrite Hg.
      split; auto. split; [discriminate|]. split; auto. split; auto. split; auto.
      intros Y. split; [apply F; auto|apply S3; auto].
    + specialize (H9 _ _ E'). cbv zeta in H9.
      destruct (Eo (Z.of_nat j)) as [Q1 Q2]; [rewrite H5; lia|]. rewrite Q1, Q2.
      destruct H9 as (A & B & C & D & F & G & K). auto 10.
Qed.

Lemma Fi_seats : forall pl N d d' f, Fi pl N d f ->
  dv_mt d' = dv_mt d -> dv_inarb d' = dv_inarb d -> dv_touch d' = dv_touch d -> dv_hyst d' = dv_hyst d ->
  dv_pdown d' = dv_pdown d -> dv_pmotion d' = dv_pmotion d -> dv_pup d' = dv_pup d -> dv_pmt d' = dv_pmt d ->
  dv_cur d' = dv_cur d -> (pl = true -> dv_arb d' = A_NOT_ACTIVE) -> aof d' (-1) = -1 ->
  Forall2 (fun s s' => sl_dirty s' = sl_dirty s /\ sl_state s' = sl_state s /\ sl_palm s' = sl_palm s /\ sl_point s' = sl_point s /\
      (sv (dv_touch d) s' <> -1 -> sv (dv_touch d) s' = sv (dv_touch d) s)) (dv_slots d) (dv_slots d') ->
  Fi pl N d' f.
Proof.
  intros pl N d d' f H E1 E2 E3 E4 E5 E6 E7 E8 E9 E10 E11 F2.
  destruct H as [H1 H2 H3 H4 H5 H6 H7 H8 H9]. split; rewrite ?E1, ?E2, ?E3, ?E4, ?E5, ?E6, ?E7, ?E8, ?E9; auto.
  - rewrite <- H7. symmetry. eapply Forall2_len; eauto.
  - intros P. split; auto. destruct (H8 P) as [_ B]. apply Forall_forall. intros s' I. apply In_nth_error in I. destruct I as [j E].
    destruct (Forall2_nth _ _ _ _ _ F2 _ _ E) as (s & X & _ & _ & Y & _). rewrite Y.
    rewrite Forall_forall in B. apply B. eapply nth_error_In; eauto.
  - intros j s' E. destruct (Forall2_nth _ _ _ _ _ F2 _ _ E) as (s & X & Y1 & Y2 & Y3 & Y4 & Y5).
    specialize (H9 j s X). cbv zeta in *. rewrite Y1, Y2, Y3, Y4.
    destruct H9 as (A & B & C & D & F & G & K).
    repeat (split; [solve [auto]|]). split; [|split; auto].
    + intros Q. specialize (Y5 Q). rewrite Y5 in Q. auto.
    + intros P Q. destruct (Z.eq_dec (sv (dv_touch d) s') (-1)) as [|Z]; auto. rewrite (Y5 Z). auto.
Qed.

Lemma cancel_slots_f2 : forall touch r l m i t, let '(_, l', _) := cancel_slots touch r m l i t in
  Forall2 (fun s s' => sl_dirty s' = sl_dirty s /\ sl_state s' = sl_state s /\ sl_palm s' = sl_palm s /\ sl_point s' = sl_point s /\
      (sv touch s' <> -1 -> sv touch s' = sv touch s)) l l'.
Proof.
  induction l as [|s l IH]; intros m i t; cbn [cancel_slots]; [constructor|].
  set (x := if _ && _ then _ else _).
  assert (P : let '(_, s', _) := x in sl_dirty s' = sl_dirty s /\ sl_state s' = sl_state s /\ sl_palm s' = sl_palm s /\ sl_point s' = sl_point s /\
      (sv touch s' <> -1 -> sv touch s' = sv touch s)).
  { subst x. destruct (_ && _); [|auto 10]. unfold mt_cancel, sv. destruct touch; cbn; [|auto 10].
    destruct (sl_seat s =? -1); cbn; repeat split; auto; congruence. }
  destruct x as [[m1 s1] o1]. specialize (IH m1 (i + 1) t).
  destruct (cancel_slots _ _ _ _ _ _) as [[m2 l2] o2]. constructor; auto.
Qed.

Lemma Fi_cancel : forall pl N m d f r t, Fi pl N d f ->
  let '(_, d', _) := cancel_touches m d r t in Fi pl N d' f.
Proof.
  intros pl N m d f r t H. pose proof (cancel_touches_k m d r t) as K.
  assert (P : let '(_, d', _) := cancel_touches m d r t in dv_hyst d' = dv_hyst d /\ dv_cur d' = dv_cur d /\ aof d' (-1) = -1 /\
    Forall2 (fun s s' => sl_dirty s' = sl_dirty s /\ sl_state s' = sl_state s /\ sl_palm s' = sl_palm s /\ sl_point s' = sl_point s /\
      (sv (dv_touch d) s' <> -1 -> sv (dv_touch d) s' = sv (dv_touch d) s)) (dv_slots d) (dv_slots d')).
  { unfold cancel_touches.
    set (x := if match r with None => true | Some r0 => in_rect (dv_abs d) r0 end then _ else _).
    assert (X : let '(_, d', _) := x in dv_hyst d' = dv_hyst d /\ dv_cur d' = dv_cur d /\ aof d' (-1) = -1 /\ dv_slots d' = dv_slots d /\ dv_touch d' = dv_touch d).
    { pose proof (fi_st _ _ _ _ H) as S. subst x. destruct (match r with None => true | Some r0 => in_rect (dv_abs d) r0 end); [|auto 10].
      unfold st_cancel. rewrite aof_st_val in S. destruct (dv_touch d) eqn:T; cbn [negb].
      - rewrite S. cbn. unfold aof. cbn. rewrite T. auto 10.
      - unfold aof. cbn. rewrite T. auto 10. }
    destruct x as [[m1 d1] o1]. destruct X as (X1 & X2 & X3 & X4 & X5). rewrite X4, X5.
    pose proof (cancel_slots_f2 (dv_touch d) r (dv_slots d) m1 0 t) as P.
    destruct (cancel_slots _ _ _ _ _ _) as [[m2 l2] o2]. cbn. repeat (split; [solve [auto]|]). auto. }
  destruct (cancel_touches m d r t) as [[m' d'] o]. destruct P as (P1 & P2 & P3 & P4).
  destruct K as (K1 & K2 & K3 & K4 & K5 & K6 & K7 & K8 & K9 & K10).
  eapply Fi_seats; eauto. intros E. rewrite K6. apply (fi_pl _ _ _ _ H); auto.
Qed.

Lemma Fi_same : forall pl N d f x, Fi pl N d f ->
  (pl = true -> fst x = A_NOT_ACTIVE) ->
  Fi pl N (set_arb d (dv_inarb d) (fst x) (fst (snd x)) (snd (snd x))) f.
Proof.
  intros pl N d f x H E. eapply Fi_seats; eauto; try apply H.
  clear. cbn. induction (dv_slots d); constructor; auto 10.
Qed.

(** one operation on device [k] *)
Lemma Fi_step : forall pl N m d f k o, Fi pl N d f ->
  (forall v, o = Slot v -> 0 <= v < Z.of_nat N) ->
  (forall r t, o <> Arbitrate A_IGNORE_ALL r t) ->
  (pl = true -> (forall v, o <> Track v true) /\ o <> Tool true /\ (forall a r t, o <> Arbitrate a r t)) ->
  (pl = false -> forall v p, o = Track v p -> 0 <= v -> f_sync f (f_cur f) = false) ->
  let '(_, d', l) := tstep hyst m d o in
  Fi pl N d' (fstep k f (k, o)) /\
  (forall u j n p, In (TDown u j n p) l \/ In (TMotion u j n p) l -> dv_hyst d = false -> p = f_pos f j).
Proof.
  intros pl N m d f k o H Hsl Hmu Hpl Hsp.
  pose proof (fi_mt _ _ _ _ H) as M. pose proof (fi_arb _ _ _ _ H) as I.
  assert (T : forall d', Fi pl N d' (fstep k f (k, o)) ->
    Fi pl N d' (fstep k f (k, o)) /\
    (forall u j n p, In (TDown u j n p) [] \/ In (TMotion u j n p) [] -> dv_hyst d = false -> p = f_pos f j)).
  { intros d' X. split; auto. cbn. tauto. }
  destruct o as [v|v p|v|v|p|v|v|v|t|t|w r t|r|t]; unfold tstep; cbv beta zeta; rewrite ?I, ?M.
  - apply T. unfold fstep. cbn [fst snd]. rewrite Nat.eqb_refl. cbn [negb].
    specialize (Hsl v eq_refl). unfold process_slot. rewrite (fi_len _ _ _ _ H).
    destruct (Z.ltb_spec v 0), (Z.leb_spec (Z.of_nat N) v); try lia. cbn [orb].
    destruct H as [F1 F2 F3 F4 F5 F6 F7 F8 F9]. split; cbn; auto; try lia.
  - apply T. unfold fstep. cbn [fst snd]. rewrite Nat.eqb_refl. cbn [negb].
    unfold process_track. apply Fi_touch with (f := f); auto; cbn [f_cur f_down f_sync f_pos].
    + intros z Hz. destruct (Z.eqb_spec z (f_cur f)); [contradiction|auto].
    + intros s. destruct (0 <=? v); auto.
    + intros E s X. destruct (0 <=? v); auto. cbn. destruct (Hpl E) as [Hp _].
      destruct p; [exfalso; eapply Hp; eauto|]. rewrite andb_false_r. auto.
    + intros s. cbv zeta. intros A D F G K. rewrite Z.eqb_refl.
      destruct (Z.leb_spec 0 v); cbn [sl_state sl_palm sl_point].
      * split; [tauto|]. split; [discriminate|]. split; [|split; auto].
        -- intros X. destruct (F X) as (F1 & F2 & F3). split; [|discriminate].
           destruct pl.
           ++ destruct (Hpl eq_refl) as [Hp _]. destruct p; [exfalso; eapply Hp; eauto|]. rewrite andb_false_r. left; auto.
           ++ specialize (Hsp eq_refl v p eq_refl ltac:(lia)). congruence.
        -- intros E _. specialize (Hsp E v p eq_refl ltac:(lia)).
           destruct (Z.eq_dec (sv (dv_touch d) s) (-1)) as [|X]; auto. destruct (F X). congruence.
      * split; [intuition discriminate|]. split; [discriminate|]. split; [|split; auto; discriminate].
        intros X. destruct (F X) as (F1 & F2 & F3). split; auto. discriminate.
  - apply T. unfold fstep. cbn [fst snd]. rewrite Nat.eqb_refl. cbn [negb].
    unfold process_x. apply Fi_touch with (f := f); auto; cbn [f_cur f_down f_sync f_pos].
    + intros z Hz. destruct (Z.eqb_spec z (f_cur f)); [contradiction|auto].
    + intros s. cbv zeta. cbn. rewrite Z.eqb_refl. intros A D F G K.
      split; auto. split; auto. split; [intros X; apply F; auto|]. split; auto. intros E. rewrite K; auto.
  - apply T. unfold fstep. cbn [fst snd]. rewrite Nat.eqb_refl. cbn [negb].
    unfold process_y. apply Fi_touch with (f := f); auto; cbn [f_cur f_down f_sync f_pos].
    + intros z Hz. destruct (Z.eqb_spec z (f_cur f)); [contradiction|auto].
    + intros s. cbv zeta. cbn. rewrite Z.eqb_refl. intros A D F G K.
      split; auto. split; auto. split; [intros X; apply F; auto|]. split; auto. intros E. rewrite K; auto.
  - apply T. unfold fstep. cbn [fst snd]. rewrite Nat.eqb_refl. cbn [negb].
    unfold process_tool. apply Fi_touch with (f := f); auto.
    + intros E s X. cbn. destruct (Hpl E) as (_ & Hp & _). destruct p; [congruence|]. rewrite X. auto.
    + intros s. cbv zeta. cbn. intros A D F G K.
      split; auto. split; auto. split; [|split; auto]. intros X. destruct (F X) as (F1 & F2 & F3). split; auto.
      unfold fingerlike in *. destruct F2 as [->| ->], p; auto.
  - apply T. unfold fstep. cbn [fst snd]. rewrite Nat.eqb_refl. auto.
  - apply T. unfold fstep. cbn [fst snd]. rewrite Nat.eqb_refl. auto.
  - apply T. unfold fstep. cbn [fst snd]. rewrite Nat.eqb_refl. auto.
  - apply Fi_syn. auto.
  - pose proof (Fi_cancel pl N m d f None t H) as P. pose proof (cancel_touches_ev m d None t) as Q.
    destruct (cancel_touches _ _ _ _) as [[m' d'] l]. unfold fstep. cbn [fst snd]. rewrite Nat.eqb_refl. cbn [negb].
    split; auto. destruct Q as [(ev & fr & -> & Q1 & Q2) _]. intros u j n p C. exfalso.
    rewrite Forall_forall in Q1. rewrite !in_app_iff in C.
    assert (D : In (TDown u j n p) fr \/ In (TMotion u j n p) fr).
    { destruct C as [[C|C]|[C|C]]; auto; apply Q1 in C; contradiction. }
    destruct Q2 as [->|[_ ->]]; cbn in D; intuition discriminate.
  - assert (E : fstep k f (k, Arbitrate w r t) = f) by (unfold fstep; cbn; rewrite Nat.eqb_refl; auto). rewrite E in *.
    assert (pl = false). { destruct pl; auto. destruct (Hpl eq_refl) as (_ & _ & X). exfalso. eapply X; eauto. } subst pl.
    unfold toggle_touch. destruct (arb_eqb w (dv_arb d)); [apply T; auto|]. destruct w.
    + apply T. apply (Fi_same false N d f (A_NOT_ACTIVE, (dv_rect d, Some (t + 90000)))); auto.
    + exfalso. eapply Hmu; eauto.
    + pose proof (Fi_cancel false N m d f (Some r) t H) as P. pose proof (cancel_touches_ev m d (Some r) t) as Q.
      destruct (cancel_touches _ _ _ _) as [[m' d'] l].
      split; [apply (Fi_same false N d' f (A_IGNORE_RECT, (r, dv_timer d'))); auto; discriminate|].
      destruct Q as [(ev & fr & -> & Q1 & Q2) _]. intros u j n p C. exfalso.
      rewrite Forall_forall in Q1. rewrite !in_app_iff in C.
      assert (D : In (TDown u j n p) fr \/ In (TMotion u j n p) fr).
      { destruct C as [[C|C]|[C|C]]; auto; apply Q1 in C; contradiction. }
      destruct Q2 as [->|[_ ->]]; cbn in D; intuition discriminate.
  - apply T. unfold fstep. cbn [fst snd]. rewrite Nat.eqb_refl. cbn [negb].
    pose proof (Fi_same pl N d f (dv_arb d, (r, dv_timer d)) H) as P. rewrite I in P. apply P. intros E. apply (fi_pl _ _ _ _ H E).
  - apply T. unfold fstep. cbn [fst snd]. rewrite Nat.eqb_refl. cbn [negb].
    pose proof (Fi_same pl N d f (dv_arb d, (dv_rect d, None)) H) as P. rewrite I in P. apply P. intros E. apply (fi_pl _ _ _ _ H E).
Qed.

Definition cond (pl : bool) (k : nat) (f : fingers) (ops : list (nat * top)) : Prop :=
  if pl then plain k ops else spaced k f ops.

Lemma hyst_const : forall m d o, let '(_, d', _) := tstep hyst m d o in dv_hyst d' = dv_hyst d /\ dv_touch d' = dv_touch d.
Proof.
  intros m d o.
  assert (C : forall d r t, let '(_, d', _) := cancel_touches m d r t in dv_hyst d' = dv_hyst d /\ dv_touch d' = dv_touch d).
  { intros d0 r t. unfold cancel_touches.
    set (x := if match r with None => true | Some r0 => in_rect (dv_abs d0) r0 end then _ else _).
    assert (X : let '(_, d', _) := x in dv_hyst d' = dv_hyst d0 /\ dv_touch d' = dv_touch d0).
    { subst x. destruct (match r with None => true | Some r0 => in_rect (dv_abs d0) r0 end); auto.
      unfold st_cancel. destruct (dv_touch d0) eqn:T, (dv_st d0 =? -1); cbn; auto. }
    destruct x as [[m1 d1] o1]. destruct (cancel_slots _ _ _ _ _ _) as [[m2 l] o2]. auto. }
  destruct o as [v|v p|v|v|p|v|v|v|t|t|w r t|r|t]; unfold tstep; cbv beta zeta.
  1-7: destruct (dv_inarb d); auto; destruct (dv_mt d); auto.
  - destruct (dv_inarb d); auto; destruct (dv_mt d); auto. destruct (v =? 2); auto. destruct (v =? 0); auto.
  - destruct (dv_inarb d); auto. unfold handle_state.
    set (x := if dv_pdown d then _ else _).
    assert (X : let '(_, d', _) := x in dv_hyst d' = dv_hyst d /\ dv_touch d' = dv_touch d).
    { subst x. destruct (dv_pdown d).
      - unfold st_down. destruct (dv_touch d) eqn:T, (dv_st d =? -1), (first_free m =? -1); cbn; auto.
      - destruct (dv_pmotion d && dv_touch d); auto. unfold st_motion. destruct (dv_st d =? -1); auto. }
    destruct x as [[m1 d1] o1].
    set (y := if dv_pup d1 then _ else _).
    assert (Y : let '(_, d', _) := y in dv_hyst d' = dv_hyst d1 /\ dv_touch d' = dv_touch d1).
    { subst y. destruct (dv_pup d1); auto. unfold st_up. destruct (dv_touch d1) eqn:T, (dv_st d1 =? -1); cbn; auto. }
    destruct y as [[m2 d2] o2]. cbv zeta.
    destruct (if dv_pmt d2 then _ else _) as [[[m3 l] o3] n3]. cbn. intuition congruence.
  - apply C.
  - unfold toggle_touch. destruct (arb_eqb w (dv_arb d)); auto. destruct w; auto.
    + specialize (C (set_arb d (dv_inarb d) (dv_arb d) (dv_rect d) None) None t).
      destruct (cancel_touches _ _ _ _) as [[? ?] ?]. auto.
    + specialize (C d (Some r) t). destruct (cancel_touches _ _ _ _) as [[? ?] ?]. auto.
  - auto.
  - auto.
Qed.

Lemma Fi_run : forall pl N k ops w f, Fi pl N (w_dev w k) f ->
  slots_ok k (Z.of_nat N) ops -> not_muted k ops -> cond pl k f ops ->
  Fi pl N (w_dev (fst (wrun hyst w ops)) k) (fingers_after k f ops) /\
  dv_hyst (w_dev (fst (wrun hyst w ops)) k) = dv_hyst (w_dev w k) /\
  dv_touch (w_dev (fst (wrun hyst w ops)) k) = dv_touch (w_dev w k).
Proof.
  induction ops as [|[j o] ops IH]; intros w f H H1 H2 H3; cbn [wrun fingers_after fold_left]; auto.
  assert (P : Fi pl N (w_dev (fst (wstep hyst w (j, o))) k) (fstep k f (j, o)) /\
    dv_hyst (w_dev (fst (wstep hyst w (j, o))) k) = dv_hyst (w_dev w k) /\
    dv_touch (w_dev (fst (wstep hyst w (j, o))) k) = dv_touch (w_dev w k)).
  { destruct (Nat.eq_dec k j) as [->|Hne].
    - pose proof (Fi_step pl N (w_map w) (w_dev w j) f j o H) as P. pose proof (hyst_const (w_map w) (w_dev w j) o) as Q.
      unfold wstep. destruct (tstep _ _ _ _) as [[m d] l]. cbn [fst w_dev]. rewrite Nat.eqb_refl.
      split; auto. apply P.
      + intros v ->. apply H1. left; auto.
      + intros r t ->. eapply H2. left; eauto.
      + intros ->. destruct H3 as (A & B & C). split; [|split].
        * intros v ->. eapply A. left; eauto.
        * intros ->. apply B. left; auto.
        * intros a r t ->. eapply C. left; eauto.
      + intros ->. destruct H3 as [A _]. intros v p -> Hv. eapply A; eauto.
    - rewrite wstep_other; auto. split; auto. unfold fstep. cbn [fst]. destruct (Nat.eqb_spec j k); [congruence|]. auto. }
  assert (Q : cond pl k (fstep k f (j, o)) ops).
  { destruct pl; cbn in *; [|tauto]. destruct H3 as (A & B & C). split; [|split].
    - intros v I. eapply A. right; eauto.
    - intros I. apply B. right; auto.
    - intros a r t I. eapply C. right; eauto. }
  destruct (wstep hyst w (j, o)) as [w1 o1]. cbn [fst] in P. destruct P as (P1 & P2 & P3).
  specialize (IH w1 (fstep k f (j, o)) P1).
  destruct (wrun hyst w1 ops) as [w2 o2]. cbn [fst] in *. unfold fingers_after in *.
  rewrite <- P2, <- P3. apply IH; auto.
  - intros v I. apply H1. right; auto.
  - intros r t I. eapply H2. right; eauto.
Qed.

Lemma Fi_init : forall pl touch hp hy ab pts cur, (cur < length pts)%nat ->
  Fi pl (length pts) (dev_init touch true hp hy ab true pts cur) (fingers_init pts cur).
Proof.
  intros pl touch hp hy ab pts cur H. split; cbn; auto.
  - unfold aof. cbn. destruct touch; auto.
  - rewrite map_length. auto.
  - intros _. split; auto. apply Forall_map, Forall_forall. auto.
  - intros j s E. rewrite nth_error_map in E. destruct (nth_error pts j) eqn:X; [|discriminate]. cbn in E.
    inversion E; subst. cbn. unfold sv. cbn. repeat split; auto; try discriminate; try (intuition discriminate).
    + destruct touch; congruence.
    + destruct touch; left; auto.
    + destruct touch; congruence.
    + intros. rewrite Nat2Z.id. symmetry. apply nth_error_nth. auto.
Qed.

Lemma lifted_lemma : forall w ops k touch hp hy ab pts cur, new_seat w ->
  w_dev w k = dev_init touch true hp hy ab true pts cur -> (cur < length pts)%nat ->
  let f0 := fingers_init pts cur in
  slots_ok k (Z.of_nat (length pts)) ops -> not_muted k ops -> spaced k f0 ops \/ plain k ops ->
  exists v, legal [] (snd (wrun hyst w ops)) v /\
    forall i n, In (k, i, n) v -> f_sync (fingers_after k f0 ops) i = true.
Proof.
  intros w ops k touch hp hy ab pts cur H E Hc f0 H1 H2 H3.
  pose proof (wrun_sound hyst ops w [] (J_init w H)) as P.
  assert (F : exists pl, Fi pl (length pts) (w_dev (fst (wrun hyst w ops)) k) (fingers_after k f0 ops)).
  { destruct H3 as [H3|H3]; [exists false|exists true]; apply Fi_run; auto; rewrite E; apply Fi_init; auto. }
  destruct F as [pl F]. destruct (wrun hyst w ops) as [w' o']. cbn [fst snd] in *.
  destruct P as (v & J1 & L). exists v. split; auto. intros i n I. apply (j_view _ _ _ J1) in I.
  destruct I as [I N]. unfold aw in I. destruct (Z.eq_dec i (-1)) as [->|Hi].
  - rewrite (fi_st _ _ _ _ F) in I. congruence.
  - unfold aof in I. destruct (Z.eqb_spec i (-1)); [contradiction|]. destruct (Z.ltb_spec i 0); [congruence|].
    destruct (nth_error _ _) as [s|] eqn:X; [|congruence].
    destruct (fi_slot _ _ _ _ F _ _ X) as (_ & _ & _ & _ & G & _). rewrite Z2Nat.id in G by lia.
    apply G. congruence.
Qed.

Lemma position_lemma : forall w ops k touch hp ab pts cur t, new_seat w ->
  w_dev w k = dev_init touch true hp false ab true pts cur -> (cur < length pts)%nat ->
  let f0 := fingers_init pts cur in
  slots_ok k (Z.of_nat (length pts)) ops -> not_muted k ops -> spaced k f0 ops \/ plain k ops ->
  forall u i n p, let outs := snd (wstep hyst (fst (wrun hyst w ops)) (k, Syn t)) in
    In (k, TDown u i n p) outs \/ In (k, TMotion u i n p) outs -> p = f_pos (fingers_after k f0 ops) i.
Proof.
  intros w ops k touch hp ab pts cur t H E Hc f0 H1 H2 H3 u i n p outs I.
  assert (F : exists pl, Fi pl (length pts) (w_dev (fst (wrun hyst w ops)) k) (fingers_after k f0 ops) /\
     dv_hyst (w_dev (fst (wrun hyst w ops)) k) = dv_hyst (w_dev w k)).
  { destruct H3 as [H3|H3]; [exists false|exists true];
      (match goal with |- Fi ?pl _ _ _ /\ _ => destruct (Fi_run pl (length pts) k ops w f0) as (A & B & C) end); auto; rewrite E; apply Fi_init; auto. }
  destruct F as (pl & F & Hy). rewrite E in Hy. cbn in Hy.
  remember (fst (wrun hyst w ops)) as w1. subst outs.
  unfold wstep, tstep in I. rewrite (fi_arb _ _ _ _ F) in I.
  pose proof (Fi_syn pl (length pts) (w_map w1) (w_dev w1 k) _ t k F) as P.
  destruct (handle_state hyst (w_map w1) (w_dev w1 k) t) as [[m d] l]. cbn [snd] in I. destruct P as [_ P].
  apply P with (u := u) (n := n); auto. rewrite !in_map_iff in I.
  destruct I as [(e & X & I)|(e & X & I)]; inversion X; subst; auto.
Qed.

(** *** New contacts are reported *)
Lemma flush_mt_app : forall d l1 l2 m i t sent,
  flush_mt hyst d m (l1 ++ l2) i t sent =
  let '(m1, a, o1, s1) := flush_mt hyst d m l1 i t sent in
  let '(m2, b, o2, s2) := flush_mt hyst d m1 l2 (i + Z.of_nat (length l1)) t s1 in
  (m2, a ++ b, o1 ++ o2, s2).
Proof.
  induction l1 as [|s l1 IH]; intros l2 m i t sent; cbn [app flush_mt length].
  - rewrite Z.add_0_r. destruct (flush_mt _ _ _ _ _ _ _) as [[[? ?] ?] ?]. auto.
  - replace (i + Z.of_nat (S (length l1))) with (i + 1 + Z.of_nat (length l1)) by lia.
    destruct (sl_dirty s); cbn [negb].
    + destruct (flush_slot hyst d m s i t) as [[[m1 s1] o1] sn]. rewrite IH.
      destruct (flush_mt _ _ _ l1 _ _ _) as [[[? ?] ?] ?]. destruct (flush_mt _ _ _ l2 _ _ _) as [[[? ?] ?] ?].
      cbn. rewrite app_assoc. auto.
    + rewrite IH. destruct (flush_mt _ _ _ l1 _ _ _) as [[[? ?] ?] ?]. destruct (flush_mt _ _ _ l2 _ _ _) as [[[? ?] ?] ?]. auto.
Qed.

Lemma reported_lemma : forall w ops k hp hy ab pts cur t j, new_seat w ->
  w_dev w k = dev_init true true hp hy ab true pts cur -> (cur < length pts)%nat ->
  let f0 := fingers_init pts cur in
  let f := fingers_after k f0 ops in
  slots_ok k (Z.of_nat (length pts)) ops -> plain k ops ->
  0 <= j < Z.of_nat (length pts) -> f_sync f j = false -> f_down f j = true ->
  let outs := snd (wstep hyst (fst (wrun hyst w ops)) (k, Syn t)) in
  (exists n p, In (k, TDown t j n p) outs) \/
  (exists o1 o2 v1, outs = o1 ++ o2 /\ legal [] (snd (wrun hyst w ops) ++ o1) v1 /\
     forall n, 0 <= n < 32 -> exists k' i', In (k', i', n) v1).
Proof.
  intros w ops k hp hy ab pts cur t j H E Hc f0 f H1 H3 Hj Hs Hd outs.
  destruct (Fi_run true (length pts) k ops w f0) as (F & _ & T); auto.
  { rewrite E. apply Fi_init; auto. }
  { intros r u I. destruct H3 as (_ & _ & A). eapply A; eauto. }
  fold f in F. rewrite E in T. cbn in T.
  pose proof (wrun_sound hyst ops w [] (J_init w H)) as P.
  remember (fst (wrun hyst w ops)) as w1. destruct (wrun hyst w ops) as [w' o']. cbn [fst snd] in *. subst w'.
  destruct P as (v & J1 & L1).
  set (d := w_dev w1 k) in *.
  destruct (nth_error (dv_slots d) (Z.to_nat j)) as [s|] eqn:X.
  2:{ apply nth_error_None in X. rewrite (fi_len _ _ _ _ F) in X. lia. }
  destruct (fi_slot _ _ _ _ F _ _ X) as (A & B & C & D & G & _ & _). rewrite Z2Nat.id in * by lia.
  assert (St : sl_state s = S_BEGIN) by (apply A in Hd; destruct Hd as [|Hd]; auto; apply D in Hd; congruence).
  assert (Dy : sl_dirty s = true).
  { destruct (sl_dirty s) eqn:Dy; auto. destruct (B eq_refl) as [[Y|Y] _]; congruence. }
  assert (Se : sl_seat s = -1).
  { destruct (Z.eq_dec (sl_seat s) (-1)); auto. destruct G as [G _]; [unfold sv; rewrite T; auto|]. congruence. }
  assert (Pa : sl_palm s = P_NONE /\ dv_arb d = A_NOT_ACTIVE).
  { destruct (fi_pl _ _ _ _ F eq_refl) as [Y Z]. split; auto. rewrite Forall_forall in Z. apply Z. eapply nth_error_In; eauto. }
  destruct Pa as [Pa Ar].
  apply nth_error_split in X. destruct X as (l1 & l2 & X & Ll).
  destruct (fi_nst _ _ _ _ F) as (N1 & N2 & N3).
  subst outs. unfold wstep, tstep. fold d. rewrite (fi_arb _ _ _ _ F). rewrite handle_state_mt; auto. rewrite (C Dy).
  pose proof (aof_agrees d) as Ag. rewrite X in Ag |- *.
  pose proof (flush_mt_sound hyst k d l1 (w_map w1) 0 t false (aof d)) as S1.
  rewrite flush_mt_app.
  destruct (flush_mt hyst d (w_map w1) l1 0 t false) as [[[m1 a1] o1] s1].
  destruct S1 as [_ S1].
  { intros q s0 Q. apply Ag. rewrite nth_error_app1; auto. apply nth_error_Some. congruence. }
  destruct (S1 (aw w1) v) as (v1 & Jv & Lv).
  { eapply J_ext; [|exact J1]. intros q i. unfold ov, aw. destruct (Nat.eqb_spec q k); subst; auto. }
  cbn [flush_mt]. rewrite Dy. cbn [negb]. unfold flush_slot. cbn [sl_palm sl_state]. rewrite Pa, St.
  unfold arbitrate. rewrite Ar. unfold mt_down. rewrite T. cbn [negb sl_seat]. rewrite Se. cbn [Z.eqb negb Z.opp Pos.eqb].
  change (-1 =? -1) with true. cbn [negb].
  rewrite Z.add_0_l, Ll, Z2Nat.id by lia.
  destruct (first_free_spec m1) as [[Ff Fa]|(Ff & _)].
  - right. rewrite Ff. change (-1 =? -1) with true. cbn [nonempty app].
    destruct (flush_mt _ _ _ l2 _ _ _) as [[[m2 b] o2] s2]. cbn [snd].
    exists (map (fun e => (k, e)) o1), (map (fun e => (k, e)) (o2 ++ (if s2 then [TFrame t] else []))), v1.
    split; [rewrite <- map_app; f_equal; rewrite <- !app_assoc; auto|]. split; [eapply legal_app; eauto|].
    intros n Hn. specialize (Fa n Hn). apply (j_map _ _ _ Jv) in Fa; [|lia]. destruct Fa as (k' & i' & Q).
    exists k', i'. apply (j_view _ _ _ Jv). split; auto. lia.
  - left. destruct (Z.eqb_spec (first_free m1) (-1)); [lia|]. cbn [nonempty].
    destruct (flush_mt _ _ _ l2 _ _ _) as [[[m2 b] o2] s2]. cbn [snd].
    exists (first_free m1), (sl_point s). apply (in_map (fun e => (k, e))). apply in_or_app. left. apply in_or_app. right. cbn. left. reflexivity.
Qed.
End WithHyst.
