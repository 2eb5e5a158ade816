(** The unref functions keep the invariant. *)
Require Import Coq.ZArith.ZArith Coq.Lists.List Coq.Bool.Bool Coq.Arith.PeanoNat Coq.micromega.Lia.
Require Import Verif.Rc_Model Verif.Rc_Spec Verif.Rc_Proofs.
Import ListNotations.
Open Scope Z_scope.

Lemma counts_free : forall w w' u tmp ex x, counts w u (x :: tmp) ex -> Some x <> ex -> u x = 0 -> cnt x (tmp ++ holders w) = 0 ->
  live w' = upd (live w) x false -> (forall y, y <> x -> rc w' y = rc w y) -> knd w' = knd w -> (forall y, cnt y (holders w') = cnt y (holders w)) ->
  counts w' u tmp ex.
Proof.
  intros w w' u tmp ex x [A B C D] NE U0 C0 EL ER EK EH.
  assert (EE : forall y, cnt y (tmp ++ holders w') = cnt y (tmp ++ holders w)) by (intros; rewrite !cnt_app, EH; auto).
  assert (E1 : forall y, y <> x -> cnt y ((x :: tmp) ++ holders w) = cnt y (tmp ++ holders w)).
  { intros y N. rewrite <- app_comm_cons, cnt_cons. replace (Nat.eqb y x) with false; auto. symmetry. now apply Nat.eqb_neq. }
  constructor; auto.
  - intros y L N. rewrite EE. rewrite EL in L. destruct (Nat.eq_dec y x) as [->|NY]; [rewrite upd_same in L; discriminate|]. rewrite upd_other in L by auto.
    destruct (B y L N) as [B1 B2]. rewrite ER, <- E1 by auto. auto.
  - intros y L. rewrite EE. rewrite EL in L. destruct (Nat.eq_dec y x) as [->|NY]; auto. rewrite upd_other in L by auto. rewrite <- E1 by auto. auto.
  - intros d E. destruct (D d E) as (D1 & D2 & D3 & D4). assert (d <> x) by congruence. rewrite EE, EL, EK, upd_other, <- E1 by auto. auto.
Qed.
Lemma freed_step : forall w x, shape w None \/ True -> (forall y, In y (freed w) <-> (y < next w)%nat /\ live w y = false) -> live w x = true -> (x < next w)%nat ->
  forall y, In y (x :: freed w) <-> (y < next w)%nat /\ upd (live w) x false y = false.
Proof.
  intros w x _ H L LT y. cbn [In]. rewrite H. destruct (Nat.eq_dec y x) as [->|N]; [rewrite upd_same; intuition|rewrite upd_other by auto; intuition congruence].
Qed.
Lemma below : forall w ex x, shape w ex -> live w x = true -> (x < next w)%nat.
Proof. intros w ex x SH L. destruct (Nat.lt_ge_cases x (next w)) as [|G]; auto. apply (sh_fresh _ _ SH) in G. congruence. Qed.

(** Freeing keeps the shape, once the object is in no list *)
Lemma shape_free : forall w w' ex x, shape w ex -> live w x = true -> knd w x <> K_device -> same w w' -> cx_live w' = cx_live w -> bad w' = bad w ->
  live w' = upd (live w) x false -> freed w' = x :: freed w -> all w' = all w ->
  seats w' = del x (seats w) -> (In x (seats w) -> devs w x = []) -> (forall g, In g (groups w') -> In g (groups w) /\ g <> x) ->
  NoDup (gtools w') -> (forall t, In t (gtools w') -> In t (gtools w)) ->
  (forall d, In d (all w) -> NoDup (tools w' d) /\ (forall t, In t (tools w' d) -> In t (tools w d)) /\ NoDup (modes w' d) /\ (forall t, In t (modes w' d) -> In t (modes w d))) ->
  shape w' ex.
Proof.
  intros w w' ex x SH L NK [] EC EB EL EF EA ES EX EG NG IG ID. pose proof (below _ _ _ SH L) as LT. pose proof SH as SH0. destruct SH.
  constructor; rewrite ?EB, ?EC, ?EL, ?EF, ?EA, ?ES, ?sm_next, ?sm_knd, ?sm_devs, ?sm_seat_of, ?sm_home, ?sm_queue, ?sm_hand; auto.
  - intros y G. destruct (Nat.eq_dec y x) as [->|N]; [apply upd_same|rewrite upd_other; auto].
  - constructor; auto. rewrite sh_freed. intros [_ X]. congruence.
  - apply freed_step; auto.
  - now apply nodup_del.
  - intros s. rewrite in_del, sh_seats. destruct (Nat.eq_dec s x) as [->|N]; [rewrite upd_same; intuition discriminate|rewrite upd_other by auto; intuition].
  - intros g I. apply EG in I. destruct I as [I N]. rewrite upd_other by auto. auto.
  - intros d. rewrite sh_all. destruct (Nat.eq_dec d x) as [->|N]; [rewrite upd_same; intuition congruence|rewrite upd_other by auto; reflexivity].
  - intros s I. apply in_del in I. destruct I as [I _]. auto.
  - intros s I. destruct (Nat.eq_dec s x) as [->|N]; [destruct (in_dec Nat.eq_dec x (seats w)); auto|]. apply sh_rest. intros J. apply I. apply in_del. auto.
  - intros d I. destruct (sh_dev d I) as (D1 & D2 & D3 & D4 & D5 & D6). destruct (ID d I) as (I1 & I2 & I3 & I4). unfold dev_ok.
    rewrite sm_knd, sm_seat_of, sm_group_of, sm_home. split; [auto|split; [auto|split; [auto|split; [intros t J; apply D4; auto|split; [auto|intros t J; apply D6; auto]]]]].
  - intros e I. specialize (sh_events e I). unfold ev_ok in *. rewrite sm_knd, sm_home. auto.
Qed.

Definition only_dies (w w' : world) : Prop := forall x, live w' x = true -> live w x = true.
Lemma del_in_seats_devs : forall w u tmp ex s, inv w u tmp ex -> cnt s (tmp ++ holders w) = 0 -> In s (seats w) -> devs w s = [] .
Proof.
  intros w u tmp ex s [SH CT] Z I. destruct (devs w s) as [|d l] eqn:E; auto. exfalso. destruct (sh_devs _ _ SH s I) as [_ H].
  destruct (H d) as [A B]; [rewrite E; now left|]. apply cnt_not_in in Z. apply Z. apply in_or_app. right. unfold holders. apply in_or_app. right. apply in_or_app. right. apply in_or_app. left.
  apply in_flat_map. exists d. split; auto. unfold of_device. left. exact B.
Qed.
Lemma in_holders_seats : forall w s, In s (seats w) -> udev w = false -> In s (holders w).
Proof. intros w s I U. unfold holders. rewrite U. repeat (apply in_or_app; right). exact I. Qed.
Lemma unref_seat_ok : forall w u tmp ex s, inv w u (s :: tmp) ex -> knd w s = K_seat ->
  inv (unref_seat s w) u tmp ex /\ same w (unref_seat s w) /\ all (unref_seat s w) = all w /\ tools (unref_seat s w) = tools w /\ modes (unref_seat s w) = modes w.
Proof.
  intros w u tmp ex s IV K. destruct (drop_ok _ _ _ _ _ IV) as (E & L & NE & P & PO & ZE). unfold unref_seat. cbv zeta.
  assert (R : rc (drop s w) s = rc w s - 1) by (rewrite E; sm; apply upd_same). rewrite R.
  destruct (rc w s - 1 =? 0) eqn:Z.
  - apply Z.eqb_eq in Z. destruct (ZE Z) as [U0 C0]. clear PO.
    assert (IS : In s (seats w)) by (apply (sh_seats _ _ (proj1 IV)); auto).
    assert (C1 : cnt s ((s :: tmp) ++ holders w) = 1) by (rewrite <- app_comm_cons, cnt_cons, Nat.eqb_refl; lia).
    assert (DV : devs w s = []).
    { destruct IV as [SH CT]. destruct (devs w s) as [|d l] eqn:ED; auto. exfalso. destruct (sh_devs _ _ SH s IS) as [_ H]. destruct (H d) as [A B]; [rewrite ED; now left|].
      apply cnt_not_in in C0. apply C0. apply in_or_app. right. unfold holders. apply in_or_app. right. apply in_or_app. right. apply in_or_app. left.
      apply in_flat_map. exists d. split; auto. left. exact B. }
    assert (UD : udev w = true).
    { destruct (udev w) eqn:UD; auto. exfalso. apply cnt_not_in in C0. apply C0. apply in_or_app. right. now apply in_holders_seats. }
    destruct IV as [SH CT]. unfold destroy_seat, ctx. rewrite E. cbv zeta. sm. rewrite (sh_ctx _ _ SH). unfold free, touch. sm. rewrite L. cbv zeta. sm.
    match goal with |- inv ?W _ _ _ /\ _ => set (w' := W) end.
    assert (SM : same w w') by (constructor; reflexivity). split; [|auto].
    split.
    + apply (shape_free w w' ex s); auto; try reflexivity.
      * rewrite K. discriminate.
      * intros g I. split; auto. intros ->. apply (sh_groups _ _ SH) in I. destruct I. congruence.
      * apply (sh_ngtools _ _ SH).
      * intros d I. destruct (sh_dev _ _ SH d I) as (_ & _ & A & _ & B & _). auto.
    + apply (counts_free w w' u tmp ex s); auto; try reflexivity.
      * intros y N. unfold w'. sm. now apply upd_other.
      * intros y. unfold holders, w'. sm. rewrite UD. rewrite !cnt_app.
        rewrite (flat_del (devs w) (seats w) s y (sh_nseats _ _ SH) IS), DV, cnt_nil. unfold of_device. sm. lia.
  - apply Z.eqb_neq in Z. rewrite E in PO |- *. split; [apply PO; lia|]. split; [constructor; reflexivity|auto].
Qed.
Lemma unref_group_ok : forall w u tmp ex g, inv w u (g :: tmp) ex -> knd w g = K_group ->
  inv (unref_group g w) u tmp ex /\ same w (unref_group g w) /\ all (unref_group g w) = all w /\ tools (unref_group g w) = tools w /\ modes (unref_group g w) = modes w
  /\ seats (unref_group g w) = seats w.
Proof.
  intros w u tmp ex g IV K. destruct (drop_ok _ _ _ _ _ IV) as (E & L & NE & P & PO & ZE). unfold unref_group. cbv zeta.
  assert (R : rc (drop g w) g = rc w g - 1) by (rewrite E; sm; apply upd_same). rewrite R.
  destruct (rc w g - 1 =? 0) eqn:Z.
  - apply Z.eqb_eq in Z. destruct (ZE Z) as [U0 C0]. clear PO.
    destruct IV as [SH CT]. unfold destroy_group, ctx. rewrite E. cbv zeta. sm. rewrite (sh_ctx _ _ SH). unfold free, touch. sm. rewrite L. cbv zeta. sm.
    match goal with |- inv ?W _ _ _ /\ _ => set (w' := W) end.
    assert (SM : same w w') by (constructor; reflexivity). split; [|auto].
    split.
    + apply (shape_free w w' ex g); auto; try reflexivity.
      * rewrite K. discriminate.
      * unfold w'. sm. symmetry. apply del_none. intros I. apply (sh_seats _ _ SH) in I. destruct I. congruence.
      * intros I. apply (sh_seats _ _ SH) in I. destruct I. congruence.
      * intros h I. unfold w' in I. smi I. apply in_del in I. auto.
      * apply (sh_ngtools _ _ SH).
      * intros d I. destruct (sh_dev _ _ SH d I) as (_ & _ & A & _ & B & _). auto.
    + apply (counts_free w w' u tmp ex g); auto; try reflexivity.
      intros y N. unfold w'. sm. now apply upd_other.
  - apply Z.eqb_neq in Z. rewrite E in PO |- *. split; [apply PO; lia|]. split; [constructor; reflexivity|auto].
Qed.
(** What the unrefs of tools and mode groups leave alone *)
Lemma unref_tool_ok : forall w u tmp ex t, inv w u (t :: tmp) ex -> knd w t = K_tool -> (forall d, home w t = Some d -> live w d = true) ->
  inv (unref_tool t w) u tmp ex /\ same w (unref_tool t w) /\ all (unref_tool t w) = all w /\ modes (unref_tool t w) = modes w
  /\ (forall d, live w d = true -> d <> t -> live (unref_tool t w) d = true) /\ seats (unref_tool t w) = seats w.
Proof.
  intros w u tmp ex t IV K HO. destruct (drop_ok _ _ _ _ _ IV) as (E & L & NE & P & PO & ZE). unfold unref_tool. cbv zeta.
  assert (R : rc (drop t w) t = rc w t - 1) by (rewrite E; sm; apply upd_same). rewrite R.
  destruct (0 <? rc w t - 1) eqn:Z.
  - apply Z.ltb_lt in Z. rewrite E in PO |- *. split; [apply PO; lia|]. split; [constructor; reflexivity|auto].
  - apply Z.ltb_ge in Z. assert (Z0 : rc w t - 1 = 0) by lia. destruct (ZE Z0) as [U0 C0]. clear PO.
    destruct IV as [SH CT]. rewrite E. unfold owner. sm.
    assert (NI : ~ In t (holders w)).
    { apply cnt_not_in. rewrite cnt_app in C0. pose proof (cnt_nonneg t tmp). pose proof (cnt_nonneg t (holders w)). lia. }
    assert (NS : ~ In t (seats w)) by (intros I; apply (sh_seats _ _ SH) in I; destruct I; congruence).
    destruct (home w t) as [d|] eqn:HH.
    + replace (touch d (set_rc w (upd (rc w) t (rc w t - 1)))) with (set_rc w (upd (rc w) t (rc w t - 1))) by (unfold touch; sm; rewrite (HO d eq_refl); reflexivity). cbv zeta. sm. rewrite HH. unfold free, touch. sm. rewrite L. cbv zeta. sm.
      match goal with |- inv ?W _ _ _ /\ _ => set (w' := W) end.
      assert (SM : same w w') by (constructor; reflexivity).
      assert (TN : forall a, In a (all w) -> ~ In t (tools w a)).
      { intros a I J. apply NI. unfold holders. apply in_or_app. right. apply in_or_app. right. apply in_or_app. left. apply in_flat_map. exists a. split; auto.
        unfold of_device. right. apply in_or_app. right. apply in_or_app. now left. }
      assert (TE : forall a, In a (all w) -> tools w' a = tools w a).
      { intros a I. unfold w'. sm. destruct (Nat.eq_dec a d) as [->|N]; [rewrite upd_same; apply del_none; auto|now rewrite upd_other]. }
      split; [|split; [auto|]; split; [reflexivity|]; split; [reflexivity|]; split; [intros a LA NA; unfold w'; sm; now rewrite upd_other|reflexivity]].
      split.
      * apply (shape_free w w' ex t); auto; try reflexivity.
        { rewrite K. discriminate. }
        { unfold w'. sm. symmetry. now apply del_none. }
        { intros X. contradiction. }
        { intros g I. split; auto. intros ->. apply (sh_groups _ _ SH) in I. destruct I. congruence. }
        { apply (sh_ngtools _ _ SH). }
        { intros a I. rewrite (TE a I). destruct (sh_dev _ _ SH a I) as (_ & _ & A & _ & B & _). auto. }
      * apply (counts_free w w' u tmp ex t); auto; try reflexivity.
        { intros y N. unfold w'. sm. now apply upd_other. }
        { intros y. unfold holders. rewrite !cnt_app. rewrite (flat_same (of_device w') (of_device w) (all w')); [reflexivity|].
          intros a I. unfold of_device. rewrite (TE a I). reflexivity. }
    + replace (ctx (set_rc w (upd (rc w) t (rc w t - 1)))) with (set_rc w (upd (rc w) t (rc w t - 1))) by (unfold ctx; sm; rewrite (sh_ctx _ _ SH); reflexivity). cbv zeta. sm. rewrite HH. unfold free, touch. sm. rewrite L. cbv zeta. sm.
      match goal with |- inv ?W _ _ _ /\ _ => set (w' := W) end.
      assert (SM : same w w') by (constructor; reflexivity).
      assert (GE : gtools w' = gtools w).
      { unfold w'. sm. apply del_none. intros I. apply NI. unfold holders. do 3 (apply in_or_app; right). apply in_or_app. now left. }
      split; [|split; [auto|]; split; [reflexivity|]; split; [reflexivity|]; split; [intros a LA NA; unfold w'; sm; now rewrite upd_other|reflexivity]].
      split.
      * apply (shape_free w w' ex t); auto; try reflexivity; rewrite ?GE.
        { rewrite K. discriminate. }
        { unfold w'. sm. symmetry. now apply del_none. }
        { intros X. contradiction. }
        { intros g I. split; auto. intros ->. apply (sh_groups _ _ SH) in I. destruct I. congruence. }
        { apply (sh_ngtools _ _ SH). }
        { auto. }
        { intros a I. destruct (sh_dev _ _ SH a I) as (_ & _ & A & _ & B & _). auto. }
      * apply (counts_free w w' u tmp ex t); auto; try reflexivity.
        { intros y N. unfold w'. sm. now apply upd_other. }
        { intros y. unfold holders. rewrite GE. reflexivity. }
Qed.
Lemma unref_mode_ok : forall w u tmp ex m, inv w u (m :: tmp) ex -> knd w m = K_mode -> (forall d, home w m = Some d -> live w d = true) ->
  inv (unref_mode m w) u tmp ex /\ same w (unref_mode m w) /\ all (unref_mode m w) = all w /\ tools (unref_mode m w) = tools w
  /\ (forall d, live w d = true -> d <> m -> live (unref_mode m w) d = true) /\ seats (unref_mode m w) = seats w.
Proof.
  intros w u tmp ex m IV K HO. destruct (drop_ok _ _ _ _ _ IV) as (E & L & NE & P & PO & ZE). unfold unref_mode. cbv zeta.
  assert (R : rc (drop m w) m = rc w m - 1) by (rewrite E; sm; apply upd_same). rewrite R.
  destruct (0 <? rc w m - 1) eqn:Z.
  - apply Z.ltb_lt in Z. rewrite E in PO |- *. split; [apply PO; lia|]. split; [constructor; reflexivity|auto].
  - apply Z.ltb_ge in Z. assert (Z0 : rc w m - 1 = 0) by lia. destruct (ZE Z0) as [U0 C0]. clear PO.
    destruct IV as [SH CT]. rewrite E. unfold owner. sm.
    assert (NI : ~ In m (holders w)).
    { apply cnt_not_in. rewrite cnt_app in C0. pose proof (cnt_nonneg m tmp). pose proof (cnt_nonneg m (holders w)). lia. }
    assert (NS : ~ In m (seats w)) by (intros I; apply (sh_seats _ _ SH) in I; destruct I; congruence).
    destruct (home w m) as [d|] eqn:HH.
    + replace (touch d (set_rc w (upd (rc w) m (rc w m - 1)))) with (set_rc w (upd (rc w) m (rc w m - 1))) by (unfold touch; sm; rewrite (HO d eq_refl); reflexivity). cbv zeta. sm. rewrite HH. unfold free, touch. sm. rewrite L. cbv zeta. sm.
      match goal with |- inv ?W _ _ _ /\ _ => set (w' := W) end.
      assert (SM : same w w') by (constructor; reflexivity).
      assert (TN : forall a, In a (all w) -> ~ In m (modes w a)).
      { intros a I J. apply NI. unfold holders. apply in_or_app. right. apply in_or_app. right. apply in_or_app. left. apply in_flat_map. exists a. split; auto.
        unfold of_device. right. apply in_or_app. right. apply in_or_app. now right. }
      assert (TE : forall a, In a (all w) -> modes w' a = modes w a).
      { intros a I. unfold w'. sm. destruct (Nat.eq_dec a d) as [->|N]; [rewrite upd_same; apply del_none; auto|now rewrite upd_other]. }
      split; [|split; [auto|]; split; [reflexivity|]; split; [reflexivity|]; split; [intros a LA NA; unfold w'; sm; now rewrite upd_other|reflexivity]].
      split.
      * apply (shape_free w w' ex m); auto; try reflexivity.
        { rewrite K. discriminate. }
        { unfold w'. sm. symmetry. now apply del_none. }
        { intros X. contradiction. }
        { intros g I. split; auto. intros ->. apply (sh_groups _ _ SH) in I. destruct I. congruence. }
        { apply (sh_ngtools _ _ SH). }
        { intros a I. rewrite (TE a I). destruct (sh_dev _ _ SH a I) as (_ & _ & A & _ & B & _). auto. }
      * apply (counts_free w w' u tmp ex m); auto; try reflexivity.
        { intros y N. unfold w'. sm. now apply upd_other. }
        { intros y. unfold holders. rewrite !cnt_app. rewrite (flat_same (of_device w') (of_device w) (all w')); [reflexivity|].
          intros a I. unfold of_device. rewrite (TE a I). reflexivity. }
    + replace (ctx (set_rc w (upd (rc w) m (rc w m - 1)))) with (set_rc w (upd (rc w) m (rc w m - 1))) by (unfold ctx; sm; rewrite (sh_ctx _ _ SH); reflexivity). cbv zeta. sm. rewrite HH. unfold free, touch. sm. rewrite L. cbv zeta. sm.
      match goal with |- inv ?W _ _ _ /\ _ => set (w' := W) end.
      assert (SM : same w w') by (constructor; reflexivity).
      split; [|split; [auto|]; split; [reflexivity|]; split; [reflexivity|]; split; [intros a LA NA; unfold w'; sm; now rewrite upd_other|reflexivity]].
      split.
      * apply (shape_free w w' ex m); auto; try reflexivity.
        { rewrite K. discriminate. }
        { unfold w'. sm. symmetry. now apply del_none. }
        { intros X. contradiction. }
        { intros g I. split; auto. intros ->. apply (sh_groups _ _ SH) in I. destruct I. congruence. }
        { apply (sh_ngtools _ _ SH). }
        { intros a I. destruct (sh_dev _ _ SH a I) as (_ & _ & A & _ & B & _). auto. }
      * apply (counts_free w w' u tmp ex m); auto; try reflexivity.
        intros y N. unfold w'. sm. now apply upd_other.
Qed.
