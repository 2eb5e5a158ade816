(** Devices and events are destroyed. *)
Require Import Coq.ZArith.ZArith Coq.Lists.List Coq.Bool.Bool Coq.Arith.PeanoNat Coq.micromega.Lia.
Require Import Verif.Rc_Model Verif.Rc_Spec Verif.Rc_Proofs Verif.Rc_Proofs2.
Import ListNotations.
Open Scope Z_scope.

(** A device nobody refers to *)
Record lonely (w : world) (u : nat -> Z) (tmp : list nat) (d : nat) : Prop := {
  lo_u : forall x, 0 <= u x;
  lo_rc : forall x, live w x = true -> x <> d -> rc w x = u x + cnt x (tmp ++ holders w) /\ 0 < rc w x;
  lo_dead : forall x, live w x = false -> u x = 0 /\ cnt x (tmp ++ holders w) = 0;
  lo_d : u d = 0 /\ cnt d (tmp ++ holders w) = 0 }.
Lemma lonely_of : forall w u tmp d, counts w u (d :: tmp) None -> u d = 0 -> cnt d (tmp ++ holders w) = 0 -> lonely w u tmp d.
Proof.
  intros w u tmp d [A B C _] U Z. constructor; auto.
  - intros x L N. destruct (B x L) as [B1 B2]; [discriminate|]. rewrite <- app_comm_cons, cnt_cons in B1. replace (Nat.eqb x d) with false in B1; auto. symmetry. now apply Nat.eqb_neq.
  - intros x L. destruct (C x L) as [C1 C2]. split; auto. rewrite <- app_comm_cons, cnt_cons in C2. pose proof (cnt_nonneg x (tmp ++ holders w)). destruct (Nat.eqb x d); lia.
Qed.
Lemma lonely_rc : forall w u tmp d v, lonely w u tmp d -> lonely (set_rc w (upd (rc w) d v)) u tmp d.
Proof.
  intros w u tmp d v [A B C D]. assert (H : holders (set_rc w (upd (rc w) d v)) = holders w) by reflexivity. constructor; sm; auto; rewrite H; auto.
  intros x L N. rewrite upd_other by auto. auto.
Qed.
Lemma start : forall w u tmp d, shape w None -> lonely w u tmp d -> live w d = true -> knd w d = K_device ->
  inv (set_all w (del d (all w))) u (of_device w d ++ tmp) (Some d).
Proof.
  intros w u tmp d SH LO L K.
  assert (IA : In d (all w)) by (apply (sh_all _ _ SH); repeat split; auto; discriminate).
  assert (NH : ~ In d (holders w)).
  { apply cnt_not_in. destruct LO as [_ _ _ [_ Z]]. rewrite cnt_app in Z. pose proof (cnt_nonneg d tmp). pose proof (cnt_nonneg d (holders w)). lia. }
  assert (H : forall x, cnt x ((of_device w d ++ tmp) ++ holders (set_all w (del d (all w)))) = cnt x (tmp ++ holders w)).
  { intros x. unfold holders. sm. rewrite !cnt_app. change (of_device (set_all w (del d (all w)))) with (of_device w).
    rewrite (flat_del (of_device w) (all w) d x (sh_nall _ _ SH) IA). lia. }
  split.
  - destruct SH. constructor; sm; auto.
    + now apply nodup_del.
    + intros x. rewrite in_del, sh_all. intuition congruence.
    + intros s I. destruct (sh_devs s I) as [A B]. split; auto. intros x J. destruct (B x J) as [B1 B2]. split; auto. apply in_del. split; auto. intros ->.
      apply NH. unfold holders. apply in_or_app. right. apply in_or_app. left. apply in_flat_map. eauto.
    + intros x I. apply in_del in I. destruct I as [I _]. exact (sh_dev x I).
  - destruct LO as [A B C [D1 D2]]. constructor; sm; auto.
    + intros x LX N. rewrite H. apply B; auto; congruence.
    + intros x LX. rewrite H. auto.
    + intros x X. inversion X. subst x. rewrite H. repeat split; auto.
Qed.
Lemma each_tools : forall l w u tmp d, inv w u (l ++ tmp) (Some d) -> (forall t, In t l -> knd w t = K_tool /\ home w t = Some d) ->
  inv (each unref_tool l w) u tmp (Some d) /\ same w (each unref_tool l w) /\ all (each unref_tool l w) = all w /\ modes (each unref_tool l w) = modes w.
Proof.
  induction l as [|t l IH]; intros w u tmp d IV H; [cbn; split; [auto|split; [apply same_refl|auto]]|].
  unfold each in *. cbn [fold_left]. rewrite <- app_comm_cons in IV. destruct (H t (or_introl eq_refl)) as [K HO].
  destruct (unref_tool_ok _ _ _ _ _ IV K) as (A & B & C & D & E & F).
  { intros x X. rewrite HO in X. inversion X. subst x. apply (ct_ex _ _ _ _ (proj2 IV) d eq_refl). }
  destruct (IH _ _ _ _ A) as (A' & B' & C' & D').
  - intros x I. rewrite (sm_knd _ _ B), (sm_home _ _ B). apply H. now right.
  - split; auto. split; [eapply same_trans; eauto|]. rewrite C', D'. auto.
Qed.
Lemma each_modes : forall l w u tmp d, inv w u (l ++ tmp) (Some d) -> (forall t, In t l -> knd w t = K_mode /\ home w t = Some d) ->
  inv (each unref_mode l w) u tmp (Some d) /\ same w (each unref_mode l w) /\ all (each unref_mode l w) = all w.
Proof.
  induction l as [|t l IH]; intros w u tmp d IV H; [cbn; split; [auto|split; [apply same_refl|auto]]|].
  unfold each in *. cbn [fold_left]. rewrite <- app_comm_cons in IV. destruct (H t (or_introl eq_refl)) as [K HO].
  destruct (unref_mode_ok _ _ _ _ _ IV K) as (A & B & C & D & E & F).
  { intros x X. rewrite HO in X. inversion X. subst x. apply (ct_ex _ _ _ _ (proj2 IV) d eq_refl). }
  destruct (IH _ _ _ _ A) as (A' & B' & C').
  - intros x I. rewrite (sm_knd _ _ B), (sm_home _ _ B). apply H. now right.
  - split; auto. split; [eapply same_trans; eauto|]. rewrite C'. auto.
Qed.
Lemma finish : forall w u tmp d, inv w u tmp (Some d) -> inv (free d w) u tmp None /\ same w (free d w) /\ all (free d w) = all w.
Proof.
  intros w u tmp d [SH CT]. destruct (ct_ex _ _ _ _ CT d eq_refl) as (L & K & U & Z). pose proof (below _ _ _ SH L) as LT.
  unfold free, touch. rewrite L. cbv zeta. sm. split; [|split; [constructor; reflexivity|reflexivity]].
  assert (ND : ~ In d (all w)) by (intros I; apply (sh_all _ _ SH) in I; intuition).
  split.
  - destruct SH. constructor; sm; auto.
    + intros y G. destruct (Nat.eq_dec y d) as [->|N]; [apply upd_same|rewrite upd_other; auto].
    + constructor; auto. rewrite sh_freed. intros [_ X]. congruence.
    + apply freed_step; auto.
    + intros s. rewrite sh_seats. destruct (Nat.eq_dec s d) as [->|N]; [rewrite upd_same; intuition congruence|rewrite upd_other by auto; reflexivity].
    + intros g I. destruct (sh_groups g I) as [A B]. split; auto. rewrite upd_other; auto. congruence.
    + intros x. rewrite sh_all. destruct (Nat.eq_dec x d) as [->|N]; [rewrite upd_same; intuition congruence|rewrite upd_other by auto; intuition congruence].
  - destruct CT as [A B C D].
    match goal with |- counts ?W _ _ _ => set (w' := W) end. assert (H : holders w' = holders w) by reflexivity. constructor; rewrite ?H; auto.
    + intros x LX _. unfold w' in *. smi LX. sm. destruct (Nat.eq_dec x d) as [->|N]; [rewrite upd_same in LX; discriminate|]. rewrite upd_other in LX by auto. apply B; auto. congruence.
    + intros x LX. unfold w' in LX. smi LX. destruct (Nat.eq_dec x d) as [->|N]; auto. rewrite upd_other in LX; auto.
    + discriminate.
Qed.
Lemma destroy_device_ok : forall w u tmp d, shape w None -> lonely w u tmp d -> live w d = true -> knd w d = K_device ->
  inv (destroy_device d w) u tmp None /\ same w (destroy_device d w) /\ all (destroy_device d w) = del d (all w).
Proof.
  intros w u tmp d SH LO L K. pose proof (start _ _ _ _ SH LO L K) as I0.
  assert (IA : In d (all w)) by (apply (sh_all _ _ SH); repeat split; auto; discriminate).
  destruct (sh_dev _ _ SH d IA) as (D1 & D2 & D3 & D4 & D5 & D6).
  unfold destroy_device, touch. rewrite L. cbv zeta.
  set (w1 := set_all w (del d (all w))) in *.
  assert (S1 : same w w1) by (constructor; reflexivity). change (tools w1 d) with (tools w d).
  assert (I1 : inv w1 u (tools w d ++ (modes w d ++ opt (group_of w d) ++ [seat_of w d] ++ tmp)) (Some d)).
  { eapply inv_tmp; [|exact I0]. intros x. unfold of_device. rewrite !cnt_app, !cnt_cons, cnt_nil, !cnt_app. lia. }
  destruct (each_tools _ _ _ _ _ I1 D4) as (I2 & S2 & A2 & M2). set (w2 := each unref_tool (tools w d) w1) in *.
  assert (EM : modes w2 d = modes w d) by (rewrite M2; reflexivity). rewrite EM.
  destruct (each_modes _ _ _ _ _ I2) as (I3 & S3 & A3). { intros t I. rewrite (sm_knd _ _ S2), (sm_home _ _ S2). apply D6; auto. }
  set (w3 := each unref_mode (modes w d) w2) in *.
  pose proof (same_trans _ _ _ S1 (same_trans _ _ _ S2 S3)) as S03.
  assert (A03 : all w3 = del d (all w)) by (rewrite A3, A2; reflexivity).
  assert (EG : group_of w3 d = group_of w d) by (rewrite (sm_group_of _ _ S03); reflexivity). rewrite EG.
  set (w4 := match group_of w d with Some g => unref_group g w3 | None => w3 end).
  assert (H4 : inv w4 u (seat_of w d :: tmp) (Some d) /\ same w w4 /\ all w4 = del d (all w)).
  { unfold w4. destruct (group_of w d) as [g|] eqn:G; [|auto]. cbn [opt app] in I3. destruct (unref_group_ok _ _ _ _ _ I3) as (I4 & S4 & A4 & _).
    - rewrite (sm_knd _ _ S03). apply D2. auto.
    - split; auto. split; [eapply same_trans; eauto|congruence]. }
  destruct H4 as (I4 & S04 & A4).
  assert (ES : seat_of w4 d = seat_of w d) by (rewrite (sm_seat_of _ _ S04); reflexivity). rewrite ES.
  destruct (unref_seat_ok _ _ _ _ _ I4) as (I5 & S5 & A5 & _). { rewrite (sm_knd _ _ S04). auto. }
  destruct (finish _ _ _ _ I5) as (I6 & S6 & A6). split; auto. split; [|congruence].
  exact (same_trans _ _ _ S04 (same_trans _ _ _ S5 S6)).
Qed.
Lemma unref_device_ok : forall w u tmp d, inv w u (d :: tmp) None -> knd w d = K_device -> inv (unref_device d w) u tmp None /\ same w (unref_device d w).
Proof.
  intros w u tmp d IV K. destruct (drop_ok _ _ _ _ _ IV) as (E & L & NE & P & PO & ZE). unfold unref_device. cbv zeta.
  assert (R : rc (drop d w) d = rc w d - 1) by (rewrite E; sm; apply upd_same). rewrite R.
  destruct (rc w d - 1 =? 0) eqn:Z.
  - apply Z.eqb_eq in Z. destruct (ZE Z) as [U0 C0]. destruct IV as [SH CT]. rewrite E.
    destruct (destroy_device_ok (set_rc w (upd (rc w) d (rc w d - 1))) u tmp d) as (A & B & _); auto.
    + destruct SH. constructor; sm; auto.
    + apply lonely_rc. now apply lonely_of.
    + split; auto. eapply same_trans; [|exact B]. constructor; reflexivity.
  - apply Z.eqb_neq in Z. split; [apply PO; lia|]. rewrite E. constructor; reflexivity.
Qed.
(** When somebody else refers to the device, nothing is freed *)
Lemma unref_device_more : forall w u tmp d, inv w u (d :: tmp) None -> In d (tmp ++ holders w) ->
  unref_device d w = set_rc w (upd (rc w) d (rc w d - 1)) /\ inv (unref_device d w) u tmp None.
Proof.
  intros w u tmp d IV I. destruct (drop_ok _ _ _ _ _ IV) as (E & L & NE & P & PO & ZE). unfold unref_device. cbv zeta.
  assert (R : rc (drop d w) d = rc w d - 1) by (rewrite E; sm; apply upd_same). rewrite R.
  assert (N : rc w d - 1 <> 0). { intros Z. destruct (ZE Z) as [_ C]. apply cnt_not_in in C. contradiction. }
  apply Z.eqb_neq in N. rewrite N. apply Z.eqb_neq in N. split; auto. apply PO. lia.
Qed.
(** An event is destroyed *)
Lemma destroy_event_ok : forall w u tmp e, inv w u (of_event e ++ tmp) None -> ev_ok w e -> inv (destroy_event e w) u tmp None /\ same w (destroy_event e w).
Proof.
  intros w u tmp e IV (K & HT & HM). unfold destroy_event. cbv zeta.
  set (w1 := match e_tool e with Some t => unref_tool t w | None => w end).
  assert (LD : live w (e_dev e) = true) by (apply (has_live _ _ _ _ _ (proj2 IV)); unfold of_event; now left).
  assert (H1 : inv w1 u (opt (e_mode e) ++ e_dev e :: tmp) None /\ same w w1).
  { unfold w1. destruct (e_tool e) as [t|] eqn:ET.
    - destruct (HT t eq_refl) as [KT HOM].
      assert (I1 : inv w u (t :: opt (e_mode e) ++ e_dev e :: tmp) None).
      { eapply inv_tmp; [|exact IV]. intros x. unfold of_event. rewrite ET. cbn [opt app]. rewrite !cnt_cons, !cnt_app, !cnt_cons. lia. }
      destruct (unref_tool_ok _ _ _ _ _ I1 KT) as (A & B & _); auto.
      intros d HD. destruct HOM as [X|X]; rewrite X in HD; inversion HD; subst; auto.
    - split; [|apply same_refl]. eapply inv_tmp; [|exact IV]. intros x. unfold of_event. rewrite ET. cbn [opt app]. rewrite !cnt_cons, !cnt_app, !cnt_cons. lia. }
  destruct H1 as [I1 S1].
  assert (LD1 : live w1 (e_dev e) = true) by (apply (has_live _ _ _ _ _ (proj2 I1)); apply in_or_app; left; apply in_or_app; right; now left).
  set (w2 := match e_mode e with Some m => unref_mode m w1 | None => w1 end).
  assert (H2 : inv w2 u (e_dev e :: tmp) None /\ same w w2).
  { unfold w2. destruct (e_mode e) as [m|] eqn:EM; [|auto]. destruct (HM m eq_refl) as [KM HOM]. cbn [opt app] in I1.
    destruct (unref_mode_ok _ _ _ _ _ I1) as (A & B & _).
    - rewrite (sm_knd _ _ S1). auto.
    - intros d HD. rewrite (sm_home _ _ S1), HOM in HD. inversion HD. subst. auto.
    - split; auto. eapply same_trans; eauto. }
  destruct H2 as [I2 S2]. destruct (unref_device_ok _ _ _ _ I2) as [I3 S3]. { rewrite (sm_knd _ _ S2). auto. }
  split; auto. eapply same_trans; eauto.
Qed.
