(** Devices are added and removed. *)
Require Import Coq.ZArith.ZArith Coq.Lists.List Coq.Bool.Bool Coq.Arith.PeanoNat Coq.micromega.Lia.
Require Import Verif.Rc_Model Verif.Rc_Spec Verif.Rc_Proofs Verif.Rc_Proofs2 Verif.Rc_Proofs3 Verif.Rc_Proofs4.
Import ListNotations.
Open Scope Z_scope.

(** What only the context's functions change *)
Record fr (w w' : world) : Prop := { fr_udev : udev w' = udev w; fr_enabled : enabled w' = enabled w; fr_hand : hand w' = hand w; fr_cx : cx_rc w' = cx_rc w }.
Lemma fr_refl : forall w, fr w w. Proof. constructor; auto. Qed.
Lemma fr_trans : forall a b c, fr a b -> fr b c -> fr a c. Proof. intros a b c [] []. constructor; congruence. Qed.
Lemma fr_same : forall w w', same w w' -> fr w w'. Proof. intros w w' []. constructor; auto. Qed.
Lemma fr_keeps : forall w w', keeps w w' -> fr w w'. Proof. intros w w' []. constructor; auto. Qed.

(** ** A seat's list *)
Lemma inv_unlist : forall w u tmp s d, inv w u tmp None -> In s (seats w) -> In d (devs w s) ->
  inv (set_devs w (upd (devs w) s (del d (devs w s)))) u (d :: tmp) None.
Proof.
  intros w u tmp s d [SH CT] IS ID. set (w' := set_devs w (upd (devs w) s (del d (devs w s)))). split.
  - destruct SH. constructor; unfold w'; sm; auto.
    + intros x I. destruct (Nat.eq_dec x s) as [->|N].
      * rewrite upd_same. destruct (sh_devs s I) as [A B]. split; [now apply nodup_del|]. intros y Y. apply in_del in Y. apply B. intuition.
      * rewrite upd_other by auto. auto.
    + intros x I. rewrite upd_other; auto. congruence.
  - apply (counts_move w _ u tmp); auto. intros x. unfold holders. change (of_device w') with (of_device w). unfold w'. sm. rewrite !cnt_app, !cnt_cons.
    rewrite (flat_upd (devs w) (upd (devs w) s (del d (devs w s))) (seats w) s x (sh_nseats _ _ SH) IS) by (intros; now apply upd_other).
    rewrite upd_same. destruct (sh_devs _ _ SH s IS) as [ND _]. destruct (Nat.eqb x d) eqn:E.
    + apply Nat.eqb_eq in E. subst x. rewrite cnt_del_same. pose proof (cnt_nodup d _ ND). assert (0 < cnt d (devs w s)) by now apply cnt_in. lia.
    + apply Nat.eqb_neq in E. rewrite cnt_del by auto. lia.
Qed.
Lemma inv_list : forall w u tmp s d, inv w u (d :: tmp) None -> In s (seats w) -> In d (all w) -> seat_of w d = s -> ~ In d (devs w s) ->
  inv (set_devs w (upd (devs w) s (devs w s ++ [d]))) u tmp None.
Proof.
  intros w u tmp s d [SH CT] IS ID SO NI. set (w' := set_devs w (upd (devs w) s (devs w s ++ [d]))). split.
  - destruct SH. constructor; unfold w'; sm; auto.
    + intros x I. destruct (Nat.eq_dec x s) as [->|N].
      * rewrite upd_same. destruct (sh_devs s I) as [A B]. split.
        { apply (NoDup_Add (Add_app d (devs w s) [])). rewrite app_nil_r. split; auto. }
        intros y Y. apply in_app_or in Y. destruct Y as [Y|[<-|[]]]; auto.
      * rewrite upd_other by auto. auto.
    + intros x I. rewrite upd_other; auto. congruence.
  - apply (counts_move w _ u (d :: tmp)); auto. intros x. unfold holders. change (of_device w') with (of_device w). unfold w'. sm. rewrite !cnt_app, !cnt_cons.
    rewrite (flat_upd (devs w) (upd (devs w) s (devs w s ++ [d])) (seats w) s x (sh_nseats _ _ SH) IS) by (intros; now apply upd_other).
    rewrite upd_same, cnt_app, cnt_cons, cnt_nil. lia.
Qed.

(** ** Removing *)
Lemma remove_device_ok : forall w u tmp ps s d, inv w u tmp None -> In s (seats w) -> In d (devs w s) ->
  inv (remove_device ps d w) u tmp None /\ keeps (set_devs w (upd (devs w) s (del d (devs w s)))) (remove_device ps d w).
Proof.
  intros w u tmp ps s d IV IS ID. pose proof (proj1 IV) as SH. destruct (sh_devs _ _ SH s IS) as [ND HD]. destruct (HD d ID) as [IA SO].
  destruct (proj1 (sh_all _ _ SH d) IA) as (L & K & _). destruct (proj1 (sh_seats _ _ SH s) IS) as [LS KS].
  unfold remove_device. assert (ET : touch d w = w) by (unfold touch; now rewrite L). rewrite ET. cbv zeta.
  destruct (do_posts_ok ps w u tmp d IV IA) as [I1 K1]. set (w1 := do_posts d ps w) in *.
  rewrite (kp_seat_of _ _ K1), SO. assert (ES : touch s w1 = w1) by (unfold touch; now rewrite (kp_live _ _ K1 s LS)). rewrite ES. rewrite (kp_devs _ _ K1).
  assert (I2 : inv (set_devs w1 (upd (devs w1) s (del d (devs w1 s)))) u (d :: tmp) None).
  { apply inv_unlist; auto; [rewrite (kp_seats _ _ K1)|rewrite (kp_devs _ _ K1)]; auto. }
  rewrite (kp_devs _ _ K1) in I2. set (w2 := set_devs w1 (upd (devs w) s (del d (devs w s)))) in *.
  assert (L2 : live w2 d = true) by exact (kp_live _ _ K1 d L).
  destruct (post_event_ok w2 u (d :: tmp) (mkE d None None)) as (I3 & K3 & Q3); auto.
  { unfold ev_ok. cbn [e_dev e_tool e_mode]. repeat split; try discriminate. change (knd w1 d = K_device). rewrite (kp_knd _ _ K1); auto. eapply below; eauto. }
  set (w3 := post_event (mkE d None None) w2) in *.
  destruct (unref_device_more w3 u tmp d I3) as [E4 I4].
  { apply in_or_app. right. unfold holders. apply in_or_app. left. apply in_flat_map. exists (mkE d None None). split; [rewrite Q3; apply in_or_app; left; apply in_or_app; right; now left|now left]. }
  split; auto. rewrite E4. eapply keeps_trans; [|eapply keeps_trans; [exact K3|constructor; auto]].
  destruct K1. constructor; unfold w2; sm; auto.
Qed.
Lemma inner : forall ps l w u tmp s, inv w u (s :: tmp) None -> knd w s = K_seat -> NoDup l -> (forall d, In d l <-> In d (devs w s)) ->
  let w' := each (fun d => remove_device (ps d) d) l w in
  inv w' u (s :: tmp) None /\ fr w w' /\ seats w' = seats w /\ (forall x, x <> s -> devs w' x = devs w x) /\ devs w' s = [] /\ knd w' s = K_seat
  /\ (forall x, live w x = true -> live w' x = true).
Proof.
  unfold each. induction l as [|d l IH]; intros w u tmp s IV K ND H; cbn [fold_left]; cbv zeta.
  - split; auto. split; [apply fr_refl|]. split; auto. split; auto. split; auto. destruct (devs w s) as [|x r] eqn:E; auto. destruct (proj2 (H x)). now left.
  - assert (LS : live w s = true) by (apply (has_live _ _ _ _ _ (proj2 IV)); now left).
    assert (IS : In s (seats w)) by (apply (sh_seats _ _ (proj1 IV)); auto).
    destruct (remove_device_ok w u (s :: tmp) (ps d) s d IV IS) as [I1 K1]. { apply H. now left. }
    set (w1 := remove_device (ps d) d w) in *.
    assert (D1 : devs w1 s = del d (devs w s)) by (rewrite (kp_devs _ _ K1); sm; apply upd_same).
    assert (E1 : knd w1 s = K_seat) by (rewrite (kp_knd _ _ K1); sm; auto; eapply below; eauto; exact (proj1 IV)).
    inversion ND as [|? ? N1 N2]; subst.
    destruct (IH w1 u tmp s I1) as (A & B & C & D & E & F & G); auto.
    { intros x. rewrite D1, in_del, <- H. cbn [In]. split; [intros X; split; auto; intros ->; auto|intros [[->|X] Y]; [congruence|auto]]. }
    cbv zeta in *. split; auto. split.
    { eapply fr_trans; [|exact B]. destruct K1. constructor; auto. }
    split. { rewrite C. exact (kp_seats _ _ K1). }
    split. { intros x X. rewrite D by auto. rewrite (kp_devs _ _ K1). sm. now apply upd_other. }
    split; auto. split; auto. intros x X. apply G. apply (kp_live _ _ K1). exact X.
Qed.
Lemma unref_seat_seats : forall w u tmp ex s, inv w u (s :: tmp) ex -> knd w s = K_seat -> forall x, x <> s -> In x (seats w) -> In x (seats (unref_seat s w)).
Proof.
  intros w u tmp ex s IV K x N I. destruct (drop_ok _ _ _ _ _ IV) as (E & L & _ & P & _). unfold unref_seat. cbv zeta. rewrite E. destruct (rc _ s =? 0); [|exact I].
  unfold destroy_seat, ctx. sm. rewrite (sh_ctx _ _ (proj1 IV)). unfold free, touch. sm. rewrite L. sm. apply in_del. auto.
Qed.
Lemma disable_loop : forall ps l w u tmp, inv w u tmp None -> NoDup l -> (forall s, In s l -> In s (seats w)) -> (forall s, ~ In s l -> devs w s = []) ->
  let w' := each (fun s w => let w := ref s w in let w := each (fun d => remove_device (ps d) d) (devs w s) w in unref_seat s w) l w in
  inv w' u tmp None /\ fr w w' /\ forall s, devs w' s = [].
Proof.
  intros ps. unfold each at 1. induction l as [|s l IH]; intros w u tmp IV ND HS HD; cbn [fold_left]; cbv zeta.
  - split; auto. split; [apply fr_refl|]. intros s. apply HD. auto.
  - assert (IS : In s (seats w)) by (apply HS; now left). destruct (proj1 (sh_seats _ _ (proj1 IV) s) IS) as [LS KS].
    pose proof (inv_ref _ _ _ _ _ IV LS ltac:(discriminate)) as I1. pose proof (same_ref w s LS) as S1. pose proof (keeps_ref w s LS) as K1.
    set (w1 := ref s w) in *. destruct (sh_devs _ _ (proj1 IV) s IS) as [NDV _].
    destruct (inner ps (devs w1 s) w1 u tmp s I1) as (I2 & F2 & S2 & O2 & E2 & K2 & L2).
    { rewrite (sm_knd _ _ S1). auto. } { rewrite (sm_devs _ _ S1). auto. } { reflexivity. }
    cbv zeta in *. set (w2 := each (fun d => remove_device (ps d) d) (devs w1 s) w1) in *.
    pose proof (unref_seat_seats _ _ _ _ _ I2 K2) as U3. destruct (unref_seat_ok _ _ _ _ _ I2 K2) as (I3 & S3 & _).
    inversion ND as [|? ? N1 N2]; subst. specialize (IH (unref_seat s w2) u tmp I3 N2). cbv zeta in IH. unfold each in w2. fold w2.
    destruct IH as (A & B & C).
    + intros x X. apply U3; [congruence|]. rewrite S2, (kp_seats _ _ K1). apply HS. now right.
    + intros x X. rewrite (sm_devs _ _ S3). destruct (Nat.eq_dec x s) as [->|N]; auto. rewrite O2 by auto. rewrite (sm_devs _ _ S1). apply HD. intros [Y|Y]; congruence.
    + split; auto. split; auto. eapply fr_trans; [|exact B]. eapply fr_trans; [apply fr_same; exact S1|]. eapply fr_trans; [exact F2|now apply fr_same].
Qed.
Lemma disable_ok : forall ps w u tmp, inv w u tmp None -> inv (disable ps w) u tmp None /\ fr w (disable ps w) /\ forall s, devs (disable ps w) s = [].
Proof.
  intros ps w u tmp IV. apply (disable_loop ps (seats w) w u tmp); auto.
  - apply (sh_nseats _ _ (proj1 IV)).
  - apply (sh_rest _ _ (proj1 IV)).
Qed.

(** ** Adding *)
Lemma unref_group_more : forall w u tmp g, inv w u (g :: tmp) None -> In g (tmp ++ holders w) ->
  unref_group g w = set_rc w (upd (rc w) g (rc w g - 1)) /\ inv (unref_group g w) u tmp None.
Proof.
  intros w u tmp g IV I. destruct (drop_ok _ _ _ _ _ IV) as (E & L & NE & P & PO & ZE). unfold unref_group. cbv zeta.
  assert (R : rc (drop g w) g = rc w g - 1) by (rewrite E; sm; apply upd_same). rewrite R.
  assert (N : rc w g - 1 <> 0). { intros Z. destruct (ZE Z) as [_ C]. apply cnt_not_in in C. contradiction. }
  apply Z.eqb_neq in N. rewrite N. apply Z.eqb_neq in N. split; auto. apply PO. lia.
Qed.
Lemma inv_group : forall w u tmp d g, inv w u (g :: tmp) None -> In d (all w) -> group_of w d = None -> knd w g = K_group ->
  inv (set_group_of w (upd (group_of w) d (Some g))) u tmp None.
Proof.
  intros w u tmp d g [SH CT] I N K. set (w' := set_group_of w (upd (group_of w) d (Some g))). split.
  - destruct SH. constructor; unfold w'; sm; auto.
    intros a J. destruct (Nat.eq_dec a d) as [->|NA].
    + destruct (sh_dev d J) as (D1 & D2 & D3 & D4 & D5 & D6). unfold dev_ok. sm. rewrite upd_same.
      split; auto. split; [intros h X; inversion X; subst; auto|]. auto.
    + apply (dev_ok_ext w); auto. sm. now apply upd_other.
  - apply (counts_move w _ u (g :: tmp)); auto. intros x. unfold holders. change (devs w') with (devs w). rewrite !cnt_app, cnt_cons.
    rewrite (flat_upd (of_device w) (of_device w') (all w') d x (sh_nall _ _ SH) I).
    + unfold of_device, w'. sm. rewrite upd_same, N. cbn [opt]. rewrite !cnt_cons, !cnt_app, !cnt_cons, !cnt_nil. lia.
    + intros y Y NY. unfold of_device, w'. sm. now rewrite upd_other.
Qed.
Lemma inv_groups : forall w u tmp g i, inv w u tmp None -> live w g = true -> knd w g = K_group ->
  inv (set_groups (set_ident w (upd (ident w) g i)) (g :: groups w)) u tmp None.
Proof.
  intros w u tmp g i [SH CT] L K. split.
  - destruct SH. constructor; sm; auto. intros x [<-|X]; auto.
  - match goal with |- counts ?W _ _ _ => assert (H : holders W = holders w) by reflexivity end. destruct CT as [A B C D]. constructor; rewrite ?H; auto.
Qed.
Lemma set_group_ok : forall w u tmp d i, inv w u tmp None -> In d (all w) -> group_of w d = None -> inv (set_group d i w) u tmp None /\ keeps w (set_group d i w).
Proof.
  intros w u tmp d i IV I G. unfold set_group. rewrite (ctx_ok _ _ (proj1 IV)). cbv zeta. destruct (find_group i w) as [g|] eqn:F.
  - assert (IG : In g (groups w)). { unfold find_group in F. destruct i; [|discriminate]. apply find_some in F. tauto. }
    destruct (sh_groups _ _ (proj1 IV) g IG) as [L K].
    assert (E : ref g (set_group_of w (upd (group_of w) d (Some g))) = set_group_of (ref g w) (upd (group_of w) d (Some g))) by (unfold ref, touch; sm; rewrite L; reflexivity).
    rewrite E. pose proof (inv_ref _ _ _ _ _ IV L ltac:(discriminate)) as I1. pose proof (keeps_ref w g L) as K1. pose proof (same_ref w g L) as S1.
    rewrite <- (sm_group_of _ _ S1). split.
    + apply inv_group; auto; [rewrite (kp_all _ _ K1)|rewrite (sm_group_of _ _ S1)|rewrite (sm_knd _ _ S1)]; auto.
    + eapply keeps_trans; [exact K1|]. constructor; auto.
  - clear F. destruct (alloc_ok w u tmp K_group IV) as (IA & KA & NH); try discriminate. set (g := next w) in *. set (wa := alloc K_group w) in *.
    assert (LA : live wa g = true) by (unfold wa, alloc; sm; apply upd_same). assert (KN : knd wa g = K_group) by (unfold wa, alloc; sm; apply upd_same).
    pose proof (inv_groups _ _ _ g i IA LA KN) as IB.
    change (groups (set_ident wa (upd (ident wa) g i))) with (groups wa).
    set (wb := set_groups (set_ident wa (upd (ident wa) g i)) (g :: groups wa)) in *.
    assert (KB : keeps wa wb) by (constructor; auto).
    assert (E : ref g (set_group_of wb (upd (group_of wb) d (Some g))) = set_group_of (ref g wb) (upd (group_of wb) d (Some g))).
    { unfold ref, touch. sm. change (live wb g) with (live wa g). rewrite LA. reflexivity. }
    rewrite E. assert (LB : live wb g = true) by exact LA.
    pose proof (inv_ref _ _ _ _ _ IB LB ltac:(discriminate)) as I1. pose proof (keeps_ref wb g LB) as K1. pose proof (same_ref wb g LB) as S1.
    rewrite <- (sm_group_of _ _ S1).
    assert (I2 : inv (set_group_of (ref g wb) (upd (group_of (ref g wb)) d (Some g))) u (g :: tmp) None).
    { apply inv_group; auto; [rewrite (kp_all _ _ K1)|rewrite (sm_group_of _ _ S1)|rewrite (sm_knd _ _ S1)]; auto. }
    set (wc := set_group_of (ref g wb) (upd (group_of (ref g wb)) d (Some g))) in *.
    assert (KC : keeps w wc). { eapply keeps_trans; [exact KA|]. eapply keeps_trans; [exact KB|]. eapply keeps_trans; [exact K1|]. constructor; auto. }
    destruct (unref_group_more wc u tmp g I2) as [E3 I3].
    { apply in_or_app. right. apply (in_dv wc d); [rewrite (kp_all _ _ KC); auto|]. unfold of_device. right. apply in_or_app. left. unfold wc. sm. rewrite upd_same. now left. }
    split; auto. rewrite E3. eapply keeps_trans; [exact KC|]. constructor; auto.
Qed.
Lemma make_modes_ok : forall n w u tmp d, inv w u tmp None -> In d (all w) ->
  inv (make_modes n d w) u tmp None /\ keeps w (make_modes n d w) /\ group_of (make_modes n d w) = group_of w /\ rc (make_modes n d w) d = rc w d.
Proof.
  induction n as [|n IH]; intros w u tmp d IV I; cbn [make_modes]; [split; auto; split; [apply keeps_refl|auto]|]. cbv zeta.
  destruct (alloc_ok w u tmp K_mode IV) as (IA & KA & NH); try discriminate. set (m := next w) in *. set (wa := alloc K_mode w) in *.
  assert (HA : holders wa = holders w) by reflexivity.
  assert (KN : knd wa m = K_mode) by (unfold wa, alloc; sm; apply upd_same).
  assert (IB : inv (set_home wa (upd (home wa) m (Some d))) u (m :: tmp) None) by (apply inv_home; auto; rewrite HA; auto).
  set (wb := set_home wa (upd (home wa) m (Some d))) in *.
  assert (IC : inv (set_modes wb (upd (modes wb) d (m :: modes wb d))) u tmp None).
  { apply inv_modes; auto.
    - intros J. apply NH. apply (in_dv w d); auto. unfold of_device. right. apply in_or_app. right. apply in_or_app. right. exact J.
    - unfold wb. sm. apply upd_same. }
  assert (LT : (d < next w)%nat) by (destruct (proj1 (sh_all _ _ (proj1 IV) d) I) as (L & _); eapply below; eauto; exact (proj1 IV)).
  destruct (IH _ _ _ d IC) as (A & B & C & D); [rewrite <- (kp_all _ _ KA) in I; exact I|].
  split; auto. split; [|split].
  - eapply keeps_trans; [exact KA|]. eapply keeps_trans; [|exact B]. constructor; auto.
  - rewrite C. reflexivity.
  - rewrite D. unfold wb, wa, alloc. sm. apply upd_other. lia.
Qed.
Definition blank (s : nat) (w : world) : world :=
  let d := next w in
  let w := alloc K_device w in
  let w := set_all w (d :: all w) in
  let w := set_seat_of w (upd (seat_of w) d s) in
  let w := set_group_of w (upd (group_of w) d None) in
  let w := set_tools w (upd (tools w) d []) in
  set_modes w (upd (modes w) d []).
Lemma new_device_ok : forall w u tmp s, inv w u (s :: tmp) None -> knd w s = K_seat ->
  inv (blank s w) u (next w :: tmp) None.
Proof.
  intros w u tmp s IV KS. unfold blank, alloc. cbv zeta. sm.
  destruct (fresh_not_in _ _ _ _ IV) as [U0 NI]. destruct IV as [SH CT]. set (x := next w) in *.
  assert (NH : ~ In x (holders w)) by (intros I; apply NI; apply in_or_app; auto).
  assert (LX : live w x = false) by (apply (sh_fresh _ _ SH); unfold x; lia).
  assert (NS : s <> x) by (intros ->; apply NI; now left).
  assert (NA : ~ In x (all w)) by (intros I; apply (sh_all _ _ SH) in I; destruct I; congruence).
  match goal with |- inv ?W _ _ _ => set (w' := W) end.
  assert (OD : forall d, In d (all w) -> of_device w' d = of_device w d).
  { intros d I. assert (d <> x) by congruence. unfold of_device, w'. sm. rewrite !upd_other by auto. reflexivity. }
  assert (OX : of_device w' x = [s]) by (unfold of_device, w'; sm; rewrite !upd_same; reflexivity).
  assert (HH : forall y, cnt y ((x :: tmp) ++ holders w') = (if Nat.eqb y x then 1 else 0) + cnt y ((s :: tmp) ++ holders w)).
  { intros y. unfold holders. change (all w') with (x :: all w). cbn [flat_map]. rewrite OX. rewrite (flat_same (of_device w') (of_device w)) by exact OD.
    unfold w'. sm. rewrite !cnt_app, !cnt_cons, cnt_nil. lia. }
  split.
  - assert (EX : forall y, In y (holders w) -> knd w' y = knd w y /\ home w' y = home w y).
    { intros y I. unfold w'. sm. rewrite upd_other; auto. intros ->. auto. }
    destruct SH. constructor; unfold w'; sm; auto.
    + intros y G. rewrite upd_other by lia. apply sh_fresh. lia.
    + intros y. rewrite sh_freed. destruct (Nat.eq_dec y x) as [->|N]; [rewrite upd_same, LX; unfold x; split; intros [? ?]; [lia|discriminate]|]. rewrite upd_other by auto. unfold x in *. split; intros [? ?]; split; auto; lia.
    + intros y. rewrite sh_seats. destruct (Nat.eq_dec y x) as [->|N]; [rewrite !upd_same, LX; split; intros [? ?]; congruence|]. rewrite !upd_other by auto. reflexivity.
    + intros g I. destruct (sh_groups g I) as [A B]. assert (g <> x) by congruence. rewrite !upd_other by auto. auto.
    + constructor; auto.
    + intros d. cbn [In]. rewrite sh_all. destruct (Nat.eq_dec d x) as [->|N]; [rewrite !upd_same; split; auto; intros _; repeat split; auto; discriminate|]. rewrite !upd_other by auto.
      split; [intros [X|X]; [congruence|auto]|auto].
    + intros y I. destruct (sh_devs y I) as [A B]. split; auto. intros d D. destruct (B d D) as [B1 B2]. split; [now right|]. rewrite upd_other; auto. congruence.
    + intros d [<-|I].
      * unfold dev_ok. sm. rewrite !upd_same. rewrite upd_other by auto. split; auto. split; [discriminate|]. split; [constructor|]. split; [intros t []|]. split; [constructor|intros t []].
      * assert (d <> x) by congruence. apply (dev_ok_ext w); auto; sm; try (now rewrite upd_other). intros y J. apply EX. eapply in_dv; eauto.
    + intros t I. destruct (sh_gtools t I) as [A B]. destruct (EX t (in_gt _ _ I)) as [E1 _]. unfold w' in E1. smi E1. rewrite E1. auto.
    + intros e I. apply (ev_ok_ext w); auto. intros y J. apply EX. eapply in_ev; eauto.
  - destruct CT as [A B C D]. constructor; auto.
    + intros y L _. rewrite HH. unfold w' in *. smi L. sm. destruct (Nat.eqb y x) eqn:E.
      * apply Nat.eqb_eq in E. subst y. rewrite upd_same. apply cnt_not_in in NI. rewrite NI, U0. lia.
      * apply Nat.eqb_neq in E. rewrite upd_other in L by auto. rewrite upd_other by auto. apply B; [auto|discriminate].
    + intros y L. rewrite HH. unfold w' in L. smi L. destruct (Nat.eqb y x) eqn:E.
      * apply Nat.eqb_eq in E. subst y. rewrite upd_same in L. discriminate.
      * apply Nat.eqb_neq in E. rewrite upd_other in L by auto. apply C; auto.
    + discriminate.
Qed.
Lemma blank_ref_ok : forall w u tmp s, inv w u (s :: tmp) None -> knd w s = K_seat -> inv (ref s (blank s w)) u (next w :: s :: tmp) None.
Proof.
  intros w u tmp s IV KS. assert (LS : live w s = true) by (apply (has_live _ _ _ _ _ (proj2 IV)); now left). pose proof (below _ _ _ (proj1 IV) LS) as LT.
  pose proof (inv_ref _ _ _ _ _ IV LS ltac:(discriminate)) as I0.
  assert (ER : ref s w = set_rc w (upd (rc w) s (rc w s + 1))) by (unfold ref, touch; rewrite LS; reflexivity). rewrite ER in I0.
  pose proof (new_device_ok _ _ _ s I0 KS) as ID. change (next (set_rc w (upd (rc w) s (rc w s + 1)))) with (next w) in ID.
  assert (LE : live (blank s w) s = true) by (unfold blank, alloc; sm; rewrite upd_other by lia; exact LS).
  assert (E : ref s (blank s w) = set_rc (blank s (set_rc w (upd (rc w) s (rc w s + 1)))) (upd (rc (blank s w)) s (rc (blank s w) s + 1))) by (unfold ref, touch; rewrite LE; reflexivity).
  rewrite E. apply inv_rc_ext; auto. intros y. unfold blank, alloc. cbv zeta. sm. unfold upd.
  destruct (Nat.eqb y s) eqn:Y1, (Nat.eqb y (next w)) eqn:Y2, (Nat.eqb s (next w)) eqn:Y3; auto;
    rewrite ?Nat.eqb_eq, ?Nat.eqb_neq in *; try lia; subst; auto; try (apply Nat.eqb_eq in Y1; lia); now rewrite Nat.eqb_refl.
Qed.
Lemma blank_frame : forall w s, live w s = true -> (s < next w)%nat ->
  let w' := ref s (blank s w) in
  fr w w' /\ In (next w) (all w') /\ live w' (next w) = true /\ knd w' (next w) = K_device /\ rc w' (next w) = 1 /\ group_of w' (next w) = None /\ seat_of w' (next w) = s
  /\ live w' s = true /\ knd w' s = knd w s /\ next w' = Datatypes.S (next w).
Proof.
  intros w s LS LT. cbv zeta.
  assert (LE : live (blank s w) s = true) by (unfold blank, alloc; sm; rewrite upd_other by lia; exact LS).
  unfold ref, touch. rewrite LE. unfold blank, alloc. cbv zeta. sm. rewrite !upd_same, !upd_other by lia. rewrite upd_same. repeat split; auto; [now left|apply upd_other; lia].
Qed.
Lemma create_device_ok : forall w u tmp s a, inv w u (s :: tmp) None -> knd w s = K_seat ->
  inv (create_device s a w) u (s :: tmp) None /\ fr w (create_device s a w) /\ knd (create_device s a w) s = K_seat.
Proof.
  intros w u tmp s a IV KS.
  assert (LS : live w s = true) by (apply (has_live _ _ _ _ _ (proj2 IV)); now left). pose proof (below _ _ _ (proj1 IV) LS) as LT.
  pose proof (blank_ref_ok _ _ _ _ IV KS) as I1. destruct (blank_frame w s LS LT) as (F1 & A1 & L1 & K1 & R1 & G1 & S1 & LS1 & KS1 & N1). cbv zeta in *.
  rewrite KS in KS1.
  destruct (fresh_not_in _ _ _ _ IV) as [U0 NI].
  set (w1 := ref s (blank s w)) in *. set (d := next w) in *.
  destruct (make_modes_ok (a_modes a) w1 u _ d I1 A1) as (I2 & K2 & G2 & R2). set (w2 := make_modes (a_modes a) d w1) in *.
  assert (A2 : In d (all w2)) by (rewrite (kp_all _ _ K2); auto).
  assert (KD2 : knd w2 d = K_device) by (rewrite (kp_knd _ _ K2); auto; unfold d; lia).
  assert (KS2 : knd w2 s = K_seat) by (rewrite (kp_knd _ _ K2); auto; lia).
  pose proof (fr_trans _ _ _ F1 (fr_keeps _ _ K2)) as F2.
  unfold create_device. destruct (a_fate a) eqn:FA.
  - split; auto. split; [apply fr_refl|auto].
  - change (inv (destroy_device d w2) u (s :: tmp) None /\ fr w (destroy_device d w2) /\ knd (destroy_device d w2) s = K_seat).
    assert (L2 : live w2 d = true) by (apply (kp_live _ _ K2); auto).
    destruct (ct_rc _ _ _ _ (proj2 I2) d L2 ltac:(discriminate)) as [C2 _]. rewrite R2, R1, U0 in C2. rewrite <- app_comm_cons, cnt_cons, Nat.eqb_refl in C2.
    destruct (destroy_device_ok w2 u (s :: tmp) d (proj1 I2)) as (I3 & S3 & _); auto.
    { apply lonely_of; auto. - exact (proj2 I2). - lia. }
    split; auto. split; [eapply fr_trans; [exact F2|apply fr_same; exact S3]|]. rewrite (sm_knd _ _ S3). auto.
  - set (w3 := set_group d (a_group a) w2). set (w4 := set_devs w3 (upd (devs w3) s (devs w3 s ++ [d]))).
    change (inv (post_event (mkE d None None) w4) u (s :: tmp) None /\ fr w (post_event (mkE d None None) w4) /\ knd (post_event (mkE d None None) w4) s = K_seat).
    destruct (set_group_ok w2 u (d :: s :: tmp) d (a_group a) I2 A2) as [I3 K3]. { rewrite G2. auto. } fold w3 in I3, K3.
    assert (LT2 : (s < next w2)%nat) by (pose proof (kp_next _ _ K2); lia). assert (LD2 : (d < next w2)%nat) by (pose proof (kp_next _ _ K2); unfold d in *; lia).
    assert (A3 : In d (all w3)) by (rewrite (kp_all _ _ K3); auto). assert (KS3 : knd w3 s = K_seat) by (rewrite (kp_knd _ _ K3); auto).
    assert (KD3 : knd w3 d = K_device) by (rewrite (kp_knd _ _ K3); auto).
    assert (L3 : live w3 s = true) by (apply (has_live _ _ _ _ _ (proj2 I3)); right; now left).
    assert (IS : In s (seats w3)) by (apply (sh_seats _ _ (proj1 I3)); auto).
    assert (LD3 : live w3 d = true) by (apply (has_live _ _ _ _ _ (proj2 I3)); now left).
    assert (ND : ~ In d (devs w3 s)).
    { rewrite (kp_devs _ _ K3), (kp_devs _ _ K2). unfold w1, ref, touch. replace (live (blank s w) s) with true by (symmetry; unfold blank, alloc; sm; rewrite upd_other by lia; exact LS).
      unfold blank, alloc. sm. intros J. apply NI. apply in_or_app. right. apply (in_ls w s); auto. apply (sh_seats _ _ (proj1 IV)); auto. }
    assert (I4 : inv w4 u (s :: tmp) None).
    { apply inv_list; auto. rewrite (kp_seat_of _ _ K3), (kp_seat_of _ _ K2). auto. }
    assert (KD4 : knd w4 d = K_device) by exact KD3.
    destruct (post_event_ok w4 u (s :: tmp) (mkE d None None)) as (I5 & K5 & _); auto.
    { unfold ev_ok. cbn [e_dev e_tool e_mode]. repeat split; auto; discriminate. }
    split; auto. split.
    + eapply fr_trans; [exact F2|]. eapply fr_trans; [apply fr_keeps; exact K3|]. eapply fr_trans; [|apply fr_keeps; exact K5]. constructor; auto.
    + rewrite (kp_knd _ _ K5); [exact KS3|]. change (next w4) with (next w3). pose proof (kp_next _ _ K3). lia.
Qed.
Lemma new_seat_ok : forall w u tmp n, inv w u tmp None -> inv (new_seat n w) u ((if udev w then [next w] else []) ++ tmp) None.
Proof.
  intros w u tmp n IV. unfold new_seat, alloc. cbv zeta. sm.
  destruct (fresh_not_in _ _ _ _ IV) as [U0 NI]. destruct IV as [SH CT]. set (x := next w) in *.
  assert (NH : ~ In x (holders w)) by (intros I; apply NI; apply in_or_app; auto).
  assert (LX : live w x = false) by (apply (sh_fresh _ _ SH); unfold x; lia).
  assert (NA : ~ In x (seats w)) by (intros I; apply (sh_seats _ _ SH) in I; destruct I; congruence).
  match goal with |- inv ?W _ _ _ => set (w' := W) end.
  assert (HH : forall y, cnt y (((if udev w then [x] else []) ++ tmp) ++ holders w') = (if Nat.eqb y x then 1 else 0) + cnt y (tmp ++ holders w)).
  { intros y. unfold holders. change (of_device w') with (of_device w). unfold w'. sm. cbn [flat_map]. rewrite upd_same. rewrite (flat_same (upd (devs w) x []) (devs w)).
    - destruct (udev w); repeat rewrite ?cnt_app, ?cnt_cons, ?cnt_nil; lia.
    - intros z Z. apply upd_other. congruence. }
  split.
  - assert (EX : forall y, In y (holders w) -> knd w' y = knd w y /\ home w' y = home w y).
    { intros y I. unfold w'. sm. rewrite upd_other; auto. intros ->. auto. }
    destruct SH. constructor; unfold w'; sm; auto.
    + intros y G. rewrite upd_other by lia. apply sh_fresh. lia.
    + intros y. rewrite sh_freed. destruct (Nat.eq_dec y x) as [->|N]; [rewrite upd_same, LX; unfold x; split; intros [? ?]; [lia|discriminate]|]. rewrite upd_other by auto. unfold x in *. split; intros [? ?]; split; auto; lia.
    + now constructor.
    + intros y. cbn [In]. rewrite sh_seats. destruct (Nat.eq_dec y x) as [->|N]; [rewrite !upd_same; split; auto|]. rewrite !upd_other by auto. split; [intros [X|X]; [congruence|auto]|auto].
    + intros g I. destruct (sh_groups g I) as [A B]. assert (g <> x) by congruence. rewrite !upd_other by auto. auto.
    + intros d. rewrite sh_all. destruct (Nat.eq_dec d x) as [->|N]; [rewrite !upd_same, LX; split; intros (? & ? & ?); congruence|]. rewrite !upd_other by auto. reflexivity.
    + intros y [<-|I]; [rewrite upd_same; split; [constructor|intros d []]|]. rewrite upd_other by congruence. auto.
    + intros y I. destruct (Nat.eq_dec y x) as [->|N]; [apply upd_same|]. rewrite upd_other by auto. apply sh_rest. intros J. apply I. now right.
    + intros d I. apply (dev_ok_ext w); auto. intros y J. apply EX. eapply in_dv; eauto.
    + intros t I. destruct (sh_gtools t I) as [A B]. destruct (EX t (in_gt _ _ I)) as [E1 _]. unfold w' in E1. smi E1. rewrite E1. auto.
    + intros e I. apply (ev_ok_ext w); auto. intros y J. apply EX. eapply in_ev; eauto.
  - destruct CT as [A B C D]. constructor; auto.
    + intros y L _. rewrite HH. unfold w' in *. smi L. sm. destruct (Nat.eqb y x) eqn:E.
      * apply Nat.eqb_eq in E. subst y. rewrite upd_same. apply cnt_not_in in NI. rewrite NI, U0. lia.
      * apply Nat.eqb_neq in E. rewrite upd_other in L by auto. rewrite upd_other by auto. apply B; [auto|discriminate].
    + intros y L. rewrite HH. unfold w' in L. smi L. destruct (Nat.eqb y x) eqn:E.
      * apply Nat.eqb_eq in E. subst y. rewrite upd_same in L. discriminate.
      * apply Nat.eqb_neq in E. rewrite upd_other in L by auto. apply C; auto.
    + discriminate.
Qed.
Lemma add_device_ok : forall w u tmp a, inv w u tmp None -> inv (add_device a w) u tmp None /\ fr w (add_device a w).
Proof.
  intros w u tmp a IV. unfold add_device. rewrite (ctx_ok _ _ (proj1 IV)). cbv zeta. destruct (find_seat (a_seat a) w) as [s|] eqn:F.
  - unfold find_seat in F. apply find_some in F. destruct F as [F _]. destruct (proj1 (sh_seats _ _ (proj1 IV) s) F) as [L K].
    pose proof (inv_ref _ _ _ _ _ IV L ltac:(discriminate)) as I1. pose proof (same_ref w s L) as S1.
    destruct (create_device_ok _ _ _ s a I1) as (I2 & F2 & K2). { rewrite (sm_knd _ _ S1). auto. }
    destruct (unref_seat_ok _ _ _ _ _ I2 K2) as (I3 & S3 & _). split; auto. eapply fr_trans; [apply fr_same; exact S1|]. eapply fr_trans; [exact F2|now apply fr_same].
  - pose proof (new_seat_ok w u tmp (a_seat a) IV) as I1. set (s := next w) in *. set (w1 := new_seat (a_seat a) w) in *.
    assert (L1 : live w1 s = true) by (unfold w1, new_seat, alloc; sm; apply upd_same). assert (K1 : knd w1 s = K_seat) by (unfold w1, new_seat, alloc; sm; apply upd_same).
    assert (F1 : fr w w1) by (constructor; auto).
    change (udev w1) with (udev w). set (w2 := if udev w then w1 else ref s w1).
    assert (I2 : inv w2 u (s :: tmp) None). { unfold w2. destruct (udev w); [exact I1|]. apply inv_ref; auto. discriminate. }
    assert (S2 : same w1 w2). { unfold w2. destruct (udev w); [apply same_refl|now apply same_ref]. }
    destruct (create_device_ok _ _ _ s a I2) as (I3 & F3 & K3). { rewrite (sm_knd _ _ S2). auto. }
    destruct (unref_seat_ok _ _ _ _ _ I3 K3) as (I4 & S4 & _). split; auto. eapply fr_trans; [exact F1|]. eapply fr_trans; [apply fr_same; exact S2|]. eapply fr_trans; [exact F3|now apply fr_same].
Qed.
