(** Objects are made, events are posted. *)
Require Import Coq.ZArith.ZArith Coq.Lists.List Coq.Bool.Bool Coq.Arith.PeanoNat Coq.micromega.Lia.
Require Import Verif.Rc_Model Verif.Rc_Spec Verif.Rc_Proofs Verif.Rc_Proofs2 Verif.Rc_Proofs3.
Import ListNotations.
Open Scope Z_scope.

(** Code that frees nothing and adds no seats or devices *)
Record keeps (w w' : world) : Prop := {
  kp_udev : udev w' = udev w; kp_enabled : enabled w' = enabled w; kp_hand : hand w' = hand w; kp_cx : cx_rc w' = cx_rc w;
  kp_seats : seats w' = seats w; kp_devs : devs w' = devs w; kp_all : all w' = all w; kp_seat_of : seat_of w' = seat_of w;
  kp_live : forall x, live w x = true -> live w' x = true; kp_knd : forall x, (x < next w)%nat -> knd w' x = knd w x; kp_next : (next w <= next w')%nat;
  kp_freed : freed w' = freed w }.
Lemma keeps_refl : forall w, keeps w w. Proof. constructor; auto. Qed.
Lemma keeps_trans : forall a b c, keeps a b -> keeps b c -> keeps a c.
Proof. intros a b c [] []. constructor; try congruence; auto; try lia. intros x X. rewrite kp_knd1 by lia. auto. Qed.

Lemma fresh_not_in : forall w u tmp ex, inv w u tmp ex -> u (next w) = 0 /\ ~ In (next w) (tmp ++ holders w).
Proof.
  intros w u tmp ex [SH CT]. assert (L : live w (next w) = false) by (apply (sh_fresh _ _ SH); lia). destruct (ct_dead _ _ _ _ CT _ L) as [A B]. split; auto. now apply cnt_not_in.
Qed.
Lemma inv_rc_ext : forall w u tmp ex f, inv w u tmp ex -> (forall y, f y = rc w y) -> inv (set_rc w f) u tmp ex.
Proof.
  intros w u tmp ex f [SH CT] E. split; [destruct SH; constructor; sm; auto|].
  assert (H : holders (set_rc w f) = holders w) by reflexivity. destruct CT as [A B C D]. constructor; sm; auto; rewrite H; auto. intros x L N. rewrite E. auto.
Qed.
Lemma in_ev : forall w e x, In e (queue w ++ hand w) -> In x (of_event e) -> In x (holders w).
Proof. intros. unfold holders. apply in_or_app. left. apply in_flat_map. eauto. Qed.
Lemma in_dv : forall w d x, In d (all w) -> In x (of_device w d) -> In x (holders w).
Proof. intros. unfold holders. apply in_or_app. right. apply in_or_app. right. apply in_or_app. left. apply in_flat_map. eauto. Qed.
Lemma in_ls : forall w s d, In s (seats w) -> In d (devs w s) -> In d (holders w).
Proof. intros. unfold holders. apply in_or_app. right. apply in_or_app. left. apply in_flat_map. eauto. Qed.
Lemma in_gt : forall w t, In t (gtools w) -> In t (holders w).
Proof. intros. unfold holders. do 3 (apply in_or_app; right). apply in_or_app. now left. Qed.

(** What speaks of the kinds and homes only speaks of objects referred to *)
Lemma ev_ok_ext : forall w w' e, ev_ok w e -> (forall x, In x (of_event e) -> knd w' x = knd w x /\ home w' x = home w x) -> ev_ok w' e.
Proof.
  intros w w' e (A & B & C) H. unfold of_event in H. repeat split.
  - rewrite (proj1 (H _ (or_introl eq_refl))). auto.
  - destruct (B t) as [B1 B2]; auto. destruct (H t) as [H1 H2]; [right; apply in_or_app; left; rewrite H0; now left|]. congruence.
  - destruct (B t) as [B1 B2]; auto. destruct (H t) as [H1 H2]; [right; apply in_or_app; left; rewrite H0; now left|]. rewrite H2. auto.
  - destruct (C m) as [C1 C2]; auto. destruct (H m) as [H1 H2]; [right; apply in_or_app; right; rewrite H0; now left|]. congruence.
  - destruct (C m) as [C1 C2]; auto. destruct (H m) as [H1 H2]; [right; apply in_or_app; right; rewrite H0; now left|]. congruence.
Qed.
Lemma dev_ok_ext : forall w w' d, dev_ok w d -> seat_of w' d = seat_of w d -> group_of w' d = group_of w d -> tools w' d = tools w d -> modes w' d = modes w d ->
  (forall x, In x (of_device w d) -> knd w' x = knd w x /\ home w' x = home w x) -> dev_ok w' d.
Proof.
  intros w w' d (A & B & C & D & E & F) E1 E2 E3 E4 H. unfold of_device in H. unfold dev_ok. rewrite E1, E2, E3, E4.
  split. { rewrite (proj1 (H _ (or_introl eq_refl))). auto. }
  split. { intros g G. destruct (H g) as [H1 _]; [right; apply in_or_app; left; rewrite G; now left|]. rewrite H1. auto. }
  split; [auto|]. split.
  { intros t T. destruct (H t) as [H1 H2]; [right; apply in_or_app; right; apply in_or_app; now left|]. rewrite H1, H2. auto. }
  split; auto. intros t T. destruct (H t) as [H1 H2]; [right; apply in_or_app; right; apply in_or_app; now right|]. rewrite H1, H2. auto.
Qed.

(** A tool, mode group or device group is made: the code holds the reference *)
Lemma alloc_ok : forall w u tmp k, inv w u tmp None -> k <> K_seat -> k <> K_device ->
  inv (alloc k w) u (next w :: tmp) None /\ keeps w (alloc k w) /\ ~ In (next w) (holders w).
Proof.
  intros w u tmp k IV NS ND. destruct (fresh_not_in _ _ _ _ IV) as [U0 NI]. destruct IV as [SH CT]. set (x := next w) in *.
  assert (NH : ~ In x (holders w)) by (intros I; apply NI; apply in_or_app; auto).
  assert (LX : live w x = false) by (apply (sh_fresh _ _ SH); unfold x; lia).
  unfold alloc. cbv zeta. sm. fold x.
  match goal with |- inv ?W _ _ _ /\ _ => set (w' := W) end.
  assert (HH : holders w' = holders w) by reflexivity.
  split; [|split; [|auto]].
  - split.
    + assert (EX : forall y, In y (holders w) -> knd w' y = knd w y /\ home w' y = home w y).
      { intros y I. unfold w'. sm. rewrite upd_other; auto. intros ->. auto. }
      destruct SH. constructor; unfold w'; sm; auto.
      * intros y G. rewrite upd_other by lia. apply sh_fresh. lia.
      * intros y. rewrite sh_freed. destruct (Nat.eq_dec y x) as [->|N]; [rewrite upd_same, LX; unfold x; split; intros [? ?]; [lia|discriminate]|]. rewrite upd_other by auto. unfold x in *. split; intros [? ?]; split; auto; lia.
      * intros s. rewrite sh_seats. destruct (Nat.eq_dec s x) as [->|N]; [rewrite !upd_same, LX; split; intros [? ?]; congruence|]. rewrite !upd_other by auto. reflexivity.
      * intros g I. destruct (sh_groups g I) as [A B]. assert (g <> x) by congruence. rewrite !upd_other by auto. auto.
      * intros d. rewrite sh_all. destruct (Nat.eq_dec d x) as [->|N]; [rewrite !upd_same, LX; split; intros (? & ? & ?); congruence|]. rewrite !upd_other by auto. reflexivity.
      * intros d I. apply (dev_ok_ext w); auto. intros y J. apply EX. eapply in_dv; eauto.
      * intros t I. destruct (sh_gtools t I) as [A B]. destruct (EX t (in_gt _ _ I)) as [E1 _]. unfold w' in E1. smi E1. rewrite E1. auto.
      * intros e I. apply (ev_ok_ext w); auto. intros y J. apply EX. eapply in_ev; eauto.
    + destruct CT as [A B C D]. constructor; auto; rewrite ?HH.
      * intros y L _. rewrite <- app_comm_cons, cnt_cons. unfold w' in *. smi L. sm. destruct (Nat.eqb y x) eqn:E.
        { apply Nat.eqb_eq in E. subst y. rewrite upd_same. apply cnt_not_in in NI. rewrite NI, U0. lia. }
        apply Nat.eqb_neq in E. rewrite upd_other in L by auto. rewrite upd_other by auto. apply B; [auto|discriminate].
      * intros y L. rewrite <- app_comm_cons, cnt_cons. unfold w' in L. smi L. destruct (Nat.eqb y x) eqn:E.
        { apply Nat.eqb_eq in E. subst y. rewrite upd_same in L. discriminate. }
        apply Nat.eqb_neq in E. rewrite upd_other in L by auto. apply C; auto.
      * discriminate.
  - constructor; unfold w'; sm; auto; unfold x; try lia.
    + intros y L. destruct (Nat.eq_dec y (next w)) as [->|N]; [now rewrite upd_same|now rewrite upd_other].
    + intros y L. apply upd_other. lia.
Qed.
Lemma inv_home : forall w u tmp t v, inv w u tmp None -> ~ In t (holders w) -> inv (set_home w (upd (home w) t v)) u tmp None.
Proof.
  intros w u tmp t v [SH CT] N. set (w' := set_home w (upd (home w) t v)). split.
  - assert (EX : forall y, In y (holders w) -> knd w' y = knd w y /\ home w' y = home w y).
    { intros y I. unfold w'. sm. rewrite upd_other; auto. intros ->. auto. }
    destruct SH. constructor; unfold w'; sm; auto.
    + intros d I. apply (dev_ok_ext w); auto. intros y J. apply EX. eapply in_dv; eauto.
    + intros y I. destruct (sh_gtools y I) as [A B]. destruct (EX y (in_gt _ _ I)) as [_ E1]. unfold w' in E1. smi E1. rewrite E1. auto.
    + intros e I. apply (ev_ok_ext w); auto. intros y J. apply EX. eapply in_ev; eauto.
  - assert (HH : holders w' = holders w) by reflexivity. destruct CT as [A B C D]. constructor; rewrite ?HH; auto.
Qed.
Lemma counts_move : forall w w' u tmp tmp' ex, counts w u tmp ex -> live w' = live w -> rc w' = rc w -> knd w' = knd w ->
  (forall x, cnt x (tmp' ++ holders w') = cnt x (tmp ++ holders w)) -> counts w' u tmp' ex.
Proof. intros w w' u tmp tmp' ex [A B C D] E1 E2 E3 H. constructor; rewrite ?E1, ?E2, ?E3; auto; intros; rewrite H; auto. Qed.
Lemma inv_tools : forall w u tmp d t, inv w u (t :: tmp) None -> In d (all w) -> ~ In t (tools w d) -> knd w t = K_tool -> home w t = Some d ->
  inv (set_tools w (upd (tools w) d (t :: tools w d))) u tmp None.
Proof.
  intros w u tmp d t [SH CT] I N K HO. set (w' := set_tools w (upd (tools w) d (t :: tools w d))). split.
  - destruct SH. constructor; unfold w'; sm; auto.
    intros a J. destruct (Nat.eq_dec a d) as [->|NA].
    + destruct (sh_dev d J) as (D1 & D2 & D3 & D4 & D5 & D6). unfold dev_ok. sm. rewrite upd_same.
      split; auto. split; auto. split; [constructor; auto|]. split; auto. intros y [<-|Y]; auto.
    + apply (dev_ok_ext w); auto. sm. now apply upd_other.
  - apply (counts_move w _ u (t :: tmp)); auto. intros x. unfold holders. change (devs w') with (devs w). rewrite <- app_comm_cons, cnt_cons, !cnt_app.
    rewrite (flat_upd (of_device w) (of_device w') (all w') d x (sh_nall _ _ SH) I).
    + unfold of_device, w'. sm. rewrite upd_same, !cnt_cons, !cnt_app, cnt_cons. lia.
    + intros y Y NY. unfold of_device, w'. sm. now rewrite upd_other.
Qed.
Lemma inv_modes : forall w u tmp d t, inv w u (t :: tmp) None -> In d (all w) -> ~ In t (modes w d) -> knd w t = K_mode -> home w t = Some d ->
  inv (set_modes w (upd (modes w) d (t :: modes w d))) u tmp None.
Proof.
  intros w u tmp d t [SH CT] I N K HO. set (w' := set_modes w (upd (modes w) d (t :: modes w d))). split.
  - destruct SH. constructor; unfold w'; sm; auto.
    intros a J. destruct (Nat.eq_dec a d) as [->|NA].
    + destruct (sh_dev d J) as (D1 & D2 & D3 & D4 & D5 & D6). unfold dev_ok. sm. rewrite upd_same.
      split; auto. split; auto. split; auto. split; auto. split; [constructor; auto|]. intros y [<-|Y]; auto.
    + apply (dev_ok_ext w); auto. sm. now apply upd_other.
  - apply (counts_move w _ u (t :: tmp)); auto. intros x. unfold holders. change (devs w') with (devs w). rewrite <- app_comm_cons, cnt_cons, !cnt_app.
    rewrite (flat_upd (of_device w) (of_device w') (all w') d x (sh_nall _ _ SH) I).
    + unfold of_device, w'. sm. rewrite upd_same, !cnt_cons, !cnt_app, cnt_cons. lia.
    + intros y Y NY. unfold of_device, w'. sm. now rewrite upd_other.
Qed.
Lemma inv_gtools : forall w u tmp t, inv w u (t :: tmp) None -> ~ In t (gtools w) -> knd w t = K_tool -> home w t = None -> inv (set_gtools w (t :: gtools w)) u tmp None.
Proof.
  intros w u tmp t [SH CT] N K HO. set (w' := set_gtools w (t :: gtools w)). split.
  - destruct SH. constructor; unfold w'; sm; auto.
    + now constructor.
    + intros y [<-|Y]; auto.
  - apply (counts_move w _ u (t :: tmp)); auto. intros x. unfold holders, w'. sm. change (of_device (set_gtools w (t :: gtools w))) with (of_device w).
    rewrite !cnt_app, !cnt_cons. lia.
Qed.

(** Posting *)
Lemma ctx_ok : forall w ex, shape w ex -> ctx w = w.
Proof. intros w ex SH. unfold ctx. now rewrite (sh_ctx _ _ SH). Qed.
Lemma post_event_ok : forall w u tmp e, inv w u (opt (e_tool e) ++ opt (e_mode e) ++ tmp) None -> live w (e_dev e) = true -> ev_ok w e ->
  inv (post_event e w) u tmp None /\ keeps w (post_event e w) /\ queue (post_event e w) = queue w ++ [e].
Proof.
  intros w u tmp e IV L OK. unfold post_event. rewrite (ctx_ok _ _ (proj1 IV)). cbv zeta.
  assert (I1 : inv (ref (e_dev e) w) u (e_dev e :: opt (e_tool e) ++ opt (e_mode e) ++ tmp) None) by (apply inv_ref; auto; discriminate).
  assert (S1 := same_ref w (e_dev e) L). unfold ref, touch in *. rewrite L in *. set (w1 := set_rc w _) in *. change (queue w1) with (queue w).
  set (w2 := set_queue w1 (queue w ++ [e])). split; [|split; [|reflexivity]].
  - destruct I1 as [SH CT]. split.
    + assert (OK1 : ev_ok w1 e) by (apply (ev_ok_ext w); auto). destruct SH. constructor; unfold w2; sm; auto.
      intros x I. rewrite <- app_assoc in I. apply in_app_or in I. destruct I as [I|[<-|I]]; auto; apply sh_events; apply in_or_app; auto.
    + apply (counts_move w1 _ u (e_dev e :: opt (e_tool e) ++ opt (e_mode e) ++ tmp)); auto. intros x. unfold holders.
      change (flat_map (of_device w2) (all w2)) with (flat_map (of_device w1) (all w1)). unfold w2, w1. sm.
      rewrite <- app_assoc, !flat_map_app. cbn [flat_map app]. unfold of_event. repeat rewrite ?cnt_app, ?cnt_cons, ?cnt_nil. lia.
  - constructor; unfold w2, w1; sm; auto.
Qed.
Lemma set_ignored : forall w u tmp t a b, inv w u tmp None -> inv (set_tserial (set_ttype w (upd (ttype w) t a)) (upd (tserial w) t b)) u tmp None.
Proof.
  intros w u tmp t a b [SH CT]. split; [destruct SH; constructor; sm; auto|]. match goal with |- counts ?W _ _ _ => assert (H : holders W = holders w) by reflexivity end.
  destruct CT as [A B C D]. constructor; rewrite ?H; auto.
Qed.
Lemma get_tool_ok : forall w u tmp d ty serial, inv w u tmp None -> In d (all w) ->
  let (t, w') := get_tool d ty serial w in
  inv w' u tmp None /\ keeps w w' /\ live w' t = true /\ knd w' t = K_tool /\ (home w' t = None \/ home w' t = Some d).
Proof.
  intros w u tmp d ty serial IV I. pose proof (proj1 IV) as SH. destruct (proj1 (sh_all _ _ SH d) I) as (L & K & _).
  unfold get_tool. assert (ET : touch d w = w) by (unfold touch; now rewrite L). rewrite ET, (ctx_ok _ _ SH). cbv zeta.
  destruct (if serial =? 0 then None else find _ (gtools w)) as [t|] eqn:F1.
  - destruct (serial =? 0); [discriminate|]. apply find_some in F1. destruct F1 as [F1 _]. destruct (sh_gtools _ _ SH t F1) as [G1 G2].
    split; auto. split; [apply keeps_refl|]. split; [|auto]. apply (has_live _ _ _ _ _ (proj2 IV)). apply in_or_app. right. now apply in_gt.
  - clear F1. destruct (find _ (tools w d)) as [t|] eqn:F2.
    + apply find_some in F2. destruct F2 as [F2 _]. destruct (sh_dev _ _ SH d I) as (_ & _ & _ & D4 & _). destruct (D4 t F2) as [D41 D42].
      split; auto. split; [apply keeps_refl|]. split; [|auto]. apply (has_live _ _ _ _ _ (proj2 IV)). apply in_or_app. right. apply (in_dv w d); auto.
      unfold of_device. right. apply in_or_app. right. apply in_or_app. now left.
    + clear F2. destruct (alloc_ok w u tmp K_tool IV) as (IA & KA & NH); try discriminate. set (t := next w) in *. set (wa := alloc K_tool w) in *.
      apply (set_ignored _ _ _ t ty serial) in IA. fold wa.
      change (upd (tserial (set_ttype wa (upd (ttype wa) t ty))) t serial) with (upd (tserial wa) t serial).
      set (wb := set_tserial (set_ttype wa (upd (ttype wa) t ty)) (upd (tserial wa) t serial)) in *.
      assert (KB : keeps wa wb) by (constructor; auto). assert (HB : holders wb = holders w) by reflexivity.
      assert (LB : live wb t = true) by (unfold wb, wa, alloc; sm; apply upd_same). assert (KN : knd wb t = K_tool) by (unfold wb, wa, alloc; sm; apply upd_same).
      assert (IB : In d (all wb)) by exact I.
      destruct (serial =? 0) eqn:SE.
      * change (set_home (set_tools wb (upd (tools wb) d (t :: tools wb d))) (upd (home wb) t (Some d)))
          with (set_tools (set_home wb (upd (home wb) t (Some d))) (upd (tools wb) d (t :: tools wb d))).
        assert (IC : inv (set_home wb (upd (home wb) t (Some d))) u (t :: tmp) None) by (apply inv_home; auto; rewrite HB; auto).
        set (wc := set_home wb (upd (home wb) t (Some d))) in *.
        split; [|split; [|split; [|split]]]; auto.
        { apply (inv_tools wc); auto.
          - intros J. apply NH. apply (in_dv w d); auto. unfold of_device. right. apply in_or_app. right. apply in_or_app. left. exact J.
          - unfold wc. sm. apply upd_same. }
        { eapply keeps_trans; [exact KA|]. eapply keeps_trans; [exact KB|]. constructor; auto. }
        { right. unfold wc. sm. apply upd_same. }
      * change (set_home (set_gtools wb (t :: gtools wb)) (upd (home wb) t None))
          with (set_gtools (set_home wb (upd (home wb) t None)) (t :: gtools wb)).
        assert (IC : inv (set_home wb (upd (home wb) t None)) u (t :: tmp) None) by (apply inv_home; auto; rewrite HB; auto).
        set (wc := set_home wb (upd (home wb) t None)) in *.
        split; [|split; [|split; [|split]]]; auto.
        { apply (inv_gtools wc); auto.
          - intros J. apply NH. apply in_gt. exact J.
          - unfold wc. sm. apply upd_same. }
        { eapply keeps_trans; [exact KA|]. eapply keeps_trans; [exact KB|]. constructor; auto. }
        { left. unfold wc. sm. apply upd_same. }
Qed.
Lemma keeps_ref : forall w x, live w x = true -> keeps w (ref x w).
Proof. intros w x L. unfold ref, touch. rewrite L. constructor; auto. Qed.
Lemma do_post_ok : forall w u tmp d p, inv w u tmp None -> In d (all w) -> inv (do_post d p w) u tmp None /\ keeps w (do_post d p w).
Proof.
  intros w u tmp d p IV I. pose proof (proj1 IV) as SH. destruct (proj1 (sh_all _ _ SH d) I) as (L & K & _). destruct p as [|ty serial|i]; cbn [do_post].
  - destruct (post_event_ok w u tmp (mkE d None None)) as (A & B & _); auto. repeat split; auto; discriminate.
  - pose proof (get_tool_ok w u tmp d ty serial IV I) as G. destruct (get_tool d ty serial w) as [t w1]. destruct G as (I1 & K1 & L1 & T1 & H1).
    pose proof (inv_ref _ _ _ _ _ I1 L1 ltac:(discriminate)) as I2. pose proof (keeps_ref w1 t L1) as K2. pose proof (same_ref w1 t L1) as S2.
    destruct (post_event_ok (ref t w1) u tmp (mkE d (Some t) None)) as (A & B & _); auto.
    + cbn [e_dev]. apply (kp_live _ _ K2). apply (kp_live _ _ K1). auto.
    + unfold ev_ok. cbn [e_dev e_tool e_mode]. rewrite (sm_knd _ _ S2), (sm_home _ _ S2). split; [rewrite (kp_knd _ _ K1); auto; eapply below; eauto|]. split; [|discriminate].
      intros x X. inversion X. subst. auto.
    + split; auto. exact (keeps_trans _ _ _ K1 (keeps_trans _ _ _ K2 B)).
  - destruct (nth_error (modes w d) i) as [m|] eqn:N; [|split; auto; apply keeps_refl]. apply nth_error_In in N.
    destruct (sh_dev _ _ SH d I) as (_ & _ & _ & _ & _ & D6). destruct (D6 m N) as [M1 M2].
    assert (LM : live w m = true).
    { apply (has_live _ _ _ _ _ (proj2 IV)). apply in_or_app. right. apply (in_dv w d); auto. unfold of_device. right. apply in_or_app. right. apply in_or_app. now right. }
    pose proof (inv_ref _ _ _ _ _ IV LM ltac:(discriminate)) as I2. pose proof (keeps_ref w m LM) as K2. pose proof (same_ref w m LM) as S2.
    destruct (post_event_ok (ref m w) u tmp (mkE d None (Some m))) as (A & B & _); auto.
    + cbn [e_dev]. apply (kp_live _ _ K2). auto.
    + unfold ev_ok. cbn [e_dev e_tool e_mode]. rewrite (sm_knd _ _ S2), (sm_home _ _ S2). split; auto. split; [discriminate|].
      intros x X. inversion X. subst. auto.
    + split; auto. exact (keeps_trans _ _ _ K2 B).
Qed.
Lemma do_posts_ok : forall ps w u tmp d, inv w u tmp None -> In d (all w) -> inv (do_posts d ps w) u tmp None /\ keeps w (do_posts d ps w).
Proof.
  unfold do_posts. induction ps as [|p ps IH]; intros w u tmp d IV I; cbn [fold_left]; [split; auto; apply keeps_refl|].
  destruct (do_post_ok w u tmp d p IV I) as [A B]. destruct (IH _ _ _ d A) as [C D]; [rewrite (kp_all _ _ B); auto|]. split; auto. eapply keeps_trans; eauto.
Qed.
