(** Spurious debouncing is learnt and kept. *)
Require Import Coq.ZArith.ZArith Coq.Lists.List Coq.Bool.Bool Coq.micromega.Lia.
Require Import Verif.Debounce_Model Verif.Debounce_Spec Verif.Debounce_Proofs.
Import ListNotations.
Open Scope Z_scope.

Lemma handle_event_spurious : forall d e t, d_spurious d = true -> d_spurious (fst (handle_event d e t)) = true.
Proof. intros [s c tm lt sh sp sf] e t H; simpl in H; subst; destruct e, s; reflexivity. Qed.

Lemma loop_spurious : forall ch many fl d t, d_spurious d = true ->
  d_spurious (fst (frame_loop many fl d ch t)) = true.
Proof.
  induction ch as [|[c b] ch IH]; intros many fl d t H; auto. cbn [frame_loop].
  set (x := if fl && negb (is_disabled d) then _ else _).
  assert (X : d_spurious (fst x) = true) by (subst x; destruct (fl && negb (is_disabled d)); auto).
  destruct x as [d1 f1]. cbn [fst] in X.
  pose proof (handle_event_spurious (set_code c d1) (if b then Press else Release) t X) as Y.
  destruct (handle_event _ _ _) as [d3 o3]. cbn [fst] in Y.
  assert (Z : d_spurious (fst (if many then handle_event d3 OtherButton t else (d3, []))) = true)
    by (destruct many; [apply handle_event_spurious|]; auto).
  destruct (if many then _ else _) as [d4 o4]. cbn [fst] in Z.
  specialize (IH many (if many then true else f1) d4 t Z). destruct (frame_loop _ _ _ _ _); auto.
Qed.

Lemma dstep_spurious : forall d o, d_spurious d = true -> d_spurious (fst (dstep d o)) = true.
Proof.
  intros d [ch t|t|t] H; cbn [dstep]; [|apply handle_event_spurious; auto..].
  unfold handle_frame. cbv zeta.
  set (x := if (_ || _) then _ else _).
  assert (X : d_spurious (fst (fst x)) = true).
  { subst x. pose proof (handle_event_spurious d OtherButton t H).
    destruct (_ || _); [destruct (handle_event _ _ _)|]; auto. }
  destruct x as [[d1 o1] f]. cbn [fst] in X.
  pose proof (loop_spurious (firstn 16 ch) (1 <? length (firstn 16 ch))%nat f d1 t X) as Y.
  destruct (frame_loop _ _ _ _ _); auto.
Qed.

Lemma drun_spurious : forall ops d, d_spurious d = true -> d_spurious (fst (drun d ops)) = true.
Proof.
  induction ops as [|o os IH]; intros d H; auto. cbn [drun].
  pose proof (dstep_spurious d o H). destruct (dstep d o) as [d1 o1]. cbn [fst] in *.
  specialize (IH d1 H0). destruct (drun d1 os); auto.
Qed.

Lemma drun_app_fst : forall a b d, fst (drun d (a ++ b)) = fst (drun (fst (drun d a)) b).
Proof.
  induction a as [|o a IH]; intros b d; auto. cbn [app drun].
  destruct (dstep d o) as [d1 o1]. specialize (IH b d1).
  destruct (drun d1 (a ++ b)), (drun d1 a). auto.
Qed.

Lemma hist_ok_app : forall a b hw, hist_ok hw (a ++ b) -> hist_ok hw a.
Proof. induction a; intros b hw H; simpl in *; auto. destruct H; split; eauto. Qed.
Lemma schedule_ok_app : forall a b d, schedule_ok d (a ++ b) -> schedule_ok d a.
Proof. induction a; intros b d H; simpl in *; auto. destruct H; split; eauto. Qed.
Lemma time_ok_app : forall a b n, time_ok n (a ++ b) -> time_ok n a.
Proof. induction a; intros b n H; simpl in *; auto. destruct H; split; eauto. Qed.

Lemma quiet_state : forall ops c,
  hist_ok (fun _ => false) ops -> schedule_ok (deb_init false) ops -> time_ok 0 ops ->
  let d := fst (drun (deb_init false) ops) in
  d_timer d = None -> d_short d = None -> hw_after ops c = true ->
  (d_state d = IsUp \/ d_state d = IsDown) /\ (d_code d = c -> d_state d = IsDown).
Proof.
  intros ops c Hh Hs Ht d Htm Hsh Hc.
  destruct (drun_G ops _ _ _ 0 0 Hh Hs Ht (GInv_init false 0 ltac:(lia))) as [HI HG].
  destruct HI as ((Ho & Hst) & HTi & _). fold d in Ho, Hst, HTi.
  assert (Hnd : d_state d <> Disabled).
  { clear - Hh. subst d.
    assert (G : forall ops d hw em, hist_ok hw ops -> Inv d hw em -> d_state d <> Disabled ->
              d_state (fst (drun d ops)) <> Disabled).
    { induction ops0 as [|o os IH]; intros d hw em H1 H2 H3; auto.
      destruct H1 as [H0 H1]. cbn [drun].
      pose proof (dstep_inv d hw em o H0 H2) as P. cbv zeta in P.
      assert (Q : d_state (fst (dstep d o)) <> Disabled).
      { destruct o as [ch t|t|t]; cbn [dstep].
        - pose proof (frame_step d hw em ch t H0 H2) as F. cbv zeta in F. tauto.
        - destruct d as [s ? ? ? ? ? ?]; destruct s; simpl in *; congruence.
        - destruct d as [s ? ? ? ? ? ?]; destruct s; simpl in *; congruence. }
      destruct (dstep d o) as [d1 o1]. cbn [fst snd] in *.
      specialize (IH d1 _ _ H1 (proj1 P) Q). destruct (drun d1 os); auto. }
    eapply G; eauto; [apply (Inv_init false)|discriminate]. }
  destruct d as [s dc tm lt sh sp sf] eqn:Ed. cbn [d_timer d_short d_state d_code d_spurious] in *.
  change (fold_left hw_step ops (fun _ => false)) with (hw_after ops) in *.
  unfold TInv in HTi. cbn [d_state d_timer d_short] in HTi. subst lt sh.
  destruct s; try (destruct HTi as [? [? [? ?]]]; congruence);
      try (destruct HTi as [? [? ?]]; congruence); try congruence.
  - split; auto. intros ->. destruct Hst; congruence.
  - split; auto.
Qed.

Lemma spurious_lemma : forall ops c t0 t1 t2 rest c' u0 us,
  let all := (ops ++ [Frame [(c, false)] t0; Frame [(c, true)] t1; FireShort t2]) ++ rest in
  hist_ok (fun _ => false) all -> schedule_ok (deb_init false) all -> time_ok 0 all ->
  let d := fst (drun (deb_init false) ops) in
  let d' := fst (drun (deb_init false) all) in
  d_timer d = None -> d_short d = None -> hw_after ops c = true ->
  d_timer d' = None -> d_short d' = None -> hw_after all c' = true ->
  snd (drun d' (bounces c' false (u0 :: us))) = [].
Proof.
  intros ops c t0 t1 t2 rest c' u0 us all Hh Hs Ht d d' A B C A' B' C'.
  pose proof (bounce_release_lemma all c' u0 us Hh Hs Ht A' B' C') as P. cbv zeta in P.
  unfold d'. rewrite P. replace (d_spurious (fst (drun (deb_init false) all))) with true; auto.
  symmetry. unfold all. rewrite drun_app_fst. apply drun_spurious.
  pose proof Hs as Hs0. unfold all in Hh, Hs, Ht.
  apply hist_ok_app, hist_ok_app in Hh. apply schedule_ok_app in Hs.
  assert (Hs1 := schedule_ok_app _ _ _ Hs). apply time_ok_app, time_ok_app in Ht.
  destruct (quiet_state ops c Hh Hs1 Ht A B C) as [Q1 Q2].
  rewrite drun_app_fst. fold d in Q1, Q2 |- *.
  assert (Sh : schedule_ok d [Frame [(c, false)] t0; Frame [(c, true)] t1; FireShort t2]).
  { clear -Hs. unfold d. generalize dependent (deb_init false). induction ops; intros d0 Hs; auto.
    simpl in Hs. destruct Hs as [_ Hs]. apply IHops in Hs. simpl.
    destruct (dstep d0 a) as [e1 p1]; simpl in *. destruct (drun e1 ops); auto. }
  clear - Q1 Q2 A B Sh. clearbody d. destruct d as [s dc tm lt sh sp sf]. cbn [d_timer d_short d_state d_code] in *. subst.
  destruct sp; [apply drun_spurious; reflexivity|].
  destruct (Z.eq_dec c dc) as [->|Hne].
  - specialize (Q2 eq_refl). subst s. cbn [drun dstep]. unfold handle_frame. cbn [firstn length]. cbv zeta.
    cbn [Nat.ltb Nat.leb orb d_code]. rewrite Z.eqb_refl. cbn. rewrite Z.eqb_refl. reflexivity.
  - assert (E : (c =? dc) = false) by (apply Z.eqb_neq; auto).
    destruct Q1; subst s; cbn [drun dstep]; unfold handle_frame; cbn [firstn length]; cbv zeta;
    cbn [Nat.ltb Nat.leb orb d_code]; rewrite E; cbn; rewrite Z.eqb_refl; reflexivity.
Qed.
