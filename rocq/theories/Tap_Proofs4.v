(** Proofs about releases, movement and sequences of taps. *)
Require Import Coq.ZArith.ZArith Coq.Lists.List Coq.Bool.Bool Coq.micromega.Lia.
Require Verif.Tp_Model Verif.Tp_Spec.
Require Import Verif.Tap_Model Verif.Tap_Spec Verif.Tap_Proofs Verif.Tap_Proofs2 Verif.Tap_Proofs3.
Import ListNotations.
Open Scope Z_scope.

(** *** Nothing stays pressed *)
Lemma held_and_lifted : forall lo now was s b, inv lo now was s -> held None (out s) = Some (Some b) -> counted was (marks s) = 0 ->
  exists e, timer s = Some e /\ e <= now + 300000 /\ forall t, e <= t -> now <= t -> exists u, lastt lo (out s) <= u <= t /\ out (step s (Timer t)) = out s ++ [{| at_time := u; but := b; down := false |}].
Proof.
  intros lo now was s b [C L N] H CN. pose proof (c_held _ _ _ _ _ C) as CH. rewrite H in CH. injection CH as CH.
  destruct (pressed_of (st s)) as [n|] eqn:P; [|discriminate CH]. cbn in CH. injection CH as CH.
  assert (N0 : nf s = 0). { destruct (tap_enabled s && negb (off s)); [lia|]. destruct N as [N _]. rewrite N in P. discriminate P. }
  pose proof (c_nf _ _ _ _ _ C) as CF. rewrite N0 in CF. pose proof (c_timer _ _ _ _ _ C eq_refl) as CT. pose proof (c_times _ _ _ _ _ C) as TT. pose proof (c_last _ _ _ _ _ C) as CL.
  assert (X : (st s = TAPPED n) \/ (st s = DRAGGING_WAIT n)) by (destruct (st s); cbn in P, CF; try discriminate P; try lia; injection P as ->; auto).
  assert (A : armed (st s) = true) by (destruct X as [X|X]; rewrite X; reflexivity). destruct (CT A) as (e & E1 & E2). exists e. split; [exact E1|]. split; [exact E2|]. intros t Et Nt.
  cbn [step]. unfold timeout. rewrite E1. apply Z.leb_le in Et. rewrite Et. unfold handle_event. cbn [st clear_timer with_timer].
  destruct X as [X|X]; rewrite X in *; cbn in TT |- *; rewrite CH.
  - exists (sr s). split; [lia|reflexivity].
  - exists t. split; [lia|reflexivity].
Qed.

(** *** Movement *)
Definition sX (s : tap) : Prop := match st s with DEAD | DRAGGING _ | DRAGGING_2 _ => True | _ => False end.
Definition quiet (s s' : tap) : Prop := exists r, out s' = out s ++ r /\ Forall (fun e => down e = false) r.
Lemma quiet_refl : forall s s', out s' = out s -> quiet s s'. Proof. intros. exists []. rewrite app_nil_r. auto. Qed.
Lemma quiet_trans : forall a b c, quiet a b -> quiet b c -> quiet a c.
Proof. intros a b c (r & E & F) (r' & E' & F'). exists (r ++ r'). rewrite E', E, app_assoc. split; [reflexivity|]. apply Forall_app. auto. Qed.
Lemma handle_X : forall s e t lo, sX s -> core (pre e) true lo t s -> can e s -> e <> EV_TIMEOUT -> 1 <= nf (handle_event s e t) + post e -> sX (handle_event s e t) /\ quiet s (handle_event s e t).
Proof.
  intros s e t lo X C CAN NT N. assert (N2 : 1 <= nf s + post e) by (rewrite handle_nf in N; destruct e; try exact N; destruct (becomes_thumb s); cbn in *; lia).
  destruct C as [A _ _ _ _ _ _ _ _ _ _]. clear N CAN. unfold sX in X. destruct (st s) eqn:ST; try (exfalso; exact X); cbn [expect] in A; unfold handle_event; rewrite ST.
  - destruct e; cbn [dragging_event pre post] in *; try lia; unfold sX; cbn [st goto notify]; rewrite ?ST; try (exfalso; apply NT; reflexivity); try (split; [exact I|apply quiet_refl; reflexivity]).
    split; [exact I|]. eexists. split; [reflexivity|]. constructor; auto.
  - destruct e; cbn [dragging2_event pre post] in *; try lia; unfold sX; cbn [st goto notify clear_timer with_timer]; rewrite ?ST; try (exfalso; apply NT; reflexivity); try (split; [exact I|apply quiet_refl; reflexivity]);
      (split; [exact I|]; eexists; split; [reflexivity|]; constructor; auto).
  - assert (NZ : (nf s =? 0) = false) by (apply Z.eqb_neq; destruct e; cbn in N2; lia).
    destruct e; cbn [dead_event]; rewrite ?NZ; unfold sX; cbn [st]; rewrite ?ST; cbn [st clear_timer with_timer]; rewrite ?ST; (split; [exact I|apply quiet_refl; reflexivity]).
Qed.
Lemma handle_motion_X : forall s t lo, core 0 true lo t s -> 1 <= nf s -> sX (handle_event s EV_MOTION t).
Proof.
  intros s t lo [A _ _ _ _ _ _ _ _ _ _] N. destruct (st s) eqn:ST; cbn [expect] in A; try lia; unfold handle_event; rewrite ST; unfold sX; cbn; rewrite ?ST; cbn; rewrite ?ST; try exact I.
Qed.
Lemma X_touch : forall s f m w t lo s' m', follows w f -> core 0 true lo t s -> cnt w m <= nf s -> sX s -> touch_in_frame s f m t = (s', m') -> 1 <= nf s' -> 1 <= nf s -> sX s' /\ quiet s s'.
Proof.
  intros s f m w t lo s' m' F C N X E N1 N0. unfold touch_in_frame in E.
  destruct (fdirty f) eqn:D; cbn [negb] in E; [|injection E as <- <-; split; [auto|apply quiet_refl; auto]].
  assert (Q : sX s /\ quiet s s) by (split; [auto|apply quiet_refl; auto]).
  unfold follows in F. destruct w.
  - destruct F as [F|(F & _ & WD)]; rewrite F in E.
    + destruct (is_thumb m) eqn:T; [injection E as <- <-; auto|]. destruct (is_palm m) eqn:P; [injection E as <- <-; auto|].
      destruct (palm f).
      { injection E as <- <-. cbn [nf with_nf] in N1. destruct (handle_X s EV_PALM t lo X C ltac:(cbn; lia) ltac:(discriminate)) as [Y1 Y2]; [cbn [post]; lia|]. split; [exact Y1|exact Y2]. }
      assert (I : is_idle s = false) by (unfold is_idle, sX in *; destruct (st s); try (exfalso; exact X); reflexivity). rewrite I in E. cbn [negb andb] in E.
      destruct (thumb f); [injection E as <- <-; apply (handle_X s EV_THUMB t lo X C); [cbn; lia|discriminate|cbn [post]; lia]|].
      destruct (moved f); [injection E as <- <-; apply (handle_X s EV_MOTION t lo X C); [cbn; lia|discriminate|cbn [post]; lia]|]. injection E as <- <-; auto.
    + destruct (is_thumb m) eqn:T; [injection E as <- <-; auto|].
      destruct (is_palm m) eqn:P; [injection E as <- <-; apply (handle_X s EV_PALM_UP t lo X C); [exact I|discriminate|cbn [post]; lia]|].
      destruct (palm f).
      { injection E as <- <-. cbn [nf with_nf] in N1. destruct (handle_X s EV_PALM t lo X C ltac:(cbn; lia) ltac:(discriminate)) as [Y1 Y2]; [cbn [post]; lia|]. split; [exact Y1|exact Y2]. }
      rewrite WD in E. injection E as <- <-. pose proof N1 as N1'. rewrite handle_nf in N1'. cbn [nf with_nf] in N1'.
      assert (C1 : core 1 true lo t (with_nf (check s (1 <=? nf s)) (nf s - 1))).
      { apply core_d with (d := nf s + 0 - (nf s - 1)); [|lia]. apply (core_with_nf 0 true lo t (check s _)). apply core_check; [exact C|]. apply Z.leb_le. lia. }
      destruct (handle_X (with_nf (check s (1 <=? nf s)) (nf s - 1)) EV_RELEASE t lo X C1 ltac:(cbn; lia) ltac:(discriminate)) as [Y1 Y2]; [cbn [post]; lia|]. split; [exact Y1|exact Y2].
  - destruct F as [F|[F|(F & _)]]; rewrite F in E.
    + injection E as <- <-; auto.
    + destruct (is_thumb m); [|destruct (is_palm m)]; injection E as <- <-; auto.
    + destruct (is_thumb m); [injection E as <- <-; auto|]. destruct (is_palm m); [injection E as <- <-; auto|]. destruct (palm f); [injection E as <- <-; auto|]. destruct (thumb_tap f); [injection E as <- <-; auto|].
      injection E as <- <-.
      assert (C1 : core (-1) true lo t (with_nf s (nf s + 1))).
      { apply core_d with (d := nf s + 0 - (nf s + 1)); [|lia]. apply (core_with_nf 0 true lo t s). exact C. }
      assert (N2 : nf (handle_event (with_nf s (nf s + 1)) EV_TOUCH t) = nf s + 1) by (rewrite handle_nf; reflexivity).
      destruct (handle_X (with_nf s (nf s + 1)) EV_TOUCH t lo X C1 ltac:(cbn; lia) ltac:(discriminate)) as [Y1 Y2]; [cbn [post]; lia|].
      assert (Y3 : quiet s (handle_event (with_nf s (nf s + 1)) EV_TOUCH t)) by exact Y2.
      destruct (palm_tap f); [|split; [exact Y1|exact Y3]].
      assert (C2 : core 0 true lo t (handle_event (with_nf s (nf s + 1)) EV_TOUCH t)) by (apply (handle_core _ EV_TOUCH t lo C1); cbn [can nf with_nf]; lia).
      destruct (handle_X _ EV_MOTION t lo Y1 C2 ltac:(cbn; lia) ltac:(discriminate)) as [Y4 Y5]; [rewrite handle_nf, N2; cbn; lia|]. split; [exact Y4|]. eapply quiet_trans; eauto.
Qed.
Lemma touch_unmarked : forall s f m t s' m', touch_in_frame s f m t = (s', m') -> is_thumb m' = false -> is_palm m' = false -> m = m'.
Proof.
  intros s f [mt mp] t s' m' E T P. unfold touch_in_frame in E. destruct (fdirty f); cbn [negb] in E; [|congruence]. cbn [is_thumb is_palm] in E.
  destruct (fs f); try congruence; destruct mt; try congruence; destruct mp; try congruence; destruct (palm f); try (injection E as <- <-; discriminate); try congruence;
    repeat match goal with H : (if ?b then _ else _) = _ |- _ => destruct b | H : (let _ := _ in _) = _ |- _ => cbv zeta in H end; try congruence; injection E as <- <-; cbn in T, P; try discriminate;
    destruct (becomes_thumb s); cbn in *; try discriminate; reflexivity.
Qed.
Lemma stays_counted : forall l was s ms t s' ms', Forall2 follows was l -> length ms = length was -> touches_in_frame s l ms t = (s', ms') -> stays l ms' = true -> 1 <= counted was ms.
Proof.
  induction l as [|f l IH]; intros was s ms t s' ms' F L E S; [discriminate S|].
  inversion F as [|w ? was' ? F1 F2]; subst. destruct ms as [|m ms]; [discriminate L|]. cbn in L. injection L as L.
  cbn [touches_in_frame] in E. destruct (touch_in_frame s f m t) as [s1 m1] eqn:E1. destruct (touches_in_frame s1 l ms t) as [s2 ms2] eqn:E2. injection E as <- <-.
  rewrite counted_cons. pose proof (cnt_range w m). pose proof (counted_nonneg was' ms). cbn [stays] in S. apply orb_true_iff in S. destruct S as [S|S].
  - apply andb_true_iff in S. destruct S as [S S3]. apply andb_true_iff in S. destruct S as [S1 S2]. apply negb_true_iff in S2, S3.
    rewrite (touch_unmarked _ _ _ _ _ _ E1 S2 S3). assert (W : w = true); [|subst w; unfold cnt; rewrite S2, S3; cbn [andb negb]; lia].
    unfold is_state in S1. destruct w; [reflexivity|]. cbn in F1. destruct F1 as [F1|[F1|(F1 & _)]]; rewrite F1 in S1; discriminate S1.
  - specialize (IH was' s1 ms t s2 ms2 F2 L E2 S). lia.
Qed.
Lemma touches_X : forall l was s ms t lo K s' ms', Forall2 follows was l -> length ms = length was -> core 0 true lo t s -> 0 <= K -> nf s = K + counted was ms ->
  touches_in_frame s l ms t = (s', ms') -> (1 <= K \/ stays l ms' = true) -> sX s -> sX s' /\ quiet s s'.
Proof.
  induction l as [|f l IH]; intros was s ms t lo K s' ms' F L C K0 N E ST X.
  - inversion F; subst. destruct ms; [|discriminate L]. cbn in E. injection E as <- <-. split; [auto|apply quiet_refl; auto].
  - pose proof (fun S => stays_counted (f :: l) was s ms t s' ms' F L E S) as SC.
    inversion F as [|w ? was' ? F1 F2]; subst. destruct ms as [|m ms]; [discriminate L|]. cbn in L. injection L as L.
    cbn [touches_in_frame] in E. destruct (touch_in_frame s f m t) as [s1 m1] eqn:E1. destruct (touches_in_frame s1 l ms t) as [s2 ms2] eqn:E2. injection E as <- <-.
    rewrite counted_cons in N, SC. pose proof (counted_nonneg was' ms). destruct (touch_core s f m w t lo s1 m1 F1 C ltac:(lia) E1) as (C1 & N1 & K1).
    pose proof (cnt_range (is_down f) m1). pose proof (cnt_range w m).
    assert (P0 : 1 <= nf s) by (destruct ST as [ST|ST]; [lia|specialize (SC ST); lia]).
    assert (P : 1 <= nf s1 /\ (1 <= K + cnt (is_down f) m1 \/ stays l ms2 = true)).
    { destruct ST as [ST|ST]; [split; [lia|left; lia]|]. cbn [stays] in ST. apply orb_true_iff in ST. destruct ST as [ST|ST].
      - apply andb_true_iff in ST. destruct ST as [ST S3]. apply andb_true_iff in ST. destruct ST as [S1 S2]. apply negb_true_iff in S2, S3.
        assert (cnt (is_down f) m1 = 1); [|split; [lia|left; lia]]. unfold cnt, is_down, is_state in *. destruct (fs f); try discriminate S1. rewrite S2, S3. reflexivity.
      - split; [|right; exact ST]. pose proof (stays_counted l was' s1 ms t s2 ms2 F2 L E2 ST). lia. }
    destruct P as [P1 P2]. destruct (X_touch s f m w t lo s1 m1 F1 C ltac:(lia) X E1 P1 P0) as [X1 Q1].
    destruct (IH was' s1 ms t lo (K + cnt (is_down f) m1) s2 ms2 F2 L C1 ltac:(lia) ltac:(lia) E2 P2 X1) as [X2 Q2]. split; [auto|]. eapply quiet_trans; eauto.
Qed.
Lemma touches_M : forall l was s ms t lo K s' ms', Forall2 follows was l -> length ms = length was -> core 0 true lo t s -> 0 <= K -> nf s = K + counted was ms ->
  touches_in_frame s l ms t = (s', ms') -> moves_away l ms = true -> sX s'.
Proof.
  induction l as [|f l IH]; intros was s ms t lo K s' ms' F L C K0 N E MV; [discriminate MV|].
  inversion F as [|w ? was' ? F1 F2]; subst. destruct ms as [|m ms]; [discriminate L|]. cbn in L. injection L as L.
  cbn [touches_in_frame] in E. destruct (touch_in_frame s f m t) as [s1 m1] eqn:E1. destruct (touches_in_frame s1 l ms t) as [s2 ms2] eqn:E2. injection E as <- <-.
  rewrite counted_cons in N. pose proof (counted_nonneg was' ms). destruct (touch_core s f m w t lo s1 m1 F1 C ltac:(lia) E1) as (C1 & N1 & K1).
  pose proof (cnt_range (is_down f) m1). pose proof (cnt_range w m). cbn [moves_away] in MV. apply orb_true_iff in MV. destruct MV as [MV|MV].
  - apply andb_true_iff in MV. destruct MV as [MV V7]. apply andb_true_iff in MV. destruct MV as [MV V6]. apply andb_true_iff in MV. destruct MV as [MV V5]. apply andb_true_iff in MV. destruct MV as [MV V4]. apply andb_true_iff in MV. destruct MV as [MV V3]. apply andb_true_iff in MV. destruct MV as [V1 V2].
    apply negb_true_iff in V4, V5, V6, V7. assert (FS : fs f = Tp_Model.UPDATE) by (unfold is_state in V1; destruct (fs f); try discriminate V1; reflexivity).
    assert (W : w = true). { destruct w; [reflexivity|]. cbn in F1. rewrite FS in F1. destruct F1 as [F1|[F1|(F1 & _)]]; discriminate F1. }
    subst w. assert (CN : cnt true m = 1) by (unfold cnt; rewrite V6, V7; reflexivity).
    assert (NI : is_idle s = false). { unfold is_idle. pose proof (c_nf _ _ _ _ _ C) as A. destruct (st s); try reflexivity. cbn in A. lia. }
    unfold touch_in_frame in E1. rewrite V2, FS, V6, V7, V4, V5, NI, V3 in E1. cbn in E1. injection E1 as <- <-.
    assert (X1 : sX (handle_event s EV_MOTION t)) by (eapply handle_motion_X; [exact C|lia]).
    destruct (touches_X l was' _ ms t lo (K + cnt (is_down f) m) s2 ms2 F2 L C1 ltac:(lia) ltac:(lia) E2) as [X2 _]; auto. left. unfold is_down. rewrite FS, CN. lia.
  - apply (IH was' s1 ms t lo (K + cnt (is_down f) m1) s2 ms2 F2 L C1 ltac:(lia) ltac:(lia) E2 MV).
Qed.
Lemma button_X : forall s t lo, sX s -> core 0 true lo t s -> sX (handle_event s EV_BUTTON t) /\ quiet s (handle_event s EV_BUTTON t).
Proof.
  intros s t lo X C. unfold sX in X. destruct (st s) eqn:ST; try (exfalso; exact X); unfold handle_event; rewrite ST; cbn [dragging_event dragging2_event dead_event]; unfold sX; cbn; rewrite ?ST; cbn; rewrite ?ST; split; try exact I.
  - eexists. split; [reflexivity|]. constructor; auto. - eexists. split; [reflexivity|]. constructor; auto. - apply quiet_refl. reflexivity.
Qed.
Lemma frame_split : forall lo now was s l c t, inv lo now was s -> now <= t -> Forall2 follows was l -> off s = false -> tap_enabled s = true ->
  exists s1 s2 ms2, core 0 true lo t s1 /\ nf s1 = counted was (marks s1) /\ marks s1 = marks s /\ (s1 = s \/ s1 = handle_event s EV_BUTTON t) /\ length (marks s) = length was /\ touches_in_frame s1 l (marks s1) t = (s2, ms2) /\
    st (handle_state s l c t) = st s2 /\ out (handle_state s l c t) = out s2 /\ marks (handle_state s l c t) = ms2.
Proof.
  intros lo now was s l c t [C L N] T F O EN. rewrite O, EN in N. cbn [negb andb] in N. unfold handle_state. rewrite O, EN. cbn [negb orb].
  set (s1 := if clickpad s && c then handle_event s EV_BUTTON t else s).
  assert (X : core 0 true lo t s1 /\ nf s1 = nf s /\ marks s1 = marks s /\ (s1 = s \/ s1 = handle_event s EV_BUTTON t)).
  { pose proof (core_mono _ _ _ _ _ _ C T) as C1. unfold s1. destruct (clickpad s && c); [|split; [auto|auto]]. split; [apply (handle_core s EV_BUTTON t lo C1 I)|split; [apply handle_nf|]]. split; [apply (handle_kept s EV_BUTTON t)|auto]. }
  destruct X as (X1 & X2 & X3 & X4). destruct (touches_in_frame s1 l (marks s1) t) as [s2 ms2] eqn:E2. exists s1, s2, ms2.
  split; [auto|]. split; [congruence|]. split; [auto|]. split; [auto|]. split; [auto|]. split; [auto|].
  destruct (fields_update_map (check (with_marks s2 ms2) ((nf (with_marks s2 ms2) <=? fingers_down l) && (negb (fingers_down l =? 0) || (nf (with_marks s2 ms2) =? 0))))) as (A & B & D & E & G & H & J). rewrite A, D, J. auto.
Qed.
Lemma release_quiet : forall lo t s, core 0 true lo t s -> quiet s (release_all s t).
Proof. intros lo t s C. destruct (release_all_facts lo t s C) as (_ & _ & _ & _ & _ & _ & _ & R). eexists. split; [exact R|]. destruct (pressed_of (st s)); constructor; auto. Qed.
Definition sQ (s : tap) : Prop := sX s \/ st s = IDLE.
Lemma update_quiet : forall lo now was s su en t, inv lo now was s -> now <= t -> sQ s -> sQ (enabled_update s su en t) /\ quiet s (enabled_update s su en t).
Proof.
  intros lo now was s su en t [C _ _] T Q. unfold enabled_update.
  match goal with |- context [Bool.eqb (tap_enabled ?x) _] => set (s1 := x) end. assert (C1 : core 0 true lo t s1) by (pose proof (core_mono _ _ _ _ _ _ C T) as []; constructor; auto).
  assert (Q1 : quiet s s1) by (apply quiet_refl; reflexivity).
  destruct (Bool.eqb (tap_enabled s1) (tap_enabled s)); [split; [exact Q|exact Q1]|]. destruct (tap_enabled s1).
  - split; [right; reflexivity|apply quiet_refl; reflexivity].
  - split; [right; apply (release_all_facts lo t s1 C1)|]. eapply quiet_trans; [exact Q1|apply (release_quiet lo t s1 C1)].
Qed.
Lemma run_quiet : forall l lo now was s, inv lo now was s -> legal now was l -> sQ s -> some_finger_stays s l -> quiet s (run s l).
Proof.
  induction l as [|i l IH]; intros lo now was s I L Q S; [apply quiet_refl; reflexivity|].
  destruct S as [S1 S2]. cbn [run fold_left]. change (fold_left step l (step s i)) with (run (step s i) l).
  pose proof (inv_run [i] lo now was s I) as IV.
  assert (L1 : legal now was [i] /\ legal (last_time now [i]) (last_down was [i]) l) by (destruct i; cbn in L |- *; intuition).
  destruct L1 as [L1 L2]. specialize (IV L1). change (run s [i]) with (step s i) in IV.
  assert (Z : sQ (step s i) /\ quiet s (step s i)).
  { clear IH L L2 S2 IV. destruct i; cbn [legal] in L1; cbn [step] in *.
    - split; [exact Q|apply quiet_refl; reflexivity].
    - destruct L1 as (T & F & _). destruct (off s || negb (tap_enabled s)) eqn:OE.
      { unfold handle_state. rewrite OE. destruct (fields_update_map s) as (A & B & D & E & G & H & J). split; [unfold sQ, sX in *; rewrite A; exact Q|apply quiet_refl; exact J]. }
      apply orb_false_iff in OE. destruct OE as [O1 O2]. apply negb_false_iff in O2.
      destruct (frame_split lo now was s l0 click t I T F O1 O2) as (s1 & s2 & ms2 & C1 & N1 & M1 & B1 & LM & E2 & R1 & R2 & R3). rewrite R3 in S1.
      pose proof (stays_counted l0 was s1 (marks s1) t s2 ms2 F ltac:(congruence) E2 S1) as CN.
      assert (XX : sX s). { destruct Q as [Q|Q]; [exact Q|]. exfalso. pose proof (c_nf _ _ _ _ _ (i_core _ _ _ _ I)) as A. rewrite Q in A. cbn in A. pose proof (i_cnt _ _ _ _ I) as B. rewrite O1, O2 in B. cbn in B. rewrite M1 in CN. lia. }
      assert (X1 : sX s1 /\ quiet s s1). { destruct B1 as [-> | ->]; [split; [auto|apply quiet_refl; auto]|]. apply (button_X s t lo XX). apply (core_mono _ _ _ _ _ _ (i_core _ _ _ _ I) T). }
      destruct X1 as [X1 Q1]. destruct (touches_X l0 was s1 (marks s1) t lo 0 s2 ms2 F ltac:(congruence) C1 ltac:(lia) ltac:(lia) E2 (or_intror S1) X1) as [X2 Q2].
      split; [left; unfold sX in *; rewrite R1; exact X2|]. eapply quiet_trans; [exact Q1|]. unfold quiet in *. rewrite R2. exact Q2.
    - unfold timeout. destruct (timer s) as [e|]; [|split; [exact Q|apply quiet_refl; reflexivity]]. destruct (e <=? t); [|split; [exact Q|apply quiet_refl; reflexivity]].
      unfold handle_event, sQ, sX in *. cbn [st clear_timer with_timer]. destruct Q as [Q|Q].
      + destruct (st s) eqn:ST; try (exfalso; exact Q); cbn; rewrite ST; cbn; rewrite ?ST; (split; [left; exact Logic.I|apply quiet_refl; reflexivity]).
      + rewrite Q; cbn; rewrite Q; cbn. rewrite Q. split; [right; reflexivity|apply quiet_refl; reflexivity].
    - destruct L1 as [T _]. eapply update_quiet; eauto.
    - unfold update_map. unfold is_idle. cbn [st]. destruct (st s) eqn:ST; (split; [|apply quiet_refl; reflexivity]); unfold sQ, sX in *; cbn [st]; rewrite ?ST in *; auto.
    - split; [exact Q|apply quiet_refl; reflexivity].
    - split; [exact Q|apply quiet_refl; reflexivity].
    - destruct L1 as [T _]. eapply update_quiet; eauto.
    - destruct L1 as [T _]. eapply update_quiet; eauto.
    - destruct L1 as [T _]. pose proof (core_mono _ _ _ _ _ _ (i_core _ _ _ _ I) T) as C1. split; [right; apply (release_all_facts lo t s C1)|apply (release_quiet lo t s C1)].
    - destruct L1 as [T _]. pose proof (core_mono _ _ _ _ _ _ (i_core _ _ _ _ I) T) as C1. split; [right; apply (release_all_facts lo t s C1)|]. apply (release_quiet lo t s C1).
    - split; [exact Q|apply quiet_refl; reflexivity]. }
  destruct Z as [Z1 Z2]. eapply quiet_trans; [exact Z2|]. apply (IH lo _ _ _ IV L2 Z1 S2).
Qed.
Lemma moved_quiet : forall lo now was s f c t l, inv lo now was s -> legal now was (Frame f c t :: l) -> off s = false -> tap_enabled s = true -> moves_away f (marks s) = true -> some_finger_stays (step s (Frame f c t)) l ->
  quiet (step s (Frame f c t)) (run s (Frame f c t :: l)).
Proof.
  intros lo now was s f c t l I L O E MV S. cbn [run fold_left]. change (fold_left step l ?x) with (run x l). cbn [legal] in L. destruct L as (T & F & L).
  apply (run_quiet l lo t (map is_down f)); [apply (inv_frame lo now was s f c t I T F)|exact L| |exact S].
  left. cbn [step]. destruct (frame_split lo now was s f c t I T F O E) as (s1 & s2 & ms2 & C1 & N1 & M1 & B1 & LM & E2 & R1 & R2 & R3).
  unfold sX. rewrite R1. apply (touches_M f was s1 (marks s1) t lo 0 s2 ms2 F ltac:(congruence) C1 ltac:(lia) ltac:(lia) E2). rewrite M1. exact MV.
Qed.

(** *** Taps in a row *)
Record rest (n : nat) (s : tap) : Prop := { r_len : length (marks s) = n; r_st : st s = IDLE; r_nf : nf s = 0; r_en : tap_enabled s = true; r_off : off s = false }.
Lemma frames_len : forall l s n, length (marks s) = n -> (forall f t, In (f, t) l -> length f = n) -> length (marks (run s (frames l))) = n.
Proof.
  assert (B : forall l k s, length (marks (run s (beginning k l))) = length (marks s)).
  { induction l as [|f l IH]; intros; [reflexivity|]. cbn [beginning]. destruct (isb f); cbn [app]; [|apply IH]. cbn [run fold_left step]. change (fold_left step ?a ?b) with (run b a). rewrite IH. cbn [marks with_marks]. apply clear_length. }
  assert (T : forall l s ms t, length (snd (touches_in_frame s l ms t)) = length ms).
  { induction l as [|f l IH]; intros s ms t; [reflexivity|]. destruct ms as [|m ms]; [reflexivity|]. cbn [touches_in_frame]. destruct (touch_in_frame s f m t) as [s1 m1]. specialize (IH s1 ms t). destruct (touches_in_frame s1 l ms t). cbn in *. congruence. }
  induction l as [|[f t] l IH]; intros s n L F; [exact L|]. unfold frames. cbn [map concat]. fold (frames l). rewrite run_app. apply IH; [|intros; eapply F; right; eauto].
  unfold shown. cbn [fst snd]. rewrite run_app. change (run ?x [?i]) with (step x i). cbn [step]. set (s1 := run s (beginning 0 f)). assert (L1 : length (marks s1) = n) by (unfold s1; rewrite B; exact L). clearbody s1.
  unfold handle_state. assert (D : forall x, marks (update_map x) = marks x) by (intros x; apply (fields_update_map x)). cbv zeta. rewrite D.
  destruct (off s1 || negb (tap_enabled s1)); [exact L1|]. rewrite andb_false_r. cbv zeta. specialize (T f s1 (marks s1) t). destruct (touches_in_frame s1 f (marks s1) t). cbn in *. congruence.
Qed.
Lemma calm_len : forall no l was f t, calm no was l -> In (f, t) l -> length f = length was.
Proof.
  induction l as [|[f0 t0] l IH]; intros was f t C I; [destruct I|]. cbn [calm] in C. destruct C as (F & _ & _ & C). destruct I as [I|I].
  - injection I as -> ->. symmetry. apply (Forall2_length' _ _ _ F). - rewrite (IH _ _ _ C I), map_length. symmetry. apply (Forall2_length' _ _ _ F).
Qed.
Lemma downs_len : forall no l was, calm no was l -> length (downs was l) = length was.
Proof. induction l as [|[f t] l IH]; intros was C; [reflexivity|]. cbn [calm downs] in *. destruct C as (F & _ & _ & C). rewrite (IH _ C), map_length. symmetry. apply (Forall2_length' _ _ _ F). Qed.
Lemma one_tap : forall n s x, rest n s -> fine n x -> rest n (run s (inputs_of x)) /\ out (run s (inputs_of x)) = out s ++ click_of n x.
Proof.
  intros n s x [R1 R2 R3 R4 R5] (CA & CL & K1 & Z0 & LT). unfold inputs_of. cbn [run fold_left step]. unfold update_map, is_idle. cbn [st]. rewrite R2. cbn [sp sr timer drag draglock map_ want_map p1 p2 p3 nf enabled suspended off clickpad marks ok bug out].
  match goal with |- context [fold_left step _ ?y] => set (s0 := y) end. change (fold_left step ?a s0) with (run s0 a).
  assert (TS := tap_spec n s0 (arrive x) (leave x) (out s) _ R1 eq_refl R3 eq_refl eq_refl R4 R5 CA CL eq_refl K1 Z0).
  rewrite app_assoc, run_app. set (s1 := run s0 (frames (arrive x) ++ frames (leave x))) in *.
  assert (L1 : length (marks s1) = n).
  { unfold s1. rewrite run_app. apply frames_len.
    - apply frames_len; [exact R1|]. intros f t I. rewrite (calm_len _ _ _ f t CA I). apply repeat_length.
    - intros f t I. rewrite (calm_len _ _ _ f t CL I), (downs_len _ _ _ CA). apply repeat_length. }
  clearbody s1. change (map_ s0) with (tap_map_ x) in TS. change (drag s0) with (tap_drag x) in TS. clear s0. destruct TS as [U1 U2 U3 U4 U5 U6 _ _ _ U7]. specialize (U7 eq_refl).
  fold (how_many_fingers n x) in *. set (k := how_many_fingers n x) in *. cbn [run fold_left step]. unfold timeout.
  assert (BK : match button_for (tap_map_ x) k with Some b => b = button_of (tap_map_ x) (kf k) /\ 1 <= k <= 3 | None => 4 <= k end).
  { unfold button_for, kf. destruct (Z.eqb_spec k 1), (Z.eqb_spec k 2), (Z.eqb_spec k 3); try lia; (split; [|lia]); destruct (tap_map_ x); reflexivity. }
  assert (IDLE_case : forall o, st s1 = IDLE -> out s1 = o -> rest n (match timer s1 with Some e => if e <=? later x then handle_event (clear_timer s1) EV_TIMEOUT (later x) else s1 | None => s1 end) /\
     out (match timer s1 with Some e => if e <=? later x then handle_event (clear_timer s1) EV_TIMEOUT (later x) else s1 | None => s1 end) = o).
  { intros o I O. destruct (timer s1) as [e|]; [|split; [constructor; auto|auto]]. destruct (e <=? later x); [|split; [constructor; auto|auto]].
    unfold handle_event. cbn [st clear_timer with_timer]. rewrite I. cbn [idle_event st clear_timer with_timer]. rewrite I. split; [constructor; auto|auto]. }
  unfold click_of. fold k. destruct (4 <=? k) eqn:K4.
  - apply Z.leb_le in K4. destruct (button_for (tap_map_ x) k); [lia|]. rewrite app_nil_r. apply IDLE_case; tauto.
  - apply Z.leb_gt in K4. destruct (button_for (tap_map_ x) k) as [b|]; [|lia]. destruct BK as [-> BK]. destruct (tap_drag x) eqn:D.
    + destruct U7 as (V1 & V2 & V3 & V4). rewrite V4. replace (last_with Tp_Model.END 0 (leave x) + 160000 + k * 20000 <=? later x) with true by (symmetry; apply Z.leb_le; exact LT).
      unfold handle_event. cbn [st clear_timer with_timer]. rewrite V1. cbn [tapped_event st goto notify clear_timer with_timer]. split; [constructor; auto|].
      cbn [out sr map_ goto clear_timer with_timer notify]. rewrite V2, V3, U2, <- app_assoc. reflexivity.
    + destruct U7 as (V1 & V2). apply IDLE_case; auto.
Qed.
Lemma taps_in_a_row_spec : forall n l s, rest n s -> Forall (fine n) l -> rest n (run s (concat (map inputs_of l))) /\ out (run s (concat (map inputs_of l))) = out s ++ concat (map (click_of n) l).
Proof.
  induction l as [|x l IH]; intros s R F; cbn [map concat]; [rewrite app_nil_r; auto|]. inversion F as [|? ? F1 F2]; subst. rewrite run_app. destruct (one_tap n s x R F1) as [R1 O1].
  destruct (IH _ R1 F2) as [R2 O2]. split; [exact R2|]. rewrite O2, O1, app_assoc. reflexivity.
Qed.
Lemma rest_init : forall n pad, rest n (init n pad true).
Proof. intros. constructor; try reflexivity. apply repeat_length. Qed.
