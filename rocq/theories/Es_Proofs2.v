Require Import Coq.ZArith.ZArith Coq.QArith.QArith Coq.Lists.List Coq.Bool.Bool Coq.micromega.Lia.
Require Verif.Tp_Model.
Require Import Verif.Es_Model Verif.Es_Spec Verif.Es_Proofs.
Import ListNotations.
Open Scope Z_scope.

Definition edge_of (a : axis) (e : et) : bool := match a with VERTICAL => er e | HORIZONTAL => eb e end.
(** The history of touch [k] explains its state *)
Definition Hist (p : epad) (areas : bool) (k : nat) (l : list einput) (e : et) : Prop :=
  (est e = E_NEW -> exists l1 w fs h t0 f0, l = l1 ++ EFrame fs h t0 :: w /\ nth_error fs k = Some f0 /\ st f0 = Tp_Model.BEGIN /\ x0 e = px f0 /\ y0 e = py f0 /\
     Forall (fun i => ~ begins k i) w /\ (forall a, edge_of a e = true -> in_edge p a f0 /\ stays_in_edge p a k w) /\
     (forall x, tmr e = Some x -> x = t0 + 300000 /\ areas_after areas l1 = false)) /\
  (est e = E_EDGE -> forall a, edge_of a e = true -> exists l1 b w lock w2, l = l1 ++ b :: w ++ lock :: w2 /\ starts_scrolling p areas k a l1 b w lock /\ Forall (fun i => ~ begins k i) (lock :: w2)).
Lemma hist_trivial : forall p areas k l e, est e = E_NONE \/ est e = E_AREA -> Hist p areas k l e.
Proof. intros p areas k l e [H|H]; split; rewrite H; discriminate. Qed.
Lemma hist_keep : forall p areas k l e e' i, Hist p areas k l e -> ~ begins k i -> est e' = est e -> x0 e' = x0 e -> y0 e' = y0 e -> tmr e' = tmr e \/ tmr e' = None ->
  (forall a, edge_of a e' = true -> edge_of a e = true) -> (est e = E_NEW -> forall f a, frame_of k i = Some f -> dirty f = true -> edge_of a e' = true -> in_edge p a f) -> Hist p areas k (l ++ [i]) e'.
Proof.
  intros p areas k l e e' i [H1 H2] NB E X Y T S IN. split; rewrite E; intros EE.
  - destruct (H1 EE) as (l1 & w & fs & h & t0 & f0 & -> & A1 & A2 & A3 & A4 & A5 & A6 & A7). exists l1, (w ++ [i]), fs, h, t0, f0. rewrite X, Y.
    split; [rewrite <- app_assoc; reflexivity|]. split; [exact A1|]. split; [exact A2|]. split; [exact A3|]. split; [exact A4|]. split; [apply Forall_app; auto|]. split.
    + intros a Q. destruct (A6 a (S a Q)) as [B1 B2]. split; [exact B1|]. apply Forall_app. split; [exact B2|]. constructor; [|constructor]. intros f FF D. eapply IN; eauto.
    + intros x Q. destruct T as [T|T]; rewrite T in Q; [auto|discriminate].
  - intros a Q. destruct (H2 EE a (S a Q)) as (l1 & b & w & lock & w2 & -> & B1 & B2). exists l1, b, w, lock, (w2 ++ [i]). split; [rewrite <- app_assoc; cbn; rewrite <- app_assoc; reflexivity|]. split; [exact B1|]. inversion B2; subst. constructor; [assumption|]. apply Forall_app; auto.
Qed.
Lemma not_begins : forall k i, (forall f, frame_of k i = Some f -> st f <> Tp_Model.BEGIN) -> ~ begins k i.
Proof. intros k i H (f & F & B). exact (H f F B). Qed.
Lemma at_right_in : forall p c x, at_right p c x = true -> maxx p - x < 7 * resx p /\ edge_on c = true.
Proof. intros p c x H. unfold at_right in H. apply andb_true_iff in H. destruct H as [-> H]. apply Z.ltb_lt in H. unfold right_edge in H. split; [lia|reflexivity]. Qed.
Lemma at_bottom_in : forall p c y, y <= 2147483647 -> at_bottom p c y = true -> (maxy p - y < 7 * resy p /\ (clickpad p = true \/ 40 * resy p <= maxy p - miny p)) /\ edge_on c = true.
Proof.
  intros p c y M H. unfold at_bottom in H. apply andb_true_iff in H. destruct H as [-> H]. apply Z.ltb_lt in H. split; [|reflexivity]. unfold bottom_edge in H. destruct (clickpad p || (40 * resy p <=? maxy p - miny p)) eqn:E; [|unfold INT_MAX in H; lia].
  split; [lia|]. apply orb_true_iff in E. rewrite Z.leb_le in E. exact E.
Qed.
Lemma handle_state_hist : forall p areas k l c ph e fs h t f, Hist p areas k l e -> J c ph e -> nth_error fs k = Some f -> follows ph f -> btn_areas c = areas_after areas l ->
  Hist p areas k (l ++ [EFrame fs h t]) (handle_state p c e f t).
Proof.
  intros p areas k l c ph e fs h t f H HJ N F A. pose proof HJ as (J1 & J2 & J3 & J4 & J5). set (i := EFrame fs h t).
  assert (FO : forall f', frame_of k i = Some f' -> f' = f) by (intros f' Q; cbn in Q; congruence).
  assert (SAME : st f <> Tp_Model.BEGIN -> (est e = E_NEW -> dirty f = false) -> Hist p areas k (l ++ [i]) e).
  { intros NB D. apply (hist_keep p areas k l e e i H); auto. { apply not_begins. intros f' Q. rewrite (FO f' Q). exact NB. } intros EE f' a Q DD. rewrite (FO f' Q), (D EE) in DD. discriminate DD. }
  assert (NARROW : st f <> Tp_Model.BEGIN -> Hist p areas k (l ++ [i]) (narrow p c e (px f) (py f))).
  { intros NB. unfold narrow. cbv zeta. destruct (er e && at_right p c (px f) || eb e && at_bottom p c (py f)) eqn:Q; [|apply hist_trivial; auto].
    apply (hist_keep p areas k l e _ i H); auto.
    - apply not_begins. intros f' X. rewrite (FO f' X). exact NB.
    - intros [] X; cbn in *; apply andb_true_iff in X; apply X.
    - intros _ f' [] X _ Y; rewrite (FO f' X); cbn in Y; apply andb_true_iff in Y; destruct Y as [_ Y]; [apply at_right_in in Y|apply at_bottom_in in Y; [|exact (proj1 F)]]; apply Y. }
  destruct F as [MX F]. unfold handle_state in *. destruct (st f) eqn:S; try contradiction.
  - subst ph. assert (Hist p areas k (l ++ [i]) e) by (apply hist_trivial; auto). destruct (edge_on c), (dirty f); assumption.
  - subst ph. assert (Hist p areas k (l ++ [i]) e) by (apply hist_trivial; auto). destruct (edge_on c), (dirty f); assumption.
  - destruct F as [-> ->]. destruct (edge_on c); [|apply hist_trivial; auto]. unfold handle. destruct (J1 eq_refl) as [E|E]; rewrite E; [|apply hist_trivial; auto].
    destruct (at_right p c (px f) || at_bottom p c (py f)); [|apply hist_trivial; auto]. split; [|discriminate]. intros _. exists l, [], fs, h, t, f. cbn. split; [reflexivity|]. split; [exact N|]. split; [exact S|]. split; [reflexivity|]. split; [reflexivity|]. split; [constructor|]. split.
    + intros a Q. split; [|constructor]. destruct a; cbn in Q; [apply at_right_in in Q|apply at_bottom_in in Q; [|exact MX]]; apply Q.
    + rewrite A. intros x Q. destruct (areas_after areas l); [discriminate Q|]. injection Q as <-. auto.
  - subst ph. assert (NB : Tp_Model.UPDATE <> Tp_Model.BEGIN) by discriminate. destruct (edge_on c) eqn:EO.
    + destruct (dirty f) eqn:D; [|apply SAME; auto]. unfold handle. destruct (est e) eqn:E.
      * apply SAME; [exact NB|discriminate].
      * apply NARROW, NB.
      * destruct (er e && eb e); [apply NARROW, NB|apply SAME; [exact NB|discriminate]].
      * apply hist_trivial; auto.
    + apply hist_trivial. auto.
  - destruct F as [-> D]. rewrite D. destruct (edge_on c) eqn:EO; [|apply hist_trivial; auto]. unfold handle. destruct (est e) eqn:E; apply hist_trivial; auto.
Qed.
(** A non-zero event *)
Definition nonzero (o : list (axis * Q)) (a : axis) (v : Q) : Prop := In (a, v) o /\ Qeq_bool v 0 = false.
Definition res_ok (p : epad) : Prop := 0 < resx p /\ 0 < resy p.
Lemma qeq0 : Qeq_bool 0 0 = true. Proof. reflexivity. Qed.
(** What post does, in terms of the axis *)
Lemma post_event : forall p c e f t a v, py f <= 2147483647 -> nonzero (snd (post p c e f t)) a v ->
  dirty f = true /\ bad f = false /\ only_edge a e /\ in_edge p a f /\ edge_on c = true /\ v = value a f /\ (est e = E_NEW -> three_mm p a <= Z.abs (along a f - match a with VERTICAL => y0 e | HORIZONTAL => x0 e end)) /\
  fst (post p c e f t) = handle p c (with_dir e (Some a)) E_POSTED (px f) (py f) t.
Proof.
  intros p c e f t a v MX [IN NZ]. unfold post in *. destruct (negb (dirty f) || bad f) eqn:ND; [contradiction IN|]. apply orb_false_iff in ND. destruct ND as [ND NB]. apply negb_false_iff in ND.
  destruct ((er e || eb e) && negb (er e && at_right p c (px f) || eb e && at_bottom p c (py f))) eqn:OUT; [contradiction IN|].
  destruct (er e) eqn:R, (eb e) eqn:B; cbv zeta in *.
  - contradiction IN.
  - match type of IN with context[Qeq_bool ?x 0] => set (n := x) in * end. destruct (Qeq_bool n 0) eqn:Z; [contradiction IN|]. cbn [snd fst] in *. destruct IN as [IN|[]]. injection IN as <- <-.
    cbn in OUT. rewrite orb_false_r in OUT. apply negb_false_iff, at_right_in in OUT. destruct OUT as [O1 O2].
    split; [exact ND|]. split; [exact NB|]. split; [split; assumption|]. split; [exact O1|]. split; [exact O2|].
    assert (X : n = value VERTICAL f /\ (est e = E_NEW -> three_mm p VERTICAL <= Z.abs (along VERTICAL f - y0 e))).
    { unfold n in *. unfold value, three_mm, along. destruct (est e) eqn:E; try (split; [reflexivity|discriminate]). destruct (Z.abs (py f - y0 e) <? 3 * resy p) eqn:Q; [discriminate Z|]. split; [reflexivity|]. intros _. apply Z.ltb_ge in Q. exact Q. }
    destruct X as [X1 X2]. split; [exact X1|]. split; [exact X2|reflexivity].
  - match type of IN with context[Qeq_bool ?x 0] => set (n := x) in * end. destruct (Qeq_bool n 0) eqn:Z; [contradiction IN|]. cbn [snd fst] in *. destruct IN as [IN|[]]. injection IN as <- <-.
    cbn in OUT. apply negb_false_iff, at_bottom_in in OUT; [|exact MX]. destruct OUT as [O1 O2].
    split; [exact ND|]. split; [exact NB|]. split; [split; assumption|]. split; [exact O1|]. split; [exact O2|].
    assert (X : n = value HORIZONTAL f /\ (est e = E_NEW -> three_mm p HORIZONTAL <= Z.abs (along HORIZONTAL f - x0 e))).
    { unfold n in *. unfold value, three_mm, along. destruct (est e) eqn:E; try (split; [reflexivity|discriminate]). destruct (Z.abs (px f - x0 e) <? 3 * resx p) eqn:Q; [discriminate Z|]. split; [reflexivity|]. intros _. apply Z.ltb_ge in Q. exact Q. }
    destruct X as [X1 X2]. split; [exact X1|]. split; [exact X2|reflexivity].
  - destruct (dir e); [|contradiction IN]. destruct IN as [IN|[]]. injection IN as _ <-. discriminate NZ.
Qed.
Lemma post_keeps : forall p c e f t, (forall a v, ~ nonzero (snd (post p c e f t)) a v) -> let e' := fst (post p c e f t) in est e' = est e /\ er e' = er e /\ eb e' = eb e /\ x0 e' = x0 e /\ y0 e' = y0 e /\ tmr e' = tmr e.
Proof.
  intros p c e f t H. unfold post in *. destruct (negb (dirty f) || bad f); [cbn; auto 10|]. match goal with |- context[if ?b then (e, []) else _] => destruct b end; [cbn; auto 10|].
  destruct (er e) eqn:R, (eb e) eqn:B; cbv zeta in *; [cbn; auto 10| | |destruct (dir e); cbn; auto 10].
  - match goal with |- context[Qeq_bool ?x 0] => set (n := x) in * end. destruct (Qeq_bool n 0) eqn:Z; [cbn; auto 10|]. exfalso. apply (H VERTICAL n). split; [left; reflexivity|exact Z].
  - match goal with |- context[Qeq_bool ?x 0] => set (n := x) in * end. destruct (Qeq_bool n 0) eqn:Z; [cbn; auto 10|]. exfalso. apply (H HORIZONTAL n). split; [left; reflexivity|exact Z].
Qed.
Lemma nonzero_dec : forall o, (exists a v, nonzero o a v) \/ (forall a v, ~ nonzero o a v).
Proof.
  induction o as [|[a v] o [IH|IH]]; [right; intros a v [[] _]|destruct IH as (b & w & I & Z); left; exists b, w; split; [right; exact I|exact Z]|].
  destruct (Qeq_bool v 0) eqn:Z; [right|left; exists a, v; split; [left; reflexivity|exact Z]]. intros b w [[E|I] Q]; [injection E as <- <-; congruence|]. apply (IH b w). split; assumption.
Qed.
Lemma hist_ext : forall p areas k l e e', Hist p areas k l e -> est e' = est e -> er e' = er e -> eb e' = eb e -> x0 e' = x0 e -> y0 e' = y0 e -> tmr e' = tmr e -> Hist p areas k l e'.
Proof.
  intros p areas k l e e' H E R B X Y T. unfold Hist in *. rewrite E, X, Y, T. assert (Q : forall a, edge_of a e' = edge_of a e) by (intros []; assumption).
  destruct H as [H1 H2]. split; [intros EE; destruct (H1 EE) as (l1 & w & fs & h & t0 & f0 & A1 & A2 & A3 & A4 & A5 & A6 & A7 & A8); exists l1, w, fs, h, t0, f0; repeat (split; [assumption|]); split; [intros a; rewrite Q; apply A7|exact A8]|].
  intros EE a. rewrite Q. apply (H2 EE).
Qed.
Lemma post_hist : forall p areas k l c ph e fs h t f, res_ok p -> Hist p areas k l e -> J c ph e -> nth_error fs k = Some f -> follows ph f -> btn_areas c = areas_after areas l ->
  let e1 := handle_state p c e f t in forall e2, (e2 = e1 \/ e2 = fst (stop e1)) ->
  Hist p areas k (l ++ [EFrame fs h t]) (fst (post p c e2 f t)) /\
  (forall a v, nonzero (snd (post p c e2 f t)) a v -> st f = Tp_Model.UPDATE /\ est (fst (post p c e2 f t)) = E_EDGE /\ only_edge a (fst (post p c e2 f t))).
Proof.
  intros p areas k l c ph e fs h t f RES H HJ N F A e1 e2 E2. set (i := EFrame fs h t).
  pose proof (handle_state_hist p areas k l c ph e fs h t f H HJ N F A) as H1. fold e1 i in H1.
  assert (H2 : Hist p areas k (l ++ [i]) e2). { destruct E2 as [-> | ->]; [exact H1|]. unfold stop. destruct (dir e1); [apply hist_trivial; auto|exact H1]. }
  destruct (nonzero_dec (snd (post p c e2 f t))) as [(a & v & NZ)|NN].
  2: { split; [|intros a v Q; exfalso; exact (NN a v Q)]. destruct (post_keeps p c e2 f t NN) as (P1 & P2 & P3 & P4 & P5 & P6). eapply hist_ext; eauto. }
  destruct (post_event p c e2 f t a v (proj1 F) NZ) as (B1 & B2 & B3 & B4 & B5 & B6 & B7 & B8).
  assert (ED : er e2 || eb e2 = true) by (destruct a; destruct B3 as [-> ->]; reflexivity).
  assert (e2 = e1) as ->. { destruct E2 as [E|E]; [exact E|]. unfold stop in E. destruct (dir e1); [rewrite E in ED; discriminate ED|exact E]. }
  assert (MX := proj1 F). pose proof (K_intro p c ph e f t HJ F) as (K1 & K2 & K3 & K4 & K5). fold e1 in K1, K2, K3, K4, K5.
  assert (EN : est e1 = E_NEW \/ est e1 = E_EDGE) by (destruct (est e1) eqn:Q; auto; destruct K2 as [Q1 Q2]; auto; rewrite Q1, Q2 in ED; discriminate ED).
  assert (UP : st f = Tp_Model.UPDATE).
  { unfold phase in *. destruct (st f) eqn:S; try reflexivity; try (destruct (K1 eq_refl), EN; congruence).
    exfalso. unfold follows in F. rewrite S in F. destruct F as (_ & -> & D). destruct HJ as (J1 & J2 & _). unfold e1, handle_state in *. rewrite B5, B1, S in *. unfold handle in *. destruct (J1 eq_refl) as [Q|Q]; rewrite Q in *; [|destruct (J2 (or_intror eq_refl)) as [Q1 Q2]; rewrite Q1, Q2 in ED; discriminate ED].
    destruct (at_right p c (px f) || at_bottom p c (py f)); [|discriminate ED]. specialize (B7 eq_refl). unfold three_mm, along in B7. destruct RES, a; cbn [to_new x0 y0] in B7; rewrite Z.sub_diag in B7; change (Z.abs 0) with 0 in B7; lia. }
  rewrite B8. destruct (posted_spec p c (Some a) e1 (px f) (py f) t) as (P1 & P2 & P3 & P4). set (e3 := handle p c (with_dir e1 (Some a)) E_POSTED (px f) (py f) t) in *.
  assert (E3 : est e3 = E_EDGE) by (rewrite P4; destruct EN as [-> | ->]; reflexivity).
  split.
  - split; rewrite E3; [discriminate|]. intros _ b Q. assert (b = a) as ->. { destruct a, b; try reflexivity; cbn in Q; rewrite ?P1, ?P2 in Q; destruct B3; congruence. }
    destruct EN as [EN|EN].
    + (* NEW: this frame is the lock *)
      assert (EE : est e = E_NEW /\ x0 e1 = x0 e /\ y0 e1 = y0 e /\ (edge_of a e1 = true -> edge_of a e = true)).
      { unfold e1, handle_state in *. rewrite B5, B1, UP in *. unfold handle in *. destruct (est e) eqn:S; try (rewrite S in EN; discriminate EN).
        - unfold narrow in *. cbv zeta in *. destruct (er e && at_right p c (px f) || eb e && at_bottom p c (py f)); [|discriminate EN]. cbn. repeat split. intros X. destruct a; cbn in *; apply andb_true_iff in X; apply X.
        - destruct (er e && eb e); [|rewrite S in EN; discriminate EN]. destruct (narrow_spec p c e (px f) (py f)) as [[X _]|X]; rewrite X in EN; [rewrite S in EN|]; discriminate EN. }
      destruct EE as (EE & XX & YY & SUB). destruct H as [HN _]. destruct (HN EE) as (l1 & w & fs0 & h0 & t0 & f0 & -> & A1 & A2 & A3 & A4 & A5 & A6 & A7).
      assert (EA : edge_of a e = true) by (apply SUB; destruct a; destruct B3; assumption). destruct (A6 a EA) as [C1 C2].
      exists l1, (EFrame fs0 h0 t0), w, i, []. split; [rewrite <- app_assoc; reflexivity|]. assert (NB : ~ begins k i) by (apply not_begins; intros f' X; cbn in X; rewrite N in X; injection X as <-; rewrite UP; discriminate).
      split; [|constructor; [exact NB|constructor]]. exists fs0, h0, t0, f0. split; [reflexivity|]. split; [exact A1|]. split; [exact A2|]. split; [exact C1|]. split; [exact A5|]. split; [exact C2|]. left. exists f. split; [exact N|]. split; [exact B4|]. specialize (B7 EN). destruct a; cbn in *; [rewrite YY, A4 in B7|rewrite XX, A3 in B7]; exact B7.
    + destruct H2 as [_ HE]. apply HE; [exact EN|]. destruct a; cbn in *; congruence.
  - intros b u Q. split; [exact UP|]. split; [exact E3|]. destruct (post_event p c e1 f t b u MX Q) as (_ & _ & O & _). unfold only_edge in *. rewrite P1, P2. exact O.
Qed.
Lemma timer_hist : forall p areas k l c e t, Hist p areas k l e -> Hist p areas k (l ++ [ETimer k t]) (timer1 p c e t).
Proof.
  intros p areas k l c e t H. assert (SAME : forall e', est e' = est e -> er e' = er e -> eb e' = eb e -> x0 e' = x0 e -> y0 e' = y0 e -> tmr e' = tmr e \/ tmr e' = None -> Hist p areas k (l ++ [ETimer k t]) e').
  { intros e' E R B X Y T. eapply hist_keep; eauto; [intros (f & Q & _); discriminate Q|intros []; cbn; congruence|intros _ f a Q; discriminate Q]. }
  unfold timer1. destruct (tmr e) as [x|] eqn:T; [|apply SAME; auto]. destruct (x <=? t) eqn:LE; [|apply SAME; auto]. apply Z.leb_le in LE. unfold handle. cbn. destruct (est e) eqn:E; try (apply SAME; auto; fail).
  split; [discriminate|]. intros _ a Q. destruct H as [HN _]. destruct (HN E) as (l1 & w & fs0 & h0 & t0 & f0 & -> & A1 & A2 & A3 & A4 & A5 & A6 & A7). assert (Q' : edge_of a e = true) by (destruct a; exact Q). destruct (A6 a Q') as [C1 C2]. destruct (A7 x T) as [-> AR].
  exists l1, (EFrame fs0 h0 t0), w, (ETimer k t), []. split; [rewrite <- app_assoc; reflexivity|]. split; [|constructor; [intros (f & X & _); discriminate X|constructor]].
  exists fs0, h0, t0, f0. repeat (split; [assumption || reflexivity|]). right. exists t. auto.
Qed.
Lemma tstep_hist : forall p areas k l c sil ph e i, res_ok p -> Hist p areas k l e -> JJ c sil ph e -> tlegal k sil ph i -> btn_areas c = areas_after areas l ->
  Hist p areas k (l ++ [i]) (fst (tstep p k c e i)) /\
  (forall a v, nonzero (snd (tstep p k c e i)) a v -> (exists f, frame_of k i = Some f /\ st f = Tp_Model.UPDATE /\ dirty f = true /\ bad f = false /\ in_edge p a f /\ v = value a f) /\ est (fst (tstep p k c e i)) = E_EDGE /\ edge_of a (fst (tstep p k c e i)) = true).
Proof.
  intros p areas k l c sil ph e i RES H [HJ HS] L A.
  assert (STOP : forall j, frame_of k j = None -> forall e', e' = fst (stop e) -> Hist p areas k (l ++ [j]) e').
  { intros j FN e' ->. unfold stop. destruct (dir e); [apply hist_trivial; auto|]. eapply hist_keep; eauto; [intros (f & Q & _); congruence|intros _ f a Q; congruence]. }
  assert (SZ : forall e' a v, ~ nonzero (snd (stop e')) a v) by (intros e' a v; unfold stop; destruct (dir e'); intros [Q Z]; [destruct Q as [Q|[]]; injection Q as _ <-; discriminate Z|contradiction Q]).
  assert (SAME : forall j, frame_of k j = None -> Hist p areas k (l ++ [j]) e) by (intros j FN; eapply hist_keep; eauto; [intros (f & Q & _); congruence|intros _ f a Q; congruence]).
  destruct i as [fs h t|j t| |m|b]; cbn [tstep tlegal] in *.
  - destruct L as ((f & N & F) & S). rewrite N. unfold frame1. cbv zeta.
    assert (EV : forall e2, e2 = handle_state p c e f t \/ e2 = fst (stop (handle_state p c e f t)) -> Hist p areas k (l ++ [EFrame fs h t]) (fst (post p c e2 f t)) /\ forall a v, nonzero (snd (post p c e2 f t)) a v -> (exists f, frame_of k (EFrame fs h t) = Some f /\ st f = Tp_Model.UPDATE /\ dirty f = true /\ bad f = false /\ in_edge p a f /\ v = value a f) /\ est (fst (post p c e2 f t)) = E_EDGE /\ edge_of a (fst (post p c e2 f t)) = true).
    { intros e2 E2. destruct (post_hist p areas k l c ph e fs h t f RES H HJ N F A e2 E2) as [P1 P2]. split; [exact P1|]. intros a v NZ. destruct (P2 a v NZ) as (U & E & O). destruct (post_event p c e2 f t a v (proj1 F) NZ) as (B1 & B2 & B3 & B4 & B5 & B6 & _).
      split; [exists f; cbn; auto 10|]. split; [exact E|]. destruct a; destruct O; assumption. }
    pose proof (handle_state_hist p areas k l c ph e fs h t f H HJ N F A) as H1. destruct h.
    + apply EV. auto.
    + split; [|intros a v Q; exfalso; exact (SZ _ a v Q)]. unfold stop. destruct (dir (handle_state p c e f t)); [apply hist_trivial; auto|exact H1].
    + specialize (EV (fst (stop (handle_state p c e f t))) (or_intror eq_refl)). pose proof (SZ (handle_state p c e f t)) as SZ1. destruct (stop (handle_state p c e f t)) as [e2 o1]. cbn [fst snd] in *. destruct (post p c e2 f t) as [e3 o2]. cbn [fst snd] in *. destruct EV as [EV1 EV2]. split; [exact EV1|]. intros a v [Q Z]. apply EV2. split; [|exact Z]. apply in_app_iff in Q. destruct Q as [Q|Q]; [exfalso; apply (SZ1 a v); split; assumption|exact Q].
    + split; [exact H1|]. intros a v [[] _].
  - destruct (Nat.eqb j k) eqn:E; cbn [fst snd]; (split; [|intros a v [[] _]]); [apply Nat.eqb_eq in E; subst j; apply timer_hist, H|apply SAME; reflexivity].
  - split; [apply STOP; reflexivity|]. intros a v Q. exfalso. exact (SZ _ a v Q).
  - destruct (smethod_eqb m (method c)); cbn [fst snd]; [split; [apply SAME; reflexivity|intros a v [[] _]]|]. split; [apply STOP; reflexivity|]. intros a v Q. exfalso. exact (SZ _ a v Q).
  - cbn [fst snd]. split; [apply SAME; reflexivity|intros a v [[] _]].
Qed.
Lemma areas_step : forall c i b l, btn_areas c = areas_after b l -> btn_areas (cstep c i) = areas_after b (l ++ [i]).
Proof. intros c i b l H. unfold areas_after in *. rewrite fold_left_app, <- H. destruct i; reflexivity. Qed.
(** The run in two parts *)
Lemma trun_app : forall p k a b c e, trun p k c e (a ++ b) = let '(e1, o1) := trun p k c e a in let '(e2, o2) := trun p k (fold_left cstep a c) e1 b in (e2, o1 ++ o2).
Proof.
  induction a as [|i a IH]; intros b c e; cbn [app trun fold_left]; [destruct (trun p k c e b); reflexivity|]. destruct (tstep p k c e i) as [e1 o1]. rewrite IH. destruct (trun p k (cstep c i) e1 a) as [e2 o2]. destruct (trun p k (fold_left cstep a (cstep c i)) e2 b) as [e3 o3]. rewrite app_assoc. reflexivity.
Qed.
Fixpoint phases_run (ph : list (option bool)) (sil : bool) (l : list einput) : list (option bool) * bool :=
  match l with [] => (ph, sil) | i :: l => phases_run (match i with EFrame fs _ _ => map phase fs | _ => ph end) (lastsil i sil) l end.
Lemma legal_app : forall a b sil ph, legal sil ph (a ++ b) -> legal sil ph a /\ legal (snd (phases_run ph sil a)) (fst (phases_run ph sil a)) b.
Proof.
  induction a as [|i a IH]; intros b sil ph L; [split; [exact I|exact L]|]. destruct i as [fs h t|j t| |m|x]; cbn [app legal phases_run lastsil] in *; try (apply IH, L).
  - destruct L as (L1 & L2 & L3). destruct (IH _ _ _ L3) as [I1 I2]. auto.
  - destruct L as (L1 & L2). destruct (IH _ _ _ L2) as [I1 I2]. auto.
Qed.
Lemma run_hist : forall p areas k l c ph sil p0 e, res_ok p -> btn_areas c = areas -> Hist p areas k [] e -> JJ c sil p0 e -> legal sil ph l -> nth_error ph k = Some p0 ->
  Hist p areas k l (fst (trun p k c e l)) /\ btn_areas (fold_left cstep l c) = areas_after areas l /\ exists p1, nth_error (fst (phases_run ph sil l)) k = Some p1 /\ JJ (fold_left cstep l c) (snd (phases_run ph sil l)) p1 (fst (trun p k c e l)).
Proof.
  intros p areas k l c ph sil p0 e RES A H HJ L N. induction l as [|i l IH] using rev_ind; [split; [exact H|]; split; [exact A|]; exists p0; auto|].
  destruct (legal_app l [i] sil ph L) as [L1 L2]. destruct (IH L1) as (I1 & I2 & p1 & I3 & I4). rewrite trun_app, fold_left_app. destruct (trun p k c e l) as [e1 o1]. cbn [fst] in I1, I4. cbn [trun]. 
  destruct (tlegal_of k [] _ _ i p1 L2 I3) as (TL & ph' & _ & N' & _). destruct (tstep_hist p areas k l (fold_left cstep l c) _ p1 e1 i RES I1 I4 TL I2) as [T1 T2]. destruct (tstep_JJ p k _ _ _ _ i I4 TL) as [T3 _].
  destruct (tstep p k (fold_left cstep l c) e1 i) as [e2 o2]. cbn [fst snd app] in *. split; [exact T1|]. cbn [fold_left]. split; [apply areas_step, I2|].
  assert (PR : forall a b ph sil, phases_run ph sil (a ++ b) = phases_run (fst (phases_run ph sil a)) (snd (phases_run ph sil a)) b) by (clear; induction a as [|x a IH]; intros; cbn; [reflexivity|apply IH]).
  rewrite PR. cbn [phases_run fst snd]. exists (tphase k p1 i). split; [|exact T3]. destruct i as [fs h t|j t| |m|x]; cbn [tphase] in *; try exact I3. destruct TL as ((f & TN & _) & _). rewrite nth_error_map, TN. reflexivity.
Qed.
