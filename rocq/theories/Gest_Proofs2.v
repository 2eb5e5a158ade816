(** * Touchpad gestures: where events come from *)
Require Import Coq.ZArith.ZArith Coq.QArith.QArith Coq.QArith.Qabs Coq.Lists.List Coq.Bool.Bool Coq.micromega.Lia Coq.micromega.Lqa.
Require Import Verif.Scroll_Model.
Require Verif.Es_Model.
Require Import Verif.Gest_Model Verif.Gest_Spec Verif.Gest_Proofs.
Import ListNotations.
Open Scope Z_scope.

(** [s'] has, besides those of [s], only events with [P] *)
Definition adds (P : gout -> Prop) (s s' : g) : Prop := exists o, out s' = out s ++ o /\ Forall P o.
Lemma adds_refl P s s' : out s' = out s -> adds P s s'.
Proof. intros H. exists []. rewrite app_nil_r. split; [exact H | constructor]. Qed.
Lemma adds_trans P s s1 s2 : adds P s s1 -> adds P s1 s2 -> adds P s s2.
Proof. intros (a & A & FA) (b & B & FB). exists (a ++ b). rewrite B, A, app_assoc. split; [reflexivity | apply Forall_app; auto]. Qed.
Lemma adds_weaken (P P' : gout -> Prop) s s' : (forall e, P e -> P' e) -> adds P s s' -> adds P' s s'.
Proof. intros W (a & A & FA). exists a. split; [exact A | eapply Forall_impl; eauto]. Qed.
Lemma after_app p m l i : after p m (l ++ [i]) = gstep p (after p m l) i.
Proof. unfold after, grun. rewrite fold_left_app. reflexivity. Qed.
Lemma after_app2 p m l1 l2 : after p m (l1 ++ l2) = grun p (after p m l1) l2.
Proof. unfold after, grun. apply fold_left_app. Qed.
Lemma events_adds P p m l i e : adds P (after p m l) (gstep p (after p m l) i) -> In e (events p m l i) -> P e.
Proof.
  intros (o & O & FO) H. unfold events in H. rewrite after_app, O in H. rewrite skipn_app, skipn_all, Nat.sub_diag in H. cbn in H.
  rewrite Forall_forall in FO. apply FO, H.
Qed.
Lemma events_out p m l i o : out (gstep p (after p m l) i) = out (after p m l) ++ o -> events p m l i = o.
Proof. intros O. unfold events. rewrite after_app, O, skipn_app, skipn_all, Nat.sub_diag. reflexivity. Qed.

(** ** The end of a gesture *)
Definition of_end (s : g) (t : Z) (c : bool) (e : gout) : Prop :=
  match e with
  | TEnd Pinch n t' c' z => n = fc s /\ t' = t /\ c' = c /\ started s = true /\ gst s = G_PINCH /\ z = psc (pn s)
  | TEnd Swipe n t' c' z => n = fc s /\ t' = t /\ c' = c /\ started s = true /\ gst s = G_SWIPE
  | TAxis (Axis t' v h) => t' = t /\ is_stop v h = true
  | _ => False
  end.
Lemma stop_adds c t : Forall (fun e => match e with Axis t' v h => t' = t /\ is_stop v h = true end) (snd (stop_scroll c t)).
Proof. unfold stop_scroll. cbn. destruct (c_v c), (c_h c); cbn; repeat constructor. Qed.
Lemma stop_2fg_adds s t : adds (fun e => match e with TAxis (Axis t' v h) => t' = t /\ is_stop v h = true | _ => False end) s (stop_2fg s t).
Proof.
  unfold stop_2fg. destruct (meth s); try (apply adds_refl; reflexivity). pose proof (stop_adds (sc s) t) as H. destruct (stop_scroll (sc s) t) as [c o]. exists (map TAxis o). split; [reflexivity|].
  apply Forall_map. eapply Forall_impl; [|exact H]. intros [t' v h] K. exact K.
Qed.
Lemma gend_adds s t c : adds (of_end s t c) s (gend s t c).
Proof.
  unfold gend. cbn. destruct (started s) eqn:S; [|apply adds_refl; reflexivity]. destruct (gst s) eqn:G; cbn; try (apply adds_refl; reflexivity).
  - destruct (stop_2fg_adds (with_gst s G_NONE) t) as (o & O & F). exists o. split; [exact O|]. eapply Forall_impl; [|exact F]. intros e K. destruct e; try contradiction. exact K.
  - eexists. split; [reflexivity|]. constructor; [|constructor]. cbn. auto 10.
  - eexists. split; [reflexivity|]. constructor; [|constructor]. cbn. auto 10.
Qed.
(** ** The events of a frame *)
Definition of_post (p : gpad) (n : nat) (f : gframe) (t : Z) (e : gout) : Prop :=
  match e with
  | TBegin _ n' t' => n' = n /\ t' = t
  | TUpdate _ n' t' _ _ _ _ => n' = n /\ t' = t
  | TAxis (Axis t' v h) => t' = t /\ is_stop v h = false /\ n = n
  | TThumb _ => True
  | _ => False
  end.
Lemma gstart_adds p s f t : adds (of_post p (fc s) f t) s (gstart s t) /\ fc (gstart s t) = fc s /\ sc (gstart s t) = sc s /\ pn (gstart s t) = pn s.
Proof.
  unfold gstart. destruct (started s); [repeat split; apply adds_refl; reflexivity|].
  destruct (gst s); repeat split; try (apply adds_refl; reflexivity); eexists; (split; [reflexivity|]; constructor; [cbn; auto | constructor]).
Qed.
Lemma scroll_adds p s f t : adds (of_post p (fc s) f t) s (st_scroll p s f t).
Proof.
  unfold st_scroll. destruct (meth s); try (apply adds_refl; reflexivity). destruct (zero2 _); [apply adds_refl; reflexivity|].
  destruct (gstart_adds p s f t) as (A & F & C & _). destruct (constrain _ _ _ _ _) as [l d]. destruct (post_scroll _ _ _ _) as [c o] eqn:PS.
  eapply adds_trans; [exact A|]. exists (map TAxis o). split; [reflexivity|]. unfold post_scroll in PS.
  destruct (if negb (c_h (sc (gstart s t))) && _ then _ else _) as [v h] in PS. inversion PS; subst; clear PS.
  destruct (is0 (if h then fst d else 0) && is0 (if v then snd d else 0)) eqn:Z; cbn; [constructor|]. constructor; [|constructor]. cbn. repeat split.
  unfold is0 in *. destruct v, h; cbn in *; destruct (Qeq_bool (snd d) 0) eqn:Y, (Qeq_bool (fst d) 0) eqn:X; try discriminate Z; cbn; destruct (c_nat (sc (gstart s t))), (c_inv (sc (gstart s t))); cbn; rewrite ?neg0, ?X, ?Y; auto.
Qed.
Lemma swipe_adds p s f t : adds (of_post p (fc s) f t) s (st_swipe p s f t).
Proof.
  unfold st_swipe. destruct (_ && _); [apply adds_refl; reflexivity|]. destruct (gstart_adds p s f t) as (A & F & C & _).
  eapply adds_trans; [exact A|]. eexists. split; [reflexivity|]. constructor; [|constructor]. cbn. rewrite F. auto.
Qed.
Lemma pinch_adds p s f t : adds (of_post p (fc s) f t) s (st_pinch p s f t).
Proof.
  unfold st_pinch. destruct (_ && _); [apply adds_refl; reflexivity|]. destruct (gstart_adds p s f t) as (A & F & C & _).
  eapply adds_trans; [exact A|]. eexists. split; [reflexivity|]. constructor; [|constructor]. cbn. rewrite F. auto.
Qed.
Lemma st_none_same p s f t : out (st_none p s f t) = out s /\ fc (st_none p s f t) = fc s /\ pend (st_none p s f t) = pend s /\ tmr (st_none p s f t) = tmr s /\ meth (st_none p s f t) = meth s /\ sc (st_none p s f t) = sc s /\ pn (st_none p s f t) = pn s /\ sl (st_none p s f t) = sl s.
Proof.
  unfold st_none. destruct (active_touches f) as [|a [|c [|d r]]]; auto 10; destruct (enabled p); cbn; auto 10. destruct (top_bottom _ _ _ _) as [x y]. destruct (Nat.eqb x y); cbn; auto 10.
Qed.
Lemma detect_adds p s f t : adds (fun e => match e with TThumb _ => True | _ => False end) s (detect p s f t).
Proof.
  unfold detect. destruct (_ && _ && _); [apply adds_refl; reflexivity|]. destruct (_ && _); [apply adds_refl; reflexivity|].
  destruct (if _ <? _ then _ else _) as [[thumb tm] fm].
  destruct (_ && _); [destruct (Nat.eqb _ _); apply adds_refl; reflexivity|].
  destruct (_ && _ && _); [eexists; split; [reflexivity|]; repeat constructor|].
  destruct (_ && _ && _); [apply adds_refl; reflexivity|]. destruct (_ && _ && _ && _ && _); [apply adds_refl; reflexivity|]. destruct (_ || _); [apply adds_refl; reflexivity|].
  destruct (_ && _); [apply adds_refl; reflexivity|]. destruct (_ && _); apply adds_refl; reflexivity.
Qed.
Lemma post_gesture_adds p s f t : adds (of_post p (fc s) f t) s (post_gesture p s f t).
Proof.
  rewrite post_gesture_chain. cbn zeta. set (s1 := match gst s with G_NONE => _ | _ => _ end).
  assert (H1 : out s1 = out s /\ fc s1 = fc s) by (subst s1; destruct (gst s); auto; destruct (st_none_same p s f t) as (A & B & _); auto). destruct H1 as [O1 F1]. clearbody s1.
  set (s2 := match gst s1 with G_UNKNOWN => _ | _ => _ end).
  assert (H2 : adds (of_post p (fc s) f t) s1 s2 /\ fc s2 = fc s).
  { subst s2. destruct (gst s1); try (split; [apply adds_refl; reflexivity | exact F1]). split; [|destruct (detect_fc p s1 f t) as [H _]; congruence].
    eapply adds_weaken; [|apply detect_adds]. intros e; destruct e; cbn; tauto. }
  destruct H2 as [A2 F2]. clearbody s2. eapply adds_trans; [apply adds_refl; exact O1|]. eapply adds_trans; [exact A2|]. rewrite <- F2.
  destruct (gst s2); auto using scroll_adds, swipe_adds, pinch_adds; apply adds_refl; reflexivity.
Qed.
Lemma post_motion_adds p s f t : adds (fun e => match e with TMotion t' d => t' = t /\ d = filtered (touches_delta p f (negb (held f))) (acc f) | _ => False end) s (post_motion p s f t).
Proof. unfold post_motion. destruct (_ && _); [apply adds_refl; reflexivity|]. eexists. split; [reflexivity|]. constructor; [cbn; auto | constructor]. Qed.

Definition of_frame (p : gpad) (s : g) (f : gframe) (h : ghow) (t : Z) (e : gout) : Prop :=
  match e with
  | TBegin _ n t' | TUpdate _ n t' _ _ _ _ => t' = t /\ n = count f /\ (2 <= n <= 4)%nat /\ h = GGo false
  | TEnd _ n t' c _ => t' = t /\ n = fc s /\ (count f = 0%nat /\ c = false \/ c = true /\ (h = GIgnored \/ h = GGo true))
  | TAxis (Axis t' v x) => t' = t /\ (is_stop v x = true -> finishes (GFrame f h t)) /\ (is_stop v x = false -> (2 <= count f <= 4)%nat /\ h = GGo false)
  | TMotion t' d => t' = t /\ d = filtered (touches_delta p f (negb (held f))) (acc f) /\ moved f = true /\ (count f = 1%nat /\ h = GGo false \/ h = GGo true)
  | TThumb _ => (2 <= count f <= 4)%nat /\ h = GGo false
  end.
Lemma of_end_frame p s f h t c e : (count f = 0%nat /\ c = false \/ c = true /\ (h = GIgnored \/ h = GGo true)) -> of_end s t c e -> of_frame p s f h t e.
Proof.
  intros H K. destruct e as [k n t'|k n t' d u z a|k n t' c' z|[t' v x]|t' d|i]; cbn in *; try contradiction.
  - destruct k; intuition congruence.
  - destruct K as [A B]. split; [exact A|]. split; [intuition | intros; congruence].
Qed.
Lemma ghandle_adds p s f h t : adds (of_frame p s f h t) s (ghandle s f t).
Proof.
  unfold ghandle. destruct (Nat.eqb (count f) (fc s)); [apply adds_refl; reflexivity|]. destruct (Nat.eqb (count f) 0) eqn:Z.
  - apply Nat.eqb_eq in Z. destruct (gend_adds s t false) as (o & O & F). exists o. split; [exact O|]. eapply Forall_impl; [|exact F]. intros e. apply of_end_frame. auto.
  - destruct (negb (started s)); [apply adds_refl; reflexivity|]. destruct (Nat.eqb (count f) (pend s)); apply adds_refl; reflexivity.
Qed.
Lemma ghandle_fc s f t : started (ghandle s f t) = true -> fc (ghandle s f t) = fc s.
Proof.
  unfold ghandle. destruct (Nat.eqb _ _); [reflexivity|]. destruct (Nat.eqb _ _); [cbn; rewrite gend_started; discriminate|].
  destruct (started s) eqn:S; cbn; [|rewrite S; discriminate]. destruct (Nat.eqb _ _); reflexivity.
Qed.
Lemma gend_fc_eq s f h t c p s0 : (started s = true -> fc s = fc s0) -> (c = true /\ (h = GIgnored \/ h = GGo true)) -> adds (of_frame p s0 f h t) s (gend s t c).
Proof.
  intros FC H. destruct (gend_adds s t c) as (o & O & F). exists o. split; [exact O|]. eapply Forall_impl; [|exact F]. intros e K.
  destruct e as [k n t'|k n t' d u z a|k n t' c' z|[t' v x]|t' d|i]; cbn in *; try contradiction.
  - assert (S : started s = true) by (destruct k; tauto). specialize (FC S). destruct k; intuition congruence.
  - destruct K as [A B]. split; [exact A|]. split; [intuition | intros; congruence].
Qed.
Lemma frame_adds p s f h t : adds (of_frame p s f h t) s (gstep p s (GFrame f h t)).
Proof.
  cbn [gstep]. pose proof (ghandle_adds p s f h t) as A. pose proof (ghandle_fc s f t) as F. pose proof (ghandle_count s f t) as C.
  set (s1 := ghandle s f t) in *. clearbody s1. eapply adds_trans; [exact A|].
  destruct h as [| | |one]; try (apply adds_refl; reflexivity).
  - apply gend_fc_eq; auto.
  - unfold gpost. destruct (fc s1) as [|k] eqn:K; [apply adds_refl; reflexivity|].
    destruct one.
    + eapply adds_trans; [eapply gend_fc_eq with (c := true) (t := t); [rewrite K; exact F | auto]|].
      set (s2 := with_count (gend s1 t true) 1 0). eapply adds_trans; [apply adds_refl with (s' := s2); reflexivity|]. cbn [pend fc s2 with_count].
      destruct (moved f) eqn:M; [|apply adds_refl; reflexivity]. eapply adds_weaken; [|apply post_motion_adds]. intros e. destruct e; cbn; intuition.
    + destruct (pend s1); [|apply adds_refl; reflexivity]. rewrite K. specialize (C eq_refl).
      assert (PG : (2 <= count f <= 4)%nat -> adds (of_frame p s f (GGo false) t) s1 (post_gesture p s1 f t)).
      { intros R. eapply adds_weaken; [|apply post_gesture_adds]. intros e. rewrite K, C. destruct e as [k' n t'|k' n t' d u z a|k' n t' c' z|[t' v x]|t' d|i]; cbn; intuition (try congruence); subst; lia. }
      destruct k as [|[|[|[|k]]]]; try (apply PG; lia); [|apply adds_refl; reflexivity].
      destruct (moved f) eqn:M; [|apply adds_refl; reflexivity]. eapply adds_weaken; [|apply post_motion_adds]. intros e. destruct e; cbn; intuition.
Qed.

(** ** The finger count timer *)
Definition waits (s : g) (l : list ginput) : Prop :=
  pend s <> 0%nat -> fc s <> pend s /\
    exists l1 f h s0 l2, l = l1 ++ GFrame f h s0 :: l2 /\ count f = pend s /\ Forall (steadily (pend s)) l2 /\ tmr s = Some (s0 + 100000).
Lemma waits_0 s l : pend s = 0%nat -> waits s l.
Proof. intros H K. congruence. Qed.
Lemma waits_later s s' l i : waits s l -> (pend s <> 0%nat -> steadily (pend s) i) -> fc s' = fc s -> pend s' = pend s -> tmr s' = tmr s -> waits s' (l ++ [i]).
Proof.
  intros W ST F P T K. rewrite P in K |- *. rewrite F, T. destruct (W K) as (N & l1 & f & h & s0 & l2 & L & C & FA & TM). split; [exact N|].
  exists l1, f, h, s0, (l2 ++ [i]). rewrite L, <- app_assoc. cbn. repeat split; auto. apply Forall_app. auto.
Qed.
Lemma gstart_same s t : fc (gstart s t) = fc s /\ pend (gstart s t) = pend s /\ tmr (gstart s t) = tmr s /\ meth (gstart s t) = meth s /\ gst (gstart s t) = gst s /\ dt (gstart s t) = dt s.
Proof. unfold gstart. destruct (started s); cbn; auto 10. destruct (gst s) eqn:G; cbn; auto 10. Qed.
Lemma chain_same p s f t : fc (post_gesture p s f t) = fc s /\ pend (post_gesture p s f t) = pend s /\ tmr (post_gesture p s f t) = tmr s /\ meth (post_gesture p s f t) = meth s.
Proof.
  rewrite post_gesture_chain. cbn zeta. set (s1 := match gst s with G_NONE => _ | _ => _ end).
  assert (H1 : fc s1 = fc s /\ pend s1 = pend s /\ tmr s1 = tmr s /\ meth s1 = meth s) by (subst s1; destruct (gst s); auto; destruct (st_none_same p s f t) as (A & B & C & D & E & _); auto). clearbody s1.
  set (s2 := match gst s1 with G_UNKNOWN => _ | _ => _ end).
  assert (H2 : fc s2 = fc s /\ pend s2 = pend s /\ tmr s2 = tmr s /\ meth s2 = meth s).
  { subst s2. destruct (gst s1); auto. destruct (detect_fc p s1 f t) as (A & B & C & D). rewrite A, B, C, D. exact H1. }
  clearbody s2. clear H1. destruct H2 as (A & B & C & D). rewrite <- A, <- B, <- C, <- D. destruct (gstart_same s2 t) as (U & V & W & X & _).
  destruct (gst s2); auto.
  - unfold st_scroll. destruct (meth s2) eqn:M; auto. destruct (zero2 _); auto. destruct (constrain _ _ _ _ _). destruct (post_scroll _ _ _ _). cbn. auto.
  - unfold st_pinch. destruct (_ && _); cbn; auto.
  - unfold st_swipe. destruct (_ && _); cbn; auto.
Qed.
Lemma waits_run p m : forall l, waits (after p m l) l.
Proof.
  induction l as [|i l IH] using rev_ind; [apply waits_0; reflexivity|]. rewrite after_app. set (s := after p m l) in *. clearbody s.
  destruct i as [f h t|t|t|mm_ t|b]; cbn [gstep].
  - assert (W : waits (ghandle s f t) (l ++ [GFrame f h t])).
    { unfold ghandle. destruct (Nat.eqb _ _) eqn:E; [apply waits_0; reflexivity|]. apply Nat.eqb_neq in E. destruct (Nat.eqb (count f) 0) eqn:Z; [apply waits_0; reflexivity|]. apply Nat.eqb_neq in Z.
      destruct (negb (started s)); [apply waits_0; reflexivity|]. destruct (Nat.eqb (count f) (pend s)) eqn:P.
      - apply Nat.eqb_eq in P. eapply waits_later; eauto.
      - intros K. cbn in K |- *. split; [congruence|]. exists l, f, h, t, []. repeat split; auto. }
    set (s1 := ghandle s f t) in *. clearbody s1.
    assert (SAME : forall s2, fc s2 = fc s1 -> pend s2 = pend s1 -> tmr s2 = tmr s1 -> waits s2 (l ++ [GFrame f h t])).
    { intros s2 A B C K. rewrite A, B, C in *. apply W. exact K. }
    destruct h as [| | |one]; auto.
    + destruct (gend_fc s1 t true) as (A & B & C & _). apply SAME; auto.
    + unfold gpost. destruct (fc s1) eqn:K; [exact W|]. destruct one.
      * cbn [pend with_count fc]. destruct (moved f); [|apply waits_0; reflexivity]. unfold post_motion. destruct (_ && _); apply waits_0; reflexivity.
      * destruct (pend s1) eqn:P; [|exact W]. rewrite K. destruct (chain_same p s1 f t) as (A & B & C & _).
        destruct n as [|[|[|[|n]]]]; auto; try (apply SAME; congruence). destruct (moved f); [|exact W]. unfold post_motion. destruct (_ && _); [exact W | apply SAME; cbn; congruence].
  - destruct (tmr s) as [x|] eqn:T; [|eapply waits_later; eauto; intros; exact I]. destruct (x <=? t); [|eapply waits_later; eauto; intros; exact I].
    cbn [pend with_tmr]. destruct (pend s) eqn:P; [apply waits_0; exact P | apply waits_0; reflexivity].
  - destruct (gend_fc s t true) as (A & B & C & _). eapply waits_later; eauto. intros; exact I.
  - destruct (Es_Model.smethod_eqb _ _); [eapply waits_later; eauto; intros; exact I|]. unfold stop_2fg. destruct (meth s); eapply waits_later; eauto; intros; exact I.
  - eapply waits_later; eauto. intros; exact I.
Qed.
(** What ends a gesture *)
Lemma end_reason p m l i k n t c z : In (TEnd k n t c z) (events p m l i) ->
  match i with
  | GFrame f h t' => t = t' /\ (count f = 0%nat /\ c = false \/ c = true /\ (h = GIgnored \/ h = GGo true))
  | GStop t' => t = t' /\ c = true
  | GTimer t' => t = t' /\ c = true /\ exists l1 f h s0 l2, l = l1 ++ GFrame f h s0 :: l2 /\ count f <> n /\ count f <> 0%nat /\ Forall (steadily (count f)) l2 /\ s0 + 100000 <= t
  | _ => False
  end.
Proof.
  intros H. destruct i as [f h t'|t'|t'|m' t'|b].
  - apply (events_adds _ _ _ _ _ _ (frame_adds p (after p m l) f h t')) in H. cbn in H. tauto.
  - pose proof (waits_run p m l) as W. set (s := after p m l) in *.
    destruct (tmr s) as [x|] eqn:T; [|exfalso; rewrite (events_out p m l (GTimer t') []) in H; [exact H | fold s; cbn; rewrite T, app_nil_r; reflexivity]].
    destruct (x <=? t') eqn:X; [|exfalso; rewrite (events_out p m l (GTimer t') []) in H; [exact H | fold s; cbn; rewrite T, X, app_nil_r; reflexivity]].
    destruct (pend s) eqn:P; [exfalso; rewrite (events_out p m l (GTimer t') []) in H; [exact H | fold s; cbn; rewrite T, X; cbn; rewrite P, app_nil_r; reflexivity]|].
    destruct (gend_adds (with_tmr s None) t' true) as (o & O & F). rewrite (events_out p m l (GTimer t') o) in H; [|fold s; cbn; rewrite T, X; cbn; rewrite P; exact O].
    rewrite Forall_forall in F. apply F in H. cbn in H. assert (NT : n = fc s /\ t = t' /\ c = true) by (destruct k; tauto). destruct NT as (-> & -> & ->).
    destruct W as (N & l1 & f & h & s0 & l2 & L & C & FA & TM); [congruence|]. split; [reflexivity|]. split; [reflexivity|].
    exists l1, f, h, s0, l2. rewrite TM in T. inversion T; subst x. apply Z.leb_le in X. rewrite C. repeat split; auto; congruence.
  - destruct (gend_adds (after p m l) t' true) as (o & O & F). rewrite (events_out p m l (GStop t') o O) in H. rewrite Forall_forall in F. apply F in H. cbn in H. destruct k; tauto.
  - assert (A : adds (fun e => match e with TAxis _ => True | _ => False end) (after p m l) (gstep p (after p m l) (GSetMethod m' t'))).
    { cbn. destruct (Es_Model.smethod_eqb _ _); [apply adds_refl; reflexivity|]. destruct (stop_2fg_adds (after p m l) t') as (o & O & F). exists o. split; [exact O|]. eapply Forall_impl; [|exact F]. intros e; destruct e; tauto. }
    apply (events_adds _ _ _ _ _ _ A) in H. exact H.
  - assert (A : adds (fun e => False) (after p m l) (gstep p (after p m l) (GSetNatural b))) by (apply adds_refl; reflexivity).
    apply (events_adds _ _ _ _ _ _ A) in H. exact H.
Qed.
(** Other inputs bring no new motion *)
Lemma other_inputs p m l i e : In e (events p m l i) -> (forall f h t, i <> GFrame f h t) ->
  match e with TEnd _ _ _ _ _ => True | TAxis (Axis _ v h) => is_stop v h = true | _ => False end.
Proof.
  intros H N. revert e H. assert (G : adds (fun e => match e with TEnd _ _ _ _ _ => True | TAxis (Axis _ v h) => is_stop v h = true | _ => False end) (after p m l) (gstep p (after p m l) i));
    [|intros e H; exact (events_adds _ _ _ _ _ _ G H)].
  set (s := after p m l). clearbody s.
  assert (E : forall s t c, adds (fun e => match e with TEnd _ _ _ _ _ => True | TAxis (Axis _ v h) => is_stop v h = true | _ => False end) s (gend s t c)).
  { intros s' t c. eapply adds_weaken; [|apply gend_adds]. intros e; destruct e as [| |k n t' c' z|[t' v x]| |]; cbn; tauto. }
  destruct i as [f h t'|t'|t'|m' t'|b]; cbn.
  - destruct (N f h t' eq_refl).
  - destruct (tmr s); [|apply adds_refl; reflexivity]. destruct (_ <=? _); [|apply adds_refl; reflexivity]. cbn. destruct (pend s); [apply adds_refl; reflexivity|]. destruct (E (with_tmr s None) t' true) as (o & O & F). exists o. auto.
  - apply E.
  - destruct (Es_Model.smethod_eqb _ _); [apply adds_refl; reflexivity|]. destruct (stop_2fg_adds s t') as (o & O & F). exists o. split; [exact O|]. eapply Forall_impl; [|exact F]. intros e; destruct e as [| | |[t'' v x]| |]; tauto.
  - apply adds_refl; reflexivity.
Qed.
(** After these inputs nothing is open *)
Lemma finished b p s i : inv b s -> finishes i -> started (gstep p s i) = false.
Proof.
  intros IN. destruct i as [f h t|t|t|m t|x]; cbn [finishes gstep]; try contradiction; [|intros _; apply gend_started].
  intros H. assert (Z : count f = 0%nat -> started (ghandle s f t) = false /\ fc (ghandle s f t) = 0%nat).
  { intros Z. unfold ghandle. rewrite Z. destruct (Nat.eqb 0 (fc s)) eqn:E; cbn; [|rewrite gend_started; auto].
    apply Nat.eqb_eq in E. split; [|congruence]. destruct (started s) eqn:S; [|reflexivity]. pose proof (in_fc b s IN S). lia. }
  destruct h as [| | |one]; try (apply Z; destruct H as [H|[H|H]]; [exact H | discriminate H | discriminate H]); [apply gend_started|].
  unfold gpost. destruct one.
  - pose proof (inv_ghandle b s f t IN) as I1. destruct (fc (ghandle s f t)) eqn:F.
    + destruct (started (ghandle s f t)) eqn:S; [|reflexivity]. pose proof (in_fc b _ I1 S). lia.
    + cbn [pend fc with_count]. destruct (moved f); [unfold post_motion; destruct (_ && _)|]; cbn; apply gend_started.
  - destruct H as [H|[H|H]]; try discriminate H. destruct (Z H) as [S F]. rewrite F. exact S.
Qed.
(** A changed number of fingers ends the gesture after 100 ms *)
Definition soon (p : gpad) (c : nat) (x : Z) (s : g) : Prop := started s = true -> fc s = c \/ pend s = c /\ exists y, tmr s = Some y /\ y <= x + 100000.
Lemma timer_of_a_frame p m : forall l x, tmr (after p m l) = Some x -> exists f h t, In (GFrame f h t) l /\ x = t + 100000.
Proof.
  induction l as [|i l IH] using rev_ind; [cbn; discriminate|]. intros x. rewrite after_app. set (s := after p m l) in *. intros H.
  assert (L : tmr s = Some x -> exists f h t, In (GFrame f h t) (l ++ [i]) /\ x = t + 100000).
  { intros K. destruct (IH x K) as (f & h & t & A & B). exists f, h, t. split; [apply in_or_app; auto | exact B]. }
  destruct i as [f h t|t|t|m' t|b]; cbn [gstep] in H.
  - assert (G : tmr (gstep p s (GFrame f h t)) = tmr (ghandle s f t)).
    { cbn [gstep]. destruct h as [| | |one]; auto; [apply gend_fc|]. unfold gpost. destruct (fc (ghandle s f t)) eqn:F; [reflexivity|]. destruct one; cbn [pend fc with_count].
      - destruct (moved f); [unfold post_motion; destruct (_ && _)|]; cbn; apply gend_fc.
      - destruct (pend (ghandle s f t)) eqn:P; [|reflexivity]. rewrite F. destruct n as [|[|[|[|n]]]]; try apply chain_same; [|reflexivity].
        destruct (moved f); [unfold post_motion; destruct (_ && _)|]; reflexivity. }
    cbn [gstep] in G. rewrite G in H. unfold ghandle in H. destruct (Nat.eqb _ _); [apply L, H|]. destruct (Nat.eqb _ 0).
    { cbn in H. destruct (gend_fc s t false) as (_ & _ & T & _). rewrite T in H. apply L, H. }
    destruct (negb _); [apply L, H|]. destruct (Nat.eqb _ _); [apply L, H|]. cbn in H. inversion H. exists f, h, t. split; [apply in_or_app; right; left; reflexivity | reflexivity].
  - destruct (tmr s) as [y|] eqn:T; [|congruence]. destruct (y <=? t) eqn:Y; [|apply L; congruence]. cbn in H. destruct (pend s); cbn in H; [discriminate H|].
    destruct (gend_fc (with_tmr s None) t true) as (_ & _ & T2 & _). rewrite T2 in H. discriminate H.
  - destruct (gend_fc s t true) as (_ & _ & T & _). rewrite T in H. apply L, H.
  - destruct (Es_Model.smethod_eqb _ _); [apply L, H|]. unfold stop_2fg in H. destruct (meth s); apply L, H.
  - apply L, H.
Qed.
Lemma soon_frame p c x s f h t : count f = c -> (started s = true -> pend s = c -> pend s <> 0%nat -> exists y, tmr s = Some y /\ y <= x + 100000) ->
  (t <= x \/ soon p c x s) -> soon p c x (gstep p s (GFrame f h t)).
Proof.
  intros C TM D. cbn [gstep].
  assert (G : soon p c x (ghandle s f t) /\ (pend (ghandle s f t) = 0%nat -> fc (ghandle s f t) = c)).
  { split; [|rewrite <- C; apply ghandle_count]. unfold ghandle. rewrite C. destruct (Nat.eqb c (fc s)) eqn:E; [apply Nat.eqb_eq in E; intros _; left; cbn; congruence|].
    apply Nat.eqb_neq in E. destruct (Nat.eqb c 0) eqn:Z; [intros S; cbn in S; rewrite gend_started in S; discriminate S|]. apply Nat.eqb_neq in Z.
    destruct (started s) eqn:S; cbn [negb]; [|intros S1; cbn in S1; congruence]. destruct (Nat.eqb c (pend s)) eqn:P.
    - apply Nat.eqb_eq in P. intros _. right. split; [congruence|]. apply TM; congruence.
    - apply Nat.eqb_neq in P. intros _. cbn. right. split; [reflexivity|]. exists (t + 100000). split; [reflexivity|]. destruct D as [D|D]; [lia|]. destruct (D S) as [D1|[D1 _]]; congruence. }
  destruct G as [G1 G2]. set (s1 := ghandle s f t) in *. clearbody s1.
  destruct h as [| | |one]; auto; [intros S; rewrite gend_started in S; discriminate S|]. unfold gpost. destruct (fc s1) eqn:F; [exact G1|]. destruct one; cbn [pend fc with_count].
  - intros S. exfalso. revert S. destruct (moved f); [unfold post_motion; destruct (_ && _)|]; cbn; rewrite gend_started; discriminate.
  - destruct (pend s1) eqn:P; [|exact G1]. rewrite F. specialize (G2 eq_refl). destruct (chain_same p s1 f t) as (A & B & _).
    destruct n as [|[|[|[|n]]]]; try (intros _; left; congruence). destruct (moved f); [unfold post_motion; destruct (_ && _)|]; intros _; left; cbn; congruence.
Qed.
Lemma switch_ends p m l1 f h s0 l2 t : count f <> 0%nat -> (forall f' h' t', In (GFrame f' h' t') l1 -> t' <= s0) -> Forall (steadily (count f)) l2 -> s0 + 100000 <= t ->
  let s := after p m ((l1 ++ GFrame f h s0 :: l2) ++ [GTimer t]) in started s = true -> fc s = count f.
Proof.
  intros NZ OLD ST T.
  assert (SO : forall l2, Forall (steadily (count f)) l2 -> soon p (count f) s0 (after p m (l1 ++ GFrame f h s0 :: l2))).
  { clear l2 ST. intros l2 ST. induction l2 as [|i l2 IH] using rev_ind.
    - rewrite after_app. apply soon_frame; auto; [|left; lia].
      intros _ P N. destruct (waits_run p m l1 N) as (_ & a & f' & h' & t' & b & L & _ & _ & W). exists (t' + 100000). split; [exact W|].
      assert (t' <= s0) by (apply (OLD f' h' t'); rewrite L; apply in_or_app; right; left; reflexivity). lia.
    - replace (l1 ++ GFrame f h s0 :: l2 ++ [i]) with ((l1 ++ GFrame f h s0 :: l2) ++ [i]) by (rewrite <- app_assoc; reflexivity). rewrite after_app. set (l := l1 ++ GFrame f h s0 :: l2) in *.
      apply Forall_app in ST as [ST1 ST2]. specialize (IH ST1). inversion ST2 as [|? ? SI _]; subst.
      pose proof (waits_run p m l) as W. set (s := after p m l) in *. clearbody s. destruct i as [f' h' t'|t'|t'|m' t'|b]; cbn in SI.
      + apply soon_frame; auto. intros S P N. destruct (IH S) as [E|[_ E]]; [|exact E]. destruct (W N) as [K _]. congruence.
      + cbn. destruct (tmr s) as [y|]; [|exact IH]. destruct (y <=? t'); [|exact IH]. cbn. destruct (pend s) eqn:P; cbn.
        * intros S. destruct (IH S) as [E|[E _]]; [left; exact E | congruence].
        * intros S. cbn in S. rewrite gend_started in S. discriminate S.
      + intros S. cbn in S. rewrite gend_started in S. discriminate S.
      + cbn. destruct (Es_Model.smethod_eqb _ _); [exact IH|]. unfold stop_2fg. destruct (meth s); exact IH.
      + exact IH. }
  cbn zeta. rewrite after_app. specialize (SO l2 ST). pose proof (waits_run p m (l1 ++ GFrame f h s0 :: l2)) as W. set (s := after p m (l1 ++ GFrame f h s0 :: l2)) in *. clearbody s. cbn.
  intros S. assert (S0 : started s = true).
  { destruct (tmr s); [|exact S]. destruct (_ <=? _); [|exact S]. cbn in S. destruct (pend s); [exact S|]. cbn in S. rewrite gend_started in S. discriminate S. }
  destruct (SO S0) as [E|(E & y & Y & LE)].
  - destruct (tmr s); [|exact E]. destruct (_ <=? _); [|exact E]. cbn in *. destruct (pend s); [exact E|]. cbn in S. rewrite gend_started in S. discriminate S.
  - rewrite Y in *. assert (LT : (y <=? t) = true) by (apply Z.leb_le; lia). rewrite LT in *. cbn in *. destruct (pend s); [congruence|]. cbn in S. rewrite gend_started in S. discriminate S.
Qed.
