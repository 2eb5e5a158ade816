(** * Touchpad gestures: fingers that move together; what a pinch reports *)
Require Import Coq.ZArith.ZArith Coq.QArith.QArith Coq.QArith.Qabs Coq.QArith.Qround Coq.Lists.List Coq.Bool.Bool Coq.micromega.Lia Coq.micromega.Lqa.
Require Import Verif.Scroll_Model.
Require Verif.Es_Model.
Require Import Verif.Gest_Model Verif.Gest_Spec Verif.Gest_Proofs Verif.Gest_Proofs2 Verif.Gest_Proofs3 Verif.Gest_Proofs4 Verif.Gest_Proofs5.
Import ListNotations.
Open Scope Z_scope.

(** What changes the state: [gst], [dt] and [pn] of the next state *)
Lemma ghandle_gst s f t : (gst (ghandle s f t) = gst s \/ gst (ghandle s f t) = G_NONE) /\ dt (ghandle s f t) = dt s /\ pn (ghandle s f t) = pn s.
Proof.
  unfold ghandle. destruct (Nat.eqb (count f) (fc s)); [cbn; auto|]. destruct (Nat.eqb (count f) 0).
  - cbn. destruct (gend_fc s t false) as (_ & _ & _ & _ & G). rewrite G. split; [auto|]. unfold gend, stop_2fg. cbn. destruct (started s); cbn; auto. destruct (gst s); cbn; auto. destruct (meth s); cbn; auto.
  - destruct (negb _); [cbn; auto|]. destruct (Nat.eqb _ _); cbn; auto.
Qed.
Lemma gend_dt s t c : dt (gend s t c) = dt s /\ pn (gend s t c) = pn s.
Proof. unfold gend, stop_2fg. cbn. destruct (started s); cbn; auto. destruct (gst s); cbn; auto. destruct (meth s); cbn; auto. Qed.
(** A frame, except when gestures are posted *)
Lemma frame_cases p s f h t : let s1 := ghandle s f t in let s' := gstep p s (GFrame f h t) in
  (h = GGo false /\ pend s1 = 0%nat /\ (2 <= fc s1 <= 4)%nat /\ s' = post_gesture p s1 f t) \/ gst s' = G_NONE \/
  (gst s' = gst s1 /\ dt s' = dt s1 /\ pn s' = pn s1 /\ started s' = started s1 /\ (h = GGo false /\ s' = post_motion p s1 f t \/ out s' = out s1)).
Proof.
  cbn zeta. cbn [gstep]. set (s1 := ghandle s f t). clearbody s1. destruct h as [| | |one]; try (right; right; auto 10; fail).
  - right. left. apply gend_fc.
  - unfold gpost. destruct (fc s1) eqn:F; [right; right; auto 10|]. destruct one; cbn [pend fc with_count].
    + right. left. destruct (moved f); [unfold post_motion; destruct (_ && _)|]; cbn; apply gend_fc.
    + destruct (pend s1) eqn:P; [|right; right; auto 10]. rewrite F. destruct n as [|[|[|[|n]]]]; try (left; repeat split; auto; lia); [|right; right; auto 10].
      right. right. destruct (moved f); [|auto 10]. split; [unfold post_motion; destruct (_ && _); reflexivity|]. split; [unfold post_motion; destruct (_ && _); reflexivity|]. split; [unfold post_motion; destruct (_ && _); reflexivity|]. split; [unfold post_motion; destruct (_ && _); reflexivity | auto].
Qed.
Lemma other_gst p s i : (forall f h t, i <> GFrame f h t) -> gst (gstep p s i) = G_NONE \/ (gst (gstep p s i) = gst s /\ dt (gstep p s i) = dt s /\ pn (gstep p s i) = pn s /\ started (gstep p s i) = started s).
Proof.
  intros N. destruct i as [f h t'|t'|t'|m' t'|b]; cbn.
  - destruct (N f h t' eq_refl).
  - destruct (tmr s); auto 10. destruct (_ <=? _); auto 10. cbn. destruct (pend s); cbn; auto 10. left. apply (gend_fc (with_tmr s None)).
  - left. apply gend_fc.
  - destruct (Es_Model.smethod_eqb _ _); auto 10. unfold stop_2fg. destruct (meth s); auto 10.
  - auto 10.
Qed.
(** ** Fingers that move together *)
Definition par (p : gpad) (base : list (Z * Z)) (s : g) : Prop :=
  gst s <> G_PINCH /\
  (gst s = G_UNKNOWN -> enabled p = true /\ exists ox oy a b, nth_error base (i0 (dt s)) = Some a /\ nth_error base (i1 (dt s)) = Some b /\ p0 (dt s) = (fst a + ox, snd a + oy) /\ p1 (dt s) = (fst b + ox, snd b + oy)).
Definition no_pinch (e : gout) : Prop := match e with TBegin Pinch _ _ | TUpdate Pinch _ _ _ _ _ _ | TEnd Pinch _ _ _ _ | TThumb _ => False | _ => True end.
Lemma shifted_at base f h t : shifted base (GFrame f h t) -> exists ox oy, forall i b, nth_error base i = Some b -> at_ f i = (fst b + ox, snd b + oy).
Proof.
  intros (ox & oy & H). exists ox, oy. unfold at_. induction H as [|u v l l' [X Y] H IH]; intros i b; destruct i as [|i]; cbn; try discriminate; auto. intros E. inversion E; subst. rewrite X, Y. reflexivity.
Qed.
Lemma shifted_length base f h t : shifted base (GFrame f h t) -> length (tl f) = length base.
Proof. intros (ox & oy & H). induction H; cbn; congruence. Qed.
Lemma st_none_index p s f t : enabled p = true -> gst (st_none p s f t) = G_UNKNOWN -> gst s <> G_UNKNOWN ->
  (i0 (dt (st_none p s f t)) < length (tl f))%nat /\ (i1 (dt (st_none p s f t)) < length (tl f))%nat /\
  p0 (dt (st_none p s f t)) = at_ f (i0 (dt (st_none p s f t))) /\ p1 (dt (st_none p s f t)) = at_ f (i1 (dt (st_none p s f t))).
Proof.
  intros EN G N. unfold st_none in *. rewrite EN in *.
  assert (IN : forall j, In j (active_touches f) -> (j < length (tl f))%nat). { intros j H. apply In_firstn in H. apply active_from_in in H as (k & u & -> & B & _). cbn. eapply nth_lt, B. }
  destruct (active_touches f) as [|a [|b [|c r]]]; try contradiction.
  - cbn. repeat split; apply IN; cbn; auto.
  - pose proof (top_bottom_in f (firstn (slots p - 1) (b :: c :: r)) a a) as I. destruct (top_bottom f a a _) as [x y]. destruct (Nat.eqb x y); [contradiction|]. cbn. destruct I as [I1 I2].
    repeat split; apply IN; [destruct I1 as [-> | I1] | destruct I2 as [-> | I2]]; try (left; reflexivity); right; eapply In_firstn; eassumption.
Qed.
Lemma st_none_off p s f t : enabled p = false -> gst s <> G_UNKNOWN -> gst (st_none p s f t) <> G_UNKNOWN.
Proof. intros EN N. unfold st_none. rewrite EN. destruct (active_touches f) as [|a [|b [|c r]]]; auto. cbn. discriminate. Qed.
Lemma st_none_gst p s f t : gst s = G_NONE -> gst (st_none p s f t) = G_NONE \/ gst (st_none p s f t) = G_UNKNOWN \/ gst (st_none p s f t) = G_SCROLL.
Proof.
  intros G. unfold st_none. destruct (active_touches f) as [|a [|b [|c r]]]; auto; destruct (enabled p); auto. destruct (top_bottom _ _ _ _) as [x y]. destruct (Nat.eqb x y); auto.
Qed.
Lemma scroll_dt p s f t : dt (st_scroll p s f t) = dt s.
Proof.
  unfold st_scroll. destruct (meth s); auto. destruct (zero2 _); auto. destruct (constrain _ _ _ _ _). destruct (post_scroll _ _ _ _). cbn. apply gstart_same.
Qed.
Lemma swipe_dt p s f t : dt (st_swipe p s f t) = dt s.
Proof. unfold st_swipe. destruct (_ && _); auto. cbn. apply gstart_same. Qed.
Lemma par_post p base s f h t : par p base s -> shifted base (GFrame f h t) -> (2 <= fc s <= 4)%nat ->
  par p base (post_gesture p s f t) /\ adds no_pinch s (post_gesture p s f t).
Proof.
  intros [NP U] SH FC. destruct (shifted_at base f h t SH) as (ox & oy & AT). pose proof (shifted_length base f h t SH) as LEN.
  rewrite post_gesture_chain. cbn zeta. set (s1 := match gst s with G_NONE => _ | _ => _ end).
  assert (H1 : par p base s1 /\ out s1 = out s /\ fc s1 = fc s).
  { subst s1. destruct (gst s) eqn:G; try (split; [split; [congruence | rewrite G; exact U] | auto]).
    destruct (st_none_same p s f t) as (A1 & A2 & _). split; [|auto]. split.
    - destruct (st_none_gst p s f t G) as [E|[E|E]]; rewrite E; discriminate.
    - intros GU. destruct (enabled p) eqn:EN; [|exfalso; apply (st_none_off p s f t EN); congruence]. split; [reflexivity|].
      destruct (st_none_index p s f t EN GU ltac:(congruence)) as (X1 & X2 & X3 & X4). rewrite LEN in X1, X2.
      destruct (nth_error base (i0 (dt (st_none p s f t)))) as [a|] eqn:E1; [|apply nth_error_None in E1; lia]. destruct (nth_error base (i1 (dt (st_none p s f t)))) as [b|] eqn:E2; [|apply nth_error_None in E2; lia].
      exists ox, oy, a, b. rewrite X3, X4, (AT _ _ E1), (AT _ _ E2). auto. }
  destruct H1 as (P1 & O1 & F1). clearbody s1.
  set (s2 := match gst s1 with G_UNKNOWN => _ | _ => _ end).
  assert (H2 : par p base s2 /\ out s2 = out s /\ fc s2 = fc s).
  { subst s2. destruct (gst s1) eqn:G; auto. destruct P1 as [NP1 U1]. destruct (U1 G) as (EN & ox0 & oy0 & a & b & N0 & N1 & Q0 & Q1).
    destruct (detect_together p s1 f t EN) as [K _]; [|exact G | lia|].
    - rewrite Q0, Q1, (AT _ _ N0), (AT _ _ N1). unfold diff. cbn [fst snd]. do 3 f_equal; lia.
    - destruct K as [K|[[_ K]|[_ K]]]; rewrite K.
      + split; [split; assumption | auto].
      + split; [split; [discriminate | intros X; discriminate X] | auto].
      + split; [split; [discriminate | intros X; discriminate X] | auto]. }
  destruct H2 as (P2 & O2 & F2). clearbody s2. destruct P2 as [NP2 U2].
  destruct (gst s2) eqn:G; try (split; [split; [congruence | intros X; first [discriminate X | apply U2; congruence]] | apply adds_refl; exact O2]).
  - split; [split; [rewrite scroll_gst, G; discriminate | rewrite scroll_gst, G; discriminate]|]. eapply adds_trans; [apply adds_refl; exact O2|].
    unfold st_scroll. destruct (meth s2); try (apply adds_refl; reflexivity). destruct (zero2 _); [apply adds_refl; reflexivity|]. destruct (constrain _ _ _ _ _) as [l d]. destruct (post_scroll _ _ _ _) as [c o]. exists (map TAxis o). split.
    + cbn. f_equal. unfold gstart. destruct (started s2); [reflexivity|]. rewrite G. reflexivity.
    + apply Forall_map. rewrite Forall_forall. intros; exact I.
  - congruence.
  - split; [split; [rewrite swipe_gst, G; discriminate | rewrite swipe_gst, G; discriminate]|]. eapply adds_trans; [apply adds_refl; exact O2|].
    unfold st_swipe. destruct (_ && _); [apply adds_refl; reflexivity|]. eapply adds_trans with (s1 := gstart s2 t); [|eexists; split; [reflexivity | repeat constructor]].
    unfold gstart. destruct (started s2); [apply adds_refl; reflexivity|]. rewrite G. eexists. split; [reflexivity | repeat constructor].
Qed.
Lemma gend_no_pinch s t c : gst s <> G_PINCH -> adds no_pinch s (gend s t c).
Proof. intros N. eapply adds_weaken; [|apply gend_adds]. intros e. destruct e as [k n t'|k n t' d u z a|k n t' c' z|[t' v x]|t' d|i]; cbn; try tauto. destruct k; tauto. Qed.
Lemma par_step p base s i : par p base s -> shifted base i -> par p base (gstep p s i) /\ adds no_pinch s (gstep p s i).
Proof.
  intros PA SH. assert (PN : forall s', gst s' = G_NONE -> par p base s') by (intros s' E; split; rewrite E; discriminate).
  destruct i as [f h t|t|t|m t|b].
  - assert (H1 : par p base (ghandle s f t) /\ adds no_pinch s (ghandle s f t)).
    { destruct (ghandle_gst s f t) as (G & D & _). split.
      - destruct G as [G|G]; [|apply PN, G]. destruct PA as [A B]. split; rewrite G, ?D; auto.
      - unfold ghandle. destruct (Nat.eqb (count f) (fc s)); [apply adds_refl; reflexivity|]. destruct (Nat.eqb (count f) 0).
        + destruct (gend_no_pinch s t false (proj1 PA)) as (o & O & F). exists o. auto.
        + destruct (negb _); [apply adds_refl; reflexivity|]. destruct (Nat.eqb _ _); apply adds_refl; reflexivity. }
    destruct H1 as [P1 A1]. destruct (frame_cases p s f h t) as [(-> & Z & FC & E)|[G|(G & D & _ & _ & O)]].
    + rewrite E. destruct (par_post p base _ f (GGo false) t P1 SH FC) as [P2 A2]. split; [exact P2 | eapply adds_trans; eauto].
    + split; [apply PN, G|]. cbn [gstep]. eapply adds_trans; [exact A1|]. clear G. set (s1 := ghandle s f t) in *. clearbody s1. destruct h as [| | |one]; try (apply adds_refl; reflexivity); [apply gend_no_pinch, P1|].
      unfold gpost. destruct (fc s1) eqn:F; [apply adds_refl; reflexivity|]. destruct one; cbn [pend fc with_count].
      * destruct (gend_no_pinch s1 t true (proj1 P1)) as (o & O & FO). assert (A2 : adds no_pinch s1 (with_count (gend s1 t true) 1 0)) by (exists o; auto).
        destruct (moved f); [|exact A2]. eapply adds_trans; [exact A2|]. eapply adds_weaken; [|apply post_motion_adds]. intros e; destruct e; cbn; tauto.
      * destruct (pend s1); [|apply adds_refl; reflexivity]. rewrite F.
        assert (PG : (2 <= fc s1 <= 4)%nat -> adds no_pinch s1 (post_gesture p s1 f t)) by (intros R; apply (par_post p base s1 f (GGo false) t P1 SH R)).
        destruct n as [|[|[|[|n]]]]; try (apply PG; lia); [|apply adds_refl; reflexivity]. destruct (moved f); [|apply adds_refl; reflexivity]. eapply adds_weaken; [|apply post_motion_adds]. intros e; destruct e; cbn; tauto.
    + split; [destruct P1 as [X Y]; split; rewrite G, ?D; auto|]. eapply adds_trans; [exact A1|]. destruct O as [[_ E]|O]; [rewrite E; eapply adds_weaken; [|apply post_motion_adds]; intros e; destruct e; cbn; tauto | apply adds_refl; exact O].
  - split.
    + destruct (other_gst p s (GTimer t)) as [G|(G & D & _)]; [discriminate | apply PN, G | destruct PA as [A B]; split; rewrite G, ?D; auto].
    + cbn. destruct (tmr s); [|apply adds_refl; reflexivity]. destruct (_ <=? _); [|apply adds_refl; reflexivity]. cbn. destruct (pend s); [apply adds_refl; reflexivity|]. destruct (gend_no_pinch (with_tmr s None) t true (proj1 PA)) as (o & O & F). exists o. auto.
  - split; [apply PN, gend_fc | apply gend_no_pinch, PA].
  - split.
    + destruct (other_gst p s (GSetMethod m t)) as [G|(G & D & _)]; [discriminate | apply PN, G | destruct PA as [A B]; split; rewrite G, ?D; auto].
    + cbn. destruct (Es_Model.smethod_eqb _ _); [apply adds_refl; reflexivity|]. destruct (stop_2fg_adds s t) as (o & O & F). exists o. split; [exact O|]. eapply Forall_impl; [|exact F]. intros e; destruct e; cbn; tauto.
  - split; [exact PA | apply adds_refl; reflexivity].
Qed.
Lemma par_run p m base : forall l, Forall (shifted base) l -> par p base (after p m l).
Proof.
  induction l as [|i l IH] using rev_ind; intros F; [split; cbn; discriminate|]. apply Forall_app in F as [F1 F2]. inversion F2; subst. rewrite after_app. apply par_step; auto.
Qed.
(** ** Touchpads that cannot tell fingers apart *)
Definition off (s : g) : Prop := gst s = G_NONE \/ gst s = G_SCROLL.
Definition no_gesture (e : gout) : Prop := match e with TBegin _ _ _ | TUpdate _ _ _ _ _ _ _ | TEnd _ _ _ _ _ | TThumb _ => False | _ => True end.
Lemma off_post p s f t : enabled p = false -> off s -> off (post_gesture p s f t) /\ adds no_gesture s (post_gesture p s f t).
Proof.
  intros EN OF. rewrite post_gesture_chain. cbn zeta. set (s1 := match gst s with G_NONE => _ | _ => _ end).
  assert (H1 : off s1 /\ out s1 = out s).
  { subst s1. destruct OF as [G|G]; rewrite G; [|split; [right; exact G | reflexivity]]. destruct (st_none_same p s f t) as (A1 & _). split; [|exact A1]. unfold off. destruct (st_none_gst p s f t G) as [E|[E|E]]; auto. exfalso. apply (st_none_off p s f t EN); congruence. }
  destruct H1 as [O1 E1]. clearbody s1. destruct O1 as [G|G]; rewrite G; cbn; rewrite ?G.
  - split; [left; exact G | apply adds_refl; exact E1].
  - split; [right; rewrite scroll_gst; exact G|]. eapply adds_trans; [apply adds_refl; exact E1|].
    unfold st_scroll. destruct (meth s1); try (apply adds_refl; reflexivity). destruct (zero2 _); [apply adds_refl; reflexivity|]. destruct (constrain _ _ _ _ _) as [l d]. destruct (post_scroll _ _ _ _) as [c o]. exists (map TAxis o). split.
    + cbn. f_equal. unfold gstart. destruct (started s1); [reflexivity|]. rewrite G. reflexivity.
    + apply Forall_map. rewrite Forall_forall. intros; exact I.
Qed.
Lemma gend_no_gesture s t c : off s -> adds no_gesture s (gend s t c).
Proof. intros N. eapply adds_weaken; [|apply gend_adds]. intros e. destruct e as [k n t'|k n t' d u z a|k n t' c' z|[t' v x]|t' d|i]; cbn; try tauto. unfold off in N. destruct k; intros (_ & _ & _ & _ & K); destruct N; try congruence; destruct K; congruence. Qed.
Lemma off_step p s i : enabled p = false -> off s -> off (gstep p s i) /\ adds no_gesture s (gstep p s i).
Proof.
  intros EN OF. destruct i as [f h t|t|t|m t|b].
  - assert (H1 : off (ghandle s f t) /\ adds no_gesture s (ghandle s f t)).
    { destruct (ghandle_gst s f t) as (G & D & _). split.
      - unfold off in *. destruct G as [G|G]; rewrite G; auto.
      - unfold ghandle. destruct (Nat.eqb (count f) (fc s)); [apply adds_refl; reflexivity|]. destruct (Nat.eqb (count f) 0).
        + destruct (gend_no_gesture s t false OF) as (o & O & F). exists o. auto.
        + destruct (negb _); [apply adds_refl; reflexivity|]. destruct (Nat.eqb _ _); apply adds_refl; reflexivity. }
    destruct H1 as [P1 A1]. cbn [gstep]. set (s1 := ghandle s f t) in *. clearbody s1. destruct h as [| | |one]; auto.
    + split; [left; apply gend_fc | eapply adds_trans; [exact A1 | apply gend_no_gesture, P1]].
    + unfold gpost. destruct (fc s1) eqn:F; [auto|]. destruct one; cbn [pend fc with_count].
      * destruct (gend_no_gesture s1 t true P1) as (o & O & FO). assert (A2 : adds no_gesture s1 (with_count (gend s1 t true) 1 0)) by (exists o; auto). assert (A3 : adds no_gesture s (with_count (gend s1 t true) 1 0)) by (eapply adds_trans; eauto).
        assert (G1 : off (with_count (gend s1 t true) 1 0)) by (left; apply gend_fc).
        destruct (moved f); [|auto]. split; [unfold post_motion; destruct (_ && _); exact G1|]. eapply adds_trans; [exact A3|]. eapply adds_weaken; [|apply post_motion_adds]. intros e; destruct e; cbn; tauto.
      * destruct (pend s1); [|auto]. rewrite F. destruct (off_post p s1 f t EN P1) as [X Y].
        assert (PG : off (post_gesture p s1 f t) /\ adds no_gesture s (post_gesture p s1 f t)) by (split; [exact X | eapply adds_trans; eauto]).
        destruct n as [|[|[|[|n]]]]; auto. destruct (moved f); [|auto]. split; [unfold post_motion; destruct (_ && _); exact P1|]. eapply adds_trans; [exact A1|]. eapply adds_weaken; [|apply post_motion_adds]. intros e; destruct e; cbn; tauto.
  - split.
    + unfold off in *. destruct (other_gst p s (GTimer t)) as [G|(G & D & _)]; [discriminate | auto | rewrite G; auto].
    + cbn. destruct (tmr s); [|apply adds_refl; reflexivity]. destruct (_ <=? _); [|apply adds_refl; reflexivity]. cbn. destruct (pend s); [apply adds_refl; reflexivity|]. destruct (gend_no_gesture (with_tmr s None) t true OF) as (o & O & F). exists o. auto.
  - split; [left; apply gend_fc | apply gend_no_gesture, OF].
  - split.
    + unfold off in *. destruct (other_gst p s (GSetMethod m t)) as [G|(G & D & _)]; [discriminate | auto | rewrite G; auto].
    + cbn. destruct (Es_Model.smethod_eqb _ _); [apply adds_refl; reflexivity|]. destruct (stop_2fg_adds s t) as (o & O & F). exists o. split; [exact O|]. eapply Forall_impl; [|exact F]. intros e; destruct e; cbn; tauto.
  - split; [exact OF | apply adds_refl; reflexivity].
Qed.
Lemma off_run p m : enabled p = false -> forall l, off (after p m l).
Proof. intros EN. induction l as [|i l IH] using rev_ind; [left; reflexivity|]. rewrite after_app. apply off_step; auto. Qed.
