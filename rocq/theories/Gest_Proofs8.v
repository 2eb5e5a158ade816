(** * Touchpad gestures: the values of the events *)
Require Import Coq.ZArith.ZArith Coq.QArith.QArith Coq.QArith.Qabs Coq.QArith.Qround Coq.Lists.List Coq.Bool.Bool Coq.micromega.Lia Coq.micromega.Lqa.
Require Import Verif.Scroll_Model.
Require Verif.Es_Model.
Require Import Verif.Gest_Model Verif.Gest_Spec Verif.Gest_Proofs Verif.Gest_Proofs2 Verif.Gest_Proofs3 Verif.Gest_Proofs4 Verif.Gest_Proofs5 Verif.Gest_Proofs6 Verif.Gest_Proofs7.
Import ListNotations.
Open Scope Z_scope.

Definition vals (p : gpad) (s : g) (i : ginput) (e : gout) : Prop :=
  match e with
  | TUpdate Swipe _ t d u z a => exists f h, i = GFrame f h t /\ d = filtered (touches_delta p f true) (acc f) /\ u = filtered (touches_delta p f true) (una f) /\ z = Fin 0 /\ a = 0%Q
  | TUpdate Pinch _ t _ _ _ a => exists f h x, i = GFrame f h t /\ (x = pang (pn s) \/ x = ang f) /\ a = turn (ang f - x)
  | _ => True
  end.
Lemma vals_other p s s' i (Q0 : gout -> Prop) s0 : (forall e, Q0 e -> match e with TUpdate _ _ _ _ _ _ _ => False | _ => True end) -> adds Q0 s s' -> adds (vals p s0 i) s s'.
Proof. intros W. apply adds_weaken. intros e K. specialize (W e K). destruct e as [| [|] | | | |]; cbn; auto; contradiction. Qed.
Lemma vals_post p s0 s f t : pn s = pn s0 -> adds (vals p s0 (GFrame f (GGo false) t)) s (post_gesture p s f t).
Proof.
  intros P0. rewrite post_gesture_chain. cbn zeta. set (s1 := match gst s with G_NONE => _ | _ => _ end).
  assert (H1 : out s1 = out s /\ pn s1 = pn s0) by (subst s1; destruct (gst s); auto; destruct (st_none_same p s f t) as (A & _ & _ & _ & _ & _ & B & _); split; congruence). destruct H1 as [O1 P1]. clearbody s1.
  set (s2 := match gst s1 with G_UNKNOWN => _ | _ => _ end).
  assert (H2 : adds (vals p s0 (GFrame f (GGo false) t)) s1 s2 /\ (pang (pn s2) = pang (pn s0) \/ pang (pn s2) = ang f)).
  { subst s2. destruct (gst s1); try (split; [apply adds_refl; reflexivity | left; congruence]). split; [eapply vals_other; [|apply detect_adds]; intros e; destruct e; tauto|].
    rewrite <- P1. unfold detect. destruct (_ && _ && _); [auto|]. destruct (_ && _); [auto|]. destruct (if _ <? _ then _ else _) as [[thumb tm] fm].
    destruct (_ && _); [destruct (Nat.eqb _ _); auto|]. destruct (_ && _ && _); [auto|]. destruct (_ && _ && _); [auto|]. destruct (_ && _ && _ && _ && _); [auto|]. destruct (_ || _); [auto|].
    destruct (_ && _); [auto|]. destruct (_ && _); auto. }
  destruct H2 as [A2 P2]. clearbody s2. assert (A : adds (vals p s0 (GFrame f (GGo false) t)) s s2) by (eapply adds_trans; [apply adds_refl; exact O1 | exact A2]).
  assert (GS : adds (vals p s0 (GFrame f (GGo false) t)) s2 (gstart s2 t)).
  { unfold gstart. destruct (started s2); [apply adds_refl; reflexivity|]. destruct (gst s2); try (apply adds_refl; reflexivity); eexists; (split; [reflexivity | repeat constructor]). }
  destruct (gst s2) eqn:G; auto.
  - eapply adds_trans; [exact A|]. unfold st_scroll. destruct (meth s2); try (apply adds_refl; reflexivity). destruct (zero2 _); [apply adds_refl; reflexivity|]. destruct (constrain _ _ _ _ _) as [l d]. destruct (post_scroll _ _ _ _) as [c o].
    eapply adds_trans; [exact GS|]. exists (map TAxis o). split; [reflexivity|]. apply Forall_map. rewrite Forall_forall. intros; exact I.
  - eapply adds_trans; [exact A|]. unfold st_pinch. destruct (_ && _); [apply adds_refl; reflexivity|]. eapply adds_trans; [exact GS|]. eexists. split; [reflexivity|]. constructor; [|constructor]. cbn. exists f, (GGo false), (pang (pn s2)). auto.
  - eapply adds_trans; [exact A|]. unfold st_swipe. destruct (_ && _); [apply adds_refl; reflexivity|]. eapply adds_trans; [exact GS|]. eexists. split; [reflexivity|]. constructor; [|constructor]. cbn. exists f, (GGo false). auto 10.
Qed.
Lemma vals_step p s i : adds (vals p s i) s (gstep p s i).
Proof.
  assert (GE : forall s' t c, adds (vals p s i) s' (gend s' t c)) by (intros s' t c; eapply vals_other; [|apply gend_adds]; intros e; destruct e; cbn; tauto).
  destruct i as [f h t|t|t|m t|b].
  - cbn [gstep]. assert (A1 : adds (vals p s (GFrame f h t)) s (ghandle s f t)).
    { unfold ghandle. destruct (Nat.eqb (count f) (fc s)); [apply adds_refl; reflexivity|]. destruct (Nat.eqb (count f) 0); [|destruct (negb _); [apply adds_refl; reflexivity|]; destruct (Nat.eqb _ _); apply adds_refl; reflexivity].
      destruct (GE s t false) as (o & O & F). exists o. auto. }
    eapply adds_trans; [exact A1|]. destruct (ghandle_gst s f t) as (_ & _ & P1). set (s1 := ghandle s f t) in *. clearbody s1.
    assert (PM : forall s2, adds (vals p s (GFrame f h t)) s2 (post_motion p s2 f t)) by (intros s2; eapply vals_other; [|apply post_motion_adds]; intros e; destruct e; cbn; tauto).
    destruct h as [| | |one]; try (apply adds_refl; reflexivity); [apply GE|]. unfold gpost. destruct (fc s1) eqn:F; [apply adds_refl; reflexivity|]. destruct one; cbn [pend fc with_count].
    + assert (A2 : adds (vals p s (GFrame f (GGo true) t)) s1 (with_count (gend s1 t true) 1 0)) by (destruct (GE s1 t true) as (o & O & K); exists o; auto). destruct (moved f); [eapply adds_trans; [exact A2 | apply PM] | exact A2].
    + destruct (pend s1); [|apply adds_refl; reflexivity]. rewrite F. pose proof (vals_post p s s1 f t P1) as PG. destruct n as [|[|[|[|n]]]]; auto; [|apply adds_refl; reflexivity]. destruct (moved f); [apply PM | apply adds_refl; reflexivity].
  - cbn. destruct (tmr s); [|apply adds_refl; reflexivity]. destruct (_ <=? _); [|apply adds_refl; reflexivity]. cbn. destruct (pend s); [apply adds_refl; reflexivity|]. destruct (GE (with_tmr s None) t true) as (o & O & F); auto. exists o. auto.
  - apply GE.
  - cbn. destruct (Es_Model.smethod_eqb _ _); [apply adds_refl; reflexivity|]. eapply vals_other with (s' := with_meth (stop_2fg s t) m); [|destruct (stop_2fg_adds s t) as (o & O & F); exists o; split; [exact O | exact F]]. intros e; destruct e; tauto.
  - apply adds_refl; reflexivity.
Qed.
Lemma angle_of_update p m l i n t d u z a : Forall angles_in_range (l ++ [i]) -> In (TUpdate Pinch n t d u z a) (events p m l i) -> (-180 <= a <= 180)%Q.
Proof.
  intros F H. apply (events_adds _ _ _ _ _ _ (vals_step p (after p m l) i)) in H. destruct H as (f & h & x & -> & X & ->). apply Forall_app in F as [F1 F2]. inversion F2 as [|? ? R _]; subst. cbn in R.
  pose proof (angle_range p m l F1) as AR. apply turn_range. destruct X as [-> | ->]; lra.
Qed.
Lemma scroll_of_frame p m l i t v h : In (TAxis (Axis t v h)) (events p m l i) -> is_stop v h = false ->
  exists f hw s' l' d, i = GFrame f hw t /\ scrolls p s' f t l' d /\ sl s' = sl (after p m l) /\
    (forall a, v = Some a -> a = dirq (natural_after l) (snd d)) /\ (forall a, h = Some a -> a = dirq (natural_after l) (fst d)) /\ (v = None -> (snd d == 0)%Q) /\ (h = None -> (fst d == 0)%Q).
Proof.
  intros H NS. destruct i as [f hw t'|t'|t'|m' t'|b]; try (pose proof (other_inputs p m l _ _ H ltac:(discriminate)) as K; cbn in K; congruence).
  destruct (scr_run p m l) as [IV NA]. destruct (scroll_origin p (after p m l) f hw t' (inv_run false p m l ltac:(discriminate)) IV) as [A _].
  pose proof (events_adds _ _ _ _ _ _ A H) as K. cbn in K. rewrite NA in K. destruct K as [K|(d & (s' & l' & S & E & _) & V1 & V2 & V3 & V4)]; [congruence|].
  pose proof (events_adds _ _ _ _ _ _ (frame_adds p (after p m l) f hw t') H) as [-> _]. exists f, hw, s', l', d. auto 10.
Qed.
Lemma scroll_value p m l i t v h : In (TAxis (Axis t v h)) (events p m l i) -> is_stop v h = false ->
  exists f hw d, i = GFrame f hw t /\ average p f d /\ (forall a, v = Some a -> a = dirq (natural_after l) (snd (una f d)) \/ (a == 0)%Q) /\ (forall a, h = Some a -> a = dirq (natural_after l) (fst (una f d)) \/ (a == 0)%Q).
Proof.
  intros H NS. destruct (scroll_of_frame p m l i t v h H NS) as (f & hw & s' & l' & d & -> & (l0 & _ & _ & _ & C) & _ & V1 & V2 & _).
  exists f, hw, (touches_delta p f true). split; [reflexivity|]. split; [apply is_average|]. pose proof (constrain_vals p l0 (touches_delta p f true) (una f (touches_delta p f true)) t) as CV. rewrite C in CV. cbn [snd] in CV. destruct CV as [C1 C2].
  split; intros a E.
  - rewrite (V1 a E). destruct C2 as [C2|C2]; rewrite C2; [right; destruct (natural_after l); reflexivity | auto].
  - rewrite (V2 a E). destruct C1 as [C1|C1]; rewrite C1; [right; destruct (natural_after l); reflexivity | auto].
Qed.
Lemma scroll_upright b p m l i t v h : Forall (along_y b p) (l ++ [i]) -> In (TAxis (Axis t v h)) (events p m l i) -> forall a, h = Some a -> (a == 0)%Q.
Proof.
  intros F H a E. destruct (is_stop v h) eqn:NS; [unfold is_stop in NS; subst h; destruct v; [apply andb_prop in NS as [_ NS]|]; apply Qeq_bool_iff; exact NS|].
  apply Forall_app in F as [F1 F2]. inversion F2 as [|? ? AI _]; subst.
  destruct (scroll_of_frame p m l i t v _ H NS) as (f & hw & s' & l' & d & -> & (l0 & L0 & _ & _ & C) & SL & _ & V2 & _). pose proof (upright_run b p m l F1) as U.
  assert (U0 : upright b l0). { destruct L0 as [(_ & _ & ->)|[_ ->]]; [rewrite SL; exact U|]. cbn. repeat split. unfold Qle; destruct b; cbn; lia. }
  pose proof (upright_step b p l0 (touches_delta p f true) (una f (touches_delta p f true)) t U0) as K. rewrite C in K. destruct K as [_ K]; [apply (AI _ (is_average p f))|].
  rewrite (V2 a eq_refl), K. destruct (natural_after l); reflexivity.
Qed.
Lemma scroll_flat b p m l i t v h : 0 < rx p -> 0 < ry p -> Forall (along_x b p) (l ++ [i]) -> In (TAxis (Axis t v h)) (events p m l i) -> forall a, v = Some a -> (a == 0)%Q.
Proof.
  intros RX RY F H a E. destruct (is_stop v h) eqn:NS; [unfold is_stop in NS; subst v; destruct h; [apply andb_prop in NS as [NS _]|]; apply Qeq_bool_iff; exact NS|].
  apply Forall_app in F as [F1 F2]. inversion F2 as [|? ? AI _]; subst.
  destruct (scroll_of_frame p m l i t _ h H NS) as (f & hw & s' & l' & d & -> & (l0 & L0 & NZ & _ & C) & SL & V1 & _). pose proof (flat_run b p m RX RY l F1) as U.
  assert (U0 : flat b l0). { destruct L0 as [(_ & _ & ->)|[_ ->]]; [rewrite SL; exact U|]. cbn. repeat split. unfold Qle; destruct b; cbn; lia. }
  pose proof (flat_step b p l0 (touches_delta p f true) (una f (touches_delta p f true)) t RX RY NZ U0) as K. rewrite C in K. destruct K as [_ K]; [apply (AI _ (is_average p f))|].
  rewrite (V1 a eq_refl), K. destruct (natural_after l); reflexivity.
Qed.

(** With an update the reference is the frame's *)
Lemma update_here p m l f h t' n t d u z ag : In (TUpdate Pinch n t d u z ag) (events p m l (GFrame f h t')) ->
  let s := after p m (l ++ [GFrame f h t']) in pang (pn s) = ang f /\ (pcx (pn s), pcy (pn s)) = middle f (i0 (dt s)) (i1 (dt s)).
Proof.
  intros H. pose proof (adds_dec quiet p m l _ (TUpdate Pinch n t d u z ag) (fun x => x) H) as N. cbn zeta. rewrite after_app. set (s := after p m l) in *. clearbody s.
  destruct (frame_begin p s f h t') as [(-> & Z & FC & E)|K]; [|contradiction]. rewrite E in *.
  destruct (chain_pinch p (ghandle s f t') f t') as (s3 & o & S3 & O3 & F3 & C & _).
  assert (A3 : adds quiet s s3). { eapply adds_trans; [apply ghandle_quiet|]. exists o. split; [exact O3|]. eapply Forall_impl; [|exact F3]. intros e; destruct e; cbn; tauto. }
  destruct C as [[G C]|[G C]]; [|exfalso; apply N; eapply adds_trans; eassumption]. rewrite C.
  assert (D : dt (st_pinch p s3 f t') = dt s3) by (unfold st_pinch; destruct (_ && _); [reflexivity|]; cbn; apply gstart_same). rewrite D.
  unfold st_pinch. destruct (_ && _); split; reflexivity.
Qed.
