(** * Touchpad gestures: what a pinch reports *)
Require Import Coq.ZArith.ZArith Coq.QArith.QArith Coq.QArith.Qabs Coq.QArith.Qround Coq.Lists.List Coq.Bool.Bool Coq.micromega.Lia Coq.micromega.Lqa.
Require Import Verif.Scroll_Model.
Require Verif.Es_Model.
Require Import Verif.Gest_Model Verif.Gest_Spec Verif.Gest_Proofs Verif.Gest_Proofs2 Verif.Gest_Proofs3 Verif.Gest_Proofs4 Verif.Gest_Proofs5 Verif.Gest_Proofs6.
Import ListNotations.
Open Scope Z_scope.

(** What the updates so far add up to *)
Definition quiet (e : gout) : Prop := match e with TBegin Pinch _ _ | TUpdate Pinch _ _ _ _ _ _ => False | _ => True end.
Record sums := { s_turn : Q; s_last : option num; s_trav : Q * Q }.
Definition summed (o : list gout) : sums := {| s_turn := turned o; s_last := last_scale o; s_trav := travelled o |}.
Lemma summed_quiet o o' : Forall quiet o' -> summed (o ++ o') = summed o.
Proof.
  intros F. unfold summed, turned, last_scale, travelled. rewrite !fold_left_app. generalize (fold_left (fun z e => match e with TUpdate Pinch _ _ _ _ _ a => (z + a)%Q | TBegin Pinch _ _ => 0%Q | _ => z end) o 0%Q).
  generalize (fold_left (fun z e => match e with TUpdate Pinch _ _ _ _ z' _ => Some z' | TBegin Pinch _ _ => None | _ => z end) o (@None num)).
  generalize (fold_left (fun z e => match e with TUpdate Pinch _ _ _ u _ _ => (fst z + fst u, snd z + snd u)%Q | TBegin Pinch _ _ => (0, 0)%Q | _ => z end) o (0, 0)%Q).
  induction F as [|e l H F IH]; intros x y z; [reflexivity|]. cbn [fold_left]. destruct e as [[|] n t|[|] n t d u sc a|k n t c sc|a|t d|i]; try contradiction; apply IH.
Qed.
Lemma summed_update o n t d u z a : summed (o ++ [TUpdate Pinch n t d u z a]) = {| s_turn := turned o + a; s_last := Some z; s_trav := (fst (travelled o) + fst u, snd (travelled o) + snd u) |}%Q.
Proof. unfold summed, turned, last_scale, travelled. rewrite !fold_left_app. reflexivity. Qed.
Lemma summed_begin o n t : summed (o ++ [TBegin Pinch n t]) = {| s_turn := 0; s_last := None; s_trav := (0, 0) |}%Q.
Proof. unfold summed, turned, last_scale, travelled. rewrite !fold_left_app. reflexivity. Qed.
Definition eq2 (x y : Q * Q) : Prop := (fst x == fst y /\ snd x == snd y)%Q.
(** The gesture under way: the two touches, the distance, angle and middle it began with; [kx]: the factor of the filter, if there is one *)
Record gest := { ga : nat; gb : nat; gd : Q; gang : Q; gmid : Q * Q; gk : option Q }.
Definition upd_ok (p : gpad) (x : gest) (i : ginput) (e : gout) : Prop :=
  match e with TUpdate Pinch _ t d u z ag => exists f h, i = GFrame f h t /\ scales z (sq (mm p (diff (at_ f (ga x)) (at_ f (gb x))))) (gd x) | _ => True end.
Definition fits_sums (x : gest) (c : pinch) (z : sums) : Prop :=
  (exists k, (s_turn z == pang c - gang x + inject_Z (360 * k))%Q) /\ s_last z = Some (psc c) /\
  (forall k, gk x = Some k -> eq2 (s_trav z) (k * (pcx c - fst (gmid x)), k * (pcy c - snd (gmid x)))%Q).
Record pin (x : gest) (s : g) : Prop :=
  { pn_g : gst s = G_PINCH; pn_st : started s = true; pn_a : i0 (dt s) = ga x; pn_b : i1 (dt s) = gb x; pn_d : dist (pn s) = gd x;
    pn_sums : fits_sums x (pn s) (summed (out s)) }.
Definition lin (x : gest) (i : ginput) : Prop := forall k, gk x = Some k -> linear k i.
Lemma turn_mod d : exists k, (turn d == d + inject_Z (360 * k))%Q.
Proof. unfold turn. destruct (negb _); [exists (-1) | destruct (negb _); [exists 1 | exists 0]]; cbn; ring. Qed.
Lemma turn_range d : (-360 <= d <= 360)%Q -> (-180 <= turn d <= 180)%Q.
Proof.
  intros [A B]. unfold turn. destruct (Qle_bool d 180) eqn:E; cbn [negb].
  - apply Qle_bool_iff in E. destruct (Qle_bool (-180) d) eqn:F; cbn [negb]; [apply Qle_bool_iff in F; split; lra|]. assert (~ (-180 <= d)%Q) by (rewrite <- Qle_bool_iff; congruence). split; lra.
  - assert (~ (d <= 180)%Q) by (rewrite <- Qle_bool_iff; congruence). split; lra.
Qed.
Lemma ratio_scales x y : scales (ratio x y) x y.
Proof.
  unfold ratio, scales. destruct (Qeq_bool y 0) eqn:E.
  - apply Qeq_bool_iff in E. destruct (Qeq_bool x 0); exact E.
  - assert (N : ~ (y == 0)%Q) by (rewrite <- Qeq_bool_iff; congruence). split; [exact N | field; exact N].
Qed.
Lemma filtered_linear k f h t v : linear k (GFrame f h t) -> eq2 (filtered v (una f)) (k * fst v, k * snd v)%Q.
Proof.
  intros L. unfold filtered, zero2. destruct (Qeq_bool (fst v) 0) eqn:A; cbn [andb]; [|rewrite (L v); split; reflexivity]. destruct (Qeq_bool (snd v) 0) eqn:B; [|rewrite (L v); split; reflexivity].
  apply Qeq_bool_iff in A. apply Qeq_bool_iff in B. split; cbn [fst snd]; [rewrite A | rewrite B]; ring.
Qed.
Lemma num_eqb_eq a b : num_eqb a b = true -> match a, b with Fin x, Fin y => (x == y)%Q | Inf, Inf => True | _, _ => False end.
Proof. destruct a, b; cbn; try discriminate; auto. apply Qeq_bool_iff. Qed.
(** The handler of a pinch: if it is under way *)
Lemma pin_pinch p x s f h t : lin x (GFrame f h t) -> pin x s -> pin x (st_pinch p s f t) /\ adds (upd_ok p x (GFrame f h t)) s (st_pinch p s f t).
Proof.
  intros L [A B C D E ((k & T) & LS & TR)]. destruct (turn_mod (ang f - pang (pn s))) as [k' K]. unfold st_pinch. destruct (_ && Qeq_bool (turn _) 0) eqn:Z.
  - apply andb_prop in Z as [Z ZT]. apply andb_prop in Z as [Z _]. apply andb_prop in Z as [_ Z]. apply Qeq_bool_iff in ZT. unfold zero2 in Z. cbn [fst snd] in Z. apply andb_prop in Z as [Z1 Z2]. apply Qeq_bool_iff in Z1. apply Qeq_bool_iff in Z2.
    split; [|apply adds_refl; reflexivity]. split; auto. cbn [out with_pn pn]. split; [|split; [exact LS|]].
    + exists (k + k'). cbn [pang]. rewrite ZT in K. rewrite T, Z.mul_add_distr_l, inject_Z_plus. lra.
    + intros q KQ. destruct (TR q KQ) as [T1 T2]. split; [rewrite T1 | rewrite T2]; cbn [fst snd pcx pcy]; [setoid_replace (fst (center s f)) with (pcx (pn s)) by lra | setoid_replace (snd (center s f)) with (pcy (pn s)) by lra]; reflexivity.
  - unfold gstart. rewrite B. split.
    + split; auto. cbn [out with_pn pn with_out]. rewrite summed_update. split; [|split; [reflexivity|]]; cbn [s_turn s_trav pang pcx pcy].
      * exists (k + k'). cbn [s_turn summed] in T. rewrite T, K, Z.mul_add_distr_l, inject_Z_plus. ring.
      * intros q KQ. destruct (TR q KQ) as [T1 T2]. cbn [s_trav summed fst snd] in T1, T2. destruct (filtered_linear q f h t (fst (center s f) - pcx (pn s), snd (center s f) - pcy (pn s))%Q (L q KQ)) as [F1 F2]. cbn [fst snd] in F1, F2. split; cbn [fst snd]; [rewrite T1, F1 | rewrite T2, F2]; ring.
    + eexists. split; [reflexivity|]. constructor; [|constructor]. cbn. exists f, h. split; [reflexivity|]. rewrite <- C, <- D, <- E. apply ratio_scales.
Qed.
(** … and if it begins *)
Lemma pin_begins p s f h t kx : gst s = G_PINCH -> started s = false -> started (st_pinch p s f t) = true ->
  exists x, gk x = kx /\ (lin x (GFrame f h t) -> pin x (st_pinch p s f t)) /\ adds (upd_ok p x (GFrame f h t)) s (st_pinch p s f t).
Proof.
  intros G S. unfold st_pinch. destruct (_ && Qeq_bool (turn _) 0) eqn:Z; [cbn; congruence|]. intros _. unfold gstart. rewrite S, G.
  exists {| ga := i0 (dt s); gb := i1 (dt s); gd := dist (pn s); gang := pang (pn s); gmid := (pcx (pn s), pcy (pn s)); gk := kx |}. split; [reflexivity|]. split.
  - intros L. split; auto. cbn [out with_pn pn with_out with_started]. rewrite summed_update. pose proof (summed_begin (out s) (fc s) t) as SB. apply (f_equal s_turn) in SB as E1; apply (f_equal s_trav) in SB as E3. cbn [s_turn s_trav summed] in E1, E3. rewrite E1, E3.
    split; [|split; [reflexivity|]]; cbn [s_turn s_trav pang pcx pcy gang gmid gk fst snd].
    + destruct (turn_mod (ang f - pang (pn s))) as [k K]. exists k. rewrite K. ring.
    + intros q KQ. destruct (filtered_linear q f h t (fst (center s f) - pcx (pn s), snd (center s f) - pcy (pn s))%Q (L q KQ)) as [F1 F2]. cbn [fst snd] in F1, F2. split; cbn [fst snd]; [rewrite F1 | rewrite F2]; ring.
  - eexists. split; [cbn; rewrite <- app_assoc; reflexivity|]. constructor; [exact I|]. constructor; [|constructor]. cbn. exists f, h. split; [reflexivity|]. apply ratio_scales.
Qed.
(** An end of the gesture is an event *)
Definition ends (s s' : g) : Prop := started s' = false /\ exists o, out s' = out s ++ o /\ exists k n t c z, In (TEnd k n t c z) o.
Lemma gend_ends s t c : started s = true -> gst s = G_PINCH -> ends s (gend s t c).
Proof. intros S G. split; [apply gend_started|]. unfold gend. cbn. rewrite S, G. eexists. split; [reflexivity|]. do 5 eexists. left. reflexivity. Qed.
Lemma ends_then s s1 s2 P : ends s s1 -> started s2 = false -> adds P s1 s2 -> ends s s2.
Proof. intros (_ & o & O & k & n & t & c & z & I) N (o' & O' & _). split; [exact N|]. exists (o ++ o'). split; [rewrite O', O, app_assoc; reflexivity|]. do 5 eexists. apply in_or_app. left. exact I. Qed.
Lemma pin_same x s s' : pin x s -> gst s' = gst s -> dt s' = dt s -> pn s' = pn s -> started s' = started s -> summed (out s') = summed (out s) -> pin x s'.
Proof. intros [A B C D E F] G1 G2 G3 G4 G5. split; rewrite ?G1, ?G2, ?G3, ?G4, ?G5; auto. Qed.
Lemma pin_chain p x s f t : pin x s -> post_gesture p s f t = st_pinch p s f t.
Proof. intros P. unfold post_gesture. rewrite (pn_g _ _ P). cbn. rewrite (pn_g _ _ P). cbn. rewrite (pn_g _ _ P). cbn. rewrite (pn_g _ _ P). cbn. rewrite (pn_g _ _ P). reflexivity. Qed.
Lemma pin_step p x s i : lin x i -> pin x s -> (pin x (gstep p s i) /\ adds (upd_ok p x i) s (gstep p s i)) \/ ends s (gstep p s i).
Proof.
  intros L P. pose proof (pn_st _ _ P) as S. pose proof (pn_g _ _ P) as G.
  destruct i as [f h t|t|t|m t|c].
  - cbn [gstep]. assert (H1 : (pin x (ghandle s f t) /\ out (ghandle s f t) = out s) \/ (ends s (ghandle s f t) /\ fc (ghandle s f t) = 0%nat)).
    { unfold ghandle. destruct (Nat.eqb (count f) (fc s)); [left; split; [eapply pin_same; [exact P|..]; reflexivity | reflexivity]|]. destruct (Nat.eqb (count f) 0) eqn:Z.
      - apply Nat.eqb_eq in Z. right. split; [|reflexivity]. destruct (gend_ends s t false S G) as (N & o & O & X). split; [first [exact N | apply gend_started]|]. exists o. auto.
      - rewrite S. cbn [negb]. destruct (Nat.eqb (count f) (pend s)); left; (split; [eapply pin_same; [exact P|..]; reflexivity | reflexivity]). }
    destruct H1 as [[P1 O1]|[E F0]].
    + set (s1 := ghandle s f t) in *. clearbody s1. pose proof (pn_st _ _ P1) as S1. pose proof (pn_g _ _ P1) as G1.
      destruct h as [| | |one]; try (left; split; [exact P1 | apply adds_refl; exact O1]).
      * right. destruct (gend_ends s1 t true S1 G1) as (N & o & O & X). split; [exact N|]. exists o. rewrite <- O1. auto.
      * unfold gpost. destruct (fc s1) eqn:F; [left; split; [exact P1 | apply adds_refl; exact O1]|]. destruct one; cbn [pend fc with_count].
        { right. assert (E : ends s (with_count (gend s1 t true) 1 0)) by (destruct (gend_ends s1 t true S1 G1) as (N & o & O & X); split; [exact N|]; exists o; rewrite <- O1; auto).
          destruct (moved f); [|exact E]. eapply ends_then; [exact E | unfold post_motion; destruct (_ && _); apply E | apply post_motion_adds]. }
        destruct (pend s1); [|left; split; [exact P1 | apply adds_refl; exact O1]]. rewrite F.
        assert (PG : pin x (post_gesture p s1 f t) /\ adds (upd_ok p x (GFrame f (GGo false) t)) s (post_gesture p s1 f t)).
        { rewrite (pin_chain p x s1 f t P1). destruct (pin_pinch p x s1 f (GGo false) t L P1) as [X Y]. split; [exact X | eapply adds_trans; [apply adds_refl; exact O1 | exact Y]]. }
        destruct n as [|[|[|[|n]]]]; auto; [|left; split; [exact P1 | apply adds_refl; exact O1]].
        left. destruct (moved f); [|split; [exact P1 | apply adds_refl; exact O1]]. unfold post_motion. destruct (_ && _); [split; [exact P1 | apply adds_refl; exact O1]|]. split.
        -- eapply pin_same; [exact P1|..]; try reflexivity. cbn [out with_out]. apply summed_quiet. repeat constructor.
        -- eapply adds_trans; [apply adds_refl; exact O1|]. eexists. split; [reflexivity|]. repeat constructor.
    + right. set (s1 := ghandle s f t) in *. clearbody s1. destruct h as [| | |one]; try exact E.
      * eapply ends_then; [exact E | apply gend_started | apply gend_adds].
      * unfold gpost. rewrite F0. exact E.
  - cbn [gstep]. destruct (tmr s); [|left; split; [exact P | apply adds_refl; reflexivity]]. destruct (_ <=? _); [|left; split; [exact P | apply adds_refl; reflexivity]]. cbn. destruct (pend s).
    + left. split; [eapply pin_same; [exact P|..]; reflexivity | apply adds_refl; reflexivity].
    + right. destruct (gend_ends (with_tmr s None) t true S G) as (N & o & O & X). split; [first [exact N | apply gend_started]|]. exists o. auto.
  - right. apply gend_ends; assumption.
  - left. cbn [gstep]. destruct (Es_Model.smethod_eqb _ _); [split; [exact P | apply adds_refl; reflexivity]|]. unfold stop_2fg. destruct (meth s); try (split; [eapply pin_same; [exact P|..]; reflexivity | apply adds_refl; reflexivity]).
    destruct (stop_scroll (sc s) t) as [c o]. split; [|exists (map TAxis o); split; [reflexivity | apply Forall_map; rewrite Forall_forall; intros; exact I]].
    eapply pin_same; [exact P|..]; try reflexivity. cbn [out with_out with_sc with_meth]. apply summed_quiet. apply Forall_map; rewrite Forall_forall; intros; exact I.
  - left. split; [eapply pin_same; [exact P|..]; reflexivity | apply adds_refl; reflexivity].
Qed.
(** The input with which a pinch begins *)
Definition no_begin (e : gout) : Prop := match e with TBegin Pinch _ _ => False | _ => True end.
Lemma quiet_begin s s' : adds quiet s s' -> adds no_begin s s'.
Proof. apply adds_weaken. intros e; destruct e as [[|]| | | | |]; cbn; tauto. Qed.
Lemma chain_pinch p s f t : exists s3 o, started s3 = started s /\ out s3 = out s ++ o /\ Forall (fun e => match e with TThumb _ => True | _ => False end) o /\
  ((gst s3 = G_PINCH /\ post_gesture p s f t = st_pinch p s3 f t) \/ (gst (post_gesture p s f t) <> G_PINCH /\ adds quiet s3 (post_gesture p s f t))) /\
  (gst s = G_SCROLL \/ gst s = G_SWIPE -> gst (post_gesture p s f t) = gst s).
Proof.
  rewrite post_gesture_chain. cbn zeta. set (s1 := match gst s with G_NONE => _ | _ => _ end).
  assert (H1 : out s1 = out s /\ started s1 = started s).
  { subst s1. destruct (gst s); auto. destruct (st_none_same p s f t) as (A1 & _). split; [exact A1|]. unfold st_none. destruct (active_touches f) as [|a [|b [|c r]]]; auto; destruct (enabled p); auto. destruct (top_bottom _ _ _ _) as [x y]. destruct (Nat.eqb x y); auto. }
  assert (K1 : gst s = G_SCROLL \/ gst s = G_SWIPE -> s1 = s) by (subst s1; intros [-> | ->]; reflexivity).
  destruct H1 as [O1 S1]. clearbody s1. set (s2 := match gst s1 with G_UNKNOWN => _ | _ => _ end).
  assert (H2 : (exists o, out s2 = out s1 ++ o /\ Forall (fun e => match e with TThumb _ => True | _ => False end) o) /\ started s2 = started s1).
  { subst s2. destruct (gst s1); try (split; [exists []; rewrite app_nil_r; auto | reflexivity]). split; [destruct (detect_adds p s1 f t) as (o & O & F); eauto|].
    unfold detect. destruct (_ && _ && _); [reflexivity|]. destruct (_ && _); [reflexivity|]. destruct (if _ <? _ then _ else _) as [[thumb tm] fm].
    destruct (_ && _); [destruct (Nat.eqb _ _); reflexivity|]. destruct (_ && _ && _); [reflexivity|]. destruct (_ && _ && _); [reflexivity|]. destruct (_ && _ && _ && _ && _); [reflexivity|]. destruct (_ || _); [reflexivity|].
    destruct (_ && _); [reflexivity|]. destruct (_ && _); reflexivity. }
  assert (K2 : gst s = G_SCROLL \/ gst s = G_SWIPE -> s2 = s) by (intros K; subst s2; rewrite (K1 K); destruct K as [E|E]; rewrite E; reflexivity).
  destruct H2 as [(o & O2 & F2) S2]. clearbody s2. exists s2, o. split; [congruence|]. split; [congruence|]. split; [exact F2|]. split.
  2:{ intros K. rewrite (K2 K). destruct K as [K|K]; rewrite K; [rewrite scroll_gst | rewrite swipe_gst]; exact K. }
  destruct (gst s2) eqn:G.
  - right. split; [congruence | apply adds_refl; reflexivity].
  - right. split; [congruence | apply adds_refl; reflexivity].
  - right. split; [rewrite scroll_gst, G; discriminate|]. unfold st_scroll. destruct (meth s2); try (apply adds_refl; reflexivity). destruct (zero2 _); [apply adds_refl; reflexivity|]. destruct (constrain _ _ _ _ _) as [l d]. destruct (post_scroll _ _ _ _) as [c o2].
    exists (map TAxis o2). split; [|apply Forall_map; rewrite Forall_forall; intros; exact I]. cbn. f_equal. unfold gstart. destruct (started s2); [reflexivity|]. rewrite G. reflexivity.
  - left. auto.
  - right. split; [rewrite swipe_gst, G; discriminate|]. unfold st_swipe. destruct (_ && _); [apply adds_refl; reflexivity|]. eapply adds_trans with (s1 := gstart s2 t); [|eexists; split; [reflexivity | repeat constructor]].
    unfold gstart. destruct (started s2); [apply adds_refl; reflexivity|]. rewrite G. eexists. split; [reflexivity | repeat constructor].
Qed.
Lemma pinch_started p s f t : gst s = G_PINCH -> gst (st_pinch p s f t) = G_PINCH /\ (started s = true -> adds no_begin s (st_pinch p s f t)) /\ (started (st_pinch p s f t) = false -> adds no_begin s (st_pinch p s f t)).
Proof.
  intros G. unfold st_pinch. destruct (_ && _); [split; [exact G | split; intros; apply adds_refl; reflexivity]|]. unfold gstart. destruct (started s) eqn:S.
  - split; [exact G|]. split; [|cbn; congruence]. intros _. eexists. split; [reflexivity | repeat constructor].
  - rewrite G. split; [exact G|]. split; [discriminate | cbn; discriminate].
Qed.
Lemma ghandle_started s f t : started (ghandle s f t) = started s \/ (started (ghandle s f t) = false /\ fc (ghandle s f t) = 0%nat).
Proof.
  unfold ghandle. destruct (Nat.eqb (count f) (fc s)); [auto|]. destruct (Nat.eqb (count f) 0) eqn:Z; [right; cbn; rewrite gend_started; auto|]. destruct (started s) eqn:S; cbn; [|auto]. destruct (Nat.eqb (count f) (pend s)); auto.
Qed.
Lemma ghandle_quiet s f t : adds quiet s (ghandle s f t).
Proof.
  unfold ghandle. destruct (Nat.eqb (count f) (fc s)); [apply adds_refl; reflexivity|]. destruct (Nat.eqb (count f) 0); [|destruct (negb _); [apply adds_refl; reflexivity|]; destruct (Nat.eqb _ _); apply adds_refl; reflexivity].
  destruct (gend_adds s t false) as (o & O & F). exists o. split; [exact O|]. eapply Forall_impl; [|exact F]. intros e; destruct e; cbn; tauto.
Qed.
Lemma adds_dec (P : gout -> Prop) p m l i e : ~ P e -> In e (events p m l i) -> ~ adds P (after p m l) (gstep p (after p m l) i).
Proof. intros N I A. exact (N (events_adds _ _ _ _ _ _ A I)). Qed.
Lemma frame_begin p s f h t : let s1 := ghandle s f t in (h = GGo false /\ pend s1 = 0%nat /\ (2 <= fc s1 <= 4)%nat /\ gstep p s (GFrame f h t) = post_gesture p s1 f t) \/ adds quiet s (gstep p s (GFrame f h t)).
Proof.
  cbn zeta. cbn [gstep]. pose proof (ghandle_quiet s f t) as A. set (s1 := ghandle s f t) in *. clearbody s1.
  assert (E : forall c, adds quiet s1 (gend s1 t c)) by (intros c; eapply adds_weaken; [|apply gend_adds]; intros e; destruct e; cbn; tauto).
  assert (M : forall s2, adds quiet s2 (post_motion p s2 f t)) by (intros s2; eapply adds_weaken; [|apply post_motion_adds]; intros e; destruct e; cbn; tauto).
  destruct h as [| | |one]; auto; [right; eapply adds_trans; eauto|].
  unfold gpost. destruct (fc s1) eqn:F; [auto|]. destruct one; cbn [pend fc with_count].
  - right. assert (A2 : adds quiet s (with_count (gend s1 t true) 1 0)) by (eapply adds_trans; [exact A|]; destruct (E true) as (o & O & G); exists o; auto). destruct (moved f); [|exact A2]. eapply adds_trans; eauto.
  - destruct (pend s1) eqn:P; [|auto]. rewrite F. destruct n as [|[|[|[|n]]]]; try (left; repeat split; auto; lia); [|auto]. right. destruct (moved f); [|exact A]. eapply adds_trans; eauto.
Qed.
Lemma begins_state p m l i n t : In (TBegin Pinch n t) (events p m l i) ->
  started (after p m l) = false /\ gst (after p m (l ++ [i])) = G_PINCH /\ started (after p m (l ++ [i])) = true.
Proof.
  intros H. rewrite after_app. pose proof (adds_dec no_begin p m l i (TBegin Pinch n t) (fun x => x) H) as N.
  destruct i as [f h t'|t'|t'|m' t'|c]; try (pose proof (other_inputs p m l _ _ H ltac:(discriminate)) as []).
  set (s := after p m l) in *. clearbody s.
  destruct (frame_begin p s f h t') as [(-> & Z & FC & E)|K]; [|apply quiet_begin in K; contradiction].
  rewrite E in *. destruct (chain_pinch p (ghandle s f t') f t') as (s3 & o & S3 & O3 & F3 & C & _).
  assert (A3 : adds no_begin s s3). { eapply adds_trans; [apply quiet_begin, ghandle_quiet|]. exists o. split; [exact O3|]. eapply Forall_impl; [|exact F3]. intros e; destruct e; cbn; tauto. }
  destruct C as [[G C]|[G C]]; [|apply quiet_begin in C; exfalso; apply N; eapply adds_trans; eassumption]. rewrite C in *. destruct (pinch_started p s3 f t' G) as (G' & B1 & B2). split; [|split; [exact G'|]].
  - destruct (started s) eqn:S; [|reflexivity]. exfalso. apply N. eapply adds_trans; [exact A3 | apply B1]. destruct (ghandle_started s f t') as [S1|[_ Z1]]; [congruence | lia].
  - destruct (started (st_pinch p s3 f t')) eqn:S; [reflexivity|]. exfalso. apply N. eapply adds_trans; [exact A3 | auto].
Qed.
(** From a state without a running pinch to one with it *)
Lemma pinch_starts p s i kx : inv false s -> (gst s = G_PINCH -> started s = false) -> gst (gstep p s i) = G_PINCH -> started (gstep p s i) = true ->
  exists x, gk x = kx /\ (lin x i -> pin x (gstep p s i)) /\ adds (upd_ok p x i) s (gstep p s i).
Proof.
  intros IN N G S. assert (OT : (forall f h t, i <> GFrame f h t) -> False).
  { intros O. destruct (other_gst p s i O) as [K|(K1 & _ & _ & K2)]; [rewrite K in G; discriminate G | rewrite K1 in G; rewrite K2, (N G) in S; discriminate S]. }
  destruct i as [f h t|t|t|m t|b]; try (exfalso; apply OT; intros; discriminate).
  destruct (ghandle_gst s f t) as (G1 & D1 & P1). assert (N1 : gst (ghandle s f t) = G_PINCH -> started (ghandle s f t) = false).
  { intros X. destruct G1 as [G1|G1]; [|congruence]. destruct (ghandle_started s f t) as [K|[K _]]; [rewrite K; apply N; congruence | exact K]. }
  assert (A1 : forall x, adds (upd_ok p x (GFrame f h t)) s (ghandle s f t)).
  { intros x. unfold ghandle. destruct (Nat.eqb (count f) (fc s)); [apply adds_refl; reflexivity|]. destruct (Nat.eqb (count f) 0); [|destruct (negb _); [apply adds_refl; reflexivity|]; destruct (Nat.eqb _ _); apply adds_refl; reflexivity].
    destruct (gend_adds s t false) as (o & O & F). exists o. split; [exact O|]. eapply Forall_impl; [|exact F]. intros e; destruct e; cbn; tauto. }
  pose proof (inv_ghandle false s f t IN) as IN1.
  destruct (frame_cases p s f h t) as [(-> & Z & FC & E)|[K|(K1 & _ & _ & K2 & _)]].
  - rewrite E in *. destruct (chain_pinch p (ghandle s f t) f t) as (s3 & o & S3 & O3 & F3 & C & K). destruct C as [[G3 C]|[C _]]; [|contradiction]. rewrite C in *.
    assert (S3' : started s3 = false).
    { rewrite S3. destruct (started (ghandle s f t)) eqn:X; [|reflexivity]. destruct (in_sees _ _ IN1) as (y & _ & FT). unfold fits in FT. rewrite X in FT. destruct (gst (ghandle s f t)); try contradiction; try (rewrite K in G by auto; discriminate G). specialize (N1 eq_refl). congruence. }
    destruct (pin_begins p s3 f (GGo false) t kx G3 S3' S) as (x & X1 & X2 & X3). exists x. split; [exact X1|]. split; [exact X2|]. eapply adds_trans; [apply A1|]. eapply adds_trans; [|exact X3]. exists o. split; [exact O3|]. eapply Forall_impl; [|exact F3]. intros e; destruct e; cbn; tauto.
  - rewrite K in G; discriminate G.
  - rewrite K1 in G. rewrite K2, (N1 G) in S. discriminate S.
Qed.
Lemma pin_windows p m x : forall w l, pin x (after p m l) -> no_end p m l w -> Forall (lin x) w ->
  forall w1 y w2, w = w1 ++ y :: w2 -> pin x (after p m (l ++ w1 ++ [y])) /\ Forall (upd_ok p x y) (events p m (l ++ w1) y).
Proof.
  induction w as [|i w IH]; intros l P NE L w1 y w2 E; [destruct w1; discriminate E|]. inversion L as [|? ? L1 L2]; subst.
  assert (ST : pin x (after p m (l ++ [i])) /\ Forall (upd_ok p x i) (events p m l i)).
  { destruct (pin_step p x (after p m l) i L1 P) as [[A B]|(_ & o & O & k & n & t & c & z & I)].
    - split; [rewrite after_app; exact A|]. rewrite Forall_forall. intros e. apply (events_adds _ _ _ _ _ _ B).
    - exfalso. apply (NE [] i w eq_refl k n t c z). rewrite app_nil_r, (events_out p m l i o O). exact I. }
  destruct w1 as [|i' w1]; cbn in E; inversion E; subst.
  - rewrite app_nil_r. exact ST.
  - destruct (IH (l ++ [i']) (proj1 ST)) with (w1 := w1) (y := y) (w2 := w2) as [A B]; auto.
    + intros v1 j v2 F k n t c z. specialize (NE (i' :: v1) j v2). rewrite <- app_assoc. apply NE. cbn. congruence.
    + rewrite <- !app_assoc in A, B. auto.
Qed.
Lemma pinch_window p m kx l i n t : In (TBegin Pinch n t) (events p m l i) -> exists x, gk x = kx /\ forall w, no_end p m (l ++ [i]) w -> Forall (lin x) (i :: w) ->
  forall w1 y w2, i :: w = w1 ++ y :: w2 -> pin x (after p m (l ++ w1 ++ [y])) /\ Forall (upd_ok p x y) (events p m (l ++ w1) y).
Proof.
  intros H. destruct (begins_state p m l i n t H) as (S & G' & S'). rewrite after_app in G', S'.
  destruct (pinch_starts p (after p m l) i kx (inv_run false p m l ltac:(discriminate)) (fun _ => S) G' S') as (x & X1 & X2 & X3). exists x. split; [exact X1|].
  intros w NE L w1 y w2 E. inversion L as [|? ? L1 L2]; subst.
  destruct w1 as [|i' w1]; cbn in E; inversion E; subst.
  - rewrite app_nil_r. cbn [app]. split; [rewrite after_app; auto|]. rewrite Forall_forall. intros e. apply (events_adds _ _ _ _ _ _ X3).
  - destruct (pin_windows p m x (w1 ++ y :: w2) (l ++ [i'])) with (w1 := w1) (y := y) (w2 := w2) as [A B]; auto; [rewrite after_app; auto|]. rewrite <- !app_assoc in A, B. auto.
Qed.
(** A pinch that has begun is under way *)
Lemma pin_run p m : forall l, gst (after p m l) = G_PINCH -> started (after p m l) = true -> exists x, gk x = None /\ pin x (after p m l).
Proof.
  induction l as [|i l IH] using rev_ind; [discriminate|]. rewrite after_app. intros G S.
  assert (NN : forall x, gk x = None -> lin x i) by (intros x X k K; congruence).
  destruct (started (after p m l)) eqn:S0; [destruct (gst (after p m l)) eqn:G0|].
  4:{ destruct (IH eq_refl eq_refl) as (x & X & P). destruct (pin_step p x (after p m l) i (NN x X) P) as [[A _]|[A _]]; [eauto | congruence]. }
  all: destruct (pinch_starts p (after p m l) i None (inv_run false p m l ltac:(discriminate)) ltac:(congruence) G S) as (x & X1 & X2 & _); exists x; auto.
Qed.
Lemma end_scale p m l i n t c z : In (TEnd Pinch n t c z) (events p m l i) -> last_scale (out (after p m l)) = Some z.
Proof.
  intros H. assert (G : gst (after p m l) = G_PINCH /\ started (after p m l) = true /\ z = psc (pn (after p m l))).
  { set (s := after p m l) in *.
    assert (A : adds (fun e => match e with TEnd Pinch _ _ _ z => gst s = G_PINCH /\ started s = true /\ z = psc (pn s) | _ => True end) s (gstep p s i)); [|exact (events_adds _ _ _ _ _ _ A H)].
    clearbody s. assert (GE : forall s' t c, (gst s' = gst s \/ gst s' = G_NONE) -> (started s' = started s \/ started s' = false) -> pn s' = pn s -> adds (fun e => match e with TEnd Pinch _ _ _ z => gst s = G_PINCH /\ started s = true /\ z = psc (pn s) | _ => True end) s' (gend s' t c)).
    { intros s' t' c' A B C. eapply adds_weaken; [|apply gend_adds]. intros e; destruct e as [k n' t''|k n' t'' d u z' a|k n' t'' c'' z'|[t'' v x]|t'' d|j]; cbn; try tauto. destruct k; [tauto|]. intros (_ & _ & _ & X & Y & W). rewrite <- C. destruct A, B; split; try congruence; split; congruence. }
    destruct i as [f h t'|t'|t'|m' t'|b].
    - cbn [gstep]. assert (A1 : adds (fun e => match e with TEnd Pinch _ _ _ z => gst s = G_PINCH /\ started s = true /\ z = psc (pn s) | _ => True end) s (ghandle s f t')).
      { unfold ghandle. destruct (Nat.eqb (count f) (fc s)); [apply adds_refl; reflexivity|]. destruct (Nat.eqb (count f) 0); [|destruct (negb _); [apply adds_refl; reflexivity|]; destruct (Nat.eqb _ _); apply adds_refl; reflexivity].
        destruct (GE s t' false) as (o & O & F); auto. exists o. auto. }
      destruct (ghandle_gst s f t') as (G1 & _ & P1). destruct (ghandle_started s f t') as [S1|[S1 _]].
      all: assert (GE1 : forall c, adds (fun e => match e with TEnd Pinch _ _ _ z => gst s = G_PINCH /\ started s = true /\ z = psc (pn s) | _ => True end) (ghandle s f t') (gend (ghandle s f t') t' c)) by (intros c'; apply GE; auto).
      all: set (s1 := ghandle s f t') in *; clearbody s1; eapply adds_trans; [exact A1|]; destruct h as [| | |one]; try (apply adds_refl; reflexivity); [apply GE1|].
      all: unfold gpost; destruct (fc s1) eqn:F; [apply adds_refl; reflexivity|]; destruct one; cbn [pend fc with_count].
      all: assert (PM : forall s2, adds (fun e => match e with TEnd Pinch _ _ _ z => gst s = G_PINCH /\ started s = true /\ z = psc (pn s) | _ => True end) s2 (post_motion p s2 f t')) by (intros s2; eapply adds_weaken; [|apply post_motion_adds]; intros e; destruct e; cbn; tauto).
      1,3: assert (A2 : adds (fun e => match e with TEnd Pinch _ _ _ z => gst s = G_PINCH /\ started s = true /\ z = psc (pn s) | _ => True end) s1 (with_count (gend s1 t' true) 1 0)) by (destruct (GE1 true) as (o & O & K); exists o; auto); destruct (moved f); [eapply adds_trans; [exact A2 | apply PM] | exact A2].
      all: destruct (pend s1); [|apply adds_refl; reflexivity]; rewrite F.
      all: assert (PG : adds (fun e => match e with TEnd Pinch _ _ _ z => gst s = G_PINCH /\ started s = true /\ z = psc (pn s) | _ => True end) s1 (post_gesture p s1 f t')) by (eapply adds_weaken; [|apply post_gesture_adds]; intros e; destruct e; cbn; tauto).
      all: destruct n0 as [|[|[|[|n0]]]]; auto; [|apply adds_refl; reflexivity]; destruct (moved f); [apply PM | apply adds_refl; reflexivity].
    - cbn. destruct (tmr s); [|apply adds_refl; reflexivity]. destruct (_ <=? _); [|apply adds_refl; reflexivity]. cbn. destruct (pend s); [apply adds_refl; reflexivity|]. destruct (GE (with_tmr s None) t' true) as (o & O & F); auto. exists o. auto.
    - apply GE; auto.
    - cbn. destruct (Es_Model.smethod_eqb _ _); [apply adds_refl; reflexivity|]. destruct (stop_2fg_adds s t') as (o & O & F). exists o. split; [exact O|]. eapply Forall_impl; [|exact F]. intros e; destruct e; cbn; tauto.
    - apply adds_refl; reflexivity. }
  destruct G as (G & S & Z). destruct (pin_run p m l G S) as (x & _ & P). destruct (pn_sums _ _ P) as (_ & L & _). cbn in L. congruence.
Qed.
(** The angle of an update *)
Lemma angle_range p m : forall l, Forall angles_in_range l -> (-180 <= pang (pn (after p m l)) <= 180)%Q.
Proof.
  assert (DP : forall p s f t, pang (pn (detect p s f t)) = pang (pn s) \/ pang (pn (detect p s f t)) = ang f).
  { intros p0 s f t. unfold detect. destruct (_ && _ && _); [auto|]. destruct (_ && _); [auto|]. destruct (if _ <? _ then _ else _) as [[thumb tm] fm].
    destruct (_ && _); [destruct (Nat.eqb _ _); auto|]. destruct (_ && _ && _); [auto|]. destruct (_ && _ && _); [auto|]. destruct (_ && _ && _ && _ && _); [auto|]. destruct (_ || _); [auto|].
    destruct (_ && _); [auto|]. destruct (_ && _); auto. }
  assert (CP : forall s f t, pang (pn (post_gesture p s f t)) = pang (pn s) \/ pang (pn (post_gesture p s f t)) = ang f).
  { intros s f t. rewrite post_gesture_chain. cbn zeta. set (s1 := match gst s with G_NONE => _ | _ => _ end).
    assert (H1 : pn s1 = pn s) by (subst s1; destruct (gst s); auto; apply st_none_same). clearbody s1. set (s2 := match gst s1 with G_UNKNOWN => _ | _ => _ end).
    assert (H2 : pang (pn s2) = pang (pn s) \/ pang (pn s2) = ang f) by (subst s2; rewrite <- H1; destruct (gst s1); auto). clearbody s2.
    destruct (gst s2) eqn:G; auto.
    - replace (pn (st_scroll p s2 f t)) with (pn s2); [exact H2|]. unfold st_scroll. destruct (meth s2); auto. destruct (zero2 _); auto. destruct (constrain _ _ _ _ _). destruct (post_scroll _ _ _ _). cbn. destruct (gstart_adds p s2 f t) as (_ & _ & _ & K). rewrite K. reflexivity.
    - right. unfold st_pinch. destruct (_ && _); reflexivity.
    - replace (pn (st_swipe p s2 f t)) with (pn s2); [exact H2|]. unfold st_swipe. destruct (_ && _); auto. cbn. destruct (gstart_adds p s2 f t) as (_ & _ & _ & K). rewrite K. reflexivity. }
  induction l as [|i l IH] using rev_ind; intros F; [cbn; lra|]. apply Forall_app in F as [F1 F2]. specialize (IH F1). inversion F2 as [|? ? R _]; subst. rewrite after_app. set (s := after p m l) in *. clearbody s.
  destruct i as [f h t|t|t|m' t|b]; cbn [gstep].
  - destruct (ghandle_gst s f t) as (_ & _ & P1). set (s1 := ghandle s f t) in *. clearbody s1. rewrite <- P1 in IH. destruct h as [| | |one]; auto; [rewrite (proj2 (gend_dt s1 t true)); exact IH|].
    unfold gpost. destruct (fc s1) eqn:FC; [auto|]. destruct one; cbn [pend fc with_count].
    + destruct (moved f); [unfold post_motion; destruct (_ && _)|]; cbn [pn with_out with_count]; rewrite (proj2 (gend_dt s1 t true)); exact IH.
    + destruct (pend s1); [|auto]. rewrite FC. cbn in R. pose proof (CP s1 f t) as C. destruct n as [|[|[|[|n]]]]; auto; try (destruct C as [C|C]; rewrite C; assumption). destruct (moved f); [unfold post_motion; destruct (_ && _)|]; exact IH.
  - destruct (tmr s); [|auto]. destruct (_ <=? _); [|auto]. cbn [pend with_tmr]. destruct (pend s); [exact IH|]. cbn [pn with_count]. rewrite (proj2 (gend_dt (with_tmr s None) t true)). exact IH.
  - rewrite (proj2 (gend_dt s t true)). exact IH.
  - destruct (Es_Model.smethod_eqb _ _); [auto|]. unfold stop_2fg. destruct (meth s); auto.
  - exact IH.
Qed.
