Require Import Coq.ZArith.ZArith Coq.QArith.QArith Coq.Lists.List Coq.Bool.Bool Coq.micromega.Lia.
Require Verif.Tp_Model.
Require Import Verif.Es_Model Verif.Es_Spec.
Import ListNotations.
Open Scope Z_scope.

(** ** One touch *)
Definition tstep (p : epad) (k : nat) (c : cfg) (e : et) (i : einput) : et * list (axis * Q) :=
  match i with
  | EFrame l h t => match nth_error l k with Some f => frame1 p c h t e f | None => (e, []) end
  | ETimer j t => if Nat.eqb j k then (timer1 p c e t, []) else (e, [])
  | EStop => stop e
  | ESetScroll m => if smethod_eqb m (method c) then (e, []) else stop e
  | ESetClick _ => (e, [])
  end.
Definition cstep (c : cfg) (i : einput) : cfg :=
  match i with ESetScroll m => {| method := m; btn_areas := btn_areas c |} | ESetClick b => {| method := method c; btn_areas := b |} | _ => c end.
Fixpoint trun (p : epad) (k : nat) (c : cfg) (e : et) (l : list einput) : et * list (axis * Q) :=
  match l with [] => (e, []) | i :: l => let '(e1, o1) := tstep p k c e i in let '(e2, o2) := trun p k (cstep c i) e1 l in (e2, o1 ++ o2) end.
Lemma from_app : forall k a b, from k (a ++ b) = from k a ++ from k b.
Proof. intros. unfold from. rewrite filter_app, map_app. reflexivity. Qed.
Lemma from_tag : forall k n o, from k (map (fun x => (n, fst x, snd x)) o) = if Nat.eqb n k then o else [].
Proof.
  intros k n o. unfold from. induction o as [|[a v] o IH]; cbn; [destruct (Nat.eqb n k); reflexivity|]. destruct (Nat.eqb n k); cbn; rewrite IH; reflexivity.
Qed.
Lemma from_each_lt : forall l n k, (k < n)%nat -> from k (snd (each n l)) = [].
Proof.
  induction l as [|[e o] l IH]; intros n k H; [reflexivity|]. cbn [each]. specialize (IH (S n) k). destruct (each (S n) l) as [es os]. cbn [snd] in *. rewrite from_app, from_tag, IH by lia.
  replace (Nat.eqb n k) with false by (symmetry; apply Nat.eqb_neq; lia). reflexivity.
Qed.
Lemma each_spec : forall l n k, nth_error (fst (each n l)) k = option_map fst (nth_error l k) /\ from (n + k) (snd (each n l)) = match nth_error l k with Some x => snd x | None => [] end.
Proof.
  induction l as [|[e o] l IH]; intros n k; [split; [destruct k|destruct k]; reflexivity|]. cbn [each]. specialize (IH (S n)). pose proof (from_each_lt l (S n) n (Nat.lt_succ_diag_r n)) as L. destruct (each (S n) l) as [es os]. cbn [fst snd] in *. rewrite from_app, from_tag.
  destruct k as [|k]; cbn.
  - rewrite Nat.add_0_r, Nat.eqb_refl, L, app_nil_r. split; reflexivity.
  - destruct (IH k) as [I1 I2]. replace (n + S k)%nat with (S n + k)%nat by lia. replace (Nat.eqb n (S n + k)) with false by (symmetry; apply Nat.eqb_neq; lia). split; [exact I1|exact I2].
Qed.
Lemma nth_frames : forall p c h t l fs k, nth_error (frames p c h t l fs) k = option_map (fun e => match nth_error fs k with Some f => frame1 p c h t e f | None => (e, []) end) (nth_error l k).
Proof.
  induction l as [|e l IH]; intros fs k; [destruct fs, k; reflexivity|]. destruct fs as [|f fs].
  - cbn [frames]. rewrite nth_error_map. destruct k; cbn; [reflexivity|]. destruct (nth_error l k); reflexivity.
  - destruct k; cbn; [reflexivity|apply IH].
Qed.
Lemma nth_timers : forall p c t l j k, nth_error (timers p c j t l) k = option_map (fun e => if Nat.eqb j k then (timer1 p c e t, []) else (e, [])) (nth_error l k).
Proof.
  induction l as [|e l IH]; intros j k; [destruct j, k; reflexivity|]. destruct j, k; cbn; try reflexivity; [|apply IH].
  rewrite nth_error_map. destruct (nth_error l k); reflexivity.
Qed.
Lemma step_touch : forall p s i k e, nth_error (tts s) k = Some e ->
  nth_error (tts (estep p s i)) k = Some (fst (tstep p k (conf s) e i)) /\ from k (eout (estep p s i)) = from k (eout s) ++ snd (tstep p k (conf s) e i) /\ conf (estep p s i) = cstep (conf s) i.
Proof.
  intros p s i k e H. assert (P : forall c l, nth_error (tts (put s c (each 0 l))) k = option_map fst (nth_error l k) /\ from k (eout (put s c (each 0 l))) = from k (eout s) ++ match nth_error l k with Some x => snd x | None => [] end).
  { intros c l. destruct (each_spec l 0 k) as [E1 E2]. cbn [put tts eout]. rewrite from_app. cbn in E2. rewrite E2. split; [exact E1|reflexivity]. }
  destruct i as [l h t|j t| |m|b]; cbn [estep tstep cstep].
  - destruct (P (conf s) (frames p (conf s) h t (tts s) l)) as [P1 P2]. rewrite P1, P2, nth_frames, H. cbn. destruct (nth_error l k); auto.
  - destruct (P (conf s) (timers p (conf s) j t (tts s))) as [P1 P2]. rewrite P1, P2, nth_timers, H. cbn. destruct (Nat.eqb j k); auto.
  - destruct (P (conf s) (map stop (tts s))) as [P1 P2]. rewrite P1, P2, nth_error_map, H. cbn. auto.
  - destruct (smethod_eqb m (method (conf s))) eqn:E.
    + cbn. rewrite app_nil_r. split; [exact H|]. split; [reflexivity|]. destruct (conf s) as [m0 b]; cbn in *. destruct m, m0; try discriminate E; reflexivity.
    + destruct (P {| method := m; btn_areas := btn_areas (conf s) |} (map stop (tts s))) as [P1 P2]. rewrite P1, P2, nth_error_map, H. cbn. auto.
  - cbn. rewrite app_nil_r. auto.
Qed.
Lemma run_touch : forall p k l s e, nth_error (tts s) k = Some e ->
  nth_error (tts (erun p s l)) k = Some (fst (trun p k (conf s) e l)) /\ from k (eout (erun p s l)) = from k (eout s) ++ snd (trun p k (conf s) e l) /\ conf (erun p s l) = fold_left cstep l (conf s).
Proof.
  intros p k l. induction l as [|i l IH]; intros s e H; [cbn; rewrite app_nil_r; auto|]. destruct (step_touch p s i k e H) as (S1 & S2 & S3). cbn [erun fold_left trun]. destruct (tstep p k (conf s) e i) as [e1 o1]. cbn [fst snd] in *.
  destruct (IH (estep p s i) e1 S1) as (I1 & I2 & I3). rewrite S3 in *. destruct (trun p k (cstep (conf s) i) e1 l) as [e2 o2]. cbn [fst snd] in *. split; [exact I1|]. split; [|exact I3]. etransitivity; [exact I2|]. rewrite S2, app_assoc. reflexivity.
Qed.
Lemma init_touch : forall c n k, (k < n)%nat -> nth_error (tts (einit c n)) k = Some et0.
Proof. intros c n k H. cbn. apply nth_error_repeat. exact H. Qed.

(** ** Sequences *)
Definition only_edge (a : axis) (e : et) : Prop := match a with VERTICAL => er e = true /\ eb e = false | HORIZONTAL => er e = false /\ eb e = true end.
(** between frames: [ph]: the touch's phase *)
Definition J (c : cfg) (ph : option bool) (e : et) : Prop :=
  (ph = None -> est e = E_NONE \/ est e = E_AREA) /\ (est e = E_NONE \/ est e = E_AREA -> er e = false /\ eb e = false) /\ (forall b, ph = Some b -> est e <> E_NONE) /\
  (edge_on c = false -> est e = E_NONE \/ est e = E_AREA) /\
  match dir e with
  | None => True
  | Some a => only_edge a e /\ ph = Some false /\ est e = E_EDGE
  end.
Lemma open_app : forall a b d, open_after d (a ++ b) = match open_after d a with Some x => open_after x b | None => None end.
Proof.
  induction a as [|[x v] a IH]; intros b d; [reflexivity|]. cbn [app open_after]. destruct d as [y|], (Qeq_bool v 0); try reflexivity; try apply IH; destruct x, y; try reflexivity; apply IH.
Qed.
Lemma stop_spec : forall e, dir (fst (stop e)) = None /\ forall d, dir e = d -> open_after d (snd (stop e)) = Some None.
Proof. intros e. unfold stop. destruct (dir e) as [[]|] eqn:D; cbn; (split; [try reflexivity; exact D|]); intros d <-; reflexivity. Qed.
Lemma handle_dir : forall p c e v x y t, dir (handle p c e v x y t) = dir e.
Proof. intros. unfold handle, narrow. destruct (est e), v; try reflexivity; repeat match goal with |- context[if ?b then _ else _] => destruct b end; reflexivity. Qed.
Lemma handle_state_dir : forall p c e f t, dir (handle_state p c e f t) = dir e.
Proof. intros. unfold handle_state. destruct (edge_on c); [destruct (dirty f); [|reflexivity]|]; destruct (st f); try reflexivity; apply handle_dir. Qed.
(** After handle_state: the state fits the touch's phase; an open sequence goes on or the touch has just ended *)
Definition K (c : cfg) (f : eft) (e : et) : Prop :=
  (phase f = None -> est e = E_NONE \/ est e = E_AREA) /\ (est e = E_NONE \/ est e = E_AREA -> er e = false /\ eb e = false) /\ (forall b, phase f = Some b -> est e <> E_NONE) /\
  (edge_on c = false -> est e = E_NONE \/ est e = E_AREA) /\
  match dir e with
  | None => True
  | Some a => bad f = false /\ ((only_edge a e /\ phase f = Some false /\ est e = E_EDGE) \/ (phase f = None /\ dirty f = true))
  end.
Lemma narrow_spec : forall p c e x y, (est (narrow p c e x y) = est e /\ er (narrow p c e x y) || eb (narrow p c e x y) = true) \/ narrow p c e x y = to_area e.
Proof. intros. unfold narrow. cbv zeta. destruct (er e && at_right p c x || eb e && at_bottom p c y) eqn:E; [left; cbn; auto|auto]. Qed.
Lemma K_intro : forall p c ph e f t, J c ph e -> follows ph f -> K c f (handle_state p c e f t).
Proof.
  intros p c ph e f t (J1 & J2 & J3 & J4 & J5) [_ F]. unfold K. rewrite handle_state_dir. unfold handle_state, phase in *.
  destruct (st f) eqn:S; try contradiction.
  - subst ph. destruct (edge_on c), (dirty f); (split; [auto|]; split; [auto|]; split; [discriminate|]; split; [auto|]; destruct (dir e); [destruct J5 as (_ & X & _); discriminate X|exact I]).
  - subst ph. destruct (edge_on c), (dirty f); (split; [auto|]; split; [auto|]; split; [discriminate|]; split; [auto|]; destruct (dir e); [destruct J5 as (_ & X & _); discriminate X|exact I]).
  - destruct F as [-> ->]. assert (D : dir e = None) by (destruct (dir e); [destruct J5 as (_ & X & _); discriminate X|reflexivity]). rewrite D. pose proof (J1 eq_refl) as EN. destruct (J2 EN) as [R B]. destruct (edge_on c) eqn:EO.
    + unfold handle. destruct EN as [EN|EN]; rewrite EN; [|split; [discriminate|]; split; [auto|]; split; [congruence|]; split; [discriminate|exact I]]. destruct (at_right p c (px f) || at_bottom p c (py f)); cbn; (split; [discriminate|]; split; [intros [X|X]; try discriminate X; auto|]; split; [intros b _; discriminate|]; split; [auto; discriminate|exact I]).
    + cbn. split; [discriminate|]. split; [auto|]. split; [intros; discriminate|]. auto.
  - subst ph. destruct (edge_on c) eqn:EO.
    + destruct (dirty f); [|split; [discriminate|]; split; [auto|]; split; [intros; eapply J3; reflexivity|]; split; [discriminate|]; destruct (dir e); [destruct J5 as (X & Y & Z); injection Y; intros Q; rewrite Q; auto|exact I]].
      pose proof (J3 _ eq_refl) as NN. split; [discriminate|].
      assert (X : let e' := handle p c e E_MOTION (px f) (py f) t in (est e' = E_NONE \/ est e' = E_AREA -> er e' = false /\ eb e' = false) /\ est e' <> E_NONE).
      { cbv zeta. unfold handle. destruct (est e) eqn:ES; try congruence.
        - destruct (narrow_spec p c e (px f) (py f)) as [[N1 N2]|N]; [rewrite N1, ES; split; [intros [Q|Q]; discriminate Q|discriminate]|rewrite N; split; [auto|discriminate]].
        - destruct (er e && eb e); [|rewrite ES; split; [intros [Q|Q]; discriminate Q|discriminate]]. destruct (narrow_spec p c e (px f) (py f)) as [[N1 N2]|N]; [rewrite N1, ES; split; [intros [Q|Q]; discriminate Q|discriminate]|rewrite N; split; [auto|discriminate]].
        - split; [intros _; apply J2; auto|congruence]. }
      destruct X as [X1 X2]. split; [exact X1|]. split; [auto|]. split; [discriminate|].
      destruct (dir e) as [a|]; [|exact I]. destruct J5 as (O & Y & Z). injection Y as Q. rewrite Q. split; [reflexivity|]. left. unfold handle. rewrite Z. destruct a; destruct O as [O1 O2]; rewrite O1, O2; cbn; auto.
    + split; [discriminate|]. split; [auto|]. split; [intros; eapply J3; reflexivity|]. split; [auto|]. destruct (dir e); [destruct J5 as (X & Y & Z); injection Y; intros Q; rewrite Q; auto|exact I].
  - destruct F as [-> DT]. rewrite DT. destruct (edge_on c) eqn:EO.
    + pose proof (J3 _ eq_refl) as NN. assert (X : handle p c e E_RELEASE (px f) (py f) t = to_none e) by (unfold handle; destruct (est e); congruence). rewrite X. cbn.
      split; [auto|]. split; [auto|]. split; [discriminate|]. split; [auto|]. destruct (dir e); [|exact I]. destruct J5 as (_ & Y & _). injection Y; intros Q; auto.
    + cbn. destruct (J4 eq_refl) as [A|A]; [exfalso; exact (J3 _ eq_refl A)|]. split; [auto|]. split; [intros _; apply J2; auto|]. split; [discriminate|]. split; [auto|]. destruct (dir e); [|exact I]. destruct J5 as (_ & Y & _). injection Y; intros Q; auto.
Qed.
(** Posting *)
Lemma posted_spec : forall p c x e y z t, let e' := handle p c (with_dir e x) E_POSTED y z t in
  er e' = er e /\ eb e' = eb e /\ dir e' = x /\ est e' = match est e with E_NEW => E_EDGE | s => s end.
Proof. intros. unfold e', handle. cbn. destruct (est e) eqn:Q; cbn; auto. Qed.
Lemma post_J : forall p c f e t, K c f e -> J c (phase f) (fst (post p c e f t)) /\ open_after (dir e) (snd (post p c e f t)) = Some (dir (fst (post p c e f t))).
Proof.
  intros p c f e t (K1 & K2 & K3 & K4 & K5). unfold post.
  destruct (negb (dirty f) || bad f) eqn:ND.
  { cbn. split; [|reflexivity]. split; [exact K1|]. split; [exact K2|]. split; [exact K3|]. split; [exact K4|]. destruct (dir e); [|exact I]. destruct K5 as (B & [X|[X Y]]); [exact X|]. rewrite Y, B in ND. discriminate ND. }
  apply orb_false_iff in ND. destruct ND as [ND NB]. apply negb_false_iff in ND.
  assert (S : (er e || eb e = true) -> (est e = E_NEW \/ est e = E_EDGE) /\ phase f = Some false /\ forall a, dir e = Some a -> only_edge a e).
  { intros X. assert (EN : est e = E_NEW \/ est e = E_EDGE) by (destruct (est e); auto; destruct K2 as [Q1 Q2]; auto; rewrite Q1, Q2 in X; discriminate X). split; [exact EN|].
    assert (PF : phase f = Some false) by (unfold phase in *; rewrite NB in *; destruct (st f); try reflexivity; destruct EN as [EN|EN], (K1 eq_refl) as [Q|Q]; congruence). split; [exact PF|].
    intros a D. rewrite D in K5. destruct K5 as (_ & [(O & _)|[Q _]]); [exact O|congruence]. }
  assert (KEEP : (er e || eb e = true) -> J c (phase f) e).
  { intros X. destruct (S X) as (EN & PF & OE). split; [exact K1|]. split; [exact K2|]. split; [exact K3|]. split; [exact K4|]. destruct (dir e) as [a|]; [|exact I]. destruct K5 as (_ & [Q|[Q _]]); [exact Q|congruence]. }
  destruct ((er e || eb e) && negb (er e && at_right p c (px f) || eb e && at_bottom p c (py f))) eqn:OUT.
  { cbn. apply andb_true_iff in OUT. split; [apply KEEP, OUT|reflexivity]. }
  assert (POST : forall a n, only_edge a e -> Qeq_bool n 0 = false -> let e' := handle p c (with_dir e (Some a)) E_POSTED (px f) (py f) t in J c (phase f) e' /\ open_after (dir e) [(a, n)] = Some (dir e')).
  { intros a n OE Z e'. assert (X : er e || eb e = true) by (destruct a; destruct OE as [-> ->]; reflexivity). destruct (S X) as (EN & PF & OD). destruct (posted_spec p c (Some a) e (px f) (py f) t) as (P1 & P2 & P3 & P4). fold e' in P1, P2, P3, P4.
    assert (EE : est e' = E_EDGE) by (rewrite P4; destruct EN as [-> | ->]; reflexivity). split.
    - unfold J. rewrite P3, EE. split; [intros Q; congruence|]. split; [intros [Q|Q]; discriminate Q|]. split; [intros; discriminate|]. split; [|unfold only_edge; rewrite P1, P2; auto].
      intros Q. destruct (K4 Q) as [Q1|Q1]; destruct EN as [EN|EN]; congruence.
    - rewrite P3. cbn. rewrite Z. destruct (dir e) as [b|]; [|reflexivity]. specialize (OD b eq_refl). destruct a, b; try reflexivity; destruct OD, OE; congruence. }
  destruct (er e) eqn:R, (eb e) eqn:B; cbv zeta.
  - cbn. split; [apply KEEP; reflexivity|reflexivity].
  - match goal with |- context[Qeq_bool ?v 0] => set (n := v) end. destruct (Qeq_bool n 0) eqn:Z; [cbn; split; [apply KEEP; reflexivity|reflexivity]|]. apply (POST VERTICAL n); [split; assumption|exact Z].
  - match goal with |- context[Qeq_bool ?v 0] => set (n := v) end. destruct (Qeq_bool n 0) eqn:Z; [cbn; split; [apply KEEP; reflexivity|reflexivity]|]. apply (POST HORIZONTAL n); [split; assumption|exact Z].
  - destruct (dir e) as [d|] eqn:D; cbn; rewrite ?D.
    + split; [|destruct d; reflexivity]. unfold J. cbn. rewrite R, B. auto.
    + split; [|reflexivity]. unfold J. rewrite D, R, B. auto.
Qed.
Lemma stop_K : forall c f e, K c f e -> J c (phase f) (fst (stop e)).
Proof.
  intros c f e (K1 & K2 & K3 & K4 & K5). unfold stop. destruct (dir e) as [a|] eqn:D; cbn.
  - unfold J. cbn. split; [auto|]. split; [auto|]. split; [intros; discriminate|]. auto.
  - unfold J. rewrite D. auto.
Qed.
Lemma J_K : forall c f e, J c (phase f) e -> (forall a, dir e = Some a -> bad f = false) -> K c f e.
Proof. intros c f e (J1 & J2 & J3 & J4 & J5) B. unfold K. split; [exact J1|]. split; [exact J2|]. split; [exact J3|]. split; [exact J4|]. destruct (dir e); [|exact I]. split; [eapply B; reflexivity|auto]. Qed.
Lemma frame1_J : forall p c h t ph e f, J c ph e -> follows ph f -> (h = Silent -> dir e = None) ->
  J c (phase f) (fst (frame1 p c h t e f)) /\ open_after (dir e) (snd (frame1 p c h t e f)) = Some (dir (fst (frame1 p c h t e f))).
Proof.
  intros p c h t ph e f HJ F HS. pose proof (K_intro p c ph e f t HJ F) as HK. unfold frame1. rewrite <- (handle_state_dir p c e f t) in HS |- *. set (e1 := handle_state p c e f t) in *. clearbody e1. cbv zeta. destruct h.
  - apply post_J, HK.
  - split; [apply stop_K, HK|]. destruct (stop_spec e1) as [-> S]. apply S. reflexivity.
  - pose proof (stop_K c f e1 HK) as JS. destruct (stop_spec e1) as [D S]. specialize (S _ eq_refl). destruct (stop e1) as [e2 o1]. cbn [fst snd] in *.
    assert (HK2 : K c f e2) by (apply J_K; [exact JS|intros a Q; congruence]). pose proof (post_J p c f e2 t HK2) as [P1 P2]. destruct (post p c e2 f t) as [e3 o2]. cbn [fst snd] in *. split; [exact P1|]. rewrite open_app, S, <- D. exact P2.
  - cbn. split; [|reflexivity]. destruct HK as (K1 & K2 & K3 & K4 & K5). unfold J. rewrite (HS eq_refl) in *. auto.
Qed.
Lemma timer1_J : forall p c t ph e, J c ph e -> J c ph (timer1 p c e t) /\ dir (timer1 p c e t) = dir e.
Proof.
  intros p c t ph e HJ. pose proof HJ as (J1 & J2 & J3 & J4 & J5). unfold timer1. destruct (tmr e); [|auto]. destruct (z <=? t); [|auto]. rewrite handle_dir. split; [|reflexivity]. unfold J, handle. cbn.
  destruct (est e) eqn:E; cbn; rewrite ?E; auto. split; [intros Q; destruct (J1 Q); discriminate|]. split; [intros [Q|Q]; discriminate Q|]. split; [intros; discriminate|]. split; [intros Q; destruct (J4 Q); discriminate|]. destruct (dir e); [|exact I]. destruct J5 as (_ & _ & Q). discriminate Q.
Qed.
Lemma stop_J : forall c c' ph e, J c ph e -> ph = None \/ edge_on c' = edge_on c -> J c' ph (fst (stop e)).
Proof.
  intros c c' ph e (J1 & J2 & J3 & J4 & J5) H. unfold stop. destruct (dir e) eqn:D; cbn; unfold J; cbn.
  - split; [auto|]. split; [auto|]. split; [intros; discriminate|]. auto.
  - rewrite D. split; [auto|]. split; [auto|]. split; [auto|]. split; [|exact I]. intros Q. destruct H as [-> | H]; [auto|]. rewrite H in Q. auto.
Qed.
(** One input, for the touch [k] *)
Definition lastsil (i : einput) (sil : bool) : bool := match i with EFrame _ h _ => match h with Silent => true | _ => false end | _ => sil end.
Definition JJ (c : cfg) (sil : bool) (ph : option bool) (e : et) : Prop := J c ph e /\ (sil = true -> dir e = None).
Definition tlegal (k : nat) (sil : bool) (ph : option bool) (i : einput) : Prop :=
  match i with
  | EFrame fs h _ => (exists f, nth_error fs k = Some f /\ follows ph f) /\ (h = Silent -> sil = true \/ ph = None)
  | ESetScroll _ => ph = None
  | _ => True
  end.
Definition tphase (k : nat) (ph : option bool) (i : einput) : option bool := match i with EFrame fs _ _ => match nth_error fs k with Some f => phase f | None => ph end | _ => ph end.
Lemma tstep_JJ : forall p k c sil ph e i, JJ c sil ph e -> tlegal k sil ph i ->
  JJ (cstep c i) (lastsil i sil) (tphase k ph i) (fst (tstep p k c e i)) /\ open_after (dir e) (snd (tstep p k c e i)) = Some (dir (fst (tstep p k c e i))).
Proof.
  intros p k c sil ph e i [HJ HS] L. destruct i as [fs h t|j t| |m|b]; cbn [tlegal tstep cstep lastsil tphase] in *.
  - destruct L as ((f & N & F) & S). rewrite N. assert (HD : h = Silent -> dir e = None).
    { intros Q. destruct (S Q) as [X| ->]; [auto|]. destruct HJ as (_ & _ & _ & _ & J5). destruct (dir e); [destruct J5 as (_ & X & _); discriminate X|reflexivity]. }
    destruct (frame1_J p c h t ph e f HJ F HD) as [F1 F2]. split; [|exact F2]. split; [exact F1|]. destruct h; try discriminate. intros _. unfold frame1. cbn. rewrite handle_state_dir. auto.
  - destruct (Nat.eqb j k); cbn; [|split; [split; [exact HJ|exact HS]|reflexivity]]. destruct (timer1_J p c t ph e HJ) as [T1 T2]. rewrite T2. split; [|reflexivity]. split; [exact T1|rewrite T2; exact HS].
  - destruct (stop_spec e) as [D S]. rewrite D, (S _ eq_refl). split; [|reflexivity]. split; [apply (stop_J c c); auto|auto].
  - subst ph. destruct (smethod_eqb m (method c)) eqn:E; cbn.
    + split; [|reflexivity]. split; [|exact HS]. assert (edge_on {| method := m; btn_areas := btn_areas c |} = edge_on c) by (unfold edge_on; cbn; destruct m, (method c); try discriminate E; reflexivity). destruct HJ as (J1 & J2 & J3 & J4 & J5). unfold J. rewrite H. auto.
    + destruct (stop_spec e) as [D S]. rewrite D, (S _ eq_refl). split; [|reflexivity]. split; [eapply stop_J; eauto|auto].
  - split; [|reflexivity]. split; [exact HJ|exact HS].
Qed.
Lemma tlegal_of : forall k l sil ph i p0, legal sil ph (i :: l) -> nth_error ph k = Some p0 -> tlegal k sil p0 i /\ exists ph', legal (lastsil i sil) ph' l /\ nth_error ph' k = Some (tphase k p0 i) /\ last_phases ph (i :: l) = last_phases ph' l.
Proof.
  intros k l sil ph i p0 L N. destruct i as [fs h t|j t| |m|b]; cbn in *; try (split; [exact I|]; exists ph; auto; fail).
  - destruct L as (F & S & L). assert (X : exists f, nth_error fs k = Some f /\ follows p0 f).
    { clear - F N. revert k N. induction F as [|a b ph fs A F IH]; intros [|k] N; cbn in *; try discriminate N; [injection N as ->; eauto|auto]. }
    split; [split; [exact X|intros Q; destruct (S Q) as [|A]; [auto|right; rewrite Forall_forall in A; apply A; eapply nth_error_In; eauto]]|].
    destruct X as (f & X & _). exists (map phase fs). rewrite X, nth_error_map, X. auto.
  - destruct L as [A L]. split; [rewrite Forall_forall in A; apply A; eapply nth_error_In; eauto|]. exists ph. auto.
Qed.
Lemma trun_JJ : forall p k l c sil ph p0 e, JJ c sil p0 e -> legal sil ph l -> nth_error ph k = Some p0 ->
  exists sil' p1, nth_error (last_phases ph l) k = Some p1 /\ JJ (fold_left cstep l c) sil' p1 (fst (trun p k c e l)) /\ open_after (dir e) (snd (trun p k c e l)) = Some (dir (fst (trun p k c e l))).
Proof.
  intros p k l. induction l as [|i l IH]; intros c sil ph p0 e HJ L N; [exists sil, p0; auto|].
  destruct (tlegal_of k l sil ph i p0 L N) as (TL & ph' & L' & N' & LP). destruct (tstep_JJ p k c sil p0 e i HJ TL) as [HJ' O].
  rewrite LP. cbn [trun fold_left]. destruct (tstep p k c e i) as [e1 o1]. cbn [fst snd] in *. destruct (IH _ _ _ _ _ HJ' L' N') as (sil' & p1 & A & B & C). destruct (trun p k (cstep c i) e1 l) as [e2 o2]. cbn [fst snd] in *. exists sil', p1. split; [exact A|]. split; [exact B|]. rewrite open_app, O. exact C.
Qed.
Lemma JJ0 : forall c, JJ c false None et0.
Proof. intros c. split; [|reflexivity]. unfold J. cbn. split; [auto|]. split; [auto|]. split; [discriminate|]. auto. Qed.
Theorem touch_invariant : forall p c n l k, (k < n)%nat -> legal false (repeat None n) l ->
  exists sil p1 e, nth_error (last_phases (repeat None n) l) k = Some p1 /\ nth_error (tts (erun p (einit c n) l)) k = Some e /\ JJ (conf (erun p (einit c n) l)) sil p1 e /\ open_after None (from k (eout (erun p (einit c n) l))) = Some (dir e).
Proof.
  intros p c n l k H L. destruct (run_touch p k l (einit c n) et0 (init_touch c n k H)) as (R1 & R2 & R3).
  destruct (trun_JJ p k l c false (repeat None n) None et0 (JJ0 c) L (nth_error_repeat _ H)) as (sil & p1 & A & B & C). exists sil, p1, (fst (trun p k c et0 l)). rewrite R3. split; [exact A|]. split; [exact R1|]. split; [exact B|]. rewrite R2. cbn. exact C.
Qed.
