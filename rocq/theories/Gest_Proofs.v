(** * Touchpad gestures: the stream of events *)
Require Import Coq.ZArith.ZArith Coq.QArith.QArith Coq.QArith.Qabs Coq.Lists.List Coq.Bool.Bool Coq.micromega.Lia Coq.micromega.Lqa.
Require Import Verif.Scroll_Model.
Require Verif.Es_Model.
Require Import Verif.Gest_Model Verif.Gest_Spec.
Import ListNotations.
Open Scope Z_scope.

Lemma sees_app b : forall o x o', sees b x (o ++ o') = match sees b x o with Some y => sees b y o' | None => None end.
Proof. induction o as [|e o IH]; intros x o'; cbn [app sees]; [reflexivity|]. destruct (sees1 b x e); [apply IH | reflexivity]. Qed.

(** The invariant: what the client has seen fits the state *)
Definition fits (strict : bool) (s : g) (x : doing) : Prop :=
  match started s, gst s, x with
  | false, _, Idle => True
  | true, G_PINCH, Doing Pinch n true => n = fc s
  | true, G_SWIPE, Doing Swipe n true => n = fc s
  | true, G_SCROLL, Scrolling => c_v (sc s) = true
  | true, G_SCROLL, Idle => strict = false
  | _, _, _ => False
  end.
Record inv (strict : bool) (s : g) : Prop := {
  in_fc : started s = true -> (2 <= fc s <= 4)%nat;
  in_thr : (c_thr (sc s) == 0)%Q;
  in_vh : c_h (sc s) = c_v (sc s);
  in_v : c_v (sc s) = true -> started s = true /\ gst s = G_SCROLL /\ meth s = Es_Model.M_2FG;
  in_sees : exists x, sees strict Idle (out s) = Some x /\ fits strict s x }.

Lemma inv_init b m : inv b (ginit m).
Proof. split; cbn; try discriminate; [reflexivity | reflexivity |]. exists Idle. split; [reflexivity | exact I]. Qed.

Lemma inv_pend b s n : inv b s -> inv b (with_pend s n).
Proof. intros [A B C D E]. split; cbn; auto. Qed.
Lemma inv_tmr b s x : inv b s -> inv b (with_tmr s x).
Proof. intros [A B C D E]. split; cbn; auto. Qed.
Lemma inv_dt b s x : inv b s -> inv b (with_dt s x).
Proof. intros [A B C D E]. split; cbn; auto. Qed.
Lemma inv_pn b s x : inv b s -> inv b (with_pn s x).
Proof. intros [A B C D E]. split; cbn; auto. Qed.
Lemma inv_sl b s x : inv b s -> inv b (with_sl s x).
Proof. intros [A B C D E]. split; cbn; auto. Qed.
Lemma inv_nat b s x : inv b s -> inv b (with_sc s (set_natural (sc s) x)).
Proof. intros [A B C D E]. split; cbn; auto. Qed.
(** A gesture that has not started may become any other *)
Lemma inv_gst b s x : started s = false -> inv b s -> inv b (with_gst s x).
Proof.
  intros N [A B C D [y [E F]]]. split; cbn; auto.
  - intros V. destruct (D V) as [S _]. congruence.
  - exists y. split; [exact E|]. unfold fits in *. cbn in *. rewrite N in *. exact F.
Qed.
Lemma inv_count b s n m : started s = false -> inv b s -> inv b (with_count s n m).
Proof.
  intros N [A B C D [y [E F]]]. split; cbn; auto.
  - rewrite N. discriminate.
  - exists y. split; [exact E|]. unfold fits in *. cbn in *. rewrite N in *. exact F.
Qed.
Lemma not_started_still b s : inv b s -> started s = false -> c_v (sc s) = false /\ sees b Idle (out s) = Some Idle.
Proof.
  intros [A B C D [x [E F]]] N. split.
  - destruct (c_v (sc s)) eqn:V; [|reflexivity]. destruct (D eq_refl). congruence.
  - unfold fits in F. rewrite N in F. destruct x; [exact E | contradiction | contradiction].
Qed.

(** ** Ending *)
Lemma stop_2fg_not b s t : inv b s -> meth s <> Es_Model.M_2FG -> c_v (sc s) = false /\ stop_2fg s t = s.
Proof.
  intros [A B C D E] N. split.
  - destruct (c_v (sc s)) eqn:V; [|reflexivity]. destruct (D eq_refl) as (_ & _ & M). contradiction.
  - unfold stop_2fg. destruct (meth s); try reflexivity. congruence.
Qed.
Lemma gend_started s t c : started (gend s t c) = false.
Proof. unfold gend. cbn. destruct (started s) eqn:S; [reflexivity | exact S]. Qed.
Lemma gend_fc s t c : fc (gend s t c) = fc s /\ pend (gend s t c) = pend s /\ tmr (gend s t c) = tmr s /\ meth (gend s t c) = meth s /\ gst (gend s t c) = G_NONE.
Proof. unfold gend, stop_2fg. cbn. destruct (started s); cbn; [|auto 10]. destruct (gst s); cbn; auto 10. destruct (meth s) eqn:M; cbn; rewrite ?M; auto 10.
Qed.
Lemma inv_gend b s t c : inv b s -> inv b (gend s t c).
Proof.
  intros I. unfold gend. cbn [started with_gst]. destruct (started s) eqn:S; [|apply inv_gst; assumption].
  destruct I as [A B C D [x [E F]]]. unfold fits in F. rewrite S in F.
  destruct (gst s) eqn:G; destruct x as [|k n u|]; try contradiction; try (destruct k, u; contradiction).
  - (* scrolling without an event *)
    unfold stop_2fg. cbn [meth with_gst sc]. destruct (meth s) eqn:M; cbn; try (split; cbn; auto; try discriminate; [intros V; destruct (D V) as (_ & _ & H); discriminate H | exists Idle; split; [exact E | exact I]]).
    split; cbn; auto; try discriminate. exists Idle. split; [|exact I]. rewrite sees_app, E. rewrite C. destruct (c_v (sc s)); cbn; [|reflexivity]. rewrite F. reflexivity.
  - unfold stop_2fg. destruct (D F) as (_ & _ & M). cbn [meth with_gst sc]. rewrite M. cbn. split; cbn; auto; try discriminate.
    exists Idle. split; [|exact I]. rewrite sees_app, E, C, F. reflexivity.
  - destruct k, u; try contradiction. subst n. split; cbn; auto; try discriminate.
    + intros V. destruct (D V) as (_ & H & _). discriminate H.
    + exists Idle. split; [|exact I]. rewrite sees_app, E. cbn. rewrite Nat.eqb_refl. reflexivity.
  - destruct k, u; try contradiction. subst n. split; cbn; auto; try discriminate.
    + intros V. destruct (D V) as (_ & H & _). discriminate H.
    + exists Idle. split; [|exact I]. rewrite sees_app, E. cbn. rewrite Nat.eqb_refl. reflexivity.
Qed.

(** ** Recognition *)
Lemma st_none_started p s f t : started (st_none p s f t) = started s.
Proof. unfold st_none. destruct (active_touches f) as [|a [|b [|c r]]]; try reflexivity; destruct (enabled p); try reflexivity. destruct (top_bottom _ _ _ _) as [x y]. destruct (Nat.eqb x y); reflexivity. Qed.
Lemma inv_st_none b p s f t : started s = false -> inv b s -> inv b (st_none p s f t).
Proof.
  intros S I. unfold st_none. destruct (active_touches f) as [|a [|c [|d r]]]; try exact I; destruct (enabled p); try exact I.
  - apply inv_gst; [exact S | apply inv_dt; exact I].
  - apply inv_gst; assumption.
  - destruct (top_bottom _ _ _ _) as [x y]. destruct (Nat.eqb x y); [exact I|]. apply inv_gst; [exact S | apply inv_dt; exact I].
Qed.
Lemma inv_buildup b s x y : inv b s -> inv b (with_sc s (mkScr (c_thr (sc s)) (c_dlock (sc s)) (c_inv (sc s)) (c_nat (sc s)) x y (c_v (sc s)) (c_h (sc s)))).
Proof. intros [A B C D E]. split; cbn; auto. Qed.
Lemma inv_thumb b s i : inv b s -> inv b (with_out s [TThumb i]).
Proof. intros [A B C D [x [E F]]]. split; cbn; auto. exists x. split; [|exact F]. rewrite sees_app, E. reflexivity. Qed.
Lemma inv_detect b p s f t : started s = false -> inv b s -> inv b (detect p s f t) /\ started (detect p s f t) = false.
Proof.
  intros S I. unfold detect.
  assert (G : forall x, inv b (with_gst s x) /\ started (with_gst s x) = false) by (intros x; split; [apply inv_gst; assumption | exact S]).
  assert (SC : inv b (to_scroll p s f) /\ started (to_scroll p s f) = false).
  { split; [|exact S]. unfold to_scroll. apply inv_gst; [exact S|]. apply inv_buildup. exact I. }
  assert (P : inv b (init_pinch p s f) /\ started (init_pinch p s f) = false).
  { split; [|exact S]. unfold init_pinch. apply inv_gst; [exact S|]. apply inv_pn. exact I. }
  destruct (_ && _ && _); [apply G|]. destruct (_ && _); [split; assumption|].
  destruct (if _ <? _ then _ else _) as [[thumb tm] fm].
  destruct (_ && _); [destruct (Nat.eqb _ _); [exact SC | apply G]|].
  destruct (_ && _ && _); [split; [apply inv_gst; [exact S | apply inv_thumb; exact I] | exact S]|].
  destruct (_ && _ && _); [exact SC|]. destruct (_ && _ && _ && _ && _); [exact P|]. destruct (_ || _); [split; assumption|].
  destruct (_ && _); [exact SC|]. destruct (_ && _); [apply G | exact P].
Qed.
Lemma detect_fc p s f t : fc (detect p s f t) = fc s /\ pend (detect p s f t) = pend s /\ tmr (detect p s f t) = tmr s /\ meth (detect p s f t) = meth s.
Proof.
  unfold detect. destruct (_ && _ && _); [cbn; auto|]. destruct (_ && _); [auto|].
  destruct (if _ <? _ then _ else _) as [[thumb tm] fm].
  destruct (_ && _); [destruct (Nat.eqb _ _); cbn; auto|]. destruct (_ && _ && _); [cbn; auto|].
  destruct (_ && _ && _); [cbn; auto|]. destruct (_ && _ && _ && _ && _); [cbn; auto|]. destruct (_ || _); [auto|].
  destruct (_ && _); [cbn; auto|]. destruct (_ && _); cbn; auto.
Qed.

(** ** Scrolling *)
Lemma post_scroll_on c t x y : (c_thr c == 0)%Q -> c_h c = c_v c ->
  let '(c', o) := post_scroll c t x y in
  (c_thr c' == 0)%Q /\ c_v c' = true /\ c_h c' = true /\ c_nat c' = c_nat c /\ c_inv c' = c_inv c /\ c_dlock c' = c_dlock c /\
  o = (if is0 x && is0 y then [] else [notify_axis c' t (if is0 y then None else Some y) (if is0 x then None else Some x)]).
Proof.
  intros T H. unfold post_scroll. rewrite H.
  assert (R : forall q, reaches q (c_thr c) = true). { intros q. unfold reaches. apply Qle_bool_iff. rewrite T. apply Qabs_nonneg. }
  destruct (c_v c); cbn; rewrite ?R; cbn; repeat split; auto; destruct (is0 x), (is0 y); reflexivity.
Qed.
Lemma neg0 q : Qeq_bool (- q) 0 = Qeq_bool q 0.
Proof.
  destruct (Qeq_bool q 0) eqn:E.
  - apply Qeq_bool_iff in E. apply Qeq_bool_iff. rewrite E. reflexivity.
  - destruct (Qeq_bool (- q) 0) eqn:E2; [|reflexivity]. apply Qeq_bool_iff in E2. assert (q == 0)%Q by (rewrite <- (Qopp_involutive q), E2; reflexivity).
    apply Qeq_bool_iff in H. congruence.
Qed.
Lemma notify_is_scroll c t x y : is0 x && is0 y = false ->
  exists v h, notify_axis c t (if is0 y then None else Some y) (if is0 x then None else Some x) = Axis t v h /\ is_stop v h = false /\ is_scroll v h = true.
Proof.
  intros N. unfold notify_axis. eexists _, _. split; [reflexivity|].
  unfold is0 in *. destruct (Qeq_bool x 0) eqn:X, (Qeq_bool y 0) eqn:Y; try discriminate N; cbn; destruct (c_nat c), (c_inv c); cbn; rewrite ?neg0, ?X, ?Y; auto.
Qed.
(** Fresh scrolling moves *)
Lemma inj_pos z : 0 < z -> (0 < inject_Z z)%Q.
Proof. intros H. unfold Qlt. cbn. lia. Qed.
Lemma fresh_moves p raw delta t : 0 < rx p -> 0 < ry p -> (fst delta == 0 <-> fst raw == 0)%Q -> (snd delta == 0 <-> snd raw == 0)%Q -> zero2 delta = false ->
  let d := snd (constrain p slock0 raw delta t) in is0 (fst d) && is0 (snd d) = false.
Proof.
  intros RX RY HX HY NZ. cbn zeta. unfold constrain. cbn [ah av slock0 tprev dh dv vx vy andb]. rewrite Z.eqb_refl. cbn [Z.ltb Z.compare orb].
  set (m := mm p raw). set (x := (0 * 0 + fst m)%Q). set (y := (0 * 0 + snd m)%Q).
  replace (Z.min (0 + 0) 100000) with 0 by reflexivity.
  assert (X : (x == 0 <-> fst delta == 0)%Q).
  { rewrite HX. unfold x, m, mm. cbn [fst]. assert (P := inj_pos _ RX). split; intros E.
    - setoid_replace (fst raw) with ((0 * 0 + fst raw / inject_Z (rx p)) * inject_Z (rx p))%Q by (field; intros Z0; rewrite Z0 in P; discriminate P). rewrite E. ring.
    - rewrite E. unfold Qdiv. ring. }
  assert (Y : (y == 0 <-> snd delta == 0)%Q).
  { rewrite HY. unfold y, m, mm. cbn [snd]. assert (P := inj_pos _ RY). split; intros E.
    - setoid_replace (snd raw) with ((0 * 0 + snd raw / inject_Z (ry p)) * inject_Z (ry p))%Q by (field; intros Z0; rewrite Z0 in P; discriminate P). rewrite E. ring.
    - rewrite E. unfold Qdiv. ring. }
  assert (K : zero2 (if steep (173 # 100) x y then 0%Q else fst delta, if negb (steep (57 # 100) x y) then 0%Q else snd delta) = false).
  { match goal with |- ?z = false => destruct z eqn:Z2 end; [|reflexivity]. exfalso. unfold zero2 in Z2. cbn [fst snd] in Z2. apply andb_prop in Z2 as [Z1 Z2]. apply Qeq_bool_iff in Z1, Z2.
    assert (ND : ~ (fst delta == 0 /\ snd delta == 0)%Q). { intros [U V]. apply Qeq_bool_iff in U, V. unfold zero2 in NZ. rewrite U, V in NZ. discriminate. }
    unfold steep in *. destruct (Qeq_bool x 0) eqn:EX; cbn [orb] in *.
    - apply Qeq_bool_iff in EX. cbn in Z2. apply ND. split; [apply X; exact EX | exact Z2].
    - assert (NX : ~ (x == 0)%Q) by (intros U; apply Qeq_bool_iff in U; congruence).
      destruct (Qle_bool (_ * Qabs x) (Qabs y)) eqn:S60 in Z1.
      + assert (S30 : Qle_bool ((57 # 100) * Qabs x) (Qabs y) = true). { apply Qle_bool_iff in S60. apply Qle_bool_iff. assert (P := Qabs_nonneg x). lra. }
        rewrite S30 in Z2. cbn in Z2. apply Y in Z2. apply Qle_bool_iff in S60. rewrite Z2 in S60. change (Qabs 0) with 0%Q in S60.
        assert (P := Qle_Qabs x). assert (P2 := Qle_Qabs (- x)). rewrite Qabs_opp in P2. apply NX. lra.
      + apply NX. apply X. exact Z1. }
  unfold zero2 in K. fold (is0 (fst delta)) in *.
  destruct (steep (57 # 100) x y) eqn:S30, (steep (173 # 100) x y) eqn:S60; cbn [negb andb] in *;
  rewrite ?andb_false_r, ?andb_true_r in *; cbn [andb] in *;
  destruct (Qle_bool (sq (x, y)) ((15 # 100) * (15 # 100))), (steep (373 # 100) x y), (steep (27 # 100) x y), (Qle_bool (sq (x, y)) 25); cbn in *; unfold is0 in *; rewrite ?andb_true_r; try exact K; exact NZ.
Qed.
Lemma inv_scroll b p s f t : inv b s -> (started s = false -> (2 <= fc s <= 4)%nat) -> gst s = G_SCROLL -> (b = true -> 0 < rx p /\ 0 < ry p /\ plain (GFrame f GSilent t)) -> inv b (st_scroll p s f t).
Proof.
  intros IN FC G HB. unfold st_scroll. destruct (meth s) eqn:M; try exact IN.
  set (raw := touches_delta p f true). set (delta := filtered raw (una f)). destruct (zero2 delta) eqn:Z; [exact IN|].
  pose proof (not_started_still b s IN) as NS. destruct IN as [A B C D [x [E F]]].
  assert (ST : started (gstart s t) = true /\ gst (gstart s t) = G_SCROLL /\ sc (gstart s t) = sc s /\ out (gstart s t) = out s /\ meth (gstart s t) = Es_Model.M_2FG /\ fc (gstart s t) = fc s /\ sl (gstart s t) = (if started s then sl s else slock0)).
  { unfold gstart. destruct (started s) eqn:S; [repeat split; auto|]. rewrite G. cbn. repeat split; auto. }
  destruct ST as (S1 & S2 & S3 & S4 & S5 & S6 & S7).
  destruct (constrain p (sl (gstart s t)) raw delta t) as [l d] eqn:K. rewrite S3. pose proof (post_scroll_on (sc s) t (fst d) (snd d) B C) as P.
  destruct (post_scroll (sc s) t (fst d) (snd d)) as [c o]. destruct P as (P1 & P2 & P3 & P4 & P5 & P6 & P7).
  split; cbn; try congruence; auto.
  - intros _. rewrite S6. destruct (started s); auto.
  - rewrite S4, sees_app, E. subst o. unfold fits in F |- *. cbn. rewrite S1, S2, P2. rewrite G in F.
    destruct (is0 (fst d) && is0 (snd d)) eqn:N.
    + cbn. exists x. split; [reflexivity|]. destruct (started s) eqn:S.
      * destruct x as [|k n u|]; auto.
      * destruct x; try contradiction. destruct b; [|reflexivity]. exfalso. destruct (HB eq_refl) as (RX & RY & PL). destruct (PL raw) as [PX PY].
        pose proof (fresh_moves p raw delta t RX RY) as FM. rewrite S7 in K. rewrite K in FM. cbn [snd] in FM.
        assert (DD : delta = una f raw). { unfold delta, filtered in Z |- *. destruct (zero2 raw); [discriminate Z | reflexivity]. }
        rewrite DD in *. specialize (FM PX PY Z). cbn zeta in FM. rewrite FM in N. discriminate N.
    + destruct (notify_is_scroll c t (fst d) (snd d) N) as (v & h & Q & Q1 & Q2). cbn [map sees]. rewrite Q. cbn [sees1].
      exists Scrolling. split; [|reflexivity]. destruct (started s); destruct x as [|k n u|]; try contradiction; try (destruct k, u; contradiction); rewrite Q1; cbn; rewrite Q2; reflexivity.
Qed.
(** ** Swipe, pinch, motion *)
Lemma inv_swipe b p s f t : inv b s -> (started s = false -> (2 <= fc s <= 4)%nat) -> gst s = G_SWIPE -> inv b (st_swipe p s f t).
Proof.
  intros IN FC G. unfold st_swipe. destruct (_ && _); [exact IN|].
  pose proof (not_started_still b s IN) as NS. destruct IN as [A B C D [x [E F]]]. unfold fits in F. rewrite G in F.
  unfold gstart. destruct (started s) eqn:S.
  - destruct x as [|k n u|]; try contradiction. destruct k, u; try contradiction. subst n. split; cbn; rewrite ?S; auto.
    exists (Doing Swipe (fc s) true). rewrite sees_app, E. cbn. rewrite Nat.eqb_refl. split; [reflexivity|]. unfold fits. cbn. rewrite S, G. reflexivity.
  - destruct x; try contradiction. rewrite G. split; cbn; auto.
    + intros V. destruct (D V) as [H _]. discriminate H.
    + exists (Doing Swipe (fc s) true). rewrite <- app_assoc, sees_app, E. cbn. rewrite Nat.eqb_refl. split; [reflexivity|]. unfold fits. cbn. rewrite G. reflexivity.
Qed.
Lemma inv_pinch b p s f t : inv b s -> (started s = false -> (2 <= fc s <= 4)%nat) -> gst s = G_PINCH -> inv b (st_pinch p s f t).
Proof.
  intros IN FC G. unfold st_pinch. destruct (_ && _); [apply inv_pn; exact IN|]. apply inv_pn.
  pose proof (not_started_still b s IN) as NS. destruct IN as [A B C D [x [E F]]]. unfold fits in F. rewrite G in F.
  unfold gstart. destruct (started s) eqn:S.
  - destruct x as [|k n u|]; try contradiction. destruct k, u; try contradiction. subst n. split; cbn; rewrite ?S; auto.
    exists (Doing Pinch (fc s) true). rewrite sees_app, E. cbn. rewrite Nat.eqb_refl. split; [reflexivity|]. unfold fits. cbn. rewrite S, G. reflexivity.
  - destruct x; try contradiction. rewrite G. split; cbn; auto.
    + intros V. destruct (D V) as [H _]. discriminate H.
    + exists (Doing Pinch (fc s) true). rewrite <- app_assoc, sees_app, E. cbn. rewrite Nat.eqb_refl. split; [reflexivity|]. unfold fits. cbn. rewrite G. reflexivity.
Qed.
Lemma inv_motion b p s f t : inv b s -> started s = false -> inv b (post_motion p s f t).
Proof.
  intros IN S. unfold post_motion. destruct (_ && _); [exact IN|]. destruct (not_started_still b s IN S) as [V E]. destruct IN as [A B C D _].
  split; cbn; auto. exists Idle. rewrite sees_app, E. split; [reflexivity|]. unfold fits. cbn. rewrite S. exact I.
Qed.
Lemma swipe_gst p s f t : gst (st_swipe p s f t) = gst s.
Proof. unfold st_swipe, gstart. destruct (_ && _); [reflexivity|]. destruct (started s); cbn; [reflexivity|]. destruct (gst s) eqn:G; cbn; rewrite ?G; reflexivity. Qed.
Lemma scroll_gst p s f t : gst (st_scroll p s f t) = gst s.
Proof.
  unfold st_scroll. destruct (meth s); try reflexivity. destruct (zero2 _); [reflexivity|]. destruct (constrain _ _ _ _ _). destruct (post_scroll _ _ _ _). cbn.
  unfold gstart. destruct (started s); cbn; [reflexivity|]. destruct (gst s) eqn:G; cbn; rewrite ?G; reflexivity.
Qed.
Lemma post_gesture_chain p s f t :
  post_gesture p s f t =
  let s1 := match gst s with G_NONE => st_none p s f t | _ => s end in
  let s2 := match gst s1 with G_UNKNOWN => detect p s1 f t | _ => s1 end in
  match gst s2 with G_SCROLL => st_scroll p s2 f t | G_SWIPE => st_swipe p s2 f t | G_PINCH => st_pinch p s2 f t | _ => s2 end.
Proof.
  unfold post_gesture. cbn zeta. set (s1 := match gst s with G_NONE => _ | _ => _ end). set (s2 := match gst s1 with G_UNKNOWN => _ | _ => _ end).
  destruct (gst s2) eqn:G; repeat (rewrite ?scroll_gst, ?swipe_gst, ?G; cbn iota); reflexivity.
Qed.
Lemma inv_post b p s f t : inv b s -> (2 <= fc s <= 4)%nat -> (b = true -> 0 < rx p /\ 0 < ry p /\ plain (GFrame f GSilent t)) -> inv b (post_gesture p s f t).
Proof.
  intros IN FC HB. rewrite post_gesture_chain. cbn zeta.
  assert (NS : started s = true -> gst s <> G_NONE /\ gst s <> G_UNKNOWN).
  { intros S. destruct IN as [A B C D [x [E F]]]. unfold fits in F. rewrite S in F. split; intros H; rewrite H in F; exact F. }
  set (s1 := match gst s with G_NONE => _ | _ => _ end).
  assert (I1 : inv b s1 /\ started s1 = started s /\ fc s1 = fc s /\ (started s1 = true -> gst s1 <> G_UNKNOWN)).
  { subst s1. destruct (gst s) eqn:G; try (split; [exact IN | split; [reflexivity | split; [reflexivity | intros S; destruct (NS S); congruence]]]).
    assert (S : started s = false). { destruct (started s); [|reflexivity]. destruct (NS eq_refl). congruence. }
    split; [apply inv_st_none; assumption|]. rewrite st_none_started. split; [reflexivity | split; [|intros; congruence]].
    unfold st_none. destruct (active_touches f) as [|a [|c [|d r]]]; try reflexivity; destruct (enabled p); try reflexivity. destruct (top_bottom _ _ _ _) as [x y]. destruct (Nat.eqb x y); reflexivity. }
  destruct I1 as (I1 & S1 & F1 & N1). clearbody s1.
  set (s2 := match gst s1 with G_UNKNOWN => _ | _ => _ end).
  assert (I2 : inv b s2 /\ fc s2 = fc s).
  { subst s2. destruct (gst s1) eqn:G; auto. assert (S : started s1 = false). { destruct (started s1); [|reflexivity]. specialize (N1 eq_refl). congruence. }
    split; [apply (inv_detect b p s1 f t S I1) | destruct (detect_fc p s1 f t) as [H _]; congruence]. }
  destruct I2 as [I2 F2]. clearbody s2. rewrite <- F2 in FC.
  destruct (gst s2) eqn:G; auto using inv_scroll, inv_swipe, inv_pinch.
Qed.
Lemma inv_gpost b p s f one t : inv b s -> (pend s = 0%nat -> fc s = count f) -> (b = true -> 0 < rx p /\ 0 < ry p /\ plain (GFrame f GSilent t)) -> inv b (gpost p s f one t).
Proof.
  intros IN PC HB. unfold gpost. destruct (fc s) as [|k] eqn:FC; [exact IN|].
  set (s1 := if one then _ else s). assert (I1 : inv b s1) by (subst s1; destruct one; [apply inv_count; [apply gend_started | apply inv_gend; exact IN] | exact IN]).
  clearbody s1. destruct (pend s1); [|exact I1]. destruct (fc s1) as [|[|[|[|[|n]]]]] eqn:F1; try exact I1.
  - destruct (moved f); [|exact I1]. apply inv_motion; [exact I1|]. destruct (started s1) eqn:S; [|reflexivity]. pose proof (in_fc b s1 I1 S). lia.
  - apply inv_post; auto; lia.
  - apply inv_post; auto; lia.
  - apply inv_post; auto; lia.
Qed.
Lemma inv_ghandle b s f t : inv b s -> inv b (ghandle s f t).
Proof.
  intros IN. unfold ghandle. destruct (Nat.eqb _ _); [apply inv_pend; exact IN|]. destruct (Nat.eqb _ _); [apply inv_count; [apply gend_started | apply inv_gend; exact IN]|].
  destruct (started s) eqn:S; cbn [negb]; [|apply inv_gst; [exact S | apply inv_count; assumption]].
  destruct (Nat.eqb _ _); [exact IN|]. apply inv_tmr, inv_pend, IN.
Qed.
Lemma ghandle_count s f t : pend (ghandle s f t) = 0%nat -> fc (ghandle s f t) = count f.
Proof.
  unfold ghandle. destruct (Nat.eqb (count f) (fc s)) eqn:E; [apply Nat.eqb_eq in E; cbn; congruence|]. destruct (Nat.eqb (count f) 0) eqn:Z; [apply Nat.eqb_eq in Z; cbn; congruence|].
  apply Nat.eqb_neq in Z. destruct (negb (started s)); [reflexivity|]. destruct (Nat.eqb (count f) (pend s)) eqn:P; [apply Nat.eqb_eq in P; intros; congruence|]. cbn. intros; congruence.
Qed.
Lemma inv_step b p s i : inv b s -> (b = true -> 0 < rx p /\ 0 < ry p /\ plain i) -> inv b (gstep p s i).
Proof.
  intros IN HB. destruct i as [f h t|t|t|m t|x]; cbn [gstep].
  - pose proof (inv_ghandle b s f t IN) as I1. destruct h; auto; [apply inv_gend; exact I1|]. apply inv_gpost; auto. apply ghandle_count.
  - destruct (tmr s) as [x|]; [|exact IN]. destruct (x <=? t); [|exact IN]. cbn [pend with_tmr]. destruct (pend s); [apply inv_tmr; exact IN|].
    apply inv_count; [apply gend_started | apply inv_gend, inv_tmr, IN].
  - apply inv_gend, IN.
  - destruct (Es_Model.smethod_eqb m (meth s)); [exact IN|]. destruct b; [destruct (HB eq_refl) as (_ & _ & H); contradiction H|].
    destruct (meth s) eqn:M.
    all: try (destruct (stop_2fg_not false s t IN) as [V Q]; [congruence|]; rewrite Q; destruct IN as [A B C D [x [E F]]]; split; cbn; auto; [intros H; congruence | exists x; split; [exact E | exact F]]).
    unfold stop_2fg. rewrite M. destruct IN as [A B C D [x [E F]]]. split; cbn; auto; try discriminate.
    destruct (c_v (sc s)) eqn:V.
    + exists Idle. rewrite sees_app, E, C. cbn. destruct (D eq_refl) as (S & G & _). unfold fits in F |- *. cbn. rewrite S, G in *. destruct x as [|k n u|]; try (split; reflexivity). destruct k, u; contradiction.
    + exists x. rewrite sees_app, E, C. cbn. split; [reflexivity|]. unfold fits in F |- *. cbn. destruct (started s), (gst s), x; auto. congruence.
  - apply inv_nat, IN.
Qed.
Lemma inv_run b p m : forall l, (b = true -> 0 < rx p /\ 0 < ry p /\ Forall plain l) -> inv b (after p m l).
Proof.
  unfold after, grun. intros l. induction l as [|i l IH] using rev_ind; intros HB; [apply inv_init|].
  rewrite fold_left_app. cbn. apply inv_step.
  - apply IH. intros B. destruct (HB B) as (X & Y & Z). apply Forall_app in Z as [Z _]. auto.
  - intros B. destruct (HB B) as (X & Y & Z). apply Forall_app in Z as [_ Z]. inversion Z. auto.
Qed.
