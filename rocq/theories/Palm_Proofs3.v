(** * Palms: one touch from frame to frame *)
Require Import Coq.ZArith.ZArith Coq.Lists.List Coq.Bool.Bool Coq.micromega.Lia.
Require Import Verif.Palm_Model Verif.Palm_Spec Verif.Palm_Proofs1.
Import ListNotations.
Open Scope Z_scope.

(** The input shows touch [j] as [v] at time [t]. *)
Definition shows (i : input) (j : nat) (v : seen) (t : Z) : Prop :=
  (exists f g u, i = Frame f g u t /\ nth_error f j = Some v) \/ (exists w f, i = Arb w f t /\ nth_error f j = Some v).
Lemma nth_some : forall (A : Type) (l : list A) j n, length l = n -> (j < n)%nat -> exists v, nth_error l j = Some v.
Proof. intros A l j n L H. destruct (nth_error l j) eqn:E; [eauto |]. apply nth_error_None in E. lia. Qed.
Lemma step_touch : forall c s i j x n, (j < n)%nat -> sized n [i] -> nth_error (touches s) j = Some x ->
  exists y, nth_error (touches (fst (step c s i))) j = Some y /\ (y = x \/ exists v t multi, shows i j v t /\ same_but_speed y (after c s multi t (enter t x v))).
Proof.
  intros c s i j x n L Z H. specialize (Z i (or_introl eq_refl)).
  assert (F : forall s0 f g u t, length f = n -> touches s0 = touches s -> kb s0 = kb s -> tr s0 = tr s -> astate (ar s0) = astate (ar s) ->
    exists y v multi, nth_error (touches (fst (frame c s0 f g u t))) j = Some y /\ nth_error f j = Some v /\ same_but_speed y (after c s multi t (enter t x v))).
  { intros s0 f g u t LF A B C D. destruct (nth_some _ f j n LF L) as [v V]. rewrite <- A in H.
    destruct (frame_touch c s0 f g u t j x v H V) as [m [y [h [P [Q _]]]]]. exists y, v, m. split; [exact P |]. split; [exact V |]. unfold after in *. rewrite B, C, D in Q. exact Q. }
  destruct i as [f g u t|k p t|t|b| |t|t|w f t|t|m]; cbn [step].
  - destruct (F s f g u t Z eq_refl eq_refl eq_refl eq_refl) as [y [v [m [P [V Q]]]]]. destruct (frame c s f g u t) as [s1 o]. cbn in *. exists y. split; [exact P |].
    right. exists v, t, m. split; [left; exists f, g, u; auto | exact Q].
  - destruct (keyboard_event (kb s) k p t) as [k1 b]. exists x. cbn. auto.
  - destruct (due _ t); [destruct (keyboard_timeout (kb s) t) as [k1 b] |]; exists x; cbn; auto.
  - exists x. cbn. auto.
  - exists x. cbn. auto.
  - destruct (monitor_trackpoint c); [destruct (trackpoint_event (tr s) t) as [k1 b] |]; exists x; cbn; auto.
  - destruct (due _ t); [destruct (trackpoint_timeout (tr s)) as [k1 b] |]; exists x; cbn; auto.
  - assert (G : exists y, nth_error (touches (fst (let '(s1, o) := frame c (with_th (with_ar s {| astate := astate (ar s); atimer := None |}) thumb_reset) f true None t in (with_ar s1 {| astate := w; atimer := None |}, Some o)))) j = Some y /\
        (y = x \/ exists v t0 multi, shows (Arb w f t) j v t0 /\ same_but_speed y (after c s multi t0 (enter t0 x v)))).
    { destruct (F (with_th (with_ar s {| astate := astate (ar s); atimer := None |}) thumb_reset) f true None t Z eq_refl eq_refl eq_refl eq_refl) as [y [v [m [P [V Q]]]]].
      destruct (frame c (with_th (with_ar s {| astate := astate (ar s); atimer := None |}) thumb_reset) f true None t) as [s1 o]. cbn in *. exists y. split; [exact P |].
      right. exists v, t, m. split; [right; exists w, f; auto | exact Q]. }
    destruct w, (astate (ar s)) eqn:E; rewrite ?E in G; try exact G; exists x; cbn; auto.
  - destruct (due _ t); exists x; cbn; auto.
  - exists x. cbn. auto.
Qed.
Lemma goes_on_shows : forall j l i v t, goes_on j l -> In i l -> shows i j v t -> st v = UPDATE /\ fresh v = false.
Proof.
  intros j l i v t G I [[f [g [u [-> V]]]]|[w [f [-> V]]]].
  - destruct (G f) as [v' [V' P]]; [left; eauto |]. congruence.
  - destruct (G f) as [v' [V' P]]; [right; eauto |]. congruence.
Qed.
Lemma enter_update : forall t x v, st v = UPDATE -> fresh v = false -> palm (enter t x v) = palm x /\ ptime (enter t x v) = ptime x /\ pfirst (enter t x v) = pfirst x /\ now (enter t x v) = v /\ exceeded (enter t x v) = exceeded x.
Proof. intros t x v S' F. unfold enter. rewrite S', F. cbn. auto. Qed.
Lemma enter_begin : forall t x v, st v = BEGIN -> ptime (enter t x v) = t /\ now (enter t x v) = v /\ (fresh v = true -> palm (enter t x v) = PALM_NONE) /\ exceeded (enter t x v) = 0.
Proof. intros t x v S'. unfold enter. rewrite S'. cbn. repeat split. intros ->. reflexivity. Qed.

(** ** What palm detection does to a touch that goes on *)
Definition forever (p : palm_state) : Prop := p = PALM_PRESSURE \/ p = PALM_TOUCH_SIZE \/ p = PALM_ARBITRATION.
Lemma forever_update : forall c k r a m t x, st (now x) = UPDATE -> forever (palm x) -> palm (fst (palm_detect c k r a m t x)) = palm x \/ palm (fst (palm_detect c k r a m t x)) = PALM_ARBITRATION.
Proof.
  intros c k r a m t x U F. unfold palm_detect. cbn [first_hit].
  assert (P1 : pressure_triggered c x = (x, use_pressure c && match palm x with PALM_PRESSURE => true | _ => false end)).
  { unfold pressure_triggered. destruct F as [-> | [-> | ->]]; destruct (use_pressure c); reflexivity. }
  rewrite P1. destruct (use_pressure c && _) eqn:E; [left; reflexivity |].
  destruct a; [| right; reflexivity | right; reflexivity]. cbn [arbitration_triggered].
  assert (D : dwt_triggered k x = (x, false)) by (unfold dwt_triggered; rewrite U; cbn; rewrite andb_false_r; destruct F as [-> | [-> | ->]]; rewrite ?andb_false_r; cbn; reflexivity).
  assert (T : trackpoint_triggered c r x = (x, false)) by (unfold trackpoint_triggered; rewrite U; destruct F as [-> | [-> | ->]]; destruct (negb _); reflexivity).
  assert (L : tool_triggered c x = (x, false)) by (unfold tool_triggered; destruct F as [-> | [-> | ->]]; destruct (negb _); reflexivity).
  rewrite D, T, L.
  assert (Z : exists b, touch_size_triggered c x = (x, b) \/ palm x = PALM_TOUCH_SIZE /\ touch_size_triggered c x = (with_palm x PALM_TOUCH_SIZE, true)).
  { unfold touch_size_triggered. destruct (negb _); [exists false; left; reflexivity |]. destruct F as [-> | [-> | ->]]; try (exists false; left; reflexivity).
    destruct (_ || _); [exists true; right; auto | exists false; left; reflexivity]. }
  destruct Z as [b [Z|[Q Z]]]; rewrite Z; [| left; rewrite Q; reflexivity]. destruct b; [left; reflexivity |].
  assert (G : edge_triggered c m t x = (x, false)) by (unfold edge_triggered; rewrite U; destruct F as [-> | [-> | ->]]; destruct m; reflexivity).
  rewrite G, P1. left. reflexivity.
Qed.
Lemma typing_update : forall c k r a m t x, st (now x) = UPDATE -> palm x = PALM_TYPING -> typing k = true \/ (ptime x <> 0 /\ ptime x <= last_press k) ->
  (palm (fst (palm_detect c k r a m t x)) = PALM_TYPING \/ palm (fst (palm_detect c k r a m t x)) = PALM_ARBITRATION) /\ ptime (fst (palm_detect c k r a m t x)) = ptime x.
Proof.
  intros c k r a m t x U P T. unfold palm_detect. cbn [first_hit].
  assert (P1 : pressure_triggered c x = (x, false)) by (unfold pressure_triggered; rewrite P; destruct (negb _); reflexivity). rewrite P1.
  destruct a; [| cbn; auto | cbn; auto]. cbn [arbitration_triggered].
  assert (D : dwt_triggered k x = (x, false)).
  { unfold dwt_triggered. rewrite U, P. cbn. rewrite andb_false_r, !andb_true_r. destruct T as [T|[T1 T2]]; [rewrite T; reflexivity |].
    replace (ptime x =? 0) with false by (symmetry; apply Z.eqb_neq; exact T1). replace (last_press k <? ptime x) with false by (symmetry; apply Z.ltb_ge; exact T2). rewrite andb_false_r. reflexivity. }
  assert (T' : trackpoint_triggered c r x = (x, false)) by (unfold trackpoint_triggered; rewrite U, P; destruct (negb _); reflexivity).
  assert (L : tool_triggered c x = (x, false)) by (unfold tool_triggered; rewrite P; destruct (negb _); reflexivity).
  assert (Z : touch_size_triggered c x = (x, false)) by (unfold touch_size_triggered; rewrite P; destruct (negb _); reflexivity).
  assert (G : edge_triggered c m t x = (x, false)) by (unfold edge_triggered; rewrite P, U; destruct m; reflexivity).
  rewrite D, T', L, Z, G, P1. cbn. auto.
Qed.
(** A calm touch: the detectors that look at the touch itself find nothing. *)
Lemma calm_pressure : forall c x, calm c (now x) -> palm x <> PALM_PRESSURE -> pressure_triggered c x = (x, false).
Proof.
  intros c x [C _] N. unfold pressure_triggered. destruct (use_pressure c) eqn:E; [| reflexivity]. cbn. specialize (C eq_refl).
  replace (pressure_threshold c <? pressure (now x)) with false by (symmetry; apply Z.ltb_ge; exact C). destruct (palm x); try reflexivity. contradiction.
Qed.
Lemma calm_tool : forall c x, calm c (now x) -> palm x = PALM_NONE -> tool_triggered c x = (x, false).
Proof. intros c x [_ [_ C]] N. unfold tool_triggered. destruct (use_mt_tool c) eqn:E; [| reflexivity]. cbn. rewrite N, (C eq_refl). reflexivity. Qed.
Lemma calm_size : forall c x, calm c (now x) -> touch_size_triggered c x = (x, false).
Proof.
  intros c x [_ [C _]]. unfold touch_size_triggered. destruct (use_size c) eqn:E; [| reflexivity]. cbn. destruct (C eq_refl) as [A B].
  replace (size_threshold c <? major (now x)) with false by (symmetry; apply Z.ltb_ge; exact A). replace (size_threshold c <? minor (now x)) with false by (symmetry; apply Z.ltb_ge; exact B).
  destruct (palm x); reflexivity.
Qed.
Lemma none_update : forall c k r m t x, st (now x) = UPDATE -> palm x = PALM_NONE -> calm c (now x) -> palm_detect c k r ARB_NONE m t x = (x, true).
Proof.
  intros c k r m t x U P C. unfold palm_detect. cbn [first_hit]. rewrite calm_pressure by (try assumption; congruence). cbn [arbitration_triggered].
  assert (D : dwt_triggered k x = (x, false)) by (unfold dwt_triggered; rewrite U, P; cbn; rewrite !andb_false_r; reflexivity).
  assert (T' : trackpoint_triggered c r x = (x, false)) by (unfold trackpoint_triggered; rewrite U, P; destruct (negb _); cbn; rewrite ?andb_false_r; reflexivity).
  rewrite D, T', calm_tool, calm_size by assumption.
  assert (G : edge_triggered c m t x = (x, false)) by (unfold edge_triggered; rewrite P, U; destruct m; reflexivity).
  rewrite G, calm_pressure by (try assumption; congruence). reflexivity.
Qed.
Lemma typing_release : forall c k r m t x, st (now x) = UPDATE -> palm x = PALM_TYPING -> calm c (now x) -> typing k = false -> last_press k < ptime x ->
  palm (fst (palm_detect c k r ARB_NONE m t x)) = PALM_NONE.
Proof.
  intros c k r m t x U P C T L. unfold palm_detect. cbn [first_hit]. rewrite calm_pressure by (try assumption; congruence). cbn [arbitration_triggered].
  assert (D : dwt_triggered k x = (with_palm x PALM_NONE, false)).
  { unfold dwt_triggered. rewrite U, P, T. cbn. replace (last_press k <? ptime x) with true by (symmetry; apply Z.ltb_lt; exact L). rewrite orb_true_r, !andb_false_r. reflexivity. }
  rewrite D. set (y := with_palm x PALM_NONE). assert (Py : palm y = PALM_NONE) by reflexivity. assert (Uy : st (now y) = UPDATE) by exact U. assert (Cy : calm c (now y)) by exact C. clearbody y.
  assert (T' : trackpoint_triggered c r y = (y, false)) by (unfold trackpoint_triggered; rewrite Uy, Py; destruct (negb _); cbn; rewrite ?andb_false_r; reflexivity).
  rewrite T', calm_tool, calm_size by assumption.
  assert (G : edge_triggered c m t y = (y, false)) by (unfold edge_triggered; rewrite Py, Uy; destruct m; reflexivity).
  rewrite G, calm_pressure by (try assumption; congruence). exact Py.
Qed.
Lemma begin_clean : forall c k r m t x, st (now x) = BEGIN -> palm x = PALM_NONE -> calm c (now x) -> outside_edges c (now x) -> typing k = false -> pointing r = false ->
  palm_detect c k r ARB_NONE m t x = (x, true).
Proof.
  intros c k r m t x U P C O T R. unfold palm_detect. cbn [first_hit]. rewrite calm_pressure by (try assumption; congruence). cbn [arbitration_triggered].
  assert (D : dwt_triggered k x = (x, false)) by (unfold dwt_triggered; rewrite U, P, T; cbn; rewrite !andb_false_r; reflexivity).
  assert (T' : trackpoint_triggered c r x = (x, false)) by (unfold trackpoint_triggered; rewrite U, P, R; destruct (negb _); cbn; rewrite ?andb_false_r; reflexivity).
  rewrite D, T', calm_tool, calm_size by assumption.
  assert (G : edge_triggered c m t x = (x, false)).
  { unfold edge_triggered. rewrite P, U. destruct m; [reflexivity |]. destruct O as [[O1 O2] O3]. unfold in_edge, in_side_edge, in_top_edge.
    replace (px (now x) <? left_edge c) with false by (symmetry; apply Z.ltb_ge; exact O1). replace (right_edge c <? px (now x)) with false by (symmetry; apply Z.ltb_ge; exact O2).
    replace (py (now x) <? upper_edge c) with false by (symmetry; apply Z.ltb_ge; exact O3). reflexivity. }
  rewrite G, calm_pressure by (try assumption; congruence). reflexivity.
Qed.
Lemma begin_typing : forall c k r a m t x, st (now x) = BEGIN -> on k = true -> typing k = true ->
  (palm (fst (palm_detect c k r a m t x)) = PALM_TYPING \/ forever (palm (fst (palm_detect c k r a m t x)))) /\ ptime (fst (palm_detect c k r a m t x)) = ptime x.
Proof.
  intros c k r a m t x U O T. unfold palm_detect. cbn [first_hit]. destruct (pressure_triggered c x) as [x1 b] eqn:E.
  assert (Q : x1 = x /\ b = false \/ palm x1 = PALM_PRESSURE /\ ptime x1 = ptime x /\ b = true).
  { unfold pressure_triggered in E. destruct (negb _); [injection E as <- <-; auto |]. destruct (palm x) eqn:P; try (injection E as <- <-; auto; fail).
    destruct (_ <? _); injection E as <- <-; auto. }
  destruct Q as [[-> ->]|[Q1 [Q2 ->]]]; [| cbn; split; [right; left; exact Q1 | exact Q2]].
  destruct a; [| cbn; split; [right; right; right; reflexivity | reflexivity] | cbn; split; [right; right; right; reflexivity | reflexivity]].
  cbn [arbitration_triggered]. unfold dwt_triggered. rewrite O, T, U. cbn. auto.
Qed.
Lemma begin_trackpoint : forall c k r a m t x, st (now x) = BEGIN -> palm x = PALM_NONE -> monitor_trackpoint c = true -> pointing r = true ->
  (palm (fst (palm_detect c k r a m t x)) = PALM_TYPING \/ palm (fst (palm_detect c k r a m t x)) = PALM_TRACKPOINT \/ forever (palm (fst (palm_detect c k r a m t x)))) /\ ptime (fst (palm_detect c k r a m t x)) = ptime x.
Proof.
  intros c k r a m t x U P M T. unfold palm_detect. cbn [first_hit]. destruct (pressure_triggered c x) as [x1 b] eqn:E.
  assert (Q : x1 = x /\ b = false \/ palm x1 = PALM_PRESSURE /\ ptime x1 = ptime x /\ b = true).
  { unfold pressure_triggered in E. destruct (negb _); [injection E as <- <-; auto |]. rewrite P in E.
    destruct (_ <? _); injection E as <- <-; auto. }
  destruct Q as [[-> ->]|[Q1 [Q2 ->]]]; [| cbn; split; [right; right; left; exact Q1 | exact Q2]].
  destruct a; [| cbn; split; [right; right; right; right; reflexivity | reflexivity] | cbn; split; [right; right; right; right; reflexivity | reflexivity]].
  cbn [arbitration_triggered]. destruct (dwt_triggered k x) as [x2 b2] eqn:D.
  assert (Q : x2 = x /\ b2 = false \/ palm x2 = PALM_TYPING /\ ptime x2 = ptime x /\ b2 = true).
  { unfold dwt_triggered in D. rewrite U, P in D. cbn in D. rewrite !andb_false_r, andb_true_r in D. destruct (on k && typing k); injection D as <- <-; auto. }
  destruct Q as [[-> ->]|[Q1 [Q2 ->]]]; [| cbn; split; [left; exact Q1 | exact Q2]].
  unfold trackpoint_triggered. rewrite M, P, U, T. cbn. auto.
Qed.
Lemma trackpoint_update : forall c k r a m t x, st (now x) = UPDATE -> palm x = PALM_TRACKPOINT -> pointing r = true \/ (ptime x <> 0 /\ ptime x <= last_point r) ->
  (palm (fst (palm_detect c k r a m t x)) = PALM_TRACKPOINT \/ palm (fst (palm_detect c k r a m t x)) = PALM_ARBITRATION) /\ ptime (fst (palm_detect c k r a m t x)) = ptime x.
Proof.
  intros c k r a m t x U P T. unfold palm_detect. cbn [first_hit].
  assert (P1 : pressure_triggered c x = (x, false)) by (unfold pressure_triggered; rewrite P; destruct (negb _); reflexivity). rewrite P1.
  destruct a; [| cbn; auto | cbn; auto]. cbn [arbitration_triggered].
  assert (D : dwt_triggered k x = (x, false)) by (unfold dwt_triggered; rewrite U, P; cbn; rewrite !andb_false_r; reflexivity).
  assert (T' : trackpoint_triggered c r x = (x, false)).
  { unfold trackpoint_triggered. rewrite U, P. destruct (negb _); [reflexivity |]. cbn. destruct T as [T|[T1 T2]]; [rewrite T; reflexivity |].
    replace (ptime x =? 0) with false by (symmetry; apply Z.eqb_neq; exact T1). replace (last_point r <? ptime x) with false by (symmetry; apply Z.ltb_ge; exact T2). cbn. rewrite andb_false_r. reflexivity. }
  assert (L : tool_triggered c x = (x, false)) by (unfold tool_triggered; rewrite P; destruct (negb _); reflexivity).
  assert (Z : touch_size_triggered c x = (x, false)) by (unfold touch_size_triggered; rewrite P; destruct (negb _); reflexivity).
  assert (G : edge_triggered c m t x = (x, false)) by (unfold edge_triggered; rewrite P, U; destruct m; reflexivity).
  rewrite D, T', L, Z, G, P1. cbn. auto.
Qed.
Lemma trackpoint_release : forall c k r m t x, st (now x) = UPDATE -> palm x = PALM_TRACKPOINT -> monitor_trackpoint c = true -> calm c (now x) -> pointing r = false -> last_point r < ptime x ->
  palm (fst (palm_detect c k r ARB_NONE m t x)) = PALM_NONE.
Proof.
  intros c k r m t x U P M C T L. unfold palm_detect. cbn [first_hit]. rewrite calm_pressure by (try assumption; congruence). cbn [arbitration_triggered].
  assert (D : dwt_triggered k x = (x, false)) by (unfold dwt_triggered; rewrite U, P; cbn; rewrite !andb_false_r; reflexivity). rewrite D.
  assert (T' : trackpoint_triggered c r x = (with_palm x PALM_NONE, false)).
  { unfold trackpoint_triggered. rewrite U, P, M, T. cbn. replace (last_point r <? ptime x) with true by (symmetry; apply Z.ltb_lt; exact L). rewrite orb_true_r. reflexivity. }
  rewrite T'. set (y := with_palm x PALM_NONE). assert (Py : palm y = PALM_NONE) by reflexivity. assert (Uy : st (now y) = UPDATE) by exact U. assert (Cy : calm c (now y)) by exact C. clearbody y.
  rewrite calm_tool, calm_size by assumption.
  assert (G : edge_triggered c m t y = (y, false)) by (unfold edge_triggered; rewrite Py, Uy; destruct m; reflexivity).
  rewrite G, calm_pressure by (try assumption; congruence). exact Py.
Qed.
(** abort() is not reached *)
Lemma first_hit_palm : forall l, (forall d, In d l -> forall y y1, d y = (y1, true) -> palm y1 <> PALM_NONE) -> forall x y, first_hit l x = (y, true) -> palm y <> PALM_NONE.
Proof.
  induction l as [|d l IH]; intros H x y E; [discriminate |]. cbn in E. destruct (d x) as [x1 b] eqn:D. destruct b.
  - injection E as <-. apply (H d (or_introl eq_refl) x x1 D).
  - apply (IH (fun d' I => H d' (or_intror I)) x1 y E).
Qed.
Lemma detect_fine : forall c k r a m t x, snd (palm_detect c k r a m t x) = true.
Proof.
  intros. unfold palm_detect. destruct (first_hit _ x) as [y b] eqn:E. cbn. destruct b; [| reflexivity].
  assert (N : palm y <> PALM_NONE).
  { apply (first_hit_palm _) with (2 := E). intros d I z z1 D. cbn in I.
    repeat (destruct I as [<-|I]; [unfold pressure_triggered, arbitration_triggered, dwt_triggered, trackpoint_triggered, tool_triggered, touch_size_triggered, edge_triggered in D;
      repeat match type of D with context [if ?b then _ else _] => destruct b end; destruct (palm z) eqn:?; try destruct a; repeat match type of D with context [if ?b then _ else _] => destruct b end; injection D as <-; cbn; try discriminate; congruence |]). destruct I. }
  destruct (palm y); [contradiction | reflexivity ..].
Qed.
