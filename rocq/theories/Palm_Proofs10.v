(** * Thumbs that stay thumbs, palms by the kernel's word: proofs *)
Require Import Coq.ZArith.ZArith Coq.Lists.List Coq.Bool.Bool Coq.micromega.Lia.
Require Import Verif.Palm_Model Verif.Palm_Spec Verif.Palm_Spec2 Verif.Palm_Spec3 Verif.Palm_Proofs1 Verif.Palm_Proofs2 Verif.Palm_Proofs3 Verif.Palm_Proofs4 Verif.Palm_Proofs5 Verif.Palm_Proofs6 Verif.Palm_Proofs7 Verif.Palm_Proofs8 Verif.Palm_Proofs9 Verif.Palm_Props Verif.Palm_Props2 Verif.Palm_Props3 Verif.Palm_Props4.
Require Verif.Es_Model Verif.Gest_Model.
Import ListNotations.
Open Scope Z_scope.
Local Arguments keyboard_event : simpl never.

(** ** How fast a touch was, with other touches around *)
Lemma frame_exceeded : forall c s f g u t i x v, nth_error (touches s) i = Some x -> nth_error f i = Some v -> st v <> NONE -> 0 <= exceeded (enter t x v) <= 15 ->
  exists y, nth_error (touches (fst (frame c s f g u t))) i = Some y /\ exceeded y = count v (exceeded (enter t x v)).
Proof.
  intros c s f g u t i x v X V N K. pose proof (enter_all_nth t _ _ i x v X V) as E.
  destruct (fold_exceeded c g t (with_touches s (enter_all t (touches s) f)) i (enter t x v) E ltac:(rewrite enter_now; exact N) K) as [y [Y Q]]. rewrite enter_now in Q. exists y. split; [| exact Q].
  unfold frame. cbn [fst]. unfold post_process, process_state. set (q := fold_left _ _ _) in *. clearbody q.
  destruct (detect_thumbs c && _ && _); destruct u; match goal with |- context [match nfingers_down ?z with _ => _ end] => destruct (nfingers_down z) end; exact Y.
Qed.
Lemma exceed_run : forall c n i l s x k, (i < n)%nat -> length (touches s) = n -> sized n l -> no_pen l -> goes_on i l -> nth_error (touches s) i = Some x -> exceeded x = k -> 0 <= k <= 15 ->
  exists y, nth_error (touches (run c s l)) i = Some y /\ exceeded y = excess i k l /\ 0 <= excess i k l <= 15.
Proof.
  intros c n i l. induction l as [|a l IH]; intros s x k I N Z P G X EX K; [exists x; auto |]. cbn [run].
  assert (Z' : sized n l) by (intros z Hz; apply Z; right; exact Hz). assert (P' : no_pen l) by (intros w f t Hz; apply (P w f t); right; exact Hz).
  assert (G' : goes_on i l) by (intros f [[g [u [t Hz]]]|[w [t Hz]]]; apply G; [left; exists g, u, t | right; exists w, t]; right; exact Hz).
  destruct (step_parts c s a) as [_ [_ [_ SL]]]. rewrite N in SL.
  destruct a as [f g u t|kk p t|t|b| |t|t|w f t|t|m];
    try (match goal with |- context [step c s ?a] => destruct (step_meth_th c s a ltac:(intros; discriminate) ltac:(intros; discriminate)) as [_ [_ E3]] end;
         cbn [excess]; apply (IH _ x k); rewrite ?E3; auto; fail).
  - cbn [excess]. destruct (G f (or_introl (ex_intro _ g (ex_intro _ u (ex_intro _ t (or_introl eq_refl)))))) as [v [V [U F]]]. rewrite V. destruct (enter_update t x v U F) as [_ [_ [_ [_ EE]]]].
    destruct (frame_exceeded c s f g u t i x v X V ltac:(rewrite U; discriminate) ltac:(rewrite EE, EX; exact K)) as [y [Y C]]. rewrite fst_step_frame in *. rewrite EE, EX in C.
    apply (IH _ y (count v k) I SL Z' P' G' Y C (count_range v k K)).
  - exfalso. apply (P w f t). left. reflexivity.
Qed.

(** ** A thumb that rests where a thumb rests *)
Lemma update_ignored : forall c m g nfd n h i x, (nfd <= 1)%nat -> thumb_ignored c h i = true -> st (now x) = UPDATE -> needs_jail c m x = true -> thumb_ignored c (thumb_update_touch c m g nfd n h i x) i = true.
Proof.
  intros c m g nfd n h i x N J U W. unfold thumb_ignored in J. apply andb_true_iff in J. destruct J as [J T]. apply andb_true_iff in J. destruct J as [DT J].
  unfold thumb_update_touch. rewrite DT. cbn [negb]. set (h1 := if (10 <=? exceeded x) && pinch_ok h && g then _ else h).
  assert (J1 : same_ix (tix h1) i = true /\ match tst h1 with TH_JAILED | TH_PINCH | TH_SUPPRESSED | TH_REVIVED_JAILED | TH_DEAD => true | _ => false end = true).
  { subst h1. destruct (_ && _); [| auto]. cbn [tst tix]. split; [exact J |]. destruct (tst h), (tix h) as [k|]; try exact T; destruct (Nat.ltb k n); reflexivity. }
  clearbody h1. destruct J1 as [J1 T1]. rewrite U. cbn [is_st andb]. replace (Nat.ltb 1 nfd) with false by (symmetry; apply Nat.ltb_ge; exact N). cbn zeta. unfold thumb_revive, thumb_ignored. rewrite J1, W, DT.
  destruct (tst h1) eqn:E; try discriminate T1; cbn; rewrite ?E; cbn; rewrite ?W; cbn; rewrite ?E, ?J1, ?Nat.eqb_refl; reflexivity.
Qed.
Lemma ignored_frame : forall c s f g t i x v k, length f = length (touches s) -> nth_error (touches s) i = Some x -> exceeded x = k -> 0 <= k <= 15 -> nth_error f i = Some v -> alone i f -> st v = UPDATE -> fresh v = false ->
  (negb (dirty v) || (thumb_place c (meth s) v && (k <? 10))) = true -> thumb_ignored c (th s) i = true -> thumb_ignored c (th (process_state c g t (with_touches s (enter_all t (touches s) f)))) i = true.
Proof.
  intros c s f g t i x v k LF X EX K V A U F R J. destruct (enter_update t x v U F) as [_ [_ [_ [EN EE]]]].
  destruct (lone_frame c s f g t i x v LF X V A (or_intror U) ltac:(rewrite EE, EX; exact K)) as [[nfd [nn [ND T1]]] _]. cbn zeta in T1. rewrite T1. destruct (dirty v); [| exact J]. cbn [negb orb] in R.
  apply update_ignored; [exact ND | exact J | rewrite EN; exact U | rewrite jail_place, EN, EE, EX; exact R].
Qed.
Lemma ignored_run : forall c n i l s x k, (i < n)%nat -> length (touches s) = n -> sized n l -> no_pen l -> goes_on i l -> only i l -> nth_error (touches s) i = Some x -> exceeded x = k -> 0 <= k <= 15 ->
  rests c i (meth s) k l = true -> thumb_ignored c (th s) i = true -> thumb_ignored c (th (run c s l)) i = true.
Proof.
  intros c n i l. induction l as [|a l IH]; intros s x k I N Z P G O X EX K R J; [exact J |]. cbn [run].
  assert (Z' : sized n l) by (intros z Hz; apply Z; right; exact Hz). assert (P' : no_pen l) by (intros w f t Hz; apply (P w f t); right; exact Hz).
  assert (G' : goes_on i l) by (intros f [[g [u [t Hz]]]|[w [t Hz]]]; apply G; [left; exists g, u, t | right; exists w, t]; right; exact Hz).
  assert (O' : only i l) by (intros f g u t Hz; apply (O f g u t); right; exact Hz). destruct (step_parts c s a) as [_ [_ [_ SL]]]. rewrite N in SL.
  destruct a as [f g u t|kk p t|t|b| |t|t|w f t|t|m];
    try (match goal with |- context [step c s ?a] => destruct (step_meth_th c s a ltac:(intros; discriminate) ltac:(intros; discriminate)) as [E1 [E2 E3]] end;
         cbn [method_after] in E1; cbn [rests] in R; apply (IH _ x k); rewrite ?E1, ?E2, ?E3; auto; fail).
  - cbn [rests] in R. destruct (G f (or_introl (ex_intro _ g (ex_intro _ u (ex_intro _ t (or_introl eq_refl)))))) as [v [V [U F]]]. destruct (O f g u t (or_introl eq_refl)) as [A ->]. rewrite V in R. apply andb_true_iff in R. destruct R as [R1 R2].
    assert (LF : length f = length (touches s)) by (rewrite N; apply (Z (Frame f g None t)); left; reflexivity). destruct (enter_update t x v U F) as [_ [_ [_ [EN EE]]]].
    destruct (lone_frame c s f g t i x v LF X V A (or_intror U) ltac:(rewrite EE, EX; exact K)) as [_ [T2 [M [y [Y C]]]]]. cbn zeta in *. rewrite fst_step_frame in *. rewrite EE, EX in C.
    apply (IH _ y (count v k) I SL Z' P' G' O' Y C (count_range v k K)); [rewrite M; exact R2 |]. rewrite T2. apply (ignored_frame c s f g t i x v k); assumption.
  - exfalso. apply (P w f t). left. reflexivity.
Qed.
(** The thumb after a frame in which some touch is down *)
Lemma frame_th : forall c s f g u t i x v, nth_error (touches s) i = Some x -> nth_error f i = Some v -> st v = UPDATE \/ st v = BEGIN ->
  let z := th (process_state c g t (with_touches s (enter_all t (touches s) f))) in th (fst (frame c s f g u t)) = match u with Some j => thumb_suppress z j | None => z end.
Proof.
  intros c s f g u t i x v X V U z. destruct (frame_touch c s f g u t i x v X V) as [mm [y [h [Y [_ [NY _]]]]]]. unfold frame in *. cbn [fst] in *.
  set (q := process_state _ _ _ _) in *. set (q2 := match u with Some _ => _ | None => q end) in *.
  assert (E : th q2 = match u with Some j => thumb_suppress z j | None => z end) by (subst q2 z; destruct u; reflexivity).
  assert (Y2 : nth_error (touches q2) i = Some y) by (unfold post_process in Y; destruct (nfingers_down (touches q2)); exact Y).
  unfold post_process. destruct (nfingers_down (touches q2)) eqn:D; [| exact E]. exfalso. unfold nfingers_down in D. apply length_zero_iff_nil in D.
  assert (W : In y (filter is_down (touches q2))) by (apply filter_In; split; [apply nth_error_In in Y2; exact Y2 | unfold is_down; rewrite NY; destruct U as [-> | ->]; reflexivity]). rewrite D in W. destruct W.
Qed.

(** ** Palms by the kernel's word *)
Definition told (c : config) (x : touch) : Prop := palm x = PALM_NONE \/ (use_mt_tool c = true /\ palm x = PALM_TOOL_PALM).
Lemma light_pressure : forall c x, light c (now x) -> palm x <> PALM_PRESSURE -> pressure_triggered c x = (x, false).
Proof.
  intros c x [C _] N. unfold pressure_triggered. destruct (use_pressure c) eqn:E; [| reflexivity]. cbn. specialize (C eq_refl).
  replace (pressure_threshold c <? pressure (now x)) with false by (symmetry; apply Z.ltb_ge; exact C). destruct (palm x); try reflexivity. contradiction.
Qed.
Lemma light_size : forall c x, light c (now x) -> touch_size_triggered c x = (x, false).
Proof.
  intros c x [_ C]. unfold touch_size_triggered. destruct (use_size c) eqn:E; [| reflexivity]. cbn. destruct (C eq_refl) as [A B].
  replace (size_threshold c <? major (now x)) with false by (symmetry; apply Z.ltb_ge; exact A). replace (size_threshold c <? minor (now x)) with false by (symmetry; apply Z.ltb_ge; exact B).
  destruct (palm x); reflexivity.
Qed.
Lemma tool_update : forall c k r m t x, (st (now x) = UPDATE \/ (st (now x) = BEGIN /\ outside_edges c (now x) /\ typing k = false /\ pointing r = false)) -> told c x -> light c (now x) ->
  palm (fst (palm_detect c k r ARB_NONE m t x)) = if use_mt_tool c then if toolpalm (now x) then PALM_TOOL_PALM else PALM_NONE else palm x.
Proof.
  intros c k r m t x U P C. unfold palm_detect. cbn [first_hit]. rewrite light_pressure by (try assumption; destruct P as [P|[_ P]]; congruence). cbn [arbitration_triggered].
  assert (D : dwt_triggered k x = (x, false)) by (unfold dwt_triggered; destruct U as [-> | [-> [_ [-> _]]]]; destruct P as [-> | [_ ->]]; cbn; rewrite ?andb_false_r; reflexivity).
  assert (T' : trackpoint_triggered c r x = (x, false)) by (unfold trackpoint_triggered; destruct U as [-> | [-> [_ [_ ->]]]]; destruct P as [-> | [_ ->]]; destruct (negb _); cbn; rewrite ?andb_false_r; reflexivity).
  rewrite D, T'.
  assert (Q : forall y, now y = now x -> palm y = PALM_NONE -> (let '(x1, hit) := let '(x1, b) := touch_size_triggered c y in if b then (x1, true) else let '(x2, b0) := edge_triggered c m t x1 in if b0 then (x2, true) else let '(x3, b1) := pressure_triggered c x2 in if b1 then (x3, true) else (x3, false) in palm x1) = PALM_NONE).
  { intros y Y PY. rewrite light_size by (rewrite Y; exact C).
    assert (G : edge_triggered c m t y = (y, false)).
    { unfold edge_triggered. rewrite PY, Y. destruct m; [reflexivity |]. destruct U as [-> | [-> [[[O1 O2] O3] _]]]; [reflexivity |]. unfold in_edge, in_side_edge, in_top_edge.
      replace (px (now x) <? left_edge c) with false by (symmetry; apply Z.ltb_ge; exact O1). replace (right_edge c <? px (now x)) with false by (symmetry; apply Z.ltb_ge; exact O2).
      replace (py (now x) <? upper_edge c) with false by (symmetry; apply Z.ltb_ge; exact O3). reflexivity. }
    rewrite G, light_pressure by (rewrite ?Y; try exact C; congruence). exact PY. }
  unfold tool_triggered. destruct (use_mt_tool c) eqn:E; cbn [negb].
  - destruct P as [P|[_ P]]; rewrite P; (destruct (toolpalm (now x)); [cbn; rewrite ?P; reflexivity |]).
    + specialize (Q x eq_refl P). destruct (touch_size_triggered c x) as [z1 b1]. destruct b1; [exact Q |]. destruct (edge_triggered c m t z1) as [z2 b2]. destruct b2; [exact Q |]. destruct (pressure_triggered c z2) as [z3 b3]. destruct b3; exact Q.
    + specialize (Q (with_palm x PALM_NONE) eq_refl eq_refl). destruct (touch_size_triggered c (with_palm x PALM_NONE)) as [z1 b1]. destruct b1; [exact Q |]. destruct (edge_triggered c m t z1) as [z2 b2]. destruct b2; [exact Q |]. destruct (pressure_triggered c z2) as [z3 b3]. destruct b3; exact Q.
  - destruct P as [P|[K _]]; [| exfalso; congruence]. rewrite P. specialize (Q x eq_refl P). destruct (touch_size_triggered c x) as [z1 b1]. destruct b1; [exact Q |]. destruct (edge_triggered c m t z1) as [z2 b2]. destruct b2; [exact Q |]. destruct (pressure_triggered c z2) as [z3 b3]. destruct b3; exact Q.
Qed.
Lemma told_after : forall c s m t x, astate (ar s) = ARB_NONE -> (st (now x) = UPDATE \/ (st (now x) = BEGIN /\ outside_edges c (now x) /\ typing (kb s) = false /\ pointing (tr s) = false)) -> told c x -> light c (now x) -> told c (after c s m t x).
Proof.
  intros c s m t x A U P C. destruct (after_eq c s m t x) as [E|[_ E]]; rewrite E; [exact P |]. rewrite A. pose proof (tool_update c (kb s) (tr s) m t x U P C) as Q. unfold told in *. rewrite Q.
  destruct (use_mt_tool c); [destruct (toolpalm (now x)); auto |]. destruct P as [P|[K _]]; [auto | discriminate].
Qed.
Lemma told_run : forall c n j l s x, (j < n)%nat -> sized n l -> goes_on j l -> all_light c j l -> no_pen l -> astate (ar s) = ARB_NONE -> nth_error (touches s) j = Some x -> told c x ->
  exists y, nth_error (touches (run c s l)) j = Some y /\ told c y.
Proof.
  intros c n j l s x L Z G C P A X N.
  destruct (contact_inv c n j (fun s y => astate (ar s) = ARB_NONE /\ told c y) l L Z G) with (s := s) (x := x) as [y [Y [_ Q]]]; auto.
  - intros s0 i x0 y I X0 [A0 N0] E. destruct (step_parts c s0 i) as [_ [_ [SA _]]]. rewrite SA.
    split; [apply (arb_none [i] (ar s0) A0); intros w f t [K|[]]; apply (P w f t); subst i; exact I |].
    destruct E as [->|[v [t [m [Sh [U [F [Q1 [Q2 [Q3 _]]]]]]]]]]; [auto |]. destruct (enter_update t x0 v U F) as [E1 [E2 [_ [E4 _]]]].
    assert (CV : light c v) by (destruct Sh as [[f [g [u [-> V]]]]|[w [f [-> V]]]]; [apply (C f g u t v I V) | exfalso; apply (P w f t I)]).
    assert (W : told c (after c s0 m t (enter t x0 v))) by (apply told_after; rewrite ?E4; auto; unfold told; rewrite E1; exact N0). unfold told in *. rewrite Q2. exact W.
  - exists y. split; [exact Y | exact Q].
Qed.
