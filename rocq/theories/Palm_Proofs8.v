(** * Thumbs: lemmas *)
Require Import Coq.ZArith.ZArith Coq.Lists.List Coq.Bool.Bool Coq.micromega.Lia.
Require Import Verif.Palm_Model Verif.Palm_Spec Verif.Palm_Spec2 Verif.Palm_Proofs1 Verif.Palm_Proofs2 Verif.Palm_Proofs3 Verif.Palm_Proofs4 Verif.Palm_Proofs5 Verif.Palm_Proofs6 Verif.Palm_Proofs7.
Require Verif.Es_Model Verif.Gest_Model.
Import ListNotations.
Open Scope Z_scope.
Local Arguments frame : simpl never.
Local Arguments keyboard_event : simpl never.

Lemma count_eq : forall v k, 0 <= k <= 15 -> (if dirty v then (if fast v then if k <? 15 then k + 1 else k else slower k) else slower k) = count v k.
Proof. intros v k K. unfold count, slower. destruct (dirty v), (fast v); cbn [andb]; destruct (k <? 15) eqn:E1, (0 <? k) eqn:E2; rewrite ?Z.ltb_lt, ?Z.ltb_ge in *; lia. Qed.
Lemma count_range : forall v k, 0 <= k <= 15 -> 0 <= count v k <= 15.
Proof. intros v k K. unfold count. destruct (_ && _); lia. Qed.
Lemma jail_place : forall c m x, needs_jail c m x = thumb_place c m (now x) && (exceeded x <? 10).
Proof.
  intros c m x. unfold needs_jail, thumb_place, detect_pressure_size, in_exclusion_area. rewrite (Z.leb_antisym (py (now x))), (Z.leb_antisym (exceeded x)).
  destruct (py (now x) <? upper_thumb_line c); [reflexivity |]. set (z := 5 * minor (now x) <? 3 * th_size c). destruct m; cbn [edge_method negb orb andb]; try reflexivity;
    destruct (lower_thumb_line c <? py (now x)), (th_use_size c), (th_use_pressure c), (th_size c <? major (now x)), z, (th_pressure c <? pressure (now x)), (exceeded x <? 10); reflexivity.
Qed.

(** ** One touch alone *)
Definition jail (i : nat) (r : bool) (h : thumb) : Prop := if r then tst h = TH_JAILED /\ tix h = Some i else tst h = TH_FINGER.
Lemma update_alone : forall c m g nfd n h i x r, detect_thumbs c = true -> (nfd <= 1)%nat -> jail i r h -> st (now x) = BEGIN \/ st (now x) = UPDATE -> (st (now x) = BEGIN -> r = false) ->
  jail i ((r || is_st (st (now x)) BEGIN) && needs_jail c m x) (thumb_update_touch c m g nfd n h i x).
Proof.
  intros c m g nfd n h i x r DT N J U B. unfold thumb_update_touch. rewrite DT. cbn [negb].
  set (h1 := if (10 <=? exceeded x) && pinch_ok h && g then _ else h).
  assert (J1 : jail i r h1) by (subst h1; destruct (_ && _); [| exact J]; destruct r; cbn in *; [destruct J as [-> ->]; auto | rewrite J; reflexivity]).
  clearbody h1. replace (is_st (st (now x)) END) with false by (destruct U as [-> | ->]; reflexivity). cbn [andb].
  replace (Nat.ltb 1 nfd) with false by (symmetry; apply Nat.ltb_ge; exact N). cbn zeta.
  assert (RV : thumb_revive c m h1 i x = h1) by (unfold thumb_revive; destruct r; cbn in J1; [destruct J1 as [-> _] | rewrite J1]; reflexivity). rewrite RV.
  destruct U as [U|U]; rewrite U; cbn [is_st].
  - rewrite (B U) in *. rewrite orb_true_r. cbn [andb]. cbn in J1. destruct (needs_jail c m x); cbn; [auto |]. rewrite J1, J1. exact J1.
  - rewrite orb_false_r. cbn [andb]. destruct r; cbn in J1 |- *; [| rewrite J1, J1; exact J1]. destruct J1 as [J1 J2]. rewrite J1. destruct (needs_jail c m x); cbn; [rewrite J1; auto | reflexivity].
Qed.
Lemma put_same2 : forall (A : Type) (l : list A) i x y, nth_error l i = Some x -> nth_error (put i y l) i = Some y.
Proof. intros A l. induction l as [|a l IH]; intros [|i] x y H; cbn in *; try discriminate; [reflexivity | apply (IH i x y H)]. Qed.
Lemma lone_frame : forall c s f g t i x v, length f = length (touches s) -> nth_error (touches s) i = Some x -> nth_error f i = Some v -> alone i f -> st v = BEGIN \/ st v = UPDATE -> 0 <= exceeded (enter t x v) <= 15 ->
  let s1 := process_state c g t (with_touches s (enter_all t (touches s) f)) in
  (exists nfd n, (nfd <= 1)%nat /\ th s1 = if dirty v then thumb_update_touch c (meth s) g nfd n (th s) i (enter t x v) else th s) /\
  th (fst (frame c s f g None t)) = th s1 /\ meth (fst (frame c s f g None t)) = meth s /\
  exists y, nth_error (touches (fst (frame c s f g None t))) i = Some y /\ exceeded y = count v (exceeded (enter t x v)).
Proof.
  intros c s f g t i x v L H G A U K s1. set (s0 := with_touches s (enter_all t (touches s) f)) in *.
  assert (N : forall j y, nth_error (touches s0) j = Some y -> j <> i -> st (now y) = NONE).
  { intros j y J D. destruct (enter_all_inv t _ _ j y L J) as [x' [v' [X [V ->]]]]. rewrite enter_now. apply (A j v' V D). }
  pose proof (enter_all_nth t _ _ i x v H G) as E. change (nth_error (touches s0) i = Some (enter t x v)) in E.
  assert (F : fold_left (process_touch c g t) (seq 0 (length (touches s0))) s0 = process_touch c g t s0 i).
  { rewrite (fold_one c g t _ s0 i); [| intros j y _ D J; apply (N j y J D) | apply seq_NoDup]. destruct (in_dec _ _ _) as [|X]; [reflexivity |]. exfalso. apply X. apply in_seq. split; [lia |]. apply nth_error_Some. congruence. }
  set (s2 := process_touch c g t s0 i) in *.
  assert (N1 : (nfingers_down (touches s2) <= 1)%nat).
  { apply (down_alone _ i). intros j y J D. unfold s2 in J. rewrite process_touch_other in J by (intro Z; apply D; symmetry; exact Z). apply (N j y J D). }
  assert (N0 : (nfingers_down (touches s0) <= 1)%nat) by (apply (down_alone _ i); exact N).
  assert (S1 : s1 = s2).
  { subst s1. unfold process_state. rewrite F. replace (Nat.leb 2 (nfingers_down (touches s2))) with false by (symmetry; apply Nat.leb_gt; lia). rewrite andb_false_r. reflexivity. }
  assert (P : exists y, nth_error (touches s2) i = Some y /\ exceeded y = count v (exceeded (enter t x v)) /\ now y = v /\ meth s2 = meth s /\
              th s2 = if dirty v then thumb_update_touch c (meth s) g (nfingers_down (touches s0)) (length (touches s0)) (th s) i (enter t x v) else th s).
  { unfold s2, process_touch. rewrite E. rewrite enter_now. replace (is_st (st v) NONE) with false by (destruct U as [-> | ->]; reflexivity). rewrite <- (count_eq v _ K).
    destruct (dirty v); cbn [negb].
    - change (meth s0) with (meth s). change (th s0) with (th s). destruct (palm_detect _ _ _ _ _ _ _) as [x1 fine] eqn:PD. eexists. split; [cbn; eapply put_same2; exact E |].
      split; [reflexivity | split; [| split; reflexivity]]. cbn. assert (W : now x1 = now (enter t x v)) by (change x1 with (fst (x1, fine)); rewrite <- PD; apply detect_now). rewrite W, enter_now. reflexivity.
    - eexists. split; [cbn; eapply put_same2; exact E |]. split; [reflexivity | split; [cbn; apply enter_now | split; reflexivity]]. }
  destruct P as [y [Y [C [NY [M T]]]]]. rewrite S1. split; [exists (nfingers_down (touches s0)), (length (touches s0)); split; [exact N0 | exact T] |].
  unfold frame. fold s0. cbn [fst]. change (process_state c g t s0) with s1. rewrite S1. unfold post_process.
  assert (D1 : nfingers_down (touches s2) <> O).
  { intro D. unfold nfingers_down in D. apply length_zero_iff_nil in D. assert (IN : In y (filter is_down (touches s2))) by (apply filter_In; split; [apply (nth_error_In _ i Y) | unfold is_down; rewrite NY; destruct U as [-> | ->]; reflexivity]). rewrite D in IN. destruct IN. }
  destruct (nfingers_down (touches s2)) as [|k]; [contradiction |]. split; [reflexivity | split; [exact M | exists y; auto]].
Qed.
Lemma step_meth_th : forall c s a, (forall f g u t, a <> Frame f g u t) -> (forall w f t, a <> Arb w f t) ->
  meth (fst (step c s a)) = method_after (meth s) [a] /\ th (fst (step c s a)) = th s /\ touches (fst (step c s a)) = touches s.
Proof.
  intros c s a NF NA. destruct a as [f g u t|k p t|t|b| |t|t|w f t|t|m]; cbn [step].
  - exfalso. apply (NF f g u t). reflexivity.
  - destruct (keyboard_event _ _ _ _). repeat split.
  - destruct (due _ _); [destruct (keyboard_timeout _ _) |]; repeat split.
  - repeat split.
  - repeat split.
  - destruct (monitor_trackpoint c); [destruct (trackpoint_event _ _) |]; repeat split.
  - destruct (due _ _); [destruct (trackpoint_timeout _) |]; repeat split.
  - exfalso. apply (NA w f t). reflexivity.
  - destruct (due _ _); repeat split.
  - repeat split.
Qed.
Lemma meth_run : forall c n l s, length (touches s) = n -> sized n l -> no_pen l -> meth (run c s l) = method_after (meth s) l.
Proof.
  intros c n l. induction l as [|a l IH]; intros s N Z P; [reflexivity |]. cbn [run]. destruct (step_parts c s a) as [_ [_ [_ SL]]].
  rewrite (IH _ (eq_trans SL N) (fun k K => Z k (or_intror K)) (fun w f t K => P w f t (or_intror K))).
  destruct a as [f g u t|k p t|t|b| |t|t|w f t|t|m];
    try (match goal with |- context [step c s ?a] => destruct (step_meth_th c s a ltac:(intros; discriminate) ltac:(intros; discriminate)) as [E _] end; rewrite E; reflexivity).
  - rewrite fst_step_frame. destruct (frame_same c s f g u t) as [_ [_ [_ [E _]]]]. rewrite E. reflexivity.
  - exfalso. apply (P w f t). left. reflexivity.
Qed.
(** A touch alone on the touchpad: jailed exactly as long as it rests *)
Lemma lone_run : forall c n i l s x r k, detect_thumbs c = true -> (i < n)%nat -> length (touches s) = n -> sized n l -> no_pen l -> goes_on i l -> only i l -> nth_error (touches s) i = Some x -> exceeded x = k -> 0 <= k <= 15 -> jail i r (th s) ->
  jail i (r && rests c i (meth s) k l) (th (run c s l)) /\ exists y, nth_error (touches (run c s l)) i = Some y /\ exceeded y = excess i k l /\ 0 <= excess i k l <= 15.
Proof.
  intros c n i l. induction l as [|a l IH]; intros s x r k DT I N Z P G O X EX K J; [cbn; rewrite andb_true_r; split; [exact J | exists x; auto] |]. cbn [run].
  assert (Z' : sized n l) by (intros z Hz; apply Z; right; exact Hz). assert (P' : no_pen l) by (intros w f t Hz; apply (P w f t); right; exact Hz).
  assert (G' : goes_on i l) by (intros f [[g [u [t Hz]]]|[w [t Hz]]]; apply G; [left; exists g, u, t | right; exists w, t]; right; exact Hz).
  assert (O' : only i l) by (intros f g u t Hz; apply (O f g u t); right; exact Hz). destruct (step_parts c s a) as [_ [_ [_ SL]]]. rewrite N in SL.
  destruct a as [f g u t|kk p t|t|b| |t|t|w f t|t|m];
    try (match goal with |- context [step c s ?a] => destruct (step_meth_th c s a ltac:(intros; discriminate) ltac:(intros; discriminate)) as [E1 [E2 E3]] end;
         cbn [method_after] in E1; cbn [rests excess]; rewrite <- E1, ?E2 in *; apply (IH _ x r k); rewrite ?E2, ?E3; auto; fail).
  - cbn [rests excess]. destruct (G f (or_introl (ex_intro _ g (ex_intro _ u (ex_intro _ t (or_introl eq_refl)))))) as [v [V [U F]]]. destruct (O f g u t (or_introl eq_refl)) as [A ->]. rewrite V.
    assert (LF : length f = length (touches s)) by (rewrite N; apply (Z (Frame f g None t)); left; reflexivity). destruct (enter_update t x v U F) as [_ [_ [_ [EN EE]]]].
    destruct (lone_frame c s f g t i x v LF X V A (or_intror U) ltac:(rewrite EE, EX; exact K)) as [[nfd [nn [ND T1]]] [T2 [M [y [Y C]]]]]. cbn zeta in *. rewrite fst_step_frame in *.
    assert (J1 : jail i (r && (negb (dirty v) || thumb_place c (meth s) v && (k <? 10))) (th (fst (frame c s f g None t)))).
    { rewrite T2, T1. destruct (dirty v); cbn [negb orb]; [| rewrite andb_true_r; exact J].
      pose proof (update_alone c (meth s) g nfd nn (th s) i (enter t x v) r DT ND J) as W. rewrite EN, U in W. cbn [is_st] in W. rewrite orb_false_r, jail_place, EN, EE, EX in W. apply W; [auto | discriminate]. }
    rewrite andb_assoc. rewrite EE, EX in C. destruct (IH _ y (r && (negb (dirty v) || thumb_place c (meth s) v && (k <? 10))) (count v k) DT I SL Z' P' G' O' Y C (count_range v k K) J1) as [Q1 Q2]. rewrite M in Q1. split; [exact Q1 | exact Q2].
  - exfalso. apply (P w f t). left. reflexivity.
Qed.
Lemma lone_land : forall c n i s x f g t v, detect_thumbs c = true -> length (touches s) = n -> length f = n -> nth_error (touches s) i = Some x -> nth_error f i = Some v -> alone i f -> st v = BEGIN -> dirty v = true -> th s = thumb_reset ->
  jail i (thumb_place c (meth s) v) (th (fst (frame c s f g None t))) /\ th (process_state c g t (with_touches s (enter_all t (touches s) f))) = th (fst (frame c s f g None t)) /\
  exists y, nth_error (touches (fst (frame c s f g None t))) i = Some y /\ exceeded y = count v 0 /\ 0 <= count v 0 <= 15.
Proof.
  intros c n i s x f g t v DT N LF X V A B D T. destruct (enter_begin t x v B) as [_ [EN [_ EE]]].
  destruct (lone_frame c s f g t i x v (eq_trans LF (eq_sym N)) X V A (or_introl B) ltac:(rewrite EE; lia)) as [[nfd [nn [ND T1]]] [T2 [M [y [Y C]]]]]. cbn zeta in *.
  split; [| split; [symmetry; exact T2 | exists y; rewrite EE in C; repeat split; [exact Y | exact C | |]; apply (count_range v 0); lia]].
  rewrite T2, T1, D. pose proof (update_alone c (meth s) g nfd nn (th s) i (enter t x v) false DT ND) as W. rewrite EN, B in W. cbn [is_st orb andb] in W. rewrite jail_place, EN, EE in W. cbn in W. rewrite andb_true_r in W.
  apply W; auto. rewrite T. reflexivity.
Qed.
(** What a touch that is no palm does *)
Lemma output : forall c s f g u t i x v y, typing (kb s) = false -> pointing (tr s) = false -> nth_error (touches s) i = Some x -> nth_error f i = Some v -> st v = BEGIN \/ st v = UPDATE ->
  nth_error (touches (fst (frame c s f g u t))) i = Some y -> palm y = PALM_NONE ->
  nth_error (snd (frame c s f g u t)) i = Some (free_out v && negb (thumb_ignored c (match u with Some j => thumb_suppress (th (process_state c g t (with_touches s (enter_all t (touches s) f)))) j | None => th (process_state c g t (with_touches s (enter_all t (touches s) f))) end) i)).
Proof.
  intros c s f g u t i x v y QK QT H G U Y PY.
  destruct (frame_touch c s f g u t i x v H G) as [m [y' [h [P [Q [NY [R E]]]]]]]. rewrite Y in P. injection P as <-. rewrite <- E.
  rewrite R, QT, QK. cbn [orb]. unfold touch_active, is_down. rewrite NY, PY. rewrite (andb_comm (free_out v)). destruct U as [-> | ->]; reflexivity.
Qed.
(** A clean contact is no palm *)
Lemma clean_palm : forall c n b m0 h f g u t i v, no_press (h ++ [Frame f g u t]) -> no_trackpoint (h ++ [Frame f g u t]) -> no_pen (h ++ [Frame f g u t]) -> sized n (h ++ [Frame f g u t]) ->
  clean_contact c i (h ++ [Frame f g u t]) -> nth_error f i = Some v ->
  (i < n)%nat /\ (st v = BEGIN \/ st v = UPDATE) /\ exists y, nth_error (touches (fst (frame c (run c (init n b m0) h) f g u t))) i = Some y /\ palm y = PALM_NONE.
Proof.
  intros c n b m0 h f g u t i v NP NT P Z [l [f0 [g0 [u0 [t0 [m [v0 [E [V0 [L [G C]]]]]]]]]]] V.
  assert (I : (i < n)%nat) by (apply (size_lt n h f g u t i v); assumption). split; [exact I |].
  destruct (run_touch c n b m0 l i I) as [x X].
  assert (Ql : quiet (run c (init n b m0) l)).
  { assert (SL : forall z, In z l -> In z (h ++ [Frame f g u t])) by (intros z Hz; rewrite E; apply in_or_app; left; exact Hz).
    split; [rewrite kb_run; apply no_press_stays; [reflexivity | intros k' t' K; apply (NP k' t' (SL _ K))] | split].
    - rewrite tr_run. apply trp_none; auto. intros t' K. apply (NT t' (SL _ K)).
    - apply no_pen_run. intros w f' t' K. apply (P w f' t' (SL _ K)). }
  assert (LF0 : length f0 = n) by (rewrite E in Z; apply (Z (Frame f0 g0 u0 t0)); apply in_or_app; right; left; reflexivity).
  destruct (frame_touch c (run c (init n b m0) l) f0 g0 u0 t0 i x v0 X V0) as [mm [y0 [hh [Y0 [[_ [Q0 _]] _]]]]].
  assert (PY0 : palm y0 = PALM_NONE).
  { rewrite Q0. apply (plain_after c (run c (init n b m0) l) mm t0 x v0 Ql (or_introl L)). }
  destruct m as [|a m _] using rev_ind.
  - apply app_inj_tail in E. destruct E as [<- E]. injection E as <- <- <- <-. rewrite V in V0. injection V0 as <-. destruct L as [B _]. split; [auto |]. exists y0. auto.
  - change (l ++ Frame f0 g0 u0 t0 :: m ++ [a]) with (l ++ (Frame f0 g0 u0 t0 :: m) ++ [a]) in E. rewrite app_assoc in E. apply app_inj_tail in E. destruct E as [E <-]. subst h.
    destruct (goes_on_app i m _ G) as [G1 G2].
    assert (Zm : sized n m) by (intros z Hz; apply Z; apply in_or_app; left; apply in_or_app; right; right; exact Hz).
    assert (Cm : all_calm c i m) by (intros f' g' u' t' v' In' V'; apply (C f' g' u' t' v'); [apply in_or_app; left; exact In' | exact V']).
    assert (Pm : no_pen m) by (intros w f' t' In'; apply (P w f' t'); apply in_or_app; left; apply in_or_app; right; right; exact In').
    set (s0 := run c (init n b m0) l) in *.
    assert (E2 : run c (init n b m0) (l ++ Frame f0 g0 u0 t0 :: m) = run c (fst (frame c s0 f0 g0 u0 t0)) m).
    { change (Frame f0 g0 u0 t0 :: m) with ([Frame f0 g0 u0 t0] ++ m). do 2 rewrite run_app. cbn [run]. rewrite fst_step_frame. reflexivity. }
    assert (A1 : astate (ar (fst (frame c s0 f0 g0 u0 t0))) = ARB_NONE) by (destruct (frame_same c s0 f0 g0 u0 t0) as [_ [_ [A _]]]; rewrite A; apply Ql).
    destruct (stays_clean c n i m _ y0 I Zm G1 Cm Pm A1 Y0 PY0) as [y1 [Y1 [P1 _]]]. rewrite E2.
    destruct (G2 f (or_introl (ex_intro _ g (ex_intro _ u (ex_intro _ t (or_introl eq_refl)))))) as [v' [V' [SU FV]]]. rewrite V in V'. injection V' as <-. split; [auto |].
    set (s1 := run c (fst (frame c s0 f0 g0 u0 t0)) m) in *.
    assert (Q1 : quiet s1).
    { rewrite <- E2. assert (SL : forall z, In z (l ++ Frame f0 g0 u0 t0 :: m) -> In z ((l ++ Frame f0 g0 u0 t0 :: m) ++ [Frame f g u t])) by (intros z Hz; apply in_or_app; left; exact Hz).
      split; [rewrite kb_run; apply no_press_stays; [reflexivity | intros k' t' K; apply (NP k' t' (SL _ K))] | split].
      - rewrite tr_run. apply trp_none; auto. intros t' K. apply (NT t' (SL _ K)).
      - apply no_pen_run. intros w f' t' K. apply (P w f' t' (SL _ K)). }
    destruct (frame_touch c s1 f g u t i y1 v Y1 V) as [mm1 [y2 [h2 [Y2 [[_ [Q2 _]] _]]]]]. exists y2. split; [exact Y2 |]. rewrite Q2.
    apply (plain_after c s1 mm1 t y1 v Q1). right. split; [exact SU | split; [exact FV | split; [| exact P1]]]. apply (C f g u t v); [apply in_or_app; right; left; reflexivity | exact V].
Qed.
