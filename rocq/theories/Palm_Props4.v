(** * Thumbs (C49) *)
Require Import Coq.ZArith.ZArith Coq.Lists.List Coq.Bool.Bool Coq.micromega.Lia.
Require Import Verif.Palm_Model Verif.Palm_Spec Verif.Palm_Spec2 Verif.Palm_Proofs1 Verif.Palm_Proofs2 Verif.Palm_Proofs3 Verif.Palm_Proofs4 Verif.Palm_Proofs5 Verif.Palm_Proofs6 Verif.Palm_Proofs7 Verif.Palm_Proofs8 Verif.Palm_Proofs9 Verif.Palm_Props Verif.Palm_Props2.
Require Verif.Es_Model Verif.Gest_Model.
Import ListNotations.
Open Scope Z_scope.
Local Arguments frame : simpl never.
Local Arguments keyboard_event : simpl never.

Lemma touches_only_app : forall a b, touches_only (a ++ b) -> touches_only a /\ touches_only b.
Proof.
  intros a b [A [B C]]. repeat split.
  - intros k t K. apply (A k t). apply in_or_app. auto.
  - intros t K. apply (B t). apply in_or_app. auto.
  - intros w f t K. apply (C w f t). apply in_or_app. auto.
  - intros k t K. apply (A k t). apply in_or_app. auto.
  - intros t K. apply (B t). apply in_or_app. auto.
  - intros w f t K. apply (C w f t). apply in_or_app. auto.
Qed.
Lemma quiet_after : forall c n b m0 l, touches_only l -> typing (kb (run c (init n b m0) l)) = false /\ pointing (tr (run c (init n b m0) l)) = false.
Proof. intros c n b m0 l [A [B C]]. split; [apply no_press_run; exact A | apply no_point_run; exact B]. Qed.
(** What a clean contact does in a frame *)
Lemma clean_output : forall c n b m0 h f g u t i v, touches_only (h ++ [Frame f g u t]) -> sized n (h ++ [Frame f g u t]) -> clean_contact c i (h ++ [Frame f g u t]) -> nth_error f i = Some v ->
  let s := run c (init n b m0) h in let z := th (process_state c g t (with_touches s (enter_all t (touches s) f))) in
  nth_error (moving c n b m0 h f g u t) i = Some (free_out v && negb (thumb_ignored c (match u with Some j => thumb_suppress z j | None => z end) i)).
Proof.
  intros c n b m0 h f g u t i v [NP [NT P]] Z C V s z. destruct (clean_palm c n b m0 h f g u t i v NP NT P Z C V) as [I [U [y [Y PY]]]].
  destruct (run_touch c n b m0 h i I) as [x X]. destruct (quiet_after c n b m0 h) as [Q1 Q2]; [apply (touches_only_app h [Frame f g u t]); split; [exact NP | split; assumption] |].
  apply (output c s f g u t i x v y); assumption.
Qed.
Lemma ignored_ix : forall c h i, thumb_ignored c h i = true -> tix h = Some i.
Proof. intros c h i H. unfold thumb_ignored in H. apply andb_true_iff in H. destruct H as [H _]. apply andb_true_iff in H. destruct H as [_ H]. unfold same_ix in H. destruct (tix h); [| discriminate]. apply Nat.eqb_eq in H. congruence. Qed.

(** Of any two fingers on the touchpad at most one is taken for a thumb, whatever happened before. *)
Theorem C49_one_thumb : forall c n b m0 h f g u t i j v w, touches_only (h ++ [Frame f g u t]) -> sized n (h ++ [Frame f g u t]) -> i <> j ->
  clean_contact c i (h ++ [Frame f g u t]) -> clean_contact c j (h ++ [Frame f g u t]) -> nth_error f i = Some v -> nth_error f j = Some w ->
  nth_error (moving c n b m0 h f g u t) i = Some (free_out v) \/ nth_error (moving c n b m0 h f g u t) j = Some (free_out w).
Proof.
  intros c n b m0 h f g u t i j v w T Z NE Ci Cj V W. rewrite (clean_output c n b m0 h f g u t i v T Z Ci V), (clean_output c n b m0 h f g u t j w T Z Cj W). cbn zeta.
  set (z := match u with Some _ => _ | None => _ end). destruct (thumb_ignored c z i) eqn:E1; [| left; cbn; rewrite andb_true_r; reflexivity].
  destruct (thumb_ignored c z j) eqn:E2; [| right; cbn; rewrite andb_true_r; reflexivity]. exfalso. apply ignored_ix in E1. apply ignored_ix in E2. congruence.
Qed.
Lemma jail_ignored : forall c i r h, detect_thumbs c = true -> jail i r h -> thumb_ignored c h i = r.
Proof. intros c i r h D J. unfold thumb_ignored. rewrite D. destruct r; cbn in J; [destruct J as [-> ->]; cbn; rewrite Nat.eqb_refl; reflexivity | rewrite J; apply andb_false_r]. Qed.
(** A finger alone on the touchpad is taken for a thumb exactly as long as it has been resting where a thumb rests ever since it came down. *)
Theorem C49_lone_thumb : forall c n b m0 l f0 g0 t0 m f g t i v0 v, detect_thumbs c = true -> idle_from true l -> touches_only (l ++ Frame f0 g0 None t0 :: m ++ [Frame f g None t]) -> sized n (l ++ Frame f0 g0 None t0 :: m ++ [Frame f g None t]) ->
  nth_error f0 i = Some v0 -> lands c v0 -> goes_on i (m ++ [Frame f g None t]) -> all_calm c i (m ++ [Frame f g None t]) -> only i (Frame f0 g0 None t0 :: m ++ [Frame f g None t]) -> nth_error f i = Some v ->
  nth_error (moving c n b m0 l f0 g0 None t0) i = Some (free_out v0 && negb (thumb_place c (method_after m0 l) v0)) /\
  nth_error (moving c n b m0 (l ++ Frame f0 g0 None t0 :: m) f g None t) i = Some (free_out v && negb (rests c i (method_after m0 l) 0 (Frame f0 g0 None t0 :: m ++ [Frame f g None t]))).
Proof.
  intros c n b m0 l f0 g0 t0 m f g t i v0 v DT ID T Z V0 L G C O V.
  assert (EQ : l ++ Frame f0 g0 None t0 :: m ++ [Frame f g None t] = (l ++ Frame f0 g0 None t0 :: m) ++ [Frame f g None t]) by (rewrite <- app_assoc; reflexivity).
  assert (EQ0 : l ++ Frame f0 g0 None t0 :: m ++ [Frame f g None t] = (l ++ [Frame f0 g0 None t0]) ++ m ++ [Frame f g None t]) by (rewrite <- app_assoc; reflexivity).
  assert (T1 : touches_only ((l ++ Frame f0 g0 None t0 :: m) ++ [Frame f g None t])) by (rewrite <- EQ; exact T). assert (Z1 : sized n ((l ++ Frame f0 g0 None t0 :: m) ++ [Frame f g None t])) by (rewrite <- EQ; exact Z).
  assert (T0 : touches_only (l ++ [Frame f0 g0 None t0])) by (rewrite EQ0 in T; apply (touches_only_app _ _ T)).
  assert (Z0 : sized n (l ++ [Frame f0 g0 None t0])) by (intros z Hz; apply Z; rewrite EQ0; apply in_or_app; left; exact Hz). split.
  - rewrite (clean_output c n b m0 l f0 g0 None t0 i v0 T0 Z0); auto; [| exists l, f0, g0, None, t0, [], v0; refine (conj eq_refl (conj V0 (conj L (conj _ _)))); [intros f' [[g' [u' [t' []]]]|[w' [t' []]]] | intros f' g' u' t' v' []]].
    cbn zeta. f_equal. f_equal. f_equal. set (s0 := run c (init n b m0) l).
    assert (LF : length f0 = n) by (apply (Z (Frame f0 g0 None t0)); apply in_or_app; right; left; reflexivity). assert (I : (i < n)%nat) by (rewrite <- LF; apply nth_error_Some; congruence).
    destruct (run_touch c n b m0 l i I) as [x0 X0]. fold s0 in X0. destruct (touches_only_app _ _ T0) as [[_ [_ Pl]] _].
    assert (Zl : sized n l) by (intros z Hz; apply Z; apply in_or_app; left; exact Hz).
    assert (TH : th s0 = thumb_reset) by (apply (idle_thumb c n l (init n b m0) true); auto; cbn; apply repeat_length).
    assert (M0 : meth s0 = method_after m0 l) by (unfold s0; rewrite (meth_run c n l (init n b m0)); auto; cbn; apply repeat_length).
    destruct (O f0 g0 None t0 (or_introl eq_refl)) as [A _]. destruct L as [B [_ [D _]]].
    destruct (lone_land c n i s0 x0 f0 g0 t0 v0 DT (run_length c n b m0 l) LF X0 V0 A B D TH) as [J1 [E1 _]]. rewrite E1. rewrite M0 in J1. apply jail_ignored; assumption.
  - rewrite (clean_output c n b m0 (l ++ Frame f0 g0 None t0 :: m) f g None t i v T1 Z1); auto; [| exists l, f0, g0, None, t0, (m ++ [Frame f g None t]), v0; auto 7].
    cbn zeta. f_equal. f_equal. f_equal. set (s := run c (init n b m0) (l ++ Frame f0 g0 None t0 :: m)).
    destruct (touches_only_app _ _ T1) as [[_ [_ P]] _]. assert (Zs : sized n (l ++ Frame f0 g0 None t0 :: m)) by (intros z Hz; apply Z1; apply in_or_app; left; exact Hz).
    destruct (goes_on_app i m _ G) as [G1 G2]. assert (O1 : only i (Frame f0 g0 None t0 :: m)) by (intros f' g' u' t' K; apply (O f' g' u' t'); destruct K as [K|K]; [left; exact K | right; apply in_or_app; left; exact K]).
    destruct L as [B [_ [D _]]]. destruct (lone_history c n b m0 l f0 g0 t0 m i v0 DT ID P Zs V0 B D G1 O1) as [J [M [x [X [EX [K _]]]]]]. fold s in J, M, X.
    assert (LF : length f = length (touches s)) by (unfold s; rewrite run_length; apply (Z1 (Frame f g None t)); apply in_or_app; right; left; reflexivity).
    destruct (G2 f (or_introl (ex_intro _ g (ex_intro _ None (ex_intro _ t (or_introl eq_refl)))))) as [v' [V' [SU FV]]]. rewrite V in V'. injection V' as <-.
    assert (A : alone i f) by (apply (O f g None t); right; apply in_or_app; right; left; reflexivity).
    destruct (enter_update t x v SU FV) as [_ [_ [_ [EN EE]]]].
    destruct (lone_frame c s f g t i x v LF X V A (or_intror SU) ltac:(rewrite EE; exact K)) as [[nfd [nn [ND T2]]] _]. cbn zeta in T2. rewrite T2.
    assert (RA : forall a m1 k, rests c i m1 k (a ++ [Frame f g None t]) = rests c i m1 k a && (negb (dirty v) || thumb_place c (method_after m1 a) v && (excess i k a <? 10))).
    { induction a as [|y a IH]; intros m1 k; cbn [rests app excess method_after]; [rewrite V, andb_true_r; reflexivity |]. destruct y; try apply IH. destruct (nth_error f1 i); [rewrite IH, andb_assoc; reflexivity | apply IH]. }
    change (Frame f0 g0 None t0 :: m ++ [Frame f g None t]) with ((Frame f0 g0 None t0 :: m) ++ [Frame f g None t]). rewrite RA, <- EX.
    assert (ME : method_after (method_after m0 l) (Frame f0 g0 None t0 :: m) = meth s).
    { rewrite M. clear. revert m0. induction l as [|y l IH]; intros m0; [reflexivity |]. destruct y; cbn [method_after app]; apply IH. }
    rewrite ME. set (R := rests c i (method_after m0 l) 0 (Frame f0 g0 None t0 :: m)) in *. apply jail_ignored; [exact DT |].
    destruct (dirty v); cbn [negb orb]; [| rewrite andb_true_r; exact J]. pose proof (update_alone c (meth s) g nfd nn (th s) i (enter t x v) R DT ND J) as W. rewrite EN, SU in W. cbn [is_st] in W. rewrite orb_false_r, jail_place, EN, EE in W. apply W; [auto | discriminate].
Qed.

(** ** Two fingers *)
(** Two fingers less than 35 mm by 25 mm apart can scroll: with two-finger scrolling both are fingers when the second comes down, wherever they are and whatever the first was taken for before. *)
Theorem C49_scroll_pair : forall c n b m0 h f g t i j v w, touches_only (h ++ [Frame f g None t]) -> sized n (h ++ [Frame f g None t]) -> i <> j -> method_after m0 h = Es_Model.M_2FG ->
  clean_contact c i (h ++ [Frame f g None t]) -> nth_error f i = Some v -> st v = UPDATE -> fresh v = false -> nth_error f j = Some w -> lands c w -> pair_ i j f -> near c v w ->
  nth_error (moving c n b m0 h f g None t) i = Some (free_out v) /\ nth_error (moving c n b m0 h f g None t) j = Some (free_out w).
Proof.
  intros c n b m0 h f g t i j v w T Z NE M Ci V U F W L PR NR.
  assert (Cj : clean_contact c j (h ++ [Frame f g None t])) by (exists h, f, g, None, t, [], w; refine (conj eq_refl (conj W (conj L (conj _ _)))); [intros f' [[g' [u' [t' []]]]|[w' [t' []]]] | intros f' g' u' t' v' []]).
  rewrite (clean_output c n b m0 h f g None t i v T Z Ci V), (clean_output c n b m0 h f g None t j w T Z Cj W). cbn zeta. set (s := run c (init n b m0) h).
  assert (Fi : forall k, thumb_ignored c (th (process_state c g t (with_touches s (enter_all t (touches s) f)))) k = false).
  { intro k. destruct (detect_thumbs c) eqn:DT; [| apply finger_not_ignored; left; exact DT]. apply finger_not_ignored. right.
    assert (LF : length f = n) by (apply (Z (Frame f g None t)); apply in_or_app; right; left; reflexivity). assert (I : (i < n)%nat) by (rewrite <- LF; apply nth_error_Some; congruence).
    destruct (run_touch c n b m0 h i I) as [x X]. fold s in X. destruct (touches_only_app _ _ T) as [[_ [_ P]] _].
    assert (RX : 0 <= exceeded x <= 15) by (apply (ranged_run c h (init n b m0) P (ranged_init n b m0)); apply (nth_error_In _ i X)).
    assert (LS : length f = length (touches s)) by (unfold s; rewrite run_length; exact LF).
    destruct L as [B [_ [D _]]]. destruct (pair_thumb c s f g t i j x v w DT LS NE X V W PR U F B D RX) as [nfd [l [hh [a [bb [N2 [_ [FP [A1 [A2 [_ [_ [_ [_ E]]]]]]]]]]]]]].
    rewrite E. assert (ME : meth s = Es_Model.M_2FG) by (unfold s; rewrite (meth_run c n h (init n b m0)); auto; [cbn; apply repeat_length | intros z Hz; apply Z; apply in_or_app; left; exact Hz]).
    apply (multi_near c (meth s) nfd l hh i j a bb FP N2); [left; exact ME | rewrite A1, A2; exact NR]. }
  rewrite !Fi. cbn. rewrite !andb_true_r. auto.
Qed.
(** The other cases of a finger that comes down beside one that was alone *)
Section Beside.
Variables (c : config) (n : nat) (b : bool) (m0 : Es_Model.smethod) (l : list input) (f0 : list seen) (g0 : bool) (t0 : Z) (m : list input) (f : list seen) (g : bool) (t : Z) (i j : nat) (v0 v w : seen).
Hypothesis DT : detect_thumbs c = true.
Hypothesis ID : idle_from true l.
Hypothesis T : touches_only ((l ++ Frame f0 g0 None t0 :: m) ++ [Frame f g None t]).
Hypothesis Z : sized n ((l ++ Frame f0 g0 None t0 :: m) ++ [Frame f g None t]).
Hypothesis V0 : nth_error f0 i = Some v0.
Hypothesis L0 : lands c v0.
Hypothesis G : goes_on i (m ++ [Frame f g None t]).
Hypothesis C : all_calm c i (m ++ [Frame f g None t]).
Hypothesis O : only i (Frame f0 g0 None t0 :: m).
Hypothesis NE : i <> j.
Hypothesis V : nth_error f i = Some v.
Hypothesis W : nth_error f j = Some w.
Hypothesis L : lands c w.
Hypothesis PR : pair_ i j f.
Let R := rests c i (method_after m0 l) 0 (Frame f0 g0 None t0 :: m).
Let K := excess i 0 (Frame f0 g0 None t0 :: m ++ [Frame f g None t]).
Lemma beside : exists nfd lt hh a bb, (2 <= nfd)%nat /\ jail i R hh /\ found_pair (look_all found0 0 lt) i j a bb /\ now a = v /\ now bb = w /\ itime a = t0 /\ itime bb = t /\ exceeded a = K /\ exceeded bb = count w 0 /\
  (let z := thumb_update_multifinger c (method_after m0 (l ++ Frame f0 g0 None t0 :: m)) nfd lt hh in
   nth_error (moving c n b m0 (l ++ Frame f0 g0 None t0 :: m) f g None t) i = Some (free_out v && negb (thumb_ignored c z i)) /\
   nth_error (moving c n b m0 (l ++ Frame f0 g0 None t0 :: m) f g None t) j = Some (free_out w && negb (thumb_ignored c z j))).
Proof.
  set (h := l ++ Frame f0 g0 None t0 :: m) in *.
  assert (Cj : clean_contact c j (h ++ [Frame f g None t])) by (exists h, f, g, None, t, [], w; refine (conj eq_refl (conj W (conj L (conj _ _)))); [intros f' [[g' [u' [t' []]]]|[w' [t' []]]] | intros f' g' u' t' v' []]).
  assert (Ci : clean_contact c i (h ++ [Frame f g None t])) by (exists l, f0, g0, None, t0, (m ++ [Frame f g None t]), v0; unfold h; rewrite <- app_assoc; auto 7).
  destruct (touches_only_app _ _ T) as [[_ [_ P]] _]. assert (Zs : sized n h) by (intros z Hz; apply Z; apply in_or_app; left; exact Hz). destruct (goes_on_app i m _ G) as [G1 G2].
  destruct L0 as [B0 [_ [D0 _]]]. destruct (lone_history c n b m0 l f0 g0 t0 m i v0 DT ID P Zs V0 B0 D0 G1 O) as [J [M [x [X [EX [KX IX]]]]]]. fold h in J, M, X. fold R in J.
  set (s := run c (init n b m0) h) in *.
  assert (LS : length f = length (touches s)) by (unfold s; rewrite run_length; apply (Z (Frame f g None t)); apply in_or_app; right; left; reflexivity).
  destruct (G2 f (or_introl (ex_intro _ g (ex_intro _ None (ex_intro _ t (or_introl eq_refl)))))) as [v' [V' [SU FV]]]. rewrite V in V'. injection V' as <-. destruct L as [B [_ [D _]]].
  destruct (pair_thumb c s f g t i j x v w DT LS NE X V W PR SU FV B D KX) as [nfd [lt [hh [a [bb [N2 [HH [FP [A1 [A2 [A3 [A4 [A5 [A6 E]]]]]]]]]]]]]].
  exists nfd, lt, hh, a, bb. refine (conj N2 (conj _ (conj FP (conj A1 (conj A2 (conj _ (conj A4 (conj _ (conj A6 _))))))))).
  - destruct HH as [H1 H2]; [unfold jail in J; destruct R; [destruct J as [J _] |]; rewrite J; discriminate |]. unfold jail in *. destruct R; rewrite H1, ?H2; exact J.
  - congruence.
  - rewrite A5, EX. unfold K. clear -V. change (Frame f0 g0 None t0 :: m ++ [Frame f g None t]) with ((Frame f0 g0 None t0 :: m) ++ [Frame f g None t]). generalize (Frame f0 g0 None t0 :: m). intro a. generalize 0. induction a as [|y a IH]; intros k; cbn [app excess]; [rewrite V; reflexivity |].
    destruct y; try apply IH. destruct (nth_error f1 i); apply IH.
  - cbn zeta. rewrite (clean_output c n b m0 h f g None t i v T Z Ci V), (clean_output c n b m0 h f g None t j w T Z Cj W). cbn zeta. fold s. rewrite E, M. auto.
Qed.
Lemma not_ignored : forall h k, tst h = TH_FINGER -> thumb_ignored c h k = false.
Proof. intros h k H. apply finger_not_ignored. right. exact H. Qed.
Lemma beside_near : K <= 5 -> near c v w -> nth_error (moving c n b m0 (l ++ Frame f0 g0 None t0 :: m) f g None t) i = Some (free_out v) /\ nth_error (moving c n b m0 (l ++ Frame f0 g0 None t0 :: m) f g None t) j = Some (free_out w).
Proof.
  intros S N. destruct beside as [nfd [lt [hh [a [bb [N2 [J [FP [A1 [A2 [A3 [A4 [A5 [A6 [E1 E2]]]]]]]]]]]]]]]. rewrite E1, E2. rewrite !not_ignored; [cbn; rewrite !andb_true_r; auto | |];
    apply (multi_near c _ nfd lt hh i j a bb FP N2); rewrite ?A1, ?A2; try exact N; right; rewrite A5, A6; (split; [exact S | unfold count; destruct (dirty w && fast w); lia]).
Qed.
Lemma beside_together : K <= 5 -> t0 <= t < t0 + 100000 -> hy v < lower_thumb_line c -> hy w < lower_thumb_line c ->
  nth_error (moving c n b m0 (l ++ Frame f0 g0 None t0 :: m) f g None t) i = Some (free_out v) /\ nth_error (moving c n b m0 (l ++ Frame f0 g0 None t0 :: m) f g None t) j = Some (free_out w).
Proof.
  intros S TT H1 H2. destruct beside as [nfd [lt [hh [a [bb [N2 [J [FP [A1 [A2 [A3 [A4 [A5 [A6 [E1 E2]]]]]]]]]]]]]]]. rewrite E1, E2. rewrite !not_ignored; [cbn; rewrite !andb_true_r; auto | |];
    apply (multi_together c _ nfd lt hh i j a bb FP N2); rewrite ?A1, ?A2, ?A3, ?A4; try lia; rewrite A5, A6; (split; [exact S | unfold count; destruct (dirty w && fast w); lia]).
Qed.
Lemma beside_fast : R = false -> 5 < K -> method_after m0 (l ++ Frame f0 g0 None t0 :: m) <> Es_Model.M_2FG \/ beyond c v w ->
  nth_error (moving c n b m0 (l ++ Frame f0 g0 None t0 :: m) f g None t) i = Some (free_out v) /\ nth_error (moving c n b m0 (l ++ Frame f0 g0 None t0 :: m) f g None t) j = Some false.
Proof.
  intros RR S B. destruct beside as [nfd [lt [hh [a [bb [N2 [J [FP [A1 [A2 [A3 [A4 [A5 [A6 [E1 E2]]]]]]]]]]]]]]]. rewrite E1, E2. rewrite RR in J. cbn in J.
  destruct (multi_fast c (method_after m0 (l ++ Frame f0 g0 None t0 :: m)) nfd lt hh i j a bb FP N2 J) as [Q1 Q2]; [rewrite A5; exact S | rewrite A1, A2; exact B |].
  unfold thumb_ignored. rewrite Q1, Q2, DT. cbn. rewrite Nat.eqb_refl. replace (Nat.eqb j i) with false by (symmetry; apply Nat.eqb_neq; congruence). cbn. rewrite andb_true_r, andb_false_r. auto.
Qed.
Lemma beside_below : R = true \/ K <= 5 -> 0 <= Gest_Model.ry (gp c) -> t0 <= t -> t0 + 100000 <= t \/ lower_thumb_line c <= Z.max (hy v) (hy w) ->
  (far_below c v w -> nth_error (moving c n b m0 (l ++ Frame f0 g0 None t0 :: m) f g None t) i = Some false /\ nth_error (moving c n b m0 (l ++ Frame f0 g0 None t0 :: m) f g None t) j = Some (free_out w)) /\
  (far_below c w v -> nth_error (moving c n b m0 (l ++ Frame f0 g0 None t0 :: m) f g None t) i = Some (free_out v) /\ nth_error (moving c n b m0 (l ++ Frame f0 g0 None t0 :: m) f g None t) j = Some false).
Proof.
  intros RR RY TT LT. destruct beside as [nfd [lt [hh [a [bb [N2 [J [FP [A1 [A2 [A3 [A4 [A5 [A6 [E1 E2]]]]]]]]]]]]]]]. rewrite E1, E2. clear E1 E2.
  assert (JJ : jail i true hh \/ (tst hh = TH_FINGER /\ exceeded a <= 5 /\ exceeded bb <= 5)).
  { destruct R eqn:ER; [left; exact J |]. right. destruct RR as [RR|RR]; [discriminate |]. split; [exact J |]. rewrite A5, A6. split; [exact RR |]. unfold count. destruct (dirty w && fast w); lia. }
  pose proof (multi_below c (method_after m0 (l ++ Frame f0 g0 None t0 :: m)) nfd lt hh i j a bb FP N2 JJ) as MB. rewrite A1, A2, A3, A4 in MB.
  assert (NJ : Nat.eqb j i = false) by (apply Nat.eqb_neq; congruence). assert (NI : Nat.eqb i j = false) by (apply Nat.eqb_neq; exact NE).
  split; intro FB; destruct MB as [Q1 Q2]; auto; try lia; unfold far_below in FB.
  - replace (hy w <? hy v) with true in Q2 by (symmetry; apply Z.ltb_lt; lia). unfold thumb_ignored. rewrite Q2, DT. destruct Q1 as [-> | ->]; cbn; rewrite Nat.eqb_refl, NI; cbn; rewrite andb_true_r, andb_false_r; auto.
  - replace (hy w <? hy v) with false in Q2 by (symmetry; apply Z.ltb_ge; lia). unfold thumb_ignored. rewrite Q2, DT. destruct Q1 as [-> | ->]; cbn; rewrite Nat.eqb_refl, NJ; cbn; rewrite andb_true_r, andb_false_r; auto.
Qed.
End Beside.

(** Two fingers that come down within 100 ms of each other, both above the lower thumb line, are both fingers, however far apart. *)
Theorem C49_together : forall c n b m0 l f0 g0 t0 m f g t i j v w, joined c n l f0 g0 t0 m f g t i j v w ->
  excess i 0 (Frame f0 g0 None t0 :: m ++ [Frame f g None t]) <= 5 -> t0 <= t < t0 + 100000 -> hy v < lower_thumb_line c -> hy w < lower_thumb_line c ->
  nth_error (moving c n b m0 (l ++ Frame f0 g0 None t0 :: m) f g None t) i = Some (free_out v) /\ nth_error (moving c n b m0 (l ++ Frame f0 g0 None t0 :: m) f g None t) j = Some (free_out w).
Proof. intros c n b m0 l f0 g0 t0 m f g t i j v w [A [B [C [D [[v0 [E1 E2]] [F [G [H [I [J [K [L M]]]]]]]]]]]]. intros. apply (beside_together c n b m0 l f0 g0 t0 m f g t i j v0 v w); assumption. Qed.
(** A finger that comes down less than 35 mm by 25 mm from a slow one: both are fingers, whatever the scroll method. *)
Theorem C49_next_to_slow : forall c n b m0 l f0 g0 t0 m f g t i j v w, joined c n l f0 g0 t0 m f g t i j v w ->
  excess i 0 (Frame f0 g0 None t0 :: m ++ [Frame f g None t]) <= 5 -> near c v w ->
  nth_error (moving c n b m0 (l ++ Frame f0 g0 None t0 :: m) f g None t) i = Some (free_out v) /\ nth_error (moving c n b m0 (l ++ Frame f0 g0 None t0 :: m) f g None t) j = Some (free_out w).
Proof. intros c n b m0 l f0 g0 t0 m f g t i j v w [A [B [C [D [[v0 [E1 E2]] [F [G [H [I [J [K [L M]]]]]]]]]]]]. intros. apply (beside_near c n b m0 l f0 g0 t0 m f g t i j v0 v w); assumption. Qed.
(** A touch that comes down while a finger moves the pointer fast is a thumb and does not disturb it, unless it comes down where two fingers would scroll. *)
Theorem C49_fast_pointer : forall c n b m0 l f0 g0 t0 m f g t i j v w, joined c n l f0 g0 t0 m f g t i j v w ->
  rests c i (method_after m0 l) 0 (Frame f0 g0 None t0 :: m) = false -> 5 < excess i 0 (Frame f0 g0 None t0 :: m ++ [Frame f g None t]) ->
  method_after m0 (l ++ Frame f0 g0 None t0 :: m) <> Es_Model.M_2FG \/ beyond c v w ->
  nth_error (moving c n b m0 (l ++ Frame f0 g0 None t0 :: m) f g None t) i = Some (free_out v) /\ nth_error (moving c n b m0 (l ++ Frame f0 g0 None t0 :: m) f g None t) j = Some false.
Proof. intros c n b m0 l f0 g0 t0 m f g t i j v w [A [B [C [D [[v0 [E1 E2]] [F [G [H [I [J [K [L M]]]]]]]]]]]]. intros. apply (beside_fast c n b m0 l f0 g0 t0 m f g t i j v0 v w); assumption. Qed.
(** Of two slow touches more than 25 mm apart vertically that did not come down together the lower one is the thumb, whichever came first. *)
Theorem C49_lower_is_thumb : forall c n b m0 l f0 g0 t0 m f g t i j v w, joined c n l f0 g0 t0 m f g t i j v w ->
  rests c i (method_after m0 l) 0 (Frame f0 g0 None t0 :: m) = true \/ excess i 0 (Frame f0 g0 None t0 :: m ++ [Frame f g None t]) <= 5 -> 0 <= Gest_Model.ry (gp c) ->
  t0 <= t -> t0 + 100000 <= t \/ lower_thumb_line c <= Z.max (hy v) (hy w) ->
  (far_below c v w -> nth_error (moving c n b m0 (l ++ Frame f0 g0 None t0 :: m) f g None t) i = Some false /\ nth_error (moving c n b m0 (l ++ Frame f0 g0 None t0 :: m) f g None t) j = Some (free_out w)) /\
  (far_below c w v -> nth_error (moving c n b m0 (l ++ Frame f0 g0 None t0 :: m) f g None t) i = Some (free_out v) /\ nth_error (moving c n b m0 (l ++ Frame f0 g0 None t0 :: m) f g None t) j = Some false).
Proof. intros c n b m0 l f0 g0 t0 m f g t i j v w [A [B [C [D [[v0 [E1 E2]] [F [G [H [I [J [K [L M]]]]]]]]]]]]. intros. apply (beside_below c n b m0 l f0 g0 t0 m f g t i j v0 v w); assumption. Qed.

(** ** What does not hold *)
Definition thumb_at (s : tstate) (fr d fs : bool) (x y : Z) : seen := {| st := s; fresh := fr; dirty := d; px := x; py := y; pressure := 40; major := 100; minor := 80; toolpalm := false;
  soft := false; redge := false; fast := fs; hx := x; hy := y; free_pre := true; free_mid := true; free_out := true |}.
Definition nothing : seen := thumb_at NONE false false false 0 0.
Ltac hist4 := repeat match goal with
  | |- touches_only _ => refine (conj _ (conj _ _)); unfold no_press, no_trackpoint, no_pen; cbn; intuition discriminate
  | |- sized _ _ => intros z X; cbn in X; repeat (destruct X as [X|X]; [subst z; reflexivity |]); destruct X
  | |- goes_on _ _ => intros fr [[g' [u' [t' X]]]|[w' [t' X]]]; cbn in X; repeat (destruct X as [X|X]; [first [discriminate X | injection X; intros; subst; eexists; repeat split; reflexivity] |]); destruct X
  | |- all_calm _ _ _ => intros fr g' u' t' v' X V; cbn in X; repeat (destruct X as [X|X]; [first [discriminate X | injection X; intros; subst; cbn in V; injection V; intros; subst; repeat split; intros; cbn; (lia || reflexivity)] |]); destruct X
  | |- only _ _ => intros fr g' u' t' X; cbn in X; repeat (destruct X as [X|X]; [first [discriminate X | injection X; intros; subst; split; [| reflexivity]] |]); [.. | destruct X]
  | |- alone _ _ => intros k x V N; repeat (destruct k as [|k]; [first [congruence | cbn in V; injection V; intros; subst; reflexivity] |]); destruct k; discriminate V
  | |- pair_ _ _ _ => intros k x V N1 N2; repeat (destruct k as [|k]; [first [congruence | cbn in V; injection V; intros; subst; reflexivity] |]); destruct k; discriminate V
  | |- lands _ _ => repeat split; cbn; intros; (lia || reflexivity)
  end.
(** A thumb at rest moves the pointer once a finger hovers above the touchpad, although it has not moved and nothing else touches it. *)
Theorem C49_hover_refuted : exists c n b m0 l f0 g0 t0 m f g t i v0 v, detect_thumbs c = true /\ idle_from true l /\ touches_only (l ++ Frame f0 g0 None t0 :: m ++ [Frame f g None t]) /\ sized n (l ++ Frame f0 g0 None t0 :: m ++ [Frame f g None t]) /\
  nth_error f0 i = Some v0 /\ lands c v0 /\ goes_on i (m ++ [Frame f g None t]) /\ all_calm c i (m ++ [Frame f g None t]) /\
  (forall f' g' u t', In (Frame f' g' u t') (Frame f0 g0 None t0 :: m ++ [Frame f g None t]) -> u = None /\ forall k x, nth_error f' k = Some x -> k <> i -> st x = NONE \/ st x = HOVERING) /\
  nth_error f i = Some v /\ rests c i (method_after m0 l) 0 (Frame f0 g0 None t0 :: m ++ [Frame f g None t]) = true /\ nth_error (moving c n b m0 (l ++ Frame f0 g0 None t0 :: m) f g None t) i = Some true.
Proof.
  exists ex_config, 2%nat, true, Es_Model.M_2FG, [], [thumb_at BEGIN true true false 500 600; nothing], true, 10000, [], [thumb_at UPDATE false false false 500 600; thumb_at HOVERING true true false 500 300], true, 20000, 0%nat, (thumb_at BEGIN true true false 500 600), (thumb_at UPDATE false false false 500 600).
  refine (conj eq_refl (conj _ (conj _ (conj _ (conj eq_refl (conj _ (conj _ (conj _ (conj _ (conj eq_refl (conj _ _))))))))))); hist4; try (vm_compute; reflexivity).
  intros f' g' u t' X. cbn in X. repeat (destruct X as [X|X]; [injection X; intros; subst; split; [reflexivity |]; intros k x V N; repeat (destruct k as [|k]; [first [congruence | cbn in V; injection V; intros; subst; auto] |]); destruct k; discriminate V |]). destruct X.
Qed.
(** A finger lifted in the same frame in which another comes down is still looked at: if it was the lowest it is called the thumb, and the lower of the two that are down, 30 mm below the other, is not. *)
Theorem C49_lifted_refuted : exists c n b m0 h f g t i j v w, detect_thumbs c = true /\ touches_only (h ++ [Frame f g None t]) /\ sized n (h ++ [Frame f g None t]) /\ i <> j /\ clean_contact c i (h ++ [Frame f g None t]) /\ nth_error f i = Some v /\ nth_error f j = Some w /\ lands c w /\
  (forall k x, nth_error f k = Some x -> k <> i -> k <> j -> st x = NONE \/ st x = END) /\ method_after m0 h = Es_Model.M_2FG /\ excess i 0 (h ++ [Frame f g None t]) = 0 /\ far_below c w v /\ lower_thumb_line c < hy w /\
  (forall f' g' u t', In (Frame f' g' u t') h -> t' + 100000 <= t) /\
  nth_error (moving c n b m0 h f g None t) i = Some true /\ nth_error (moving c n b m0 h f g None t) j = Some true.
Proof.
  exists ex_config, 3%nat, true, Es_Model.M_2FG, [Frame [thumb_at BEGIN true true false 500 300; nothing; thumb_at BEGIN true true false 400 310] true None 10000],
    [thumb_at UPDATE false true false 500 300; thumb_at BEGIN true true false 500 600; thumb_at END false true false 400 870], true, 210000, 0%nat, 1%nat, (thumb_at UPDATE false true false 500 300), (thumb_at BEGIN true true false 500 600).
  refine (conj eq_refl (conj _ (conj _ (conj _ (conj _ (conj eq_refl (conj eq_refl (conj _ (conj _ (conj eq_refl (conj eq_refl (conj _ (conj _ (conj _ (conj _ _))))))))))))))); hist4; try (vm_compute; reflexivity).
  - discriminate.
  - exists [], [thumb_at BEGIN true true false 500 300; nothing; thumb_at BEGIN true true false 400 310], true, None, 10000, [Frame [thumb_at UPDATE false true false 500 300; thumb_at BEGIN true true false 500 600; thumb_at END false true false 400 870] true None 210000], (thumb_at BEGIN true true false 500 300).
    refine (conj eq_refl (conj eq_refl (conj _ (conj _ _)))); hist4.
  - intros k x V N1 N2. repeat (destruct k as [|k]; [first [congruence | cbn in V; injection V; intros; subst; auto] |]). destruct k; discriminate V.
  - intros f' g' u t' [X|[]]. injection X. intros. subst. lia.
Qed.

(** ** Cases *)
(** A thumb rests at the bottom of the touchpad: it moves nothing, until it moves up *)
Example C49_lone_thumb_applies : exists v, nth_error (moving ex_config 2 true Es_Model.M_2FG [] [thumb_at BEGIN true true false 500 600; nothing] true None 10000) 0 = Some false /\
  nth_error (moving ex_config 2 true Es_Model.M_2FG [Frame [thumb_at BEGIN true true false 500 600; nothing] true None 10000] [thumb_at UPDATE false true false 510 600; nothing] true None 20000) 0 = Some false /\
  nth_error (moving ex_config 2 true Es_Model.M_2FG [Frame [thumb_at BEGIN true true false 500 600; nothing] true None 10000] [v; nothing] true None 20000) 0 = Some true.
Proof.
  exists (thumb_at UPDATE false true false 510 490).
  destruct (C49_lone_thumb ex_config 2 true Es_Model.M_2FG [] [thumb_at BEGIN true true false 500 600; nothing] true 10000 [] [thumb_at UPDATE false true false 510 600; nothing] true 20000 0 (thumb_at BEGIN true true false 500 600) (thumb_at UPDATE false true false 510 600)) as [A B];
    try reflexivity; hist4; try exact I.
  destruct (C49_lone_thumb ex_config 2 true Es_Model.M_2FG [] [thumb_at BEGIN true true false 500 600; nothing] true 10000 [] [thumb_at UPDATE false true false 510 490; nothing] true 20000 0 (thumb_at BEGIN true true false 500 600) (thumb_at UPDATE false true false 510 490)) as [_ D];
    try reflexivity; hist4; try exact I.
  refine (conj _ (conj _ _)); [exact A | exact B | exact D].
Qed.
Definition two (v w : seen) : list seen := [v; w].
Definition down_ (y : Z) : input := Frame [thumb_at BEGIN true true false 500 y; nothing] true None 10000.
Lemma ex_joined : forall y y' t, 30 <= y -> 30 <= y' -> joined ex_config 2 [] [thumb_at BEGIN true true false 500 y; nothing] true 10000 [] (two (thumb_at UPDATE false true false 500 y) (thumb_at BEGIN true true false 500 y')) true t 0 1 (thumb_at UPDATE false true false 500 y) (thumb_at BEGIN true true false 500 y').
Proof.
  intros y y' t Y Y'. refine (conj eq_refl (conj _ (conj _ (conj _ (conj _ (conj _ (conj _ (conj _ (conj _ (conj eq_refl (conj eq_refl (conj _ _)))))))))))); hist4; try reflexivity; try exact I; try discriminate.
  exists (thumb_at BEGIN true true false 500 y). split; [reflexivity |]. hist4.
Qed.
(** 30 mm apart, 50 ms apart: both move; a second apart: the lower one is a thumb, whichever came first *)
Example C49_together_applies : moving ex_config 2 true Es_Model.M_2FG [down_ 100] (two (thumb_at UPDATE false true false 500 100) (thumb_at BEGIN true true false 500 400)) true None 60000 = [true; true].
Proof.
  destruct (C49_together ex_config 2 true Es_Model.M_2FG _ _ _ _ _ _ _ _ _ _ _ _ (ex_joined 100 400 60000 ltac:(lia) ltac:(lia))) as [A B]; try (vm_compute; congruence); try lia; try reflexivity.
Qed.
Example C49_lower_is_thumb_applies : moving ex_config 2 true Es_Model.M_2FG [down_ 100] (two (thumb_at UPDATE false true false 500 100) (thumb_at BEGIN true true false 500 400)) true None 1010000 = [true; false] /\
  moving ex_config 2 true Es_Model.M_2FG [down_ 400] (two (thumb_at UPDATE false true false 500 400) (thumb_at BEGIN true true false 500 100)) true None 1010000 = [false; true].
Proof.
  destruct (C49_lower_is_thumb ex_config 2 true Es_Model.M_2FG _ _ _ _ _ _ _ _ _ _ _ _ (ex_joined 100 400 1010000 ltac:(lia) ltac:(lia))) as [_ A]; try (right; vm_compute; congruence); try (left; lia); try lia; try (vm_compute; congruence).
  destruct (C49_lower_is_thumb ex_config 2 true Es_Model.M_2FG _ _ _ _ _ _ _ _ _ _ _ _ (ex_joined 400 100 1010000 ltac:(lia) ltac:(lia))) as [B _]; try (right; vm_compute; congruence); try (left; lia); try lia; try (vm_compute; congruence).
  split; reflexivity.
Qed.
Example C49_next_to_slow_applies : moving ex_config 2 true Es_Model.M_EDGE [down_ 600] (two (thumb_at UPDATE false true false 500 600) (thumb_at BEGIN true true false 500 400)) true None 1010000 = [true; true].
Proof.
  destruct (C49_next_to_slow ex_config 2 true Es_Model.M_EDGE _ _ _ _ _ _ _ _ _ _ _ _ (ex_joined 600 400 1010000 ltac:(lia) ltac:(lia))) as [A B]; try (vm_compute; congruence); try (split; reflexivity); reflexivity.
Qed.
Example C49_scroll_pair_applies : moving ex_config 2 true Es_Model.M_2FG [down_ 600] (two (thumb_at UPDATE false true true 500 600) (thumb_at BEGIN true true false 500 500)) true None 1010000 = [true; true].
Proof.
  destruct (C49_scroll_pair ex_config 2 true Es_Model.M_2FG [down_ 600] (two (thumb_at UPDATE false true true 500 600) (thumb_at BEGIN true true false 500 500)) true 1010000 0 1 (thumb_at UPDATE false true true 500 600) (thumb_at BEGIN true true false 500 500)) as [A B]; try reflexivity; hist4; try discriminate; try (split; reflexivity).
  exists [], [thumb_at BEGIN true true false 500 600; nothing], true, None, 10000, [Frame (two (thumb_at UPDATE false true true 500 600) (thumb_at BEGIN true true false 500 500)) true None 1010000], (thumb_at BEGIN true true false 500 600).
  refine (conj eq_refl (conj eq_refl (conj _ (conj _ _)))); hist4.
Qed.
(** A pointer that has been fast for six frames, and a thumb that comes down 40 mm below *)
Definition ride (k : nat) : list input := map (fun j => Frame [thumb_at UPDATE false true true (500 + Z.of_nat j) 100; nothing] true None (20000 + 10000 * Z.of_nat j)) (seq 0 k).
Example C49_fast_pointer_applies : moving ex_config 2 true Es_Model.M_2FG (down_ 100 :: ride 6) (two (thumb_at UPDATE false true true 520 100) (thumb_at BEGIN true true false 500 500)) true None 1010000 = [true; false].
Proof.
  destruct (C49_fast_pointer ex_config 2 true Es_Model.M_2FG [] [thumb_at BEGIN true true false 500 100; nothing] true 10000 (ride 6) (two (thumb_at UPDATE false true true 520 100) (thumb_at BEGIN true true false 500 500)) true 1010000 0 1 (thumb_at UPDATE false true true 520 100) (thumb_at BEGIN true true false 500 500)) as [A B];
    try (vm_compute; congruence); try reflexivity; [| right; right; reflexivity].
  refine (conj eq_refl (conj _ (conj _ (conj _ (conj _ (conj _ (conj _ (conj _ (conj _ (conj eq_refl (conj eq_refl (conj _ _)))))))))))); unfold ride; hist4; try reflexivity; try exact I; try discriminate.
  exists (thumb_at BEGIN true true false 500 100). split; [reflexivity |]. hist4.
Qed.
Example C49_one_thumb_applies : clean_contact ex_config 0 ([down_ 400] ++ [Frame (two (thumb_at UPDATE false true false 500 400) (thumb_at BEGIN true true false 500 100)) true None 1010000]) /\
  clean_contact ex_config 1 ([down_ 400] ++ [Frame (two (thumb_at UPDATE false true false 500 400) (thumb_at BEGIN true true false 500 100)) true None 1010000]).
Proof.
  split.
  - exists [], [thumb_at BEGIN true true false 500 400; nothing], true, None, 10000, [Frame (two (thumb_at UPDATE false true false 500 400) (thumb_at BEGIN true true false 500 100)) true None 1010000], (thumb_at BEGIN true true false 500 400).
    refine (conj eq_refl (conj eq_refl (conj _ (conj _ _)))); hist4.
  - exists [down_ 400], (two (thumb_at UPDATE false true false 500 400) (thumb_at BEGIN true true false 500 100)), true, None, 1010000, [], (thumb_at BEGIN true true false 500 100).
    refine (conj eq_refl (conj eq_refl (conj _ (conj _ _)))); hist4.
Qed.
Print Assumptions C49_one_thumb.
Print Assumptions C49_lone_thumb.
Print Assumptions C49_scroll_pair.
Print Assumptions C49_together.
Print Assumptions C49_next_to_slow.
Print Assumptions C49_fast_pointer.
Print Assumptions C49_lower_is_thumb.
Print Assumptions C49_hover_refuted.
Print Assumptions C49_lifted_refuted.
