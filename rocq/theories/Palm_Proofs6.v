(** * Trackpoint: proofs *)
Require Import Coq.ZArith.ZArith Coq.Lists.List Coq.Bool.Bool Coq.micromega.Lia.
Require Import Verif.Palm_Model Verif.Palm_Spec Verif.Palm_Proofs1 Verif.Palm_Proofs2 Verif.Palm_Proofs3 Verif.Palm_Proofs4 Verif.Palm_Proofs5.
Require Verif.Es_Model.
Import ListNotations.
Open Scope Z_scope.
Local Arguments frame : simpl never.
Local Arguments keyboard_event : simpl never.

Lemma kb_run : forall c n b m0 l, kb (run c (init n b m0) l) = krun (kb (init n b m0)) l.
Proof. intros. apply (proj1 (run_parts c l (init n b m0))). Qed.
Lemma tr_run : forall c n b m0 l, tr (run c (init n b m0) l) = trun c (tr (init n b m0)) l.
Proof. intros. apply (proj1 (proj2 (run_parts c l (init n b m0)))). Qed.
Lemma size_lt : forall n l f g u t i v, sized n (l ++ [Frame f g u t]) -> nth_error f i = Some v -> (i < n)%nat.
Proof.
  intros n l f g u t i v Z V. assert (E : length f = n) by (apply (Z (Frame f g u t)); apply in_or_app; right; left; reflexivity).
  rewrite <- E. apply nth_error_Some. congruence.
Qed.
Lemma no_pen_run : forall c n b m0 l, no_pen l -> astate (ar (run c (init n b m0) l)) = ARB_NONE.
Proof. intros c n b m0 l P. destruct (run_parts c l (init n b m0)) as [_ [_ [E _]]]; rewrite E. apply arb_none; auto. Qed.
Lemma no_point_run : forall c n b m0 l, no_trackpoint l -> pointing (tr (run c (init n b m0) l)) = false.
Proof. intros c n b m0 l P. rewrite (proj1 (proj2 (run_parts c l (init n b m0)))). apply trp_none; auto. Qed.
(** the thumb condition at the last frame of a contact *)
Lemma thumb_end : forall c n b m0 l f0 g0 u0 t0 m f g u t i v0 v, (i < n)%nat -> sized n (l ++ Frame f0 g0 u0 t0 :: m ++ [Frame f g u t]) -> no_pen (l ++ Frame f0 g0 u0 t0 :: m) ->
  nth_error f0 i = Some v0 -> nth_error f i = Some v -> no_thumb c l i (Frame f0 g0 u0 t0 :: m ++ [Frame f g u t]) ->
  detect_thumbs c = false \/ (tst (th (run c (init n b m0) (l ++ Frame f0 g0 u0 t0 :: m))) = TH_FINGER /\ alone i f /\ py v < upper_thumb_line c /\ u = None).
Proof.
  intros c n b m0 l f0 g0 u0 t0 m f g u t i v0 v I Z P V0 V [NT|[Id Lo]]; [left; exact NT | right].
  assert (LF : lone c i (Frame f g u t)) by (apply Lo; right; apply in_or_app; right; left; reflexivity). destruct LF as [A [-> Y]].
  split; [| split; [exact A | split; [apply Y; exact V | reflexivity]]].
  destruct (no_pen_app l _ P) as [Pl Pm]. destruct (sized_app n l _ Z) as [Zl Zm]. rewrite run_app.
  apply (lone_run c n i); auto.
  - apply run_length.
  - intros z Hz. apply Zm. destruct Hz as [<-|Hz]; [left; reflexivity | right; apply in_or_app; left; exact Hz].
  - intros z Hz. apply Lo. destruct Hz as [<-|Hz]; [left; reflexivity | right; apply in_or_app; left; exact Hz].
  - rewrite (idle_thumb c n l (init n b m0) true); auto. apply repeat_length.
Qed.

(** ** Counting events *)
Lemma tstep_point : forall c r t, monitor_trackpoint c = true -> 0 <= pcount r -> let r' := tstep c r (Point t) in
  pcount r' = pcount r + 1 /\ last_point r' = t /\ (exists d, ttimer r' = Some d /\ t + 40000 <= d) /\ (3 <= pcount r' -> pointing r' = true /\ exists d, ttimer r' = Some d /\ t + 300000 <= d).
Proof.
  intros c r t M P. cbn [tstep]. rewrite M. unfold trackpoint_event. destruct (pcount r + 1 <? 3) eqn:E.
  - apply Z.ltb_lt in E. cbn. split; [reflexivity | split; [reflexivity | split; [exists (t + 40000); split; [reflexivity | lia] | lia]]].
  - cbn. split; [reflexivity | split; [reflexivity | split; [exists (t + 300000); split; [reflexivity | unfold ACTIVITY_TIMEOUT in *; lia] | intros _; split; [reflexivity | exists (t + 300000); split; [reflexivity | unfold ACTIVITY_TIMEOUT; lia]]]]].
Qed.
Lemma count_pos : forall c l r, 0 <= pcount r -> 0 <= pcount (trun c r l).
Proof.
  intros c. induction l as [|i l IH]; intros r P; [exact P |]. cbn [trun]. apply IH. destruct i; cbn [tstep]; try exact P.
  - destruct (monitor_trackpoint c); [| exact P]. unfold trackpoint_event. destruct (_ <? _); cbn; lia.
  - destruct (due _ t); [cbn; lia | exact P].
Qed.
Lemma count_stays : forall c k t0 l r, monitor_trackpoint c = true -> 0 <= k -> k <= pcount r -> (exists d, ttimer r = Some d /\ t0 + 40000 <= d) -> points_until t0 (t0 + 40000) l ->
  k <= pcount (trun c r l).
Proof.
  intros c k t0. induction l as [|i l IH]; intros r M K P [d [D D']] U; [exact P |]. cbn [trun]. assert (U' : points_until t0 (t0 + 40000) l) by (intros j J; apply U; right; exact J).
  specialize (U i (or_introl eq_refl)).
  destruct i; try (apply IH; try assumption; exists d; auto).
  - destruct (tstep_point c r t M ltac:(lia)) as [A1 [_ [[d' [A2 A3]] _]]]. cbn zeta in *. apply IH; auto; [lia |]. exists d'. split; [exact A2 | lia].
  - cbn [tstep]. rewrite D. cbn [due]. replace (d <=? t) with false by (symmetry; apply Z.leb_gt; lia). apply IH; auto. exists d. auto.
Qed.
Lemma point_stays : forall c t0 t1 l r, monitor_trackpoint c = true -> t1 <= t0 + 300000 -> 3 <= pcount r -> pointing r = true -> (exists d, ttimer r = Some d /\ t1 <= d) -> points_until t0 t1 l ->
  3 <= pcount (trun c r l) /\ pointing (trun c r l) = true /\ (exists d, ttimer (trun c r l) = Some d /\ t1 <= d).
Proof.
  intros c t0 t1. induction l as [|i l IH]; intros r M T K P [d [D D']] U; [eauto |]. cbn [trun]. assert (U' : points_until t0 t1 l) by (intros j J; apply U; right; exact J).
  specialize (U i (or_introl eq_refl)).
  destruct i; try (apply IH; try assumption; exists d; auto).
  - destruct (tstep_point c r t M ltac:(lia)) as [A1 [_ [_ A4]]]. cbn zeta in *. destruct (A4 ltac:(lia)) as [A5 [d' [A6 A7]]]. apply IH; auto; [lia |]. exists d'. split; [exact A6 | lia].
  - cbn [tstep]. rewrite D. cbn [due]. replace (d <=? t) with false by (symmetry; apply Z.leb_gt; lia). apply IH; auto. exists d. auto.
Qed.
(** Three in a row *)
Lemma three_points : forall c n b m0 l t1 a t2 d t3, monitor_trackpoint c = true -> points_until t1 (t1 + 40000) a -> points_until t2 (t2 + 40000) d ->
  let r := trun c (tr (init n b m0)) (l ++ Point t1 :: a ++ Point t2 :: d ++ [Point t3]) in
  3 <= pcount r /\ pointing r = true /\ last_point r = t3 /\ exists x, ttimer r = Some x /\ t3 + 300000 <= x.
Proof.
  intros c n b m0 l t1 a t2 d t3 M U1 U2.
  replace (l ++ Point t1 :: a ++ Point t2 :: d ++ [Point t3]) with (l ++ [Point t1] ++ a ++ [Point t2] ++ d ++ [Point t3]) by reflexivity. rewrite !trun_app.
  set (r0 := trun c (tr (init n b m0)) l). assert (P0 : 0 <= pcount r0) by (apply count_pos; cbn; lia). clearbody r0. cbn [trun].
  destruct (tstep_point c r0 t1 M P0) as [A1 [_ [A2 _]]]. set (r1 := tstep c r0 (Point t1)) in *. clearbody r1.
  assert (P2 : 1 <= pcount (trun c r1 a)) by (apply (count_stays c 1 t1); auto; lia). set (r2 := trun c r1 a) in *. clearbody r2.
  destruct (tstep_point c r2 t2 M ltac:(lia)) as [B1 [_ [B2 _]]]. set (r3 := tstep c r2 (Point t2)) in *. clearbody r3.
  assert (P4 : 2 <= pcount (trun c r3 d)) by (apply (count_stays c 2 t2); auto; lia). set (r4 := trun c r3 d) in *. clearbody r4.
  destruct (tstep_point c r4 t3 M ltac:(lia)) as [C1 [C2 [_ C3]]]. set (r5 := tstep c r4 (Point t3)) in *. clearbody r5. destruct (C3 ltac:(lia)) as [C4 C5]. split; [lia | auto].
Qed.

(** ** The end *)
Definition tarmed (r : Z) (x : trp) : Prop := (ttimer x = None -> pointing x = false /\ pcount x = 0) /\ (forall d, ttimer x = Some d -> d <= r + 300000).
Lemma tarmed_run : forall c l x r, tarmed r x -> points_by r l -> tarmed r (trun c x l).
Proof.
  intros c. induction l as [|i l IH]; intros x r A B; [exact A |]. cbn [trun]. apply IH; [| intros t I; apply B; right; exact I].
  destruct i; cbn [tstep]; try exact A.
  - destruct (monitor_trackpoint c); [| exact A]. specialize (B t (or_introl eq_refl)). unfold trackpoint_event. destruct (_ <? _); cbn; (split; cbn; [discriminate | intros d D; injection D as <-; unfold EVENT_TIMEOUT, ACTIVITY_TIMEOUT; lia]).
  - destruct (due _ t); [| exact A]. split; cbn; [auto | discriminate].
Qed.
Lemma tarmed_ends : forall c x r t, tarmed r x -> r + 300000 <= t -> pointing (tstep c x (TpTimer t)) = false /\ pcount (tstep c x (TpTimer t)) = 0.
Proof.
  intros c x r t [A1 A2] T. cbn [tstep]. destruct (ttimer x) as [d|] eqn:D; [| apply A1; reflexivity]. cbn [due]. specialize (A2 d eq_refl). replace (d <=? t) with true by (symmetry; apply Z.leb_le; lia). cbn. auto.
Qed.
Lemma tarmed_init : forall n b m0 r, tarmed r (tr (init n b m0)).
Proof. intros. split; cbn; [auto | discriminate]. Qed.
Lemma pointed : forall c n b m0 l r t m, points_by r l -> r + 300000 <= t -> no_trackpoint m -> pointing (trun c (tr (init n b m0)) (l ++ TpTimer t :: m)) = false.
Proof.
  intros c n b m0 l r t m B T N. rewrite trun_app. cbn [trun]. destruct (tarmed_ends c (trun c (tr (init n b m0)) l) r t (tarmed_run c l _ r (tarmed_init n b m0 r) B) T) as [A1 A2].
  apply (trp_none c m _ A1 A2 N).
Qed.
Lemma last_point_by : forall c l x r, last_point x <= r -> points_by r l -> last_point (trun c x l) <= r.
Proof.
  intros c. induction l as [|i l IH]; intros x r L B; [exact L |]. cbn [trun]. apply IH; [| intros t I; apply B; right; exact I].
  destruct i; cbn [tstep]; try exact L.
  - destruct (monitor_trackpoint c); [| exact L]. specialize (B t (or_introl eq_refl)). unfold trackpoint_event. destruct (_ <? _); exact B.
  - destruct (due _ t); exact L.
Qed.
Lemma last_point_same : forall c l x, no_trackpoint l -> last_point (trun c x l) = last_point x.
Proof.
  intros c. induction l as [|i l IH]; intros x N; [reflexivity |]. cbn [trun]. rewrite IH by (intros t I; apply (N t); right; exact I).
  destruct i; cbn [tstep]; try reflexivity; [exfalso; apply (N t); left; reflexivity |]. destruct (due _ t); reflexivity.
Qed.
Lemma tstep_last : forall c x i r, r <= last_point x -> points_from r [i] -> r <= last_point (tstep c x i).
Proof.
  intros c x i r L F. destruct i; cbn [tstep]; try exact L.
  - destruct (monitor_trackpoint c); [| exact L]. specialize (F t (or_introl eq_refl)). unfold trackpoint_event. destruct (_ <? _); exact F.
  - destruct (due _ t); exact L.
Qed.

(** ** No burst *)
Lemma np_snoc : forall l i, no_trackpoint l -> (forall t, i <> Point t) -> no_trackpoint (l ++ [i]).
Proof. intros l i N H t X. apply in_app_or in X. destruct X as [X|[X|[]]]; [exact (N t X) | exact (H t X)]. Qed.
Definition one (l : list input) (x : trp) : Prop := exists a t1 b, l = a ++ Point t1 :: b /\ no_trackpoint b /\ (forall s, In (TpTimer s) b -> s < t1 + 40000) /\ ttimer x = Some (t1 + 40000).
Definition two (l : list input) (x : trp) : Prop := exists a t1 b t2 d, l = a ++ Point t1 :: b ++ Point t2 :: d /\ no_trackpoint b /\ no_trackpoint d /\
  (forall s, In (TpTimer s) b -> s < t1 + 40000) /\ (forall s, In (TpTimer s) d -> s < t2 + 40000) /\ ttimer x = Some (t2 + 40000).
Lemma no_burst_prefix : forall l i, no_burst (l ++ [i]) -> no_burst l.
Proof.
  intros l i N a t1 b t2 d t3 e E Nb Nd. apply (N a t1 b t2 d t3 (e ++ [i])); auto. rewrite E. repeat (rewrite <- app_assoc; cbn). reflexivity.
Qed.
Lemma sparse : forall c n b m0 l, monitor_trackpoint c = true -> no_burst l -> let x := trun c (tr (init n b m0)) l in pointing x = false /\ (pcount x = 0 \/ (pcount x = 1 /\ one l x) \/ (pcount x = 2 /\ two l x)).
Proof.
  intros c n b m0. cbn zeta. induction l as [|i l IH] using rev_ind; intros M N; [cbn; auto |]. destruct (IH M (no_burst_prefix l i N)) as [P Q]. rewrite trun_app. cbn [trun]. set (x := trun c (tr (init n b m0)) l) in *. clearbody x.
  assert (Same : (forall t, i <> Point t) -> (forall t, i <> TpTimer t) -> pointing x = false /\ (pcount x = 0 \/ (pcount x = 1 /\ one (l ++ [i]) x) \/ (pcount x = 2 /\ two (l ++ [i]) x))).
  { intros H1 H2. split; [exact P |]. destruct Q as [Q|[[Q [a [t1 [b0 [E [A1 [A2 A3]]]]]]]|[Q [a [t1 [b0 [t2 [d [E [A1 [A2 [A3 [A4 A5]]]]]]]]]]]]]; [auto | |].
    - right; left. split; [exact Q |]. exists a, t1, (b0 ++ [i]). split; [rewrite E, <- app_assoc; reflexivity |]. split; [apply np_snoc; assumption |]. split; [| exact A3].
      intros s X. apply in_app_or in X. destruct X as [X|[X|[]]]; [exact (A2 s X) | exfalso; exact (H2 s X)].
    - right; right. split; [exact Q |]. exists a, t1, b0, t2, (d ++ [i]). split; [rewrite E; repeat (rewrite <- app_assoc; cbn); reflexivity |]. split; [exact A1 |]. split; [apply np_snoc; assumption |]. split; [exact A3 |]. split; [| exact A5].
      intros s X. apply in_app_or in X. destruct X as [X|[X|[]]]; [exact (A4 s X) | exfalso; exact (H2 s X)]. }
  destruct i; try (apply Same; intros; discriminate).
  - cbn [tstep]. rewrite M. unfold trackpoint_event. destruct Q as [Q|[[Q [a [t1 [b0 [E [A1 [A2 A3]]]]]]]|[Q [a [t1 [b0 [t2 [d [E [A1 [A2 [A3 [A4 A5]]]]]]]]]]]]]; rewrite Q.
      * cbn. split; [exact P |]. right; left. split; [reflexivity |]. exists l, t, []. split; [reflexivity |]. split; [intros ? [] |]. split; [intros ? [] | reflexivity].
      * cbn. split; [exact P |]. right; right. split; [reflexivity |]. exists a, t1, b0, t, []. split; [rewrite E, <- app_assoc; reflexivity |]. split; [exact A1 |]. split; [intros ? [] |]. split; [exact A2 |]. split; [intros ? [] | reflexivity].
      * exfalso. destruct (N a t1 b0 t2 d t []) as [[s [S1 S2]]|[s [S1 S2]]]; [rewrite E; repeat (rewrite <- app_assoc; cbn); reflexivity | exact A1 | exact A2 | specialize (A3 s S1); lia | specialize (A4 s S1); lia].
  - cbn [tstep]. destruct Q as [Q|[[Q [a [t1 [b0 [E [A1 [A2 A3]]]]]]]|[Q [a [t1 [b0 [t2 [d [E [A1 [A2 [A3 [A4 A5]]]]]]]]]]]]].
    + destruct (due _ t); cbn; auto.
    + rewrite A3. cbn [due]. destruct (t1 + 40000 <=? t) eqn:D; [cbn; auto |]. apply Z.leb_gt in D. split; [exact P |]. right; left. split; [exact Q |].
      exists a, t1, (b0 ++ [TpTimer t]). split; [rewrite E, <- app_assoc; reflexivity |]. split; [apply np_snoc; [assumption | discriminate] |]. split; [| exact A3].
      intros s X. apply in_app_or in X. destruct X as [X|[X|[]]]; [exact (A2 s X) | injection X as <-; exact D].
    + rewrite A5. cbn [due]. destruct (t2 + 40000 <=? t) eqn:D; [cbn; auto |]. apply Z.leb_gt in D. split; [exact P |]. right; right. split; [exact Q |].
      exists a, t1, b0, t2, (d ++ [TpTimer t]). split; [rewrite E; repeat (rewrite <- app_assoc; cbn); reflexivity |]. split; [exact A1 |]. split; [apply np_snoc; [assumption | discriminate] |]. split; [exact A3 |]. split; [| exact A5].
      intros s X. apply in_app_or in X. destruct X as [X|[X|[]]]; [exact (A4 s X) | injection X as <-; exact D].
Qed.
Lemma unmonitored : forall c n b m0 l, monitor_trackpoint c = false -> pointing (trun c (tr (init n b m0)) l) = false.
Proof.
  intros c n b m0 l M. assert (G : forall l x, pointing x = false -> pointing (trun c x l) = false); [| apply G; reflexivity].
  induction l0 as [|i l0 IH]; intros x P; [exact P |]. cbn [trun]. apply IH. destruct i; cbn [tstep]; try exact P; [rewrite M; exact P | destruct (due _ t); [reflexivity | exact P]].
Qed.

(** ** A palm that comes down while the trackpoint is used *)
Definition tresting (t0 : Z) (y : touch) : Prop := forever (palm y) \/ (palm y = PALM_TRACKPOINT /\ ptime y = t0).
Lemma tresting_update : forall c s m t x v t0, st v = UPDATE -> fresh v = false -> tresting t0 x -> t0 <> 0 -> pointing (tr s) = true \/ t0 <= last_point (tr s) -> forall y, same_but_speed y (after c s m t (enter t x v)) -> tresting t0 y.
Proof.
  intros c s m t x v t0 U F R T0 K y [_ [Q2 [Q3 _]]]. destruct (enter_update t x v U F) as [E1 [E2 [_ [E4 _]]]]. unfold tresting. rewrite Q2, Q3.
  destruct (after_eq c s m t (enter t x v)) as [E|[_ E]]; rewrite E; [rewrite E1, E2; exact R |].
  destruct R as [R|[R1 R2]].
  - left. destruct (forever_update c (kb s) (tr s) (astate (ar s)) m t (enter t x v)) as [P|P]; rewrite ?E1, ?E4; auto; rewrite P; [rewrite E1; exact R | right; right; reflexivity].
  - destruct (trackpoint_update c (kb s) (tr s) (astate (ar s)) m t (enter t x v)) as [[P|P] P']; rewrite ?E1, ?E2, ?E4, ?R2; auto.
    + destruct K as [K|K]; [left; exact K | right; split; [exact T0 | exact K]].
    + right. rewrite P, P', E2. auto.
    + left. rewrite P. right; right; reflexivity.
Qed.
Lemma tresting_pointing : forall c n j l s x t0 tk, monitor_trackpoint c = true -> (j < n)%nat -> sized n l -> goes_on j l -> t0 <> 0 -> points_until tk (tk + 300000) l -> 3 <= pcount (tr s) -> pointing (tr s) = true -> (exists d, ttimer (tr s) = Some d /\ tk + 300000 <= d) ->
  nth_error (touches s) j = Some x -> tresting t0 x -> exists y, nth_error (touches (run c s l)) j = Some y /\ tresting t0 y.
Proof.
  intros c n j l s x t0 tk M L Z G T0 U C3 Y D X R.
  destruct (contact_inv c n j (fun s y => (3 <= pcount (tr s) /\ pointing (tr s) = true /\ exists d, ttimer (tr s) = Some d /\ tk + 300000 <= d) /\ tresting t0 y) l L Z G) with (s := s) (x := x) as [y [Y' [_ Q]]]; auto.
  - intros s0 i x0 y I X0 [[C0 [Y0 D0]] R0] E. destruct (step_parts c s0 i) as [_ [SK _]]. rewrite SK.
    split; [apply (point_stays c tk (tk + 300000) [i] (tr s0)); try assumption; [lia |]; intros k [<-|[]]; apply U; exact I |].
    destruct E as [->|[v [t [m [Sh [U0 [F Q]]]]]]]; [exact R0 |]. apply (tresting_update c s0 m t x0 v t0 U0 F R0 T0 (or_introl Y0) y Q).
  - exists y. auto.
Qed.
Lemma tresting_after : forall c n j l s x t0, (j < n)%nat -> sized n l -> goes_on j l -> t0 <> 0 -> points_from t0 l -> t0 <= last_point (tr s) ->
  nth_error (touches s) j = Some x -> tresting t0 x -> exists y, nth_error (touches (run c s l)) j = Some y /\ tresting t0 y /\ t0 <= last_point (tr (run c s l)).
Proof.
  intros c n j l s x t0 L Z G T0 U K X R.
  destruct (contact_inv c n j (fun s y => t0 <= last_point (tr s) /\ tresting t0 y) l L Z G) with (s := s) (x := x) as [y [Y' [Q1 Q]]]; auto.
  - intros s0 i x0 y I X0 [K0 R0] E. destruct (step_parts c s0 i) as [_ [SK _]]. rewrite SK.
    split; [apply tstep_last; [exact K0 |]; intros t [K'|[]]; apply U; subst i; exact I |].
    destruct E as [->|[v [t [m [Sh [U0 [F Q]]]]]]]; [exact R0 |]. apply (tresting_update c s0 m t x0 v t0 U0 F R0 T0 (or_intror K0) y Q).
  - exists y. auto.
Qed.
Lemma tresting_palm : forall t0 y, tresting t0 y -> palm y <> PALM_NONE.
Proof. intros t0 y [[R|[R|R]]|[R _]]; rewrite R; discriminate. Qed.
Lemma land_pointing : forall c s f g u t i x v, monitor_trackpoint c = true -> typing (kb s) = false -> pointing (tr s) = true -> nth_error (touches s) i = Some x -> nth_error f i = Some v -> st v = BEGIN -> fresh v = true -> dirty v = true ->
  exists y, nth_error (touches (fst (frame c s f g u t))) i = Some y /\ tresting t y.
Proof.
  intros c s f g u t i x v M K Y X V B F D. destruct (frame_touch c s f g u t i x v X V) as [m [y [h [P [Q _]]]]]. exists y. split; [exact P |]. destruct (enter_begin t x v B) as [E1 [E2 [E3 _]]].
  destruct Q as [_ [Q2 [Q3 _]]]. unfold tresting. rewrite Q2, Q3. rewrite after_dirty by (rewrite E2; first [exact D | rewrite B; discriminate]).
  assert (P0 : palm (enter t x v) = PALM_NONE) by auto.
  destruct (begin_trackpoint c (kb s) (tr s) (astate (ar s)) m t (enter t x v)) as [[P1|[P1|P1]] P2]; rewrite ?E2; auto.
  - exfalso. revert P1. unfold palm_detect. cbn [first_hit]. destruct (pressure_triggered c (enter t x v)) as [x1 b] eqn:E.
    assert (W : x1 = enter t x v /\ b = false \/ palm x1 = PALM_PRESSURE /\ b = true).
    { unfold pressure_triggered in E. destruct (negb _); [injection E as <- <-; auto |]. rewrite P0 in E. destruct (_ <? _); injection E as <- <-; auto. }
    destruct W as [[-> ->]|[W ->]]; [| cbn; rewrite W; discriminate]. destruct (astate (ar s)); [| cbn; discriminate | cbn; discriminate]. cbn [arbitration_triggered].
    assert (D' : dwt_triggered (kb s) (enter t x v) = (enter t x v, false)) by (unfold dwt_triggered; rewrite E2, B, P0, K; cbn; rewrite ?andb_false_r; reflexivity). rewrite D'.
    assert (D2 : trackpoint_triggered c (tr s) (enter t x v) = (with_palm (enter t x v) PALM_TRACKPOINT, true)) by (unfold trackpoint_triggered; rewrite M, P0, E2, B, Y; reflexivity). rewrite D2. cbn. discriminate.
  - right. rewrite P2, E1. auto.
Qed.

(** ** Fingers that land after the last event, or before the first *)
Definition tlate (t0 : Z) (y : touch) : Prop := palm y = PALM_NONE \/ (palm y = PALM_TRACKPOINT /\ ptime y = t0).
Lemma land_tlate : forall c s f g u t i x v, typing (kb s) = false -> astate (ar s) = ARB_NONE -> nth_error (touches s) i = Some x -> nth_error f i = Some v -> lands c v ->
  exists y, nth_error (touches (fst (frame c s f g u t))) i = Some y /\ tlate t y.
Proof.
  intros c s f g u t i x v K A X V L. pose proof L as [B [F [D [O C]]]]. destruct (frame_touch c s f g u t i x v X V) as [m [y [h [P [Q _]]]]]. exists y. split; [exact P |]. destruct (enter_begin t x v B) as [E1 [E2 [E3 _]]].
  destruct Q as [_ [Q2 [Q3 _]]]. unfold tlate. rewrite Q2, Q3. rewrite after_dirty by (rewrite E2; first [exact D | rewrite B; discriminate]). rewrite A.
  assert (P0 : palm (enter t x v) = PALM_NONE) by auto. destruct (pointing (tr s)) eqn:Y.
  - destruct (monitor_trackpoint c) eqn:M.
    + right. unfold palm_detect. cbn [first_hit]. rewrite calm_pressure by (rewrite ?E2; first [exact C | congruence]). cbn [arbitration_triggered].
      assert (D' : dwt_triggered (kb s) (enter t x v) = (enter t x v, false)) by (unfold dwt_triggered; rewrite E2, B, P0, K; cbn; rewrite ?andb_false_r; reflexivity). rewrite D'.
      assert (D2 : trackpoint_triggered c (tr s) (enter t x v) = (with_palm (enter t x v) PALM_TRACKPOINT, true)) by (unfold trackpoint_triggered; rewrite M, P0, E2, B, Y; reflexivity). rewrite D2. cbn. auto.
    + left. unfold palm_detect. cbn [first_hit]. rewrite calm_pressure by (rewrite ?E2; first [exact C | congruence]). cbn [arbitration_triggered].
      assert (D' : dwt_triggered (kb s) (enter t x v) = (enter t x v, false)) by (unfold dwt_triggered; rewrite E2, B, P0, K; cbn; rewrite ?andb_false_r; reflexivity). rewrite D'.
      assert (D2 : trackpoint_triggered c (tr s) (enter t x v) = (enter t x v, false)) by (unfold trackpoint_triggered; rewrite M; reflexivity). rewrite D2.
      rewrite calm_tool, calm_size by (rewrite ?E2; assumption).
      assert (G : edge_triggered c m t (enter t x v) = (enter t x v, false)).
      { unfold edge_triggered. rewrite P0, E2, B. destruct m; [reflexivity |]. destruct O as [[O1 O2] O3]. unfold in_edge, in_side_edge, in_top_edge.
        replace (px v <? left_edge c) with false by (symmetry; apply Z.ltb_ge; exact O1). replace (right_edge c <? px v) with false by (symmetry; apply Z.ltb_ge; exact O2).
        replace (py v <? upper_edge c) with false by (symmetry; apply Z.ltb_ge; exact O3). reflexivity. }
      rewrite G, calm_pressure by (rewrite ?E2; first [exact C | congruence]). exact P0.
  - left. rewrite begin_clean by (rewrite ?E2; assumption). exact P0.
Qed.
Lemma tlate_update : forall c s m t x v t0 y, astate (ar s) = ARB_NONE -> st v = UPDATE -> fresh v = false -> calm c v -> tlate t0 x -> last_point (tr s) < t0 -> monitor_trackpoint c = true -> same_but_speed y (after c s m t (enter t x v)) -> tlate t0 y.
Proof.
  intros c s m t x v t0 y A U F C R L M [_ [Q2 [Q3 _]]]. destruct (enter_update t x v U F) as [E1 [E2 [_ [E4 _]]]]. unfold tlate. rewrite Q2, Q3.
  destruct (after_eq c s m t (enter t x v)) as [E|[_ E]]; rewrite E; [rewrite E1, E2; exact R |]. rewrite A.
  destruct R as [R|[R1 R2]]; [left; rewrite none_update by (rewrite ?E1, ?E4; assumption); cbn; congruence |].
  destruct (pointing (tr s)) eqn:Y; [| left; apply trackpoint_release; rewrite ?E1, ?E2, ?E4; auto; lia].
  right. set (z := enter t x v) in *. unfold palm_detect. cbn [first_hit]. rewrite calm_pressure by (rewrite ?E1, ?E4; first [assumption | congruence]). cbn [arbitration_triggered].
  assert (D : dwt_triggered (kb s) z = (z, false)) by (unfold dwt_triggered; rewrite E4, U, E1, R1; cbn; rewrite ?andb_false_r; reflexivity).
  assert (T' : trackpoint_triggered c (tr s) z = (z, false)) by (unfold trackpoint_triggered; rewrite E1, R1, E4, U, Y; destruct (negb _); reflexivity).
  assert (L' : tool_triggered c z = (z, false)) by (unfold tool_triggered; rewrite E1, R1; destruct (negb _); reflexivity).
  assert (G : edge_triggered c m t z = (z, false)) by (unfold edge_triggered; rewrite E1, R1, E4, U; destruct m; reflexivity).
  rewrite D, T', L', calm_size by (rewrite E4; assumption). rewrite G, calm_pressure by (rewrite ?E1, ?E4; first [assumption | congruence]). cbn. rewrite E1, E2. auto.
Qed.
Lemma tlate_run : forall c n j l s x t0, monitor_trackpoint c = true -> (j < n)%nat -> sized n l -> goes_on j l -> all_calm c j l -> no_pen l -> no_trackpoint l -> last_point (tr s) < t0 -> astate (ar s) = ARB_NONE ->
  nth_error (touches s) j = Some x -> tlate t0 x -> exists y, nth_error (touches (run c s l)) j = Some y /\ tlate t0 y.
Proof.
  intros c n j l s x t0 M L Z G C P N LP A X R.
  destruct (contact_inv c n j (fun s y => astate (ar s) = ARB_NONE /\ last_point (tr s) < t0 /\ tlate t0 y) l L Z G) with (s := s) (x := x) as [y [Y' [_ [_ Q]]]]; auto.
  - intros s0 i x0 y I X0 [A0 [L0 T0]] E. destruct (step_parts c s0 i) as [_ [SK [SA _]]]. rewrite SA, SK.
    split; [apply (arb_none [i] (ar s0) A0); intros w f t [K'|[]]; apply (P w f t); subst i; exact I |].
    assert (N1 : no_trackpoint [i]) by (intros t' [K'|[]]; apply (N t'); subst i; exact I).
    split; [rewrite <- (last_point_same c [i] (tr s0) N1) in L0; exact L0 |].
    destruct E as [->|[v [t [m [Sh [U0 [F Q]]]]]]]; [exact T0 |].
    assert (CV : calm c v) by (destruct Sh as [[f [g [u [-> V]]]]|[w [f [-> V]]]]; [apply (C f g u t v I V) | exfalso; apply (P w f t I)]).
    apply (tlate_update c s0 m t x0 v t0 y A0 U0 F CV T0 L0 M Q).
  - exists y. auto.
Qed.
