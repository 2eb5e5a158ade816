(** * The trackpoint disables the touchpad (C47) *)
Require Import Coq.ZArith.ZArith Coq.Lists.List Coq.Bool.Bool Coq.micromega.Lia.
Require Import Verif.Palm_Model Verif.Palm_Spec Verif.Palm_Proofs1 Verif.Palm_Proofs2 Verif.Palm_Proofs3 Verif.Palm_Proofs4 Verif.Palm_Proofs5 Verif.Palm_Proofs6 Verif.Palm_Props.
Require Verif.Es_Model Verif.Gest_Model.
Import ListNotations.
Open Scope Z_scope.
Local Arguments frame : simpl never.
Local Arguments keyboard_event : simpl never.

(** Three events of the trackpoint, each less than 40 ms after the one before: no touch moves the pointer, scrolls or takes part in a gesture for 300 ms, whatever is done meanwhile. *)
Theorem C47_pointing_blocks : forall c n b m0 l t1 a t2 d t3 m f g u t, monitor_trackpoint c = true -> points_until t1 (t1 + 40000) a -> points_until t2 (t2 + 40000) d -> points_until t3 (t3 + 300000) m ->
  ~ In true (moving c n b m0 (l ++ Point t1 :: a ++ Point t2 :: d ++ Point t3 :: m) f g u t).
Proof.
  intros c n b m0 l t1 a t2 d t3 m f g u t M U1 U2 U3. unfold moving. apply blocked. right. rewrite tr_run.
  replace (l ++ Point t1 :: a ++ Point t2 :: d ++ Point t3 :: m) with ((l ++ Point t1 :: a ++ Point t2 :: d ++ [Point t3]) ++ m) by (repeat (rewrite <- app_assoc; cbn); reflexivity). rewrite trun_app.
  destruct (three_points c n b m0 l t1 a t2 d t3 M U1 U2) as [A1 [A2 [_ A3]]]. apply (point_stays c t3 (t3 + 300000)); auto. lia.
Qed.
(** It goes on while the trackpoint is used: every further event, coming before those 300 ms are over, disables the touchpad for 300 ms from then on. *)
Fixpoint keeps_pointing (t0 : Z) (l : list input) : Prop :=
  match l with
  | [] => True
  | Point t :: r => t0 <= t /\ keeps_pointing t r
  | TpTimer t :: r => t < t0 + 300000 /\ keeps_pointing t0 r
  | _ :: r => keeps_pointing t0 r
  end.
Theorem C47_pointing_on_blocks : forall c n b m0 l t1 a t2 d t3 m f g u t, monitor_trackpoint c = true -> points_until t1 (t1 + 40000) a -> points_until t2 (t2 + 40000) d -> keeps_pointing t3 m ->
  ~ In true (moving c n b m0 (l ++ Point t1 :: a ++ Point t2 :: d ++ Point t3 :: m) f g u t).
Proof.
  intros c n b m0 l t1 a t2 d t3 m f g u t M U1 U2 U3. unfold moving. apply blocked. right. rewrite tr_run.
  replace (l ++ Point t1 :: a ++ Point t2 :: d ++ Point t3 :: m) with ((l ++ Point t1 :: a ++ Point t2 :: d ++ [Point t3]) ++ m) by (repeat (rewrite <- app_assoc; cbn); reflexivity). rewrite trun_app.
  destruct (three_points c n b m0 l t1 a t2 d t3 M U1 U2) as [A1 [A2 [_ A3]]]. set (r := trun c _ _) in *. clearbody r. clear U1 U2.
  revert r t3 A1 A2 A3 U3. induction m as [|i m IH]; intros r t3 A1 A2 [x [X1 X2]] K; [exact A2 |]. cbn [trun].
  destruct i; cbn [keeps_pointing] in K; try (apply (IH _ t3); eauto; fail).
  - destruct K as [K1 K2]. destruct (tstep_point c r t0 M ltac:(lia)) as [B1 [_ [_ B2]]]. cbn zeta in *. destruct (B2 ltac:(lia)) as [B3 B4]. apply (IH _ t0); auto. lia.
  - destruct K as [K1 K2]. cbn [tstep]. rewrite X1. cbn [due]. replace (x <=? t0) with false by (symmetry; apply Z.leb_gt; lia). apply (IH _ t3); eauto.
Qed.
(** 300 ms after the last event a finger that comes down moves the pointer. *)
Theorem C47_pointing_ends : forall c n b m0 l r t m f g u t' i v,
  points_by r l -> r + 300000 <= t -> no_trackpoint m -> (forall l1 k s l2, l ++ TpTimer t :: m = l1 ++ Key k true s :: l2 -> ~ types b l1 k) -> no_pen (l ++ TpTimer t :: m) ->
  sized n (l ++ TpTimer t :: m ++ [Frame f g u t']) -> nth_error f i = Some v -> lands c v -> no_thumb c (l ++ TpTimer t :: m) i [Frame f g u t'] ->
  nth_error (moving c n b m0 (l ++ TpTimer t :: m) f g u t') i = Some (free_out v).
Proof.
  intros c n b m0 l r t m f g u t' i v B T N NTy NP Z V L NO.
  assert (Z' : sized n ((l ++ TpTimer t :: m) ++ [Frame f g u t'])) by (rewrite <- app_assoc; exact Z).
  apply (land_after c n b m0 _ f g u t' i v (size_lt _ _ _ _ _ _ _ _ Z' V)); auto.
  - apply (never_typing _ _ b); auto.
  - apply (pointed c n b m0 l r t m B T N).
Qed.
(** The trackpoint's jitter does not disable the touchpad: as long as there are no three events in a row each less than 40 ms after the one before.  On a touchpad that is not paired with a trackpoint nothing does. *)
Theorem C47_not_pointing : forall c n b m0 l f g u t i v,
  monitor_trackpoint c = false \/ no_burst l -> (forall l1 k s l2, l = l1 ++ Key k true s :: l2 -> ~ types b l1 k) -> no_pen l ->
  sized n (l ++ [Frame f g u t]) -> nth_error f i = Some v -> lands c v -> no_thumb c l i [Frame f g u t] ->
  nth_error (moving c n b m0 l f g u t) i = Some (free_out v).
Proof.
  intros c n b m0 l f g u t i v NB NTy NP Z V L NO.
  apply (land_after c n b m0 _ f g u t i v (size_lt _ _ _ _ _ _ _ _ Z V)); auto.
  - apply (never_typing _ _ b); auto.
  - destruct (monitor_trackpoint c) eqn:M; [| apply unmonitored; exact M]. destruct NB as [NB|NB]; [discriminate |]. apply (sparse c n b m0 l M NB).
Qed.

Lemma no_press_types : forall b l, no_press l -> forall l1 k s l2, l = l1 ++ Key k true s :: l2 -> ~ types b l1 k.
Proof. intros b l N l1 k s l2 E _. apply (N k s). rewrite E. apply in_or_app. right. left. reflexivity. Qed.
Lemma no_press_run : forall c n b m0 l, no_press l -> typing (kb (run c (init n b m0) l)) = false.
Proof. intros c n b m0 l N. rewrite kb_run. apply no_press_stays; [reflexivity | exact N]. Qed.

(** A palm put down while the trackpoint is used stays ignored, until it is lifted, when the trackpoint is used again. *)
Theorem C47_resting_palm : forall c n b m0 l t1 a t2 d t3 m f0 g0 u0 t0 m1 t4 m2 f g u t i v0,
  monitor_trackpoint c = true -> points_until t1 (t1 + 40000) a -> points_until t2 (t2 + 40000) d -> points_until t3 (t3 + 300000) (m ++ m1) ->
  nth_error f0 i = Some v0 -> st v0 = BEGIN -> fresh v0 = true -> dirty v0 = true -> 0 < t0 -> t0 <= t4 -> points_from t0 m2 ->
  no_press (l ++ Point t1 :: a ++ Point t2 :: d ++ Point t3 :: m) ->
  sized n ((l ++ Point t1 :: a ++ Point t2 :: d ++ Point t3 :: m) ++ Frame f0 g0 u0 t0 :: m1 ++ Point t4 :: m2 ++ [Frame f g u t]) -> goes_on i (m1 ++ Point t4 :: m2 ++ [Frame f g u t]) ->
  nth_error (moving c n b m0 ((l ++ Point t1 :: a ++ Point t2 :: d ++ Point t3 :: m) ++ Frame f0 g0 u0 t0 :: m1 ++ Point t4 :: m2) f g u t) i = Some false.
Proof.
  intros c n b m0 l t1 a t2 d t3 m f0 g0 u0 t0 m1 t4 m2 f g u t i v0 M U1 U2 U3 V0 B0 F0 D0 T0 T4 PF NP Z G.
  set (h := l ++ Point t1 :: a ++ Point t2 :: d ++ Point t3 :: m) in *. set (s1 := run c (init n b m0) h).
  assert (Um : points_until t3 (t3 + 300000) m /\ points_until t3 (t3 + 300000) m1) by (split; intros x X; apply U3; apply in_or_app; [left | right]; exact X). destruct Um as [Um Um1].
  assert (Eh : h = (l ++ Point t1 :: a ++ Point t2 :: d ++ [Point t3]) ++ m) by (unfold h; repeat (rewrite <- app_assoc; cbn); reflexivity).
  destruct (three_points c n b m0 l t1 a t2 d t3 M U1 U2) as [A1 [A2 [_ A3]]].
  destruct (point_stays c t3 (t3 + 300000) m _ M ltac:(lia) A1 A2 A3 Um) as [B1 [B2 B3]]. rewrite <- trun_app, <- Eh, <- (tr_run c n b m0) in B1, B2, B3. fold s1 in B1, B2, B3.
  assert (I : (i < n)%nat).
  { assert (X : length f0 = n) by (apply (Z (Frame f0 g0 u0 t0)); apply in_or_app; right; left; reflexivity). rewrite <- X. apply nth_error_Some. congruence. }
  destruct (run_touch c n b m0 h i I) as [x X]. fold s1 in X.
  destruct (land_pointing c s1 f0 g0 u0 t0 i x v0 M (no_press_run c n b m0 h NP) B2 X V0 B0 F0 D0) as [y [Yn Yr]].
  set (s2 := fst (step c s1 (Frame f0 g0 u0 t0))). assert (S2 : s2 = fst (frame c s1 f0 g0 u0 t0)) by apply fst_step_frame. rewrite <- S2 in Yn.
  assert (K2 : tr s2 = tr s1) by (unfold s2; rewrite (proj1 (proj2 (step_parts c s1 (Frame f0 g0 u0 t0)))); reflexivity).
  assert (Zm : sized n m1 /\ sized n m2).
  { split; intros z Hz; apply Z; apply in_or_app; right; right; apply in_or_app; [left; exact Hz | right; right; apply in_or_app; left; exact Hz]. } destruct Zm as [Zm1 Zm2].
  destruct (goes_on_app i m1 _ G) as [G1 G2]. change (goes_on i ([Point t4] ++ m2 ++ [Frame f g u t])) in G2. destruct (goes_on_app i _ _ G2) as [_ G3]. destruct (goes_on_app i _ _ G3) as [G4 G5].
  destruct (tresting_pointing c n i m1 s2 y t0 t3 M I Zm1 G1 ltac:(lia) Um1) as [y2 [Y2 R2]]; try rewrite K2; try assumption.
  set (s3 := run c s2 m1) in *.
  set (s4 := fst (step c s3 (Point t4))).
  assert (L4 : last_point (tr s4) = t4).
  { unfold s4. rewrite (proj1 (proj2 (step_parts c s3 (Point t4)))). cbn [tstep]. rewrite M. unfold trackpoint_event. destruct (_ <? _); reflexivity. }
  destruct (step_touch c s3 (Point t4) i y2 n I ltac:(intros z [<-|[]]; exact Logic.I) Y2) as [y4 [Y4 E4]].
  assert (R4 : tresting t0 y4).
  { destruct E4 as [->|[v [tt [mm [Sh _]]]]]; [exact R2 |]. exfalso. destruct Sh as [[? [? [? [? _]]]]|[? [? [? _]]]]; discriminate. }
  destruct (tresting_after c n i m2 s4 y4 t0 I Zm2 G4 ltac:(lia) PF ltac:(lia) Y4 R4) as [y5 [Y5 [R5 L5]]].
  set (s5 := run c s4 m2) in *.
  assert (E5 : run c (init n b m0) (h ++ Frame f0 g0 u0 t0 :: m1 ++ Point t4 :: m2) = s5).
  { change (h ++ Frame f0 g0 u0 t0 :: m1 ++ Point t4 :: m2) with (h ++ [Frame f0 g0 u0 t0] ++ m1 ++ [Point t4] ++ m2). do 4 rewrite run_app. reflexivity. }
  unfold moving. rewrite E5.
  destruct (G5 f (or_introl (ex_intro _ g (ex_intro _ u (ex_intro _ t (or_introl eq_refl)))))) as [v [V [SU FV]]].
  assert (Zf : length f = n).
  { apply (Z (Frame f g u t)); apply in_or_app; right; right; apply in_or_app; right; right; apply in_or_app; right; left; reflexivity. }
  assert (L5' : length (touches s5) = n) by (rewrite <- E5; apply run_length).
  destruct (frame_touch c s5 f g u t i y5 v Y5 V) as [mm [y6 [hh [P6 [Q6 _]]]]].
  assert (R6 : tresting t0 y6) by (apply (tresting_update c s5 mm t y5 v t0 SU FV R5 ltac:(lia) (or_intror L5) y6 Q6)).
  apply (palm_still c s5 f g u t i y6 P6); [congruence | apply (tresting_palm t0); exact R6].
Qed.
(** A finger that comes down after the last event moves the pointer as soon as 300 ms have passed since then, without being lifted. *)
Theorem C47_late_finger : forall c n b m0 l r f0 g0 u0 t0 m1 t1 m2 f g u t i v0 v,
  monitor_trackpoint c = true -> points_by r l -> 0 <= r < t0 -> nth_error f0 i = Some v0 -> lands c v0 ->
  no_trackpoint (m1 ++ TpTimer t1 :: m2) -> r + 300000 <= t1 -> nth_error f i = Some v -> dirty v = true ->
  goes_on i (m1 ++ TpTimer t1 :: m2 ++ [Frame f g u t]) -> all_calm c i (m1 ++ TpTimer t1 :: m2 ++ [Frame f g u t]) ->
  no_pen (l ++ Frame f0 g0 u0 t0 :: m1 ++ TpTimer t1 :: m2) -> no_press (l ++ Frame f0 g0 u0 t0 :: m1 ++ TpTimer t1 :: m2) ->
  sized n (l ++ Frame f0 g0 u0 t0 :: (m1 ++ TpTimer t1 :: m2) ++ [Frame f g u t]) -> no_thumb c l i (Frame f0 g0 u0 t0 :: (m1 ++ TpTimer t1 :: m2) ++ [Frame f g u t]) ->
  nth_error (moving c n b m0 (l ++ Frame f0 g0 u0 t0 :: m1 ++ TpTimer t1 :: m2) f g u t) i = Some (free_out v).
Proof.
  intros c n b m0 l r f0 g0 u0 t0 m1 t1 m2 f g u t i v0 v M B R V0 L0 NT T1 V D G C P NP Z TH.
  assert (Em : m1 ++ TpTimer t1 :: m2 ++ [Frame f g u t] = (m1 ++ TpTimer t1 :: m2) ++ [Frame f g u t]) by (rewrite <- app_assoc; reflexivity).
  rewrite Em in G, C.
  assert (I : (i < n)%nat).
  { assert (X : length f0 = n) by (apply (Z (Frame f0 g0 u0 t0)); apply in_or_app; right; left; reflexivity). rewrite <- X. apply nth_error_Some. congruence. }
  set (s0 := run c (init n b m0) l). set (s1 := fst (frame c s0 f0 g0 u0 t0)).
  destruct (no_pen_app l _ P) as [Pl Pm].
  assert (NPl : no_press l) by (intros k' t' In'; apply (NP k' t'); apply in_or_app; left; exact In').
  destruct (run_touch c n b m0 l i I) as [x X]. fold s0 in X.
  destruct (land_tlate c s0 f0 g0 u0 t0 i x v0 (no_press_run c n b m0 l NPl) (no_pen_run c n b m0 l Pl) X V0 L0) as [y [Y LY]]. fold s1 in Y.
  assert (S1 : s1 = fst (step c s0 (Frame f0 g0 u0 t0))) by (symmetry; apply fst_step_frame).
  assert (K1 : tr s1 = trun c (tr (init n b m0)) l) by (rewrite S1, (proj1 (proj2 (step_parts c s0 (Frame f0 g0 u0 t0)))); apply tr_run).
  assert (A1 : astate (ar s1) = ARB_NONE).
  { rewrite S1, (proj1 (proj2 (proj2 (step_parts c s0 (Frame f0 g0 u0 t0))))). apply (no_pen_run c n b m0 l Pl). }
  assert (LP : last_point (tr s1) < t0) by (rewrite K1; pose proof (last_point_by c l (tr (init n b m0)) r ltac:(cbn; lia) B); lia).
  set (m := m1 ++ TpTimer t1 :: m2) in *.
  destruct (goes_on_app i m _ G) as [G1 G2]. assert (Zm : sized n m) by (intros z Hz; apply Z; apply in_or_app; right; right; apply in_or_app; left; exact Hz).
  assert (Cm : all_calm c i m) by (intros f' g' u' t' v' In' V'; apply (C f' g' u' t' v'); [apply in_or_app; left; exact In' | exact V']).
  assert (Pm' : no_pen m) by (intros w f' t' In'; apply (Pm w f' t'); right; exact In').
  destruct (tlate_run c n i m s1 y t0 M I Zm G1 Cm Pm' NT LP A1 Y LY) as [y2 [Y2 L2]].
  set (s2 := run c s1 m) in *.
  assert (E2 : run c (init n b m0) (l ++ Frame f0 g0 u0 t0 :: m) = s2) by (rewrite run_app; fold s0; unfold s2; rewrite S1; reflexivity).
  assert (K2 : tr s2 = trun c (tr s1) m) by apply (proj1 (proj2 (run_parts c m s1))).
  assert (LP2 : last_point (tr s2) = last_point (tr s1)) by (rewrite K2; apply last_point_same; exact NT).
  assert (PO : pointing (tr s2) = false).
  { rewrite <- E2, tr_run. assert (KF : forall a, trun c (tr (init n b m0)) (l ++ Frame f0 g0 u0 t0 :: a) = trun c (tr (init n b m0)) (l ++ a)) by (intros a; rewrite !trun_app; reflexivity).
    rewrite KF. unfold m. rewrite app_assoc. apply (pointed c n b m0 (l ++ m1) r t1 m2); [| exact T1 | intros t' In'; apply (NT t'); apply in_or_app; right; right; exact In'].
    intros t' In'. apply in_app_or in In'. destruct In' as [In'|In']; [apply B; exact In' | exfalso; apply (NT t'); apply in_or_app; left; exact In']. }
  unfold moving. rewrite E2. destruct (G2 f (or_introl (ex_intro _ g (ex_intro _ u (ex_intro _ t (or_introl eq_refl)))))) as [v' [V' [SU FV]]]. rewrite V in V'. injection V' as <-.
  apply (still_none c s2 f g u t i y2 v); auto.
  - split; [rewrite <- E2; apply no_press_run; exact NP | split; [exact PO | rewrite <- E2; apply no_pen_run; exact P]].
  - rewrite <- E2, run_length. apply (Z (Frame f g u t)). apply in_or_app; right; right; apply in_or_app; right; left; reflexivity.
  - apply (C f g u t v); [apply in_or_app; right; left; reflexivity | exact V].
  - destruct L2 as [L2|[L2 L2']]; [left; exact L2 | right; right]. split; [exact D | split; [exact M | split; [exact L2 | rewrite LP2, L2'; exact LP]]].
  - rewrite <- E2. apply (thumb_end c n b m0 l f0 g0 u0 t0 m f g u t i v0 v I Z P V0 V TH).
Qed.
(** A finger that was down before the trackpoint was used moves the pointer again 300 ms after its last event. *)
Theorem C47_early_finger : forall c n b m0 l r f0 g0 u0 t0 m1 t1 m2 f g u t i v0 v,
  no_trackpoint l -> nth_error f0 i = Some v0 -> lands c v0 -> points_by r m1 -> r + 300000 <= t1 -> no_trackpoint m2 -> nth_error f i = Some v ->
  goes_on i (m1 ++ TpTimer t1 :: m2 ++ [Frame f g u t]) -> all_calm c i (m1 ++ TpTimer t1 :: m2 ++ [Frame f g u t]) ->
  no_pen (l ++ Frame f0 g0 u0 t0 :: m1 ++ TpTimer t1 :: m2) -> no_press (l ++ Frame f0 g0 u0 t0 :: m1 ++ TpTimer t1 :: m2) ->
  sized n (l ++ Frame f0 g0 u0 t0 :: (m1 ++ TpTimer t1 :: m2) ++ [Frame f g u t]) -> no_thumb c l i (Frame f0 g0 u0 t0 :: (m1 ++ TpTimer t1 :: m2) ++ [Frame f g u t]) ->
  nth_error (moving c n b m0 (l ++ Frame f0 g0 u0 t0 :: m1 ++ TpTimer t1 :: m2) f g u t) i = Some (free_out v).
Proof.
  intros c n b m0 l r f0 g0 u0 t0 m1 t1 m2 f g u t i v0 v NTl V0 L0 B T1 NT2 V G C P NP Z TH.
  assert (Em : m1 ++ TpTimer t1 :: m2 ++ [Frame f g u t] = (m1 ++ TpTimer t1 :: m2) ++ [Frame f g u t]) by (rewrite <- app_assoc; reflexivity).
  rewrite Em in G, C.
  assert (I : (i < n)%nat).
  { assert (X : length f0 = n) by (apply (Z (Frame f0 g0 u0 t0)); apply in_or_app; right; left; reflexivity). rewrite <- X. apply nth_error_Some. congruence. }
  destruct (no_pen_app l _ P) as [Pl Pm].
  assert (NPl : no_press l) by (intros k' t' In'; apply (NP k' t'); apply in_or_app; left; exact In').
  destruct (land_after c n b m0 l f0 g0 u0 t0 i v0) as [_ [y [Y [PY _]]]]; auto.
  { intros z Hz. apply Z. apply in_app_or in Hz. apply in_or_app. destruct Hz as [Hz|[<-|[]]]; [left; exact Hz | right; left; reflexivity]. }
  { apply no_press_stays; [reflexivity | exact NPl]. }
  { apply trp_none; auto. }
  { destruct TH as [TH|[TH1 TH2]]; [left; exact TH | right; split; [exact TH1 | intros z [<-|[]]; apply TH2; left; reflexivity]]. }
  set (s1 := run c (init n b m0) (l ++ [Frame f0 g0 u0 t0])) in *. set (m := m1 ++ TpTimer t1 :: m2) in *.
  destruct (goes_on_app i m _ G) as [G1 G2]. assert (Zm : sized n m) by (intros z Hz; apply Z; apply in_or_app; right; right; apply in_or_app; left; exact Hz).
  assert (Cm : all_calm c i m) by (intros f' g' u' t' v' In' V'; apply (C f' g' u' t' v'); [apply in_or_app; left; exact In' | exact V']).
  assert (Pm' : no_pen m) by (intros w f' t' In'; apply (Pm w f' t'); right; exact In').
  assert (A1 : astate (ar s1) = ARB_NONE).
  { apply no_pen_run. intros w f' t' In'. apply in_app_or in In'. destruct In' as [In'|[K|[]]]; [exact (Pl w f' t' In') | discriminate]. }
  destruct (stays_clean c n i m s1 y I Zm G1 Cm Pm' A1 Y PY) as [y2 [Y2 [P2 _]]].
  assert (E2 : run c (init n b m0) (l ++ Frame f0 g0 u0 t0 :: m) = run c s1 m).
  { replace (l ++ Frame f0 g0 u0 t0 :: m) with ((l ++ [Frame f0 g0 u0 t0]) ++ m) by (rewrite <- app_assoc; reflexivity). rewrite run_app. reflexivity. }
  set (s2 := run c s1 m) in *.
  assert (PO : pointing (tr s2) = false).
  { rewrite <- E2, tr_run. assert (KF : forall a, trun c (tr (init n b m0)) (l ++ Frame f0 g0 u0 t0 :: a) = trun c (tr (init n b m0)) (l ++ a)) by (intros a; rewrite !trun_app; reflexivity).
    rewrite KF. unfold m. rewrite app_assoc. apply (pointed c n b m0 (l ++ m1) r t1 m2); [| exact T1 | exact NT2].
    intros t' In'. apply in_app_or in In'. destruct In' as [In'|In']; [exfalso; exact (NTl t' In') | apply B; exact In']. }
  unfold moving. rewrite E2. destruct (G2 f (or_introl (ex_intro _ g (ex_intro _ u (ex_intro _ t (or_introl eq_refl)))))) as [v' [V' [SU FV]]]. rewrite V in V'. injection V' as <-.
  apply (still_none c s2 f g u t i y2 v); auto.
  - split; [rewrite <- E2; apply no_press_run; exact NP | split; [exact PO | rewrite <- E2; apply no_pen_run; exact P]].
  - rewrite <- E2, run_length. apply (Z (Frame f g u t)). apply in_or_app; right; right; apply in_or_app; right; left; reflexivity.
  - apply (C f g u t v); [apply in_or_app; right; left; reflexivity | exact V].
  - rewrite <- E2. apply (thumb_end c n b m0 l f0 g0 u0 t0 m f g u t i v0 v I Z P V0 V TH).
Qed.

(** ** The hypotheses are met *)
Local Ltac all_of := let x := fresh "x" in let X := fresh "X" in intros x X; cbn in X; repeat (destruct X as [<-|X]; [cbn; try lia; auto |]); destruct X.
Local Ltac points := let X := fresh "X" in intros ? X; cbn in X; repeat (destruct X as [X|X]; [first [discriminate | injection X as <-; lia] |]); destruct X.
Example C47_pointing_blocks_applies : ~ In true (moving ex_config 2 true Es_Model.M_2FG ([] ++ Point 1000000 :: [TpTimer 1010000] ++ Point 1015000 :: [] ++ Point 1030000 :: [TpTimer 1329999]) (down 500 300) true None 1329999).
Proof. apply C47_pointing_blocks; [reflexivity | all_of | all_of | all_of]. Qed.
Example C47_pointing_on_blocks_applies :
  ~ In true (moving ex_config 2 true Es_Model.M_2FG ([] ++ Point 1000000 :: [] ++ Point 1015000 :: [] ++ Point 1030000 :: [TpTimer 1200000; Point 1300000; TpTimer 1500000; Point 1550000; TpTimer 1849999]) (down 500 300) true None 1849999).
Proof. apply C47_pointing_on_blocks; [reflexivity | all_of | all_of | cbn; lia]. Qed.
Example C47_pointing_ends_applies :
  nth_error (moving ex_config 2 true Es_Model.M_2FG ([Point 1000000; Point 1015000; Point 1030000] ++ TpTimer 1330000 :: []) (down 500 300) true None 1330001) 0 = Some true.
Proof.
  apply (C47_pointing_ends ex_config 2 true Es_Model.M_2FG _ 1030000 1330000 [] (down 500 300) true None 1330001 0 (at_ BEGIN true true 500 300)); try hist; [points | | lone_one].
  intros l1 k s l2 E. cbn in E. repeat (destruct l1 as [|? l1]; [discriminate | injection E as <- E]). destruct l1; discriminate.
Qed.
(** Two events, a pause, two events *)
Example C47_not_pointing_applies :
  nth_error (moving ex_config 2 true Es_Model.M_2FG [Point 1000000; Point 1015000; TpTimer 1055000; Point 1100000; Point 1110000] (down 500 300) true None 1111000) 0 = Some true.
Proof.
  apply (C47_not_pointing ex_config 2 true Es_Model.M_2FG _ (down 500 300) true None 1111000 0 (at_ BEGIN true true 500 300)); try hist; [| | lone_one].
  - right. intros a t1 b t2 d t3 e E Nb Nd.
    destruct a as [|? a]; cbn in E; [injection E as <- E | injection E as <- E].
    { destruct b as [|x b]; cbn in E; [injection E as <- E | injection E as <- _; exfalso; apply (Nb 1015000); left; reflexivity].
      destruct d as [|x d]; cbn in E; [discriminate |]. injection E as <- E. right. exists 1055000. split; [left; reflexivity | lia]. }
    destruct a as [|? a]; cbn in E; [injection E as <- E | injection E as <- E].
    { destruct b as [|x b]; cbn in E; [discriminate |]. injection E as <- E. left. exists 1055000. split; [left; reflexivity | lia]. }
    exfalso. assert (L : length [TpTimer 1055000; Point 1100000; Point 1110000] = length (a ++ Point t1 :: b ++ Point t2 :: d ++ Point t3 :: e)) by (rewrite <- E; reflexivity).
    destruct a as [|? a]; cbn in E; [discriminate |]. injection E as <- E. destruct a as [|? a]; cbn in E; injection E as <- E.
    { destruct b as [|x b]; cbn in E; [injection E as <- E; destruct d; discriminate |]. injection E as <- E. destruct b; discriminate. }
    destruct a as [|? a]; cbn in E; injection E as <- E; [destruct b; discriminate | destruct a; discriminate].
  - apply no_press_types. hist.
Qed.
Example C47_resting_palm_applies :
  nth_error (moving ex_config 2 true Es_Model.M_2FG (([] ++ Point 1000000 :: [] ++ Point 1015000 :: [] ++ Point 1030000 :: []) ++ Frame (down 500 300) true None 1040000 :: [Frame (moved 500 301) true None 1050000] ++ Point 1060000 :: [TpTimer 1360000; Frame (moved 520 330) true None 5000000])
    (moved 550 340) true None 6000000) 0 = Some false.
Proof. apply (C47_resting_palm ex_config 2 true Es_Model.M_2FG [] 1000000 [] 1015000 [] 1030000 [] (down 500 300) true None 1040000 _ 1060000 _ (moved 550 340) true None 6000000 0 (at_ BEGIN true true 500 300)); try hist; [all_of | all_of | all_of | points]. Qed.
Example C47_late_finger_applies :
  nth_error (moving ex_config 2 true Es_Model.M_2FG ([Point 1000000; Point 1015000; Point 1030000] ++ Frame (down 500 300) true None 1040000 :: [Frame (moved 501 300) true None 1070000] ++ TpTimer 1330000 :: []) (moved 600 350) true None 2010000) 0 = Some true.
Proof.
  apply (C47_late_finger ex_config 2 true Es_Model.M_2FG _ 1030000 (down 500 300) true None 1040000 _ 1330000 _ (moved 600 350) true None 2010000 0 (at_ BEGIN true true 500 300) (at_ UPDATE false true 600 350)); try hist; [points | lone_one].
Qed.
Example C47_early_finger_applies :
  nth_error (moving ex_config 2 true Es_Model.M_2FG ([] ++ Frame (down 500 300) true None 900000 :: [Point 1000000; Point 1015000; Point 1030000; Frame (moved 501 300) true None 1070000] ++ TpTimer 1330000 :: []) (moved 600 350) true None 2010000) 0 = Some true.
Proof.
  apply (C47_early_finger ex_config 2 true Es_Model.M_2FG [] 1030000 (down 500 300) true None 900000 _ 1330000 [] (moved 600 350) true None 2010000 0 (at_ BEGIN true true 500 300) (at_ UPDATE false true 600 350)); try hist; [points | lone_one].
Qed.

Print Assumptions C47_pointing_blocks.
Print Assumptions C47_pointing_on_blocks.
Print Assumptions C47_pointing_ends.
Print Assumptions C47_not_pointing.
Print Assumptions C47_resting_palm.
Print Assumptions C47_late_finger.
Print Assumptions C47_early_finger.
