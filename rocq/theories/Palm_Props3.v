(** * Palms are ignored and fingers are not (C48) *)
Require Import Coq.ZArith.ZArith Coq.Lists.List Coq.Bool.Bool Coq.micromega.Lia Coq.QArith.QArith.
Require Import Verif.Palm_Model Verif.Palm_Spec Verif.Palm_Proofs1 Verif.Palm_Proofs2 Verif.Palm_Proofs3 Verif.Palm_Proofs4 Verif.Palm_Proofs5 Verif.Palm_Proofs6 Verif.Palm_Proofs7 Verif.Palm_Props Verif.Palm_Props2.
Require Verif.Es_Model Verif.Gest_Model.
Import ListNotations.
Open Scope Z_scope.
Local Arguments frame : simpl never.
Local Arguments keyboard_event : simpl never.

(** The abort() in palm detection is never reached. *)
Theorem C48_no_abort : forall c n b m0 l, ok (run c (init n b m0) l) = true.
Proof.
  intros c n b m0 l. assert (G : forall l s, ok (run c s l) = ok s); [| rewrite G; reflexivity].
  induction l0 as [|i l0 IH]; intros s; [reflexivity |]. cbn [run]. rewrite IH. apply step_ok.
Qed.

Lemma goes_last : forall i f g u t l, goes_on i (l ++ [Frame f g u t]) -> goes_on i [Frame f g u t].
Proof. intros i f g u t l G. apply (goes_on_app i l _ G). Qed.
Lemma sized_frame : forall n l f g u t r, sized n (l ++ Frame f g u t :: r) -> length f = n.
Proof. intros n l f g u t r Z. apply (Z (Frame f g u t)). apply in_or_app. right. left. reflexivity. Qed.
Lemma run_frame : forall c n b m0 l f g u t, run c (init n b m0) (l ++ [Frame f g u t]) = fst (frame c (run c (init n b m0) l) f g u t).
Proof. intros. rewrite run_app. cbn [run]. apply fst_step_frame. Qed.

(** A touch that moved the pointer and then, in the same contact, is pressed harder or gets bigger than a finger, is ignored until it is lifted: whatever happens in between and afterwards, also when the pressure goes back. *)
Theorem C48_heavy_palm : forall c n b m0 l f0 g0 u0 t0 m f1 g1 u1 t1 m2 f g u t i v1,
  nth_error (moving c n b m0 l f0 g0 u0 t0) i = Some true ->
  nth_error f1 i = Some v1 -> dirty v1 = true -> too_hard c v1 \/ too_big c v1 ->
  goes_on i (m ++ Frame f1 g1 u1 t1 :: m2 ++ [Frame f g u t]) -> never_tool i (m ++ [Frame f1 g1 u1 t1]) ->
  sized n (l ++ Frame f0 g0 u0 t0 :: m ++ Frame f1 g1 u1 t1 :: m2 ++ [Frame f g u t]) ->
  nth_error (moving c n b m0 (l ++ Frame f0 g0 u0 t0 :: m) f1 g1 u1 t1) i = Some false /\
  nth_error (moving c n b m0 (l ++ Frame f0 g0 u0 t0 :: m ++ Frame f1 g1 u1 t1 :: m2) f g u t) i = Some false.
Proof.
  intros c n b m0 l f0 g0 u0 t0 m f1 g1 u1 t1 m2 f g u t i v1 A V1 D1 H G NT Z. unfold moving in *.
  assert (L0 : length f0 = n) by (apply (sized_frame _ _ _ _ _ _ _ Z)).
  assert (L1 : length f1 = n) by (apply (Z (Frame f1 g1 u1 t1)); apply in_or_app; right; right; apply in_or_app; right; left; reflexivity).
  assert (L2 : length f = n) by (apply (Z (Frame f g u t)); apply in_or_app; right; right; apply in_or_app; right; right; apply in_or_app; right; left; reflexivity).
  assert (I : (i < n)%nat) by (rewrite <- L1; apply nth_error_Some; congruence).
  destruct (active_none c (run c (init n b m0) l) f0 g0 u0 t0 i) as [y [Y PY]]; [rewrite run_length; exact L0 | exact A |]. rewrite <- run_frame in Y.
  set (s1 := run c (init n b m0) (l ++ [Frame f0 g0 u0 t0])) in *.
  destruct (goes_on_app i m _ G) as [G1 G2]. change (goes_on i ([Frame f1 g1 u1 t1] ++ m2 ++ [Frame f g u t])) in G2. destruct (goes_on_app i _ _ G2) as [G3 G4]. destruct (goes_on_app i _ _ G4) as [G5 G6].
  assert (Zm : sized n m /\ sized n m2) by (split; intros z Hz; apply Z; apply in_or_app; right; right; apply in_or_app; [left; exact Hz | right; right; apply in_or_app; left; exact Hz]). destruct Zm as [Zm Zm2].
  assert (NTm : never_tool i m) by (intros f' v' [[g' [u' [t' K]]]|[w' [t' K]]] V'; apply (NT f' v'); auto; [left; exists g', u', t' | right; exists w', t']; apply in_or_app; left; exact K).
  destruct (cof_run c n i m s1 y I Zm G1 NTm Y (or_introl PY)) as [y2 [Y2 P2]].
  set (s2 := run c s1 m) in *.
  assert (E2 : run c (init n b m0) (l ++ Frame f0 g0 u0 t0 :: m) = s2) by (replace (l ++ Frame f0 g0 u0 t0 :: m) with ((l ++ [Frame f0 g0 u0 t0]) ++ m) by (rewrite <- app_assoc; reflexivity); rewrite run_app; reflexivity).
  assert (N2 : length (touches s2) = n) by (rewrite <- E2; apply run_length).
  destruct (G3 f1 (or_introl (ex_intro _ g1 (ex_intro _ u1 (ex_intro _ t1 (or_introl eq_refl)))))) as [v1' [V1' [U1 F1]]]. rewrite V1 in V1'. injection V1' as <-.
  destruct (frame_touch c s2 f1 g1 u1 t1 i y2 v1 Y2 V1) as [mm [y3 [h [Y3 [Q3 _]]]]]. destruct Q3 as [_ [Q3 _]].
  assert (TV : toolpalm v1 = false) by (apply (NT f1 v1); [left; exists g1, u1, t1; apply in_or_app; right; left; reflexivity | exact V1]).
  destruct (enter_update t1 y2 v1 U1 F1) as [E1 [_ [_ [E4 _]]]].
  assert (P3 : forever (palm y3)).
  { rewrite Q3, after_dirty by (rewrite E4; first [exact D1 | rewrite U1; discriminate]). apply heavy_update; rewrite ?E4; auto. unfold clean_or_forever. rewrite E1. exact P2. }
  split.
  - rewrite E2. apply (palm_still c s2 f1 g1 u1 t1 i y3 Y3); [congruence |]. destruct P3 as [P|[P|P]]; rewrite P; discriminate.
  - set (s3 := fst (frame c s2 f1 g1 u1 t1)) in *. destruct (forever_run c n i m2 s3 y3 I Zm2 G5 Y3 P3) as [y4 [Y4 P4]].
    assert (E3 : run c (init n b m0) (l ++ Frame f0 g0 u0 t0 :: m ++ Frame f1 g1 u1 t1 :: m2) = run c s3 m2).
    { replace (l ++ Frame f0 g0 u0 t0 :: m ++ Frame f1 g1 u1 t1 :: m2) with ((l ++ Frame f0 g0 u0 t0 :: m) ++ [Frame f1 g1 u1 t1] ++ m2) by (rewrite <- app_assoc; reflexivity).
      do 2 rewrite run_app. rewrite E2. cbn [run]. rewrite fst_step_frame. reflexivity. }
    rewrite E3. apply (forever_frame c n i _ y4 f g u t I); auto. rewrite <- E3. apply run_length.
Qed.
(** A touch that is pressed harder than a finger from the start is ignored until it is lifted; one that is too big from the start as well, if neither the keyboard nor the trackpoint is in use. *)
Theorem C48_heavy_landing : forall c n b m0 l f0 g0 u0 t0 m f g u t i v0,
  nth_error f0 i = Some v0 -> st v0 = BEGIN -> fresh v0 = true -> dirty v0 = true ->
  too_hard c v0 \/ (too_big c v0 /\ toolpalm v0 = false /\ no_press l /\ no_trackpoint l) ->
  goes_on i (m ++ [Frame f g u t]) -> sized n (l ++ Frame f0 g0 u0 t0 :: m ++ [Frame f g u t]) ->
  nth_error (moving c n b m0 l f0 g0 u0 t0) i = Some false /\ nth_error (moving c n b m0 (l ++ Frame f0 g0 u0 t0 :: m) f g u t) i = Some false.
Proof.
  intros c n b m0 l f0 g0 u0 t0 m f g u t i v0 V0 B F D H G Z. unfold moving.
  assert (L0 : length f0 = n) by (apply (sized_frame _ _ _ _ _ _ _ Z)).
  assert (L2 : length f = n) by (apply (Z (Frame f g u t)); apply in_or_app; right; right; apply in_or_app; right; left; reflexivity).
  assert (I : (i < n)%nat) by (rewrite <- L0; apply nth_error_Some; congruence).
  set (s0 := run c (init n b m0) l). destruct (run_touch c n b m0 l i I) as [x X]. fold s0 in X.
  destruct (frame_touch c s0 f0 g0 u0 t0 i x v0 X V0) as [mm [y [h [Y [Q _]]]]]. destruct Q as [_ [Q _]]. destruct (enter_begin t0 x v0 B) as [E1 [E2 [E3 _]]]. assert (P0 : palm (enter t0 x v0) = PALM_NONE) by auto.
  assert (P : forever (palm y)).
  { rewrite Q, after_dirty by (rewrite E2; first [exact D | rewrite B; discriminate]). set (z := enter t0 x v0) in *. unfold palm_detect. cbn [first_hit].
    destruct (pressure_triggered c z) as [z1 bb] eqn:E.
    assert (W : z1 = z /\ bb = false /\ ~ too_hard c v0 \/ palm z1 = PALM_PRESSURE /\ bb = true).
    { unfold pressure_triggered in E. destruct (use_pressure c) eqn:UP; cbn [negb] in E; [| injection E as <- <-; left; split; [reflexivity | split; [reflexivity | intros [K _]; congruence]]]. rewrite P0, E2 in E.
      destruct (_ <? _) eqn:LT; injection E as <- <-; [right; auto |]. left. split; [reflexivity | split; [reflexivity |]]. intros [_ K]. apply Z.ltb_lt in K. congruence. }
    destruct W as [[-> [-> W]]|[W ->]]; [| cbn; left; exact W]. destruct H as [H|[[H1 H2] [H3 [H4 H5]]]]; [contradiction |].
    destruct (astate (ar s0)); [| cbn; right; right; reflexivity | cbn; right; right; reflexivity]. cbn [arbitration_triggered].
    assert (KT : typing (kb s0) = false) by (apply no_press_run; exact H4). assert (KP : pointing (tr s0) = false) by (apply no_point_run; exact H5).
    assert (D1 : dwt_triggered (kb s0) z = (z, false)) by (unfold dwt_triggered; rewrite E2, B, P0, KT; cbn; rewrite ?andb_false_r; reflexivity).
    assert (D2 : trackpoint_triggered c (tr s0) z = (z, false)) by (unfold trackpoint_triggered; rewrite E2, B, P0, KP; destruct (negb _); cbn; rewrite ?andb_false_r; reflexivity).
    assert (D3 : tool_triggered c z = (z, false)) by (unfold tool_triggered; rewrite P0, E2, H3; destruct (negb _); reflexivity).
    rewrite D1, D2, D3. unfold touch_size_triggered. rewrite H1, P0, E2. cbn [negb].
    replace ((size_threshold c <? major v0) || (size_threshold c <? minor v0)) with true; [cbn; right; left; reflexivity |]. symmetry. apply orb_true_iff. destruct H2 as [H2|H2]; [left | right]; apply Z.ltb_lt; exact H2. }
  assert (N0 : length (touches s0) = n) by apply run_length. split.
  - apply (palm_still c s0 f0 g0 u0 t0 i y Y); [congruence |]. destruct P as [P|[P|P]]; rewrite P; discriminate.
  - destruct (goes_on_app i m _ G) as [G1 G2]. assert (Zm : sized n m) by (intros z Hz; apply Z; apply in_or_app; right; right; apply in_or_app; left; exact Hz).
    destruct (forever_run c n i m _ y I Zm G1 Y P) as [y2 [Y2 P2]].
    assert (E : run c (init n b m0) (l ++ Frame f0 g0 u0 t0 :: m) = run c (fst (frame c s0 f0 g0 u0 t0)) m).
    { replace (l ++ Frame f0 g0 u0 t0 :: m) with ((l ++ [Frame f0 g0 u0 t0]) ++ m) by (rewrite <- app_assoc; reflexivity). rewrite run_app, run_frame. reflexivity. }
    rewrite E. apply (forever_frame c n i _ y2 f g u t I); auto. rewrite <- E. apply run_length.
Qed.
(** While a pen is near no touch that is new or changes does anything; and a touch seen while the pen was near stays ignored when the pen has left, until it is lifted. *)
Theorem C48_pen : forall c n b m0 l w fa ta m f1 g1 u1 t1 m2 f g u t i v1,
  no_pen l -> w <> ARB_NONE -> pen_stays m -> nth_error f1 i = Some v1 -> st v1 <> NONE -> dirty v1 = true ->
  goes_on i (m2 ++ [Frame f g u t]) -> sized n (l ++ Arb w fa ta :: m ++ Frame f1 g1 u1 t1 :: m2 ++ [Frame f g u t]) ->
  nth_error (moving c n b m0 (l ++ Arb w fa ta :: m) f1 g1 u1 t1) i = Some false /\
  nth_error (moving c n b m0 (l ++ Arb w fa ta :: m ++ Frame f1 g1 u1 t1 :: m2) f g u t) i = Some false.
Proof.
  intros c n b m0 l w fa ta m f1 g1 u1 t1 m2 f g u t i v1 NP W PS V1 N1 D1 G Z. unfold moving.
  assert (L1 : length f1 = n) by (apply (Z (Frame f1 g1 u1 t1)); apply in_or_app; right; right; apply in_or_app; right; left; reflexivity).
  assert (L2 : length f = n) by (apply (Z (Frame f g u t)); apply in_or_app; right; right; apply in_or_app; right; right; apply in_or_app; right; left; reflexivity).
  assert (I : (i < n)%nat) by (rewrite <- L1; apply nth_error_Some; congruence).
  set (h0 := l ++ Arb w fa ta :: m) in *. set (s1 := run c (init n b m0) h0).
  assert (A1 : astate (ar s1) <> ARB_NONE).
  { destruct (run_parts c h0 (init n b m0)) as [_ [_ [E _]]]. unfold s1. rewrite E. unfold h0. rewrite arun_app. cbn [arun].
    assert (A0 : astate (arun (ar (init n b m0)) l) = ARB_NONE) by (apply arb_none; auto). set (a0 := arun _ l) in *. clearbody a0.
    assert (A2 : let a := astep a0 (Arb w fa ta) in astate a <> ARB_NONE /\ atimer a = None) by (cbn [astep]; rewrite A0; destruct w; cbn; [contradiction | split; [discriminate | reflexivity] | split; [discriminate | reflexivity]]).
    cbn zeta in A2. set (a := astep a0 (Arb w fa ta)) in *. clearbody a. clear -A2 PS. revert a A2. induction m as [|x m IH]; intros a [A B]; [exact A |]. cbn [arun].
    apply IH; [intros f' t' K; apply (PS f' t'); right; exact K |]. destruct x; cbn [astep]; auto.
    - destruct (arb_eq which (astate a)) eqn:EQ; [auto |]. destruct which; [exfalso; apply (PS f t); left; reflexivity | |]; cbn; split; try discriminate; reflexivity.
    - rewrite B. cbn. auto. }
  destruct (run_touch c n b m0 h0 i I) as [x X]. fold s1 in X.
  destruct (frame_touch c s1 f1 g1 u1 t1 i x v1 X V1) as [mm [y [h [Y [Q _]]]]]. destruct Q as [_ [Q _]].
  assert (P : forever (palm y)).
  { rewrite Q, after_dirty by (rewrite enter_now; assumption). set (z := enter t1 x v1) in *. unfold palm_detect. cbn [first_hit]. destruct (pressure_triggered c z) as [z1 bb] eqn:E.
    assert (K : bb = false \/ palm z1 = PALM_PRESSURE /\ bb = true).
    { unfold pressure_triggered in E. destruct (negb _); [injection E as <- <-; auto |]. destruct (palm z) eqn:PZ; try (injection E as <- <-; auto; fail). destruct (_ <? _); injection E as <- <-; auto. }
    destruct K as [->|[K ->]]; [| cbn; left; exact K]. destruct (astate (ar s1)); [contradiction | cbn; right; right; reflexivity | cbn; right; right; reflexivity]. }
  assert (N0 : length (touches s1) = n) by apply run_length. split.
  - apply (palm_still c s1 f1 g1 u1 t1 i y Y); [congruence |]. destruct P as [P|[P|P]]; rewrite P; discriminate.
  - destruct (goes_on_app i m2 _ G) as [G1 G2]. assert (Zm : sized n m2) by (intros z Hz; apply Z; apply in_or_app; right; right; apply in_or_app; right; right; apply in_or_app; left; exact Hz).
    destruct (forever_run c n i m2 _ y I Zm G1 Y P) as [y2 [Y2 P2]].
    assert (E : run c (init n b m0) (l ++ Arb w fa ta :: m ++ Frame f1 g1 u1 t1 :: m2) = run c (fst (frame c s1 f1 g1 u1 t1)) m2).
    { replace (l ++ Arb w fa ta :: m ++ Frame f1 g1 u1 t1 :: m2) with ((h0 ++ [Frame f1 g1 u1 t1]) ++ m2) by (unfold h0; rewrite <- !app_assoc; reflexivity). rewrite run_app, run_frame. reflexivity. }
    rewrite E. apply (forever_frame c n i _ y2 f g u t I); auto. rewrite <- E. apply run_length.
Qed.
(** The claim fails when the pen comes back within 90 ms: the timer that was to end the arbitration goes on, and 90 ms after the pen had left touches move the pointer though the pen is near. *)
Theorem C48_pen_returns_refuted : forall c n b m0 w fa ta fb tb fd td f g u t i v, w <> ARB_NONE -> detect_thumbs c = false -> td < tb + 90000 ->
  sized n ([Arb w fa ta; Arb ARB_NONE fb tb; Arb w fd td; ArbTimer (tb + 90000)] ++ [Frame f g u t]) -> nth_error f i = Some v -> lands c v ->
  nth_error (moving c n b m0 [Arb w fa ta; Arb ARB_NONE fb tb; Arb w fd td; ArbTimer (tb + 90000)] f g u t) i = Some (free_out v).
Proof.
  intros c n b m0 w fa ta fb tb fd td f g u t i v W DT TD Z V L. unfold moving. set (h := [Arb w fa ta; Arb ARB_NONE fb tb; Arb w fd td; ArbTimer (tb + 90000)]) in *.
  set (s := run c (init n b m0) h). assert (I : (i < n)%nat) by apply (size_lt _ _ _ _ _ _ _ _ Z V). destruct (run_touch c n b m0 h i I) as [x X]. fold s in X.
  assert (Q : quiet s).
  { split; [| split].
    - apply no_press_run. intros k t' K. cbn in K. repeat (destruct K as [K|K]; [discriminate |]). exact K.
    - apply no_point_run. intros t' K. cbn in K. repeat (destruct K as [K|K]; [discriminate |]). exact K.
    - destruct (run_parts c h (init n b m0)) as [_ [_ [E _]]]. unfold s. rewrite E. unfold h. cbn [arun]. destruct w; [contradiction | |]; cbn [astep init ar astate arb_eq due atimer]; rewrite Z.leb_refl; reflexivity. }
  apply (land c s f g u t i x v Q); auto.
  rewrite (run_length c n b m0 h : length (touches s) = n). apply (sized_frame _ _ _ _ _ _ _ Z).
Qed.
(** A finger is not taken for a palm: it comes down outside the edge zones, is never too hard, too big or called a palm by the kernel, and neither keyboard, trackpoint nor pen is used. *)
Theorem C48_clean_moves : forall c n b m0 l f0 g0 u0 t0 m f g u t i v0 v,
  nth_error f0 i = Some v0 -> lands c v0 -> nth_error f i = Some v -> goes_on i (m ++ [Frame f g u t]) -> all_calm c i (m ++ [Frame f g u t]) ->
  no_pen (l ++ Frame f0 g0 u0 t0 :: m) -> no_press (l ++ Frame f0 g0 u0 t0 :: m) -> no_trackpoint (l ++ Frame f0 g0 u0 t0 :: m) ->
  sized n (l ++ Frame f0 g0 u0 t0 :: m ++ [Frame f g u t]) -> no_thumb c l i (Frame f0 g0 u0 t0 :: m ++ [Frame f g u t]) ->
  nth_error (moving c n b m0 l f0 g0 u0 t0) i = Some (free_out v0) /\ nth_error (moving c n b m0 (l ++ Frame f0 g0 u0 t0 :: m) f g u t) i = Some (free_out v).
Proof.
  intros c n b m0 l f0 g0 u0 t0 m f g u t i v0 v V0 L0 V G C P NP NT Z TH.
  assert (I : (i < n)%nat) by (rewrite <- (sized_frame _ _ _ _ _ _ _ Z : length f0 = n); apply nth_error_Some; congruence).
  destruct (no_pen_app l _ P) as [Pl Pm]. destruct (no_trackpoint_app l _ NT) as [Tl _].
  assert (NPl : no_press l) by (intros k' t' In'; apply (NP k' t'); apply in_or_app; left; exact In').
  destruct (land_after c n b m0 l f0 g0 u0 t0 i v0) as [FA [y [Y [PY _]]]]; auto.
  { intros z Hz. apply Z. apply in_app_or in Hz. apply in_or_app. destruct Hz as [Hz|[<-|[]]]; [left; exact Hz | right; left; reflexivity]. }
  { apply no_press_stays; [reflexivity | exact NPl]. }
  { apply trp_none; auto. }
  { destruct TH as [TH|[TH1 TH2]]; [left; exact TH | right; split; [exact TH1 | intros z [<-|[]]; apply TH2; left; reflexivity]]. }
  split; [exact FA |]. set (s1 := run c (init n b m0) (l ++ [Frame f0 g0 u0 t0])) in *.
  destruct (goes_on_app i m _ G) as [G1 G2]. assert (Zm : sized n m) by (intros z Hz; apply Z; apply in_or_app; right; right; apply in_or_app; left; exact Hz).
  assert (Cm : all_calm c i m) by (intros f' g' u' t' v' In' V'; apply (C f' g' u' t' v'); [apply in_or_app; left; exact In' | exact V']).
  assert (Pm' : no_pen m) by (intros w f' t' In'; apply (Pm w f' t'); right; exact In').
  assert (A1 : astate (ar s1) = ARB_NONE).
  { apply no_pen_run. intros w f' t' In'. apply in_app_or in In'. destruct In' as [In'|[K|[]]]; [exact (Pl w f' t' In') | discriminate]. }
  destruct (stays_clean c n i m s1 y I Zm G1 Cm Pm' A1 Y PY) as [y2 [Y2 [P2 _]]].
  assert (E2 : run c (init n b m0) (l ++ Frame f0 g0 u0 t0 :: m) = run c s1 m).
  { replace (l ++ Frame f0 g0 u0 t0 :: m) with ((l ++ [Frame f0 g0 u0 t0]) ++ m) by (rewrite <- app_assoc; reflexivity). rewrite run_app. reflexivity. }
  set (s2 := run c s1 m) in *.
  unfold moving. rewrite E2. destruct (G2 f (or_introl (ex_intro _ g (ex_intro _ u (ex_intro _ t (or_introl eq_refl)))))) as [v' [V' [SU FV]]]. rewrite V in V'. injection V' as <-.
  apply (still_none c s2 f g u t i y2 v); auto.
  - split; [rewrite <- E2; apply no_press_run; exact NP | split; [rewrite <- E2; apply no_point_run; exact NT | rewrite <- E2; apply no_pen_run; exact P]].
  - rewrite <- E2, run_length. apply (Z (Frame f g u t)). apply in_or_app; right; right; apply in_or_app; right; left; reflexivity.
  - apply (C f g u t v); [apply in_or_app; right; left; reflexivity | exact V].
  - rewrite <- E2. apply (thumb_end c n b m0 l f0 g0 u0 t0 m f g u t i v0 v I Z P V0 V TH).
Qed.

(** ** The edges *)
Lemma quiet_run : forall c n b m0 l, no_press l -> no_trackpoint l -> no_pen l -> quiet (run c (init n b m0) l).
Proof. intros c n b m0 l A B C. split; [apply no_press_run; exact A | split; [apply no_point_run; exact B | apply no_pen_run; exact C]]. Qed.
Lemma edge_at : forall c n b m0 l f0 g0 u0 t0 m f i v0 rest,
  no_press l -> no_trackpoint l -> no_pen (l ++ Frame f0 g0 u0 t0 :: m) -> nth_error f0 i = Some v0 -> lands_in_edge c v0 -> alone i f0 -> goes_on i m -> edge_stays c i t0 m ->
  sized n (l ++ Frame f0 g0 u0 t0 :: m ++ f :: rest) ->
  (i < n)%nat /\ (exists y, nth_error (touches (fst (frame c (run c (init n b m0) l) f0 g0 u0 t0))) i = Some y /\ on_edge t0 (px v0) (py v0) y) /\
  exists y, nth_error (touches (run c (init n b m0) (l ++ Frame f0 g0 u0 t0 :: m))) i = Some y /\ on_edge t0 (px v0) (py v0) y.
Proof.
  intros c n b m0 l f0 g0 u0 t0 m f i v0 rest NP NT P V0 L0 A G ES Z.
  assert (LF : length f0 = n) by apply (sized_frame _ _ _ _ _ _ _ Z). assert (I : (i < n)%nat) by (rewrite <- LF; apply nth_error_Some; congruence). split; [exact I |].
  destruct (no_pen_app l _ P) as [Pl Pm]. set (s0 := run c (init n b m0) l). destruct (run_touch c n b m0 l i I) as [x X]. fold s0 in X.
  destruct (edge_lands c s0 f0 g0 u0 t0 i x v0 (quiet_run c n b m0 l NP NT Pl)) as [y [Y O]]; auto; [unfold s0; rewrite run_length; exact LF |]. split; [exists y; auto |].
  assert (E : run c (init n b m0) (l ++ Frame f0 g0 u0 t0 :: m) = run c (fst (frame c s0 f0 g0 u0 t0)) m).
  { replace (l ++ Frame f0 g0 u0 t0 :: m) with ((l ++ [Frame f0 g0 u0 t0]) ++ m) by (rewrite <- app_assoc; reflexivity). rewrite run_app, run_frame. reflexivity. }
  rewrite E. apply (edge_run c n i m _ y t0); auto.
  - unfold s0. rewrite <- run_frame. apply run_length.
  - intros z Hz. apply Z. apply in_or_app; right; right; apply in_or_app; left; exact Hz.
  - intros w f' t' K. apply (Pm w f' t'). right. exact K.
  - unfold s0. rewrite <- run_frame. apply no_pen_run. intros w f' t' K. apply in_app_or in K. destruct K as [K|[K|[]]]; [exact (Pl w f' t' K) | discriminate].
Qed.
(** A touch that comes down alone in an edge zone is ignored as long as it stays there alone; and, after 200 ms, wherever it goes. *)
Theorem C48_edge_ignored : forall c n b m0 l f0 g0 u0 t0 m f g u t i v0,
  no_press l -> no_trackpoint l -> no_pen (l ++ Frame f0 g0 u0 t0 :: m) -> nth_error f0 i = Some v0 -> lands_in_edge c v0 -> alone i f0 ->
  goes_on i (m ++ [Frame f g u t]) -> edge_stays c i t0 (m ++ [Frame f g u t]) -> sized n (l ++ Frame f0 g0 u0 t0 :: m ++ [Frame f g u t]) ->
  nth_error (moving c n b m0 l f0 g0 u0 t0) i = Some false /\ nth_error (moving c n b m0 (l ++ Frame f0 g0 u0 t0 :: m) f g u t) i = Some false.
Proof.
  intros c n b m0 l f0 g0 u0 t0 m f g u t i v0 NP NT P V0 L0 A G ES Z. unfold moving.
  destruct (goes_on_app i m _ G) as [G1 G2].
  assert (ES1 : edge_stays c i t0 m) by (intros f' g' u' t' v' K; apply (ES f' g' u' t' v'); apply in_or_app; left; exact K).
  destruct (edge_at c n b m0 l f0 g0 u0 t0 m (Frame f g u t) i v0 [] NP NT P V0 L0 A G1 ES1 Z) as [I [[y [Y [O _]]] [z [Zn Oz]]]].
  assert (LF : length f0 = n) by apply (sized_frame _ _ _ _ _ _ _ Z).
  assert (L2 : length f = n) by (apply (Z (Frame f g u t)); apply in_or_app; right; right; apply in_or_app; right; left; reflexivity). split.
  - apply (palm_still c _ f0 g0 u0 t0 i y Y); [rewrite run_length; exact LF | rewrite O; discriminate].
  - destruct (edge_run c n i [Frame f g u t] (run c (init n b m0) (l ++ Frame f0 g0 u0 t0 :: m)) z t0 (px v0) (py v0)) as [y2 [Y2 [O2 _]]]; auto.
    + apply run_length.
    + intros k [<-|[]]. exact L2.
    + intros w f' t' [K|[]]. discriminate.
    + apply no_pen_run. exact P.
    + intros f' g' u' t' v' [K|[]]. apply (ES f' g' u' t' v'). apply in_or_app. right. left. exact K.
    + cbn [run] in Y2. rewrite fst_step_frame in Y2. apply (palm_still c _ f g u t i y2 Y2); [rewrite run_length; exact L2 | rewrite O2; discriminate].
Qed.
(** It is a finger after all when it leaves the zone within 200 ms and away from the edge. *)
Theorem C48_edge_left : forall c n b m0 l f0 g0 u0 t0 m f g u t i v0 v,
  no_press (l ++ Frame f0 g0 u0 t0 :: m) -> no_trackpoint (l ++ Frame f0 g0 u0 t0 :: m) -> no_pen (l ++ Frame f0 g0 u0 t0 :: m) -> nth_error f0 i = Some v0 -> lands_in_edge c v0 -> alone i f0 ->
  goes_on i (m ++ [Frame f g u t]) -> edge_stays c i t0 m -> nth_error f i = Some v -> dirty v = true -> calm c v -> outside_edges c v -> t < t0 + 200000 -> moves_away c (px v0) (py v0) v ->
  sized n (l ++ Frame f0 g0 u0 t0 :: m ++ [Frame f g u t]) -> no_thumb c l i (Frame f0 g0 u0 t0 :: m ++ [Frame f g u t]) ->
  nth_error (moving c n b m0 (l ++ Frame f0 g0 u0 t0 :: m) f g u t) i = Some (free_out v).
Proof.
  intros c n b m0 l f0 g0 u0 t0 m f g u t i v0 v NP NT P V0 L0 A G ES V D C O T MA Z TH. unfold moving.
  destruct (goes_on_app i m _ G) as [G1 G2]. destruct (no_trackpoint_app l _ NT) as [NTl _].
  assert (NPl : no_press l) by (intros k' t' In'; apply (NP k' t'); apply in_or_app; left; exact In').
  destruct (edge_at c n b m0 l f0 g0 u0 t0 m (Frame f g u t) i v0 [] NPl NTl P V0 L0 A G1 ES Z) as [I [_ [z [Zn [O1 [O2 O3]]]]]].
  assert (L2 : length f = n) by (apply (Z (Frame f g u t)); apply in_or_app; right; right; apply in_or_app; right; left; reflexivity).
  set (s := run c (init n b m0) (l ++ Frame f0 g0 u0 t0 :: m)) in *.
  destruct (quiet_run c n b m0 _ NP NT P) as [QK [QT QA]]. fold s in QK, QT, QA.
  destruct (G2 f (or_introl (ex_intro _ g (ex_intro _ u (ex_intro _ t (or_introl eq_refl)))))) as [v' [V' [SU FV]]]. rewrite V in V'. injection V' as <-.
  destruct (frame_touch c s f g u t i z v Zn V) as [mm [y [h [Y [[_ [Q _]] _]]]]]. destruct (enter_update t z v SU FV) as [E1 [E2 [E3 [E4 _]]]].
  apply (finger_moves c s f g u t i z v y); auto.
  - unfold s. rewrite run_length. exact L2.
  - rewrite Q, after_dirty by (rewrite E4; first [exact D | rewrite SU; discriminate]). rewrite QA. apply edge_release; rewrite ?E1, ?E4; auto. right.
    apply moved_out; rewrite ?E2, ?E3, ?E4, ?O2, ?O3; auto.
  - apply (thumb_end c n b m0 l f0 g0 u0 t0 m f g u t i v0 v I Z P V0 V TH).
Qed.
(** A second finger that moves makes it a finger as well, on a touchpad without thumb detection: whether the other one comes down now or goes on. *)
Theorem C48_edge_second_finger : forall c n b m0 l f0 g0 u0 t0 m f g u t i v0 v j vj,
  detect_thumbs c = false -> no_press (l ++ Frame f0 g0 u0 t0 :: m) -> no_trackpoint (l ++ Frame f0 g0 u0 t0 :: m) -> no_pen (l ++ Frame f0 g0 u0 t0 :: m) -> nth_error f0 i = Some v0 -> lands_in_edge c v0 -> alone i f0 ->
  goes_on i (m ++ [Frame f g u t]) -> edge_stays c i t0 m -> nth_error f i = Some v -> dirty v = true -> calm c v -> j <> i -> nth_error f j = Some vj -> lands c vj -> free_pre vj = true -> free_mid vj = true ->
  sized n (l ++ Frame f0 g0 u0 t0 :: m ++ [Frame f g u t]) ->
  nth_error (moving c n b m0 (l ++ Frame f0 g0 u0 t0 :: m) f g u t) i = Some (free_out v).
Proof.
  intros c n b m0 l f0 g0 u0 t0 m f g u t i v0 v j vj DT NP NT P V0 L0 A G ES V D C NJ VJ LJ F1 F2 Z. unfold moving.
  destruct (goes_on_app i m _ G) as [G1 G2]. destruct (no_trackpoint_app l _ NT) as [NTl _].
  assert (NPl : no_press l) by (intros k' t' In'; apply (NP k' t'); apply in_or_app; left; exact In').
  destruct (edge_at c n b m0 l f0 g0 u0 t0 m (Frame f g u t) i v0 [] NPl NTl P V0 L0 A G1 ES Z) as [I [_ [z [Zn [O1 [O2 O3]]]]]].
  assert (L2 : length f = n) by (apply (Z (Frame f g u t)); apply in_or_app; right; right; apply in_or_app; right; left; reflexivity).
  assert (J : (j < n)%nat) by (rewrite <- L2; apply nth_error_Some; congruence). destruct (run_touch c n b m0 (l ++ Frame f0 g0 u0 t0 :: m) j J) as [xj XJ].
  set (s := run c (init n b m0) (l ++ Frame f0 g0 u0 t0 :: m)) in *.
  pose proof (quiet_run c n b m0 _ NP NT P) as QQ. fold s in QQ.
  destruct (G2 f (or_introl (ex_intro _ g (ex_intro _ u (ex_intro _ t (or_introl eq_refl)))))) as [v' [V' [SU FV]]]. rewrite V in V'. injection V' as <-.
  assert (LS : length f = length (touches s)) by (unfold s; rewrite run_length; exact L2).
  destruct (frame_second c s f g u t i z v j xj vj DT QQ LS Zn V (or_intror SU) (fun E => NJ (eq_sym E)) XJ VJ (or_introl LJ) F1 F2) as [y [Y [_ [Q _]]]]. destruct (enter_update t z v SU FV) as [E1 [E2 [E3 [E4 _]]]]. destruct QQ as [QK [QT QA]].
  apply (finger_moves c s f g u t i z v y); auto.
  rewrite Q, after_dirty by (rewrite E4; first [exact D | rewrite SU; discriminate]). rewrite QA. apply edge_release; rewrite ?E1, ?E4; auto.
Qed.
(** A finger that comes down in an edge zone while another one is moving is a finger from the start, on a touchpad without thumb detection. *)
Theorem C48_edge_with_finger : forall c n b m0 l f0 g0 u0 t0 m f g u t i v j vj0 vj,
  detect_thumbs c = false -> no_press (l ++ Frame f0 g0 u0 t0 :: m) -> no_trackpoint (l ++ Frame f0 g0 u0 t0 :: m) -> no_pen (l ++ Frame f0 g0 u0 t0 :: m) ->
  nth_error f0 j = Some vj0 -> lands c vj0 -> goes_on j (m ++ [Frame f g u t]) -> all_calm c j (m ++ [Frame f g u t]) -> nth_error f j = Some vj -> free_pre vj = true -> free_mid vj = true ->
  j <> i -> nth_error f i = Some v -> st v = BEGIN -> fresh v = true -> dirty v = true -> calm c v ->
  sized n (l ++ Frame f0 g0 u0 t0 :: m ++ [Frame f g u t]) ->
  nth_error (moving c n b m0 (l ++ Frame f0 g0 u0 t0 :: m) f g u t) i = Some (free_out v).
Proof.
  intros c n b m0 l f0 g0 u0 t0 m f g u t i v j vj0 vj DT NP NT P VJ0 LJ G C VJ F1 F2 NJ V B F D CV Z. unfold moving.
  assert (L0 : length f0 = n) by apply (sized_frame _ _ _ _ _ _ _ Z).
  assert (L2 : length f = n) by (apply (Z (Frame f g u t)); apply in_or_app; right; right; apply in_or_app; right; left; reflexivity).
  assert (I : (i < n)%nat) by (rewrite <- L2; apply nth_error_Some; congruence). assert (J : (j < n)%nat) by (rewrite <- L2; apply nth_error_Some; congruence).
  destruct (no_pen_app l _ P) as [Pl Pm]. destruct (no_trackpoint_app l _ NT) as [Tl _].
  assert (NPl : no_press l) by (intros k' t' In'; apply (NP k' t'); apply in_or_app; left; exact In').
  destruct (land_after c n b m0 l f0 g0 u0 t0 j vj0) as [_ [y [Y [PY _]]]]; auto.
  { intros z Hz. apply Z. apply in_app_or in Hz. apply in_or_app. destruct Hz as [Hz|[<-|[]]]; [left; exact Hz | right; left; reflexivity]. }
  { apply no_press_stays; [reflexivity | exact NPl]. }
  { apply trp_none; auto. }
  { left. exact DT. }
  set (s1 := run c (init n b m0) (l ++ [Frame f0 g0 u0 t0])) in *.
  destruct (goes_on_app j m _ G) as [G1 G2]. assert (Zm : sized n m) by (intros z Hz; apply Z; apply in_or_app; right; right; apply in_or_app; left; exact Hz).
  assert (Cm : all_calm c j m) by (intros f' g' u' t' v' In' V'; apply (C f' g' u' t' v'); [apply in_or_app; left; exact In' | exact V']).
  assert (Pm' : no_pen m) by (intros w f' t' In'; apply (Pm w f' t'); right; exact In').
  assert (A1 : astate (ar s1) = ARB_NONE).
  { apply no_pen_run. intros w f' t' In'. apply in_app_or in In'. destruct In' as [In'|[K|[]]]; [exact (Pl w f' t' In') | discriminate]. }
  destruct (stays_clean c n j m s1 y J Zm G1 Cm Pm' A1 Y PY) as [xj [XJ [PJ _]]].
  assert (E2 : run c (init n b m0) (l ++ Frame f0 g0 u0 t0 :: m) = run c s1 m).
  { replace (l ++ Frame f0 g0 u0 t0 :: m) with ((l ++ [Frame f0 g0 u0 t0]) ++ m) by (rewrite <- app_assoc; reflexivity). rewrite run_app. reflexivity. }
  rewrite <- E2 in XJ. destruct (run_touch c n b m0 (l ++ Frame f0 g0 u0 t0 :: m) i I) as [x X]. set (s := run c (init n b m0) (l ++ Frame f0 g0 u0 t0 :: m)) in *.
  pose proof (quiet_run c n b m0 _ NP NT P) as QQ. fold s in QQ.
  destruct (G2 f (or_introl (ex_intro _ g (ex_intro _ u (ex_intro _ t (or_introl eq_refl)))))) as [v' [V' [SU FV]]]. rewrite VJ in V'. injection V' as <-.
  assert (LS : length f = length (touches s)) by (unfold s; rewrite run_length; exact L2).
  assert (CJ : calm c vj) by (apply (C f g u t vj); [apply in_or_app; right; left; reflexivity | exact VJ]).
  destruct (frame_second c s f g u t i x v j xj vj DT QQ LS X V (or_introl B) (fun E => NJ (eq_sym E)) XJ VJ (or_intror (conj SU (conj FV (conj CJ PJ)))) F1 F2) as [yi [Yi [_ [Q _]]]].
  destruct (enter_begin t x v B) as [E1 [E3 [E4 _]]]. assert (P0 : palm (enter t x v) = PALM_NONE) by auto. destruct QQ as [QK [QT QA]].
  apply (finger_moves c s f g u t i x v yi); auto.
  rewrite Q, after_dirty by (rewrite E3; first [exact D | rewrite B; discriminate]). rewrite QA. set (z := enter t x v) in *.
  unfold palm_detect. cbn [first_hit arbitration_triggered]. rewrite calm_pressure by (rewrite ?E3; first [exact CV | congruence]).
  assert (D1 : dwt_triggered (kb s) z = (z, false)) by (unfold dwt_triggered; rewrite E3, B, P0, QK; cbn; rewrite ?andb_false_r; reflexivity).
  assert (D2 : trackpoint_triggered c (tr s) z = (z, false)) by (unfold trackpoint_triggered; rewrite E3, B, P0, QT; destruct (negb _); cbn; rewrite ?andb_false_r; reflexivity).
  rewrite D1, D2, calm_tool, calm_size by (rewrite ?E3; assumption).
  assert (D3 : edge_triggered c true t z = (z, false)) by (unfold edge_triggered; rewrite P0; reflexivity).
  rewrite D3, calm_pressure by (rewrite ?E3; first [exact CV | congruence]). exact P0.
Qed.

(** ** The hypotheses are met *)
Definition ex_plain : config := {| left_edge := 80; right_edge := 920; upper_edge := 30; use_pressure := true; pressure_threshold := 130; use_size := true; size_threshold := 400; use_mt_tool := true;
  monitor_trackpoint := true; is_clickpad := true; gp := gp ex_config; detect_thumbs := false; upper_thumb_line := 500; lower_thumb_line := 550; th_use_pressure := false; th_pressure := 0; th_use_size := false; th_size := 0 |}.
Definition hard (v : seen) : seen := {| st := st v; fresh := fresh v; dirty := dirty v; px := px v; py := py v; pressure := 131; major := 100; minor := 80; toolpalm := false;
  soft := false; redge := false; fast := false; hx := 0; hy := 0; free_pre := true; free_mid := true; free_out := true |}.
Definition big (v : seen) : seen := {| st := st v; fresh := fresh v; dirty := dirty v; px := px v; py := py v; pressure := 40; major := 401; minor := 80; toolpalm := false;
  soft := false; redge := false; fast := false; hx := 0; hy := 0; free_pre := true; free_mid := true; free_out := true |}.
Local Ltac never := intros ? ? [[? [? [? X]]]|[? [? X]]] V; cbn in X; repeat (destruct X as [X|X]; [first [discriminate | injection X as <- _ _ _; injection V as <-; reflexivity] |]); destruct X.
Local Ltac stays := intros ? ? ? ? ? X V; cbn in X; repeat (destruct X as [X|X]; [first [discriminate | injection X as <- _ _ <-; injection V as <-; split; [apply ex_alone | first [left; left; cbn; lia | right; cbn; lia]]] |]); destruct X.
(** A finger moves, rests on the touchpad with force, and eases off *)
Example C48_heavy_palm_applies :
  nth_error (moving ex_config 2 true Es_Model.M_2FG ([] ++ Frame (down 500 300) true None 1000000 :: [Frame (moved 505 300) true None 1010000] ++ Frame [hard (at_ UPDATE false true 505 301); seen0] true None 1020000 :: [Key 30 true 1030000; Frame (moved 505 302) true None 1040000; KbTimer 1530000])
    (moved 600 350) true None 9000000) 0 = Some false.
Proof.
  apply (C48_heavy_palm ex_config 2 true Es_Model.M_2FG [] (down 500 300) true None 1000000 _ [hard (at_ UPDATE false true 505 301); seen0] true None 1020000 _ (moved 600 350) true None 9000000 0 (hard (at_ UPDATE false true 505 301)));
    try hist; [left; split; [reflexivity | cbn; lia] | never].
Qed.
Example C48_heavy_landing_applies :
  nth_error (moving ex_config 2 true Es_Model.M_2FG ([Point 900000] ++ Frame [hard (at_ BEGIN true true 500 300); seen0] true None 1000000 :: [Frame (moved 505 300) true None 1010000]) (moved 600 350) true None 9000000) 0 = Some false /\
  nth_error (moving ex_config 2 true Es_Model.M_2FG ([] ++ Frame [big (at_ BEGIN true true 500 300); seen0] true None 1000000 :: [Frame (moved 505 300) true None 1010000]) (moved 600 350) true None 9000000) 0 = Some false.
Proof.
  split.
  - apply (C48_heavy_landing ex_config 2 true Es_Model.M_2FG [Point 900000] [hard (at_ BEGIN true true 500 300); seen0] true None 1000000 _ (moved 600 350) true None 9000000 0 (hard (at_ BEGIN true true 500 300))); try hist. left. split; [reflexivity | cbn; lia].
  - apply (C48_heavy_landing ex_config 2 true Es_Model.M_2FG [] [big (at_ BEGIN true true 500 300); seen0] true None 1000000 _ (moved 600 350) true None 9000000 0 (big (at_ BEGIN true true 500 300))); try hist. right. split; [split; [reflexivity | left; cbn; lia] | split; [reflexivity | split; hist]].
Qed.
(** A pen comes near, a hand comes down, the pen leaves, the hand stays *)
Example C48_pen_applies :
  nth_error (moving ex_config 2 true Es_Model.M_2FG ([] ++ Arb ARB_ALL [seen0; seen0] 1000000 :: [] ++ Frame (down 500 300) true None 1100000 :: [Arb ARB_NONE (moved 500 300) 2000000; ArbTimer 2090000; Frame (moved 505 300) true None 3000000]) (moved 600 350) true None 9000000) 0 = Some false.
Proof.
  apply (C48_pen ex_config 2 true Es_Model.M_2FG [] ARB_ALL [seen0; seen0] 1000000 [] (down 500 300) true None 1100000 _ (moved 600 350) true None 9000000 0 (at_ BEGIN true true 500 300)); try hist.
  - discriminate.
  - intros ? ? X. exact X.
  - discriminate.
Qed.
Example C48_pen_returns_refuted_applies :
  nth_error (moving ex_plain 2 true Es_Model.M_2FG [Arb ARB_ALL [seen0; seen0] 1000000; Arb ARB_NONE [seen0; seen0] 2000000; Arb ARB_ALL [seen0; seen0] 2050000; ArbTimer (2000000 + 90000)] (down 500 300) true None 2100000) 0 = Some true.
Proof. apply (C48_pen_returns_refuted ex_plain 2 true Es_Model.M_2FG ARB_ALL [seen0; seen0] 1000000 [seen0; seen0] 2000000 [seen0; seen0] 2050000 (down 500 300) true None 2100000 0 (at_ BEGIN true true 500 300)); try hist. discriminate. Qed.
Example C48_clean_moves_applies :
  nth_error (moving ex_config 2 true Es_Model.M_2FG ([] ++ Frame (down 500 300) true None 1000000 :: [Frame (moved 40 300) true None 1010000]) (moved 10 10) true None 1020000) 0 = Some true.
Proof. apply (C48_clean_moves ex_config 2 true Es_Model.M_2FG [] (down 500 300) true None 1000000 _ (moved 10 10) true None 1020000 0 (at_ BEGIN true true 500 300) (at_ UPDATE false true 10 10)); try hist. lone_one. Qed.
Local Ltac edge_down := repeat split; cbn; intros; try lia; try reflexivity.
Local Ltac in_left := split; [reflexivity | split; [reflexivity | split; [reflexivity | split; [left; cbn; lia | split; [edge_down | split; [reflexivity | reflexivity]]]]]].
Example C48_edge_ignored_applies :
  nth_error (moving ex_config 2 true Es_Model.M_2FG ([] ++ Frame (down 40 300) true None 1000000 :: [Frame (moved 75 320) true None 1150000; Frame (moved 300 320) true None 1200000]) (moved 400 350) true None 1300000) 0 = Some false.
Proof. apply (C48_edge_ignored ex_config 2 true Es_Model.M_2FG [] (down 40 300) true None 1000000 _ (moved 400 350) true None 1300000 0 (at_ BEGIN true true 40 300)); try hist; [in_left | apply ex_alone | stays]. Qed.
(** It moves the pointer although it was pressed as hard as a palm while it was in the edge zone: that is not remembered *)
Example C48_edge_left_applies :
  nth_error (moving ex_config 2 true Es_Model.M_2FG ([] ++ Frame (down 75 300) true None 1000000 :: [Frame [hard (at_ UPDATE false true 76 300); seen0] true None 1050000]) (moved 85 300) true None 1100000) 0 = Some true.
Proof.
  apply (C48_edge_left ex_config 2 true Es_Model.M_2FG [] (down 75 300) true None 1000000 _ (moved 85 300) true None 1100000 0 (at_ BEGIN true true 75 300) (at_ UPDATE false true 85 300)); try hist; [in_left | apply ex_alone | stays | edge_down | edge_down | | lone_one].
  left. split; [left; cbn; lia |]. vm_compute. repeat split; discriminate.
Qed.
Example C48_edge_second_finger_applies :
  nth_error (moving ex_plain 2 true Es_Model.M_2FG ([] ++ Frame (down 40 300) true None 1000000 :: []) [at_ UPDATE false true 41 300; at_ BEGIN true true 500 300] true None 5000000) 0 = Some true.
Proof.
  apply (C48_edge_second_finger ex_plain 2 true Es_Model.M_2FG [] (down 40 300) true None 1000000 [] [at_ UPDATE false true 41 300; at_ BEGIN true true 500 300] true None 5000000 0 (at_ BEGIN true true 40 300) (at_ UPDATE false true 41 300) 1 (at_ BEGIN true true 500 300));
    try hist; [in_left | apply ex_alone | intros ? ? ? ? ? [] | edge_down].
Qed.
Example C48_edge_with_finger_applies :
  nth_error (moving ex_plain 2 true Es_Model.M_2FG ([] ++ Frame (down 500 300) true None 1000000 :: []) [at_ UPDATE false true 501 300; at_ BEGIN true true 40 300] true None 5000000) 1 = Some true.
Proof.
  apply (C48_edge_with_finger ex_plain 2 true Es_Model.M_2FG [] (down 500 300) true None 1000000 [] [at_ UPDATE false true 501 300; at_ BEGIN true true 40 300] true None 5000000 1 (at_ BEGIN true true 40 300) 0 (at_ BEGIN true true 500 300) (at_ UPDATE false true 501 300));
    try hist. edge_down.
Qed.

Print Assumptions C48_no_abort.
Print Assumptions C48_heavy_palm.
Print Assumptions C48_heavy_landing.
Print Assumptions C48_pen.
Print Assumptions C48_pen_returns_refuted.
Print Assumptions C48_clean_moves.
Print Assumptions C48_edge_ignored.
Print Assumptions C48_edge_left.
Print Assumptions C48_edge_second_finger.
Print Assumptions C48_edge_with_finger.
