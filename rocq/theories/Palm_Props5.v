(** * Thumbs that stay thumbs (C49), palms by the kernel's word (C48) *)
Require Import Coq.ZArith.ZArith Coq.Lists.List Coq.Bool.Bool Coq.micromega.Lia.
Require Import Verif.Palm_Model Verif.Palm_Spec Verif.Palm_Spec2 Verif.Palm_Spec3 Verif.Palm_Proofs1 Verif.Palm_Proofs2 Verif.Palm_Proofs3 Verif.Palm_Proofs4 Verif.Palm_Proofs5 Verif.Palm_Proofs6 Verif.Palm_Proofs7 Verif.Palm_Proofs8 Verif.Palm_Proofs9 Verif.Palm_Props Verif.Palm_Props2 Verif.Palm_Props3 Verif.Palm_Props4 Verif.Palm_Proofs10.
Require Verif.Es_Model Verif.Gest_Model.
Import ListNotations.
Open Scope Z_scope.
Local Arguments frame : simpl never.
Local Arguments keyboard_event : simpl never.

(** ** Palms by the kernel's word *)
(** A touch the kernel calls a palm does nothing, from the first frame on; and it is a finger again in the frame in which the kernel no longer says so. *)
Theorem C48_kernel_palm : forall c n b m0 l f0 g0 u0 t0 m f g u t i v0 v,
  nth_error f0 i = Some v0 -> lands_light c v0 -> nth_error f i = Some v -> dirty v = true -> goes_on i (m ++ [Frame f g u t]) -> all_light c i (m ++ [Frame f g u t]) ->
  touches_only (l ++ Frame f0 g0 u0 t0 :: m ++ [Frame f g u t]) -> sized n (l ++ Frame f0 g0 u0 t0 :: m ++ [Frame f g u t]) ->
  (called_palm c v0 -> nth_error (moving c n b m0 l f0 g0 u0 t0) i = Some false) /\
  (called_palm c v -> nth_error (moving c n b m0 (l ++ Frame f0 g0 u0 t0 :: m) f g u t) i = Some false) /\
  (~ called_palm c v -> no_thumb c l i (Frame f0 g0 u0 t0 :: m ++ [Frame f g u t]) -> nth_error (moving c n b m0 (l ++ Frame f0 g0 u0 t0 :: m) f g u t) i = Some (free_out v)).
Proof.
  intros c n b m0 l f0 g0 u0 t0 m f g u t i v0 v V0 [B [FR [D0 [O L0]]]] V D G C TO Z.
  assert (LF : length f0 = n) by apply (sized_frame _ _ _ _ _ _ _ Z). assert (I : (i < n)%nat) by (rewrite <- LF; apply nth_error_Some; congruence).
  assert (LF1 : length f = n) by (apply (Z (Frame f g u t)); apply in_or_app; right; right; apply in_or_app; right; left; reflexivity).
  destruct (touches_only_app l _ TO) as [TOl TO2]. assert (TO1 : touches_only (l ++ Frame f0 g0 u0 t0 :: m)) by (apply (touches_only_app _ [Frame f g u t]); rewrite <- app_assoc; exact TO).
  destruct (quiet_after c n b m0 l TOl) as [Q1 Q2]. set (s0 := run c (init n b m0) l) in *. assert (A0 : astate (ar s0) = ARB_NONE) by (apply no_pen_run; apply TOl).
  destruct (run_touch c n b m0 l i I) as [x X]. fold s0 in X. destruct (enter_begin t0 x v0 B) as [_ [EN [EP _]]]. specialize (EP FR).
  destruct (frame_touch c s0 f0 g0 u0 t0 i x v0 X V0) as [mu [y [h [Y [[_ [QP _]] [NY _]]]]]].
  assert (W0 : told c (after c s0 mu t0 (enter t0 x v0))) by (apply told_after; rewrite ?EN; auto; left; exact EP).
  assert (TY : told c y) by (unfold told in *; rewrite QP; exact W0).
  assert (PY : called_palm c v0 -> palm y = PALM_TOOL_PALM).
  { intros [K1 K2]. rewrite QP, after_dirty by (rewrite EN; first [exact D0 | rewrite B; discriminate]). rewrite A0, tool_update; rewrite ?EN; auto; [rewrite K1, K2; reflexivity | left; exact EP]. }
  set (s1 := fst (frame c s0 f0 g0 u0 t0)) in *.
  assert (E1 : run c (init n b m0) (l ++ Frame f0 g0 u0 t0 :: m) = run c s1 m).
  { replace (l ++ Frame f0 g0 u0 t0 :: m) with ((l ++ [Frame f0 g0 u0 t0]) ++ m) by (rewrite <- app_assoc; reflexivity). rewrite run_app, run_frame. reflexivity. }
  destruct (goes_on_app i m _ G) as [G1 G2].
  assert (A1 : astate (ar s1) = ARB_NONE) by (unfold s1; destruct (frame_same c s0 f0 g0 u0 t0) as [_ [_ [-> _]]]; exact A0).
  destruct (told_run c n i m s1 y I) as [y2 [Y2 T2]]; auto.
  { intros z Hz. apply Z. apply in_or_app; right; right; apply in_or_app; left; exact Hz. }
  { intros f' g' u' t' v' K. apply (C f' g' u' t'). apply in_or_app; left; exact K. }
  { destruct TO2 as [_ [_ P]]. intros w f' t' K. apply (P w f' t'). right. apply in_or_app; left; exact K. }
  destruct (G2 f (or_introl (ex_intro _ g (ex_intro _ u (ex_intro _ t (or_introl eq_refl)))))) as [v' [V' [SU FV]]]. rewrite V in V'. injection V' as <-.
  destruct (enter_update t y2 v SU FV) as [F1 [_ [_ [F4 _]]]]. rewrite <- E1 in Y2. set (s2 := run c (init n b m0) (l ++ Frame f0 g0 u0 t0 :: m)) in *.
  destruct (quiet_after c n b m0 _ TO1) as [R1 R2]. fold s2 in R1, R2. assert (A2 : astate (ar s2) = ARB_NONE) by (apply no_pen_run; apply TO1).
  destruct (frame_touch c s2 f g u t i y2 v Y2 V) as [mu2 [y3 [h3 [Y3 [[_ [QP3 _]] [NY3 [RR HH]]]]]]].
  assert (P3 : palm y3 = if use_mt_tool c then if toolpalm v then PALM_TOOL_PALM else PALM_NONE else PALM_NONE).
  { rewrite QP3, after_dirty by (rewrite F4; first [exact D | rewrite SU; discriminate]). rewrite A2. rewrite tool_update; rewrite ?F4; auto; [| unfold told; rewrite F1; exact T2 | apply (C f g u t v); [apply in_or_app; right; left; reflexivity | exact V]].
    rewrite F1. destruct (use_mt_tool c) eqn:M; [reflexivity |]. destruct T2 as [T2|[T2 _]]; congruence. }
  refine (conj _ (conj _ _)).
  - intros K. unfold moving. fold s0. apply (palm_still c s0 f0 g0 u0 t0 i y Y); [unfold s0; rewrite run_length; exact LF |]. rewrite (PY K). discriminate.
  - intros [K1 K2]. unfold moving. fold s2. apply (palm_still c s2 f g u t i y3 Y3); [unfold s2; rewrite run_length; exact LF1 |]. rewrite P3, K1, K2. discriminate.
  - intros NK TH. unfold moving. fold s2. rewrite RR, R1, R2. cbn [orb]. unfold touch_active, is_down. rewrite NY3, SU.
    assert (P4 : palm y3 = PALM_NONE) by (rewrite P3; destruct (use_mt_tool c) eqn:M1, (toolpalm v) eqn:M2; try reflexivity; exfalso; apply NK; split; assumption). rewrite P4.
    assert (IG : thumb_ignored c h3 i = false).
    { apply finger_not_ignored. assert (P1 : no_pen (l ++ Frame f0 g0 u0 t0 :: m)) by apply TO1. pose proof (thumb_end c n b m0 l f0 g0 u0 t0 m f g u t i v0 v I Z P1 V0 V TH) as TE. fold s2 in TE.
      destruct TE as [T|[T1 [T2' [T3 T4]]]]; [left; exact T | right]. subst u. rewrite HH. apply (lone_thumb c s2 f g t i y2 v); try assumption. unfold s2. rewrite run_length. exact LF1. }
    rewrite IG. reflexivity.
Qed.
Print Assumptions C48_kernel_palm.
Definition palm_at (s : tstate) (fr : bool) (x y : Z) (p : bool) : seen := {| st := s; fresh := fr; dirty := true; px := x; py := y; pressure := 40; major := 100; minor := 80; toolpalm := p;
  soft := false; redge := false; fast := false; hx := x; hy := y; free_pre := true; free_mid := true; free_out := true |}.
Definition pf (s : tstate) (fr : bool) (x : Z) (p : bool) (t : Z) : input := Frame [palm_at s fr x 300 p; nothing] true None t.
Example C48_kernel_palm_applies :
  (called_palm ex_config (palm_at BEGIN true 500 300 true) -> nth_error (moving ex_config 2 true Es_Model.M_2FG [] [palm_at BEGIN true 500 300 true; nothing] true None 10000) 0 = Some false) /\
  (called_palm ex_config (palm_at UPDATE false 530 300 false) -> nth_error (moving ex_config 2 true Es_Model.M_2FG ([] ++ pf BEGIN true 500 true 10000 :: [pf UPDATE false 510 false 20000; pf UPDATE false 520 true 30000]) [palm_at UPDATE false 530 300 false; nothing] true None 40000) 0 = Some false) /\
  (~ called_palm ex_config (palm_at UPDATE false 530 300 false) -> no_thumb ex_config [] 0 (pf BEGIN true 500 true 10000 :: [pf UPDATE false 510 false 20000; pf UPDATE false 520 true 30000] ++ [pf UPDATE false 530 false 40000]) ->
   nth_error (moving ex_config 2 true Es_Model.M_2FG ([] ++ pf BEGIN true 500 true 10000 :: [pf UPDATE false 510 false 20000; pf UPDATE false 520 true 30000]) [palm_at UPDATE false 530 300 false; nothing] true None 40000) 0 = Some true).
Proof.
  apply (C48_kernel_palm ex_config 2 true Es_Model.M_2FG [] [palm_at BEGIN true 500 300 true; nothing] true None 10000 [pf UPDATE false 510 false 20000; pf UPDATE false 520 true 30000] [palm_at UPDATE false 530 300 false; nothing] true None 40000 0 (palm_at BEGIN true 500 300 true) (palm_at UPDATE false 530 300 false)); hist4; try reflexivity.
  - repeat split; cbn; intros; (lia || reflexivity).
  - intros f' g' u' t' v' X V. cbn in X. repeat (destruct X as [X|X]; [first [discriminate X | injection X; intros; subst; cbn in V; injection V; intros; subst; repeat split; intros; cbn; (lia || reflexivity)] |]). destruct X.
Qed.
Example C48_kernel_palm_shows : called_palm ex_config (palm_at BEGIN true 500 300 true) /\ ~ called_palm ex_config (palm_at UPDATE false 530 300 false) /\ no_thumb ex_config [] 0 (pf BEGIN true 500 true 10000 :: [pf UPDATE false 510 false 20000; pf UPDATE false 520 true 30000] ++ [pf UPDATE false 530 false 40000]).
Proof.
  split; [split; reflexivity |]. split; [intros [_ K]; discriminate K |]. right. split; [reflexivity |]. intros x X. cbn in X.
  repeat (destruct X as [X|X]; [subst x; refine (conj _ (conj eq_refl _)); [intros [|[|[|k]]] v V N; cbn in V; try congruence; try (injection V as <-; reflexivity); destruct k; discriminate V | intros v V; injection V as <-; cbn; lia] |]). destruct X.
Qed.

(** ** A thumb stays a thumb *)
(** A clean touch that did nothing in some frame though it was free to is taken for a thumb.  When it is alone afterwards it stays one for as long as it rests where a thumb rests. *)
Theorem C49_stays_thumb : forall c n b m0 l f0 g0 u0 t0 m f1 g1 u1 t1 m2 f g t i v0 v1 v,
  touches_only (l ++ Frame f0 g0 u0 t0 :: m ++ Frame f1 g1 u1 t1 :: m2 ++ [Frame f g None t]) -> sized n (l ++ Frame f0 g0 u0 t0 :: m ++ Frame f1 g1 u1 t1 :: m2 ++ [Frame f g None t]) ->
  nth_error f0 i = Some v0 -> lands c v0 -> goes_on i (m ++ Frame f1 g1 u1 t1 :: m2 ++ [Frame f g None t]) -> all_calm c i (m ++ Frame f1 g1 u1 t1 :: m2 ++ [Frame f g None t]) ->
  nth_error f1 i = Some v1 -> free_out v1 = true -> nth_error (moving c n b m0 (l ++ Frame f0 g0 u0 t0 :: m) f1 g1 u1 t1) i = Some false ->
  nth_error f i = Some v -> only i (m2 ++ [Frame f g None t]) ->
  rests c i (method_after m0 (l ++ Frame f0 g0 u0 t0 :: m)) (excess i 0 (Frame f0 g0 u0 t0 :: m ++ [Frame f1 g1 u1 t1])) (m2 ++ [Frame f g None t]) = true ->
  nth_error (moving c n b m0 (l ++ Frame f0 g0 u0 t0 :: m ++ Frame f1 g1 u1 t1 :: m2) f g None t) i = Some false.
Proof.
  intros c n b m0 l f0 g0 u0 t0 m f1 g1 u1 t1 m2 f g t i v0 v1 v TO Z V0 L G C V1 FO MV V O R.
  set (h1 := l ++ Frame f0 g0 u0 t0 :: m) in *. set (F1 := Frame f1 g1 u1 t1) in *. set (FL := Frame f g None t) in *.
  assert (EQ : l ++ Frame f0 g0 u0 t0 :: m ++ F1 :: m2 ++ [FL] = (h1 ++ [F1]) ++ m2 ++ [FL]) by (unfold h1; rewrite <- !app_assoc; cbn; reflexivity).
  assert (EQ2 : l ++ Frame f0 g0 u0 t0 :: m ++ F1 :: m2 = (h1 ++ [F1]) ++ m2) by (unfold h1; rewrite <- !app_assoc; cbn; reflexivity).
  rewrite EQ in TO, Z. rewrite EQ2. destruct (touches_only_app _ _ TO) as [TO1 TO2]. destruct (sized_app _ _ _ Z) as [Z1 Z2].
  assert (GG : m ++ F1 :: m2 ++ [FL] = (m ++ [F1]) ++ m2 ++ [FL]) by (rewrite <- app_assoc; reflexivity). rewrite GG in G, C. destruct (goes_on_app i _ _ G) as [G1 G2]. destruct (goes_on_app i _ _ G2) as [G3 G4].
  assert (C1 : all_calm c i (m ++ [F1])) by (intros f' g' u' t' v' K; apply (C f' g' u' t' v'); apply in_or_app; left; exact K).
  assert (CC : clean_contact c i (h1 ++ [F1])) by (exists l, f0, g0, u0, t0, (m ++ [F1]), v0; refine (conj _ (conj V0 (conj L (conj G1 C1)))); unfold h1; rewrite <- app_assoc; reflexivity).
  assert (CL : clean_contact c i (((h1 ++ [F1]) ++ m2) ++ [FL])) by (exists l, f0, g0, u0, t0, ((m ++ [F1]) ++ m2 ++ [FL]), v0; refine (conj _ (conj V0 (conj L (conj G C)))); unfold h1; rewrite <- !app_assoc; reflexivity).
  pose proof (clean_output c n b m0 h1 f1 g1 u1 t1 i v1 TO1 Z1 CC V1) as W. cbn zeta in W. rewrite MV, FO in W. set (z := match u1 with Some _ => _ | None => _ end) in W.
  assert (I : (i < n)%nat) by (rewrite <- (Z1 F1 ltac:(apply in_or_app; right; left; reflexivity) : length f1 = n); apply nth_error_Some; congruence).
  assert (IG : thumb_ignored c z i = true) by (destruct (thumb_ignored c z i); [reflexivity | discriminate W]).
  destruct (run_touch c n b m0 h1 i I) as [x1 X1]. destruct (goes_on_app i _ _ G1) as [Gm Gf]. destruct (Gf f1 (or_introl (ex_intro _ g1 (ex_intro _ u1 (ex_intro _ t1 (or_introl eq_refl)))))) as [v1' [V1' [SU1 FV1]]]. rewrite V1 in V1'. injection V1' as <-.
  pose proof (frame_th c (run c (init n b m0) h1) f1 g1 u1 t1 i x1 v1 X1 V1 (or_introl SU1)) as TH. cbn zeta in TH. fold z in TH. rewrite <- (run_frame c n b m0 h1 f1 g1 u1 t1) in TH. fold F1 in TH.
  set (s1 := run c (init n b m0) (h1 ++ [F1])) in *. assert (IG1 : thumb_ignored c (th s1) i = true) by (rewrite TH; exact IG).
  (* the speed *)
  assert (LF0 : length f0 = n) by (apply (Z1 (Frame f0 g0 u0 t0)); unfold h1; rewrite <- app_assoc; apply in_or_app; right; left; reflexivity).
  destruct (run_touch c n b m0 l i I) as [x0 X0]. destruct L as [B [FR [D0 _]]]. destruct (enter_begin t0 x0 v0 B) as [_ [EN [_ EE]]].
  destruct (frame_exceeded c (run c (init n b m0) l) f0 g0 u0 t0 i x0 v0 X0 V0 ltac:(rewrite B; discriminate) ltac:(rewrite EE; lia)) as [y0 [Y0 E0]]. rewrite EE in E0.
  set (s0 := fst (frame c (run c (init n b m0) l) f0 g0 u0 t0)) in *. assert (N0 : length (touches s0) = n) by (unfold s0; destruct (frame_same c (run c (init n b m0) l) f0 g0 u0 t0) as [_ [_ [_ [_ E]]]]; rewrite E, run_length; reflexivity).
  assert (S1 : s1 = run c s0 (m ++ [F1])).
  { unfold s1, h1, s0. replace ((l ++ Frame f0 g0 u0 t0 :: m) ++ [F1]) with ((l ++ [Frame f0 g0 u0 t0]) ++ m ++ [F1]) by (rewrite <- !app_assoc; reflexivity). rewrite run_app, run_frame. reflexivity. }
  assert (Zm : sized n (m ++ [F1])) by (intros q Hq; apply Z1; unfold h1; rewrite <- app_assoc; apply in_or_app; right; right; exact Hq).
  assert (Pm : no_pen (m ++ [F1])) by (intros w f' t' K; destruct TO1 as [_ [_ P]]; apply (P w f' t'); unfold h1; rewrite <- app_assoc; apply in_or_app; right; right; exact K).
  destruct (exceed_run c n i (m ++ [F1]) s0 y0 (count v0 0) I N0 Zm Pm G1 Y0 E0 (count_range v0 0 ltac:(lia))) as [y1 [Y1 [E1 K1]]]. rewrite <- S1 in Y1.
  assert (EX : excess i 0 (Frame f0 g0 u0 t0 :: m ++ [F1]) = excess i (count v0 0) (m ++ [F1])) by (cbn [excess]; rewrite V0; reflexivity). rewrite EX in R. set (k := excess i (count v0 0) (m ++ [F1])) in *.
  (* the method *)
  assert (M1 : meth s1 = method_after m0 h1).
  { unfold s1. destruct TO1 as [_ [_ P]]. rewrite (meth_run c n (h1 ++ [F1]) (init n b m0)); [| cbn; apply repeat_length | exact Z1 | exact P]. cbn [meth init]. clear. revert m0. induction h1 as [|a h IH]; intros; [reflexivity |]. destruct a; cbn; apply IH. }
  assert (RA : forall a m1 k1, rests c i m1 k1 (a ++ [FL]) = rests c i m1 k1 a && (negb (dirty v) || thumb_place c (method_after m1 a) v && (excess i k1 a <? 10))).
  { induction a as [|y a IH]; intros q k1; cbn [rests app excess method_after FL]; [rewrite V, andb_true_r; reflexivity |]. destruct y; try apply IH. destruct (nth_error f2 i); [rewrite IH, andb_assoc; reflexivity | apply IH]. }
  rewrite RA in R. apply andb_true_iff in R. destruct R as [R1 R2].
  assert (N1 : length (touches s1) = n) by apply run_length. destruct (sized_app _ _ _ Z2) as [Z3 _]. destruct TO2 as [_ [_ P2]]. destruct (no_pen_app _ _ P2) as [P3 _].
  assert (O1 : only i m2) by (intros f' g' u' t' K; apply (O f' g' u' t'); apply in_or_app; left; exact K).
  rewrite <- M1 in R1, R2. pose proof (ignored_run c n i m2 s1 y1 k I N1 Z3 P3 G3 O1 Y1 E1 K1 R1 IG1) as IG2.
  destruct (exceed_run c n i m2 s1 y1 k I N1 Z3 P3 G3 Y1 E1 K1) as [y2 [Y2 [E2 K2]]].
  pose proof (meth_run c n m2 s1 N1 Z3 P3) as M2.
  assert (TOL : touches_only (((h1 ++ [F1]) ++ m2) ++ [FL])) by (rewrite <- app_assoc; exact TO). assert (ZL : sized n (((h1 ++ [F1]) ++ m2) ++ [FL])) by (rewrite <- app_assoc; exact Z).
  rewrite (clean_output c n b m0 ((h1 ++ [F1]) ++ m2) f g None t i v TOL ZL CL V). cbn zeta. rewrite run_app. fold s1. set (s2 := run c s1 m2) in *.
  destruct (G4 f (or_introl (ex_intro _ g (ex_intro _ None (ex_intro _ t (or_introl eq_refl)))))) as [v' [V' [SU FV]]]. rewrite V in V'. injection V' as <-.
  assert (A : alone i f) by (apply (O f g None t); apply in_or_app; right; left; reflexivity).
  assert (LF : length f = length (touches s2)) by (destruct (run_parts c m2 s1) as [_ [_ [_ E]]]; unfold s2; rewrite E, N1; apply (ZL FL); apply in_or_app; right; left; reflexivity).
  rewrite (ignored_frame c s2 f g t i y2 v (excess i k m2) LF Y2 E2 K2 V A SU FV ltac:(rewrite M2; exact R2) IG2). rewrite andb_false_r. reflexivity.
Qed.
Print Assumptions C49_stays_thumb.
(** A thumb below, a finger above it that is lifted again; the thumb, alone, moves a bit *)
Definition th_ (s : tstate) (fr d : bool) (x : Z) : seen := thumb_at s fr d false x 600.
Definition stays_hist : list input := [Frame [th_ UPDATE false true 500; thumb_at BEGIN true true false 500 100] true None 1010000].
Example C49_stays_thumb_applies : nth_error (moving ex_config 2 true Es_Model.M_2FG ([] ++ Frame [th_ BEGIN true true 500; nothing] true None 10000 :: stays_hist ++ Frame [th_ UPDATE false false 500; thumb_at END false true false 500 100] true None 1020000 :: [Frame [th_ UPDATE false true 505; nothing] true None 1030000])
  [th_ UPDATE false true 512; nothing] true None 1040000) 0 = Some false.
Proof.
  eapply C49_stays_thumb with (v0 := th_ BEGIN true true 500) (v1 := th_ UPDATE false false 500) (v := th_ UPDATE false true 512); unfold stays_hist; hist4; try (vm_compute; reflexivity).
Qed.
(** It stops being a thumb when the other finger is lifted in a frame in which the thumb, at rest, is reported too, and that finger comes later in the list of touches. *)
Theorem C49_stays_thumb_refuted : exists c n b m0 l f0 g0 t0 m f1 g1 t1 f g t i v0 v1 v j w,
  touches_only (l ++ Frame f0 g0 None t0 :: m ++ Frame f1 g1 None t1 :: [Frame f g None t]) /\ sized n (l ++ Frame f0 g0 None t0 :: m ++ Frame f1 g1 None t1 :: [Frame f g None t]) /\
  nth_error f0 i = Some v0 /\ lands c v0 /\ goes_on i (m ++ Frame f1 g1 None t1 :: [Frame f g None t]) /\ all_calm c i (m ++ Frame f1 g1 None t1 :: [Frame f g None t]) /\
  nth_error f1 i = Some v1 /\ free_out v1 = true /\ nth_error (moving c n b m0 (l ++ Frame f0 g0 None t0 :: m) f1 g1 None t1) i = Some false /\
  nth_error f i = Some v /\ nth_error f j = Some w /\ st w = END /\ (forall k x, nth_error f k = Some x -> k <> i -> k <> j -> st x = NONE) /\
  rests c i (method_after m0 (l ++ Frame f0 g0 None t0 :: m)) (excess i 0 (Frame f0 g0 None t0 :: m ++ [Frame f1 g1 None t1])) [Frame f g None t] = true /\
  nth_error (moving c n b m0 (l ++ Frame f0 g0 None t0 :: m ++ [Frame f1 g1 None t1]) f g None t) i = Some true.
Proof.
  exists ex_config, 2%nat, true, Es_Model.M_2FG, [], [th_ BEGIN true true 500; nothing], true, 10000, [], [th_ UPDATE false true 500; thumb_at BEGIN true true false 500 100], true, 1010000,
    [th_ UPDATE false true 500; thumb_at END false true false 500 100], true, 1020000, 0%nat, (th_ BEGIN true true 500), (th_ UPDATE false true 500), (th_ UPDATE false true 500), 1%nat, (thumb_at END false true false 500 100).
  refine (conj _ (conj _ (conj eq_refl (conj _ (conj _ (conj _ (conj eq_refl (conj eq_refl (conj _ (conj eq_refl (conj eq_refl (conj eq_refl (conj _ (conj _ _)))))))))))))); hist4; try (vm_compute; reflexivity).
  intros [|[|k]] x V N1 N2; try congruence. destruct k; discriminate V.
Qed.
Print Assumptions C49_stays_thumb_refuted.
