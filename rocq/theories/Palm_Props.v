(** * Typing disables the touchpad (C46) *)
Require Import Coq.ZArith.ZArith Coq.Lists.List Coq.Bool.Bool Coq.micromega.Lia.
Require Import Coq.QArith.QArith.
Require Import Verif.Palm_Model Verif.Palm_Spec Verif.Palm_Proofs1 Verif.Palm_Proofs2 Verif.Palm_Proofs3 Verif.Palm_Proofs4 Verif.Palm_Proofs5 Verif.Palm_Proofs6.
Require Verif.Es_Model Verif.Gest_Model.
Import ListNotations.
Open Scope Z_scope.
Local Arguments frame : simpl never.
Local Arguments keyboard_event : simpl never.

Lemma pressed : forall c n b m0 l k t, kb (run c (init n b m0) (l ++ [Key k true t])) = fst (keyboard_event (krun (kb (init n b m0)) l) k true t).
Proof. intros. rewrite kb_run, krun_app. reflexivity. Qed.
Lemma pressed_types : forall n b m0 l k t, types b l k -> let x := krun (kb (init n b m0)) (l ++ [Key k true t]) in
  typing x = true /\ In k (keys x) /\ last_press x = t /\ on x = true /\ (exists d, ktimer x = Some d /\ t + 200000 <= d).
Proof. intros n b m0 l k t [H1 [H2 H3]]. rewrite krun_app. apply press_types; [rewrite dwt_run; exact H1 | exact H2 | rewrite mods_run; exact H3]. Qed.

(** After a typewriter key was pressed no touch moves the pointer, scrolls or takes part in a gesture for 200 ms, whatever is done meanwhile (short of removing the keyboard): more keys, releases, other settings. *)
Theorem C46_typing_blocks : forall c n b m0 l k t m f g u t', types b l k -> until t (t + 200000) m -> ~ In true (moving c n b m0 (l ++ Key k true t :: m) f g u t').
Proof.
  intros c n b m0 l k t m f g u t' H U. unfold moving. apply blocked. left. rewrite kb_run.
  replace (l ++ Key k true t :: m) with ((l ++ [Key k true t]) ++ m) by (rewrite <- app_assoc; reflexivity). rewrite krun_app.
  destruct (pressed_types n b m0 l k t H) as [Y [_ [_ [_ D]]]]. apply (typing_stays m _ t (t + 200000)); [lia | exact Y | exact D | exact U].
Qed.
(** A key typed while that lasts blocks for 500 ms. *)
Theorem C46_typing_on_blocks : forall c n b m0 l k t m k' t2 m' f g u t', types b l k -> until t (t + 200000) m -> dwt_after b (l ++ m) = true -> typewriter k' -> until t2 (t2 + 500000) m' ->
  ~ In true (moving c n b m0 (l ++ Key k true t :: m ++ Key k' true t2 :: m') f g u t').
Proof.
  intros c n b m0 l k t m k' t2 m' f g u t' H U O T U'. unfold moving. apply blocked. left. rewrite kb_run.
  replace (l ++ Key k true t :: m ++ Key k' true t2 :: m') with (((l ++ [Key k true t]) ++ m) ++ Key k' true t2 :: m') by (rewrite <- !app_assoc; reflexivity).
  rewrite krun_app. cbn [krun kstep]. destruct (pressed_types n b m0 l k t H) as [Y [_ [_ [_ D]]]].
  assert (Y2 : typing (krun (kb (init n b m0)) ((l ++ [Key k true t]) ++ m)) = true) by (rewrite krun_app; apply (typing_stays m _ t (t + 200000)); [lia | exact Y | exact D | exact U]).
  assert (O2 : on (krun (kb (init n b m0)) ((l ++ [Key k true t]) ++ m)) = true) by (rewrite dwt_run, !dwt_after_app; cbn [dwt_after]; rewrite <- dwt_after_app; exact O).
  destruct (press_types_on _ k' t2 O2 T Y2) as [Z1 [_ [_ [_ Z2]]]].
  apply (typing_stays m' _ t2 (t2 + 500000)); [lia | exact Z1 | exists (t2 + 500000); split; [exact Z2 | lia] | exact U'].
Qed.
(** While the key stays down the touchpad stays disabled, however long, whatever else is pressed or released. *)
Theorem C46_held_blocks : forall c n b m0 l k t m f g u t', types b l k -> (forall i, In i m -> i <> Unplug /\ i <> SetDwt false /\ (forall s, i <> Key k false s)) ->
  ~ In true (moving c n b m0 (l ++ Key k true t :: m) f g u t').
Proof.
  intros c n b m0 l k t m f g u t' H U. unfold moving. apply blocked. left. rewrite kb_run.
  replace (l ++ Key k true t :: m) with ((l ++ [Key k true t]) ++ m) by (rewrite <- app_assoc; reflexivity). rewrite krun_app.
  destruct (pressed_types n b m0 l k t H) as [Y [K [_ [O _]]]]. apply (held_stays m _ k O Y K U).
Qed.

Lemma ended : forall n b m0 l r t m, by_ r l -> ~ In Unplug l -> held l = [] -> r + 500000 <= t -> no_press m -> typing (krun (kb (init n b m0)) (l ++ KbTimer t :: m)) = false.
Proof.
  intros n b m0 l r t m B N H T P. rewrite krun_app. cbn [krun]. apply no_press_stays; [| exact P].
  apply (timeout_ends _ t r); [apply armed_run; [apply armed_init | exact B] | | exact T]. intros _.
  assert (K : incl (keys (krun (kb (init n b m0)) l)) (held l)) by (apply keys_run; [intros i I E; subst i; exact (N I) | apply incl_refl]).
  rewrite H in K. apply incl_l_nil in K. exact K.
Qed.
(** Once no key is held and the last key was pressed 500 ms ago, a finger that comes down moves the pointer again: whatever keys were pressed before, in whatever order, whatever settings were changed. *)
Theorem C46_typing_ends : forall c n b m0 l r t m f g u t' i v,
  by_ r l -> ~ In Unplug l -> held l = [] -> r + 500000 <= t -> no_press m -> no_pen (l ++ KbTimer t :: m) -> no_trackpoint (l ++ KbTimer t :: m) ->
  sized n (l ++ KbTimer t :: m ++ [Frame f g u t']) -> nth_error f i = Some v -> lands c v -> no_thumb c (l ++ KbTimer t :: m) i [Frame f g u t'] ->
  nth_error (moving c n b m0 (l ++ KbTimer t :: m) f g u t') i = Some (free_out v).
Proof.
  intros c n b m0 l r t m f g u t' i v B N H T P NP NT Z V L NO.
  assert (Z' : sized n ((l ++ KbTimer t :: m) ++ [Frame f g u t'])) by (rewrite <- app_assoc; exact Z).
  assert (I : (i < n)%nat) by apply (size_lt _ _ _ _ _ _ _ _ Z' V).
  apply (land_after c n b m0 _ f g u t' i v); auto.
  - apply (ended n b m0 l r t m); assumption.
  - apply trp_none; auto.
Qed.
(** Without typing the touchpad is never disabled: modifiers, shortcuts (a key while a modifier is held), F-keys and above, keys while the option is off. *)
Theorem C46_not_typing : forall c n b m0 l f g u t i v,
  (forall l1 k s l2, l = l1 ++ Key k true s :: l2 -> ~ types b l1 k) -> no_pen l -> no_trackpoint l ->
  sized n (l ++ [Frame f g u t]) -> nth_error f i = Some v -> lands c v -> no_thumb c l i [Frame f g u t] ->
  nth_error (moving c n b m0 l f g u t) i = Some (free_out v).
Proof.
  intros c n b m0 l f g u t i v H NP NT Z V L NO.
  assert (I : (i < n)%nat) by apply (size_lt _ _ _ _ _ _ _ _ Z V).
  apply (land_after c n b m0 _ f g u t i v); auto.
  - apply (never_typing l _ b); auto.
  - apply trp_none; auto.
Qed.

(** A palm put down while typing stays ignored when typing goes on: until it is lifted, also in the pauses and after the last key. *)
Theorem C46_resting_palm : forall c n b m0 l k tk m f0 g0 u0 t0 m1 k1 t1 m2 f g u t i v0,
  types b l k -> until tk (tk + 200000) (m ++ Frame f0 g0 u0 t0 :: m1) -> dwt_after b (l ++ m) = true -> nth_error f0 i = Some v0 -> st v0 = BEGIN -> dirty v0 = true -> 0 < t0 ->
  dwt_after b (l ++ m ++ m1) = true -> typewriter k1 -> t0 <= t1 -> from t0 m2 ->
  sized n ((l ++ Key k true tk :: m ++ Frame f0 g0 u0 t0 :: m1 ++ Key k1 true t1 :: m2) ++ [Frame f g u t]) -> goes_on i (m1 ++ Key k1 true t1 :: m2 ++ [Frame f g u t]) ->
  nth_error (moving c n b m0 (l ++ Key k true tk :: m ++ Frame f0 g0 u0 t0 :: m1 ++ Key k1 true t1 :: m2) f g u t) i = Some false.
Proof.
  intros c n b m0 l k tk m f0 g0 u0 t0 m1 k1 t1 m2 f g u t i v0 H U O V0 B0 D0 T0 O1 K1 T1 F2 Z G.
  set (s0 := run c (init n b m0) (l ++ [Key k true tk])).
  assert (U1 : until tk (tk + 200000) m /\ until tk (tk + 200000) m1) by (split; intros x X; apply U; apply in_or_app; [left; exact X | right; right; exact X]). destruct U1 as [Um Um1].
  destruct (pressed_types n b m0 l k tk H) as [Y0 [_ [_ [On0 D]]]]. rewrite <- (kb_run c n b m0) in Y0, On0, D. fold s0 in Y0, On0, D.
  set (s1 := run c s0 m). assert (K1' : kb s1 = krun (kb s0) m) by apply (proj1 (run_parts c m s0)).
  destruct (typing_stays m (kb s0) tk (tk + 200000) ltac:(lia) Y0 D Um) as [Y1 D1]. rewrite <- K1' in Y1, D1.
  assert (On1 : on (kb s1) = true).
  { rewrite K1'. unfold s0. rewrite kb_run, !dwt_run, dwt_after_app. cbn [dwt_after]. rewrite <- dwt_after_app. exact O. }
  assert (Ls : forall l', length (touches (run c (init n b m0) l')) = n) by (intros; apply run_length).
  assert (E1 : s1 = run c (init n b m0) ((l ++ [Key k true tk]) ++ m)) by (unfold s1, s0; rewrite (run_app c (l ++ [Key k true tk]) m); reflexivity).
  assert (I : (i < n)%nat).
  { assert (X : length f0 = n) by (apply (Z (Frame f0 g0 u0 t0)); apply in_or_app; left; apply in_or_app; right; right; apply in_or_app; right; left; reflexivity). rewrite <- X. apply nth_error_Some. congruence. }
  destruct (run_touch c n b m0 ((l ++ [Key k true tk]) ++ m) i I) as [x X]. rewrite <- E1 in X.
  destruct (land_typing c s1 f0 g0 u0 t0 i x v0 On1 Y1 X V0 B0 D0) as [y [Yn Yr]].
  set (s2 := fst (step c s1 (Frame f0 g0 u0 t0))). assert (S2 : s2 = fst (frame c s1 f0 g0 u0 t0)) by apply fst_step_frame. rewrite <- S2 in Yn.
  assert (K2 : kb s2 = kb s1) by (unfold s2; rewrite (proj1 (step_parts c s1 (Frame f0 g0 u0 t0))); reflexivity).
  assert (Zm : sized n m1 /\ sized n m2).
  { split; intros z Hz; apply Z; apply in_or_app; left; apply in_or_app; right; right; apply in_or_app; right; right; apply in_or_app; [left; exact Hz | right; right; exact Hz]. } destruct Zm as [Zm1 Zm2].
  destruct (goes_on_app i m1 _ G) as [G1 G2]. change (goes_on i ([Key k1 true t1] ++ m2 ++ [Frame f g u t])) in G2. destruct (goes_on_app i _ _ G2) as [_ G3]. destruct (goes_on_app i _ _ G3) as [G4 G5].
  destruct (resting_typing c n i m1 s2 y t0 tk I Zm1 G1 ltac:(lia) Um1) as [y2 [Y2 R2]]; try rewrite K2; try assumption.
  set (s3 := run c s2 m1) in *. assert (K3 : kb s3 = krun (kb s2) m1) by apply (proj1 (run_parts c m1 s2)).
  assert (Y3 : typing (kb s3) = true) by (rewrite K3, K2; apply (typing_stays m1 (kb s1) tk (tk + 200000) ltac:(lia) Y1 D1 Um1)).
  assert (On3 : on (kb s3) = true).
  { rewrite K3, K2, K1'. unfold s0. rewrite kb_run, !dwt_run, dwt_after_app. cbn [dwt_after]. rewrite <- !dwt_after_app, ?app_assoc. rewrite app_assoc in O1. exact O1. }
  set (s4 := fst (step c s3 (Key k1 true t1))).
  assert (K4 : kb s4 = fst (keyboard_event (kb s3) k1 true t1)) by (unfold s4; rewrite (proj1 (step_parts c s3 (Key k1 true t1))); reflexivity).
  destruct (press_types_on (kb s3) k1 t1 On3 K1 Y3) as [_ [_ [L4 _]]]. rewrite <- K4 in L4.
  destruct (step_touch c s3 (Key k1 true t1) i y2 n I ltac:(intros z [<-|[]]; exact Logic.I) Y2) as [y4 [Y4 E4]].
  assert (R4 : resting t0 y4).
  { destruct E4 as [->|[v [tt [mm [Sh _]]]]]; [exact R2 |]. exfalso. destruct Sh as [[? [? [? [? _]]]]|[? [? [? _]]]]; discriminate. }
  destruct (resting_after c n i m2 s4 y4 t0 I Zm2 G4 ltac:(lia) F2 ltac:(lia) Y4 R4) as [y5 [Y5 [R5 L5]]].
  set (s5 := run c s4 m2) in *.
  assert (E5 : run c (init n b m0) (l ++ Key k true tk :: m ++ Frame f0 g0 u0 t0 :: m1 ++ Key k1 true t1 :: m2) = s5).
  { replace (l ++ Key k true tk :: m ++ Frame f0 g0 u0 t0 :: m1 ++ Key k1 true t1 :: m2) with ((l ++ [Key k true tk]) ++ m ++ [Frame f0 g0 u0 t0] ++ m1 ++ [Key k1 true t1] ++ m2) by (rewrite <- app_assoc; reflexivity).
    do 5 rewrite run_app. reflexivity. }
  unfold moving. rewrite E5.
  destruct (G5 f (or_introl (ex_intro _ g (ex_intro _ u (ex_intro _ t (or_introl eq_refl)))))) as [v [V [SU FV]]].
  assert (Zf : length f = n) by (apply (Z (Frame f g u t)); apply in_or_app; right; left; reflexivity).
  assert (L5' : length (touches s5) = n) by (rewrite <- E5; apply Ls).
  destruct (frame_touch c s5 f g u t i y5 v Y5 V) as [mm [y6 [h [P6 [Q6 _]]]]].
  assert (R6 : resting t0 y6) by (apply (resting_update c s5 mm t y5 v t0 SU FV R5 ltac:(lia) (or_intror L5) y6 Q6)).
  apply (palm_still c s5 f g u t i y6 P6); [congruence | apply (resting_palm t0); exact R6].
Qed.

Lemma held_keys : forall n b m0 l, ~ In Unplug l -> held l = [] -> keys (krun (kb (init n b m0)) l) = [].
Proof.
  intros n b m0 l N H. assert (K : incl (keys (krun (kb (init n b m0)) l)) (held l)) by (apply keys_run; [intros i I E; subst i; exact (N I) | apply incl_refl]).
  rewrite H in K. apply incl_l_nil in K. exact K.
Qed.
(** A finger that comes down after the last key was pressed moves the pointer as soon as the timeout has passed, without being lifted. *)
Theorem C46_late_finger : forall c n b m0 l r f0 g0 u0 t0 m1 t1 m2 f g u t i v0 v,
  by_ r l -> ~ In Unplug l -> held l = [] -> 0 <= r < t0 -> nth_error f0 i = Some v0 -> lands c v0 ->
  no_press (m1 ++ KbTimer t1 :: m2) -> r + 500000 <= t1 -> nth_error f i = Some v -> dirty v = true ->
  goes_on i (m1 ++ KbTimer t1 :: m2 ++ [Frame f g u t]) -> all_calm c i (m1 ++ KbTimer t1 :: m2 ++ [Frame f g u t]) ->
  no_pen (l ++ Frame f0 g0 u0 t0 :: m1 ++ KbTimer t1 :: m2) -> no_trackpoint (l ++ Frame f0 g0 u0 t0 :: m1 ++ KbTimer t1 :: m2) ->
  sized n (l ++ Frame f0 g0 u0 t0 :: (m1 ++ KbTimer t1 :: m2) ++ [Frame f g u t]) -> no_thumb c l i (Frame f0 g0 u0 t0 :: (m1 ++ KbTimer t1 :: m2) ++ [Frame f g u t]) ->
  nth_error (moving c n b m0 (l ++ Frame f0 g0 u0 t0 :: m1 ++ KbTimer t1 :: m2) f g u t) i = Some (free_out v).
Proof.
  intros c n b m0 l r f0 g0 u0 t0 m1 t1 m2 f g u t i v0 v B N H R V0 L0 NP T1 V D G C P NT Z TH.
  assert (Em : m1 ++ KbTimer t1 :: m2 ++ [Frame f g u t] = (m1 ++ KbTimer t1 :: m2) ++ [Frame f g u t]) by (rewrite <- app_assoc; reflexivity).
  rewrite Em in G, C. 
  assert (I : (i < n)%nat).
  { assert (X : length f0 = n) by (apply (Z (Frame f0 g0 u0 t0)); apply in_or_app; right; left; reflexivity). rewrite <- X. apply nth_error_Some. congruence. }
  set (s0 := run c (init n b m0) l). set (s1 := fst (frame c s0 f0 g0 u0 t0)).
  destruct (no_pen_app l _ P) as [Pl Pm]. destruct (no_trackpoint_app l _ NT) as [Tl _].
  destruct (run_touch c n b m0 l i I) as [x X]. fold s0 in X.
  destruct (land_late c s0 f0 g0 u0 t0 i x v0 (no_pen_run c n b m0 l Pl) (no_point_run c n b m0 l Tl) X V0 L0) as [y [Y LY]]. fold s1 in Y.
  assert (S1 : s1 = fst (step c s0 (Frame f0 g0 u0 t0))) by (symmetry; apply fst_step_frame).
  assert (K1 : kb s1 = krun (kb (init n b m0)) l) by (rewrite S1, (proj1 (step_parts c s0 (Frame f0 g0 u0 t0))); apply kb_run).
  assert (A1 : astate (ar s1) = ARB_NONE).
  { rewrite S1, (proj1 (proj2 (proj2 (step_parts c s0 (Frame f0 g0 u0 t0))))). apply (no_pen_run c n b m0 l Pl). }
  assert (KE : keys (kb s1) = []) by (rewrite K1; apply held_keys; assumption).
  assert (AR : armed r (kb s1)) by (rewrite K1; apply armed_run; [apply armed_init | exact B]).
  assert (LP : last_press (kb s1) < t0) by (rewrite K1; pose proof (last_by l (kb (init n b m0)) r ltac:(cbn; lia) B); lia).
  set (m := m1 ++ KbTimer t1 :: m2) in *.
  destruct (goes_on_app i m _ G) as [G1 G2]. assert (Zm : sized n m) by (intros z Hz; apply Z; apply in_or_app; right; right; apply in_or_app; left; exact Hz).
  assert (Cm : all_calm c i m) by (intros f' g' u' t' v' In' V'; apply (C f' g' u' t' v'); [apply in_or_app; left; exact In' | exact V']).
  assert (Pm' : no_pen m) by (intros w f' t' In'; apply (Pm w f' t'); right; exact In').
  destruct (late_run c n i m s1 y t0 r I Zm G1 Cm Pm' NP KE AR LP A1 Y LY) as [y2 [Y2 L2]].
  set (s2 := run c s1 m) in *.
  assert (E2 : run c (init n b m0) (l ++ Frame f0 g0 u0 t0 :: m) = s2) by (rewrite run_app; fold s0; unfold s2; rewrite S1; reflexivity).
  assert (K2 : kb s2 = krun (kb s1) m) by apply (proj1 (run_parts c m s1)).
  destruct (idle_keys m (kb s1) r KE NP AR) as [_ [_ LP2]]. rewrite <- K2 in LP2.
  assert (TY : typing (kb s2) = false).
  { rewrite K2. unfold m. rewrite krun_app. cbn [krun]. assert (N1 : no_press m1) by (intros k' t' In'; apply (NP k' t'); apply in_or_app; left; exact In').
    destruct (idle_keys m1 (kb s1) r KE N1 AR) as [AR' [KE' _]]. apply no_press_stays; [apply (timeout_ends _ t1 r AR' (fun _ => KE') T1) | intros k' t' In'; apply (NP k' t'); apply in_or_app; right; right; exact In']. }
  unfold moving. rewrite E2. destruct (G2 f (or_introl (ex_intro _ g (ex_intro _ u (ex_intro _ t (or_introl eq_refl)))))) as [v' [V' [SU FV]]]. rewrite V in V'. injection V' as <-.
  apply (still_none c s2 f g u t i y2 v); auto.
  - split; [exact TY | split]; [rewrite <- E2; apply no_point_run; exact NT | rewrite <- E2; apply no_pen_run; exact P].
  - rewrite <- E2, run_length. apply (Z (Frame f g u t)). apply in_or_app; right; right; apply in_or_app; right; left; reflexivity.
  - apply (C f g u t v); [apply in_or_app; right; left; reflexivity | exact V].
  - destruct L2 as [L2|[L2 L2']]; [left; exact L2 | right; left]. split; [exact D | split; [exact L2 | rewrite LP2, L2'; exact LP]].
  - rewrite <- E2. apply (thumb_end c n b m0 l f0 g0 u0 t0 m f g u t i v0 v I Z P V0 V TH).
Qed.

(** A finger that was down before typing began moves the pointer again once typing has ended. *)
Theorem C46_early_finger : forall c n b m0 l r f0 g0 u0 t0 m1 t1 m2 f g u t i v0 v,
  (forall l1 k s l2, l = l1 ++ Key k true s :: l2 -> ~ types b l1 k) -> nth_error f0 i = Some v0 -> lands c v0 ->
  by_ r (l ++ m1) -> ~ In Unplug (l ++ m1) -> held (l ++ m1) = [] -> r + 500000 <= t1 -> no_press m2 -> nth_error f i = Some v ->
  goes_on i (m1 ++ KbTimer t1 :: m2 ++ [Frame f g u t]) -> all_calm c i (m1 ++ KbTimer t1 :: m2 ++ [Frame f g u t]) ->
  no_pen (l ++ Frame f0 g0 u0 t0 :: m1 ++ KbTimer t1 :: m2) -> no_trackpoint (l ++ Frame f0 g0 u0 t0 :: m1 ++ KbTimer t1 :: m2) ->
  sized n (l ++ Frame f0 g0 u0 t0 :: (m1 ++ KbTimer t1 :: m2) ++ [Frame f g u t]) -> no_thumb c l i (Frame f0 g0 u0 t0 :: (m1 ++ KbTimer t1 :: m2) ++ [Frame f g u t]) ->
  nth_error (moving c n b m0 (l ++ Frame f0 g0 u0 t0 :: m1 ++ KbTimer t1 :: m2) f g u t) i = Some (free_out v).
Proof.
  intros c n b m0 l r f0 g0 u0 t0 m1 t1 m2 f g u t i v0 v NTy V0 L0 B N H T1 NP V G C P NT Z TH.
  assert (Em : m1 ++ KbTimer t1 :: m2 ++ [Frame f g u t] = (m1 ++ KbTimer t1 :: m2) ++ [Frame f g u t]) by (rewrite <- app_assoc; reflexivity).
  rewrite Em in G, C.
  assert (I : (i < n)%nat).
  { assert (X : length f0 = n) by (apply (Z (Frame f0 g0 u0 t0)); apply in_or_app; right; left; reflexivity). rewrite <- X. apply nth_error_Some. congruence. }
  destruct (no_pen_app l _ P) as [Pl Pm]. destruct (no_trackpoint_app l _ NT) as [Tl _].
  assert (TY0 : typing (krun (kb (init n b m0)) l) = false) by (apply (never_typing l _ b); auto).
  destruct (land_after c n b m0 l f0 g0 u0 t0 i v0) as [_ [y [Y [PY _]]]]; auto.
  { intros z Hz. apply Z. apply in_app_or in Hz. apply in_or_app. destruct Hz as [Hz|[<-|[]]]; [left; exact Hz | right; left; reflexivity]. }
  { apply trp_none; auto. }
  { destruct TH as [TH|[TH1 TH2]]; [left; exact TH | right; split; [exact TH1 | intros z [<-|[]]; apply TH2; left; reflexivity]]. }
  set (s1 := run c (init n b m0) (l ++ [Frame f0 g0 u0 t0])) in *. set (m := m1 ++ KbTimer t1 :: m2) in *.
  destruct (goes_on_app i m _ G) as [G1 G2]. assert (Zm : sized n m) by (intros z Hz; apply Z; apply in_or_app; right; right; apply in_or_app; left; exact Hz).
  assert (Cm : all_calm c i m) by (intros f' g' u' t' v' In' V'; apply (C f' g' u' t' v'); [apply in_or_app; left; exact In' | exact V']).
  assert (Pm' : no_pen m) by (intros w f' t' In'; apply (Pm w f' t'); right; exact In').
  assert (A1 : astate (ar s1) = ARB_NONE).
  { apply no_pen_run. intros w f' t' In'. apply in_app_or in In'. destruct In' as [In'|[K|[]]]; [exact (Pl w f' t' In') | discriminate]. }
  destruct (stays_clean c n i m s1 y I Zm G1 Cm Pm' A1 Y PY) as [y2 [Y2 [P2 _]]].
  assert (E2 : run c (init n b m0) (l ++ Frame f0 g0 u0 t0 :: m) = run c s1 m).
  { replace (l ++ Frame f0 g0 u0 t0 :: m) with ((l ++ [Frame f0 g0 u0 t0]) ++ m) by (rewrite <- app_assoc; reflexivity). rewrite run_app. reflexivity. }
  set (s2 := run c s1 m) in *.
  assert (KF : forall a, krun (kb (init n b m0)) (l ++ Frame f0 g0 u0 t0 :: a) = krun (kb (init n b m0)) (l ++ a)) by (intros a; rewrite !krun_app; reflexivity).
  assert (TY : typing (kb s2) = false).
  { rewrite <- E2, kb_run, KF. unfold m. rewrite app_assoc. apply (ended n b m0 (l ++ m1) r t1 m2); assumption. }
  unfold moving. rewrite E2. destruct (G2 f (or_introl (ex_intro _ g (ex_intro _ u (ex_intro _ t (or_introl eq_refl)))))) as [v' [V' [SU FV]]]. rewrite V in V'. injection V' as <-.
  apply (still_none c s2 f g u t i y2 v); auto.
  - split; [exact TY | split]; [rewrite <- E2; apply no_point_run; exact NT | rewrite <- E2; apply no_pen_run; exact P].
  - rewrite <- E2, run_length. apply (Z (Frame f g u t)). apply in_or_app; right; right; apply in_or_app; right; left; reflexivity.
  - apply (C f g u t v); [apply in_or_app; right; left; reflexivity | exact V].
  - rewrite <- E2. apply (thumb_end c n b m0 l f0 g0 u0 t0 m f g u t i v0 v I Z P V0 V TH).
Qed.

(** The claim fails when a keyboard is removed while a key is held on it: the touchpad still counts the key as held.  The next key typed, on whatever keyboard, then disables the touchpad for good:
    as long as that key is not pressed and released again, the option not switched off and no keyboard removed. *)
Theorem C46_unplugged_refuted : forall c n b m0 l k t k2 t2 m f g u t', types b l k -> typewriter k2 -> (forall i, In i m -> i <> Unplug /\ i <> SetDwt false /\ (forall s, i <> Key k false s)) ->
  ~ In true (moving c n b m0 (l ++ Key k true t :: Unplug :: Key k2 true t2 :: m) f g u t').
Proof.
  intros c n b m0 l k t k2 t2 m f g u t' H T U. unfold moving. apply blocked. left. rewrite kb_run.
  replace (l ++ Key k true t :: Unplug :: Key k2 true t2 :: m) with ((l ++ [Key k true t]) ++ [Unplug; Key k2 true t2] ++ m) by (rewrite <- app_assoc; reflexivity).
  rewrite krun_app. destruct (pressed_types n b m0 l k t H) as [Y [K [_ [O _]]]].
  assert (M : mods (krun (kb (init n b m0)) (l ++ [Key k true t])) = []).
  { rewrite mods_run. destruct H as [_ [[_ H2] H3]]. assert (A : forall a b' x, mods_from x b' (a ++ [Key k true t]) = mods_from x b' a).
    { induction a as [|j a IH]; intros b' x; cbn [mods_from app].
      - rewrite modifier_iff2. destruct (key_is_modifier k) eqn:E; [exfalso; apply H2; apply modifier_iff; exact E |]. rewrite andb_false_r. reflexivity.
      - destruct j; try apply IH. destruct p; apply IH. }
    rewrite A. exact H3. }
  set (x := krun (kb (init n b m0)) (l ++ [Key k true t])) in *. clearbody x. rewrite krun_app. cbn [krun kstep].
  assert (P : let z := fst (keyboard_event (keyboard_removed x) k2 true t2) in on z = true /\ typing z = true /\ In k (keys z)).
  { destruct (press_types (keyboard_removed x) k2 t2 O T M) as [P1 [P2 [_ [P3 _]]]]. split; [exact P3 | split; [exact P1 |]].
    unfold keyboard_event. destruct (typewriter_not_ignored k2 T) as [I1 I2]. cbn [negb keyboard_removed on]. rewrite O, I1, I2. cbn [negb mods keyboard_removed typing]. rewrite M. cbn. right. exact K. }
  destruct P as [P1 [P2 P3]]. apply (held_stays m _ k P1 P2 P3 U).
Qed.

(** ** The hypotheses are met *)
Definition ex_config : config := {| left_edge := 80; right_edge := 920; upper_edge := 30; use_pressure := true; pressure_threshold := 130; use_size := true; size_threshold := 400; use_mt_tool := true;
  monitor_trackpoint := true; is_clickpad := true; gp := {| Gest_Model.slots := 2; Gest_Model.enabled := true; Gest_Model.rx := 10; Gest_Model.ry := 10; Gest_Model.thumbs := true; Gest_Model.oct := fun _ _ => 0%Q |};
  detect_thumbs := true; upper_thumb_line := 500; lower_thumb_line := 550; th_use_pressure := false; th_pressure := 0; th_use_size := false; th_size := 0 |}.
Definition at_ (s : tstate) (fr d : bool) (x y : Z) : seen := {| st := s; fresh := fr; dirty := d; px := x; py := y; pressure := 40; major := 100; minor := 80; toolpalm := false;
  soft := false; redge := false; fast := false; hx := 0; hy := 0; free_pre := true; free_mid := true; free_out := true |}.
Definition down (x y : Z) : list seen := [at_ BEGIN true true x y; seen0].
Definition moved (x y : Z) : list seen := [at_ UPDATE false true x y; seen0].
Local Ltac all_of := let x := fresh "x" in let X := fresh "X" in intros x X; cbn in X; repeat (destruct X as [<-|X]; [cbn; try lia; try (repeat split; intros; congruence); auto |]); destruct X.
Ltac hist :=
  lazymatch goal with
  | |- types _ _ _ => split; [reflexivity | split; [split; [lia | intros X; cbn in X; repeat (destruct X as [X|X]; [discriminate |]); exact X] | reflexivity]]
  | |- typewriter _ => split; [lia | intros X; cbn in X; repeat (destruct X as [X|X]; [discriminate |]); exact X]
  | |- until _ _ _ => all_of
  | |- by_ _ _ => all_of
  | |- from _ _ => all_of
  | |- sized _ _ => all_of
  | |- no_press _ => intros ? ? X; cbn in X; repeat (destruct X as [X|X]; [discriminate |]); exact X
  | |- no_pen _ => intros ? ? ? X; cbn in X; repeat (destruct X as [X|X]; [discriminate |]); exact X
  | |- no_trackpoint _ => intros ? X; cbn in X; repeat (destruct X as [X|X]; [discriminate |]); exact X
  | |- ~ In Unplug _ => intros X; cbn in X; repeat (destruct X as [X|X]; [discriminate |]); exact X
  | |- lands _ _ => repeat split; cbn; intros; try lia; reflexivity
  | |- goes_on _ _ => intros ? [[? [? [? X]]]|[? [? X]]]; cbn in X; repeat (destruct X as [X|X]; [first [discriminate | injection X as <- _ _ _; eexists; repeat split; reflexivity | injection X as _ <- _; eexists; repeat split; reflexivity] |]); destruct X
  | |- all_calm _ _ _ => intros ? ? ? ? ? X V; cbn in X; repeat (destruct X as [X|X]; [first [discriminate | injection X as <- _ _ _; injection V as <-; repeat split; cbn; intros; try lia; reflexivity] |]); destruct X
  | _ => first [reflexivity | lia]
  end.
(** One finger, above the thumb area, on a touchpad nothing was on before *)
Lemma ex_alone : forall v, alone 0 [v; seen0].
Proof. intros v j w J N. destruct j as [|[|j]]; [congruence | cbn in J; injection J as <-; reflexivity | cbn in J; destruct j; discriminate]. Qed.
Ltac lone_one := right; split; [cbn; tauto | let X := fresh "X" in intros ? X; cbn in X; repeat (destruct X as [<-|X]; [first [exact Logic.I | split; [apply ex_alone | split; [reflexivity | intros ? V; injection V as <-; cbn; lia]]] |]); destruct X].

(** Typing "a" (30) at 1 s: a finger that comes down at 1.1 s does not move the pointer *)
Example C46_typing_blocks_applies : ~ In true (moving ex_config 2 true Es_Model.M_2FG ([] ++ Key 30 true 1000000 :: [Key 30 false 1050000]) (down 500 300) true None 1100000).
Proof. apply C46_typing_blocks; hist. Qed.
Example C46_typing_blocks_shows : moving ex_config 2 true Es_Model.M_2FG [Key 30 true 1000000; Key 30 false 1050000] (down 500 300) true None 1100000 = [false; false].
Proof. vm_compute. reflexivity. Qed.
Example C46_typing_on_blocks_applies :
  ~ In true (moving ex_config 2 true Es_Model.M_2FG ([] ++ Key 30 true 1000000 :: [Key 30 false 1050000] ++ Key 31 true 1100000 :: [Key 31 false 1150000; KbTimer 1599999]) (down 500 300) true None 1599999).
Proof. apply C46_typing_on_blocks; hist. Qed.
(** "a" held while Shift is pressed, for ten seconds *)
Example C46_held_blocks_applies : ~ In true (moving ex_config 2 true Es_Model.M_2FG ([] ++ Key 30 true 1000000 :: [KbTimer 1200000; Key 42 true 1300000; KbTimer 1700000; KbTimer 11000000]) (down 500 300) true None 11000001).
Proof. apply C46_held_blocks; [hist |]. intros i X; cbn in X; repeat (destruct X as [<-|X]; [repeat split; try congruence |]); destruct X. Qed.
(** Typing "as": half a second after the s a finger moves the pointer *)
Example C46_typing_ends_applies :
  nth_error (moving ex_config 2 true Es_Model.M_2FG ([Key 30 true 1000000; Key 30 false 1050000; Key 31 true 1100000; Key 31 false 1150000] ++ KbTimer 1600000 :: []) (down 500 300) true None 1600001) 0 = Some true.
Proof. apply (C46_typing_ends ex_config 2 true Es_Model.M_2FG _ 1100000 1600000 [] (down 500 300) true None 1600001 0 (at_ BEGIN true true 500 300)); try hist. lone_one. Qed.
(** Ctrl+C, F5, and "a" after the option was switched off *)
Example C46_not_typing_applies :
  nth_error (moving ex_config 2 true Es_Model.M_2FG [Key 29 true 1000000; Key 46 true 1010000; Key 46 false 1020000; Key 29 false 1030000; Key 63 true 1040000; SetDwt false; Key 30 true 1050000] (down 500 300) true None 1060000) 0 = Some true.
Proof.
  apply (C46_not_typing ex_config 2 true Es_Model.M_2FG _ (down 500 300) true None 1060000 0 (at_ BEGIN true true 500 300)); try hist; [| lone_one].
  intros l1 k s l2 E [T1 [[T2 T2'] T3]].
  destruct l1 as [|x l1]; [cbn in E; injection E as <- _ _; apply T2'; cbn; auto |]. injection E as <- E.
  destruct l1 as [|x l1]; [cbn in T3; discriminate |]. injection E as <- E. destruct l1 as [|x l1]; [discriminate |]. injection E as <- E. destruct l1 as [|x l1]; [discriminate |]. injection E as <- E.
  destruct l1 as [|x l1]; [cbn in E; injection E as <- _ _; lia |]. injection E as <- E. destruct l1 as [|x l1]; [discriminate |]. injection E as <- E.
  destruct l1 as [|x l1]; [cbn in T1; discriminate |]. injection E as <- E. destruct l1; discriminate.
Qed.
(** A palm comes down between the two keys: ten seconds later it is still ignored *)
Example C46_resting_palm_applies :
  nth_error (moving ex_config 2 true Es_Model.M_2FG ([] ++ Key 30 true 1000000 :: [Key 30 false 1050000] ++ Frame (down 500 300) true None 1060000 :: [Frame (moved 501 300) true None 1070000] ++ Key 31 true 1100000 :: [Key 31 false 1150000; KbTimer 1600000; Frame (moved 520 310) true None 2000000])
    (moved 600 350) true None 11000000) 0 = Some false.
Proof. apply (C46_resting_palm ex_config 2 true Es_Model.M_2FG [] 30 1000000 _ (down 500 300) true None 1060000 _ 31 1100000 _ (moved 600 350) true None 11000000 0 (at_ BEGIN true true 500 300)); hist. Qed.
(** A finger that comes down after the last key *)
Example C46_late_finger_applies :
  nth_error (moving ex_config 2 true Es_Model.M_2FG ([Key 30 true 1000000; Key 30 false 1050000] ++ Frame (down 500 300) true None 1060000 :: [Frame (moved 501 300) true None 1070000] ++ KbTimer 1500000 :: [Frame (moved 520 310) true None 2000000]) (moved 600 350) true None 2010000) 0 = Some true.
Proof.
  apply (C46_late_finger ex_config 2 true Es_Model.M_2FG _ 1000000 (down 500 300) true None 1060000 _ 1500000 _ (moved 600 350) true None 2010000 0 (at_ BEGIN true true 500 300) (at_ UPDATE false true 600 350)); try hist. lone_one.
Qed.
(** ... and one that was there before *)
Example C46_early_finger_applies :
  nth_error (moving ex_config 2 true Es_Model.M_2FG ([] ++ Frame (down 500 300) true None 900000 :: [Key 30 true 1000000; Key 30 false 1050000; Frame (moved 501 300) true None 1070000] ++ KbTimer 1500000 :: []) (moved 600 350) true None 2010000) 0 = Some true.
Proof.
  apply (C46_early_finger ex_config 2 true Es_Model.M_2FG [] 1000000 (down 500 300) true None 900000 _ 1500000 [] (moved 600 350) true None 2010000 0 (at_ BEGIN true true 500 300) (at_ UPDATE false true 600 350)); try hist; [| lone_one].
  intros l1 k s l2 E. destruct l1; discriminate.
Qed.
(** "a" held when its keyboard is unplugged, "s" typed on another one: an hour later the touchpad is still disabled, with no key held *)
Example C46_unplugged_refuted_applies :
  ~ In true (moving ex_config 2 true Es_Model.M_2FG ([] ++ Key 30 true 1000000 :: Unplug :: Key 31 true 2000000 :: [Key 31 false 2050000; KbTimer 2200000; KbTimer 2700000; KbTimer 3600000000]) (down 500 300) true None 3600000001) /\
  held ([] ++ Key 30 true 1000000 :: Unplug :: Key 31 true 2000000 :: [Key 31 false 2050000; KbTimer 2200000; KbTimer 2700000; KbTimer 3600000000]) = [].
Proof. split; [| reflexivity]. apply C46_unplugged_refuted; [hist | hist |]. intros i X; cbn in X; repeat (destruct X as [<-|X]; [repeat split; try congruence |]); destruct X. Qed.

Print Assumptions C46_typing_blocks.
Print Assumptions C46_typing_on_blocks.
Print Assumptions C46_held_blocks.
Print Assumptions C46_typing_ends.
Print Assumptions C46_not_typing.
Print Assumptions C46_resting_palm.
Print Assumptions C46_late_finger.
Print Assumptions C46_early_finger.
Print Assumptions C46_unplugged_refuted.
