(** * Motion of a finger on a touchpad: one frame *)
Require Import Coq.ZArith.ZArith Coq.QArith.QArith Coq.Lists.List Coq.Bool.Bool Coq.micromega.Lia Coq.micromega.Lqa.
Require Import Verif.Jit_Model Verif.Jit_Spec Verif.Jit_Proofs.
Import ListNotations.
Open Scope Z_scope.

Lemma wobbling_touch : forall n old m s t now s1 t1, detect_wobbling n old m s t now = (s1, t1) -> t1 = with_xh t (xh t1) /\ (s_hyst s = true -> s_hyst s1 = true).
Proof.
  intros n old m s t now s1 t1 E. assert (R : t = with_xh t (xh t)) by (destruct t; reflexivity). unfold detect_wobbling in E. destruct (negb (Nat.eqb n 1) || negb (Nat.eqb n old)); [inversion E; subst; split; [assumption | intro; assumption] |]. destruct (s_hyst s) eqn:H; [inversion E; subst; split; [assumption | intro; assumption] |].
  split; [| discriminate]. destruct (hist t) as [|[p z] r]; [inversion E; subst; assumption |]. destruct (negb m); [inversion E; subst; reflexivity |]. destruct (_ || _); [inversion E; subst; reflexivity |]. destruct (Z.ltb _ _); inversion E; subst; reflexivity.
Qed.
(** What the jump detection leaves alone, and when it finds no jump *)
Lemma jumps_keep : forall c t now j t1, detect_jumps c t now = (j, t1) -> hist t1 = hist t /\ center t1 = center t /\ again t1 = again t /\ pinned t1 = pinned t /\ pcenter t1 = pcenter t /\ xh t1 = xh t /\ (j = false -> pt t1 = pt t) /\ (alps c = false -> pt t1 = pt t).
Proof. intros c t now j t1 E. unfold detect_jumps in E. destruct (nojump c); [inversion E; subst; tauto |]. destruct (hist t) as [|[p z] r] eqn:H; [inversion E; subst; cbn; tauto |]. cbv zeta in E. destruct (_ || Z.eqb (now - z) 0); [inversion E; subst; rewrite H; tauto |]. destruct (alps c) eqn:AL; cbn [andb] in E; [| inversion E; subst; cbn; rewrite H; tauto]. destruct (_ && Z.eqb (snd (pt t)) 0); [inversion E; subst; cbn; rewrite H; repeat split; try reflexivity; discriminate |]. inversion E; subst; cbn; rewrite H; tauto. Qed.
Lemma with_xh_fields : forall t h, pt (with_xh t h) = pt t /\ hist (with_xh t h) = hist t /\ center (with_xh t h) = center t /\ pinned (with_xh t h) = pinned t /\ pcenter (with_xh t h) = pcenter t /\ again (with_xh t h) = again t /\ dsq (with_xh t h) = dsq t.
Proof. intros; cbn; tauto. Qed.
Lemma unpin_fields : forall c t, pt (unpin c t) = pt t /\ hist (unpin c t) = hist t /\ center (unpin c t) = center t /\ again (unpin c t) = again t /\ dsq (unpin c t) = dsq t.
Proof. intros c t. unfold unpin. destruct (pinned t); [| tauto]. destruct (Qle_bool _ _); cbn; tauto. Qed.
Lemma mh_fields : forall c h t, hist (motion_hysteresis c h t) = hist t /\ again (motion_hysteresis c h t) = again t /\ dsq (motion_hysteresis c h t) = dsq t /\ pinned (motion_hysteresis c h t) = pinned t /\ pcenter (motion_hysteresis c h t) = pcenter t /\ (h = true -> center (motion_hysteresis c h t) = pt (motion_hysteresis c h t))
  /\ pt (motion_hysteresis c h t) = (if h then match hist t with [] => pt t | _ => hysteresis (mx c) (my c) (pt t) (center t) end else pt t).
Proof. intros c h t. unfold motion_hysteresis. destruct h; [| cbn; repeat split; intros; discriminate]. destruct (hist t) eqn:H; cbn; rewrite ?H; repeat split. Qed.

(** One touch in one frame: either its history starts again, or it is one longer *)
Lemma enter_there : forall t u, u_end u = false -> u_new u = false -> enter t u = with_pt t (said (pt t) u).
Proof. intros t u A B. unfold enter, said. rewrite A, B. reflexivity. Qed.
Lemma touch_cases : forall c n old rst m now s t u s1 t1, process_touch c n old rst m now s t u = (s1, t1) -> u_none u = false ->
  (s_hyst s = true -> s_hyst s1 = true) /\
  (hist t1 = [(pt t1, now)] /\ (u_dirty u = true -> s_hyst s1 = true -> center t1 = pt t1) /\ (alps c = false -> pt t1 = pt (enter t u)) \/
   rst = false /\ again (enter t u) = false /\ hist (enter t u) <> [] /\ hist t1 = (pt t1, now) :: firstn 3 (hist (enter t u)) /\
   if u_dirty u then exists tj, detect_jumps c (enter t u) now = (false, tj) /\ pt t1 = (if s_hyst s1 then hysteresis (mx c) (my c) (pt (enter t u)) (center (enter t u)) else pt (enter t u)) /\ (s_hyst s1 = true -> center t1 = pt t1) /\ dsq t1 = dsq tj
   else pt t1 = pt (enter t u) /\ center t1 = center (enter t u) /\ dsq t1 = dsq (enter t u)).
Proof.
  intros c n old rst m now s t u s1 t1 E NU. unfold process_touch in E. rewrite NU in E. set (t0 := enter t u) in *.
  set (ta := if rst then with_again (reset t0) true else if again t0 then with_again (reset t0) false else t0) in E.
  assert (TA : hist ta = [] /\ pt ta = pt t0 \/ rst = false /\ again t0 = false /\ ta = t0 /\ hist t0 <> []).
  { unfold ta. destruct rst; [left; split; reflexivity |]. destruct (again t0) eqn:A; [left; split; reflexivity |]. destruct (hist t0) as [|x r] eqn:H; [left; split; reflexivity |]. right. repeat split; discriminate. }
  clearbody ta. destruct (u_dirty u) eqn:D; cbn [negb] in E.
  - destruct (detect_jumps c ta now) as [j tj] eqn:J. destruct (jumps_keep _ _ _ _ _ J) as [JH [JC [JA [_ [_ [_ [JP JQ]]]]]]].
    assert (TP : pt ta = pt t0) by (destruct TA as [[_ X]|[_ [_ [X _]]]]; [exact X | rewrite X; reflexivity]).
    destruct (detect_wobbling n old m s (if j then reset tj else tj) now) as [s2 t4] eqn:W. destruct (wobbling_touch _ _ _ _ _ _ _ _ W) as [WT WS]. injection E as E1 E2. subst s2. split; [exact WS |].
    set (tm := motion_hysteresis c (s_hyst s1) t4) in E2. destruct (mh_fields c (s_hyst s1) t4) as [MH [_ [MD [_ [_ [MC MP]]]]]]. fold tm in MH, MD, MC, MP.
    destruct (unpin_fields c (push tm now)) as [UP [UH [UC [_ UD]]]]. rewrite E2 in UP, UH, UC, UD. cbn [push pt hist center dsq] in UP, UH, UC, UD.
    assert (X : hist t4 = hist (if j then reset tj else tj) /\ pt t4 = pt (if j then reset tj else tj) /\ center t4 = center (if j then reset tj else tj) /\ dsq t4 = dsq (if j then reset tj else tj)) by (rewrite WT; cbn; tauto). destruct X as [XH [XP [XC XD]]].
    rewrite MH, XH in UH.
    destruct j.
    + left. cbn in UH, XH. rewrite UH, UP. split; [reflexivity |]. split; [intros _ Y; rewrite UC; exact (MC Y) |]. intro AL. rewrite MP, XH, XP. cbn. rewrite (JQ AL), TP. destruct (s_hyst s1); reflexivity.
    + destruct TA as [[TH _]|[T1 [T2 [T3 T4]]]].
      * left. rewrite JH, TH in UH. cbn in UH. rewrite UH, UP. split; [reflexivity |]. split; [intros _ Y; rewrite UC; exact (MC Y) |]. intro AL. rewrite MP, XH, JH, TH, XP, (JQ AL), TP. destruct (s_hyst s1); reflexivity.
      * right. subst ta. rewrite JH in UH. refine (conj T1 (conj T2 (conj T4 (conj _ _)))); [rewrite UH, UP; reflexivity |]. exists tj. split; [exact J |]. split; [| split; [intro Y; rewrite UC, UP; exact (MC Y) | rewrite UD, MD; exact XD]]. rewrite UP, MP, XH, JH, XP, XC, JC, (JP eq_refl). destruct (s_hyst s1); [| reflexivity]. destruct (hist t0); [contradiction | reflexivity].
  - injection E as E1 E2. subst s1. split; [tauto |]. subst t1. destruct TA as [[TH TP]|[T1 [T2 [T3 T4]]]].
    + left. cbn. rewrite TH. split; [reflexivity |]. split; [discriminate | intros _; exact TP].
    + right. subst ta. cbn. tauto.
Qed.

(** ** All touches *)
Lemma touches_nth : forall c n old rst m now ts us s s2 r i t u, process_touches c n old rst m now s ts us = (s2, r) -> nth_error ts i = Some t -> nth_error us i = Some u ->
  (forall v, In v us -> True) -> exists s0 s1 t1, process_touch c n old rst m now s0 t u = (s1, t1) /\ nth_error r i = Some t1 /\ (s_hyst s = true -> s_hyst s0 = true) /\ (s_hyst s1 = true -> s_hyst s2 = true).
Proof.
  assert (MONO : forall c n old rst m now s t u s1 t1, process_touch c n old rst m now s t u = (s1, t1) -> s_hyst s = true -> s_hyst s1 = true).
  { intros c n old rst m now s t u s1 t1 E H. destruct (u_none u) eqn:N; [unfold process_touch in E; rewrite N in E; inversion E; subst; exact H |]. destruct (touch_cases _ _ _ _ _ _ _ _ _ _ _ E N) as [X _]. exact (X H). }
  assert (MONOS : forall c n old rst m now ts us s s2 r, process_touches c n old rst m now s ts us = (s2, r) -> s_hyst s = true -> s_hyst s2 = true).
  { intros c n old rst m now. induction ts as [|t tr IH]; intros us s s2 r E H; [inversion E; subst; exact H |]. destruct us as [|u ur]; [inversion E; subst; exact H |]. cbn in E. destruct (process_touch _ _ _ _ _ _ _ _ _) as [s1 t1] eqn:P. destruct (process_touches c n old rst m now s1 tr ur) as [s3 r3] eqn:Q. inversion E; subst. exact (IH _ _ _ _ Q (MONO _ _ _ _ _ _ _ _ _ _ _ P H)). }
  intros c n old rst m now. induction ts as [|t0 tr IH]; intros us s s2 r i t u E T U _; [destruct i; discriminate |]. destruct us as [|u0 ur]; [destruct i; discriminate |]. cbn in E. destruct (process_touch c n old rst m now s t0 u0) as [s1 t1] eqn:P. destruct (process_touches c n old rst m now s1 tr ur) as [s3 r3] eqn:Q. inversion E; subst. destruct i as [|i]; cbn in T, U.
  - inversion T; inversion U; subst. exists s, s1, t1. refine (conj P (conj eq_refl (conj (fun x => x) _))). exact (MONOS _ _ _ _ _ _ _ _ _ _ _ Q).
  - destruct (IH _ _ _ _ _ _ _ Q T U (fun _ _ => I)) as [a [b [t2 [A [B [C D]]]]]]. exists a, b, t2. refine (conj A (conj B (conj _ D))). intro H. exact (C (MONO _ _ _ _ _ _ _ _ _ _ _ P H)).
Qed.
Definition pinned_if (b : bool) (t : touch) : touch := if b then pin t else t.
Lemma step_nth : forall c s f i t u, finger i s t -> of i f u -> exists m s0 s1 t1, process_touch c (nf f) (oldn s) (fst (fst (need_reset c s f))) m (time f) s0 t u = (s1, t1) /\ finger i (step c s f) (pinned_if (press f && clickpad c) t1) /\ (hyst s = true -> s_hyst s0 = true) /\ (s_hyst s1 = true -> hyst (step c s f) = true).
Proof.
  intros c s f i t u T U. unfold step, finger. destruct (need_reset c s f) as [[rst m] k]. cbn [fst]. destruct (process_touches c (nf f) (oldn s) rst m (time f) _ (touches s) (ups f)) as [s2 r] eqn:E.
  destruct (touches_nth _ _ _ _ _ _ _ _ _ _ _ _ _ _ E T U (fun _ _ => I)) as [a [b [t1 [A [B [C D]]]]]]. exists m, a, b, t1. refine (conj A (conj _ (conj C D))). cbn [touches]. unfold pinned_if. destruct (press f && clickpad c); [apply map_nth_error; exact B | exact B].
Qed.
Lemma step_mono : forall c s f, hyst s = true -> hyst (step c s f) = true.
Proof.
  intros c s f H. unfold step. destruct (need_reset c s f) as [[rst m] k]. destruct (process_touches c (nf f) (oldn s) rst m (time f) _ (touches s) (ups f)) as [s2 r] eqn:E. cbn [hyst].
  assert (MONO : forall ts us s0 s2 r, process_touches c (nf f) (oldn s) rst m (time f) s0 ts us = (s2, r) -> s_hyst s0 = true -> s_hyst s2 = true).
  { clear. induction ts as [|t tr IH]; intros us s0 s2 r E H; [inversion E; subst; exact H |]. destruct us as [|u ur]; [inversion E; subst; exact H |]. cbn in E. destruct (process_touch _ _ _ _ _ _ _ _ _) as [s1 t1] eqn:P. destruct (process_touches _ _ _ _ _ _ s1 tr ur) as [s3 r3] eqn:Q. inversion E; subst. refine (IH _ _ _ _ Q _). destruct (u_none u) eqn:N; [unfold process_touch in P; rewrite N in P; inversion P; subst; exact H |]. destruct (touch_cases _ _ _ _ _ _ _ _ _ _ _ P N) as [X _]. exact (X H). }
  exact (MONO _ _ _ _ _ E H).
Qed.
Lemma run_mono : forall c l s, hyst s = true -> hyst (run c s l) = true.
Proof. induction l as [|f l IH]; intros s H; [exact H |]. cbn. apply IH. apply step_mono. exact H. Qed.
Lemma run_app : forall c s l m, run c s (l ++ m) = run c (run c s l) m.
Proof. intros. unfold run. apply fold_left_app. Qed.

(** ** A finger that is there *)
(** What is known of a finger after a frame at time [z]; [h]: hysteresis was on *)
Definition Known (h : bool) (z : Z) (t : touch) : Prop := (exists r, hist t = (pt t, z) :: r) /\ (h = true -> center t = pt t).
Lemma pin_fields : forall b t, pt (pinned_if b t) = pt t /\ hist (pinned_if b t) = hist t /\ center (pinned_if b t) = center t /\ again (pinned_if b t) = again t /\ dsq (pinned_if b t) = dsq t /\ delta (pinned_if b t) = delta t.
Proof. intros [] t; cbn; tauto. Qed.
Lemma hysteresis_self : forall a b p, hysteresis a b p p = p.
Proof. intros a b [x y]. unfold hysteresis. cbn [fst snd]. destruct (Z.eqb_spec a 0); [reflexivity |]. destruct (Z.eqb_spec b 0); [reflexivity |]. cbn [orb]. rewrite !Z.sub_diag. cbn [Z.mul]. rewrite Z.add_0_r. destruct (Z.ltb_spec 0 (a * a * (b * b))); [reflexivity |]. nia. Qed.

(** One frame of a finger that is there: it starts again, or moves *)
Definition restarts (c : cfg) (now : Z) (t : touch) (u : up) (t1 : touch) : Prop := hist t1 = [(pt t1, now)] /\ (alps c = false -> pt t1 = said (pt t) u).
Definition moves (c : cfg) (now : Z) (h : bool) (t : touch) (u : up) (t1 : touch) : Prop :=
  u_new u = false /\ again t = false /\ hist t1 = (pt t1, now) :: firstn 3 (hist t) /\
  if u_dirty u then exists tj, detect_jumps c (with_pt t (said (pt t) u)) now = (false, tj) /\ pt t1 = (if h then hysteresis (mx c) (my c) (said (pt t) u) (center t) else said (pt t) u) /\ dsq t1 = dsq tj
  else pt t1 = pt t /\ dsq t1 = dsq t.
Lemma frame_cases : forall c s f i t u z h, finger i s t -> of i f u -> there i f -> hyst s = h -> hyst (step c s f) = h -> (u_new u = true \/ Known h z t) ->
  exists t1, finger i (step c s f) t1 /\ Known h (time f) t1 /\ (restarts c (time f) t u t1 \/ fst (fst (need_reset c s f)) = false /\ moves c (time f) h t u t1).
Proof.
  intros c s f i t u z h T U [u' [U' [NN [NE DD]]]] H0 H1 K. unfold of in U, U'. rewrite U in U'. inversion U'; subst u'. clear U'.
  destruct (step_nth c s f i t u T U) as [m [s0 [s1 [t1 [P [F [A B]]]]]]]. destruct (touch_cases _ _ _ _ _ _ _ _ _ _ _ P NN) as [M C]. destruct (pin_fields (press f && clickpad c) t1) as [Q1 [Q2 [Q3 [Q4 [Q5 Q6]]]]].
  assert (HH : s_hyst s1 = h). { destruct h; [exact (M (A H0)) |]. destruct (s_hyst s1); [rewrite (B eq_refl) in H1; discriminate | reflexivity]. }
  exists (pinned_if (press f && clickpad c) t1). split; [exact F |]. destruct (u_new u) eqn:N.
  - specialize (DD (or_introl eq_refl)). destruct C as [[C1 [C2 CP]]|[_ [_ [C3 _]]]].
    + split; [| left; unfold restarts; rewrite Q1, Q2; split; [exact C1 |]; intro AL; rewrite (CP AL); unfold enter; rewrite N, NE; reflexivity]. split; [exists []; rewrite Q1, Q2; exact C1 |]. intro Y. rewrite Q1, Q3. apply C2; [exact DD | rewrite HH; exact Y].
    + exfalso. apply C3. unfold enter. rewrite N, NE. reflexivity.
  - destruct K as [K|[[r K1] K2]]; [discriminate |]. rewrite (enter_there _ _ NE N) in C. destruct C as [[C1 [C2 CP]]|[C0 [C2 [C3 [C4 C5]]]]].
    + split; [| left; unfold restarts; rewrite Q1, Q2; split; [exact C1 | exact CP]]. split; [exists []; rewrite Q1, Q2; exact C1 |]. intro Y. rewrite Q1, Q3. destruct (u_dirty u) eqn:D; [apply C2; [reflexivity | rewrite HH; exact Y] |].
      (* not dirty: the point and the centre are as they were *)
      unfold process_touch in P. rewrite NN, D, (enter_there _ _ NE N) in P. cbn [negb] in P. assert (SP : said (pt t) u = pt t). { unfold said. destruct (u_x u) eqn:X; [exfalso; assert (false = true) by (apply DD; right; left; congruence); discriminate |]. destruct (u_y u) eqn:X2; [exfalso; assert (false = true) by (apply DD; right; right; congruence); discriminate |]. destruct (pt t); reflexivity. }
      rewrite SP in P. injection P as _ P. rewrite <- P. destruct (fst (fst (need_reset c s f))); cbn; [exact (K2 Y) |]. destruct (again t); exact (K2 Y).
    + split.
      * split; [eexists; rewrite Q1, Q2; exact C4 |]. intro Y. rewrite Q1, Q3. destruct (u_dirty u) eqn:D; [destruct C5 as [tj [_ [_ [X _]]]]; apply X; rewrite HH; exact Y |]. destruct C5 as [X1 [X2 _]]. rewrite X1, X2. cbn. rewrite (K2 Y). unfold said. destruct (u_x u) eqn:X; [exfalso; assert (false = true) by (apply DD; right; left; congruence); discriminate |]. destruct (u_y u) eqn:Z2; [exfalso; assert (false = true) by (apply DD; right; right; congruence); discriminate |]. destruct (pt t); reflexivity.
      * right. split; [exact C0 |]. unfold moves. rewrite Q1, Q2, Q5. split; [exact N |]. split; [exact C2 |]. split; [exact C4 |]. destruct (u_dirty u) eqn:D.
        -- destruct C5 as [tj [J [X [_ Y]]]]. exists tj. rewrite HH in X. cbn in X. tauto.
        -- destruct C5 as [X1 [_ X2]]. split; [| exact X2]. rewrite X1. cbn. unfold said. destruct (u_x u) eqn:X; [exfalso; assert (false = true) by (apply DD; right; left; congruence); discriminate |]. destruct (u_y u) eqn:Z2; [exfalso; assert (false = true) by (apply DD; right; right; congruence); discriminate |]. destruct (pt t); reflexivity.
Qed.

Lemma stays_snoc : forall i l f, stays i (l ++ [f]) -> l <> [] -> stays i l /\ there i f.
Proof. intros i [|g l] f S N; [contradiction |]. destruct S as [A B]. split; [split; [exact A |]; intros k K; apply B; cbn in *; rewrite in_app_iff; tauto |]. apply B. cbn. rewrite in_app_iff. cbn. tauto. Qed.
(** A finger keeps what is known of it *)
Lemma stays_known : forall c i l s, stays i l -> (exists t, finger i s t) -> hyst (run c s l) = hyst s -> exists t, finger i (run c s l) t /\ Known (hyst s) (last_time l) t.
Proof.
  intros c i l. induction l as [|f l IH] using rev_ind; intros s S [t0 T0] H; [destruct S |]. rewrite run_app in *. cbn [run fold_left] in *. unfold last_time. rewrite rev_app_distr. cbn [rev app].
  assert (HM : hyst (run c s l) = hyst s). { destruct (hyst s) eqn:E; [apply run_mono; exact E |]. destruct (hyst (run c s l)) eqn:E2; [| reflexivity]. change (fold_left (step c) l s) with (run c s l) in H. rewrite (step_mono c _ f E2) in H. discriminate. }
  destruct l as [|g l].
  - cbn in S. destruct S as [[u [U N]] S]. destruct (frame_cases c s f i t0 u 0 (hyst s) T0 U (S f (or_introl eq_refl)) eq_refl H (or_introl N)) as [t1 [F [K _]]]. exists t1. split; [exact F | exact K].
  - destruct (stays_snoc i (g :: l) f S ltac:(discriminate)) as [S1 [u [U X]]]. destruct (IH s S1 (ex_intro _ t0 T0) HM) as [t [T K]].
    destruct (frame_cases c _ f i t u (last_time (g :: l)) (hyst s) T U (ex_intro _ u (conj U X)) HM H (or_intror K)) as [t1 [F [K1 _]]]. exists t1. split; [exact F | exact K1].
Qed.
