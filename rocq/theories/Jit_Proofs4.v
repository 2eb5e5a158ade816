(** * Motion of a finger on a touchpad: rest, sums, pinning and wobbling *)
Require Import Coq.ZArith.ZArith Coq.QArith.QArith Coq.Lists.List Coq.Bool.Bool Coq.micromega.Lia Coq.micromega.Lqa.
Require Import Verif.Jit_Model Verif.Jit_Spec Verif.Jit_Proofs Verif.Jit_Proofs2 Verif.Jit_Proofs3.
Import ListNotations.
Open Scope Z_scope.

Lemma no_reset : forall c s f, t450 c = false -> nf f = oldn s -> fst (fst (need_reset c s f)) = false.
Proof. intros c s f T N. unfold need_reset. rewrite N, Nat.eqb_refl, T. reflexivity. Qed.
Lemma step_oldn : forall c s f, oldn (step c s f) = nf f.
Proof. intros c s f. unfold step. destruct (need_reset c s f) as [[rst m] k]. destruct (process_touches _ _ _ _ _ _ _ _ _). reflexivity. Qed.
Lemma hysteresis_inside : forall c p q, 0 < mx c -> 0 < my c -> inside c p q -> hysteresis (mx c) (my c) p q = q.
Proof. intros c p q A B I. unfold inside in I. unfold hysteresis. destruct (Z.eqb_spec (mx c) 0); [lia |]. destruct (Z.eqb_spec (my c) 0); [lia |]. cbn [orb]. destruct (Z.ltb_spec ((fst p - fst q) * (fst p - fst q) * (my c * my c) + (snd p - snd q) * (snd p - snd q) * (mx c * mx c)) (mx c * mx c * (my c * my c))); [reflexivity | lia]. Qed.
(** A frame of a slow finger *)
Lemma slow_frame : forall c s f i t u z h, nojump c = false -> testdev c = false -> alps c = false -> t450 c = false -> finger i s t -> of i f u -> there i f -> u_new u = false -> hyst s = h -> hyst (step c s f) = h -> Known h z t -> again t = false -> (0 <= dsq t)%Q -> nf f = oldn s ->
  (time f = z \/ 30000 < time f - z \/ 0 < time f - z /\ at_most c 7 (sub (said (pt t) u) (pt t)) (time f - z)) ->
  exists t1, finger i (step c s f) t1 /\ Known h (time f) t1 /\ again t1 = false /\ (0 <= dsq t1)%Q /\ delta t1 = sub (pt t1) (pt t) /\ pt t1 = (if h then if u_dirty u then hysteresis (mx c) (my c) (said (pt t) u) (pt t) else pt t else said (pt t) u).
Proof.
  intros c s f i t u z h NJ TD AL T4 T U TH NW H0 H1 K AG DS NF SL. pose proof TH as [u' [U' [NN [NE DD]]]]. rewrite (of_fun _ _ _ _ U' U) in *. clear u' U'.
  destruct (frame_cases c s f i t u z h T U TH H0 H1 (or_intror K)) as [t1 [F [K1 C]]]. destruct (dsq_step c s f i t u T U NN) as [t1' [F' [_ [_ [D3 D4]]]]]. rewrite (finger_fun _ _ _ _ F' F) in *. clear t1' F'. rewrite (no_reset c s f T4 NF) in D4, C.
  exists t1. split; [exact F |]. split; [exact K1 |]. split; [exact D4 |]. split; [exact (D3 DS) |].
  assert (SP : u_dirty u = false -> said (pt t) u = pt t). { intro D. unfold said. destruct (u_x u) eqn:X; [exfalso; assert (u_dirty u = true) by (apply DD; right; left; congruence); congruence |]. destruct (u_y u) eqn:X2; [exfalso; assert (u_dirty u = true) by (apply DD; right; right; congruence); congruence |]. destruct (pt t); reflexivity. }
  destruct C as [C|[_ C]].
  - (* it does not start again *) exfalso. destruct C as [R _]. destruct (step_nth c s f i t u T U) as [m [s0 [s1 [t2 [P [F2 _]]]]]]. pose proof (finger_fun _ _ _ _ F2 F) as EQ. destruct (pin_fields (press f && clickpad c) t2) as [_ [Q2 _]].
    rewrite (no_reset c s f T4 NF) in P. unfold process_touch in P. rewrite NN, (enter_there _ _ NE NW) in P. cbn [again with_pt] in P. rewrite AG in P. destruct K as [[r K] _].
    assert (X : exists q w, hist t2 = (q, time f) :: firstn 3 ((pt t, z) :: w)).
    { destruct (u_dirty u); cbn [negb] in P; [| injection P as _ P; rewrite <- P; cbn; rewrite K; eexists; eexists; reflexivity]. destruct (slow_no_jump c (with_pt t (said (pt t) u)) (time f) (pt t) z r NJ TD AL K DS SL) as [tj J]. rewrite J in P. destruct (jumps_keep _ _ _ _ _ J) as [JH _]. destruct (detect_wobbling _ _ _ _ _ _) as [s2 t4] eqn:W. destruct (wobbling_touch _ _ _ _ _ _ _ _ W) as [WT _]. injection P as _ P. destruct (unpin_fields c (push (motion_hysteresis c (s_hyst s2) t4) (time f))) as [_ [UH _]]. rewrite P in UH. destruct (mh_fields c (s_hyst s2) t4) as [MH _]. cbn [push hist] in UH. rewrite MH in UH. assert (Y : hist t4 = hist tj) by (rewrite WT; reflexivity). rewrite Y, JH in UH. cbn [with_pt hist] in UH. rewrite K in UH. rewrite UH. eexists. eexists. reflexivity. }
    destruct X as [q [w X]]. assert (F3 : hist t1 = hist t2) by (rewrite <- EQ; exact Q2). rewrite F3, X in R. discriminate.
  - split; [exact (moves_delta _ _ _ _ _ _ _ C K) |]. destruct C as [_ [_ [_ C]]]. destruct K as [_ K2]. destruct (u_dirty u) eqn:D.
    + destruct C as [tj [_ [C _]]]. rewrite C. destruct h; [rewrite (K2 eq_refl); reflexivity | reflexivity].
    + destruct C as [C _]. rewrite C. destruct h; [reflexivity | symmetry; apply SP; reflexivity].
Qed.
Lemma hyst_mid : forall c s f l h, hyst (run c s (f :: l)) = h -> hyst s = h -> hyst (step c s f) = h.
Proof. intros c s f l h A B. destruct h; [apply step_mono; exact B |]. destruct (hyst (step c s f)) eqn:E; [| reflexivity]. cbn in A. change (fold_left (step c) l (step c s f)) with (run c (step c s f) l) in A. rewrite (run_mono c l _ E) in A. discriminate. Qed.
Lemma exact_from : forall c i, nojump c = false -> testdev c = false -> alps c = false -> t450 c = false -> forall l s t z, finger i s t -> Known false z t -> again t = false -> (0 <= dsq t)%Q -> (forall f, In f l -> nf f = oldn s) -> (forall f, In f l -> there i f) -> hyst s = false -> hyst (run c s l) = false -> slow c i (pt t) z l -> total c i s l = sub (goes i (pt t) l) (pt t).
Proof.
  intros c i NJ TD AL T4. induction l as [|f l IH]; intros s t z T K AG DS NF TH H0 H1 SL; [cbn; unfold sub; rewrite !Z.sub_diag; reflexivity |].
  destruct SL as [u [U [NW [SL SR]]]]. pose proof (hyst_mid c s f l false H1 H0) as HM.
  destruct (slow_frame c s f i t u z false NJ TD AL T4 T U (TH f (or_introl eq_refl)) NW H0 HM K AG DS (NF f (or_introl eq_refl)) SL) as [t1 [F [K1 [A1 [D1 [E1 P1]]]]]].
  cbn [total goes]. unfold finger in F. rewrite F. unfold of in U. rewrite U. rewrite <- P1 in *. rewrite (IH (step c s f) t1 (time f) F K1 A1 D1).
  - rewrite E1. unfold plus_, sub. cbn. f_equal; lia.
  - intros g G. rewrite step_oldn, (NF f (or_introl eq_refl)). apply NF. right. exact G.
  - intros g G. apply TH. right. exact G.
  - exact HM.
  - exact H1.
  - exact SR.
Qed.
Lemma rest_from : forall c i, nojump c = false -> testdev c = false -> alps c = false -> t450 c = false -> 0 < mx c -> 0 < my c -> forall l s t z, finger i s t -> Known true z t -> again t = false -> (0 <= dsq t)%Q -> (forall f, In f l -> nf f = oldn s) -> (forall f, In f l -> there i f) -> hyst s = true -> rests c i (pt t) z l ->
  exists t1, finger i (run c s l) t1 /\ pt t1 = pt t /\ (l <> [] -> delta t1 = (0, 0)).
Proof.
  intros c i NJ TD AL T4 MX MY. induction l as [|f l IH]; intros s t z T K AG DS NF TH H0 SL; [exists t; split; [exact T |]; split; [reflexivity |]; intro X; contradiction |].
  destruct SL as [u [U [NW [IN [SL SR]]]]]. pose proof (step_mono c s f H0) as HM.
  destruct (slow_frame c s f i t u z true NJ TD AL T4 T U (TH f (or_introl eq_refl)) NW H0 HM K AG DS (NF f (or_introl eq_refl)) SL) as [t1 [F [K1 [A1 [D1 [E1 P1]]]]]].
  rewrite (hysteresis_inside c _ _ MX MY IN) in P1. assert (P2 : pt t1 = pt t) by (destruct (u_dirty u); exact P1). 
  destruct (IH (step c s f) t1 (time f) F K1 A1 D1) as [t2 [F2 [P3 D3]]].
  - intros g G. rewrite step_oldn, (NF f (or_introl eq_refl)). apply NF. right. exact G.
  - intros g G. apply TH. right. exact G.
  - exact HM.
  - rewrite P2. exact SR.
  - exists t2. split; [exact F2 |]. split; [congruence |]. intros _. destruct l as [|g l]; [| apply D3; discriminate]. cbn in F2. rewrite (finger_fun _ _ _ _ F2 F). rewrite E1, P2. unfold sub. rewrite !Z.sub_diag. reflexivity.
Qed.
(** After two frames with the same number of fingers *)
Lemma two_frames : forall c i s f0 f1 l t0, t450 c = false -> nojump c = false -> stays i (f0 :: f1 :: l) -> finger i s t0 -> nf f1 = nf f0 -> hyst (run c s [f0; f1]) = hyst s ->
  exists t, finger i (run c s [f0; f1]) t /\ Known (hyst s) (time f1) t /\ again t = false /\ (0 <= dsq t)%Q.
Proof.
  intros c i s f0 f1 l t0 T4 NJ S T NF H. destruct (stays_known c i [f0; f1] s) as [t [F K]]; [destruct S as [A B]; split; [exact A |]; intros g G; apply B; cbn in *; tauto | exists t0; exact T | exact H |]. exists t. split; [exact F |]. split; [exact K |].
  destruct S as [[u0 [U0 N0]] B]. destruct (B f0 (or_introl eq_refl)) as [u0' [U0' [A1 [_ A3]]]]. rewrite (of_fun _ _ _ _ U0' U0) in *. destruct (B f1 (or_intror (or_introl eq_refl))) as [u1 [U1 [B1 _]]].
  destruct (dsq_step c s f0 i t0 u0 T U0 A1) as [t1 [F1 [_ [Z1 _]]]]. destruct (dsq_step c (step c s f0) f1 i t1 u1 F1 U1 B1) as [t2 [F2 [_ [_ [Z2 Z3]]]]]. rewrite (finger_fun _ _ _ _ F F2). split.
  - rewrite Z3. apply no_reset; [exact T4 |]. rewrite step_oldn. exact NF.
  - apply Z2. rewrite (Z1 (A3 (or_introl N0)) NJ (or_introl N0)). apply Qle_refl.
Qed.

(** ** Pinning *)
Lemma pin_touch : forall c n old rst m now s t u s1 t1, process_touch c n old rst m now s t u = (s1, t1) -> u_none u = false -> u_new u = false ->
  pcenter t1 = pcenter t /\ (pinned t1 = true <-> pinned t = true /\ ~ (u_dirty u = true /\ far c (pt t1) (pcenter t))).
Proof.
  intros c n old rst m now s t u s1 t1 E NU NW. unfold process_touch in E. rewrite NU in E. set (t0 := enter t u) in *.
  assert (E0 : pcenter t0 = pcenter t /\ pinned t0 = pinned t). { unfold t0, enter. rewrite NW. destruct (u_end u); [| split; reflexivity]. cbn. destruct (hist t) as [|[p z] r]; split; reflexivity. }
  set (ta := if rst then with_again (reset t0) true else if again t0 then with_again (reset t0) false else t0) in E.
  assert (EA : pcenter ta = pcenter t /\ pinned ta = pinned t) by (unfold ta; destruct rst; [exact E0 |]; destruct (again t0); exact E0). clearbody ta. destruct EA as [EA EB]. destruct (u_dirty u); cbn [negb] in E.
  - destruct (detect_jumps c ta now) as [j tj] eqn:J. destruct (jumps_keep _ _ _ _ _ J) as [_ [_ [_ [JA [JB _]]]]]. destruct (detect_wobbling n old m s (if j then reset tj else tj) now) as [s2 t4] eqn:W. destruct (wobbling_touch _ _ _ _ _ _ _ _ W) as [WT _]. injection E as E1 E2. destruct (mh_fields c (s_hyst s2) t4) as [_ [_ [_ [MA [MB _]]]]].
    assert (X : pinned t4 = pinned t /\ pcenter t4 = pcenter t) by (rewrite WT; destruct j; cbn; split; congruence). destruct X as [X1 X2].
    set (tp := push (motion_hysteresis c (s_hyst s2) t4) now) in E2. assert (Y : pinned tp = pinned t /\ pcenter tp = pcenter t) by (unfold tp; cbn [push pinned pcenter]; split; congruence). clearbody tp. destruct Y as [Y1 Y2]. unfold unpin in E2. rewrite Y1, Y2 in E2. destruct (pinned t) eqn:P.
    + destruct (Qle_bool (9 # 4) (mmsq c (pt tp) (pcenter t))) eqn:Q; rewrite <- E2; cbn [with_pin pcenter pinned pt].
      * split; [reflexivity |]. split; [discriminate |]. intros [_ N]. exfalso. apply N. split; [reflexivity |]. apply Qle_bool_iff in Q. exact Q.
      * split; [exact Y2 |]. split; [| intros _; exact Y1]. intros _. split; [reflexivity |]. intros [_ N]. unfold far in N. change ((3 # 2) * (3 # 2))%Q with (9 # 4)%Q in N. apply Qle_bool_iff in N. unfold mmsq in Q. cbv zeta in Q. rewrite N in Q. discriminate.
    + rewrite <- E2. rewrite Y1, Y2. split; [reflexivity |]. split; [discriminate | intros [X _]; exact X].
  - injection E as E1 E2. rewrite <- E2. cbn. rewrite EA, EB. split; [reflexivity |]. split; [intro X; split; [exact X | intros [N _]; discriminate] | intros [X _]; exact X].
Qed.
Lemma pin_step : forall c s f i t u, finger i s t -> of i f u -> u_none u = false -> u_new u = false -> press f && clickpad c = false -> exists t1, finger i (step c s f) t1 /\ pcenter t1 = pcenter t /\ (pinned t1 = true <-> pinned t = true /\ ~ (u_dirty u = true /\ far c (pt t1) (pcenter t))).
Proof. intros c s f i t u T U NN NW P. destruct (step_nth c s f i t u T U) as [m [s0 [s1 [t1 [Q [F _]]]]]]. rewrite P in F. exists t1. split; [exact F |]. exact (pin_touch _ _ _ _ _ _ _ _ _ _ _ Q NN NW). Qed.

(** ** Wobbling *)
Definition keeps (XI : Z -> Z -> Z -> Prop) (R : point -> Z -> point -> Z -> Prop) : Prop := forall p z q w h mt, R p z q w -> XI h mt z ->
  XI h mt w /\ XI 0 mt w /\ XI 0 w w /\
  (w - mt <= 40000 -> if Z.ltb 0 (fst p - fst q) then XI (Z.lor (Z.shiftr h 1) 4) w w /\ Z.eqb (Z.lor (Z.shiftr h 1) 4) 5 = false else XI (Z.shiftr h 1) w w).
Lemma wobble_touch : forall XI R, keeps XI R -> forall c n old rst m now s t u s1 t1 z, process_touch c n old rst m now s t u = (s1, t1) -> u_none u = false -> u_end u = false -> (u_new u = true \/ u_x u <> None \/ u_y u <> None -> u_dirty u = true) -> alps c = false -> s_hyst s = false ->
  (exists r, hist t = (pt t, z) :: r) -> XI (xh t) (s_mtime s) z -> R (pt t) z (said (pt t) u) now ->
  s_hyst s1 = false /\ XI (xh t1) (s_mtime s1) now.
Proof.
  intros XI R KP c n old rst m now s t u s1 t1 z E NN NE DD AL HS [r K] X RR. destruct (KP _ _ _ _ _ _ RR X) as [X1 [X2 [X3 X4]]]. unfold process_touch in E. rewrite NN in E. set (t0 := enter t u) in *.
  assert (E0 : pt t0 = said (pt t) u /\ (xh t0 = xh t /\ hist t0 = hist t \/ xh t0 = 0 /\ hist t0 = [])). { unfold t0, enter. rewrite NE. split; [destruct (u_new u); reflexivity |]. destruct (u_new u); cbn; tauto. }
  set (ta := if rst then with_again (reset t0) true else if again t0 then with_again (reset t0) false else t0) in E.
  assert (EA : pt ta = said (pt t) u /\ (xh ta = xh t \/ xh ta = 0) /\ (hist ta = [] \/ xh ta = xh t /\ hist ta = hist t)). { destruct E0 as [E0 E1]. unfold ta. destruct rst; [cbn; tauto |]. destruct (again t0); cbn; tauto. } clearbody ta. destruct EA as [EA [EB EC]].
  destruct (u_dirty u); cbn [negb] in E.
  - destruct (detect_jumps c ta now) as [j tj] eqn:J. destruct (jumps_keep _ _ _ _ _ J) as [JH [_ [_ [_ [_ [JX [_ JP]]]]]]]. specialize (JP AL). set (tr := if j then reset tj else tj) in E.
    assert (ER : pt tr = said (pt t) u /\ xh tr = xh ta /\ (hist tr = [] \/ hist tr = hist ta)) by (unfold tr; destruct j; cbn; rewrite JP, EA, JX; tauto). clearbody tr. destruct ER as [R1 [R2 R3]].
    destruct (detect_wobbling n old m s tr now) as [s2 t4] eqn:W. injection E as E1 E2. subst s2.
    assert (XH : xh t1 = xh t4). { rewrite <- E2. unfold unpin. assert (Y : xh (push (motion_hysteresis c (s_hyst s1) t4) now) = xh t4) by (unfold motion_hysteresis; destruct (s_hyst s1); [destruct (hist t4); reflexivity | reflexivity]). destruct (pinned _); [destruct (Qle_bool _ _) |]; exact Y. } rewrite XH.
    assert (STAY : XI (xh tr) (s_mtime s) now) by (rewrite R2; destruct EB as [-> | ->]; assumption).
    unfold detect_wobbling in W. rewrite HS in W. destruct (negb (Nat.eqb n 1) || negb (Nat.eqb n old)); [inversion W; subst; split; assumption |].
    destruct (hist tr) as [|[p w] r0] eqn:HT; [inversion W; subst; split; assumption |]. destruct EC as [EC|[EC1 EC2]]; [destruct R3 as [R3|R3]; [discriminate | rewrite EC in R3; discriminate] |]. destruct R3 as [R3|R3]; [discriminate |]. rewrite EC2, K in R3. injection R3 as -> -> ->. rewrite EC1 in R2.
    destruct (negb m); [inversion W; subst; split; assumption |]. cbv zeta in W. rewrite R1 in W. destruct (Z.eqb (fst (pt t) - fst (said (pt t) u)) 0 && _); [inversion W; subst; split; [reflexivity | exact X3] |]. cbn [orb] in W. destruct (Z.ltb_spec 40000 (now - s_mtime s)); [inversion W; subst; split; [reflexivity | exact X3] |]. specialize (X4 ltac:(lia)). rewrite R2 in W. destruct (Z.ltb 0 (fst (pt t) - fst (said (pt t) u))); inversion W; subst; cbn; [destruct X4; split; assumption | split; [reflexivity | exact X4]].
  - injection E as E1 E2. subst s1. rewrite <- E2. cbn. split; [exact HS |]. destruct EB as [-> | ->]; assumption.
Qed.
Lemma one_touch : forall c s f t u, touches s = [t] -> of 0 f u -> exists m s0 s1 t1, process_touch c (nf f) (oldn s) (fst (fst (need_reset c s f))) m (time f) s0 t u = (s1, t1) /\ s_hyst s0 = hyst s /\ s_mtime s0 = (if begins f then time f else mtime s) /\ hyst (step c s f) = s_hyst s1 /\ mtime (step c s f) = s_mtime s1 /\ touches (step c s f) = [pinned_if (press f && clickpad c) t1].
Proof.
  intros c s f t u T U. unfold of in U. destruct (ups f) as [|u0 r] eqn:UP; [discriminate |]. cbn in U. inversion U; subst u0. unfold step. destruct (need_reset c s f) as [[rst m] k]. cbn [fst]. rewrite T, UP. cbn [process_touches]. destruct (process_touch c (nf f) (oldn s) rst m (time f) _ t u) as [s1 t1] eqn:P. exists m, {| s_hyst := hyst s; s_mtime := if begins f then time f else mtime s |}, s1, t1. split; [exact P |]. repeat (split; [reflexivity |]). destruct r; cbn; destruct (press f && clickpad c); reflexivity.
Qed.
Lemma xh_pinned : forall b t, xh (pinned_if b t) = xh t.
Proof. intros [] t; reflexivity. Qed.
Lemma wobble_run : forall XI R, keeps XI R -> forall c, alps c = false -> forall l s t z, touches s = [t] -> hyst s = false -> Known false z t -> XI (xh t) (mtime s) z -> (forall f, In f l -> there 0 f /\ begins f = false) -> each 0 R (pt t) z l -> hyst (run c s l) = false.
Proof.
  intros XI R KP c AL. induction l as [|f l IH]; intros s t z T H K X TH E; [exact H |]. destruct E as [u [U [RR ER]]]. destruct (TH f (or_introl eq_refl)) as [TF BF]. pose proof TF as [u' [U' [NN [NE DD]]]]. rewrite (of_fun _ _ _ _ U' U) in *. clear u' U'.
  destruct (one_touch c s f t u T U) as [m [s0 [s1 [t1 [P [A1 [A2 [A3 [A4 A5]]]]]]]]]. rewrite BF in A2. rewrite <- A2 in X. destruct (wobble_touch XI R KP _ _ _ _ _ _ _ _ _ _ _ z P NN NE DD AL (eq_trans A1 H) (proj1 K) X RR) as [HN XN].
  assert (T0 : finger 0 s t) by (unfold finger; rewrite T; reflexivity). destruct (frame_cases c s f 0 t u z false T0 U TF H (eq_trans A3 HN) (or_intror K)) as [t2 [F [K2 C]]].
  assert (EQ : t2 = pinned_if (press f && clickpad c) t1) by (unfold finger in F; rewrite A5 in F; cbn in F; congruence).
  assert (PT : pt t2 = said (pt t) u). { destruct C as [[_ C]|[_ [_ [_ [_ C]]]]]; [exact (C AL) |]. destruct (u_dirty u) eqn:D; [destruct C as [tj [_ [C _]]]; exact C |]. destruct C as [C _]. rewrite C. unfold said. destruct (u_x u) eqn:X1; [exfalso; assert (false = true) by (apply DD; right; left; congruence); discriminate |]. destruct (u_y u) eqn:X2; [exfalso; assert (false = true) by (apply DD; right; right; congruence); discriminate |]. destruct (pt t); reflexivity. }
  cbn. apply (IH (step c s f) t2 (time f)); [rewrite A5, EQ; reflexivity | rewrite A3; exact HN | exact K2 | | intros g G; apply TH; right; exact G | rewrite PT; exact ER]. rewrite A4, EQ, xh_pinned. exact XN.
Qed.
Lemma keeps_right : keeps (fun h _ _ => h = 0) rightward.
Proof. intros p z q w h mt R ->. unfold rightward in R. refine (conj eq_refl (conj eq_refl (conj eq_refl _))). intros _. destruct (Z.ltb_spec 0 (fst p - fst q)); [lia | reflexivity]. Qed.
Lemma keeps_left : keeps (fun h _ _ => h = 0 \/ h = 4 \/ h = 6 \/ h = 7) leftward.
Proof. intros p z q w h mt R X. unfold leftward in R. refine (conj X (conj (or_introl eq_refl) (conj (or_introl eq_refl) _))). intros _. destruct (Z.ltb_spec 0 (fst p - fst q)); [| lia]. destruct X as [->|[->|[->| ->]]]; cbn; split; auto. Qed.
Lemma keeps_apart : keeps (fun h mt z => h = 0 /\ mt <= z) apart.
Proof. intros p z q w h mt R [-> M]. unfold apart in R. split; [lia |]. split; [lia |]. split; [lia |]. lia. Qed.
(** The first frame of the only touch *)
Lemma first_touch : forall c s f t u, touches s = [t] -> hyst s = false -> of 0 f u -> u_new u = true -> there 0 f -> begins f = true -> exists t1, touches (step c s f) = [t1] /\ xh t1 = 0 /\ hyst (step c s f) = false /\ mtime (step c s f) = time f /\ Known false (time f) t1.
Proof.
  intros c s f t u T H U NW TF BG. pose proof TF as [u' [U' [NN [NE DD]]]]. rewrite (of_fun _ _ _ _ U' U) in *. clear u' U'. specialize (DD (or_introl NW)).
  destruct (one_touch c s f t u T U) as [m [s0 [s1 [t1 [P [A1 [A2 [A3 [A4 A5]]]]]]]]]. rewrite BG in A2. rewrite H in A1. exists (pinned_if (press f && clickpad c) t1).
  assert (Y : xh t1 = 0 /\ s_hyst s1 = false /\ s_mtime s1 = s_mtime s0).
  { unfold process_touch in P. rewrite NN, DD in P. cbn [negb] in P. set (t0 := enter t u) in *. assert (E0 : hist t0 = [] /\ xh t0 = 0) by (unfold t0, enter; rewrite NW, NE; split; reflexivity). set (ta := if fst (fst (need_reset c s f)) then with_again (reset t0) true else if again t0 then with_again (reset t0) false else t0) in P. assert (EA : hist ta = [] /\ xh ta = 0) by (unfold ta; destruct (fst (fst (need_reset c s f))); [cbn; tauto |]; destruct (again t0); [cbn; tauto | exact E0]). clearbody ta. destruct EA as [EA EB].
    destruct (detect_jumps c ta (time f)) as [j tj] eqn:J. destruct (jumps_keep _ _ _ _ _ J) as [JH [_ [_ [_ [_ [JX _]]]]]]. set (tr := if j then reset tj else tj) in P. assert (ER : hist tr = [] /\ xh tr = 0) by (unfold tr; destruct j; cbn; rewrite ?JH, JX; tauto). clearbody tr. destruct ER as [ER EX]. unfold detect_wobbling in P. rewrite ER, A1 in P. destruct (negb (Nat.eqb (nf f) 1) || negb (Nat.eqb (nf f) (oldn s))); injection P as P1 P2; subst s1; rewrite <- P2; unfold unpin, motion_hysteresis; rewrite A1; cbn [push pinned xh pt pcenter with_pin]; (split; [| split; [first [exact A1 | reflexivity] | reflexivity]]); (destruct (pinned tr); [destruct (Qle_bool _ _) |]); exact EX. }
  destruct Y as [Y1 [Y2 Y3]]. split; [exact A5 |]. split; [rewrite xh_pinned; exact Y1 |]. split; [congruence |]. split; [congruence |].
  assert (T0 : finger 0 s t) by (unfold finger; rewrite T; reflexivity). destruct (frame_cases c s f 0 t u 0 false T0 U TF H (eq_trans A3 Y2) (or_introl NW)) as [t2 [F [K2 _]]]. unfold finger in F. rewrite A5 in F. cbn in F. inversion F; subst. exact K2.
Qed.
