(** * Motion of a finger on a touchpad: histories *)
Require Import Coq.ZArith.ZArith Coq.QArith.QArith Coq.Lists.List Coq.Bool.Bool Coq.micromega.Lia Coq.micromega.Lqa.
Require Import Verif.Jit_Model Verif.Jit_Spec Verif.Jit_Proofs Verif.Jit_Proofs2.
Import ListNotations.
Open Scope Z_scope.

Lemma hyst_before : forall c s l f, hyst (run c s (l ++ [f])) = hyst s -> hyst (run c s l) = hyst s.
Proof. intros c s l f H. rewrite run_app in H. cbn in H. destruct (hyst s) eqn:E; [apply run_mono; exact E |]. destruct (hyst (run c s l)) eqn:E2; [| reflexivity]. change (fold_left (step c) l s) with (run c s l) in H. rewrite (step_mono c _ f E2) in H. discriminate. Qed.
(** The last frame of a stretch *)
Lemma last_frame : forall c i l f s, stays i (l ++ [f]) -> l <> [] -> (exists t, finger i s t) -> hyst (run c s (l ++ [f])) = hyst s ->
  exists t t1 u, finger i (run c s l) t /\ finger i (run c s (l ++ [f])) t1 /\ of i f u /\ Known (hyst s) (last_time l) t /\ Known (hyst s) (time f) t1 /\
    (restarts c (time f) t u t1 \/ fst (fst (need_reset c (run c s l) f)) = false /\ moves c (time f) (hyst s) t u t1).
Proof.
  intros c i l f s S N T H. pose proof (hyst_before _ _ _ _ H) as HB. destruct (stays_snoc i l f S N) as [S1 [u [U X]]]. destruct (stays_known c i l s S1 T HB) as [t [F K]].
  rewrite run_app in *. cbn [run fold_left] in *. destruct (frame_cases c _ f i t u (last_time l) (hyst s) F U (ex_intro _ u (conj U X)) HB H (or_intror K)) as [t1 [F1 [K1 C]]]. exists t, t1, u. tauto.
Qed.
Lemma restarts_delta : forall c z t u t1, restarts c z t u t1 -> delta t1 = (0, 0).
Proof. intros c z t u t1 [R _]. unfold delta. rewrite R. reflexivity. Qed.
Lemma moves_delta : forall c z h w t u t1, moves c z h t u t1 -> Known h w t -> delta t1 = sub (pt t1) (pt t).
Proof. intros c z h w t u t1 [_ [_ [H _]]] [[r K] _]. unfold delta. rewrite H, K. cbn. reflexivity. Qed.

(** ** Sizes *)
Lemma sq_nonneg : forall x : Q, (0 <= x * x)%Q.
Proof. intro x. nra. Qed.
Lemma at_most_zero : forall c v td, (0 < rx c)%Z -> (0 < ry c)%Z -> at_most c v (0, 0) td.
Proof. intros c v td A B. unfold at_most. cbn [fst snd]. assert (E : forall z, (inject_Z 0 / inject_Z z == 0)%Q) by (intro z; unfold Qdiv; apply Qmult_0_l). rewrite !E. pose proof (sq_nonneg (v * (inject_Z td / 12000))%Q). lra. Qed.
Lemma Qltb_false : forall a b, Qltb a b = false -> (b <= a)%Q.
Proof. intros a b H. unfold Qltb in H. apply negb_false_iff in H. apply Qle_bool_iff. exact H. Qed.
Lemma Qltb_of_le : forall a b, (b <= a)%Q -> Qltb a b = false.
Proof. intros a b H. unfold Qltb. apply negb_false_iff. apply Qle_bool_iff. exact H. Qed.
Lemma mmsq_nonneg : forall c p q, (0 <= mmsq c p q)%Q.
Proof. intros. unfold mmsq. cbv zeta. pose proof (sq_nonneg (inject_Z (fst p - fst q) / inject_Z (rx c))%Q). pose proof (sq_nonneg (inject_Z (snd p - snd q) / inject_Z (ry c))%Q). lra. Qed.
Lemma scale_ : forall td, 0 < td -> exists g f : Q, (g == inject_Z td / 12000)%Q /\ (f == inject_Z 12000 / inject_Z td)%Q /\ (g * f == 1)%Q /\ (0 < g)%Q /\ (0 < f)%Q.
Proof.
  intros td H. assert (P : (0 < inject_Z td)%Q) by (change 0%Q with (inject_Z 0); rewrite <- Zlt_Qlt; exact H). exists (inject_Z td / 12000)%Q, (inject_Z 12000 / inject_Z td)%Q. split; [reflexivity |]. split; [reflexivity |]. split; [change (inject_Z 12000) with 12000%Q; field; lra |]. split.
  - apply Qlt_shift_div_l; [reflexivity | lra].
  - apply Qlt_shift_div_l; [exact P |]. change (inject_Z 12000) with 12000%Q. lra.
Qed.
Lemma at_most_of : forall c p q v td, 0 < td -> (mmsq c p q * ((inject_Z 12000 / inject_Z td) * (inject_Z 12000 / inject_Z td)) <= v * v)%Q -> at_most c v (sub p q) td.
Proof.
  intros c p q v td H A. destruct (scale_ td H) as [g [f [G [F [GF [G0 F0]]]]]]. unfold at_most. cbn [sub fst snd]. change ((inject_Z (fst p - fst q) / inject_Z (rx c)) * (inject_Z (fst p - fst q) / inject_Z (rx c)) + (inject_Z (snd p - snd q) / inject_Z (ry c)) * (inject_Z (snd p - snd q) / inject_Z (ry c)))%Q with (mmsq c p q). rewrite <- G. rewrite <- F in A. pose proof (mmsq_nonneg c p q). set (m := mmsq c p q) in *. clearbody m.
  assert (X : (m == m * (f * f) * (g * g))%Q) by (transitivity (m * ((g * f) * (g * f)))%Q; [rewrite GF; ring | ring]). rewrite X. apply (Qle_trans _ (v * v * (g * g))%Q); [apply Qmult_le_compat_r; [exact A | apply sq_nonneg] | apply Qle_lteq; right; ring].
Qed.
Lemma at_most_to : forall c p q v td, 0 < td -> at_most c v (sub p q) td -> (mmsq c p q * ((inject_Z 12000 / inject_Z td) * (inject_Z 12000 / inject_Z td)) <= v * v)%Q.
Proof.
  intros c p q v td H A. destruct (scale_ td H) as [g [f [G [F [GF [G0 F0]]]]]]. unfold at_most in A. cbn [sub fst snd] in A. change ((inject_Z (fst p - fst q) / inject_Z (rx c)) * (inject_Z (fst p - fst q) / inject_Z (rx c)) + (inject_Z (snd p - snd q) / inject_Z (ry c)) * (inject_Z (snd p - snd q) / inject_Z (ry c)))%Q with (mmsq c p q) in A. rewrite <- G in A. rewrite <- F. pose proof (mmsq_nonneg c p q). set (m := mmsq c p q) in *. clearbody m.
  apply (Qle_trans _ (v * g * (v * g) * (f * f))%Q); [apply Qmult_le_compat_r; [exact A | apply sq_nonneg] |]. apply Qle_lteq; right. transitivity (v * v * ((g * f) * (g * f)))%Q; [ring | rewrite GF; ring].
Qed.
Lemma between_sq : forall a b v, between a b v -> (v - a) * (v - a) <= (b - a) * (b - a).
Proof. intros a b v H. unfold between in H. nia. Qed.
Lemma at_most_smaller : forall c v td p q r, 0 < rx c -> 0 < ry c -> between (fst p) (fst q) (fst r) -> between (snd p) (snd q) (snd r) -> at_most c v (sub q p) td -> at_most c v (sub r p) td.
Proof.
  intros c v td p q r RX RY X Y A. unfold at_most in *. cbn [sub fst snd] in *. refine (Qle_trans _ _ _ _ A).
  assert (G : forall a b z, 0 < z -> a * a <= b * b -> (inject_Z a / inject_Z z * (inject_Z a / inject_Z z) <= inject_Z b / inject_Z z * (inject_Z b / inject_Z z))%Q).
  { intros a b z Z0 L. assert (P : (0 < inject_Z z)%Q) by (change 0%Q with (inject_Z 0); rewrite <- Zlt_Qlt; exact Z0). assert (L2 : (inject_Z a * inject_Z a <= inject_Z b * inject_Z b)%Q) by (rewrite <- !inject_Z_mult; rewrite <- Zle_Qle; exact L). unfold Qdiv. pose proof (sq_nonneg (/ inject_Z z)%Q) as S. apply (Qle_trans _ (inject_Z a * inject_Z a * (/ inject_Z z * / inject_Z z))%Q); [apply Qle_lteq; right; ring |]. apply (Qle_trans _ (inject_Z b * inject_Z b * (/ inject_Z z * / inject_Z z))%Q); [apply Qmult_le_compat_r; assumption | apply Qle_lteq; right; ring]. }
  apply Qplus_le_compat; apply G; try assumption; apply between_sq; assumption.
Qed.

(** No jump was found *)
Lemma no_jump_found : forall c t now tj p z r, detect_jumps c t now = (false, tj) -> nojump c = false -> testdev c = false -> hist t = (p, z) :: r -> 0 < now - z <= 30000 ->
  let a := (mmsq c (pt t) p * ((inject_Z 12000 / inject_Z (now - z)) * (inject_Z 12000 / inject_Z (now - z))))%Q in
  (a <= 400)%Q /\ grew a (dsq t) = false /\ dsq tj = a /\ ~ (alps c = true /\ pt t = (4095, 0)).
Proof.
  intros c t now tj p z r E NJ TD H T. unfold detect_jumps in E. rewrite NJ, H, TD in E. cbv zeta in E. destruct (Z.ltb_spec (5 * 12000) (2 * (now - z))); [lia |]. destruct (Z.eqb_spec (now - z) 0); [lia |]. cbn [orb] in E. destruct (alps c && _ && _) eqn:AL; [discriminate |]. injection E as E1 E2. apply orb_false_iff in E1. destruct E1 as [E1 E3]. cbv zeta. split; [apply Qltb_false; exact E1 |]. split; [exact E3 |]. split; [rewrite <- E2; reflexivity |]. intros [A1 A2]. rewrite A1, A2 in AL. discriminate.
Qed.
Lemma slow_no_jump : forall c t now p z r, nojump c = false -> testdev c = false -> alps c = false -> hist t = (p, z) :: r -> (0 <= dsq t)%Q -> (now = z \/ 30000 < now - z \/ 0 < now - z /\ at_most c 7 (sub (pt t) p) (now - z)) -> exists tj, detect_jumps c t now = (false, tj).
Proof.
  intros c t now p z r NJ TD AL H D S. unfold detect_jumps. rewrite NJ, H, TD, AL. cbv zeta. cbn [andb]. destruct (Z.ltb_spec (5 * 12000) (2 * (now - z))) as [L|L]; [eexists; reflexivity |]. destruct (Z.eqb_spec (now - z) 0) as [M|M]; [eexists; reflexivity |]. cbn [orb]. destruct S as [S|[S|[S1 S2]]]; [lia | lia |]. apply (at_most_to c (pt t) p 7 (now - z) S1) in S2. set (a := (mmsq c (pt t) p * _)%Q) in *. eexists. f_equal. apply orb_false_iff. split; [apply Qltb_of_le; lra |]. unfold grew. apply andb_false_iff. left. apply Qltb_of_le. lra.
Qed.
Lemma not_grew : forall a b v, (0 <= b)%Q -> (0 <= v)%Q -> (b <= v * v)%Q -> grew a b = false -> (a <= (v + 7) * (v + 7))%Q.
Proof.
  intros a b v B V L G. unfold grew in G. apply andb_false_iff in G. destruct G as [G|G]; apply Qltb_false in G; [nra |]. destruct (Qlt_le_dec ((v + 7) * (v + 7)) a) as [X|X]; [| exact X]. exfalso. assert (Y : (14 * v < a - b - 49)%Q) by nra. nra.
Qed.

(** ** The square of the last distance *)
Definition Dist (c : cfg) (t : touch) : Prop := nojump c = false -> (0 <= dsq t)%Q.
Lemma dsq_touch : forall c n old rst m now s t u s1 t1, process_touch c n old rst m now s t u = (s1, t1) -> u_none u = false ->
  (u_dirty u = false -> dsq t1 = dsq t) /\
  (u_dirty u = true -> nojump c = false -> hist (enter t u) = [] \/ rst = true \/ again (enter t u) = true -> dsq t1 = 0%Q) /\
  ((0 <= dsq t)%Q -> (0 <= dsq t1)%Q) /\ (rst = true -> again t1 = true) /\ (rst = false -> again t1 = false).
Proof.
  intros c n old rst m now s t u s1 t1 E NU. unfold process_touch in E. rewrite NU in E. set (t0 := enter t u) in *.
  assert (D0 : dsq t0 = dsq t). { unfold t0, enter. destruct (u_new u), (u_end u); cbn; try reflexivity. destruct (hist t) as [|[p z] r]; reflexivity. }
  set (ta := if rst then with_again (reset t0) true else if again t0 then with_again (reset t0) false else t0) in E.
  assert (DA : dsq ta = dsq t0) by (unfold ta; destruct rst; [reflexivity |]; destruct (again t0); reflexivity).
  assert (HA : hist t0 = [] \/ rst = true \/ again t0 = true -> hist ta = []). { unfold ta. intros [X|[X|X]]; [destruct rst; [reflexivity |]; destruct (again t0); [reflexivity | exact X] | rewrite X; reflexivity | rewrite X; destruct rst; reflexivity]. }
  assert (AA : again ta = rst) by (unfold ta; destruct rst; [reflexivity |]; destruct (again t0) eqn:X; [reflexivity | exact X]).
  clearbody ta. destruct (u_dirty u); cbn [negb] in E.
  - destruct (detect_jumps c ta now) as [j tj] eqn:J. destruct (jumps_keep _ _ _ _ _ J) as [JH [_ [JA _]]]. destruct (detect_wobbling n old m s (if j then reset tj else tj) now) as [s2 t4] eqn:W. destruct (wobbling_touch _ _ _ _ _ _ _ _ W) as [WT _]. injection E as E1 E2. destruct (mh_fields c (s_hyst s2) t4) as [_ [MA [MD _]]]. destruct (unpin_fields c (push (motion_hysteresis c (s_hyst s2) t4) now)) as [_ [_ [_ [UA UD]]]]. rewrite E2 in UA, UD. cbn [push dsq again] in UA, UD.
    assert (X : dsq t1 = dsq tj /\ again t1 = rst). { rewrite UD, MD, UA, MA, WT. cbn. destruct j; cbn; rewrite JA, AA; split; reflexivity. } destruct X as [X1 X2]. rewrite X2.
    split; [discriminate |]. split; [| split; [| split; tauto]].
    + intros _ NJ H. rewrite X1. unfold detect_jumps in J. rewrite NJ, (HA H) in J. inversion J; subst; reflexivity.
    + intro H. rewrite X1. unfold detect_jumps in J. destruct (nojump c); [inversion J; subst; rewrite DA, D0; exact H |]. destruct (hist ta) as [|[p z] r]; [inversion J; subst; cbn; lra |]. cbv zeta in J. destruct (_ || Z.eqb (now - z) 0); [inversion J; subst; rewrite DA, D0; exact H |]. destruct (alps c && _ && _); [inversion J; subst; cbn; rewrite DA, D0; exact H |]. inversion J; subst. cbn. pose proof (mmsq_nonneg c (pt ta) p). pose proof (sq_nonneg (inject_Z (if testdev c then now - z else 12000) / inject_Z (now - z))%Q). apply Qmult_le_0_compat; assumption.
  - injection E as E1 E2. rewrite <- E2. cbn. rewrite DA, D0, AA. split; [reflexivity |]. split; [discriminate |]. split; [tauto |]. split; intro R; exact R.
Qed.
Lemma of_fun : forall i f u v, of i f u -> of i f v -> u = v.
Proof. unfold of. congruence. Qed.
Lemma finger_fun : forall i s t v, finger i s t -> finger i s v -> t = v.
Proof. unfold finger. congruence. Qed.
(** [step_nth] and [dsq_touch] together *)
Lemma dsq_step : forall c s f i t u, finger i s t -> of i f u -> u_none u = false -> exists t1, finger i (step c s f) t1 /\
  (u_dirty u = false -> dsq t1 = dsq t) /\
  (u_dirty u = true -> nojump c = false -> u_new u = true \/ fst (fst (need_reset c s f)) = true \/ again t = true -> dsq t1 = 0%Q) /\
  ((0 <= dsq t)%Q -> (0 <= dsq t1)%Q) /\ again t1 = fst (fst (need_reset c s f)).
Proof.
  intros c s f i t u T U NU. destruct (step_nth c s f i t u T U) as [m [s0 [s1 [t1 [P [F [A B]]]]]]]. exists (pinned_if (press f && clickpad c) t1). split; [exact F |]. destruct (pin_fields (press f && clickpad c) t1) as [_ [_ [_ [Q1 [Q2 _]]]]]. rewrite Q1, Q2. destruct (dsq_touch _ _ _ _ _ _ _ _ _ _ _ P NU) as [D1 [D2 [D3 [D4 D5]]]]. split; [exact D1 |]. split; [| split; [exact D3 |]; destruct (fst (fst (need_reset c s f))); auto]. intros D NJ H. apply D2; [exact D | exact NJ |]. destruct H as [H|[H|H]]; [| tauto |].
  - left. unfold enter. rewrite H. destruct (u_end u); reflexivity.
  - right. right. unfold enter. destruct (u_new u), (u_end u); cbn; try exact H. destruct (hist t) as [|[p z] r]; exact H.
Qed.
