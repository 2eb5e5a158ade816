(** Proofs about pointer acceleration: the curves *)
Require Import Coq.ZArith.ZArith Coq.QArith.QArith Coq.QArith.Qabs Coq.QArith.Qround Coq.QArith.Qfield Coq.Lists.List Coq.Bool.Bool Coq.micromega.Lia Coq.micromega.Lqa.
Require Import Verif.Acc_Model Verif.Acc_Spec.
Import ListNotations.
Open Scope Q_scope.

Lemma qlt_spec : forall a b, qlt a b = true <-> a < b.
Proof. intros. unfold qlt. rewrite negb_true_iff. destruct (Qle_bool b a) eqn:E; [apply Qle_bool_iff in E; split; [discriminate|lra]|]. split; [intros _|reflexivity]. apply Qnot_le_lt. intros H. apply Qle_bool_iff in H. congruence. Qed.
Lemma qlt_false : forall a b, qlt a b = false <-> b <= a.
Proof. intros. unfold qlt. rewrite negb_false_iff. apply Qle_bool_iff. Qed.
Ltac qcases := repeat match goal with
  | |- context[qlt ?a ?b] => let E := fresh "E" in destruct (qlt a b) eqn:E; [apply qlt_spec in E|apply qlt_false in E]
  | |- context[Qle_bool ?a ?b] => let E := fresh "E" in destruct (Qle_bool a b) eqn:E; [apply Qle_bool_iff in E|assert (b < a) by (apply Qnot_le_lt; intros ?X; apply Qle_bool_iff in X; congruence); clear E]
  end.
Lemma qmin_cases : forall a b, (qmin a b == a /\ a <= b) \/ (qmin a b == b /\ b <= a).
Proof. intros. unfold qmin. qcases; [left|right]; split; lra. Qed.
Lemma qmax_cases : forall a b, (qmax a b == a /\ b <= a) \/ (qmax a b == b /\ a <= b).
Proof. intros. unfold qmax. qcases; [left|right]; split; lra. Qed.
Lemma qmin_mono : forall a a' b b', a <= a' -> b <= b' -> qmin a b <= qmin a' b'.
Proof. intros. destruct (qmin_cases a b) as [[-> ?]|[-> ?]], (qmin_cases a' b') as [[-> ?]|[-> ?]]; lra. Qed.
Lemma inv_pos : forall d, (0 < d)%Z -> 0 < / inject_Z d.
Proof. intros. apply Qinv_lt_0_compat. change 0 with (inject_Z 0). rewrite <- Zlt_Qlt. lia. Qed.
Lemma per1000_pos : forall d, (0 < d)%Z -> 0 < per1000 d.
Proof. intros. unfold per1000, Qdiv. pose proof (inv_pos d H). nra. Qed.
Lemma inject_pos : forall d, (0 < d)%Z -> 0 < inject_Z d.
Proof. intros. change 0 with (inject_Z 0). rewrite <- Zlt_Qlt. lia. Qed.
Lemma norm_eq : forall d v, v * DEFAULT_MOUSE_DPI / inject_Z d == v * per1000 d.
Proof. intros. unfold per1000, Qdiv, DEFAULT_MOUSE_DPI. ring. Qed.

(** ** The settings a filter works with *)
Definition set_for (m : math) (f : filter) (s : Q) : Prop :=
  -1 <= s <= 1 /\
  match fk f with
  | Mouse | LowDpi | X230 => acc f == 2 + (15 # 10) * s /\ inc f == (11 # 10) + (75 # 100) * s /\ thr f == qmax (2 # 10000) ((4 # 10000) - (25 # 100000) * s) /\ (0 < dpi f)%Z
  | Touchpad => thr f = 130 /\ fac f = speed_factor m s /\ (0 < dpi f)%Z
  | Trackpoint => fac f = speed_factor m s /\ 0 < mult f
  | Flat => fac f = qmax (5 # 1000) (1 + s)
  | TouchpadFlat => fac f = qmax (5 # 1000) (1 + s)
  | Tablet => fac f = s + 1
  end /\ match fk f with LowDpi => (dpi f < 1000)%Z | _ => True end.
Lemma thr_mono : forall s s', s <= s' -> qmax (2 # 10000) ((4 # 10000) - (25 # 100000) * s') <= qmax (2 # 10000) ((4 # 10000) - (25 # 100000) * s).
Proof. intros. destruct (qmax_cases (2 # 10000) ((4 # 10000) - (25 # 100000) * s')) as [[-> ?]|[-> ?]], (qmax_cases (2 # 10000) ((4 # 10000) - (25 # 100000) * s)) as [[-> ?]|[-> ?]]; lra. Qed.
Lemma thr_range : forall s, -1 <= s <= 1 -> 2 # 10000 <= qmax (2 # 10000) ((4 # 10000) - (25 # 100000) * s) <= 65 # 100000.
Proof. intros. destruct (qmax_cases (2 # 10000) ((4 # 10000) - (25 # 100000) * s)) as [[-> ?]|[-> ?]]; lra. Qed.

(** ** The speed factor of touchpads and trackpoints *)
Lemma pow_nonneg : forall m x, good_math m -> 0 <= x -> 0 <= pow_speed m x /\ 0 <= pow_tp m x.
Proof. intros m x G X. destruct (g_ps m G) as [A B], (g_pt m G) as [C D]. specialize (B 0 x ltac:(lra) X). specialize (D 0 x ltac:(lra) X). lra. Qed.
Lemma hill_mono : forall a b p p', a <= b -> 0 <= p -> p <= p' -> b + (a - b) / (1 + p) <= b + (a - b) / (1 + p').
Proof.
  intros. assert (A : 0 < / (1 + p)) by (apply Qinv_lt_0_compat; lra). assert (B : 0 < / (1 + p')) by (apply Qinv_lt_0_compat; lra).
  assert (/ (1 + p') <= / (1 + p)). { assert (E : / (1 + p) - / (1 + p') == (p' - p) * (/ (1 + p) * / (1 + p'))) by (field; split; lra). set (i := / (1 + p)) in *. set (j := / (1 + p')) in *. clearbody i j. assert (0 <= (p' - p) * (i * j)) by (apply Qmult_le_0_compat; [lra|apply Qmult_le_0_compat; lra]). lra. }
  unfold Qdiv. set (i := / (1 + p)) in *. set (j := / (1 + p')) in *. clearbody i j. nra.
Qed.
Lemma hill_range : forall a b p, a <= b -> 0 <= p -> a <= b + (a - b) / (1 + p) <= b.
Proof.
  intros. assert (A : 0 < / (1 + p)) by (apply Qinv_lt_0_compat; lra). assert (/ (1 + p) <= 1). { assert (E : 1 - / (1 + p) == p * / (1 + p)) by (field; lra). set (i := / (1 + p)) in *. clearbody i. nra. } unfold Qdiv. set (i := / (1 + p)) in *. clearbody i. split; nra.
Qed.
Lemma speed_factor_mono : forall m s s', good_math m -> -1 <= s -> s <= s' -> speed_factor m s <= speed_factor m s'.
Proof.
  intros m s s' G A B. unfold speed_factor. assert (X : 0 <= (s + 1) / (2404549 # 10000)) by (unfold Qdiv; assert (0 < / (2404549 # 10000)) by reflexivity; nra).
  apply hill_mono; [discriminate|apply pow_nonneg; assumption|]. apply (g_ps m G); [exact X|]. unfold Qdiv. assert (0 < / (2404549 # 10000)) by reflexivity. nra.
Qed.
Lemma speed_factor_range : forall m s, good_math m -> -1 <= s -> 4762636 # 100000000 <= speed_factor m s /\ speed_factor m s <= 4358372 # 10.
Proof.
  intros m s G A. unfold speed_factor. assert (X : 0 <= (s + 1) / (2404549 # 10000)) by (unfold Qdiv; assert (0 < / (2404549 # 10000)) by reflexivity; nra). apply hill_range; [discriminate|apply pow_nonneg; assumption].
Qed.

(** ** Monotone and bounded *)
Definition curve (hi th inc v : Q) : Q := qmin hi (if qlt (1000 * v) (7 # 100) then 10 * (1000 * v) + (3 # 10) else if qlt v th then 1 else inc * (1000 * (v - th)) + 1).
Lemma curve_mono : forall hi hi' th th' inc inc' v v', 0 <= v -> v <= v' -> hi <= hi' -> th' <= th -> 0 <= inc -> inc <= inc' -> curve hi th inc v <= curve hi' th' inc' v'.
Proof.
  intros. unfold curve. apply qmin_mono; [assumption|]. qcases; try lra.
  - assert (0 <= inc' * (1000 * (v' - th'))) by (apply Qmult_le_0_compat; lra). lra.
  - assert (0 <= inc' * (1000 * (v' - th'))) by (apply Qmult_le_0_compat; lra). lra.
  - assert (inc * (1000 * (v - th)) <= inc' * (1000 * (v' - th'))) by nra. lra.
Qed.
Lemma curve_range : forall hi th inc v, 0 <= v -> 0 <= inc -> 3 # 10 <= hi -> 3 # 10 <= curve hi th inc v <= hi.
Proof.
  intros. unfold curve. match goal with |- _ <= qmin hi ?x <= _ => assert (3 # 10 <= x) end.
  { qcases; try lra. assert (0 <= inc * (1000 * (v - th))) by (apply Qmult_le_0_compat; lra). lra. }
  match goal with |- _ <= qmin hi ?x <= _ => destruct (qmin_cases hi x) as [[-> ?]|[-> ?]] end; lra.
Qed.
Lemma curve_eq : forall hi hi' th th' inc inc' v v', hi == hi' -> th == th' -> inc == inc' -> v == v' -> 0 <= v -> 0 <= inc -> curve hi th inc v == curve hi' th' inc' v'.
Proof. intros. apply Qle_antisym; apply curve_mono; lra. Qed.
Definition xcurve (hi th inc v : Q) : Q := qmin (hi * 4) (if qlt 1 (1 + (1000 * v - 1000 * (th / 4)) * (inc * 4)) then 1 + (1000 * v - 1000 * (th / 4)) * (inc * 4) else qmin 1 (1000 * v * 5)) * (4 # 10) / 4.
Lemma xcurve_mono : forall hi hi' th th' inc inc' v v', 0 <= v -> v <= v' -> hi <= hi' -> th' <= th -> 0 < inc -> inc <= inc' -> xcurve hi th inc v <= xcurve hi' th' inc' v'.
Proof.
  intros. unfold xcurve. assert (F : forall a b, a <= b -> a * (4 # 10) / 4 <= b * (4 # 10) / 4) by (intros; unfold Qdiv; change (/ 4) with (1 # 4); lra). apply F. apply qmin_mono; [lra|].
  set (w := 1000 * v - 1000 * (th / 4)). set (w' := 1000 * v' - 1000 * (th' / 4)). assert (W : w <= w') by (unfold w, w', Qdiv; change (/ 4) with (1 # 4); lra). clearbody w w'.
  destruct (Qlt_le_dec 0 w) as [P|P].
  - assert (A : 0 < w * (inc * 4)) by (apply Qmult_lt_0_compat; lra). assert (B : w * (inc * 4) <= w' * (inc' * 4)) by (apply Qle_trans with (w' * (inc * 4)); [apply Qmult_le_compat_r; lra|]; rewrite !(Qmult_comm w'); apply Qmult_le_compat_r; lra). qcases; lra.
  - assert (w * (inc * 4) <= 0) by nra. assert (qmin 1 (1000 * v * 5) <= qmin 1 (1000 * v' * 5)) by (apply qmin_mono; lra). assert (qmin 1 (1000 * v * 5) <= 1) by (destruct (qmin_cases 1 (1000 * v * 5)) as [[-> ?]|[-> ?]]; lra). qcases; lra.
Qed.
Lemma xcurve_range : forall hi th inc v, 0 <= v -> 0 < inc -> 0 <= hi -> 0 <= xcurve hi th inc v <= (4 # 10) * hi.
Proof.
  intros. unfold xcurve. set (w := if qlt 1 _ then _ else _). assert (W : 0 <= w). { unfold w. qcases; [lra|]. destruct (qmin_cases 1 (1000 * v * 5)) as [[-> ?]|[-> ?]]; lra. }
  assert (E : forall t, t * (4 # 10) / 4 == t * (1 # 10)) by (intros; unfold Qdiv; change (/ 4) with (1 # 4); ring). rewrite E. destruct (qmin_cases (hi * 4) w) as [[-> ?]|[-> ?]]; lra.
Qed.
Definition tcurve (v : Q) : Q := if qlt v 7 then qmin (9 # 10) ((1 # 10) * v + (3 # 10)) else if qlt v 130 then 9 # 10 else (25 # 10000) * (qmin v (130 * 4) / 130) * (qmin v (130 * 4) - 130) + (9 # 10).
Lemma tcurve_mono : forall v v', 0 <= v -> v <= v' -> tcurve v <= tcurve v'.
Proof.
  intros v v' V0 V. unfold tcurve.
  assert (M : qmin v (130 * 4) <= qmin v' (130 * 4)) by (apply qmin_mono; lra). assert (M2 : 130 <= v' -> 130 <= qmin v' (130 * 4)) by (intros; destruct (qmin_cases v' (130 * 4)) as [[-> ?]|[-> ?]]; lra). assert (M3 : 130 <= v -> 130 <= qmin v (130 * 4)) by (intros; destruct (qmin_cases v (130 * 4)) as [[-> ?]|[-> ?]]; lra).
  set (a := qmin v (130 * 4)) in *. set (b := qmin v' (130 * 4)) in *. clearbody a b. unfold Qdiv. change (/ 130) with (1 # 130).
  assert (L : qmin (9 # 10) ((1 # 10) * v + (3 # 10)) <= 9 # 10) by (destruct (qmin_cases (9 # 10) ((1 # 10) * v + (3 # 10))) as [[-> ?]|[-> ?]]; lra).
  assert (L2 : qmin (9 # 10) ((1 # 10) * v + (3 # 10)) <= qmin (9 # 10) ((1 # 10) * v' + (3 # 10))) by (apply qmin_mono; lra).
  destruct (qlt v 7) eqn:A; [apply qlt_spec in A|apply qlt_false in A]; (destruct (qlt v' 7) eqn:B; [apply qlt_spec in B|apply qlt_false in B]); try lra.
  - destruct (qlt v' 130) eqn:C; [lra|apply qlt_false in C]. specialize (M2 C). nra.
  - destruct (qlt v 130) eqn:C; [apply qlt_spec in C|apply qlt_false in C]; (destruct (qlt v' 130) eqn:D; [apply qlt_spec in D|apply qlt_false in D]); try lra.
    + specialize (M2 D). nra.
    + specialize (M2 D). specialize (M3 C). nra.
Qed.
Lemma tcurve_range : forall v, 0 <= v -> 3 # 10 <= tcurve v <= 48 # 10.
Proof.
  intros. split.
  - apply Qle_trans with (tcurve 0); [vm_compute; discriminate|apply tcurve_mono; lra].
  - destruct (Qlt_le_dec v 520) as [L|L]; [apply Qle_trans with (tcurve 520); [apply tcurve_mono; lra|vm_compute; discriminate]|]. unfold tcurve. qcases; try lra. destruct (qmin_cases v (130 * 4)) as [[A ?]|[A ?]]; rewrite A; [assert (v == 520) by lra; rewrite H1; vm_compute; discriminate|vm_compute; discriminate].
Qed.

Lemma profile_mouse_curve : forall f v, profile_mouse f v = curve (acc f) (thr f) (inc f) (v * DEFAULT_MOUSE_DPI / inject_Z (dpi f)).
Proof. reflexivity. Qed.
Lemma profile_low_curve : forall f v, profile_low_dpi f v = curve (acc f / (inject_Z (dpi f) / DEFAULT_MOUSE_DPI)) (thr f * (inject_Z (dpi f) / DEFAULT_MOUSE_DPI)) (inc f) v.
Proof. reflexivity. Qed.
Lemma profile_x230_curve : forall f v, profile_x230 f v = xcurve (acc f) (thr f) (inc f) (v * ((4 # 10) / 4)).
Proof. reflexivity. Qed.
Lemma profile_touchpad_curve : forall f v, thr f = 130 -> profile_touchpad f v = tcurve (1000000 * v * (254 # 10) / inject_Z (dpi f)) * fac f * (2968 # 10000).
Proof. intros f v T. unfold profile_touchpad. rewrite T. reflexivity. Qed.

(** The setting and the speed never work against the motion: faster motion or a higher setting never gives a smaller factor *)
Lemma profile_mono : forall m f f' s s' v v', good_math m -> set_for m f s -> set_for m f' s' -> fk f = fk f' -> dpi f = dpi f' -> s <= s' -> 0 <= v -> v <= v' ->
  profile m f v <= profile m f' v'.
Proof.
  intros m f f' s s' v v' G (R & S & DL) (R' & S' & DL') K D L V0 V. unfold profile. rewrite <- K in *. destruct (fk f).
  - destruct S as (A & I & T & P), S' as (A' & I' & T' & P'). rewrite !profile_mouse_curve, <- D. pose proof (inv_pos _ P) as IP. apply curve_mono; rewrite ?A, ?A', ?I, ?I', ?T, ?T'; try lra.
    + unfold Qdiv, DEFAULT_MOUSE_DPI. apply Qmult_le_0_compat; lra.
    + unfold Qdiv, DEFAULT_MOUSE_DPI. nra.
    + apply thr_mono, L.
  - destruct S as (A & I & T & P), S' as (A' & I' & T' & P'). rewrite !profile_low_curve, <- D. pose proof (inject_pos _ P) as IP. assert (IQ : 0 < inject_Z (dpi f) / DEFAULT_MOUSE_DPI) by (unfold Qdiv, DEFAULT_MOUSE_DPI; change (/ 1000) with (1 # 1000); lra).
    pose proof (Qinv_lt_0_compat _ IQ) as IR. apply curve_mono; rewrite ?A, ?A', ?I, ?I', ?T, ?T'; try lra.
    + unfold Qdiv at 1. unfold Qdiv at 2. nra.
    + pose proof (thr_mono s s' L). nra.
  - destruct S as (A & I & T & P), S' as (A' & I' & T' & P'). rewrite !profile_x230_curve. change ((4 # 10) / 4) with (4 # 40). apply xcurve_mono; rewrite ?A, ?A', ?I, ?I', ?T, ?T'; try lra. apply thr_mono, L.
  - destruct S as (T & F & P), S' as (T' & F' & P'). rewrite !profile_touchpad_curve by assumption. rewrite F, F', <- D. pose proof (inv_pos _ P) as IP. pose proof (speed_factor_mono m s s' G ltac:(lra) L) as SF. pose proof (speed_factor_range m s G ltac:(lra)) as SR.
    set (a := 1000000 * v * (254 # 10) / inject_Z (dpi f)). set (b := 1000000 * v' * (254 # 10) / inject_Z (dpi f)). assert (0 <= a) by (unfold a, Qdiv; apply Qmult_le_0_compat; lra). assert (a <= b) by (unfold a, b, Qdiv; nra).
    pose proof (tcurve_mono a b ltac:(assumption) ltac:(assumption)) as TM. pose proof (tcurve_range a ltac:(assumption)). apply Qmult_le_compat_r; [|discriminate]. nra.
  - destruct S as (F & P), S' as (F' & P'). unfold profile_trackpoint. rewrite F, F'. pose proof (speed_factor_mono m s s' G ltac:(lra) L) as SF. pose proof (speed_factor_range m s G ltac:(lra)) as SR.
    set (a := 1000 * v / (9205459 # 10000000)). set (b := 1000 * v' / (9205459 # 10000000)). assert (IP : 0 < / (9205459 # 10000000)) by reflexivity. assert (A0 : 0 <= a) by (unfold a, Qdiv; apply Qmult_le_0_compat; lra). assert (AB : a <= b) by (unfold a, b, Qdiv; nra).
    pose proof (pow_nonneg m a G A0) as [_ PN]. assert (PM : pow_tp m a <= pow_tp m b) by (apply (g_pt m G); assumption). pose proof (hill_mono (3 # 10) (1006254 # 100000) _ _ ltac:(discriminate) PN PM) as HM. pose proof (hill_range (3 # 10) (1006254 # 100000) _ ltac:(discriminate) PN) as HR. nra.
  - rewrite S, S'. destruct (qmax_cases (5 # 1000) (1 + s)) as [[-> ?]|[-> ?]], (qmax_cases (5 # 1000) (1 + s')) as [[-> ?]|[-> ?]]; lra.
  - rewrite S, S'. destruct (qmax_cases (5 # 1000) (1 + s)) as [[-> ?]|[-> ?]], (qmax_cases (5 # 1000) (1 + s')) as [[-> ?]|[-> ?]]; lra.
  - rewrite S, S'. lra.
Qed.
(** The range of the curve itself *)
Definition low_of (m : math) (k : kind) (s : Q) : Q :=
  match k with Mouse | LowDpi => 3 # 10 | X230 => 0 | Touchpad => (3 # 10) * speed_factor m s * (2968 # 10000) | Trackpoint => (3 # 10) * speed_factor m s | Tablet => s + 1 | _ => qmax (5 # 1000) (1 + s) end.
Definition high_of (m : math) (k : kind) (d : Z) (s : Q) : Q :=
  match k with Mouse => 2 + (15 # 10) * s | LowDpi => (2 + (15 # 10) * s) * per1000 d | X230 => (4 # 10) * (2 + (15 # 10) * s) | Touchpad => (48 # 10) * speed_factor m s * (2968 # 10000)
  | Trackpoint => (1006254 # 100000) * speed_factor m s | Tablet => s + 1 | _ => qmax (5 # 1000) (1 + s) end.
Lemma profile_range : forall m f s v, good_math m -> set_for m f s -> 0 <= v -> low_of m (fk f) s <= profile m f v <= high_of m (fk f) (dpi f) s.
Proof.
  intros m f s v G (R & S & DL) V. unfold profile, low_of, high_of. destruct (fk f).
  - destruct S as (A & I & T & P). rewrite profile_mouse_curve. pose proof (inv_pos _ P) as IP. rewrite <- A. apply curve_range; rewrite ?A, ?I; try lra. unfold Qdiv, DEFAULT_MOUSE_DPI. apply Qmult_le_0_compat; lra.
  - destruct S as (A & I & T & P). rewrite profile_low_curve. pose proof (inject_pos _ P) as IP. assert (H : acc f / (inject_Z (dpi f) / DEFAULT_MOUSE_DPI) == (2 + (15 # 10) * s) * per1000 (dpi f)) by (rewrite A; unfold per1000, DEFAULT_MOUSE_DPI; field; lra).
    assert (PD : 1 <= per1000 (dpi f)). { unfold per1000. apply Qle_shift_div_l; [exact IP|]. rewrite Qmult_1_l. change 1000 with (inject_Z 1000). rewrite <- Zle_Qle. lia. }
    rewrite <- H. apply curve_range; rewrite ?I; try lra. rewrite H. nra.
  - destruct S as (A & I & T & P). rewrite profile_x230_curve. rewrite <- A. change ((4 # 10) / 4) with (4 # 40). apply xcurve_range; rewrite ?A, ?I; lra.
  - destruct S as (T & F & P). rewrite profile_touchpad_curve by assumption. rewrite F. pose proof (inv_pos _ P) as IP. pose proof (speed_factor_range m s G ltac:(lra)) as SR. set (a := 1000000 * v * (254 # 10) / inject_Z (dpi f)). assert (0 <= a) by (unfold a, Qdiv; apply Qmult_le_0_compat; lra).
    pose proof (tcurve_range a ltac:(assumption)). split; (apply Qmult_le_compat_r; [|discriminate]); nra.
  - destruct S as (F & P). unfold profile_trackpoint. rewrite F. pose proof (speed_factor_range m s G ltac:(lra)) as SR. set (a := 1000 * v / (9205459 # 10000000)). assert (IP : 0 < / (9205459 # 10000000)) by reflexivity. assert (A0 : 0 <= a) by (unfold a, Qdiv; apply Qmult_le_0_compat; lra).
    pose proof (pow_nonneg m a G A0) as [_ PN]. pose proof (hill_range (3 # 10) (1006254 # 100000) _ ltac:(discriminate) PN) as HR. split; nra.
  - rewrite S. lra.
  - rewrite S. lra.
  - rewrite S. lra.
Qed.
Lemma simpsons_range : forall m f s v w, good_math m -> set_for m f s -> 0 <= v -> 0 <= w -> low_of m (fk f) s <= simpsons m f v w <= high_of m (fk f) (dpi f) s.
Proof.
  intros m f s v w G S V W. unfold simpsons. assert (H : 0 <= (w + v) / 2) by (unfold Qdiv; change (/ 2) with (1 # 2); lra). pose proof (profile_range m f s v G S V). pose proof (profile_range m f s w G S W). pose proof (profile_range m f s _ G S H).
  set (a := profile m f v) in *. set (b := profile m f w) in *. set (c := profile m f ((w + v) / 2)) in *. clearbody a b c. unfold Qdiv. change (/ 6) with (1 # 6). split; lra.
Qed.
