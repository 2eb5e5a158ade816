(** * Motion of a finger on a touchpad: proofs *)
Require Import Coq.ZArith.ZArith Coq.QArith.QArith Coq.Lists.List Coq.Bool.Bool Coq.micromega.Lia Coq.micromega.Lqa.
Require Import Verif.Jit_Model Verif.Jit_Spec.
Import ListNotations.
Open Scope Z_scope.

(** ** Hysteresis *)
Lemma down_spec : forall n d, 0 <= n -> 0 < d -> 0 <= down n d /\ down n d * down n d * d <= n < (down n d + 1) * (down n d + 1) * d.
Proof.
  intros n d N D. unfold down. assert (Q : 0 <= n / d) by (apply Z.div_pos; lia). pose proof (Z.sqrt_spec (n / d) Q) as [A B]. pose proof (Z.sqrt_nonneg (n / d)). set (r := Z.sqrt (n / d)) in *.
  pose proof (Z.div_mod n d ltac:(lia)). pose proof (Z.mod_pos_bound n d D). split; [exact H |]. split; [nia |]. assert (n / d + 1 <= Z.succ r * Z.succ r) by lia. nia.
Qed.
Lemma up_spec : forall n d, 0 <= n -> 0 < d -> 0 <= up_ n d /\ n <= up_ n d * up_ n d * d /\ (up_ n d = 0 \/ (up_ n d - 1) * (up_ n d - 1) * d < n) /\ (up_ n d = down n d \/ up_ n d = down n d + 1).
Proof.
  intros n d N D. destruct (down_spec n d N D) as [A [B C]]. unfold up_. set (r := down n d) in *. clearbody r. destruct (Z.eqb_spec (r * r * d) n) as [E|E].
  - split; [lia |]. split; [rewrite E; lia |]. split; [| left; reflexivity]. destruct (Z.eq_dec r 0); [left; assumption | right; nia].
  - split; [lia |]. split; [lia |]. split; [| right; reflexivity]. right. replace (r + 1 - 1) with r by lia. lia.
Qed.
Lemma up_le : forall n d k, 0 <= n -> 0 < d -> 0 <= k -> n <= k * k * d -> up_ n d <= k.
Proof. intros n d k N D K H. destruct (up_spec n d N D) as [A [B [C _]]]. destruct C as [C|C]; [lia |]. destruct (Z_le_gt_dec (up_ n d) k); [assumption |]. exfalso. assert (k * k * d <= (up_ n d - 1) * (up_ n d - 1) * d) by (apply Z.mul_le_mono_nonneg_r; nia). lia. Qed.
Lemma minus_spec : forall v n d, 0 <= n -> 0 < d -> exists e, minus v n d = v - e /\ 0 <= e <= up_ n d.
Proof. intros v n d N D. destruct (up_spec n d N D) as [A [_ [_ B]]]. destruct (down_spec n d N D) as [C _]. unfold minus. destruct (Z.leb _ _); eexists; (split; [reflexivity |]); lia. Qed.
Lemma plus_spec : forall v n d, 0 <= n -> 0 < d -> exists e, plus v n d = v + e /\ 0 <= e <= up_ n d.
Proof. intros v n d N D. destruct (up_spec n d N D) as [A [_ [_ B]]]. destruct (down_spec n d N D) as [C _]. unfold plus. destruct (Z.leb _ _); eexists; (split; [reflexivity |]); lia. Qed.
Definition lag (dx n a b : Z) : Z := up_ (dx * dx * (a * a * (b * b))) n.
Lemma hysteresis_spec : forall a b i c, 0 <= a -> 0 <= b -> between (fst c) (fst i) (fst (hysteresis a b i c)) /\ between (snd c) (snd i) (snd (hysteresis a b i c)).
Proof.
  intros a b [ix iy] [cx cy] A B. unfold hysteresis, between. cbn [fst snd]. destruct (Z.eqb_spec a 0) as [NA|NA]; [cbn; lia |]. destruct (Z.eqb_spec b 0) as [NB|NB]; [cbn; lia |]. cbn [orb]. set (dx := ix - cx). set (dy := iy - cy). set (n := dx * dx * (b * b) + dy * dy * (a * a)). destruct (Z.ltb_spec n (a * a * (b * b))); [cbn; lia |]. cbn [fst snd].
  assert (AB : 0 < a * a * (b * b)) by nia. assert (D : 0 < n) by lia.
  assert (X : forall d, d * d * (a * a * (b * b)) <= d * d * n) by (intro d; apply Z.mul_le_mono_nonneg_l; nia).
  split.
  - destruct (Z.leb_spec 0 dx).
    + destruct (minus_spec ix (dx * dx * (a * a * (b * b))) n ltac:(nia) D) as [e [-> E]]. pose proof (up_le (dx * dx * (a * a * (b * b))) n dx ltac:(nia) D ltac:(lia) (X dx)). lia.
    + destruct (plus_spec ix (dx * dx * (a * a * (b * b))) n ltac:(nia) D) as [e [-> E]]. pose proof (up_le (dx * dx * (a * a * (b * b))) n (- dx) ltac:(nia) D ltac:(lia) ltac:(replace (- dx * - dx) with (dx * dx) by ring; apply X)). lia.
  - destruct (Z.leb_spec 0 dy).
    + destruct (minus_spec iy (dy * dy * (a * a * (b * b))) n ltac:(nia) D) as [e [-> E]]. pose proof (up_le (dy * dy * (a * a * (b * b))) n dy ltac:(nia) D ltac:(lia) (X dy)). lia.
    + destruct (plus_spec iy (dy * dy * (a * a * (b * b))) n ltac:(nia) D) as [e [-> E]]. pose proof (up_le (dy * dy * (a * a * (b * b))) n (- dy) ltac:(nia) D ltac:(lia) ltac:(replace (- dy * - dy) with (dy * dy) by ring; apply X)). lia.
Qed.
Lemma lag_sq : forall a b d n e, 0 < n -> 0 <= e <= up_ (d * d * (a * a * (b * b))) n -> let k := Z.max 0 (e - 1) in k * k * n <= d * d * (a * a * (b * b)).
Proof.
  intros a b d n e N E k. assert (P : 0 <= d * d * (a * a * (b * b))) by nia. destruct (up_spec (d * d * (a * a * (b * b))) n P N) as [A [_ [C _]]]. destruct C as [C|C]; [replace k with 0 by lia; lia |].
  assert (0 <= k <= up_ (d * d * (a * a * (b * b))) n - 1 \/ k = 0) as [K|K] by lia; [| rewrite K; lia]. assert (k * k * n <= (up_ (d * d * (a * a * (b * b))) n - 1) * (up_ (d * d * (a * a * (b * b))) n - 1) * n) by (apply Z.mul_le_mono_nonneg_r; nia). lia.
Qed.
Lemma hysteresis_lag : forall a b i c, 0 < a -> 0 < b -> let r := hysteresis a b i c in
  let ex := Z.max 0 (Z.abs (fst i - fst r) - 1) in let ey := Z.max 0 (Z.abs (snd i - snd r) - 1) in ex * ex * (b * b) + ey * ey * (a * a) <= a * a * (b * b).
Proof.
  intros a b [ix iy] [cx cy] A B. unfold hysteresis. cbn [fst snd]. destruct (Z.eqb_spec a 0) as [NA|NA]; [lia |]. destruct (Z.eqb_spec b 0) as [NB|NB]; [lia |]. cbn [orb]. set (dx := ix - cx). set (dy := iy - cy). set (n := dx * dx * (b * b) + dy * dy * (a * a)). destruct (Z.ltb_spec n (a * a * (b * b))).
  - cbn [fst snd]. fold dx dy. assert (X : forall d, Z.max 0 (Z.abs d - 1) * Z.max 0 (Z.abs d - 1) <= d * d) by (intro d; nia). pose proof (X dx). pose proof (X dy). assert (Z.max 0 (Z.abs dx - 1) * Z.max 0 (Z.abs dx - 1) * (b * b) <= dx * dx * (b * b)) by (apply Z.mul_le_mono_nonneg_r; nia). assert (Z.max 0 (Z.abs dy - 1) * Z.max 0 (Z.abs dy - 1) * (a * a) <= dy * dy * (a * a)) by (apply Z.mul_le_mono_nonneg_r; nia). unfold n in H. lia.
  - cbn [fst snd]. assert (AB : 0 < a * a * (b * b)) by nia. assert (D : 0 < n) by lia.
    assert (EX : exists e, Z.abs (ix - (if Z.leb 0 dx then minus ix (dx * dx * (a * a * (b * b))) n else plus ix (dx * dx * (a * a * (b * b))) n)) = e /\ 0 <= e <= up_ (dx * dx * (a * a * (b * b))) n).
    { destruct (Z.leb 0 dx); [destruct (minus_spec ix (dx * dx * (a * a * (b * b))) n ltac:(nia) D) as [e [-> E]] | destruct (plus_spec ix (dx * dx * (a * a * (b * b))) n ltac:(nia) D) as [e [-> E]]]; exists e; lia. }
    assert (EY : exists e, Z.abs (iy - (if Z.leb 0 dy then minus iy (dy * dy * (a * a * (b * b))) n else plus iy (dy * dy * (a * a * (b * b))) n)) = e /\ 0 <= e <= up_ (dy * dy * (a * a * (b * b))) n).
    { destruct (Z.leb 0 dy); [destruct (minus_spec iy (dy * dy * (a * a * (b * b))) n ltac:(nia) D) as [e [-> E]] | destruct (plus_spec iy (dy * dy * (a * a * (b * b))) n ltac:(nia) D) as [e [-> E]]]; exists e; lia. }
    destruct EX as [e1 [-> E1]]. destruct EY as [e2 [-> E2]]. pose proof (lag_sq a b dx n e1 D E1) as L1. pose proof (lag_sq a b dy n e2 D E2) as L2. cbv zeta in L1, L2. set (k1 := Z.max 0 (e1 - 1)) in *. set (k2 := Z.max 0 (e2 - 1)) in *.
    apply (Z.mul_le_mono_pos_r _ _ n D). assert (M1 : k1 * k1 * n * (b * b) <= dx * dx * (a * a * (b * b)) * (b * b)) by (apply Z.mul_le_mono_nonneg_r; nia). assert (M2 : k2 * k2 * n * (a * a) <= dy * dy * (a * a * (b * b)) * (a * a)) by (apply Z.mul_le_mono_nonneg_r; nia). unfold n at 2. replace (a * a * (b * b) * (dx * dx * (b * b) + dy * dy * (a * a))) with (dx * dx * (a * a * (b * b)) * (b * b) + dy * dy * (a * a * (b * b)) * (a * a)) by ring. replace ((k1 * k1 * (b * b) + k2 * k2 * (a * a)) * n) with (k1 * k1 * n * (b * b) + k2 * k2 * n * (a * a)) by ring. lia.
Qed.
