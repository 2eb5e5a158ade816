(** * Pointer acceleration: the theorems *)
Require Import Coq.ZArith.ZArith Coq.QArith.QArith Coq.QArith.Qabs Coq.Lists.List Coq.Bool.Bool Coq.micromega.Lia Coq.micromega.Lqa.
Require Import Verif.Acc_Model Verif.Acc_Spec Verif.Acc_Proofs Verif.Acc_Proofs2 Verif.Acc_Proofs3.
Import ListNotations.
Open Scope Q_scope.

Definition device (m : math) (c : dev_class) (l : list ainput) : adev := arun m (adev_init m c) l.
Definition reported (m : math) (c : dev_class) (l : list ainput) (i : ainput) : option (Q * Q) := snd (astep m (device m c l) i).
Definition not_tablet (c : dev_class) : Prop := match c with DTablet _ _ => False | _ => True end.

Lemma fac_flat : forall s, qmax (5 # 1000) (1 + s) == if Qle_bool (1 + s) (5 # 1000) then 5 # 1000 else 1 + s.
Proof. intros. unfold qmax. qcases; lra. Qed.
Lemma norm_per : forall f d x, dpi f = d -> normalize f x == x * per1000 d.
Proof. intros f d x <-. unfold normalize. apply norm_eq. Qed.
(** C33.  Whatever happened before and whatever the settings: a motion is reported as the device's motion times one factor, within its range.
    (So the direction is kept and no motion stays no motion; with the flat profile the factor is a constant.) *)
Theorem C33_bounded : forall m c l mt x y t, good_math m -> good_class c -> not_tablet c ->
  exists k ox oy, reported m c l (Motion mt x y t) = Some (ox, oy) /\ ox == k * x /\ oy == k * y /\
    lowest m c (chosen c l) (setting l) <= k <= highest m c (chosen c l) (setting l).
Proof.
  intros m c l mt x y t GM GC NT. pose proof (adev_ok_run m c l GM GC) as [A1 A2 A3 A4 A5 A6 A7 A8 A9 (A10 & A11) A12]. unfold reported, device in *. set (d := arun m (adev_init m c) l) in *. clearbody d. set (s := setting l) in *. set (p := chosen c l) in *. clearbody s p.
  assert (VN : forall k u, 0 <= velocity m (sm (flt d)) k u) by (intros; apply velocity_nonneg; [exact GM|rewrite A6; apply sm_good]).
  assert (SR : forall v, 0 <= v -> low_of m (fk (flt d)) s <= simpsons m (flt d) v (lastv (flt d)) <= high_of m (fk (flt d)) (dpi (flt d)) s) by (intros; apply simpsons_range; auto).
  assert (PR : forall v, 0 <= v -> low_of m (fk (flt d)) s <= profile m (flt d) v <= high_of m (fk (flt d)) (dpi (flt d)) s) by (intros; apply profile_range; auto).
  pose proof A7 as (R & ST & _). cbn [astep]. destruct (dispatch m (flt d) mt x y t) as [[ox oy] f] eqn:E. cbn [snd].
  unfold dispatch, factor in E. rewrite A2 in *.
  destruct c as [dd a|dd mu a|dd xx b a|rx ry]; [| | |contradiction NT]; destruct p; try contradiction; cbn [kind_for lowest highest] in *.
  - injection E as <- <- <-. exists (fac (flt d)), (fac (flt d) * x), (fac (flt d) * y). split; [reflexivity|]. split; [reflexivity|]. split; [reflexivity|]. rewrite ST, fac_flat. split; apply Qle_refl.
  - pose proof (per1000_pos dd GC) as PP. destruct (Z.ltb_spec dd 1000).
    + injection E as <- <- <-. eexists _, _, _. split; [reflexivity|]. split; [reflexivity|]. split; [reflexivity|]. rewrite Qmult_1_r. specialize (SR _ (VN (feed m (tr (flt d)) x y t) t)). cbn [low_of high_of] in SR. rewrite A3 in SR. exact SR.
    + injection E as <- <- <-. set (v := velocity m _ _ _). assert (V : 0 <= v) by apply VN. clearbody v. specialize (SR _ V). cbn [low_of high_of] in SR. exists (simpsons m (flt d) v (lastv (flt d)) * per1000 dd). eexists _, _. split; [reflexivity|]. rewrite !(norm_per _ dd _ A3). split; [ring|]. split; [ring|]. split; apply Qmult_le_compat_r; lra.
  - injection E as <- <- <-. exists (fac (flt d)), (fac (flt d) * x), (fac (flt d) * y). split; [reflexivity|]. split; [reflexivity|]. split; [reflexivity|]. rewrite ST, fac_flat. split; apply Qle_refl.
  - injection E as <- <- <-. set (v := velocity m _ _ _). assert (V : 0 <= v) by apply VN. clearbody v. specialize (PR _ V). cbn [low_of high_of] in PR. cbn [class_mult] in A4. exists (profile m (flt d) v * mu). eexists _, _. split; [reflexivity|]. rewrite A4. split; [ring|]. split; [ring|]. destruct GC as [_ GC]. split; apply Qmult_le_compat_r; lra.
  - destruct xx; injection E as <- <- <-; exists ((2968 # 10000) * fac (flt d)); eexists _, _; (split; [reflexivity|]); (split; [reflexivity|]); (split; [reflexivity|]); rewrite ST, fac_flat; split; apply Qle_refl.
  - pose proof (per1000_pos dd GC) as PP. assert (N : forall z, normalize (flt d) z == z * per1000 dd) by (intros; apply norm_per, A3). assert (N2 : forall v k z, normalize (with_tr (flt d) v k) z == z * per1000 dd) by (intros; apply norm_per; exact A3). destruct xx; injection E as <- <- <-; set (v := velocity m _ _ _); assert (V : 0 <= v) by apply VN; clearbody v; specialize (SR _ V); cbn [low_of high_of] in SR; exists (simpsons m (flt d) v (lastv (flt d)) * per1000 dd); eexists _, _; (split; [reflexivity|]).
    + rewrite ?N, ?N2. split; [ring|]. split; [ring|]. split; [apply Qmult_le_0_compat; lra|]. apply Qmult_le_compat_r; lra.
    + rewrite ?N, ?N2. split; [ring|]. split; [ring|]. split; (apply Qmult_le_compat_r; [|lra]).
      * destruct SR as [SR _]. eapply Qle_trans; [|exact SR]. apply Qle_lteq. right. ring.
      * destruct SR as [_ SR]. eapply Qle_trans; [exact SR|]. apply Qle_lteq. right. ring.
Qed.
Print Assumptions C33_bounded.

(** C33.  The direction of the motion: left stays left, up stays up; except on the Lenovo X230 touchpad a motion never gets lost. *)
Theorem C33_direction : forall m c l mt x y t, good_math m -> good_class c -> not_tablet c ->
  exists ox oy, reported m c l (Motion mt x y t) = Some (ox, oy) /\
    (0 <= x -> 0 <= ox) /\ (x <= 0 -> ox <= 0) /\ (0 <= y -> 0 <= oy) /\ (y <= 0 -> oy <= 0) /\ ox * y == oy * x /\
    ((match c with DTouchpad _ x230 _ _ => x230 = false \/ chosen c l = P_FLAT | _ => True end) -> (0 < x -> 0 < ox) /\ (x < 0 -> ox < 0) /\ (0 < y -> 0 < oy) /\ (y < 0 -> oy < 0)).
Proof.
  intros m c l mt x y t GM GC NT. destruct (C33_bounded m c l mt x y t GM GC NT) as (k & ox & oy & E & X & Y & B). exists ox, oy. split; [exact E|].
  pose proof (adev_ok_run m c l GM GC) as [_ _ _ _ _ _ (R & _) _ _ (NP & _) _]. pose proof (speed_factor_range m (setting l) GM ltac:(lra)) as SF.
  assert (L : 0 <= lowest m c (chosen c l) (setting l) /\ ((match c with DTouchpad _ x230 _ _ => x230 = false \/ chosen c l = P_FLAT | _ => True end) -> 0 < lowest m c (chosen c l) (setting l))).
  { assert (FL : 0 < if Qle_bool (1 + setting l) (5 # 1000) then 5 # 1000 else 1 + setting l) by (destruct (Qle_bool (1 + setting l) (5 # 1000)) eqn:Z0; [reflexivity|]; destruct (Qlt_le_dec (5 # 1000) (1 + setting l)) as [Z1|Z1]; [lra|apply Qle_bool_iff in Z1; congruence]). set (s := setting l) in *. set (f := if Qle_bool (1 + s) (5 # 1000) then 5 # 1000 else 1 + s) in *.
    destruct c as [dd a|dd mu a|dd xx b a|rx ry]; [| | |contradiction NT]; destruct (chosen _ l); try contradiction; try destruct xx; cbn [lowest]; fold s; fold f; clearbody f; try (split; [|intros _]; nra).
    - pose proof (per1000_pos dd GC) as PP. destruct (dd <? 1000)%Z; split; intros; nra.
    - destruct GC as [_ GC]. assert (0 < (3 # 10) * speed_factor m s * mu) by (apply Qmult_lt_0_compat; lra). split; intros; lra.
    - split; [lra|intros [H|H]; discriminate H].
    - pose proof (per1000_pos dd GC) as PP. assert (0 < (3 # 10) * (2968 # 10000) * speed_factor m s * per1000 dd) by (apply Qmult_lt_0_compat; lra). split; intros; lra. }
  destruct L as [L1 L2]. repeat split; rewrite ?X, ?Y; intros; try nra; try ring; match goal with H : match c with _ => _ end |- _ => specialize (L2 H) end; nra.
Qed.
Print Assumptions C33_direction.

(** C33.  Tablet tools in relative mode: pens move 1 px per 0.4 mm at 96 dpi, mice and lens cursors like a mouse of 1000 dpi, times 1 + setting. *)
Theorem C33_tablet : forall m rx ry l mt x y t, good_math m -> good_class (DTablet rx ry) ->
  exists ox oy, reported m (DTablet rx ry) l (Motion mt x y t) = Some (ox, oy) /\
    let per_mm := if mt then 1000 / (254 # 10) else 96 / (254 # 10) * (5 # 2) in
    ox == x / inject_Z rx * per_mm * (1 + setting l) /\ oy == y / inject_Z ry * per_mm * (1 + setting l).
Proof.
  intros m rx ry l mt x y t GM GC. pose proof (adev_ok_run m (DTablet rx ry) l GM GC) as [A1 A2 A3 A4 A5 A6 A7 A8 A9 (A10 & A11) A12]. unfold reported, device. set (d := arun _ _ l) in *. clearbody d. destruct A7 as (R & ST & _). cbn [astep]. unfold dispatch. rewrite A2 in *. cbn [kind_for] in *.
  destruct GC as [G1 G2]. pose proof (inject_pos _ G1) as P1. pose proof (inject_pos _ G2) as P2. rewrite A5. cbn [class_res fst snd].
  destruct mt; cbn [snd]; eexists _, _; (split; [reflexivity|]); cbv zeta; rewrite ST; unfold DEFAULT_MOUSE_DPI; split; field; lra.
Qed.
Print Assumptions C33_tablet.

(** C33.  Gestures and scrolling are not accelerated: they are scaled by a constant of the device, whatever the history and the speed setting. *)
Definition unaccelerated_scale (c : dev_class) (p : acc_profile) : Q :=
  match c, p with
  | DMouse d _, _ => per1000 d
  | DTrackpoint d _ _, P_FLAT => per1000 d
  | DTrackpoint _ mu _, _ => mu
  | DTouchpad d _ _ _, P_FLAT => (2968 # 10000) * per1000 d
  | DTouchpad d true _ _, _ => (1 # 10) * per1000 d
  | DTouchpad d false _ _, _ => (26712 # 100000) * per1000 d
  | DTablet _ _, _ => 1
  end.
Theorem C33_constant : forall m c l x y t, good_math m -> good_class c ->
  exists ox oy, reported m c l (Constant x y t) = Some (ox, oy) /\ ox == unaccelerated_scale c (chosen c l) * x /\ oy == unaccelerated_scale c (chosen c l) * y.
Proof.
  intros m c l x y t GM GC. pose proof (adev_ok_run m c l GM GC) as [A1 A2 A3 A4 A5 A6 A7 A8 A9 (A10 & A11) A12]. unfold reported, device. set (d := arun _ _ l) in *. clearbody d. cbn [astep snd]. eexists _, _. split; [reflexivity|]. unfold constant. rewrite A2, A4.
  assert (N : forall z, normalize (flt d) z == z * per1000 (class_dpi c)) by (intros; apply norm_per, A3). change ((4 # 10) / 4) with (4 # 40).
  destruct c as [dd a|dd mu a|dd xx b a|rx ry]; destruct (chosen _ l); try contradiction; cbn [kind_for unaccelerated_scale class_dpi class_mult] in *; try destruct (dd <? 1000)%Z; try destruct xx; rewrite ?N; split; ring.
Qed.
Print Assumptions C33_constant.

(** ** The factor and the speed of the motion *)
(** C33.  Faster motion never gets a smaller factor, and neither does a higher speed setting. *)
Theorem C33_monotone : forall m c l l' v v', good_math m -> good_class c -> chosen c l = chosen c l' -> setting l <= setting l' -> 0 <= v -> v <= v' ->
  profile m (flt (device m c l)) v <= profile m (flt (device m c l')) v'.
Proof.
  intros m c l l' v v' GM GC P S V0 V. pose proof (adev_ok_run m c l GM GC) as [A1 A2 A3 A4 A5 A6 A7 A8 A9 A10 A12]. pose proof (adev_ok_run m c l' GM GC) as [B1 B2 B3 B4 B5 B6 B7 B8 B9 B10 B12].
  unfold device. apply (profile_mono m _ _ (setting l) (setting l')); auto; [rewrite A2, B2, P; reflexivity|congruence].
Qed.
Print Assumptions C33_monotone.
(** C33.  The speed the factor is for: the mean speed of the last motion, or of the last few, since an event at most a second ago; averaged (Simpson's rule) with the speed used before,
    except on trackpoints.  Times do not run backwards. *)
Theorem C33_speed : forall m c l mt x y t, good_math m -> good_class c -> not_tablet c -> chosen c l = P_ADAPTIVE ->
  (match history c l with e :: _ => when e <= t | [] => True end)%Z ->
  exists i v w ox oy, mean_speed m (smoothing c) (Moved (units c x) (units c y) t :: history c l) t i v /\ 0 <= w /\ reported m c l (Motion mt x y t) = Some (ox, oy) /\
    let p := profile m (flt (device m c l)) in
    let k := match c with DTrackpoint _ _ _ => p v | _ => (p v + p w + 4 * p ((w + v) / 2)) / 6 end in
    match c with
    | DTouchpad d false _ _ => ox == k * x * per1000 d /\ oy == k * y * per1000 d
    | _ => ox == k * units c x /\ oy == k * units c y
    end.
Proof.
  intros m c l mt x y t GM GC NT CH B. pose proof (adev_ok_run m c l GM GC) as [A1 A2 A3 A4 A5 A6 A7 A8 A9 (A10 & A11) A12]. unfold reported, device. set (d := arun _ _ l) in *. clearbody d. set (h := history c l) in *. clearbody h. rewrite CH in *. specialize (A12 eq_refl). cbn [class_sm] in A6.
  assert (T : tracks (class_n c) (tr (flt d)) h) by (destruct c; auto; contradiction). clear A12.
  destruct (velocity_mean m (sm (flt d)) (class_n c) (tr (flt d)) h (units c x) (units c y) t GM T B) as (i & V). rewrite A6 in V. cbn [astep]. unfold dispatch, factor.
  exists i, (velocity m (smoothing c) (feed m (tr (flt d)) (units c x) (units c y) t) t), (lastv (flt d)). rewrite A2, A6. unfold normalize, DEFAULT_MOUSE_DPI. rewrite A3, A4. destruct c as [dd a|dd mu a|dd xx b a|rx ry]; cbn [kind_for class_dpi class_mult units] in *; [| | |contradiction NT].
  - destruct (Z.ltb_spec dd 1000); cbn [snd]; eexists _, _; (split; [exact V|]); (split; [exact A9|]); (split; [reflexivity|]); cbv zeta; unfold simpsons; split; reflexivity.
  - cbn [snd]. eexists _, _. split; [exact V|]. split; [exact A9|]. split; [reflexivity|]. cbv zeta. split; ring.
  - destruct xx; cbn [snd with_tr dpi]; rewrite ?A3; eexists _, _; (split; [exact V|]); (split; [exact A9|]); (split; [reflexivity|]); cbv zeta; unfold simpsons; [split; reflexivity|]. unfold per1000. split; unfold Qdiv; ring.
Qed.
Print Assumptions C33_speed.

(** C33.  The curve for mice, [u] the speed in units of a 1000 dpi mouse per ms, [s] the setting: from 0.3 at rest up to 1 at 0.07 u/ms, then no acceleration up to the threshold,
    which falls with the setting from 0.65 to 0.2 u/ms, then a line of incline 1.1 + 0.75 s up to the maximum 2 + 1.5 s. *)
Definition threshold (s : Q) : Q := if Qle_bool ((4 # 10) - (25 # 100) * s) (2 # 10) then 2 # 10 else (4 # 10) - (25 # 100) * s.
Lemma threshold_thr : forall s, 1000 * qmax (2 # 10000) ((4 # 10000) - (25 # 100000) * s) == threshold s.
Proof. intros. unfold qmax, threshold. qcases; lra. Qed.
Theorem C33_mouse_curve : forall m d avg l u, good_math m -> (1000 <= d)%Z -> chosen (DMouse d avg) l = P_ADAPTIVE -> 0 <= u ->
  let s := setting l in let top := 2 + (3 # 2) * s in
  let k := profile m (flt (device m (DMouse d avg) l)) (u / 1000 * (inject_Z d / 1000)) in
  (u < 7 # 100 -> k == qmin top (10 * u + (3 # 10))) /\
  (7 # 100 <= u -> u < threshold s -> k == qmin top 1) /\
  (7 # 100 <= u -> threshold s <= u -> k == qmin top (1 + ((11 # 10) + (3 # 4) * s) * (u - threshold s))).
Proof.
  intros m d avg l u GM D CH U s top k. assert (GC : good_class (DMouse d avg)) by (cbn; lia). pose proof (adev_ok_run m _ l GM GC) as [A1 A2 A3 A4 A5 A6 A7 A8 A9 A10 A12]. unfold device in k. set (dv := arun _ _ l) in *. clearbody dv. rewrite CH in *. cbn [kind_for] in A2. replace (d <? 1000)%Z with false in A2 by (symmetry; apply Z.ltb_ge; exact D).
  destruct A7 as (R & ST & _). rewrite A2 in ST. destruct ST as (S1 & S2 & S3 & S4). fold s in S1, S2, S3. unfold k, profile. rewrite A2. unfold profile_mouse. rewrite A3. cbn [class_dpi]. pose proof (inject_pos d ltac:(lia)) as IP.
  set (w := u / 1000 * (inject_Z d / 1000) * DEFAULT_MOUSE_DPI / inject_Z d). assert (W : w == u / 1000) by (unfold w, DEFAULT_MOUSE_DPI; field; lra). unfold Qdiv in W. change (/ 1000) with (1 # 1000) in W. cbv zeta. pose proof (threshold_thr s) as TT. rewrite <- S3 in TT.
  assert (E : forall a b a' b', a == a' -> b == b' -> qmin a b == qmin a' b') by (intros a b a' b' X Y; apply Qle_antisym; apply qmin_mono; lra).
  destruct (qlt (1000 * w) (7 # 100)) eqn:L1; [apply qlt_spec in L1|apply qlt_false in L1].
  - split; [|split; intros; exfalso; lra]. intros _. apply E; [unfold top; lra|lra].
  - split; [intros; exfalso; lra|]. destruct (qlt w (thr (flt dv))) eqn:L2; [apply qlt_spec in L2|apply qlt_false in L2].
    + split; [|intros; exfalso; lra]. intros _ _. apply E; [unfold top; lra|reflexivity].
    + split; [intros; exfalso; lra|]. intros _ _. apply E; [unfold top; lra|]. assert (X : 1000 * (w - thr (flt dv)) == u - threshold s) by lra. rewrite X, S2. ring.
Qed.
Print Assumptions C33_mouse_curve.
(** C33.  Mice of less than 1000 dpi: the same curve on the device's own units, with the threshold scaled down and the maximum scaled up by dpi/1000. *)
Theorem C33_low_dpi_curve : forall m d avg l u, good_math m -> (0 < d < 1000)%Z -> chosen (DMouse d avg) l = P_ADAPTIVE -> 0 <= u ->
  let s := setting l in let top := (2 + (3 # 2) * s) * (1000 / inject_Z d) in let th := threshold s * (inject_Z d / 1000) in
  let k := profile m (flt (device m (DMouse d avg) l)) (u / 1000) in
  (u < 7 # 100 -> k == qmin top (10 * u + (3 # 10))) /\
  (7 # 100 <= u -> u < th -> k == qmin top 1) /\
  (7 # 100 <= u -> th <= u -> k == qmin top (1 + ((11 # 10) + (3 # 4) * s) * (u - th))).
Proof.
  intros m d avg l u GM D CH U s top th k. assert (GC : good_class (DMouse d avg)) by (cbn; lia). pose proof (adev_ok_run m _ l GM GC) as [A1 A2 A3 A4 A5 A6 A7 A8 A9 A10 A12]. unfold device in k. set (dv := arun _ _ l) in *. clearbody dv. rewrite CH in *. cbn [kind_for] in A2. replace (d <? 1000)%Z with true in A2 by (symmetry; apply Z.ltb_lt; lia).
  destruct A7 as (R & ST & _). rewrite A2 in ST. destruct ST as (S1 & S2 & S3 & S4). fold s in S1, S2, S3. unfold k, profile. rewrite A2. unfold profile_low_dpi. rewrite A3. cbn [class_dpi]. pose proof (inject_pos d ltac:(lia)) as IP.
  set (w := u / 1000). assert (W : w == u * (1 # 1000)) by reflexivity. cbv zeta. pose proof (threshold_thr s) as TT. rewrite <- S3 in TT.
  assert (E : forall a b a' b', a == a' -> b == b' -> qmin a b == qmin a' b') by (intros a b a' b' X Y; apply Qle_antisym; apply qmin_mono; lra).
  assert (TO : acc (flt dv) / (inject_Z d / DEFAULT_MOUSE_DPI) == top) by (rewrite S1; unfold top, DEFAULT_MOUSE_DPI; field; lra).
  assert (TH : 1000 * (thr (flt dv) * (inject_Z d / DEFAULT_MOUSE_DPI)) == th) by (unfold th; rewrite <- TT; unfold DEFAULT_MOUSE_DPI; ring).
  set (th0 := thr (flt dv) * (inject_Z d / DEFAULT_MOUSE_DPI)) in *. clearbody w th0.
  destruct (qlt (1000 * w) (7 # 100)) eqn:L1; [apply qlt_spec in L1|apply qlt_false in L1].
  - split; [|split; intros; exfalso; lra]. intros _. apply E; [exact TO|lra].
  - split; [intros; exfalso; lra|]. destruct (qlt w th0) eqn:L2; [apply qlt_spec in L2|apply qlt_false in L2].
    + split; [|intros; exfalso; lra]. intros _ _. apply E; [exact TO|reflexivity].
    + split; [intros; exfalso; lra|]. intros _ _. apply E; [exact TO|]. assert (X : 1000 * (w - th0) == u - th) by lra. rewrite X, S2. ring.
Qed.
Print Assumptions C33_low_dpi_curve.
(** C33.  Touchpads, [u] in mm/s: from 0.3 at rest up to 0.9 at 6 mm/s, constant up to 130 mm/s, 4.8 from 520 mm/s; all times 0.2968 and the factor for the setting. *)
Theorem C33_touchpad_curve : forall m d bt avg l u, good_math m -> (0 < d)%Z -> chosen (DTouchpad d false bt avg) l = P_ADAPTIVE -> 0 <= u ->
  let scale := speed_factor m (setting l) * (2968 # 10000) in
  let k := profile m (flt (device m (DTouchpad d false bt avg) l)) (u / 1000000 * (inject_Z d / (254 # 10))) in
  (u <= 6 -> k == ((3 # 10) + (1 # 10) * u) * scale) /\ (6 <= u -> u < 130 -> k == (9 # 10) * scale) /\ (130 <= u -> u <= 520 -> k == ((9 # 10) + (25 # 10000) * (u / 130) * (u - 130)) * scale) /\ (520 <= u -> k == (48 # 10) * scale).
Proof.
  intros m d bt avg l u GM D CH U scale k. assert (GC : good_class (DTouchpad d false bt avg)) by exact D. pose proof (adev_ok_run m _ l GM GC) as [A1 A2 A3 A4 A5 A6 A7 A8 A9 A10 A12]. unfold device in k. set (dv := arun _ _ l) in *. clearbody dv. rewrite CH in *. cbn [kind_for] in A2.
  destruct A7 as (R & ST & _). rewrite A2 in ST. destruct ST as (S1 & S2 & S3). unfold k, profile. rewrite A2. rewrite profile_touchpad_curve by exact S1. rewrite A3, S2. cbn [class_dpi]. pose proof (inject_pos d D) as IP.
  set (w := 1000000 * (u / 1000000 * (inject_Z d / (254 # 10))) * (254 # 10) / inject_Z d). assert (W : w == u) by (unfold w; field; lra). clearbody w. unfold scale.
  assert (Q : forall a, tcurve w == a -> tcurve w * speed_factor m (setting l) * (2968 # 10000) == a * (speed_factor m (setting l) * (2968 # 10000))) by (intros a ->; ring).
  unfold tcurve in *. split; [|split; [|split]]; intros; apply Q.
  - destruct (qlt w 7) eqn:L; [|apply qlt_false in L; lra]. destruct (qmin_cases (9 # 10) ((1 # 10) * w + (3 # 10))) as [[-> ?]|[-> ?]]; lra.
  - destruct (qlt w 7) eqn:L; [destruct (qmin_cases (9 # 10) ((1 # 10) * w + (3 # 10))) as [[-> ?]|[-> ?]]; lra|]. destruct (qlt w 130) eqn:L2; [reflexivity|apply qlt_false in L2; lra].
  - destruct (qlt w 7) eqn:L; [apply qlt_spec in L; lra|]. destruct (qlt w 130) eqn:L2; [apply qlt_spec in L2; lra|]. assert (X : qmin w (130 * 4) == u) by (destruct (qmin_cases w (130 * 4)) as [[-> ?]|[-> ?]]; lra). rewrite X. unfold Qdiv. ring.
  - destruct (qlt w 7) eqn:L; [apply qlt_spec in L; lra|]. destruct (qlt w 130) eqn:L2; [apply qlt_spec in L2; lra|]. assert (X : qmin w (130 * 4) == 520) by (destruct (qmin_cases w (130 * 4)) as [[-> ?]|[-> ?]]; lra). rewrite X. reflexivity.
Qed.
Print Assumptions C33_touchpad_curve.
(** C33.  The X230 touchpad, [u] in 1000 dpi units per ms: proportional to the speed up to 1 at 2 u/ms, a line from a tenth of that threshold (in its own slowed-down units), at most 4 (2 + 1.5 s); all times 0.1.
    The trackpoint: 0.3 at rest. *)
Theorem C33_x230_curve : forall m d bt avg l u, good_math m -> (0 < d)%Z -> chosen (DTouchpad d true bt avg) l = P_ADAPTIVE -> 0 <= u ->
  let s := setting l in let top := 4 * (2 + (3 # 2) * s) in let w := u / 10 in
  let k := profile m (flt (device m (DTouchpad d true bt avg) l)) (u / 1000) in
  (w <= threshold s / 4 -> k == (1 # 10) * qmin top (qmin 1 (5 * w))) /\
  (threshold s / 4 < w -> k == (1 # 10) * qmin top (1 + 4 * ((11 # 10) + (3 # 4) * s) * (w - threshold s / 4))).
Proof.
  intros m d bt avg l u GM D CH U s top w k. assert (GC : good_class (DTouchpad d true bt avg)) by exact D. pose proof (adev_ok_run m _ l GM GC) as [A1 A2 A3 A4 A5 A6 A7 A8 A9 A10 A12]. unfold device in k. set (dv := arun _ _ l) in *. clearbody dv. rewrite CH in *. cbn [kind_for] in A2.
  destruct A7 as (R & ST & _). rewrite A2 in ST. destruct ST as (S1 & S2 & S3 & S4). fold s in S1, S2, S3, R. unfold k, profile. rewrite A2. unfold profile_x230. cbv zeta. pose proof (threshold_thr s) as TT. rewrite <- S3 in TT.
  assert (E : forall a b a' b', a == a' -> b == b' -> qmin a b * (4 # 10) / 4 == (1 # 10) * qmin a' b') by (intros a b a' b' X Y; assert (Z0 : qmin a b == qmin a' b') by (apply Qle_antisym; apply qmin_mono; lra); rewrite Z0; unfold Qdiv; change (/ 4) with (1 # 4); ring).
  assert (W : 1000 * (u / 1000 * ((4 # 10) / 4)) == w) by (unfold w; field). set (z := u / 1000 * ((4 # 10) / 4)) in *. clearbody z.
  assert (T4 : 1000 * (thr (flt dv) / 4) == threshold s / 4) by (rewrite <- TT; field). set (t4 := thr (flt dv) / 4) in *. clearbody t4. set (ts4 := threshold s / 4) in *. clearbody ts4.
  assert (F2 : 1 + (1000 * z - 1000 * t4) * (inc (flt dv) * 4) == 1 + 4 * ((11 # 10) + (3 # 4) * s) * (w - ts4)) by (rewrite S2, W, T4; ring).
  set (f2 := 1 + (1000 * z - 1000 * t4) * (inc (flt dv) * 4)) in *. clearbody f2.
  assert (TO : acc (flt dv) * 4 == top) by (rewrite S1; unfold top; ring).
  split; intros H.
  - destruct (qlt 1 f2) eqn:L; [apply qlt_spec in L; exfalso; nra|]. apply E; [exact TO|]. apply Qle_antisym; apply qmin_mono; lra.
  - destruct (qlt 1 f2) eqn:L; [|apply qlt_false in L; exfalso; nra]. apply E; [exact TO|exact F2].
Qed.
Print Assumptions C33_x230_curve.
Theorem C33_trackpoint_rest : forall m d mu avg l, good_math m -> good_class (DTrackpoint d mu avg) -> chosen (DTrackpoint d mu avg) l = P_ADAPTIVE ->
  profile m (flt (device m (DTrackpoint d mu avg) l)) 0 == (3 # 10) * speed_factor m (setting l).
Proof.
  intros m d mu avg l GM GC CH. pose proof (adev_ok_run m _ l GM GC) as [A1 A2 A3 A4 A5 A6 A7 A8 A9 A10 A12]. unfold device. set (dv := arun _ _ l) in *. clearbody dv. rewrite CH in *. cbn [kind_for] in A2. destruct A7 as (R & ST & _). rewrite A2 in ST. destruct ST as (S1 & S2).
  unfold profile. rewrite A2. unfold profile_trackpoint. rewrite S1. assert (P : pow_tp m (1000 * 0 / (9205459 # 10000000)) == 0). { destruct (g_pt m GM) as [P0 P1]. set (z := 1000 * 0 / (9205459 # 10000000)). assert (pow_tp m z <= pow_tp m 0) by (apply P1; vm_compute; discriminate). assert (pow_tp m 0 <= pow_tp m z) by (apply P1; vm_compute; discriminate). lra. } rewrite P. field.
Qed.
Print Assumptions C33_trackpoint_rest.
(** C33.  The factor for the setting, touchpads and trackpoints: at -1 it is 0.0476, and it does not decrease. *)
Theorem C33_setting_factor : forall m s s', good_math m -> -1 <= s -> s <= s' -> speed_factor m (-1) == 4762636 # 100000000 /\ speed_factor m s <= speed_factor m s'.
Proof.
  intros m s s' GM A B. split; [|apply speed_factor_mono; assumption]. unfold speed_factor. assert (P : pow_speed m ((-1 + 1) / (2404549 # 10000)) == 0). { destruct (g_ps m GM) as [P0 P1]. set (z := (-1 + 1) / (2404549 # 10000)). assert (pow_speed m z <= pow_speed m 0) by (apply P1; vm_compute; discriminate). assert (pow_speed m 0 <= pow_speed m z) by (apply P1; vm_compute; discriminate). lra. } rewrite P. field.
Qed.
Print Assumptions C33_setting_factor.

(** ** The configuration calls *)
(** C23.  Pointer acceleration: a speed in [-1, 1] is accepted and returned by the getter, except on tablets; anything else, NaN included, is INVALID and changes nothing;
    the profile is kept.  The default is 0. *)
Theorem C23_accel_speed : forall m c l v, good_math m -> good_class c ->
  let d := device m c l in let d' := snd (set_speed m d v) in
  (match v with Some s => -1 <= s <= 1 | None => False end -> fst (set_speed m d v) = SUCCESS /\ get_profile d' = get_profile d /\ (not_tablet c -> match v with Some s => get_speed d' = s | None => True end)) /\
  (~ match v with Some s => -1 <= s <= 1 | None => False end -> fst (set_speed m d v) = INVALID /\ d' = d) /\
  get_default_speed d = 0 /\ (not_tablet c -> get_speed d = setting l).
Proof.
  intros m c l v GM GC d d'. pose proof (adev_ok_run m c l GM GC) as [A1 A2 A3 A4 A5 A6 A7 A8 A9 (A10 & A11) A12]. fold (device m c l) in *. fold d in A1, A2, A3, A4, A5, A6, A7, A8, A9, A12. clearbody d. subst d'.
  assert (K : not_tablet c -> fk (flt d) <> Tablet) by (intros NT; rewrite A2; destruct c as [dd a|dd mu a|dd xx b a|rx ry]; try contradiction; destruct (chosen _ l); cbn; try destruct (dd <? 1000)%Z; try destruct xx; discriminate).
  split; [|split; [|split; [reflexivity|intros NT; unfold get_speed; rewrite A8; destruct c; auto; contradiction]]].
  - destruct v as [s|]; [|contradiction]. intros [R1 R2]. unfold set_speed. apply Qle_bool_iff in R1, R2. rewrite R1, R2. cbn [andb fst snd]. split; [reflexivity|]. split; [reflexivity|]. intros NT. unfold get_speed. cbn. specialize (K NT). destruct (fk (flt d)); auto; contradiction.
  - destruct v as [s|]; [|intros _; split; reflexivity]. intros N. unfold set_speed. destruct (Qle_bool (-1) s) eqn:R1, (Qle_bool s 1) eqn:R2; cbn; try (split; reflexivity). exfalso. apply N. apply Qle_bool_iff in R1, R2. split; assumption.
Qed.
Print Assumptions C23_accel_speed.
(** C23.  The profile: flat and adaptive are accepted, except on tablets, are returned by the getter, and the speed is kept; the default is adaptive. *)
Theorem C23_accel_profile : forall m c l p, good_math m -> good_class c ->
  let d := device m c l in let d' := snd (set_profile m d p) in
  (p <> P_NONE -> not_tablet c -> fst (set_profile m d p) = SUCCESS /\ get_profile d' = p /\ get_speed d' = get_speed d) /\
  (p = P_NONE -> fst (set_profile m d p) = INVALID /\ d' = d) /\
  (p <> P_NONE -> ~ not_tablet c -> fst (set_profile m d p) = UNSUPPORTED /\ d' = d) /\
  (not_tablet c -> get_profile d = chosen c l /\ get_default_profile d = P_ADAPTIVE) /\ (~ not_tablet c -> get_profile d = P_NONE /\ get_default_profile d = P_NONE).
Proof.
  intros m c l p GM GC d d'. pose proof (adev_ok_run m c l GM GC) as [A1 A2 A3 A4 A5 A6 A7 A8 A9 (A10 & A11) A12]. pose proof (adev_ok_run m c (l ++ [SetProfile p]) GM GC) as OK'.
  fold (device m c l) in *. fold d in A1, A2, A3, A4, A5, A6, A7, A8, A9, A12.
  assert (FT : not_tablet c -> filter_type (flt d) = chosen c l) by (intros NT; unfold filter_type; rewrite A2; destruct c as [dd a|dd mu a|dd xx b a|rx ry]; try contradiction; destruct (chosen _ l); try contradiction; cbn; try destruct (dd <? 1000)%Z; try destruct xx; reflexivity).
  assert (TB : is_tablet d = match c with DTablet _ _ => true | _ => false end) by (unfold is_tablet; rewrite A1; reflexivity).
  assert (D' : arun m (adev_init m c) (l ++ [SetProfile p]) = d') by (unfold arun; rewrite fold_left_app; reflexivity). rewrite D' in OK'. destruct OK' as [B1 B2 B3 B4 B5 B6 B7 B8 B9 (B10 & B11) B12].
  assert (FT' : not_tablet c -> filter_type (flt d') = chosen c (l ++ [SetProfile p])) by (intros NT; unfold filter_type; rewrite B2; destruct c as [dd a|dd mu a|dd xx b a|rx ry]; try contradiction; destruct (chosen _ (l ++ _)); try contradiction; cbn; try destruct (dd <? 1000)%Z; try destruct xx; reflexivity).
  assert (CH : not_tablet c -> p <> P_NONE -> chosen c (l ++ [SetProfile p]) = p) by (intros NT NP; unfold chosen; rewrite fold_left_app; cbn [fold_left]; destruct c; try contradiction; destruct p; try contradiction; reflexivity).
  assert (SE : setting (l ++ [SetProfile p]) = setting l) by (unfold setting; rewrite fold_left_app; reflexivity).
  split; [|split; [|split; [|split]]].
  - intros NP NT. split; [|split].
    + unfold set_profile, profile_supported. rewrite TB. destruct c; try contradiction; destruct p; try contradiction; cbn; destruct (filter_type (flt d)); reflexivity.
    + unfold get_profile, is_tablet. rewrite B1. destruct c; try contradiction; rewrite FT' by exact I; apply CH; auto.
    + unfold get_speed. rewrite A8, B8, SE. reflexivity.
  - intros ->. split; reflexivity.
  - intros NP T. unfold d', set_profile, profile_supported. rewrite TB. destruct c; try (exfalso; apply T; exact I). destruct p; try contradiction; split; reflexivity.
  - intros NT. unfold get_profile, get_default_profile. rewrite TB. destruct c; try contradiction; rewrite FT by exact I; split; reflexivity.
  - intros T. unfold get_profile, get_default_profile. rewrite TB. destruct c; try (exfalso; apply T; exact I). split; reflexivity.
Qed.
Print Assumptions C23_accel_profile.

(** ** What does not hold *)
Definition m0 : math := {| hyp := fun x y => Qabs x + Qabs y; dirf := fun _ _ => 255%Z; pow_speed := fun x => x * x; pow_tp := fun x => x |}.
Lemma m0_good : good_math m0.
Proof.
  constructor; cbn.
  - intros x y. pose proof (Qabs_nonneg x). pose proof (Qabs_nonneg y). repeat split; lra.
  - intros x x' y y' -> ->. reflexivity.
  - split; [reflexivity|]. intros x y X Y. nra.
  - split; [reflexivity|]. intros x y X Y. exact Y.
Qed.
(** C23.  On a tablet the getter does not return the speed that was set successfully: filter-tablet.c does not store it. *)
Theorem C23_tablet_speed_refuted : exists s, let d := device m0 (DTablet 100 100) [] in fst (set_speed m0 d (Some s)) = SUCCESS /\ ~ get_speed (snd (set_speed m0 d (Some s))) == s.
Proof. exists (1 # 2). split; [reflexivity|]. vm_compute. discriminate. Qed.
(** C33.  Putting the finger down again does not start afresh: the speed of the last motion before counts for the first motion after it (last_velocity is not reset). *)
Theorem C33_restart_starts_afresh_refuted : exists c l l' x y t, good_class c /\ setting l = setting l' /\
  ~ match reported m0 c (l ++ [Restart t]) (Motion false x y (t + 10000)), reported m0 c (l' ++ [Restart t]) (Motion false x y (t + 10000)) with Some (a, _), Some (b, _) => a == b | _, _ => False end.
Proof.
  exists (DTouchpad 1000 false false true), [], [Motion false 100 0 10000000; Motion false 100 0 10010000], 1, 0, 20000000%Z. split; [reflexivity|]. split; [reflexivity|]. vm_compute. discriminate.
Qed.

(** ** Examples *)
Definition mouse : dev_class := DMouse 1200 false.
Definition moves : list ainput := [Motion false 3 0 5000000; SetSpeed (Some (1 # 2)); Motion false 6 (-2) 5010000; SetSpeed (Some 2); SetSpeed None].
Example mouse_example : good_math m0 /\ good_class mouse /\ not_tablet mouse /\ setting moves = 1 # 2 /\ chosen mouse moves = P_ADAPTIVE
  /\ (match history mouse moves with e :: _ => when e <= 5020000 | [] => True end)%Z
  /\ match reported m0 mouse moves (Motion false 12 (-12) 5020000) with Some (x, y) => Qle_bool 10 x && Qle_bool x 36 && Qeq_bool x (- y) | None => false end = true
  /\ lowest m0 mouse P_ADAPTIVE (1 # 2) == 1 # 4 /\ highest m0 mouse P_ADAPTIVE (1 # 2) == 275 # 120.
Proof. split; [exact m0_good|]. repeat split; vm_compute; (reflexivity || discriminate). Qed.
Example flat_example : match reported m0 mouse [SetProfile P_FLAT; SetSpeed (Some (1 # 2))] (Motion false 10 4 5000000) with Some (x, y) => Qeq_bool x 15 && Qeq_bool y 6 | None => false end = true
  /\ get_profile (device m0 mouse [SetProfile P_FLAT]) = P_FLAT.
Proof. split; vm_compute; reflexivity. Qed.
