(** C21, C40: calibration, rotation and the coordinates of events. *)
Require Import Coq.ZArith.ZArith Coq.QArith.QArith Coq.Lists.List Coq.Bool.Bool Coq.micromega.Lia.
Require Import Verif.Matrix_Model Verif.Matrix_Spec Verif.Matrix_Proofs.
Import ListNotations.
Open Scope Q_scope.

(** Setting a calibration matrix maps every point by normalising it, applying
    the six values and scaling back, whatever was set before; the fraction is
    dropped.  The identity changes nothing. *)
Theorem calibration_applies : forall d v x y, length v = 6%nat -> wide (ax d) -> wide (ay d) ->
  transform_absolute (calibration_set_matrix d v) x y = drop (calibrated (ax d) (ay d) v x y).
Proof. exact calibrate_transform_lemma. Qed.
Print Assumptions calibration_applies.
Theorem calibration_drop : forall q, truncates q (to_int q).
Proof. exact to_int_truncates. Qed.
Print Assumptions calibration_drop.
(** Relative motion is mapped like the difference of two points. *)
Theorem calibration_relative : forall d v x y, length v = 6%nat -> wide (ax d) -> wide (ay d) ->
  transform_relative (calibration_set_matrix d v) x y =
  drop (fst (calibrated (ax d) (ay d) v x y) - fst (calibrated (ax d) (ay d) v 0 0),
        snd (calibrated (ax d) (ay d) v x y) - snd (calibrated (ax d) (ay d) v 0 0)).
Proof. exact relative_lemma. Qed.
Print Assumptions calibration_relative.
(** Reading the matrix back gives the six values set, and 0 exactly for the
    identity; the default is what the device started with. *)
Theorem calibration_get_set : forall d v, length v = 6%nat ->
  let d' := calibration_set_matrix d v in
  snd (calibration_get_matrix d') = v /\
  (fst (calibration_get_matrix d') = false <-> Forall2 Qeq v [1; 0; 0; 0; 1; 0]) /\
  calibration_get_default_matrix d' = calibration_get_default_matrix d /\ ax d' = ax d /\ ay d' = ay d.
Proof. exact get_set_lemma. Qed.
Print Assumptions calibration_get_set.
Theorem calibration_default : forall d v, length v = 6%nat -> let d' := set_default_calibration d v in
  snd (calibration_get_default_matrix d') = v /\ snd (calibration_get_matrix d') = v /\
  forall w, length w = 6%nat -> snd (calibration_get_default_matrix (calibration_set_matrix d' w)) = v.
Proof. exact default_lemma. Qed.
Print Assumptions calibration_default.

(** The product of two matrices applies the right one first; products are
    associative, the identity is neutral, and the last row stays 0 0 1. *)
Theorem matrix_compose : forall m1 m2 p, aff m2 -> qpair (apply (mult m1 m2) p) (apply m1 (apply m2 p)).
Proof. exact apply_mult. Qed.
Print Assumptions matrix_compose.
Theorem matrix_laws : forall a b c, same (mult a (mult b c)) (mult (mult a b) c) /\ same (mult init_identity a) a /\
  same (mult a init_identity) a /\ (aff a -> aff b -> aff (mult a b)).
Proof. intros a b c. repeat split; auto using mult_assoc, mult_id_l, mult_id_r; apply (mult_aff a b); auto. Qed.
Print Assumptions matrix_laws.
Theorem matrix_array : forall v x y, length v = 6%nat ->
  to_farray6 (from_farray6 v) = v /\ aff (from_farray6 v) /\ qpair (apply (from_farray6 v) (x, y)) (affine v x y).
Proof. intros v x y H. split; [apply array_roundtrip; auto|]. split; [apply aff_array|apply array_apply; auto]. Qed.
Print Assumptions matrix_array.
Theorem matrix_identity : forall m, is_identity m = true <-> same m init_identity.
Proof. exact is_identity_iff. Qed.
Print Assumptions matrix_identity.

(** An accepted rotation angle is a number of quarter turns; motion is turned
    clockwise by exactly that many. *)
Theorem rotation_exact : forall r deg r' x y, avail r = true -> (0 <= deg)%Z -> config_rotation_set_angle r deg = (SUCCESS, r') ->
  exists k, (k < 4)%nat /\ deg = (90 * Z.of_nat k)%Z /\ config_rotation_get_angle r' = deg /\ avail r' = true /\ rotate_relative r' x y = quarters k (x, y).
Proof. exact rotation_lemma. Qed.
Print Assumptions rotation_exact.
Theorem rotation_invalid : forall r deg s r', (0 <= deg)%Z -> config_rotation_set_angle r deg = (s, r') -> s <> SUCCESS -> r' = r /\
  (avail r = true -> ~ In deg [0; 90; 180; 270]%Z).
Proof. exact rotation_refused. Qed.
Print Assumptions rotation_invalid.
Theorem rotation_full_turn : forall p, quarters 4 p = p.
Proof. exact four_quarters. Qed.
Print Assumptions rotation_full_turn.
Theorem rotation_initial : forall a x y, rotate_relative (rot_init a) x y = (x, y).
Proof. exact rotation_start. Qed.
Print Assumptions rotation_initial.

(** A coordinate inside its axis range is scaled into [0, width) resp.
    [0, height), strictly increasing, the minimum to 0 and the end to the full
    width or height. *)
Theorem transformed_in_range : forall d (x y w h : Z), wide (ax d) -> wide (ay d) -> (0 < w)%Z -> (0 < h)%Z ->
  (minimum (ax d) <= x <= maximum (ax d))%Z -> (minimum (ay d) <= y <= maximum (ay d))%Z ->
  (0 <= device_transform_x d (inject_Z x) w /\ device_transform_x d (inject_Z x) w < inject_Z w) /\
  (0 <= device_transform_y d (inject_Z y) h /\ device_transform_y d (inject_Z y) h < inject_Z h).
Proof. intros. split; apply scale_bounds; auto. Qed.
Print Assumptions transformed_in_range.
Theorem transformed_monotone : forall d (w h : Z) p q, wide (ax d) -> wide (ay d) -> (0 < w)%Z -> (0 < h)%Z -> p < q ->
  device_transform_x d p w < device_transform_x d q w /\ device_transform_y d p h < device_transform_y d q h.
Proof. intros d w h p q WX WY W H PQ. split; apply scale_mono; auto; change 0 with (inject_Z 0); rewrite <- Zlt_Qlt; auto. Qed.
Print Assumptions transformed_monotone.
Theorem transformed_ends : forall d (w h : Z), wide (ax d) -> wide (ay d) ->
  device_transform_x d (inject_Z (minimum (ax d))) w == 0 /\ device_transform_x d (inject_Z (maximum (ax d) + 1)) w == inject_Z w /\
  device_transform_y d (inject_Z (minimum (ay d))) h == 0 /\ device_transform_y d (inject_Z (maximum (ay d) + 1)) h == inject_Z h.
Proof. intros d w h WX WY. destruct (scale_ends (ax d) (inject_Z w) WX). destruct (scale_ends (ay d) (inject_Z h) WY). auto. Qed.
Print Assumptions transformed_ends.
(** Millimetres: differences times the resolution are the device units, from 0
    at the minimum; points inside the range are inside the device's size. *)
Theorem mm_distance : forall a (x y : Z), (resolution a <> 0)%Z ->
  convert_to_mm a (inject_Z (minimum a)) == 0 /\
  (convert_to_mm a (inject_Z y) - convert_to_mm a (inject_Z x)) * inject_Z (resolution a) == inject_Z (y - x).
Proof. exact mm_lemma. Qed.
Print Assumptions mm_distance.
Theorem mm_size : forall d w h, device_get_size d false = Some (w, h) -> wide (ax d) -> wide (ay d) ->
  (0 < resolution (ax d))%Z -> (0 < resolution (ay d))%Z ->
  forall x y, (minimum (ax d) <= x <= maximum (ax d))%Z -> (minimum (ay d) <= y <= maximum (ay d))%Z ->
  0 <= convert_to_mm (ax d) (inject_Z x) <= w /\ 0 <= convert_to_mm (ay d) (inject_Z y) <= h.
Proof. exact size_lemma. Qed.
Print Assumptions mm_size.

(** A 1000x500 screen turned upside down, and a trackball turned by 270. *)
Definition scr : dev := dev_init {| minimum := 0; maximum := 999; resolution := 10 |} {| minimum := -100; maximum := 399; resolution := 10 |}.
Example flip : wide (ax scr) /\ wide (ay scr) /\ transform_absolute (calibration_set_matrix scr [-(1); 0; 1; 0; -(1); 1]) 200 300 = (800, 0)%Z /\
  transform_relative (calibration_set_matrix scr [-(1); 0; 1; 0; -(1); 1]) 7 (-3) = (-7, 3)%Z /\
  device_get_size scr false = Some ((999 - 0) / 10, (399 - -100) / 10).
Proof. repeat split; try (cbv; discriminate); vm_compute; reflexivity. Qed.
Example ball : exists r, config_rotation_set_angle (rot_init true) 270 = (SUCCESS, r) /\ rotate_relative r 5 2 = (2, -5)%Z /\
  fst (config_rotation_set_angle r 45) = INVALID /\ fst (config_rotation_set_angle (rot_init false) 90) = UNSUPPORTED.
Proof. eexists. repeat split; vm_compute; reflexivity. Qed.
