(** 3x3 matrices, calibration, rotation and coordinate conversion.
    float and double are exact rationals; the conversion of a value to int
    drops the fraction and does not overflow. *)
Require Import Coq.ZArith.ZArith Coq.QArith.QArith Coq.Lists.List Coq.Bool.Bool.
Import ListNotations.
Open Scope Q_scope.

(** struct matrix, /repo/src/util-matrix.h:34-36: val[row][col] *)
Definition matrix := nat -> nat -> Q.
(** one assignment val[row][col] = v *)
Definition put (m : matrix) (r c : nat) (v : Q) : matrix :=
  fun i j => if (Nat.eqb i r && Nat.eqb j c)%bool then v else m i j.
(** matrix_init_identity, /repo/src/util-matrix.h:44-51 *)
Definition init_identity : matrix := put (put (put (fun _ _ => 0) 0 0 1) 1 1 1) 2 2 1.
(** matrix_from_farray6, /repo/src/util-matrix.h:53-63 *)
Definition from_farray6 (v : list Q) : matrix :=
  let g i := nth i v 0 in
  put (put (put (put (put (put init_identity 0 0 (g 0%nat)) 0 1 (g 1%nat)) 0 2 (g 2%nat)) 1 0 (g 3%nat)) 1 1 (g 4%nat)) 1 2 (g 5%nat).
(** matrix_init_scale, /repo/src/util-matrix.h:65-71 *)
Definition init_scale (sx sy : Q) : matrix := put (put init_identity 0 0 sx) 1 1 sy.
(** matrix_init_translate, /repo/src/util-matrix.h:73-79 *)
Definition init_translate (x y : Q) : matrix := put (put init_identity 0 2 x) 1 2 y.
(** sin() and cos() of multiples of 90 degrees; the C values at 90, 180 and 270
    are off by less than 2^-52, which the conversion to float and to int of
    /repo/src/util-matrix.h:128-131 absorbs.  Other angles never get here, see
    [config_rotation_set_angle]. *)
Definition sin_deg (d : Z) : Q := match (d / 90 mod 4)%Z with 1%Z => 1 | 3%Z => -(1) | _ => 0 end.
Definition cos_deg (d : Z) : Q := match (d / 90 mod 4)%Z with 0%Z => 1 | 2%Z => -(1) | _ => 0 end.
(** matrix_init_rotate, /repo/src/util-matrix.h:81-94 *)
Definition init_rotate (d : Z) : matrix :=
  let s := sin_deg d in let c := cos_deg d in
  put (put (put (put init_identity 0 0 c) 0 1 (- s)) 1 0 s) 1 1 c.
(** matrix_is_identity, /repo/src/util-matrix.h:96-108 *)
Definition is_identity (m : matrix) : bool :=
  Qeq_bool (m 0%nat 0%nat) 1 && Qeq_bool (m 0%nat 1%nat) 0 && Qeq_bool (m 0%nat 2%nat) 0 &&
  Qeq_bool (m 1%nat 0%nat) 0 && Qeq_bool (m 1%nat 1%nat) 1 && Qeq_bool (m 1%nat 2%nat) 0 &&
  Qeq_bool (m 2%nat 0%nat) 0 && Qeq_bool (m 2%nat 1%nat) 0 && Qeq_bool (m 2%nat 2%nat) 1.
(** matrix_mult, /repo/src/util-matrix.h:110-129 *)
Definition mult (m1 m2 : matrix) : matrix :=
  fun row col => fold_left (fun v i => v + m1 row i * m2 i col) [0; 1; 2]%nat 0.
(** conversion of a floating point value to int *)
Definition to_int (q : Q) : Z := Z.quot (Qnum q) (Zpos (Qden q)).
(** matrix_mult_vec, /repo/src/util-matrix.h:131-141 *)
Definition mult_vec (m : matrix) (x y : Z) : Z * Z :=
  (to_int (inject_Z x * m 0%nat 0%nat + inject_Z y * m 0%nat 1%nat + m 0%nat 2%nat),
   to_int (inject_Z x * m 1%nat 0%nat + inject_Z y * m 1%nat 1%nat + m 1%nat 2%nat)).
(** matrix_to_farray6, /repo/src/util-matrix.h:143-152 *)
Definition to_farray6 (m : matrix) : list Q :=
  [m 0%nat 0%nat; m 0%nat 1%nat; m 0%nat 2%nat; m 1%nat 0%nat; m 1%nat 1%nat; m 1%nat 2%nat].
(** matrix_to_relative, /repo/src/util-matrix.h:154-162 *)
Definition to_relative (src : matrix) : matrix :=
  put (put (put (put init_identity 0 0 (src 0%nat 0%nat)) 0 1 (src 0%nat 1%nat)) 1 0 (src 1%nat 0%nat)) 1 1 (src 1%nat 1%nat).

(** struct input_absinfo, the fields used *)
Record absinfo := { minimum : Z; maximum : Z; resolution : Z }.
(** device->abs, /repo/src/evdev.h:187-202, the fields used *)
Record dev := { ax : absinfo; ay : absinfo; apply_calibration : bool; calibration : matrix;
                default_calibration : matrix; usermatrix : matrix }.
(** the device as created, /repo/src/evdev.c:2282-2284 *)
Definition dev_init (x y : absinfo) : dev :=
  {| ax := x; ay := y; apply_calibration := false; calibration := init_identity;
     default_calibration := init_identity; usermatrix := init_identity |}.
(** evdev_device_calibrate, /repo/src/evdev.c:2360-2422 *)
Definition device_calibrate (d : dev) (cal : list Q) : dev :=
  let transform := from_farray6 cal in
  let app := negb (is_identity transform) in
  if negb app then
    {| ax := ax d; ay := ay d; apply_calibration := app; calibration := init_identity;
       default_calibration := default_calibration d; usermatrix := from_farray6 cal |}
  else
    let sx := inject_Z (maximum (ax d) - minimum (ax d) + 1) in
    let sy := inject_Z (maximum (ay d) - minimum (ay d) + 1) in
    let translate := init_translate (inject_Z (minimum (ax d))) (inject_Z (minimum (ay d))) in
    let scale := init_scale sx sy in
    let scale := mult translate scale in
    let transform := mult scale transform in
    let translate := init_translate (inject_Z (- minimum (ax d)) / sx) (inject_Z (- minimum (ay d)) / sy) in
    let scale := init_scale (1 / sx) (1 / sy) in
    let scale := mult translate scale in
    {| ax := ax d; ay := ay d; apply_calibration := app; calibration := mult transform scale;
       default_calibration := default_calibration d; usermatrix := from_farray6 cal |}.
(** evdev_device_set_default_calibration, /repo/src/evdev.c:2352-2358 *)
Definition set_default_calibration (d : dev) (cal : list Q) : dev :=
  device_calibrate {| ax := ax d; ay := ay d; apply_calibration := apply_calibration d; calibration := calibration d;
                      default_calibration := from_farray6 cal; usermatrix := usermatrix d |} cal.
(** evdev_transform_absolute, /repo/src/evdev.c:331-339 *)
Definition transform_absolute (d : dev) (x y : Z) : Z * Z :=
  if negb (apply_calibration d) then (x, y) else mult_vec (calibration d) x y.
(** evdev_transform_relative, /repo/src/evdev.c:341-352 *)
Definition transform_relative (d : dev) (x y : Z) : Z * Z :=
  if negb (apply_calibration d) then (x, y) else mult_vec (to_relative (calibration d)) x y.

(** The calibration configuration, /repo/src/libinput.c:3801-3836 with
    /repo/src/evdev.c:511-550, for a device that has both axes; without them
    every set is UNSUPPORTED and every get 0. *)
Definition calibration_set_matrix (d : dev) (m : list Q) : dev := device_calibrate d m.
Definition calibration_get_matrix (d : dev) : bool * list Q := (negb (is_identity (usermatrix d)), to_farray6 (usermatrix d)).
Definition calibration_get_default_matrix (d : dev) : bool * list Q :=
  (negb (is_identity (default_calibration d)), to_farray6 (default_calibration d)).

(** The rotation configuration.  [avail]: the device is a trackball, the only
    kind for which fallback_init_rotation installs it,
    /repo/src/evdev-fallback.c:1560-1574 *)
Inductive status := SUCCESS | UNSUPPORTED | INVALID.
Record rot := { avail : bool; angle : Z; rmatrix : matrix }.
Definition rot_init (avail_ : bool) : rot := {| avail := avail_; angle := 0; rmatrix := init_identity |}.
(** libinput_device_config_rotation_set_angle, /repo/src/libinput.c:4317-4329,
    with fallback_rotation_config_set_angle, /repo/src/evdev-fallback.c:1532-1543 *)
Definition config_rotation_set_angle (r : rot) (deg : Z) : status * rot :=
  if negb (avail r) then (if Z.eqb deg 0 then SUCCESS else UNSUPPORTED, r)
  else if ((360 <=? deg)%Z || negb (Z.eqb (deg mod 90) 0))%bool then (INVALID, r)
  else (SUCCESS, {| avail := avail r; angle := deg; rmatrix := init_rotate deg |}).
(** libinput_device_config_rotation_get_angle, /repo/src/libinput.c:4331-4338 *)
Definition config_rotation_get_angle (r : rot) : Z := if negb (avail r) then 0%Z else angle r.
(** fallback_rotate_relative, /repo/src/evdev-fallback.c:159-173 *)
Definition rotate_relative (r : rot) (x y : Z) : Z * Z := if negb (avail r) then (x, y) else mult_vec (rmatrix r) x y.

(** scale_axis, /repo/src/evdev.c:354-359 *)
Definition scale_axis (a : absinfo) (val to_range : Q) : Q :=
  (val - inject_Z (minimum a)) * to_range / inject_Z (maximum a - minimum a + 1).
(** evdev_device_transform_x, evdev_device_transform_y, /repo/src/evdev.c:361-375: what the
    accessors _get_x_transformed and _get_y_transformed of pointer, touch and
    tablet events return, /repo/src/libinput.c:620-648, 840-868, 1415-1450 *)
Definition device_transform_x (d : dev) (x : Q) (width : Z) : Q := scale_axis (ax d) x (inject_Z width).
Definition device_transform_y (d : dev) (y : Q) (height : Z) : Q := scale_axis (ay d) y (inject_Z height).
(** evdev_convert_to_mm, /repo/src/evdev.h:629-634: what _get_x and _get_y
    return, /repo/src/libinput.c:594-618, 826-838, 870-882, 1212-1243.  A zero
    resolution is an infinity in C and 0 here. *)
Definition convert_to_mm (a : absinfo) (v : Q) : Q := (v - inject_Z (minimum a)) / inject_Z (resolution a).
(** evdev_device_get_size, /repo/src/evdev.c:2524-2542; [None]: -1 *)
Definition device_get_size (d : dev) (fake : bool) : option (Q * Q) :=
  if (fake || Z.eqb (resolution (ax d)) 0 || Z.eqb (resolution (ay d)) 0)%bool then None
  else Some (convert_to_mm (ax d) (inject_Z (maximum (ax d))), convert_to_mm (ay d) (inject_Z (maximum (ay d)))).
