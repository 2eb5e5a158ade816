(** * Pointer acceleration: src/filter.c, src/filter-private.h and the seven filters, and their configuration *)
(** Doubles are exact rationals.  hypot and pow are parameters ([math]); so is xy_get_direction (modelled in Gest_Model): nothing proved here depends on it.
    Times are Z: in the code tracker times are only subtracted from later ones. *)
Require Import Coq.ZArith.ZArith Coq.QArith.QArith Coq.QArith.Qabs Coq.Lists.List Coq.Bool.Bool.
Import ListNotations.
Open Scope Q_scope.

Record math := {
  hyp : Q -> Q -> Q;        (* hypot *)
  dirf : Q -> Q -> Z;       (* device_float_get_direction, /repo/src/libinput-private.h:842-846 *)
  pow_speed : Q -> Q;       (* pow(x, 2.377168), in speed_factor *)
  pow_tp : Q -> Q }.        (* pow(x, 1.15363), in trackpoint_accel_profile *)
Definition qlt (a b : Q) : bool := negb (Qle_bool b a).
Definition qmin (a b : Q) : Q := if qlt a b then a else b.    (* min, /repo/src/util-macros.h:34 *)
Definition qmax (a b : Q) : Q := if qlt b a then a else b.    (* max, /repo/src/util-macros.h:35 *)
Definition DEFAULT_MOUSE_DPI : Q := 1000.
Definition MOTION_TIMEOUT : Z := 1000000.
Definition UNDEFINED_DIRECTION : Z := 255.

(** ** Trackers, /repo/src/filter.c:92-100 and the functions below it *)
Record tracker := { d_x : Q; d_y : Q; d_t : Z; d_dir : Z }.
Record trackers := { ts : list tracker; curi : nat }.
Definition tracker0 : tracker := {| d_x := 0; d_y := 0; d_t := 0; d_dir := 0 |}.
Definition trackers_init (n : nat) : trackers := {| ts := repeat tracker0 n; curi := 0 |}.
(** /repo/src/filter.c:153-160 *)
Definition offset_index (tr : trackers) (k : nat) : nat := (curi tr + length (ts tr) - k) mod length (ts tr).
Definition by_offset (tr : trackers) (k : nat) : tracker := nth (offset_index tr k) (ts tr) tracker0.
Fixpoint put (l : list tracker) (i : nat) (x : tracker) {struct l} : list tracker :=
  match l, i with [], _ => [] | _ :: l, O => x :: l | y :: l, S i => y :: put l i x end.
(** /repo/src/filter.c:129-151 *)
Definition feed (m : math) (tr : trackers) (x y : Q) (t : Z) : trackers :=
  let l := map (fun k => {| d_x := d_x k + x; d_y := d_y k + y; d_t := d_t k; d_dir := d_dir k |}) (ts tr) in
  let c := (curi tr + 1) mod length (ts tr) in
  {| ts := put l c {| d_x := 0; d_y := 0; d_t := t; d_dir := dirf m x y |}; curi := c |}.
(** /repo/src/filter.c:109-127, and accelerator_restart_x230, which is the same: the current tracker keeps its delta (always 0) *)
Definition reset (tr : trackers) (t : Z) : trackers :=
  let k := by_offset tr 0 in
  {| ts := put (repeat tracker0 (length (ts tr))) (offset_index tr 0) {| d_x := d_x k; d_y := d_y k; d_t := t; d_dir := UNDEFINED_DIRECTION |}; curi := curi tr |}.
(** /repo/src/filter.c:162-174; [sm]: the smoothener's threshold and value *)
Definition tracker_velocity (m : math) (sm : option (Z * Z)) (k : tracker) (t : Z) : Q :=
  let td := (t - d_t k + 1)%Z in
  let td := match sm with Some (th, v) => if (td <? th)%Z then v else td | None => td end in
  hyp m (d_x k) (d_y k) / inject_Z td.
(** /repo/src/filter.c:176-194 *)
Definition velocity_after_timeout (m : math) (sm : option (Z * Z)) (k : tracker) : Q := tracker_velocity m sm k (d_t k + MOTION_TIMEOUT)%Z.
(** /repo/src/filter.c:203-264: the loop over the offsets from [k], [n] of them *)
Definition MAX_VELOCITY_DIFF : Q := 1 # 1000.
Fixpoint velocity_loop (m : math) (sm : option (Z * Z)) (tr : trackers) (t : Z) (n k : nat) (dir : Z) (initial result : Q) {struct n} : Q :=
  match n with
  | O => result
  | S n =>
    let tk := by_offset tr k in
    if (t <? d_t tk)%Z then result
    else if (MOTION_TIMEOUT <? t - d_t tk)%Z then (if Nat.eqb k 1 then velocity_after_timeout m sm tk else result)
    else
      let v := tracker_velocity m sm tk t in
      let dir := Z.land dir (d_dir tk) in
      if (dir =? 0)%Z then (if Nat.eqb k 1 then v else result)
      else if Qeq_bool initial 0 || Nat.leb k 2 then velocity_loop m sm tr t n (S k) dir v v
      else if qlt MAX_VELOCITY_DIFF (Qabs (initial - v)) then result
      else velocity_loop m sm tr t n (S k) dir initial v
  end.
Definition velocity (m : math) (sm : option (Z * Z)) (tr : trackers) (t : Z) : Q :=
  velocity_loop m sm tr t (length (ts tr) - 1) 1 (d_dir (by_offset tr 0)) 0 0.

(** ** The filters *)
Inductive kind :=
| Mouse          (* filter-mouse.c *)
| LowDpi         (* filter-low-dpi.c *)
| X230           (* filter-touchpad-x230.c *)
| Touchpad       (* filter-touchpad.c *)
| Trackpoint     (* filter-trackpoint.c *)
| Flat           (* filter-flat.c *)
| TouchpadFlat   (* filter-touchpad-flat.c *)
| Tablet.        (* filter-tablet.c, [mouse_tool] says whether the tool is a mouse or a lens cursor *)
(** One record for all: [thr], [acc], [inc]: threshold, accel, incline; [fac]: factor or speed_factor; [mult]: the trackpoint's multiplier; [res]: the tablet's resolution *)
Record filter := { fk : kind; dpi : Z; mult : Q; res : Z * Z; sm : option (Z * Z);
  speed : Q (* speed_adjustment *); thr : Q; acc : Q; inc : Q; fac : Q; lastv : Q; tr : trackers }.
Definition with_tr (f : filter) (v : Q) (k : trackers) : filter :=
  {| fk := fk f; dpi := dpi f; mult := mult f; res := res f; sm := sm f; speed := speed f; thr := thr f; acc := acc f; inc := inc f; fac := fac f; lastv := v; tr := k |}.
(** The create functions; zalloc aborts when memory runs out.  [avg]: use_velocity_averaging *)
Definition create (k : kind) (dpi : Z) (mult : Q) (res : Z * Z) (sm : option (Z * Z)) (avg : bool) : filter :=
  {| fk := k; dpi := dpi; mult := mult; res := res; sm := sm; speed := 0;
     thr := match k with Mouse | LowDpi | X230 => 4 # 10000 | Touchpad => 130 | _ => 0 end;
     acc := match k with Mouse | LowDpi | X230 => 2 | _ => 0 end;
     inc := match k with Mouse | LowDpi | X230 => 11 # 10 | _ => 0 end;
     fac := match k with Tablet => 1 | _ => 0 end; lastv := 0; tr := trackers_init (if avg then 16 else 2) |}.
(** /repo/src/filter-mouse.c:225-299; v_us2ms(x) = 1000 x *)
Definition profile_mouse (f : filter) (v : Q) : Q :=
  let v := v * DEFAULT_MOUSE_DPI / inject_Z (dpi f) in
  let x := if qlt (1000 * v) (7 # 100) then 10 * (1000 * v) + (3 # 10)
           else if qlt v (thr f) then 1 else inc f * (1000 * (v - thr f)) + 1 in
  qmin (acc f) x.
(** /repo/src/filter-low-dpi.c:73-104 *)
Definition profile_low_dpi (f : filter) (v : Q) : Q :=
  let df := inject_Z (dpi f) / DEFAULT_MOUSE_DPI in
  let th := thr f * df in
  let x := if qlt (1000 * v) (7 # 100) then 10 * (1000 * v) + (3 # 10)
           else if qlt v th then 1 else inc f * (1000 * (v - th)) + 1 in
  qmin (acc f / df) x.
(** /repo/src/filter-touchpad-x230.c:247-284 *)
Definition profile_x230 (f : filter) (v : Q) : Q :=
  let th := thr f / 4 in
  let v := v * ((4 # 10) / 4) in
  let f1 := qmin 1 (1000 * v * 5) in
  let f2 := 1 + (1000 * v - 1000 * th) * (inc f * 4) in
  qmin (acc f * 4) (if qlt 1 f2 then f2 else f1) * (4 # 10) / 4.
(** /repo/src/filter-touchpad.c:228-314 *)
Definition profile_touchpad (f : filter) (v : Q) : Q :=
  let v := 1000000 * v * (254 # 10) / inject_Z (dpi f) in
  let x := if qlt v 7 then qmin (9 # 10) ((1 # 10) * v + (3 # 10))
           else if qlt v (thr f) then 9 # 10
           else let v := qmin v (thr f * 4) in (25 # 10000) * (v / thr f) * (v - thr f) + (9 # 10) in
  x * fac f * (2968 # 10000).
(** /repo/src/filter-trackpoint.c:47-71 *)
Definition profile_trackpoint (m : math) (f : filter) (v : Q) : Q :=
  ((1006254 # 100000) + ((3 # 10) - (1006254 # 100000)) / (1 + pow_tp m (1000 * v / (9205459 # 10000000)))) * fac f.
Definition profile (m : math) (f : filter) (v : Q) : Q :=
  match fk f with
  | Mouse => profile_mouse f v | LowDpi => profile_low_dpi f v | X230 => profile_x230 f v | Touchpad => profile_touchpad f v
  | Trackpoint => profile_trackpoint m f v | _ => fac f
  end.
(** /repo/src/filter.c:278-299, and calculate_acceleration in filter-touchpad-x230.c *)
Definition simpsons (m : math) (f : filter) (v last : Q) : Q := (profile m f v + profile m f last + 4 * profile m f ((last + v) / 2)) / 6.
(** /repo/src/filter-private.h:119-128 *)
Definition normalize (f : filter) (x : Q) : Q := x * DEFAULT_MOUSE_DPI / inject_Z (dpi f).
(** calculate_acceleration_factor in each of the files: feeds the trackers, too *)
Definition factor (m : math) (f : filter) (x y : Q) (t : Z) : Q * filter :=
  let k := feed m (tr f) x y t in
  let v := velocity m (sm f) k t in
  match fk f with
  | Trackpoint => (profile m f v, with_tr f (lastv f) k)      (* no averaging, last_velocity is not used *)
  | _ => (simpsons m f v (lastv f), with_tr f v k)
  end.
(** filter_dispatch; [mouse_tool] is for tablets, /repo/src/filter-tablet.c:95-121 *)
Definition dispatch (m : math) (f : filter) (mouse_tool : bool) (x y : Q) (t : Z) : (Q * Q) * filter :=
  match fk f with
  | Mouse | X230 =>      (* accelerator_filter_pre_normalized, accelerator_filter_x230 *)
      let x := normalize f x in let y := normalize f y in
      let '(c, f) := factor m f x y t in ((c * x, c * y), f)
  | LowDpi =>            (* accelerator_filter_unnormalized *)
      let '(c, f) := factor m f x y t in ((c * x, c * y), f)
  | Touchpad =>          (* accelerator_filter_post_normalized *)
      let '(c, f) := factor m f x y t in ((normalize f (c * x), normalize f (c * y)), f)
  | Trackpoint =>        (* trackpoint_accelerator_filter *)
      let x := x * mult f in let y := y * mult f in
      let '(c, f) := factor m f x y t in ((x * c, y * c), f)
  | Flat => ((fac f * x, fac f * y), f)
  | TouchpadFlat => (((2968 # 10000) * fac f * x, (2968 # 10000) * fac f * y), f)
  | Tablet =>
      if mouse_tool then ((x * (DEFAULT_MOUSE_DPI / ((254 # 10) * inject_Z (fst (res f)))) * fac f, y * (DEFAULT_MOUSE_DPI / ((254 # 10) * inject_Z (snd (res f)))) * fac f), f)
      else ((x / inject_Z (fst (res f)) * fac f * (96 / (254 # 10) * (25 # 10)), y / inject_Z (snd (res f)) * fac f * (96 / (254 # 10) * (25 # 10))), f)
  end.
(** filter_dispatch_constant, for gestures and scrolling; tablets have none *)
Definition constant (f : filter) (x : Q) : Q :=
  match fk f with
  | Mouse | LowDpi | Flat => normalize f x
  | X230 => ((4 # 10) / 4) * normalize f x
  | Touchpad => (9 # 10) * (2968 # 10000) * normalize f x
  | TouchpadFlat => (2968 # 10000) * normalize f x
  | Trackpoint => x * mult f
  | Tablet => x
  end.
(** filter_restart *)
Definition restart (f : filter) (t : Z) : filter :=
  match fk f with Flat | TouchpadFlat | Tablet => f | _ => with_tr f (lastv f) (reset (tr f) t) end.
(** speed_factor, /repo/src/filter-touchpad.c:159-165, /repo/src/filter-trackpoint.c:129-135 *)
Definition speed_factor (m : math) (s : Q) : Q :=
  (4358372 # 10) + ((4762636 # 100000000) - (4358372 # 10)) / (1 + pow_speed m ((s + 1) / (2404549 # 10000))).
(** filter_set_speed; the assertions on the range are met by the only caller, [set_speed] below *)
Definition filter_set_speed (m : math) (f : filter) (s : Q) : filter :=
  let th := (4 # 10000) - (25 # 100000) * s in
  {| fk := fk f; dpi := dpi f; mult := mult f; res := res f; sm := sm f;
     speed := match fk f with Tablet => speed f | _ => s end;     (* tablet_accelerator_set_speed does not set it *)
     thr := match fk f with Mouse | LowDpi | X230 => if qlt th (2 # 10000) then 2 # 10000 else th | _ => thr f end;
     acc := match fk f with Mouse | LowDpi | X230 => 2 + s * (15 # 10) | _ => acc f end;
     inc := match fk f with Mouse | LowDpi | X230 => (11 # 10) + s * (75 # 100) | _ => inc f end;
     fac := match fk f with Touchpad | Trackpoint => speed_factor m s | Flat | TouchpadFlat => qmax (5 # 1000) (1 + s) | Tablet => s + 1 | _ => fac f end;
     lastv := lastv f; tr := tr f |}.

(** ** The device and its configuration *)
Inductive dev_class :=
| DMouse (dpi : Z) (avg : bool)                           (* anything but the ones below *)
| DTrackpoint (dpi : Z) (mult : Q) (avg : bool)           (* EVDEV_TAG_TRACKPOINT *)
| DTouchpad (dpi : Z) (x230 bluetooth avg : bool)
| DTablet (resx resy : Z).                                (* also the totem *)
Inductive acc_profile := P_NONE | P_FLAT | P_ADAPTIVE.
(** /repo/src/evdev.c:1092-1116, /repo/src/evdev-mt-touchpad.c:2957-3001, /repo/src/evdev-tablet.c:2313-2337 *)
Definition init_accel (c : dev_class) (which : acc_profile) : filter :=
  match c, which with
  | DMouse d avg, P_FLAT | DTrackpoint d _ avg, P_FLAT => create Flat d 1 (1, 1)%Z None avg
  | DTrackpoint d mu avg, _ => create Trackpoint d mu (1, 1)%Z (Some (10000, 10000)%Z) avg
  | DMouse d avg, _ => if (d <? 1000)%Z then create LowDpi d 1 (1, 1)%Z None avg else create Mouse d 1 (1, 1)%Z None avg
  | DTouchpad d _ _ avg, P_FLAT => create TouchpadFlat d 1 (1, 1)%Z None avg
  | DTouchpad d true _ avg, _ => create X230 d 1 (1, 1)%Z None avg
  | DTouchpad d false bt avg, _ => create Touchpad d 1 (1, 1)%Z (Some (if bt then (50000, 10000) else (0, 0))%Z) avg
  | DTablet rx ry, _ => create Tablet 1 1 (rx, ry) None false
  end.
(** filter_get_type *)
Definition filter_type (f : filter) : acc_profile := match fk f with Flat | TouchpadFlat | Tablet => P_FLAT | _ => P_ADAPTIVE end.
Record adev := { cls : dev_class; flt : filter }.
(** /repo/src/evdev.c:1209-1231: the first time, with the default speed *)
Definition adev_init (m : math) (c : dev_class) : adev := {| cls := c; flt := filter_set_speed m (init_accel c P_ADAPTIVE) 0 |}.
Inductive cfg_status := SUCCESS | UNSUPPORTED | INVALID.
(** /repo/src/libinput.c:3885-3897, /repo/src/evdev.c:1126-1135; None: NaN *)
Definition set_speed (m : math) (d : adev) (s : option Q) : cfg_status * adev :=
  match s with
  | None => (INVALID, d)
  | Some s => if Qle_bool (-1) s && Qle_bool s 1 then (SUCCESS, {| cls := cls d; flt := filter_set_speed m (flt d) s |}) else (INVALID, d)
  end.
(** /repo/src/evdev.c:1137-1143, /repo/src/evdev.c:1145-1149 *)
Definition get_speed (d : adev) : Q := speed (flt d).
Definition get_default_speed (d : adev) : Q := 0.
Definition is_tablet (d : adev) : bool := match cls d with DTablet _ _ => true | _ => false end.
(** The getters, /repo/src/evdev.c:1151-1161, /repo/src/evdev-tablet.c:2288-2292 *)
Definition profile_supported (d : adev) (p : acc_profile) : bool := negb (is_tablet d) && match p with P_NONE => false | _ => true end.
Definition get_profile (d : adev) : acc_profile := if is_tablet d then P_NONE else filter_type (flt d).
Definition get_default_profile (d : adev) : acc_profile := if is_tablet d then P_NONE else P_ADAPTIVE.
Definition profile_eqb (a b : acc_profile) : bool := match a, b with P_NONE, P_NONE | P_FLAT, P_FLAT | P_ADAPTIVE, P_ADAPTIVE => true | _, _ => false end.
(** /repo/src/libinput.c:3943-3960, /repo/src/evdev.c:1163-1187, /repo/src/evdev-mt-touchpad.c:3014-3039 *)
Definition set_profile (m : math) (d : adev) (p : acc_profile) : cfg_status * adev :=
  match p with
  | P_NONE => (INVALID, d)
  | _ => if negb (profile_supported d p) then (UNSUPPORTED, d)
         else if profile_eqb (filter_type (flt d)) p then (SUCCESS, d)
         else (SUCCESS, {| cls := cls d; flt := filter_set_speed m (init_accel (cls d) p) (speed (flt d)) |})
  end.

(** What happens to a device: motion, constant motion, a restart (a finger came down), settings *)
Inductive ainput :=
| Motion (mouse_tool : bool) (x y : Q) (t : Z)
| Constant (x y : Q) (t : Z)
| Restart (t : Z)
| SetSpeed (s : option Q)
| SetProfile (p : acc_profile).
Definition astep (m : math) (d : adev) (i : ainput) : adev * option (Q * Q) :=
  match i with
  | Motion mt x y t => let '(o, f) := dispatch m (flt d) mt x y t in ({| cls := cls d; flt := f |}, Some o)
  | Constant x y t => (d, Some (constant (flt d) x, constant (flt d) y))
  | Restart t => ({| cls := cls d; flt := restart (flt d) t |}, None)
  | SetSpeed s => (snd (set_speed m d s), None)
  | SetProfile p => (snd (set_profile m d p), None)
  end.
Definition arun (m : math) (d : adev) (l : list ainput) : adev := fold_left (fun d i => fst (astep m d i)) l d.
