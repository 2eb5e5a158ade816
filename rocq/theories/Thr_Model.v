(** Model: how a touchpad is set up to tell touches from fingers that hover, and
    where its palm zones are (evdev-mt-touchpad.c:3223-3387, 3438-3470,
    3499-3629).

    Arithmetic on doubles is exact here; the conversions to int truncate towards
    zero as in C.  The ranges of the quirks are what parse_range_property
    gives (Parse_Model).  Log messages are left out. *)
From Coq Require Import ZArith List Bool String.
From Verif Require Import Str_Model Parse_Model Tp_Model.
Open Scope Z_scope.

(** struct input_absinfo *)
Record axis := { amin : Z; amax : Z; ares : Z }.

Definition range (a : axis) : Z := amax a - amin a.

(** What is known of the device.  [p_axis]: ABS_MT_PRESSURE on devices with
    slots, else ABS_PRESSURE. *)
Record device := {
  ax : axis; ay : axis;
  no_resolution : bool;        (* abs.is_fake_resolution *)
  multitouch : bool;           (* tp->has_mt *)
  p_mt : option axis;          (* ABS_MT_PRESSURE *)
  p_st : option axis;          (* ABS_PRESSURE *)
  touch_major : bool;          (* ABS_MT_TOUCH_MAJOR *)
  slots : Z;
  q_pressure : option (Z * Z); (* AttrPressureRange: upper, lower *)
  q_size : option (Z * Z);     (* AttrTouchSizeRange *)
  q_palm_pressure : option Z;  (* AttrPalmPressureThreshold *)
  q_palm_size : option Z;      (* AttrPalmSizeThreshold *)
  external : bool;             (* EVDEV_TAG_EXTERNAL_TOUCHPAD *)
  combo_below : bool;          (* tp_is_tpkb_combo_below *)
  tablet : bool;               (* EVDEV_TAG_TABLET_TOUCHPAD *)
  topbuttons : bool
}.

(** tp_init_pressurepad, evdev-mt-touchpad.c:3611-3629: the pressure axes left *)
Definition pressurepad (d : device) : bool :=
  match p_mt d with Some a => negb (ares a =? 0) | None => false end.
Definition p_axis (d : device) : option axis :=
  if pressurepad d then None
  else if multitouch d then p_mt d else p_st d.

(** tp_init_touch_size, evdev-mt-touchpad.c:3559-3609 *)
Definition init_touch_size (d : device) : option (Z * Z) :=
  if negb (touch_major d) then None
  else match q_size d with
       | None => None
       | Some (hi, lo) =>
           if slots d <? 5 then None
           else if (hi =? 0) && (lo =? 0) then None
           else Some (hi, lo)
       end.

(** The thresholds without a quirk, evdev-mt-touchpad.c:3528-3533 *)
Definition percent (a : axis) (n : Z) : Z := Z.quot (100 * amin a + n * range a) 100.

(** tp_init_pressure, evdev-mt-touchpad.c:3499-3557 *)
Definition init_pressure (d : device) : option (Z * Z) :=
  match p_axis d with
  | None => None
  | Some a =>
      let check hi lo :=
        if (amax a <? hi) || (hi <? amin a) || (amax a <? lo) || (lo <? amin a)
        then None else Some (hi, lo) in
      match q_pressure d with
      | Some (hi, lo) => if (hi =? 0) && (lo =? 0) then None else check hi lo
      | None => check (percent a 12) (percent a 10)
      end
  end.

(** tp_init, evdev-mt-touchpad.c:3653-3656, and the choice of
    tp_unhover_touches, :1396-1406 *)
Definition init_mode (d : device) : hover_mode :=
  match init_touch_size d with
  | Some (hi, lo) => BySize lo hi
  | None => match init_pressure d with
            | Some (hi, lo) => ByPressure lo hi
            | None => ByFake
            end
  end.

(** tp_init_default_resolution, evdev-mt-touchpad.c:3438-3470: the axes it
    leaves *)
Definition with_res (a : axis) (mm : Z) : axis :=
  {| amin := amin a; amax := amax a; ares := Z.quot (Z.abs (range a)) mm |}.
Definition default_resolution (d : device) : axis * axis :=
  if no_resolution d then (with_res (ax d) 69, with_res (ay d) 50) else (ax d, ay d).

(** A length in mm as a fraction: numerator and denominator. *)
Definition mm := (Z * Z)%type.

(** evdev_device_get_size, evdev.c:2524-2542: [garbage] is what the two
    variables of the caller hold, left as they are without a resolution *)
Definition get_size (x y : axis) (garbage : mm * mm) : mm * mm :=
  if (ares x =? 0) || (ares y =? 0) then garbage
  else ((range x, ares x), (range y, ares y)).

(** evdev_device_mm_to_units, evdev.h:909-930, of the length n/d *)
Definition to_units (a : axis) (n d : Z) : Z := Z.quot (n * ares a + d * amin a) d.

Record zones := { left : Z; right : Z; upper : Z }.

(** INT_MIN and INT_MAX: no zones, evdev-mt-touchpad.c:3365-3367 *)
Definition no_zones : zones := {| left := -2147483648; right := 2147483647; upper := -2147483648 |}.

(** tp_init_palmdetect_edge, evdev-mt-touchpad.c:3244-3278, as far as
    tp_init_palmdetect, :3360-3388, calls it *)
Definition palm_zones (d : device) (garbage : mm * mm) : zones :=
  let '(x, y) := default_resolution d in
  if tablet d || (external d && negb (combo_below d)) then no_zones
  else
    let '((wn, wd), (hn, hd)) := get_size x y garbage in
    if wn <? 70 * wd then no_zones
    else
      let side := Z.min (800 * wd) (8 * wn) in   (* / (100 wd) mm *)
      {| left := to_units x side (100 * wd);
         right := to_units x (100 * wn - side) (100 * wd);
         upper := if negb (topbuttons d) && (55 * hd <? hn)
                  then to_units y (5 * hn) (100 * hd) else upper no_zones |}.

(** tp_palm_in_side_edge and tp_palm_in_top_edge,
    evdev-mt-touchpad.c:849-860 *)
Definition in_side (z : zones) (x : Z) : bool := (x <? left z) || (right z <? x).
Definition in_top (z : zones) (y : Z) : bool := y <? upper z.

(** tp_init_palmdetect_pressure and _size, evdev-mt-touchpad.c:3280-3341, as far as
    tp_init_palmdetect, :3371-3387, calls them: the thresholds in use *)
Definition palm_on (d : device) : bool :=
  negb (external d && negb (combo_below d) && negb (tablet d)).
Definition palm_pressure (d : device) : option Z :=
  if palm_on d && negb (pressurepad d) then
    match p_mt d with
    | Some _ => Some (match q_palm_pressure d with Some t => t | None => 130 end)
    | None => None
    end
  else None.
Definition palm_size (d : device) : option Z :=
  if palm_on d then
    match q_palm_size d with
    | Some t => if t =? 0 then None else Some t
    | None => None
    end
  else None.

(** tp_guess_clickpad, evdev-mt-touchpad-buttons.c:938-968: [buttonpad] is
    INPUT_PROP_BUTTONPAD, [onebutton] the model of Apple's touchpad with one
    physical button *)
Definition guess_clickpad (buttonpad has_left has_right onebutton : bool) : bool :=
  if buttonpad then negb has_right
  else has_left && negb has_right && negb onebutton.

(** tp_init_thumb, evdev-mt-touchpad-thumb.c:383-418: the upper and lower line
    if thumbs are looked for; the size is zero if it is not known *)
Definition thumb_lines (clickpad : bool) (d : device) : option (Z * Z) :=
  let '(x, y) := default_resolution d in
  if negb clickpad then None
  else
    let '(_, (hn, hd)) := get_size x y ((0, 1), (0, 1)) in
    if hn <? 50 * hd then None
    else Some (to_units y (85 * hn) (100 * hd), to_units y (92 * hn) (100 * hd)).

(** A touch between the upper line and the bottom edge, one below the lower
    line, evdev-mt-touchpad-thumb.c:85-91, 117 *)
Definition below_upper (l : Z * Z) (y : Z) : bool := negb (y <? fst l).
Definition below_lower (l : Z * Z) (y : Z) : bool := snd l <? y.
