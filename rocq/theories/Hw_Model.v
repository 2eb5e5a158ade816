(** Model: what libinput reads of a device's udev properties and quirks when it
    is configured: the angle of its wheel, its resolution in dpi, the
    trackpoint multiplier, the fuzz of its axes, and whether it is built in or
    external (evdev.c, evdev-mt-touchpad.c).

    udev's properties, the quirks, the bus, the vendor and the kernel's axes
    are arbitrary inputs.  Angles and multipliers are exact rationals.  Log
    messages are left out. *)
Require Import Coq.Strings.Ascii Coq.Strings.String Coq.ZArith.ZArith Coq.QArith.QArith Coq.Lists.List Coq.Bool.Bool.
Require Import Verif.Str_Model Verif.Parse_Model.
Import ListNotations.
Open Scope Z_scope.

(** udev_device_get_property_value: the value of a property, if it has one. *)
Definition props := string -> option str.

(** /repo/src/evdev.c:52 and /repo/src/libinput-util.h:57 *)
Definition DEFAULT_WHEEL_CLICK_ANGLE : Q := 15 # 1.
Definition DEFAULT_MOUSE_DPI : Z := 1000.

(** evdev_read_wheel_click_prop, /repo/src/evdev.c:1233-1257: whether there is a
    valid angle, and the angle *)
Definition read_click_angle (p : props) (name : string) : bool * Q :=
  match p name with
  | None => (false, DEFAULT_WHEEL_CLICK_ANGLE)
  | Some s => let val := parse_wheel s in
              if val =? 0 then (false, DEFAULT_WHEEL_CLICK_ANGLE) else (true, inject_Z val)
  end.

(** evdev_read_wheel_click_count_prop, /repo/src/evdev.c:1259-1283: the same
    from the number of clicks; [angle] is what was there before *)
Definition read_click_count (p : props) (name : string) (angle : Q) : bool * Q :=
  match p name with
  | None => (false, angle)
  | Some s => let val := parse_wheel s in
              if val =? 0 then (false, DEFAULT_WHEEL_CLICK_ANGLE)
              else (true, Qdiv (360 # 1) (inject_Z val))
  end.

(** One of the two conditions "count || angle" of
    evdev_read_wheel_click_props, /repo/src/evdev.c:1295-1301 *)
Definition read_click (p : props) (count angle : string) (before : Q) : bool * Q :=
  let '(ok, a) := read_click_count p count before in
  if ok then (true, a) else read_click_angle p angle.

(** evdev_read_wheel_click_props, /repo/src/evdev.c:1285-1309: (x, y).  The
    struct is not initialised: [garbage] is what it holds. *)
Definition read_wheel_click_props (p : props) (garbage : Q) : Q * Q :=
  let '(_, y) := read_click p "MOUSE_WHEEL_CLICK_COUNT" "MOUSE_WHEEL_CLICK_ANGLE" garbage in
  let '(ok, x) := read_click p "MOUSE_WHEEL_CLICK_COUNT_HORIZONTAL"
                               "MOUSE_WHEEL_CLICK_ANGLE_HORIZONTAL" garbage in
  (if ok then x else y, y).

(** evdev_read_dpi_prop, /repo/src/evdev.c:1366-1392 *)
Definition read_dpi_prop (trackpoint : bool) (p : props) : Z :=
  if trackpoint then DEFAULT_MOUSE_DPI
  else match p "MOUSE_DPI"%string with
       | None => DEFAULT_MOUSE_DPI
       | Some s => match parse_mouse_dpi s with
                   | Some dpi => if dpi =? 0 then DEFAULT_MOUSE_DPI else dpi
                   | None => DEFAULT_MOUSE_DPI
                   end
       end.

(** evdev_get_trackpoint_multiplier, /repo/src/evdev.c:1311-1341; [q] is the
    quirk AttrTrackpointMultiplier, if it is set *)
Definition trackpoint_multiplier (trackpoint : bool) (q : option Q) : Q :=
  if negb trackpoint then 1
  else let multiplier := match q with Some m => m | None => 1 # 1 end in
       if Qle_bool multiplier 0 then 1 else multiplier.

(** evdev_read_fuzz_prop, /repo/src/evdev.c:2453-2498: [prop] is the axis'
    LIBINPUT_FUZZ property, [kernel] the fuzz of the axis, if the device has
    the axis *)
Definition read_fuzz_prop (prop : option str) (kernel : option Z) : Z :=
  match (match prop with
         | None => Some 0
         | Some s => match safe_atoi s with
                     | None => None
                     | Some f => if f <? 0 then None else Some f
                     end
         end) with
  | None => 0
  | Some fuzz => match kernel with
                 | None => fuzz
                 | Some k => if k =? 0 then fuzz else 0
                 end
  end.

(** evdev_extract_abs_axes, /repo/src/evdev.c:1722-1727: the fuzz an axis of
    one touch has after the configuration; [touch]: tagged as touchpad or
    touchscreen *)
Definition single_fuzz (touch : bool) (prop : option str) (kernel : Z) : Z :=
  if touch then read_fuzz_prop prop (Some kernel) else kernel.

(** evdev_extract_abs_axes, /repo/src/evdev.c:1746-1749: the same for an axis of
    many touches *)
Definition mt_fuzz (prop : option str) (kernel : Z) : Z :=
  let fuzz := read_fuzz_prop prop (Some kernel) in
  if fuzz =? 0 then kernel else fuzz.

(** The tags that say where a device is (evdev.h, enum evdev_device_tags). *)
Record tags := {
  external_mouse : bool;
  trackpoint : bool;
  keyboard : bool;
  internal_keyboard : bool;
  external_keyboard : bool;
  internal_touchpad : bool;
  external_touchpad : bool
}.
Definition no_tags : tags := Build_tags false false false false false false false.

(** linux/input.h *)
Definition BUS_USB : Z := 3.
Definition BUS_BLUETOOTH : Z := 5.
(** VENDOR_ID_LOGITECH, /repo/src/libinput-util.h:48 *)
Definition VENDOR_ID_LOGITECH : Z := 1133.

(** evdev_tag_external_mouse, /repo/src/evdev.c:408-417 *)
Definition tag_external_mouse (bus : Z) (t : tags) : tags :=
  if (bus =? BUS_USB) || (bus =? BUS_BLUETOOTH)
  then Build_tags true (trackpoint t) (keyboard t) (internal_keyboard t)
                  (external_keyboard t) (internal_touchpad t) (external_touchpad t)
  else t.

(** evdev_tag_trackpoint, /repo/src/evdev.c:419-451: [stick] is whether the kernel or
    udev calls the device a pointing stick, [q] the quirk
    AttrTrackpointIntegration *)
Definition tag_trackpoint (stick : bool) (q : option string) (t : tags) : tags :=
  if negb stick then t
  else
    let ext := match q with Some v => String.eqb v "external" | None => false end in
    Build_tags (external_mouse t || ext) true (keyboard t) (internal_keyboard t)
               (external_keyboard t) (internal_touchpad t) (external_touchpad t).

(** The two calls for a pointer in evdev_configure_device,
    /repo/src/evdev.c:1879-1882 *)
Definition tag_pointer (bus : Z) (stick : bool) (q : option string) (t : tags) : tags :=
  tag_trackpoint stick q (tag_external_mouse bus t).

(** evdev_tag_keyboard_internal and _external, /repo/src/evdev.c:453-465 *)
Definition keyboard_is (internal : bool) (t : tags) : tags :=
  Build_tags (external_mouse t) (trackpoint t) (keyboard t) internal (negb internal)
             (internal_touchpad t) (external_touchpad t).

(** KEY_Q and KEY_P, linux/input-event-codes.h *)
Definition KEY_Q : Z := 16.
Definition KEY_P : Z := 25.

(** evdev_tag_keyboard, /repo/src/evdev.c:467-503: [has] says which keys the device
    has (all false without EV_KEY), [q] is the quirk AttrKeyboardIntegration.
    The loop over the codes is the test of the whole row. *)
Definition row : list Z := [16; 17; 18; 19; 20; 21; 22; 23; 24; 25].
Definition tag_keyboard (has : Z -> bool) (q : option string) (t : tags) : tags :=
  if negb (forallb has row) then t
  else
    let t := match q with
             | Some v => if String.eqb v "internal" then keyboard_is true t
                         else if String.eqb v "external" then keyboard_is false t
                         else t
             | None => t
             end in
    Build_tags (external_mouse t) (trackpoint t) true (internal_keyboard t)
               (external_keyboard t) (internal_touchpad t) (external_touchpad t).

(** evdev_tag_touchpad_internal and _external,
    /repo/src/evdev-mt-touchpad.c:2679-2691 *)
Definition touchpad_is (internal : bool) (t : tags) : tags :=
  Build_tags (external_mouse t) (trackpoint t) (keyboard t) (internal_keyboard t)
             (external_keyboard t) internal (negb internal).

(** evdev_tag_touchpad, /repo/src/evdev-mt-touchpad.c:2693-2762: [prop] is
    ID_INPUT_TOUCHPAD_INTEGRATION, [apple] and [wacom] are the model quirks *)
Definition tag_touchpad (prop : option string) (bus vendor : Z) (apple wacom : bool) (t : tags) : tags :=
  let guess :=
    let t1 := if bus =? BUS_USB then if apple then touchpad_is true t else t
              else if bus =? BUS_BLUETOOTH then touchpad_is false t
              else touchpad_is true t in
    let t2 := if vendor =? VENDOR_ID_LOGITECH then touchpad_is false t1 else t1 in
    let t3 := if wacom then touchpad_is false t2 else t2 in
    if negb (external_touchpad t3 || internal_touchpad t3) then touchpad_is false t3 else t3 in
  match prop with
  | Some v => if String.eqb v "internal" then touchpad_is true t
              else if String.eqb v "external" then touchpad_is false t
              else guess
  | None => guess
  end.
