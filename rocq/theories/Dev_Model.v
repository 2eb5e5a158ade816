(** * Which devices are added, with which capabilities, and what they may send (C55)

    What udev says of a device and of its parent, the codes of its kernel device and its quirks
    are the inputs.  Opening the file and the steps of [evdev_device_create] around the
    configuration are in Life_Model.v. *)
Require Import Coq.ZArith.ZArith Coq.QArith.QArith Coq.Strings.String Coq.Lists.List Coq.Bool.Bool.
Import ListNotations.
Open Scope Z_scope.

(** enum evdev_device_udev_tags, /repo/src/evdev.c:55-68 *)
Inductive tag := T_INPUT | T_KEYBOARD | T_MOUSE | T_TOUCHPAD | T_TOUCHSCREEN | T_TABLET | T_TABLET_PAD | T_JOYSTICK | T_ACCELEROMETER | T_POINTINGSTICK | T_TRACKBALL | T_SWITCH.
Definition tag_eq (a b : tag) : {a = b} + {a <> b}.
Proof. decide equality. Defined.
Definition tag_eqb (a b : tag) : bool := if tag_eq a b then true else false.
(** all of them *)
Definition all_tags : list tag := [T_INPUT; T_KEYBOARD; T_MOUSE; T_TOUCHPAD; T_TOUCHSCREEN; T_TABLET; T_TABLET_PAD; T_JOYSTICK; T_ACCELEROMETER; T_POINTINGSTICK; T_TRACKBALL; T_SWITCH].
(** enum evdev_device_seat_capability, /repo/src/evdev.h:56-64 *)
Inductive cap := POINTER | KEYBOARD | TOUCH | GESTURE | TABLET_TOOL | TABLET_PAD | SWITCH.
Definition cap_eq (a b : cap) : {a = b} + {a <> b}.
Proof. decide equality. Defined.
(** enum evdev_dispatch_type, /repo/src/evdev.h:350-356 *)
Inductive kind := FALLBACK | TOUCHPAD | TABLET | PAD | TOTEM.

(** a udev device: its properties *)
Definition udev := string -> option string.
(** struct input_absinfo without value, fuzz and flat *)
Record absinfo := { amin : Z; amax : Z; ares : Z }.
(** a libevdev device: its codes.  [slots]: libevdev_get_num_slots *)
Record codes := { abs : Z -> option absinfo; rel : Z -> bool; key : Z -> bool; sw : Z -> bool; slots : Z; semi : bool }.
(** the quirks that matter: ModelDellCanvasTotem, ModelTabletModeSwitchUnreliable, ModelHPPavilionDM4Touchpad, AttrResolutionHint, AttrSizeHint, both positive (/repo/src/util-prop-parsers.c:151-167) *)
Record quirks := { q_totem : bool; q_unreliable : bool; q_dm4 : bool; q_res : option (positive * positive); q_size : option (positive * positive) }.
(** the answers of what is not modelled: whether the pad's LEDs, mtdev and the filters of the tablet, the touchpad and the pointer could be set up *)
Record oracle := { o_leds : bool; o_mtdev : bool; o_tablet : bool; o_touchpad : bool; o_accel : bool }.

(** linux/input-event-codes.h *)
Definition ABS_X := 0. Definition ABS_Y := 1. Definition ABS_Z := 2. Definition ABS_MISC := 40. Definition ABS_MT_SLOT := 47.
Definition ABS_MT_TOUCH_MAJOR := 48. Definition ABS_MT_TOUCH_MINOR := 49. Definition ABS_MT_POSITION_X := 53. Definition ABS_MT_POSITION_Y := 54. Definition ABS_MT_TOOL_TYPE := 55.
Definition REL_X := 0. Definition REL_Y := 1. Definition REL_HWHEEL := 6. Definition REL_WHEEL := 8.
Definition SW_LID := 0. Definition SW_TABLET_MODE := 1.
Definition BTN_TOOL_PEN := 320. Definition BTN_TOOL_FINGER := 325. Definition BTN_TOUCH := 330. Definition BTN_STYLUS := 331.
Definition MT_TOOL_DIAL := 10.
(** libevdev_has_event_code(EV_ABS) *)
Definition has_abs (c : codes) (n : Z) : bool := match abs c n with Some _ => true | None => false end.
(** libevdev_enable_event_code, libevdev_disable_event_code, libevdev_set_abs_resolution *)
Definition set_abs (c : codes) (n : Z) (a : option absinfo) : codes :=
  {| abs := fun m => if Z.eqb m n then a else abs c m; rel := rel c; key := key c; sw := sw c; slots := slots c; semi := semi c |}.
Definition disable_sw (c : codes) (n : Z) : codes :=
  {| abs := abs c; rel := rel c; key := key c; sw := fun m => if Z.eqb m n then false else sw c m; slots := slots c; semi := semi c |}.
Definition set_res (c : codes) (n r : Z) : codes :=
  match abs c n with Some a => set_abs c n (Some {| amin := amin a; amax := amax a; ares := r |}) | None => c end.

(** evdev_udev_tag_matches, /repo/src/evdev.c:75-89 *)
Definition matches : list (string * tag) :=
  [("ID_INPUT", T_INPUT); ("ID_INPUT_KEYBOARD", T_KEYBOARD); ("ID_INPUT_KEY", T_KEYBOARD); ("ID_INPUT_MOUSE", T_MOUSE); ("ID_INPUT_TOUCHPAD", T_TOUCHPAD); ("ID_INPUT_TOUCHSCREEN", T_TOUCHSCREEN); ("ID_INPUT_TABLET", T_TABLET); ("ID_INPUT_TABLET_PAD", T_TABLET_PAD); ("ID_INPUT_JOYSTICK", T_JOYSTICK); ("ID_INPUT_ACCELEROMETER", T_ACCELEROMETER); ("ID_INPUT_POINTINGSTICK", T_POINTINGSTICK); ("ID_INPUT_TRACKBALL", T_TRACKBALL); ("ID_INPUT_SWITCH", T_SWITCH)]%string.
(** parse_udev_flag, /repo/src/evdev.c:91-110 *)
Definition flag (u : udev) (n : string) : bool := match u n with Some v => String.eqb v "1" | None => false end.
(** evdev_device_get_udev_tags, /repo/src/evdev.c:1573-1593: the bits as a function *)
Definition tags_of (u : udev) (t : tag) : bool := existsb (fun m => tag_eqb (snd m) t && flag u (fst m)) matches.
Definition get_tags (u : udev) (parent : option udev) (t : tag) : bool := tags_of u t || match parent with Some p => tags_of p t | None => false end.
(** udev_tags == (EVDEV_UDEV_TAG_INPUT|t) *)
Definition only (t : tag) (ts : tag -> bool) : bool := forallb (fun x => Bool.eqb (ts x) (tag_eqb x T_INPUT || tag_eqb x t)) all_tags.
(** evdev_is_fake_mt_device, /repo/src/evdev.c:901-908 *)
Definition fake_mt (c : codes) : bool := has_abs c ABS_MT_SLOT && Z.eqb (slots c) (-1).
(** evdev_need_mtdev, /repo/src/evdev.c:888-896 *)
Definition need_mtdev (c : codes) : bool := has_abs c ABS_MT_POSITION_X && has_abs c ABS_MT_POSITION_Y && negb (has_abs c ABS_MT_SLOT).
(** the int that a size_t becomes in libevdev_set_abs_resolution *)
Definition to_int (z : Z) : Z := let m := z mod 2 ^ 32 in if Z.ltb m (2 ^ 31) then m else m - 2 ^ 32.
(** an int used as a size_t *)
Definition to_size (z : Z) : Z := z mod 2 ^ 64.
(** evdev_fix_abs_resolution, /repo/src/evdev.c:1528-1571, evdev_read_attr_res_prop, /repo/src/evdev.c:1475-1499, evdev_read_attr_size_prop, /repo/src/evdev.c:1501-1525: the codes, and whether the resolution is a fake *)
Definition fix_res (q : quirks) (c : codes) (xc yc : Z) : codes * bool :=
  match abs c xc, abs c yc with
  | Some x, Some y =>
      if negb (Z.eqb (ares x) 0) || negb (Z.eqb (ares y) 0) then (c, false) else
      let '(xr, yr) := match q_res q, q_size q with
                       | Some (a, b), _ => (Zpos a, Zpos b)
                       | None, Some (w, h) => (to_size (amax x - amin x) / Zpos w, to_size (amax y - amin y) / Zpos h)
                       | None, None => (1, 1) end in
      (set_res (set_res c xc (to_int xr)) yc (to_int yr), Z.eqb xr 1)
  | _, _ => (c, false)
  end.
(** evdev_fix_android_mt, /repo/src/evdev.c:1595-1613 *)
Definition fix_android (c : codes) : codes :=
  if has_abs c ABS_X || has_abs c ABS_Y then c else
  if negb (has_abs c ABS_MT_POSITION_X) || negb (has_abs c ABS_MT_POSITION_Y) || fake_mt c then c else
  set_abs (set_abs c ABS_X (abs c ABS_MT_POSITION_X)) ABS_Y (abs c ABS_MT_POSITION_Y).
(** evdev_check_min_max, /repo/src/evdev.c:1615-1648: None for false *)
Definition check_min_max (c : codes) (n : Z) : option codes :=
  match abs c n with
  | None => Some c
  | Some a => if Z.eqb (amin a) (amax a) then if Z.eqb (amin a) 0 && Z.leb ABS_MISC n && Z.ltb n ABS_MT_SLOT then Some (set_abs c n None) else None else Some c
  end.
(** the loop of evdev_reject_device, /repo/src/evdev.c:1692-1703 *)
Fixpoint check_all (c : codes) (l : list Z) : option codes :=
  match l with
  | [] => Some c
  | n :: r => if Z.eqb n ABS_MISC || Z.eqb n ABS_MT_SLOT || Z.eqb n ABS_MT_TOOL_TYPE then check_all c r
              else match check_min_max c n with Some d => check_all d r | None => None end
  end.
Definition abs_codes : list Z := map Z.of_nat (seq 0 64).
(** one resolution without the other, /repo/src/evdev.c:1669-1691 *)
Definition one_res (c : codes) (xc yc : Z) : bool :=
  match abs c xc, abs c yc with Some x, Some y => xorb (Z.eqb (ares x) 0) (Z.eqb (ares y) 0) | _, _ => false end.
(** evdev_reject_device, /repo/src/evdev.c:1650-1706: None for true *)
Definition reject (c : codes) : option codes :=
  if xorb (has_abs c ABS_X) (has_abs c ABS_Y) then None else
  if xorb (rel c REL_X) (rel c REL_Y) then None else
  if negb (fake_mt c) && xorb (has_abs c ABS_MT_POSITION_X) (has_abs c ABS_MT_POSITION_Y) then None else
  if has_abs c ABS_X && one_res c ABS_X ABS_Y then None else
  if negb (fake_mt c) && has_abs c ABS_MT_POSITION_X && one_res c ABS_MT_POSITION_X ABS_MT_POSITION_Y then None else
  check_all c abs_codes.
(** device->abs.dimensions, /repo/src/evdev.c:1734-1737, 1752-1755 *)
Definition span (c : codes) (n : Z) : Z := match abs c n with Some a => Z.abs (amax a - amin a) | None => 0 end.
(** evdev_extract_abs_axes, /repo/src/evdev.c:1708-1758, without the fuzz: the codes, whether the resolution is a fake, the dimensions *)
Definition extract (q : quirks) (c : codes) : codes * bool * (Z * Z) :=
  if negb (has_abs c ABS_X) || negb (has_abs c ABS_Y) then (c, false, (0, 0)) else
  let '(c1, f1) := fix_res q c ABS_X ABS_Y in
  if fake_mt c1 || negb (has_abs c1 ABS_MT_POSITION_X) || negb (has_abs c1 ABS_MT_POSITION_Y) then (c1, f1, (span c1 ABS_X, span c1 ABS_Y)) else
  let '(c2, f2) := fix_res q c1 ABS_MT_POSITION_X ABS_MT_POSITION_Y in (c2, f1 || f2, (span c2 ABS_MT_POSITION_X, span c2 ABS_MT_POSITION_Y)).
(** evdev_disable_accelerometer_axes, /repo/src/evdev.c:1760-1772; REL_X, REL_Y, REL_Z are the same numbers *)
Definition disable_accelerometer (c : codes) : codes := set_abs (set_abs (set_abs c ABS_X None) ABS_Y None) ABS_Z None.

(** struct evdev_device once it is configured; [fake]: abs.is_fake_resolution, [mtdev]: device->mtdev is there *)
Record device := { dk : option kind; caps : list cap; dc : codes; fake : bool; mtdev : bool }.
(** evdev_convert_to_mm, /repo/src/evdev.h:629-634 *)
Definition to_mm (a : absinfo) (v : Z) : Q := inject_Z (v - amin a) / inject_Z (ares a).
(** evdev_device_get_size, /repo/src/evdev.c:2524-2542 *)
Definition get_size (c : codes) (fake : bool) : option (Q * Q) :=
  match abs c ABS_X, abs c ABS_Y with
  | Some x, Some y => if fake || Z.eqb (ares x) 0 || Z.eqb (ares y) 0 then None else Some (to_mm x (amax x), to_mm y (amax y))
  | _, _ => None
  end.
(** totem_reject_device, /repo/src/evdev-totem.c:717-745, evdev_totem_create, /repo/src/evdev-totem.c:800-840 *)
Definition totem_ok (c : codes) (fake : bool) : bool :=
  has_abs c ABS_MT_POSITION_X && has_abs c ABS_MT_POSITION_Y && has_abs c ABS_MT_SLOT
  && match abs c ABS_MT_TOOL_TYPE with Some a => Z.leb MT_TOOL_DIAL (amax a) | None => false end
  && match get_size c fake with Some _ => true | None => false end
  && (match abs c ABS_MT_TOUCH_MAJOR with Some a => Z.ltb 0 (ares a) | None => false end || match abs c ABS_MT_TOUCH_MINOR with Some a => Z.ltb 0 (ares a) | None => false end)
  && Z.ltb 0 (slots c).
(** tablet_reject_device, /repo/src/evdev-tablet.c:2396-2420 *)
Definition tablet_ok (c : codes) (fake : bool) : bool :=
  has_abs c ABS_X && has_abs c ABS_Y && (key c BTN_TOOL_PEN || key c BTN_STYLUS) && match get_size c fake with Some _ => true | None => false end.
(** tp_pass_sanity_check, /repo/src/evdev-mt-touchpad.c:3415-3436 *)
Definition tp_sane (c : codes) : bool := has_abs c ABS_X && key c BTN_TOUCH && key c BTN_TOOL_FINGER.
(** tp_init_default_resolution, /repo/src/evdev-mt-touchpad.c:3438-3470 *)
Definition tp_resolution (c : codes) (f : bool) (dims : Z * Z) : codes :=
  if f then let '(xr, yr) := (fst dims / 69, snd dims / 50) in
    set_res (set_res (set_res (set_res c ABS_X xr) ABS_Y yr) ABS_MT_POSITION_X xr) ABS_MT_POSITION_Y yr
  else c.
(** tp_init_slots, /repo/src/evdev-mt-touchpad.c:2866-2945: whether the touchpad has slots (has_mt), and their number *)
Definition tp_slots (q : quirks) (c : codes) : option Z :=
  match abs c ABS_MT_SLOT with Some a => if semi c || q_dm4 q then None else Some (amax a + 1) | None => None end.
(** tp_disable_abs_mt, /repo/src/evdev-mt-touchpad.c:2856-2864 *)
Definition tp_disable_mt (c : codes) : codes :=
  {| abs := fun n => if Z.leb ABS_MT_SLOT n then None else abs c n; rel := rel c; key := key c; sw := sw c; slots := slots c; semi := semi c |}.
(** gesture.enabled, tp_init_gesture, /repo/src/evdev-mt-touchpad-gestures.c:881-901 *)
Definition tp_gestures (q : quirks) (c : codes) : bool := negb (semi c) && match tp_slots q c with Some n => Z.ltb 1 n | None => false end.
(** tp_init, /repo/src/evdev-mt-touchpad.c:3631-3692: the codes after it *)
Definition tp_codes (q : quirks) (c : codes) (f : bool) (dims : Z * Z) : codes :=
  let c1 := tp_resolution c f dims in match tp_slots q c1 with Some _ => c1 | None => tp_disable_mt c1 end.
(** fallback_dispatch_init_slots, /repo/src/evdev-fallback.c:1576-1638: whether mtdev is opened *)
Definition opens_mtdev (c : codes) : bool := negb (fake_mt c) && need_mtdev c.
Definition failed (cs : list cap) (c : codes) (f : bool) : device := {| dk := None; caps := cs; dc := c; fake := f; mtdev := false |}.
Definition made (k : kind) (cs : list cap) (c : codes) (f : bool) : device := {| dk := Some k; caps := cs; dc := c; fake := f; mtdev := false |}.
(** evdev_configure_device, /repo/src/evdev.c:1775-1960, from the touchpad on: pointers, keyboards, touchscreens, switches.  The configuration options it sets are in Cfg_Model.v *)
Definition configure_fallback (o : oracle) (q : quirks) (ts : tag -> bool) (c : codes) (f : bool) : device :=
  let p1 := if ts T_MOUSE || ts T_POINTINGSTICK then [POINTER] else [] in
  let p2 := if ts T_KEYBOARD then KEYBOARD :: (if rel c REL_WHEEL || rel c REL_HWHEEL then [POINTER] else []) else [] in
  let p3 := if ts T_TOUCHSCREEN then [TOUCH] else [] in
  let p4 := if ts T_SWITCH && sw c SW_LID then [SWITCH] else [] in
  let '(c1, p5) := if ts T_SWITCH && sw c SW_TABLET_MODE then if q_unreliable q then (disable_sw c SW_TABLET_MODE, []) else (c, [SWITCH]) else (c, []) in
  let cs := p1 ++ p2 ++ p3 ++ p4 ++ p5 in
  if existsb (fun x => if cap_eq x POINTER then true else false) cs && rel c1 REL_X && rel c1 REL_Y && negb (o_accel o) then failed cs c1 f else
  if opens_mtdev c1 then if o_mtdev o then {| dk := Some FALLBACK; caps := cs; dc := c1; fake := f; mtdev := true |} else failed cs c1 f
  else made FALLBACK cs c1 f.
(** evdev_configure_device, /repo/src/evdev.c:1775-1960 *)
Definition configure (o : oracle) (q : quirks) (u : udev) (parent : option udev) (c : codes) : device :=
  let ts := get_tags u parent in
  if negb (ts T_INPUT) || forallb (fun t => tag_eqb t T_INPUT || negb (ts t)) all_tags then failed [] c false else
  if only T_ACCELEROMETER ts then failed [] c false else
  let c1 := if ts T_ACCELEROMETER then disable_accelerometer c else c in
  if only T_JOYSTICK ts then failed [] c1 false else
  match reject c1 with
  | None => failed [] c1 false
  | Some c2 =>
      let c3 := if fake_mt c2 then c2 else fix_android c2 in
      let '(c4, f, dims) := if has_abs c3 ABS_X then extract q c3 else (c3, false, (0, 0)) in
      let ts := if has_abs c3 ABS_X && fake_mt c4 then fun t => if tag_eq t T_TOUCHSCREEN then false else ts t else ts in
      if q_totem q then if totem_ok c4 f then made TOTEM [TABLET_TOOL] c4 f else failed [TABLET_TOOL] c4 f else
      if ts T_TABLET_PAD then if o_leds o then made PAD [TABLET_PAD] c4 f else failed [TABLET_PAD] c4 f else
      if ts T_TABLET && negb (ts T_TOUCHPAD) && negb (ts T_TOUCHSCREEN) then if tablet_ok c4 f && o_tablet o then made TABLET [TABLET_TOOL] c4 f else failed [TABLET_TOOL] c4 f else
      if ts T_TOUCHPAD then if tp_sane c4 && o_touchpad o then made TOUCHPAD (POINTER :: if tp_gestures q c4 then [GESTURE] else []) (tp_codes q c4 f dims) false else failed [] c4 f else
      configure_fallback o q ts c4 f
  end.
(** udev_device_should_be_ignored, /repo/src/evdev.c:2194-2203 *)
Definition ignored (u : udev) : bool := match u "LIBINPUT_IGNORE_DEVICE"%string with Some v => negb (String.eqb v "0") | None => false end.
(** evdev_device_create, /repo/src/evdev.c:2205-2314: the device that is added, if any.  Opening the file and adding the source are in Life_Model.v *)
Definition create (o : oracle) (q : quirks) (u : udev) (parent : option udev) (c : codes) : option device :=
  if ignored u then None else
  let d := configure o q u parent c in
  match dk d, caps d with None, _ | _, [] => None | Some _, _ => Some d end.
(** evdev_device_suspend, /repo/src/evdev.c:2764-2788: only mtdev matters here *)
Definition suspend (d : device) : device := {| dk := dk d; caps := caps d; dc := dc d; fake := fake d; mtdev := false |}.
(** evdev_device_resume, /repo/src/evdev.c:2791-2855, when it succeeds *)
Definition resume (d : device) : device := {| dk := dk d; caps := caps d; dc := dc d; fake := fake d; mtdev := mtdev d || need_mtdev (dc d) |}.

(** evdev_device_has_capability, /repo/src/evdev.c:2500-2522 *)
Definition has_cap (d : device) (x : cap) : bool := existsb (fun y => if cap_eq x y then true else false) (caps d).
Definition b2z (b : bool) : Z := if b then 1 else 0.
(** evdev_device_has_button, /repo/src/evdev.c:2544-2551 *)
Definition has_button (d : device) (n : Z) : Z := if has_cap d POINTER then b2z (key (dc d) n) else -1.
(** evdev_device_has_key, /repo/src/evdev.c:2553-2560 *)
Definition has_key (d : device) (n : Z) : Z := if has_cap d KEYBOARD then b2z (key (dc d) n) else -1.
(** evdev_device_get_touch_count, /repo/src/evdev.c:2562-2582 *)
Definition touch_count (d : device) : Z := if has_cap d TOUCH then if Z.eqb (slots (dc d)) (-1) then if mtdev d then 0 else 1 else slots (dc d) else -1.
(** evdev_device_has_switch, /repo/src/evdev.c:2584-2605, of the two switches there are *)
Definition has_switch (d : device) (lid : bool) : Z := if has_cap d SWITCH then b2z (sw (dc d) (if lid then SW_LID else SW_TABLET_MODE)) else -1.

(** enum libinput_event_type, /repo/src/libinput.h:721-908, without those of devices coming and going *)
Inductive event :=
| KEYBOARD_KEY | POINTER_MOTION | POINTER_MOTION_ABSOLUTE | POINTER_BUTTON | POINTER_AXIS
| TOUCH_DOWN | TOUCH_UP | TOUCH_MOTION | TOUCH_CANCEL | TOUCH_FRAME
| TABLET_TOOL_AXIS | TABLET_TOOL_PROXIMITY | TABLET_TOOL_TIP | TABLET_TOOL_BUTTON
| TABLET_PAD_BUTTON | TABLET_PAD_RING | TABLET_PAD_STRIP | TABLET_PAD_KEY
| GESTURE_SWIPE_BEGIN | GESTURE_SWIPE_UPDATE | GESTURE_SWIPE_END | GESTURE_PINCH_BEGIN | GESTURE_PINCH_UPDATE | GESTURE_PINCH_END
| SWITCH_TOGGLE.
(** the capability each notify function checks before it posts an event of that type (device_has_cap, /repo/src/libinput.c:2284-2322): keyboard_notify_key 2326-2352, pointer_notify_motion 2354-2376, pointer_notify_motion_absolute 2378-2398, pointer_notify_button 2400-2428, pointer_notify_axis 2430-2456, touch_notify_touch_down 2458-2482, _motion 2484-2508, _up 2510-2532, _cancel 2534-2556, _frame 2558-2576, gesture_notify 2810-2840, switch_notify_toggle 2894-2919.  tablet_notify_* 2578-2699 and tablet_pad_notify_* 2701-2808 check nothing *)
Definition checked (e : event) : option cap :=
  match e with
  | KEYBOARD_KEY => Some KEYBOARD
  | POINTER_MOTION | POINTER_MOTION_ABSOLUTE | POINTER_BUTTON | POINTER_AXIS => Some POINTER
  | TOUCH_DOWN | TOUCH_UP | TOUCH_MOTION | TOUCH_CANCEL | TOUCH_FRAME => Some TOUCH
  | GESTURE_SWIPE_BEGIN | GESTURE_SWIPE_UPDATE | GESTURE_SWIPE_END | GESTURE_PINCH_BEGIN | GESTURE_PINCH_UPDATE | GESTURE_PINCH_END => Some GESTURE
  | SWITCH_TOGGLE => Some SWITCH
  | _ => None
  end.
(** the notify functions that the code of each kind of device calls: /repo/src/evdev-fallback.c, evdev-debounce.c, evdev-middle-button.c; evdev-mt-touchpad*.c; evdev-tablet.c and evdev-totem.c; evdev-tablet-pad.c; and what they use of /repo/src/evdev.c *)
Definition calls (k : kind) (e : event) : bool :=
  match k, e with
  | FALLBACK, (KEYBOARD_KEY | POINTER_MOTION | POINTER_MOTION_ABSOLUTE | POINTER_BUTTON | POINTER_AXIS | TOUCH_DOWN | TOUCH_UP | TOUCH_MOTION | TOUCH_CANCEL | TOUCH_FRAME | SWITCH_TOGGLE) => true
  | TOUCHPAD, (POINTER_MOTION | POINTER_BUTTON | POINTER_AXIS | GESTURE_SWIPE_BEGIN | GESTURE_SWIPE_UPDATE | GESTURE_SWIPE_END | GESTURE_PINCH_BEGIN | GESTURE_PINCH_UPDATE | GESTURE_PINCH_END) => true
  | (TABLET | TOTEM), (TABLET_TOOL_AXIS | TABLET_TOOL_PROXIMITY | TABLET_TOOL_TIP | TABLET_TOOL_BUTTON) => true
  | PAD, (TABLET_PAD_BUTTON | TABLET_PAD_RING | TABLET_PAD_STRIP | TABLET_PAD_KEY) => true
  | _, _ => false
  end.
(** what the caller gets of what the code of the device asks to send *)
Definition posts (d : device) (e : event) : bool := match checked e with Some x => has_cap d x | None => true end.
Definition sends (d : device) (asked : list event) : list event :=
  match dk d with Some k => filter (posts d) (filter (calls k) asked) | None => [] end.
