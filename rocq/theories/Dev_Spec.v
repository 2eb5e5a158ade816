(** * What a user relies on of devices and their capabilities (C55), said without the model's steps *)
Require Import Coq.ZArith.ZArith Coq.QArith.QArith Coq.Strings.String Coq.Lists.List Coq.Bool.Bool.
Require Import Verif.Dev_Model.
Import ListNotations.
Open Scope Z_scope.

(** udev says "1" of the device or of its parent *)
Definition says (u : udev) (p : option udev) (n : string) : Prop := u n = Some "1"%string \/ exists v, p = Some v /\ v n = Some "1"%string.
(** the properties that name a kind of device *)
Definition kinds : list string :=
  ["ID_INPUT_KEYBOARD"; "ID_INPUT_KEY"; "ID_INPUT_MOUSE"; "ID_INPUT_TOUCHPAD"; "ID_INPUT_TOUCHSCREEN"; "ID_INPUT_TABLET"; "ID_INPUT_TABLET_PAD"; "ID_INPUT_JOYSTICK"; "ID_INPUT_ACCELEROMETER"; "ID_INPUT_POINTINGSTICK"; "ID_INPUT_TRACKBALL"; "ID_INPUT_SWITCH"]%string.
(** the kernel device has an absolute axis, or a multitouch one *)
Definition axis (c : codes) (n : Z) : Prop := abs c n <> None.
(** more axes than there are codes: the "slots" are no slots *)
Definition false_slots (c : codes) : Prop := axis c ABS_MT_SLOT /\ slots c = -1.
(** A touchscreen: udev says so, and its slots are slots (joysticks and the like are no touchscreens) *)
Definition screen (u : udev) (p : option udev) (c : codes) : Prop :=
  says u p "ID_INPUT_TOUCHSCREEN" /\ ~ (false_slots c /\ axis c ABS_X /\ ~ says u p "ID_INPUT_ACCELEROMETER").
(** The five families, in the order in which they are tried *)
Definition is_totem (q : quirks) : Prop := q_totem q = true.
Definition is_pad (q : quirks) (u : udev) (p : option udev) : Prop := q_totem q = false /\ says u p "ID_INPUT_TABLET_PAD".
Definition is_pen (q : quirks) (u : udev) (p : option udev) (c : codes) : Prop :=
  q_totem q = false /\ ~ says u p "ID_INPUT_TABLET_PAD" /\ says u p "ID_INPUT_TABLET" /\ ~ says u p "ID_INPUT_TOUCHPAD" /\ ~ screen u p c.
Definition is_touchpad (q : quirks) (u : udev) (p : option udev) : Prop :=
  q_totem q = false /\ ~ says u p "ID_INPUT_TABLET_PAD" /\ says u p "ID_INPUT_TOUCHPAD".
Definition is_plain (q : quirks) (u : udev) (p : option udev) (c : codes) : Prop :=
  q_totem q = false /\ ~ says u p "ID_INPUT_TABLET_PAD" /\ ~ says u p "ID_INPUT_TOUCHPAD" /\ (says u p "ID_INPUT_TABLET" -> screen u p c).
Definition keys (u : udev) (p : option udev) : Prop := says u p "ID_INPUT_KEYBOARD" \/ says u p "ID_INPUT_KEY".
Definition wheel (c : codes) : Prop := rel c REL_WHEEL = true \/ rel c REL_HWHEEL = true.
(** When a device has a capability *)
Definition deserves (q : quirks) (u : udev) (p : option udev) (c : codes) (x : cap) : Prop :=
  match x with
  | TABLET_TOOL => is_totem q \/ is_pen q u p c
  | TABLET_PAD => is_pad q u p
  | GESTURE => is_touchpad q u p /\ semi c = false /\ q_dm4 q = false /\ exists a, abs c ABS_MT_SLOT = Some a /\ 1 <= amax a
  | POINTER => is_touchpad q u p \/ is_plain q u p c /\ (says u p "ID_INPUT_MOUSE" \/ says u p "ID_INPUT_POINTINGSTICK" \/ keys u p /\ wheel c)
  | KEYBOARD => is_plain q u p c /\ keys u p
  | TOUCH => is_plain q u p c /\ screen u p c
  | SWITCH => is_plain q u p c /\ says u p "ID_INPUT_SWITCH" /\ (sw c SW_LID = true \/ sw c SW_TABLET_MODE = true /\ q_unreliable q = false)
  end.
(** The capability an event belongs to *)
Definition family (e : event) : cap :=
  match e with
  | KEYBOARD_KEY => KEYBOARD
  | POINTER_MOTION | POINTER_MOTION_ABSOLUTE | POINTER_BUTTON | POINTER_AXIS => POINTER
  | TOUCH_DOWN | TOUCH_UP | TOUCH_MOTION | TOUCH_CANCEL | TOUCH_FRAME => TOUCH
  | TABLET_TOOL_AXIS | TABLET_TOOL_PROXIMITY | TABLET_TOOL_TIP | TABLET_TOOL_BUTTON => TABLET_TOOL
  | TABLET_PAD_BUTTON | TABLET_PAD_RING | TABLET_PAD_STRIP | TABLET_PAD_KEY => TABLET_PAD
  | GESTURE_SWIPE_BEGIN | GESTURE_SWIPE_UPDATE | GESTURE_SWIPE_END | GESTURE_PINCH_BEGIN | GESTURE_PINCH_UPDATE | GESTURE_PINCH_END => GESTURE
  | SWITCH_TOGGLE => SWITCH
  end.
(** The absolute axes left when those of an accelerometer are not looked at *)
Definition kept (u : udev) (p : option udev) (c : codes) (n : Z) (a : absinfo) : Prop :=
  abs c n = Some a /\ ~ (says u p "ID_INPUT_ACCELEROMETER" /\ 0 <= n <= 2).
Definition there (u : udev) (p : option udev) (c : codes) (n : Z) : Prop := exists a, kept u p c n a.
(** Both axes or none, both resolutions or none *)
Definition paired (u : udev) (p : option udev) (c : codes) (x y : Z) : Prop :=
  (there u p c x <-> there u p c y) /\ forall a b, kept u p c x a -> kept u p c y b -> (ares a = 0 <-> ares b = 0).
(** The kernel describes the axes sensibly: x comes with y, and every axis but those without a range has a range (of the unused axes between 41 and 46 an empty one starting at 0 is not looked at) *)
Definition sane (u : udev) (p : option udev) (c : codes) : Prop :=
  paired u p c ABS_X ABS_Y /\ (rel c REL_X = true <-> rel c REL_Y = true) /\
  (~ false_slots c -> paired u p c ABS_MT_POSITION_X ABS_MT_POSITION_Y) /\
  forall n a, 0 <= n < 64 -> n <> ABS_MISC -> n <> ABS_MT_SLOT -> n <> ABS_MT_TOOL_TYPE -> kept u p c n a -> amin a <> amax a \/ (amin a = 0 /\ 40 < n < 47).
(** the device is told to be left alone *)
Definition told_to_ignore (u : udev) : Prop := exists v, u "LIBINPUT_IGNORE_DEVICE"%string = Some v /\ v <> "0"%string.
(** x and y are known once configured: the kernel has them, or gives them for fingers only *)
Definition has_place (u : udev) (p : option udev) (c : codes) : Prop :=
  there u p c ABS_X \/ (~ false_slots c /\ axis c ABS_MT_POSITION_X /\ axis c ABS_MT_POSITION_Y).
(** a touchscreen of which the kernel reports fingers without slots *)
Definition protocol_a (c : codes) : Prop := axis c ABS_MT_POSITION_X /\ axis c ABS_MT_POSITION_Y /\ ~ axis c ABS_MT_SLOT.
