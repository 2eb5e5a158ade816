(** The configuration interface: libinput_device_config_* for every option
    with an integer value, on every kind of device, together with the
    postponement of changes until the device is idle.  The remaining options,
    pointer speed and profile and the calibration matrix, are in Acc_Model.v
    and Matrix_Model.v. *)
Require Import Coq.ZArith.ZArith Coq.Lists.List Coq.Bool.Bool.
Import ListNotations.
Open Scope Z_scope.

(** enum libinput_config_status, /repo/src/libinput.h:4340-4345 *)
Inductive status := SUCCESS | UNSUPPORTED | INVALID.

(** Which dispatch evdev_configure_device creates, /repo/src/evdev.c:1774-1960 *)
Inductive kind := Fallback | Touchpad | Tablet | Pad | Totem.

(** What the device is, fixed when it is added.  [btn c]: libevdev_has_event_code
    of EV_KEY c.  [mouse]: udev tags MOUSE or POINTINGSTICK; [keyboard]: KEYBOARD.
    [reversible]: evdev_tablet_has_left_handed.  [click_quirk]: one of the five
    model quirks other than [onebutton] for which clickfinger is the default.
    [onebutton], [apple], [alps], [dm4]: the model quirks
    APPLE_TOUCHPAD_ONEBUTTON, APPLE_TOUCHPAD, ALPS_SERIAL_TOUCHPAD,
    HP_PAVILION_DM4_TOUCHPAD.  [below]: tp_is_tpkb_combo_below.
    [internal], [external]: EVDEV_TAG_INTERNAL_TOUCHPAD, EVDEV_TAG_EXTERNAL_TOUCHPAD. *)
Record hw := { kind_ : kind; btn : Z -> bool; mouse : bool; keyboard : bool; wheel : bool; hwheel : bool;
  relx : bool; rely : bool; trackpoint : bool; trackball : bool; reversible : bool;
  clickpad : bool; has_mt : bool; onebutton : bool; click_quirk : bool; apple : bool; alps : bool; dm4 : bool;
  ntouches : Z; internal : bool; external : bool; below : bool }.

(** The stored settings.  A field [c_w..] is the wanted value, the one without
    w the value in effect.
    [c_tap c_map c_wmap c_drag c_draglock]: tap.enabled, tap.map, tap.want_map, tap.drag_enabled,
    tap.drag_lock_enabled, /repo/src/evdev-mt-touchpad.h:415-432.
    [c_send]: sendevents.current_mode.  [c_natural]: scroll.natural_scrolling_enabled.
    [c_left c_wleft]: left_handed.enabled and want_enabled.  [c_click]: buttons.click_method.
    [c_mid c_wmid c_middef]: middlebutton.enabled, want_enabled and enabled_default.
    [c_method .. c_wlock]: scroll.method, want_method, button, want_button, lock_enabled,
    want_lock_enabled of the device, /repo/src/evdev.h:203-239.  [c_lockst]: scroll.lock_state is
    not BUTTONSCROLL_LOCK_DISABLED; the lock's own state machine, /repo/src/evdev.c:285-301, keeps
    a disabled lock disabled and an enabled one enabled.
    [c_tpmethod]: scroll.method of the touchpad.  [c_dwt]: dwt.dwt_enabled.  [c_angle]: rotation.angle.
    [b_left]: what keeps a change of handedness from being applied: a button is
    down, on a tablet a tool is in proximity.  [b_scroll]: fallback_any_button_down.
    [b_mid]: middlebutton.button_mask, on a clickpad buttons.state, is not 0.
    [b_tap]: tap.state is not TAP_STATE_IDLE. *)
Record conf := mkConf {
  c_tap : Z;
  c_map : Z;
  c_wmap : Z;
  c_drag : Z;
  c_draglock : Z;
  c_send : Z;
  c_natural : bool;
  c_left : bool;
  c_wleft : bool;
  c_click : Z;
  c_mid : bool;
  c_wmid : bool;
  c_middef : bool;
  c_method : Z;
  c_wmethod : Z;
  c_button : Z;
  c_wbutton : Z;
  c_lock : bool;
  c_wlock : bool;
  c_lockst : bool;
  c_tpmethod : Z;
  c_dwt : bool;
  c_angle : Z;
  b_left : bool;
  b_scroll : bool;
  b_mid : bool;
  b_tap : bool }.
Definition set_c_tap (c : conf) (v : Z) : conf := mkConf v (c_map c) (c_wmap c) (c_drag c) (c_draglock c) (c_send c) (c_natural c) (c_left c) (c_wleft c) (c_click c) (c_mid c) (c_wmid c) (c_middef c) (c_method c) (c_wmethod c) (c_button c) (c_wbutton c) (c_lock c) (c_wlock c) (c_lockst c) (c_tpmethod c) (c_dwt c) (c_angle c) (b_left c) (b_scroll c) (b_mid c) (b_tap c).
Definition set_c_map (c : conf) (v : Z) : conf := mkConf (c_tap c) v (c_wmap c) (c_drag c) (c_draglock c) (c_send c) (c_natural c) (c_left c) (c_wleft c) (c_click c) (c_mid c) (c_wmid c) (c_middef c) (c_method c) (c_wmethod c) (c_button c) (c_wbutton c) (c_lock c) (c_wlock c) (c_lockst c) (c_tpmethod c) (c_dwt c) (c_angle c) (b_left c) (b_scroll c) (b_mid c) (b_tap c).
Definition set_c_wmap (c : conf) (v : Z) : conf := mkConf (c_tap c) (c_map c) v (c_drag c) (c_draglock c) (c_send c) (c_natural c) (c_left c) (c_wleft c) (c_click c) (c_mid c) (c_wmid c) (c_middef c) (c_method c) (c_wmethod c) (c_button c) (c_wbutton c) (c_lock c) (c_wlock c) (c_lockst c) (c_tpmethod c) (c_dwt c) (c_angle c) (b_left c) (b_scroll c) (b_mid c) (b_tap c).
Definition set_c_drag (c : conf) (v : Z) : conf := mkConf (c_tap c) (c_map c) (c_wmap c) v (c_draglock c) (c_send c) (c_natural c) (c_left c) (c_wleft c) (c_click c) (c_mid c) (c_wmid c) (c_middef c) (c_method c) (c_wmethod c) (c_button c) (c_wbutton c) (c_lock c) (c_wlock c) (c_lockst c) (c_tpmethod c) (c_dwt c) (c_angle c) (b_left c) (b_scroll c) (b_mid c) (b_tap c).
Definition set_c_draglock (c : conf) (v : Z) : conf := mkConf (c_tap c) (c_map c) (c_wmap c) (c_drag c) v (c_send c) (c_natural c) (c_left c) (c_wleft c) (c_click c) (c_mid c) (c_wmid c) (c_middef c) (c_method c) (c_wmethod c) (c_button c) (c_wbutton c) (c_lock c) (c_wlock c) (c_lockst c) (c_tpmethod c) (c_dwt c) (c_angle c) (b_left c) (b_scroll c) (b_mid c) (b_tap c).
Definition set_c_send (c : conf) (v : Z) : conf := mkConf (c_tap c) (c_map c) (c_wmap c) (c_drag c) (c_draglock c) v (c_natural c) (c_left c) (c_wleft c) (c_click c) (c_mid c) (c_wmid c) (c_middef c) (c_method c) (c_wmethod c) (c_button c) (c_wbutton c) (c_lock c) (c_wlock c) (c_lockst c) (c_tpmethod c) (c_dwt c) (c_angle c) (b_left c) (b_scroll c) (b_mid c) (b_tap c).
Definition set_c_natural (c : conf) (v : bool) : conf := mkConf (c_tap c) (c_map c) (c_wmap c) (c_drag c) (c_draglock c) (c_send c) v (c_left c) (c_wleft c) (c_click c) (c_mid c) (c_wmid c) (c_middef c) (c_method c) (c_wmethod c) (c_button c) (c_wbutton c) (c_lock c) (c_wlock c) (c_lockst c) (c_tpmethod c) (c_dwt c) (c_angle c) (b_left c) (b_scroll c) (b_mid c) (b_tap c).
Definition set_c_left (c : conf) (v : bool) : conf := mkConf (c_tap c) (c_map c) (c_wmap c) (c_drag c) (c_draglock c) (c_send c) (c_natural c) v (c_wleft c) (c_click c) (c_mid c) (c_wmid c) (c_middef c) (c_method c) (c_wmethod c) (c_button c) (c_wbutton c) (c_lock c) (c_wlock c) (c_lockst c) (c_tpmethod c) (c_dwt c) (c_angle c) (b_left c) (b_scroll c) (b_mid c) (b_tap c).
Definition set_c_wleft (c : conf) (v : bool) : conf := mkConf (c_tap c) (c_map c) (c_wmap c) (c_drag c) (c_draglock c) (c_send c) (c_natural c) (c_left c) v (c_click c) (c_mid c) (c_wmid c) (c_middef c) (c_method c) (c_wmethod c) (c_button c) (c_wbutton c) (c_lock c) (c_wlock c) (c_lockst c) (c_tpmethod c) (c_dwt c) (c_angle c) (b_left c) (b_scroll c) (b_mid c) (b_tap c).
Definition set_c_click (c : conf) (v : Z) : conf := mkConf (c_tap c) (c_map c) (c_wmap c) (c_drag c) (c_draglock c) (c_send c) (c_natural c) (c_left c) (c_wleft c) v (c_mid c) (c_wmid c) (c_middef c) (c_method c) (c_wmethod c) (c_button c) (c_wbutton c) (c_lock c) (c_wlock c) (c_lockst c) (c_tpmethod c) (c_dwt c) (c_angle c) (b_left c) (b_scroll c) (b_mid c) (b_tap c).
Definition set_c_mid (c : conf) (v : bool) : conf := mkConf (c_tap c) (c_map c) (c_wmap c) (c_drag c) (c_draglock c) (c_send c) (c_natural c) (c_left c) (c_wleft c) (c_click c) v (c_wmid c) (c_middef c) (c_method c) (c_wmethod c) (c_button c) (c_wbutton c) (c_lock c) (c_wlock c) (c_lockst c) (c_tpmethod c) (c_dwt c) (c_angle c) (b_left c) (b_scroll c) (b_mid c) (b_tap c).
Definition set_c_wmid (c : conf) (v : bool) : conf := mkConf (c_tap c) (c_map c) (c_wmap c) (c_drag c) (c_draglock c) (c_send c) (c_natural c) (c_left c) (c_wleft c) (c_click c) (c_mid c) v (c_middef c) (c_method c) (c_wmethod c) (c_button c) (c_wbutton c) (c_lock c) (c_wlock c) (c_lockst c) (c_tpmethod c) (c_dwt c) (c_angle c) (b_left c) (b_scroll c) (b_mid c) (b_tap c).
Definition set_c_middef (c : conf) (v : bool) : conf := mkConf (c_tap c) (c_map c) (c_wmap c) (c_drag c) (c_draglock c) (c_send c) (c_natural c) (c_left c) (c_wleft c) (c_click c) (c_mid c) (c_wmid c) v (c_method c) (c_wmethod c) (c_button c) (c_wbutton c) (c_lock c) (c_wlock c) (c_lockst c) (c_tpmethod c) (c_dwt c) (c_angle c) (b_left c) (b_scroll c) (b_mid c) (b_tap c).
Definition set_c_method (c : conf) (v : Z) : conf := mkConf (c_tap c) (c_map c) (c_wmap c) (c_drag c) (c_draglock c) (c_send c) (c_natural c) (c_left c) (c_wleft c) (c_click c) (c_mid c) (c_wmid c) (c_middef c) v (c_wmethod c) (c_button c) (c_wbutton c) (c_lock c) (c_wlock c) (c_lockst c) (c_tpmethod c) (c_dwt c) (c_angle c) (b_left c) (b_scroll c) (b_mid c) (b_tap c).
Definition set_c_wmethod (c : conf) (v : Z) : conf := mkConf (c_tap c) (c_map c) (c_wmap c) (c_drag c) (c_draglock c) (c_send c) (c_natural c) (c_left c) (c_wleft c) (c_click c) (c_mid c) (c_wmid c) (c_middef c) (c_method c) v (c_button c) (c_wbutton c) (c_lock c) (c_wlock c) (c_lockst c) (c_tpmethod c) (c_dwt c) (c_angle c) (b_left c) (b_scroll c) (b_mid c) (b_tap c).
Definition set_c_button (c : conf) (v : Z) : conf := mkConf (c_tap c) (c_map c) (c_wmap c) (c_drag c) (c_draglock c) (c_send c) (c_natural c) (c_left c) (c_wleft c) (c_click c) (c_mid c) (c_wmid c) (c_middef c) (c_method c) (c_wmethod c) v (c_wbutton c) (c_lock c) (c_wlock c) (c_lockst c) (c_tpmethod c) (c_dwt c) (c_angle c) (b_left c) (b_scroll c) (b_mid c) (b_tap c).
Definition set_c_wbutton (c : conf) (v : Z) : conf := mkConf (c_tap c) (c_map c) (c_wmap c) (c_drag c) (c_draglock c) (c_send c) (c_natural c) (c_left c) (c_wleft c) (c_click c) (c_mid c) (c_wmid c) (c_middef c) (c_method c) (c_wmethod c) (c_button c) v (c_lock c) (c_wlock c) (c_lockst c) (c_tpmethod c) (c_dwt c) (c_angle c) (b_left c) (b_scroll c) (b_mid c) (b_tap c).
Definition set_c_lock (c : conf) (v : bool) : conf := mkConf (c_tap c) (c_map c) (c_wmap c) (c_drag c) (c_draglock c) (c_send c) (c_natural c) (c_left c) (c_wleft c) (c_click c) (c_mid c) (c_wmid c) (c_middef c) (c_method c) (c_wmethod c) (c_button c) (c_wbutton c) v (c_wlock c) (c_lockst c) (c_tpmethod c) (c_dwt c) (c_angle c) (b_left c) (b_scroll c) (b_mid c) (b_tap c).
Definition set_c_wlock (c : conf) (v : bool) : conf := mkConf (c_tap c) (c_map c) (c_wmap c) (c_drag c) (c_draglock c) (c_send c) (c_natural c) (c_left c) (c_wleft c) (c_click c) (c_mid c) (c_wmid c) (c_middef c) (c_method c) (c_wmethod c) (c_button c) (c_wbutton c) (c_lock c) v (c_lockst c) (c_tpmethod c) (c_dwt c) (c_angle c) (b_left c) (b_scroll c) (b_mid c) (b_tap c).
Definition set_c_lockst (c : conf) (v : bool) : conf := mkConf (c_tap c) (c_map c) (c_wmap c) (c_drag c) (c_draglock c) (c_send c) (c_natural c) (c_left c) (c_wleft c) (c_click c) (c_mid c) (c_wmid c) (c_middef c) (c_method c) (c_wmethod c) (c_button c) (c_wbutton c) (c_lock c) (c_wlock c) v (c_tpmethod c) (c_dwt c) (c_angle c) (b_left c) (b_scroll c) (b_mid c) (b_tap c).
Definition set_c_tpmethod (c : conf) (v : Z) : conf := mkConf (c_tap c) (c_map c) (c_wmap c) (c_drag c) (c_draglock c) (c_send c) (c_natural c) (c_left c) (c_wleft c) (c_click c) (c_mid c) (c_wmid c) (c_middef c) (c_method c) (c_wmethod c) (c_button c) (c_wbutton c) (c_lock c) (c_wlock c) (c_lockst c) v (c_dwt c) (c_angle c) (b_left c) (b_scroll c) (b_mid c) (b_tap c).
Definition set_c_dwt (c : conf) (v : bool) : conf := mkConf (c_tap c) (c_map c) (c_wmap c) (c_drag c) (c_draglock c) (c_send c) (c_natural c) (c_left c) (c_wleft c) (c_click c) (c_mid c) (c_wmid c) (c_middef c) (c_method c) (c_wmethod c) (c_button c) (c_wbutton c) (c_lock c) (c_wlock c) (c_lockst c) (c_tpmethod c) v (c_angle c) (b_left c) (b_scroll c) (b_mid c) (b_tap c).
Definition set_c_angle (c : conf) (v : Z) : conf := mkConf (c_tap c) (c_map c) (c_wmap c) (c_drag c) (c_draglock c) (c_send c) (c_natural c) (c_left c) (c_wleft c) (c_click c) (c_mid c) (c_wmid c) (c_middef c) (c_method c) (c_wmethod c) (c_button c) (c_wbutton c) (c_lock c) (c_wlock c) (c_lockst c) (c_tpmethod c) (c_dwt c) v (b_left c) (b_scroll c) (b_mid c) (b_tap c).
Definition set_b_left (c : conf) (v : bool) : conf := mkConf (c_tap c) (c_map c) (c_wmap c) (c_drag c) (c_draglock c) (c_send c) (c_natural c) (c_left c) (c_wleft c) (c_click c) (c_mid c) (c_wmid c) (c_middef c) (c_method c) (c_wmethod c) (c_button c) (c_wbutton c) (c_lock c) (c_wlock c) (c_lockst c) (c_tpmethod c) (c_dwt c) (c_angle c) v (b_scroll c) (b_mid c) (b_tap c).
Definition set_b_scroll (c : conf) (v : bool) : conf := mkConf (c_tap c) (c_map c) (c_wmap c) (c_drag c) (c_draglock c) (c_send c) (c_natural c) (c_left c) (c_wleft c) (c_click c) (c_mid c) (c_wmid c) (c_middef c) (c_method c) (c_wmethod c) (c_button c) (c_wbutton c) (c_lock c) (c_wlock c) (c_lockst c) (c_tpmethod c) (c_dwt c) (c_angle c) (b_left c) v (b_mid c) (b_tap c).
Definition set_b_mid (c : conf) (v : bool) : conf := mkConf (c_tap c) (c_map c) (c_wmap c) (c_drag c) (c_draglock c) (c_send c) (c_natural c) (c_left c) (c_wleft c) (c_click c) (c_mid c) (c_wmid c) (c_middef c) (c_method c) (c_wmethod c) (c_button c) (c_wbutton c) (c_lock c) (c_wlock c) (c_lockst c) (c_tpmethod c) (c_dwt c) (c_angle c) (b_left c) (b_scroll c) v (b_tap c).
Definition set_b_tap (c : conf) (v : bool) : conf := mkConf (c_tap c) (c_map c) (c_wmap c) (c_drag c) (c_draglock c) (c_send c) (c_natural c) (c_left c) (c_wleft c) (c_click c) (c_mid c) (c_wmid c) (c_middef c) (c_method c) (c_wmethod c) (c_button c) (c_wbutton c) (c_lock c) (c_wlock c) (c_lockst c) (c_tpmethod c) (c_dwt c) (c_angle c) (b_left c) (b_scroll c) (b_mid c) v.

(** * The hooks of the devices *)

(** the conditions of the five dispatches, one per option: which of the
    device->config.* pointers are set.
    tap: /repo/src/evdev-mt-touchpad-tap.c:1553-1588, called for every touchpad by
    tp_init, /repo/src/evdev-mt-touchpad.c:3632-3692 *)
Definition hooks_tap (h : hw) : bool := match kind_ h with Touchpad => true | _ => false end.
(** fallback: /repo/src/evdev-fallback.c:1733-1735 with /repo/src/evdev.c:1893; touchpad:
    /repo/src/evdev-mt-touchpad.c:3850-3863; tablet: /repo/src/evdev-tablet.c:2339-2345;
    pad: /repo/src/evdev-tablet-pad.c:660-666 *)
Definition hooks_left (h : hw) : bool :=
  match kind_ h with Fallback => mouse h | Touchpad => negb (onebutton h) | Tablet | Pad => reversible h | Totem => false end.
(** /repo/src/evdev.c:877-886: fallback, /repo/src/evdev-fallback.c:1741-1742 with
    /repo/src/evdev.c:1894-1910; touchpad, /repo/src/evdev-mt-touchpad.c:3125-3142 *)
Definition hooks_natural (h : hw) : bool :=
  match kind_ h with Fallback => mouse h || (keyboard h && (wheel h || hwheel h)) | Touchpad => true | _ => false end.
(** /repo/src/evdev.c:787-817: /repo/src/evdev-fallback.c:1737-1739 with /repo/src/evdev.c:1896-1899 *)
Definition hooks_btnscroll (h : hw) : bool :=
  match kind_ h with Fallback => mouse h && (relx h || rely h) | _ => false end.
(** every device: /repo/src/evdev.c:831-842 called by the fallback, tablet and totem;
    /repo/src/evdev-mt-touchpad.c:3865-3890; /repo/src/evdev-tablet-pad.c:731-751 *)
(** BTN_LEFT, BTN_RIGHT, BTN_MIDDLE, BTN_SIDE and BTN_TASK *)
Definition BTN_LEFT := 272. Definition BTN_RIGHT := 273. Definition BTN_MIDDLE := 274.
Definition BTN_SIDE := 275. Definition BTN_TASK := 279.
(** /repo/src/evdev-middle-button.c:698-726 as called at
    /repo/src/evdev-fallback.c:1747-1764 and by
    /repo/src/evdev-mt-touchpad-buttons.c:904-936: is the option offered *)
Definition hooks_mid (h : hw) : bool :=
  match kind_ h with
  | Fallback => btn h BTN_LEFT && btn h BTN_RIGHT && btn h BTN_MIDDLE
  | Touchpad => if clickpad h then true else if negb (btn h BTN_MIDDLE) then false else alps h
  | _ => false
  end.
(** ibidem: enabled_default, which is also the initial value *)
Definition mid_default (h : hw) : bool :=
  match kind_ h with
  | Fallback => btn h BTN_LEFT && btn h BTN_RIGHT && negb (btn h BTN_MIDDLE)
  | Touchpad => if clickpad h then false else if negb (btn h BTN_MIDDLE) then true else alps h
  | _ => false
  end.
(** /repo/src/evdev-mt-touchpad.c:3228-3242 *)
Definition hooks_dwt (h : hw) : bool :=
  match kind_ h with Touchpad => negb (external h && negb (below h)) | _ => false end.
(** /repo/src/evdev-fallback.c:1560-1574 *)
Definition hooks_rotation (h : hw) : bool := match kind_ h with Fallback => trackball h | _ => false end.

(** /repo/src/evdev-mt-touchpad-tap.c:1391-1398 *)
Definition tap_count (h : hw) : Z := Z.min (ntouches h) 3.
(** /repo/src/evdev-mt-touchpad-tap.c:1424-1444 *)
Definition tap_default (h : hw) : Z := if negb (btn h BTN_LEFT) then 1 else 0.
(** /repo/src/evdev.c:552-556, /repo/src/evdev-tablet-pad.c:685-689 and
    /repo/src/evdev-mt-touchpad.c:3694-3704 *)
Definition send_modes (h : hw) : Z :=
  match kind_ h with Touchpad => if internal h then Z.lor 1 2 else 1 | _ => 1 end.
(** /repo/src/evdev-mt-touchpad-buttons.c:733-750 *)
Definition click_methods (h : hw) : Z :=
  let methods := 0 in
  let methods := if clickpad h then
      let methods := Z.lor methods 1 in if has_mt h then Z.lor methods 2 else methods
    else methods in
  if onebutton h then Z.lor methods 2 else methods.
(** /repo/src/evdev-mt-touchpad-buttons.c:799-819 *)
Definition click_default (h : hw) : Z :=
  if click_quirk h || onebutton h then 2
  else if negb (clickpad h) then 0
  else if apple h then 2 else 1.
(** /repo/src/evdev-mt-touchpad.c:3041-3057 *)
Definition tp_methods (h : hw) : Z :=
  if dm4 h then 2 else if 2 <=? ntouches h then Z.lor 2 1 else 2.
(** /repo/src/evdev-mt-touchpad.c:3096-3114 *)
Definition tp_method_default (h : hw) : Z := if Z.land (tp_methods h) 1 =? 0 then 2 else 1.
(** /repo/src/evdev.c:677-693 *)
Definition method_default (h : hw) : Z :=
  if trackpoint h then 4
  else if negb (wheel h) && negb (hwheel h) && btn h BTN_MIDDLE then 4 else 0.
(** /repo/src/evdev.c:717-735 *)
Fixpoint first_button (h : hw) (l : list Z) : option Z :=
  match l with [] => None | c :: l => if btn h c then Some c else first_button h l end.
Definition button_default (h : hw) : Z :=
  if btn h BTN_MIDDLE then BTN_MIDDLE
  else match first_button h [BTN_SIDE; 276; 277; 278; BTN_TASK] with
       | Some c => c
       | None => if btn h BTN_RIGHT then BTN_RIGHT else 0
       end.

(** * Applying a wanted value *)

(** /repo/src/evdev-fallback.c:1492-1504,
    /repo/src/evdev-mt-touchpad.c:3773-3789,
    /repo/src/evdev-tablet-pad.c:429-441 and
    /repo/src/evdev-tablet.c:305-314: only the condition [b_left] differs;
    the rotation of touchpad and tablet is not part of this model *)
Definition change_left (c : conf) : conf :=
  if Bool.eqb (c_wleft c) (c_left c) then c
  else if b_left c then c
  else set_c_left c (c_wleft c).
(** /repo/src/evdev-fallback.c:1506-1523 with /repo/src/evdev.c:777-785 *)
Definition change_scroll (c : conf) : conf :=
  if (c_wmethod c =? c_method c) && (c_wbutton c =? c_button c) && Bool.eqb (c_wlock c) (c_lock c) then c
  else if b_scroll c then c
  else
    let c := set_c_method c (c_wmethod c) in
    let c := set_c_button c (c_wbutton c) in
    let c := set_c_lock c (c_wlock c) in
    set_c_lockst c (c_lock c).
(** /repo/src/evdev-middle-button.c:564-575 and
    /repo/src/evdev-mt-touchpad-buttons.c:830-847, less the
    software button areas *)
Definition apply_mid (c : conf) : conf :=
  if b_mid c then c
  else if Bool.eqb (c_wmid c) (c_mid c) then c
  else set_c_mid c (c_wmid c).
(** /repo/src/evdev-mt-touchpad-tap.c:1328-1336 *)
Definition update_map (c : conf) : conf :=
  if b_tap c then c
  else if negb (c_map c =? c_wmap c) then set_c_map c (c_wmap c) else c.

(** * The interface *)

(** the options *)
Inductive opt := Tap | TapMap | Drag | DragLock | SendEvents | Natural | LeftHanded | Click
  | MiddleEmulation | ScrollMethod | ScrollButton | ScrollLock | Dwt | Rotation.

(** /repo/src/libinput.c:3659-3663 *)
Definition get_finger_count (h : hw) : Z := if hooks_tap h then tap_count h else 0.
(** /repo/src/libinput.c:3838-3847 *)
Definition get_send_modes (h : hw) : Z := Z.lor 0 (send_modes h).
(** /repo/src/libinput.c:4036-4043; every touchpad, and nothing
    else, has the option *)
Definition get_click_methods (h : hw) : Z := if hooks_tap h then click_methods h else 0.
(** /repo/src/libinput.c:4141-4148 with
    /repo/src/evdev.c:649-653 and
    /repo/src/evdev-mt-touchpad.c:3059-3066 *)
Definition get_scroll_methods (h : hw) : Z :=
  if hooks_tap h then tp_methods h else if hooks_btnscroll h then 4 else 0.
(** the test of the scroll button functions, /repo/src/libinput.c:4194-4264 *)
Definition no_btnscroll (h : hw) : bool := Z.land (get_scroll_methods h) 4 =? 0.

(** /repo/src/evdev-mt-touchpad.c:3721-3756, /repo/src/evdev.c:558-582,
    /repo/src/evdev-tablet-pad.c:691-714: suspending and resuming the device is
    not part of this model, and does not change the result *)
Definition sendevents_set (h : hw) (mode : Z) (c : conf) : status * conf :=
  match kind_ h with
  | Touchpad =>
      let mode := if negb (Z.land mode 1 =? 0) && negb (Z.land mode 2 =? 0) then Z.land mode (Z.lnot 2) else mode in
      if mode =? c_send c then (SUCCESS, c)
      else if (mode =? 0) || (mode =? 1) || (mode =? 2) then (SUCCESS, set_c_send c mode)
      else (UNSUPPORTED, c)
  | _ =>
      if mode =? c_send c then (SUCCESS, c)
      else if (mode =? 0) || (mode =? 1) then (SUCCESS, set_c_send c mode)
      else (UNSUPPORTED, c)
  end.

Definition is01 (v : Z) : bool := (v =? 0) || (v =? 1).
Definition truth (v : Z) : bool := negb (v =? 0).
Definition b2z (b : bool) : Z := if b then 1 else 0.

(** the setters.
    Tap: /repo/src/libinput.c:3665-3679, /repo/src/evdev-mt-touchpad-tap.c:1400-1412;
    TapMap: /repo/src/libinput.c:3699-3715, /repo/src/evdev-mt-touchpad-tap.c:1454-1466;
    Drag: /repo/src/libinput.c:3735-3748, /repo/src/evdev-mt-touchpad-tap.c:1483-1493;
    DragLock: /repo/src/libinput.c:3768-3781, /repo/src/evdev-mt-touchpad-tap.c:1518-1528;
    SendEvents: /repo/src/libinput.c:3849-3861;
    Natural: /repo/src/libinput.c:3971-3979, /repo/src/evdev.c:850-859;
    LeftHanded: /repo/src/libinput.c:4008-4016, /repo/src/evdev.c:607-617;
    Click: /repo/src/libinput.c:4045-4067, /repo/src/evdev-mt-touchpad-buttons.c:777-788;
    MiddleEmulation: /repo/src/libinput.c:4097-4119, /repo/src/evdev-middle-button.c:656-676,
    /repo/src/evdev-mt-touchpad-buttons.c:855-875;
    ScrollMethod: /repo/src/libinput.c:4150-4173, /repo/src/evdev.c:655-665,
    /repo/src/evdev-mt-touchpad.c:3068-3085;
    ScrollButton: /repo/src/libinput.c:4193-4205, /repo/src/evdev.c:695-705;
    ScrollLock: /repo/src/libinput.c:4227-4244, /repo/src/evdev.c:737-757;
    Dwt: /repo/src/libinput.c:4275-4288, /repo/src/evdev-mt-touchpad.c:3150-3168;
    Rotation: /repo/src/libinput.c:4317-4329, /repo/src/evdev-fallback.c:1532-1543.
    The events sent when a setting changes in the middle of a gesture are in the models of the gestures. *)
Definition set (h : hw) (o : opt) (v : Z) (c : conf) : status * conf :=
  match o with
  | Tap =>
      if negb (v =? 1) && negb (v =? 0) then (INVALID, c)
      else if get_finger_count h =? 0 then (if truth v then UNSUPPORTED else SUCCESS, c)
      else (SUCCESS, set_c_tap c (b2z (v =? 1)))
  | TapMap =>
      if negb (is01 v) then (INVALID, c)
      else if get_finger_count h =? 0 then (UNSUPPORTED, c)
      else (SUCCESS, update_map (set_c_wmap c v))
  | Drag =>
      if negb (v =? 1) && negb (v =? 0) then (INVALID, c)
      else if get_finger_count h =? 0 then (if truth v then UNSUPPORTED else SUCCESS, c)
      else (SUCCESS, set_c_drag c v)
  | DragLock =>
      if negb (v =? 1) && negb (v =? 0) then (INVALID, c)
      else if get_finger_count h =? 0 then (if truth v then UNSUPPORTED else SUCCESS, c)
      else (SUCCESS, set_c_draglock c v)
  | SendEvents =>
      if negb (Z.land (get_send_modes h) v =? v) then (UNSUPPORTED, c)
      else sendevents_set h v c
  | Natural =>
      if negb (hooks_natural h) then (UNSUPPORTED, c)
      else (SUCCESS, set_c_natural c (truth v))
  | LeftHanded =>
      if negb (hooks_left h) then (UNSUPPORTED, c)
      else (SUCCESS, change_left (set_c_wleft c (truth v)))
  | Click =>
      if negb ((v =? 0) || (v =? 1) || (v =? 2)) then (INVALID, c)
      else if negb (Z.land (get_click_methods h) v =? v) then (UNSUPPORTED, c)
      else if hooks_tap h then (SUCCESS, set_c_click c v)
      else (SUCCESS, c)
  | MiddleEmulation =>
      if v =? 0 then
        if negb (hooks_mid h) then (SUCCESS, c) else (SUCCESS, apply_mid (set_c_wmid c false))
      else if v =? 1 then
        if negb (hooks_mid h) then (UNSUPPORTED, c) else (SUCCESS, apply_mid (set_c_wmid c true))
      else (INVALID, c)
  | ScrollMethod =>
      if negb ((v =? 0) || (v =? 1) || (v =? 2) || (v =? 4)) then (INVALID, c)
      else if negb (Z.land (get_scroll_methods h) v =? v) then (UNSUPPORTED, c)
      else if hooks_tap h then (SUCCESS, if v =? c_tpmethod c then c else set_c_tpmethod c v)
      else if hooks_btnscroll h then (SUCCESS, change_scroll (set_c_wmethod c v))
      else (SUCCESS, c)
  | ScrollButton =>
      if no_btnscroll h then (UNSUPPORTED, c)
      else if truth v && negb (btn h v) then (INVALID, c)
      else (SUCCESS, change_scroll (set_c_wbutton c v))
  | ScrollLock =>
      if no_btnscroll h then (UNSUPPORTED, c)
      else if negb (is01 v) then (INVALID, c)
      else (SUCCESS, change_scroll (set_c_wlock c (v =? 1)))
  | Dwt =>
      if negb (v =? 1) && negb (v =? 0) then (INVALID, c)
      else if negb (hooks_dwt h) then (if truth v then UNSUPPORTED else SUCCESS, c)
      else (SUCCESS, set_c_dwt c (v =? 1))
  | Rotation =>
      if negb (hooks_rotation h) then (if truth v then UNSUPPORTED else SUCCESS, c)
      else if (360 <=? v) || negb (v mod 90 =? 0) then (INVALID, c)
      else (SUCCESS, set_c_angle c v)
  end.

(** the getters: /repo/src/libinput.c:3681-3688, _tap_get_button_map to
    _rotation_get_angle, /repo/src/libinput.c:3717-4338, with
    /repo/src/evdev-mt-touchpad-tap.c:1414-1422, /repo/src/evdev-mt-touchpad-tap.c:1468-1475,
    /repo/src/evdev-mt-touchpad-tap.c:1495-1502, /repo/src/evdev-mt-touchpad-tap.c:1530-1537,
    /repo/src/evdev.c:584-591, /repo/src/evdev-mt-touchpad.c:3758-3765, /repo/src/evdev-tablet-pad.c:716-723,
    /repo/src/evdev.c:861-867, /repo/src/evdev.c:619-627,
    /repo/src/evdev-mt-touchpad-buttons.c:790-797, /repo/src/evdev-middle-button.c:678-686,
    /repo/src/evdev.c:667-675, /repo/src/evdev-mt-touchpad.c:3087-3094,
    /repo/src/evdev.c:707-715, /repo/src/evdev.c:759-768,
    /repo/src/evdev-mt-touchpad.c:3170-3179, /repo/src/evdev-fallback.c:1545-1552 *)
Definition get (h : hw) (o : opt) (c : conf) : Z :=
  match o with
  | Tap => if get_finger_count h =? 0 then 0 else c_tap c
  | TapMap => if get_finger_count h =? 0 then 0 else c_wmap c
  | Drag => if get_finger_count h =? 0 then 0 else c_drag c
  | DragLock => if get_finger_count h =? 0 then 0 else c_draglock c
  | SendEvents => c_send c
  | Natural => if negb (hooks_natural h) then 0 else b2z (c_natural c)
  | LeftHanded => if negb (hooks_left h) then 0 else b2z (c_wleft c)
  | Click => if hooks_tap h then c_click c else 0
  | MiddleEmulation => if negb (hooks_mid h) then 0 else b2z (c_wmid c)
  | ScrollMethod => if hooks_tap h then c_tpmethod c else if hooks_btnscroll h then c_wmethod c else 0
  | ScrollButton => if no_btnscroll h then 0 else c_wbutton c
  | ScrollLock => if no_btnscroll h then 0 else if negb (c_lockst c) then 0 else 1
  | Dwt => if negb (hooks_dwt h) then 0 else b2z (c_dwt c)
  | Rotation => if negb (hooks_rotation h) then 0 else c_angle c
  end.

(** the getters of the defaults, /repo/src/libinput.c:3691-4347, with
    /repo/src/evdev-mt-touchpad-tap.c:1446-1452, tp_tap_config_get_default_map, tp_drag_default, tp_drag_lock_default,
    /repo/src/evdev-mt-touchpad-tap.c:1478-1552, evdev_left_handed_get_default, evdev_scroll_get_default_button_lock,
    evdev_scroll_config_natural_get_default, /repo/src/evdev.c:629-633, 771-775, 869-875,
    /repo/src/evdev-middle-button.c:688-696, /repo/src/evdev-mt-touchpad.c:3187-3196,
    fallback_rotation_config_get_default_angle, /repo/src/evdev-fallback.c:1554-1558 *)
Definition get_default (h : hw) (o : opt) (c : conf) : Z :=
  match o with
  | Tap => if get_finger_count h =? 0 then 0 else tap_default h
  | TapMap => 0
  | Drag => if get_finger_count h =? 0 then 0 else 1
  | DragLock => 0
  | SendEvents => 0
  | Natural => 0
  | LeftHanded => 0
  | Click => if hooks_tap h then click_default h else 0
  | MiddleEmulation => if negb (hooks_mid h) then 0 else b2z (c_middef c)
  | ScrollMethod => if hooks_tap h then tp_method_default h else if hooks_btnscroll h then method_default h else 0
  | ScrollButton => if no_btnscroll h then 0 else button_default h
  | ScrollLock => 0
  | Dwt => if negb (hooks_dwt h) then 0 else 1
  | Rotation => 0
  end.

(** the device as added: zalloc and the init functions cited above *)
Definition init (h : hw) : conf := {|
  c_tap := if hooks_tap h then tap_default h else 0; c_map := 0; c_wmap := 0; c_drag := if hooks_tap h then 1 else 0;
  c_draglock := 0; c_send := 0; c_natural := false; c_left := false; c_wleft := false;
  c_click := if hooks_tap h then click_default h else 0;
  c_mid := mid_default h; c_wmid := mid_default h; c_middef := mid_default h;
  c_method := if hooks_btnscroll h then method_default h else 0;
  c_wmethod := if hooks_btnscroll h then method_default h else 0;
  c_button := if hooks_btnscroll h then button_default h else 0;
  c_wbutton := if hooks_btnscroll h then button_default h else 0;
  c_lock := false; c_wlock := false; c_lockst := false;
  c_tpmethod := if hooks_tap h then tp_method_default h else 0;
  c_dwt := hooks_dwt h; c_angle := 0;
  b_left := false; b_scroll := false; b_mid := false; b_tap := false |}.

(** What happens to the device.  [Set_ o v]: the caller sets an option.
    [Busy l s m t]: the user presses or releases buttons, touches or lifts:
    the conditions under which a change waits become these.  [Settle]: the
    places where a waiting change is tried again: evdev_pointer_post_button
    on a release, /repo/src/evdev.c:179-185, evdev_middlebutton_filter_button,
    /repo/src/evdev-middle-button.c:630-637, tp_post_process_state,
    /repo/src/evdev-mt-touchpad.c:1901-1912, and tp_tap_post_process_state,
    /repo/src/evdev-mt-touchpad-tap.c:1338-1342; they are
    tried here together, and [Busy] can come anywhere in between. *)
Inductive op := Set_ (o : opt) (v : Z) | Busy (l s m t : bool) | Settle.
Definition step (h : hw) (c : conf) (x : op) : conf :=
  match x with
  | Set_ o v => snd (set h o v c)
  | Busy l s m t => set_b_tap (set_b_mid (set_b_scroll (set_b_left c l) s) m) t
  | Settle => update_map (apply_mid (change_scroll (change_left c)))
  end.
Definition run (h : hw) (l : list op) : conf := fold_left (step h) l (init h).
