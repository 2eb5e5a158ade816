(** * Tablet tools: proximity, tip, buttons and axes

    Model of /repo/src/evdev-tablet.c.  What the kernel, libevdev, libwacom, the quirks, the calibration matrix, the pointer acceleration and
    the clock say is input.  Doubles are exact rationals; atan2 and 180/pi are parameters.  A NULL dereference or a shift by -1, which C leaves
    undefined, sets [crash] and goes on as compiled; running out of the given number of rounds of the loop in tablet_flush sets [hang].
    Left out: log messages, reference counts, SIZE_MAJOR and SIZE_MINOR (no tool of this file ever gets them), and division by the range of an
    axis whose minimum is its maximum (0 here, NaN or an infinity in C). *)
Require Import Coq.ZArith.ZArith Coq.QArith.QArith Coq.QArith.Qround Coq.Lists.List Coq.Bool.Bool.
Import ListNotations.
Open Scope Z_scope.

(** enum libinput_tablet_tool_axis, /repo/src/libinput-private.h:342-354 *)
Inductive axis := X | Y | DISTANCE | PRESSURE | TILT_X | TILT_Y | ROTATION_Z | SLIDER | REL_WHEEL.
Definition axis_eqb (a b : axis) : bool :=
  match a, b with
  | X, X | Y, Y | DISTANCE, DISTANCE | PRESSURE, PRESSURE | TILT_X, TILT_X | TILT_Y, TILT_Y | ROTATION_Z, ROTATION_Z | SLIDER, SLIDER | REL_WHEEL, REL_WHEEL => true
  | _, _ => false
  end.
Definition all_axes : list axis := [X; Y; DISTANCE; PRESSURE; TILT_X; TILT_Y; ROTATION_Z; SLIDER; REL_WHEEL].
Definition aupd {A} (f : axis -> A) (k : axis) (v : A) : axis -> A := fun x => if axis_eqb x k then v else f x.
Definition upd {A} (f : Z -> A) (k : Z) (v : A) : Z -> A := fun x => if x =? k then v else f x.

(** enum libinput_tablet_tool_type, /repo/src/libinput.h; 0 is LIBINPUT_TOOL_NONE *)
Definition PEN : Z := 1.  Definition ERASER : Z := 2.  Definition BRUSH : Z := 3.  Definition PENCIL : Z := 4.  Definition AIRBRUSH : Z := 5.
Definition MOUSE : Z := 6.  Definition LENS : Z := 7.
Definition is_mouse (ty : Z) : bool := (ty =? MOUSE) || (ty =? LENS).
Definition is_pen (ty : Z) : bool := (ty =? PEN) || (ty =? ERASER) || (ty =? BRUSH) || (ty =? PENCIL) || (ty =? AIRBRUSH).
(** Buttons, in ascending order of their codes: those tablet_update_button lets through, BTN_LEFT to BTN_TASK, BTN_STYLUS, BTN_STYLUS2 *)
Definition BTN_LEFT : Z := 0x110.  Definition BTN_RIGHT : Z := 0x111.  Definition BTN_MIDDLE : Z := 0x112.  Definition BTN_SIDE : Z := 0x113.
Definition BTN_EXTRA : Z := 0x114.  Definition BTN_STYLUS : Z := 0x14b.  Definition BTN_STYLUS2 : Z := 0x14c.
Definition buttons : list Z := [0x110; 0x111; 0x112; 0x113; 0x114; 0x115; 0x116; 0x117; 0x14b; 0x14c].
Definition known_button (c : Z) : bool := existsb (Z.eqb c) buttons.

(** What libwacom says about a stylus *)
Record stylus := { w_puck : bool; w_buttons : Z; w_wheel : bool; w_tilt : bool; w_rot : bool; w_dist : bool; w_slider : bool; w_pres : bool }.
(** The device: axes with their ranges (the axis ROTATION_Z stands for ABS_Z, SLIDER for ABS_WHEEL, REL_WHEEL for REL_WHEEL), buttons, vendor;
    libwacom's styli; the pressure range of the quirks; the calibration; the acceleration of a tool of a type at a time; the wheel's angle;
    180/pi and atan2 in degrees; the size of the history, 4, or 1 on AES tablets (/repo/src/evdev-tablet.c:2347-2394) *)
Record device := { has_abs : axis -> bool; amin : axis -> Z; amax : axis -> Z; ares : axis -> Z; afuzz : axis -> Z; has_key : Z -> bool;
  has_tool_pen : bool; has_tool_mouse : bool; has_tool_lens : bool; vendor_wacom : bool; styli : Z -> option stylus; quirk_range : option (Z * Z);
  calibrate : Z * Z -> Z * Z; accel : Z -> Z -> Z * Z -> Q * Q; wheel_angle : Q; deg_per_rad : Q; atan2_deg : Q -> Q -> Q; hsize : nat; reversible : bool }.
(** struct tablet_axes, /repo/src/libinput-private.h:358-369 *)
Record axes := Axes { pt : Z * Z; delta : Q * Q; distance : Q; pressure : Q; tilt : Q * Q; rotation : Q; slider : Q; wheel : Q; wheel_discrete : Z }.
Definition set_pt (s : axes) (v : Z * Z) : axes := Axes v (delta s) (distance s) (pressure s) (tilt s) (rotation s) (slider s) (wheel s) (wheel_discrete s).
Definition set_delta (s : axes) (v : Q * Q) : axes := Axes (pt s) v (distance s) (pressure s) (tilt s) (rotation s) (slider s) (wheel s) (wheel_discrete s).
Definition set_distance (s : axes) (v : Q) : axes := Axes (pt s) (delta s) v (pressure s) (tilt s) (rotation s) (slider s) (wheel s) (wheel_discrete s).
Definition set_pressure (s : axes) (v : Q) : axes := Axes (pt s) (delta s) (distance s) v (tilt s) (rotation s) (slider s) (wheel s) (wheel_discrete s).
Definition set_tilt (s : axes) (v : Q * Q) : axes := Axes (pt s) (delta s) (distance s) (pressure s) v (rotation s) (slider s) (wheel s) (wheel_discrete s).
Definition set_rotation (s : axes) (v : Q) : axes := Axes (pt s) (delta s) (distance s) (pressure s) (tilt s) v (slider s) (wheel s) (wheel_discrete s).
Definition set_slider (s : axes) (v : Q) : axes := Axes (pt s) (delta s) (distance s) (pressure s) (tilt s) (rotation s) v (wheel s) (wheel_discrete s).
Definition set_wheel (s : axes) (v : Q) : axes := Axes (pt s) (delta s) (distance s) (pressure s) (tilt s) (rotation s) (slider s) v (wheel_discrete s).
Definition set_wheel_discrete (s : axes) (v : Z) : axes := Axes (pt s) (delta s) (distance s) (pressure s) (tilt s) (rotation s) (slider s) (wheel s) v.

(** struct libinput_tablet_tool; [tid] stands for the address *)
Record tool := Tool { tid : nat; ttype : Z; tserial : Z; tool_id : Z; caps : axis -> bool; tbuttons : Z -> bool; p_offset : Z; p_has : bool; p_lower : Z; p_upper : Z }.
Definition set_tid (s : tool) (v : nat) : tool := Tool v (ttype s) (tserial s) (tool_id s) (caps s) (tbuttons s) (p_offset s) (p_has s) (p_lower s) (p_upper s).
Definition set_ttype (s : tool) (v : Z) : tool := Tool (tid s) v (tserial s) (tool_id s) (caps s) (tbuttons s) (p_offset s) (p_has s) (p_lower s) (p_upper s).
Definition set_tserial (s : tool) (v : Z) : tool := Tool (tid s) (ttype s) v (tool_id s) (caps s) (tbuttons s) (p_offset s) (p_has s) (p_lower s) (p_upper s).
Definition set_tool_id (s : tool) (v : Z) : tool := Tool (tid s) (ttype s) (tserial s) v (caps s) (tbuttons s) (p_offset s) (p_has s) (p_lower s) (p_upper s).
Definition set_caps (s : tool) (v : axis -> bool) : tool := Tool (tid s) (ttype s) (tserial s) (tool_id s) v (tbuttons s) (p_offset s) (p_has s) (p_lower s) (p_upper s).
Definition set_tbuttons (s : tool) (v : Z -> bool) : tool := Tool (tid s) (ttype s) (tserial s) (tool_id s) (caps s) v (p_offset s) (p_has s) (p_lower s) (p_upper s).
Definition set_p_offset (s : tool) (v : Z) : tool := Tool (tid s) (ttype s) (tserial s) (tool_id s) (caps s) (tbuttons s) v (p_has s) (p_lower s) (p_upper s).
Definition set_p_has (s : tool) (v : bool) : tool := Tool (tid s) (ttype s) (tserial s) (tool_id s) (caps s) (tbuttons s) (p_offset s) v (p_lower s) (p_upper s).
Definition set_p_lower (s : tool) (v : Z) : tool := Tool (tid s) (ttype s) (tserial s) (tool_id s) (caps s) (tbuttons s) (p_offset s) (p_has s) v (p_upper s).
Definition set_p_upper (s : tool) (v : Z) : tool := Tool (tid s) (ttype s) (tserial s) (tool_id s) (caps s) (tbuttons s) (p_offset s) (p_has s) (p_lower s) v.

(** enum evdev_arbitration_state *)
Inductive arbitration := NOT_ACTIVE | IGNORE_ALL | IGNORE_RECT.
Record rect := { rx : Z; ry : Z; rw : Z; rh : Z }.
(** struct tablet_dispatch, /repo/src/evdev-tablet.h:56-115, the status bits one by one; [absv] are libevdev's axis values; [globals] is the
    context's tool list, [locals] the tablet's; left_handed of the device *)
Record tab := Tab { axes_upd : bool; pressed_upd : bool; btn_down : bool; released_upd : bool; tool_upd : bool; contact : bool; leaving : bool; outp : bool; entering : bool; econt : bool; lcont : bool; oor : bool; changed : axis -> bool; ax : axes; smooth_pt : Z * Z; hidx : nat; hcount : nat; samples : nat -> axes; cur_val : axis -> Z; prev_val : axis -> Z; absv : axis -> Z; locals : list tool; globals : list tool; next_tid : nat; btn : Z -> bool; pbtn : Z -> bool; tstate : Z; ptstate : Z; ctype : Z; cid : Z; cserial : Z; touch_dev : option nat; arb : arbitration; rot_dev : option nat; rot_lh : bool; rotate : bool; want_rotate : bool; lh : bool; lh_want : bool; need_force : bool; timer : option Z; forced : bool; last_time : Z; in_progress : bool; crash : bool; hang : bool }.
Definition set_axes_upd (s : tab) (v : bool) : tab := Tab v (pressed_upd s) (btn_down s) (released_upd s) (tool_upd s) (contact s) (leaving s) (outp s) (entering s) (econt s) (lcont s) (oor s) (changed s) (ax s) (smooth_pt s) (hidx s) (hcount s) (samples s) (cur_val s) (prev_val s) (absv s) (locals s) (globals s) (next_tid s) (btn s) (pbtn s) (tstate s) (ptstate s) (ctype s) (cid s) (cserial s) (touch_dev s) (arb s) (rot_dev s) (rot_lh s) (rotate s) (want_rotate s) (lh s) (lh_want s) (need_force s) (timer s) (forced s) (last_time s) (in_progress s) (crash s) (hang s).
Definition set_pressed_upd (s : tab) (v : bool) : tab := Tab (axes_upd s) v (btn_down s) (released_upd s) (tool_upd s) (contact s) (leaving s) (outp s) (entering s) (econt s) (lcont s) (oor s) (changed s) (ax s) (smooth_pt s) (hidx s) (hcount s) (samples s) (cur_val s) (prev_val s) (absv s) (locals s) (globals s) (next_tid s) (btn s) (pbtn s) (tstate s) (ptstate s) (ctype s) (cid s) (cserial s) (touch_dev s) (arb s) (rot_dev s) (rot_lh s) (rotate s) (want_rotate s) (lh s) (lh_want s) (need_force s) (timer s) (forced s) (last_time s) (in_progress s) (crash s) (hang s).
Definition set_btn_down (s : tab) (v : bool) : tab := Tab (axes_upd s) (pressed_upd s) v (released_upd s) (tool_upd s) (contact s) (leaving s) (outp s) (entering s) (econt s) (lcont s) (oor s) (changed s) (ax s) (smooth_pt s) (hidx s) (hcount s) (samples s) (cur_val s) (prev_val s) (absv s) (locals s) (globals s) (next_tid s) (btn s) (pbtn s) (tstate s) (ptstate s) (ctype s) (cid s) (cserial s) (touch_dev s) (arb s) (rot_dev s) (rot_lh s) (rotate s) (want_rotate s) (lh s) (lh_want s) (need_force s) (timer s) (forced s) (last_time s) (in_progress s) (crash s) (hang s).
Definition set_released_upd (s : tab) (v : bool) : tab := Tab (axes_upd s) (pressed_upd s) (btn_down s) v (tool_upd s) (contact s) (leaving s) (outp s) (entering s) (econt s) (lcont s) (oor s) (changed s) (ax s) (smooth_pt s) (hidx s) (hcount s) (samples s) (cur_val s) (prev_val s) (absv s) (locals s) (globals s) (next_tid s) (btn s) (pbtn s) (tstate s) (ptstate s) (ctype s) (cid s) (cserial s) (touch_dev s) (arb s) (rot_dev s) (rot_lh s) (rotate s) (want_rotate s) (lh s) (lh_want s) (need_force s) (timer s) (forced s) (last_time s) (in_progress s) (crash s) (hang s).
Definition set_tool_upd (s : tab) (v : bool) : tab := Tab (axes_upd s) (pressed_upd s) (btn_down s) (released_upd s) v (contact s) (leaving s) (outp s) (entering s) (econt s) (lcont s) (oor s) (changed s) (ax s) (smooth_pt s) (hidx s) (hcount s) (samples s) (cur_val s) (prev_val s) (absv s) (locals s) (globals s) (next_tid s) (btn s) (pbtn s) (tstate s) (ptstate s) (ctype s) (cid s) (cserial s) (touch_dev s) (arb s) (rot_dev s) (rot_lh s) (rotate s) (want_rotate s) (lh s) (lh_want s) (need_force s) (timer s) (forced s) (last_time s) (in_progress s) (crash s) (hang s).
Definition set_contact (s : tab) (v : bool) : tab := Tab (axes_upd s) (pressed_upd s) (btn_down s) (released_upd s) (tool_upd s) v (leaving s) (outp s) (entering s) (econt s) (lcont s) (oor s) (changed s) (ax s) (smooth_pt s) (hidx s) (hcount s) (samples s) (cur_val s) (prev_val s) (absv s) (locals s) (globals s) (next_tid s) (btn s) (pbtn s) (tstate s) (ptstate s) (ctype s) (cid s) (cserial s) (touch_dev s) (arb s) (rot_dev s) (rot_lh s) (rotate s) (want_rotate s) (lh s) (lh_want s) (need_force s) (timer s) (forced s) (last_time s) (in_progress s) (crash s) (hang s).
Definition set_leaving (s : tab) (v : bool) : tab := Tab (axes_upd s) (pressed_upd s) (btn_down s) (released_upd s) (tool_upd s) (contact s) v (outp s) (entering s) (econt s) (lcont s) (oor s) (changed s) (ax s) (smooth_pt s) (hidx s) (hcount s) (samples s) (cur_val s) (prev_val s) (absv s) (locals s) (globals s) (next_tid s) (btn s) (pbtn s) (tstate s) (ptstate s) (ctype s) (cid s) (cserial s) (touch_dev s) (arb s) (rot_dev s) (rot_lh s) (rotate s) (want_rotate s) (lh s) (lh_want s) (need_force s) (timer s) (forced s) (last_time s) (in_progress s) (crash s) (hang s).
Definition set_outp (s : tab) (v : bool) : tab := Tab (axes_upd s) (pressed_upd s) (btn_down s) (released_upd s) (tool_upd s) (contact s) (leaving s) v (entering s) (econt s) (lcont s) (oor s) (changed s) (ax s) (smooth_pt s) (hidx s) (hcount s) (samples s) (cur_val s) (prev_val s) (absv s) (locals s) (globals s) (next_tid s) (btn s) (pbtn s) (tstate s) (ptstate s) (ctype s) (cid s) (cserial s) (touch_dev s) (arb s) (rot_dev s) (rot_lh s) (rotate s) (want_rotate s) (lh s) (lh_want s) (need_force s) (timer s) (forced s) (last_time s) (in_progress s) (crash s) (hang s).
Definition set_entering (s : tab) (v : bool) : tab := Tab (axes_upd s) (pressed_upd s) (btn_down s) (released_upd s) (tool_upd s) (contact s) (leaving s) (outp s) v (econt s) (lcont s) (oor s) (changed s) (ax s) (smooth_pt s) (hidx s) (hcount s) (samples s) (cur_val s) (prev_val s) (absv s) (locals s) (globals s) (next_tid s) (btn s) (pbtn s) (tstate s) (ptstate s) (ctype s) (cid s) (cserial s) (touch_dev s) (arb s) (rot_dev s) (rot_lh s) (rotate s) (want_rotate s) (lh s) (lh_want s) (need_force s) (timer s) (forced s) (last_time s) (in_progress s) (crash s) (hang s).
Definition set_econt (s : tab) (v : bool) : tab := Tab (axes_upd s) (pressed_upd s) (btn_down s) (released_upd s) (tool_upd s) (contact s) (leaving s) (outp s) (entering s) v (lcont s) (oor s) (changed s) (ax s) (smooth_pt s) (hidx s) (hcount s) (samples s) (cur_val s) (prev_val s) (absv s) (locals s) (globals s) (next_tid s) (btn s) (pbtn s) (tstate s) (ptstate s) (ctype s) (cid s) (cserial s) (touch_dev s) (arb s) (rot_dev s) (rot_lh s) (rotate s) (want_rotate s) (lh s) (lh_want s) (need_force s) (timer s) (forced s) (last_time s) (in_progress s) (crash s) (hang s).
Definition set_lcont (s : tab) (v : bool) : tab := Tab (axes_upd s) (pressed_upd s) (btn_down s) (released_upd s) (tool_upd s) (contact s) (leaving s) (outp s) (entering s) (econt s) v (oor s) (changed s) (ax s) (smooth_pt s) (hidx s) (hcount s) (samples s) (cur_val s) (prev_val s) (absv s) (locals s) (globals s) (next_tid s) (btn s) (pbtn s) (tstate s) (ptstate s) (ctype s) (cid s) (cserial s) (touch_dev s) (arb s) (rot_dev s) (rot_lh s) (rotate s) (want_rotate s) (lh s) (lh_want s) (need_force s) (timer s) (forced s) (last_time s) (in_progress s) (crash s) (hang s).
Definition set_oor (s : tab) (v : bool) : tab := Tab (axes_upd s) (pressed_upd s) (btn_down s) (released_upd s) (tool_upd s) (contact s) (leaving s) (outp s) (entering s) (econt s) (lcont s) v (changed s) (ax s) (smooth_pt s) (hidx s) (hcount s) (samples s) (cur_val s) (prev_val s) (absv s) (locals s) (globals s) (next_tid s) (btn s) (pbtn s) (tstate s) (ptstate s) (ctype s) (cid s) (cserial s) (touch_dev s) (arb s) (rot_dev s) (rot_lh s) (rotate s) (want_rotate s) (lh s) (lh_want s) (need_force s) (timer s) (forced s) (last_time s) (in_progress s) (crash s) (hang s).
Definition set_changed (s : tab) (v : axis -> bool) : tab := Tab (axes_upd s) (pressed_upd s) (btn_down s) (released_upd s) (tool_upd s) (contact s) (leaving s) (outp s) (entering s) (econt s) (lcont s) (oor s) v (ax s) (smooth_pt s) (hidx s) (hcount s) (samples s) (cur_val s) (prev_val s) (absv s) (locals s) (globals s) (next_tid s) (btn s) (pbtn s) (tstate s) (ptstate s) (ctype s) (cid s) (cserial s) (touch_dev s) (arb s) (rot_dev s) (rot_lh s) (rotate s) (want_rotate s) (lh s) (lh_want s) (need_force s) (timer s) (forced s) (last_time s) (in_progress s) (crash s) (hang s).
Definition set_ax (s : tab) (v : axes) : tab := Tab (axes_upd s) (pressed_upd s) (btn_down s) (released_upd s) (tool_upd s) (contact s) (leaving s) (outp s) (entering s) (econt s) (lcont s) (oor s) (changed s) v (smooth_pt s) (hidx s) (hcount s) (samples s) (cur_val s) (prev_val s) (absv s) (locals s) (globals s) (next_tid s) (btn s) (pbtn s) (tstate s) (ptstate s) (ctype s) (cid s) (cserial s) (touch_dev s) (arb s) (rot_dev s) (rot_lh s) (rotate s) (want_rotate s) (lh s) (lh_want s) (need_force s) (timer s) (forced s) (last_time s) (in_progress s) (crash s) (hang s).
Definition set_smooth_pt (s : tab) (v : Z * Z) : tab := Tab (axes_upd s) (pressed_upd s) (btn_down s) (released_upd s) (tool_upd s) (contact s) (leaving s) (outp s) (entering s) (econt s) (lcont s) (oor s) (changed s) (ax s) v (hidx s) (hcount s) (samples s) (cur_val s) (prev_val s) (absv s) (locals s) (globals s) (next_tid s) (btn s) (pbtn s) (tstate s) (ptstate s) (ctype s) (cid s) (cserial s) (touch_dev s) (arb s) (rot_dev s) (rot_lh s) (rotate s) (want_rotate s) (lh s) (lh_want s) (need_force s) (timer s) (forced s) (last_time s) (in_progress s) (crash s) (hang s).
Definition set_hidx (s : tab) (v : nat) : tab := Tab (axes_upd s) (pressed_upd s) (btn_down s) (released_upd s) (tool_upd s) (contact s) (leaving s) (outp s) (entering s) (econt s) (lcont s) (oor s) (changed s) (ax s) (smooth_pt s) v (hcount s) (samples s) (cur_val s) (prev_val s) (absv s) (locals s) (globals s) (next_tid s) (btn s) (pbtn s) (tstate s) (ptstate s) (ctype s) (cid s) (cserial s) (touch_dev s) (arb s) (rot_dev s) (rot_lh s) (rotate s) (want_rotate s) (lh s) (lh_want s) (need_force s) (timer s) (forced s) (last_time s) (in_progress s) (crash s) (hang s).
Definition set_hcount (s : tab) (v : nat) : tab := Tab (axes_upd s) (pressed_upd s) (btn_down s) (released_upd s) (tool_upd s) (contact s) (leaving s) (outp s) (entering s) (econt s) (lcont s) (oor s) (changed s) (ax s) (smooth_pt s) (hidx s) v (samples s) (cur_val s) (prev_val s) (absv s) (locals s) (globals s) (next_tid s) (btn s) (pbtn s) (tstate s) (ptstate s) (ctype s) (cid s) (cserial s) (touch_dev s) (arb s) (rot_dev s) (rot_lh s) (rotate s) (want_rotate s) (lh s) (lh_want s) (need_force s) (timer s) (forced s) (last_time s) (in_progress s) (crash s) (hang s).
Definition set_samples (s : tab) (v : nat -> axes) : tab := Tab (axes_upd s) (pressed_upd s) (btn_down s) (released_upd s) (tool_upd s) (contact s) (leaving s) (outp s) (entering s) (econt s) (lcont s) (oor s) (changed s) (ax s) (smooth_pt s) (hidx s) (hcount s) v (cur_val s) (prev_val s) (absv s) (locals s) (globals s) (next_tid s) (btn s) (pbtn s) (tstate s) (ptstate s) (ctype s) (cid s) (cserial s) (touch_dev s) (arb s) (rot_dev s) (rot_lh s) (rotate s) (want_rotate s) (lh s) (lh_want s) (need_force s) (timer s) (forced s) (last_time s) (in_progress s) (crash s) (hang s).
Definition set_cur_val (s : tab) (v : axis -> Z) : tab := Tab (axes_upd s) (pressed_upd s) (btn_down s) (released_upd s) (tool_upd s) (contact s) (leaving s) (outp s) (entering s) (econt s) (lcont s) (oor s) (changed s) (ax s) (smooth_pt s) (hidx s) (hcount s) (samples s) v (prev_val s) (absv s) (locals s) (globals s) (next_tid s) (btn s) (pbtn s) (tstate s) (ptstate s) (ctype s) (cid s) (cserial s) (touch_dev s) (arb s) (rot_dev s) (rot_lh s) (rotate s) (want_rotate s) (lh s) (lh_want s) (need_force s) (timer s) (forced s) (last_time s) (in_progress s) (crash s) (hang s).
Definition set_prev_val (s : tab) (v : axis -> Z) : tab := Tab (axes_upd s) (pressed_upd s) (btn_down s) (released_upd s) (tool_upd s) (contact s) (leaving s) (outp s) (entering s) (econt s) (lcont s) (oor s) (changed s) (ax s) (smooth_pt s) (hidx s) (hcount s) (samples s) (cur_val s) v (absv s) (locals s) (globals s) (next_tid s) (btn s) (pbtn s) (tstate s) (ptstate s) (ctype s) (cid s) (cserial s) (touch_dev s) (arb s) (rot_dev s) (rot_lh s) (rotate s) (want_rotate s) (lh s) (lh_want s) (need_force s) (timer s) (forced s) (last_time s) (in_progress s) (crash s) (hang s).
Definition set_absv (s : tab) (v : axis -> Z) : tab := Tab (axes_upd s) (pressed_upd s) (btn_down s) (released_upd s) (tool_upd s) (contact s) (leaving s) (outp s) (entering s) (econt s) (lcont s) (oor s) (changed s) (ax s) (smooth_pt s) (hidx s) (hcount s) (samples s) (cur_val s) (prev_val s) v (locals s) (globals s) (next_tid s) (btn s) (pbtn s) (tstate s) (ptstate s) (ctype s) (cid s) (cserial s) (touch_dev s) (arb s) (rot_dev s) (rot_lh s) (rotate s) (want_rotate s) (lh s) (lh_want s) (need_force s) (timer s) (forced s) (last_time s) (in_progress s) (crash s) (hang s).
Definition set_locals (s : tab) (v : list tool) : tab := Tab (axes_upd s) (pressed_upd s) (btn_down s) (released_upd s) (tool_upd s) (contact s) (leaving s) (outp s) (entering s) (econt s) (lcont s) (oor s) (changed s) (ax s) (smooth_pt s) (hidx s) (hcount s) (samples s) (cur_val s) (prev_val s) (absv s) v (globals s) (next_tid s) (btn s) (pbtn s) (tstate s) (ptstate s) (ctype s) (cid s) (cserial s) (touch_dev s) (arb s) (rot_dev s) (rot_lh s) (rotate s) (want_rotate s) (lh s) (lh_want s) (need_force s) (timer s) (forced s) (last_time s) (in_progress s) (crash s) (hang s).
Definition set_globals (s : tab) (v : list tool) : tab := Tab (axes_upd s) (pressed_upd s) (btn_down s) (released_upd s) (tool_upd s) (contact s) (leaving s) (outp s) (entering s) (econt s) (lcont s) (oor s) (changed s) (ax s) (smooth_pt s) (hidx s) (hcount s) (samples s) (cur_val s) (prev_val s) (absv s) (locals s) v (next_tid s) (btn s) (pbtn s) (tstate s) (ptstate s) (ctype s) (cid s) (cserial s) (touch_dev s) (arb s) (rot_dev s) (rot_lh s) (rotate s) (want_rotate s) (lh s) (lh_want s) (need_force s) (timer s) (forced s) (last_time s) (in_progress s) (crash s) (hang s).
Definition set_next_tid (s : tab) (v : nat) : tab := Tab (axes_upd s) (pressed_upd s) (btn_down s) (released_upd s) (tool_upd s) (contact s) (leaving s) (outp s) (entering s) (econt s) (lcont s) (oor s) (changed s) (ax s) (smooth_pt s) (hidx s) (hcount s) (samples s) (cur_val s) (prev_val s) (absv s) (locals s) (globals s) v (btn s) (pbtn s) (tstate s) (ptstate s) (ctype s) (cid s) (cserial s) (touch_dev s) (arb s) (rot_dev s) (rot_lh s) (rotate s) (want_rotate s) (lh s) (lh_want s) (need_force s) (timer s) (forced s) (last_time s) (in_progress s) (crash s) (hang s).
Definition set_btn (s : tab) (v : Z -> bool) : tab := Tab (axes_upd s) (pressed_upd s) (btn_down s) (released_upd s) (tool_upd s) (contact s) (leaving s) (outp s) (entering s) (econt s) (lcont s) (oor s) (changed s) (ax s) (smooth_pt s) (hidx s) (hcount s) (samples s) (cur_val s) (prev_val s) (absv s) (locals s) (globals s) (next_tid s) v (pbtn s) (tstate s) (ptstate s) (ctype s) (cid s) (cserial s) (touch_dev s) (arb s) (rot_dev s) (rot_lh s) (rotate s) (want_rotate s) (lh s) (lh_want s) (need_force s) (timer s) (forced s) (last_time s) (in_progress s) (crash s) (hang s).
Definition set_pbtn (s : tab) (v : Z -> bool) : tab := Tab (axes_upd s) (pressed_upd s) (btn_down s) (released_upd s) (tool_upd s) (contact s) (leaving s) (outp s) (entering s) (econt s) (lcont s) (oor s) (changed s) (ax s) (smooth_pt s) (hidx s) (hcount s) (samples s) (cur_val s) (prev_val s) (absv s) (locals s) (globals s) (next_tid s) (btn s) v (tstate s) (ptstate s) (ctype s) (cid s) (cserial s) (touch_dev s) (arb s) (rot_dev s) (rot_lh s) (rotate s) (want_rotate s) (lh s) (lh_want s) (need_force s) (timer s) (forced s) (last_time s) (in_progress s) (crash s) (hang s).
Definition set_tstate (s : tab) (v : Z) : tab := Tab (axes_upd s) (pressed_upd s) (btn_down s) (released_upd s) (tool_upd s) (contact s) (leaving s) (outp s) (entering s) (econt s) (lcont s) (oor s) (changed s) (ax s) (smooth_pt s) (hidx s) (hcount s) (samples s) (cur_val s) (prev_val s) (absv s) (locals s) (globals s) (next_tid s) (btn s) (pbtn s) v (ptstate s) (ctype s) (cid s) (cserial s) (touch_dev s) (arb s) (rot_dev s) (rot_lh s) (rotate s) (want_rotate s) (lh s) (lh_want s) (need_force s) (timer s) (forced s) (last_time s) (in_progress s) (crash s) (hang s).
Definition set_ptstate (s : tab) (v : Z) : tab := Tab (axes_upd s) (pressed_upd s) (btn_down s) (released_upd s) (tool_upd s) (contact s) (leaving s) (outp s) (entering s) (econt s) (lcont s) (oor s) (changed s) (ax s) (smooth_pt s) (hidx s) (hcount s) (samples s) (cur_val s) (prev_val s) (absv s) (locals s) (globals s) (next_tid s) (btn s) (pbtn s) (tstate s) v (ctype s) (cid s) (cserial s) (touch_dev s) (arb s) (rot_dev s) (rot_lh s) (rotate s) (want_rotate s) (lh s) (lh_want s) (need_force s) (timer s) (forced s) (last_time s) (in_progress s) (crash s) (hang s).
Definition set_ctype (s : tab) (v : Z) : tab := Tab (axes_upd s) (pressed_upd s) (btn_down s) (released_upd s) (tool_upd s) (contact s) (leaving s) (outp s) (entering s) (econt s) (lcont s) (oor s) (changed s) (ax s) (smooth_pt s) (hidx s) (hcount s) (samples s) (cur_val s) (prev_val s) (absv s) (locals s) (globals s) (next_tid s) (btn s) (pbtn s) (tstate s) (ptstate s) v (cid s) (cserial s) (touch_dev s) (arb s) (rot_dev s) (rot_lh s) (rotate s) (want_rotate s) (lh s) (lh_want s) (need_force s) (timer s) (forced s) (last_time s) (in_progress s) (crash s) (hang s).
Definition set_cid (s : tab) (v : Z) : tab := Tab (axes_upd s) (pressed_upd s) (btn_down s) (released_upd s) (tool_upd s) (contact s) (leaving s) (outp s) (entering s) (econt s) (lcont s) (oor s) (changed s) (ax s) (smooth_pt s) (hidx s) (hcount s) (samples s) (cur_val s) (prev_val s) (absv s) (locals s) (globals s) (next_tid s) (btn s) (pbtn s) (tstate s) (ptstate s) (ctype s) v (cserial s) (touch_dev s) (arb s) (rot_dev s) (rot_lh s) (rotate s) (want_rotate s) (lh s) (lh_want s) (need_force s) (timer s) (forced s) (last_time s) (in_progress s) (crash s) (hang s).
Definition set_cserial (s : tab) (v : Z) : tab := Tab (axes_upd s) (pressed_upd s) (btn_down s) (released_upd s) (tool_upd s) (contact s) (leaving s) (outp s) (entering s) (econt s) (lcont s) (oor s) (changed s) (ax s) (smooth_pt s) (hidx s) (hcount s) (samples s) (cur_val s) (prev_val s) (absv s) (locals s) (globals s) (next_tid s) (btn s) (pbtn s) (tstate s) (ptstate s) (ctype s) (cid s) v (touch_dev s) (arb s) (rot_dev s) (rot_lh s) (rotate s) (want_rotate s) (lh s) (lh_want s) (need_force s) (timer s) (forced s) (last_time s) (in_progress s) (crash s) (hang s).
Definition set_touch_dev (s : tab) (v : option nat) : tab := Tab (axes_upd s) (pressed_upd s) (btn_down s) (released_upd s) (tool_upd s) (contact s) (leaving s) (outp s) (entering s) (econt s) (lcont s) (oor s) (changed s) (ax s) (smooth_pt s) (hidx s) (hcount s) (samples s) (cur_val s) (prev_val s) (absv s) (locals s) (globals s) (next_tid s) (btn s) (pbtn s) (tstate s) (ptstate s) (ctype s) (cid s) (cserial s) v (arb s) (rot_dev s) (rot_lh s) (rotate s) (want_rotate s) (lh s) (lh_want s) (need_force s) (timer s) (forced s) (last_time s) (in_progress s) (crash s) (hang s).
Definition set_arb (s : tab) (v : arbitration) : tab := Tab (axes_upd s) (pressed_upd s) (btn_down s) (released_upd s) (tool_upd s) (contact s) (leaving s) (outp s) (entering s) (econt s) (lcont s) (oor s) (changed s) (ax s) (smooth_pt s) (hidx s) (hcount s) (samples s) (cur_val s) (prev_val s) (absv s) (locals s) (globals s) (next_tid s) (btn s) (pbtn s) (tstate s) (ptstate s) (ctype s) (cid s) (cserial s) (touch_dev s) v (rot_dev s) (rot_lh s) (rotate s) (want_rotate s) (lh s) (lh_want s) (need_force s) (timer s) (forced s) (last_time s) (in_progress s) (crash s) (hang s).
Definition set_rot_dev (s : tab) (v : option nat) : tab := Tab (axes_upd s) (pressed_upd s) (btn_down s) (released_upd s) (tool_upd s) (contact s) (leaving s) (outp s) (entering s) (econt s) (lcont s) (oor s) (changed s) (ax s) (smooth_pt s) (hidx s) (hcount s) (samples s) (cur_val s) (prev_val s) (absv s) (locals s) (globals s) (next_tid s) (btn s) (pbtn s) (tstate s) (ptstate s) (ctype s) (cid s) (cserial s) (touch_dev s) (arb s) v (rot_lh s) (rotate s) (want_rotate s) (lh s) (lh_want s) (need_force s) (timer s) (forced s) (last_time s) (in_progress s) (crash s) (hang s).
Definition set_rot_lh (s : tab) (v : bool) : tab := Tab (axes_upd s) (pressed_upd s) (btn_down s) (released_upd s) (tool_upd s) (contact s) (leaving s) (outp s) (entering s) (econt s) (lcont s) (oor s) (changed s) (ax s) (smooth_pt s) (hidx s) (hcount s) (samples s) (cur_val s) (prev_val s) (absv s) (locals s) (globals s) (next_tid s) (btn s) (pbtn s) (tstate s) (ptstate s) (ctype s) (cid s) (cserial s) (touch_dev s) (arb s) (rot_dev s) v (rotate s) (want_rotate s) (lh s) (lh_want s) (need_force s) (timer s) (forced s) (last_time s) (in_progress s) (crash s) (hang s).
Definition set_rotate (s : tab) (v : bool) : tab := Tab (axes_upd s) (pressed_upd s) (btn_down s) (released_upd s) (tool_upd s) (contact s) (leaving s) (outp s) (entering s) (econt s) (lcont s) (oor s) (changed s) (ax s) (smooth_pt s) (hidx s) (hcount s) (samples s) (cur_val s) (prev_val s) (absv s) (locals s) (globals s) (next_tid s) (btn s) (pbtn s) (tstate s) (ptstate s) (ctype s) (cid s) (cserial s) (touch_dev s) (arb s) (rot_dev s) (rot_lh s) v (want_rotate s) (lh s) (lh_want s) (need_force s) (timer s) (forced s) (last_time s) (in_progress s) (crash s) (hang s).
Definition set_want_rotate (s : tab) (v : bool) : tab := Tab (axes_upd s) (pressed_upd s) (btn_down s) (released_upd s) (tool_upd s) (contact s) (leaving s) (outp s) (entering s) (econt s) (lcont s) (oor s) (changed s) (ax s) (smooth_pt s) (hidx s) (hcount s) (samples s) (cur_val s) (prev_val s) (absv s) (locals s) (globals s) (next_tid s) (btn s) (pbtn s) (tstate s) (ptstate s) (ctype s) (cid s) (cserial s) (touch_dev s) (arb s) (rot_dev s) (rot_lh s) (rotate s) v (lh s) (lh_want s) (need_force s) (timer s) (forced s) (last_time s) (in_progress s) (crash s) (hang s).
Definition set_lh (s : tab) (v : bool) : tab := Tab (axes_upd s) (pressed_upd s) (btn_down s) (released_upd s) (tool_upd s) (contact s) (leaving s) (outp s) (entering s) (econt s) (lcont s) (oor s) (changed s) (ax s) (smooth_pt s) (hidx s) (hcount s) (samples s) (cur_val s) (prev_val s) (absv s) (locals s) (globals s) (next_tid s) (btn s) (pbtn s) (tstate s) (ptstate s) (ctype s) (cid s) (cserial s) (touch_dev s) (arb s) (rot_dev s) (rot_lh s) (rotate s) (want_rotate s) v (lh_want s) (need_force s) (timer s) (forced s) (last_time s) (in_progress s) (crash s) (hang s).
Definition set_lh_want (s : tab) (v : bool) : tab := Tab (axes_upd s) (pressed_upd s) (btn_down s) (released_upd s) (tool_upd s) (contact s) (leaving s) (outp s) (entering s) (econt s) (lcont s) (oor s) (changed s) (ax s) (smooth_pt s) (hidx s) (hcount s) (samples s) (cur_val s) (prev_val s) (absv s) (locals s) (globals s) (next_tid s) (btn s) (pbtn s) (tstate s) (ptstate s) (ctype s) (cid s) (cserial s) (touch_dev s) (arb s) (rot_dev s) (rot_lh s) (rotate s) (want_rotate s) (lh s) v (need_force s) (timer s) (forced s) (last_time s) (in_progress s) (crash s) (hang s).
Definition set_need_force (s : tab) (v : bool) : tab := Tab (axes_upd s) (pressed_upd s) (btn_down s) (released_upd s) (tool_upd s) (contact s) (leaving s) (outp s) (entering s) (econt s) (lcont s) (oor s) (changed s) (ax s) (smooth_pt s) (hidx s) (hcount s) (samples s) (cur_val s) (prev_val s) (absv s) (locals s) (globals s) (next_tid s) (btn s) (pbtn s) (tstate s) (ptstate s) (ctype s) (cid s) (cserial s) (touch_dev s) (arb s) (rot_dev s) (rot_lh s) (rotate s) (want_rotate s) (lh s) (lh_want s) v (timer s) (forced s) (last_time s) (in_progress s) (crash s) (hang s).
Definition set_timer (s : tab) (v : option Z) : tab := Tab (axes_upd s) (pressed_upd s) (btn_down s) (released_upd s) (tool_upd s) (contact s) (leaving s) (outp s) (entering s) (econt s) (lcont s) (oor s) (changed s) (ax s) (smooth_pt s) (hidx s) (hcount s) (samples s) (cur_val s) (prev_val s) (absv s) (locals s) (globals s) (next_tid s) (btn s) (pbtn s) (tstate s) (ptstate s) (ctype s) (cid s) (cserial s) (touch_dev s) (arb s) (rot_dev s) (rot_lh s) (rotate s) (want_rotate s) (lh s) (lh_want s) (need_force s) v (forced s) (last_time s) (in_progress s) (crash s) (hang s).
Definition set_forced (s : tab) (v : bool) : tab := Tab (axes_upd s) (pressed_upd s) (btn_down s) (released_upd s) (tool_upd s) (contact s) (leaving s) (outp s) (entering s) (econt s) (lcont s) (oor s) (changed s) (ax s) (smooth_pt s) (hidx s) (hcount s) (samples s) (cur_val s) (prev_val s) (absv s) (locals s) (globals s) (next_tid s) (btn s) (pbtn s) (tstate s) (ptstate s) (ctype s) (cid s) (cserial s) (touch_dev s) (arb s) (rot_dev s) (rot_lh s) (rotate s) (want_rotate s) (lh s) (lh_want s) (need_force s) (timer s) v (last_time s) (in_progress s) (crash s) (hang s).
Definition set_last_time (s : tab) (v : Z) : tab := Tab (axes_upd s) (pressed_upd s) (btn_down s) (released_upd s) (tool_upd s) (contact s) (leaving s) (outp s) (entering s) (econt s) (lcont s) (oor s) (changed s) (ax s) (smooth_pt s) (hidx s) (hcount s) (samples s) (cur_val s) (prev_val s) (absv s) (locals s) (globals s) (next_tid s) (btn s) (pbtn s) (tstate s) (ptstate s) (ctype s) (cid s) (cserial s) (touch_dev s) (arb s) (rot_dev s) (rot_lh s) (rotate s) (want_rotate s) (lh s) (lh_want s) (need_force s) (timer s) (forced s) v (in_progress s) (crash s) (hang s).
Definition set_in_progress (s : tab) (v : bool) : tab := Tab (axes_upd s) (pressed_upd s) (btn_down s) (released_upd s) (tool_upd s) (contact s) (leaving s) (outp s) (entering s) (econt s) (lcont s) (oor s) (changed s) (ax s) (smooth_pt s) (hidx s) (hcount s) (samples s) (cur_val s) (prev_val s) (absv s) (locals s) (globals s) (next_tid s) (btn s) (pbtn s) (tstate s) (ptstate s) (ctype s) (cid s) (cserial s) (touch_dev s) (arb s) (rot_dev s) (rot_lh s) (rotate s) (want_rotate s) (lh s) (lh_want s) (need_force s) (timer s) (forced s) (last_time s) v (crash s) (hang s).
Definition set_crash (s : tab) (v : bool) : tab := Tab (axes_upd s) (pressed_upd s) (btn_down s) (released_upd s) (tool_upd s) (contact s) (leaving s) (outp s) (entering s) (econt s) (lcont s) (oor s) (changed s) (ax s) (smooth_pt s) (hidx s) (hcount s) (samples s) (cur_val s) (prev_val s) (absv s) (locals s) (globals s) (next_tid s) (btn s) (pbtn s) (tstate s) (ptstate s) (ctype s) (cid s) (cserial s) (touch_dev s) (arb s) (rot_dev s) (rot_lh s) (rotate s) (want_rotate s) (lh s) (lh_want s) (need_force s) (timer s) (forced s) (last_time s) (in_progress s) v (hang s).
Definition set_hang (s : tab) (v : bool) : tab := Tab (axes_upd s) (pressed_upd s) (btn_down s) (released_upd s) (tool_upd s) (contact s) (leaving s) (outp s) (entering s) (econt s) (lcont s) (oor s) (changed s) (ax s) (smooth_pt s) (hidx s) (hcount s) (samples s) (cur_val s) (prev_val s) (absv s) (locals s) (globals s) (next_tid s) (btn s) (pbtn s) (tstate s) (ptstate s) (ctype s) (cid s) (cserial s) (touch_dev s) (arb s) (rot_dev s) (rot_lh s) (rotate s) (want_rotate s) (lh s) (lh_want s) (need_force s) (timer s) (forced s) (last_time s) (in_progress s) (crash s) v.

(** What goes out: the events for the client, and calls to the touch device's dispatch *)
Inductive tev :=
| EProx (t : Z) (o : tool) (enter : bool) (ch : axis -> bool) (a : axes)
| ETip (t : Z) (o : tool) (down : bool) (ch : axis -> bool) (a : axes)
| EAxis (t : Z) (o : tool) (down : bool) (ch : axis -> bool) (a : axes)
| EButton (t : Z) (o : tool) (down : bool) (a : axes) (b : Z) (press : bool)
| OArb (t : Z) (w : arbitration) (r : option rect)
| ORect (t : Z) (r : rect)
| OLeft (b : bool).

(** ** Axes of the tablet and of its tools *)
(** /repo/src/evdev-tablet.c:139-173; BTN_TOOL_MOUSE is disabled by then unless the tablet is a Wacom *)
Definition mouse_enabled (d : device) : bool := vendor_wacom d && has_tool_mouse d.
Definition lens_enabled (d : device) : bool := vendor_wacom d && has_tool_lens d.
Definition dev_axis (d : device) (a : axis) : bool :=
  match a with
  | ROTATION_Z => (mouse_enabled d && has_abs d TILT_X && has_abs d TILT_Y) || has_abs d ROTATION_Z
  | _ => has_abs d a
  end.
Definition copy_caps (d : device) (l : list axis) (c : axis -> bool) : axis -> bool := fun a => c a || (existsb (axis_eqb a) l && dev_axis d a).
Definition copy_buttons (d : device) (l : list Z) : Z -> bool := fun b => existsb (Z.eqb b) l && has_key d b.
(** /repo/src/evdev-tablet.c:927-992; [n] buttons of a puck from BTN_LEFT on *)
Definition wacom_caps (d : device) (w : stylus) : axis -> bool :=
  let c := copy_caps d (([X; Y] ++ (if w_wheel w then [REL_WHEEL] else [])) ++ (if w_tilt w then if w_puck w then [] else [TILT_X; TILT_Y] else []) ++ (if w_rot w then [ROTATION_Z] else [])
    ++ (if w_dist w then [DISTANCE] else []) ++ (if w_slider w then [SLIDER] else []) ++ (if w_pres w then [PRESSURE] else []))%list (fun _ => false) in
  if w_tilt w && w_puck w then aupd c ROTATION_Z true else c.
Definition wacom_buttons (d : device) (w : stylus) : Z -> bool :=
  if w_puck w then fun b => (BTN_LEFT <=? b) && (b <? BTN_LEFT + w_buttons w) && has_key d b
  else copy_buttons d ((if 2 <=? w_buttons w then [BTN_STYLUS2] else []) ++ (if 1 <=? w_buttons w then [BTN_STYLUS] else []))%list.
(** /repo/src/evdev-tablet.c:994-1065 *)
Definition tool_caps (d : device) (ty : Z) (id : Z) : axis -> bool :=
  match styli d id with
  | Some w => wacom_caps d w
  | None =>
    copy_caps d ([X; Y] ++ (if is_pen ty then [PRESSURE; DISTANCE; TILT_X; TILT_Y; SLIDER] ++ (if has_abs d ROTATION_Z then [ROTATION_Z] else [])
                            else if is_mouse ty then [ROTATION_Z; REL_WHEEL] else []))%list (fun _ => false)
  end.
Definition tool_buttons (d : device) (ty : Z) (id : Z) : Z -> bool :=
  match styli d id with
  | Some w => wacom_buttons d w
  | None => copy_buttons d (if is_pen ty then [BTN_STYLUS; BTN_STYLUS2] else if is_mouse ty then [BTN_LEFT; BTN_MIDDLE; BTN_RIGHT; BTN_SIDE; BTN_EXTRA] else [])
  end.
(** /repo/src/evdev-tablet.c:1067-1071 *)
Definition range_percent (d : device) (a : axis) (p : Z) : Z := Z.quot ((amax d a - amin d a) * p + 100 * amin d a) 100.
(** /repo/src/evdev-tablet.c:1073-1114 *)
Definition thresholds (d : device) : Z * Z :=
  if has_abs d PRESSURE then
    match quirk_range d with
    | Some (lo, hi) => if hi <=? lo then (range_percent d PRESSURE 1, range_percent d PRESSURE 5) else (lo, hi)
    | None => (range_percent d PRESSURE 1, range_percent d PRESSURE 5)
    end
  else (0, 1).
Definition new_tool (d : device) (n : nat) (ty id serial : Z) : tool :=
  Tool n ty serial id (tool_caps d ty id) (tool_buttons d ty id) (if has_abs d PRESSURE then amin d PRESSURE else 0) false (fst (thresholds d)) (snd (thresholds d)).
(** /repo/src/evdev-tablet.c:1116-1182 *)
Definition get_tool (d : device) (s : tab) (ty id serial : Z) : tab * tool :=
  let g := if serial =? 0 then None else find (fun o => (ttype o =? ty) && (tserial o =? serial)) (globals s) in
  match g with
  | Some o => (s, o)
  | None =>
    match find (fun o => ttype o =? ty) (locals s) with
    | Some o => (s, o)
    | None =>
      let o := new_tool d (next_tid s) ty id serial in
      let s := set_next_tid s (S (next_tid s)) in
      (if serial =? 0 then set_locals s (o :: locals s) else set_globals s (o :: globals s), o)
    end
  end.
(** A write through the tool's pointer *)
Definition put_tool (s : tab) (o : tool) : tab :=
  let f := map (fun x => if Nat.eqb (tid x) (tid o) then o else x) in set_globals (set_locals s (f (locals s))) (f (globals s)).

(** ** One kernel event *)
(** /repo/src/evdev-tablet.c:175-203 *)
Definition fuzzed (d : device) (prev : Z) (a : axis) (v : Z) : bool :=
  Z.abs (prev - v) <=? (match a with DISTANCE => Z.max 2 (afuzz d a) | _ => afuzz d a end).
(** /repo/src/evdev-tablet.c:205-260; libevdev has stored the value already and drops axes the device does not have *)
Definition process_absolute (d : device) (s : tab) (a : axis) (v : Z) : tab :=
  if negb (has_abs d a) then s else
  let s := set_absv s (aupd (absv s) a v) in
  let s := set_prev_val s (aupd (prev_val s) a (cur_val s a)) in
  if fuzzed d (prev_val s a) a v then s else
  set_axes_upd (set_changed (set_cur_val s (aupd (cur_val s) a v)) (aupd (changed s) a true)) true.
(** /repo/src/evdev-tablet.c:855-883 *)
Definition process_wheel (d : device) (s : tab) (v : Z) : tab :=
  if negb (has_abs d REL_WHEEL) then s else
  set_axes_upd (set_ax (set_changed s (aupd (changed s) REL_WHEEL true)) (set_wheel_discrete (ax s) (- v))) true.
Definition bit (ty : Z) : Z := Z.shiftl 1 ty.
(** /repo/src/evdev-tablet.c:807-853: BTN_TOOL_*; libevdev drops the mouse and the lens where they are disabled; a pen type the device does not have is let through here *)
Definition tool_enabled (d : device) (ty : Z) : bool :=
  if ty =? MOUSE then mouse_enabled d else if ty =? LENS then lens_enabled d else is_pen ty.
Definition process_tool (d : device) (s : tab) (ty : Z) (down : bool) : tab :=
  if negb (tool_enabled d ty) then s else
  let s := set_tool_upd s true in
  set_tstate s (if down then Z.lor (tstate s) (bit ty) else Z.ldiff (tstate s) (bit ty)).
(** ... BTN_TOUCH *)
Definition process_touch (d : device) (s : tab) (down : bool) : tab :=
  if dev_axis d PRESSURE then s else if down then set_econt s true else set_lcont s true.
(** /repo/src/evdev-tablet.c:753-785; key repeat (value 2) is dropped in tablet_process_key *)
Definition update_button (s : tab) (c : Z) (down : bool) : tab :=
  if negb (known_button c) then s else
  if down then set_pressed_upd (set_btn s (upd (btn s) c true)) true else set_released_upd (set_btn s (upd (btn s) c false)) true.
(** /repo/src/evdev-tablet.c:885-906 *)
Definition process_serial (s : tab) (v : Z) : tab := if v =? -1 then s else set_cserial s v.

(** ** Left-handed use and rotation *)
(** /repo/src/evdev-tablet.c:262-278 *)
Definition apply_rotation (s : tab) : tab :=
  if Bool.eqb (rotate s) (want_rotate s) then s else if negb (outp s) then s else set_rotate s (want_rotate s).
(** /repo/src/evdev-tablet.c:280-303 *)
Definition change_rotation (s : tab) (notify : bool) : tab * list tev :=
  let s := apply_rotation (set_want_rotate s (lh s || rot_lh s)) in
  (s, match touch_dev s with Some _ => if notify then [OLeft (lh_want s)] else [] | None => [] end).
(** /repo/src/evdev-tablet.c:305-314 *)
Definition change_to_left_handed (s : tab) : tab * list tev :=
  if Bool.eqb (lh s) (lh_want s) then (s, []) else change_rotation (set_lh s (lh_want s)) true.

(** ** Axis values *)
Definition ratio (n m : Z) : Q := (inject_Z n / inject_Z m)%Q.
(** /repo/src/evdev-tablet.c:334-341, /repo/src/evdev-tablet.c:343-350 *)
Definition unit_range (d : device) (a : axis) (v : Z) : Q := ratio (v - amin d a) (amax d a - amin d a).
Definition norm_slider (d : device) (v : Z) : Q := (unit_range d SLIDER v * 2 - 1)%Q.
Definition norm_distance (d : device) (v : Z) : Q := unit_range d DISTANCE v.
(** /repo/src/evdev-tablet.c:352-382 *)
Definition norm_pressure (d : device) (o : tool) (v : Z) : Q :=
  let off := if p_has o then p_offset o else p_upper o in
  let q := ratio (v - off) (amax d PRESSURE - off) in if Qle_bool q 0 then 0%Q else q.
(** /repo/src/evdev-tablet.c:384-410 *)
Definition adjust_tilt (d : device) (a : axis) (v : Z) : Q :=
  if negb (ares d a =? 0) && (0 <? amax d a) && (amin d a <? 0) then (deg_per_rad d * inject_Z v / inject_Z (ares d a))%Q
  else ((unit_range d a v * 2 - 1) * 64)%Q.
(** fmod(q, 360) of a q that is not negative *)
Definition fmod360 (q : Q) : Q := (q - 360 * inject_Z (Qfloor (q / 360)))%Q.
(** /repo/src/evdev-tablet.c:418-440 *)
Definition tilt_rotation (d : device) (x y : Q) : Q :=
  fmod360 (360 + (if Qeq_bool x 0 && Qeq_bool y 0 then 0 else atan2_deg d (- x) y) - 5)%Q.
(** /repo/src/evdev-tablet.c:442-450 with offset 90 *)
Definition artpen_rotation (d : device) (v : Z) : Q := fmod360 (ratio (v - amin d ROTATION_Z) (amax d ROTATION_Z - amin d ROTATION_Z + 1) * 360 + 90)%Q.
(** /repo/src/evdev-tablet.c:412-416 *)
Definition invert_axis (d : device) (a : axis) (v : Z) : Z := amax d a - (v - amin d a).
(** /repo/src/evdev-tablet.c:461-490 *)
Definition update_xy (d : device) (s : tab) : tab :=
  if changed s X || changed s Y then
    let f a := if rotate s then invert_axis d a (absv s a) else absv s a in
    set_ax s (set_pt (ax s) (calibrate d (f X, f Y)))
  else s.
(** /repo/src/evdev-tablet.c:534-546, /repo/src/evdev-tablet.c:548-559, /repo/src/evdev-tablet.c:561-572;
    an axis the device does not have has no absinfo *)
Definition need_abs (d : device) (s : tab) (a : axis) : tab := if has_abs d a then s else set_crash s true.
Definition update_pressure (d : device) (s : tab) (o : tool) : tab :=
  if changed s PRESSURE then let s := need_abs d s PRESSURE in set_ax s (set_pressure (ax s) (norm_pressure d o (absv s PRESSURE))) else s.
Definition update_distance (d : device) (s : tab) : tab :=
  if changed s DISTANCE then let s := need_abs d s DISTANCE in set_ax s (set_distance (ax s) (norm_distance d (absv s DISTANCE))) else s.
Definition update_slider (d : device) (s : tab) : tab :=
  if changed s SLIDER then let s := need_abs d s SLIDER in set_ax s (set_slider (ax s) (norm_slider d (absv s SLIDER))) else s.
(** /repo/src/evdev-tablet.c:574-598 *)
Definition update_tilt (d : device) (s : tab) : tab :=
  if changed s TILT_X || changed s TILT_Y then
    let s := need_abs d (need_abs d s TILT_X) TILT_Y in
    let f a := let q := adjust_tilt d a (absv s a) in if lh s then (- q)%Q else q in
    set_ax s (set_tilt (ax s) (f TILT_X, f TILT_Y))
  else s.
(** /repo/src/evdev-tablet.c:654-669 *)
Definition update_wheel (d : device) (s : tab) : tab :=
  if changed s REL_WHEEL then set_ax s (set_wheel (ax s) (inject_Z (wheel_discrete (ax s)) * wheel_angle d)%Q)
  else set_ax s (set_wheel_discrete (set_wheel (ax s) 0%Q) 0).
(** /repo/src/evdev-tablet.c:600-613, /repo/src/evdev-tablet.c:615-625, /repo/src/evdev-tablet.c:627-652 *)
Definition update_rotation (d : device) (s : tab) : tab :=
  if is_mouse (ctype s) then
    let s := if changed s TILT_X || changed s TILT_Y then
               set_changed (set_ax s (set_rotation (ax s) (tilt_rotation d (fst (tilt (ax s))) (snd (tilt (ax s)))))) (aupd (changed s) ROTATION_Z true)
             else s in
    set_ax (set_changed s (aupd (aupd (changed s) TILT_X false) TILT_Y false)) (set_tilt (ax s) (0%Q, 0%Q))
  else
    let s := if changed s ROTATION_Z then let s := need_abs d s ROTATION_Z in set_ax s (set_rotation (ax s) (artpen_rotation d (absv s ROTATION_Z))) else s in
    if lh s then set_ax s (set_rotation (ax s) (fmod360 (180 + rotation (ax s))%Q)) else s.

(** ** Smoothing *)
(** /repo/src/evdev-tablet.c:101-115; the recursion ends once the history is full, after at most [n] more rounds *)
Fixpoint history_push (d : device) (n : nat) (s : tab) (a : axes) : tab :=
  let i := Nat.modulo (S (hidx s)) (hsize d) in
  let s := set_samples s (fun k => if Nat.eqb k i then a else samples s k) in
  let s := set_hidx s i in
  let s := set_hcount s (Nat.min (S (hcount s)) (hsize d)) in
  if Nat.ltb (hcount s) (hsize d) then match n with O => set_hang s true | S n => history_push d n s a end else s.
(** /repo/src/evdev-tablet.c:121-131 *)
Definition history_get (d : device) (s : tab) (i : nat) : axes := samples s (Nat.modulo (hidx s + hsize d - i) (hsize d)).
Definition qsum (l : list Q) : Q := fold_right Qplus 0%Q l.
(** /repo/src/evdev-tablet.c:671-694: the int sum is converted to size_t, divided and cut to 32 bits, which for the sizes 1 and 4 is the floor;
    a sum beyond the range of int is not modelled.  The failure of one of tablet_history_get's assertions is [crash] *)
Definition smoothen (d : device) (s : tab) : tab * axes :=
  let n := hsize d in
  let l := map (history_get d s) (seq 0 n) in
  let zs := fold_right Z.add 0 in
  (if Nat.leb n (hcount s) then s else set_crash s true,
   set_tilt (set_pt (ax s) (zs (map (fun a => fst (pt a)) l) / Z.of_nat n, zs (map (fun a => snd (pt a)) l) / Z.of_nat n))
     (qsum (map (fun a => fst (tilt a)) l) / inject_Z (Z.of_nat n), qsum (map (fun a => snd (tilt a)) l) / inject_Z (Z.of_nat n))%Q).
(** /repo/src/evdev-tablet.c:492-532 *)
Definition process_delta (d : device) (s : tab) (o : tool) (a : axes) (t : Z) : tab * axes :=
  let dl := if negb (entering s) && negb (econt s) && negb (lcont s) && (changed s X || changed s Y)
            then (fst (pt a) - fst (smooth_pt s), snd (pt a) - snd (smooth_pt s)) else (0, 0) in
  let ch := changed s in
  let ch := if negb (fst (pt a) =? fst (smooth_pt s)) then aupd ch X true else ch in
  let ch := if negb (snd (pt a) =? snd (smooth_pt s)) then aupd ch Y true else ch in
  (set_smooth_pt (set_changed s ch) (pt a), set_delta a (if (fst dl =? 0) && (snd dl =? 0) then (0%Q, 0%Q) else accel d (ttype o) t dl)).
(** /repo/src/evdev-tablet.c:696-751 *)
Definition check_notify_axes (d : device) (s : tab) (o : tool) (t : Z) : tab * axes * bool :=
  let any := existsb (changed s) all_axes in
  let s := if any then update_rotation d (update_wheel d (update_tilt d (update_slider d (update_distance d (update_pressure d (update_xy d s) o))))) else s in
  let s := if econt s || lcont s then set_hcount s 0%nat else s in
  let s := history_push d (hsize d) s (ax s) in
  let '(s, a) := smoothen d s in
  let '(s, a) := process_delta d s o a t in
  (s, a, any).

(** ** Contact *)
(** /repo/src/evdev-tablet.c:1238-1282, /repo/src/evdev-tablet.c:1284-1294 *)
Definition sanitize_pressure_distance (d : device) (s : tab) (o : tool) : tab :=
  if negb (has_abs d PRESSURE && has_abs d DISTANCE) then s else
  if negb (changed s DISTANCE) && negb (changed s PRESSURE) then s else
  let touching := p_offset o <? absv s PRESSURE in
  if (amin d DISTANCE <? absv s DISTANCE) && (amin d PRESSURE <? absv s PRESSURE) then
    if touching then set_ax (set_changed s (aupd (changed s) DISTANCE false)) (set_distance (ax s) 0%Q)
    else set_ax (set_changed s (aupd (changed s) PRESSURE false)) (set_pressure (ax s) 0%Q)
  else if changed s PRESSURE && negb touching then
    if Qeq_bool (pressure (ax s)) 0 then set_changed s (aupd (changed s) PRESSURE false) else set_ax s (set_pressure (ax s) 0%Q)
  else s.
Definition sanitize_mouse_rotation (s : tab) : tab :=
  if is_mouse (ctype s) && (changed s TILT_X || changed s TILT_Y) then set_changed s (aupd (changed s) ROTATION_Z true) else s.
(** /repo/src/evdev-tablet.c:1304-1366 *)
Definition detect_offset (d : device) (s : tab) (o : tool) : tool :=
  if negb (changed s PRESSURE) then o else
  if negb (has_abs d PRESSURE && has_abs d DISTANCE) then o else
  let v := absv s PRESSURE in
  if p_has o then if v <? p_offset o then set_p_offset o v else o else
  if v <=? amin d PRESSURE then o else
  if negb (entering s) then o else
  if absv s DISTANCE <? range_percent d DISTANCE 50 then o else
  if range_percent d PRESSURE 20 <? v then o else
  set_p_lower (set_p_has (set_p_offset o v) true) (amin d PRESSURE).
(** /repo/src/evdev-tablet.c:1368-1406 *)
Definition detect_contact (d : device) (s : tab) (o : tool) : tab :=
  if negb (caps o PRESSURE) then s else
  if negb (has_abs d PRESSURE) then s else
  let p := absv s PRESSURE in
  let p := if p_has o then p - (p_offset o - amin d PRESSURE) else p in
  if (p <=? p_lower o) && contact s then set_lcont s true
  else if (p_upper o <=? p) && negb (contact s) then set_econt s true
  else s.

(** ** Proximity of mouse and lens: only within 42 units of distance (/repo/src/evdev-tablet.c:2264-2286) *)
(** /repo/src/evdev-tablet.c:76-87 *)
Definition force_presses (s : tab) : tab := set_pbtn (set_btn s (fun c => btn s c || pbtn s c)) (fun _ => false).
(** /repo/src/evdev-tablet.c:1421-1476 *)
Definition dist_max (d : device) : Z := if mouse_enabled d || lens_enabled d then 42 else 0.
Definition update_proximity_state (d : device) (s : tab) (o : tool) : tab :=
  if negb (has_abs d DISTANCE) then s else
  let v := absv s DISTANCE in
  if v =? 0 then s else
  if (v <? dist_max d) && (oor s || outp s) then
    force_presses (set_pressed_upd (set_changed (set_entering (set_outp (set_oor s false) false) true) (caps o)) true)
  else if v <? dist_max d then s
  else if oor s || outp s then s
  else if entering s then set_entering (set_oor s true) false
  else set_leaving s true.

(** ** Touch arbitration *)
(** /repo/src/evdev-tablet.c:1478-1517, with /repo/src/evdev.h:880-902 *)
Definition arb_rect (d : device) (s : tab) : rect :=
  let mx := Z.quot (fst (pt (ax s)) - amin d X) (ares d X) in
  let my := Z.quot (snd (pt (ax s)) - amin d Y) (ares d Y) in
  let x := if Qle_bool (fst (tilt (ax s))) 0 then mx + 20 - 200 else mx - 20 in
  let y := my - 50 in
  {| rx := if x <? 0 then 0 else x; rw := if x <? 0 then 200 - x else 200; ry := if y <? 0 then 0 else y; rh := if y <? 0 then 200 - y else 200 |}.
(** /repo/src/evdev-tablet.c:1519-1539 *)
Definition update_rect (d : device) (s : tab) (t : Z) : list tev :=
  match touch_dev s, arb s with Some _, IGNORE_RECT => [ORect t (arb_rect d s)] | _, _ => [] end.
(** /repo/src/evdev-tablet.c:1922-1943 *)
Definition set_touch_enabled (s : tab) (w : arbitration) (r : option rect) (t : Z) : tab * list tev :=
  match touch_dev s with None => (s, []) | Some _ => (set_arb s w, [OArb t w r]) end.
(** /repo/src/evdev-tablet.c:1945-1978; the test for TABLET_NONE, 0, never succeeds *)
Definition toggle_touch (d : device) (s : tab) (t : Z) : tab * list tev :=
  if oor s || leaving s || outp s then set_touch_enabled s NOT_ACTIVE None t
  else if Qeq_bool (fst (tilt (ax s))) 0 then set_touch_enabled s IGNORE_ALL None t
  else match arb s with IGNORE_RECT => (s, []) | _ => set_touch_enabled s IGNORE_RECT (Some (arb_rect d s)) t end.

(** ** Sending *)
Definition no_axes : axis -> bool := fun _ => false.
Definition no_delta (a : axes) : axes := set_delta a (0%Q, 0%Q).
(** /repo/src/evdev-tablet.c:1541-1565 *)
Definition send_prox_in (s : tab) (o : tool) (a : axes) (t : Z) : tab * axes * list tev :=
  if negb (entering s) then (s, a, []) else
  (set_changed (set_axes_upd (set_entering s false) false) no_axes, no_delta a, [EProx t o true (changed s) a]).
(** /repo/src/evdev-tablet.c:1567-1592 *)
Definition send_prox_out (s : tab) (o : tool) (a : axes) (t : Z) : tab * list tev * bool :=
  if negb (leaving s) then (s, [], false) else
  (set_changed (set_leaving (set_outp s true) false) no_axes, [EProx t o false (changed s) a], true).
(** /repo/src/evdev-tablet.c:1594-1638 *)
Definition send_tip (s : tab) (o : tool) (a : axes) (t : Z) : tab * axes * list tev * bool :=
  if econt s then (set_changed (set_contact (set_econt (set_axes_upd s false) false) true) no_axes, no_delta a, [ETip t o true (changed s) a], true)
  else if lcont s then (set_changed (set_contact (set_lcont (set_axes_upd s false) false) false) no_axes, no_delta a, [ETip t o false (changed s) a], true)
  else (s, a, [], false).
(** /repo/src/evdev-tablet.c:1640-1668 *)
Definition send_axes (s : tab) (o : tool) (a : axes) (t : Z) : tab * axes * list tev :=
  if negb (axes_upd s) then (s, a, []) else
  (set_changed (set_axes_upd s false) no_axes, no_delta a, [EAxis t o (contact s) (changed s) a]).
(** /repo/src/evdev-tablet.c:1184-1214, /repo/src/evdev-tablet.c:1216-1236, /repo/src/evdev-tablet.c:49-59,
    /repo/src/evdev-tablet.c:61-72 *)
Definition notify_buttons (s : tab) (o : tool) (t : Z) (press : bool) : list tev :=
  let f c := if press then btn s c && negb (pbtn s c) else pbtn s c && negb (btn s c) in
  map (fun c => EButton t o (contact s) (ax s) c press) (filter f buttons).
(** /repo/src/evdev-tablet.c:1670-1693 *)
Definition send_buttons (s : tab) (o : tool) (t : Z) : tab * list tev :=
  let r := if released_upd s then notify_buttons s o t false else [] in
  let s := set_released_upd s false in
  let p := if pressed_upd s then notify_buttons s o t true else [] in
  (set_pressed_upd s false, r ++ p)%list.
(** /repo/src/evdev-tablet.c:1695-1735 *)
Definition send_events (d : device) (s : tab) (o : tool) (t : Z) : tab * list tev :=
  let '(s, a, o0) :=
    if leaving s then (set_axes_upd s false, ax s, [])
    else let '(s, a, rc) := check_notify_axes d s o t in (s, a, if rc then update_rect d s t else []) in
  let '(s, a, o1) := send_prox_in s o a t in
  let '(s, a, o2, sent) := send_tip s o a t in
  let '(s, a, o3) := if sent then (s, a, []) else send_axes s o a t in
  let s := set_changed (set_econt s false) no_axes in
  let '(s, o4) := send_buttons s o t in
  let '(s, o5, gone) := send_prox_out s o a t in
  let '(s, o6) := if gone then let '(s, o6) := change_to_left_handed s in (set_hcount (apply_rotation s) 0%nat, o6) else (s, []) in
  (s, o0 ++ o1 ++ o2 ++ o3 ++ o4 ++ o5 ++ o6)%list.

(** ** Which tool *)
(** ffs(3) *)
Fixpoint ctz (p : positive) : Z := match p with xO p => 1 + ctz p | _ => 0 end.
Definition ffs (x : Z) : Z := match x with Zpos p => 1 + ctz p | _ => 0 end.
(** /repo/src/evdev-tablet.c:316-332 *)
Definition update_tool (s : tab) (ty : Z) (enabled : bool) : tab :=
  if enabled then set_outp (set_entering (set_ctype s ty) true) false
  else if negb (outp s) then set_leaving s true else s.
Definition FORCED_PROXOUT_TIMEOUT : Z := 50000.
(** /repo/src/evdev-tablet.c:1756-1763 *)
Definition set_prox_timer (s : tab) (t : Z) : tab := if need_force s then set_timer s (Some (t + FORCED_PROXOUT_TIMEOUT)) else s.
(** /repo/src/evdev-tablet.c:1765-1861 *)
Definition update_tool_state (s : tab) (t : Z) : tab * bool :=
  let s := if forced s && tool_upd s && (tstate s =? 0) then set_forced (set_need_force s false) false else s in
  let s := if axes_upd s then
             if forced s then set_forced (if negb (tool_upd s) && (tstate s =? 0) then set_tstate s (bit PEN) else s) false
             else if (tstate s =? 0) && (ctype s =? 0) then set_forced (set_tstate s (bit PEN)) false
             else s
           else s in
  if tstate s =? ptstate s then (s, false) else
  let two := negb (Z.land (tstate s) (tstate s - 1) =? 0) in
  let new := if two then Z.lxor (tstate s) (ptstate s) else 0 in
  let s := if two then set_tstate s 0 else s in
  let ty := ffs (Z.lxor (tstate s) (ptstate s)) - 1 in
  let s := if ty <? 0 then set_crash s true else s in
  let state := negb (Z.land (tstate s) (bit ty) =? 0) in
  let s := update_tool s ty state in
  let s := if ty =? PEN then
             if state then set_prox_timer s t
             else set_timer (if negb (in_progress s) then set_need_force s false else s) None
           else s in
  let s := set_ptstate s (tstate s) in
  if negb (new =? 0) then (set_tstate s new, true) else (s, false).

(** ** A frame *)
(** /repo/src/evdev-tablet.c:1875-1920, at most [n] rounds.  tablet_update_tool_state only returns a tool of 0 when none was ever seen *)
Fixpoint flush (d : device) (n : nat) (s : tab) (t : Z) : tab * list tev :=
  match n with
  | O => (set_hang s true, [])
  | S n =>
    let '(s, twice) := update_tool_state s t in
    if ctype s =? 0 then (s, []) else
    let '(s, o) := get_tool d s (ctype s) (cid s) (cserial s) in
    let s := if is_mouse (ttype o) then update_proximity_state d s o else s in
    if outp s || oor s then (s, []) else
    let '(s, o) :=
      if leaving s then
        let s := set_released_upd (set_btn s (fun _ => false)) true in
        (if contact s then set_lcont s true else s, o)
      else if axes_upd s || entering s then
        let s := if entering s then set_changed s (caps o) else s in
        let o := detect_offset d s o in
        let s := put_tool s o in
        let s := detect_contact d s o in
        (sanitize_mouse_rotation (sanitize_pressure_distance d s o), o)
      else (s, o) in
    let '(s, o1) := send_events d s o t in
    if twice then let '(s, o2) := flush d n s t in (s, o1 ++ o2)%list else (s, o1)
  end.
(** /repo/src/evdev-tablet.c:1980-1995 *)
Definition reset_state (s : tab) : tab := set_btn_down (set_tool_upd (set_pbtn s (btn s)) false) (existsb (btn s) buttons).
(** /repo/src/evdev-tablet.c:2042-2076: EV_SYN *)
Definition syn (d : device) (n : nat) (s : tab) (t : Z) : tab * list tev :=
  let '(s, o1) := flush d n s t in
  let '(s, o2) := toggle_touch d s t in
  (set_last_time (reset_state s) t, o1 ++ o2)%list.
(** /repo/src/evdev-tablet.c:1997-2040; the subtraction is done in 64 bits *)
Definition timeout (d : device) (n : nat) (s : tab) (now : Z) : tab * list tev :=
  if contact s || btn_down s then (set_prox_timer s now, []) else
  if (now - FORCED_PROXOUT_TIMEOUT) mod 2 ^ 64 <? last_time s then (set_prox_timer s (last_time s), []) else
  let '(s, o) := syn d n (process_tool d (set_in_progress s true) PEN false) now in
  (set_forced (set_in_progress s false) true, o).
(** /repo/src/evdev-tablet.c:2078-2095 *)
Definition suspend (d : device) (n : nat) (s : tab) (now : Z) : tab * list tev :=
  let '(s, o1) := set_touch_enabled s NOT_ACTIVE None now in
  if outp s then (s, o1) else
  let '(s, o2) := flush d n (set_leaving s true) now in (s, o1 ++ o2)%list.
(** /repo/src/evdev-tablet.c:2172-2214: [down] is what libevdev says of the tools, [misc] of ABS_MISC *)
Definition post_added (d : device) (s : tab) (down : Z -> bool) (misc now : Z) : tab :=
  match find (fun ty => tool_enabled d ty && down ty) [PEN; ERASER; BRUSH; PENCIL; AIRBRUSH; MOUSE; LENS] with
  | None => s
  | Some ty =>
    let s := set_ptstate (set_tstate s (bit ty)) (bit ty) in
    let s := update_tool s ty true in
    set_cserial (set_cid (set_prox_timer s now) misc) 0
  end.
(** /repo/src/evdev-tablet.c:2116-2154 of a device of the group, /repo/src/evdev-tablet.c:2156-2170, /repo/src/evdev-tablet.c:2217-2238 *)
Definition device_added (s : tab) (id : nat) (touchscreen ext_touchpad left : bool) : tab * list tev :=
  let s := if touchscreen || ext_touchpad then set_touch_dev s (Some id) else s in
  if ext_touchpad then
    let s := set_rot_dev s (Some id) in
    if left then change_rotation (set_rot_lh s true) true else (s, [])
  else (s, []).
Definition is_dev (x : option nat) (id : nat) : bool := match x with Some y => Nat.eqb y id | None => false end.
Definition device_removed (s : tab) (id : nat) : tab * list tev :=
  let s := if is_dev (touch_dev s) id then set_touch_dev s None else s in
  if is_dev (rot_dev s) id then change_rotation (set_rot_lh (set_rot_dev s None) false) true else (s, []).
Definition left_toggled (s : tab) (left : bool) : tab * list tev :=
  match rot_dev s with None => (s, []) | Some _ => change_rotation (set_rot_lh s left) false end.

(** ** Histories *)
(** What reaches the dispatch: kernel events (of the codes this file handles; the others are dropped with a log message), the timer, suspending,
    libevdev's new axis values after reopening the device, devices of the group coming and going, the touchpad's and the
    client's left-handed setting, and other tablets changing the context's tool list *)
Inductive input :=
| IAbs (a : axis) (v : Z) | IMisc (v : Z) | IWheel (v : Z) | ITool (ty : Z) (down : bool) | ITouch (down : bool) | IButton (c : Z) (down : bool) | ISerial (v : Z)
| ISyn (t : Z) | ITimer (now : Z) | ISuspend (now : Z) | IResync (v : axis -> Z)
| IAdded (id : nat) (touchscreen ext_touchpad left : bool) | IRemoved (id : nat) | ITouchLeft (left : bool) | ISetLeft (left : bool) | IOther (l : list tool).
Definition step (d : device) (n : nat) (s : tab) (i : input) : tab * list tev :=
  match i with
  | IAbs REL_WHEEL _ => (s, [])
  | IAbs a v => (process_absolute d s a v, [])
  | IMisc v => (set_cid s v, [])
  | IWheel v => (process_wheel d s v, [])
  | ITool ty down => (process_tool d s ty down, [])
  | ITouch down => (process_touch d s down, [])
  | IButton c down => (update_button s c down, [])
  | ISerial v => (process_serial s v, [])
  | ISyn t => syn d n s t
  | ITimer now => match timer s with Some x => if x <=? now then timeout d n (set_timer s None) now else (s, []) | None => (s, []) end
  | ISuspend now => suspend d n s now
  | IResync v => (set_absv s v, [])
  | IAdded id a b l => device_added s id a b l
  | IRemoved id => device_removed s id
  | ITouchLeft l => left_toggled s l
  | ISetLeft l => if reversible d then change_to_left_handed (set_lh_want s l) else (s, [])
  | IOther l => (set_globals s l, [])
  end.
(** /repo/src/evdev-tablet.c:2422-2482; without BTN_TOOL_PEN the first event is to bring a pen.  [g] is the context's tool list, [v] libevdev's values *)
Definition axes0 : axes := Axes (0, 0) (0%Q, 0%Q) 0 0 (0%Q, 0%Q) 0 0 0 0.
Definition init (d : device) (g : list tool) (v : axis -> Z) : tab :=
  {| axes_upd := false; pressed_upd := false; btn_down := false; released_upd := false; tool_upd := false; contact := false; leaving := false; outp := true;
     entering := false; econt := false; lcont := false; oor := false; changed := no_axes; ax := axes0; smooth_pt := (0, 0); hidx := 0; hcount := 0; samples := fun _ => axes0;
     cur_val := fun _ => 0; prev_val := fun _ => 0; absv := v; locals := []; globals := g; next_tid := S (fold_right Nat.max 0 (map tid g))%nat;
     btn := fun _ => false; pbtn := fun _ => false; tstate := 0; ptstate := 0; ctype := 0; cid := 0; cserial := 0;
     touch_dev := None; arb := NOT_ACTIVE; rot_dev := None; rot_lh := false; rotate := false; want_rotate := false; lh := false; lh_want := false;
     need_force := true; timer := None; forced := negb (has_tool_pen d); last_time := 0; in_progress := false; crash := false; hang := false |}.
(** The device is only taken if it passes /repo/src/evdev-tablet.c:2396-2420 *)
Definition accepted (d : device) : bool :=
  has_abs d X && has_abs d Y && (has_tool_pen d || has_key d BTN_STYLUS) && (0 <? ares d X) && (0 <? ares d Y).
Fixpoint run (d : device) (n : nat) (s : tab) (l : list input) : tab * list tev :=
  match l with [] => (s, []) | i :: l => let '(s, o) := step d n s i in let '(s, o') := run d n s l in (s, o ++ o')%list end.
(** A device is added, and tablet_check_initial_proximity called: the world at that time *)
Record world := { w_globals : list tool; w_values : axis -> Z; w_down : Z -> bool; w_misc : Z; w_now : Z }.
Definition start (d : device) (w : world) : tab := post_added d (init d (w_globals w) (w_values w)) (w_down w) (w_misc w) (w_now w).
Definition final (d : device) (n : nat) (w : world) (l : list input) : tab := fst (run d n (start d w) l).
Definition outs (d : device) (n : nat) (w : world) (l : list input) : list tev := snd (run d n (start d w) l).
