(** Model: events as the caller sees them (libinput.c): what the notify
    functions put into an event and what each accessor takes out of it.

    Every value is an integer: a double is an opaque code here, since neither
    side computes with it, and pointers (tools, mode groups) are identities.
    The conversions that the accessors apply to a coordinate (to millimetres,
    to a given width or height: evdev.h:629-634, evdev.c:361-375, modelled in
    Matrix_Model under C40) are
    arbitrary functions of the device.  The seat's button and key counts and
    the mode of a mode group are arguments here: they are computed by the
    models behind C03 and C35.  Logging is reduced to the fact that a message
    about a client bug is logged. *)
From Coq Require Import ZArith List Bool.
Import ListNotations.
Open Scope Z_scope.

(** libinput.h:716-904, enum libinput_event_type. *)
Inductive etype :=
| NONE
| DEVICE_ADDED
| DEVICE_REMOVED
| KEYBOARD_KEY
| POINTER_MOTION
| POINTER_MOTION_ABSOLUTE
| POINTER_BUTTON
| POINTER_AXIS
| TOUCH_DOWN
| TOUCH_UP
| TOUCH_MOTION
| TOUCH_CANCEL
| TOUCH_FRAME
| TABLET_TOOL_AXIS
| TABLET_TOOL_PROXIMITY
| TABLET_TOOL_TIP
| TABLET_TOOL_BUTTON
| TABLET_PAD_BUTTON
| TABLET_PAD_RING
| TABLET_PAD_STRIP
| TABLET_PAD_KEY
| GESTURE_SWIPE_BEGIN
| GESTURE_SWIPE_UPDATE
| GESTURE_SWIPE_END
| GESTURE_PINCH_BEGIN
| GESTURE_PINCH_UPDATE
| GESTURE_PINCH_END
| SWITCH_TOGGLE
.

Scheme Equality for etype.

(** The structs an event can be (libinput.c:156-246). *)
Inductive family :=
| F_keyboard
| F_pointer
| F_touch
| F_gesture
| F_tablet_tool
| F_tablet_pad
| F_switch
| F_device_notify.

Scheme Equality for family.

(** The fields of those structs; struct members of structs are flattened
    (libinput.c:156-246, libinput-private.h:358-369). *)
Inductive fld :=
| keyboard__time
| keyboard__key
| keyboard__state
| keyboard__seat_key_count
| pointer__time
| pointer__delta_x
| pointer__delta_y
| pointer__delta_raw_x
| pointer__delta_raw_y
| pointer__absolute_x
| pointer__absolute_y
| pointer__button
| pointer__state
| pointer__seat_button_count
| pointer__axes
| pointer__discrete_x
| pointer__discrete_y
| pointer__source
| touch__time
| touch__slot
| touch__seat_slot
| touch__point_x
| touch__point_y
| gesture__time
| gesture__finger_count
| gesture__cancelled
| gesture__delta_x
| gesture__delta_y
| gesture__delta_unaccel_x
| gesture__delta_unaccel_y
| gesture__scale
| gesture__angle
| tablet_tool__changed_axes
| tablet_tool__axes_point_x
| tablet_tool__axes_point_y
| tablet_tool__axes_delta_x
| tablet_tool__axes_delta_y
| tablet_tool__axes_pressure
| tablet_tool__axes_distance
| tablet_tool__axes_tilt_x
| tablet_tool__axes_tilt_y
| tablet_tool__axes_rotation
| tablet_tool__axes_slider
| tablet_tool__axes_size_major
| tablet_tool__axes_size_minor
| tablet_tool__axes_wheel
| tablet_tool__axes_wheel_discrete
| tablet_tool__tool
| tablet_tool__proximity_state
| tablet_tool__tip_state
| tablet_tool__time
| tablet_tool__button
| tablet_tool__state
| tablet_tool__seat_button_count
| switch__sw
| switch__state
| switch__time
| tablet_pad__ring_position
| tablet_pad__ring_number
| tablet_pad__ring_source
| tablet_pad__strip_position
| tablet_pad__strip_number
| tablet_pad__strip_source
| tablet_pad__button_number
| tablet_pad__button_state
| tablet_pad__key_code
| tablet_pad__key_state
| tablet_pad__mode
| tablet_pad__mode_group
| tablet_pad__time.

Scheme Equality for fld.

(** Which struct a field belongs to (libinput.c:156-246). *)
Definition fld_family (f : fld) : family :=
  match f with
  | keyboard__time | keyboard__key | keyboard__state | keyboard__seat_key_count => F_keyboard
  | pointer__time | pointer__delta_x | pointer__delta_y | pointer__delta_raw_x | pointer__delta_raw_y | pointer__absolute_x | pointer__absolute_y | pointer__button | pointer__state | pointer__seat_button_count | pointer__axes | pointer__discrete_x | pointer__discrete_y | pointer__source => F_pointer
  | touch__time | touch__slot | touch__seat_slot | touch__point_x | touch__point_y => F_touch
  | gesture__time | gesture__finger_count | gesture__cancelled | gesture__delta_x | gesture__delta_y | gesture__delta_unaccel_x | gesture__delta_unaccel_y | gesture__scale | gesture__angle => F_gesture
  | tablet_tool__changed_axes | tablet_tool__axes_point_x | tablet_tool__axes_point_y | tablet_tool__axes_delta_x | tablet_tool__axes_delta_y | tablet_tool__axes_pressure | tablet_tool__axes_distance | tablet_tool__axes_tilt_x | tablet_tool__axes_tilt_y | tablet_tool__axes_rotation | tablet_tool__axes_slider | tablet_tool__axes_size_major | tablet_tool__axes_size_minor | tablet_tool__axes_wheel | tablet_tool__axes_wheel_discrete | tablet_tool__tool | tablet_tool__proximity_state | tablet_tool__tip_state | tablet_tool__time | tablet_tool__button | tablet_tool__state | tablet_tool__seat_button_count => F_tablet_tool
  | tablet_pad__ring_position | tablet_pad__ring_number | tablet_pad__ring_source | tablet_pad__strip_position | tablet_pad__strip_number | tablet_pad__strip_source | tablet_pad__button_number | tablet_pad__button_state | tablet_pad__key_code | tablet_pad__key_state | tablet_pad__mode | tablet_pad__mode_group | tablet_pad__time => F_tablet_pad
  | switch__sw | switch__state | switch__time => F_switch
  end.

(** An event in memory: its type (struct libinput_event, libinput-private.h),
    the struct it was allocated as, and the values of the fields. *)
Record event := {
  typ : etype;
  struct_of : family;
  mem : fld -> Z
}.

(** zalloc followed by a designated initialiser: a field that is not named is
    zero (e.g. libinput.c:2368-2372). *)
Fixpoint initialised (l : list (fld * Z)) (f : fld) : Z :=
  match l with
  | [] => 0
  | (g, v) :: r => if fld_beq g f then v else initialised r f
  end.

(** What the accessors know of the event's device: evdev_convert_to_mm with the
    device's x and y axes, evdev_device_transform_x and _y
    (evdev.h:629-634, evdev.c:361-375). *)
Record device := {
  to_mm_x : Z -> Z;
  to_mm_y : Z -> Z;
  transform_x : Z -> Z -> Z;
  transform_y : Z -> Z -> Z
}.

(** util-time.h:66-70. *)
Definition us2ms (us : Z) : Z := (us / 1000) mod 2 ^ 32.

(** util-bits.h:45-49, on an array of bytes read as one number. *)
Definition bit_is_set (array bit : Z) : Z :=
  if Z.land array (Z.shiftl 1 bit) =? 0 then 0 else 1.

(** libinput.c:116-146: whether [t] is among the permitted types. *)
Definition check_event_type (t : etype) (permitted : list etype) : bool :=
  existsb (fun p => etype_beq p t) permitted.

(** What a call comes to: a value, a value together with a message about a
    client bug, the abort of libinput.c:44, or the read of a field the event's
    struct does not have. *)
Inductive outcome (A : Type) :=
| Returns (v : A)
| Client_bug (v : A)
| Aborts
| Misreads.
Arguments Returns {A} v.
Arguments Client_bug {A} v.
Arguments Aborts {A}.
Arguments Misreads {A}.

(** libinput.c:43-46, the macro require_event_type around a body. *)
Definition require_event_type {A} (t : etype) (retval : A) (permitted : list etype)
    (body : outcome A) : outcome A :=
  if etype_beq t NONE then Aborts
  else if check_event_type t permitted then body
  else Client_bug retval.

(** The body of an accessor reads the struct its argument points to. *)
Definition reads (f : family) (e : event) (v : outcome Z) : outcome Z :=
  if family_beq (struct_of e) f then v else Misreads.

(** libinput.c:693-699, the body of libinput_event_pointer_has_axis
    (VERTICAL is 0, HORIZONTAL 1: libinput.h:246-249). *)
Definition has_axis (e : event) (axis : Z) : Z :=
  if (axis =? 1) || (axis =? 0) then
    if Z.land (mem e pointer__axes) (Z.shiftl 1 axis) =? 0 then 0 else 1
  else 0.

(** libinput.c:714-727 and 742-754: the bodies of
    libinput_event_pointer_get_axis_value and _discrete. *)
Definition axis_value (e : event) (axis : Z) (fx fy : fld) : outcome Z :=
  if has_axis e axis =? 0 then Client_bug 0
  else Returns (if axis =? 1 then mem e fx
                else if axis =? 0 then mem e fy else 0).

(** The accessors, by the names they have without "libinput_event_"
    (libinput.c:464-1554, 1684-1726, 3380-3542). *)
Inductive accessor :=
| keyboard_get_time
| keyboard_get_time_usec
| keyboard_get_key
| keyboard_get_key_state
| keyboard_get_seat_key_count
| pointer_get_time
| pointer_get_time_usec
| pointer_get_dx
| pointer_get_dy
| pointer_get_dx_unaccelerated
| pointer_get_dy_unaccelerated
| pointer_get_absolute_x
| pointer_get_absolute_y
| pointer_get_absolute_x_transformed (size : Z)
| pointer_get_absolute_y_transformed (size : Z)
| pointer_get_button
| pointer_get_button_state
| pointer_get_seat_button_count
| pointer_has_axis (axis : Z)
| pointer_get_axis_value (axis : Z)
| pointer_get_axis_value_discrete (axis : Z)
| pointer_get_axis_source
| touch_get_time
| touch_get_time_usec
| touch_get_slot
| touch_get_seat_slot
| touch_get_x
| touch_get_x_transformed (size : Z)
| touch_get_y_transformed (size : Z)
| touch_get_y
| gesture_get_time
| gesture_get_time_usec
| gesture_get_finger_count
| gesture_get_cancelled
| gesture_get_dx
| gesture_get_dy
| gesture_get_dx_unaccelerated
| gesture_get_dy_unaccelerated
| gesture_get_scale
| gesture_get_angle_delta
| tablet_tool_x_has_changed
| tablet_tool_y_has_changed
| tablet_tool_pressure_has_changed
| tablet_tool_distance_has_changed
| tablet_tool_tilt_x_has_changed
| tablet_tool_tilt_y_has_changed
| tablet_tool_rotation_has_changed
| tablet_tool_slider_has_changed
| tablet_tool_size_major_has_changed
| tablet_tool_size_minor_has_changed
| tablet_tool_wheel_has_changed
| tablet_tool_get_x
| tablet_tool_get_y
| tablet_tool_get_dx
| tablet_tool_get_dy
| tablet_tool_get_pressure
| tablet_tool_get_distance
| tablet_tool_get_tilt_x
| tablet_tool_get_tilt_y
| tablet_tool_get_rotation
| tablet_tool_get_slider_position
| tablet_tool_get_size_major
| tablet_tool_get_size_minor
| tablet_tool_get_wheel_delta
| tablet_tool_get_wheel_delta_discrete
| tablet_tool_get_x_transformed (size : Z)
| tablet_tool_get_y_transformed (size : Z)
| tablet_tool_get_tool
| tablet_tool_get_proximity_state
| tablet_tool_get_tip_state
| tablet_tool_get_time
| tablet_tool_get_time_usec
| tablet_tool_get_button
| tablet_tool_get_button_state
| tablet_tool_get_seat_button_count
| switch_get_switch
| switch_get_switch_state
| switch_get_time
| switch_get_time_usec
| tablet_pad_get_ring_position
| tablet_pad_get_ring_number
| tablet_pad_get_ring_source
| tablet_pad_get_strip_position
| tablet_pad_get_strip_number
| tablet_pad_get_strip_source
| tablet_pad_get_button_number
| tablet_pad_get_button_state
| tablet_pad_get_key
| tablet_pad_get_key_state
| tablet_pad_get_mode
| tablet_pad_get_mode_group
| tablet_pad_get_time
| tablet_pad_get_time_usec
.

(** Each accessor, with its list of permitted types. *)
Definition call (d : device) (a : accessor) (e : event) : outcome Z :=
  match a with
  | keyboard_get_time => (* libinput.c:465-473 *)
      require_event_type (typ e) 0
        [KEYBOARD_KEY]
        (reads F_keyboard e (Returns (us2ms (mem e keyboard__time))))
  | keyboard_get_time_usec => (* libinput.c:476-484 *)
      require_event_type (typ e) 0
        [KEYBOARD_KEY]
        (reads F_keyboard e (Returns (mem e keyboard__time)))
  | keyboard_get_key => (* libinput.c:487-495 *)
      require_event_type (typ e) 0
        [KEYBOARD_KEY]
        (reads F_keyboard e (Returns (mem e keyboard__key)))
  | keyboard_get_key_state => (* libinput.c:498-506 *)
      require_event_type (typ e) 0
        [KEYBOARD_KEY]
        (reads F_keyboard e (Returns (mem e keyboard__state)))
  | keyboard_get_seat_key_count => (* libinput.c:509-518 *)
      require_event_type (typ e) 0
        [KEYBOARD_KEY]
        (reads F_keyboard e (Returns (mem e keyboard__seat_key_count)))
  | pointer_get_time => (* libinput.c:521-532 *)
      require_event_type (typ e) 0
        [POINTER_MOTION; POINTER_MOTION_ABSOLUTE; POINTER_BUTTON; POINTER_AXIS]
        (reads F_pointer e (Returns (us2ms (mem e pointer__time))))
  | pointer_get_time_usec => (* libinput.c:535-546 *)
      require_event_type (typ e) 0
        [POINTER_MOTION; POINTER_MOTION_ABSOLUTE; POINTER_BUTTON; POINTER_AXIS]
        (reads F_pointer e (Returns (mem e pointer__time)))
  | pointer_get_dx => (* libinput.c:549-557 *)
      require_event_type (typ e) 0
        [POINTER_MOTION]
        (reads F_pointer e (Returns (mem e pointer__delta_x)))
  | pointer_get_dy => (* libinput.c:560-568 *)
      require_event_type (typ e) 0
        [POINTER_MOTION]
        (reads F_pointer e (Returns (mem e pointer__delta_y)))
  | pointer_get_dx_unaccelerated => (* libinput.c:571-580 *)
      require_event_type (typ e) 0
        [POINTER_MOTION]
        (reads F_pointer e (Returns (mem e pointer__delta_raw_x)))
  | pointer_get_dy_unaccelerated => (* libinput.c:583-592 *)
      require_event_type (typ e) 0
        [POINTER_MOTION]
        (reads F_pointer e (Returns (mem e pointer__delta_raw_y)))
  | pointer_get_absolute_x => (* libinput.c:595-605 *)
      require_event_type (typ e) 0
        [POINTER_MOTION_ABSOLUTE]
        (reads F_pointer e (Returns (to_mm_x d (mem e pointer__absolute_x))))
  | pointer_get_absolute_y => (* libinput.c:608-618 *)
      require_event_type (typ e) 0
        [POINTER_MOTION_ABSOLUTE]
        (reads F_pointer e (Returns (to_mm_y d (mem e pointer__absolute_y))))
  | pointer_get_absolute_x_transformed size => (* libinput.c:621-633 *)
      require_event_type (typ e) 0
        [POINTER_MOTION_ABSOLUTE]
        (reads F_pointer e (Returns (transform_x d (mem e pointer__absolute_x) size)))
  | pointer_get_absolute_y_transformed size => (* libinput.c:636-648 *)
      require_event_type (typ e) 0
        [POINTER_MOTION_ABSOLUTE]
        (reads F_pointer e (Returns (transform_y d (mem e pointer__absolute_y) size)))
  | pointer_get_button => (* libinput.c:651-659 *)
      require_event_type (typ e) 0
        [POINTER_BUTTON]
        (reads F_pointer e (Returns (mem e pointer__button)))
  | pointer_get_button_state => (* libinput.c:662-670 *)
      require_event_type (typ e) 0
        [POINTER_BUTTON]
        (reads F_pointer e (Returns (mem e pointer__state)))
  | pointer_get_seat_button_count => (* libinput.c:673-682 *)
      require_event_type (typ e) 0
        [POINTER_BUTTON]
        (reads F_pointer e (Returns (mem e pointer__seat_button_count)))
  | pointer_has_axis axis => (* libinput.c:685-700 *)
      require_event_type (typ e) 0
        [POINTER_AXIS]
        (reads F_pointer e (Returns (has_axis e axis)))
  | pointer_get_axis_value axis => (* libinput.c:703-728 *)
      require_event_type (typ e) 0
        [POINTER_AXIS]
        (reads F_pointer e (axis_value e axis pointer__delta_x pointer__delta_y))
  | pointer_get_axis_value_discrete axis => (* libinput.c:731-755 *)
      require_event_type (typ e) 0
        [POINTER_AXIS]
        (reads F_pointer e (axis_value e axis pointer__discrete_x pointer__discrete_y))
  | pointer_get_axis_source => (* libinput.c:758-766 *)
      require_event_type (typ e) 0
        [POINTER_AXIS]
        (reads F_pointer e (Returns (mem e pointer__source)))
  | touch_get_time => (* libinput.c:769-781 *)
      require_event_type (typ e) 0
        [TOUCH_DOWN; TOUCH_UP; TOUCH_MOTION; TOUCH_CANCEL; TOUCH_FRAME]
        (reads F_touch e (Returns (us2ms (mem e touch__time))))
  | touch_get_time_usec => (* libinput.c:784-796 *)
      require_event_type (typ e) 0
        [TOUCH_DOWN; TOUCH_UP; TOUCH_MOTION; TOUCH_CANCEL; TOUCH_FRAME]
        (reads F_touch e (Returns (mem e touch__time)))
  | touch_get_slot => (* libinput.c:799-810 *)
      require_event_type (typ e) 0
        [TOUCH_DOWN; TOUCH_UP; TOUCH_MOTION; TOUCH_CANCEL]
        (reads F_touch e (Returns (mem e touch__slot)))
  | touch_get_seat_slot => (* libinput.c:813-824 *)
      require_event_type (typ e) 0
        [TOUCH_DOWN; TOUCH_UP; TOUCH_MOTION; TOUCH_CANCEL]
        (reads F_touch e (Returns (mem e touch__seat_slot)))
  | touch_get_x => (* libinput.c:827-838 *)
      require_event_type (typ e) 0
        [TOUCH_DOWN; TOUCH_MOTION]
        (reads F_touch e (Returns (to_mm_x d (mem e touch__point_x))))
  | touch_get_x_transformed size => (* libinput.c:841-853 *)
      require_event_type (typ e) 0
        [TOUCH_DOWN; TOUCH_MOTION]
        (reads F_touch e (Returns (transform_x d (mem e touch__point_x) size)))
  | touch_get_y_transformed size => (* libinput.c:856-868 *)
      require_event_type (typ e) 0
        [TOUCH_DOWN; TOUCH_MOTION]
        (reads F_touch e (Returns (transform_y d (mem e touch__point_y) size)))
  | touch_get_y => (* libinput.c:871-882 *)
      require_event_type (typ e) 0
        [TOUCH_DOWN; TOUCH_MOTION]
        (reads F_touch e (Returns (to_mm_y d (mem e touch__point_y))))
  | gesture_get_time => (* libinput.c:885-898 *)
      require_event_type (typ e) 0
        [GESTURE_PINCH_BEGIN; GESTURE_PINCH_UPDATE; GESTURE_PINCH_END; GESTURE_SWIPE_BEGIN; GESTURE_SWIPE_UPDATE; GESTURE_SWIPE_END]
        (reads F_gesture e (Returns (us2ms (mem e gesture__time))))
  | gesture_get_time_usec => (* libinput.c:901-914 *)
      require_event_type (typ e) 0
        [GESTURE_PINCH_BEGIN; GESTURE_PINCH_UPDATE; GESTURE_PINCH_END; GESTURE_SWIPE_BEGIN; GESTURE_SWIPE_UPDATE; GESTURE_SWIPE_END]
        (reads F_gesture e (Returns (mem e gesture__time)))
  | gesture_get_finger_count => (* libinput.c:917-930 *)
      require_event_type (typ e) 0
        [GESTURE_PINCH_BEGIN; GESTURE_PINCH_UPDATE; GESTURE_PINCH_END; GESTURE_SWIPE_BEGIN; GESTURE_SWIPE_UPDATE; GESTURE_SWIPE_END]
        (reads F_gesture e (Returns (mem e gesture__finger_count)))
  | gesture_get_cancelled => (* libinput.c:933-942 *)
      require_event_type (typ e) 0
        [GESTURE_PINCH_END; GESTURE_SWIPE_END]
        (reads F_gesture e (Returns (mem e gesture__cancelled)))
  | gesture_get_dx => (* libinput.c:945-958 *)
      require_event_type (typ e) 0
        [GESTURE_PINCH_BEGIN; GESTURE_PINCH_UPDATE; GESTURE_PINCH_END; GESTURE_SWIPE_BEGIN; GESTURE_SWIPE_UPDATE; GESTURE_SWIPE_END]
        (reads F_gesture e (Returns (mem e gesture__delta_x)))
  | gesture_get_dy => (* libinput.c:961-974 *)
      require_event_type (typ e) 0
        [GESTURE_PINCH_BEGIN; GESTURE_PINCH_UPDATE; GESTURE_PINCH_END; GESTURE_SWIPE_BEGIN; GESTURE_SWIPE_UPDATE; GESTURE_SWIPE_END]
        (reads F_gesture e (Returns (mem e gesture__delta_y)))
  | gesture_get_dx_unaccelerated => (* libinput.c:977-991 *)
      require_event_type (typ e) 0
        [GESTURE_PINCH_BEGIN; GESTURE_PINCH_UPDATE; GESTURE_PINCH_END; GESTURE_SWIPE_BEGIN; GESTURE_SWIPE_UPDATE; GESTURE_SWIPE_END]
        (reads F_gesture e (Returns (mem e gesture__delta_unaccel_x)))
  | gesture_get_dy_unaccelerated => (* libinput.c:994-1008 *)
      require_event_type (typ e) 0
        [GESTURE_PINCH_BEGIN; GESTURE_PINCH_UPDATE; GESTURE_PINCH_END; GESTURE_SWIPE_BEGIN; GESTURE_SWIPE_UPDATE; GESTURE_SWIPE_END]
        (reads F_gesture e (Returns (mem e gesture__delta_unaccel_y)))
  | gesture_get_scale => (* libinput.c:1011-1021 *)
      require_event_type (typ e) 0
        [GESTURE_PINCH_BEGIN; GESTURE_PINCH_UPDATE; GESTURE_PINCH_END]
        (reads F_gesture e (Returns (mem e gesture__scale)))
  | gesture_get_angle_delta => (* libinput.c:1024-1034 *)
      require_event_type (typ e) 0
        [GESTURE_PINCH_BEGIN; GESTURE_PINCH_UPDATE; GESTURE_PINCH_END]
        (reads F_gesture e (Returns (mem e gesture__angle)))
  | tablet_tool_x_has_changed => (* libinput.c:1037-1050 *)
      require_event_type (typ e) 0
        [TABLET_TOOL_AXIS; TABLET_TOOL_TIP; TABLET_TOOL_BUTTON; TABLET_TOOL_PROXIMITY]
        (reads F_tablet_tool e (Returns (bit_is_set (mem e tablet_tool__changed_axes) 1)))
  | tablet_tool_y_has_changed => (* libinput.c:1053-1066 *)
      require_event_type (typ e) 0
        [TABLET_TOOL_AXIS; TABLET_TOOL_TIP; TABLET_TOOL_BUTTON; TABLET_TOOL_PROXIMITY]
        (reads F_tablet_tool e (Returns (bit_is_set (mem e tablet_tool__changed_axes) 2)))
  | tablet_tool_pressure_has_changed => (* libinput.c:1069-1082 *)
      require_event_type (typ e) 0
        [TABLET_TOOL_AXIS; TABLET_TOOL_TIP; TABLET_TOOL_BUTTON; TABLET_TOOL_PROXIMITY]
        (reads F_tablet_tool e (Returns (bit_is_set (mem e tablet_tool__changed_axes) 4)))
  | tablet_tool_distance_has_changed => (* libinput.c:1085-1098 *)
      require_event_type (typ e) 0
        [TABLET_TOOL_AXIS; TABLET_TOOL_TIP; TABLET_TOOL_BUTTON; TABLET_TOOL_PROXIMITY]
        (reads F_tablet_tool e (Returns (bit_is_set (mem e tablet_tool__changed_axes) 3)))
  | tablet_tool_tilt_x_has_changed => (* libinput.c:1101-1114 *)
      require_event_type (typ e) 0
        [TABLET_TOOL_AXIS; TABLET_TOOL_TIP; TABLET_TOOL_BUTTON; TABLET_TOOL_PROXIMITY]
        (reads F_tablet_tool e (Returns (bit_is_set (mem e tablet_tool__changed_axes) 5)))
  | tablet_tool_tilt_y_has_changed => (* libinput.c:1117-1130 *)
      require_event_type (typ e) 0
        [TABLET_TOOL_AXIS; TABLET_TOOL_TIP; TABLET_TOOL_BUTTON; TABLET_TOOL_PROXIMITY]
        (reads F_tablet_tool e (Returns (bit_is_set (mem e tablet_tool__changed_axes) 6)))
  | tablet_tool_rotation_has_changed => (* libinput.c:1133-1146 *)
      require_event_type (typ e) 0
        [TABLET_TOOL_AXIS; TABLET_TOOL_TIP; TABLET_TOOL_BUTTON; TABLET_TOOL_PROXIMITY]
        (reads F_tablet_tool e (Returns (bit_is_set (mem e tablet_tool__changed_axes) 7)))
  | tablet_tool_slider_has_changed => (* libinput.c:1149-1162 *)
      require_event_type (typ e) 0
        [TABLET_TOOL_AXIS; TABLET_TOOL_TIP; TABLET_TOOL_BUTTON; TABLET_TOOL_PROXIMITY]
        (reads F_tablet_tool e (Returns (bit_is_set (mem e tablet_tool__changed_axes) 8)))
  | tablet_tool_size_major_has_changed => (* libinput.c:1165-1178 *)
      require_event_type (typ e) 0
        [TABLET_TOOL_AXIS; TABLET_TOOL_TIP; TABLET_TOOL_BUTTON; TABLET_TOOL_PROXIMITY]
        (reads F_tablet_tool e (Returns (bit_is_set (mem e tablet_tool__changed_axes) 10)))
  | tablet_tool_size_minor_has_changed => (* libinput.c:1181-1194 *)
      require_event_type (typ e) 0
        [TABLET_TOOL_AXIS; TABLET_TOOL_TIP; TABLET_TOOL_BUTTON; TABLET_TOOL_PROXIMITY]
        (reads F_tablet_tool e (Returns (bit_is_set (mem e tablet_tool__changed_axes) 11)))
  | tablet_tool_wheel_has_changed => (* libinput.c:1197-1210 *)
      require_event_type (typ e) 0
        [TABLET_TOOL_AXIS; TABLET_TOOL_TIP; TABLET_TOOL_BUTTON; TABLET_TOOL_PROXIMITY]
        (reads F_tablet_tool e (Returns (bit_is_set (mem e tablet_tool__changed_axes) 9)))
  | tablet_tool_get_x => (* libinput.c:1213-1227 *)
      require_event_type (typ e) 0
        [TABLET_TOOL_AXIS; TABLET_TOOL_TIP; TABLET_TOOL_BUTTON; TABLET_TOOL_PROXIMITY]
        (reads F_tablet_tool e (Returns (to_mm_x d (mem e tablet_tool__axes_point_x))))
  | tablet_tool_get_y => (* libinput.c:1230-1244 *)
      require_event_type (typ e) 0
        [TABLET_TOOL_AXIS; TABLET_TOOL_TIP; TABLET_TOOL_BUTTON; TABLET_TOOL_PROXIMITY]
        (reads F_tablet_tool e (Returns (to_mm_y d (mem e tablet_tool__axes_point_y))))
  | tablet_tool_get_dx => (* libinput.c:1247-1258 *)
      require_event_type (typ e) 0
        [TABLET_TOOL_AXIS; TABLET_TOOL_TIP; TABLET_TOOL_BUTTON; TABLET_TOOL_PROXIMITY]
        (reads F_tablet_tool e (Returns (mem e tablet_tool__axes_delta_x)))
  | tablet_tool_get_dy => (* libinput.c:1261-1272 *)
      require_event_type (typ e) 0
        [TABLET_TOOL_AXIS; TABLET_TOOL_TIP; TABLET_TOOL_BUTTON; TABLET_TOOL_PROXIMITY]
        (reads F_tablet_tool e (Returns (mem e tablet_tool__axes_delta_y)))
  | tablet_tool_get_pressure => (* libinput.c:1275-1286 *)
      require_event_type (typ e) 0
        [TABLET_TOOL_AXIS; TABLET_TOOL_TIP; TABLET_TOOL_BUTTON; TABLET_TOOL_PROXIMITY]
        (reads F_tablet_tool e (Returns (mem e tablet_tool__axes_pressure)))
  | tablet_tool_get_distance => (* libinput.c:1289-1300 *)
      require_event_type (typ e) 0
        [TABLET_TOOL_AXIS; TABLET_TOOL_TIP; TABLET_TOOL_BUTTON; TABLET_TOOL_PROXIMITY]
        (reads F_tablet_tool e (Returns (mem e tablet_tool__axes_distance)))
  | tablet_tool_get_tilt_x => (* libinput.c:1303-1314 *)
      require_event_type (typ e) 0
        [TABLET_TOOL_AXIS; TABLET_TOOL_TIP; TABLET_TOOL_BUTTON; TABLET_TOOL_PROXIMITY]
        (reads F_tablet_tool e (Returns (mem e tablet_tool__axes_tilt_x)))
  | tablet_tool_get_tilt_y => (* libinput.c:1317-1328 *)
      require_event_type (typ e) 0
        [TABLET_TOOL_AXIS; TABLET_TOOL_TIP; TABLET_TOOL_BUTTON; TABLET_TOOL_PROXIMITY]
        (reads F_tablet_tool e (Returns (mem e tablet_tool__axes_tilt_y)))
  | tablet_tool_get_rotation => (* libinput.c:1331-1342 *)
      require_event_type (typ e) 0
        [TABLET_TOOL_AXIS; TABLET_TOOL_TIP; TABLET_TOOL_BUTTON; TABLET_TOOL_PROXIMITY]
        (reads F_tablet_tool e (Returns (mem e tablet_tool__axes_rotation)))
  | tablet_tool_get_slider_position => (* libinput.c:1345-1356 *)
      require_event_type (typ e) 0
        [TABLET_TOOL_AXIS; TABLET_TOOL_TIP; TABLET_TOOL_BUTTON; TABLET_TOOL_PROXIMITY]
        (reads F_tablet_tool e (Returns (mem e tablet_tool__axes_slider)))
  | tablet_tool_get_size_major => (* libinput.c:1359-1370 *)
      require_event_type (typ e) 0
        [TABLET_TOOL_AXIS; TABLET_TOOL_TIP; TABLET_TOOL_BUTTON; TABLET_TOOL_PROXIMITY]
        (reads F_tablet_tool e (Returns (mem e tablet_tool__axes_size_major)))
  | tablet_tool_get_size_minor => (* libinput.c:1373-1384 *)
      require_event_type (typ e) 0
        [TABLET_TOOL_AXIS; TABLET_TOOL_TIP; TABLET_TOOL_BUTTON; TABLET_TOOL_PROXIMITY]
        (reads F_tablet_tool e (Returns (mem e tablet_tool__axes_size_minor)))
  | tablet_tool_get_wheel_delta => (* libinput.c:1387-1398 *)
      require_event_type (typ e) 0
        [TABLET_TOOL_AXIS; TABLET_TOOL_TIP; TABLET_TOOL_BUTTON; TABLET_TOOL_PROXIMITY]
        (reads F_tablet_tool e (Returns (mem e tablet_tool__axes_wheel)))
  | tablet_tool_get_wheel_delta_discrete => (* libinput.c:1401-1413 *)
      require_event_type (typ e) 0
        [TABLET_TOOL_AXIS; TABLET_TOOL_TIP; TABLET_TOOL_BUTTON; TABLET_TOOL_PROXIMITY]
        (reads F_tablet_tool e (Returns (mem e tablet_tool__axes_wheel_discrete)))
  | tablet_tool_get_x_transformed size => (* libinput.c:1416-1432 *)
      require_event_type (typ e) 0
        [TABLET_TOOL_AXIS; TABLET_TOOL_TIP; TABLET_TOOL_BUTTON; TABLET_TOOL_PROXIMITY]
        (reads F_tablet_tool e (Returns (transform_x d (mem e tablet_tool__axes_point_x) size)))
  | tablet_tool_get_y_transformed size => (* libinput.c:1435-1451 *)
      require_event_type (typ e) 0
        [TABLET_TOOL_AXIS; TABLET_TOOL_TIP; TABLET_TOOL_BUTTON; TABLET_TOOL_PROXIMITY]
        (reads F_tablet_tool e (Returns (transform_y d (mem e tablet_tool__axes_point_y) size)))
  | tablet_tool_get_tool => (* libinput.c:1454-1465 *)
      require_event_type (typ e) 0
        [TABLET_TOOL_AXIS; TABLET_TOOL_TIP; TABLET_TOOL_BUTTON; TABLET_TOOL_PROXIMITY]
        (reads F_tablet_tool e (Returns (mem e tablet_tool__tool)))
  | tablet_tool_get_proximity_state => (* libinput.c:1468-1479 *)
      require_event_type (typ e) 0
        [TABLET_TOOL_AXIS; TABLET_TOOL_TIP; TABLET_TOOL_BUTTON; TABLET_TOOL_PROXIMITY]
        (reads F_tablet_tool e (Returns (mem e tablet_tool__proximity_state)))
  | tablet_tool_get_tip_state => (* libinput.c:1482-1493 *)
      require_event_type (typ e) 0
        [TABLET_TOOL_AXIS; TABLET_TOOL_TIP; TABLET_TOOL_BUTTON; TABLET_TOOL_PROXIMITY]
        (reads F_tablet_tool e (Returns (mem e tablet_tool__tip_state)))
  | tablet_tool_get_time => (* libinput.c:1496-1507 *)
      require_event_type (typ e) 0
        [TABLET_TOOL_AXIS; TABLET_TOOL_TIP; TABLET_TOOL_BUTTON; TABLET_TOOL_PROXIMITY]
        (reads F_tablet_tool e (Returns (us2ms (mem e tablet_tool__time))))
  | tablet_tool_get_time_usec => (* libinput.c:1510-1521 *)
      require_event_type (typ e) 0
        [TABLET_TOOL_AXIS; TABLET_TOOL_TIP; TABLET_TOOL_BUTTON; TABLET_TOOL_PROXIMITY]
        (reads F_tablet_tool e (Returns (mem e tablet_tool__time)))
  | tablet_tool_get_button => (* libinput.c:1524-1532 *)
      require_event_type (typ e) 0
        [TABLET_TOOL_BUTTON]
        (reads F_tablet_tool e (Returns (mem e tablet_tool__button)))
  | tablet_tool_get_button_state => (* libinput.c:1535-1543 *)
      require_event_type (typ e) 0
        [TABLET_TOOL_BUTTON]
        (reads F_tablet_tool e (Returns (mem e tablet_tool__state)))
  | tablet_tool_get_seat_button_count => (* libinput.c:1546-1554 *)
      require_event_type (typ e) 0
        [TABLET_TOOL_BUTTON]
        (reads F_tablet_tool e (Returns (mem e tablet_tool__seat_button_count)))
  | switch_get_switch => (* libinput.c:1685-1693 *)
      require_event_type (typ e) 0
        [SWITCH_TOGGLE]
        (reads F_switch e (Returns (mem e switch__sw)))
  | switch_get_switch_state => (* libinput.c:1696-1704 *)
      require_event_type (typ e) 0
        [SWITCH_TOGGLE]
        (reads F_switch e (Returns (mem e switch__state)))
  | switch_get_time => (* libinput.c:1707-1715 *)
      require_event_type (typ e) 0
        [SWITCH_TOGGLE]
        (reads F_switch e (Returns (us2ms (mem e switch__time))))
  | switch_get_time_usec => (* libinput.c:1718-1726 *)
      require_event_type (typ e) 0
        [SWITCH_TOGGLE]
        (reads F_switch e (Returns (mem e switch__time)))
  | tablet_pad_get_ring_position => (* libinput.c:3381-3389 *)
      require_event_type (typ e) 0
        [TABLET_PAD_RING]
        (reads F_tablet_pad e (Returns (mem e tablet_pad__ring_position)))
  | tablet_pad_get_ring_number => (* libinput.c:3392-3400 *)
      require_event_type (typ e) 0
        [TABLET_PAD_RING]
        (reads F_tablet_pad e (Returns (mem e tablet_pad__ring_number)))
  | tablet_pad_get_ring_source => (* libinput.c:3403-3411 *)
      require_event_type (typ e) 1
        [TABLET_PAD_RING]
        (reads F_tablet_pad e (Returns (mem e tablet_pad__ring_source)))
  | tablet_pad_get_strip_position => (* libinput.c:3414-3422 *)
      require_event_type (typ e) 0
        [TABLET_PAD_STRIP]
        (reads F_tablet_pad e (Returns (mem e tablet_pad__strip_position)))
  | tablet_pad_get_strip_number => (* libinput.c:3425-3433 *)
      require_event_type (typ e) 0
        [TABLET_PAD_STRIP]
        (reads F_tablet_pad e (Returns (mem e tablet_pad__strip_number)))
  | tablet_pad_get_strip_source => (* libinput.c:3436-3444 *)
      require_event_type (typ e) 1
        [TABLET_PAD_STRIP]
        (reads F_tablet_pad e (Returns (mem e tablet_pad__strip_source)))
  | tablet_pad_get_button_number => (* libinput.c:3447-3455 *)
      require_event_type (typ e) 0
        [TABLET_PAD_BUTTON]
        (reads F_tablet_pad e (Returns (mem e tablet_pad__button_number)))
  | tablet_pad_get_button_state => (* libinput.c:3458-3466 *)
      require_event_type (typ e) 0
        [TABLET_PAD_BUTTON]
        (reads F_tablet_pad e (Returns (mem e tablet_pad__button_state)))
  | tablet_pad_get_key => (* libinput.c:3469-3477 *)
      require_event_type (typ e) 0
        [TABLET_PAD_KEY]
        (reads F_tablet_pad e (Returns (mem e tablet_pad__key_code)))
  | tablet_pad_get_key_state => (* libinput.c:3480-3488 *)
      require_event_type (typ e) 0
        [TABLET_PAD_KEY]
        (reads F_tablet_pad e (Returns (mem e tablet_pad__key_state)))
  | tablet_pad_get_mode => (* libinput.c:3491-3501 *)
      require_event_type (typ e) 0
        [TABLET_PAD_RING; TABLET_PAD_STRIP; TABLET_PAD_BUTTON]
        (reads F_tablet_pad e (Returns (mem e tablet_pad__mode)))
  | tablet_pad_get_mode_group => (* libinput.c:3504-3514 *)
      require_event_type (typ e) 0
        [TABLET_PAD_RING; TABLET_PAD_STRIP; TABLET_PAD_BUTTON]
        (reads F_tablet_pad e (Returns (mem e tablet_pad__mode_group)))
  | tablet_pad_get_time => (* libinput.c:3517-3528 *)
      require_event_type (typ e) 0
        [TABLET_PAD_RING; TABLET_PAD_STRIP; TABLET_PAD_BUTTON; TABLET_PAD_KEY]
        (reads F_tablet_pad e (Returns (us2ms (mem e tablet_pad__time))))
  | tablet_pad_get_time_usec => (* libinput.c:3531-3542 *)
      require_event_type (typ e) 0
        [TABLET_PAD_RING; TABLET_PAD_STRIP; TABLET_PAD_BUTTON; TABLET_PAD_KEY]
        (reads F_tablet_pad e (Returns (mem e tablet_pad__time)))
  end.

(** libinput_event_get_X_event: the event as a struct X, or NULL
    (libinput.c:358-462). *)
Definition get_event (f : family) (e : event) : outcome (option event) :=
  match f with
  | F_pointer => (* libinput.c:359-370 *)
      require_event_type (typ e) None
        [POINTER_MOTION; POINTER_MOTION_ABSOLUTE; POINTER_BUTTON; POINTER_AXIS] (Returns (Some e))
  | F_keyboard => (* libinput.c:373-381 *)
      require_event_type (typ e) None
        [KEYBOARD_KEY] (Returns (Some e))
  | F_touch => (* libinput.c:384-395 *)
      require_event_type (typ e) None
        [TOUCH_DOWN; TOUCH_UP; TOUCH_MOTION; TOUCH_CANCEL; TOUCH_FRAME] (Returns (Some e))
  | F_gesture => (* libinput.c:398-411 *)
      require_event_type (typ e) None
        [GESTURE_SWIPE_BEGIN; GESTURE_SWIPE_UPDATE; GESTURE_SWIPE_END; GESTURE_PINCH_BEGIN; GESTURE_PINCH_UPDATE; GESTURE_PINCH_END] (Returns (Some e))
  | F_tablet_tool => (* libinput.c:414-425 *)
      require_event_type (typ e) None
        [TABLET_TOOL_AXIS; TABLET_TOOL_PROXIMITY; TABLET_TOOL_TIP; TABLET_TOOL_BUTTON] (Returns (Some e))
  | F_tablet_pad => (* libinput.c:428-439 *)
      require_event_type (typ e) None
        [TABLET_PAD_RING; TABLET_PAD_STRIP; TABLET_PAD_BUTTON; TABLET_PAD_KEY] (Returns (Some e))
  | F_device_notify => (* libinput.c:442-451 *)
      require_event_type (typ e) None
        [DEVICE_ADDED; DEVICE_REMOVED] (Returns (Some e))
  | F_switch => (* libinput.c:454-462 *)
      require_event_type (typ e) None
        [SWITCH_TOGGLE] (Returns (Some e))
  end.

(** libinput_event_X_get_base_event (libinput.c:1673-1682, 3298-3378,
    3544-3556). *)
Definition get_base_event (f : family) (e : event) : outcome (option event) :=
  match f with
  | F_switch => (* libinput.c:1674-1682 *)
      require_event_type (typ e) None
        [SWITCH_TOGGLE] (Returns (Some e))
  | F_device_notify => (* libinput.c:3299-3308 *)
      require_event_type (typ e) None
        [DEVICE_ADDED; DEVICE_REMOVED] (Returns (Some e))
  | F_keyboard => (* libinput.c:3311-3319 *)
      require_event_type (typ e) None
        [KEYBOARD_KEY] (Returns (Some e))
  | F_pointer => (* libinput.c:3322-3333 *)
      require_event_type (typ e) None
        [POINTER_MOTION; POINTER_MOTION_ABSOLUTE; POINTER_BUTTON; POINTER_AXIS] (Returns (Some e))
  | F_touch => (* libinput.c:3336-3348 *)
      require_event_type (typ e) None
        [TOUCH_DOWN; TOUCH_UP; TOUCH_MOTION; TOUCH_CANCEL; TOUCH_FRAME] (Returns (Some e))
  | F_gesture => (* libinput.c:3351-3364 *)
      require_event_type (typ e) None
        [GESTURE_SWIPE_BEGIN; GESTURE_SWIPE_UPDATE; GESTURE_SWIPE_END; GESTURE_PINCH_BEGIN; GESTURE_PINCH_UPDATE; GESTURE_PINCH_END] (Returns (Some e))
  | F_tablet_tool => (* libinput.c:3367-3378 *)
      require_event_type (typ e) None
        [TABLET_TOOL_AXIS; TABLET_TOOL_TIP; TABLET_TOOL_PROXIMITY; TABLET_TOOL_BUTTON] (Returns (Some e))
  | F_tablet_pad => (* libinput.c:3545-3556 *)
      require_event_type (typ e) None
        [TABLET_PAD_RING; TABLET_PAD_STRIP; TABLET_PAD_BUTTON; TABLET_PAD_KEY] (Returns (Some e))
  end.

(** libinput-private.h:358-369. *)
Record axes := {
  ax_point_x : Z;
  ax_point_y : Z;
  ax_delta_x : Z;
  ax_delta_y : Z;
  ax_distance : Z;
  ax_pressure : Z;
  ax_tilt_x : Z;
  ax_tilt_y : Z;
  ax_rotation : Z;
  ax_slider : Z;
  ax_wheel : Z;
  ax_wheel_discrete : Z;
  ax_size_major : Z;
  ax_size_minor : Z
}.

(** The calls of the notify functions, with the values they are given.  The
    tablet's changed axes are one number, as [bit_is_set] reads them. *)
Inductive notification :=
| notify_added_device
| notify_removed_device
| keyboard_notify_key (time key state count : Z)
| pointer_notify_motion (time dx dy rx ry : Z)
| pointer_notify_motion_absolute (time x y : Z)
| pointer_notify_button (time button state count : Z)
| pointer_notify_axis (time axes source dx dy discrete_x discrete_y : Z)
| touch_notify_touch_down (time slot seat_slot x y : Z)
| touch_notify_touch_motion (time slot seat_slot x y : Z)
| touch_notify_touch_up (time slot seat_slot : Z)
| touch_notify_touch_cancel (time slot seat_slot : Z)
| touch_notify_frame (time : Z)
| tablet_notify_axis (time tool tip changed : Z) (ax : axes)
| tablet_notify_proximity (time tool prox changed : Z) (ax : axes)
| tablet_notify_tip (time tool tip changed : Z) (ax : axes)
| tablet_notify_button (time tool tip : Z) (ax : axes) (button state count : Z)
| tablet_pad_notify_button (time button state group mode : Z)
| tablet_pad_notify_ring (time number value source group mode : Z)
| tablet_pad_notify_strip (time number value source group mode : Z)
| tablet_pad_notify_key (time key state : Z)
| gesture_notify_swipe (time : Z) (type : etype) (fingers dx dy ux uy : Z)
| gesture_notify_swipe_end (time fingers cancelled : Z)
| gesture_notify_pinch (time : Z) (type : etype) (fingers dx dy ux uy scale angle : Z)
| gesture_notify_pinch_end (time fingers scale cancelled : Z)
| switch_notify_toggle (time sw state : Z).

(** post_base_event, post_device_event, init_event_base (libinput.c:2201-2246):
    the type is stored; the queue is modelled elsewhere (C01), the
    listeners with the machines that listen (C41, C46, C47). *)
Definition post (t : etype) (f : family) (l : list (fld * Z)) : event :=
  {| typ := t; struct_of := f; mem := initialised l |}.

(** The axes copied into a tablet event (".axes = *axes"). *)
Definition axes_fields (ax : axes) : list (fld * Z) :=
  [(tablet_tool__axes_point_x, ax_point_x ax);
   (tablet_tool__axes_point_y, ax_point_y ax);
   (tablet_tool__axes_delta_x, ax_delta_x ax);
   (tablet_tool__axes_delta_y, ax_delta_y ax);
   (tablet_tool__axes_distance, ax_distance ax);
   (tablet_tool__axes_pressure, ax_pressure ax);
   (tablet_tool__axes_tilt_x, ax_tilt_x ax);
   (tablet_tool__axes_tilt_y, ax_tilt_y ax);
   (tablet_tool__axes_rotation, ax_rotation ax);
   (tablet_tool__axes_slider, ax_slider ax);
   (tablet_tool__axes_wheel, ax_wheel ax);
   (tablet_tool__axes_wheel_discrete, ax_wheel_discrete ax);
   (tablet_tool__axes_size_major, ax_size_major ax);
   (tablet_tool__axes_size_minor, ax_size_minor ax)].

(** libinput.c:2811-2841. *)
Definition gesture_notify (time : Z) (type : etype) (fingers cancelled dx dy ux uy scale angle : Z)
    : event :=
  post type F_gesture
    [(gesture__time, time); (gesture__finger_count, fingers); (gesture__cancelled, cancelled);
     (gesture__delta_x, dx); (gesture__delta_y, dy);
     (gesture__delta_unaccel_x, ux); (gesture__delta_unaccel_y, uy);
     (gesture__scale, scale); (gesture__angle, angle)].

(** The event each notify function makes. *)
Definition make (n : notification) : event :=
  match n with
  | notify_added_device => (* libinput.c:2249-2264 *)
      post DEVICE_ADDED F_device_notify []
  | notify_removed_device => (* libinput.c:2267-2282 *)
      post DEVICE_REMOVED F_device_notify []
  | keyboard_notify_key time key state count => (* libinput.c:2326-2351 *)
      post KEYBOARD_KEY F_keyboard
        [(keyboard__time, time); (keyboard__key, key); (keyboard__state, state);
         (keyboard__seat_key_count, count)]
  | pointer_notify_motion time dx dy rx ry => (* libinput.c:2354-2375 *)
      post POINTER_MOTION F_pointer
        [(pointer__time, time); (pointer__delta_x, dx); (pointer__delta_y, dy);
         (pointer__delta_raw_x, rx); (pointer__delta_raw_y, ry)]
  | pointer_notify_motion_absolute time x y => (* libinput.c:2378-2397 *)
      post POINTER_MOTION_ABSOLUTE F_pointer
        [(pointer__time, time); (pointer__absolute_x, x); (pointer__absolute_y, y)]
  | pointer_notify_button time button state count => (* libinput.c:2400-2427 *)
      post POINTER_BUTTON F_pointer
        [(pointer__time, time); (pointer__button, button); (pointer__state, state);
         (pointer__seat_button_count, count)]
  | pointer_notify_axis time axes source dx dy qx qy => (* libinput.c:2430-2455 *)
      post POINTER_AXIS F_pointer
        [(pointer__time, time); (pointer__delta_x, dx); (pointer__delta_y, dy);
         (pointer__source, source); (pointer__axes, axes);
         (pointer__discrete_x, qx); (pointer__discrete_y, qy)]
  | touch_notify_touch_down time slot seat_slot x y => (* libinput.c:2458-2481 *)
      post TOUCH_DOWN F_touch
        [(touch__time, time); (touch__slot, slot); (touch__seat_slot, seat_slot);
         (touch__point_x, x); (touch__point_y, y)]
  | touch_notify_touch_motion time slot seat_slot x y => (* libinput.c:2484-2507 *)
      post TOUCH_MOTION F_touch
        [(touch__time, time); (touch__slot, slot); (touch__seat_slot, seat_slot);
         (touch__point_x, x); (touch__point_y, y)]
  | touch_notify_touch_up time slot seat_slot => (* libinput.c:2510-2531 *)
      post TOUCH_UP F_touch
        [(touch__time, time); (touch__slot, slot); (touch__seat_slot, seat_slot)]
  | touch_notify_touch_cancel time slot seat_slot => (* libinput.c:2534-2555 *)
      post TOUCH_CANCEL F_touch
        [(touch__time, time); (touch__slot, slot); (touch__seat_slot, seat_slot)]
  | touch_notify_frame time => (* libinput.c:2558-2575 *)
      post TOUCH_FRAME F_touch [(touch__time, time)]
  | tablet_notify_axis time tool tip changed ax => (* libinput.c:2578-2605 *)
      post TABLET_TOOL_AXIS F_tablet_tool
        ([(tablet_tool__time, time); (tablet_tool__tool, tool);
          (tablet_tool__proximity_state, 1); (tablet_tool__tip_state, tip);
          (tablet_tool__changed_axes, changed)] ++ axes_fields ax)
  | tablet_notify_proximity time tool prox changed ax => (* libinput.c:2608-2634 *)
      post TABLET_TOOL_PROXIMITY F_tablet_tool
        ([(tablet_tool__time, time); (tablet_tool__tool, tool);
          (tablet_tool__tip_state, 0); (tablet_tool__proximity_state, prox);
          (tablet_tool__changed_axes, changed)] ++ axes_fields ax)
  | tablet_notify_tip time tool tip changed ax => (* libinput.c:2637-2663 *)
      post TABLET_TOOL_TIP F_tablet_tool
        ([(tablet_tool__time, time); (tablet_tool__tool, tool);
          (tablet_tool__tip_state, tip); (tablet_tool__proximity_state, 1);
          (tablet_tool__changed_axes, changed)] ++ axes_fields ax)
  | tablet_notify_button time tool tip ax button state count => (* libinput.c:2666-2698 *)
      post TABLET_TOOL_BUTTON F_tablet_tool
        ([(tablet_tool__time, time); (tablet_tool__tool, tool);
          (tablet_tool__button, button); (tablet_tool__state, state);
          (tablet_tool__seat_button_count, count);
          (tablet_tool__proximity_state, 1); (tablet_tool__tip_state, tip)] ++ axes_fields ax)
  | tablet_pad_notify_button time button state group mode => (* libinput.c:2701-2726 *)
      post TABLET_PAD_BUTTON F_tablet_pad
        [(tablet_pad__time, time); (tablet_pad__button_number, button);
         (tablet_pad__button_state, state); (tablet_pad__mode_group, group);
         (tablet_pad__mode, mode)]
  | tablet_pad_notify_ring time number value source group mode => (* libinput.c:2729-2756 *)
      post TABLET_PAD_RING F_tablet_pad
        [(tablet_pad__time, time); (tablet_pad__ring_number, number);
         (tablet_pad__ring_position, value); (tablet_pad__ring_source, source);
         (tablet_pad__mode_group, group); (tablet_pad__mode, mode)]
  | tablet_pad_notify_strip time number value source group mode => (* libinput.c:2759-2786 *)
      post TABLET_PAD_STRIP F_tablet_pad
        [(tablet_pad__time, time); (tablet_pad__strip_number, number);
         (tablet_pad__strip_position, value); (tablet_pad__strip_source, source);
         (tablet_pad__mode_group, group); (tablet_pad__mode, mode)]
  | tablet_pad_notify_key time key state => (* libinput.c:2789-2808 *)
      post TABLET_PAD_KEY F_tablet_pad
        [(tablet_pad__time, time); (tablet_pad__key_code, key); (tablet_pad__key_state, state)]
  | gesture_notify_swipe time type fingers dx dy ux uy => (* libinput.c:2843-2852 *)
      gesture_notify time type fingers 0 dx dy ux uy 0 0
  | gesture_notify_swipe_end time fingers cancelled => (* libinput.c:2855-2864 *)
      gesture_notify time GESTURE_SWIPE_END fingers cancelled 0 0 0 0 0 0
  | gesture_notify_pinch time type fingers dx dy ux uy scale angle => (* libinput.c:2867-2878 *)
      gesture_notify time type fingers 0 dx dy ux uy scale angle
  | gesture_notify_pinch_end time fingers scale cancelled => (* libinput.c:2881-2891 *)
      gesture_notify time GESTURE_PINCH_END fingers cancelled 0 0 0 0 scale 0
  | switch_notify_toggle time sw state => (* libinput.c:2894-2917 *)
      post SWITCH_TOGGLE F_switch
        [(switch__time, time); (switch__sw, sw); (switch__state, state)]
  end.

(** The struct whose capability the device must have, where the notify function
    asks (device_has_cap, libinput.c:2285-2323; the tablet and pad functions and
    the two device notifications do not ask). *)
Definition asks_for (n : notification) : option family :=
  match n with
  | keyboard_notify_key _ _ _ _ => Some F_keyboard
  | pointer_notify_motion _ _ _ _ _ | pointer_notify_motion_absolute _ _ _
  | pointer_notify_button _ _ _ _ | pointer_notify_axis _ _ _ _ _ _ _ => Some F_pointer
  | touch_notify_touch_down _ _ _ _ _ | touch_notify_touch_motion _ _ _ _ _
  | touch_notify_touch_up _ _ _ | touch_notify_touch_cancel _ _ _
  | touch_notify_frame _ => Some F_touch
  | gesture_notify_swipe _ _ _ _ _ _ _ | gesture_notify_swipe_end _ _ _
  | gesture_notify_pinch _ _ _ _ _ _ _ _ _ | gesture_notify_pinch_end _ _ _ _ => Some F_gesture
  | switch_notify_toggle _ _ _ => Some F_switch
  | _ => None
  end.

(** A notify function on a device with the given capabilities. *)
Definition notify (has_cap : family -> bool) (n : notification) : option event :=
  match asks_for n with
  | Some f => if has_cap f then Some (make n) else None
  | None => Some (make n)
  end.

(** References: what a notify function takes a reference of
    (libinput_tablet_tool_ref, libinput_tablet_pad_mode_group_ref in
    libinput.c:2578-2786), as the kind of object and its identity. *)
Inductive object := Tool (id : Z) | Mode_group (id : Z).

Definition takes (n : notification) : list object :=
  match n with
  | tablet_notify_axis _ tool _ _ _ => [Tool tool]
  | tablet_notify_proximity _ tool _ _ _ => [Tool tool]
  | tablet_notify_tip _ tool _ _ _ => [Tool tool]
  | tablet_notify_button _ tool _ _ _ _ _ => [Tool tool]
  | tablet_pad_notify_button _ _ _ group _ => [Mode_group group]
  | tablet_pad_notify_ring _ _ _ _ group _ => [Mode_group group]
  | tablet_pad_notify_strip _ _ _ _ group _ => [Mode_group group]
  | _ => []
  end.

(** libinput.c:1915-1957, libinput_event_destroy: what is released besides the
    device's reference, which post takes and this releases for every event. *)
Definition releases (e : event) : list object :=
  match typ e with
  | TABLET_TOOL_PROXIMITY | TABLET_TOOL_AXIS | TABLET_TOOL_TIP | TABLET_TOOL_BUTTON =>
      [Tool (mem e tablet_tool__tool)]
  | TABLET_PAD_RING | TABLET_PAD_STRIP | TABLET_PAD_BUTTON | TABLET_PAD_KEY =>
      if negb (etype_beq (typ e) TABLET_PAD_KEY)
      then [Mode_group (mem e tablet_pad__mode_group)] else []
  | _ => []
  end.
