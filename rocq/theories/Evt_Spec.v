(** Specification: what an event tells its reader (property C56).

    Written from the API documentation in libinput.h: [kind] sorts the event
    types into the families the API has structs for, and [tells] says, for
    everything that can have happened and every accessor, which value the
    accessor gives; [None] means that the accessor does not apply to such an
    event. *)
From Coq Require Import ZArith List Bool.
From Verif Require Import Evt_Model.
Import ListNotations.
Open Scope Z_scope.

(** The family of an event type, by its name. *)
Definition kind (t : etype) : option family :=
  match t with
  | NONE => None
  | DEVICE_ADDED | DEVICE_REMOVED => Some F_device_notify
  | KEYBOARD_KEY => Some F_keyboard
  | POINTER_MOTION | POINTER_MOTION_ABSOLUTE | POINTER_BUTTON | POINTER_AXIS => Some F_pointer
  | TOUCH_DOWN | TOUCH_UP | TOUCH_MOTION | TOUCH_CANCEL | TOUCH_FRAME => Some F_touch
  | TABLET_TOOL_AXIS | TABLET_TOOL_PROXIMITY | TABLET_TOOL_TIP | TABLET_TOOL_BUTTON =>
      Some F_tablet_tool
  | TABLET_PAD_BUTTON | TABLET_PAD_RING | TABLET_PAD_STRIP | TABLET_PAD_KEY => Some F_tablet_pad
  | GESTURE_SWIPE_BEGIN | GESTURE_SWIPE_UPDATE | GESTURE_SWIPE_END
  | GESTURE_PINCH_BEGIN | GESTURE_PINCH_UPDATE | GESTURE_PINCH_END => Some F_gesture
  | SWITCH_TOGGLE => Some F_switch
  end.

(** A time in microseconds as a 32 bit number of milliseconds. *)
Definition ms (us : Z) : Z := (us / 1000) mod 2 ^ 32.

Definition flag (b : bool) : Z := if b then 1 else 0.

(** What a tablet event tells of the axes, whatever its type. *)
Definition tells_axes (d : device) (changed : Z) (ax : axes) (a : accessor) : option Z :=
  match a with
  | tablet_tool_get_x => Some (to_mm_x d (ax_point_x ax))
  | tablet_tool_get_y => Some (to_mm_y d (ax_point_y ax))
  | tablet_tool_get_x_transformed w => Some (transform_x d (ax_point_x ax) w)
  | tablet_tool_get_y_transformed h => Some (transform_y d (ax_point_y ax) h)
  | tablet_tool_get_dx => Some (ax_delta_x ax)
  | tablet_tool_get_dy => Some (ax_delta_y ax)
  | tablet_tool_get_pressure => Some (ax_pressure ax)
  | tablet_tool_get_distance => Some (ax_distance ax)
  | tablet_tool_get_tilt_x => Some (ax_tilt_x ax)
  | tablet_tool_get_tilt_y => Some (ax_tilt_y ax)
  | tablet_tool_get_rotation => Some (ax_rotation ax)
  | tablet_tool_get_slider_position => Some (ax_slider ax)
  | tablet_tool_get_size_major => Some (ax_size_major ax)
  | tablet_tool_get_size_minor => Some (ax_size_minor ax)
  | tablet_tool_get_wheel_delta => Some (ax_wheel ax)
  | tablet_tool_get_wheel_delta_discrete => Some (ax_wheel_discrete ax)
  | tablet_tool_x_has_changed => Some (flag (Z.testbit changed 1))
  | tablet_tool_y_has_changed => Some (flag (Z.testbit changed 2))
  | tablet_tool_distance_has_changed => Some (flag (Z.testbit changed 3))
  | tablet_tool_pressure_has_changed => Some (flag (Z.testbit changed 4))
  | tablet_tool_tilt_x_has_changed => Some (flag (Z.testbit changed 5))
  | tablet_tool_tilt_y_has_changed => Some (flag (Z.testbit changed 6))
  | tablet_tool_rotation_has_changed => Some (flag (Z.testbit changed 7))
  | tablet_tool_slider_has_changed => Some (flag (Z.testbit changed 8))
  | tablet_tool_wheel_has_changed => Some (flag (Z.testbit changed 9))
  | tablet_tool_size_major_has_changed => Some (flag (Z.testbit changed 10))
  | tablet_tool_size_minor_has_changed => Some (flag (Z.testbit changed 11))
  | _ => None
  end.

(** Time, tool and states of a tablet event, then the axes. *)
Definition tells_tablet (d : device) (time tool prox tip changed : Z) (ax : axes) (a : accessor)
    : option Z :=
  match a with
  | tablet_tool_get_time => Some (ms time)
  | tablet_tool_get_time_usec => Some time
  | tablet_tool_get_tool => Some tool
  | tablet_tool_get_proximity_state => Some prox
  | tablet_tool_get_tip_state => Some tip
  | _ => tells_axes d changed ax a
  end.

Definition tells_touch (time slot seat_slot : Z) (a : accessor) : option Z :=
  match a with
  | touch_get_time => Some (ms time)
  | touch_get_time_usec => Some time
  | touch_get_slot => Some slot
  | touch_get_seat_slot => Some seat_slot
  | _ => None
  end.

Definition tells_touch_at (d : device) (time slot seat_slot x y : Z) (a : accessor) : option Z :=
  match a with
  | touch_get_x => Some (to_mm_x d x)
  | touch_get_y => Some (to_mm_y d y)
  | touch_get_x_transformed w => Some (transform_x d x w)
  | touch_get_y_transformed h => Some (transform_y d y h)
  | _ => tells_touch time slot seat_slot a
  end.

Definition tells_gesture (time fingers dx dy ux uy : Z) (a : accessor) : option Z :=
  match a with
  | gesture_get_time => Some (ms time)
  | gesture_get_time_usec => Some time
  | gesture_get_finger_count => Some fingers
  | gesture_get_dx => Some dx
  | gesture_get_dy => Some dy
  | gesture_get_dx_unaccelerated => Some ux
  | gesture_get_dy_unaccelerated => Some uy
  | _ => None
  end.

(** The value of a scroll axis: vertical is 0, horizontal is 1; an axis that
    is not set has none. *)
Definition scroll (axes axis vertical horizontal : Z) : option Z :=
  if (axis =? 0) && Z.testbit axes 0 then Some vertical
  else if (axis =? 1) && Z.testbit axes 1 then Some horizontal
  else None.

Definition tells (d : device) (n : notification) (a : accessor) : option Z :=
  match n with
  | notify_added_device | notify_removed_device => None
  | keyboard_notify_key time key state count =>
      match a with
      | keyboard_get_time => Some (ms time)
      | keyboard_get_time_usec => Some time
      | keyboard_get_key => Some key
      | keyboard_get_key_state => Some state
      | keyboard_get_seat_key_count => Some count
      | _ => None
      end
  | pointer_notify_motion time dx dy rx ry =>
      match a with
      | pointer_get_time => Some (ms time)
      | pointer_get_time_usec => Some time
      | pointer_get_dx => Some dx
      | pointer_get_dy => Some dy
      | pointer_get_dx_unaccelerated => Some rx
      | pointer_get_dy_unaccelerated => Some ry
      | _ => None
      end
  | pointer_notify_motion_absolute time x y =>
      match a with
      | pointer_get_time => Some (ms time)
      | pointer_get_time_usec => Some time
      | pointer_get_absolute_x => Some (to_mm_x d x)
      | pointer_get_absolute_y => Some (to_mm_y d y)
      | pointer_get_absolute_x_transformed w => Some (transform_x d x w)
      | pointer_get_absolute_y_transformed h => Some (transform_y d y h)
      | _ => None
      end
  | pointer_notify_button time button state count =>
      match a with
      | pointer_get_time => Some (ms time)
      | pointer_get_time_usec => Some time
      | pointer_get_button => Some button
      | pointer_get_button_state => Some state
      | pointer_get_seat_button_count => Some count
      | _ => None
      end
  | pointer_notify_axis time axes source dx dy qx qy =>
      match a with
      | pointer_get_time => Some (ms time)
      | pointer_get_time_usec => Some time
      | pointer_get_axis_source => Some source
      | pointer_has_axis axis => Some (match scroll axes axis 1 1 with Some v => v | None => 0 end)
      | pointer_get_axis_value axis => scroll axes axis dy dx
      | pointer_get_axis_value_discrete axis => scroll axes axis qy qx
      | _ => None
      end
  | touch_notify_touch_down time slot seat_slot x y => tells_touch_at d time slot seat_slot x y a
  | touch_notify_touch_motion time slot seat_slot x y => tells_touch_at d time slot seat_slot x y a
  | touch_notify_touch_up time slot seat_slot => tells_touch time slot seat_slot a
  | touch_notify_touch_cancel time slot seat_slot => tells_touch time slot seat_slot a
  | touch_notify_frame time =>
      match a with
      | touch_get_time => Some (ms time)
      | touch_get_time_usec => Some time
      | _ => None
      end
  | tablet_notify_axis time tool tip changed ax => tells_tablet d time tool 1 tip changed ax a
  | tablet_notify_proximity time tool prox changed ax => tells_tablet d time tool prox 0 changed ax a
  | tablet_notify_tip time tool tip changed ax => tells_tablet d time tool 1 tip changed ax a
  | tablet_notify_button time tool tip ax button state count =>
      match a with
      | tablet_tool_get_button => Some button
      | tablet_tool_get_button_state => Some state
      | tablet_tool_get_seat_button_count => Some count
      | _ => tells_tablet d time tool 1 tip 0 ax a
      end
  | tablet_pad_notify_button time button state group mode =>
      match a with
      | tablet_pad_get_time => Some (ms time)
      | tablet_pad_get_time_usec => Some time
      | tablet_pad_get_button_number => Some button
      | tablet_pad_get_button_state => Some state
      | tablet_pad_get_mode => Some mode
      | tablet_pad_get_mode_group => Some group
      | _ => None
      end
  | tablet_pad_notify_ring time number value source group mode =>
      match a with
      | tablet_pad_get_time => Some (ms time)
      | tablet_pad_get_time_usec => Some time
      | tablet_pad_get_ring_number => Some number
      | tablet_pad_get_ring_position => Some value
      | tablet_pad_get_ring_source => Some source
      | tablet_pad_get_mode => Some mode
      | tablet_pad_get_mode_group => Some group
      | _ => None
      end
  | tablet_pad_notify_strip time number value source group mode =>
      match a with
      | tablet_pad_get_time => Some (ms time)
      | tablet_pad_get_time_usec => Some time
      | tablet_pad_get_strip_number => Some number
      | tablet_pad_get_strip_position => Some value
      | tablet_pad_get_strip_source => Some source
      | tablet_pad_get_mode => Some mode
      | tablet_pad_get_mode_group => Some group
      | _ => None
      end
  | tablet_pad_notify_key time key state =>
      match a with
      | tablet_pad_get_time => Some (ms time)
      | tablet_pad_get_time_usec => Some time
      | tablet_pad_get_key => Some key
      | tablet_pad_get_key_state => Some state
      | _ => None
      end
  | gesture_notify_swipe time _ fingers dx dy ux uy => tells_gesture time fingers dx dy ux uy a
  | gesture_notify_swipe_end time fingers cancelled =>
      match a with
      | gesture_get_cancelled => Some cancelled
      | _ => tells_gesture time fingers 0 0 0 0 a
      end
  | gesture_notify_pinch time _ fingers dx dy ux uy scale angle =>
      match a with
      | gesture_get_scale => Some scale
      | gesture_get_angle_delta => Some angle
      | _ => tells_gesture time fingers dx dy ux uy a
      end
  | gesture_notify_pinch_end time fingers scale cancelled =>
      match a with
      | gesture_get_cancelled => Some cancelled
      | gesture_get_scale => Some scale
      | gesture_get_angle_delta => Some 0
      | _ => tells_gesture time fingers 0 0 0 0 a
      end
  | switch_notify_toggle time sw state =>
      match a with
      | switch_get_time => Some (ms time)
      | switch_get_time_usec => Some time
      | switch_get_switch => Some sw
      | switch_get_switch_state => Some state
      | _ => None
      end
  end.

(** The value that stands for "nothing": zero, and for the two pad sources the
    value UNKNOWN (libinput.h:292 and 309). *)
Definition nothing (a : accessor) : Z :=
  match a with
  | tablet_pad_get_ring_source | tablet_pad_get_strip_source => 1
  | _ => 0
  end.

(** The gesture events that are begun and updated through one function each. *)
Definition sensible (n : notification) : Prop :=
  match n with
  | gesture_notify_swipe _ t _ _ _ _ _ => t = GESTURE_SWIPE_BEGIN \/ t = GESTURE_SWIPE_UPDATE
  | gesture_notify_pinch _ t _ _ _ _ _ _ _ => t = GESTURE_PINCH_BEGIN \/ t = GESTURE_PINCH_UPDATE
  | _ => True
  end.

(** The time at which something happened, if it has one. *)
Definition happened (n : notification) : option Z :=
  match n with
  | notify_added_device | notify_removed_device => None
  | keyboard_notify_key t _ _ _ => Some t
  | pointer_notify_motion t _ _ _ _ => Some t
  | pointer_notify_motion_absolute t _ _ => Some t
  | pointer_notify_button t _ _ _ => Some t
  | pointer_notify_axis t _ _ _ _ _ _ => Some t
  | touch_notify_touch_down t _ _ _ _ => Some t
  | touch_notify_touch_motion t _ _ _ _ => Some t
  | touch_notify_touch_up t _ _ => Some t
  | touch_notify_touch_cancel t _ _ => Some t
  | touch_notify_frame t => Some t
  | tablet_notify_axis t _ _ _ _ => Some t
  | tablet_notify_proximity t _ _ _ _ => Some t
  | tablet_notify_tip t _ _ _ _ => Some t
  | tablet_notify_button t _ _ _ _ _ _ => Some t
  | tablet_pad_notify_button t _ _ _ _ => Some t
  | tablet_pad_notify_ring t _ _ _ _ _ => Some t
  | tablet_pad_notify_strip t _ _ _ _ _ => Some t
  | tablet_pad_notify_key t _ _ => Some t
  | gesture_notify_swipe t _ _ _ _ _ _ => Some t
  | gesture_notify_swipe_end t _ _ => Some t
  | gesture_notify_pinch t _ _ _ _ _ _ _ _ => Some t
  | gesture_notify_pinch_end t _ _ _ => Some t
  | switch_notify_toggle t _ _ => Some t
  end.

(** The two time accessors of a family. *)
Definition time_accessors (f : family) : option (accessor * accessor) :=
  match f with
  | F_keyboard => Some (keyboard_get_time, keyboard_get_time_usec)
  | F_pointer => Some (pointer_get_time, pointer_get_time_usec)
  | F_touch => Some (touch_get_time, touch_get_time_usec)
  | F_gesture => Some (gesture_get_time, gesture_get_time_usec)
  | F_tablet_tool => Some (tablet_tool_get_time, tablet_tool_get_time_usec)
  | F_tablet_pad => Some (tablet_pad_get_time, tablet_pad_get_time_usec)
  | F_switch => Some (switch_get_time, switch_get_time_usec)
  | F_device_notify => None
  end.
