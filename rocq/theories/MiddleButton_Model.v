(** Model of middle-button emulation, /repo/src/evdev-middle-button.c.

    Button codes are linux/input-event-codes.h numbers, times microseconds.
    [MPost] is a call of evdev_pointer_notify_button (the next stage of the
    pipeline); [MBug] a log message "Invalid event ..." or "Button mask too
    small ...".  The timer is only its expiry; when it fires is decided by
    timer.c (Timer_Model.v). *)
Require Import Coq.ZArith.ZArith Coq.Lists.List Coq.Bool.Bool.
Import ListNotations.
Open Scope Z_scope.

Definition BTN_LEFT : Z := 272.    (* 0x110 *)
Definition BTN_RIGHT : Z := 273.
Definition BTN_MIDDLE : Z := 274.

(** MIDDLEBUTTON_TIMEOUT, /repo/src/evdev-middle-button.c:30 *)
Definition MB_TIMEOUT : Z := 50000.

(** enum evdev_middlebutton_state, /repo/src/evdev.h:79-90 *)
Inductive mstate := IDLE | LEFT_DOWN | RIGHT_DOWN | MIDDLE | LEFT_UP_PENDING
  | RIGHT_UP_PENDING | IGNORE_LR | IGNORE_L | IGNORE_R | PASSTHROUGH.
(** enum evdev_middlebutton_event, /repo/src/evdev.h:92-100 *)
Inductive mevent := L_DOWN | R_DOWN | OTHER | L_UP | R_UP | TIMEOUT | ALL_UP.

Inductive mout := MPost (code time : Z) (pressed : bool) | MBug.

(** device->middlebutton, /repo/src/evdev.h:260-271 *)
Record mb := mkMB {
  m_state : mstate;
  m_mask : Z;              (** button_mask, uint32_t *)
  m_first : Z;             (** first_event_time *)
  m_timer : option Z;      (** expiry of the timer while armed *)
  m_enabled : bool;
  m_want : bool            (** want_enabled *)
}.

(** evdev_init_middlebutton, /repo/src/evdev-middle-button.c:698-726 *)
Definition mb_init (enable : bool) : mb := mkMB IDLE 0 0 None enable enable.

(** middlebutton_set_state, /repo/src/evdev-middle-button.c:103-127 *)
Definition set_state (m : mb) (s : mstate) (now : Z) : mb :=
  match s with
  | LEFT_DOWN | RIGHT_DOWN =>
      mkMB s (m_mask m) now (Some (now + MB_TIMEOUT)) (m_enabled m) (m_want m)
  | _ => mkMB s (m_mask m) (m_first m) None (m_enabled m) (m_want m)
  end.

(** The state handlers return (new state, outputs, rc); rc true (1) means the
    event was consumed, false (0) that the caller passes it on. *)
Definition hres := (mb * list mout * bool)%type.

(** evdev_middlebutton_idle_handle_event, /repo/src/evdev-middle-button.c:141-165 *)
Definition h_idle (m : mb) (t : Z) (e : mevent) : hres :=
  match e with
  | L_DOWN => (set_state m LEFT_DOWN t, [], true)
  | R_DOWN => (set_state m RIGHT_DOWN t, [], true)
  | OTHER => (m, [], false)
  | R_UP | L_UP | TIMEOUT => (m, [MBug], true)
  | ALL_UP => (m, [], true)
  end.
(** evdev_middlebutton_ldown_handle_event, /repo/src/evdev-middle-button.c:167-218 *)
Definition h_ldown (m : mb) (t : Z) (e : mevent) : hres :=
  match e with
  | L_DOWN => (m, [MBug], true)
  | R_DOWN => (set_state m MIDDLE t, [MPost BTN_MIDDLE t true], true)
  | OTHER => (set_state m PASSTHROUGH t, [MPost BTN_LEFT t true], false)
  | R_UP => (m, [MBug], true)
  | L_UP => (set_state m IDLE t,
             [MPost BTN_LEFT (m_first m) true; MPost BTN_LEFT t false], true)
  | TIMEOUT => (set_state m PASSTHROUGH t, [MPost BTN_LEFT (m_first m) true], true)
  | ALL_UP => (m, [MBug], true)
  end.
(** evdev_middlebutton_rdown_handle_event, /repo/src/evdev-middle-button.c:220-272 *)
Definition h_rdown (m : mb) (t : Z) (e : mevent) : hres :=
  match e with
  | L_DOWN => (set_state m MIDDLE t, [MPost BTN_MIDDLE t true], true)
  | R_DOWN => (m, [MBug], true)
  | OTHER => (set_state m PASSTHROUGH t, [MPost BTN_RIGHT (m_first m) true], false)
  | R_UP => (set_state m IDLE t,
             [MPost BTN_RIGHT (m_first m) true; MPost BTN_RIGHT t false], true)
  | L_UP => (m, [MBug], true)
  | TIMEOUT => (set_state m PASSTHROUGH t, [MPost BTN_RIGHT (m_first m) true], true)
  | ALL_UP => (m, [MBug], true)
  end.
(** evdev_middlebutton_middle_handle_event, /repo/src/evdev-middle-button.c:274-315 *)
Definition h_middle (m : mb) (t : Z) (e : mevent) : hres :=
  match e with
  | L_DOWN | R_DOWN => (m, [MBug], true)
  | OTHER => (set_state m IGNORE_LR t, [MPost BTN_MIDDLE t false], false)
  | R_UP => (set_state m LEFT_UP_PENDING t, [MPost BTN_MIDDLE t false], true)
  | L_UP => (set_state m RIGHT_UP_PENDING t, [MPost BTN_MIDDLE t false], true)
  | TIMEOUT | ALL_UP => (m, [MBug], true)
  end.
(** evdev_middlebutton_lup_pending_handle_event, /repo/src/evdev-middle-button.c:317-350 *)
Definition h_lup (m : mb) (t : Z) (e : mevent) : hres :=
  match e with
  | L_DOWN => (m, [MBug], true)
  | R_DOWN => (set_state m MIDDLE t, [MPost BTN_MIDDLE t true], true)
  | OTHER => (set_state m IGNORE_L t, [], false)
  | R_UP => (m, [MBug], true)
  | L_UP => (set_state m IDLE t, [], true)
  | TIMEOUT | ALL_UP => (m, [MBug], true)
  end.
(** evdev_middlebutton_rup_pending_handle_event, /repo/src/evdev-middle-button.c:352-385 *)
Definition h_rup (m : mb) (t : Z) (e : mevent) : hres :=
  match e with
  | L_DOWN => (set_state m MIDDLE t, [MPost BTN_MIDDLE t true], true)
  | R_DOWN => (m, [MBug], true)
  | OTHER => (set_state m IGNORE_R t, [], false)
  | R_UP => (set_state m IDLE t, [], true)
  | L_UP => (m, [MBug], true)
  | TIMEOUT | ALL_UP => (m, [MBug], true)
  end.
(** evdev_middlebutton_passthrough_handle_event, /repo/src/evdev-middle-button.c:387-408 *)
Definition h_passthrough (m : mb) (t : Z) (e : mevent) : hres :=
  match e with
  | L_DOWN | R_DOWN | OTHER | R_UP | L_UP => (m, [], false)
  | TIMEOUT => (m, [MBug], true)
  | ALL_UP => (set_state m IDLE t, [], true)
  end.
(** evdev_middlebutton_ignore_lr_handle_event, /repo/src/evdev-middle-button.c:410-437 *)
Definition h_ignore_lr (m : mb) (t : Z) (e : mevent) : hres :=
  match e with
  | L_DOWN | R_DOWN => (m, [MBug], true)
  | OTHER => (m, [], false)
  | R_UP => (set_state m IGNORE_L t, [], true)
  | L_UP => (set_state m IGNORE_R t, [], true)
  | TIMEOUT | ALL_UP => (m, [MBug], true)
  end.
(** evdev_middlebutton_ignore_l_handle_event, /repo/src/evdev-middle-button.c:439-465 *)
Definition h_ignore_l (m : mb) (t : Z) (e : mevent) : hres :=
  match e with
  | L_DOWN => (m, [MBug], true)
  | R_DOWN | OTHER | R_UP => (m, [], false)
  | L_UP => (set_state m PASSTHROUGH t, [], true)
  | TIMEOUT | ALL_UP => (m, [MBug], true)
  end.
(** evdev_middlebutton_ignore_r_handle_event, /repo/src/evdev-middle-button.c:466-492; no error message for
    a timeout or all-up here. *)
Definition h_ignore_r (m : mb) (t : Z) (e : mevent) : hres :=
  match e with
  | L_DOWN => (m, [], false)
  | R_DOWN => (m, [MBug], true)
  | OTHER => (m, [], false)
  | R_UP => (set_state m PASSTHROUGH t, [], true)
  | L_UP => (m, [], false)
  | TIMEOUT | ALL_UP => (m, [], true)
  end.

(** evdev_middlebutton_handle_event, /repo/src/evdev-middle-button.c:494-562 *)
Definition handle_event (m : mb) (t : Z) (e : mevent) : hres :=
  match m_state m with
  | IDLE => h_idle m t e
  | LEFT_DOWN => h_ldown m t e
  | RIGHT_DOWN => h_rdown m t e
  | MIDDLE => h_middle m t e
  | LEFT_UP_PENDING => h_lup m t e
  | RIGHT_UP_PENDING => h_rup m t e
  | PASSTHROUGH => h_passthrough m t e
  | IGNORE_LR => h_ignore_lr m t e
  | IGNORE_L => h_ignore_l m t e
  | IGNORE_R => h_ignore_r m t e
  end.

(** evdev_middlebutton_apply_config, /repo/src/evdev-middle-button.c:564-575 *)
Definition apply_config (m : mb) : mb :=
  if Bool.eqb (m_want m) (m_enabled m) then m
  else if negb (m_mask m =? 0) then m
  else mkMB (m_state m) (m_mask m) (m_first m) (m_timer m) (m_want m) (m_want m).

(** Classification of a button, /repo/src/evdev-middle-button.c:591-611 *)
Definition classify (code : Z) (pressed : bool) : mevent :=
  if code =? BTN_LEFT then (if pressed then L_DOWN else L_UP)
  else if code =? BTN_RIGHT then (if pressed then R_DOWN else R_UP)
  else OTHER.

Definition set_mask (m : mb) (mask : Z) : mb :=
  mkMB (m_state m) mask (m_first m) (m_timer m) (m_enabled m) (m_want m).

(** evdev_middlebutton_filter_button, /repo/src/evdev-middle-button.c:577-640 *)
Definition filter_button (m : mb) (t code : Z) (pressed : bool) : hres :=
  if negb (m_enabled m) then (m, [], false)
  else
    let bit := code - BTN_LEFT in
    if (code <? BTN_LEFT) || (32 <=? bit) then (m, [MBug], true)
    else
      let '(m1, o1, rc) := handle_event m t (classify code pressed) in
      let old_mask := m_mask m1 in
      let mask := if pressed then Z.setbit old_mask bit else Z.clearbit old_mask bit in
      let m2 := set_mask m1 mask in
      if negb (old_mask =? mask) && (mask =? 0) then
        let '(m3, o3, _) := handle_event m2 t ALL_UP in
        (apply_config m3, o1 ++ o3, rc)
      else (m2, o1, rc).

(** evdev_pointer_notify_physical_button, /repo/src/evdev.c:147-163: an event
    that is not filtered follows what the filter posted. *)
Definition physical_button (m : mb) (t code : Z) (pressed : bool) : mb * list mout :=
  let '(m', o, filtered) := filter_button m t code pressed in
  (m', if (filtered : bool) then o else o ++ [MPost code t pressed]).

(** evdev_middlebutton_handle_timeout, /repo/src/evdev-middle-button.c:642-648; the timer was disarmed
    before its callback runs (timer.c:144). *)
Definition timeout (m : mb) (now : Z) : mb * list mout :=
  let m0 := mkMB (m_state m) (m_mask m) (m_first m) None (m_enabled m) (m_want m) in
  let '(m', o, _) := handle_event m0 now TIMEOUT in (m', o).

(** evdev_middlebutton_set, /repo/src/evdev-middle-button.c:656-676 (for the two valid values) *)
Definition set_config (m : mb) (enable : bool) : mb :=
  apply_config (mkMB (m_state m) (m_mask m) (m_first m) (m_timer m) (m_enabled m) enable).

(** evdev_middlebutton_get, /repo/src/evdev-middle-button.c:678-686 *)
Definition get_config (m : mb) : bool := m_want m.

Inductive mop :=
| Button (code time : Z) (pressed : bool)
| Timeout (now : Z)
| Config (enable : bool).

Definition mstep (m : mb) (o : mop) : mb * list mout :=
  match o with
  | Button c t p => physical_button m t c p
  | Timeout now => timeout m now
  | Config b => (set_config m b, [])
  end.
Fixpoint mrun (m : mb) (ops : list mop) : mb * list (mop * list mout) :=
  match ops with
  | [] => (m, [])
  | o :: os => let '(m1, o1) := mstep m o in
               let '(m2, o2) := mrun m1 os in (m2, (o, o1) :: o2)
  end.
