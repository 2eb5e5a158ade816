(** Model of button debouncing, /repo/src/evdev-debounce.c.

    Times are microseconds in [Z].  A timer is [Some expiry] when armed
    (libinput_timer.expire != 0, /repo/src/timer.c).  The notification at the
    end of debounce_notify_button (left-handed mapping and everything behind
    it) is an output; it is composed with the following stages in
    Pipeline_Model.v.  log_debounce_bug is the output [LogBug]. *)
Require Import Coq.ZArith.ZArith Coq.Lists.List Coq.Bool.Bool.
Import ListNotations.
Open Scope Z_scope.

(** enum debounce_state, /repo/src/evdev-fallback.h:33-45 *)
Inductive dstate :=
| IsUp | IsDown | IsDownWaiting | IsUpDelaying | IsUpDelayingSpurious
| IsUpDetectingSpurious | IsDownDetectingSpurious | IsUpWaiting
| IsDownDelaying | Disabled.

(** enum debounce_event, /repo/src/evdev-debounce.c:63-69 *)
Inductive devent := Press | Release | Timeout | TimeoutShort | OtherButton.

(** struct fallback_dispatch.debounce, /repo/src/evdev-fallback.h:122-129 *)
Record deb := mkDeb {
  d_state : dstate;
  d_code : Z;
  d_time : Z;
  d_timer : option Z;
  d_short : option Z;
  d_spurious : bool;
  (** Not a field of the C struct: whether timer_short comes before timer in
      libinput->timer.list, which decides the order in which timer.c fires
      them.  A timer that was not armed is inserted at the head of the list
      (/repo/src/timer.c:109-110). *)
  d_sfirst : bool
}.

Inductive dout :=
| Notify (code time : Z) (pressed : bool)
| LogBug.

Definition set_state (s : dstate) (d : deb) : deb :=
  mkDeb s (d_code d) (d_time d) (d_timer d) (d_short d) (d_spurious d) (d_sfirst d).
Definition set_time (t : Z) (d : deb) : deb :=
  mkDeb (d_state d) (d_code d) t (d_timer d) (d_short d) (d_spurious d) (d_sfirst d).
Definition set_code (c : Z) (d : deb) : deb :=
  mkDeb (d_state d) c (d_time d) (d_timer d) (d_short d) (d_spurious d) (d_sfirst d).
(** debounce_set_timer, lines 123-131: 25 ms *)
Definition set_timer (t : Z) (d : deb) : deb :=
  mkDeb (d_state d) (d_code d) (d_time d) (Some (t + 25000)) (d_short d) (d_spurious d)
        (match d_timer d with None => false | Some _ => d_sfirst d end).
(** debounce_set_timer_short, lines 133-141: 12 ms *)
Definition set_timer_short (t : Z) (d : deb) : deb :=
  mkDeb (d_state d) (d_code d) (d_time d) (d_timer d) (Some (t + 12000)) (d_spurious d)
        (match d_short d with None => true | Some _ => d_sfirst d end).
(** debounce_cancel_timer, lines 143-147 *)
Definition cancel_timer (d : deb) : deb :=
  mkDeb (d_state d) (d_code d) (d_time d) None (d_short d) (d_spurious d) (d_sfirst d).
(** debounce_cancel_timer_short, lines 149-153 *)
Definition cancel_timer_short (d : deb) : deb :=
  mkDeb (d_state d) (d_code d) (d_time d) (d_timer d) None (d_spurious d) (d_sfirst d).
(** debounce_enable_spurious, lines 155-167 (logging omitted) *)
Definition enable_spurious (d : deb) : deb :=
  mkDeb (d_state d) (d_code d) (d_time d) (d_timer d) (d_short d) true (d_sfirst d).

(** debounce_notify_button, lines 169-180: code and time from the struct *)
Definition notify (p : bool) (d : deb) : deb * list dout :=
  (d, [Notify (d_code d) (d_time d) p]).
Definition quiet (d : deb) : deb * list dout := (d, []).
Definition bug (d : deb) : deb * list dout := (d, [LogBug]).

(** lines 182-201 *)
Definition is_up_handle (d : deb) (e : devent) (t : Z) : deb * list dout :=
  match e with
  | Press => notify true (set_state IsDownWaiting (set_timer t (set_time t d)))
  | Release | Timeout | TimeoutShort => bug d
  | OtherButton => quiet d
  end.

(** lines 203-229 *)
Definition is_down_handle (d : deb) (e : devent) (t : Z) : deb * list dout :=
  match e with
  | Press => bug d
  | Release =>
      let d1 := set_timer_short t (set_timer t (set_time t d)) in
      if d_spurious d then quiet (set_state IsUpDelayingSpurious d1)
      else notify false (set_state IsUpDetectingSpurious d1)
  | Timeout | TimeoutShort => bug d
  | OtherButton => quiet d
  end.

(** lines 231-254 *)
Definition is_down_waiting_handle (d : deb) (e : devent) (t : Z) : deb * list dout :=
  match e with
  | Press => bug d
  | Release => quiet (set_time t (set_state IsUpDelaying d))
  | Timeout => quiet (set_state IsDown d)
  | TimeoutShort => bug d
  | OtherButton => quiet (set_state IsDown d)
  end.

(** lines 256-274 *)
Definition is_up_delaying_handle (d : deb) (e : devent) (t : Z) : deb * list dout :=
  match e with
  | Press => quiet (set_state IsDownWaiting d)
  | Release | TimeoutShort => bug d
  | Timeout | OtherButton => notify false (set_state IsUp d)
  end.

(** lines 276-300 *)
Definition is_up_delaying_spurious_handle (d : deb) (e : devent) (t : Z) : deb * list dout :=
  match e with
  | Press => quiet (cancel_timer_short (cancel_timer (set_state IsDown d)))
  | Release | Timeout => bug d
  | TimeoutShort => notify false (set_state IsUpWaiting d)
  | OtherButton => notify false (set_state IsUp d)
  end.

(** lines 302-325 *)
Definition is_up_detecting_spurious_handle (d : deb) (e : devent) (t : Z) : deb * list dout :=
  match e with
  | Press => quiet (set_state IsDownDetectingSpurious (set_time t d))
  | Release => bug d
  | Timeout => quiet (set_state IsUp d)
  | TimeoutShort => quiet (set_state IsUpWaiting d)
  | OtherButton => quiet (set_state IsUp d)
  end.

(** lines 327-351 *)
Definition is_down_detecting_spurious_handle (d : deb) (e : devent) (t : Z) : deb * list dout :=
  match e with
  | Press => bug d
  | Release => quiet (set_state IsUpDetectingSpurious d)
  | TimeoutShort => notify true (enable_spurious (set_state IsDown (cancel_timer d)))
  | Timeout | OtherButton => notify true (set_state IsDown d)
  end.

(** lines 353-372 *)
Definition is_up_waiting_handle (d : deb) (e : devent) (t : Z) : deb * list dout :=
  match e with
  | Press => quiet (set_state IsDownDelaying (set_time t d))
  | Release | TimeoutShort => bug d
  | Timeout | OtherButton => quiet (set_state IsUp d)
  end.

(** lines 374-394 *)
Definition is_down_delaying_handle (d : deb) (e : devent) (t : Z) : deb * list dout :=
  match e with
  | Press => bug d
  | Release => quiet (set_state IsUpWaiting d)
  | TimeoutShort => bug d
  | Timeout | OtherButton => notify true (set_state IsDown d)
  end.

(** lines 396-419 *)
Definition disabled_handle (d : deb) (e : devent) (t : Z) : deb * list dout :=
  match e with
  | Press => notify true (set_time t d)
  | Release => notify false (set_time t d)
  | TimeoutShort | Timeout => bug d
  | OtherButton => quiet d
  end.

(** debounce_handle_event, lines 421-471 *)
Definition handle_event (d0 : deb) (e : devent) (t : Z) : deb * list dout :=
  let d := match e with
           | OtherButton => cancel_timer_short (cancel_timer d0)
           | _ => d0
           end in
  match d_state d with
  | IsUp => is_up_handle d e t
  | IsDown => is_down_handle d e t
  | IsDownWaiting => is_down_waiting_handle d e t
  | IsUpDelaying => is_up_delaying_handle d e t
  | IsUpDelayingSpurious => is_up_delaying_spurious_handle d e t
  | IsUpDetectingSpurious => is_up_detecting_spurious_handle d e t
  | IsDownDetectingSpurious => is_down_detecting_spurious_handle d e t
  | IsUpWaiting => is_up_waiting_handle d e t
  | IsDownDelaying => is_down_delaying_handle d e t
  | Disabled => disabled_handle d e t
  end.

Definition is_disabled (d : deb) : bool :=
  match d_state d with Disabled => true | _ => false end.

(** The loop of fallback_debounce_handle_state, lines 511-539.  [many] is
    nchanged > 1. *)
Fixpoint frame_loop (many flushed : bool) (d : deb) (changed : list (Z * bool)) (t : Z)
  : deb * list dout :=
  match changed with
  | [] => (d, [])
  | (c, is_down) :: rest =>
      let '(d1, flushed1) :=
        if flushed && negb (is_disabled d)
        then (set_state (if is_down then IsUp else IsDown) d, false)
        else (d, flushed) in
      let d2 := set_code c d1 in
      let '(d3, o3) := handle_event d2 (if is_down then Press else Release) t in
      let '(d4, o4) := if many then handle_event d3 OtherButton t else (d3, []) in
      let '(d5, o5) := frame_loop many (if many then true else flushed1) d4 rest t in
      (d5, o3 ++ o4 ++ o5)
  end.

(** fallback_debounce_handle_state, lines 473-540.  [changed] lists the button
    codes whose hardware state changed in this frame, in ascending order, with
    their new state (the scan of the key masks, lines 481-492, is in
    Pipeline_Model.v); only the first 16 are kept (lines 488-491).  An
    untouched changed[0] is 0 (line 477). *)
Definition handle_frame (d : deb) (changed : list (Z * bool)) (t : Z) : deb * list dout :=
  let ch := firstn 16 changed in
  let n := length ch in
  let first := match ch with [] => 0 | (c, _) :: _ => c end in
  let many := (1 <? n)%nat in
  let '(d1, o1, flushed) :=
    if many || negb (first =? d_code d)
    then let '(d1, o1) := handle_event d OtherButton t in (d1, o1, true)
    else (d, [], false) in
  let '(d2, o2) := frame_loop many flushed d1 ch t in
  (d2, o1 ++ o2).

(** fallback_init_debounce, lines 562-594; the struct is zero-initialised. *)
Definition deb_init (bouncing_quirk : bool) : deb :=
  mkDeb (if bouncing_quirk then Disabled else IsUp) 0 0 None None false false.

(** What can happen to the debouncer: a frame with changed buttons, or one of
    its timers fires (lines 542-560; the timer is disarmed before the callback
    runs, /repo/src/timer.c:143-147). *)
Inductive dop :=
| Frame (changed : list (Z * bool)) (t : Z)
| FireLong (now : Z)
| FireShort (now : Z).

Definition dstep (d : deb) (o : dop) : deb * list dout :=
  match o with
  | Frame ch t => handle_frame d ch t
  | FireLong now => handle_event (cancel_timer d) Timeout now
  | FireShort now => handle_event (cancel_timer_short d) TimeoutShort now
  end.

Fixpoint drun (d : deb) (ops : list dop) : deb * list dout :=
  match ops with
  | [] => (d, [])
  | o :: os => let '(d1, o1) := dstep d o in
               let '(d2, o2) := drun d1 os in
               (d2, o1 ++ o2)
  end.
