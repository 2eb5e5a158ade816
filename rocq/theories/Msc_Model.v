(** Model: MSC_TIMESTAMP, by which a touchpad tells how much time passed in the
    hardware, and the repair of the touches' history
    (evdev-mt-touchpad.c:771-780, 1568-1684, 1691-1692).

    Times are in microseconds; the kernel's are uint64, the hardware's uint32.
    What else happens to the touches between two timestamps is arbitrary. *)
From Coq Require Import ZArith List Bool.
Import ListNotations.
Open Scope Z_scope.

(** enum tp_jump_state, evdev-mt-touchpad.h:175-179 *)
Inductive jump_state := IGNORE | EXPECT_FIRST | EXPECT_DELAY.

(** struct msc_timestamp, evdev-mt-touchpad.h:504-508, without [now] *)
Record msc := { st : jump_state; interval : Z }.

(** zero-initialised, evdev-mt-touchpad.h:176 *)
Definition init : msc := {| st := IGNORE; interval := 0 |}.

(** A point of a touch's history, newest first, at most
    TOUCHPAD_HISTORY_LENGTH (evdev-mt-touchpad.h:32, 205-212). *)
Record point := { time : Z; x : Z; y : Z }.

(** A touch: whether its state is TOUCH_UPDATE, and its history. *)
Record touch := { updating : bool; history : list point }.

Definition U32 : Z := 4294967296.
Definition U64 : Z := 18446744073709551616.

(** The loop of tp_motion_history_fix_last, evdev-mt-touchpad.c:1596-1601, from
    the [i]-th point *)
Fixpoint fix_points (now jumping normal i : Z) (l : list point) : list point :=
  match l with
  | [] => []
  | p :: r =>
      {| time := (now - jumping - (normal * i) mod U32) mod U64; x := x p; y := y p |}
      :: fix_points now jumping normal (i + 1) r
  end.

(** tp_motion_history_fix_last, evdev-mt-touchpad.c:1579-1602 *)
Definition fix_last (now jumping normal : Z) (t : touch) : touch :=
  if updating t
  then {| updating := true; history := fix_points now jumping normal 0 (history t) |}
  else t.

(** What one timestamp does: the next state, the touches, and the time the
    acceleration filter is restarted with, if it is. *)
Record effect := { after : msc; touches : list touch; restart : option Z }.

(** ms2us(20), evdev-mt-touchpad.c:1648 *)
Definition LONG : Z := 20000.

(** tp_process_msc_timestamp, evdev-mt-touchpad.c:1604-1684; [stamp] is
    MSC_TIMESTAMP, [now] the time of the event *)
Definition process (m : msc) (stamp now : Z) (ts : list touch) : effect :=
  if stamp =? 0
  then {| after := {| st := EXPECT_FIRST; interval := 0 |}; touches := ts; restart := None |}
  else
    match st m with
    | EXPECT_FIRST =>
        {| after := if LONG <? stamp then {| st := IGNORE; interval := interval m |}
                    else {| st := EXPECT_DELAY; interval := stamp |};
           touches := ts; restart := None |}
    | EXPECT_DELAY =>
        if (interval m * 2) mod U32 <? stamp
        then let tdelta := (stamp - interval m) mod U32 in
             {| after := {| st := IGNORE; interval := interval m |};
                touches := map (fix_last now tdelta (interval m)) ts;
                restart := Some ((now - tdelta) mod U64) |}
        else {| after := m; touches := ts; restart := None |}
    | IGNORE => {| after := m; touches := ts; restart := None |}
    end.

(** The state after the timestamps [l] of a device, oldest first
    (evdev-mt-touchpad.c:1691-1692, one in each frame that has one) *)
Definition state_after (l : list Z) : msc :=
  fold_left (fun m stamp => after (process m stamp 0 [])) l init.
