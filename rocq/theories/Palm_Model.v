(** * Touchpad: palms, typing, trackpoint, pen and thumb *)
(** Which touches may move the pointer: palm detection, disable-while-typing, trackpoint activity and touch arbitration in
    /repo/src/evdev-mt-touchpad.c, thumb detection in /repo/src/evdev-mt-touchpad-thumb.c.
    How touches begin and end is modelled in Tp_Model; here a frame shows for every touch what the preceding code made of it ([seen]).
    Whether a touch is pinned or held back by the software buttons or by edge scrolling, its speed, whether it is in a software button or
    in the edge-scroll area and what the hysteresis makes of its position are inputs, so they may be anything.  Times are in µs, without overflow. *)
Require Import Coq.ZArith.ZArith Coq.QArith.QArith Coq.Lists.List Coq.Bool.Bool Coq.NArith.NArith.
Require Verif.Gest_Model Verif.Es_Model.
Import ListNotations.
Open Scope Z_scope.

(** enum touch_palm_state, /repo/src/evdev-mt-touchpad.h:70-79 *)
Inductive palm_state := PALM_NONE | PALM_EDGE | PALM_TYPING | PALM_TRACKPOINT | PALM_TOOL_PALM | PALM_PRESSURE | PALM_TOUCH_SIZE | PALM_ARBITRATION.
(** enum tp_thumb_state, /repo/src/evdev-mt-touchpad.h:165-173 *)
Inductive thumb_state := TH_FINGER | TH_JAILED | TH_PINCH | TH_SUPPRESSED | TH_REVIVED | TH_REVIVED_JAILED | TH_DEAD.
(** enum touch_state as frames show it (TOUCH_MAYBE_END never survives tp_pre_process_state), /repo/src/evdev-mt-touchpad.h:47-54 *)
Inductive tstate := NONE | HOVERING | BEGIN | UPDATE | END.

(** A touch in a frame.  [fresh]: tp_new_touch was called since the last frame; [px], [py]: t->point at the detection, [hx], [hy]: after the hysteresis;
    [soft]: tp_button_is_inside_softbutton_area; [redge]: tp_touch_get_edge has EDGE_RIGHT; [fast]: speed.last_speed > THUMB_IGNORE_SPEED_THRESHOLD;
    [free_pre], [free_mid], [free_out]: not pinned, tp_button_touch_active and tp_edge_scroll_touch_active, before the touch is looked at in tp_process_state, after that, and at the end of the frame *)
Record seen := { st : tstate; fresh : bool; dirty : bool; px : Z; py : Z; pressure : Z; major : Z; minor : Z; toolpalm : bool;
  soft : bool; redge : bool; fast : bool; hx : Z; hy : Z; free_pre : bool; free_mid : bool; free_out : bool }.
(** struct tp_touch: palm.state, palm.time, palm.first, speed.exceeded_count, initial_time; /repo/src/evdev-mt-touchpad.h:181-272 *)
Record touch := { now : seen; palm : palm_state; ptime : Z; pfirst : Z * Z; exceeded : Z; itime : Z }.
Definition seen0 : seen := {| st := NONE; fresh := false; dirty := false; px := 0; py := 0; pressure := 0; major := 0; minor := 0; toolpalm := false;
  soft := false; redge := false; fast := false; hx := 0; hy := 0; free_pre := true; free_mid := true; free_out := true |}.
Definition touch0 : touch := {| now := seen0; palm := PALM_NONE; ptime := 0; pfirst := (0, 0); exceeded := 0; itime := 0 |}.

(** The touchpad: the palm and thumb parts of struct tp_dispatch that never change, buttons.is_clickpad, resolutions and atan2 ([gp]) *)
Record config := { left_edge : Z; right_edge : Z; upper_edge : Z; use_pressure : bool; pressure_threshold : Z; use_size : bool; size_threshold : Z; use_mt_tool : bool;
  monitor_trackpoint : bool; is_clickpad : bool; gp : Gest_Model.gpad;
  detect_thumbs : bool; upper_thumb_line : Z; lower_thumb_line : Z; th_use_pressure : bool; th_pressure : Z; th_use_size : bool; th_size : Z }.
(** dwt of struct tp_dispatch: dwt_enabled, keyboard_active, key_mask, mod_mask, keyboard_last_press_time, keyboard_timer (None: not armed).  The bit masks are lists of codes. *)
Record kbd := { on : bool; typing : bool; keys : list Z; mods : list Z; last_press : Z; ktimer : option Z }.
(** palm.trackpoint_active, trackpoint_event_count, trackpoint_last_event_time, trackpoint_timer *)
Record trp := { pointing : bool; pcount : Z; last_point : Z; ttimer : option Z }.
(** enum evdev_arbitration_state, /repo/src/evdev.h:156-160; arbitration.state and arbitration_timer *)
Inductive arb_state := ARB_NONE | ARB_ALL | ARB_RECT.
Record arbr := { astate : arb_state; atimer : option Z }.
(** thumb.state, thumb.index (None: UINT_MAX), thumb.pinch_eligible *)
Record thumb := { tst : thumb_state; tix : option nat; pinch_ok : bool }.
(** [taps_off]: tap.suspended; [meth]: scroll.method; [ok]: abort() has not been reached *)
Record tpad := { kb : kbd; tr : trp; ar : arbr; th : thumb; touches : list touch; meth : Es_Model.smethod; taps_off : bool; ok : bool }.
Definition with_kb (s : tpad) (k : kbd) : tpad := {| kb := k; tr := tr s; ar := ar s; th := th s; touches := touches s; meth := meth s; taps_off := taps_off s; ok := ok s |}.
Definition with_tr (s : tpad) (x : trp) : tpad := {| kb := kb s; tr := x; ar := ar s; th := th s; touches := touches s; meth := meth s; taps_off := taps_off s; ok := ok s |}.
Definition with_ar (s : tpad) (x : arbr) : tpad := {| kb := kb s; tr := tr s; ar := x; th := th s; touches := touches s; meth := meth s; taps_off := taps_off s; ok := ok s |}.
Definition with_th (s : tpad) (x : thumb) : tpad := {| kb := kb s; tr := tr s; ar := ar s; th := x; touches := touches s; meth := meth s; taps_off := taps_off s; ok := ok s |}.
Definition with_touches (s : tpad) (l : list touch) : tpad := {| kb := kb s; tr := tr s; ar := ar s; th := th s; touches := l; meth := meth s; taps_off := taps_off s; ok := ok s |}.
Definition with_meth (s : tpad) (m : Es_Model.smethod) : tpad := {| kb := kb s; tr := tr s; ar := ar s; th := th s; touches := touches s; meth := m; taps_off := taps_off s; ok := ok s |}.
Definition with_taps (s : tpad) (b : bool) : tpad := {| kb := kb s; tr := tr s; ar := ar s; th := th s; touches := touches s; meth := meth s; taps_off := b; ok := ok s |}.
Definition with_ok (s : tpad) (b : bool) : tpad := {| kb := kb s; tr := tr s; ar := ar s; th := th s; touches := touches s; meth := meth s; taps_off := taps_off s; ok := b |}.

(** ** Keyboard *)
(** tp_key_is_modifier, /repo/src/evdev-mt-touchpad.c:2239-2260: LEFTCTRL RIGHTCTRL LEFTALT RIGHTALT LEFTSHIFT RIGHTSHIFT FN CAPSLOCK TAB COMPOSE RIGHTMETA LEFTMETA *)
Definition key_is_modifier (k : Z) : bool := existsb (Z.eqb k) [29; 97; 56; 100; 42; 54; 464; 58; 15; 127; 126; 125].
Definition KEY_F1 : Z := 59.
(** tp_key_ignore_for_dwt, /repo/src/evdev-mt-touchpad.c:2262-2273 *)
Definition key_ignore_for_dwt (k : Z) : bool := if key_is_modifier k then false else KEY_F1 <=? k.
(** long_set_bit, long_clear_bit, long_any_bit_set (modelled in Bits_Model) *)
Definition set_bit (k : Z) (l : list Z) : list Z := k :: l.
Definition clear_bit (k : Z) (l : list Z) : list Z := filter (fun x => negb (x =? k)) l.
Definition any_bit (l : list Z) : bool := match l with [] => false | _ => true end.
Definition TIMEOUT_1 : Z := 200000.
Definition TIMEOUT_2 : Z := 500000.
(** tp_keyboard_event for a key event, /repo/src/evdev-mt-touchpad.c:2275-2333.  The second result: tp_stop_actions was called. *)
Definition keyboard_event (s : kbd) (k : Z) (p : bool) (t : Z) : kbd * bool :=
  if negb p then ({| on := on s; typing := typing s; keys := clear_bit k (keys s); mods := clear_bit k (mods s); last_press := last_press s; ktimer := ktimer s |}, false)
  else if negb (on s) then (s, false)
  else if key_ignore_for_dwt k then (s, false)
  else if key_is_modifier k then ({| on := on s; typing := typing s; keys := keys s; mods := set_bit k (mods s); last_press := last_press s; ktimer := ktimer s |}, false)
  else if negb (typing s) && any_bit (mods s) then (s, false)
  else ({| on := on s; typing := true; keys := set_bit k (keys s); mods := mods s; last_press := t; ktimer := Some (t + if typing s then TIMEOUT_2 else TIMEOUT_1) |}, negb (typing s)).
(** tp_keyboard_timeout, /repo/src/evdev-mt-touchpad.c:2217-2237.  The second result: tp_tap_resume was called. *)
Definition keyboard_timeout (s : kbd) (t : Z) : kbd * bool :=
  if on s && any_bit (keys s) then ({| on := on s; typing := typing s; keys := keys s; mods := mods s; last_press := t; ktimer := Some (t + TIMEOUT_2) |}, false)
  else ({| on := on s; typing := false; keys := keys s; mods := mods s; last_press := last_press s; ktimer := None |}, true).
(** tp_dwt_config_set, /repo/src/evdev-mt-touchpad.c:3150-3168 *)
Definition dwt_config_set (s : kbd) (b : bool) : kbd := {| on := b; typing := typing s; keys := keys s; mods := mods s; last_press := last_press s; ktimer := ktimer s |}.
(** tp_interface_device_removed for a paired keyboard, /repo/src/evdev-mt-touchpad.c:2610-2677.  evdev_device_remove calls it before the
    keyboard's keys are released (/repo/src/evdev.c:2857-2889), and it takes the listener away. *)
Definition keyboard_removed (s : kbd) : kbd := {| on := on s; typing := false; keys := keys s; mods := mods s; last_press := last_press s; ktimer := ktimer s |}.
(** A timer's function runs when it is armed and due (Timer_Model), and is disarmed before. *)
Definition due (d : option Z) (t : Z) : bool := match d with Some x => x <=? t | None => false end.

(** ** Trackpoint *)
Definition EVENT_TIMEOUT : Z := 40000.
Definition ACTIVITY_TIMEOUT : Z := 300000.
(** tp_trackpoint_event for an event other than a button, /repo/src/evdev-mt-touchpad.c:2187-2215; the counter is 32 bits wide in C.
    The second result: tp_stop_actions was called. *)
Definition trackpoint_event (s : trp) (t : Z) : trp * bool :=
  let n := pcount s + 1 in
  if n <? 3 then ({| pointing := pointing s; pcount := n; last_point := t; ttimer := Some (t + EVENT_TIMEOUT) |}, false)
  else ({| pointing := true; pcount := n; last_point := t; ttimer := Some (t + ACTIVITY_TIMEOUT) |}, negb (pointing s)).
(** tp_trackpoint_timeout, /repo/src/evdev-mt-touchpad.c:2175-2185.  The second result: tp_tap_resume was called. *)
Definition trackpoint_timeout (s : trp) : trp * bool :=
  ({| pointing := false; pcount := 0; last_point := last_point s; ttimer := None |}, pointing s).

(** ** Thumb *)
Definition is_st (a b : tstate) : bool := match a, b with NONE, NONE | HOVERING, HOVERING | BEGIN, BEGIN | UPDATE, UPDATE | END, END => true | _, _ => false end.
Definition edge_method (m : Es_Model.smethod) : bool := match m with Es_Model.M_EDGE => true | _ => false end.
Definition twofinger_method (m : Es_Model.smethod) : bool := match m with Es_Model.M_2FG => true | _ => false end.
Definition same_ix (a : option nat) (i : nat) : bool := match a with Some j => Nat.eqb j i | None => false end.
(** tp_thumb_set_state, /repo/src/evdev-mt-touchpad-thumb.c:49-67, for a touch *)
Definition set_thumb (h : thumb) (i : nat) (x : thumb_state) : thumb := {| tst := x; tix := Some i; pinch_ok := pinch_ok h |}.
(** tp_thumb_reset, tp_thumb_lift, /repo/src/evdev-mt-touchpad-thumb.c:69-75, /repo/src/evdev-mt-touchpad-thumb.c:77-82 *)
Definition thumb_reset : thumb := {| tst := TH_FINGER; tix := None; pinch_ok := true |}.
Definition thumb_lift (h : thumb) : thumb := {| tst := TH_FINGER; tix := None; pinch_ok := pinch_ok h |}.
(** tp_thumb_in_exclusion_area, /repo/src/evdev-mt-touchpad-thumb.c:84-91 *)
Definition in_exclusion_area (c : config) (m : Es_Model.smethod) (v : seen) : bool := (lower_thumb_line c <? py v) && negb (edge_method m).
(** tp_thumb_detect_pressure_size, /repo/src/evdev-mt-touchpad-thumb.c:93-112; [size_threshold * 0.6] is compared with an integer *)
Definition detect_pressure_size (c : config) (m : Es_Model.smethod) (v : seen) : bool :=
  (th_use_pressure c && (th_pressure c <? pressure v) && in_exclusion_area c m v) ||
  (th_use_size c && (th_size c <? major v) && (5 * minor v <? 3 * th_size c)).
(** tp_thumb_needs_jail, /repo/src/evdev-mt-touchpad-thumb.c:114-130 *)
Definition needs_jail (c : config) (m : Es_Model.smethod) (x : touch) : bool :=
  let v := now x in
  if (py v <? upper_thumb_line c) || edge_method m then false
  else if negb (in_exclusion_area c m v) && (th_use_size c || th_use_pressure c) && negb (detect_pressure_size c m v) then false
  else negb (10 <=? exceeded x).
(** tp_thumb_ignored, /repo/src/evdev-mt-touchpad-thumb.c:132-142 *)
Definition thumb_ignored (c : config) (h : thumb) (i : nat) : bool :=
  detect_thumbs c && same_ix (tix h) i && match tst h with TH_JAILED | TH_PINCH | TH_SUPPRESSED | TH_REVIVED_JAILED | TH_DEAD => true | _ => false end.
(** tp_thumb_ignored_for_gesture, /repo/src/evdev-mt-touchpad-thumb.c:155-165 *)
Definition thumb_ignored_for_gesture (c : config) (h : thumb) (i : nat) : bool :=
  detect_thumbs c && same_ix (tix h) i && match tst h with TH_JAILED | TH_SUPPRESSED | TH_REVIVED_JAILED | TH_DEAD => true | _ => false end.
(** tp_thumb_suppress, /repo/src/evdev-mt-touchpad-thumb.c:167-179 *)
Definition thumb_suppress (h : thumb) (i : nat) : thumb :=
  if match tst h with TH_FINGER | TH_JAILED | TH_PINCH => true | _ => false end || negb (same_ix (tix h) i) then set_thumb h i TH_SUPPRESSED else set_thumb h i TH_DEAD.
(** tp_thumb_pinch, /repo/src/evdev-mt-touchpad-thumb.c:181-190 *)
Definition thumb_pinch (h : thumb) (i : nat) : thumb :=
  if match tst h with TH_FINGER | TH_JAILED => true | _ => false end || negb (same_ix (tix h) i) then set_thumb h i TH_PINCH
  else match tst h with TH_PINCH => h | _ => thumb_suppress h i end.
(** tp_thumb_revive, /repo/src/evdev-mt-touchpad-thumb.c:192-204 *)
Definition thumb_revive (c : config) (m : Es_Model.smethod) (h : thumb) (i : nat) (x : touch) : thumb :=
  if match tst h with TH_SUPPRESSED | TH_PINCH => true | _ => false end && same_ix (tix h) i
  then set_thumb h i (if needs_jail c m x then TH_REVIVED_JAILED else TH_REVIVED) else h.
(** tp_thumb_update_touch, /repo/src/evdev-mt-touchpad-thumb.c:206-267.  [gnone]: gesture.state == GESTURE_STATE_NONE; [nfd]: nfingers_down;
    [n]: how many touches there are (the loop that looks for thumb.index finds it if it is one of them). *)
Definition thumb_update_touch (c : config) (m : Es_Model.smethod) (gnone : bool) (nfd n : nat) (h : thumb) (i : nat) (x : touch) : thumb :=
  if negb (detect_thumbs c) then h
  else
    let h1 := if (10 <=? exceeded x) && pinch_ok h && gnone
              then {| tst := match tst h, tix h with TH_PINCH, Some j => if Nat.ltb j n then TH_SUPPRESSED else TH_PINCH | z, _ => z end; tix := tix h; pinch_ok := false |}
              else h in
    if is_st (st (now x)) END && same_ix (tix h1) i then thumb_lift h1
    else if Nat.ltb 1 nfd then h1
    else
      let h2 := thumb_revive c m h1 i x in
      if is_st (st (now x)) BEGIN && needs_jail c m x then set_thumb h2 i TH_JAILED
      else
        let h3 := match tst h2 with TH_JAILED => if needs_jail c m x then h2 else set_thumb h2 i TH_FINGER | _ => h2 end in
        match tst h3 with TH_REVIVED_JAILED => if needs_jail c m x then h3 else set_thumb h3 i TH_REVIVED | _ => h3 end.
(** The loop of tp_thumb_update_multifinger: the two lowest touches, the newest, the oldest, the greatest exceeded_count *)
Record found := { f_first : option (nat * touch); f_second : option (nat * touch); f_newest : option (nat * touch); f_oldest : option (nat * touch); f_speed : Z }.
Definition look (f : found) (i : nat) (x : touch) : found :=
  if is_st (st (now x)) NONE || is_st (st (now x)) HOVERING then f
  else
    let newest := if is_st (st (now x)) BEGIN then Some (i, x) else f_newest f in
    let speed := Z.max (f_speed f) (exceeded x) in
    let oldest := match f_oldest f with Some (_, o) => if itime x <? itime o then Some (i, x) else f_oldest f | None => Some (i, x) end in
    match f_first f with
    | None => {| f_first := Some (i, x); f_second := f_second f; f_newest := newest; f_oldest := oldest; f_speed := speed |}
    | Some (_, a) =>
        if hy (now a) <? hy (now x) then {| f_first := Some (i, x); f_second := f_first f; f_newest := newest; f_oldest := oldest; f_speed := speed |}
        else match f_second f with
             | Some (_, b) => if hy (now b) <? hy (now x) then {| f_first := f_first f; f_second := Some (i, x); f_newest := newest; f_oldest := oldest; f_speed := speed |}
                              else {| f_first := f_first f; f_second := f_second f; f_newest := newest; f_oldest := oldest; f_speed := speed |}
             | None => {| f_first := f_first f; f_second := Some (i, x); f_newest := newest; f_oldest := oldest; f_speed := speed |}
             end
    end.
Fixpoint look_all (f : found) (i : nat) (l : list touch) : found := match l with [] => f | x :: r => look_all (look f i x) (S i) r end.
Definition found0 : found := {| f_first := None; f_second := None; f_newest := None; f_oldest := None; f_speed := 0 |}.
(** tp_thumb_update_multifinger, /repo/src/evdev-mt-touchpad-thumb.c:269-381.  Distances in mm are quotients by the resolution; here both sides are multiplied by it.
    initial_time is unsigned: a negative difference is a huge one. *)
Definition THUMB_TIMEOUT : Z := 100000.
Definition thumb_update_multifinger (c : config) (m : Es_Model.smethod) (nfd : nat) (l : list touch) (h : thumb) : thumb :=
  let f := look_all found0 0 l in
  match f_first f, f_second f with
  | Some (i, a), Some (_, b) =>
      let dx := Z.abs (hx (now a) - hx (now b)) in let dy := Z.abs (hy (now a) - hy (now b)) in
      let rx := Gest_Model.rx (gp c) in let ry := Gest_Model.ry (gp c) in
      let far := (35 * rx <? dx) || (25 * ry <? dy) in
      let near := (dx <? 35 * rx) && (dy <? 25 * ry) in
      let contextual :=
        if near then thumb_lift h
        else if match f_newest f, f_oldest f with Some (_, w), Some (_, o) => (0 <=? itime w - itime o) && (itime w - itime o <? THUMB_TIMEOUT) && (hy (now a) <? lower_thumb_line c) | _, _ => false end
        then thumb_lift h
        else if 25 * ry <? dy then if pinch_ok h then thumb_pinch h i else thumb_suppress h i
        else thumb_lift h in
      match f_newest f with
      | Some (j, _) => if match tst h with TH_FINGER => true | _ => false end && Nat.leb 2 nfd && (5 <? f_speed f) && (negb (twofinger_method m) || far) then thumb_suppress h j else contextual
      | None => contextual
      end
  | _, _ => h
  end.

(** ** Palm detection *)
Definition in_side_edge (c : config) (v : seen) : bool := (px v <? left_edge c) || (right_edge c <? px v).
Definition in_top_edge (c : config) (v : seen) : bool := py v <? upper_edge c.
(** tp_palm_in_edge, /repo/src/evdev-mt-touchpad.c:862-866 *)
Definition in_edge (c : config) (v : seen) : bool := in_side_edge c v || in_top_edge c v.
Definition with_palm (x : touch) (p : palm_state) : touch := {| now := now x; palm := p; ptime := ptime x; pfirst := pfirst x; exceeded := exceeded x; itime := itime x |}.
Definition is_none (p : palm_state) : bool := match p with PALM_NONE => true | _ => false end.
(** A detector: the touch afterwards, and whether it triggered *)
Definition detector := touch -> touch * bool.
(** tp_palm_detect_pressure_triggered, /repo/src/evdev-mt-touchpad.c:1102-1118 *)
Definition pressure_triggered (c : config) : detector := fun x =>
  if negb (use_pressure c) then (x, false)
  else match palm x with
       | PALM_NONE => if pressure_threshold c <? pressure (now x) then (with_palm x PALM_PRESSURE, true) else (x, false)
       | PALM_PRESSURE => (x, true)
       | _ => (x, false)
       end.
(** tp_palm_detect_arbitration_triggered, /repo/src/evdev-mt-touchpad.c:1120-1131 *)
Definition arbitration_triggered (a : arb_state) : detector := fun x =>
  match a with ARB_NONE => (x, false) | _ => (with_palm x PALM_ARBITRATION, true) end.
(** tp_palm_detect_dwt_triggered, /repo/src/evdev-mt-touchpad.c:883-915 *)
Definition dwt_triggered (k : kbd) : detector := fun x =>
  if on k && typing k && is_st (st (now x)) BEGIN
  then ({| now := now x; palm := PALM_TYPING; ptime := ptime x; pfirst := (px (now x), py (now x)); exceeded := exceeded x; itime := itime x |}, true)
  else if negb (typing k) && is_st (st (now x)) UPDATE && match palm x with PALM_TYPING => true | _ => false end
          && ((ptime x =? 0) || (last_press k <? ptime x))
  then (with_palm x PALM_NONE, false)
  else (x, false).
(** tp_palm_detect_trackpoint_triggered, /repo/src/evdev-mt-touchpad.c:917-945 *)
Definition trackpoint_triggered (c : config) (r : trp) : detector := fun x =>
  if negb (monitor_trackpoint c) then (x, false)
  else if is_none (palm x) && is_st (st (now x)) BEGIN && pointing r then (with_palm x PALM_TRACKPOINT, true)
  else if match palm x with PALM_TRACKPOINT => true | _ => false end && is_st (st (now x)) UPDATE && negb (pointing r)
          && ((ptime x =? 0) || (last_point r <? ptime x))
  then (with_palm x PALM_NONE, false)
  else (x, false).
(** tp_palm_detect_tool_triggered, /repo/src/evdev-mt-touchpad.c:947-967 *)
Definition tool_triggered (c : config) : detector := fun x =>
  if negb (use_mt_tool c) then (x, false)
  else match palm x with
       | PALM_NONE => if toolpalm (now x) then (with_palm x PALM_TOOL_PALM, true) else (x, false)
       | PALM_TOOL_PALM => if toolpalm (now x) then (x, true) else (with_palm x PALM_NONE, false)
       | _ => (x, false)
       end.
(** tp_palm_detect_touch_size_triggered, /repo/src/evdev-mt-touchpad.c:1025-1049 *)
Definition touch_size_triggered (c : config) : detector := fun x =>
  if negb (use_size c) then (x, false)
  else match palm x with
       | PALM_NONE | PALM_TOUCH_SIZE => if (size_threshold c <? major (now x)) || (size_threshold c <? minor (now x)) then (with_palm x PALM_TOUCH_SIZE, true) else (x, false)
       | _ => (x, false)
       end.
(** tp_palm_detect_move_out_of_edge, /repo/src/evdev-mt-touchpad.c:969-994: sideways for a side edge (238: NE E SE SW W NW), downwards for the top edge (56: S SE SW) *)
Definition move_out_of_edge (c : config) (x : touch) (t : Z) : bool :=
  if (t <? ptime x + 200000) && negb (in_edge c (now x)) then
    let fx := fst (pfirst x) in let fy := snd (pfirst x) in
    let ds := if (fx <? left_edge c) || (right_edge c <? fx) then 238%N else if fy <? upper_edge c then 56%N else 0%N in
    let d := Gest_Model.get_direction (gp c) (Gest_Model.mm (gp c) (inject_Z (px (now x) - fx), inject_Z (py (now x) - fy))) in
    negb (N.eqb ds 0) && negb (N.eqb (N.land d ds) 0) && N.eqb (N.land d (N.lxor 255 ds)) 0
  else false.
(** tp_palm_detect_edge, /repo/src/evdev-mt-touchpad.c:1051-1100; [multi]: tp_palm_detect_multifinger *)
Definition edge_triggered (c : config) (multi : bool) (t : Z) : detector := fun x =>
  match palm x with
  | PALM_EDGE => if multi || move_out_of_edge c x t then (with_palm x PALM_NONE, false) else (x, false)
  | _ =>
      if multi then (x, false)
      else if negb (is_st (st (now x)) BEGIN) || negb (in_edge c (now x)) then (x, false)
      else if is_clickpad c && soft (now x) then (x, false)
      else if redge (now x) then (x, false)
      else ({| now := now x; palm := PALM_EDGE; ptime := t; pfirst := (px (now x), py (now x)); exceeded := exceeded x; itime := itime x |}, true)
  end.
Fixpoint first_hit (l : list detector) (x : touch) : touch * bool :=
  match l with [] => (x, false) | d :: r => let '(x1, b) := d x in if b then (x1, true) else first_hit r x1 end.
(** tp_palm_detect, /repo/src/evdev-mt-touchpad.c:1133-1207.  The second result is false when abort() is reached. *)
Definition palm_detect (c : config) (k : kbd) (r : trp) (a : arb_state) (multi : bool) (t : Z) (x : touch) : touch * bool :=
  let '(x1, hit) := first_hit [pressure_triggered c; arbitration_triggered a; dwt_triggered k; trackpoint_triggered c r; tool_triggered c; touch_size_triggered c; edge_triggered c multi t; pressure_triggered c] x in
  (x1, negb (hit && is_none (palm x1) && negb (is_none (palm x)))).

(** ** A frame *)
(** What tp_new_touch, tp_begin_touch and tp_end_touch did to the palm and speed fields before the frame is looked at,
    /repo/src/evdev-mt-touchpad.c:313-347, /repo/src/evdev-mt-touchpad.c:349-363, /repo/src/evdev-mt-touchpad.c:421-439 *)
Definition enter (t : Z) (x : touch) (v : seen) : touch :=
  let x1 := if fresh v then {| now := v; palm := PALM_NONE; ptime := ptime x; pfirst := pfirst x; exceeded := 0; itime := itime x |}
            else {| now := v; palm := palm x; ptime := ptime x; pfirst := pfirst x; exceeded := exceeded x; itime := itime x |} in
  match st v with
  | BEGIN => {| now := v; palm := palm x1; ptime := t; pfirst := pfirst x1; exceeded := 0; itime := t |}
  | END => {| now := v; palm := PALM_NONE; ptime := 0; pfirst := pfirst x1; exceeded := 0; itime := itime x1 |}
  | _ => x1
  end.
Fixpoint enter_all (t : Z) (l : list touch) (f : list seen) : list touch :=
  match l, f with x :: r, v :: w => enter t x v :: enter_all t r w | _, _ => l end.
Definition is_down (x : touch) : bool := is_st (st (now x)) BEGIN || is_st (st (now x)) UPDATE.
(** nfingers_down is the number of touches that are down (C42) *)
Definition nfingers_down (l : list touch) : nat := length (filter is_down l).
(** tp_touch_active, /repo/src/evdev-mt-touchpad.c:814-823, [free]: the parts that are inputs *)
Definition touch_active (c : config) (h : thumb) (i : nat) (x : touch) (free : bool) : bool := is_down x && is_none (palm x) && negb (thumb_ignored c h i) && free.
(** tp_palm_detect_multifinger for touch [i], /repo/src/evdev-mt-touchpad.c:996-1023 *)
Fixpoint other_active (c : config) (h : thumb) (i j : nat) (l : list touch) : bool :=
  match l with
  | [] => false
  | x :: r => (negb (Nat.eqb i j) && touch_active c h j x (if Nat.ltb j i then free_mid (now x) else free_pre (now x))) || other_active c h i (S j) r
  end.
Definition multifinger (c : config) (h : thumb) (i : nat) (l : list touch) : bool := Nat.leb 2 (nfingers_down l) && other_active c h i 0 l.
Fixpoint put {A} (i : nat) (x : A) (l : list A) : list A := match l, i with [], _ => [] | _ :: r, O => x :: r | y :: r, S j => y :: put j x r end.
Definition with_exceeded (x : touch) (n : Z) : touch := {| now := now x; palm := palm x; ptime := ptime x; pfirst := pfirst x; exceeded := n; itime := itime x |}.
Definition slower (n : Z) : Z := if 0 <? n then n - 1 else n.
(** The loop of tp_process_state for touch [i], /repo/src/evdev-mt-touchpad.c:1709-1820 *)
Definition process_touch (c : config) (gnone : bool) (t : Z) (s : tpad) (i : nat) : tpad :=
  match nth_error (touches s) i with
  | None => s
  | Some x =>
      if is_st (st (now x)) NONE then s
      else if negb (dirty (now x)) then with_touches s (put i (with_exceeded x (slower (exceeded x))) (touches s))
      else
        let h := thumb_update_touch c (meth s) gnone (nfingers_down (touches s)) (length (touches s)) (th s) i x in
        let '(x1, fine) := palm_detect c (kb s) (tr s) (astate (ar s)) (multifinger c h i (touches s)) t x in
        let x2 := with_exceeded x1 (if fast (now x) then if exceeded x <? 15 then exceeded x + 1 else exceeded x else slower (exceeded x)) in
        with_ok (with_th (with_touches s (put i x2 (touches s))) h) (ok s && fine)
  end.
Definition has_new (l : list touch) : bool := existsb (fun x => dirty (now x) && is_st (st (now x)) BEGIN) l.
(** tp_process_state, up to the call of tp_thumb_update_multifinger *)
Definition process_state (c : config) (gnone : bool) (t : Z) (s : tpad) : tpad :=
  let s1 := fold_left (process_touch c gnone t) (seq 0 (length (touches s))) s in
  if detect_thumbs c && has_new (touches s1) && Nat.leb 2 (nfingers_down (touches s1))
  then with_th s1 (thumb_update_multifinger c (meth s1) (nfingers_down (touches s1)) (touches s1) (th s1)) else s1.
(** tp_post_process_state: the thumb is forgotten when no finger is down, /repo/src/evdev-mt-touchpad.c:1822-1853 *)
Definition post_process (s : tpad) : tpad := match nfingers_down (touches s) with O => with_th s thumb_reset | _ => s end.
(** What the frame lets each touch do: move the pointer, scroll, ... (tp_post_events, /repo/src/evdev-mt-touchpad.c:1855-1881: while the trackpoint or the keyboard is active
    the touches do nothing).  [thumb_suppressed]: tp_gesture_handle_state called tp_thumb_suppress for that touch (Gest_Model, TThumb). *)
Fixpoint active_from (c : config) (h : thumb) (i : nat) (l : list touch) : list bool :=
  match l with [] => [] | x :: r => touch_active c h i x (free_out (now x)) :: active_from c h (S i) r end.
Definition post_events (c : config) (s : tpad) : list bool :=
  if pointing (tr s) || typing (kb s) then map (fun _ => false) (touches s) else active_from c (th s) 0 (touches s).
Definition frame (c : config) (s : tpad) (f : list seen) (gnone : bool) (sup : option nat) (t : Z) : tpad * list bool :=
  let s1 := process_state c gnone t (with_touches s (enter_all t (touches s) f)) in
  let s2 := match sup with Some i => with_th s1 (thumb_suppress (th s1) i) | None => s1 end in
  (post_process s2, post_events c s2).

(** ** Inputs *)
Inductive input :=
| Frame (f : list seen) (gnone : bool) (sup : option nat) (t : Z)
| Key (k : Z) (p : bool) (t : Z)         (* a paired keyboard's key *)
| KbTimer (t : Z)                        (* the timers, looked at at that time *)
| SetDwt (b : bool)
| Unplug                                 (* a paired keyboard is removed *)
| Point (t : Z)                          (* an event of the trackpoint other than a button *)
| TpTimer (t : Z)
| Arb (which : arb_state) (f : list seen) (t : Z)   (* tp_interface_toggle_touch; [f]: the frame of tp_clear_state *)
| ArbTimer (t : Z)
| SetScroll (m : Es_Model.smethod).
(** The result of a frame the client sees; None for other inputs *)
Definition step (c : config) (s : tpad) (i : input) : tpad * option (list bool) :=
  match i with
  | Frame f g u t => let '(s1, o) := frame c s f g u t in (s1, Some o)
  | Key k p t => let '(k1, stop) := keyboard_event (kb s) k p t in (with_taps (with_kb s k1) (taps_off s || stop), None)
  | KbTimer t => if due (ktimer (kb s)) t then let '(k1, resume) := keyboard_timeout (kb s) t in (with_taps (with_kb s k1) (taps_off s && negb resume), None) else (s, None)
  | SetDwt b => (with_kb s (dwt_config_set (kb s) b), None)
  | Unplug => (with_kb s (keyboard_removed (kb s)), None)
  | Point t => if monitor_trackpoint c then let '(r1, stop) := trackpoint_event (tr s) t in (with_taps (with_tr s r1) (taps_off s || stop), None) else (s, None)
  | TpTimer t => if due (ttimer (tr s)) t then let '(r1, resume) := trackpoint_timeout (tr s) in (with_taps (with_tr s r1) (taps_off s && negb resume), None) else (s, None)
  (** tp_interface_toggle_touch, /repo/src/evdev-mt-touchpad.c:2773-2804 *)
  | Arb w f t =>
      match w, astate (ar s) with
      | ARB_ALL, ARB_ALL | ARB_RECT, ARB_RECT | ARB_NONE, ARB_NONE => (s, None)
      | ARB_NONE, _ => (with_ar s {| astate := astate (ar s); atimer := Some (t + 90000) |}, None)
      | _, _ => let '(s1, o) := frame c (with_th (with_ar s {| astate := astate (ar s); atimer := None |}) thumb_reset) f true None t in
                (with_ar s1 {| astate := w; atimer := None |}, Some o)
      end
  (** tp_arbitration_timeout, /repo/src/evdev-mt-touchpad.c:2764-2771 *)
  | ArbTimer t => if due (atimer (ar s)) t then (with_ar s {| astate := ARB_NONE; atimer := None |}, None) else (s, None)
  | SetScroll m => (with_meth s m, None)
  end.
Fixpoint run (c : config) (s : tpad) (l : list input) : tpad :=
  match l with [] => s | i :: r => run c (fst (step c s i)) r end.
(** tp_init_dwt, tp_init_palmdetect, tp_init_thumb: /repo/src/evdev-mt-touchpad.c:3228-3242, /repo/src/evdev-mt-touchpad.c:3360-3388, /repo/src/evdev-mt-touchpad-thumb.c:383-449;
    [n] touches, [b]: disable-while-typing is on by default *)
Definition init (n : nat) (b : bool) (m : Es_Model.smethod) : tpad :=
  {| kb := {| on := b; typing := false; keys := []; mods := []; last_press := 0; ktimer := None |};
     tr := {| pointing := false; pcount := 0; last_point := 0; ttimer := None |};
     ar := {| astate := ARB_NONE; atimer := None |}; th := thumb_reset; touches := repeat touch0 n; meth := m; taps_off := false; ok := true |}.
