(** * When a touchpad is off: lid, tablet mode, external mice, the send-events setting *)
(** One touchpad and the other devices of its seat.  Of the other devices the tags, the tablet mode state and whether they are suspended are modelled.
    What those do when they are told that the touchpad was suspended or resumed is not: no handler of theirs calls back into the touchpad. *)
Require Import Coq.ZArith.ZArith Coq.Lists.List Coq.Bool.Bool.
Import ListNotations.

(** struct evdev_device: tags EVDEV_TAG_EXTERNAL_MOUSE, _LID_SWITCH, _TABLET_MODE_SWITCH; [lidstate], [tmstate]: lid.is_closed and tablet_mode.sw.state of the fallback dispatch, the latter is what evdev_device_switch_get_state returns, /repo/src/evdev.c:136-145; is_suspended *)
Record dev := { did : nat; mouse : bool; lidsw : bool; tmsw : bool; lidstate : bool; tmstate : bool; off : bool }.
(** The touchpad.  [internal]: EVDEV_TAG_INTERNAL_TOUCHPAD (otherwise _EXTERNAL_TOUCHPAD: evdev_tag_touchpad sets one of them, /repo/src/evdev-mt-touchpad.c:2693-2762);
    [no_tm]: QUIRK_MODEL_TABLET_MODE_NO_SUSPEND; [top]: buttons.has_topbuttons *)
Record pad := { internal : bool; no_tm : bool; top : bool }.
(** enum suspend_trigger, /repo/src/evdev-mt-touchpad.h:274-280 *)
Inductive trigger := EXTERNAL_MOUSE | SENDEVENTS | LID | TABLET_MODE.
(** suspend_reason: one boolean for each bit; sendevents.current_mode; lid_switch.lid_switch, tablet_mode_switch.tablet_mode_switch; is_suspended; fd != -1; the seat's other devices *)
Record state := { r_mouse : bool; r_send : bool; r_lid : bool; r_tm : bool; mode : Z; lid_of : option nat; tm_of : option nat; susp : bool; fd : bool; others : list dev }.
(** Clear: tp_clear_state, which releases buttons and lifts all fingers; Suspended, Resumed: the other devices are told; Close, Open: the device node; Sync: tp_sync_slots *)
Inductive out := Clear | Suspended | Resumed | Close | Open | Sync.

Definition with_reason (s : state) (x : trigger) (b : bool) : state :=
  {| r_mouse := match x with EXTERNAL_MOUSE => b | _ => r_mouse s end; r_send := match x with SENDEVENTS => b | _ => r_send s end; r_lid := match x with LID => b | _ => r_lid s end; r_tm := match x with TABLET_MODE => b | _ => r_tm s end;
     mode := mode s; lid_of := lid_of s; tm_of := tm_of s; susp := susp s; fd := fd s; others := others s |}.
Definition with_mode (s : state) (m : Z) : state :=
  {| r_mouse := r_mouse s; r_send := r_send s; r_lid := r_lid s; r_tm := r_tm s; mode := m; lid_of := lid_of s; tm_of := tm_of s; susp := susp s; fd := fd s; others := others s |}.
Definition with_lid (s : state) (x : option nat) : state :=
  {| r_mouse := r_mouse s; r_send := r_send s; r_lid := r_lid s; r_tm := r_tm s; mode := mode s; lid_of := x; tm_of := tm_of s; susp := susp s; fd := fd s; others := others s |}.
Definition with_tm (s : state) (x : option nat) : state :=
  {| r_mouse := r_mouse s; r_send := r_send s; r_lid := r_lid s; r_tm := r_tm s; mode := mode s; lid_of := lid_of s; tm_of := x; susp := susp s; fd := fd s; others := others s |}.
Definition with_power (s : state) (a b : bool) : state :=
  {| r_mouse := r_mouse s; r_send := r_send s; r_lid := r_lid s; r_tm := r_tm s; mode := mode s; lid_of := lid_of s; tm_of := tm_of s; susp := a; fd := b; others := others s |}.
Definition with_others (s : state) (l : list dev) : state :=
  {| r_mouse := r_mouse s; r_send := r_send s; r_lid := r_lid s; r_tm := r_tm s; mode := mode s; lid_of := lid_of s; tm_of := tm_of s; susp := susp s; fd := fd s; others := l |}.

Definition has_reason (s : state) (x : trigger) : bool := match x with EXTERNAL_MOUSE => r_mouse s | SENDEVENTS => r_send s | LID => r_lid s | TABLET_MODE => r_tm s end.
Definition any_reason (s : state) : bool := r_mouse s || r_send s || r_lid s || r_tm s.
(** evdev_notify_suspended_device, evdev_notify_resumed_device, /repo/src/evdev.c:2724-2742, /repo/src/evdev.c:2744-2762 *)
Definition told_suspended (s : state) : list out := if susp s then [] else [Suspended].
Definition told_resumed (s : state) : list out := if susp s then [Resumed] else [].
(** tp_suspend, /repo/src/evdev-mt-touchpad.c:2059-2086; evdev_device_suspend, /repo/src/evdev.c:2764-2789 (its call of tp_interface_suspend clears the state once more) *)
Definition tp_suspend (c : pad) (s : state) (x : trigger) : state * list out :=
  if has_reason s x then (s, [])
  else if any_reason s then (with_reason s x true, [])
  else if top c then (with_reason (with_power s true (fd s)) x true, Clear :: told_suspended s)
  else (with_reason (with_power s true false) x true, Clear :: told_suspended s ++ [Clear] ++ if fd s then [Close] else []).
(** tp_resume, /repo/src/evdev-mt-touchpad.c:2153-2173; evdev_device_resume, /repo/src/evdev.c:2791-2855.  [opens]: the device node can be opened again, and everything after that works *)
Definition tp_resume (c : pad) (opens : bool) (s : state) (x : trigger) : state * list out :=
  let s1 := with_reason s x false in
  if any_reason s1 then (s1, [])
  else if top c then (with_power s1 false (fd s1), Clear :: told_resumed s1 ++ [Sync])
  else if fd s1 then (s1, [Sync])
  else if opens then (with_power s1 false true, [Open] ++ told_resumed s1 ++ [Sync])
  else (s1, [Sync]).
Definition then_ (x : state * list out) (f : state -> state * list out) : state * list out := let '(s, o) := x in let '(s1, o1) := f s in (s1, o ++ o1).

(** tp_pair_lid_switch, /repo/src/evdev-mt-touchpad.c:2472-2495 *)
Definition pair_lid (c : pad) (s : state) (d : dev) : state :=
  if negb (lidsw d) || negb (internal c) then s else match lid_of s with None => with_lid s (Some (did d)) | Some _ => s end.
(** tp_pair_tablet_mode_switch, /repo/src/evdev-mt-touchpad.c:2497-2531 *)
Definition pair_tm (c : pad) (s : state) (d : dev) : state * list out :=
  if negb (tmsw d) then (s, [])
  else match tm_of s with
       | Some _ => (s, [])
       | None => if negb (internal c) || no_tm c then (s, [])
                 else let s1 := with_tm s (Some (did d)) in if tmstate d then tp_suspend c s1 TABLET_MODE else (s1, [])
       end.
(** tp_interface_device_added, /repo/src/evdev-mt-touchpad.c:2590-2608: the parts for switches and mice *)
Definition device_added (c : pad) (s : state) (d : dev) : state * list out :=
  then_ (pair_tm c (pair_lid c s d) d) (fun s1 => if Z.eqb (mode s1) 2 && mouse d then tp_suspend c s1 EXTERNAL_MOUSE else (s1, [])).
Definition is_dev (x : option nat) (d : dev) : bool := match x with Some i => Nat.eqb i (did d) | None => false end.
(** tp_interface_device_removed, /repo/src/evdev-mt-touchpad.c:2610-2677: the parts for switches and mice *)
Definition device_removed (c : pad) (opens : bool) (s : state) (d : dev) : state * list out :=
  then_ (then_ (if is_dev (lid_of s) d then tp_resume c opens (with_lid s None) LID else (s, []))
               (fun s1 => if is_dev (tm_of s1) d then tp_resume c opens (with_tm s1 None) TABLET_MODE else (s1, [])))
        (fun s2 => if Z.eqb (mode s2) 2 && negb (existsb (fun e => negb (Nat.eqb (did e) (did d)) && mouse e) (others s2)) then tp_resume c opens s2 EXTERNAL_MOUSE else (s2, [])).
(** tp_sendevents_get_modes, libinput_device_config_send_events_get_modes: ENABLED 0, DISABLED 1, DISABLED_ON_EXTERNAL_MOUSE 2; /repo/src/evdev-mt-touchpad.c:3694-3704, /repo/src/libinput.c:3838-3847 *)
Definition get_modes (c : pad) : Z := if internal c then 3 else 1.
(** libinput_device_config_send_events_set_mode and tp_sendevents_set_mode, /repo/src/libinput.c:3849-3861, /repo/src/evdev-mt-touchpad.c:3721-3756,
    tp_suspend_conditional, /repo/src/evdev-mt-touchpad.c:3706-3719.  The last result is the status: true for SUCCESS, false for UNSUPPORTED. *)
Definition set_mode (c : pad) (opens : bool) (s : state) (m : Z) : (state * list out) * bool :=
  if negb (Z.eqb (Z.land (get_modes c) m) m) then ((s, []), false)
  else
    let m := if Z.testbit m 0 && Z.testbit m 1 then Z.clearbit m 1 else m in
    if Z.eqb m (mode s) then ((s, []), true)
    else if Z.eqb m 0 then (then_ (then_ (tp_resume c opens s SENDEVENTS) (fun s1 => tp_resume c opens s1 EXTERNAL_MOUSE)) (fun s2 => (with_mode s2 m, [])), true)
    else if Z.eqb m 1 then (then_ (then_ (tp_suspend c s SENDEVENTS) (fun s1 => tp_resume c opens s1 EXTERNAL_MOUSE)) (fun s2 => (with_mode s2 m, [])), true)
    else if Z.eqb m 2 then (then_ (then_ (if existsb mouse (others s) then tp_suspend c s EXTERNAL_MOUSE else (s, [])) (fun s1 => tp_resume c opens s1 SENDEVENTS)) (fun s2 => (with_mode s2 m, [])), true)
    else ((s, []), false).
(** libinput_device_config_send_events_get_mode, /repo/src/evdev-mt-touchpad.c:3758-3765 *)
Definition get_mode (s : state) : Z := mode s.

(** What can happen.  [opens] in all of them: whether the touchpad's node can be opened.
    Plug: another device is added, evdev_notify_added_device, /repo/src/evdev.c:1962-1991; Unplug: evdev_device_remove, /repo/src/evdev.c:2857-2889;
    Off, On: evdev_device_suspend and evdev_device_resume of another device (its own send-events setting, or the keyboard in tablet mode);
    Lid, Tm: a switch event of another device, tp_lid_switch_event, tp_tablet_mode_switch_event, /repo/src/evdev-mt-touchpad.c:2419-2442, /repo/src/evdev-mt-touchpad.c:2444-2470;
    SetMode: the setting of the touchpad *)
Inductive input := Plug (d : dev) | Unplug (i : nat) | Off (i : nat) | On (i : nat) | Lid (i : nat) (closed : bool) | Tm (i : nat) (on : bool) | SetMode (m : Z).
Definition find_dev (i : nat) (l : list dev) : option dev := find (fun d => Nat.eqb (did d) i) l.
Definition set_off (i : nat) (b : bool) (l : list dev) : list dev :=
  map (fun d => if Nat.eqb (did d) i then {| did := did d; mouse := mouse d; lidsw := lidsw d; tmsw := tmsw d; lidstate := lidstate d; tmstate := tmstate d; off := b |} else d) l.
Definition set_tmstate (i : nat) (b : bool) (l : list dev) : list dev :=
  map (fun d => if Nat.eqb (did d) i then {| did := did d; mouse := mouse d; lidsw := lidsw d; tmsw := tmsw d; lidstate := lidstate d; tmstate := b; off := off d |} else d) l.
Definition set_lidstate (i : nat) (b : bool) (l : list dev) : list dev :=
  map (fun d => if Nat.eqb (did d) i then {| did := did d; mouse := mouse d; lidsw := lidsw d; tmsw := tmsw d; lidstate := b; tmstate := tmstate d; off := off d |} else d) l.
Definition drop (i : nat) (l : list dev) : list dev := filter (fun d => negb (Nat.eqb (did d) i)) l.
Definition step (c : pad) (s : state) (x : input) (opens : bool) : state * list out :=
  match x with
  | Plug d => device_added c (with_others s (others s ++ [d])) d
  | Unplug i => match find_dev i (others s) with
                | None => (s, [])
                | Some d => then_ (then_ (device_removed c opens s d) (fun s1 => if off d then (s1, []) else device_removed c opens s1 d)) (fun s2 => (with_others s2 (drop i (others s2)), []))
                end
  | Off i => match find_dev i (others s) with
             | None => (s, [])
             | Some d => if off d then (s, []) else then_ (device_removed c opens s d) (fun s1 => (with_others s1 (set_off i true (others s1)), []))
             end
  | On i => match find_dev i (others s) with
            | None => (s, [])
            | Some d => if off d then then_ (device_added c s d) (fun s1 => (with_others s1 (set_off i false (others s1)), [])) else (s, [])
            end
  | Lid i b => let s1 := with_others s (set_lidstate i b (others s)) in
               match lid_of s with
               | Some j => if Nat.eqb i j then if b then tp_suspend c s1 LID else tp_resume c opens s1 LID else (s1, [])
               | None => (s1, [])
               end
  | Tm i b => let s1 := with_others s (set_tmstate i b (others s)) in
              match tm_of s with
              | Some j => if Nat.eqb i j then if b then tp_suspend c s1 TABLET_MODE else tp_resume c opens s1 TABLET_MODE else (s1, [])
              | None => (s1, [])
              end
  | SetMode m => fst (set_mode c opens s m)
  end.
Fixpoint run (c : pad) (s : state) (l : list (input * bool)) : state := match l with [] => s | (x, o) :: r => run c (fst (step c s x o)) r end.
(** The touchpad joins a seat with the devices [l]: it is told of each, and of each that is suspended (evdev_notify_added_device) *)
Definition init0 (l : list dev) : state :=
  {| r_mouse := false; r_send := false; r_lid := false; r_tm := false; mode := 0; lid_of := None; tm_of := None; susp := false; fd := true; others := l |}.
Definition meet (c : pad) (opens : bool) (s : state) (d : dev) : state := let s1 := fst (device_added c s d) in if off d then fst (device_removed c opens s1 d) else s1.
Definition init (c : pad) (opens : bool) (l : list dev) : state := fold_left (meet c opens) l (init0 l).
(** tp_post_events, /repo/src/evdev-mt-touchpad.c:1855-1881: a suspended touchpad posts no motion, taps, scrolling or gestures; without its device node it gets no events at all *)
Definition works (s : state) : bool := negb (susp s) && fd s.
