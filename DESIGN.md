# Formal model of libinput in Rocq: design

## Layout

`rocq/theories/` holds, for each subsystem `X`:

* `X_Model.v`   the model: total, computable functions, each with the /repo file and lines it models;
* `X_Spec.v`    (where useful) a small independent specification: predicates on observable traces;
* `X_Proofs.v`  invariants and lemmas;
* `X_Props.v`   only the property theorems, each closed by `exact lemma.`, with `Print Assumptions`
  below it and an `Example` showing that a concrete non-trivial case meets its hypotheses.

Where the full English statement is false of the code, the model is kept faithful and the theorem
is `..._refuted : exists ..., ...` with a concrete witness; the finding is listed below.

## Trusted base

* Coq 8.16.1 kernel (including the VM used by `vm_compute`).
* The hand translation C -> Gallina. Each definition cites the lines it models.
* Real numbers: C `double` is modelled by exact rationals (`Q`) unless a file says otherwise; rounding,
  NaN and infinities are not modelled.
* Memory allocation succeeds (`zalloc` aborts otherwise), except the ring-buffer `realloc`, whose
  failure is modelled.
* External code (kernel, libevdev, udev, mtdev, libwacom) is an arbitrary environment: all its outputs are
  universally quantified inputs of the models.

The axioms each theorem rests on are those its `Print Assumptions` lists: none (every one prints "Closed under
the global context"). `coqchk` additionally reports the standard library's axioms of `Coq.ssr.ssrunder`
(`Under_rel` and friends), which come with a library module some tactics load; no theorem uses them.

## Plan per property

| id | what is modelled | how it is proved |
|----|------------------|------------------|
| C01, C02 | ring buffer of libinput.c with growth and wrap | refinement to a list queue, induction over operations |
| C03 | seat counters | invariant: counter = net presses, induction |
| C04 | key part of the fallback dispatcher and device key counts | invariant + trace alternation |
| C05, C06 | debounce machine, both timers | invariant relating state and last emitted; finite case analysis per step, induction over traces |
| C07, C08 | middle-button machine and its filter | same |
| C09 | timer list, handler loop with arbitrary callbacks | invariants; fuel-free by induction on callbacks |
| C10 | button-scroll and lock machines with the post-button stage | invariant + trace induction |
| C11 | post_scroll / stop_scroll over Q | invariant + trace induction |
| C12-C16 | fallback touch slots, palm state, arbitration, neutral state | invariant + trace induction; frame and resume defects as `_refuted` |
| C17, C41 | lid and tablet-mode switches with their keyboards (Switch_Model) | invariants over device lives |
| C18-C20, C39 | string utilities over `list ascii` | direct proofs, round trips |
| C19 | property parsers, with glibc's sscanf | grammars as inductive relations; soundness and completeness |
| C21, C40 | 3x3 matrices, calibration, rotation, coordinate accessors over Q | ring and order reasoning |
| C22 | time conversion, ratelimit | arithmetic, invariant |
| C23 | Cfg_Model: every integer option (tap, map, drag, drag lock, send-events, natural, left-handed, click, middle emulation, scroll method/button/lock, DWT, rotation) on every kind of device, with the postponed changes; speed and profile in Acc_Model, calibration in Matrix_Model. Not modelled: that send-events suspends or resumes the device | the getter equals the last accepted value over any history, by induction; documented status tables, restoring defaults, what is in effect |
| C24 | deferred changes | case analysis, invariants |
| C25 | every ref and unref function, destruction of seats, devices, groups, tools, mode groups and events, adding, removing, suspending and resuming in both backends, libinput_unref (Rc_Model), over numbered heap objects; use after free, double free and failed count assertions are an outcome of their own.  Not modelled: the contents of objects, the event-listener lists and weak pointers between paired devices, totem tools, malloc failure | the caller's references are counted over the history, the library's are listed from the state (Rc_Spec); invariant: each counter is their sum, with the references running code holds kept in a list |
| C26 | lists in a heap | refinement to sequences |
| C27 | bit arrays | `N.testbit` reasoning |
| C28 | strverscmp | induction |
| C29 | tap-to-click state machine, frames, timer, configuration (Tap_Model) | invariant relating state, fingers counted, held button and times; trace induction; click specification for taps in a row |
| C31 | touchpad buttons: areas, clickfinger, top buttons, physical buttons, suspends, trackpoints (Tpb_Model) | invariant relating press counts, active button and what was sent; refinements to a client's view; one-finger runs in time |
| C32 | edge scrolling: per-touch machine, timer, posting, stops, method changes (Es_Model) | projection of the device to one touch; invariant relating state, open sequence and history |
| C30 | touchpad gestures and two-finger scrolling: detection, axis lock, swipe, pinch, finger count timer (Gest_Model); atan2 and the acceleration filters are parameters, distances and scales are squared | invariant relating state to what the client has seen; windows of one pinch |
| C33 | pointer acceleration: all filters, the trackers that estimate the speed, the device's filter, speed and profile (Acc_Model), over Q; hypot, the direction octants and pow are parameters (`math`) with the few facts of `good_math` | device invariant over histories; ring of trackers refined to the history; order reasoning on the curves |
| C34 | tablet tools: all of evdev-tablet.c (Tab_Model): kernel events, tools and their libwacom descriptions, pressure offset, contact, history smoothing, proximity of pucks by distance, forced proximity-out, touch arbitration, left-handed use, suspend; the acceleration filter, the calibration and atan2 are parameters of the device; tablet_flush's loop has fuel, running out of it is the outcome `hang`, undefined behaviour the outcome `crash` | a specification of one round of the loop, an invariant over histories relating the flags to the client's view; strict nesting under the kernel protocol `orderly` of Tab_Spec |
| C35 | tablet pads: buttons, rings, strips, mode groups and LEDs, left-handed use, setting up from libwacom or the kernel (Pad_Model); libwacom, the LED files, the axes' values are input, log2 is a parameter | invariant relating button sets and what was sent; fold specifications of frame, buttons and modes |
| C36 | all of quirks.c but logging, the listing functions and reading DMI and device tree (Quirks_Model): reading lines, comments, section grammar, keys, value formats, directory order, udev properties, matching, lookup; fnmatch(3), the range check of doubles and libevdev's names are parameters | a grammar of quirk files (Quirks_Spec) shown equal to what the parser accepts, in both directions, by an invariant over the lines read; the section match as a conjunction of criteria; uniqueness of the version order from C40 |
| C42 | touch states of the touchpad with slots, BTN_TOOL_* and pressure (Tp_Model) | invariant between frames, induction over inputs; invariant relating slots and touches |
| C43 | Rc_Model: looking up seats, device groups and tools | structural invariant (Rc_Proofs8) on names and lists kept by every function where nothing is used after free, which C25 gives |
| C44 | Tab_Model: scaling of pressure, distance, slider, tilt and rotation, pressure offset, smoothing (Tab_Spec2: `in_ranges`, `kernel`) | invariant on the stored axes, the smoothing history, the tools' thresholds and the changed flags through every function (Tab_Proofs7 to 9); the freshness of flagged axes from the order of tablet_check_notify_axes |
| C45 | Tab_Model: touch arbitration (Tab_Spec2: `told`) | the last message equals the stored state (Tab_Proofs10); joined with C34's invariant on proximity |
| C46 | Palm_Model: disable-while-typing (keys, modifiers, timers), palm states, thumb states and which touches are active; pinning, software buttons, edge scrolling, speeds and hysteresis are inputs (Palm_Spec: `types`, `held`, `until`, `goes_on`) | the keyboard part runs by itself (Palm_Proofs1); invariants on the timer and on the held keys (Palm_Proofs4, 5); per-touch induction over frames (Palm_Proofs2, 3) |
| C47 | Palm_Model: trackpoint events, counter and timer (Palm_Spec: `points_until`, `no_burst`) | as C46 (Palm_Proofs6) |
| C48 | Palm_Model: the seven palm detections in their order, arbitration and its timer (Palm_Spec: `too_hard`, `edge_stays`, `moves_away`) | invariants on one touch's palm state over all frames (Palm_Proofs7); the order of the touches within a frame by a fold lemma |
| C49 | Palm_Model: tp_thumb_* (Palm_Spec2: `thumb_place`, `rests`, `excess`, `near`, `beyond`, `far_below`, `joined`) | a touch alone: induction over the frames with the thumb state as a function of `rests` (Palm_Proofs8); two touches: the loop that looks for the lowest, newest and oldest finds those two (Palm_Proofs9) |
| C50 | Susp_Model: suspend reasons, pairing with lid and tablet mode switches, the send-events option, evdev_device_suspend/_resume with any outcome of opening the node; not modelled: what tp_clear_state and tp_sync_slots do to touches, rotation, debouncing of the lid switch (Susp_Spec: `there`, `closed`, `setting`, `sane`, `reason`, `working`) | invariant relating each reason bit to the world (Susp_Proofs2-4), a second one relating the bits to the power state (Susp_Proofs) |
| C51 | Totem_Model: all of evdev-totem.c but the acceleration hooks and logging; the delta is the one before the motion filter (Totem_Spec: `places`, `behaves`, `lives`, `pressed`, `told`, `says_what`) | one slot per frame (Totem_Proofs), all slots by induction with distinct tools (Totem_Proofs2), an invariant over histories (Totem_Proofs3, 4) |
| C52 | Jit_Model: motion history, jump and wobble detection, hysteresis, pinning and the loop of tp_process_state; square roots in exact arithmetic (squares of distances as rationals, roundings with Z.sqrt) (Jit_Spec: `stays`, `at_most`, `inside`, `rests`, `slow`, `each`, `far`) | the ellipse of the hysteresis (Jit_Proofs), one frame of one touch: starts again or moves (Jit_Proofs2), stretches of frames (Jit_Proofs3), sums, pins and wobbles by induction (Jit_Proofs4) |
| C53 | Tap_Model, as for C29 (Tap_Spec2: `stroke`, `drags`, `strokes_ok`, `drag_deadline`) | the state after a tap (Tap_Proofs3), one stroke (Tap_Proofs5), induction on the strokes |
| C54 | Life_Model: both backends, evdev_device_create, _suspend, _resume and _remove, the read and udev handlers, libinput_dispatch; the devices' own code may send any events when it is called (Life_Spec: `lives`, `file`, `known` over what a caller sees; `watch`, `proper`, `tidy` over what they do) | an invariant of the context, with which each function's output takes what a caller has seen to what is there (Life_Proofs to Life_Proofs2), what each call leaves alone (Life_Proofs3), the udev backend's places (Life_Proofs4), the path backend's list of paths (Life_Proofs5), that only open files are watched (Life_Props3) |
| C55 | Dev_Model: evdev_configure_device and what it calls to read tags, check and complete axes and choose the kind of device; the capability queries; which notify functions check what (Dev_Spec: `says`, `sane`, `deserves`, `family`) | what each step leaves alone, a normal form of the configuration by family, case analysis (Dev_Proofs, Dev_Proofs2) |
| C56 | Evt_Model: events as memory (type, struct, fields), the notify functions, all 93 accessors with their lists of permitted types, the casts, what libinput_event_destroy releases (Evt_Spec: `kind`, `tells`, `happened`) | case analysis over notification and accessor with arbitrary values; bit arithmetic (Evt_Proofs) |
| C57 | Hw_Model: the readers of wheel, dpi, multiplier and fuzz properties over the parsers of Parse_Model; the functions that tag mice, sticks, keyboards and touchpads (Hw_Spec: `valid`, `turn`, `asks_fuzz`, `guessed_internal`) | the parsers' characterisations (C18, C19), case analysis (Hw_Proofs) |
| C58 | Src_Model: sources as identities with memory that can be freed, the epoll set, the list of sources to destroy; handlers do arbitrary additions and removals (Src_Spec: `before`, `calls`, `sublist` on the trace) | invariant over histories relating memory, epoll set and trace (Src_Proofs) |
| C59 | Thr_Model: the set-up of pressure and size thresholds, of palm zones and palm thresholds, of thumb lines, the guess of clickpads, the assumed resolution, the size of a device with its uninitialised case; arithmetic on doubles exact, conversions truncate (Thr_Spec: `sane`, `closer`, `at_least`) | bounds of truncated division, case analysis (Thr_Proofs) |
| C60 | Msc_Model: the MSC_TIMESTAMP machine and the repair of histories, with the C types' wrap-around (Msc_Spec: `jump` on the sequence of timestamps) | the state as a function of the sequence, by induction from its end (Msc_Proofs) |
| C37, C38 | fallback touch model, with the pen's arbitration calls and a specification of the kernel's contacts | invariants relating slots to contacts |

## Coverage: what is modelled and what is not

Each model file opens with what it leaves out. Over src/*.c, per file:

| file | modelled | not modelled |
|---|---|---|
| evdev-debounce.c, evdev-middle-button.c | the whole state machines, timers, suspend | names of states and events for log messages |
| evdev-fallback.c | keys, buttons, relative and absolute motion, wheels, touch slots, single touch, lid and tablet mode switches, arbitration, rotation, suspend and resume | the interface table, creation and destruction of the dispatch object |
| evdev-mt-touchpad.c | touches and slots, fake fingers, palms, hysteresis, jumps, disable-while-typing, trackpoint, switches, sendevents modes, which devices are touchpads, thresholds and zones of touch, palm and thumb detection, MSC_TIMESTAMP | the rotation helpers of left-handed touchpads; the models of palms, thumbs and touches take thresholds and zones as parameters (C59 says which values they get) |
| evdev-mt-touchpad-{tap,buttons,edge-scroll,gestures,thumb}.c | the state machines, their timers and the events they send | names for log messages; gesture thresholds are parameters |
| evdev-tablet.c, evdev-tablet-pad.c, evdev-tablet-pad-leds.c, evdev-totem.c | tools, axes, buttons, proximity, arbitration; rings, strips, buttons, modes; totem slots and deltas | creation and destruction, discovery of LED files in sysfs |
| evdev.c | configuration and capabilities of devices, axes and sizes, scrolling by button, suspend and resume, adding and removing, dispatch | model flags and velocity averaging as read from quirks (their values are inputs), log output |
| filter*.c | the profiles over exact rationals, speed adjustment, trackers | rounding of doubles; creation and destruction |
| libinput.c | the queue, seats and counts, references, timers, event sources and dispatching, configuration calls, all event accessors, notify functions, event destruction | user data and plain getters, log handlers |
| path-seat.c, udev-seat.c | seats, devices, suspend and resume, hotplug | creation and destruction of the contexts |
| quirks.c | parsing of files line by line, matching, precedence, lookup | reading DMI and device tree from the system (their results are inputs) |
| timer.c, util-*.c | timers; lists, bits, strings, parsers of properties, rate limit, time, matrices, versions | the timerfd itself (its firing is an input) |

tools/, test/ and udev/ are not modelled. Threads do not occur in the library. A crash of the caller leaves no
state behind: the library stores nothing, so no property is about crash points.

## Findings

Places where the English property is false of the code. Each is a `_refuted` theorem with a concrete
history; the positive theorems carry the hypothesis that excludes it.

* C05 `debounce_17_buttons_refuted`: more than 16 buttons changing in one frame.
* C15 `suspend_lefthanded_refuted`: release_pressed_keys maps an already mapped code to left-handed again;
  a suspend with left or right down in left-handed mode fails the assert in update_key_down_count.
* C15 `suspend_middle_timer_refuted`: a suspend leaves the middle button machine and its timer running.
* C15 `suspend_middle_twice_refuted`: physical plus emulated middle: count 2, internal error, no release.
* C16 `resume_button_refuted`: fallback_return_to_neutral_state clears hw_key_mask twice and never
  last_hw_key_mask; the next press is swallowed and its release fails an assert.
* C22 `ratelimit_sliding_refuted`: the interval is anchored at the first event after the last one ran
  out; across its end up to 2*burst events pass within less than one interval. `ratelimit_burst` is about
  the anchored intervals.
* C28 `ver_digit_refuted`: the bundled strverscmp (used where the C library has no versionsort) puts a
  non-zero digit after every non-digit, unlike strverscmp(3): "a1" after "ab". It is still a total order.
* C24 `lefthanded_debounce_refuted`, `lefthanded_frame_refuted`: fallback_any_button_down looks at the
  hardware mask, not at what the client sees; the mapping can change under a pressed button.
* C24 `lefthanded_middle_refuted`: emulation swallows the last release, so the pending change is not applied.
* C10/C24 `scroll_button_range_refuted`: fallback_any_button_down ignores buttons outside BTN_LEFT..BTN_TASK.
* C10 `scroll_lock_emulation_refuted`: two sources of BTN_MIDDLE into the lock state machine.
* C10/C11 `scroll_lock_method_refuted`: scrolling under the lock is never terminated if the method changes.
* C14 `touch_frame_refuted`: fallback_flush_mt_events overwrites `sent` per slot; if the last changed slot
  sends nothing (hysteresis), touch events are not closed by TOUCH_FRAME.
* C38 `touch_lifted_refuted`: lift and new contact in the same slot and frame, the new one a palm: the touch
  is never ended.
* C38 `touch_muted_slot_refuted`: ABS_MT_SLOT is ignored while the pen mutes the panel; afterwards contacts are
  attributed to the wrong slot.
* C37 `touch_rect_single_refuted`: single-touch panels ignore the arbitration rectangle.
* C12 `touch_no_abs_x_refuted`: suspending a touch device without ABS_X cancels seat slot 0, which it does not own.
* C18 `atou_range_refuted`: safe_atou checks against long, then stores into unsigned int: 2^32 is read as 0.
* C19 `wheel_min_refuted`: abs(INT_MIN) overflows (undefined; wraps as compiled) and passes the check for 360 degrees.
* C19 `dpi_overflow_refuted`, `dimension_overflow_refuted`: sscanf's %d truncates numbers beyond int silently.
* C19 `dpi_garbage_refuted`, `dimension_garbage_refuted`: text after the default DPI or the height is ignored.
* C17 `lid_typing_opens_refuted`: keyboards present before a lid device whose lid is closed from the start never get a listener (pairing precedes the state sync), so typing does not reopen the lid until it has moved once.  Also, the check for more than three keyboards in lid_pair_keyboard limits nothing.
* C41 `keyboard_follows_tablet_mode_refuted_reenabled`: disabling and enabling the keyboard in tablet mode opens it.
* C41 `keyboard_follows_tablet_mode_refuted_switch_disabled`: disabling the switch device in tablet mode unpairs the suspended keyboard; it stays closed after the machine is unfolded and the switch enabled again.
* C42 `C42_slot_after_resume_refuted`: tp->slot is not read again on resume, nor is nactive_slots reset; if the kernel's current slot moved while the device was closed, the next finger is attributed to the old slot until the kernel sends ABS_MT_SLOT.
* C29 `tap_after_thumb_click_refuted`, `tap_after_late_palm_refuted`: the tap machine can be left in its dead state with no finger down
  (a clickpad click by an ignored thumb; a moved finger taken for a palm in its last frame); the next tap is swallowed.
* C29 `new_map_applies_when_idle_refuted`: a mapping set while a tap's release is pending is not used for the next tap either.
* C29 `drag_release_time_refuted`: a drag that ends because the finger is taken for a palm is released with the time of the first tap's end.
* C31 `C31_left_handed_both_buttons_refuted`: on touchpads with physical buttons tp_change_to_left_handed looks at the hardware state; if both buttons come up in
  one frame the mapping changes between the two releases and the assert in the button count fails.
* C31 `C31_click_lost_on_suspend_refuted`: evdev_device_suspend marks the device suspended before tp_clear_state; with a trackpoint paired the release of a held click
  is dropped and the count stays at 1, so the next press is lost, too.
* C31 `C31_trackpoint_removed_while_suspended_refuted`: a press dropped because the top-button pad is suspended, then the trackpoint is removed: release without press, assert.
* C31 `C31_suspended_is_silent_refuted`: a suspended top-button pad without a trackpoint still sends ordinary clicks.
* C32 `C32_palm_unterminated_refuted`: a finger recognised as a palm or thumb while it scrolls gets no zero event; if the next finger in its slot scrolls on the other axis it is never sent.
* C32 `C32_suspend_unterminated_refuted`: device removal and libinput_suspend silence the device before its fingers are lifted.
* C32 `C32_started_outside_refuted`: t->scroll.edge survives a change of the scroll method; a finger put down in the middle can scroll.
* C32 `C32_left_the_edge_refuted`: "moved out of it" ends nothing once the finger scrolls; it may return to the edge.
* C32 `C32_next_finger_refuted`: tp_edge_scroll_stop_events puts a finger lifted in the same frame into AREA; the next finger in its slot cannot scroll.
* C30 `C30_sequences_strict_refuted`: the scroll method is switched away from two-finger scrolling and back while scrolling; motion on the locked axis then starts no scrolling but is terminated by a zero event.
* C30 `C30_scale_is_a_number_refuted`: if the two tracked fingers are at the same place when a pinch is recognised, the initial distance is 0 and every scale is infinite or not a number.
* C30 (in `C30_sequences_strict_ex`): a touchpad's scroll threshold is 0, so its direction lock never applies and the terminating event covers both axes even if only one was scrolled.
* C23 `C23_lock_refuted`: libinput_device_config_scroll_get_button_lock returns the lock in effect, not the one set, so while a button is down it does not return the value just set successfully; all other deferred options return the wanted value.
* C23 `C23_lock_disable_refuted`: the documentation says that disabling the scroll button lock always succeeds on a device without button scrolling; it returns UNSUPPORTED.
* C23 `C23_click_default_refuted`: on a touchpad with physical buttons and one of the model quirks CHROMEBOOK, SYSTEM76_*, CLEVO_W740SU the default click method is clickfinger, which click_get_methods does not offer: after a change the default cannot be restored.
* C23 `C23_tablet_speed_refuted`: filter-tablet.c does not store the speed; libinput_device_config_accel_get_speed returns 0 after a successful set.
* C33 `C33_restart_starts_afresh_refuted`: filter_restart resets the trackers but not last_velocity; the speed before the finger was lifted counts in the first motion after it is put down.
* C35 `C35_disabled_silent_refuted`: disabling a pad releases its buttons, but pad_process never looks at the mode and the device stays open: presses are sent as before.
* C35 `C35_lift_reported_refuted`: a finger lifted off a ring that is at position 0 sends no -1: the kernel filters the unchanged value out, and ABS_MISC alone marks no axis.
* C35 `C35_any_device_refuted`: a device with ABS_THROTTLE but no ABS_WHEEL (or ABS_RY without ABS_RX) fails the assert that the axis has a mode group.
* C35 `C35_any_description_refuted`: so does a press of a button libwacom's description with LEDs does not have, if the buttons were numbered from the kernel's.
* C34 `C34_one_tool_refuted`: a frame in which one tool leaves and another comes (BTN_TOOL_RUBBER 0, BTN_TOOL_PEN 1) is not taken apart: of the two changed bits only the lower is looked at.  Either the new tool comes without the old one having left, or (`swap_back`) the old one leaves and the new one is never seen.
* C34 `C34_tip_up_refuted`: on a tablet without pressure, BTN_TOUCH 1 in the frame the tool leaves in sends tip-down and proximity-out; the tip is never lifted.
* C34 `C34_release_held_refuted`: a button pressed while no tool is in proximity is released later without having been pressed.
* C34 `far_mouse`: a puck that comes and goes beyond the distance of 42 leaves the tablet "out of range"; pens are dead until a puck comes within range.
* C34 `suspended_pen`: after suspending with a pen in proximity, the pen's next visit is ignored if it was lifted meanwhile.
* C34 `C34_frames_end_refuted`: tablet_flush need not end.  If a puck is gone but ABS_DISTANCE is still between 0 and 42, two tools coming in one frame make it send the puck's proximity-in and -out for ever; the type -1 is moreover used as a shift count.
* C36 `C36_documented_refuted`: `AttrResolutionHint=N` and `ModelALPSTouchpad` of the documentation are not accepted (a size `NxM` and other ALPS keys are); blanks at the end of a line are not accepted.  One such line in one file switches off all quirks of all devices (`C36_invalid`).
* C36 `C36_hex_refuted`: `MatchVendor=0x100000001` is accepted and means vendor 1.
* C36, in the grammar: `Key==value` and `Key=value=` are accepted; lines beyond 511 characters are split (the theorems ask for lines of up to 510).  A NAME of two quotes gives the name `"` (the theorems ask for a non-empty name).  quirks_has_quirk dereferences NULL for a device without quirks, the getters do not.
* C25 `C25_tool_refuted`, `C25_mode_refuted`: a tool without serial number (or a pad's mode group) held after its tablet's (pad's) last reference is gone stays in the freed device's list; dropping it writes to freed memory.  libinput.h does not forbid it.
* C25 `C25_suspended_refuted`: libinput_device_set_seat_logical_name on a held device while the udev context is suspended adds the device again; libinput_suspend in libinput_unref then returns early, the device is destroyed by force, which frees its seat, and the seat is freed again.
* C25 `C25_order_refuted`: the documented bug: things held longer than the context are not usable.
* C25 In the path backend a seat keeps the reference it was made with and exists as long as the context.  (Also seen, outside the model: if udev_monitor_filter_add_match fails in udev_input_enable, udev_monitor stays set and the next libinput_resume returns 0 without adding devices.)
* C44 `C44_news_leaving_refuted`: the tip-up event sent when a tool leaves says that the pressure has changed, but carries the pressure from before (the axes are not updated in a frame a tool leaves in, the flags are not cleared).
* C44 `C44_foreign_tool_refuted`: a tool with a serial number keeps the pressure threshold of the tablet it was first used on; on a tablet whose pressure range ends below that threshold the normalised pressure exceeds 1 (both signs of the division flip).
* C45 `C45_replaced_refuted`: a touch device that replaces another while a tool with tilt is in proximity is told nothing until the tool leaves: the stored state already says that a rectangle is ignored.
* C34, seen while modelling: a change of MSC_SERIAL while a tool is in proximity changes the tool object between proximity-in and -out; a left-handed pen with a rotation axis is turned by 180 degrees on each event without a new rotation value; changing to left-handed applies to tilt and rotation at once but to the position only out of proximity; the arbitration rectangle grows (w -= x) near the left and top edges; a distance fuzz of 2 or more lets pressure and distance both be non-zero; button events carry unsmoothed axes; a device with one tilt axis only, or a rotation pen without ABS_Z, dereferences NULL.
* C46 `C46_unplugged_refuted`: a key held while its keyboard is removed stays in key_mask for ever; from the next typing on the touchpad is disabled until the option is changed or that key is pressed and released on another keyboard.
* C46 tp_dwt_pair_keyboard's "too many internal keyboards" check only leaves the loop; the keyboard is paired anyway.
* C48 `C48_pen_returns_refuted`: tp_interface_toggle_touch returns at `which == arbitration.state` before it cancels the arbitration timer; a pen that comes back within 90 ms finds arbitration ended when the timer runs out, and touches work while it is near.  The fallback interface has the same code.
* C48 (in `C48_edge_left_applies`): tp_palm_detect looks at pressure and size of a touch in state PALM_EDGE only after the touch has left that state; what it was before is forgotten.  A touch that comes down in an edge zone while typing or while the trackpoint is used is released without regard to the zone.
* C49 `C49_hover_refuted`: tp_thumb_update_touch takes the state of the thumb for that of whatever touch it looks at; a touch that only hovers above the upper thumb line turns a jailed thumb into a finger.
* C49 `C49_lifted_refuted`: tp_thumb_update_multifinger skips touches in TOUCH_NONE and TOUCH_HOVERING but not those in TOUCH_END.
* C49 `C49_stays_thumb_refuted`: a finger lifted beside a thumb at rest: tp_thumb_update_touch revives the thumb as a jailed one, then looks at the lifted finger, which needs no jail, and makes that the revived thumb; the thumb, which has not moved, is free.
* C50 `C50_lid_at_start_refuted`, `C50_lid_reenabled_refuted`: tp_pair_lid_switch, unlike tp_pair_tablet_mode_switch, does not look at the state of the switch; `C50_second_lid_refuted`: only the first lid switch is listened to.
* C50 `C50_disabled_mice_refuted`: tp_interface_device_removed and tp_sendevents_set_mode count mice that are suspended.  With mode then mouse disabled the touchpad is on, with mouse disabled then mode it is off.
* C50 `C50_top_disturbed_refuted`: tp_interface_device_removed calls tp_resume also if the touchpad is not suspended; with top buttons that releases all buttons and ends all touches.  In both kinds tp_sync_slots then runs over a touchpad in use.
* C51 `C51_one_frame_refuted`: totem_process_abs goes from BEGIN to END within a frame; totem_handle_slot_state then asserts a tool that was never made.  `C51_replaced_refuted`: with a tool from before it sends tip up and proximity out without proximity in; END to BEGIN within a frame sends a second proximity in.
* C51 `C51_disabled_refuted`: totem_interface_suspend sends proximity out for every slot that ever had a tool and leaves slot->state as it is.  `C51_disabled_button_refuted`: it looks at button_state_now, not at button_state_previous.
* C51 `C51_button_tool_refuted`, `C51_button_tip_refuted`: the button goes to the first slot in use, at the end of a touch with tip state up before the tip event.
* C51 `C51_size_refuted`: totem_reject_device asks for the resolution of one of the two sizes; totem_slot_fetch_axes divides by both.
* C52 `C52_switched_on_refuted`: tp_detect_wobbling switches hysteresis on in the middle of a touch whose hysteresis.center was never set; tp_motion_hysteresis then takes the centre as (0, 0), or as where an earlier touch was, and shifts the point towards it by the margin in both axes.
* C52 `C52_straight_refuted`: a frame with dx = dy = 0 counts as a move to the other side.
* C54 `C54_one_refuted`: filter_duplicates looks only at the logical seat the new device would go to; after libinput_device_set_seat_logical_name another "add" event for the same syspath (udevadm trigger, or the event of a device that udev_input_add_devices has found already) makes a second device.
* C54 `C54_twice_refuted`: path_input_enable does not look whether the devices are there; libinput_path_add_device opens devices while the context is suspended, and libinput_resume opens them again.  `C54_old_handle_refuted`: libinput_path_remove_device with a device from before a suspension drops the path of the device that came in its place.
* C54 `C54_enable_refuted`: if mtdev_new_open_device fails in evdev_device_resume, device->fd stays set and there is no source; later calls return early, and the configuration call reports success.  `C54_epoll_refuted`: if libinput_add_fd fails, mtdev is freed and not cleared, and freed again at the next suspension.
* C54 `C54_filter_refuted`: if udev_monitor_filter_add_match_subsystem_devtype fails, udev_monitor stays set: libinput_resume reports success and watches nothing, libinput_suspend follows the NULL source.
* C54 `C54_dead_refuted`: evdev_device_dispatch removes the source on a read error other than EINTR and EAGAIN and leaves the device and its file.
* C54 `C54_suspended_refuted`: libinput_device_set_seat_logical_name on a device from before a suspension adds it to the suspended context.  `C54_seat_refuted`: the logical seat a caller gave a device is lost with a suspension.
* C54, outside the model: evdev_device_remove does not cancel a tablet's prox_out_timer (tablet_interface has no remove).  A removed tablet is told nothing any more, so if its touch device goes after it, as in libinput_suspend, and is freed while a caller still holds the tablet, the timer uses the freed touch device (tablet_set_touch_device_enabled).
* C55 `C55_touch_count_refuted`: evdev_device_suspend frees device->mtdev, by which evdev_device_get_touch_count knows protocol A; libinput_device_touch_get_touch_count says 1 instead of 0 while the device is disabled.
* C55 `C55_size_refuted`: evdev_extract_abs_axes calls the resolution a fake if that of ABS_MT_POSITION_X is missing, although ABS_X has one; tp_init_default_resolution then overwrites all four ("we only get here if the touchpad provides no resolution").
* C55 `C55_own_word_refuted`: evdev_device_get_udev_tags ORs the tags of the device and of its parent; ID_INPUT_TOUCHPAD=0 on the device does not undo ID_INPUT_TOUCHPAD=1 on the parent.
* C56 `C56_time_order_refuted`: the times in milliseconds are 32 bit numbers; after 2^32 ms they begin again, so a later event can have the smaller number (documented by the type only).
* C57 `C57_wheel_range_refuted`: the parser's abs() of INT_MIN is negative, so an angle of -2147483648 degrees is taken.
* C57 `C57_fuzz_mt_refuted`: evdev_extract_abs_axes sets the fuzz of ABS_MT_POSITION_X/Y only if evdev_read_fuzz_prop gives something other than 0; the 0 it gives because the kernel has a fuzz of its own ("still use a fuzz of zero for our view of the device") is dropped, and the hysteresis uses the kernel's fuzz on top of the kernel's filter.
* C57 `C57_stick_refuted`: evdev_configure_device tags the mouse by its bus before it looks at AttrTrackpointIntegration, where "internal" does nothing; a built-in pointing stick on USB is an external mouse, and the touchpad is off with "disabled on external mouse".
* C59 `C59_default_refuted`: with a pressure axis of 0..7 both default thresholds truncate to 0, so every hovering finger is a touch and no pressure ends one.
* C59 `C59_assumed_refuted`: tp_init_default_resolution assumes 69 mm, "1 under palm detection", but divides integers: 1000 units give a resolution of 14, so 71.4 mm, and the touchpad has palm zones.
* C59 `C59_uninitialised_refuted`: with fewer than 69 (or 50) units the assumed resolution is 0; evdev_device_get_size then fails, tp_init_palmdetect_edge ignores that and uses its uninitialised width.
* C60 `C60_steady_refuted`: JUMP_STATE_EXPECT_DELAY is left only by a jump, and MSC_TIMESTAMP counts from the start of the stroke: a steady 0, 7300, 14600, 21900 is above twice 7300 at the fourth event, so the history is dated back by two intervals instead of one and the acceleration restarted, in every stroke.

Seen while modelling, not stated as theorems:

* C35 pad->...mode_group button masks use `1 << n` on an int; n = 31 is undefined behaviour.
* C23 evdev's sendevents set_mode returns success also if the device could not be opened again; the getter of middle-button emulation says "disabled" on devices where emulation is on without an option for it.
* C07 left down then another button: the left press is sent with the time of the other button; right down then another button: with its own time.
* C11 wheel emulation of Lenovo scroll points never sends the terminating event (the axis source is "wheel", which promises none).
* C42 a touch restored by tp_restore_synaptics_touches keeps has_ended; tp_init_default_resolution may leave a resolution of 0.
* C29, C53 tap.suspended is one flag for all reasons to suspend tapping (typing and trackpoint): the first reason that ends resumes it.
* C51 totem->slot is not read again when the totem is enabled.
