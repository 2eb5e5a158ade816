{"id": "C01", "title": "Event queue is a lossless FIFO", "statement": "Events handed to the caller by libinput_get_event() come out in exactly the order in which they were queued, each exactly once, with none lost, duplicated or reordered, no matter how posts and gets interleave and how often the internal ring buffer has to grow or wrap. If growing the buffer fails, exactly the event being queued is dropped and everything already queued survives.", "quantifier": "every finite sequence of post (with success or failure of the buffer allocation) and get operations, every initial capacity > 0", "why_tests_cant": "wrap-around position x growth x fill level is an unbounded product; the growth code has distinct branches per alignment that tests only hit by luck", "anchors": ["src/libinput.c:libinput_post_event", "src/libinput.c:libinput_get_event", "src/libinput.c:libinput_next_event_type"]}
{"id": "C02", "title": "next_event_type is a faithful, non-consuming peek", "statement": "libinput_next_event_type() returns the type of exactly the event that the following libinput_get_event() returns, returns NONE exactly when get_event returns NULL, and changes nothing.", "quantifier": "every reachable queue state", "why_tests_cant": "same unbounded state space as C01", "anchors": ["src/libinput.c:libinput_next_event_type", "src/libinput.c:libinput_get_event"]}
{"id": "C03", "title": "Seat-wide button/key counts", "statement": "The seat_button_count / seat_key_count reported with a press or release equals the number of presses not yet matched by a release of that code on the whole seat; releases with nothing pressed report 0 and never underflow; a code is unaffected by events for other codes.", "quantifier": "every interleaving of presses and releases from any number of devices on the seat, for every key code", "why_tests_cant": "interleavings over devices and codes are unbounded", "anchors": ["src/libinput.c:update_seat_key_count", "src/libinput.c:update_seat_button_count"]}
{"id": "C04", "title": "Key press/release alternation per device", "statement": "For every key of every device, the KEYBOARD_KEY events a client receives strictly alternate pressed, released, pressed, ... beginning with pressed, whatever the kernel sends (duplicate presses, releases without press, autorepeat, suspends in between).", "quantifier": "every sequence of kernel key events and suspends", "why_tests_cant": "histories are unbounded", "anchors": ["src/evdev-fallback.c:fallback_process_key", "src/evdev-fallback.c:fallback_keyboard_notify_key", "src/evdev.c:evdev_update_key_down_count", "src/evdev-fallback.c:release_pressed_keys"]}
{"id": "C05", "title": "Debounced button events alternate", "statement": "Whatever bouncing the hardware does and however the two debounce timers are scheduled against it, the presses and releases the debouncer lets through for a button strictly alternate starting with a press; no release is emitted without press and no double press.", "quantifier": "every sequence of physical press/release/other-button frames interleaved with any firing order of the long and short timers", "why_tests_cant": "schedules of timers against bounces are unbounded and racy", "anchors": ["src/evdev-debounce.c:debounce_handle_event", "src/evdev-debounce.c:fallback_debounce_handle_state"]}
{"id": "C06", "title": "Debouncing never leaves the logical button wrong", "statement": "Once the hardware is quiet and the armed debounce timers have fired, the last state reported for the button equals the physical state of the button; a stable state has no timer armed.", "quantifier": "every history followed by quiescence", "why_tests_cant": "needs every reachable state, not sampled ones", "anchors": ["src/evdev-debounce.c:debounce_handle_event"]}
{"id": "C07", "title": "Middle-button emulation never loses or invents a click", "statement": "With middle-button emulation active, for each of left, right and middle the logical presses and releases strictly alternate; when all physical buttons are released (and the timer has fired if armed) no logical button remains pressed; a left+right chord yields exactly one middle press and one middle release and no left/right press.", "quantifier": "every sequence of physical left/right/middle/other button events (respecting physical alternation) and timeouts", "why_tests_cant": "ten-state machine, unbounded histories and timer races", "anchors": ["src/evdev-middle-button.c:evdev_middlebutton_handle_event", "src/evdev-middle-button.c:evdev_middlebutton_filter_button"]}
{"id": "C08", "title": "Toggling middle-button emulation is safe at any time", "statement": "Changing the middle-button emulation setting while buttons are held takes effect only once it is safe, and no button release is lost by it.", "quantifier": "every interleaving of config calls and button events", "why_tests_cant": "configuration calls race with physical state", "anchors": ["src/evdev-middle-button.c:evdev_middlebutton_apply_config", "src/evdev-middle-button.c:evdev_middlebutton_set"]}
{"id": "C09", "title": "Timers fire never early, at most once, and not after cancel", "statement": "A timer callback runs at most once per arming, only if armed and its expiry has been reached, never after it was cancelled; the wake-up time programmed into the timer fd is the minimum of the armed expiries; all timers that were due when the handler started have fired when it returns (unless a callback cancelled or re-armed them).", "quantifier": "every sequence of set/cancel/dispatch with any callbacks that set or cancel any timers", "why_tests_cant": "re-entrancy and ordering are unbounded", "anchors": ["src/timer.c:libinput_timer_set_flags", "src/timer.c:libinput_timer_cancel", "src/timer.c:libinput_timer_handler", "src/timer.c:libinput_timer_arm_timer_fd"]}
{"id": "C10", "title": "Button scrolling: motion or click, never both, never a stuck button", "statement": "While the configured scroll button is used for button-scrolling, press and release of that button as seen by the client always alternate, the client gets a click for the scroll button only if no scrolling happened during that hold, and relative motion during the hold is never delivered as pointer motion.", "quantifier": "every sequence of scroll-button press/release, motion, timeouts, lock enabled or not", "why_tests_cant": "timer races and lock states give unbounded histories", "anchors": ["src/evdev.c:evdev_button_scroll_button", "src/evdev.c:evdev_button_scroll_timeout", "src/evdev.c:evdev_pointer_notify_button", "src/evdev-fallback.c:post_trackpoint_scroll"]}
{"id": "C11", "title": "Scroll sequences terminate with a zero-value event", "statement": "For finger/continuous scrolling each axis on which scroll events were sent gets exactly one terminating event with value 0 when scrolling stops, no axis gets a terminating event without having scrolled, and no axis event is sent for an axis before the motion threshold has been exceeded on it.", "quantifier": "every sequence of scroll deltas and stops", "why_tests_cant": "real-valued inputs and unbounded histories", "anchors": ["src/evdev.c:evdev_post_scroll", "src/evdev.c:evdev_stop_scroll", "src/evdev.c:evdev_notify_axis"]}
{"id": "C12", "title": "Touch protocol per slot", "statement": "For every touch point the client sees down, then any number of motions, then exactly one up or cancel; motion/up/cancel are never sent for a touch that is not down.", "quantifier": "every sequence of kernel multitouch and single-touch events, palm reports, arbitration changes and suspends", "why_tests_cant": "histories are unbounded", "anchors": ["src/evdev-fallback.c:fallback_flush_mt_events", "src/evdev-fallback.c:fallback_flush_mt_down", "src/evdev-fallback.c:fallback_flush_mt_up", "src/evdev-fallback.c:fallback_flush_mt_cancel", "src/evdev-fallback.c:cancel_touches"]}
{"id": "C13", "title": "Seat slots are unique", "statement": "At any time two active touches on a seat - on the same or on different devices - have different seat slots, seat slots lie in 0..31, and a seat slot is reused only after the touch using it ended.", "quantifier": "every interleaving of touches over any number of touch devices on the seat", "why_tests_cant": "interleavings are unbounded", "anchors": ["src/evdev-fallback.c:fallback_flush_mt_down", "src/evdev-fallback.c:fallback_flush_st_down", "src/libinput-private.h:libinput_seat"]}
{"id": "C14", "title": "Every touch event is closed by a touch frame", "statement": "Within one hardware frame, if at least one touch down/motion/up/cancel event was sent then a TOUCH_FRAME event follows before the frame ends.", "quantifier": "every combination of slot changes in one frame", "why_tests_cant": "subset of slots that changed x filtering per slot", "anchors": ["src/evdev-fallback.c:fallback_handle_state", "src/evdev-fallback.c:fallback_flush_mt_events"]}
{"id": "C15", "title": "Suspending a device releases everything", "statement": "When a device is suspended, disabled or removed, the client receives a release for every key and button of the device it has seen pressed, and a cancel for every active touch, and nothing remains pressed.", "quantifier": "every device state at suspend time", "why_tests_cant": "arbitrary history before suspend", "anchors": ["src/evdev-fallback.c:fallback_return_to_neutral_state", "src/evdev-fallback.c:release_pressed_keys", "src/evdev-fallback.c:cancel_touches"]}
{"id": "C16", "title": "A button works again after suspend/resume", "statement": "After a device was suspended while buttons were held and then resumed, the first physical press of a button is delivered to the client.", "quantifier": "every state at suspend", "why_tests_cant": "crash-point style quantification over the suspend moment", "anchors": ["src/evdev-fallback.c:fallback_return_to_neutral_state", "src/evdev-fallback.h:hw_key_has_changed"]}
{"id": "C17", "title": "Switch events report changes only", "statement": "Lid switch events delivered to the client alternate closed/open and never repeat a state; after each lid event processed the client's view equals the switch state, and a key press on a paired internal keyboard opens a closed lid before the key event is delivered.", "quantifier": "every sequence of switch events and keyboard events, for each reliability setting", "why_tests_cant": "unbounded histories", "anchors": ["src/evdev-fallback.c:fallback_process_switch", "src/evdev-fallback.c:fallback_lid_notify_toggle", "src/evdev-fallback.c:fallback_lid_keyboard_event"]}
{"id": "C18", "title": "Integer parsing accepts exactly in-range numbers", "statement": "Parsing a decimal integer out of a property or quirk value succeeds exactly on numerals that fit the target type and returns their value; anything else is rejected, for signed as well as unsigned parsing.", "quantifier": "every string", "why_tests_cant": "infinite input space", "anchors": ["src/util-strings.h:safe_atoi_base", "src/util-strings.h:safe_atou_base"]}
{"id": "C19", "title": "Device-property parsers never yield out-of-range values", "statement": "Mouse DPI, wheel click angle/count, dimension, range and event-code property parsers either reject their input or return values in their documented range; a rejected input leaves the outputs as documented.", "quantifier": "every property string", "why_tests_cant": "infinite input space", "anchors": ["src/util-prop-parsers.c:parse_mouse_dpi_property", "src/util-prop-parsers.c:parse_mouse_wheel_click_angle_property", "src/util-prop-parsers.c:parse_dimension_property", "src/util-prop-parsers.c:parse_range_property", "src/util-prop-parsers.c:parse_evcode_property"]}
{"id": "C20", "title": "Splitting and joining strings", "statement": "strv_from_string returns exactly the maximal runs of non-separator characters in order; joining a list of separator-free non-empty words and splitting again returns the same list.", "quantifier": "every string and separator set", "why_tests_cant": "infinite input space", "anchors": ["src/util-strings.c:strv_from_string", "src/util-strings.c:strv_join", "src/util-strings.c:next_word"]}
{"id": "C21", "title": "Calibration and rotation matrices compose as documented", "statement": "Setting a calibration matrix transforms absolute coordinates by un-normalising the product with the normalised coordinates; the identity matrix changes nothing; matrix products compose transformations; rotation by 0/90/180/270 degrees is exact and four quarter turns are the identity; conversion to and from the six-element array of the API loses nothing.", "quantifier": "every matrix and every coordinate", "why_tests_cant": "continuous inputs", "anchors": ["src/util-matrix.h", "src/evdev.c:evdev_device_calibrate", "src/evdev.c:evdev_transform_absolute"]}
{"id": "C22", "title": "Time conversion and rate limiting", "statement": "Microsecond/timeval conversions round-trip; the ratelimit lets at most `burst` events through per interval and always lets an event through once the interval has elapsed.", "quantifier": "every time value, every call schedule", "why_tests_cant": "continuous input and unbounded schedules", "anchors": ["src/util-time.h", "src/util-ratelimit.c:ratelimit_test"]}
{"id": "C23", "title": "Configuration set/get coherence", "statement": "For every device configuration option: setting a valid value succeeds and the getter then returns that value; setting an invalid or unsupported value returns the documented error and changes nothing; restoring the default value makes getter and default getter agree.", "quantifier": "every option, every value, every prior configuration", "why_tests_cant": "option product is large, values unbounded", "anchors": ["src/libinput.c:libinput_device_config_*", "src/evdev.c:evdev_*_config_*"]}
{"id": "C24", "title": "Left-handed and scroll settings change only while no button is down", "statement": "A change of the left-handed setting or of the scroll method/button never takes effect while a button of the device is logically down, so a button is always released under the same code under which it was pressed; it takes effect at latest when the last button is released.", "quantifier": "every interleaving of config calls and button events", "why_tests_cant": "config calls race with button state", "anchors": ["src/evdev.c:evdev_left_handed_set", "src/evdev-fallback.c:fallback_change_to_left_handed", "src/evdev.c:evdev_pointer_post_button", "src/evdev-fallback.c:fallback_change_scroll_method"]}
{"id": "C25", "title": "Reference-counted objects are freed exactly once, and only unreferenced", "statement": "A context, seat, device, device group or tablet tool stays alive while references are held (by the user, by queued events or internally) and is destroyed exactly once when the last one is dropped; events in the queue keep their device alive.", "quantifier": "every sequence of ref/unref/event operations", "why_tests_cant": "histories are unbounded", "anchors": ["src/libinput.c:libinput_device_ref", "src/libinput.c:libinput_device_unref", "src/libinput.c:libinput_event_destroy", "src/libinput.c:libinput_unref"]}
{"id": "C26", "title": "Doubly linked list operations", "statement": "list_insert, list_append and list_remove behave as insertion at the head, at the tail and deletion on a sequence, keep forward and backward links mutually consistent, and touch no other list; traversal visits exactly the elements.", "quantifier": "every heap and every list length", "why_tests_cant": "unbounded heap shapes", "anchors": ["src/util-list.c", "src/util-list.h"]}
{"id": "C27", "title": "Bit sets and key masks", "statement": "set/clear/test of a bit in a byte- or long-array affects exactly that bit for every index inside the array.", "quantifier": "every array size and index", "why_tests_cant": "index x content space", "anchors": ["src/util-bits.h"]}
{"id": "C28", "title": "Version ordering", "statement": "The version comparison used for quirk file ordering is reflexive-zero, antisymmetric and orders equal prefixes by numeric runs.", "quantifier": "every pair of strings", "why_tests_cant": "infinite input space", "anchors": ["src/libinput-versionsort.h:strverscmp"]}
{"id": "C29", "title": "Tap-to-click button events pair up", "statement": "Tap-generated button events of a touchpad strictly alternate press/release per button and every tap press is eventually followed by its release, for any sequence of touches, motions, physical clicks and timeouts.", "quantifier": "every sequence of tap state machine events", "why_tests_cant": "dozens of states x touches x timers", "anchors": ["src/evdev-mt-touchpad-tap.c:tp_tap_handle_event"]}
{"id": "C30", "title": "Gesture begin/update/end nesting", "statement": "Every swipe/pinch gesture the client sees is one begin, any number of updates of the same kind and finger count, and exactly one end; gestures never overlap.", "quantifier": "every sequence of touch counts, motions and timeouts", "why_tests_cant": "unbounded histories", "anchors": ["src/evdev-mt-touchpad-gestures.c"]}
{"id": "C31", "title": "Software buttons: one press, one release, of the same button", "statement": "Clickpad software buttons and clickfinger report exactly one release per press, for the same logical button that was pressed, even if fingers move between button areas in between.", "quantifier": "every sequence of finger positions, clicks and timeouts", "why_tests_cant": "unbounded histories", "anchors": ["src/evdev-mt-touchpad-buttons.c"]}
{"id": "C32", "title": "Edge scrolling state machine", "statement": "With edge scrolling active, a touch that started outside the edge or moved out of it never produces scroll events; each edge-scroll sequence is terminated.", "quantifier": "every sequence of touch positions and timeouts", "why_tests_cant": "unbounded histories", "anchors": ["src/evdev-mt-touchpad-edge-scroll.c"]}
{"id": "C33", "title": "Pointer acceleration is bounded and sign preserving", "statement": "The acceleration factor is within its documented bounds for every speed and speed setting, is monotone in speed, accelerated deltas point in the same direction as the input, and zero stays zero; the flat profile scales exactly by its constant.", "quantifier": "every delta, time step and speed setting", "why_tests_cant": "continuous inputs", "anchors": ["src/filter.c", "src/filter-mouse.c", "src/filter-flat.c", "src/filter-touchpad.c", "src/filter-low-dpi.c"]}
{"id": "C34", "title": "Tablet tool proximity/tip/button nesting", "statement": "Every tablet tool event lies between a proximity-in and the matching proximity-out; tip-down and button presses are released before proximity-out.", "quantifier": "every kernel event sequence", "why_tests_cant": "unbounded histories", "anchors": ["src/evdev-tablet.c"]}
{"id": "C35", "title": "Tablet pad values are in range", "statement": "Ring positions lie in [0,360) or are -1, strip positions in [0,1] or -1, and are those of the hardware's value, turned for left-handed use; button presses and releases alternate and follow the hardware; every event names the mode group its button, ring or strip belongs to and one of the group's modes, and a group's mode changes only when the client sees a press of the group's toggle button, to the mode whose LED is lit.", "quantifier": "every history of events and settings, every axis range, value, LED state and description of the pad", "why_tests_cant": "continuous inputs, any axis range, any history", "anchors": ["src/evdev-tablet-pad.c", "src/evdev-tablet-pad-leds.c"]}
{"id": "C36", "title": "Quirk lookup precedence", "statement": "The value returned for a quirk is that of the last matching section setting it, across all files in load order, and a device matching no section has no quirks.", "quantifier": "every set of sections and devices", "why_tests_cant": "combinatorial", "anchors": ["src/quirks.c:quirks_fetch_for_device", "src/quirks.c:quirk_get_uint32"]}
{"id": "C37", "title": "Touch is silent while the pen is used", "statement": "When a pen comes near, the touches of its panel are cancelled, and no touch event of that panel is sent until 90 ms after the pen left. While only the rectangle of the drawing hand is ignored, no touch starts inside it.", "quantifier": "every sequence of touch events, pen proximity changes, timer expiries and suspends", "why_tests_cant": "arbitrary interleavings of pen, touch and timer", "anchors": ["src/evdev-fallback.c:fallback_interface_toggle_touch", "src/evdev-fallback.c:fallback_interface_update_rect", "src/evdev-fallback.c:fallback_arbitrate_touch"]}
{"id": "C38", "title": "Touches follow the fingers", "statement": "A touch is down for the client only while its finger is on the panel, it is reported at the position of that finger, and every new finger is reported in the hardware frame in which it lands (unless all 32 seat slots are in use).", "quantifier": "every sequence of multitouch protocol B events on any number of panels", "why_tests_cant": "unbounded histories over all slots", "anchors": ["src/evdev-fallback.c:fallback_process_touch", "src/evdev-fallback.c:fallback_flush_mt_events"]}
{"id": "C39", "title": "String helpers", "statement": "Stripping removes exactly the leading and trailing characters of the given set, prefix and suffix tests hold exactly for non-empty prefixes and suffixes, the basename is what follows the last slash, and the trunk name is the basename up to its last dot.", "quantifier": "every string", "why_tests_cant": "infinite input space", "anchors": ["src/util-strings.h:strstrip", "src/util-strings.h:strstartswith", "src/util-strings.h:strendswith", "src/util-strings.c:safe_basename", "src/util-strings.c:trunkname"]}
{"id": "C40", "title": "Event coordinates stay inside the device and the screen", "statement": "For an absolute coordinate inside its axis range, the transformed accessors return a value in [0, width) resp. [0, height), strictly increasing in the coordinate with the axis minimum at 0; the millimetre accessors return the distance from the axis minimum in device units divided by the resolution, never outside the size libinput_device_get_size reports.", "quantifier": "every axis range, resolution, screen size and coordinate", "why_tests_cant": "continuous inputs and arbitrary devices", "anchors": ["src/evdev.c:scale_axis", "src/evdev.h:evdev_convert_to_mm", "src/evdev.c:evdev_device_get_size", "src/libinput.c:libinput_event_pointer_get_absolute_x_transformed"]}
{"id": "C41", "title": "The built-in keyboard is off in tablet mode", "statement": "While the tablet-mode switch is on, a keyboard paired with it delivers nothing; while the switch is off, the keyboard delivers events exactly if the client has send-events enabled for it.", "quantifier": "every sequence of switch changes and send-events changes of keyboard and switch", "why_tests_cant": "unbounded histories, interplay of two devices and configuration", "anchors": ["src/evdev-fallback.c:fallback_tablet_mode_switch_event", "src/evdev-fallback.c:fallback_pair_tablet_mode", "src/evdev.c:evdev_device_suspend"]}
{"id": "C42", "title": "The touchpad's fingers follow the hardware", "statement": "Seen frame by frame, every finger on a touchpad begins, stays and ends before it can begin again; the number of fingers used for tapping, scrolling and gestures is the number of fingers down; no finger is down that the hardware does not report, and with BTN_TOUCH and BTN_TOOL_* consistent with the slots the count is the one the hardware reports; no assertion fails.", "quantifier": "every sequence of kernel events, clears, suspends and resumes, every number of slots and touches, every pressure and size threshold", "why_tests_cant": "unbounded event histories over all slots, interplay of real and fake fingers", "anchors": ["src/evdev-mt-touchpad.c:tp_process_fake_touches", "src/evdev-mt-touchpad.c:tp_unhover_touches", "src/evdev-mt-touchpad.c:tp_pre_process_state", "src/evdev-mt-touchpad.c:tp_post_process_state"]}
{"id": "C43", "title": "Seats, device groups and tools are identified consistently", "statement": "Two devices are on the same seat object exactly if their seats have the same names, and in the same device group exactly if the same group identifier was given for both. A tablet tool with a serial number is a single object whichever tablets it is used on; without one there is one object per tablet and tool type; tools of different type or serial number are different objects. An added device is announced with the seat and the group asked for, an event carries the tool the hardware reported, and none of these names ever changes.", "quantifier": "every history of devices added, removed, suspended and resumed, of tool events and of references taken and dropped", "why_tests_cant": "histories are unbounded", "anchors": ["src/evdev-tablet.c:tablet_get_tool", "src/evdev.c:evdev_set_device_group", "src/path-seat.c:path_seat_get_named", "src/udev-seat.c:udev_seat_get_named"]}
{"id": "C44", "title": "Tablet axis values lie in their documented ranges and are current", "statement": "Every pressure and distance a tablet tool event carries lies between 0 and 1, every slider position between -1 and 1, every rotation from 0 up to but not including 360 degrees, and every tilt within the range the tablet announces (64 degrees either way where it announces none). When an event says that the slider, the distance or the pressure has changed, its value is the kernel's last one, scaled linearly to that range (the pressure from the tool's threshold up). Exceptions found: the tip-up event of a leaving tool flags a pressure change but carries the old pressure; a tool with a serial number keeps the pressure threshold of the tablet it was first used on, so that its pressure can exceed 1 on another.", "quantifier": "all tablets with proper axis ranges, all tools, all histories of kernel values within those ranges, with any tools coming and going", "why_tests_cant": "Ranges must hold for every combination of axis ranges, thresholds, offsets, left-handed settings and smoothing history.", "anchors": ["src/evdev-tablet.c: normalize_pressure", "src/evdev-tablet.c: normalize_distance", "src/evdev-tablet.c: normalize_slider", "src/evdev-tablet.c: adjust_tilt", "src/evdev-tablet.c: tablet_smoothen_axes", "src/evdev-tablet.c: tablet_check_notify_axes", "src/evdev-tablet.c: detect_pressure_offset"]}
{"id": "C45", "title": "Touch input is silenced exactly while a tablet tool is in proximity", "statement": "Once a tablet has a touch device, at the end of every frame the touch device has last been told that no tool is in use exactly if the client sees no tool in proximity. The rectangle to be ignored is moved only while a rectangle is being ignored, and a tablet without tilt never asks for a rectangle only. Exception found: a touch device that replaces another while a tool is in proximity is told nothing until the tool leaves.", "quantifier": "all tablets without mouse and lens tools, all histories of kernel frames with one tool change at most, all times at which the touch device comes", "why_tests_cant": "Arbitration must follow proximity through every interleaving of tools, buttons, forced proximity-out timers and device arrivals.", "anchors": ["src/evdev-tablet.c: tablet_toggle_touch_device", "src/evdev-tablet.c: tablet_set_touch_device_enabled", "src/evdev-tablet.c: tablet_update_touch_device_rect"]}
{"id": "C46", "title": "Typing disables the touchpad, and only typing does, and not for longer", "statement": "With disable-while-typing on, after the press of a typewriter key without a held modifier no finger moves the pointer, scrolls or takes part in a gesture for 200 ms; after a further such key within that time for 500 ms from it, and again with every further key; and as long as a typewriter key is held. After the last key has been released and that time is over a finger that comes down is a finger again. Modifiers alone, key combinations with a modifier, function keys, and any key while the option is off never disable anything. A finger put down while typing and followed by another key is ignored until it is lifted; one put down before, or after the last key, moves the pointer as soon as the time is over. Exception found: if a keyboard is unplugged while a key is held, that key counts as held for ever, and the next typing disables the touchpad until the option is changed.", "quantifier": "all touchpads, all key codes, all histories of keys, option changes, timers, touch frames, trackpoint and pen events, at all times", "why_tests_cant": "The timeouts, the set of held keys and each touch's own history combine; tests try a few key sequences.", "anchors": ["src/evdev-mt-touchpad.c: tp_keyboard_event", "src/evdev-mt-touchpad.c: tp_keyboard_timeout", "src/evdev-mt-touchpad.c: tp_palm_detect_dwt_triggered", "src/evdev-mt-touchpad.c: tp_key_ignore_for_dwt", "src/evdev-mt-touchpad.c: tp_touch_active"]}
{"id": "C47", "title": "The trackpoint disables the touchpad, its jitter does not", "statement": "Three trackpoint events in a row, each less than 40 ms after the one before, disable the touchpad for 300 ms, and every further event within that time does so for 300 ms from then on. 300 ms after the last event a finger is a finger again. One or two events in a row never disable the touchpad, nor do any on a touchpad that is not paired. A finger put down while the trackpoint is in use and followed by another event is ignored until lifted; one put down before, or after the last event, moves the pointer as soon as the time is over.", "quantifier": "all touchpads, all histories of trackpoint events, timers, keys, touch frames, at all times", "why_tests_cant": "The event counter, two timeouts and each touch's history interact at boundaries that tests do not hit.", "anchors": ["src/evdev-mt-touchpad.c: tp_trackpoint_event", "src/evdev-mt-touchpad.c: tp_trackpoint_timeout", "src/evdev-mt-touchpad.c: tp_palm_detect_trackpoint_triggered"]}
{"id": "C48", "title": "Palms are ignored until lifted and fingers are not taken for palms", "statement": "A touch that is pressed harder or gets bigger than the touchpad's thresholds is ignored from then on until it is lifted, even if the pressure goes back. A touch seen while a pen is near is ignored until it is lifted, even if the pen leaves. A touch that comes down alone in the zone along the left, right or upper edge is ignored while it stays there alone, and for good after 200 ms; it becomes a finger if it leaves within 200 ms away from the edge or when a second finger moves. A finger that comes down elsewhere and never exceeds a threshold always moves the pointer. The detection never aborts. Exceptions found: if the pen comes back within 90 ms after leaving, touches work although it is near; pressure and size of a touch ignored for being at the edge are not remembered.", "quantifier": "all touchpads and thresholds, all histories of frames with any number of touches, keys, trackpoint, pen and timer events", "why_tests_cant": "Seven detections override each other in an order that matters only for particular combinations and histories.", "anchors": ["src/evdev-mt-touchpad.c: tp_palm_detect", "src/evdev-mt-touchpad.c: tp_palm_detect_pressure_triggered", "src/evdev-mt-touchpad.c: tp_palm_detect_touch_size_triggered", "src/evdev-mt-touchpad.c: tp_palm_detect_edge", "src/evdev-mt-touchpad.c: tp_palm_detect_arbitration_triggered", "src/evdev-mt-touchpad.c: tp_interface_toggle_touch"]}
{"id": "C49", "title": "A resting thumb is ignored, a finger is not taken for a thumb", "statement": "On a touchpad with thumb detection a touch that is alone does nothing exactly as long as it has been resting in the lower part like a thumb since it came down. When a second touch comes down: two that can scroll together (less than 35 mm by 25 mm apart) are both fingers; two that came down within 100 ms above the lower line are both fingers; a touch coming down while the other moves the pointer fast is ignored and does not disturb the pointer; of two slow ones more than 25 mm apart vertically the lower one is the thumb, whichever came first. Of any two touches at most one is ever ignored as a thumb. Exceptions found: a resting thumb moves the pointer as soon as a finger hovers over the touchpad; a finger lifted in the frame in which another comes down can be called the thumb in place of the one that rests.", "quantifier": "all touchpads and thresholds, all histories of frames with any number of touches, positions, speeds and times, all scroll methods", "why_tests_cant": "Positions, speeds, times and the order of touches combine; the state is shared by all touches and survives from frame to frame.", "anchors": ["src/evdev-mt-touchpad-thumb.c: tp_thumb_update_touch", "src/evdev-mt-touchpad-thumb.c: tp_thumb_update_multifinger", "src/evdev-mt-touchpad-thumb.c: tp_thumb_ignored", "src/evdev-mt-touchpad-thumb.c: tp_thumb_needs_jail"]}
{"id": "C50", "title": "The touchpad is off exactly while there is a reason", "statement": "A touchpad is off as long as at least one of these holds: it is configured as disabled; it is configured as disabled-on-external-mouse and an enabled external mouse is connected; the lid is closed; tablet mode is on; in whatever order the reasons come and go and however reopening the device fails. If the device can be opened it is off only then (a disabled mouse may still count). The configured mode is the last supported one that was set. While it stays on, no change elsewhere releases its buttons or lifts its fingers. Exceptions found: a lid that is already closed when the touchpad appears or the lid switch is re-enabled is not noticed; whether a disabled mouse counts depends on the order of events, and two disabled mice keep the touchpad off; on touchpads with top buttons the removal of any device resets the touches in mode disabled-on-external-mouse; a second lid switch is ignored.", "quantifier": "all touchpads (internal or not, with or without top buttons, with or without the tablet mode quirk), all sets of other devices present at the start, all histories of devices plugged, unplugged, disabled and enabled, switch events and mode settings, all outcomes of opening the device", "why_tests_cant": "Four reasons are kept as bits that are set and cleared by unrelated events; tests toggle them one at a time and never interleave them with failing opens.", "anchors": ["src/evdev-mt-touchpad.c: tp_suspend", "src/evdev-mt-touchpad.c: tp_resume", "src/evdev-mt-touchpad.c: tp_interface_device_added", "src/evdev-mt-touchpad.c: tp_interface_device_removed", "src/evdev-mt-touchpad.c: tp_sendevents_set_mode", "src/evdev-mt-touchpad.c: tp_lid_switch_event", "src/evdev-mt-touchpad.c: tp_tablet_mode_switch_event"]}
{"id": "C51", "title": "A totem's events are complete and true", "statement": "A totem (a puck placed on a screen) comes into proximity, then its tip goes down, then it sends axes and buttons, then its tip goes up and it goes out of proximity, over and over; the tools that are down are exactly the totems on the surface; a slot keeps its tool. Position, rotation and size are those the device gave last, and axes are sent exactly if it gave a new one. The button is pressed and released in turn and agrees with the device at the end of each frame with a totem. After each frame the touch screen belonging to the totem ignores 100 by 100 mm around the first totem, or nothing if there is none. Exceptions found: a totem put down and lifted in one frame fails an assertion; replaced within a frame it comes into proximity twice; disabling the device sends a second proximity-out for totems that left, and after enabling it again axes are sent without proximity; the button can be pressed with one totem and released with another; a missing size resolution is accepted.", "quantifier": "all numbers of slots, axis ranges and resolutions, all totems present at the start, all histories of kernel events in which a slot changes at most once per frame, all touch devices coming and going", "why_tests_cant": "Slots, the shared button and arbitration interleave freely; the tests use a single slot and never disable the device between touches.", "anchors": ["src/evdev-totem.c: totem_handle_slot_state", "src/evdev-totem.c: totem_process_abs", "src/evdev-totem.c: totem_slot_fetch_axes", "src/evdev-totem.c: totem_set_touch_device_enabled", "src/evdev-totem.c: totem_interface_suspend", "src/evdev-totem.c: totem_interface_initial_proximity"]}
{"id": "C52", "title": "Touchpad noise does not move the pointer, and motion is not lost", "statement": "Whatever coordinates a touchpad sends, a finger that has been there since hysteresis was last switched moves at most 20 mm per 12 ms, its first motion is at most 7 mm per 12 ms and its speed grows by at most 7 mm per 12 ms from frame to frame; larger steps give no motion at all. The bogus (4095, 0) of ALPS touchpads gives no motion. With hysteresis, a finger trembling inside the margin gives no motion ever, the reported place lies between the former one and the finger and at most the margin behind the finger. When the number of fingers changes, no finger gives motion in that frame or the next. Without hysteresis the motions of a finger that is not too fast add up exactly to the way it went. After a click of a clickpad a finger is held until it is 1.5 mm away from where it was at the click. A finger that goes one way only does not switch hysteresis on, nor one whose frames are more than 40 ms apart. Exceptions found: when wobbling switches hysteresis on, the pointer is dragged by up to the margin towards the origin; a finger going left that stands still for a frame switches it on.", "quantifier": "all resolutions, margins, quirks, coordinates and times, any number of touches, all histories of frames from the moment a finger comes down", "why_tests_cant": "The properties are about all sequences of coordinates and frame times; tests replay a few recorded ones.", "anchors": ["src/evdev-mt-touchpad.c: tp_detect_jumps", "src/evdev-mt-touchpad.c: tp_detect_wobbling", "src/evdev-mt-touchpad.c: tp_motion_hysteresis", "src/evdev-mt-touchpad.c: tp_need_motion_history_reset", "src/evdev-mt-touchpad.c: tp_unpin_finger", "src/evdev-mt-touchpad.c: tp_get_delta", "src/evdev.h: evdev_hysteresis"]}
{"id": "C53", "title": "Tap-and-drag holds the button for the whole drag and releases it", "statement": "With tap-and-drag on (the default), a tap with one, two or three fingers followed within 180, 200 or 220 ms by a finger that moves too far for a tap or stays for 180 ms keeps the tap's button pressed for as long as that finger is down; without drag lock (the default) the button is released with the time the finger is lifted. With drag lock the drag goes on over any number of strokes, each begun within 300 ms of the end of the one before; the button is released when 300 ms pass or when a finger that only taps is lifted, and not before. A finger that follows in time and only taps makes a double tap: the first button is released with the time the first tap's finger was lifted, the left button is pressed with the time the second finger came and, once 180 ms have passed, released with the time it was lifted.", "quantifier": "all legal histories that leave the touchpad idle, all settings, all taps with one to three fingers in any order of arrival and lifting, all numbers of strokes, fingers in any slots, all frames and clock readings in between, all times", "why_tests_cant": "The number of strokes, frames and times is unbounded; tests try a few timings.", "anchors": ["src/evdev-mt-touchpad-tap.c: tp_tap_tapped_handle_event", "src/evdev-mt-touchpad-tap.c: tp_tap_dragging_handle_event", "src/evdev-mt-touchpad-tap.c: tp_tap_dragging_wait_handle_event", "src/evdev-mt-touchpad-tap.c: tp_tap_dragging_tap_handle_event", "src/evdev-mt-touchpad-tap.c: tp_tap_dragging_or_doubletap_handle_event"]}
{"id": "C54", "title": "Devices come and go once, with their files, and suspending takes all of them away", "statement": "Whatever a caller, udev, the kernel and the devices do: every device is added once, before its first event, and removed at most once, after its last event. Every file that open_restricted gave is closed at most once, and never more files are open than devices there. After libinput_suspend every device was removed and every file closed, and until devices are added again nothing at all is seen. While a seat is watched, a device that is plugged in appears exactly if it is of the seat, works and is not there yet, and one that is unplugged disappears; no other device is affected. Assigning a seat and resuming it add every device of the seat that works, once for each syspath and seat name. Resuming devices added by path brings back those that were there at the suspension and were not removed meanwhile, or none. There is no crash unless setting up the monitor's filter fails, or epoll fails while a device is resumed. Exceptions found: two devices of one syspath after a seat change, two devices of one path after resuming twice; a device that stays deaf after mtdev failed or its file could not be read; a crash after either failure.", "quantifier": "both backends, all histories of API calls, udev events and device input, all failures of open, udev, libevdev, mtdev and epoll, any number of devices, whatever events the devices' own code sends", "why_tests_cant": "The combinations of failures, suspensions, hot-plugging and stale handles are unbounded, and most of the failures cannot be provoked in a test.", "anchors": ["src/udev-seat.c: udev_input_enable", "src/udev-seat.c: device_added", "src/udev-seat.c: filter_duplicates", "src/udev-seat.c: device_removed", "src/path-seat.c: path_input_enable", "src/path-seat.c: path_create_device", "src/path-seat.c: libinput_path_remove_device", "src/evdev.c: evdev_device_create", "src/evdev.c: evdev_device_suspend", "src/evdev.c: evdev_device_resume", "src/evdev.c: evdev_device_remove", "src/evdev.c: evdev_device_dispatch", "src/libinput.c: libinput_dispatch"]}
{"id": "C55", "title": "A device is added for what it can do, and does only that", "statement": "A device is added only if it is not to be ignored, udev calls it an input device of some kind that is more than an accelerometer or a joystick, and the kernel describes its axes sensibly. Mice, keyboards, touchscreens and switches are added if there is anything they can do; a touchpad exactly if it has a place, a touch and a finger; every added tablet has a size. libinput_device_has_capability says exactly what udev, the codes of the kernel and the quirks call for. A tablet or a pad has no other capability, gestures come with a pointer only. Every event is of a capability its device has. Queries for buttons, keys, switches and touches answer -1 without the capability and else what the kernel says; a device with the switch capability has a switch; a switch known to be unreliable is not there. Where the kernel gives the resolutions the size is the range divided by them. Exceptions found: a touchscreen reporting fingers without slots claims one touch while it is disabled; a touchpad with a resolution for x and y but not for its fingers is taken for one of 69x50 mm; what udev says of a device does not override what it says of its parent.", "quantifier": "all properties of a udev device and its parent, all sets of kernel codes and axes, all quirks, all sequences of events the device's code asks to send, all results of the rest of the setup", "why_tests_cant": "Tests have a fixed set of device descriptions; the combinations of udev properties, codes, axes and quirks that hardware brings are unbounded.", "anchors": ["src/evdev.c: evdev_configure_device", "src/evdev.c: evdev_device_get_udev_tags", "src/evdev.c: evdev_reject_device", "src/evdev.c: evdev_extract_abs_axes", "src/evdev.c: evdev_fix_abs_resolution", "src/evdev.c: evdev_device_create", "src/evdev.c: evdev_device_has_capability", "src/evdev.c: evdev_device_get_size", "src/evdev.c: evdev_device_get_touch_count", "src/evdev.c: evdev_device_has_switch", "src/evdev-mt-touchpad.c: tp_init", "src/evdev-tablet.c: tablet_reject_device", "src/libinput.c: device_has_cap"]}
{"id": "C56", "title": "An event tells what happened, and nothing it does not know", "statement": "For every event the library hands out, exactly one of libinput_event_get_pointer_event, _keyboard_event, _touch_event, _gesture_event, _tablet_tool_event, _tablet_pad_event, _switch_event and _device_notify_event gives a struct, the one the event really is; the others give NULL and log a client bug; the way back gives the same event. Each accessor gives exactly the value the driver put into the event if it applies to the event's type (and, for a scroll axis, if that axis is set), and otherwise zero (UNKNOWN for the source of a ring or strip) together with a client bug; no accessor reads a field the event does not have. Every event except the coming and going of a device has its time in microseconds, and in milliseconds modulo 2^32; the order of times is kept by the milliseconds unless they wrap round. No event is made for a capability the device lacks. An event keeps alive the tool or mode group it tells of: libinput_event_destroy releases exactly what was taken.", "quantifier": "all calls of the functions that make events with all values, all accessors with all arguments, all events whose type is true, all devices", "why_tests_cant": "Tests call a few accessors on a few events with the values of one device; 93 accessors and 27 event types with arbitrary values, and above all the combinations that must give nothing, cannot be enumerated.", "anchors": ["src/libinput.c: check_event_type", "src/libinput.c: require_event_type", "src/libinput.c: libinput_event_get_pointer_event", "src/libinput.c: libinput_event_pointer_get_axis_value", "src/libinput.c: libinput_event_tablet_tool_x_has_changed", "src/libinput.c: libinput_event_gesture_get_scale", "src/libinput.c: pointer_notify_axis", "src/libinput.c: tablet_notify_button", "src/libinput.c: gesture_notify", "src/libinput.c: libinput_event_destroy", "src/util-time.h: us2ms"]}
{"id": "C57", "title": "Device properties mean what hwdb says, and bad ones do no harm", "statement": "The angle reported per click of a wheel is a full turn divided by MOUSE_WHEEL_CLICK_COUNT if that is valid, else MOUSE_WHEEL_CLICK_ANGLE if that is valid, else 15 degrees; the horizontal wheel goes by its own properties and else is like the vertical one; the angle is never zero and never more than a full turn. The resolution of a mouse is always positive, 1000 dpi without a valid MOUSE_DPI and for every trackpoint. The multiplier of a trackpoint is positive. On touchpads and touchscreens a coordinate is smoothed by what LIBINPUT_FUZZ asks for and not at all if the kernel smooths it already. Every touchpad is either built in or external, as hwdb says or else by bus, vendor and model; keyboards are built in or external only by quirk and never both; mice on USB and Bluetooth are external. Exceptions found: a wheel angle of INT_MIN passes the check; the multitouch axes keep the kernel's fuzz and are smoothed twice; a pointing stick on USB counts as an external mouse although a quirk calls it internal.", "quantifier": "all values of all udev properties and quirks, all buses, vendors, key sets and kernel fuzz values, all contents of uninitialised memory", "why_tests_cant": "The values come from hwdb, from local overrides and from hardware, as arbitrary strings; a test has some of them.", "anchors": ["src/evdev.c: evdev_read_wheel_click_props", "src/evdev.c: evdev_read_wheel_click_prop", "src/evdev.c: evdev_read_wheel_click_count_prop", "src/evdev.c: evdev_read_dpi_prop", "src/evdev.c: evdev_get_trackpoint_multiplier", "src/evdev.c: evdev_read_fuzz_prop", "src/evdev.c: evdev_extract_abs_axes", "src/evdev.c: evdev_tag_external_mouse", "src/evdev.c: evdev_tag_trackpoint", "src/evdev.c: evdev_tag_keyboard", "src/evdev-mt-touchpad.c: evdev_tag_touchpad"]}
{"id": "C58", "title": "Dispatching touches no file handler that is gone", "statement": "libinput_dispatch calls the handler of a file only if epoll reports that file, in the order of the report and at most once; a file that is removed - by the caller between dispatches, or by another handler in the same dispatch after it was reported - is never handled again; every reported file that is not removed by then is handled; a file added by a handler waits for the next dispatch. The library reads no handler's memory after freeing it, frees each removed one exactly once, and after every dispatch that does not fail all removed ones are freed.", "quantifier": "all histories of adding and removing files and dispatching, all sets epoll may report, all sequences of additions and removals by each handler", "why_tests_cant": "Whether a handler removes a file that the same epoll_wait has reported depends on what arrives at the same time; a use after free need not show.", "anchors": ["src/libinput.c: libinput_dispatch", "src/libinput.c: libinput_add_fd", "src/libinput.c: libinput_remove_source", "src/libinput.c: libinput_drop_destroyed_sources"]}
{"id": "C59", "title": "What counts as a touch on a touchpad, and where palms are expected", "statement": "Without quirks every pressure axis is used to tell touches from hovering fingers: a touch begins at 12 percent of the axis and ends below 10 percent; a range given by quirk is used exactly if the axis has it, and none or a range outside of the axis turns pressure off; both thresholds can be reached and the one to begin is never below the one to end; a real force axis is never used. Touch size is used exactly if the device has it, has five slots and has a quirk. On built-in touchpads at least 70 mm wide the palm zones at the sides are the outer 8 percent but at most 8 mm, and on those higher than 55 mm without buttons at the top the upper 5 percent; others, external ones and drawing tablets have none. A touchpad without a right button is a clickpad if the kernel says so or it has a left one, but for Apple's with one button. Thumbs are looked for exactly on clickpads at least 50 mm high, in the lowest 15 percent, with an exclusion area of the lowest 8 percent. Exceptions found: on a pressure axis of few steps every hovering finger is a touch; a touchpad of unknown size is meant to have no palm zones and may have them; with fewer than 69 units its zones depend on uninitialised memory.", "quantifier": "all axis ranges and resolutions, all quirks, all kinds of touchpads, all positions, all contents of uninitialised memory", "why_tests_cant": "Axis ranges, resolutions and quirks differ from device to device; tests have a few devices.", "anchors": ["src/evdev-mt-touchpad.c: tp_init_pressure", "src/evdev-mt-touchpad.c: tp_init_touch_size", "src/evdev-mt-touchpad.c: tp_init_pressurepad", "src/evdev-mt-touchpad.c: tp_init_palmdetect_edge", "src/evdev-mt-touchpad.c: tp_init_palmdetect_pressure", "src/evdev-mt-touchpad.c: tp_init_palmdetect_size", "src/evdev-mt-touchpad.c: tp_init_default_resolution", "src/evdev.c: evdev_device_get_size", "src/evdev.h: evdev_device_mm_to_units", "src/evdev-mt-touchpad-thumb.c: tp_init_thumb", "src/evdev-mt-touchpad-buttons.c: tp_guess_clickpad"]}
{"id": "C60", "title": "A touchpad that slept does not make the pointer jump", "statement": "When a touchpad's own clock, started anew at zero, shows that time was lost (the first step is at most 20 ms and a later reading is above twice that), the earlier points of every moving touch are dated back by what the clock says, evenly spaced and all before the current event, the acceleration starts anew at the newest of them, and no position is changed; touches that do not move and all other readings change nothing; this happens at most once until the clock starts at zero again. Exception found: with a steady clock, when no time was lost, the fourth event of every stroke is treated the same.", "quantifier": "all sequences of hardware timestamps, all times, all touches and histories", "why_tests_cant": "It depends on sequences of hardware timestamps after sleep; a test has one recording.", "anchors": ["src/evdev-mt-touchpad.c: tp_process_msc_timestamp", "src/evdev-mt-touchpad.c: tp_motion_history_fix_last", "src/evdev-mt-touchpad.c: tp_process_msc", "src/evdev-mt-touchpad.h: struct msc_timestamp"]}
