{
 "claims": [
  {
   "property": "C01",
   "status": "proved",
   "theorems": [
    "queue_refines_fifo",
    "queue_no_loss",
    "queue_indices_in_bounds"
   ],
   "note": "ring buffer refines a list for every interleaving of posts (with or without allocation failure) and gets"
  },
  {
   "property": "C02",
   "status": "proved",
   "theorems": [
    "peek_agrees_with_get"
   ],
   "note": "peek is a pure function of the state in the model and agrees with the following get in every reachable state"
  },
  {
   "property": "C03",
   "status": "proved",
   "theorems": [
    "seat_counts_exact"
   ],
   "note": "Seat-wide press counts over any interleaving of devices on the seat (Keys_Props.v)."
  },
  {
   "property": "C04",
   "status": "proved",
   "theorems": [
    "keys_alternate",
    "keys_track_kernel",
    "keys_event_exact",
    "keys_no_abort"
   ],
   "note": "Key path of the fallback interface."
  },
  {
   "property": "C05",
   "status": "proved",
   "theorems": [
    "debounce_alternates",
    "debounce_17_buttons_refuted",
    "pipeline_buttons",
    "pipeline_exact"
   ],
   "note": "Alternation for frames with at most 16 changed buttons (refuted beyond); pipeline_* carry it through mapping, emulation and scrolling to the client."
  },
  {
   "property": "C06",
   "status": "proved",
   "theorems": [
    "debounce_tracks_hardware",
    "debounce_settles",
    "bounce_press_reported_once",
    "bounce_release_reported_once",
    "spurious_release_filtered"
   ],
   "note": "for every history respecting timer.c's order of firing"
  },
  {
   "property": "C07",
   "status": "proved",
   "theorems": [
    "mb_alternates",
    "mb_nothing_stuck",
    "mb_every_press_reported_once",
    "mb_others_untouched",
    "mb_time_order",
    "mb_no_internal_error",
    "mb_single_click",
    "mb_chord",
    "mb_off_is_identity",
    "mb_delay",
    "mb_delay_bound"
   ],
   "note": "For every legal stream of physical button changes, timer expiries and configuration calls (enabling only with all buttons up; see C08)."
  },
  {
   "property": "C08",
   "status": "partial",
   "theorems": [
    "mb_nothing_stuck",
    "mb_every_press_reported_once",
    "mb_enable_while_held_refuted",
    "mb_low_button_refuted"
   ],
   "note": "Holds for disabling at any time and for enabling with no button held; false of the code for enabling while a button is held (counterexample proved)."
  },
  {
   "property": "C09",
   "status": "proved",
   "theorems": [
    "timer_fires_only_when_due",
    "timer_dispatch_misses_none",
    "timer_flush_misses_none",
    "timer_dispatch_terminates",
    "timer_wakeup_is_earliest",
    "handler_fires_first_due",
    "arming_order"
   ],
   "note": "arbitrary callbacks and programs"
  },
  {
   "property": "C10",
   "status": "proved",
   "theorems": [
    "scroll_hold",
    "scroll_hold_locked",
    "pipeline_buttons",
    "pipeline_released",
    "scroll_button_range_refuted",
    "scroll_lock_emulation_refuted",
    "scroll_lock_method_refuted"
   ],
   "note": "Per hold: no motion, no button event, then click xor end of scrolling; alternation for all legal histories. Refutations show three situations outside the hypotheses where the code fails."
  },
  {
   "property": "C11",
   "status": "partial",
   "theorems": [
    "scroll_sequences",
    "scroll_stop_terminates",
    "scroll_threshold",
    "scroll_delivers",
    "scroll_one_event",
    "scroll_touchpad_spurious_stop_refuted"
   ],
   "note": "Holds for positive thresholds; with the touchpad edge threshold of 0 a terminating event can be sent on an axis that never scrolled (refuted)."
  },
  {
   "property": "C12",
   "status": "proved",
   "theorems": [
    "touch_protocol",
    "touch_view_unique",
    "touch_no_abs_x_refuted"
   ],
   "note": "for touch devices with ABS_X (evdev adds it for protocol B devices); the refutation shows why that is needed"
  },
  {
   "property": "C13",
   "status": "proved",
   "theorems": [
    "touch_protocol",
    "touch_view_unique"
   ],
   "note": "seat_slots_ok and the seat slot rules of legal"
  },
  {
   "property": "C14",
   "status": "partial",
   "theorems": [
    "touch_frame_partial",
    "touch_frame_refuted"
   ],
   "note": "false of the code when two or more slots change in one frame; proved otherwise"
  },
  {
   "property": "C15",
   "status": "partial",
   "theorems": [
    "pipeline_suspend_partial",
    "pipeline_remove_timers_partial",
    "keys_suspend_releases",
    "suspend_lefthanded_refuted",
    "suspend_middle_timer_refuted",
    "suspend_middle_twice_refuted",
    "touch_suspend"
   ],
   "note": "Proved for keys; for buttons with restrictions, each shown necessary by a refutation. Touches: see Touch."
  },
  {
   "property": "C16",
   "status": "partial",
   "theorems": [
    "keys_track_kernel",
    "keys_event_exact",
    "resume_button_refuted"
   ],
   "note": "Holds for keys; false of buttons: the first press after the resume is lost and its release fails an assertion (refuted theorem)."
  },
  {
   "property": "C17",
   "status": "partial",
   "theorems": [
    "lid_reports_alternate",
    "lid_reports_follow_the_lid",
    "lid_initial_state",
    "lid_typing_opens_partial",
    "lid_typing_opens_refuted",
    "lid_ignores_other_keyboard_events",
    "lid_ignores_unpaired_keyboards",
    "tablet_mode_reports"
   ],
   "note": "alternation and view proved in full; typing opens the lid except for keyboards present before an initially closed lid, which is refuted"
  },
  {
   "property": "C18",
   "status": "partial",
   "theorems": [
    "atoi_exact",
    "integer_unique",
    "atou_partial",
    "atou_range_refuted"
   ],
   "note": "signed parsing exact; unsigned parsing exact up to the 2^32 truncation, which makes the full statement false (atou_range_refuted)"
  },
  {
   "property": "C19",
   "status": "partial",
   "theorems": [
    "dpi_range",
    "dpi_wellformed",
    "dpi_blank",
    "dpi_chars",
    "dpi_garbage_refuted",
    "dpi_overflow_refuted",
    "wheel_partial",
    "wheel_min_refuted",
    "dimension_range",
    "dimension_exact",
    "dimension_reads",
    "dimension_garbage_refuted",
    "dimension_overflow_refuted",
    "range_range",
    "range_exact",
    "atod_exact",
    "calibration_exact",
    "kv_exact",
    "evcode_range",
    "evcode_exact",
    "evcode_all_or_nothing",
    "input_prop_range",
    "abs_exact",
    "colon_fields_total",
    "reliability_exact"
   ],
   "note": "all results in range except the wheel angle INT_MIN, for which the statement is false (wheel_min_refuted); doubles as exact rationals"
  },
  {
   "property": "C20",
   "status": "proved",
   "theorems": [
    "strv_splits",
    "strv_roundtrip"
   ],
   "note": "round trip for lists within strv_join's asserted size limits"
  },
  {
   "property": "C21",
   "status": "proved",
   "theorems": [
    "calibration_applies",
    "calibration_drop",
    "calibration_relative",
    "calibration_get_set",
    "calibration_default",
    "matrix_compose",
    "matrix_laws",
    "matrix_array",
    "matrix_identity",
    "rotation_exact",
    "rotation_invalid",
    "rotation_full_turn",
    "rotation_initial"
   ],
   "note": "exact arithmetic: float rounding is not modelled"
  },
  {
   "property": "C22",
   "status": "proved",
   "theorems": [
    "time_roundtrip",
    "timeval_roundtrip",
    "timeval_normal",
    "time_ms",
    "human_time",
    "ratelimit_burst",
    "ratelimit_any_interval",
    "ratelimit_refusal",
    "ratelimit_off",
    "ratelimit_sliding_refuted"
   ],
   "note": "per interval is read as the periods anchored at the event that opens them; the sliding reading is refuted and bounded by 2*burst in ratelimit_any_interval"
  },
  {
   "property": "C23",
   "status": "partial",
   "theorems": [
    "C23_status",
    "C23_status_unique",
    "C23_history",
    "C23_refused",
    "C23_initial",
    "C23_restore",
    "C23_effect",
    "C23_lock",
    "C23_waits",
    "C23_offers",
    "C23_lock_refuted",
    "C23_lock_disable_refuted",
    "C23_click_default_refuted",
    "C23_accel_speed",
    "C23_accel_profile",
    "C23_tablet_speed_refuted",
    "C23_pad_sendevents",
    "calibration_get_set",
    "calibration_default",
    "rotation_invalid"
   ],
   "note": "Every option on every kind of device, any history. The full statement is false in four places, each proved as a refutation: scroll button lock while a button is down, disabling it where unsupported, default click method not offered, tablet speed not stored."
  },
  {
   "property": "C24",
   "status": "proved",
   "theorems": [
    "pipeline_config_deferred",
    "pipeline_exact",
    "lefthanded_debounce_refuted",
    "lefthanded_frame_refuted",
    "lefthanded_middle_refuted"
   ],
   "note": "For all legal histories; the refutations show what the hypotheses (no debouncing in progress, one button per frame while pending) exclude."
  },
  {
   "property": "C25",
   "status": "proved",
   "theorems": [
    "C25_safe",
    "C25_once",
    "C25_count",
    "C25_device",
    "C25_seat",
    "C25_group",
    "C25_tool",
    "C25_mode",
    "C25_usable",
    "C25_end",
    "C25_context",
    "C25_tool_refuted",
    "C25_mode_refuted",
    "C25_suspended_refuted",
    "C25_order_refuted"
   ],
   "note": "For histories where callers drop only references they hold, those on serial-less tools and mode groups while the tablet or pad exists, and the context last. The refutations show each of these conditions is needed."
  },
  {
   "property": "C26",
   "status": "proved",
   "theorems": [
    "list_init_empty",
    "list_empty_iff",
    "list_insert_first",
    "list_append_last",
    "list_remove_element",
    "list_others_unchanged",
    "list_misuse_caught",
    "list_for_each_visits",
    "list_for_each_safe_visits"
   ],
   "note": "over a memory of nodes"
  },
  {
   "property": "C27",
   "status": "proved",
   "theorems": [
    "bits_test",
    "bits_set",
    "bits_clear",
    "bits_state",
    "bits_any",
    "bits_out_of_bounds",
    "bits_size"
   ],
   "note": "byte and long arrays of any size"
  },
  {
   "property": "C28",
   "status": "proved",
   "theorems": [
    "ver_zero",
    "ver_antisymmetric",
    "ver_transitive",
    "ver_numeric",
    "ver_plain",
    "ver_digit_refuted"
   ],
   "note": "the bundled comparison; numeric runs without leading zeros"
  },
  {
   "property": "C29",
   "status": "proved",
   "theorems": [
    "taps_alternate",
    "taps_in_order",
    "taps_assert",
    "tap_released_when_lifted",
    "no_finger_none_counted",
    "no_tap_while_disabled",
    "disabling_releases",
    "one_finger_tap",
    "taps_in_a_row",
    "no_press_after_moving",
    "tap_after_thumb_click_refuted",
    "tap_after_late_palm_refuted",
    "new_map_applies_when_idle_refuted",
    "drag_release_time_refuted"
   ],
   "note": "For every legal sequence of frames (see C42 for why the touch code produces only such), clicks, timers and settings; palm, thumb and motion threshold verdicts are arbitrary. Lost taps in corner cases are refuted separately."
  },
  {
   "property": "C30",
   "status": "proved",
   "theorems": [
    "C30_sequences",
    "C30_sequences_strict",
    "C30_finished",
    "C30_frame_events",
    "C30_other_events",
    "C30_end_reason",
    "C30_new_finger_count",
    "C30_swipe_recognised",
    "C30_scroll_recognised",
    "C30_pinch_recognised",
    "C30_together_no_pinch",
    "C30_disabled",
    "C30_swipe_values",
    "C30_pointer_motion",
    "C30_scroll_values",
    "C30_scroll_vertical",
    "C30_scroll_horizontal",
    "C30_pinch_values",
    "C30_end_scale",
    "C30_angle_range",
    "C30_sequences_strict_refuted",
    "C30_scale_is_a_number_refuted"
   ],
   "note": "Every history of frames, timeouts and settings. Beyond the claim: which gesture is recognised, values of the events."
  },
  {
   "property": "C31",
   "status": "partial",
   "theorems": [
    "C31_presses_alternate",
    "C31_released_with_the_click",
    "C31_same_button_released",
    "C31_areas_choose_the_button",
    "C31_fingers_choose_the_button",
    "C31_physical_buttons",
    "C31_bottom_areas",
    "C31_top_areas",
    "C31_resting_finger",
    "C31_resting_fingers",
    "C31_top_left_early",
    "C31_top_left_late",
    "C31_top_click",
    "C31_left_handed_both_buttons_refuted",
    "C31_click_lost_on_suspend_refuted",
    "C31_trackpoint_removed_while_suspended_refuted",
    "C31_suspended_is_silent_refuted",
    "C31_click_any_fingers",
    "C31_top_left_click",
    "C31_top_moves_pointer"
   ],
   "note": "One release per press of the same button for every history of fingers, clicks, timers, taps and settings on clickpads; false of the code when the device is suspended or removed with a click held and a trackpoint paired, and for a left-handed change with both physical buttons held (refuted theorems)."
  },
  {
   "property": "C32",
   "status": "partial",
   "theorems": [
    "C32_sequences",
    "C32_terminated_for_the_client",
    "C32_scroll_origin",
    "C32_ended_for_good",
    "C32_scrolls_after_3mm",
    "C32_keeps_scrolling",
    "C32_no_bottom_edge",
    "C32_palm_unterminated_refuted",
    "C32_suspend_unterminated_refuted",
    "C32_started_outside_refuted",
    "C32_left_the_edge_refuted",
    "C32_next_finger_refuted",
    "C32_edge_no_pointer",
    "C32_scrolling_no_pointer",
    "C32_outside_moves_pointer"
   ],
   "note": "Sequences are terminated and events come only from fingers put down in the edge, for every history in which palms are known when the finger is put down and the scroll method is not changed or the device suspended while a finger is down; the statement without these hypotheses is refuted."
  },
  {
   "property": "C33",
   "status": "proved",
   "theorems": [
    "C33_bounded",
    "C33_direction",
    "C33_tablet",
    "C33_constant",
    "C33_monotone",
    "C33_speed",
    "C33_mouse_curve",
    "C33_low_dpi_curve",
    "C33_touchpad_curve",
    "C33_x230_curve",
    "C33_trackpoint_rest",
    "C33_setting_factor",
    "C33_restart_starts_afresh_refuted"
   ],
   "note": "All filters and profiles, for every history of motions, restarts and settings. Exact rationals for doubles; hypot and pow are parameters. The low end of the X230 touchpad's curve is 0."
  },
  {
   "property": "C34",
   "status": "partial",
   "theorems": [
    "C34_in_proximity",
    "C34_one_tool",
    "C34_leaves_clean",
    "C34_tip_alternates",
    "C34_tip_consistent",
    "C34_press_up",
    "C34_comes",
    "C34_goes",
    "C34_stays",
    "C34_one_tool_refuted",
    "C34_tip_up_refuted",
    "C34_release_held_refuted",
    "C34_frames_end_refuted"
   ],
   "note": "In proximity: every tablet and history. One tool at a time, tip and buttons released before proximity-out, alternation; tools that come, go and stay are seen so: tablets without mouse and lens whose kernel changes one tool a frame (tip: with pressure; coming and going: without suspending). The counterexamples show the hypotheses are needed."
  },
  {
   "property": "C35",
   "status": "proved",
   "theorems": [
    "C35_buttons_alternate",
    "C35_buttons_follow",
    "C35_button_numbers",
    "C35_button_numbers_distinct",
    "C35_events",
    "C35_positions",
    "C35_axes_reported",
    "C35_frame_time",
    "C35_groups",
    "C35_one_group",
    "C35_groups_as_described",
    "C35_groups_fixed",
    "C35_modes_told",
    "C35_toggle_mode",
    "C35_no_crash",
    "C35_suspend_releases",
    "C35_left_handed",
    "C35_disabled_silent_refuted",
    "C35_lift_reported_refuted",
    "C35_any_device_refuted",
    "C35_any_description_refuted"
   ],
   "note": "For every history of kernel events, settings and LED states. Axis values are assumed in the announced range; doubles are exact rationals, log2 is a parameter."
  },
  {
   "property": "C36",
   "status": "proved",
   "theorems": [
    "C36_order",
    "C36_value",
    "C36_decided",
    "C36_none",
    "C36_invalid",
    "C36_types",
    "C36_formats",
    "C36_documented_refuted",
    "C36_hex_refuted",
    "C36_buffer",
    "C36_buffer_unique"
   ],
   "note": "For every directory of quirk files, override file and udev device: the value is that of the last applicable setting in load order; no applicable section, no quirks; a malformed file disables quirks, as documented. fnmatch is a parameter; lines of up to 510 characters without NUL."
  },
  {
   "property": "C37",
   "status": "partial",
   "theorems": [
    "touch_muted",
    "touch_rect",
    "touch_rect_single_refuted"
   ],
   "note": "rectangle only honoured by multitouch panels"
  },
  {
   "property": "C38",
   "status": "partial",
   "theorems": [
    "touch_lifted",
    "touch_position",
    "touch_reported",
    "touch_lifted_refuted",
    "touch_muted_slot_refuted"
   ],
   "note": "false across pen arbitration and when a palm replaces a finger within a frame"
  },
  {
   "property": "C39",
   "status": "proved",
   "theorems": [
    "strip_exact",
    "startswith_exact",
    "endswith_exact",
    "basename_exact",
    "trunkname_exact"
   ],
   "note": ""
  },
  {
   "property": "C40",
   "status": "proved",
   "theorems": [
    "transformed_in_range",
    "transformed_monotone",
    "transformed_ends",
    "mm_distance",
    "mm_size"
   ],
   "note": "exact arithmetic"
  },
  {
   "property": "C41",
   "status": "partial",
   "theorems": [
    "keyboard_follows_tablet_mode_partial",
    "tablet_mode_switch_acts",
    "keyboard_follows_tablet_mode_refuted_reenabled",
    "keyboard_follows_tablet_mode_refuted_switch_disabled"
   ],
   "note": "holds for clients that leave the switch device enabled and do not re-enable the keyboard in tablet mode; both exceptions refuted"
  },
  {
   "property": "C42",
   "status": "proved",
   "theorems": [
    "C42_touch_lifecycle",
    "C42_finger_count_is_touches_down",
    "C42_asserts_hold",
    "C42_no_ghost_finger",
    "C42_all_lifted",
    "C42_finger_count",
    "C42_finger_count_matches",
    "C42_finger_count_single_touch",
    "C42_slot_after_resume_refuted",
    "C42_tools_as_reported",
    "C42_single_touch_as_reported",
    "C42_was_down",
    "C42_cleared",
    "C42_pressure",
    "C42_size",
    "C42_frames_are_legal_for_tapping"
   ],
   "note": "Lifecycle and count for every input; ghost-freedom for devices without the Synaptics and ALPS serial workarounds and without a resume (a stale slot after resume is refuted); exact count for devices told apart by BTN_TOUCH only."
  },
  {
   "property": "C43",
   "status": "proved",
   "theorems": [
    "C43_stable",
    "C43_seat",
    "C43_group",
    "C43_added",
    "C43_tool",
    "C43_tool_local",
    "C43_tool_sent"
   ],
   "note": "Seats by name, groups by identifier, tools by type and serial; names immutable. A tool whose serial number arrives late keeps the serial-less object (as the code documents)."
  },
  {
   "property": "C44",
   "status": "proved",
   "theorems": [
    "C44_ranges",
    "C44_news",
    "C44_fmod_arguments",
    "C44_news_leaving_refuted",
    "C44_foreign_tool_refuted"
   ],
   "note": "All kernel values within the announced ranges, tools of the context's list suiting the tablet. The two exceptions of the statement are refutation theorems."
  },
  {
   "property": "C45",
   "status": "proved",
   "theorems": [
    "C45_follows",
    "C45_rectangles",
    "C45_without_tilt",
    "C45_replaced_refuted"
   ],
   "note": "Tablets without mouse and lens, a kernel that changes one tool a frame, no suspending in between; the exception of the statement is a refutation theorem."
  },
  {
   "property": "C46",
   "status": "partial",
   "theorems": [
    "C46_typing_blocks",
    "C46_typing_on_blocks",
    "C46_held_blocks",
    "C46_typing_ends",
    "C46_not_typing",
    "C46_resting_palm",
    "C46_late_finger",
    "C46_early_finger",
    "C46_unplugged_refuted"
   ],
   "note": "All parts proved for histories in which no keyboard is unplugged while a key is held; that case is refuted (the key counts as held for ever)."
  },
  {
   "property": "C47",
   "status": "proved",
   "theorems": [
    "C47_pointing_blocks",
    "C47_pointing_on_blocks",
    "C47_pointing_ends",
    "C47_not_pointing",
    "C47_resting_palm",
    "C47_late_finger",
    "C47_early_finger"
   ],
   "note": "Pinning, software buttons, edge scrolling, motion speeds and hysteresis are unconstrained inputs of the model."
  },
  {
   "property": "C48",
   "status": "partial",
   "theorems": [
    "C48_no_abort",
    "C48_heavy_palm",
    "C48_heavy_landing",
    "C48_pen",
    "C48_pen_returns_refuted",
    "C48_clean_moves",
    "C48_edge_ignored",
    "C48_edge_left",
    "C48_edge_second_finger",
    "C48_edge_with_finger",
    "C48_kernel_palm"
   ],
   "note": "Proved as stated; refuted when the pen returns within 90 ms. The second-finger parts are proved for touchpads without thumb detection."
  },
  {
   "property": "C49",
   "status": "partial",
   "theorems": [
    "C49_one_thumb",
    "C49_lone_thumb",
    "C49_scroll_pair",
    "C49_together",
    "C49_next_to_slow",
    "C49_fast_pointer",
    "C49_lower_is_thumb",
    "C49_hover_refuted",
    "C49_lifted_refuted",
    "C49_stays_thumb",
    "C49_stays_thumb_refuted"
   ],
   "note": "All clauses proved for the touch that is alone and for the second touch coming down. The clause on a resting thumb is refuted when a finger hovers, and the one on the lower touch when a third is lifted in the same frame. Not proved: three and more touches, revived thumbs. A thumb stays one while it rests alone; refuted when the other finger is lifted in a frame in which the thumb is reported before it."
  },
  {
   "property": "C50",
   "status": "partial",
   "theorems": [
    "C50_off",
    "C50_on",
    "C50_off_iff",
    "C50_setting",
    "C50_undisturbed",
    "C50_lid_at_start_refuted",
    "C50_lid_reenabled_refuted",
    "C50_disabled_mice_refuted",
    "C50_top_disturbed_refuted",
    "C50_second_lid_refuted"
   ],
   "note": "Proved for worlds with at most one lid switch and one tablet mode switch; the lid counts as closed from the event that says so on. The parts of the statement that fail are refuted."
  },
  {
   "property": "C51",
   "status": "partial",
   "theorems": [
    "C51_life",
    "C51_same_tool",
    "C51_axes",
    "C51_moves",
    "C51_button",
    "C51_touch",
    "C51_rotation",
    "C51_size",
    "C51_button_tool_refuted",
    "C51_button_tip_refuted",
    "C51_one_frame_refuted",
    "C51_replaced_refuted",
    "C51_disabled_refuted",
    "C51_disabled_button_refuted",
    "C51_size_refuted",
    "C51_delta",
    "C51_accepted"
   ],
   "note": "Proved for devices that change a slot at most once per frame and are not disabled; outside of that, and where the statement names exceptions, it is refuted.  C51_delta: deltas are from the tool's last event; C51_accepted: which devices are totems."
  },
  {
   "property": "C52",
   "status": "partial",
   "theorems": [
    "C52_no_jump",
    "C52_no_burst",
    "C52_first_motion",
    "C52_first_motion_counted",
    "C52_alps",
    "C52_rest",
    "C52_small",
    "C52_fingers",
    "C52_exact",
    "C52_lag",
    "C52_pinned",
    "C52_straight",
    "C52_switched_on_refuted",
    "C52_straight_refuted",
    "C52_no_margin"
   ],
   "note": "The bounds hold for fingers that came down after hysteresis was last switched on; in the frame that switches it on the statement is refuted, with counterexamples. Exact arithmetic instead of doubles; the growth bound is stated without hysteresis."
  },
  {
   "property": "C53",
   "status": "proved",
   "theorems": [
    "C53_tap_and_drag",
    "C53_drag_lock",
    "C53_double_tap"
   ],
   "note": "For fingers that are neither palms nor thumbs, from any legal history after which tapping is idle; see C29 for the exceptions."
  },
  {
   "property": "C54",
   "status": "partial",
   "theorems": [
    "C54_life",
    "C54_files",
    "C54_suspend",
    "C54_plug",
    "C54_unplug",
    "C54_all",
    "C54_one",
    "C54_no_crash",
    "C54_restored",
    "C54_all_or_nothing",
    "C54_one_refuted",
    "C54_filter_refuted",
    "C54_epoll_refuted",
    "C54_enable_refuted",
    "C54_dead_refuted",
    "C54_suspended_refuted",
    "C54_twice_refuted",
    "C54_old_handle_refuted",
    "C54_seat_refuted",
    "C54_watched_open"
   ],
   "note": "The exceptions in the statement are refutations of the full property; malloc does not fail in the model, and a removed tablet's timer is outside it."
  },
  {
   "property": "C55",
   "status": "partial",
   "theorems": [
    "C55_added_only",
    "C55_no_joysticks",
    "C55_plain_added",
    "C55_touchpad_added",
    "C55_capabilities",
    "C55_exclusive",
    "C55_events",
    "C55_queries",
    "C55_switches",
    "C55_touch_count",
    "C55_touch_count_refuted",
    "C55_size",
    "C55_size_refuted",
    "C55_tablet_size",
    "C55_own_word_refuted"
   ],
   "note": "Partial because three parts of the plain statement are refuted (see DESIGN.md); which notify functions the code of each kind of device calls is read off the sources."
  },
  {
   "property": "C56",
   "status": "proved",
   "theorems": [
    "C56_tells",
    "C56_one_struct",
    "C56_struct_is_real",
    "C56_no_misread",
    "C56_types_true",
    "C56_time",
    "C56_time_order",
    "C56_time_order_refuted",
    "C56_capability",
    "C56_references",
    "C56_told_is_held"
   ],
   "note": "Values are opaque integers; the conversions of coordinates are arbitrary functions of the device; seat counts and pad modes are arguments (computed by the models of C03 and C35). C56_time_order holds between wraps of the 32 bit milliseconds; C56_time_order_refuted shows that the wrap is real."
  },
  {
   "property": "C57",
   "status": "partial",
   "theorems": [
    "C57_wheel",
    "C57_wheel_range",
    "C57_wheel_range_refuted",
    "C57_dpi",
    "C57_multiplier",
    "C57_fuzz",
    "C57_fuzz_mt",
    "C57_fuzz_mt_refuted",
    "C57_touchpad",
    "C57_keyboard",
    "C57_mouse",
    "C57_stick_refuted"
   ],
   "note": "Proved except where the code does otherwise: the wheel theorems exclude properties equal to INT_MIN (C57_wheel_range_refuted), multitouch axes with a kernel fuzz keep it (C57_fuzz_mt_refuted), pointing sticks on USB are external whatever the quirk says (C57_stick_refuted). Velocity averaging and model flags are inputs."
  },
  {
   "property": "C58",
   "status": "proved",
   "theorems": [
    "C58_memory",
    "C58_removed",
    "C58_called",
    "C58_freed"
   ],
   "note": "For every history without misuse (a caller removing what is no source any more), every report of epoll_wait and whatever the called handlers add and remove. Sources are identities: memory handed out again is a new identity. A dispatch from within a handler is not modelled."
  },
  {
   "property": "C59",
   "status": "partial",
   "theorems": [
    "C59_size",
    "C59_pressure",
    "C59_default",
    "C59_quirk",
    "C59_default_refuted",
    "C59_zones",
    "C59_no_zones",
    "C59_assumed_refuted",
    "C59_uninitialised_refuted",
    "C59_palm",
    "C59_clickpad",
    "C59_thumb"
   ],
   "note": "Proved for all axes and quirks, with the arithmetic on doubles taken as exact; the exceptions of the statement are proved as refutations."
  },
  {
   "property": "C60",
   "status": "partial",
   "theorems": [
    "C60_when",
    "C60_once",
    "C60_repair",
    "C60_steady_refuted"
   ],
   "note": "When and how the history is repaired is proved for all sequences of timestamps; C60_steady_refuted proves the exception of the statement."
  }
 ]
}