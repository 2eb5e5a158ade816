(** * Touchpad: which fingers are down

    Model of the touch states of the touchpad dispatch
    (/repo/src/evdev-mt-touchpad.c): how the multitouch slots, BTN_TOUCH,
    BTN_TOOL_* ("fake touches") and pressure or touch size become touches that
    begin, update and end.  Positions, palm and thumb detection, motion
    history, jump detection and the hysteresis are not part of this model:
    they do not feed back into these states. *)
Require Import Coq.ZArith.ZArith Coq.Lists.List Coq.Bool.Bool.
Import ListNotations.
Open Scope Z_scope.

(** enum touch_state, /repo/src/evdev-mt-touchpad.h:47-54 *)
Inductive tstate := NONE | HOVERING | BEGIN | UPDATE | MAYBE_END | END.
(** The part of struct tp_touch used here, /repo/src/evdev-mt-touchpad.h:177-264 *)
Record touch := { ts : tstate; dirty : bool; has_ended : bool; was_down : bool; pressure : Z; major : Z; minor : Z }.
Definition set_ts (t : touch) (s : tstate) : touch :=
  {| ts := s; dirty := dirty t; has_ended := has_ended t; was_down := was_down t; pressure := pressure t; major := major t; minor := minor t |}.
Definition set_dirty (t : touch) (d : bool) : touch :=
  {| ts := ts t; dirty := d; has_ended := has_ended t; was_down := was_down t; pressure := pressure t; major := major t; minor := minor t |}.
Definition set_ended (t : touch) (e : bool) : touch :=
  {| ts := ts t; dirty := dirty t; has_ended := e; was_down := was_down t; pressure := pressure t; major := major t; minor := minor t |}.
Definition set_was_down (t : touch) (d : bool) : touch :=
  {| ts := ts t; dirty := dirty t; has_ended := has_ended t; was_down := d; pressure := pressure t; major := major t; minor := minor t |}.

(** How a finger above the surface is told from one on it,
    tp_unhover_touches, /repo/src/evdev-mt-touchpad.c:1396-1406 *)
Inductive hover_mode := ByPressure (low high : Z) | BySize (low high : Z) | ByFake.
(** tp->fake_touches as its bits: BTN_TOUCH, BTN_TOOL_FINGER, DOUBLETAP, TRIPLETAP, QUADTAP, FAKE_FINGER_OVERFLOW *)
Record fake := { f_touch : bool; f_finger : bool; f_double : bool; f_triple : bool; f_quad : bool; f_overflow : bool }.
Definition no_fake : fake := {| f_touch := false; f_finger := false; f_double := false; f_triple := false; f_quad := false; f_overflow := false |}.
(** The part of struct tp_dispatch used here.  [ok] is false once an assert()
    has failed (the program would have aborted).  The counters are unsigned
    in C; the asserts guard their decrements. *)
Record tp := {
  touches : list touch; nfd : Z (* nfingers_down *); nactive : Z (* nactive_slots *);
  fakes : fake; slot : nat; num_slots : nat; has_mt : bool; mode : hover_mode;
  synaptics : bool (* EVDEV_MODEL_SYNAPTICS_SERIAL_TOUCHPAD *); alps : bool (* EVDEV_MODEL_ALPS_SERIAL_TOUCHPAD *);
  ok : bool }.
Definition with_touches (s : tp) (l : list touch) (n : Z) (k : bool) : tp :=
  {| touches := l; nfd := n; nactive := nactive s; fakes := fakes s; slot := slot s; num_slots := num_slots s; has_mt := has_mt s; mode := mode s;
     synaptics := synaptics s; alps := alps s; ok := k |}.
Definition with_nactive (s : tp) (a : Z) (k : bool) : tp :=
  {| touches := touches s; nfd := nfd s; nactive := a; fakes := fakes s; slot := slot s; num_slots := num_slots s; has_mt := has_mt s; mode := mode s;
     synaptics := synaptics s; alps := alps s; ok := k |}.
Definition with_fakes (s : tp) (f : fake) : tp :=
  {| touches := touches s; nfd := nfd s; nactive := nactive s; fakes := f; slot := slot s; num_slots := num_slots s; has_mt := has_mt s; mode := mode s;
     synaptics := synaptics s; alps := alps s; ok := ok s |}.
Definition with_slot (s : tp) (n : nat) : tp :=
  {| touches := touches s; nfd := nfd s; nactive := nactive s; fakes := fakes s; slot := n; num_slots := num_slots s; has_mt := has_mt s; mode := mode s;
     synaptics := synaptics s; alps := alps s; ok := ok s |}.
Definition with_num_slots (s : tp) (n : nat) : tp :=
  {| touches := touches s; nfd := nfd s; nactive := nactive s; fakes := fakes s; slot := slot s; num_slots := n; has_mt := has_mt s; mode := mode s;
     synaptics := synaptics s; alps := alps s; ok := ok s |}.

(** ** Fake touches *)
(** tp_fake_finger_count, /repo/src/evdev-mt-touchpad.c:246-264; the log message about several tools is left out. *)
Definition FAKE_FINGER_OVERFLOW : Z := 128.
Definition fake_finger_count (f : fake) : Z :=
  if f_overflow f then FAKE_FINGER_OVERFLOW
  else if f_finger f then 1 else if f_double f then 2 else if f_triple f then 3 else if f_quad f then 4 else 0.
(** tp_fake_finger_set, /repo/src/evdev-mt-touchpad.c:272-311 *)
Inductive tool := BTN_TOUCH | BTN_TOOL_FINGER | BTN_TOOL_DOUBLETAP | BTN_TOOL_TRIPLETAP | BTN_TOOL_QUADTAP | BTN_TOOL_QUINTTAP.
Definition fake_finger_set (f : fake) (c : tool) (p : bool) : fake :=
  match c with
  | BTN_TOUCH => {| f_touch := p; f_finger := f_finger f; f_double := f_double f; f_triple := f_triple f; f_quad := f_quad f; f_overflow := false |}
  | BTN_TOOL_FINGER => {| f_touch := f_touch f; f_finger := p; f_double := f_double f; f_triple := f_triple f; f_quad := f_quad f; f_overflow := if p then false else f_overflow f |}
  | BTN_TOOL_DOUBLETAP => {| f_touch := f_touch f; f_finger := f_finger f; f_double := p; f_triple := f_triple f; f_quad := f_quad f; f_overflow := if p then false else f_overflow f |}
  | BTN_TOOL_TRIPLETAP => {| f_touch := f_touch f; f_finger := f_finger f; f_double := f_double f; f_triple := p; f_quad := f_quad f; f_overflow := if p then false else f_overflow f |}
  | BTN_TOOL_QUADTAP => {| f_touch := f_touch f; f_finger := f_finger f; f_double := f_double f; f_triple := f_triple f; f_quad := p; f_overflow := if p then false else f_overflow f |}
  | BTN_TOOL_QUINTTAP => if p then {| f_touch := f_touch f; f_finger := f_finger f; f_double := f_double f; f_triple := f_triple f; f_quad := f_quad f; f_overflow := true |} else f
  end.

(** ** One touch.  Functions take and return (touch, nfingers_down, ok). *)
Definition acc := (touch * Z * bool)%type.
(** tp_new_touch, /repo/src/evdev-mt-touchpad.c:313-347 *)
Definition new_touch (t : touch) (n : Z) (k : bool) : acc :=
  match ts t with
  | BEGIN | UPDATE | HOVERING => (t, n, k)
  | MAYBE_END => (set_ended (set_ts t UPDATE) false, n + 1, k)
  | NONE | END => (set_was_down (set_ended (set_dirty (set_ts t HOVERING) true) false) false, n, k)
  end.
(** tp_begin_touch, /repo/src/evdev-mt-touchpad.c:349-363; assert(nfingers_down >= 1) after the increment *)
Definition begin_touch (t : touch) (n : Z) (k : bool) : acc :=
  (set_was_down (set_ts (set_dirty t true) BEGIN) true, n + 1, k && (1 <=? n + 1)).
(** tp_maybe_end_touch, /repo/src/evdev-mt-touchpad.c:373-402 *)
Definition maybe_end_touch (t : touch) (n : Z) (k : bool) : acc :=
  match ts t with
  | NONE | MAYBE_END | END => (t, n, k)
  | HOVERING => (set_dirty (set_ts t NONE) true, n, k)
  | BEGIN | UPDATE => (set_dirty (set_ts t MAYBE_END) true, n - 1, k && (1 <=? n))
  end.
(** tp_recover_ended_touch, /repo/src/evdev-mt-touchpad.c:408-415 *)
Definition recover_ended_touch (t : touch) (n : Z) (k : bool) : acc := (set_ts (set_dirty t true) UPDATE, n + 1, k).
(** tp_end_touch, /repo/src/evdev-mt-touchpad.c:421-439 *)
Definition end_touch (t : touch) : touch :=
  match ts t with MAYBE_END => set_ts (set_dirty t true) END | _ => t end.
(** tp_end_sequence, /repo/src/evdev-mt-touchpad.c:444-449 *)
Definition end_sequence (t : touch) (n : Z) (k : bool) : acc := maybe_end_touch (set_ended t true) n k.

(** The current slot's touch: tp_current_touch, /repo/src/evdev-mt-touchpad.c:233-237 *)
Definition current (s : tp) : nat := Nat.min (slot s) (length (touches s) - 1).
Fixpoint update_nth {A} (i : nat) (f : A -> A) (l : list A) {struct l} : list A :=
  match l, i with [], _ => [] | x :: r, O => f x :: r | x :: r, S j => x :: update_nth j f r end.
(** Apply a function to touch [i], threading the counter. *)
Fixpoint acc_nth (i : nat) (f : touch -> Z -> bool -> acc) (l : list touch) (n : Z) (k : bool) {struct l} : list touch * Z * bool :=
  match l, i with
  | [], _ => ([], n, k)
  | x :: r, O => let '(x', n', k') := f x n k in (x' :: r, n', k')
  | x :: r, S j => let '(r', n', k') := acc_nth j f r n k in (x :: r', n', k')
  end.
Definition on_current (s : tp) (f : touch -> Z -> bool -> acc) : tp :=
  let '(l, n, k) := acc_nth (current s) f (touches s) (nfd s) (ok s) in with_touches s l n k.

(** ** Kernel events *)
Inductive ev :=
| Slot (n : nat)                 (* ABS_MT_SLOT *)
| TrackingId (v : Z)             (* ABS_MT_TRACKING_ID *)
| Axis                           (* ABS_MT_POSITION_X/Y, ABS_MT_TOOL_TYPE; ABS_X/Y on single-touch devices *)
| Pressure (v : Z)               (* ABS_MT_PRESSURE; ABS_PRESSURE on single-touch devices *)
| Major (v : Z) | Minor (v : Z)  (* ABS_MT_TOUCH_MAJOR, ABS_MT_TOUCH_MINOR *)
| Key (c : tool) (p : bool)      (* BTN_TOUCH and BTN_TOOL_*, not key repeat *)
| Syn.                           (* SYN_REPORT *)
(** tp_process_absolute, /repo/src/evdev-mt-touchpad.c:499-557, and
    tp_process_absolute_st, /repo/src/evdev-mt-touchpad.c:559-589 (which knows only ABS_X, ABS_Y and ABS_PRESSURE) *)
Definition process_absolute (s : tp) (e : ev) : tp :=
  match e with
  | Slot n => if has_mt s then with_slot s n else s
  | TrackingId v =>
      if has_mt s then
        if v =? -1 then on_current (with_nactive s (nactive s - 1) (ok s && (1 <=? nactive s))) end_sequence
        else on_current (with_nactive s (nactive s + 1) (ok s)) new_touch
      else s
  | Axis => with_touches s (update_nth (current s) (fun t => set_dirty t true) (touches s)) (nfd s) (ok s)
  | Pressure v => with_touches s (update_nth (current s) (fun t => {| ts := ts t; dirty := true; has_ended := has_ended t; was_down := was_down t; pressure := v; major := major t; minor := minor t |}) (touches s)) (nfd s) (ok s)
  | Major v => if has_mt s then with_touches s (update_nth (current s) (fun t => {| ts := ts t; dirty := true; has_ended := has_ended t; was_down := was_down t; pressure := pressure t; major := v; minor := minor t |}) (touches s)) (nfd s) (ok s) else s
  | Minor v => if has_mt s then with_touches s (update_nth (current s) (fun t => {| ts := ts t; dirty := true; has_ended := has_ended t; was_down := was_down t; pressure := pressure t; major := major t; minor := v |}) (touches s)) (nfd s) (ok s) else s
  | _ => s
  end.

(** ** Start of a frame *)
(** Apply [f] to every touch with its index from [i] on, threading the counter. *)
Fixpoint acc_all (i : nat) (f : nat -> touch -> Z -> bool -> acc) (l : list touch) (n : Z) (k : bool) : list touch * Z * bool :=
  match l with
  | [] => ([], n, k)
  | x :: r => let '(x', n1, k1) := f i x n k in let '(r', n2, k2) := acc_all (S i) f r n1 k1 in (x' :: r', n2, k2)
  end.
(** tp_restore_synaptics_touches, /repo/src/evdev-mt-touchpad.c:591-624 *)
Definition restore_synaptics_touches (s : tp) : tp :=
  let nf := fake_finger_count (fakes s) in
  let ns := Z.of_nat (num_slots s) in
  if nf <? 3 then s
  else if (nf <=? nfd s) || ((nfd s =? ns) && (nf =? ns)) then s
  else let '(l, n, k) := acc_all 0 (fun i t n k => if Nat.ltb i (num_slots s) then match ts t with MAYBE_END => recover_ended_touch t n k | _ => (t, n, k) end else (t, n, k)) (touches s) (nfd s) (ok s) in
       with_touches s l n k.
(** tp_process_fake_touches, /repo/src/evdev-mt-touchpad.c:626-691 *)
Definition process_fake_touches (s : tp) : tp :=
  let nf := fake_finger_count (fakes s) in
  if nf =? FAKE_FINGER_OVERFLOW then s
  else
    let s := if synaptics s then restore_synaptics_touches s else s in
    let s := if alps s && (1 <? nf) && has_mt s && (0 <? nactive s) && (nactive s <? nf) && (nactive s <? Z.of_nat (num_slots s))
             then with_num_slots s (Z.to_nat (nactive s)) else s in
    let start := if has_mt s then num_slots s else O in
    let '(l, n, k) := acc_all 0 (fun i t n k =>
        if Nat.ltb i start then (t, n, k)
        else if Z.of_nat i <? nf then new_touch t n k else end_sequence t n k) (touches s) (nfd s) (ok s) in
    with_touches s l n k.

(** Let hovering touches begin until there are [goal] of them (the break comes after a begin only). *)
Fixpoint begin_until (goal : Z) (l : list touch) (n : Z) (k : bool) : list touch * Z * bool :=
  match l with
  | [] => ([], n, k)
  | t :: r =>
      match ts t with
      | HOVERING =>
          let '(t', n1, k1) := begin_touch t n k in
          if goal <=? n1 then (t' :: r, n1, k1)
          else let '(r', n2, k2) := begin_until goal r n1 k1 in (t' :: r', n2, k2)
      | _ => let '(r', n2, k2) := begin_until goal r n k in (t :: r', n2, k2)
      end
  end.
(** End touches from the last one on; [skip]: states the loop steps over; [stop]: the loop ends after a touch when the counter equals [goal]. *)
Fixpoint end_until (skip : tstate -> bool) (stop : bool) (goal : Z) (rl : list touch) (n : Z) (k : bool) : list touch * Z * bool :=
  match rl with
  | [] => ([], n, k)
  | t :: r =>
      if skip (ts t) then let '(r', n2, k2) := end_until skip stop goal r n k in (t :: r', n2, k2)
      else let '(t', n1, k1) := maybe_end_touch t n k in
           if stop && (n1 =? goal) then (t' :: r, n1, k1)
           else let '(r', n2, k2) := end_until skip stop goal r n1 k1 in (t' :: r', n2, k2)
  end.
Definition end_back (skip : tstate -> bool) (stop : bool) (goal : Z) (l : list touch) (n : Z) (k : bool) : list touch * Z * bool :=
  let '(r, n', k') := end_until skip stop goal (rev l) n k in (rev r, n', k').
Definition is_down (t : touch) : bool := match ts t with BEGIN | UPDATE => true | _ => false end.
Definition real_down (ns : nat) (l : list touch) : Z := Z.of_nat (length (filter is_down (firstn ns l))).
(** tp_unhover_pressure, /repo/src/evdev-mt-touchpad.c:1209-1296 *)
Definition unhover_pressure (s : tp) (low high : Z) : tp :=
  let nf0 := fake_finger_count (fakes s) in
  let nf := if nf0 =? FAKE_FINGER_OVERFLOW then 0 else nf0 in
  let ns := Z.of_nat (num_slots s) in
  let '(l1, n1, k1) := acc_all 0 (fun i t n k =>
      if Nat.ltb i (num_slots s) then
        match ts t with
        | NONE => (t, n, k)
        | HOVERING => if dirty t && (high <=? pressure t) then begin_touch t n k else (t, n, k)
        | _ => if dirty t && ((nf <=? ns) || (ns =? 1)) && (pressure t <? low) then maybe_end_touch t n k else (t, n, k)
        end
      else (t, n, k)) (touches s) (nfd s) (ok s) in
  let real := real_down (num_slots s) l1 in
  if (nf <=? ns) || (n1 =? 0) then with_touches s l1 n1 k1
  else
    let '(l2, n2, k2) := if 0 <? real then begin_until nf l1 n1 k1 else (l1, n1, k1) in
    let '(l3, n3, k3) := if (nf <? n2) || (real =? 0)
                         then end_back (fun st => match st with HOVERING | NONE | MAYBE_END => true | _ => false end) (0 <? real) nf l2 n2 k2
                         else (l2, n2, k2) in
    with_touches s l3 n3 k3.
(** tp_unhover_size, /repo/src/evdev-mt-touchpad.c:1298-1337 *)
Definition unhover_size (s : tp) (low high : Z) : tp :=
  let '(l, n, k) := acc_all 0 (fun i t n k =>
      if Nat.ltb i (num_slots s) && dirty t then
        match ts t with
        | NONE => (t, n, k)
        | HOVERING => if ((high <? major t) && (low <? minor t)) || ((low <? major t) && (high <? minor t)) then begin_touch t n k else (t, n, k)
        | _ => if (major t <? low) || (minor t <? low) then maybe_end_touch t n k else (t, n, k)
        end
      else (t, n, k)) (touches s) (nfd s) (ok s) in
  with_touches s l n k.
(** tp_unhover_fake_touches, /repo/src/evdev-mt-touchpad.c:1339-1394 *)
Definition any_fake (f : fake) : bool := f_touch f || f_finger f || f_double f || f_triple f || f_quad f || f_overflow f.
Definition unhover_fake (s : tp) : tp :=
  let f := fakes s in
  if negb (any_fake f) && (nfd s =? 0) then s
  else
    let nf := fake_finger_count f in
    if nf =? FAKE_FINGER_OVERFLOW then s
    else if (nfd s =? nf) && (((nfd s =? 0) && negb (f_touch f)) || ((0 <? nfd s) && f_touch f)) then s
    else
      let '(l1, n1, k1) := if f_touch f && (nfd s <? nf) then begin_until nf (touches s) (nfd s) (ok s) else (touches s, nfd s, ok s) in
      let '(l2, n2, k2) := if (nf <? n1) || negb (f_touch f)
                           then end_back (fun st => match st with HOVERING | NONE => true | _ => false end) (f_touch f) nf l1 n1 k1
                           else (l1, n1, k1) in
      with_touches s l2 n2 k2.
Definition unhover (s : tp) : tp :=
  match mode s with ByPressure lo hi => unhover_pressure s lo hi | BySize lo hi => unhover_size s lo hi | ByFake => unhover_fake s end.
(** tp_pre_process_state, /repo/src/evdev-mt-touchpad.c:1686-1707 *)
Definition pre_process (s : tp) : tp :=
  let s := unhover (process_fake_touches s) in
  with_touches s (map end_touch (touches s)) (nfd s) (ok s).
(** tp_position_fake_touches, /repo/src/evdev-mt-touchpad.c:1408-1450: of interest here is only
    that it may mark fake touches dirty.  Which touch is the top-most one depends on positions,
    so whether it is dirty is a parameter. *)
Definition position_fake_touches (s : tp) (top_dirty : bool) : tp :=
  if (fake_finger_count (fakes s) <=? Z.of_nat (num_slots s)) || (nfd s =? 0) then s
  else
    let start := if has_mt s then num_slots s else 1%nat in
    let '(l, _, _) := acc_all 0 (fun i t n k =>
        if Nat.ltb i start then (t, n, k) else match ts t with NONE => (t, n, k) | _ => (set_dirty t (dirty t || top_dirty), n, k) end) (touches s) 0 true in
    with_touches s l (nfd s) (ok s).
(** ** End of a frame: tp_post_process_state, /repo/src/evdev-mt-touchpad.c:1822-1853 *)
Definition post_touch (t : touch) : touch :=
  if dirty t then
    set_dirty (match ts t with
               | END => set_ts t (if has_ended t then NONE else HOVERING)
               | BEGIN => set_ts t UPDATE
               | _ => t end) false
  else t.
Definition post_process (s : tp) : tp := with_touches s (map post_touch (touches s)) (nfd s) (ok s).

(** One kernel event: the state of the touches shown to the rest of the dispatch (tapping, buttons, gestures)
    is the one between pre- and post-processing of a SYN_REPORT. *)
Definition frame (s : tp) (top_dirty : bool) : tp := position_fake_touches (pre_process s) top_dirty.
Definition step (s : tp) (e : ev) (top_dirty : bool) : tp * option (list touch) :=
  match e with
  | Syn => let s1 := frame s top_dirty in (post_process s1, Some (touches s1))
  | Key c p => (with_fakes s (fake_finger_set (fakes s) c p), None)
  | _ => (process_absolute s e, None)
  end.
(** tp_clear_state, /repo/src/evdev-mt-touchpad.c:2027-2057: end every touch and run one frame. *)
Definition clear_state (s : tp) (top_dirty : bool) : tp * list touch :=
  let '(l, n, k) := acc_all 0 (fun _ t n k => end_sequence t n k) (touches s) (nfd s) (ok s) in
  let s1 := with_fakes (with_touches s l n k) no_fake in
  let s2 := frame s1 top_dirty in
  (post_process s2, touches s2).
Inductive input := Ev (e : ev) (top_dirty : bool) | Clear (top_dirty : bool) | Resync (active : list bool) (cur : nat).
(** [Resync]: tp_sync_slots on resume adds the active slots to the counter; the slot the kernel is at ([cur]) is not looked at. *)
Definition count_true (l : list bool) : Z := Z.of_nat (length (filter (fun b => b) l)).
(** tp_init_slots and tp_init_touch, /repo/src/evdev-mt-touchpad.c:2866-2951: no touch; [a] slots may already be active in the kernel
    (tp_sync_slots, /repo/src/evdev-mt-touchpad.c:2142-2151); BTN_TOOL_FINGER may be set. *)
Definition touch0 : touch := {| ts := NONE; dirty := false; has_ended := true; was_down := false; pressure := 0; major := 0; minor := 0 |}.
Definition init (ntouches ns sl : nat) (mt : bool) (m : hover_mode) (syn al : bool) (a : list bool) (finger : bool) : tp :=
  {| touches := repeat touch0 ntouches; nfd := 0; nactive := count_true a;
     fakes := if finger then fake_finger_set no_fake BTN_TOOL_FINGER true else no_fake;
     slot := sl; num_slots := ns; has_mt := mt; mode := m; synaptics := syn; alps := al; ok := true |}.
Definition istep (s : tp) (i : input) : tp * list (list touch) :=
  match i with
  | Ev e d => let '(s', o) := step s e d in (s', match o with Some l => [l] | None => [] end)
  | Clear d => let '(s', l) := clear_state s d in (s', [l])
  | Resync a _ => (with_nactive s (nactive s + count_true a) (ok s), [])
  end.
Fixpoint run (s : tp) (l : list input) : tp * list (list touch) :=
  match l with [] => (s, []) | i :: r => let '(s1, o1) := istep s i in let '(s2, o2) := run s1 r in (s2, o1 ++ o2) end.
