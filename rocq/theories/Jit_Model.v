(** * From touch positions to motion on a touchpad: jumps, wobbling, hysteresis, pinning; model of parts of /repo/src/evdev-mt-touchpad.c *)
Require Import Coq.ZArith.ZArith Coq.QArith.QArith Coq.Lists.List Coq.Bool.Bool.
Import ListNotations.
Open Scope Z_scope.

(** Resolutions in units/mm, margins of the hysteresis, jump detection off (quirk or Wacom), EVDEV_MODEL_TEST_DEVICE, EVDEV_MODEL_ALPS_SERIAL_TOUCHPAD, EVDEV_MODEL_LENOVO_T450_TOUCHPAD, buttons.is_clickpad *)
Record cfg := { rx : Z; ry : Z; mx : Z; my : Z; nojump : bool; testdev : bool; alps : bool; t450 : bool; clickpad : bool }.
(** struct tp_touch, /repo/src/evdev-mt-touchpad.h:181-272: point; the motion history as a list, newest first (the code has a ring of 4 and a count); [dsq]: the square of jumps.last_delta_mm; x_motion_history; hysteresis.center; pinned; quirks.reset_motion_history *)
Definition point := (Z * Z)%type.
Record touch := { pt : point; hist : list (point * Z); dsq : Q; xh : Z; center : point; pinned : bool; pcenter : point; again : bool }.
(** struct tp_dispatch: hysteresis.enabled, hysteresis.last_motion_time, quirks.nonmotion_event_count, old_nfingers_down *)
Record pad := { hyst : bool; mtime : Z; nonmotion : Z; oldn : nat; touches : list touch }.
(** One frame, as it is when tp_pre_process_state has run: time, nfingers_down, queued & TOUCHPAD_EVENT_MOTION, _OTHERAXIS, _BUTTON_PRESS, whether a touch began (tp_begin_touch); for each touch: tp_new_touch ran; TOUCH_NONE; TOUCH_END; dirty; the new coordinates, if any.  Simplifications: the positions of fake touches, MSC_TIMESTAMP *)
Record up := { u_new : bool; u_none : bool; u_end : bool; u_dirty : bool; u_x : option Z; u_y : option Z }.
Record frame := { time : Z; nf : nat; motion : bool; other : bool; press : bool; begins : bool; ups : list up }.

(** ** History *)
(** tp_motion_history_push, /repo/src/evdev-mt-touchpad.c:140-151; TOUCHPAD_HISTORY_LENGTH is 4 *)
Definition push (t : touch) (z : Z) : touch := {| pt := pt t; hist := firstn 4 ((pt t, z) :: hist t); dsq := dsq t; xh := xh t; center := center t; pinned := pinned t; pcenter := pcenter t; again := again t |}.
(** tp_motion_history_reset, /repo/src/evdev-mt-touchpad.c:227-231 *)
Definition reset (t : touch) : touch := {| pt := pt t; hist := []; dsq := dsq t; xh := xh t; center := center t; pinned := pinned t; pcenter := pcenter t; again := again t |}.
(** tp_get_delta, /repo/src/evdev-mt-touchpad.c:459-474 *)
Definition delta (t : touch) : Z * Z := match hist t with (p, _) :: (q, _) :: _ => (fst p - fst q, snd p - snd q) | _ => (0, 0) end.

(** ** Jumps *)
(** The square of hypot(mm.x, mm.y), evdev_device_unit_delta_to_mm, /repo/src/evdev.h:852-874 *)
Definition mmsq (c : cfg) (p q : point) : Q :=
  (let u := inject_Z (fst p - fst q) / inject_Z (rx c) in let v := inject_Z (snd p - snd q) / inject_Z (ry c) in u * u + v * v)%Q.
Definition Qltb (a b : Q) : bool := negb (Qle_bool b a).
(** sqrt a - sqrt b > 7 *)
Definition grew (a b : Q) : bool := Qltb 0 (a - b - 49) && Qltb (196 * b) ((a - b - 49) * (a - b - 49)).
Definition with_dsq (t : touch) (q : Q) : touch := {| pt := pt t; hist := hist t; dsq := q; xh := xh t; center := center t; pinned := pinned t; pcenter := pcenter t; again := again t |}.
Definition with_pt (t : touch) (p : point) : touch := {| pt := p; hist := hist t; dsq := dsq t; xh := xh t; center := center t; pinned := pinned t; pcenter := pcenter t; again := again t |}.
(** tp_detect_jumps, /repo/src/evdev-mt-touchpad.c:1486-1566 *)
Definition detect_jumps (c : cfg) (t : touch) (now : Z) : bool * touch :=
  if nojump c then (false, t)
  else match hist t with
  | [] => (false, with_dsq t 0)
  | (p, z) :: _ =>
      let td := now - z in
      let ref := if testdev c then td else 12000 in
      if Z.ltb (5 * ref) (2 * td) || Z.eqb td 0 then (false, t)
      else if alps c && Z.eqb (fst (pt t)) 4095 && Z.eqb (snd (pt t)) 0 then (true, with_pt t p)
      else let f := (inject_Z ref / inject_Z td)%Q in
           let a := (mmsq c (pt t) p * (f * f))%Q in
           (Qltb 400 a || grew a (dsq t), with_dsq t a)
  end.

(** ** Wobbling *)
(** tp_detect_wobbling, /repo/src/evdev-mt-touchpad.c:164-210 *)
Definition with_xh (t : touch) (h : Z) : touch := {| pt := pt t; hist := hist t; dsq := dsq t; xh := h; center := center t; pinned := pinned t; pcenter := pcenter t; again := again t |}.
Record shared := { s_hyst : bool; s_mtime : Z }.
Definition detect_wobbling (n old : nat) (moved : bool) (s : shared) (t : touch) (now : Z) : shared * touch :=
  if negb (Nat.eqb n 1) || negb (Nat.eqb n old) then (s, t)
  else if s_hyst s then (s, t)
  else match hist t with
  | [] => (s, t)
  | (p, _) :: _ =>
      if negb moved then (s, with_xh t 0)
      else
        let dx := fst p - fst (pt t) in
        let dy := snd p - snd (pt t) in
        let s1 := {| s_hyst := s_hyst s; s_mtime := now |} in
        if (Z.eqb dx 0 && negb (Z.eqb dy 0)) || Z.ltb 40000 (now - s_mtime s) then (s1, with_xh t 0)
        else let h := Z.shiftr (xh t) 1 in
             if Z.ltb 0 dx then let h2 := Z.lor h 4 in ({| s_hyst := Z.eqb h2 5; s_mtime := now |}, with_xh t h2)
             else (s1, with_xh t h)
  end.

(** ** Hysteresis *)
(** sqrt (n / d), rounded down and up *)
Definition down (n d : Z) : Z := Z.sqrt (n / d).
Definition up_ (n d : Z) : Z := let r := down n d in if Z.eqb (r * r * d) n then r else r + 1.
(** (int)(v - sqrt (n / d)), (int)(v + sqrt (n / d)): C rounds towards zero *)
Definition minus (v n d : Z) : Z := if Z.leb (up_ n d) v then v - up_ n d else v - down n d.
Definition plus (v n d : Z) : Z := if Z.leb (- v) (down n d) then v + down n d else v + up_ n d.
(** evdev_hysteresis, /repo/src/evdev.h:694-753, in exact arithmetic: lag_x is |dx| divided by sqrt (dx^2 / a^2 + dy^2 / b^2), lag_y likewise *)
Definition hysteresis (a b : Z) (i ctr : point) : point :=
  let dx := fst i - fst ctr in
  let dy := snd i - snd ctr in
  if Z.eqb a 0 || Z.eqb b 0 then i
  else let n := dx * dx * (b * b) + dy * dy * (a * a) in
  if Z.ltb n (a * a * (b * b)) then ctr
  else (if Z.leb 0 dx then minus (fst i) (dx * dx * (a * a * (b * b))) n else plus (fst i) (dx * dx * (a * a * (b * b))) n,
        if Z.leb 0 dy then minus (snd i) (dy * dy * (a * a * (b * b))) n else plus (snd i) (dy * dy * (a * a * (b * b))) n).
Definition with_center (t : touch) (p : point) : touch := {| pt := pt t; hist := hist t; dsq := dsq t; xh := xh t; center := p; pinned := pinned t; pcenter := pcenter t; again := again t |}.
(** tp_motion_hysteresis, /repo/src/evdev-mt-touchpad.c:212-225 *)
Definition motion_hysteresis (c : cfg) (on : bool) (t : touch) : touch :=
  if on then
    let t1 := match hist t with [] => t | _ => with_pt t (hysteresis (mx c) (my c) (pt t) (center t)) end in
    with_center t1 (pt t1)
  else t.
(** tp_init_hysteresis, /repo/src/evdev-mt-touchpad.c:3472-3497: margins and whether it is on from the start *)
Definition init_hysteresis (fuzzx fuzzy resx resy : Z) : Z * Z * bool :=
  (if Z.eqb fuzzx 0 then Z.quot resx 4 else fuzzx, if Z.eqb fuzzy 0 then Z.quot resy 4 else fuzzy, negb (Z.eqb fuzzx 0) || negb (Z.eqb fuzzy 0)).

(** ** Pinning *)
Definition with_pin (t : touch) (b : bool) (p : point) : touch := {| pt := pt t; hist := hist t; dsq := dsq t; xh := xh t; center := center t; pinned := b; pcenter := p; again := again t |}.
(** tp_unpin_finger, /repo/src/evdev-mt-touchpad.c:782-801 *)
Definition unpin (c : cfg) (t : touch) : touch :=
  if pinned t then if Qle_bool (9 # 4) (mmsq c (pt t) (pcenter t)) then with_pin t false (pcenter t) else t else t.
(** tp_pin_fingers, /repo/src/evdev-mt-touchpad.c:803-812 *)
Definition pin (t : touch) : touch := with_pin t true (pt t).

(** ** A frame *)
Definition with_again (t : touch) (b : bool) : touch := {| pt := pt t; hist := hist t; dsq := dsq t; xh := xh t; center := center t; pinned := pinned t; pcenter := pcenter t; again := b |}.
(** tp_new_touch, /repo/src/evdev-mt-touchpad.c:313-347, then the coordinates, then tp_pre_process_state, /repo/src/evdev-mt-touchpad.c:1686-1707 *)
Definition enter (t : touch) (u : up) : touch :=
  let t1 := if u_new u then with_xh (with_pin (reset t) false (pcenter t)) 0 else t in
  let t2 := with_pt t1 (match u_x u with Some v => v | None => fst (pt t1) end, match u_y u with Some v => v | None => snd (pt t1) end) in
  if u_end u then match hist t2 with (p, _) :: _ => with_pt t2 p | [] => t2 end else t2.
(** tp_need_motion_history_reset, /repo/src/evdev-mt-touchpad.c:1452-1484: reset, motion still queued, count *)
Definition need_reset (c : cfg) (s : pad) (f : frame) : bool * bool * Z :=
  if negb (Nat.eqb (nf f) (oldn s)) then (true, motion f, nonmotion s)
  else if t450 c then
    let '(rc, m, k) := if motion f then if Z.ltb 10 (nonmotion s) then (true, false, 0) else (false, true, 0) else (false, false, nonmotion s) in
    (rc, m, if other f && negb m then k + 1 else k)
  else (false, motion f, nonmotion s).
(** The loop of tp_process_state, /repo/src/evdev-mt-touchpad.c:1709-1820; simplification: touch speed, thumbs and palms, which do not change position or history *)
Definition process_touch (c : cfg) (n old : nat) (rst moved : bool) (now : Z) (s : shared) (t : touch) (u : up) : shared * touch :=
  let t0 := enter t u in
  if u_none u then (s, t0)
  else
    let t1 := if rst then with_again (reset t0) true else if again t0 then with_again (reset t0) false else t0 in
    if negb (u_dirty u) then (s, push t1 now)
    else
      let '(j, t2) := detect_jumps c t1 now in
      let t3 := if j then reset t2 else t2 in
      let '(s1, t4) := detect_wobbling n old moved s t3 now in
      (s1, unpin c (push (motion_hysteresis c (s_hyst s1) t4) now)).
Fixpoint process_touches (c : cfg) (n old : nat) (rst moved : bool) (now : Z) (s : shared) (ts : list touch) (us : list up) : shared * list touch :=
  match ts, us with
  | t :: tr, u :: ur => let '(s1, t1) := process_touch c n old rst moved now s t u in let '(s2, r) := process_touches c n old rst moved now s1 tr ur in (s2, t1 :: r)
  | _, _ => (s, ts)
  end.
Definition step (c : cfg) (s : pad) (f : frame) : pad :=
  let '(rst, moved, k) := need_reset c s f in
  let s0 := {| s_hyst := hyst s; s_mtime := if begins f then time f else mtime s |} in
  let '(s1, ts) := process_touches c (nf f) (oldn s) rst moved (time f) s0 (touches s) (ups f) in
  {| hyst := s_hyst s1; mtime := s_mtime s1; nonmotion := k; oldn := nf f; touches := if press f && clickpad c then map pin ts else ts |}.
Definition run (c : cfg) (s : pad) (l : list frame) : pad := fold_left (step c) l s.
