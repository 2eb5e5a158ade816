(** Touch screens: touch slots, seat slots, palms, pen/touch arbitration,
    cancellation; several devices on one seat.  Modelled from
    evdev-fallback.c.

    Simplifications: coordinates are reported raw (evdev_transform_absolute is
    modelled in Matrix_Model.v); evdev_hysteresis is an arbitrary function
    [hyst] of point and centre; libinput_now() does not fail (it returns 0 only
    if clock_gettime fails, and then a suspend does nothing); the pointer
    events of absolute non-touch devices are left out. *)
Require Import Coq.ZArith.ZArith Coq.Lists.List Coq.Bool.Bool.
Import ListNotations.
Open Scope Z_scope.

Definition point := (Z * Z)%type.

(** enum mt_slot_state, /repo/src/evdev-fallback.h:48-53 *)
Inductive sstate := S_NONE | S_BEGIN | S_UPDATE | S_END.
(** enum palm_state, /repo/src/evdev-fallback.h:55-60 *)
Inductive palm := P_NONE | P_NEW | P_IS_PALM | P_WAS_PALM.
(** enum evdev_arbitration_state, /repo/src/evdev.h:156-160 *)
Inductive arb := A_NOT_ACTIVE | A_IGNORE_ALL | A_IGNORE_RECT.

(** struct mt_slot, /repo/src/evdev-fallback.h:62-69 *)
Record slot := mkSlot {
  sl_dirty : bool; sl_state : sstate;
  sl_seat : Z;                        (** seat_slot, -1 for none *)
  sl_point : point; sl_center : point; sl_palm : palm
}.

Record rect := mkRect { r_x : Z; r_y : Z; r_w : Z; r_h : Z }.
(** point_in_rect, /repo/src/libinput-private.h:852-860 *)
Definition in_rect (p : point) (r : rect) : bool :=
  (r_x r <=? fst p) && (fst p <? r_x r + r_w r) && (r_y r <=? snd p) && (snd p <? r_y r + r_h r).

(** The touch part of struct fallback_dispatch, /repo/src/evdev-fallback.h:71-163,
    and of struct evdev_device (seat_caps & EVDEV_DEVICE_TOUCH, is_mt). *)
Record dev := mkDev {
  dv_touch : bool; dv_mt : bool; dv_haspalm : bool; dv_hyst : bool;
  dv_abs : point; dv_st : Z;          (** abs.point, abs.seat_slot *)
  dv_slots : list slot; dv_cur : nat; (** mt.slots, mt.slot *)
  dv_pdown : bool; dv_pmotion : bool; dv_pup : bool; dv_pmt : bool; (** pending_event *)
  dv_inarb : bool; dv_arb : arb; dv_rect : rect;
  dv_timer : option Z                 (** arbitration_timer *)
}.

Inductive tout :=
| TDown (time slot seat : Z) (p : point)
| TMotion (time slot seat : Z) (p : point)
| TUp (time slot seat : Z)
| TCancel (time slot seat : Z)
| TFrame (time : Z).

Definition set_slots (d : dev) (l : list slot) : dev :=
  mkDev (dv_touch d) (dv_mt d) (dv_haspalm d) (dv_hyst d) (dv_abs d) (dv_st d) l (dv_cur d)
        (dv_pdown d) (dv_pmotion d) (dv_pup d) (dv_pmt d) (dv_inarb d) (dv_arb d) (dv_rect d) (dv_timer d).
Definition set_st (d : dev) (s : Z) : dev :=
  mkDev (dv_touch d) (dv_mt d) (dv_haspalm d) (dv_hyst d) (dv_abs d) s (dv_slots d) (dv_cur d)
        (dv_pdown d) (dv_pmotion d) (dv_pup d) (dv_pmt d) (dv_inarb d) (dv_arb d) (dv_rect d) (dv_timer d).
Definition set_abs (d : dev) (p : point) : dev :=
  mkDev (dv_touch d) (dv_mt d) (dv_haspalm d) (dv_hyst d) p (dv_st d) (dv_slots d) (dv_cur d)
        (dv_pdown d) true (dv_pup d) (dv_pmt d) (dv_inarb d) (dv_arb d) (dv_rect d) (dv_timer d).
Definition set_cur (d : dev) (c : nat) : dev :=
  mkDev (dv_touch d) (dv_mt d) (dv_haspalm d) (dv_hyst d) (dv_abs d) (dv_st d) (dv_slots d) c
        (dv_pdown d) (dv_pmotion d) (dv_pup d) (dv_pmt d) (dv_inarb d) (dv_arb d) (dv_rect d) (dv_timer d).
Definition set_pend (d : dev) (a b c e : bool) : dev :=
  mkDev (dv_touch d) (dv_mt d) (dv_haspalm d) (dv_hyst d) (dv_abs d) (dv_st d) (dv_slots d) (dv_cur d)
        a b c e (dv_inarb d) (dv_arb d) (dv_rect d) (dv_timer d).
Definition set_arb (d : dev) (i : bool) (a : arb) (r : rect) (t : option Z) : dev :=
  mkDev (dv_touch d) (dv_mt d) (dv_haspalm d) (dv_hyst d) (dv_abs d) (dv_st d) (dv_slots d) (dv_cur d)
        (dv_pdown d) (dv_pmotion d) (dv_pup d) (dv_pmt d) i a r t.

(** ffs(~seat->slot_map) - 1 for a 32-bit map, as in fallback_flush_mt_down,
    /repo/src/evdev-fallback.c:319: the lowest free slot, or -1. *)
Definition first_free (m : Z) : Z :=
  match find (fun i => negb (Z.testbit m i)) (map Z.of_nat (seq 0 32)) with Some i => i | None => -1 end.

Section Touch.
Variable hyst : point -> point -> point.

(** fallback_filter_defuzz_touch, /repo/src/evdev-fallback.c:135-157: the slot
    afterwards, and whether the motion is swallowed *)
Definition defuzz (want : bool) (s : slot) : slot * bool :=
  if negb want then (s, false)
  else
    let p := hyst (sl_point s) (sl_center s) in
    if (fst p =? fst (sl_center s)) && (snd p =? snd (sl_center s))
    then (mkSlot (sl_dirty s) (sl_state s) (sl_seat s) p (sl_center s) (sl_palm s), true)
    else (mkSlot (sl_dirty s) (sl_state s) (sl_seat s) p p (sl_palm s), false).

Definition set_seat (s : slot) (v : Z) : slot :=
  mkSlot (sl_dirty s) (sl_state s) v (sl_point s) (sl_center s) (sl_palm s).

(** A flush function: (seat map, slot) to (seat map, slot, event). *)
Definition fres := (Z * slot * list tout)%type.

(** fallback_flush_mt_down, /repo/src/evdev-fallback.c:297-334 *)
Definition mt_down (touch : bool) (m : Z) (s : slot) (i t : Z) : fres :=
  if negb touch then (m, s, [])
  else if negb (sl_seat s =? -1) then (m, s, [])
  else
    let n := first_free m in
    if n =? -1 then (m, set_seat s n, [])
    else (Z.setbit m n,
          mkSlot (sl_dirty s) (sl_state s) n (sl_point s) (sl_point s) (sl_palm s),
          [TDown t i n (sl_point s)]).
(** fallback_flush_mt_motion, /repo/src/evdev-fallback.c:336-365; the point
    reported is that before the hysteresis changed it *)
Definition mt_motion (touch want : bool) (m : Z) (s : slot) (i t : Z) : fres :=
  if negb touch then (m, s, [])
  else if sl_seat s =? -1 then (m, s, [])
  else let '(s', drop) := defuzz want s in
       (m, s', if drop then [] else [TMotion t i (sl_seat s) (sl_point s)]).
(** fallback_flush_mt_up, /repo/src/evdev-fallback.c:367-393 *)
Definition mt_up (touch : bool) (m : Z) (s : slot) (i t : Z) : fres :=
  if negb touch then (m, s, [])
  else if sl_seat s =? -1 then (m, set_seat s (-1), [])
  else (Z.clearbit m (sl_seat s), set_seat s (-1), [TUp t i (sl_seat s)]).
(** fallback_flush_mt_cancel, /repo/src/evdev-fallback.c:395-421 *)
Definition mt_cancel (touch : bool) (m : Z) (s : slot) (i t : Z) : fres :=
  if negb touch then (m, s, [])
  else if sl_seat s =? -1 then (m, set_seat s (-1), [])
  else (Z.clearbit m (sl_seat s), set_seat s (-1), [TCancel t i (sl_seat s)]).

Definition dres := (Z * dev * list tout)%type.
(** fallback_flush_st_down, /repo/src/evdev-fallback.c:423-456 *)
Definition st_down (m : Z) (d : dev) (t : Z) : dres :=
  if negb (dv_touch d) then (m, d, [])
  else if negb (dv_st d =? -1) then (m, d, [])
  else
    let n := first_free m in
    if n =? -1 then (m, set_st d n, [])
    else (Z.setbit m n, set_st d n, [TDown t (-1) n (dv_abs d)]).
(** fallback_flush_st_motion, /repo/src/evdev-fallback.c:458-478 *)
Definition st_motion (m : Z) (d : dev) (t : Z) : dres :=
  if dv_st d =? -1 then (m, d, []) else (m, d, [TMotion t (-1) (dv_st d) (dv_abs d)]).
(** fallback_flush_st_up, /repo/src/evdev-fallback.c:480-503 *)
Definition st_up (m : Z) (d : dev) (t : Z) : dres :=
  if negb (dv_touch d) then (m, d, [])
  else if dv_st d =? -1 then (m, set_st d (-1), [])
  else (Z.clearbit m (dv_st d), set_st d (-1), [TUp t (-1) (dv_st d)]).
(** fallback_flush_st_cancel, /repo/src/evdev-fallback.c:505-528 *)
Definition st_cancel (m : Z) (d : dev) (t : Z) : dres :=
  if negb (dv_touch d) then (m, d, [])
  else if dv_st d =? -1 then (m, set_st d (-1), [])
  else (Z.clearbit m (dv_st d), set_st d (-1), [TCancel t (-1) (dv_st d)]).

(** fallback_process_touch, /repo/src/evdev-fallback.c:597-678: the change of
    the current slot; a [mt.slot] outside the array does not occur (see
    [process_slot]) *)
Fixpoint update (l : list slot) (n : nat) (f : slot -> slot) : list slot :=
  match l, n with
  | [], _ => []
  | s :: r, O => f s :: r
  | s :: r, S n => s :: update r n f
  end.
Definition touch_slot (d : dev) (f : slot -> slot) : dev :=
  set_pend (set_slots d (update (dv_slots d) (dv_cur d)
              (fun s => let s' := f s in mkSlot true (sl_state s') (sl_seat s') (sl_point s') (sl_center s') (sl_palm s'))))
           (dv_pdown d) (dv_pmotion d) (dv_pup d) true.
(** ABS_MT_SLOT, lines 605-615: out of range values become the last slot *)
Definition process_slot (d : dev) (v : Z) : dev :=
  let len := Z.of_nat (length (dv_slots d)) in
  set_cur d (if (v <? 0) || (len <=? v) then Nat.pred (length (dv_slots d)) else Z.to_nat v).
(** ABS_MT_TRACKING_ID, lines 618-644; [tool_palm]: libevdev says that the
    slot's ABS_MT_TOOL_TYPE is MT_TOOL_PALM *)
Definition process_track (d : dev) (v : Z) (tool_palm : bool) : dev :=
  touch_slot d (fun s =>
    if 0 <=? v
    then mkSlot true S_BEGIN (sl_seat s) (sl_point s) (sl_center s) (if dv_haspalm d && tool_palm then P_WAS_PALM else P_NONE)
    else mkSlot true S_END (sl_seat s) (sl_point s) (sl_center s) (sl_palm s)).
(** ABS_MT_POSITION_X and Y, lines 645-656 *)
Definition process_x (d : dev) (v : Z) : dev :=
  touch_slot d (fun s => mkSlot true (sl_state s) (sl_seat s) (v, snd (sl_point s)) (sl_center s) (sl_palm s)).
Definition process_y (d : dev) (v : Z) : dev :=
  touch_slot d (fun s => mkSlot true (sl_state s) (sl_seat s) (fst (sl_point s), v) (sl_center s) (sl_palm s)).
(** ABS_MT_TOOL_TYPE, lines 657-676 *)
Definition process_tool (d : dev) (is_palm : bool) : dev :=
  touch_slot d (fun s => mkSlot true (sl_state s) (sl_seat s) (sl_point s) (sl_center s)
    (if is_palm then match sl_palm s with P_NONE => P_NEW | p => p end
     else match sl_palm s with P_IS_PALM => P_WAS_PALM | p => p end)).

(** fallback_arbitrate_touch, /repo/src/evdev-fallback.c:886-899 *)
Definition arbitrate (d : dev) (s : slot) : bool :=
  match dv_arb d with A_IGNORE_RECT => in_rect (sl_point s) (dv_rect d) | _ => false end.

Definition nonempty {A} (l : list A) : bool := match l with [] => false | _ => true end.

(** The body of the loop of fallback_flush_mt_events for one dirty slot,
    /repo/src/evdev-fallback.c:911-970; the last component is the assignment to
    [sent], if there is one *)
Definition flush_slot (d : dev) (m : Z) (s0 : slot) (i t : Z) : Z * slot * list tout * option bool :=
  let s := mkSlot false (sl_state s0) (sl_seat s0) (sl_point s0) (sl_center s0) (sl_palm s0) in
  let set_palm s p := mkSlot (sl_dirty s) (sl_state s) (sl_seat s) (sl_point s) (sl_center s) p in
  let wrap (r : fres) := let '(m', s', o) := r in (m', s', o, Some (nonempty o)) in
  let '(m1, s1, o1, sent) :=
    match sl_palm s with
    | P_NEW =>
        let '(m', s', o, r) :=
          match sl_state s with
          | S_BEGIN => (m, s, [], None)
          | _ => wrap (mt_cancel (dv_touch d) m s i t)
          end in (m', set_palm s' P_IS_PALM, o, r)
    | P_NONE =>
        match sl_state s with
        | S_BEGIN => if arbitrate d s then (m, set_palm s P_IS_PALM, [], None)
                     else wrap (mt_down (dv_touch d) m s i t)
        | S_UPDATE => wrap (mt_motion (dv_touch d) (dv_hyst d) m s i t)
        | S_END => wrap (mt_up (dv_touch d) m s i t)
        | S_NONE => (m, s, [], None)
        end
    | _ => (m, s, [], None)
    end in
  let st := match sl_state s1 with S_BEGIN => S_UPDATE | S_END => S_NONE | x => x end in
  (m1, mkSlot (sl_dirty s1) st (sl_seat s1) (sl_point s1) (sl_center s1) (sl_palm s1), o1, sent).

(** fallback_flush_mt_events, /repo/src/evdev-fallback.c:901-974; note that a
    later slot overwrites [sent] *)
Fixpoint flush_mt (d : dev) (m : Z) (l : list slot) (i t : Z) (sent : bool) : Z * list slot * list tout * bool :=
  match l with
  | [] => (m, [], [], sent)
  | s :: r =>
      if negb (sl_dirty s) then
        let '(m2, r', o2, sent2) := flush_mt d m r (i + 1) t sent in (m2, s :: r', o2, sent2)
      else
        let '(m1, s', o1, sn) := flush_slot d m s i t in
        let '(m2, r', o2, sent2) := flush_mt d m1 r (i + 1) t (match sn with Some b => b | None => sent end) in
        (m2, s' :: r', o1 ++ o2, sent2)
  end.

(** fallback_handle_state, /repo/src/evdev-fallback.c:976-1040, touches *)
Definition handle_state (m : Z) (d : dev) (t : Z) : dres :=
  let '(m1, d1, o1) :=
    if dv_pdown d then st_down m d t
    else if dv_pmotion d && dv_touch d then st_motion m d t else (m, d, []) in
  let '(m2, d2, o2) := if dv_pup d1 then st_up m1 d1 t else (m1, d1, []) in
  let need := nonempty o1 || nonempty o2 in
  let '(m3, l, o3, need3) :=
    if dv_pmt d2 then flush_mt d2 m2 (dv_slots d2) 0 t false else (m2, dv_slots d2, [], need) in
  (m3, set_pend (set_slots d2 l) false false false false, o1 ++ o2 ++ o3 ++ (if need3 then [TFrame t] else [])).

(** cancel_touches, /repo/src/evdev-fallback.c:1072-1099 *)
Fixpoint cancel_slots (touch : bool) (r : option rect) (m : Z) (l : list slot) (i t : Z) : Z * list slot * list tout :=
  match l with
  | [] => (m, [], [])
  | s :: q =>
      let '(m1, s1, o1) :=
        if negb (sl_seat s =? -1) && (match r with None => true | Some r => in_rect (sl_point s) r end)
        then mt_cancel touch m s i t else (m, s, []) in
      let '(m2, q', o2) := cancel_slots touch r m1 q (i + 1) t in
      (m2, s1 :: q', o1 ++ o2)
  end.
Definition cancel_touches (m : Z) (d : dev) (r : option rect) (t : Z) : dres :=
  let '(m1, d1, o1) :=
    if (match r with None => true | Some r => in_rect (dv_abs d) r end) then st_cancel m d t else (m, d, []) in
  let '(m2, l, o2) := cancel_slots (dv_touch d1) r m1 (dv_slots d1) 0 t in
  (m2, set_slots d1 l, o1 ++ o2 ++ (if nonempty o1 || nonempty o2 then [TFrame t] else [])).

(** fallback_interface_toggle_touch, /repo/src/evdev-fallback.c:1249-1288 *)
Definition arb_eqb (a b : arb) : bool :=
  match a, b with
  | A_NOT_ACTIVE, A_NOT_ACTIVE | A_IGNORE_ALL, A_IGNORE_ALL | A_IGNORE_RECT, A_IGNORE_RECT => true
  | _, _ => false
  end.
Definition toggle_touch (m : Z) (d : dev) (which : arb) (r : rect) (t : Z) : dres :=
  if arb_eqb which (dv_arb d) then (m, d, [])
  else match which with
  | A_NOT_ACTIVE => (m, set_arb d (dv_inarb d) A_NOT_ACTIVE (dv_rect d) (Some (t + 90000)), [])
  | A_IGNORE_RECT =>
      let '(m1, d1, o) := cancel_touches m d (Some r) t in
      (m1, set_arb d1 (dv_inarb d1) A_IGNORE_RECT r (dv_timer d1), o)
  | A_IGNORE_ALL =>
      let '(m1, d1, o) := cancel_touches m (set_arb d (dv_inarb d) (dv_arb d) (dv_rect d) None) None t in
      (m1, set_arb d1 true A_IGNORE_ALL (dv_rect d1) (dv_timer d1), o)
  end.

Inductive top :=
| Slot (v : Z) | Track (v : Z) (tool_palm : bool) | PosX (v : Z) | PosY (v : Z) | Tool (is_palm : bool)
| AbsX (v : Z) | AbsY (v : Z) | BtnTouch (v : Z)
| Syn (t : Z)
| Suspend (t : Z)                            (** also disable and removal *)
| Arbitrate (which : arb) (r : rect) (t : Z) | UpdateRect (r : rect)
| ArbTimer (t : Z).

(** fallback_interface_process, /repo/src/evdev-fallback.c:1042-1070, and the
    other entry points.  fallback_process_absolute, /repo/src/evdev-fallback.c:859-870;
    fallback_process_absolute_motion, lines 680-697; fallback_process_touch_button
    and the BTN_TOUCH case of fallback_process_key, lines 530-558;
    fallback_interface_suspend, lines 1167-1174; fallback_interface_update_rect,
    lines 1231-1247; fallback_arbitration_timeout, lines 1684-1691. *)
Definition tstep (m : Z) (d : dev) (o : top) : dres :=
  let kernel (r : dres) := if dv_inarb d then (m, d, []) else r in
  let mt (x : dev) := kernel (m, if dv_mt d then x else d, []) in
  let st (x : dev) := kernel (m, if dv_mt d then d else x, []) in
  match o with
  | Slot v => mt (process_slot d v)
  | Track v p => mt (process_track d v p)
  | PosX v => mt (process_x d v)
  | PosY v => mt (process_y d v)
  | Tool p => mt (process_tool d p)
  | AbsX v => st (set_abs d (v, snd (dv_abs d)))
  | AbsY v => st (set_abs d (fst (dv_abs d), v))
  | BtnTouch v => st (if v =? 2 then d
                      else if v =? 0 then set_pend d (dv_pdown d) (dv_pmotion d) true (dv_pmt d)
                      else set_pend d true (dv_pmotion d) (dv_pup d) (dv_pmt d))
  | Syn t => kernel (handle_state m d t)
  | Suspend t => cancel_touches m d None t
  | Arbitrate w r t => toggle_touch m d w r t
  | UpdateRect r => (m, set_arb d (dv_inarb d) (dv_arb d) r (dv_timer d), [])
  | ArbTimer t => (m, set_arb d false (dv_arb d) (dv_rect d) None, [])
  end.

(** A seat with its touch devices, numbered; struct libinput_seat.slot_map,
    /repo/src/libinput-private.h:180 *)
Record seat := mkSeat { w_map : Z; w_dev : nat -> dev }.
Definition wstep (w : seat) (a : nat * top) : seat * list (nat * tout) :=
  let '(k, o) := a in
  let '(m, d, l) := tstep (w_map w) (w_dev w k) o in
  (mkSeat m (fun j => if Nat.eqb j k then d else w_dev w j), map (fun e => (k, e)) l).
Fixpoint wrun (w : seat) (ops : list (nat * top)) : seat * list (nat * tout) :=
  match ops with
  | [] => (w, [])
  | a :: r => let '(w1, o1) := wstep w a in let '(w2, o2) := wrun w1 r in (w2, o1 ++ o2)
  end.
End Touch.

(** fallback_dispatch_init_slots, fallback_dispatch_init_abs and
    fallback_init_arbitration, /repo/src/evdev-fallback.c:1576-1710.
    [st] is the initial abs.seat_slot: -1 if the device has ABS_X, else 0 from
    zalloc (lines 1651-1656 return early). *)
Definition dev_init (touch mt haspalm hys : bool) (abs_ : point) (has_abs_x : bool) (points : list point) (cur : nat) : dev :=
  mkDev touch mt haspalm hys abs_ (if has_abs_x then -1 else 0)
        (map (fun p => mkSlot false S_NONE (-1) p (0, 0) P_NONE) points) cur
        false false false false false A_NOT_ACTIVE (mkRect 0 0 0 0) None.
