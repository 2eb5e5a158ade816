(** * Touchpad gestures: two-finger scrolling, pinch, swipe, pointer motion *)
(** src/evdev-mt-touchpad-gestures.c.  Lengths are compared through their squares (hypot), the scale of a pinch is given by its square; doubles are exact rationals.
    atan2, the motion filters and what other parts of the touchpad code decide about touches are inputs. *)
Require Import Coq.ZArith.ZArith Coq.QArith.QArith Coq.QArith.Qabs Coq.QArith.Qround Coq.Lists.List Coq.Bool.Bool.
Require Import Verif.Scroll_Model.
Require Verif.Es_Model.
Import ListNotations.
Open Scope Z_scope.

(** enum tp_gesture_state, /repo/src/evdev-mt-touchpad.h:157-163 *)
Inductive gstate := G_NONE | G_UNKNOWN | G_SCROLL | G_PINCH | G_SWIPE.
(** A number that may be the result of a division by zero *)
Inductive num := Fin (q : Q) | Inf | NaN.
(** The touchpad: slots, gesture.enabled as tp_init_gesture sets it (/repo/src/evdev-mt-touchpad-gestures.c:881-901), resolutions, thumb.detect_thumbs.
    [oct x y]: atan2(y, x) turned into eighths of a full turn from north, in [0, 8) (/repo/src/libinput-private.h:787-830) *)
Record gpad := { slots : nat; enabled : bool; rx : Z; ry : Z; thumbs : bool; oct : Q -> Q -> Q }.
(** A touch in a frame: tp_touch_active_for_gesture, dirty, point, tp_get_delta *)
Record gtouch := { act : bool; gdirty : bool; gx : Z; gy : Z; gdx : Z; gdy : Z }.
(** A frame: the touches; the filters, as they are then (accelerated, unaccelerated); the angle between the two tracked touches in degrees (atan2);
    thumb.pinch_eligible; TOUCHPAD_EVENT_MOTION is queued; is_clickpad and a button is down *)
Record gframe := { tl : list gtouch; acc : Q * Q -> Q * Q; una : Q * Q -> Q * Q; ang : Q; elig : bool; moved : bool; held : bool }.

(** What the client gets; [TThumb i]: no event, tp_thumb_suppress is called for touch [i] *)
Inductive gkind := Swipe | Pinch.
Inductive gout :=
| TBegin (k : gkind) (n : nat) (t : Z)
| TUpdate (k : gkind) (n : nat) (t : Z) (d u : Q * Q) (scale : num) (angle : Q)
| TEnd (k : gkind) (n : nat) (t : Z) (cancelled : bool) (scale : num)
| TAxis (a : sout)
| TMotion (t : Z) (d : Q * Q)
| TThumb (i : nat).

(** gesture.touches, the touches' gesture.initial, initial_time *)
Record det := { i0 : nat; i1 : nat; p0 : Z * Z; p1 : Z * Z; itime : Z }.
(** scroll.active, duration, vector, time_prev *)
Record slock := { ah : bool; av : bool; dh : Z; dv : Z; vx : Q; vy : Q; tprev : Z }.
(** gesture.initial_distance (squared), angle, center, prev_scale *)
Record pinch := { dist : Q; pang : Q; pcx : Q; pcy : Q; psc : num }.
Record g := { fc : nat; pend : nat; started : bool; gst : gstate; dt : det; sl : slock; pn : pinch; tmr : option Z; meth : Es_Model.smethod; sc : scr; out : list gout }.
Definition slock0 : slock := {| ah := false; av := false; dh := 0; dv := 0; vx := 0; vy := 0; tprev := 0 |}.
Definition det0 : det := {| i0 := 0; i1 := 0; p0 := (0, 0); p1 := (0, 0); itime := 0 |}.
Definition pinch0 : pinch := {| dist := 0; pang := 0; pcx := 0; pcy := 0; psc := Fin 0 |}.
(** tp_init_gesture, /repo/src/evdev-mt-touchpad-gestures.c:881-901, and the touchpad's scroll thresholds *)
Definition ginit (m : Es_Model.smethod) : g :=
  {| fc := 0; pend := 0; started := false; gst := G_NONE; dt := det0; sl := slock0; pn := pinch0; tmr := None; meth := m; sc := scr_touchpad; out := [] |}.

Definition with_out (s : g) (o : list gout) : g := {| fc := fc s; pend := pend s; started := started s; gst := gst s; dt := dt s; sl := sl s; pn := pn s; tmr := tmr s; meth := meth s; sc := sc s; out := out s ++ o |}.
Definition with_gst (s : g) (x : gstate) : g := {| fc := fc s; pend := pend s; started := started s; gst := x; dt := dt s; sl := sl s; pn := pn s; tmr := tmr s; meth := meth s; sc := sc s; out := out s |}.
Definition with_started (s : g) (b : bool) : g := {| fc := fc s; pend := pend s; started := b; gst := gst s; dt := dt s; sl := sl s; pn := pn s; tmr := tmr s; meth := meth s; sc := sc s; out := out s |}.
Definition with_count (s : g) (n m : nat) : g := {| fc := n; pend := m; started := started s; gst := gst s; dt := dt s; sl := sl s; pn := pn s; tmr := tmr s; meth := meth s; sc := sc s; out := out s |}.
Definition with_tmr (s : g) (x : option Z) : g := {| fc := fc s; pend := pend s; started := started s; gst := gst s; dt := dt s; sl := sl s; pn := pn s; tmr := x; meth := meth s; sc := sc s; out := out s |}.
Definition with_dt (s : g) (d : det) : g := {| fc := fc s; pend := pend s; started := started s; gst := gst s; dt := d; sl := sl s; pn := pn s; tmr := tmr s; meth := meth s; sc := sc s; out := out s |}.
Definition with_sl (s : g) (x : slock) : g := {| fc := fc s; pend := pend s; started := started s; gst := gst s; dt := dt s; sl := x; pn := pn s; tmr := tmr s; meth := meth s; sc := sc s; out := out s |}.
Definition with_pn (s : g) (x : pinch) : g := {| fc := fc s; pend := pend s; started := started s; gst := gst s; dt := dt s; sl := sl s; pn := x; tmr := tmr s; meth := meth s; sc := sc s; out := out s |}.
Definition with_meth (s : g) (m : Es_Model.smethod) : g := {| fc := fc s; pend := pend s; started := started s; gst := gst s; dt := dt s; sl := sl s; pn := pn s; tmr := tmr s; meth := m; sc := sc s; out := out s |}.
Definition with_sc (s : g) (x : scr) : g := {| fc := fc s; pend := pend s; started := started s; gst := gst s; dt := dt s; sl := sl s; pn := pn s; tmr := tmr s; meth := meth s; sc := x; out := out s |}.
Definition with_pend (s : g) (m : nat) : g := with_count s (fc s) m.

(** ** Motion of the touches *)
(** tp_get_touches_delta, /repo/src/evdev-mt-touchpad-gestures.c:48-80: only the slots; [average] *)
Definition sumz (f : gtouch -> Z) (l : list gtouch) : Z := fold_right (fun t z => f t + z) 0 l.
Definition touches_delta (p : gpad) (f : gframe) (average : bool) : Q * Q :=
  let l := filter act (firstn (slots p) (tl f)) in
  let d h := inject_Z (sumz (fun t => if gdirty t then h t else 0) l) in
  let n := inject_Z (Z.of_nat (length l)) in
  if negb average || Nat.eqb (length l) 0 then (d gdx, d gdy) else (Qdiv (d gdx) n, Qdiv (d gdy) n)%Q.
Definition zero2 (d : Q * Q) : bool := Qeq_bool (fst d) 0 && Qeq_bool (snd d) 0.
(** tp_filter_motion, tp_filter_motion_unaccelerated, /repo/src/evdev-mt-touchpad.c:60-76, /repo/src/evdev-mt-touchpad.c:78-94 *)
Definition filtered (raw : Q * Q) (flt : Q * Q -> Q * Q) : Q * Q := if zero2 raw then (0, 0)%Q else flt raw.
(** tp_phys_delta, /repo/src/evdev-mt-touchpad.h:560-570 *)
Definition mm (p : gpad) (d : Q * Q) : Q * Q := (Qdiv (fst d) (inject_Z (rx p)), Qdiv (snd d) (inject_Z (ry p))).
Definition at_ (f : gframe) (i : nat) : Z * Z := match nth_error (tl f) i with Some t => (gx t, gy t) | None => (0, 0) end.
Definition diff (a b : Z * Z) : Q * Q := (inject_Z (fst a - fst b), inject_Z (snd a - snd b)).
Definition sq (d : Q * Q) : Q := (fst d * fst d + snd d * snd d)%Q.

(** ** Directions *)
(** xy_get_direction, /repo/src/libinput-private.h:787-830: sets of the eight directions, bit 0 is N, bit 1 is NE and so on *)
Definition get_direction (p : gpad) (d : Q * Q) : N :=
  let x := fst d in let y := snd d in
  let lt0 q := negb (Qle_bool 0 q) in let gt0 q := negb (Qle_bool q 0) in
  if negb (Qle_bool 2 (Qabs x)) && negb (Qle_bool 2 (Qabs y)) then
    if gt0 x && gt0 y then 28%N (* S SE E *)
    else if gt0 x && lt0 y then 7%N (* N NE E *)
    else if lt0 x && gt0 y then 112%N (* S SW W *)
    else if lt0 x && lt0 y then 193%N (* N NW W *)
    else if gt0 x then 14%N else if lt0 x then 224%N else if gt0 y then 56%N else if lt0 y then 131%N else 255%N
  else
    let r := oct p x y in
    let d1 := Z.modulo (Qfloor (r + (9 # 10))) 8 in let d2 := Z.modulo (Qfloor (r + (1 # 10))) 8 in
    N.lor (N.shiftl 1 (Z.to_N d1)) (N.shiftl 1 (Z.to_N d2)).
(** tp_gesture_same_directions, /repo/src/evdev-mt-touchpad-gestures.c:206-220 *)
Definition same_directions (a b : N) : bool :=
  negb (N.eqb (N.land (N.lor a (N.shiftr a 1)) b) 0) || negb (N.eqb (N.land (N.lor b (N.shiftr b 1)) a) 0) ||
  (N.testbit a 7 && N.testbit b 0) || (N.testbit b 7 && N.testbit a 0).

(** ** Starting and ending *)
(** tp_gesture_start with tp_gesture_init_scroll, /repo/src/evdev-mt-touchpad-gestures.c:106-139, /repo/src/evdev-mt-touchpad-gestures.c:82-92 *)
Definition gstart (s : g) (t : Z) : g :=
  if started s then s
  else with_started match gst s with
       | G_NONE | G_UNKNOWN => s
       | G_SCROLL => with_sl s slock0
       | G_PINCH => with_out s [TBegin Pinch (fc s) t]
       | G_SWIPE => with_out s [TBegin Swipe (fc s) t]
       end true.
(** tp_gesture_stop_twofinger_scroll, /repo/src/evdev-mt-touchpad-gestures.c:772-781 *)
Definition stop_2fg (s : g) (t : Z) : g :=
  match meth s with Es_Model.M_2FG => let '(c, o) := stop_scroll (sc s) t in with_out (with_sc s c) (map TAxis o) | _ => s end.
(** tp_gesture_end, /repo/src/evdev-mt-touchpad-gestures.c:783-818 *)
Definition gend (s : g) (t : Z) (cancelled : bool) : g :=
  let x := gst s in let s := with_gst s G_NONE in
  if started s then
    with_started match x with
    | G_NONE | G_UNKNOWN => s
    | G_SCROLL => stop_2fg s t
    | G_PINCH => with_out s [TEnd Pinch (fc s) t cancelled (psc (pn s))]
    | G_SWIPE => with_out s [TEnd Swipe (fc s) t cancelled (Fin 0)]
    end false
  else s.

(** ** Recognising gestures *)
(** tp_gesture_get_active_touches, /repo/src/evdev-mt-touchpad-gestures.c:175-204: the indices of the first four active touches *)
Fixpoint active_from (i : nat) (l : list gtouch) : list nat := match l with [] => [] | t :: l => if act t then i :: active_from (S i) l else active_from (S i) l end.
Definition active_touches (f : gframe) : list nat := firstn 4 (active_from 0 (tl f)).
(** The loop in tp_gesture_handle_state_none: the topmost and the bottommost of the touches after the first *)
Fixpoint top_bottom (f : gframe) (first second : nat) (l : list nat) : nat * nat :=
  match l with
  | [] => (first, second)
  | i :: l => if snd (at_ f i) <? snd (at_ f first) then top_bottom f i second l
              else if snd (at_ f second) <=? snd (at_ f i) then top_bottom f first i l else top_bottom f first second l
  end.
(** tp_gesture_handle_state_none, /repo/src/evdev-mt-touchpad-gestures.c:549-609 *)
Definition st_none (p : gpad) (s : g) (f : gframe) (t : Z) : g :=
  let track a b := with_gst (with_dt s {| i0 := a; i1 := b; p0 := at_ f a; p1 := at_ f b; itime := t |}) G_UNKNOWN in
  match active_touches f with
  | [] | [_] => s
  | [a; b] => if enabled p then track a b else with_gst s G_SCROLL
  | a :: l => if enabled p then let '(x, y) := top_bottom f a a (firstn (slots p - 1) l) in if Nat.eqb x y then s else track x y else s
  end.
(** tp_gesture_get_pinch_info, /repo/src/evdev-mt-touchpad-gestures.c:245-262; distances are squared and in mm, which differs from normalized units by a factor *)
Definition pinch_dist (p : gpad) (s : g) (f : gframe) : Q := sq (mm p (diff (at_ f (i0 (dt s))) (at_ f (i1 (dt s))))).
Definition center (s : g) (f : gframe) : Q * Q :=
  let a := at_ f (i0 (dt s)) in let b := at_ f (i1 (dt s)) in (inject_Z (fst a + fst b) / 2, inject_Z (snd a + snd b) / 2)%Q.
(** tp_gesture_init_pinch, /repo/src/evdev-mt-touchpad-gestures.c:264-272 *)
Definition init_pinch (p : gpad) (s : g) (f : gframe) : g :=
  with_gst (with_pn s {| dist := pinch_dist p s f; pang := ang f; pcx := fst (center s f); pcy := snd (center s f); psc := Fin 1 |}) G_PINCH.
(** tp_gesture_set_scroll_buildup, /repo/src/evdev-mt-touchpad-gestures.c:274-287; 1000 dpi are 5000/127 per mm *)
Definition to_scroll (p : gpad) (s : g) (f : gframe) : g :=
  let a := mm p (diff (at_ f (i0 (dt s))) (p0 (dt s))) in let b := mm p (diff (at_ f (i1 (dt s))) (p1 (dt s))) in
  let c := sc s in
  with_gst (with_sc s (mkScr (c_thr c) (c_dlock c) (c_inv c) (c_nat c) ((fst a + fst b) / 2 * (5000 # 127)) ((snd a + snd b) / 2 * (5000 # 127)) (c_v c) (c_h c))%Q) G_SCROLL.
(** tp_gesture_detect_motion_gestures, /repo/src/evdev-mt-touchpad-gestures.c:417-547 *)
Definition lt_sq (x y : Q) : bool := negb (Qle_bool (y * y) x).   (* sqrt x < y *)
Definition detect (p : gpad) (s : g) (f : gframe) (t : Z) : g :=
  let n := fc s in
  if enabled p && (2 <? n)%nat && (slots p <? n)%nat then with_gst s G_SWIPE else
  let extra := inject_Z (Z.of_nat n - 2) in
  let max_move := (4 + 2 * extra)%Q in let min_move := ((3 # 2) + (1 # 2) * extra)%Q in
  let a := at_ f (i0 (dt s)) in let b := at_ f (i1 (dt s)) in
  let m0 := mm p (diff a (p0 (dt s))) in let m1 := mm p (diff b (p1 (dt s))) in
  let first := sq m0 in let second := sq m1 in
  let d := mm p (diff a b) in
  if lt_sq first 1 && lt_sq second 1 then s else
  let '(thumb, thumb_mm, finger_mm) := if snd b <? snd a then (i0 (dt s), first, second) else (i1 (dt s), second, first) in
  if (negb (enabled p) || (negb (Qle_bool 40 (Qabs (fst d))) && negb (Qle_bool 7 (Qabs (snd d))))) && (itime (dt s) + 150000 <? t) then
    if Nat.eqb n 2 then to_scroll p s f else with_gst s G_SWIPE
  else
  let big := negb (lt_sq first max_move) || negb (lt_sq second max_move) in
  if big && thumbs p && lt_sq thumb_mm min_move then with_gst (with_out s [TThumb thumb]) G_NONE
  else if big && (negb (enabled p) || lt_sq finger_mm min_move) && Nat.eqb n 2 then to_scroll p s f
  else if big && lt_sq finger_mm min_move && (2 <? n)%nat && enabled p && elig f then init_pinch p s f
  else if lt_sq first min_move || lt_sq second min_move then s
  else
  let same := (slots p <? n)%nat || same_directions (get_direction p m0) (get_direction p m1) in
  if same && Nat.eqb n 2 then to_scroll p s f
  else if same && enabled p then with_gst s G_SWIPE
  else init_pinch p s f.

(** ** Two-finger scrolling *)
(** tp_gesture_apply_scroll_constraints, /repo/src/evdev-mt-touchpad-gestures.c:289-415.  [steep k v]: slope >= k; time never goes back (else the difference wraps and counts as a timeout) *)
Definition steep (k : Q) (x y : Q) : bool := Qeq_bool x 0 || Qle_bool (k * Qabs x) (Qabs y).
Definition constrain (p : gpad) (l : slock) (raw delta : Q * Q) (t : Z) : slock * (Q * Q) :=
  if ah l && av l then (l, delta) else
  let td := if tprev l =? 0 then 0 else t - tprev l in
  let td := if (td <? 0) || (100000 <? td) then 0 else td in
  let m := mm p raw in
  let q := inject_Z td in
  let decay := (if 0 <? td then if Qle_bool q 33000 then (50000 - q) / 50000 else (100000 - q) / 200000 else 0)%Q in
  let x := (vx l * decay + fst m)%Q in let y := (vy l * decay + snd m)%Q in
  let len := sq (x, y) in
  let big := negb (Qle_bool len ((15 # 100) * (15 # 100))) in
  let s30 := steep (57 # 100) x y in let s60 := steep (173 # 100) x y in let s75 := steep (373 # 100) x y in let s15 := steep (27 # 100) x y in
  let sub d := if td <? d then d - td else 0 in
  let v1 := if s30 && big then Z.min (dv l + td) 100000 else dv l in
  let h1 := if s30 && big && s75 then sub (dh l) else dh l in
  let h2 := if negb s60 && big then Z.min (h1 + td) 100000 else h1 in
  let v2 := if negb s60 && big && negb s15 then sub v1 else v1 in
  let '(a_h, a_v) := if h2 =? 100000 then (true, if v2 <? 50000 then false else av l) else (ah l, av l) in
  let '(a_h, a_v) := if v2 =? 100000 then (if h2 <? 50000 then false else a_h, true) else (a_h, a_v) in
  let '(a_h, a_v) := if negb (Qle_bool len 25) && negb s60 && s30 then (true, true) else (a_h, a_v) in
  let dx := if (negb a_h && a_v) || (negb a_h && negb a_v && s60) then 0%Q else fst delta in
  let dy := if (a_h && negb a_v) || (negb a_h && negb a_v && negb s30) then 0%Q else snd delta in
  ({| ah := a_h; av := a_v; dh := h2; dv := v2; vx := x; vy := y; tprev := t |}, (dx, dy)).
(** tp_gesture_handle_state_scroll, /repo/src/evdev-mt-touchpad-gestures.c:618-643 *)
Definition st_scroll (p : gpad) (s : g) (f : gframe) (t : Z) : g :=
  match meth s with
  | Es_Model.M_2FG =>
      let raw := touches_delta p f true in
      let delta := filtered raw (una f) in
      if zero2 delta then s
      else let s := gstart s t in
           let '(l, d) := constrain p (sl s) raw delta t in
           let '(c, o) := post_scroll (sc s) t (fst d) (snd d) in
           with_out (with_sc (with_sl s l) c) (map TAxis o)
  | _ => s
  end.
(** ** Swipe and pinch *)
(** tp_gesture_handle_state_swipe, /repo/src/evdev-mt-touchpad-gestures.c:645-664 *)
Definition st_swipe (p : gpad) (s : g) (f : gframe) (t : Z) : g :=
  let raw := touches_delta p f true in
  let delta := filtered raw (acc f) in
  if zero2 delta && zero2 raw then s
  else let s := gstart s t in with_out s [TUpdate Swipe (fc s) t delta (filtered raw (una f)) (Fin 0) 0].
(** tp_gesture_handle_state_pinch, /repo/src/evdev-mt-touchpad-gestures.c:666-703.  Distances and scales are the squares of those of the code: no square root is taken *)
Definition ratio (a b : Q) : num := if Qeq_bool b 0 then if Qeq_bool a 0 then NaN else Inf else Fin (a / b).
Definition num_eqb (a b : num) : bool := match a, b with Fin x, Fin y => Qeq_bool x y | Inf, Inf => true | _, _ => false end.
Definition turn (d : Q) : Q := (if negb (Qle_bool d 180) then d - 360 else if negb (Qle_bool (-180) d) then d + 360 else d)%Q.
Definition st_pinch (p : gpad) (s : g) (f : gframe) (t : Z) : g :=
  let scale := ratio (pinch_dist p s f) (dist (pn s)) in
  let da := turn (ang f - pang (pn s))%Q in
  let c := center s f in
  let fd := (fst c - pcx (pn s), snd c - pcy (pn s))%Q in
  let prev := psc (pn s) in
  let upd z := {| dist := dist (pn s); pang := ang f; pcx := fst c; pcy := snd c; psc := z |} in
  let delta := filtered fd (acc f) in
  if zero2 delta && zero2 fd && num_eqb scale prev && Qeq_bool da 0 then with_pn s (upd prev)
  else let s := gstart s t in with_pn (with_out s [TUpdate Pinch (fc s) t delta (filtered fd (una f)) scale da]) (upd scale).
(** tp_gesture_post_gesture, /repo/src/evdev-mt-touchpad-gestures.c:705-735 *)
Definition post_gesture (p : gpad) (s : g) (f : gframe) (t : Z) : g :=
  let s := match gst s with G_NONE => st_none p s f t | _ => s end in
  let s := match gst s with G_UNKNOWN => detect p s f t | _ => s end in
  let s := match gst s with G_SCROLL => st_scroll p s f t | _ => s end in
  let s := match gst s with G_SWIPE => st_swipe p s f t | _ => s end in
  match gst s with G_PINCH => st_pinch p s f t | _ => s end.
(** tp_gesture_post_pointer_motion, /repo/src/evdev-mt-touchpad-gestures.c:155-173; the unaccelerated delta of the event is left out *)
Definition post_motion (p : gpad) (s : g) (f : gframe) (t : Z) : g :=
  let raw := touches_delta p f (negb (held f)) in
  let delta := filtered raw (acc f) in
  if zero2 delta && zero2 raw then s else with_out s [TMotion t delta].
(** tp_gesture_post_events, /repo/src/evdev-mt-touchpad-gestures.c:737-770; [one]: a tap-and-drag, or the clickpad is held down with a finger *)
Definition gpost (p : gpad) (s : g) (f : gframe) (one : bool) (t : Z) : g :=
  match fc s with
  | O => s
  | _ =>
      let s := if one then with_count (gend s t true) 1 0 else s in
      match pend s with
      | S _ => s
      | O => match fc s with
             | 1%nat => if moved f then post_motion p s f t else s
             | 2%nat | 3%nat | 4%nat => post_gesture p s f t
             | _ => s
             end
      end
  end.
(** tp_gesture_handle_state, /repo/src/evdev-mt-touchpad-gestures.c:845-879 *)
Definition count (f : gframe) : nat := length (filter act (tl f)).
Definition ghandle (s : g) (f : gframe) (t : Z) : g :=
  let n := count f in
  if Nat.eqb n (fc s) then with_pend s 0
  else if Nat.eqb n 0 then with_count (gend s t false) 0 0
  else if negb (started s) then with_gst (with_count s n 0) G_NONE
  else if Nat.eqb n (pend s) then s
  else with_tmr (with_pend s n) (Some (t + 100000)).

(** ** The device *)
(** What tp_post_events does, /repo/src/evdev-mt-touchpad.c:1855-1881: [GSilent]: the device is suspended; [GIgnored]: a tap, a button, the trackpoint or typing has priority;
    [GEdge]: edge scrolling has sent events; [GGo one] *)
Inductive ghow := GSilent | GIgnored | GEdge | GGo (one : bool).
Inductive ginput :=
| GFrame (f : gframe) (h : ghow) (t : Z)
| GTimer (t : Z)                         (* the libinput_timer list runs; tp_gesture_finger_count_switch_timeout, /repo/src/evdev-mt-touchpad-gestures.c:832-843 *)
| GStop (t : Z)                          (* tp_stop_actions, /repo/src/evdev-mt-touchpad.c:451-457 *)
| GSetMethod (m : Es_Model.smethod) (t : Z)  (* /repo/src/evdev-mt-touchpad.c:3068-3085 *)
| GSetNatural (b : bool).
Definition gstep (p : gpad) (s : g) (i : ginput) : g :=
  match i with
  | GFrame f h t =>
      let s := ghandle s f t in
      match h with GSilent | GEdge => s | GIgnored => gend s t true | GGo one => gpost p s f one t end
  | GTimer t =>
      match tmr s with
      | Some x => if x <=? t then let s := with_tmr s None in match pend s with O => s | n => with_count (gend s t true) n 0 end else s
      | None => s
      end
  | GStop t => gend s t true
  | GSetMethod m t => if Es_Model.smethod_eqb m (meth s) then s else with_meth (stop_2fg s t) m
  | GSetNatural b => with_sc s (set_natural (sc s) b)
  end.
Definition grun (p : gpad) (s : g) (l : list ginput) : g := fold_left (gstep p) l s.
