(** * Edge scrolling *)
(** src/evdev-mt-touchpad-edge-scroll.c.  Each touch has its own state machine and touches do not interact, so a device is a list of
    touches that are handled in turn; events carry the index of the touch they come from (the client does not see it). *)
Require Import Coq.ZArith.ZArith Coq.QArith.QArith Coq.QArith.Qabs Coq.Lists.List Coq.Bool.Bool.
Require Verif.Tp_Model.
Import ListNotations.
Open Scope Z_scope.

Inductive axis := VERTICAL | HORIZONTAL.
(** enum tp_edge_scroll_touch_state, /repo/src/evdev-mt-touchpad.h:150-155 *)
Inductive estate := E_NONE | E_NEW | E_EDGE | E_AREA.
(** scroll of struct tp_touch; [er], [eb]: EDGE_RIGHT, EDGE_BOTTOM; [dir]: direction, None for -1 *)
Record et := { est : estate; er : bool; eb : bool; tmr : option Z; x0 : Z; y0 : Z; dir : option axis }.
Definition et0 : et := {| est := E_NONE; er := false; eb := false; tmr := None; x0 := 0; y0 := 0; dir := None |}.
(** The touchpad: range, resolution in units per mm *)
Record epad := { minx : Z; maxx : Z; resx : Z; miny : Z; maxy : Z; resy : Z; clickpad : bool }.
Definition INT_MAX : Z := 2147483647.
(** tp_edge_scroll_init, /repo/src/evdev-mt-touchpad-edge-scroll.c:304-350: evdev_device_get_size and evdev_device_mm_to_units of 7 mm less; exact, as
    (max - min) / res * res is *)
Definition right_edge (p : epad) : Z := maxx p - 7 * resx p.
Definition bottom_edge (p : epad) : Z := if clickpad p || (40 * resy p <=? maxy p - miny p) then maxy p - 7 * resy p else INT_MAX.
(** scroll.method; click_method is BUTTON_AREAS *)
Inductive smethod := M_NO_SCROLL | M_2FG | M_EDGE.
Record cfg := { method : smethod; btn_areas : bool }.
Definition edge_on (c : cfg) : bool := match method c with M_EDGE => true | _ => false end.
Definition smethod_eqb (a b : smethod) : bool := match a, b with M_NO_SCROLL, M_NO_SCROLL | M_2FG, M_2FG | M_EDGE, M_EDGE => true | _, _ => false end.
(** tp_touch_get_edge, /repo/src/evdev-mt-touchpad-edge-scroll.c:72-87 *)
Definition at_right (p : epad) (c : cfg) (x : Z) : bool := edge_on c && (right_edge p <? x).
Definition at_bottom (p : epad) (c : cfg) (y : Z) : bool := edge_on c && (bottom_edge p <? y).

(** A touch in a frame; [bad]: a palm or an ignored thumb; [nx], [ny]: what tp_filter_motion_unaccelerated makes of the motion since the last frame *)
Record eft := { st : Tp_Model.tstate; dirty : bool; px : Z; py : Z; bad : bool; nx : Q; ny : Q }.

(** tp_edge_scroll_set_state with tp_edge_scroll_set_timer, /repo/src/evdev-mt-touchpad-edge-scroll.c:107-132, /repo/src/evdev-mt-touchpad-edge-scroll.c:89-105 *)
Definition to_none (e : et) : et := {| est := E_NONE; er := false; eb := false; tmr := None; x0 := x0 e; y0 := y0 e; dir := dir e |}.
Definition to_new (p : epad) (c : cfg) (e : et) (x y t : Z) : et :=
  {| est := E_NEW; er := at_right p c x; eb := at_bottom p c y; tmr := if btn_areas c then None else Some (t + 300000); x0 := x; y0 := y; dir := dir e |}.
Definition to_edge (e : et) : et := {| est := E_EDGE; er := er e; eb := eb e; tmr := None; x0 := x0 e; y0 := y0 e; dir := dir e |}.
Definition to_area (e : et) : et := {| est := E_AREA; er := false; eb := false; tmr := None; x0 := x0 e; y0 := y0 e; dir := dir e |}.
Definition narrow (p : epad) (c : cfg) (e : et) (x y : Z) : et :=
  let r := er e && at_right p c x in let b := eb e && at_bottom p c y in
  if r || b then {| est := est e; er := r; eb := b; tmr := tmr e; x0 := x0 e; y0 := y0 e; dir := dir e |} else to_area e.
(** tp_edge_scroll_handle_event and the handlers, /repo/src/evdev-mt-touchpad-edge-scroll.c:264-294, /repo/src/evdev-mt-touchpad-edge-scroll.c:134-164,
    /repo/src/evdev-mt-touchpad-edge-scroll.c:166-201, /repo/src/evdev-mt-touchpad-edge-scroll.c:203-237, /repo/src/evdev-mt-touchpad-edge-scroll.c:239-262;
    unexpected events are only logged *)
Inductive event := E_TOUCH | E_MOTION | E_RELEASE | E_TIMEOUT | E_POSTED.
Definition handle (p : epad) (c : cfg) (e : et) (v : event) (x y t : Z) : et :=
  match est e, v with
  | E_NONE, E_TOUCH => if at_right p c x || at_bottom p c y then to_new p c e x y t else to_area e
  | E_NONE, _ => e
  | E_NEW, E_TOUCH => e
  | E_NEW, E_MOTION => narrow p c e x y
  | E_NEW, E_RELEASE => to_none e
  | E_NEW, (E_TIMEOUT | E_POSTED) => to_edge e
  | E_EDGE, (E_TOUCH | E_TIMEOUT | E_POSTED) => e
  | E_EDGE, E_MOTION => if er e && eb e then narrow p c e x y else e
  | E_EDGE, E_RELEASE => to_none e
  | E_AREA, E_RELEASE => to_none e
  | E_AREA, _ => e
  end.
(** tp_edge_scroll_handle_state for one touch, /repo/src/evdev-mt-touchpad-edge-scroll.c:363-416 *)
Definition with_est (e : et) (s : estate) : et := {| est := s; er := er e; eb := eb e; tmr := tmr e; x0 := x0 e; y0 := y0 e; dir := dir e |}.
Definition handle_state (p : epad) (c : cfg) (e : et) (f : eft) (t : Z) : et :=
  if edge_on c then
    if dirty f then
      match st f with
      | Tp_Model.NONE | Tp_Model.HOVERING => e
      | Tp_Model.BEGIN => handle p c e E_TOUCH (px f) (py f) t
      | Tp_Model.UPDATE => handle p c e E_MOTION (px f) (py f) t
      | Tp_Model.MAYBE_END | Tp_Model.END => handle p c e E_RELEASE (px f) (py f) t
      end
    else e
  else match st f with Tp_Model.BEGIN => with_est e E_AREA | Tp_Model.END => with_est e E_NONE | _ => e end.
(** tp_edge_scroll_post_events for one touch, /repo/src/evdev-mt-touchpad-edge-scroll.c:418-508.  Values are those passed to evdev_notify_axis, which may
    negate them; |delta| * DPI/25.4/res < 3 * DPI/25.4 is |delta| < 3 * res. *)
Definition with_dir (e : et) (d : option axis) : et := {| est := est e; er := er e; eb := eb e; tmr := tmr e; x0 := x0 e; y0 := y0 e; dir := d |}.
Definition post (p : epad) (c : cfg) (e : et) (f : eft) (t : Z) : et * list (axis * Q) :=
  if negb (dirty f) || bad f then (e, [])
  else if (er e || eb e) && negb ((er e && at_right p c (px f)) || (eb e && at_bottom p c (py f))) then (e, [])
  else match er e, eb e with
       | false, false => match dir e with Some d => (with_dir e None, [(d, 0%Q)]) | None => (e, []) end
       | true, true => (e, [])
       | r, _ =>
           let a := if r then VERTICAL else HORIZONTAL in
           let moved := if r then py f - y0 e else px f - x0 e in
           let thr := 3 * (if r then resy p else resx p) in
           let n := if r then ny f else nx f in
           let n := match est e with E_NEW => if Z.abs moved <? thr then 0%Q else n | _ => n end in
           if Qeq_bool n 0 then (e, [])
           else (handle p c (with_dir e (Some a)) E_POSTED (px f) (py f) t, [(a, n)])
       end.
(** tp_edge_scroll_stop_events for one touch, /repo/src/evdev-mt-touchpad-edge-scroll.c:510-532; the timer is not cancelled *)
Definition stop (e : et) : et * list (axis * Q) :=
  match dir e with
  | Some d => ({| est := E_AREA; er := false; eb := false; tmr := tmr e; x0 := x0 e; y0 := y0 e; dir := None |}, [(d, 0%Q)])
  | None => (e, [])
  end.

(** ** The device *)
(** What tp_post_events does with a frame, /repo/src/evdev-mt-touchpad.c:1855-1881: [Posted]: edge scroll events are posted; [Stopped]: a tap, a button, the trackpoint or typing has priority;
    [Clicked]: a button event stopped scrolling, but none was sent, so posting goes on; [Silent]: the device is suspended *)
Inductive how := Posted | Stopped | Clicked | Silent.
Definition frame1 (p : epad) (c : cfg) (h : how) (t : Z) (e : et) (f : eft) : et * list (axis * Q) :=
  let e := handle_state p c e f t in
  match h with
  | Posted => post p c e f t
  | Stopped => stop e
  | Clicked => let '(e, o1) := stop e in let '(e, o2) := post p c e f t in (e, o1 ++ o2)
  | Silent => (e, [])
  end.
Definition timer1 (p : epad) (c : cfg) (e : et) (t : Z) : et :=
  match tmr e with
  | Some x => if x <=? t then handle p c {| est := est e; er := er e; eb := eb e; tmr := None; x0 := x0 e; y0 := y0 e; dir := dir e |} E_TIMEOUT 0 0 t else e
  | None => e
  end.
Inductive einput :=
| EFrame (l : list eft) (h : how) (t : Z)   (* SYN_REPORT; also tp_clear_state *)
| ETimer (i : nat) (t : Z)
| EStop                                       (* tp_stop_actions, /repo/src/evdev-mt-touchpad.c:451-457: trackpoint or keyboard used *)
| ESetScroll (m : smethod)                    (* tp_scroll_config_scroll_method_set_method, /repo/src/evdev-mt-touchpad.c:3068-3085 *)
| ESetClick (areas : bool).                   (* tp_button_config_click_set_method *)
Record edev := { conf : cfg; tts : list et; eout : list (nat * axis * Q) }.
Fixpoint each (n : nat) (l : list (et * list (axis * Q))) : list et * list (nat * axis * Q) :=
  match l with
  | [] => ([], [])
  | (e, o) :: l => let '(es, os) := each (S n) l in (e :: es, map (fun x => (n, fst x, snd x)) o ++ os)
  end.
Fixpoint frames (p : epad) (c : cfg) (h : how) (t : Z) (l : list et) (fs : list eft) : list (et * list (axis * Q)) :=
  match l, fs with
  | e :: l, f :: fs => frame1 p c h t e f :: frames p c h t l fs
  | l, _ => map (fun e => (e, [])) l
  end.
Fixpoint timers (p : epad) (c : cfg) (i : nat) (t : Z) (l : list et) : list (et * list (axis * Q)) :=
  match l, i with
  | [], _ => []
  | e :: l, O => (timer1 p c e t, []) :: map (fun e => (e, [])) l
  | e :: l, S i => (e, []) :: timers p c i t l
  end.
Definition put (s : edev) (c : cfg) (x : list et * list (nat * axis * Q)) : edev := {| conf := c; tts := fst x; eout := eout s ++ snd x |}.
Definition estep (p : epad) (s : edev) (i : einput) : edev :=
  let c := conf s in
  match i with
  | EFrame l h t => put s c (each 0 (frames p c h t (tts s) l))
  | ETimer i t => put s c (each 0 (timers p c i t (tts s)))
  | EStop => put s c (each 0 (map stop (tts s)))
  | ESetScroll m => if smethod_eqb m (method c) then s else put s {| method := m; btn_areas := btn_areas c |} (each 0 (map stop (tts s)))
  | ESetClick b => {| conf := {| method := method c; btn_areas := b |}; tts := tts s; eout := eout s |}
  end.
Definition erun (p : epad) (s : edev) (l : list einput) : edev := fold_left (estep p) l s.
Definition einit (c : cfg) (n : nat) : edev := {| conf := c; tts := repeat et0 n; eout := [] |}.
(** tp_edge_scroll_touch_active, /repo/src/evdev-mt-touchpad-edge-scroll.c:534-539: the touch moves the pointer or takes part in gestures *)
Definition active (e : et) : bool := match est e with E_AREA => true | _ => false end.
