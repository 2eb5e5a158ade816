(** * The totem: a puck on a screen, model of /repo/src/evdev-totem.c *)
Require Import Coq.ZArith.ZArith Coq.QArith.QArith Coq.Lists.List Coq.Bool.Bool.
Import ListNotations.
Open Scope Z_scope.

(** What the kernel says about the axes (struct input_absinfo of the device; resolutions of ABS_MT_TOUCH_MAJOR, _MINOR) *)
Record cfg := { minx : Z; miny : Z; resx : Z; resy : Z; rmajor : Z; rminor : Z }.
(** libevdev's values of one slot: ABS_MT_TRACKING_ID, _POSITION_X, _POSITION_Y, _ORIENTATION, _TOUCH_MAJOR, _TOUCH_MINOR *)
Record kern := { k_id : Z; k_x : Z; k_y : Z; k_angle : Z; k_major : Z; k_minor : Z }.
(** struct tablet_axes, the members the totem uses, /repo/src/libinput-private.h:358-369; a size is None where the division in C gives no finite number; [dx], [dy]: simplification, the delta before the motion filter *)
Record axes := { x : Z; y : Z; rotation : Z; major : option Q; minor : option Q }.
(** changed_axes *)
Record changed := { c_x : bool; c_y : bool; c_rot : bool; c_major : bool; c_minor : bool }.
Definition none := {| c_x := false; c_y := false; c_rot := false; c_major := false; c_minor := false |}.
Definition all := {| c_x := true; c_y := true; c_rot := true; c_major := true; c_minor := true |}.
(** enum totem_slot_state, /repo/src/evdev-totem.c:27-32 *)
Inductive sstate := NONE | BEGIN | UPDATE | END.
(** struct totem_slot, /repo/src/evdev-totem.c:34-43; tools are numbered as they are made *)
Record slot := { st : sstate; tool : option nat; ax : axes; chg : changed; last : Z * Z; kv : kern }.
(** struct totem_dispatch, /repo/src/evdev-totem.c:45-61; [touch]: the touch device; [arb]: arbitration_state is IGNORE_RECT (IGNORE_ALL is never set); [kcur]: libevdev's current slot; [next]: number of the next tool *)
Record glob := { bnow : bool; bprev : bool; next : nat }.
Record totem := { cur : nat; kcur : nat; slots : list slot; touch : option nat; g : glob; arb : bool }.

(** What a caller and the touch device are told *)
Definition rect := (Z * Z * Z * Z)%type.
Inductive out :=
| Prox (t : nat) (in_ : bool) (a : axes) (d : Z * Z) (c : changed)
| Tip (t : nat) (down : bool) (a : axes) (d : Z * Z) (c : changed)
| Axis (t : nat) (tip : bool) (a : axes) (d : Z * Z) (c : changed)
| Button (t : nat) (tip : bool) (a : axes) (d : Z * Z) (pressed : bool)
| Toggle (dev : nat) (r : option rect)
| Update (dev : nat) (r : rect)
| Assert. (* a failing assert() *)

Definition set_kv (s : slot) (k : kern) : slot := {| st := st s; tool := tool s; ax := ax s; chg := chg s; last := last s; kv := k |}.
Definition set_st (s : slot) (z : sstate) : slot := {| st := z; tool := tool s; ax := ax s; chg := chg s; last := last s; kv := kv s |}.
Definition set_chg (s : slot) (c : changed) : slot := {| st := st s; tool := tool s; ax := ax s; chg := c; last := last s; kv := kv s |}.
Definition set_ax (s : slot) (a : axes) : slot := {| st := st s; tool := tool s; ax := a; chg := chg s; last := last s; kv := kv s |}.
Definition set_last (s : slot) (p : Z * Z) : slot := {| st := st s; tool := tool s; ax := ax s; chg := chg s; last := p; kv := kv s |}.
Definition set_tool (s : slot) (t : nat) : slot := {| st := st s; tool := Some t; ax := ax s; chg := chg s; last := last s; kv := kv s |}.

(** ** Axes *)
(** (double)major/rmajor *)
Definition size (v r : Z) : option Q := if Z.eqb r 0 then None else Some (inject_Z v / inject_Z r)%Q.
(** totem_slot_fetch_axes, /repo/src/evdev-totem.c:260-329: whether something changed, the axes and delta to report, the slot after *)
Definition nothing (c : changed) : bool := negb (c_x c || c_y c || c_rot c || c_major c || c_minor c).
Definition fetch (c : cfg) (s : slot) : bool * axes * (Z * Z) * slot :=
  if nothing (chg s) then (false, ax s, (0, 0), s)
  else
    let pt := c_x (chg s) || c_y (chg s) in
    let sz := c_major (chg s) || c_minor (chg s) in
    let a := {| x := if pt then k_x (kv s) else x (ax s); y := if pt then k_y (kv s) else y (ax s);
                rotation := if c_rot (chg s) then Z.rem (360 - k_angle (kv s)) 360 else rotation (ax s);
                major := if sz then size (k_major (kv s)) (rmajor c) else major (ax s);
                minor := if sz then size (k_minor (kv s)) (rminor c) else minor (ax s) |} in
    (true, a, (x a - fst (last s), y a - snd (last s)), set_ax s a).
(** slot_axes_initialize, /repo/src/evdev-totem.c:352-366 *)
Definition axes_initialize (s : slot) : slot :=
  set_last (set_ax s {| x := k_x (kv s); y := k_y (kv s); rotation := rotation (ax s); major := major (ax s); minor := minor (ax s) |}) (k_x (kv s), k_y (kv s)).

(** ** A frame *)
(** totem_new_tool, /repo/src/evdev-totem.c:76-106, where the slot has none *)
Definition with_tool (n : nat) (s : slot) : nat * slot * nat := match tool s with Some t => (n, s, t) | None => (S n, set_tool s n, n) end.
(** totem_handle_slot_state from the axes on, for a slot with tool [t], /repo/src/evdev-totem.c:368-490 *)
Definition button (b : glob) (t : nat) (tip : bool) (a : axes) (d : Z * Z) : glob * list out :=
  if Bool.eqb (bnow b) (bprev b) then (b, []) else ({| bnow := bnow b; bprev := bnow b; next := next b |}, [Button t tip a d (bnow b)]).
Definition finish (s : slot) (z : sstate) : slot := set_chg (set_last (set_st s z) (x (ax s), y (ax s))) none.
Definition handle_slot (c : cfg) (b : glob) (s : slot) : glob * slot * list out :=
  match st s with
  | NONE => (b, s, [])
  | BEGIN =>
      let '(n, s1, t) := with_tool (next b) s in
      let b1 := {| bnow := bnow b; bprev := bprev b; next := n |} in
      let '(_, a, d, s2) := fetch c (set_chg (axes_initialize s1) all) in
      let '(b2, o) := button b1 t true a d in
      (b2, finish s2 UPDATE, [Prox t true a d (chg s2); Tip t true a d none] ++ o)
  | UPDATE =>
      match tool s with
      | None => (b, s, [Assert])
      | Some t =>
          let '(up, a, d, s2) := fetch c s in
          let '(b2, o) := button b t true a d in
          (b2, finish s2 UPDATE, (if up then [Axis t true a d (chg s2)] else []) ++ o)
      end
  | END =>
      match tool s with
      | None => (b, s, [Assert])
      | Some t =>
          let '(_, a, d, s2) := fetch c s in
          let '(b2, o) := button b t false a d in
          (b2, finish s2 NONE, o ++ [Tip t false a d (chg s2); Prox t false a d none])
      end
  end.
(** totem_handle_state, /repo/src/evdev-totem.c:492-511 *)
Fixpoint handle_slots (c : cfg) (b : glob) (l : list slot) : glob * list slot * list out :=
  match l with
  | [] => (b, [], [])
  | s :: r => let '(b1, s1, o1) := handle_slot c b s in let '(b2, r2, o2) := handle_slots c b1 r in (b2, s1 :: r2, o1 ++ o2)
  end.
Definition is_none (z : sstate) : bool := match z with NONE => true | _ => false end.
Definition active (l : list slot) : bool := existsb (fun s => negb (is_none (st s))) l.

(** ** Arbitration *)
(** evdev_device_units_to_mm, /repo/src/evdev.h:880-902: integers are divided *)
Definition mm (c : cfg) (a : axes) : Z * Z := (Z.quot (x a - minx c) (resx c), Z.quot (y a - miny c) (resy c)).
Definition rect_of (c : cfg) (a : axes) : rect := (fst (mm c a) - 30, snd (mm c a) - 30, 100, 100).
(** totem_set_touch_device_enabled, /repo/src/evdev-totem.c:108-176; simplification: the touch device has both functions (one without them hears nothing) *)
Definition first_rect (c : cfg) (l : list slot) : option rect := option_map (fun s => rect_of c (ax s)) (find (fun s => negb (is_none (st s))) l).
Definition set_touch (c : cfg) (w : totem) (enable : bool) : totem * list out :=
  match touch w with
  | None => (w, [])
  | Some d =>
      let r := if enable then None else first_rect c (slots w) in
      let o := if enable then [Toggle d r] else if arb w then match r with Some q => [Update d q] | None => [] end else [Toggle d r] in
      ({| cur := cur w; kcur := kcur w; slots := slots w; touch := touch w; g := g w; arb := match r with Some _ => true | None => false end |}, o)
  end.

(** ** Events *)
Inductive code := TRACKING_ID | POSITION_X | POSITION_Y | ORIENTATION | TOUCH_MAJOR | TOUCH_MINOR | OTHER.
Inductive input :=
| Slot (v : Z) | Abs (c : code) (v : Z) | Btn0 (v : Z) | Syn
| Suspend | Resume (ks : list kern) (k : nat)
| Added (d : nat) (same : bool) | Removed (d : nat).
(** libevdev takes over the value before the event is handled *)
Definition kernel (c : code) (v : Z) (k : kern) : kern :=
  {| k_id := match c with TRACKING_ID => v | _ => k_id k end; k_x := match c with POSITION_X => v | _ => k_x k end; k_y := match c with POSITION_Y => v | _ => k_y k end;
     k_angle := match c with ORIENTATION => v | _ => k_angle k end; k_major := match c with TOUCH_MAJOR => v | _ => k_major k end; k_minor := match c with TOUCH_MINOR => v | _ => k_minor k end |}.
(** totem_process_abs, /repo/src/evdev-totem.c:200-258 *)
Definition tracking (v : Z) (z : sstate) : sstate := if Z.leb 0 v then BEGIN else match z with NONE => NONE | _ => END end.
Definition process_abs (c : code) (v : Z) (s : slot) : slot :=
  let k := chg s in
  match c with
  | TRACKING_ID => set_st s (tracking v (st s))
  | POSITION_X => set_chg s {| c_x := true; c_y := c_y k; c_rot := c_rot k; c_major := c_major k; c_minor := c_minor k |}
  | POSITION_Y => set_chg s {| c_x := c_x k; c_y := true; c_rot := c_rot k; c_major := c_major k; c_minor := c_minor k |}
  | ORIENTATION => set_chg s {| c_x := c_x k; c_y := c_y k; c_rot := true; c_major := c_major k; c_minor := c_minor k |}
  | TOUCH_MAJOR => set_chg s {| c_x := c_x k; c_y := c_y k; c_rot := c_rot k; c_major := true; c_minor := c_minor k |}
  | TOUCH_MINOR => set_chg s {| c_x := c_x k; c_y := c_y k; c_rot := c_rot k; c_major := c_major k; c_minor := true |}
  | OTHER => s
  end.
Fixpoint at_ (i : nat) (f : slot -> slot) (l : list slot) : list slot :=
  match l, i with [], _ => [] | s :: r, O => f s :: r | s :: r, S j => s :: at_ j f r end.
(** The check of ABS_MT_SLOT in totem_process_abs: a value that is negative becomes huge by the cast to size_t *)
Definition which (n : nat) (v : Z) : nat := if Z.leb 0 v && Z.ltb v (Z.of_nat n) then Z.to_nat v else (n - 1)%nat.
Definition with_slots (w : totem) (l : list slot) : totem := {| cur := cur w; kcur := kcur w; slots := l; touch := touch w; g := g w; arb := arb w |}.
Definition with_g (w : totem) (b : glob) : totem := {| cur := cur w; kcur := kcur w; slots := slots w; touch := touch w; g := b; arb := arb w |}.
(** totem_interface_suspend for one slot, /repo/src/evdev-totem.c:549-602 *)
Definition suspend_slot (c : cfg) (b : glob) (s : slot) : glob * slot * list out :=
  match tool s with
  | None => (b, s, [])
  | Some t =>
      let '(_, a, d, s1) := fetch c s in
      let s2 := set_chg s1 none in
      let down := negb (is_none (st s)) in
      ((if bnow b then {| bnow := false; bprev := false; next := next b |} else b), s2,
       (if bnow b then [Button t down a d false] else []) ++ (if down then [Tip t false a d none] else []) ++ [Prox t false a d none])
  end.
Fixpoint suspend_slots (c : cfg) (b : glob) (l : list slot) : glob * list slot * list out :=
  match l with
  | [] => (b, [], [])
  | s :: r => let '(b1, s1, o1) := suspend_slot c b s in let '(b2, r2, o2) := suspend_slots c b1 r in (b2, s1 :: r2, o1 ++ o2)
  end.
Fixpoint resync (ks : list kern) (l : list slot) : list slot := match l, ks with s :: r, k :: q => set_kv s k :: resync q r | _, _ => l end.
(** totem_interface_process, /repo/src/evdev-totem.c:513-547, totem_process_key, /repo/src/evdev-totem.c:178-198, totem_interface_suspend, evdev_device_resume, /repo/src/evdev.c:2791-2855 (the events of the synchronisation are dropped), totem_interface_device_added (same: vendor, product and group are the same), /repo/src/evdev-totem.c:613-642, totem_interface_device_removed, /repo/src/evdev-totem.c:644-656.  Simplification: libevdev's check of slot numbers is taken to be the same as this file's *)
Definition step (c : cfg) (w : totem) (e : input) : totem * list out :=
  match e with
  | Slot v => let i := which (length (slots w)) v in ({| cur := i; kcur := i; slots := slots w; touch := touch w; g := g w; arb := arb w |}, [])
  | Abs k v => (with_slots w (at_ (cur w) (process_abs k v) (at_ (kcur w) (fun s => set_kv s (kernel k v (kv s))) (slots w))), [])
  | Btn0 v => (if Z.eqb v 2 then w else with_g w {| bnow := negb (Z.eqb v 0); bprev := bprev (g w); next := next (g w) |}, [])
  | Syn =>
      let '(b, l, o) := handle_slots c (g w) (slots w) in
      let '(w2, o2) := set_touch c (with_g (with_slots w l) b) (negb (active l)) in (w2, o ++ o2)
  | Suspend =>
      let '(b, l, o) := suspend_slots c (g w) (slots w) in
      let '(w2, o2) := set_touch c (with_g (with_slots w l) b) true in (w2, o ++ o2)
  | Resume ks k => ({| cur := cur w; kcur := k; slots := resync ks (slots w); touch := touch w; g := g w; arb := arb w |}, [])
  | Added d same => if same then match touch w with None => ({| cur := cur w; kcur := kcur w; slots := slots w; touch := Some d; g := g w; arb := arb w |}, []) | Some _ => (w, []) end else (w, [])
  | Removed d =>
      match touch w with
      | Some d2 => if Nat.eqb d d2 then let '(w2, o) := set_touch c w true in ({| cur := cur w2; kcur := kcur w2; slots := slots w2; touch := None; g := g w2; arb := arb w2 |}, o) else (w, [])
      | None => (w, [])
      end
  end.
Fixpoint run (c : cfg) (w : totem) (l : list input) : totem * list out :=
  match l with [] => (w, []) | e :: r => let '(w1, o1) := step c w e in let '(w2, o2) := run c w1 r in (w2, o1 ++ o2) end.

(** ** The start *)
(** totem_interface_initial_proximity for one slot, /repo/src/evdev-totem.c:658-699 *)
Definition start_slot (c : cfg) (n : nat) (k : kern) : nat * slot * list out :=
  let s := {| st := NONE; tool := None; ax := {| x := 0; y := 0; rotation := 0; major := Some 0%Q; minor := Some 0%Q |}; chg := none; last := (0, 0); kv := k |} in
  if Z.eqb (k_id k) (-1) then (n, s, [])
  else let '(_, a, d, s2) := fetch c (set_chg (axes_initialize (set_tool s n)) all) in
       (S n, set_chg (set_st s2 UPDATE) none, [Prox n true a d (chg s2); Tip n true a d none]).
Fixpoint start_slots (c : cfg) (n : nat) (ks : list kern) : nat * list slot * list out :=
  match ks with
  | [] => (n, [], [])
  | k :: r => let '(n1, s, o1) := start_slot c n k in let '(n2, l, o2) := start_slots c n1 r in (n2, s :: l, o1 ++ o2)
  end.
(** evdev_totem_create, /repo/src/evdev-totem.c:799-835, then the other devices are made known, then post_added *)
Definition start (c : cfg) (ks : list kern) (k : nat) (d : option nat) : totem * list out :=
  let '(n, l, o) := start_slots c 0 ks in
  let '(w, o2) := set_touch c {| cur := k; kcur := k; slots := l; touch := d; g := {| bnow := false; bprev := false; next := n |}; arb := false |} (negb (active l)) in
  (w, o ++ o2).
(** totem_reject_device, /repo/src/evdev-totem.c:716-745: the device is taken; [tool_max]: maximum of ABS_MT_TOOL_TYPE, MT_TOOL_DIAL is 0x0a *)
Record caps := { has_xy : bool; has_slot : bool; tool_max : option Z; has_size : bool; rmaj : Z; rmin : Z }.
Definition accepts (p : caps) : bool :=
  has_xy p && has_slot p && match tool_max p with Some m => Z.leb 10 m | None => false end && has_size p && (Z.ltb 0 (rmaj p) || Z.ltb 0 (rmin p)).
