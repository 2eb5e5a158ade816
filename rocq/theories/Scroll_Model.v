(** Continuous (motion-driven) scrolling: thresholds, direction lock and the
    terminating event.  Modelled from evdev.c.
    Simplifications: C doubles are exact rationals; the axis bit mask
    [scroll.direction] is a pair of booleans; an axis event is given by the
    value of each axis that is in its mask, [None] for an axis that is not. *)
Require Import Coq.QArith.QArith Coq.QArith.Qabs Coq.ZArith.ZArith Coq.Lists.List Coq.Bool.Bool.
Import ListNotations.
Open Scope Q_scope.

(** struct normalized_coords: x is the horizontal, y the vertical delta.
    The part of struct evdev_device's [scroll] used here, /repo/src/evdev.h:162-272 *)
Record scr := mkScr {
  c_thr : Q;           (** threshold, 5.0; touchpads 0.0 *)
  c_dlock : Q;         (** direction_lock_threshold, 5.0 *)
  c_inv : bool;        (** invert_horizontal_scrolling *)
  c_nat : bool;        (** natural_scrolling_enabled *)
  c_bx : Q; c_by : Q;  (** buildup *)
  c_v : bool; c_h : bool (** direction: scrolling vertically, horizontally *)
}.

(** evdev_device_create, /repo/src/evdev.c:2267-2268 and the touchpad's values,
    /repo/src/evdev-mt-touchpad.c:3140-3141 *)
Definition scr_init (thr dlock : Q) (inv nat : bool) : scr := mkScr thr dlock inv nat 0 0 false false.
Definition scr_default : scr := scr_init 5 5 false false.
Definition scr_touchpad : scr := scr_init 0 5 false false.

(** A POINTER_AXIS event: time, vertical value, horizontal value. *)
Inductive sout := Axis (time : Z) (v h : option Q).

(** normalized_is_zero and the comparisons of doubles, /repo/src/libinput-private.h:763-767 *)
Definition is0 (q : Q) : bool := Qeq_bool q 0.
Definition reaches (q thr : Q) : bool := Qle_bool thr (Qabs q).

(** evdev_notify_axis, /repo/src/evdev.c:377-406: the axes not in the mask do not matter *)
Definition notify_axis (s : scr) (t : Z) (v h : option Q) : sout :=
  let sgn (b : bool) (q : Q) := if b then - q else q in
  Axis t (option_map (sgn (c_nat s)) v)
         (option_map (fun q => sgn (c_nat s) (sgn (c_inv s) q)) h).

(** evdev_post_scroll, /repo/src/evdev.c:2627-2700 with evdev_is_scrolling and evdev_start_scrolling,
    /repo/src/evdev.c:2607-2625 *)
Definition post_scroll (s : scr) (t : Z) (dx dy : Q) : scr * list sout :=
  let by_ := if c_v s then c_by s else c_by s + dy in
  let bx_ := if c_h s then c_bx s else c_bx s + dx in
  let '(v, h) :=
    if negb (c_h s) && negb (c_v s) then (reaches by_ (c_thr s), reaches bx_ (c_thr s))
    else if negb (c_v s) then (reaches dy (c_dlock s), c_h s)
    else if negb (c_h s) then (c_v s, reaches dx (c_dlock s))
    else (c_v s, c_h s) in
  let ey := if v then dy else 0 in
  let ex := if h then dx else 0 in
  let s' := mkScr (c_thr s) (c_dlock s) (c_inv s) (c_nat s) bx_ by_ v h in
  (s', if is0 ex && is0 ey then []
       else [notify_axis s' t (if v && negb (is0 ey) then Some ey else None)
                              (if h && negb (is0 ex) then Some ex else None)]).

(** evdev_stop_scroll, /repo/src/evdev.c:2702-2722 *)
Definition stop_scroll (s : scr) (t : Z) : scr * list sout :=
  (mkScr (c_thr s) (c_dlock s) (c_inv s) (c_nat s) 0 0 false false,
   if c_v s || c_h s
   then [Axis t (if c_v s then Some 0 else None) (if c_h s then Some 0 else None)]
   else []).

(** evdev_scroll_config_natural_set, the natural scrolling setting *)
Definition set_natural (s : scr) (b : bool) : scr :=
  mkScr (c_thr s) (c_dlock s) (c_inv s) b (c_bx s) (c_by s) (c_v s) (c_h s).

Inductive sop :=
| Post (time : Z) (dx dy : Q)
| Stop (time : Z)
| SetNatural (b : bool).

Definition sstep (s : scr) (o : sop) : scr * list sout :=
  match o with
  | Post t dx dy => post_scroll s t dx dy
  | Stop t => stop_scroll s t
  | SetNatural b => (set_natural s b, [])
  end.

Fixpoint srun (s : scr) (ops : list sop) : scr * list sout :=
  match ops with
  | [] => (s, [])
  | o :: os => let '(s1, o1) := sstep s o in
               let '(s2, o2) := srun s1 os in (s2, o1 ++ o2)
  end.
