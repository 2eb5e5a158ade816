(** Observable meaning of debouncing: only the notifications and the physical
    button states are mentioned here. *)
Require Import Coq.ZArith.ZArith Coq.Lists.List Coq.Bool.Bool.
Require Import Verif.Debounce_Model.
Import ListNotations.
Open Scope Z_scope.

(** Presses (true) and releases (false) notified for button [c]. *)
Definition transitions (c : Z) (outs : list dout) : list bool :=
  flat_map (fun o => match o with
                     | Notify c' _ p => if c' =? c then [p] else []
                     | LogBug => [] end) outs.

(** true, false, true, ... beginning with [expect]. *)
Fixpoint alternates (expect : bool) (l : list bool) : Prop :=
  match l with
  | [] => True
  | b :: r => b = expect /\ alternates (negb expect) r
  end.

(** The state of button [c] as known to whoever receives the notifications. *)
Definition reported (c : Z) (outs : list dout) : bool := last (transitions c outs) false.

(** Timestamps of the notifications, in order. *)
Definition stamps (outs : list dout) : list Z :=
  flat_map (fun o => match o with Notify _ t _ => [t] | LogBug => [] end) outs.
Fixpoint nondecreasing (from : Z) (l : list Z) : Prop :=
  match l with
  | [] => True
  | t :: r => from <= t /\ nondecreasing t r
  end.

(** Physical button states after a history. *)
Definition press_hw (hw : Z -> bool) (ch : list (Z * bool)) : Z -> bool :=
  fold_left (fun h x => fun c => if c =? fst x then snd x else h c) ch hw.
Definition hw_step (hw : Z -> bool) (o : dop) : Z -> bool :=
  match o with Frame ch _ => press_hw hw ch | _ => hw end.
Definition hw_after (ops : list dop) : Z -> bool := fold_left hw_step ops (fun _ => false).

(** A history the hardware can produce: every reported change in a frame is a
    change, each button at most once per frame, at most 16 buttons per frame. *)
Definition frame_ok (hw : Z -> bool) (ch : list (Z * bool)) : Prop :=
  NoDup (map fst ch) /\ (length ch <= 16)%nat /\
  forall c b, In (c, b) ch -> b = negb (hw c).
Fixpoint hist_ok (hw : Z -> bool) (ops : list dop) : Prop :=
  match ops with
  | [] => True
  | o :: os => match o with Frame ch _ => frame_ok hw ch | _ => True end
               /\ hist_ok (hw_step hw o) os
  end.

(** The timer schedules timer.c produces (Timer_Props.v,
    handler_fires_first_due): only an armed timer whose expiry has been
    reached fires, and of two such timers the one earlier in the timer list. *)
Definition due (tm : option Z) (now : Z) : Prop := exists e, tm = Some e /\ e <= now.
Fixpoint schedule_ok (d : deb) (ops : list dop) : Prop :=
  match ops with
  | [] => True
  | o :: os =>
      match o with
      | Frame _ _ => True
      | FireLong now => due (d_timer d) now /\ ~ (due (d_short d) now /\ d_sfirst d = true)
      | FireShort now => due (d_short d) now /\ ~ (due (d_timer d) now /\ d_sfirst d = false)
      end /\ schedule_ok (fst (dstep d o)) os
  end.

(** Time does not run backwards. *)
Definition op_time (o : dop) : Z :=
  match o with Frame _ t => t | FireLong t => t | FireShort t => t end.
Fixpoint time_ok (now : Z) (ops : list dop) : Prop :=
  match ops with
  | [] => True
  | o :: os => now <= op_time o /\ time_ok (op_time o) os
  end.

(** The time of the last operation. *)
Definition end_time (now : Z) (ops : list dop) : Z := fold_left (fun _ o => op_time o) ops now.

(** Let every armed timer expire: the short one, then the long one. *)
Definition settle_ops (d : deb) (now : Z) : list dop :=
  let s := match d_short d with Some _ => [FireShort now] | None => [] end in
  let d1 := fst (drun d s) in
  s ++ match d_timer d1 with Some _ => [FireLong now] | None => [] end.

(** [n] alternating single-button frames of button [c], the first of which
    goes to state [b]. *)
Fixpoint bounces (c : Z) (b : bool) (ts : list Z) : list dop :=
  match ts with
  | [] => []
  | t :: r => Frame [(c, b)] t :: bounces c (negb b) r
  end.
