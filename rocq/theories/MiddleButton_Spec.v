(** What middle-button emulation must do to a stream of button events. *)
Require Import Coq.ZArith.ZArith Coq.Lists.List Coq.Bool.Bool.
Require Import Verif.MiddleButton_Model.
Import ListNotations.
Open Scope Z_scope.

(** All outputs of a log, in order. *)
Definition outs (log : list (mop * list mout)) : list mout := concat (map snd log).

(** Presses minus releases of a button. *)
Definition delta (c : Z) (o : mout) : Z :=
  match o with MPost c' _ p => if c' =? c then (if p then 1 else -1) else 0 | MBug => 0 end.
Definition down (c : Z) (l : list mout) : Z := fold_right (fun o n => delta c o + n) 0 l.

(** At every moment the button is logically pressed between 0 and [k] times;
    for [k = 1]: presses and releases alternate, starting with a press. *)
Definition within (k c : Z) (l : list mout) : Prop :=
  forall before after, l = before ++ after -> 0 <= down c before <= k.

(** The physical buttons. *)
Definition hw_step (hw : Z -> bool) (o : mop) : Z -> bool :=
  match o with Button c _ p => fun x => if x =? c then p else hw x | _ => hw end.
Definition hw_after (ops : list mop) : Z -> bool := fold_left hw_step ops (fun _ => false).
Definition all_up (hw : Z -> bool) : Prop := forall c, hw c = false.

(** Legal histories from state [m]: a button changes state with each event;
    codes are in the range emulation supports (BTN_LEFT + 0..31); the timer
    fires only while armed, when due; emulation is not switched on while it
    is off and buttons are held. *)
Fixpoint legal (hw : Z -> bool) (m : mb) (ops : list mop) : Prop :=
  match ops with
  | [] => True
  | o :: os =>
      match o with
      | Button c _ p => p = negb (hw c) /\ BTN_LEFT <= c < BTN_LEFT + 32
      | Timeout now => exists e, m_timer m = Some e /\ e <= now
      | Config b => b = true -> m_enabled m = false -> all_up hw
      end /\ legal (hw_step hw o) (fst (mstep m o)) os
  end.

(** Legal except for the last rule. *)
Fixpoint legal_hw (hw : Z -> bool) (m : mb) (ops : list mop) : Prop :=
  match ops with
  | [] => True
  | o :: os =>
      match o with
      | Button c _ p => p = negb (hw c) /\ BTN_LEFT <= c < BTN_LEFT + 32
      | Timeout now => exists e, m_timer m = Some e /\ e <= now
      | Config b => True
      end /\ legal_hw (hw_step hw o) (fst (mstep m o)) os
  end.

(** How the current or last hold of a button was reported: the number of
    presses of that button and of emulated middle presses (those that are not
    the pass-through of a physical middle press) since it was last pressed;
    [None] if it was never pressed. *)
Definition presses (c : Z) (l : list mout) : Z :=
  fold_right (fun o n => match o with MPost c' _ true => if c' =? c then 1 + n else n | _ => n end) 0 l.
Definition is_press (c : Z) (o : mop) : bool :=
  match o with Button c' _ true => c' =? c | _ => false end.
Definition emulated (e : mop * list mout) : Z :=
  presses BTN_MIDDLE (snd e) - (if is_press BTN_MIDDLE (fst e) then 1 else 0).
Definition hold_step (c : Z) (h : option (Z * Z)) (e : mop * list mout) : option (Z * Z) :=
  match (if is_press c (fst e) then Some (0, 0) else h) with
  | None => None
  | Some (self, mid) => Some (self + presses c (snd e), mid + emulated e)
  end.
Definition hold (c : Z) (log : list (mop * list mout)) : option (Z * Z) :=
  fold_left (hold_step c) log None.

(** Reported once as itself, or as one or more middle clicks; never both,
    never not at all. *)
Definition reported_once (h : option (Z * Z)) : Prop :=
  match h with
  | None => True
  | Some (self, mid) => (self = 1 /\ mid = 0) \/ (self = 0 /\ 1 <= mid)
  end.

(** The events of buttons other than left, right and middle. *)
Definition other (c : Z) : bool :=
  negb ((c =? BTN_LEFT) || (c =? BTN_RIGHT) || (c =? BTN_MIDDLE)).
Definition other_in (ops : list mop) : list mout :=
  flat_map (fun o => match o with Button c t p => if other c then [MPost c t p] else [] | _ => [] end) ops.
Definition other_out (l : list mout) : list mout :=
  filter (fun o => match o with MPost c _ _ => other c | MBug => false end) l.

(** Time stamps. *)
Definition op_time (o : mop) : option Z :=
  match o with Button _ t _ => Some t | Timeout t => Some t | Config _ => None end.
Fixpoint times_ok (now : Z) (ops : list mop) : Prop :=
  match ops with
  | [] => True
  | o :: os => match op_time o with
               | Some t => now <= t /\ times_ok t os
               | None => times_ok now os
               end
  end.
Fixpoint stamps_ok (now : Z) (l : list mout) : Prop :=
  match l with
  | [] => True
  | MBug :: r => stamps_ok now r
  | MPost _ t _ :: r => now <= t /\ stamps_ok t r
  end.
