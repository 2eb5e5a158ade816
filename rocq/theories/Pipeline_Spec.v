(** What a client sees of a mouse's buttons, and which histories the theorems
    of Pipeline_Props.v speak about. *)
Require Import Coq.ZArith.ZArith Coq.Lists.List Coq.Bool.Bool.
Require Verif.Debounce_Model Verif.MiddleButton_Model.
Require Import Verif.Pipeline_Model.
Import ListNotations.
Open Scope Z_scope.

(** Presses (true) and releases (false) of button [c]. *)
Definition transitions (c : Z) (l : list pout) : list bool :=
  flat_map (fun o => match o with PButton _ c' p => if c' =? c then [p] else [] | _ => [] end) l.
(** true, false, true, ... beginning with [expect]. *)
Fixpoint alternates (expect : bool) (l : list bool) : Prop :=
  match l with [] => True | b :: r => b = expect /\ alternates (negb expect) r end.
(** The button is down for the client. *)
Definition client_down (c : Z) (l : list pout) : bool := last (transitions c l) false.

(** The buttons the hardware says are down: EV_KEY with value 1 and 0;
    value 2 is autorepeat. *)
Definition hw_step (f : Z -> bool) (o : pop) : Z -> bool :=
  match o with
  | Key c v => if v =? 2 then f else fun x => if x =? c then negb (v =? 0) else f x
  | _ => f
  end.
Definition hw_after (ops : list pop) : Z -> bool := fold_left hw_step ops (fun _ => false).

Definition op_time (now : Z) (o : pop) : Z :=
  match o with
  | Syn t | DebounceTimer t | DebounceTimerShort t | MiddleTimer t | ScrollTimer t | Suspend t | Remove t => t
  | _ => now
  end.

Definition due (tm : option Z) (now : Z) : Prop := exists e, tm = Some e /\ e <= now.
(** No debounce timer is running. *)
Definition settled (p : ps) : Prop :=
  Debounce_Model.d_timer (p_deb p) = None /\ Debounce_Model.d_short (p_deb p) = None.
(** A configuration change waits for the buttons to be released. *)
Definition pending (p : ps) : Prop :=
  let s := p_ds p in
  s_wleft s <> s_left s \/ s_wmethod s <> s_method s \/ s_wbutton s <> s_button s \/ s_wlock s <> s_lock s.
(** The buttons whose state differs from that at the last SYN. *)
Definition moved (p : ps) : list Z := filter (fun c => negb (Bool.eqb (p_hw p c) (p_last p c))) mouse_buttons.

Definition mouse_button (c : Z) : Prop := 272 <= c < 288.

(** Histories covered.  Beside what the kernel and timer.c guarantee (time
    does not run backwards; only due timers fire, the earlier one first;
    whole frames), the hypotheses exclude exactly the situations in which
    Pipeline_Props.v shows the code to misbehave:
    - [Key]: only BTN_LEFT..BTN_TASK, and no physical middle button while
      middle button emulation shares it with button scrolling;
    - [Syn]: while a configuration change is pending, a frame changes at
      most one button, and not while that or another button is being
      debounced;
    - configuration calls: not while a button is being debounced; emulation
      is not enabled with a button down;
    - [Suspend]: only with all buttons up. *)
Definition op_ok (now : Z) (p : ps) (o : pop) : Prop :=
  now <= op_time now o /\
  match o with
  | Key c v => mouse_button c /\
      (c = 274 -> MiddleButton_Model.m_enabled (s_mb (p_ds p)) = true ->
       s_method (p_ds p) = true -> s_button (p_ds p) <> 274)
  | Rel _ _ => True
  | Syn t => pending p -> moved p = [] \/ (settled p /\ exists c, moved p = [c])
  | DebounceTimer t =>
      p_key p = false /\ due (Debounce_Model.d_timer (p_deb p)) t /\
      ~ (due (Debounce_Model.d_short (p_deb p)) t /\ Debounce_Model.d_sfirst (p_deb p) = true)
  | DebounceTimerShort t =>
      p_key p = false /\ due (Debounce_Model.d_short (p_deb p)) t /\
      ~ (due (Debounce_Model.d_timer (p_deb p)) t /\ Debounce_Model.d_sfirst (p_deb p) = false)
  | MiddleTimer t => p_key p = false /\ due (MiddleButton_Model.m_timer (s_mb (p_ds p))) t
  | ScrollTimer t => p_key p = false /\ due (s_timer (p_ds p)) t
  | SetLeft _ | SetMethod _ | SetLock _ => p_key p = false /\ settled p
  | SetButton c => p_key p = false /\ settled p /\ mouse_button c
  | SetMiddle b => p_key p = false /\
      (b = true -> MiddleButton_Model.m_enabled (s_mb (p_ds p)) = false ->
       settled p /\ forall c, p_hw p c = false)
  | Suspend _ => p_key p = false /\ settled p /\ forall c, p_hw p c = false
  | Remove _ => False
  end.

Fixpoint legal (now : Z) (p : ps) (ops : list pop) : Prop :=
  match ops with
  | [] => True
  | o :: os => op_ok now p o /\ legal (op_time now o) (fst (pstep p o)) os
  end.

(** Button scrolling: what reaches that stage.  [HButton any t c p] is a
    button event after debouncing and middle button emulation ([any] tells
    whether a physical button is down), [HMotion] a frame's relative motion,
    [HTick] the expiry of the scroll timer. *)
Inductive hop := HButton (any : bool) (t c : Z) (p : bool) | HMotion (t dx dy : Z) | HTick.
Definition hstep (s : ds) (o : hop) : dres :=
  if s_dead s then (s, [])
  else match o with
  | HButton any t c p => notify_button any s t c p
  | HMotion t dx dy => relative_motion s t dx dy
  | HTick => (set_state (set_timer s None) B_READY, [])
  end.
Fixpoint hrun (s : ds) (l : list hop) : dres :=
  match l with
  | [] => (s, [])
  | o :: r => let '(s1, o1) := hstep s o in let '(s2, o2) := hrun s1 r in (s2, o1 ++ o2)
  end.
(** None of these is an event of button [b]. *)
Definition not_button (b : Z) (l : list hop) : Prop := forall any t p, ~ In (HButton any t b p) l.
(** Button scrolling is configured, with nothing pending, and idle. *)
Definition scroll_idle (s : ds) : Prop :=
  s_method s = true /\ s_wmethod s = true /\ s_wbutton s = s_button s /\ s_wlock s = s_lock s /\ s_wleft s = s_left s /\
  s_lockst s = (if s_lock s then L_IDLE else L_DISABLED) /\ s_state s = B_IDLE /\
  mouse_button (s_button s) /\ s_cnt s (s_button s) = 0.
(** The scroll timer expires only while armed. *)
Fixpoint ticks_ok (s : ds) (l : list hop) : Prop :=
  match l with
  | [] => True
  | o :: r => (o = HTick -> s_timer s <> None) /\ ticks_ok (fst (hstep s o)) r
  end.
