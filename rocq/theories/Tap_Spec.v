(** What tapping may send, and what the touchpad may do. *)
Require Import Coq.ZArith.ZArith Coq.Lists.List Coq.Bool.Bool.
Require Verif.Tp_Model Verif.Tp_Spec.
Require Import Verif.Tap_Model.
Import ListNotations.
Open Scope Z_scope.

(** ** Button events *)
Definition button_eqb (a b : button) : bool := match a, b with LEFT, LEFT | RIGHT, RIGHT | MIDDLE, MIDDLE => true | _, _ => false end.
(** The events, given the button held before them, are presses and releases in turn, each release of the button pressed before it;
    the button held after them.  None: they are not. *)
Fixpoint held (h : option button) (l : list bev) : option (option button) :=
  match l with
  | [] => Some h
  | e :: r =>
      match h, down e with
      | None, true => held (Some (but e)) r
      | Some b, false => if button_eqb b (but e) then held None r else None
      | _, _ => None
      end
  end.
(** Time does not go back. *)
Fixpoint in_order (t : Z) (l : list bev) : Prop :=
  match l with [] => True | e :: r => t <= at_time e /\ in_order (at_time e) r end.

(** ** Inputs *)
(** A touch in a frame, given whether it was down after the frame before: as [Tp_Spec.touch_follows]. *)
Definition follows (was : bool) (f : finger) : Prop :=
  if was then fs f = Tp_Model.UPDATE \/ (fs f = Tp_Model.END /\ fdirty f = true /\ fwas_down f = true)
  else fs f = Tp_Model.NONE \/ fs f = Tp_Model.HOVERING \/ (fs f = Tp_Model.BEGIN /\ fdirty f = true).
(** Times do not go back from [now]; only fingers that are not down begin; the device is turned on again with no finger down
    (tp_resume clears the touchpad's state first). *)
Fixpoint legal (now : Z) (was : list bool) (l : list input) : Prop :=
  match l with
  | [] => True
  | i :: r =>
      match i with
      | Begin n => nth n was false = false /\ legal now was r
      | Frame f _ t => now <= t /\ Forall2 follows was f /\ legal t (map is_down f) r
      | Timer t | SetEnabled _ t | Suspend t | Resume t | ReleaseAll t | Off t => now <= t /\ legal t was r
      | On => ~ In true was /\ legal now was r
      | SetMap _ | SetDrag _ | SetDragLock _ => legal now was r
      end
  end.
(** The fingers that are down after the last frame, and the time of the last input *)
Fixpoint last_down (was : list bool) (l : list input) : list bool :=
  match l with [] => was | Frame f _ _ :: r => last_down (map is_down f) r | _ :: r => last_down was r end.
Fixpoint last_time (now : Z) (l : list input) : Z :=
  match l with
  | [] => now
  | i :: r => match i with
              | Frame _ _ t | Timer t | SetEnabled _ t | Suspend t | Resume t | ReleaseAll t | Off t => last_time t r
              | _ => last_time now r
              end
  end.
(** Fingers on the touchpad that tapping looks at: down, and taken neither for a thumb nor for a palm *)
Fixpoint counted (was : list bool) (ms : list tmark) : Z :=
  match was, ms with
  | w :: was, m :: ms => (if w && negb (is_thumb m) && negb (is_palm m) then 1 else 0) + counted was ms
  | _, _ => 0
  end.

(** ** The configuration as last set *)
Definition last_enabled (en : bool) (l : list input) : bool := fold_left (fun b i => match i with SetEnabled e _ => e | _ => b end) l en.
Definition last_suspended (l : list input) : bool := fold_left (fun b i => match i with Suspend _ => true | Resume _ => false | _ => b end) l false.
Definition last_off (l : list input) : bool := fold_left (fun b i => match i with Off _ => true | On => false | _ => b end) l false.

(** ** One finger, from touching to lifting *)
(** No touch in any place but one *)
Definition nothing : finger := {| fs := Tp_Model.NONE; fdirty := false; fwas_down := false; palm := false; thumb_tap := false; thumb := false; palm_tap := false; moved := false |}.
Definition alone (i j : nat) (f : finger) : list finger := repeat nothing i ++ f :: repeat nothing j.
Inductive meanwhile := Moves (f : finger) (t : Z) | TimeIs (t : Z).
Definition meanwhile_input (i j : nat) (m : meanwhile) : input := match m with Moves f t => Frame (alone i j f) false t | TimeIs t => Timer t end.
Definition one_finger (i j : nat) (b : finger) (t0 : Z) (mid : list meanwhile) (e : finger) (t1 : Z) : list input :=
  [Begin i; Frame (alone i j b) false t0] ++ map (meanwhile_input i j) mid ++ [Frame (alone i j e) false t1].
(** Something that makes it no tap: a palm or a thumb, too far, too long *)
Definition disturbs (t0 : Z) (m : meanwhile) : bool :=
  match m with Moves f _ => fdirty f && (palm f || thumb f || moved f) | TimeIs t => t0 + 180000 <=? t end.
Definition is_no_tap (b : finger) (t0 : Z) (mid : list meanwhile) (e : finger) : bool :=
  palm b || thumb_tap b || palm_tap b || existsb (disturbs t0) mid || palm e.

(** ** Several fingers: first they all arrive, then they all leave *)
Definition is_state (x : Tp_Model.tstate) (f : finger) : bool :=
  match x, fs f with
  | Tp_Model.NONE, Tp_Model.NONE | Tp_Model.HOVERING, Tp_Model.HOVERING | Tp_Model.BEGIN, Tp_Model.BEGIN | Tp_Model.UPDATE, Tp_Model.UPDATE | Tp_Model.MAYBE_END, Tp_Model.MAYBE_END | Tp_Model.END, Tp_Model.END => true
  | _, _ => false
  end.
Definition clean (f : finger) : bool := negb (palm f || thumb_tap f || thumb f || palm_tap f || moved f).
Fixpoint beginning (n : nat) (l : list finger) : list input :=
  match l with [] => [] | f :: r => (if is_state Tp_Model.BEGIN f then [Begin n] else []) ++ beginning (S n) r end.
Definition shown (ft : list finger * Z) : list input := beginning 0 (fst ft) ++ [Frame (fst ft) false (snd ft)].
Definition frames (l : list (list finger * Z)) : list input := concat (map shown l).
(** The time of the last frame in which a touch is in state [x], or [t0]; of the first one *)
Fixpoint last_with (x : Tp_Model.tstate) (t0 : Z) (l : list (list finger * Z)) : Z :=
  match l with [] => t0 | (f, t) :: r => last_with x (if existsb (is_state x) f then t else t0) r end.
Fixpoint first_with (x : Tp_Model.tstate) (t0 : Z) (l : list (list finger * Z)) : Z :=
  match l with [] => t0 | (f, t) :: r => if existsb (is_state x) f then t else first_with x t0 r end.
(** Frames that follow each other, without anything that disturbs a tap, and without a touch in state [no] *)
Fixpoint calm (no : Tp_Model.tstate) (was : list bool) (l : list (list finger * Z)) : Prop :=
  match l with
  | [] => True
  | (f, _) :: r => Forall2 follows was f /\ forallb clean f = true /\ existsb (is_state no) f = false /\ calm no (map is_down f) r
  end.
Fixpoint downs (was : list bool) (l : list (list finger * Z)) : list bool := match l with [] => was | (f, _) :: r => downs (map is_down f) r end.
Definition how_many (was : list bool) : Z := Z.of_nat (length (filter (fun b => b) was)).
(** One tap after another: the buttons' mapping and tap-and-drag as then configured, the fingers arrive, they leave, and later the timer runs out *)
Record a_tap := { tap_map_ : tap_map; tap_drag : bool; arrive : list (list finger * Z); leave : list (list finger * Z); later : Z }.
Definition inputs_of (x : a_tap) : list input := SetMap (tap_map_ x) :: SetDrag (tap_drag x) :: frames (arrive x) ++ frames (leave x) ++ [Timer (later x)].
Definition how_many_fingers (n : nat) (x : a_tap) : Z := how_many (downs (repeat false n) (arrive x)).
Definition fine (n : nat) (x : a_tap) : Prop :=
  calm Tp_Model.END (repeat false n) (arrive x) /\ calm Tp_Model.BEGIN (downs (repeat false n) (arrive x)) (leave x) /\
  1 <= how_many_fingers n x /\ how_many (downs (downs (repeat false n) (arrive x)) (leave x)) = 0 /\
  last_with Tp_Model.END 0 (leave x) + 160000 + how_many_fingers n x * 20000 <= later x.
Definition button_for (m : tap_map) (fingers : Z) : option button :=
  if fingers =? 1 then Some LEFT
  else if fingers =? 2 then Some (match m with LRM => RIGHT | LMR => MIDDLE end)
  else if fingers =? 3 then Some (match m with LRM => MIDDLE | LMR => RIGHT end)
  else None.
(** Pressed when the last finger came, released when the first one left *)
Definition click_of (n : nat) (x : a_tap) : list bev :=
  match button_for (tap_map_ x) (how_many_fingers n x) with
  | Some b => [{| at_time := last_with Tp_Model.BEGIN 0 (arrive x); but := b; down := true |}; {| at_time := first_with Tp_Model.END 0 (leave x); but := b; down := false |}]
  | None => []
  end.

(** ** Fingers that move *)
(** A finger that tapping looks at moved too far in this frame *)
Fixpoint moves_away (l : list finger) (ms : list tmark) : bool :=
  match l, ms with
  | f :: l, m :: ms => (is_state Tp_Model.UPDATE f && fdirty f && moved f && negb (palm f) && negb (thumb f) && negb (is_thumb m) && negb (is_palm m)) || moves_away l ms
  | _, _ => false
  end.
(** A finger that tapping looks at was down before this frame and still is *)
Fixpoint stays (l : list finger) (ms : list tmark) : bool :=
  match l, ms with
  | f :: l, m :: ms => (is_state Tp_Model.UPDATE f && negb (is_thumb m) && negb (is_palm m)) || stays l ms
  | _, _ => false
  end.
Fixpoint some_finger_stays (s : tap) (l : list input) : Prop :=
  match l with
  | [] => True
  | i :: r => match i with Frame f _ _ => stays f (marks (step s i)) = true | _ => True end /\ some_finger_stays (step s i) r
  end.
