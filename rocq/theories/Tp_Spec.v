(** What a touchpad's fingers may do, and what the kernel knows. *)
Require Import Coq.ZArith.ZArith Coq.Lists.List Coq.Bool.Bool.
Require Import Verif.Tp_Model.
Import ListNotations.
Open Scope Z_scope.

(** A touch in a frame, given whether it was down after the frame before:
    one that was down stays down or ends, one that was not stays away, hovers or begins.
    Beginnings and ends are always marked for processing. *)
Definition touch_follows (was : bool) (t : touch) : Prop :=
  if was then ts t = UPDATE \/ (ts t = END /\ dirty t = true)
  else ts t = NONE \/ ts t = HOVERING \/ (ts t = BEGIN /\ dirty t = true).
Definition still_down (t : touch) : bool := match ts t with BEGIN | UPDATE => true | _ => false end.
Fixpoint legal (was : list bool) (frames : list (list touch)) : Prop :=
  match frames with
  | [] => True
  | f :: r => Forall2 touch_follows was f /\ legal (map still_down f) r
  end.
Definition down_count (l : list touch) : Z := Z.of_nat (length (filter still_down l)).

(** The kernel's view: which slots have a finger, and the current slot. *)
Record kernel := { act : list bool; cur : nat }.
Definition kstep (k : kernel) (i : input) : kernel :=
  match i with
  | Ev (Slot n) _ => {| act := act k; cur := n |}
  | Ev (TrackingId v) _ => {| act := update_nth (cur k) (fun _ => negb (v =? -1)) (act k); cur := cur k |}
  | Resync a c => {| act := a; cur := c |}
  | _ => k
  end.
Definition krun (k : kernel) (l : list input) : kernel := fold_left kstep l k.
(** The kernel ends a finger only in a slot that has one. *)
Fixpoint kernel_ok (k : kernel) (l : list input) : Prop :=
  match l with
  | [] => True
  | i :: r => match i with Ev (TrackingId v) _ => v = -1 -> nth (cur k) (act k) false = true | _ => True end /\ kernel_ok (kstep k i) r
  end.
(** The kernel stays inside the [n] slots. *)
Fixpoint slots_below (n : nat) (l : list input) : Prop :=
  match l with [] => True | i :: r => match i with Ev (Slot m) _ => (m < n)%nat | _ => True end /\ slots_below n r end.
(** No suspend and resume. *)
Fixpoint no_resync (l : list input) : Prop :=
  match l with [] => True | i :: r => match i with Resync _ _ => False | _ => True end /\ no_resync r end.
Fixpoint only_events (l : list input) : Prop :=
  match l with [] => True | i :: r => match i with Ev _ _ => True | _ => False end /\ only_events r end.
(** The buttons BTN_TOUCH and BTN_TOOL_* as the kernel last reported them. *)
Definition tools (l : list input) (f : fake) : fake :=
  fold_left (fun f i => match i with Ev (Key c p) _ => fake_finger_set f c p | Clear _ => no_fake | _ => f end) l f.
(** The last value of one of these buttons; nothing is pressed after the touchpad's state was cleared. *)
Definition tool_eqb (a b : tool) : bool :=
  match a, b with
  | BTN_TOUCH, BTN_TOUCH | BTN_TOOL_FINGER, BTN_TOOL_FINGER | BTN_TOOL_DOUBLETAP, BTN_TOOL_DOUBLETAP | BTN_TOOL_TRIPLETAP, BTN_TOOL_TRIPLETAP
  | BTN_TOOL_QUADTAP, BTN_TOOL_QUADTAP | BTN_TOOL_QUINTTAP, BTN_TOOL_QUINTTAP => true
  | _, _ => false
  end.
Definition last_value (c : tool) (d : bool) (l : list input) : bool :=
  fold_left (fun b i => match i with Ev (Key c' p) _ => if tool_eqb c' c then p else b | Clear _ => false | _ => b end) l d.
(** How many fingers BTN_TOOL_* report: the smallest of the tools that are on *)
Definition fingers_reported (finger : bool) (l : list input) : Z :=
  if last_value BTN_TOOL_FINGER finger l then 1 else if last_value BTN_TOOL_DOUBLETAP false l then 2
  else if last_value BTN_TOOL_TRIPLETAP false l then 3 else if last_value BTN_TOOL_QUADTAP false l then 4 else 0.
Fixpoint never_quint (l : list input) : Prop := match l with [] => True | i :: r => match i with Ev (Key BTN_TOOL_QUINTTAP true) _ => False | _ => True end /\ never_quint r end.

(** The pressure and size last reported for slot [j] *)
Fixpoint last_pressure (j cur : nat) (p : Z) (l : list input) : Z :=
  match l with [] => p | i :: r => match i with Ev (Slot n) _ => last_pressure j n p r | Ev (Pressure v) _ => last_pressure j cur (if Nat.eqb cur j then v else p) r | _ => last_pressure j cur p r end end.
Fixpoint last_major (j cur : nat) (p : Z) (l : list input) : Z :=
  match l with [] => p | i :: r => match i with Ev (Slot n) _ => last_major j n p r | Ev (Major v) _ => last_major j cur (if Nat.eqb cur j then v else p) r | _ => last_major j cur p r end end.
Fixpoint last_minor (j cur : nat) (p : Z) (l : list input) : Z :=
  match l with [] => p | i :: r => match i with Ev (Slot n) _ => last_minor j n p r | Ev (Minor v) _ => last_minor j cur (if Nat.eqb cur j then v else p) r | _ => last_minor j cur p r end end.
(** Hysteresis: a finger that is down stays until the value falls below [lo]; one that is not comes down at [hi] *)
Definition pressed_hard (lo hi p : Z) (was : bool) : bool := if was then lo <=? p else hi <=? p.
Definition big_enough (lo hi a b : Z) (was : bool) : bool :=
  if was then (lo <=? a) && (lo <=? b) else ((hi <? a) && (lo <? b)) || ((lo <? a) && (hi <? b)).
