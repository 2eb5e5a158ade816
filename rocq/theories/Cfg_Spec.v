(** What the documentation of the configuration options promises,
    /repo/src/libinput.h:4330-5900, independent of how the devices store
    their settings. *)
Require Import Coq.ZArith.ZArith Coq.Lists.List Coq.Bool.Bool.
Require Import Verif.Cfg_Model.
Import ListNotations.
Open Scope Z_scope.

(** What a caller can ask a device before setting anything:
    libinput_device_config_tap_get_finger_count, _send_events_get_modes,
    _scroll_has_natural_scroll, _left_handed_is_available, _click_get_methods,
    _middle_emulation_is_available, _scroll_get_methods,
    libinput_device_pointer_has_button, _dwt_is_available,
    _rotation_is_available *)
Record offer := { fingers : Z; modes : Z; natural : bool; left : bool; clicks : Z; middle : bool; scrolls : Z;
  button : Z -> bool; dwt : bool; rotation : bool }.
Definition offers (h : hw) : offer :=
  {| fingers := get_finger_count h; modes := get_send_modes h; natural := hooks_natural h; left := hooks_left h;
     clicks := get_click_methods h; middle := hooks_mid h; scrolls := get_scroll_methods h; button := btn h;
     dwt := hooks_dwt h; rotation := hooks_rotation h |}.

(** all bits of v are set in m *)
Definition within (v m : Z) : Prop := forall i, 0 <= i -> Z.testbit v i = true -> Z.testbit m i = true.
Definition one_of (v : Z) (l : list Z) : Prop := In v l.
(** on-button scrolling is among the scroll methods *)
Definition on_button (f : offer) : Prop := Z.testbit (scrolls f) 2 = true.

(** The documented result [r] of setting an option to a value.  A feature with
    an off state can be switched off where it does not exist. *)
Definition documented (f : offer) (o : opt) (v : Z) (r : status) : Prop :=
  match o with
  | Tap | Drag | DragLock =>
      (~ one_of v [0; 1] /\ r = INVALID) \/
      (one_of v [0; 1] /\ fingers f = 0 /\ v = 1 /\ r = UNSUPPORTED) \/
      (one_of v [0; 1] /\ (fingers f <> 0 \/ v = 0) /\ r = SUCCESS)
  | TapMap =>
      (~ one_of v [0; 1] /\ r = INVALID) \/
      (one_of v [0; 1] /\ fingers f = 0 /\ r = UNSUPPORTED) \/
      (one_of v [0; 1] /\ fingers f <> 0 /\ r = SUCCESS)
  | SendEvents => (within v (modes f) /\ r = SUCCESS) \/ (~ within v (modes f) /\ r = UNSUPPORTED)
  | Natural => (natural f = true /\ r = SUCCESS) \/ (natural f = false /\ r = UNSUPPORTED)
  | LeftHanded => (left f = true /\ r = SUCCESS) \/ (left f = false /\ r = UNSUPPORTED)
  | Click =>
      (~ one_of v [0; 1; 2] /\ r = INVALID) \/
      (one_of v [0; 1; 2] /\ within v (clicks f) /\ r = SUCCESS) \/
      (one_of v [0; 1; 2] /\ ~ within v (clicks f) /\ r = UNSUPPORTED)
  | MiddleEmulation =>
      (~ one_of v [0; 1] /\ r = INVALID) \/
      (v = 1 /\ middle f = false /\ r = UNSUPPORTED) \/
      (one_of v [0; 1] /\ (middle f = true \/ v = 0) /\ r = SUCCESS)
  | ScrollMethod =>
      (~ one_of v [0; 1; 2; 4] /\ r = INVALID) \/
      (one_of v [0; 1; 2; 4] /\ within v (scrolls f) /\ r = SUCCESS) \/
      (one_of v [0; 1; 2; 4] /\ ~ within v (scrolls f) /\ r = UNSUPPORTED)
  | ScrollButton =>
      (~ on_button f /\ r = UNSUPPORTED) \/
      (on_button f /\ v <> 0 /\ button f v = false /\ r = INVALID) \/
      (on_button f /\ (v = 0 \/ button f v = true) /\ r = SUCCESS)
  | ScrollLock =>
      (~ on_button f /\ v = 0 /\ r = SUCCESS) \/
      (~ on_button f /\ v <> 0 /\ r = UNSUPPORTED) \/
      (on_button f /\ ~ one_of v [0; 1] /\ r = INVALID) \/
      (on_button f /\ one_of v [0; 1] /\ r = SUCCESS)
  | Dwt =>
      (~ one_of v [0; 1] /\ r = INVALID) \/
      (v = 1 /\ dwt f = false /\ r = UNSUPPORTED) \/
      (one_of v [0; 1] /\ (dwt f = true \/ v = 0) /\ r = SUCCESS)
  | Rotation =>
      (rotation f = false /\ v = 0 /\ r = SUCCESS) \/
      (rotation f = false /\ v <> 0 /\ r = UNSUPPORTED) \/
      (rotation f = true /\ one_of v [0; 90; 180; 270] /\ r = SUCCESS) \/
      (rotation f = true /\ ~ one_of v [0; 90; 180; 270] /\ r = INVALID)
  end.

(** The value the getter returns after a successful set: any non-zero value
    enables natural scrolling and left-handedness; "if DISABLED is set, other
    disable modes may be ignored" (/repo/src/libinput.h:4828-4833) *)
Definition shown (o : opt) (v r : Z) : Prop :=
  match o with
  | Natural | LeftHanded => (v = 0 /\ r = 0) \/ (v <> 0 /\ r = 1)
  | SendEvents => (Z.testbit v 0 = true /\ r = 1) \/ (Z.testbit v 0 = false /\ r = v)
  | _ => r = v
  end.

(** The option's value after a history of calls: the last accepted one, [d]
    if there is none. *)
Inductive last_set (f : offer) (o : opt) (d : Z) : list op -> Z -> Prop :=
| ls_none : last_set f o d [] d
| ls_set : forall l v r, documented f o v SUCCESS -> shown o v r -> last_set f o d (l ++ [Set_ o v]) r
| ls_refused : forall l v s r, documented f o v s -> s <> SUCCESS -> last_set f o d l r -> last_set f o d (l ++ [Set_ o v]) r
| ls_other : forall l x r, (forall v, x <> Set_ o v) -> last_set f o d l r -> last_set f o d (l ++ [x]) r.

(** The options the caller's value of which takes effect later, and the value in effect *)
Definition in_effect (h : hw) (o : opt) (c : conf) : Z :=
  match o with
  | TapMap => if fingers (offers h) =? 0 then 0 else c_map c
  | LeftHanded => if left (offers h) then b2z (c_left c) else 0
  | MiddleEmulation => if middle (offers h) then b2z (c_mid c) else 0
  | ScrollMethod => if hooks_btnscroll h then c_method c else get h o c
  | ScrollButton => if hooks_btnscroll h then c_button c else 0
  | ScrollLock => if hooks_btnscroll h then b2z (c_lock c) else 0
  | _ => get h o c
  end.
(** nothing keeps a change waiting *)
Definition idle (c : conf) : Prop := b_left c = false /\ b_scroll c = false /\ b_mid c = false /\ b_tap c = false.

(** the caller passes the angle as an unsigned number *)
Definition unsigned (l : list op) : Prop := forall v, In (Set_ Rotation v) l -> 0 <= v.
(** the device has the option at all *)
Definition has (f : offer) (o : opt) : Prop :=
  match o with
  | Tap | TapMap | Drag | DragLock => fingers f <> 0
  | SendEvents => True
  | Natural => natural f = true
  | LeftHanded => left f = true
  | Click => clicks f <> 0
  | MiddleEmulation => middle f = true
  | ScrollMethod => scrolls f <> 0
  | ScrollButton | ScrollLock => on_button f
  | Dwt => dwt f = true
  | Rotation => rotation f = true
  end.
