(** * Tablet pads: what the theorems say *)
Require Import Coq.ZArith.ZArith Coq.QArith.QArith Coq.Lists.List Coq.Bool.Bool.
Require Import Verif.Pad_Model.
Import ListNotations.
Open Scope Z_scope.

(** What is needed of log2 *)
Record good_log (lg : Z -> Q) : Prop := {
  lg_one : (lg 1%Z == 0)%Q; lg_pos : forall n, (1 < n)%Z -> (0 < lg n)%Q; lg_mono : forall a b, (1 <= a <= b)%Z -> (lg a <= lg b)%Q }.
(** The axes' ranges: not empty, below 2^31 values; strips, whose values are powers of two, have more than one position *)
Definition good_axes (d : device) : Prop := forall a, if is_ring a then amin d a <= amax d a /\ amax d a - amin d a + 1 <= 2147483647 else 1 < amax d a.
Definition env_of (i : pinput) : option env := match i with Syn e _ | Suspend e _ | SetMode _ e _ => Some e | _ => None end.
(** Values are in the axis' range; a strip's value is 0 or a position *)
Definition values_ok (d : device) (i : pinput) : Prop :=
  match env_of i with Some e => forall a, if is_ring a then amin d a <= value e a <= amax d a else 0 <= value e a <= amax d a | None => True end.
(** The kernel only sends axes the device has *)
Definition axes_ok (d : device) (i : pinput) : Prop := match i with Abs a => has_abs d a = true | _ => True end.

(** ** Buttons and keys as the client sees them *)
(** Presses and releases alternate, from [b] and [k] down *)
Fixpoint paired (b k : Z -> bool) (l : list pev) : Prop :=
  match l with
  | [] => True
  | PButton _ n d _ _ :: l => b n = negb d /\ paired (upd b n d) k l
  | PKey _ n d :: l => k n = negb d /\ paired b (upd k n d) l
  | _ :: l => paired b k l
  end.
Definition button_down (l : list pev) (n : Z) : bool := fold_left (fun b e => match e with PButton _ m d _ _ => if n =? m then d else b | _ => b end) l false.
Definition key_down (l : list pev) (n : Z) : bool := fold_left (fun b e => match e with PKey _ m d => if n =? m then d else b | _ => b end) l false.
(** The device's buttons: what the kernel said last; a suspend, or disabling the device, releases them *)
Definition physical1 (s : Z * (Z -> bool)) (i : pinput) : Z * (Z -> bool) :=
  match i with
  | KeyEv c v => (fst s, if v =? 2 then snd s else upd (snd s) c (negb (v =? 0)))
  | Suspend _ _ => (fst s, fun _ => false)
  | SetMode m _ _ => if m =? fst s then s else if m =? 0 then (0, snd s) else if m =? 1 then (1, fun _ => false) else s
  | _ => s
  end.
Definition physical (l : list pinput) : Z -> bool := snd (fold_left physical1 l (0, fun _ => false)).

(** ** Modes *)
(** The part of a mode group that does not change *)
Definition shape (g : group) : Z * Z * nat * (Z * Z * Z * Z) := (gix g, num_modes g, leds g, (bmask g, rmask g, smask g, tmask g)).
(** An event's mode is a mode of the event's group *)
Definition mode_ok (gs : list group) (e : pev) : Prop :=
  match e with
  | PButton _ _ _ m g | PRing _ _ _ m g | PStrip _ _ _ m g => exists x, In x gs /\ gix x = g /\ 0 <= m < num_modes x
  | PKey _ _ _ => True
  end.
(** LED [m] is the first of the [n] of the group that is lit *)
Definition is_lit (e : env) (g : Z) (n : nat) (m : Z) : Prop :=
  exists k, m = Z.of_nat k /\ (k < n)%nat /\ (forall j, (j < k)%nat -> bright e g j = Some 0) /\ exists b, bright e g k = Some b /\ b <> 0.

(** ** libwacom's data fit the device *)
Definition consistent (d : device) : Prop :=
  (has_abs d RING2 = true -> has_abs d RING1 = true) /\ (has_abs d STRIP2 = true -> has_abs d STRIP1 = true) /\
  match by_path d with
  | Some w => snd (init_buttons d) <= Z.of_nat (length (w_buttons w)) /\
      (has_abs d RING1 = true -> In L_RING (w_leds w)) /\ (has_abs d RING2 = true -> In L_RING2 (w_leds w)) /\
      (has_abs d STRIP1 = true -> In L_STRIP (w_leds w)) /\ (has_abs d STRIP2 = true -> In L_STRIP2 (w_leds w))
  | None => True
  end.

(** ** What the events tell about modes: a press of a toggle button carries its group's new mode, any other event the mode it had *)
Definition put_mode (cm : Z -> Z) (g m : Z) : Z -> Z := fun x => if x =? g then m else cm x.
Fixpoint told (tog : Z -> Z -> bool) (cm : Z -> Z) (l : list pev) : Prop :=
  match l with
  | [] => True
  | PButton _ n down md g :: l => if down && tog g n then told tog (put_mode cm g md) l else md = cm g /\ told tog cm l
  | PRing _ _ _ md g :: l | PStrip _ _ _ md g :: l => md = cm g /\ told tog cm l
  | PKey _ _ _ :: l => told tog cm l
  end.
Definition told_mode (tog : Z -> Z -> bool) (cm : Z -> Z) (l : list pev) : Z -> Z :=
  fold_left (fun cm e => match e with PButton _ n true md g => if tog g n then put_mode cm g md else cm | _ => cm end) l cm.
(** A button, ring or strip an event is of exists, and is of the group the event names; the mode is one of the group's *)
Definition event_ok (d : device) (nb : Z) (gs : list group) (e : pev) : Prop :=
  match e with
  | PButton _ n _ m g => 0 <= n < nb /\ exists x, In x gs /\ gix x = g /\ Z.testbit (bmask x) n = true /\ 0 <= m < num_modes x
  | PRing _ n _ m g => 0 <= n < num_rings d /\ exists x, In x gs /\ gix x = g /\ Z.testbit (rmask x) n = true /\ 0 <= m < num_modes x
  | PStrip _ n _ m g => 0 <= n < num_strips d /\ exists x, In x gs /\ gix x = g /\ Z.testbit (smask x) n = true /\ 0 <= m < num_modes x
  | PKey _ k _ => k = 576 \/ k = 632 \/ k = 579
  end.
Definition time_of (e : pev) : Z := match e with PButton t _ _ _ _ | PKey t _ _ | PRing t _ _ _ _ | PStrip t _ _ _ _ => t end.
(** Positions *)
Definition position_ok (e : pev) : Prop :=
  match e with
  | PRing _ _ pos _ _ => exists q, pos = Some q /\ ((q == -1)%Q \/ (0 <= q < 360)%Q)
  | PStrip _ _ pos _ _ => exists q, pos = Some q /\ ((q == -1)%Q \/ (0 <= q <= 1)%Q)
  | _ => True
  end.
(** ** Rings and strips
    Which axes moved in the frame so far and whether ABS_MISC was sent; ABS_MISC stays pending until a frame with an axis *)
Definition axes4 : list axis := [RING1; RING2; STRIP1; STRIP2].
Record frame := { f_mode : Z; f_moved : axis -> bool; f_misc : bool }.
Definition frame_end (f : frame) (m : Z) : frame := {| f_mode := m; f_moved := fun _ => false; f_misc := if existsb (f_moved f) axes4 then false else f_misc f |}.
Definition frame1 (f : frame) (i : pinput) : frame :=
  match i with
  | Abs a => {| f_mode := f_mode f; f_moved := fun x => axis_eqb x a || f_moved f x; f_misc := f_misc f |}
  | AbsMisc => {| f_mode := f_mode f; f_moved := f_moved f; f_misc := true |}
  | Syn _ _ | Suspend _ _ => frame_end f (f_mode f)
  | SetMode m _ _ => if m =? f_mode f then f else if m =? 0 then {| f_mode := 0; f_moved := f_moved f; f_misc := f_misc f |} else if m =? 1 then frame_end f 1 else f
  | _ => f
  end.
Definition frame_of (l : list pinput) : frame := fold_left frame1 l {| f_mode := 0; f_moved := fun _ => false; f_misc := false |}.
(** The position for an axis' value: degrees clockwise from the top, with the pad turned if it is used left-handed; the logarithm of the strip's bit *)
Definition position_of (lg : Z -> Q) (d : device) (left : bool) (a : axis) (v : Z) (q : Q) : Prop :=
  if is_ring a then (0 <= q < 360)%Q /\ exists k, (q == 360 * (inject_Z (v - amin d a) / inject_Z (amax d a - amin d a + 1)) - 90 + (if left then 180 else 0) + 360 * inject_Z k)%Q
  else if v =? 0 then (q == 0)%Q else (q == if left then 1 - lg v / lg (amax d a) else lg v / lg (amax d a))%Q.
(** The ring and strip events: ring or strip, number, position *)
Definition reports (l : list pev) : list (bool * Z * option Q) :=
  flat_map (fun e => match e with PRing _ n pos _ _ => [(true, n, pos)] | PStrip _ n pos _ _ => [(false, n, pos)] | _ => [] end) l.
