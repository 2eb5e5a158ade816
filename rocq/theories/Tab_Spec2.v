(** * What is claimed about the axis values of tablet tools, and about touch arbitration *)
Require Import Coq.ZArith.ZArith Coq.QArith.QArith Coq.Lists.List Coq.Bool.Bool.
From Verif Require Import Tab_Model.
Import ListNotations.
Open Scope Z_scope.

(** ** The kernel's values *)
(** The last value of an axis of the device *)
Definition kernel_step (d : device) (v : axis -> Z) (i : input) : axis -> Z :=
  match i with IAbs a x => match a with REL_WHEEL => v | _ => if has_abs d a then aupd v a x else v end | IResync u => u | _ => v end.
Definition kernel (d : device) (w : world) (l : list input) : axis -> Z := fold_left (kernel_step d) l (w_values w).
(** Values stay within the range the device announced *)
Definition within (d : device) (v : axis -> Z) : Prop := forall a, has_abs d a = true -> amin d a <= v a <= amax d a.
(** A tool of the context's list suits this tablet: it has no axis the tablet lacks (but for the rotation, which mice take from the tilt), and its threshold lies below the tablet's greatest pressure *)
Definition suits (d : device) (o : tool) : Prop :=
  (forall a, a <> ROTATION_Z -> caps o a = true -> has_abs d a = true) /\ (has_abs d PRESSURE = true -> p_upper o < amax d PRESSURE /\ p_offset o < amax d PRESSURE).
Definition fair_input (d : device) (i : input) : Prop :=
  match i with IAbs a x => has_abs d a = true -> amin d a <= x <= amax d a | IResync v => within d v | IOther l => Forall (suits d) l | _ => True end.
Definition fair (d : device) (w : world) (l : list input) : Prop := within d (w_values w) /\ Forall (suits d) (w_globals w) /\ Forall (fair_input d) l.
(** The device: every range has a length; a quirk's pressure range lies below the greatest pressure, which is positive; both tilt axes or none *)
Definition sane (d : device) : Prop :=
  (forall a, has_abs d a = true -> amin d a < amax d a /\ 0 <= ares d a) /\ (has_abs d PRESSURE = true -> 0 <= amin d PRESSURE) /\
  (forall lo hi, quirk_range d = Some (lo, hi) -> hi < amax d PRESSURE) /\ has_abs d TILT_X = has_abs d TILT_Y /\ (0 <= deg_per_rad d)%Q /\ (0 < hsize d)%nat.

(** ** The documented ranges *)
(** Tilt in degrees: of a device with a resolution in units per radian and a range around 0 what its range says, of others 64; 0 without the axis *)
Definition most_tilt (d : device) (a : axis) : Q :=
  if negb (has_abs d a) then 0%Q else
  if negb (ares d a =? 0) && (0 <? amax d a) && (amin d a <? 0) then (deg_per_rad d * inject_Z (Z.max (- amin d a) (amax d a)) / inject_Z (ares d a))%Q else 64%Q.
Definition between (lo x hi : Q) : Prop := (lo <= x)%Q /\ (x <= hi)%Q.
Definition in_ranges (d : device) (a : axes) : Prop :=
  between 0 (pressure a) 1 /\ between 0 (distance a) 1 /\ between (-1) (slider a) 1 /\ ((0 <= rotation a)%Q /\ (rotation a < 360)%Q) /\
  between (- most_tilt d TILT_X) (fst (tilt a)) (most_tilt d TILT_X) /\ between (- most_tilt d TILT_Y) (snd (tilt a)) (most_tilt d TILT_Y).
(** The axes an event carries, and those it says have changed *)
Definition axes_of (e : tev) : option axes := match e with EProx _ _ _ _ a | ETip _ _ _ _ a | EAxis _ _ _ _ a | EButton _ _ _ a _ _ => Some a | _ => None end.
Definition news (e : tev) : axis -> bool := match e with EProx _ _ _ ch _ | ETip _ _ _ ch _ | EAxis _ _ _ ch _ => ch | _ => fun _ => false end.
Definition is_leave (e : tev) : bool := match e with EProx _ _ false _ _ => true | _ => false end.
(** The fraction of the way from [lo] to [hi] *)
Definition part (lo hi x : Z) : Q := (inject_Z (x - lo) / inject_Z (hi - lo))%Q.

(** ** Touch arbitration: what the touch device was last told; nothing at first, which leaves it active *)
Definition told_from (x : arbitration) (l : list tev) : arbitration := fold_left (fun x e => match e with OArb _ w _ => w | _ => x end) l x.
Definition told (l : list tev) : arbitration := told_from NOT_ACTIVE l.
(** A touch device of the tablet's group comes or some device goes *)
Definition touch_change (i : input) : bool := match i with IAdded _ touchscreen ext_touchpad _ => touchscreen || ext_touchpad | IRemoved _ => true | _ => false end.
(** The history has one touch device, which stays once it has come *)
Definition one_touch (l : list input) : Prop :=
  exists l1 id a b lf l2, l = (l1 ++ IAdded id a b lf :: l2)%list /\ a || b = true /\ forallb (fun i => negb (touch_change i)) (l1 ++ l2) = true.
