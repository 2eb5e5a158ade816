(** * What pointer acceleration should do *)
Require Import Coq.ZArith.ZArith Coq.QArith.QArith Coq.Lists.List Coq.Bool.Bool.
Require Import Verif.Acc_Model.
Import ListNotations.
Open Scope Q_scope.

(** What is used of hypot and pow: hypot lies between the larger and the sum of the two sides; pow starts at 0 and does not decrease *)
Record good_math (m : math) : Prop := {
  g_hyp : forall x y, 0 <= hyp m x y /\ Qabs.Qabs x <= hyp m x y /\ Qabs.Qabs y <= hyp m x y /\ hyp m x y <= Qabs.Qabs x + Qabs.Qabs y;
  g_hyp_eq : forall x x' y y', x == x' -> y == y' -> hyp m x y == hyp m x' y';
  g_ps : pow_speed m 0 == 0 /\ (forall x y, 0 <= x -> x <= y -> pow_speed m x <= pow_speed m y);
  g_pt : pow_tp m 0 == 0 /\ (forall x y, 0 <= x -> x <= y -> pow_tp m x <= pow_tp m y) }.
(** Devices: resolutions are positive *)
Definition good_class (c : dev_class) : Prop :=
  match c with
  | DMouse d _ | DTouchpad d _ _ _ => (0 < d)%Z
  | DTrackpoint d mu _ => (0 < d)%Z /\ 0 < mu
  | DTablet a b => (0 < a)%Z /\ (0 < b)%Z
  end.
(** The settings after a history: the last accepted ones, else the default *)
Definition in_range (s : Q) : bool := Qle_bool (-1) s && Qle_bool s 1.
Definition setting1 (s : Q) (i : ainput) : Q := match i with SetSpeed (Some v) => if in_range v then v else s | _ => s end.
Definition setting (l : list ainput) : Q := fold_left setting1 l 0.
Definition chosen1 (c : dev_class) (p : acc_profile) (i : ainput) : acc_profile :=
  match c, i with DTablet _ _, _ => P_ADAPTIVE | _, SetProfile P_FLAT => P_FLAT | _, SetProfile P_ADAPTIVE => P_ADAPTIVE | _, _ => p end.
Definition chosen (c : dev_class) (l : list ainput) : acc_profile := fold_left (chosen1 c) l P_ADAPTIVE.

(** The range of the factor between the device's motion and the reported motion, for the speed setting [s] *)
Definition per1000 (d : Z) : Q := 1000 / inject_Z d.
Definition lowest (m : math) (c : dev_class) (p : acc_profile) (s : Q) : Q :=
  match c, p with
  | (DMouse _ _ | DTrackpoint _ _ _), P_FLAT => if Qle_bool (1 + s) (5 # 1000) then 5 # 1000 else 1 + s
  | DTouchpad _ _ _ _, P_FLAT => (2968 # 10000) * (if Qle_bool (1 + s) (5 # 1000) then 5 # 1000 else 1 + s)
  | DMouse d _, _ => (3 # 10) * (if (d <? 1000)%Z then 1 else per1000 d)
  | DTrackpoint _ mu _, _ => (3 # 10) * speed_factor m s * mu
  | DTouchpad _ true _ _, _ => 0
  | DTouchpad d false _ _, _ => (3 # 10) * (2968 # 10000) * speed_factor m s * per1000 d
  | DTablet _ _, _ => 0
  end.
Definition highest (m : math) (c : dev_class) (p : acc_profile) (s : Q) : Q :=
  match c, p with
  | (DMouse _ _ | DTrackpoint _ _ _ | DTouchpad _ _ _ _), P_FLAT => lowest m c p s
  | DMouse d _, _ => (2 + (15 # 10) * s) * per1000 d
  | DTrackpoint _ mu _, _ => (1006254 # 100000) * speed_factor m s * mu
  | DTouchpad d true _ _, _ => (4 # 10) * (2 + (15 # 10) * s) * per1000 d
  | DTouchpad d false _ _, _ => (48 # 10) * (2968 # 10000) * speed_factor m s * per1000 d
  | DTablet _ _, _ => 0
  end.

(** ** The speed of the motion *)
(** The history of a filter, latest first: motions and restarts *)
Inductive past := Moved (x y : Q) (t : Z) | Started (t : Z).
Definition when (e : past) : Z := match e with Moved _ _ t | Started t => t end.
(** Sum of the motions *)
Definition moved_x (l : list past) : Q := fold_right (fun e a => match e with Moved x _ _ => x + a | Started _ => a end) 0 l.
Definition moved_y (l : list past) : Q := fold_right (fun e a => match e with Moved _ y _ => y + a | Started _ => a end) 0 l.
(** Time between two events for the purpose of speeds *)
Definition elapsed (sm : option (Z * Z)) (dt : Z) : Z := match sm with Some (th, v) => if (dt + 1 <? th)%Z then v else (dt + 1)%Z | None => (dt + 1)%Z end.
(** [v] is the mean speed at time [t] over the last [k] motions of the history, at least one: from the event before them, which is at most a second ago, to now.
    An event longer ago counts as a second ago, for the last motion alone. *)
Definition mean_speed (m : math) (sm : option (Z * Z)) (l : list past) (t : Z) (k : nat) (v : Q) : Prop :=
  (1 <= k)%nat /\ (forall e, In e (firstn k l) -> exists x y u, e = Moved x y u) /\
  exists before, nth_error l k = Some before /\
    let dt := (t - when before)%Z in (0 <= dt)%Z /\
    (((dt <= 1000000)%Z /\ v == hyp m (moved_x (firstn k l)) (moved_y (firstn k l)) / inject_Z (elapsed sm dt))
     \/ ((1000000 < dt)%Z /\ k = 1%nat /\ v == hyp m (moved_x (firstn 1 l)) (moved_y (firstn 1 l)) / inject_Z (elapsed sm 1000000))).
(** The motion in the units a filter works in: 1000 dpi, or the device's own *)
Definition units (c : dev_class) (x : Q) : Q :=
  match c with
  | DMouse d _ => if (d <? 1000)%Z then x else x * 1000 / inject_Z d
  | DTouchpad d true _ _ => x * 1000 / inject_Z d
  | DTrackpoint _ mu _ => x * mu
  | _ => x
  end.
(** The history of the adaptive filter: what happened since it was chosen; a motion or a restart counts for the filter in use *)
Definition history1 (c : dev_class) (h : acc_profile * list past) (i : ainput) : acc_profile * list past :=
  let '(p, l) := h in
  let q := chosen1 c p i in
  match i with
  | Motion _ x y t => (q, match p with P_ADAPTIVE => Moved (units c x) (units c y) t :: l | _ => l end)
  | Restart t => (q, match p with P_ADAPTIVE => Started t :: l | _ => l end)
  | SetProfile _ => (q, if profile_eqb q p then l else [Started 0])
  | _ => (q, l)
  end.
Definition history (c : dev_class) (l : list ainput) : list past := snd (fold_left (history1 c) l (P_ADAPTIVE, [Started 0])).
Definition smoothing (c : dev_class) : option (Z * Z) :=
  match c with DTrackpoint _ _ _ => Some (10000, 10000)%Z | DTouchpad _ false bt _ => Some (if bt then (50000, 10000) else (0, 0))%Z | _ => None end.
