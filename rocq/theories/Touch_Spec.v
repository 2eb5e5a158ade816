(** What a client may rely on in a stream of touch events, and what the fingers
    do, independently of how the events are produced. *)
Require Import Coq.ZArith.ZArith Coq.Lists.List Coq.Bool.Bool.
Require Import Verif.Touch_Model.
Import ListNotations.
Open Scope Z_scope.

(** The touches a client knows to be down: (device, slot, seat slot). *)
Definition view := list (nat * Z * Z).
Definition drop (k : nat) (i : Z) (v : view) : view :=
  filter (fun x => negb (Nat.eqb (fst (fst x)) k && (snd (fst x) =? i))) v.

(** [legal v outs v']: the client, knowing touches [v], can make sense of the
    events [outs] and then knows the touches [v'].  A touch goes down only if
    its slot is up, gets the lowest seat slot in 0..31 that no touch of the
    seat uses, and keeps it; motion, up and cancel are only for touches that
    are down and carry the seat slot of the down. *)
Inductive legal : view -> list (nat * tout) -> view -> Prop :=
| legal_nil : forall v, legal v [] v
| legal_frame : forall v k t r v', legal v r v' -> legal v ((k, TFrame t) :: r) v'
| legal_down : forall v k t i n p r v',
    (forall n', ~ In (k, i, n') v) -> 0 <= n < 32 ->
    (forall k' i', ~ In (k', i', n) v) ->
    (forall n', 0 <= n' < n -> exists k' i', In (k', i', n') v) ->
    legal ((k, i, n) :: v) r v' -> legal v ((k, TDown t i n p) :: r) v'
| legal_motion : forall v k t i n p r v',
    In (k, i, n) v -> legal v r v' -> legal v ((k, TMotion t i n p) :: r) v'
| legal_up : forall v k t i n r v',
    In (k, i, n) v -> legal (drop k i v) r v' -> legal v ((k, TUp t i n) :: r) v'
| legal_cancel : forall v k t i n r v',
    In (k, i, n) v -> legal (drop k i v) r v' -> legal v ((k, TCancel t i n) :: r) v'.

(** The seat slots in use are pairwise different and in range. *)
Definition seat_slots_ok (v : view) : Prop :=
  NoDup (map snd v) /\ NoDup (map fst v) /\ Forall (fun x => 0 <= snd x < 32) v.

(** A new seat: every device as fallback_dispatch_create leaves it.  A touch
    device has ABS_X (evdev_fix_android_mt, /repo/src/evdev.c:1595-1613, adds it
    for multitouch devices). *)
Definition new_seat (w : seat) : Prop :=
  w_map w = 0 /\
  forall k, exists touch mt hp hy ab hx pts cur,
    w_dev w k = dev_init touch mt hp hy ab hx pts cur /\ (touch = true -> hx = true).

(** Frames: the events of one operation. *)
Definition is_frame (e : nat * tout) : bool := match snd e with TFrame _ => true | _ => false end.
Definition stamp (e : nat * tout) : Z :=
  match snd e with TDown t _ _ _ | TMotion t _ _ _ | TUp t _ _ | TCancel t _ _ | TFrame t => t end.
(** At most one frame event, which is last and follows a touch event. *)
Definition frame_shape (outs : list (nat * tout)) : Prop :=
  exists evs fr, outs = evs ++ fr /\ Forall (fun e => is_frame e = false) evs /\
    (fr = [] \/ (evs <> [] /\ exists k t, fr = [(k, TFrame t)])).
(** If there is a touch event there is a frame after it. *)
Definition frame_closed (outs : list (nat * tout)) : Prop :=
  outs = [] \/ exists evs k t, outs = evs ++ [(k, TFrame t)].

(** What the kernel said about the fingers of device [k]: the current slot, for
    each slot whether there is a contact, whether there was one at the last
    SYN_REPORT, and its position. *)
Record fingers := mkF { f_cur : Z; f_down : Z -> bool; f_sync : Z -> bool; f_pos : Z -> point }.
Definition fstep (k : nat) (f : fingers) (a : nat * top) : fingers :=
  if negb (Nat.eqb (fst a) k) then f
  else match snd a with
  | Slot v => mkF v (f_down f) (f_sync f) (f_pos f)
  | Track v _ => mkF (f_cur f) (fun i => if i =? f_cur f then 0 <=? v else f_down f i) (f_sync f) (f_pos f)
  | PosX x => mkF (f_cur f) (f_down f) (f_sync f) (fun i => if i =? f_cur f then (x, snd (f_pos f i)) else f_pos f i)
  | PosY y => mkF (f_cur f) (f_down f) (f_sync f) (fun i => if i =? f_cur f then (fst (f_pos f i), y) else f_pos f i)
  | Syn _ => mkF (f_cur f) (f_down f) (f_down f) (f_pos f)
  | _ => f
  end.
Definition fingers_after (k : nat) (f0 : fingers) (ops : list (nat * top)) : fingers := fold_left (fstep k) ops f0.

(** No contact reported yet; positions [pts], current slot [cur]. *)
Definition fingers_init (pts : list point) (cur : nat) : fingers :=
  mkF (Z.of_nat cur) (fun _ => false) (fun _ => false) (fun i => nth (Z.to_nat i) pts (0, 0)).

(** Slot numbers are in range. *)
Definition slots_ok (k : nat) (len : Z) (ops : list (nat * top)) : Prop :=
  forall v, In (k, Slot v) ops -> 0 <= v < len.
(** The touch panel is never muted as a whole. *)
Definition not_muted (k : nat) (ops : list (nat * top)) : Prop :=
  forall r t, ~ In (k, Arbitrate A_IGNORE_ALL r t) ops.
(** A slot in which there was a contact at the last SYN_REPORT gets no new
    contact before the next one. *)
Fixpoint spaced (k : nat) (f : fingers) (ops : list (nat * top)) : Prop :=
  match ops with
  | [] => True
  | a :: r => (forall v p, a = (k, Track v p) -> 0 <= v -> f_sync f (f_cur f) = false) /\ spaced k (fstep k f a) r
  end.
(** No palms and no pen. *)
Definition plain (k : nat) (ops : list (nat * top)) : Prop :=
  (forall v, ~ In (k, Track v true) ops) /\ ~ In (k, Tool true) ops /\
  (forall a r t, ~ In (k, Arbitrate a r t) ops).

(** The time an operation carries. *)
Definition top_time (o : top) : Z :=
  match o with Syn t | Suspend t | Arbitrate _ _ t | ArbTimer t => t | _ => 0 end.

(** The arbitration timer fires only while armed and when due. *)
Fixpoint timers_ok (hyst : point -> point -> point) (w : seat) (ops : list (nat * top)) : Prop :=
  match ops with
  | [] => True
  | a :: r => (forall k t, a = (k, ArbTimer t) -> exists e, dv_timer (w_dev w k) = Some e /\ e <= t)
              /\ timers_ok hyst (fst (wstep hyst w a)) r
  end.

(** The part of the panel under the pen's hand, if touches there are to be
    ignored. *)
Definition pen_step (k : nat) (s : arb * rect) (a : nat * top) : arb * rect :=
  if negb (Nat.eqb (fst a) k) then s
  else match snd a with
  | Arbitrate A_IGNORE_RECT r _ => match fst s with A_IGNORE_RECT => s | _ => (A_IGNORE_RECT, r) end
  | Arbitrate x _ _ => (x, snd s)
  | UpdateRect r => (fst s, r)
  | _ => s
  end.
Definition pen_after (k : nat) (ops : list (nat * top)) : arb * rect :=
  fold_left (pen_step k) ops (A_NOT_ACTIVE, mkRect 0 0 0 0).

(** A cancel or a frame of device [k] at time [t]. *)
Definition is_cancel_or_frame (k : nat) (t : Z) (e : nat * tout) : Prop :=
  e = (k, TFrame t) \/ exists i n, e = (k, TCancel t i n).
