(** Who holds references, and what a caller may do. *)
Require Import Coq.ZArith.ZArith Coq.Lists.List Coq.Bool.Bool Coq.Arith.PeanoNat.
Require Import Verif.Rc_Model.
Import ListNotations.
Open Scope Z_scope.

(** ** References held by the library *)
Definition opt (o : option nat) : list nat := match o with Some x => [x] | None => [] end.
(** An event, queued or taken, holds its device, its tool and its mode group; *)
Definition of_event (e : event) : list nat := e_dev e :: opt (e_tool e) ++ opt (e_mode e).
(** a device holds its seat, its group, and its tools and mode groups; *)
Definition of_device (w : world) (d : nat) : list nat := seat_of w d :: opt (group_of w d) ++ tools w d ++ modes w d.
(** a seat's list holds the devices added and not removed; the context holds the
    tools with serial numbers and, in the path backend, the seats. *)
Definition holders (w : world) : list nat :=
  flat_map of_event (queue w ++ hand w) ++ flat_map (devs w) (seats w) ++ flat_map (of_device w) (all w) ++ gtools w ++ (if udev w then [] else seats w).

(** ** References held by the caller, counted over the history *)
Definition held (l : list op) (x : nat) : Z :=
  fold_left (fun n o => match o with
                        | Ref y => if Nat.eqb y x then n + 1 else n
                        | Unref y => if Nat.eqb y x then n - 1 else n
                        | _ => n
                        end) l 0.
Definition ctx_held (l : list op) : Z :=
  fold_left (fun n o => match o with Ctx_ref => n + 1 | Ctx_unref _ => n - 1 | _ => n end) l 1.

(** ** What the caller has a pointer to that is documented to be valid *)
Inductive usable (w : world) (u : nat -> Z) : nat -> Prop :=
| us_held : forall x, 0 < u x -> usable w u x
| us_event : forall e x, In e (hand w) -> In x (of_event e) -> usable w u x
| us_added : forall s d, In s (seats w) -> In d (devs w s) -> usable w u d
| us_seat : forall d, usable w u d -> knd w d = K_device -> usable w u (seat_of w d)
| us_group : forall d g, usable w u d -> knd w d = K_device -> group_of w d = Some g -> usable w u g
| us_mode : forall d m, usable w u d -> knd w d = K_device -> In m (modes w d) -> usable w u m.
(** A device that was added and not removed *)
Definition added (w : world) (d : nat) : Prop := exists s, In s (seats w) /\ In d (devs w s).
(** Callers take references to what they may use, drop only references they
    hold -- those on tools and mode groups before their device is gone -- and
    drop the last one on the context last.  Devices in use send events; the
    udev backend adds devices while not suspended. *)
Definition legal (w : world) (u : nat -> Z) (c : Z) (o : op) : Prop :=
  0 < c /\
  match o with
  | Add _ => udev w = true -> enabled w = true
  | Remove _ d => if udev w then added w d else usable w u d /\ knd w d = K_device
  | Send d _ => added w d
  | Ref x => usable w u x
  | Unref x => 0 < u x /\ forall d, knd w x = K_tool \/ knd w x = K_mode -> home w x = Some d -> live w d = true
  | Ctx_unref _ => c = 1 -> hand w = [] /\ forall x, u x = 0
  | _ => True
  end.
Definition legal_history (b : bool) (l : list op) : Prop :=
  forall p o r, l = p ++ o :: r -> legal (run b p) (held p) (ctx_held p) o.

(** ** What is documented, or not ruled out, and does not hold *)
(** References on tools and mode groups dropped at any time *)
Definition legal_any_time (w : world) (u : nat -> Z) (c : Z) (o : op) : Prop :=
  match o with Unref x => 0 < c /\ 0 < u x | _ => legal w u c o end.
(** A device moved to another seat (libinput_device_set_seat_logical_name,
    that is udev_device_change_seat, /repo/src/udev-seat.c:372-388: removed if
    it is there and added again) while the context is suspended *)
Definition legal_suspended (w : world) (u : nat -> Z) (c : Z) (o : op) : Prop :=
  match o with Add _ => 0 < c | _ => legal w u c o end.
(** The context dropped before what was taken from it *)
Definition legal_any_order (w : world) (u : nat -> Z) (c : Z) (o : op) : Prop :=
  match o with Ctx_unref _ => 0 < c | Unref x => 0 < u x | _ => legal w u c o end.
Definition history_of (L : world -> (nat -> Z) -> Z -> op -> Prop) (b : bool) (l : list op) : Prop :=
  forall p o r, l = p ++ o :: r -> L (run b p) (held p) (ctx_held p) o.
