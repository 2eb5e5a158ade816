(** * The life of devices: specification *)
Require Import Coq.ZArith.ZArith Coq.Lists.List Coq.Bool.Bool Coq.Arith.PeanoNat.
Require Import Verif.Life_Model.
Import ListNotations.
Open Scope Z_scope.

(** A device is added, sends events, and is removed, once; a file is opened and closed, once *)
Inductive life := Before | During | After | Wrong.
Definition live1 (d : nat) (z : life) (o : out) : life :=
  match o with
  | Added e _ _ => if Nat.eqb e d then match z with Before => During | _ => Wrong end else z
  | Ev e => if Nat.eqb e d then match z with During => During | _ => Wrong end else z
  | Removed e => if Nat.eqb e d then match z with During => After | _ => Wrong end else z
  | _ => z
  end.
Definition lives (d : nat) (l : list out) : life := fold_left (live1 d) l Before.
Definition file1 (f : nat) (z : life) (o : out) : life :=
  match o with
  | Open g => if Nat.eqb g f then match z with Before => During | _ => Wrong end else z
  | Close g => if Nat.eqb g f then match z with During => After | _ => Wrong end else z
  | _ => z
  end.
Definition file (f : nat) (l : list out) : life := fold_left (file1 f) l Before.
(** What a caller sees of a history *)
Definition outs (p : bool) (l : list call) : list out := snd (run (init p) l).
(** The devices a caller knows of: number, syspath and logical seat *)
Definition know1 (z : list (nat * Z * Z)) (o : out) : list (nat * Z * Z) :=
  match o with Added d s se => z ++ [(d, s, se)] | Removed d => filter (fun x => negb (Nat.eqb (fst (fst x)) d)) z | _ => z end.
Definition known (l : list out) : list (nat * Z * Z) := fold_left know1 l [].
Definition syspath (x : nat * Z * Z) : Z := snd (fst x).
(** A caller changes the seat only of a device that is there *)
Fixpoint proper (p : bool) (before l : list call) : Prop :=
  match l with
  | [] => True
  | x :: r => match x with SetSeat i _ _ _ _ => lives i (outs p before) = During | _ => True end /\ proper p (before ++ [x]) r
  end.
(** Calls that add no device *)
Definition adds_none (x : call) : bool := match x with Suspend _ | PathRemove _ _ | Disable _ _ | Enable _ _ _ | Dispatch _ => true | _ => false end.
(** The last call returned this *)
Definition returned (l : list out) : option bool := fold_left (fun z o => match o with Ret b => Some b | _ => z end) l None.
(** A device that udev reports for the seat and that can be used *)
Definition usable (s : Z) (k : cand) : bool := k_ready k && Z.eqb (k_phys k) s && match k_how k with WORKS => true | _ => false end.
(** The seat that was assigned, and whether its devices are watched for: from the assignment to the suspension, and again after a resumption *)
Definition watch1 (z : option Z * bool) (x : call) : option Z * bool :=
  match x with
  | Assign s m _ => match fst z with None => (Some s, match m with M_OK => true | _ => false end) | Some _ => z end
  | Suspend _ => (fst z, false)
  | Resume m _ _ _ _ => match fst z, m with Some _, M_OK => (fst z, true) | _, _ => z end
  | _ => z
  end.
Definition watch (l : list call) : option Z * bool := fold_left watch1 l (None, false).
(** udev_monitor_filter_add_match_subsystem_devtype does not fail *)
Definition filter_works (x : call) : bool := match x with Assign _ M_FILTER _ | Resume M_FILTER _ _ _ _ => false | _ => true end.
(** epoll_ctl does not fail when a device is resumed *)
Definition epoll_works (x : call) : bool := match x with Enable _ B_EPOLL _ => false | _ => true end.
(** What a caller knows of a device but its number *)
Definition place (x : nat * Z * Z) : Z * Z := (syspath x, snd x).
Definition is_place (p q : Z * Z) : bool := Z.eqb (fst p) (fst q) && Z.eqb (snd p) (snd q).
(** Candidates are added in order, but for those that are there already *)
Definition take1 (z : list (Z * Z)) (k : cand) : list (Z * Z) :=
  if existsb (is_place (k_sys k, k_wl k)) z then z else z ++ [(k_sys k, k_wl k)].
(** With the path backend, a caller adds devices, removes them and changes their seat only while the context is not suspended, removes and changes only devices that are there, and resumes only what is suspended *)
Fixpoint tidy (before l : list call) (off : bool) : Prop :=
  match l with
  | [] => off = false
  | x :: r =>
      match x with
      | Suspend _ => tidy (before ++ [x]) r true
      | Resume _ _ _ _ _ => off = true /\ tidy (before ++ [x]) r (match returned (snd (step (fst (run (init true) before)) x)) with Some true => false | _ => true end)
      | PathAdd _ => off = false /\ tidy (before ++ [x]) r off
      | PathRemove i _ | SetSeat i _ _ _ _ => off = false /\ lives i (outs true before) = During /\ tidy (before ++ [x]) r off
      | _ => tidy (before ++ [x]) r off
      end
  end.
