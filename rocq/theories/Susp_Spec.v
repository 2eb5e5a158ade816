(** * When a touchpad is off: specification *)
Require Import Coq.ZArith.ZArith Coq.Lists.List Coq.Bool.Bool.
Require Import Verif.Susp_Model.
Import ListNotations.

(** ** The world: what is connected, what the switches said, what the setting is *)
Definition upd (i : nat) (f : dev -> dev) (w : list dev) : list dev := map (fun d => if Nat.eqb (did d) i then f d else d) w.
Definition enabled (b : bool) (d : dev) : dev := {| did := did d; mouse := mouse d; lidsw := lidsw d; tmsw := tmsw d; lidstate := lidstate d; tmstate := tmstate d; off := negb b |}.
Definition tablet (b : bool) (d : dev) : dev := {| did := did d; mouse := mouse d; lidsw := lidsw d; tmsw := tmsw d; lidstate := lidstate d; tmstate := b; off := off d |}.
Definition lid_ (b : bool) (d : dev) : dev := {| did := did d; mouse := mouse d; lidsw := lidsw d; tmsw := tmsw d; lidstate := b; tmstate := tmstate d; off := off d |}.
(** The devices after one thing happened *)
Definition after (w : list dev) (x : input) : list dev :=
  match x with
  | Plug d => w ++ [d]
  | Unplug i => filter (fun d => negb (Nat.eqb (did d) i)) w
  | Off i => upd i (enabled false) w
  | On i => upd i (enabled true) w
  | Tm i b => upd i (tablet b) w
  | Lid i b => upd i (lid_ b) w
  | _ => w
  end.
Definition there (ds : list dev) (l : list input) : list dev := fold_left after l ds.
(** The lid switches that, since the touchpad is there, reported the lid as closed, and not yet as open; a switch that is disabled or removed says nothing any more *)
Definition closed1 (k : list nat) (x : input) : list nat :=
  match x with
  | Lid i true => i :: k
  | Lid i false | Unplug i | Off i => remove Nat.eq_dec i k
  | _ => k
  end.
Definition closed (l : list input) : list nat := fold_left closed1 l [].
(** The setting: 0 enabled, 1 disabled, 2 disabled while there is an external mouse, 3 is 1.  Touchpads that are external themselves only know 0 and 1; what is not supported changes nothing *)
Definition set1 (c : pad) (m : Z) (x : input) : Z :=
  match x with
  | SetMode v => if Z.eqb v 0 then 0%Z else if Z.eqb v 1 then 1%Z else if Z.eqb v 2 && internal c then 2%Z else if Z.eqb v 3 && internal c then 1%Z else m
  | _ => m
  end.
Definition setting (c : pad) (l : list input) : Z := fold_left (set1 c) l 0%Z.

(** ** Sane histories *)
(** No two devices with the same number; at most one lid switch and one tablet mode switch *)
Definition ok (w : list dev) : Prop :=
  NoDup (map did w) /\ (forall d e, In d w -> In e w -> lidsw d = true -> lidsw e = true -> did d = did e) /\ (forall d e, In d w -> In e w -> tmsw d = true -> tmsw e = true -> did d = did e).
(** New devices have new numbers and are enabled; only connected and enabled switches report *)
Definition allowed (w : list dev) (x : input) : Prop :=
  match x with
  | Plug d => ~ In (did d) (map did w) /\ off d = false
  | Lid i _ => exists d, In d w /\ did d = i /\ lidsw d = true /\ off d = false
  | Tm i _ => exists d, In d w /\ did d = i /\ tmsw d = true /\ off d = false
  | _ => True
  end.
Fixpoint sane (w : list dev) (l : list input) : Prop := match l with [] => ok w | x :: r => ok w /\ allowed w x /\ sane (after w x) r end.

(** ** When the touchpad is to be off *)
Definition lid_closed (ds : list dev) (l : list input) : Prop := exists d, In d (there ds l) /\ lidsw d = true /\ off d = false /\ In (did d) (closed l).
Definition tablet_mode (ds : list dev) (l : list input) : Prop := exists d, In d (there ds l) /\ tmsw d = true /\ off d = false /\ tmstate d = true.
Definition mouse_usable (ds : list dev) (l : list input) : Prop := exists d, In d (there ds l) /\ mouse d = true /\ off d = false.
Definition mouse_connected (ds : list dev) (l : list input) : Prop := exists d, In d (there ds l) /\ mouse d = true.
Definition reason (m : Prop) (c : pad) (ds : list dev) (l : list input) : Prop :=
  setting c l = 1%Z \/ (setting c l = 2%Z /\ m) \/ (internal c = true /\ lid_closed ds l) \/ (internal c = true /\ no_tm c = false /\ tablet_mode ds l).
(** The touchpad works after the history; with each thing that happens: whether the device node could be opened then *)
Definition working (c : pad) (o : bool) (ds : list dev) (h : list (input * bool)) : bool := works (run c (init c o ds) h).
Definition opened (h : list (input * bool)) : Prop := forall x o, In (x, o) h -> o = true.
