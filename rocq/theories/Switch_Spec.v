(** What the client sees of a switch. *)
Require Import Coq.ZArith.ZArith Coq.Lists.List.
Require Import Verif.Switch_Model.
Import ListNotations.
Open Scope Z_scope.

(** The states reported for a switch, in order. *)
Fixpoint reported (sw : switch) (o : list out) : list bool :=
  match o with
  | [] => []
  | Toggle s b :: r => match s, sw with LID, LID => b :: reported sw r | TABLET_MODE, TABLET_MODE => b :: reported sw r | _, _ => reported sw r end
  | _ :: r => reported sw r
  end.
(** No state is reported twice in a row; [last] was reported before. *)
Fixpoint alternate (last : bool) (l : list bool) : Prop :=
  match l with [] => True | b :: r => b = negb last /\ alternate b r end.
(** What the client believes: off until told otherwise. *)
Definition view (sw : switch) (o : list out) : bool := last (reported sw o) false.
(** The kernel reports changes of the lid only. *)
Fixpoint lid_changes (hw : bool) (l : list ev) : Prop :=
  match l with
  | [] => True
  | ELid v :: r => negb (v =? 0) = negb hw /\ lid_changes (negb (v =? 0)) r
  | _ :: r => lid_changes hw r
  end.
Definition bit (v : Z) : Prop := v = 0 \/ v = 1.
Fixpoint tm_bits (l : list ev) : Prop :=
  match l with [] => True | ETm v :: r => bit v /\ tm_bits r | _ :: r => tm_bits r end.
(** The keyboards paired after a history: paired and not unpaired since. *)
Fixpoint is_paired (k : Z) (l : list ev) (p : bool) : bool :=
  match l with
  | [] => p
  | EPair j :: r => is_paired k r (if j =? k then true else p)
  | EUnpair j :: r => is_paired k r (if j =? k then false else p)
  | _ :: r => is_paired k r p
  end.
(** The last value of the tablet-mode switch. *)
Fixpoint last_tm (l : list ev) (v : Z) : Z := match l with [] => v | ETm x :: r => last_tm r x | _ :: r => last_tm r v end.
(** The lid has moved at least once. *)
Definition saw_lid (l : list ev) : Prop := exists v, In (ELid v) l.

(** A keyboard beside a tablet-mode switch.  [hw]: the switch is on; [mode]: the client wants the keyboard.
    [careful]: the client leaves the switch device enabled and does not re-enable the keyboard in tablet mode. *)
Fixpoint careful (hw mode : bool) (l : list tev) : Prop :=
  match l with
  | [] => True
  | TToggle on :: r => careful on mode r
  | KMode en :: r => (en = true -> mode = false -> hw = false) /\ careful hw en r
  | TMode _ :: _ => False
  end.
Fixpoint last_toggle (l : list tev) (hw : bool) : bool :=
  match l with [] => hw | TToggle on :: r => last_toggle r on | _ :: r => last_toggle r hw end.
Fixpoint last_mode (l : list tev) (m : bool) : bool :=
  match l with [] => m | KMode en :: r => last_mode r en | _ :: r => last_mode r m end.
