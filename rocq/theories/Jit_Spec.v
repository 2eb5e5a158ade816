(** * Motion of a finger on a touchpad: specification *)
Require Import Coq.ZArith.ZArith Coq.QArith.QArith Coq.Lists.List Coq.Bool.Bool.
Require Import Verif.Jit_Model.
Import ListNotations.
Open Scope Z_scope.

(** ** A finger from the moment it comes down *)
(** What happens to finger [i] in a frame *)
Definition of (i : nat) (f : frame) (u : up) : Prop := nth_error (ups f) i = Some u.
(** The finger is there; what it does makes it dirty *)
Definition there (i : nat) (f : frame) : Prop := exists u, of i f u /\ u_none u = false /\ u_end u = false /\ (u_new u = true \/ u_x u <> None \/ u_y u <> None -> u_dirty u = true).
(** It comes in the first frame and stays *)
Definition stays (i : nat) (l : list frame) : Prop := match l with [] => False | f :: _ => (exists u, of i f u /\ u_new u = true) /\ forall g, In g l -> there i g end.
Definition finger (i : nat) (s : pad) (t : touch) : Prop := nth_error (touches s) i = Some t.
(** Where the kernel says that the finger is; coordinates that are not sent stay as they were *)
Definition said (p : point) (u : up) : point := (match u_x u with Some v => v | None => fst p end, match u_y u with Some v => v | None => snd p end).
(** Times go on *)
Definition last_time (l : list frame) : Z := match rev l with [] => 0 | f :: _ => time f end.

(** ** Sizes *)
(** (dx, dy) is at most v mm in 12 ms, if it took [td] microseconds *)
Definition at_most (c : cfg) (v : Q) (d : Z * Z) (td : Z) : Prop :=
  ((inject_Z (fst d) / inject_Z (rx c)) * (inject_Z (fst d) / inject_Z (rx c)) + (inject_Z (snd d) / inject_Z (ry c)) * (inject_Z (snd d) / inject_Z (ry c)) <= (v * (inject_Z td / 12000)) * (v * (inject_Z td / 12000)))%Q.
(** Inside the ellipse with the margins as radii *)
Definition inside (c : cfg) (p q : point) : Prop :=
  (fst p - fst q) * (fst p - fst q) * (my c * my c) + (snd p - snd q) * (snd p - snd q) * (mx c * mx c) < mx c * mx c * (my c * my c).
Definition between (a b v : Z) : Prop := (a <= v <= b) \/ (b <= v <= a).
Definition plus_ (a b : Z * Z) : Z * Z := (fst a + fst b, snd a + snd b).
(** The motion of the finger in each frame, added up *)
Fixpoint total (c : cfg) (i : nat) (s : pad) (l : list frame) : Z * Z :=
  match l with
  | [] => (0, 0)
  | f :: r => plus_ (match nth_error (touches (step c s f)) i with Some t => delta t | None => (0, 0) end) (total c i (step c s f) r)
  end.
(** Where the kernel says that the finger is after some frames *)
Fixpoint goes (i : nat) (p : point) (l : list frame) : point := match l with [] => p | f :: r => goes i (match nth_error (ups f) i with Some u => said p u | None => p end) r end.
(** At least 1.5 mm apart *)
Definition far (c : cfg) (p q : point) : Prop := ((3 # 2) * (3 # 2) <= (inject_Z (fst p - fst q) / inject_Z (rx c)) * (inject_Z (fst p - fst q) / inject_Z (rx c)) + (inject_Z (snd p - snd q) / inject_Z (ry c)) * (inject_Z (snd p - snd q) / inject_Z (ry c)))%Q.
Definition sub (p q : point) : Z * Z := (fst p - fst q, snd p - snd q).
(** Slow: in each frame the finger moves at most 7 mm per 12 ms, or the last frame is more than 30 ms away, or came at the same time *)
Fixpoint slow (c : cfg) (i : nat) (p : point) (z : Z) (l : list frame) : Prop :=
  match l with
  | [] => True
  | f :: r => exists u, of i f u /\ u_new u = false /\ (time f = z \/ 30000 < time f - z \/ 0 < time f - z /\ at_most c 7 (sub (said p u) p) (time f - z)) /\ slow c i (said p u) (time f) r
  end.
(** Rests: it stays inside the margin of [p], and does not move fast *)
Fixpoint rests (c : cfg) (i : nat) (p : point) (z : Z) (l : list frame) : Prop :=
  match l with
  | [] => True
  | f :: r => exists u, of i f u /\ u_new u = false /\ inside c (said p u) p /\ (time f = z \/ 30000 < time f - z \/ 0 < time f - z /\ at_most c 7 (sub (said p u) p) (time f - z)) /\ rests c i p (time f) r
  end.
(** In each frame the place of the finger and its place before are related *)
Fixpoint each (i : nat) (R : point -> Z -> point -> Z -> Prop) (p : point) (z : Z) (l : list frame) : Prop :=
  match l with [] => True | f :: r => exists u, of i f u /\ R p z (said p u) (time f) /\ each i R (said p u) (time f) r end.
Definition rightward (p : point) (_ : Z) (q : point) (_ : Z) : Prop := fst p <= fst q.
Definition leftward (p : point) (_ : Z) (q : point) (_ : Z) : Prop := fst q < fst p.
Definition apart (_ : point) (z : Z) (_ : point) (w : Z) : Prop := 40000 < w - z.
(** [q] is at most the margin away from [p], rounded up to whole units *)
Definition close (c : cfg) (p q : point) : Prop :=
  let ex := Z.max 0 (Z.abs (fst p - fst q) - 1) in let ey := Z.max 0 (Z.abs (snd p - snd q) - 1) in ex * ex * (my c * my c) + ey * ey * (mx c * mx c) <= mx c * mx c * (my c * my c).
(** The number of fingers is the same in all the frames *)
Definition same_fingers (l : list frame) : Prop := forall f g, In f l -> In g l -> nf f = nf g.
