(** * Touchpad gestures: what is specified *)
Require Import Coq.ZArith.ZArith Coq.QArith.QArith Coq.QArith.Qabs Coq.Lists.List Coq.Bool.Bool.
Require Import Verif.Scroll_Model.
Require Verif.Es_Model.
Require Import Verif.Gest_Model.
Import ListNotations.
Open Scope Z_scope.

(** ** What the client sees *)
(** Nothing; a gesture of this kind with this many fingers, and whether it has had an update; scrolling *)
Inductive doing := Idle | Doing (k : gkind) (n : nat) (u : bool) | Scrolling.
Definition same_kind (a b : gkind) : bool := match a, b with Swipe, Swipe | Pinch, Pinch => true | _, _ => false end.
(** An axis event has a value for at least one axis; all are zero: the end of scrolling, or none is *)
Definition is_stop (v h : option Q) : bool :=
  match v, h with Some a, Some b => Qeq_bool a 0 && Qeq_bool b 0 | Some a, None | None, Some a => Qeq_bool a 0 | None, None => false end.
Definition is_scroll (v h : option Q) : bool :=
  match v, h with Some a, Some b => negb (Qeq_bool a 0) && negb (Qeq_bool b 0) | Some a, None | None, Some a => negb (Qeq_bool a 0) | None, None => false end.
(** The order of the events; None: not allowed.  A gesture: begin, updates (at least one), end; pointer motion only outside gestures and scrolling.  [strict]: scrolling that has not started is not ended *)
Definition sees1 (strict : bool) (x : doing) (e : gout) : option doing :=
  match e, x with
  | TBegin k n _, Idle => Some (Doing k n false)
  | TUpdate k n _ _ _ _ _, Doing k' n' _ => if same_kind k k' && Nat.eqb n n' then Some (Doing k n true) else None
  | TEnd k n _ _ _, Doing k' n' true => if same_kind k k' && Nat.eqb n n' then Some Idle else None
  | TAxis (Axis _ v h), Scrolling => if is_stop v h then Some Idle else if is_scroll v h then Some Scrolling else None
  | TAxis (Axis _ v h), Idle => if is_stop v h && negb strict then Some Idle else if is_scroll v h then Some Scrolling else None
  | TMotion _ _, Idle => Some Idle
  | TThumb _, x => Some x
  | _, _ => None
  end.
Fixpoint sees (strict : bool) (x : doing) (o : list gout) : option doing :=
  match o with [] => Some x | e :: o => match sees1 strict x e with Some y => sees strict y o | None => None end end.
(** The unaccelerated filter moves along an axis exactly if there is motion along it *)
Definition plain (i : ginput) : Prop :=
  match i with
  | GFrame f _ _ => forall d, (fst (una f d) == 0 <-> fst d == 0)%Q /\ (snd (una f d) == 0 <-> snd d == 0)%Q
  | GSetMethod _ _ => False
  | _ => True
  end.
(** ** Histories *)
Definition after (p : gpad) (m : Es_Model.smethod) (l : list ginput) : g := grun p (ginit m) l.
(** The events of input [i] after [l] *)
Definition events (p : gpad) (m : Es_Model.smethod) (l : list ginput) (i : ginput) : list gout :=
  skipn (length (out (after p m l))) (out (after p m (l ++ [i]))).
(** After this input no gesture is open: all fingers are up, or gestures are cancelled *)
Definition finishes (i : ginput) : Prop :=
  match i with GFrame f h _ => count f = 0%nat \/ h = GIgnored \/ h = GGo true | GStop _ => True | _ => False end.
(** Frames in which the fingers on the touchpad are not [n], but always the same number *)
Definition steadily (c : nat) (i : ginput) : Prop := match i with GFrame f _ _ => count f = c | _ => True end.
(** ** Motion *)
(** The average motion of the touches that count; only what the slots report *)
Definition counts (p : gpad) (f : gframe) : list gtouch := filter act (firstn (slots p) (tl f)).
Definition average (p : gpad) (f : gframe) (d : Q * Q) : Prop :=
  counts p f = [] /\ d = (0, 0)%Q \/
  counts p f <> [] /\ (fst d * inject_Z (Z.of_nat (length (counts p f))) == inject_Z (fold_right Z.add 0%Z (map (fun t => if gdirty t then gdx t else 0%Z) (counts p f))))%Q /\
  (snd d * inject_Z (Z.of_nat (length (counts p f))) == inject_Z (fold_right Z.add 0%Z (map (fun t => if gdirty t then gdy t else 0%Z) (counts p f))))%Q.
(** Natural scrolling, as last set: the opposite direction *)
Definition natural_after (l : list ginput) : bool := fold_left (fun b i => match i with GSetNatural x => x | _ => b end) l false.
Definition dirq (b : bool) (q : Q) : Q := if b then (- q)%Q else q.
(** In millimetres, within 15 degrees of an axis (slope 3.73, 0.27) and in the same direction [up] *)
Definition along_y (up : bool) (p : gpad) (i : ginput) : Prop :=
  match i with
  | GFrame f _ _ => forall d, average p f d -> let x := (fst d / inject_Z (rx p))%Q in let y := (snd d / inject_Z (ry p))%Q in ((373 # 100) * Qabs x <= if up then - y else y)%Q
  | _ => True
  end.
Definition along_x (left : bool) (p : gpad) (i : ginput) : Prop :=
  match i with
  | GFrame f _ _ => forall d, average p f d -> let x := (fst d / inject_Z (rx p))%Q in let y := (snd d / inject_Z (ry p))%Q in (Qabs y <= (27 # 100) * if left then - x else x)%Q
  | _ => True
  end.
(** All the touches are where they were in [base], shifted by a common offset *)
Definition shifted (base : list (Z * Z)) (i : ginput) : Prop :=
  match i with
  | GFrame f _ _ => exists ox oy, Forall2 (fun t b => gx t = fst b + ox /\ gy t = snd b + oy) (tl f) base
  | _ => True
  end.
(** ** Recognition *)
(** All fingers have been lifted *)
Definition at_rest (l : list ginput) : Prop := exists l0 f h t, l = l0 ++ [GFrame f h t] /\ count f = 0%nat.
(** Every touch has moved by (ox, oy) from [f] to [f'] *)
Definition translated (f f' : gframe) (ox oy : Z) : Prop := Forall2 (fun a b => gx b = gx a + ox /\ gy b = gy a + oy /\ act b = act a) (tl f) (tl f').
(** That is at least this many millimetres *)
Definition at_least (p : gpad) (ox oy : Z) (d : Q) : Prop := (d * d <= (inject_Z ox / inject_Z (rx p)) * (inject_Z ox / inject_Z (rx p)) + (inject_Z oy / inject_Z (ry p)) * (inject_Z oy / inject_Z (ry p)))%Q.
(** Touches [a] < [b] are the only ones in [f] *)
Definition only (f : gframe) (a b : nat) : Prop :=
  (a < b)%nat /\ forall i, (exists t, nth_error (tl f) i = Some t /\ act t = true) <-> i = a \/ i = b.
Definition spot (f : gframe) (i : nat) (x y : Z) : Prop := exists t, nth_error (tl f) i = Some t /\ gx t = x /\ gy t = y.
(** The square of the distance of two points, in mm *)
Definition apart2 (p : gpad) (x y x' y' : Z) : Q :=
  let dx := (inject_Z (x - x') / inject_Z (rx p))%Q in let dy := (inject_Z (y - y') / inject_Z (ry p))%Q in (dx * dx + dy * dy)%Q.
(** What is used of atan2: it is in range, and opposite directions are half a turn apart *)
Definition good_oct (p : gpad) : Prop := forall x y, (0 <= oct p x y /\ oct p x y < 8 /\ (~ (x == 0 /\ y == 0) -> oct p (- x) (- y) == oct p x y + 4 \/ oct p (- x) (- y) == oct p x y - 4))%Q.
(** ** Pinches *)
(** The scale is the ratio of the distances; here of their squares.  [d0] is the square of the distance at the start *)
Definition scales (z : num) (d d0 : Q) : Prop := match z with Fin q => (~ d0 == 0 /\ q * d0 == d)%Q | _ => (d0 == 0)%Q end.
(** The scale of the last update; the sum of the angles of the updates since the last begin *)
Definition last_scale (o : list gout) : option num := fold_left (fun z e => match e with TUpdate Pinch _ _ _ _ z' _ => Some z' | TBegin Pinch _ _ => None | _ => z end) o None.
Definition turned (o : list gout) : Q := fold_left (fun z e => match e with TUpdate Pinch _ _ _ _ _ a => (z + a)%Q | TBegin Pinch _ _ => 0%Q | _ => z end) o 0%Q.
(** The sum of the unaccelerated motion of the updates since the last begin *)
Definition travelled (o : list gout) : Q * Q :=
  fold_left (fun z e => match e with TUpdate Pinch _ _ _ u _ _ => (fst z + fst u, snd z + snd u)%Q | TBegin Pinch _ _ => (0, 0)%Q | _ => z end) o (0, 0)%Q.
(** The middle between two touches *)
Definition middle (f : gframe) (a b : nat) : Q * Q := (inject_Z (fst (at_ f a) + fst (at_ f b)) / 2, inject_Z (snd (at_ f a) + snd (at_ f b)) / 2)%Q.
(** The unaccelerated filter is a constant factor *)
Definition linear (k : Q) (i : ginput) : Prop := match i with GFrame f _ _ => forall v, una f v = (k * fst v, k * snd v)%Q | _ => True end.
(** The fingers have moved *)
Definition moves (p : gpad) (f : gframe) : Prop := forall d, average p f d -> ~ (fst d == 0 /\ snd d == 0)%Q.
(** In these inputs after [l] no gesture ends *)
Definition no_end (p : gpad) (m : Es_Model.smethod) (l w : list ginput) : Prop :=
  forall w1 i w2, w = w1 ++ i :: w2 -> forall k n t c z, ~ In (TEnd k n t c z) (events p m (l ++ w1) i).
Definition angles_in_range (i : ginput) : Prop := match i with GFrame f _ _ => (-180 <= ang f <= 180)%Q | _ => True end.
