(** Specification: what the properties of a device mean (property C57), from
    doc/user and the comments in udev's hwdb. *)
Require Import Coq.Strings.Ascii Coq.Strings.String Coq.ZArith.ZArith Coq.QArith.QArith Coq.Lists.List Coq.Bool.Bool.
Require Import Verif.Str_Model Verif.Str_Spec Verif.Hw_Model.
Import ListNotations.
Open Scope Z_scope.

(** A property that is a whole number of degrees or clicks: not zero and not
    more than a full turn. *)
Definition valid (p : props) (name : string) (v : Z) : Prop :=
  exists s, p name = Some s /\ integer 10 s v /\ v <> 0 /\ -360 <= v <= 360.
Definition invalid (p : props) (name : string) : Prop := forall v, ~ valid p name v.

(** The angle of one click: a full turn divided by the clicks, or else the
    angle. *)
Definition turn (p : props) (count angle : string) (a : Q) : Prop :=
  (exists n, valid p count n /\ a == (360 # 1) / inject_Z n)%Q \/
  invalid p count /\ (exists n, valid p angle n /\ a == inject_Z n)%Q.
Definition no_turn (p : props) (count angle : string) : Prop :=
  invalid p count /\ invalid p angle.

(** No property is the smallest integer, whose absolute value the C library
    does not define. *)
Definition ordinary (p : props) : Prop :=
  forall name s, p name = Some s -> ~ integer 10 s INT_MIN.

(** The fuzz a property asks for. *)
Definition asks_fuzz (prop : option str) (f : Z) : Prop :=
  (exists s, prop = Some s /\ integer 10 s f /\ 0 <= f <= 2147483647) \/
  (f = 0 /\ forall s v, prop = Some s -> integer 10 s v -> ~ (0 <= v <= 2147483647)).

(** Where a touchpad is: hwdb has the word, otherwise it is guessed. *)
Definition said (prop : option string) (v : string) : Prop := prop = Some v.
Definition unsaid (prop : option string) : Prop :=
  prop <> Some "internal"%string /\ prop <> Some "external"%string.
Definition guessed_internal (bus vendor : Z) (apple wacom : bool) : Prop :=
  vendor <> 1133 /\ wacom = false /\ bus <> 5 /\ (bus = 3 -> apple = true).
