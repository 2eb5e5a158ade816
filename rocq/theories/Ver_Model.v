(** The version comparison for file names, /repo/src/libinput-versionsort.h.
    A C string is the list of its bytes before the NUL. *)
Require Import Coq.ZArith.ZArith Coq.Lists.List Coq.Bool.Bool.
Import ListNotations.
Open Scope Z_scope.

(** s[i]; the byte after the last is the NUL *)
Definition at_ (s : list Z) (i : nat) : Z := nth i s 0.
(** isdigit(), C locale *)
Definition isdigit (c : Z) : bool := (48 <=? c) && (c <=? 57).

(** The first loop, /repo/src/libinput-versionsort.h:42-47, over what is left of
    both strings; [None]: return 0. *)
Fixpoint prefix (l r : list Z) (i dp : nat) (z : bool) : option (nat * nat * bool) :=
  match l, r with
  | [], [] => None
  | c :: l', d :: r' => if c =? d then
                          if negb (isdigit c) then prefix l' r' (S i) (S i) true
                          else prefix l' r' (S i) dp (if c =? 48 then z else false)
                        else Some (i, dp, z)
  | _, _ => Some (i, dp, z)
  end.
(** The second loop, /repo/src/libinput-versionsort.h:52-54: 1, -1 or (0) neither;
    [l], [r]: the strings from j on *)
Fixpoint runs (l r : list Z) : Z :=
  match l with
  | c :: l' => if isdigit c then if negb (isdigit (hd 0 r)) then 1 else runs l' (tl r)
               else if isdigit (hd 0 r) then -1 else 0
  | [] => if isdigit (hd 0 r) then -1 else 0
  end.
(** libinput_strverscmp, /repo/src/libinput-versionsort.h:32-62 *)
Definition strverscmp (l r : list Z) : Z :=
  match prefix l r 0 0 true with
  | None => 0
  | Some (i, dp, z) =>
      if negb (at_ l dp =? 48) && negb (at_ r dp =? 48) then
        let k := runs (skipn i l) (skipn i r) in
        if k =? 0 then at_ l i - at_ r i else k
      else if z && (dp <? i)%nat && (isdigit (at_ l i) || isdigit (at_ r i)) then
        (at_ l i - 48) mod 256 - (at_ r i - 48) mod 256
      else at_ l i - at_ r i
  end.
