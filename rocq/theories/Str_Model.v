(** String helpers, /repo/src/util-strings.c and /repo/src/util-strings.h.
    A C string is the list of its characters before the terminating NUL (so no
    theorem speaks about a string containing NUL).  Pointers into a string are
    the suffixes they point to. *)
Require Import Coq.Strings.Ascii Coq.Strings.String Coq.ZArith.ZArith Coq.Lists.List Coq.Bool.Bool.
Import ListNotations.
Open Scope Z_scope.

Definition str := list ascii.
Definition S (s : string) : str := list_ascii_of_string s.
Definition code (c : ascii) : Z := Z.of_N (N_of_ascii c).

(** ** libc, C locale *)
Definition isspace (c : ascii) : bool := ((9 <=? code c) && (code c <=? 13)) || (code c =? 32).
Definition isdigit (c : ascii) : bool := (48 <=? code c) && (code c <=? 57).
Definition is_minus (c : ascii) : bool := code c =? 45.
Definition is_plus (c : ascii) : bool := code c =? 43.

(** Value of a digit: 0-9, a-z, A-Z; [None] for anything else or a digit not
    below [base]. *)
Definition digit (base : Z) (c : ascii) : option Z :=
  let v := if isdigit c then code c - 48
           else if (97 <=? code c) && (code c <=? 122) then code c - 87
           else if (65 <=? code c) && (code c <=? 90) then code c - 55
           else base in
  if v <? base then Some v else None.

Fixpoint skip (p : ascii -> bool) (s : str) : str :=
  match s with c :: r => if p c then skip p r else s | [] => [] end.
Fixpoint span (p : ascii -> bool) (s : str) : str :=
  match s with c :: r => if p c then c :: span p r else [] | [] => [] end.

(** The digits at the front of [s]: their value and the rest. *)
Fixpoint digits (base : Z) (s : str) (acc : Z) : Z * str :=
  match s with
  | c :: r => match digit base c with Some d => digits base r (acc * base + d) | None => (acc, s) end
  | [] => (acc, [])
  end.
(** The sign at the front of [s]: is it a minus, and the rest. *)
Definition sign (s : str) : bool * str :=
  match s with
  | c :: r => if is_minus c then (true, r) else if is_plus c then (false, r) else (false, s)
  | [] => (false, [])
  end.
(** The magnitude: base 16 allows a "0x" prefix, which counts only if a digit
    follows.  [None]: no conversion. *)
Definition magnitude (base : Z) (s : str) : option (Z * str) :=
  let plain := match s with
               | c :: _ => match digit base c with Some _ => Some (digits base s 0) | None => None end
               | [] => None
               end in
  match s with
  | z :: x :: d :: r =>
      if (base =? 16) && (code z =? 48) && ((code x =? 120) || (code x =? 88))
         && (match digit 16 d with Some _ => true | None => false end)
      then Some (digits base (d :: r) 0) else plain
  | _ => plain
  end.
(** What strtol and strtoul read: the sign, the magnitude and the rest; [None]
    if they convert nothing (endptr = str). *)
Definition scan (base : Z) (s : str) : option (bool * Z * str) :=
  let '(neg, s1) := sign (skip isspace s) in
  match magnitude base s1 with Some (n, r) => Some (neg, n, r) | None => None end.

Definition LONG_MAX : Z := 9223372036854775807.
Definition LONG_MIN : Z := -9223372036854775808.
Definition ULONG_MAX : Z := 18446744073709551615.
Definition INT_MAX : Z := 2147483647.
Definition INT_MIN : Z := -2147483648.

(** strtol: value, endptr, errno = ERANGE.  LP64: long has 64 bits. *)
Definition strtol (base : Z) (s : str) : Z * str * bool :=
  match scan base s with
  | None => (0, s, false)
  | Some (neg, n, r) =>
      let v := if (neg : bool) then - n else n in
      if LONG_MAX <? v then (LONG_MAX, r, true)
      else if v <? LONG_MIN then (LONG_MIN, r, true) else (v, r, false)
  end.
(** strtoul: the sign negates the unsigned result. *)
Definition strtoul (base : Z) (s : str) : Z * str * bool :=
  match scan base s with
  | None => (0, s, false)
  | Some (neg, n, r) =>
      if ULONG_MAX <? n then (ULONG_MAX, r, true)
      else ((if (neg : bool) then (- n) mod (ULONG_MAX + 1) else n), r, false)
  end.

(** [str == endptr]: both are suffixes of the same string. *)
Definition same (s r : str) : bool := Nat.eqb (length s) (length r).
Definition nonempty (s : str) : bool := match s with [] => false | _ => true end.

(** safe_atoi_base, /repo/src/util-strings.h:141-163; [None] is false *)
Definition safe_atoi_base (base : Z) (s : str) : option Z :=
  let '(v, r, erange) := strtol base s in
  if (erange : bool) then None
  else if same s r then None
  else if nonempty s && nonempty r then None
  else if (INT_MAX <? v) || (v <? INT_MIN) then None
  else Some v.
(** safe_atoi, /repo/src/util-strings.h:165-169 *)
Definition safe_atoi (s : str) : option Z := safe_atoi_base 10 s.

(** safe_atou_base, /repo/src/util-strings.h:171-193; the result is stored in an
    unsigned int *)
Definition safe_atou_base (base : Z) (s : str) : option Z :=
  let '(v, r, erange) := strtoul base s in
  if (erange : bool) then None
  else if same s r then None
  else if nonempty s && nonempty r then None
  else if LONG_MAX <? v then None
  else Some (v mod 4294967296).
(** safe_atou, /repo/src/util-strings.h:195-199 *)
Definition safe_atou (s : str) : option Z := safe_atou_base 10 s.

(** streq of two strings that are not NULL, /repo/src/util-strings.h:46-53 *)
Definition streq (a b : str) : bool := if list_eq_dec ascii_dec a b then true else false.
(** strneq of two strings that are not NULL, /repo/src/util-strings.h:55-62: strncmp
    stops at the end of either *)
Definition strneq (a b : str) (n : nat) : bool := streq (firstn n a) (firstn n b).

(** ** Words *)
Definition in_set (seps : str) (c : ascii) : bool := existsb (Ascii.eqb c) seps.

(** next_word, /repo/src/util-strings.c:39-59: the word and the new state *)
Definition next_word (seps : str) (state : str) : option str * str :=
  match state with
  | [] => (None, state)
  | _ =>
      let next := skip (in_set seps) state in
      match next with
      | [] => (None, next)
      | _ => (Some (span (fun c => negb (in_set seps c)) next), skip (fun c => negb (in_set seps c)) next)
      end
  end.
(** The loops of strv_from_string call [next_word] until it returns NULL; the
    fuel is shown to suffice ([None]: out of fuel). *)
Fixpoint word_loop (fuel : nat) (seps state : str) : option (list str) :=
  match fuel with
  | O => None
  | Datatypes.S f =>
      match next_word seps state with
      | (None, _) => Some []
      | (Some w, st) => match word_loop f seps st with Some l => Some (w :: l) | None => None end
      end
  end.
(** strv_from_string, /repo/src/util-strings.c:103-137.  The first loop counts, the second
    collects the same words; no words: NULL. *)
Definition strv_from_string (s seps : str) : option (option (list str)) :=
  match word_loop (Datatypes.S (length s)) seps s with
  | None => None
  | Some [] => Some None
  | Some l => Some (Some l)
  end.

(** strv_join, /repo/src/util-strings.c:153-187; [None] is NULL, [Some None] a failed
    assertion *)
Fixpoint join (l : list str) (j : str) : str :=
  match l with [] => [] | [w] => w | w :: r => w ++ j ++ join r j end.
Definition strv_join (l : list str) (j : str) : option (option str) :=
  match l with
  | [] => None
  | _ =>
      if (Nat.ltb (length (concat l)) 1000) && (Nat.ltb (length j) 1000) && (Nat.ltb (length l) 100)
      then Some (Some (join l j)) else Some None
  end.

(** strstrip, /repo/src/util-strings.h:351-368: [keep] is the part up to [last] *)
Fixpoint keep_to_last (what s : str) : str :=
  match s with
  | [] => []
  | c :: r => let k := keep_to_last what r in
              if in_set what c && negb (nonempty k) then [] else c :: k
  end.
Definition strstrip (s what : str) : str := keep_to_last what (skip (in_set what) s).

(** strendswith, /repo/src/util-strings.h:374-386 *)
Definition strendswith (s suffix : str) : bool :=
  if Nat.eqb (length s) 0 || Nat.eqb (length suffix) 0 || Nat.ltb (length s) (length suffix) then false
  else strneq (skipn (length s - length suffix) s) suffix (length suffix).
(** strstartswith, /repo/src/util-strings.h:388-394 *)
Definition strstartswith (s prefix : str) : bool :=
  if Nat.ltb 0 (length prefix) then strneq s prefix (length prefix) else false.

(** strrchr: the suffix starting at the last [c] *)
Fixpoint strrchr (c : ascii) (s : str) : option str :=
  match s with
  | [] => None
  | x :: r => match strrchr c r with
              | Some t => Some t
              | None => if Ascii.eqb x c then Some s else None
              end
  end.
Definition slash : ascii := "/".
Definition dot : ascii := ".".
(** safe_basename, /repo/src/util-strings.c:194-210 *)
Definition safe_basename (s : str) : option str :=
  match s with
  | [] => None
  | _ => match strrchr slash s with
         | None => Some s
         | Some t => match tl t with [] => None | b => Some b end
         end
  end.
(** trunkname, /repo/src/util-strings.c:224-238 *)
Definition trunkname (s : str) : str :=
  match safe_basename s with
  | None => []
  | Some base => match strrchr dot base with
                 | None => base
                 | Some suffix => firstn (length base - length suffix) base
                 end
  end.
