(** Time conversion, /repo/src/util-time.h, and rate limiting,
    /repo/src/util-ratelimit.c.  uint64_t arithmetic is modulo 2^64. *)
Require Import Coq.Strings.String Coq.ZArith.ZArith Coq.Lists.List Coq.Bool.Bool.
Import ListNotations.
Open Scope Z_scope.

Definition u64 (v : Z) : Z := v mod 2 ^ 64.
(** ns2us, ms2us, s2us, us2ms, /repo/src/util-time.h:48-52, /repo/src/util-time.h:54-58,
    /repo/src/util-time.h:60-64, /repo/src/util-time.h:66-70 *)
Definition ns2us (ns : Z) : Z := ns / 1000.
Definition ms2us (ms : Z) : Z := u64 (ms * 1000).
Definition s2us (s : Z) : Z := ms2us (u64 (s * 1000)).
Definition us2ms (us : Z) : Z := (us / 1000) mod 2 ^ 32.
(** struct timeval is (tv_sec, tv_usec); tv2us, /repo/src/util-time.h:72-76 *)
Definition tv2us (tv : Z * Z) : Z := u64 (s2us (u64 (fst tv)) + snd tv).
(** us2tv, /repo/src/util-time.h:78-87 *)
Definition us2tv (t : Z) : Z * Z := (t / ms2us 1000, t mod ms2us 1000).

(** to_human_time, /repo/src/util-time.h:97-126: the table, then the loop; [None]: the final
    assertion.  The limit of days is ~0, converted to uint64_t. *)
Definition conversions : list (string * Z * Z) :=
  [("us"%string, 1, 5000); ("ms"%string, 1000, 5000); ("s"%string, 1000, 120); ("min"%string, 60, 120); ("h"%string, 60, 48); ("d"%string, 24, 2 ^ 64 - 1)].
Fixpoint human_loop (l : list (string * Z * Z)) (value : Z) : option (string * Z) :=
  match l with
  | [] => None
  | (unit, change, limit) :: r =>
      let v := value / change in
      if v <? limit then Some (unit, v mod 2 ^ 32) else human_loop r v
  end.
Definition to_human_time (us : Z) : option (string * Z) := human_loop conversions us.

(** struct ratelimit, /repo/src/util-ratelimit.h:36-41 *)
Record ratelimit := { interval : Z; begin : Z; burst : Z; num : Z }.
Inductive rl_state := EXCEEDED | THRESHOLD | PASS.
(** ratelimit_init, /repo/src/util-ratelimit.c:33-40 *)
Definition ratelimit_init (ival_us b : Z) : ratelimit := {| interval := ival_us; begin := 0; burst := b; num := 0 |}.
(** ratelimit_test, /repo/src/util-ratelimit.c:55-81; [utime] is the clock in microseconds *)
Definition ratelimit_test (r : ratelimit) (utime : Z) : ratelimit * rl_state :=
  if (interval r <=? 0) || (burst r <=? 0) then (r, PASS)
  else if (begin r <=? 0) || (u64 (begin r + interval r) <? utime)
  then ({| interval := interval r; begin := utime; burst := burst r; num := 1 |}, PASS)
  else if num r <? burst r
  then ({| interval := interval r; begin := begin r; burst := burst r; num := num r + 1 |},
        if num r + 1 =? burst r then THRESHOLD else PASS)
  else (r, EXCEEDED).
(** A sequence of calls at the given clock readings. *)
Fixpoint rl_run (r : ratelimit) (ts : list Z) : list (Z * rl_state) :=
  match ts with
  | [] => []
  | t :: rest => let '(r', s) := ratelimit_test r t in (t, s) :: rl_run r' rest
  end.
