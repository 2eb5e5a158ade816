(** Parsers for udev and quirk properties, /repo/src/util-prop-parsers.c.
    An absent (NULL) property is not modelled where the function just returns
    its error value. *)
Require Import Coq.Strings.Ascii Coq.Strings.String Coq.ZArith.ZArith Coq.QArith.QArith Coq.Lists.List Coq.Bool.Bool.
Require Import Verif.Str_Model.
Import ListNotations.
Open Scope Z_scope.

(** Conversion of a long to int (two's complement, as gcc defines it). *)
Definition to_int (v : Z) : Z :=
  let m := v mod 4294967296 in if m <? 2147483648 then m else m - 4294967296.

(** *** sscanf, as glibc implements it *)
(** "%d": value stored and rest; overflow saturates to long and is then
    truncated to int. *)
Definition scan_d (s : str) : option (Z * str) :=
  match scan 10 s with
  | None => None
  | Some (neg, n, r) =>
      let v := if (neg : bool) then - n else n in
      Some (to_int (if LONG_MAX <? v then LONG_MAX else if v <? LONG_MIN then LONG_MIN else v), r)
  end.
(** "%x" into an int: strtoul, truncated; unlike strtoul it takes a lone "0x"
    for 0. *)
Definition magnitude_x (s : str) : option (Z * str) :=
  match s with
  | z :: x :: r => if (code z =? 48) && ((code x =? 120) || (code x =? 88)) then Some (digits 16 r 0) else magnitude 16 s
  | _ => magnitude 16 s
  end.
Definition scan_x (s : str) : option (Z * str) :=
  let '(neg, s1) := sign (skip isspace s) in
  match magnitude_x s1 with
  | None => None
  | Some (n, r) => Some (to_int (if ULONG_MAX <? n then ULONG_MAX else if (neg : bool) then - n else n), r)
  end.
(** A literal character. *)
Definition scan_c (c : ascii) (s : str) : option str :=
  match s with x :: r => if Ascii.eqb x c then Some r else None | [] => None end.

Definition starts_with_c (c : ascii) (s : str) : bool := match s with x :: _ => Ascii.eqb x c | [] => false end.

(** One entry of the DPI list, /repo/src/util-prop-parsers.c:51-89 lines 76-82: dpi, rate,
    rest after what was read; [None]: nread = 0. *)
Definition dpi_entry (s : str) : option (Z * Z * str) :=
  match scan_d s with
  | None => None
  | Some (dpi, r) =>
      match scan_c "@" r with
      | None => Some (dpi, 1, r)
      | Some r1 => match scan_d r1 with
                   | None => Some (dpi, 1, r)
                   | Some (rate, r2) => Some (dpi, rate, r2)
                   end
      end
  end.
(** parse_mouse_dpi_property, /repo/src/util-prop-parsers.c:51-89; [None]: out of fuel *)
Fixpoint dpi_loop (fuel : nat) (prop : str) (dpi : Z) : option Z :=
  match fuel with
  | O => None
  | Datatypes.S f =>
      match prop with
      | [] => Some dpi
      | c :: r =>
          if Ascii.eqb c " " then dpi_loop f r dpi
          else
            let star := Ascii.eqb c "*" in
            let p := if star then r else prop in
            if star && negb (match p with d :: _ => isdigit d | [] => false end) then Some 0
            else match dpi_entry p with
                 | None => Some 0
                 | Some (d, rate, q) =>
                     if (d <=? 0) || (rate <=? 0) || starts_with_c "@" q then Some 0
                     else if star then Some d else dpi_loop f q d
                 end
      end
  end.
Definition parse_mouse_dpi (prop : str) : option Z := dpi_loop (Datatypes.S (length prop)) prop 0.

(** abs(): of INT_MIN it is undefined; here it wraps, as compiled *)
Definition c_abs (v : Z) : Z := to_int (Z.abs v).
(** parse_mouse_wheel_click_count_property and
    parse_mouse_wheel_click_angle_property,
    /repo/src/util-prop-parsers.c:101-113 and
    /repo/src/util-prop-parsers.c:125-137 *)
Definition parse_wheel (prop : str) : Z :=
  match safe_atoi prop with
  | None => 0
  | Some v => if 360 <? c_abs v then 0 else v
  end.

(** parse_dimension_property, /repo/src/util-prop-parsers.c:150-167 *)
Definition parse_dimension (prop : str) : option (Z * Z) :=
  match scan_d prop with
  | None => None
  | Some (x, r) =>
      match scan_c "x" r with
      | None => None
      | Some r1 => match scan_d r1 with
                   | None => None
                   | Some (y, _) => if (x <=? 0) || (y <=? 0) then None else Some (x, y)
                   end
      end
  end.

(** parse_range_property, /repo/src/util-prop-parsers.c:260-284 *)
Definition parse_range (prop : str) : option (Z * Z) :=
  if streq prop (S "none") then Some (0, 0)
  else match scan_d prop with
  | None => None
  | Some (x, r) =>
      match scan_c ":" r with
      | None => None
      | Some r1 => match scan_d r1 with
                   | None => None
                   | Some (y, _) => if x <=? y then None else Some (x, y)
                   end
      end
  end.

Section Double.
(** Doubles are exact rationals; [in_range] stands for strtod not setting
    ERANGE and the value being zero or normal. *)
Variable in_range : Q -> bool.

Definition scale (n : Z) (k : nat) : Q := n # Z.to_pos (10 ^ Z.of_nat k).
(** strtod of a string of digits, signs and points: an optional sign, digits
    with at most one point among them, at least one digit. *)
Definition strtod (s : str) : option (Q * str) :=
  let '(neg, s1) := sign s in
  let a := span isdigit s1 in
  let r := skip isdigit s1 in
  let '(b, r') := match r with
                  | c :: t => if Ascii.eqb c "." then (span isdigit t, skip isdigit t) else ([], r)
                  | [] => ([], [])
                  end in
  if nonempty (a ++ b)
  then let n := fst (digits 10 (a ++ b) 0) in
       Some (scale (if (neg : bool) then - n else n) (length b), r')
  else None.
(** safe_atod, /repo/src/util-strings.h:201-253 *)
Definition atod_char (c : ascii) : bool := isdigit c || Ascii.eqb c "+" || Ascii.eqb c "-" || Ascii.eqb c ".".
Definition safe_atod (s : str) : option Q :=
  if negb (forallb atod_char s) then None
  else match strtod s with
  | None => None
  | Some (v, r) => if nonempty r then None else if in_range v then Some v else None
  end.

(** parse_calibration_property, /repo/src/util-prop-parsers.c:176-205; words beyond the sixth are
    not looked at *)
Fixpoint first_doubles (n : nat) (l : list str) : option (list Q) :=
  match n with
  | O => Some []
  | Datatypes.S m =>
      match l with
      | [] => None
      | w :: r => match safe_atod w with
                  | None => None
                  | Some v => match first_doubles m r with Some q => Some (v :: q) | None => None end
                  end
      end
  end.
Definition parse_calibration (prop : str) : option (list Q) :=
  match strv_from_string prop (S " ") with
  | Some (Some ws) => first_doubles 6 ws
  | _ => None
  end.

(** kv_double_from_string, /repo/src/util-strings.h:285-342 *)
Fixpoint kv_pairs (kvsep : str) (l : list str) : option (list (Q * Q)) :=
  match l with
  | [] => Some []
  | p :: r =>
      match strv_from_string p kvsep with
      | Some (Some [k; v]) =>
          match safe_atod k, safe_atod v, kv_pairs kvsep r with
          | Some a, Some b, Some t => Some ((a, b) :: t)
          | _, _, _ => None
          end
      | _ => None
      end
  end.
Definition kv_double_from_string (s pairsep kvsep : str) : option (list (Q * Q)) :=
  if negb (nonempty pairsep) || negb (nonempty kvsep) then None
  else match strv_from_string s pairsep with
  | Some (Some l) => kv_pairs kvsep l
  | _ => None
  end.
End Double.

(** enum switch_reliability; parse_switch_reliability_property,
    /repo/src/util-prop-parsers.c:207-224; the argument is [None] for NULL *)
Inductive reliability := R_UNKNOWN | R_RELIABLE | R_WRITE_OPEN.
Definition parse_reliability (prop : option str) : option reliability :=
  match prop with
  | None => Some R_UNKNOWN
  | Some s => if streq s (S "reliable") then Some R_RELIABLE
              else if streq s (S "write_open") then Some R_WRITE_OPEN else None
  end.

Section Names.
(** libevdev_event_type_from_name, libevdev_event_code_from_name,
    libevdev_event_type_get_max, libevdev_property_from_name; [None] is -1. *)
Variable type_from_name : str -> option Z.
Variable code_from_name : Z -> str -> option Z.
Variable type_max : Z -> Z.
Variable prop_from_name : str -> option Z.

Definition EV_KEY : Z := 1.
Definition EV_REL : Z := 2.
Definition EV_ABS : Z := 3.
Definition EV_SW : Z := 5.
Definition CODE_UNDEFINED : Z := 65535.

(** parse_evcode_string, /repo/src/util-prop-parsers.c:286-331 *)
Definition evcode_string (s : str) : option (Z * Z) :=
  if strneq s (S "EV_") 3 then
    match type_from_name s with Some t => Some (t, CODE_UNDEFINED) | None => None end
  else
    match find (fun m => strstartswith s (fst m))
               [(S "KEY_", EV_KEY); (S "BTN_", EV_KEY); (S "ABS_", EV_ABS); (S "REL_", EV_REL); (S "SW_", EV_SW)] with
    | None => None
    | Some (_, t) => match code_from_name t s with Some c => Some (t, c) | None => None end
    end.
(** "%12[A-Z_]:%x%n" and the checks after it,
    /repo/src/util-prop-parsers.c:350-403 lines 391-399; more than 12 letters: the 13th is not ':' *)
Definition upper (c : ascii) : bool := ((65 <=? code c) && (code c <=? 90)) || (code c =? 95).
Definition evcode_pair (s : str) : option (Z * Z) :=
  let w := firstn 12 (span upper s) in
  let r := skipn (length w) s in
  if negb (nonempty w) then None
  else match scan_c ":" r with
  | None => None
  | Some r1 =>
      match scan_x r1 with
      | None => None
      | Some (c, r2) =>
          if nonempty r2 then None
          else match type_from_name w with
          | None => None
          | Some t => if (c <? 0) || (type_max t <? c) then None else Some (t, c)
          end
      end
  end.
Definition evcode_word (s : str) : option (Z * Z) :=
  if existsb (Ascii.eqb ":") s then evcode_pair s else evcode_string s.
Fixpoint map_all {A B} (f : A -> option B) (l : list A) : option (list B) :=
  match l with
  | [] => Some []
  | x :: r => match f x, map_all f r with Some y, Some t => Some (y :: t) | _, _ => None end
  end.
(** parse_evcode_property, /repo/src/util-prop-parsers.c:350-403; [room] is the size of the caller's
    array *)
Definition parse_evcode (prop : str) (room : nat) : option (list (Z * Z)) :=
  match strv_from_string prop (S ";") with
  | Some (Some ws) =>
      if Nat.ltb 32 (length ws) then None
      else match map_all evcode_word ws with
      | None => None
      | Some l => Some (firstn (Nat.min room (length ws)) l)
      end
  | _ => None
  end.

(** parse_input_prop_property, /repo/src/util-prop-parsers.c:417-460; INPUT_PROP_MAX is 0x1f *)
Definition input_prop_word (s : str) : option Z :=
  match safe_atou_base 16 s with
  | Some v => if 31 <? v then None else Some v
  | None => prop_from_name s
  end.
Definition parse_input_prop (prop : str) (room : nat) : option (list Z) :=
  match strv_from_string prop (S ";") with
  | Some (Some ws) =>
      if Nat.ltb 32 (length ws) then None
      else match map_all input_prop_word ws with
      | None => None
      | Some l => Some (firstn (Nat.min room (length ws)) l)
      end
  | _ => None
  end.
End Names.

(** parse_evdev_abs_prop, /repo/src/util-prop-parsers.c:474-527: for each of the five bits the value
    read, if any; [None] for a mask of 0 after a bad number *)
Definition not_colon (c : ascii) : bool := negb (Ascii.eqb c ":").
Fixpoint abs_loop (bits : nat) (current : str) : option (list (option Z)) :=
  match bits with
  | O => Some []
  | Datatypes.S b =>
      match current with
      | [] => Some (repeat None bits)
      | c :: r =>
          if not_colon c then
            match safe_atoi (span not_colon current) with
            | None => None
            | Some v => match abs_loop b (tl (skip not_colon current)) with
                        | Some t => Some (Some v :: t)
                        | None => None
                        end
            end
          else match abs_loop b r with Some t => Some (None :: t) | None => None end
      end
  end.
(** The result: the fields set (minimum, maximum, resolution, fuzz, flat). *)
Definition parse_abs (prop : str) : list (option Z) :=
  if Nat.ltb 24 (length prop) then repeat None 5
  else match abs_loop 5 prop with None => repeat None 5 | Some l => l end.
