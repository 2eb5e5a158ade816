(** What the property formats mean. *)
Require Import Coq.Strings.Ascii Coq.Strings.String Coq.ZArith.ZArith Coq.QArith.QArith Coq.Lists.List Coq.Bool.Bool.
Require Import Verif.Str_Model Verif.Str_Spec.
Import ListNotations.
Open Scope Z_scope.

Definition fits_int (v : Z) : Prop := -2147483648 <= v <= 2147483647.
(** An unsigned numeral that fits an int and is not 0. *)
Definition positive_int (s : str) (n : Z) : Prop := numeral 10 s n /\ 0 < n /\ fits_int n.

(** ** MOUSE_DPI: "400 *1000 2000" or "400@125 *1000@125 2000@125" *)
Definition star (b : bool) : str := if b then S "*" else [].
Inductive dpi_item : str -> bool * Z -> Prop :=
| di_plain : forall b ds d, positive_int ds d -> dpi_item (star b ++ ds) (b, d)
| di_rate : forall b ds d rs r, positive_int ds d -> positive_int rs r ->
    dpi_item (star b ++ ds ++ S "@" ++ rs) (b, d).
Inductive dpi_text : str -> list (bool * Z) -> Prop :=
| dt_nil : forall g, all_in (S " ") g -> dpi_text g []
| dt_last : forall g s i, all_in (S " ") g -> dpi_item s i -> dpi_text (g ++ s) [i]
| dt_cons : forall g s i t l, all_in (S " ") g -> dpi_item s i -> dpi_text (S " " ++ t) l ->
    dpi_text (g ++ s ++ S " " ++ t) (i :: l).
(** The first default, else the last entry. *)
Definition chosen (l : list (bool * Z)) (v : Z) : Prop :=
  (exists a b, l = a ++ (true, v) :: b /\ Forall (fun i => fst i = false) a) \/
  (exists a, l = a ++ [(false, v)] /\ Forall (fun i => fst i = false) a).
(** Characters a MOUSE_DPI list may contain. *)
Definition dpi_char (c : ascii) : Prop := blank c \/ In c (S "0123456789@+-").

(** ** Decimal fractions *)
Definition decimal (s : str) (q : Q) : Prop :=
  exists sg k a b n, (s = sg ++ a ++ S "." ++ b \/ s = sg ++ a /\ b = []) /\
    In (sg, k) signs /\ numeral 10 (a ++ b) n /\
    (q == inject_Z (k * n) / inject_Z (10 ^ Z.of_nat (length b)))%Q.
(** A decimal fraction whose value a double can hold. *)
Definition reads (in_range : Q -> bool) (s : str) (q : Q) : Prop := decimal s q /\ in_range q = true.

(** ** EVDEV_ABS: min:max:res:fuzz:flat *)
Definition no_colon (s : str) : Prop := ~ In ":"%char s.
Inductive colon_fields : str -> list str -> Prop :=
| cf_last : forall f, no_colon f -> colon_fields f [f]
| cf_more : forall f s fs, no_colon f -> colon_fields s fs -> colon_fields (f ++ S ":" ++ s) (f :: fs).
(** An absent or empty field has no value, any other must be an int. *)
Definition field_value (f : option str) (v : option Z) : Prop :=
  match f with
  | None | Some [] => v = None
  | Some t => exists z, v = Some z /\ integer 10 t z /\ fits_int z
  end.

(** ** Event lists: "EV_ABS", "KEY_A" or "EV_KEY:0x123" *)
Section Names.
Variable type_from_name : str -> option Z.
Variable code_from_name : Z -> str -> option Z.
Variable type_max : Z -> Z.
Definition code_prefixes : list (str * Z) :=
  [(S "KEY_", 1); (S "BTN_", 1); (S "REL_", 2); (S "ABS_", 3); (S "SW_", 5)].
Definition type_char (c : ascii) : Prop := In c (S "ABCDEFGHIJKLMNOPQRSTUVWXYZ_").
Inductive event_name : str -> Z * Z -> Prop :=
| en_type : forall r t, no_colon r -> type_from_name (S "EV_" ++ r) = Some t -> event_name (S "EV_" ++ r) (t, 65535)
| en_code : forall p t r c, In (p, t) code_prefixes -> no_colon r -> code_from_name t (p ++ r) = Some c ->
    event_name (p ++ r) (t, c)
| en_pair : forall w h t c, w <> [] -> (length w <= 12)%nat -> Forall type_char w -> type_from_name w = Some t ->
    integer 16 h c -> fits_int c -> 0 <= c <= type_max t -> event_name (w ++ S ":" ++ h) (t, c).
End Names.
