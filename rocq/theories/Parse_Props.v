(** Property parsers: C19. *)
Require Import Coq.Strings.Ascii Coq.Strings.String Coq.ZArith.ZArith Coq.QArith.QArith Coq.Lists.List Coq.Bool.Bool Coq.micromega.Lia.
Require Import Verif.Str_Model Verif.Str_Spec Verif.Str_Proofs Verif.Str_Proofs2 Verif.Parse_Model Verif.Parse_Spec Verif.Parse_Proofs Verif.Parse_Proofs2.
Import ListNotations.
Open Scope Z_scope.

(** ** C19: MOUSE_DPI *)
(** Every string gives 0 or a positive int. *)
Theorem dpi_range : forall s, exists v, parse_mouse_dpi s = Some v /\ 0 <= v /\ fits_int v.
Proof. exact dpi_range_lemma. Qed.
Print Assumptions dpi_range.
Example dpi_range_ex : parse_mouse_dpi (S "400@ *800") = Some 0 /\ parse_mouse_dpi (S "-400") = Some 0 /\
  parse_mouse_dpi (S "400 * 500") = Some 0.
Proof. vm_compute. auto. Qed.

(** A well-formed list gives its first default, or else its last entry. *)
Theorem dpi_wellformed : forall s l v, dpi_text s l -> chosen l v -> parse_mouse_dpi s = Some v.
Proof. exact dpi_wellformed_lemma. Qed.
Print Assumptions dpi_wellformed.
Lemma num_of : forall s, s <> [] -> forallb isdigit s = true -> numeral 10 s (fst (digits 10 s 0)).
Proof. intros s H F. apply digits_numeral; auto. apply Forall_forall. rewrite forallb_forall in F. auto. Qed.
Lemma pos_of : forall s n, s <> [] -> forallb isdigit s = true -> fst (digits 10 s 0) = n -> 0 < n <= 2147483647 -> positive_int s n.
Proof. intros s n H F <- P. split; [apply num_of; auto|unfold fits_int; lia]. Qed.
Example dpi_wellformed_ex : exists l, dpi_text (S "400@125 *1000@125 2000") l /\ chosen l 1000.
Proof.
  exists [(false, 400); (true, 1000); (false, 2000)]. split.
  - apply (dt_cons [] (S "400@125") (false, 400) (S "*1000@125 2000")); [constructor| |].
    { apply (di_rate false (S "400") 400 (S "125") 125); apply pos_of; (discriminate || reflexivity || lia). }
    apply (dt_cons (S " ") (S "*1000@125") (true, 1000) (S "2000")); [repeat constructor| |].
    { apply (di_rate true (S "1000") 1000 (S "125") 125); apply pos_of; (discriminate || reflexivity || lia). }
    apply (dt_last (S " ") (S "2000") (false, 2000)); [repeat constructor|].
    apply (di_plain false (S "2000") 2000); apply pos_of; (discriminate || reflexivity || lia).
  - left. exists [(false, 400)], [(false, 2000)]. split; auto.
Qed.

(** Blanks only: no DPI. *)
Theorem dpi_blank : forall s, dpi_text s [] -> parse_mouse_dpi s = Some 0.
Proof. exact dpi_blank_lemma. Qed.
Print Assumptions dpi_blank.
Example dpi_blank_ex : dpi_text (S "   ") [].
Proof. constructor. repeat constructor. Qed.

(** Without a default, a single character that has no place in such a list
    makes the whole property invalid. *)
Theorem dpi_chars : forall s v, parse_mouse_dpi s = Some v -> v <> 0 -> ~ In "*"%char s -> Forall dpi_char s.
Proof. exact dpi_chars_lemma. Qed.
Print Assumptions dpi_chars.
Example dpi_chars_ex : parse_mouse_dpi (S "400 1200@1000") = Some 1200 /\ ~ In "*"%char (S "400 1200@1000").
Proof. split; [reflexivity|]. cbn. intuition discriminate. Qed.

(** What follows the default is not looked at, and a number beyond int is
    truncated instead of rejected. *)
Theorem dpi_garbage_refuted : exists s v, parse_mouse_dpi s = Some v /\ v <> 0 /\ In "!"%char s.
Proof. exists (S "*400 !!"), 400. vm_compute. intuition discriminate. Qed.
Print Assumptions dpi_garbage_refuted.
Theorem dpi_overflow_refuted : exists s n v, numeral 10 s n /\ ~ fits_int n /\ parse_mouse_dpi s = Some v /\ v <> 0.
Proof.
  exists (S "4294967696"), 4294967696, 400. split.
  - apply (num_of (S "4294967696")); [discriminate|reflexivity].
  - unfold fits_int. vm_compute. intuition discriminate.
Qed.
Print Assumptions dpi_overflow_refuted.

(** ** C19: wheel click angle and count *)
(** A non-zero result is the integer the property spells, and lies within a
    full turn; only INT_MIN (see [wheel_min_refuted]) is excluded. *)
Theorem wheel_partial : forall s v, v <> 0 -> v <> INT_MIN ->
  (parse_wheel s = v <-> integer 10 s v /\ -360 <= v <= 360).
Proof. exact wheel_lemma. Qed.
Print Assumptions wheel_partial.
Example wheel_ex : parse_wheel (S "-15") = -15 /\ parse_wheel (S "361") = 0 /\ parse_wheel (S "15 ") = 0.
Proof. vm_compute. auto. Qed.
(** abs(INT_MIN) overflows: the check lets it through. *)
Theorem wheel_min_refuted : exists s, parse_wheel s < -360.
Proof. exists (S "-2147483648"). vm_compute. reflexivity. Qed.
Print Assumptions wheel_min_refuted.

(** ** C19: dimensions *)
Theorem dimension_range : forall s w h, parse_dimension s = Some (w, h) -> 0 < w <= 2147483647 /\ 0 < h <= 2147483647.
Proof. exact dimension_range_lemma. Qed.
Print Assumptions dimension_range.
Theorem dimension_exact : forall a b w h, positive_int a w -> positive_int b h ->
  parse_dimension (a ++ S "x" ++ b) = Some (w, h).
Proof. exact dimension_exact_lemma. Qed.
Print Assumptions dimension_exact.
(** An accepted string starts with two integers and an x between them. *)
Theorem dimension_reads : forall s w h, parse_dimension s = Some (w, h) ->
  exists a b r m n, s = a ++ S "x" ++ b ++ r /\ integer 10 a m /\ integer 10 b n /\ (fits_int m -> w = m) /\ (fits_int n -> h = n).
Proof. exact dimension_reads_lemma. Qed.
Print Assumptions dimension_reads.
Example dimension_ex : parse_dimension (S "10x40") = Some (10, 40) /\ parse_dimension (S "10x-40") = None /\
  parse_dimension (S "10 x40") = None /\ parse_dimension (S "0x40") = None.
Proof. vm_compute. auto. Qed.
(** Garbage after the second number and numbers beyond int are accepted. *)
Theorem dimension_garbage_refuted : exists s w h, parse_dimension s = Some (w, h) /\ In "!"%char s.
Proof. exists (S "10x40!"), 10, 40. vm_compute. intuition. Qed.
Print Assumptions dimension_garbage_refuted.
Theorem dimension_overflow_refuted : exists a n b h w, numeral 10 a n /\ ~ fits_int n /\ parse_dimension (a ++ S "x" ++ b) = Some (w, h).
Proof.
  exists (S "4294967306"), 4294967306, (S "10"), 10, 10. split.
  - apply (num_of (S "4294967306")); [discriminate|reflexivity].
  - split; [unfold fits_int; lia|]. vm_compute. reflexivity.
Qed.
Print Assumptions dimension_overflow_refuted.

(** ** C19: ranges *)
Theorem range_range : forall s hi lo, parse_range s = Some (hi, lo) ->
  (s = S "none" /\ hi = 0 /\ lo = 0) \/ (lo < hi /\ fits_int hi /\ fits_int lo).
Proof. exact range_range_lemma. Qed.
Print Assumptions range_range.
Theorem range_exact : forall sa ka a m sb kb b n, In (sa, ka) signs -> numeral 10 a m -> fits_int (ka * m) ->
  In (sb, kb) signs -> numeral 10 b n -> fits_int (kb * n) ->
  parse_range (sa ++ a ++ S ":" ++ sb ++ b) = if ka * m <=? kb * n then None else Some (ka * m, kb * n).
Proof. exact range_exact_lemma. Qed.
Print Assumptions range_exact.
Example range_ex : parse_range (S "10:-8") = Some (10, -8) /\ parse_range (S "8:8") = None /\ parse_range (S "none") = Some (0, 0) /\
  parse_range (S "8") = None.
Proof. vm_compute. auto. Qed.

(** ** C19: decimal numbers and the calibration matrix *)
Theorem atod_exact : forall in_range, (forall a b, (a == b)%Q -> in_range a = in_range b) -> forall s,
  (forall q, safe_atod in_range s = Some q -> reads in_range s q) /\
  (forall q, reads in_range s q -> exists q', safe_atod in_range s = Some q' /\ (q' == q)%Q).
Proof. exact atod_lemma. Qed.
Print Assumptions atod_exact.
Definition anything (q : Q) : bool := true.
Example atod_ex : safe_atod anything (S "-1.25") = Some (-125 # 100)%Q /\ safe_atod anything (S "1e3") = None /\
  safe_atod anything (S ".") = None /\ safe_atod anything (S "5.") = Some (5 # 1)%Q /\ decimal (S "-1.25") (-5 # 4)%Q.
Proof.
  repeat (split; [vm_compute; reflexivity|]). exists (S "-"), (-1), (S "1"), (S "25"), 125. split; [left; reflexivity|].
  split; [right; right; left; reflexivity|]. split; [apply (num_of (S "125")); [discriminate|reflexivity]|]. vm_compute. reflexivity.
Qed.
Theorem calibration_exact : forall in_range, (forall a b, (a == b)%Q -> in_range a = in_range b) -> forall s ws, splits (S " ") s ws ->
  (forall qs, parse_calibration in_range s = Some qs -> (6 <= length ws)%nat /\ Forall2 (reads in_range) (firstn 6 ws) qs) /\
  (forall qs, (6 <= length ws)%nat -> Forall2 (reads in_range) (firstn 6 ws) qs ->
     exists qs', parse_calibration in_range s = Some qs' /\ Forall2 Qeq qs' qs).
Proof. exact calibration_lemma. Qed.
Print Assumptions calibration_exact.
Example calibration_ex : parse_calibration anything (S "1 0 0.5 0 -1 2") = Some [1#1; 0#1; 5#10; 0#1; -1#1; 2#1]%Q /\
  parse_calibration anything (S "1 0 0 0 1") = None.
Proof. vm_compute. auto. Qed.
Theorem kv_exact : forall in_range, (forall a b, (a == b)%Q -> in_range a = in_range b) ->
  forall s pairsep kvsep ws, pairsep <> [] -> kvsep <> [] -> splits pairsep s ws ->
  (forall out, kv_double_from_string in_range s pairsep kvsep = Some out -> ws <> [] /\
     Forall2 (fun w p => exists k v, splits kvsep w [k; v] /\ reads in_range k (fst p) /\ reads in_range v (snd p)) ws out) /\
  (forall out, ws <> [] ->
     Forall2 (fun w p => exists k v, splits kvsep w [k; v] /\ reads in_range k (fst p) /\ reads in_range v (snd p)) ws out ->
     exists out', kv_double_from_string in_range s pairsep kvsep = Some out' /\
       Forall2 (fun a b => fst a == fst b /\ snd a == snd b)%Q out' out).
Proof. exact kv_lemma. Qed.
Print Assumptions kv_exact.
Example kv_ex : kv_double_from_string anything (S "1:2;3.5:-4") (S ";") (S ":") = Some [(1#1, 2#1); (35#10, -4#1)]%Q /\
  kv_double_from_string anything (S "1:2;3") (S ";") (S ":") = None.
Proof. vm_compute. auto. Qed.

(** ** C19: event code and input property lists *)
(** Whatever libevdev's tables are (as long as its codes lie within the maximum
    of their type), an accepted list has at most 32 entries, fills no more than
    the caller's array, and every code is valid for its type. *)
Theorem evcode_range : forall type_from_name code_from_name type_max,
  (forall t s c, code_from_name t s = Some c -> 0 <= c <= type_max t) ->
  forall s ws room out, splits (S ";") s ws ->
  parse_evcode type_from_name code_from_name type_max s room = Some out ->
  (0 < length ws <= 32)%nat /\ length out = Nat.min room (length ws) /\
  Forall (fun e => snd e = 65535 \/ 0 <= snd e <= type_max (fst e)) out.
Proof. exact evcode_lemma. Qed.
Print Assumptions evcode_range.
Theorem evcode_exact : forall type_from_name code_from_name type_max s ws room es,
  splits (S ";") s ws -> (0 < length ws <= 32)%nat ->
  Forall2 (event_name type_from_name code_from_name type_max) ws es ->
  parse_evcode type_from_name code_from_name type_max s room = Some (firstn room es).
Proof. exact evcode_exact_lemma. Qed.
Print Assumptions evcode_exact.
Theorem evcode_all_or_nothing : forall type_from_name code_from_name type_max s ws room w,
  splits (S ";") s ws -> In w ws -> evcode_word type_from_name code_from_name type_max w = None ->
  parse_evcode type_from_name code_from_name type_max s room = None.
Proof. exact evcode_all_or_nothing_lemma. Qed.
Print Assumptions evcode_all_or_nothing.
Definition ex_types (s : str) : option Z := if streq s (S "EV_KEY") then Some 1 else if streq s (S "EV_ABS") then Some 3 else None.
Definition ex_codes (t : Z) (s : str) : option Z := if streq s (S "KEY_A") then Some 30 else None.
Definition ex_max (t : Z) : Z := 767.
Example evcode_ex : (forall t s c, ex_codes t s = Some c -> 0 <= c <= ex_max t) /\
  parse_evcode ex_types ex_codes ex_max (S "EV_ABS;KEY_A;EV_KEY:0x123;") 32 = Some [(3, 65535); (1, 30); (1, 291)] /\
  parse_evcode ex_types ex_codes ex_max (S "EV_KEY:0x300") 32 = None /\ parse_evcode ex_types ex_codes ex_max (S "KEY_A;foo") 32 = None.
Proof.
  split; [|vm_compute; auto]. intros t s c. unfold ex_codes, ex_max. destruct (streq s (S "KEY_A")); [|discriminate]. intros H. injection H as <-. lia.
Qed.
Theorem input_prop_range : forall prop_from_name, (forall s p, prop_from_name s = Some p -> 0 <= p <= 31) ->
  forall s ws room out, splits (S ";") s ws -> parse_input_prop prop_from_name s room = Some out ->
  (0 < length ws <= 32)%nat /\ length out = Nat.min room (length ws) /\ Forall (fun p => 0 <= p <= 31) out.
Proof. exact input_prop_lemma. Qed.
Print Assumptions input_prop_range.
Example input_prop_ex : parse_input_prop (fun s => if streq s (S "INPUT_PROP_BUTTONPAD") then Some 2 else None) (S "INPUT_PROP_BUTTONPAD;0x5") 32
  = Some [2; 5] /\ parse_input_prop (fun _ => None) (S "0x20") 32 = None.
Proof. vm_compute. auto. Qed.

(** ** C19: EVDEV_ABS overrides *)
(** Of the fields min:max:res:fuzz:flat exactly the non-empty ones are set, to
    their integers; if one is not an integer, or the property is longer than
    24 characters, nothing is set. *)
Theorem abs_exact : forall s fs, colon_fields s fs ->
  (forall vs, (length s <= 24)%nat -> length vs = 5%nat ->
     (forall i, (i < 5)%nat -> field_value (nth_error fs i) (nth i vs None)) -> parse_abs s = vs) /\
  (((length s > 24)%nat \/ exists i, (i < 5)%nat /\ ~ exists v, field_value (nth_error fs i) v) ->
     parse_abs s = [None; None; None; None; None]).
Proof. exact abs_exact_lemma. Qed.
Print Assumptions abs_exact.
Theorem colon_fields_total : forall s, exists fs, colon_fields s fs.
Proof. exact colon_fields_ex. Qed.
Print Assumptions colon_fields_total.
Example abs_ex : parse_abs (S "0:100::8") = [Some 0; Some 100; None; Some 8; None] /\
  parse_abs (S "0:x") = [None; None; None; None; None] /\ parse_abs (S "::5") = [None; None; Some 5; None; None].
Proof. vm_compute. auto. Qed.

(** ** C19: switch reliability *)
Theorem reliability_exact : forall p r, parse_reliability p = Some r <->
  (p = None /\ r = R_UNKNOWN) \/ (p = Some (S "reliable") /\ r = R_RELIABLE) \/ (p = Some (S "write_open") /\ r = R_WRITE_OPEN).
Proof.
  intros [s|] r; cbn [parse_reliability]; unfold streq.
  - destruct (list_eq_dec ascii_dec s (S "reliable")) as [->|N1]; [|destruct (list_eq_dec ascii_dec s (S "write_open")) as [->|N2]].
    + split; [intros H; injection H as <-; auto|]. intros [[H _]|[[_ ->]|[H _]]]; (discriminate || congruence).
    + split; [intros H; injection H as <-; auto|]. intros [[H _]|[[H _]|[_ ->]]]; (discriminate || congruence).
    + split; [discriminate|]. intros [[H _]|[[H _]|[H _]]]; (discriminate || congruence).
  - split; [intros H; injection H as <-; auto|]. intros [[_ ->]|[[H _]|[H _]]]; (discriminate || congruence).
Qed.
Print Assumptions reliability_exact.
Example reliability_ex : parse_reliability (Some (S "write_open")) = Some R_WRITE_OPEN /\ parse_reliability (Some (S "foo")) = None.
Proof. vm_compute. auto. Qed.
