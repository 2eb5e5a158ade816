(** Device quirks: reading the quirk files and looking a device up in them,
    /repo/src/quirks.c.  Logging, memory exhaustion and the reference counts
    of properties are left out.  A [str] is a C string, so it holds no NUL,
    except for the contents of a file. *)
Require Import Coq.Strings.Ascii Coq.Strings.String Coq.ZArith.ZArith Coq.QArith.QArith Coq.Lists.List Coq.Bool.Bool.
Require Import Verif.Str_Model Verif.Parse_Model Verif.Ver_Model.
Import ListNotations.
Open Scope Z_scope.

(** struct property's value and its type, /repo/src/quirks.c:54-64 and
    /repo/src/quirks.c:78-95; no property is ever of type PT_INT *)
Inductive ptype := PT_UINT | PT_INT | PT_STRING | PT_BOOL | PT_DIMENSION | PT_RANGE | PT_DOUBLE | PT_TUPLES | PT_UINT_ARRAY.
Inductive value :=
| VUint (u : Z) | VStr (s : str) | VBool (b : bool) | VDim (x y : Z) | VRange (lower upper : Z)
| VDouble (d : Q) | VTuples (l : list (Z * Z)) | VArray (l : list Z).
Definition type_of (v : value) : ptype :=
  match v with
  | VUint _ => PT_UINT | VStr _ => PT_STRING | VBool _ => PT_BOOL | VDim _ _ => PT_DIMENSION | VRange _ _ => PT_RANGE
  | VDouble _ => PT_DOUBLE | VTuples _ => PT_TUPLES | VArray _ => PT_UINT_ARRAY
  end.
Definition ptype_eq_dec : forall a b : ptype, {a = b} + {a <> b}.
Proof. decide equality. Defined.

(** enum quirk, /repo/src/quirks.h:64-114, and quirk_get_name,
    /repo/src/quirks.c:241-292 ([None]: abort) *)
Definition FIRST_MODEL : Z := 100.
Definition LAST_MODEL : Z := 124.
Definition FIRST_ATTR : Z := 300.
Definition model_names : list string :=
  ["ModelALPSSerialTouchpad"; "ModelAppleTouchpad"; "ModelAppleTouchpadOneButton"; "ModelBouncingKeys"; "ModelChromebook";
   "ModelClevoW740SU"; "ModelHPPavilionDM4Touchpad"; "ModelHPStream11Touchpad"; "ModelHPZBookStudioG3";
   "ModelInvertHorizontalScrolling"; "ModelLenovoScrollPoint"; "ModelLenovoT450Touchpad"; "ModelLenovoX1Gen6Touchpad";
   "ModelLenovoX230"; "ModelSynapticsSerialTouchpad"; "ModelSystem76Bonobo"; "ModelSystem76Galago"; "ModelSystem76Kudu";
   "ModelTabletModeNoSuspend"; "ModelTabletModeSwitchUnreliable"; "ModelTouchpadVisibleMarker"; "ModelTrackball";
   "ModelWacomTouchpad"; "ModelDellCanvasTotem"]%string.
Definition attr_names : list string :=
  ["AttrSizeHint"; "AttrTouchSizeRange"; "AttrPalmSizeThreshold"; "AttrLidSwitchReliability"; "AttrKeyboardIntegration";
   "AttrPointingStickIntegration"; "AttrTPKComboLayout"; "AttrPressureRange"; "AttrPalmPressureThreshold";
   "AttrResolutionHint"; "AttrTrackpointMultiplier"; "AttrThumbPressureThreshold"; "AttrUseVelocityAveraging";
   "AttrThumbSizeThreshold"; "AttrMscTimestamp"; "AttrEventCodeDisable"; "AttrEventCodeEnable"; "AttrInputPropDisable";
   "AttrInputPropEnable"]%string.
Definition quirk_get_name (q : Z) : option str :=
  if q <? FIRST_MODEL then None
  else if q <? LAST_MODEL then option_map S (nth_error model_names (Z.to_nat (q - FIRST_MODEL)))
  else if q <? FIRST_ATTR then None
  else option_map S (nth_error attr_names (Z.to_nat (q - FIRST_ATTR))).

(** enum bustype, /repo/src/quirks.c:110-118, and enum udev_type (a bit each),
    /repo/src/quirks.c:120-128 *)
Inductive bus := BT_USB | BT_BLUETOOTH | BT_PS2 | BT_RMI | BT_I2C | BT_SPI.
Definition bus_eq_dec : forall a b : bus, {a = b} + {a <> b}.
Proof. decide equality. Defined.
Definition UDEV_MOUSE : Z := 2.
Definition UDEV_POINTINGSTICK : Z := 4.
Definition UDEV_TOUCHPAD : Z := 8.
Definition UDEV_TABLET : Z := 16.
Definition UDEV_TABLET_PAD : Z := 32.
Definition UDEV_JOYSTICK : Z := 64.
Definition UDEV_KEYBOARD : Z := 128.

(** struct match, /repo/src/quirks.c:136-151: a field is [Some] where its bit is set *)
Record match_ := mkM {
  m_name : option str; m_bus : option bus; m_vid : option Z; m_pid : option Z;
  m_dmi : option str; m_type : option Z; m_dt : option str; m_version : option Z }.
Definition no_match : match_ := mkM None None None None None None None None.
Definition set_name m x := mkM x (m_bus m) (m_vid m) (m_pid m) (m_dmi m) (m_type m) (m_dt m) (m_version m).
Definition set_bus m x := mkM (m_name m) x (m_vid m) (m_pid m) (m_dmi m) (m_type m) (m_dt m) (m_version m).
Definition set_vid m x := mkM (m_name m) (m_bus m) x (m_pid m) (m_dmi m) (m_type m) (m_dt m) (m_version m).
Definition set_pid m x := mkM (m_name m) (m_bus m) (m_vid m) x (m_dmi m) (m_type m) (m_dt m) (m_version m).
Definition set_dmi m x := mkM (m_name m) (m_bus m) (m_vid m) (m_pid m) x (m_type m) (m_dt m) (m_version m).
Definition set_type m x := mkM (m_name m) (m_bus m) (m_vid m) (m_pid m) (m_dmi m) x (m_dt m) (m_version m).
Definition set_dt m x := mkM (m_name m) (m_bus m) (m_vid m) (m_pid m) (m_dmi m) (m_type m) x (m_version m).
Definition set_version m x := mkM (m_name m) (m_bus m) (m_vid m) (m_pid m) (m_dmi m) (m_type m) (m_dt m) x.

(** struct section, /repo/src/quirks.c:156-165, without its name, which is only logged *)
Record section := mkS { s_match : match_; s_props : list (Z * value); has_match : bool; has_property : bool }.
Definition section_new : section := mkS no_match [] false false.

Definition is_set {A} (o : option A) : bool := match o with Some _ => true | None => false end.

(** parse_hex, /repo/src/quirks.c:523-530 *)
Definition parse_hex (v : str) : option Z :=
  if negb (strneq v (S "0x") 2) then None
  else match safe_atou_base 16 v with
  | None => None
  | Some n => if negb (forallb (in_set (S "0123456789xABCDEF")) v) then None else if n <=? 65535 then Some n else None
  end.

(** The string tables of parse_match *)
Fixpoint assoc {A} (l : list (string * A)) (k : str) : option A :=
  match l with [] => None | (n, x) :: r => if streq k (S n) then Some x else assoc r k end.
Definition bus_words : list (string * bus) :=
  [("usb", BT_USB); ("bluetooth", BT_BLUETOOTH); ("ps2", BT_PS2); ("rmi", BT_RMI); ("i2c", BT_I2C); ("spi", BT_SPI)]%string.
Definition type_words : list (string * Z) :=
  [("touchpad", UDEV_TOUCHPAD); ("mouse", UDEV_MOUSE); ("pointingstick", UDEV_POINTINGSTICK); ("keyboard", UDEV_KEYBOARD);
   ("joystick", UDEV_JOYSTICK); ("tablet", UDEV_TABLET); ("tablet-pad", UDEV_TABLET_PAD)]%string.

(** parse_match, /repo/src/quirks.c:541-639; [None] is false, after which nothing
    of the section is used *)
Definition matched (s : section) (m : match_) : section := mkS m (s_props s) true (has_property s).
Definition parse_match (s : section) (key v : str) : option section :=
  let m := s_match s in
  if streq key (S "MatchName") then
    if is_set (m_name m) then None else Some (matched s (set_name m (Some v)))
  else if streq key (S "MatchBus") then
    if is_set (m_bus m) then None
    else match assoc bus_words v with Some b => Some (matched s (set_bus m (Some b))) | None => None end
  else if streq key (S "MatchVendor") then
    if is_set (m_vid m) then None
    else match parse_hex v with Some n => Some (matched s (set_vid m (Some n))) | None => None end
  else if streq key (S "MatchProduct") then
    if is_set (m_pid m) then None
    else match parse_hex v with Some n => Some (matched s (set_pid m (Some n))) | None => None end
  else if streq key (S "MatchVersion") then
    if is_set (m_version m) then None
    else match parse_hex v with Some n => Some (matched s (set_version m (Some n))) | None => None end
  else if streq key (S "MatchDMIModalias") then
    if is_set (m_dmi m) then None
    else if negb (strneq v (S "dmi:") 4) then None else Some (matched s (set_dmi m (Some v)))
  else if streq key (S "MatchUdevType") then
    if is_set (m_type m) then None
    else match assoc type_words v with Some t => Some (matched s (set_type m (Some t))) | None => None end
  else if streq key (S "MatchDeviceTree") then
    if is_set (m_dt m) then None else Some (matched s (set_dt m (Some v)))
  else None.

Definition add_prop (s : section) (q : Z) (v : value) : section :=
  mkS (s_match s) (s_props s ++ [(q, v)]) (has_match s) true.
Definition bool_word (v : str) : option bool :=
  if streq v (S "1") then Some true else if streq v (S "0") then Some false else None.

(** parse_model, /repo/src/quirks.c:650-683 *)
Fixpoint model_loop (n : nat) (q : Z) (key : str) : option Z :=
  match quirk_get_name q with
  | Some name => if streq key name then Some q
                 else match n with
                      | O => None
                      | Datatypes.S m => if q + 1 <? LAST_MODEL then model_loop m (q + 1) key else None
                      end
  | None => None
  end.
Definition parse_model (s : section) (key v : str) : option section :=
  match bool_word v with
  | None => None
  | Some b => match model_loop 24 FIRST_MODEL key with
              | Some q => Some (add_prop s q (VBool b))
              | None => None
              end
  end.

Section Env.
(** fnmatch(pattern, string, 0) == 0, and what Parse_Model leaves open *)
Variable fnmatch : str -> str -> bool.
Variable in_range : Q -> bool.
Variable type_from_name : str -> option Z.
Variable code_from_name : Z -> str -> option Z.
Variable type_max : Z -> Z.
Variable prop_from_name : str -> option Z.

(** The value of an attribute, /repo/src/quirks.c:696-870: the branches *)
Definition dim_value (v : str) : option value := option_map (fun p => VDim (fst p) (snd p)) (parse_dimension v).
Definition range_value (v : str) : option value := option_map (fun p => VRange (snd p) (fst p)) (parse_range v).
Definition uint_value (v : str) : option value := option_map VUint (safe_atou v).
Definition word_value (ws : list string) (v : str) : option value :=
  if existsb (fun w => streq v (S w)) ws then Some (VStr v) else None.
Definition attr_value (q : Z) (v : str) : option value :=
  if q =? 300 then dim_value v
  else if q =? 301 then range_value v
  else if q =? 302 then uint_value v
  else if q =? 303 then word_value ["reliable"; "write_open"]%string v
  else if q =? 304 then word_value ["internal"; "external"]%string v
  else if q =? 305 then word_value ["internal"; "external"]%string v
  else if q =? 306 then word_value ["below"]%string v
  else if q =? 307 then range_value v
  else if q =? 308 then uint_value v
  else if q =? 309 then dim_value v
  else if q =? 310 then option_map VDouble (safe_atod in_range v)
  else if q =? 312 then option_map VBool (bool_word v)
  else if q =? 311 then uint_value v
  else if q =? 313 then uint_value v
  else if q =? 314 then word_value ["watch"]%string v
  else if (q =? 315) || (q =? 316) then
    match parse_evcode type_from_name code_from_name type_max v 32 with
    | None | Some [] => None
    | Some l => Some (VTuples l)
    end
  else if (q =? 317) || (q =? 318) then
    match parse_input_prop prop_from_name v 32 with
    | None | Some [] => None
    | Some l => Some (VArray l)
    end
  else None.
(** The key is compared with the names in turn *)
Definition attr_ids : list Z := map (fun n => FIRST_ATTR + Z.of_nat n) (seq 0 (length attr_names)).
Definition parse_attr (s : section) (key v : str) : option section :=
  match find (fun q => match quirk_get_name q with Some n => streq key n | None => false end) attr_ids with
  | None => None
  | Some q => match attr_value q v with Some x => Some (add_prop s q x) | None => None end
  end.

(** parse_value_line, /repo/src/quirks.c:879-912 *)
Definition quote (c : ascii) : bool := Ascii.eqb c """" || Ascii.eqb c "'".
Definition parse_value_line (s : section) (line : str) : option section :=
  match strv_from_string line (S "=") with
  | Some (Some [key; v]) =>
      if negb (nonempty key) || negb (nonempty v) then None
      else if match v with c :: _ => quote c | [] => false end then None
      else if strneq key (S "Match") 5 then parse_match s key v
      else if strneq key (S "Model") 5 then parse_model s key v
      else if strneq key (S "Attr") 4 then parse_attr s key v
      else None
  | _ => None
  end.

(** fgets(line, 512, fp) until the end of the file, and the C string in the
    buffer each time: up to 511 characters, up to a newline *)
Definition LF : ascii := ascii_of_nat 10.
Definition TAB : ascii := ascii_of_nat 9.
Definition NUL : ascii := ascii_of_nat 0.
Definition BUFSIZE : nat := 512.
Fixpoint fgets_all (room : nat) (cur : str) (text : str) : list str :=
  match text with
  | [] => match cur with [] => [] | _ => [rev cur] end
  | c :: t =>
      if Ascii.eqb c LF then rev (c :: cur) :: fgets_all (BUFSIZE - 1) [] t
      else match room with
           | O | Datatypes.S O => rev (c :: cur) :: fgets_all (BUFSIZE - 1) [] t
           | Datatypes.S r => fgets_all r (c :: cur) t
           end
  end.
Definition c_string (s : str) : str := span (fun c => negb (Ascii.eqb c NUL)) s.
Definition read_lines (text : str) : list str := map c_string (fgets_all (BUFSIZE - 1) [] text).

(** Comments and the newline, /repo/src/quirks.c:954-971 *)
Definition blank_char (c : ascii) : bool := Ascii.eqb c " " || Ascii.eqb c TAB.
Fixpoint rstrip (s : str) : str :=
  match s with
  | [] => []
  | c :: r => let k := rstrip r in if blank_char c && negb (nonempty k) then [] else c :: k
  end.
Definition strip_line (line : str) : str :=
  if existsb (Ascii.eqb "#") line then rstrip (span (fun c => negb (Ascii.eqb c "#")) line)
  else span (fun c => negb (Ascii.eqb c LF)) line.

(** enum state of parse_file; STATE_ANY is never entered *)
Inductive fstate := STATE_SECTION | STATE_MATCH | STATE_MATCH_OR_VALUE | STATE_VALUE_OR_SECTION.
(** The loop: the sections of the context but for the one being filled, that
    one, the state *)
Record reader := mkR { r_done : list section; r_cur : option section; r_state : fstate }.
Definition complete (s : section) : bool := has_match s && has_property s.
Definition finish (r : reader) : list section := r_done r ++ match r_cur r with Some s => [s] | None => [] end.
Definition is_section_state (f : fstate) : bool :=
  match f with STATE_SECTION | STATE_VALUE_OR_SECTION => true | _ => false end.
Definition upcase (c : ascii) : bool := (65 <=? code c) && (code c <=? 90).
(** One line without comment, /repo/src/quirks.c:973-1061 *)
Definition parse_line (r : reader) (line : str) : option reader :=
  match line with
  | [] => Some r
  | c :: _ =>
      if blank_char (last line c) then None
      else if Ascii.eqb c LF || Ascii.eqb c "#" then Some r
      else if blank_char c then None
      else if Ascii.eqb c "[" then
        if negb (Ascii.eqb (last line c) "]") then None
        else if negb (is_section_state (r_state r)) then None
        else if match r_cur r with Some s => negb (complete s) | None => false end then None
        else Some (mkR (finish r) (Some section_new) STATE_MATCH)
      else if negb (upcase c) then None
      else
        let is_match := strneq line (S "Match") 5 in
        match match r_state r with
              | STATE_SECTION => None
              | STATE_MATCH => if is_match then Some STATE_MATCH_OR_VALUE else None
              | STATE_MATCH_OR_VALUE => if is_match then Some STATE_MATCH_OR_VALUE else Some STATE_VALUE_OR_SECTION
              | STATE_VALUE_OR_SECTION => if is_match then None else Some STATE_VALUE_OR_SECTION
              end with
        | None => None
        | Some st =>
            match r_cur r with
            | None => None (* not reached: there is a section in every state but STATE_SECTION *)
            | Some s => match parse_value_line s line with
                        | Some s' => Some (mkR (r_done r) (Some s') st)
                        | None => None
                        end
            end
        end
  end.
Fixpoint parse_lines (r : reader) (ls : list str) : option reader :=
  match ls with
  | [] => Some r
  | l :: t => match parse_line r (strip_line l) with Some r' => parse_lines r' t | None => None end
  end.

(** What opening a file gives: nothing there, an error, the contents *)
Inductive file := F_missing | F_error | F_text (t : str).
(** parse_file, /repo/src/quirks.c:914-1081: the context's sections afterwards,
    [None] is false *)
Definition parse_file (sections : list section) (f : file) : option (list section) :=
  match f with
  | F_missing => Some sections
  | F_error => None
  | F_text t =>
      match parse_lines (mkR sections None STATE_SECTION) (read_lines t) with
      | None => None
      | Some r => match r_cur r with
                  | None => None
                  | Some s => if complete s then Some (finish r) else None
                  end
      end
  end.

(** is_data_file and scandir with versionsort, /repo/src/quirks.c:1083-1086,
    /repo/src/libinput-versionsort.h:32-62: the entries of the directory with
    their contents.  The sort is an insertion sort; names in a directory
    differ, so any sort gives the same. *)
Definition name_cmp (a b : str) : Z := strverscmp (map code a) (map code b).
Fixpoint insert (e : str * file) (l : list (str * file)) : list (str * file) :=
  match l with
  | [] => [e]
  | x :: r => if 0 <? name_cmp (fst e) (fst x) then x :: insert e r else e :: l
  end.
Definition scandir (dir : list (str * file)) : list (str * file) :=
  fold_right insert [] (filter (fun e => strendswith (fst e) (S ".quirks")) dir).
(** parse_files, /repo/src/quirks.c:1088-1121 *)
Fixpoint parse_all (sections : list section) (fs : list (str * file)) : option (list section) :=
  match fs with
  | [] => Some sections
  | (_, f) :: r => match parse_file sections f with Some s => parse_all s r | None => None end
  end.
Definition parse_files (sections : list section) (dir : list (str * file)) : option (list section) :=
  match scandir dir with
  | [] => None
  | l => parse_all sections l
  end.

(** struct quirks_context, and quirks_init_subsystem,
    /repo/src/quirks.c:1123-1159: [dmi] and [dt] are what init_dmi and
    init_dt return ([None]: NULL), [override] what opening the override file
    gives (no override file: F_missing) *)
Record context := mkC { c_dmi : option str; c_dt : option str; c_sections : list section }.
Definition quirks_init_subsystem (dmi dt : option str) (dir : list (str * file)) (override : file) : option context :=
  match dmi, dt with
  | None, None => None
  | _, _ =>
      match parse_files [] dir with
      | None => None
      | Some s => match parse_file s override with Some s' => Some (mkC dmi dt s') | None => None end
      end
  end.

(** The properties of the udev device and of its parents, nearest first.
    udev_prop, /repo/src/quirks.c:1237-1249 *)
Definition device := list (list (str * str)).
Fixpoint get_prop (l : list (str * str)) (k : str) : option str :=
  match l with [] => None | (n, v) :: r => if streq k n then Some v else get_prop r k end.
Fixpoint udev_prop (d : device) (k : str) : option str :=
  match d with
  | [] => None
  | l :: r => match get_prop l k with Some v => Some v | None => udev_prop r k end
  end.

(** match_fill_name, /repo/src/quirks.c:1251-1272 *)
Definition match_fill_name (m : match_) (d : device) : match_ :=
  match udev_prop d (S "NAME") with
  | None => m
  | Some s =>
      let s1 := match s with c :: r => if Ascii.eqb c """" then r else s | [] => s end in
      let s2 := if Nat.ltb 1 (length s1) && Ascii.eqb (last s1 LF) """" then removelast s1 else s1 in
      set_name m (Some s2)
  end.
(** sscanf(str, "%x/%x/%x/%x") == 4 *)
Definition unsigned (v : Z) : Z := v mod 4294967296.
Definition scan_product (s : str) : option (Z * Z * Z * Z) :=
  match scan_x s with
  | None => None
  | Some (a, r) =>
  match scan_c "/" r with
  | None => None
  | Some r =>
  match scan_x r with
  | None => None
  | Some (b, r) =>
  match scan_c "/" r with
  | None => None
  | Some r =>
  match scan_x r with
  | None => None
  | Some (c, r) =>
  match scan_c "/" r with
  | None => None
  | Some r =>
  match scan_x r with
  | None => None
  | Some (d, _) => Some (unsigned a, unsigned b, unsigned c, unsigned d)
  end end end end end end end.
(** BUS_USB etc. are those of linux/input.h *)
Definition bus_code (b : Z) : option bus :=
  if b =? 3 then Some BT_USB else if b =? 5 then Some BT_BLUETOOTH else if b =? 17 then Some BT_PS2
  else if b =? 29 then Some BT_RMI else if b =? 24 then Some BT_I2C else if b =? 28 then Some BT_SPI else None.
(** match_fill_bus_vid_pid, /repo/src/quirks.c:1274-1322 *)
Definition match_fill_bus_vid_pid (m : match_) (d : device) : match_ :=
  match udev_prop d (S "PRODUCT") with
  | None => m
  | Some s =>
      match scan_product s with
      | None => m
      | Some (b, v, p, w) =>
          let m := set_version (set_vid (set_pid m (Some p)) (Some v)) (Some w) in
          match bus_code b with Some x => set_bus m (Some x) | None => m end
      end
  end.
(** match_fill_udev_type, /repo/src/quirks.c:1324-1348 *)
Definition type_props : list (string * Z) :=
  [("ID_INPUT_MOUSE", UDEV_MOUSE); ("ID_INPUT_POINTINGSTICK", UDEV_POINTINGSTICK); ("ID_INPUT_TOUCHPAD", UDEV_TOUCHPAD);
   ("ID_INPUT_TABLET", UDEV_TABLET); ("ID_INPUT_TABLET_PAD", UDEV_TABLET_PAD); ("ID_INPUT_JOYSTICK", UDEV_JOYSTICK);
   ("ID_INPUT_KEYBOARD", UDEV_KEYBOARD); ("ID_INPUT_KEY", UDEV_KEYBOARD)]%string.
Definition match_fill_udev_type (m : match_) (d : device) : match_ :=
  set_type m (Some (fold_left (fun t e => if is_set (udev_prop d (S (fst e))) then Z.lor t (snd e) else t) type_props 0)).
(** match_fill_dmi_dt, /repo/src/quirks.c:1350-1362 *)
Definition match_fill_dmi_dt (m : match_) (dmi dt : option str) : match_ :=
  let m := match dmi with Some _ => set_dmi m dmi | None => m end in
  match dt with Some _ => set_dt m dt | None => m end.
(** match_new, /repo/src/quirks.c:1364-1375 *)
Definition match_new (d : device) (dmi dt : option str) : match_ :=
  match_fill_udev_type (match_fill_dmi_dt (match_fill_bus_vid_pid (match_fill_name no_match d) d) dmi dt) d.

(** quirk_match_section, /repo/src/quirks.c:1412-1488: for each flag the
    section has, whether the device matches it *)
Definition agree {A B} (f : A -> B -> bool) (want : option A) (have : option B) : bool * bool :=
  match want with
  | None => (false, false)
  | Some w => (true, match have with None => false | Some h => f w h end)
  end.
Definition flag_loop (s m : match_) : list (bool * bool) :=
  [agree fnmatch (m_name s) (m_name m);
   agree (fun a b => if bus_eq_dec a b then true else false) (m_bus s) (m_bus m);
   agree Z.eqb (m_vid s) (m_vid m);
   agree Z.eqb (m_pid s) (m_pid m);
   agree fnmatch (m_dmi s) (m_dmi m);
   agree (fun a b => negb (Z.land a b =? 0)) (m_type s) (m_type m);
   agree fnmatch (m_dt s) (m_dt m);
   agree Z.eqb (m_version s) (m_version m)].
Definition full_match (s m : match_) : bool :=
  forallb (fun p => Bool.eqb (fst p) (snd p)) (flag_loop s m).

(** struct quirks: the properties in the order they were added.
    quirk_apply_section, /repo/src/quirks.c:1385-1410 *)
Definition quirk_match_section (m : match_) (q : list (Z * value)) (s : section) : list (Z * value) :=
  if full_match (s_match s) m then q ++ s_props s else q.
(** quirks_fetch_for_device, /repo/src/quirks.c:1490-1522; [None] is NULL *)
Definition quirks_fetch_for_device (ctx : option context) (d : device) : option (list (Z * value)) :=
  match ctx with
  | None => None
  | Some c =>
      match fold_left (quirk_match_section (match_new d (c_dmi c) (c_dt c))) (c_sections c) [] with
      | [] => None
      | q => Some q
      end
  end.
End Env.

(** quirk_find_prop, /repo/src/quirks.c:1525-1536 *)
Definition quirk_find_prop (q : list (Z * value)) (which : Z) : option value :=
  option_map snd (find (fun p => fst p =? which) (rev q)).
(** quirks_has_quirk, /repo/src/quirks.c:1538-1542; [None]: NULL is dereferenced *)
Definition quirks_has_quirk (q : option (list (Z * value))) (which : Z) : option bool :=
  match q with None => None | Some q => Some (is_set (quirk_find_prop q which)) end.
(** quirks_get_uint32 and the other getters, /repo/src/quirks.c:1544-1713,
    which differ in the type [t] only *)
Inductive got := G_false | G_assert | G_value (v : value).
Definition quirks_get (t : ptype) (q : option (list (Z * value))) (which : Z) : got :=
  match q with
  | None => G_false
  | Some q => match quirk_find_prop q which with
              | None => G_false
              | Some v => if ptype_eq_dec (type_of v) t then G_value v else G_assert
              end
  end.
