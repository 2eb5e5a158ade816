(** What a quirk file means.  Keys and value formats follow
    /repo/doc/user/device-quirks.rst. *)
Require Import Coq.Strings.Ascii Coq.Strings.String Coq.ZArith.ZArith Coq.QArith.QArith Coq.Lists.List Coq.Bool.Bool Coq.Sorting.Sorted Coq.Sorting.Permutation.
Require Import Verif.Str_Model Verif.Str_Spec Verif.Parse_Model Verif.Ver_Model Verif.Quirks_Model.
Import ListNotations.
Open Scope Z_scope.

(** ** Rules: the criteria a device must meet, the quirks it then gets *)
Inductive devtype := Mouse | Pointingstick | Touchpad | Tablet | TabletPad | Joystick | Keyboard.
Inductive criterion :=
| Name (pattern : str) | Bus (b : bus) | Vendor (n : Z) | Product (n : Z) | Version (n : Z)
| Dmi (pattern : str) | Type_ (t : devtype) | DeviceTree (pattern : str).
(** Which of the eight criteria it is. *)
Definition which (c : criterion) : nat :=
  match c with
  | Name _ => 0 | Bus _ => 1 | Vendor _ => 2 | Product _ => 3 | Version _ => 4 | Dmi _ => 5 | Type_ _ => 6 | DeviceTree _ => 7
  end%nat.
Record rule := mkRule { criteria : list criterion; settings : list (string * value) }.

(** ** What is known of a device *)
Record facts := mkF {
  f_name : option str; f_ids : option (Z * Z * Z * Z) (* bus, vendor, product, version *);
  f_types : list devtype; f_dmi : option str; f_dt : option str }.
Definition bus_number (b : bus) : Z :=
  match b with BT_USB => 3 | BT_BLUETOOTH => 5 | BT_PS2 => 17 | BT_I2C => 24 | BT_SPI => 28 | BT_RMI => 29 end.
(** A criterion on something not known of the device is not met. *)
Definition meets (fnmatch : str -> str -> bool) (f : facts) (c : criterion) : Prop :=
  match c with
  | Name p => exists n, f_name f = Some n /\ fnmatch p n = true
  | Bus b => exists v p w, f_ids f = Some (bus_number b, v, p, w)
  | Vendor n => exists b p w, f_ids f = Some (b, n, p, w)
  | Product n => exists b v w, f_ids f = Some (b, v, n, w)
  | Version n => exists b v p, f_ids f = Some (b, v, p, n)
  | Dmi p => exists s, f_dmi f = Some s /\ fnmatch p s = true
  | Type_ t => In t (f_types f)
  | DeviceTree p => exists s, f_dt f = Some s /\ fnmatch p s = true
  end.
Definition applies (fnmatch : str -> str -> bool) (f : facts) (r : rule) : Prop := Forall (meets fnmatch f) (criteria r).

(** ** The value of a quirk: the last setting in the rules that apply *)
Inductive all_settings (fnmatch : str -> str -> bool) (f : facts) : list rule -> list (string * value) -> Prop :=
| as_nil : all_settings fnmatch f [] []
| as_yes : forall r rs l, applies fnmatch f r -> all_settings fnmatch f rs l -> all_settings fnmatch f (r :: rs) (settings r ++ l)
| as_no : forall r rs l, ~ applies fnmatch f r -> all_settings fnmatch f rs l -> all_settings fnmatch f (r :: rs) l.
Definition last_setting (l : list (string * value)) (k : string) (v : value) : Prop :=
  exists a b, l = a ++ (k, v) :: b /\ ~ In k (map fst b).

(** ** Lines *)
(** "0x" and upper case digits, a number up to 0xFFFF.  (Larger numbers are
    refused only up to 2^32: their remainder counts.) *)
Definition hex (s : str) (n : Z) : Prop :=
  exists ds m, s = S "0x" ++ ds /\ Forall (fun c => In c alphabet_upper) ds /\ numeral 16 ds m /\ m < 2^63 /\
    n = m mod 2^32 /\ n <= 65535.
Inductive match_text : string -> str -> criterion -> Prop :=
| mt_name : forall v, match_text "MatchName" v (Name v)
| mt_bus : forall w b, In (w, b) [("usb", BT_USB); ("bluetooth", BT_BLUETOOTH); ("ps2", BT_PS2); ("rmi", BT_RMI);
    ("i2c", BT_I2C); ("spi", BT_SPI)]%string -> match_text "MatchBus" (S w) (Bus b)
| mt_vendor : forall v n, hex v n -> match_text "MatchVendor" v (Vendor n)
| mt_product : forall v n, hex v n -> match_text "MatchProduct" v (Product n)
| mt_version : forall v n, hex v n -> match_text "MatchVersion" v (Version n)
| mt_dmi : forall v, match_text "MatchDMIModalias" (S "dmi:" ++ v) (Dmi (S "dmi:" ++ v))
| mt_type : forall w t, In (w, t) [("mouse", Mouse); ("pointingstick", Pointingstick); ("touchpad", Touchpad); ("tablet", Tablet);
    ("tablet-pad", TabletPad); ("joystick", Joystick); ("keyboard", Keyboard)]%string -> match_text "MatchUdevType" (S w) (Type_ t)
| mt_dt : forall v, match_text "MatchDeviceTree" v (DeviceTree v).

Section Formats.
Variable in_range : Q -> bool.
Variable type_from_name : str -> option Z.
Variable code_from_name : Z -> str -> option Z.
Variable type_max : Z -> Z.
Variable prop_from_name : str -> option Z.

(** The format of each quirk's value; C18, C21 and C22 say what the parsers
    accept. *)
Inductive format := Flag | Number | Words (ws : list string) | Size | Limits | Factor | Events | Properties.
Definition formats : list (string * format) :=
  ([("ModelALPSSerialTouchpad", Flag); ("ModelAppleTouchpad", Flag); ("ModelAppleTouchpadOneButton", Flag);
    ("ModelBouncingKeys", Flag); ("ModelChromebook", Flag); ("ModelClevoW740SU", Flag); ("ModelDellCanvasTotem", Flag);
    ("ModelHPPavilionDM4Touchpad", Flag); ("ModelHPStream11Touchpad", Flag); ("ModelHPZBookStudioG3", Flag);
    ("ModelInvertHorizontalScrolling", Flag); ("ModelLenovoScrollPoint", Flag); ("ModelLenovoT450Touchpad", Flag);
    ("ModelLenovoX1Gen6Touchpad", Flag); ("ModelLenovoX230", Flag); ("ModelSynapticsSerialTouchpad", Flag);
    ("ModelSystem76Bonobo", Flag); ("ModelSystem76Galago", Flag); ("ModelSystem76Kudu", Flag);
    ("ModelTabletModeNoSuspend", Flag); ("ModelTabletModeSwitchUnreliable", Flag); ("ModelTouchpadVisibleMarker", Flag);
    ("ModelTrackball", Flag); ("ModelWacomTouchpad", Flag);
    ("AttrSizeHint", Size); ("AttrResolutionHint", Size);
    ("AttrTouchSizeRange", Limits); ("AttrPressureRange", Limits);
    ("AttrPalmSizeThreshold", Number); ("AttrPalmPressureThreshold", Number);
    ("AttrThumbSizeThreshold", Number); ("AttrThumbPressureThreshold", Number);
    ("AttrTrackpointMultiplier", Factor); ("AttrUseVelocityAveraging", Flag);
    ("AttrLidSwitchReliability", Words ["reliable"; "write_open"]);
    ("AttrKeyboardIntegration", Words ["internal"; "external"]);
    ("AttrPointingStickIntegration", Words ["internal"; "external"]);
    ("AttrTPKComboLayout", Words ["below"]); ("AttrMscTimestamp", Words ["watch"]);
    ("AttrEventCodeDisable", Events); ("AttrEventCodeEnable", Events);
    ("AttrInputPropDisable", Properties); ("AttrInputPropEnable", Properties)])%string.
Inductive value_text : format -> str -> value -> Prop :=
| vt_on : value_text Flag (S "1") (VBool true)
| vt_off : value_text Flag (S "0") (VBool false)
| vt_number : forall s n, safe_atou s = Some n -> value_text Number s (VUint n)
| vt_word : forall ws w, In w ws -> value_text (Words ws) (S w) (VStr (S w))
| vt_size : forall s x y, parse_dimension s = Some (x, y) -> value_text Size s (VDim x y)
| vt_limits : forall s hi lo, parse_range s = Some (hi, lo) -> value_text Limits s (VRange lo hi)
| vt_factor : forall s d, safe_atod in_range s = Some d -> value_text Factor s (VDouble d)
| vt_events : forall s l, parse_evcode type_from_name code_from_name type_max s 32 = Some l -> l <> [] -> value_text Events s (VTuples l)
| vt_props : forall s l, parse_input_prop prop_from_name s 32 = Some l -> l <> [] -> value_text Properties s (VArray l).
Definition setting_text (k : string) (v : str) (x : value) : Prop := exists f, In (k, f) formats /\ value_text f v x.

(** "Key=value", the value not in quotes and the line without blanks at its end.
    (Several "=" count as one.) *)
Definition entry (line : str) (k : string) (v : str) : Prop :=
  splits (S "=") line [S k; v] /\ hd LF line <> "="%char /\
  ~ In (hd LF v) [""""; "'"]%char /\ ~ In (last line LF) [" "%char; TAB].
Definition header (line : str) : Prop := exists t, line = S "[" ++ t ++ S "]".

(** A section: a header, then at least one criterion, each of a kind once, then
    at least one setting. *)
Inductive section_lines : list str -> rule -> Prop :=
| sec : forall h ms cs ss qs, header h -> ms <> [] -> ss <> [] ->
    Forall2 (fun l c => exists k v, entry l k v /\ match_text k v c) ms cs ->
    NoDup (map which cs) ->
    Forall2 (fun l q => exists v, entry l (fst q) v /\ setting_text (fst q) v (snd q)) ss qs ->
    section_lines (h :: ms ++ ss) (mkRule cs qs).
(** A comment starts at a "#" and takes the blanks before it along. *)
Inductive uncomment : str -> str -> Prop :=
| un_none : forall l, ~ In "#"%char l -> uncomment l l
| un_some : forall l b t, ~ In "#"%char (l ++ b) -> Forall (fun c => In c [" "%char; TAB]) b ->
    ~ In (last l LF) [" "%char; TAB] -> uncomment (l ++ b ++ S "#" ++ t) l.
(** Lines of up to 510 characters, each ended by a newline (the last one
    perhaps not); no NUL. *)
Inductive text_lines : str -> list str -> Prop :=
| tl_nil : text_lines [] []
| tl_last : forall l, l <> [] -> ~ In LF l -> ~ In NUL l -> (length l <= 510)%nat -> text_lines l [l]
| tl_cons : forall l t ls, ~ In LF l -> ~ In NUL l -> (length l <= 510)%nat -> text_lines t ls -> text_lines (l ++ LF :: t) (l :: ls).
(** A file: sections, at least one, empty lines left out. *)
Definition file_rules (t : str) (rs : list rule) : Prop :=
  exists ls us groups, text_lines t ls /\ Forall2 uncomment ls us /\
    filter nonempty us = concat groups /\ Forall2 section_lines groups rs /\ rs <> [].
(** A file that is not there has no rules.  (The local overrides: usually.) *)
Inductive file_means : file -> list rule -> Prop :=
| fm_missing : file_means F_missing []
| fm_text : forall t rs, file_rules t rs -> file_means (F_text t) rs.
(** A file that cannot be read, or has a line that does not belong. *)
Inductive malformed : file -> Prop :=
| mf_error : malformed F_error
| mf_text : forall t ls, text_lines t ls -> (forall rs, ~ file_rules t rs) -> malformed (F_text t).
End Formats.
(** The type of the values in a format. *)
Definition format_type (f : format) : ptype :=
  match f with
  | Flag => PT_BOOL | Number => PT_UINT | Words _ => PT_STRING | Size => PT_DIMENSION | Limits => PT_RANGE
  | Factor => PT_DOUBLE | Events => PT_TUPLES | Properties => PT_UINT_ARRAY
  end.

(** ** The directory: the files ending in .quirks, in version order, then the
    local overrides *)
Definition before (a b : str * file) : Prop := name_cmp (fst a) (fst b) < 0.
Definition load_order (dir fs : list (str * file)) : Prop :=
  StronglySorted before fs /\
  forall n f, In (n, f) fs <-> In (n, f) dir /\ exists a, n = a ++ S ".quirks".

(** ** Udev *)
(** The nearest device of the chain that has the property decides. *)
Inductive has_prop : device -> string -> str -> Prop :=
| hp_here : forall l d k v, get_prop l (S k) = Some v -> has_prop (l :: d) k v
| hp_up : forall l d k v, get_prop l (S k) = None -> has_prop d k v -> has_prop (l :: d) k v.
Definition lacks (d : device) (k : string) : Prop := forall v, ~ has_prop d k v.
Definition word16 (s : str) (n : Z) : Prop := numeral 16 s n /\ n <= 65535.
(** NAME is in quotes; PRODUCT is bus/vendor/product/version in hexadecimal. *)
Definition describes (d : device) (dmi dt : option str) (f : facts) : Prop :=
  match f_name f with
  | None => lacks d "NAME"
  | Some n => n <> [] /\ has_prop d "NAME" (S """" ++ n ++ S """")
  end /\
  match f_ids f with
  | None => lacks d "PRODUCT"
  | Some (b, v, p, w) => exists sb sv sp sw, has_prop d "PRODUCT" (sb ++ S "/" ++ sv ++ S "/" ++ sp ++ S "/" ++ sw) /\
      word16 sb b /\ word16 sv v /\ word16 sp p /\ word16 sw w
  end /\
  (forall t, In t (f_types f) <-> exists k v, has_prop d k v /\
     In (k, t) [("ID_INPUT_MOUSE", Mouse); ("ID_INPUT_POINTINGSTICK", Pointingstick); ("ID_INPUT_TOUCHPAD", Touchpad);
                ("ID_INPUT_TABLET", Tablet); ("ID_INPUT_TABLET_PAD", TabletPad); ("ID_INPUT_JOYSTICK", Joystick);
                ("ID_INPUT_KEYBOARD", Keyboard); ("ID_INPUT_KEY", Keyboard)]%string) /\
  f_dmi f = dmi /\ f_dt f = dt.
