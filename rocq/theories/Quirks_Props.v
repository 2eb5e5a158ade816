(** C36: device quirks. *)
Require Import Coq.Strings.Ascii Coq.Strings.String Coq.ZArith.ZArith Coq.QArith.QArith Coq.Lists.List Coq.Bool.Bool Coq.micromega.Lia Coq.Sorting.Sorted.
Require Import Verif.Str_Model Verif.Str_Spec Verif.Str_Proofs Verif.Str_Proofs2 Verif.Parse_Model Verif.Parse_Proofs Verif.Quirks_Model Verif.Quirks_Spec.
Require Import Verif.Quirks_Proofs Verif.Quirks_Proofs2 Verif.Quirks_Proofs3 Verif.Quirks_Proofs4 Verif.Quirks_Proofs5 Verif.Quirks_Proofs6 Verif.Quirks_Proofs7.
Import ListNotations.
Open Scope Z_scope.

Section P.
(** fnmatch(3), the range check of doubles and the libevdev names: any. *)
Variable fnmatch : str -> str -> bool.
Variable in_range : Q -> bool.
Variable type_from_name : str -> option Z.
Variable code_from_name : Z -> str -> option Z.
Variable type_max : Z -> Z.
Variable prop_from_name : str -> option Z.
Local Notation means := (file_means in_range type_from_name code_from_name type_max prop_from_name).
Local Notation bad := (malformed in_range type_from_name code_from_name type_max prop_from_name).
Local Notation init := (quirks_init_subsystem in_range type_from_name code_from_name type_max prop_from_name).
Local Notation fetch := (quirks_fetch_for_device fnmatch).
Local Notation vtext := (value_text in_range type_from_name code_from_name type_max prop_from_name).
Definition names_ok (dir : list (str * file)) : Prop := NoDup (map fst dir) /\ Forall (fun e => ~ In NUL (fst e)) dir.

(** The files are read in one order only. *)
Theorem C36_order : forall dir, names_ok dir -> exists! fs, load_order dir fs.
Proof.
  intros dir [ND P]. exists (scandir dir). split; [now apply scandir_order|]. intros fs LO. now apply load_order_fun.
Qed.

Lemma fetched : forall dmi dt dir fs rss ov ors d f l, dmi <> None \/ dt <> None -> names_ok dir -> load_order dir fs -> fs <> [] ->
  Forall2 (fun e rs => means (snd e) rs) fs rss -> means ov ors -> describes d dmi dt f -> all_settings fnmatch f (concat rss ++ ors) l ->
  exists ps, props_ok ps l /\ fetch (init dmi dt dir ov) d = match ps with [] => None | _ => Some ps end.
Proof.
  intros dmi dt dir fs rss ov ors d f l HD [ND P] LO NE M MO DE AS.
  destruct (init_some in_range type_from_name code_from_name type_max prop_from_name dmi dt dir fs rss ov ors HD ND P LO NE M MO) as (secs & E & D & N).
  rewrite E. unfold quirks_fetch_for_device. cbn [c_dmi c_dt c_sections].
  exists (fold_left (quirk_match_section fnmatch (match_new d dmi dt)) secs []). split.
  - apply (fetch_settings fnmatch d dmi dt f secs _ l [] [] DE D N AS). constructor.
  - destruct (fold_left _ secs []); reflexivity.
Qed.
(** The value of a quirk is that of the last setting, in load order and the
    overrides last, in the sections whose criteria the device all meets; a
    quirk set nowhere there has no value. *)
Theorem C36_value : forall dmi dt dir fs rss ov ors d f l id k, dmi <> None \/ dt <> None -> names_ok dir -> load_order dir fs -> fs <> [] ->
  Forall2 (fun e rs => means (snd e) rs) fs rss -> means ov ors -> describes d dmi dt f -> all_settings fnmatch f (concat rss ++ ors) l ->
  quirk_get_name id = Some (S k) ->
  (forall v, last_setting l k v -> quirks_get (type_of v) (fetch (init dmi dt dir ov) d) id = G_value v
                                /\ quirks_has_quirk (fetch (init dmi dt dir ov) d) id = Some true) /\
  (~ In k (map fst l) -> (forall t, quirks_get t (fetch (init dmi dt dir ov) d) id = G_false)
                      /\ quirks_has_quirk (fetch (init dmi dt dir ov) d) id <> Some true).
Proof.
  intros dmi dt dir fs rss ov ors d f l id k HD NO LO NE M MO DE AS N.
  destruct (fetched dmi dt dir fs rss ov ors d f l HD NO LO NE M MO DE AS) as (ps & PO & ->). split.
  - intros v L. pose proof (last_found ps l id k v PO N L) as E.
    destruct ps as [|p ps]; [unfold quirk_find_prop in E; discriminate|]. unfold quirks_get, quirks_has_quirk. rewrite E.
    destruct (ptype_eq_dec (type_of v) (type_of v)) as [_|]; [auto|congruence].
  - intros NI. assert (E : quirk_find_prop ps id = None) by (unfold quirk_find_prop; rewrite (not_named ps l id k PO N NI); reflexivity).
    destruct ps as [|p ps]; [cbn; split; [auto|discriminate]|]. unfold quirks_get, quirks_has_quirk. rewrite E. split; [auto|discriminate].
Qed.
(** One of the two cases holds, whatever the files and the device are. *)
Theorem C36_decided : forall dmi dt d f rules, describes d dmi dt f -> Forall (fun r => NoDup (map which (criteria r))) rules ->
  exists l, all_settings fnmatch f rules l /\ forall k, (exists! v, last_setting l k v) \/ ~ In k (map fst l).
Proof.
  intros dmi dt d f rules DE N. destruct (all_settings_ex fnmatch d dmi dt f rules DE N) as [l AS]. exists l. split; auto. clear. intros k.
  induction l as [|[k' v] l IH] using rev_ind; [now right|]. destruct (string_dec k k') as [->|NE].
  - left. exists v. split.
    + exists l, []. auto.
    + intros v' (a & b & E & NI). destruct b as [|e b] using rev_ind.
      * apply app_inj_tail in E. destruct E as [_ E]. congruence.
      * clear IHb. rewrite app_comm_cons, app_assoc in E. apply app_inj_tail in E. destruct E as [_ <-]. exfalso. apply NI. rewrite map_app. apply in_or_app. right. now left.
  - destruct IH as [(v' & (a & b & -> & NI) & U)|NI].
    + left. exists v'. split.
      * exists a, (b ++ [(k', v)]). rewrite <- app_assoc. split; auto. rewrite map_app. intros I. apply in_app_or in I. destruct I as [I|[I|[]]]; auto.
      * intros v'' (a' & b' & E & NI'). apply U. destruct b' as [|e b'] using rev_ind.
        { apply app_inj_tail in E. destruct E as [_ E]. congruence. }
        clear IHb'. rewrite app_comm_cons, app_assoc in E. apply app_inj_tail in E. destruct E as [E <-]. exists a', b'. split; auto.
        intros I. apply NI'. rewrite map_app. apply in_or_app. now left.
    + right. rewrite map_app. intros I. apply in_app_or in I. destruct I as [I|[I|[]]]; auto.
Qed.
(** A device to which no section applies has no quirks. *)
Theorem C36_none : forall dmi dt dir fs rss ov ors d f, dmi <> None \/ dt <> None -> names_ok dir -> load_order dir fs -> fs <> [] ->
  Forall2 (fun e rs => means (snd e) rs) fs rss -> means ov ors -> describes d dmi dt f ->
  (forall r, In r (concat rss ++ ors) -> ~ applies fnmatch f r) ->
  fetch (init dmi dt dir ov) d = None /\ forall t id, quirks_get t (fetch (init dmi dt dir ov) d) id = G_false.
Proof.
  intros dmi dt dir fs rss ov ors d f HD NO LO NE M MO DE NA.
  assert (AS : all_settings fnmatch f (concat rss ++ ors) []).
  { clear -NA. induction (concat rss ++ ors) as [|r l IH]; constructor; [apply NA; now left|]. apply IH. intros r' I. apply NA. now right. }
  destruct (fetched dmi dt dir fs rss ov ors d f [] HD NO LO NE M MO DE AS) as (ps & PO & ->). inversion PO; subst. auto.
Qed.
(** One malformed or unreadable file, the overrides included, and no device has
    any quirk; likewise without files or without knowing the machine. *)
Theorem C36_invalid : forall dmi dt dir ov, names_ok dir ->
  (exists n f, In (n, f) dir /\ (exists a, n = a ++ S ".quirks") /\ bad f) \/ bad ov
  \/ (forall n f, In (n, f) dir -> forall a, n <> a ++ S ".quirks") \/ dmi = None /\ dt = None ->
  init dmi dt dir ov = None /\ forall d t id, fetch (init dmi dt dir ov) d = None /\ quirks_get t (fetch (init dmi dt dir ov) d) id = G_false.
Proof.
  intros dmi dt dir ov [ND P] H. destruct (scandir_order dir ND P) as [_ MEM].
  assert (E : init dmi dt dir ov = None).
  { destruct H as [(n & f & I & X & B)|[B|[X|[-> ->]]]]; [| | |reflexivity]; apply init_none.
    - left. intros s. eapply bad_all; [|exact B]. apply MEM. eauto.
    - right. right. intros s. now apply bad_parse.
    - right. left. destruct (scandir dir) as [|[n f] fs]; auto. exfalso. destruct (proj1 (MEM n f) (or_introl eq_refl)) as (I & a & E). now apply (X n f I a). }
  rewrite E. split; auto.
Qed.
(** A value has been written in the format of its quirk, and a getter of that
    format's type never finds another type -- for all files whatsoever. *)
Theorem C36_types : forall dmi dt dir ov d id k fm, quirk_get_name id = Some (S k) -> In (k, fm) formats ->
  quirks_get (format_type fm) (fetch (init dmi dt dir ov) d) id <> G_assert /\
  forall t v, quirks_get t (fetch (init dmi dt dir ov) d) id = G_value v -> t = format_type fm /\ exists s, vtext fm s v.
Proof.
  intros dmi dt dir ov d id k fm N F. destruct (init dmi dt dir ov) as [c|] eqn:E; [|split; discriminate].
  apply init_good in E. unfold quirks_fetch_for_device.
  pose proof (fold_good fnmatch _ _ _ _ _ (match_new d (c_dmi c) (c_dt c)) (c_sections c) [] E (Forall_nil _)) as G.
  set (ps := fold_left _ (c_sections c) []) in *. clearbody ps.
  assert (H : forall v, quirk_find_prop ps id = Some v -> type_of v = format_type fm /\ exists s, vtext fm s v).
  { intros v Q. unfold quirk_find_prop in Q. destruct (find _ (rev ps)) as [[j x]|] eqn:FI; [|discriminate]. cbn in Q. injection Q as ->.
    apply find_some in FI. destruct FI as [I J]. cbn in J. apply Z.eqb_eq in J. subst j. apply in_rev in I. rewrite Forall_forall in G.
    destruct (G _ I) as (k' & s & N' & f' & I' & V). cbn [fst snd] in N', V. rewrite N in N'. injection N' as N'. apply S_inj in N'. subst k'.
    assert (f' = fm) by (eapply formats_fun; eauto). subst f'. split; [|eauto]. inversion V; reflexivity. }
  destruct ps as [|p ps]; [split; discriminate|]. unfold quirks_get. destruct (quirk_find_prop (p :: ps) id) as [v|]; [|split; discriminate].
  destruct (H v eq_refl) as [T V]. rewrite T. destruct (ptype_eq_dec (format_type fm) (format_type fm)); [|congruence]. split; [discriminate|].
  intros t v' Q. destruct (ptype_eq_dec (format_type fm) t); [|discriminate]. injection Q as <-. auto.
Qed.
(** Every quirk has a format. *)
Theorem C36_formats : forall id k, quirk_get_name id = Some (S k) -> exists! fm, In (k, fm) formats.
Proof. intros id k H. destruct (format_known id k H) as [f F]. exists f. split; auto. intros f'. now apply formats_fun. Qed.
End P.
Print Assumptions C36_order.
Print Assumptions C36_value.
Print Assumptions C36_decided.
Print Assumptions C36_none.
Print Assumptions C36_invalid.
Print Assumptions C36_types.
Print Assumptions C36_formats.

(** ** A case *)
Definition nl : str := [LF].
Definition file10 : str := S "# touchpads" ++ nl ++ S "[Any touchpad]" ++ nl ++ S "MatchUdevType=touchpad" ++ nl ++ S "AttrPalmPressureThreshold=90" ++ nl ++ nl.
Definition file50 : str := S "[That touchpad]" ++ nl ++ S "MatchVendor=0x06CB" ++ nl ++ S "AttrPalmPressureThreshold=130 # more" ++ nl ++ S "ModelTrackball=0" ++ nl.
Definition rule10 : rule := mkRule [Type_ Touchpad] [("AttrPalmPressureThreshold"%string, VUint 90)].
Definition rule50 : rule := mkRule [Vendor 1739] [("AttrPalmPressureThreshold"%string, VUint 130); ("ModelTrackball"%string, VBool false)].
Definition a_dir : list (str * file) := [(S "50-synaptics.quirks", F_text file50); (S "README", F_error); (S "10-generic.quirks", F_text file10)].
Definition a_device : device := [[(S "ID_INPUT_TOUCHPAD", S "1"); (S "ID_INPUT", S "1")]; [(S "NAME", S """Some Touchpad"""); (S "PRODUCT", S "18/6cb/ce2d/100")]].
Definition a_facts : facts := mkF (Some (S "Some Touchpad")) (Some (24, 1739, 52781, 256)) [Touchpad] (Some (S "dmi:x")) None.
Definition yes (q : Q) : bool := true.
Lemma line_ok : forall l, forallb (fun c => negb (Ascii.eqb c LF || Ascii.eqb c NUL)) l && Nat.leb (length l) 510 = true -> ~ In LF l /\ ~ In NUL l /\ (length l <= 510)%nat.
Proof.
  intros l H. apply andb_true_iff in H. destruct H as [H L]. rewrite forallb_forall in H. apply PeanoNat.Nat.leb_le in L.
  repeat split; auto; intros I; specialize (H _ I); discriminate.
Qed.
Lemma tl_step : forall l t ls, forallb (fun c => negb (Ascii.eqb c LF || Ascii.eqb c NUL)) l && Nat.leb (length l) 510 = true -> text_lines t ls -> text_lines (l ++ nl ++ t) (l :: ls).
Proof. intros l t ls H T. apply line_ok in H. destruct H as (A & B & C). now apply tl_cons. Qed.
Lemma entry_ok : forall l k v, strv_from_string l (S "=") = Some (Some [S k; v]) -> hd LF l <> "="%char -> quote (hd LF v) = false -> blank_char (last l LF) = false -> entry l k v.
Proof.
  intros l k v A B C D. repeat split; auto; [now apply strv_sound| now apply quote_ok|].
  unfold blank_char in D. apply orb_false_iff in D. destruct D as [D1 D2]. intros [I|[I|[]]]; rewrite <- I in *; [discriminate D1|discriminate D2].
Qed.
Lemma un_plain : forall l, existsb (Ascii.eqb "#") l = false -> uncomment l l.
Proof.
  intros l H. constructor. intros I. assert (existsb (Ascii.eqb "#") l = true) by (apply existsb_exists; exists "#"%char; split; auto). congruence.
Qed.
Lemma dig16 : forall s a, forallb (fun c => is_set (digit 16 c)) s = true -> dig 16 s a (fst (digits 16 s a)).
Proof.
  induction s as [|c s IH]; intros a H; cbn [digits fst]; [constructor|]. cbn [forallb] in H. apply andb_true_iff in H. destruct H as [A B].
  destruct (digit 16 c) as [v|] eqn:E; [|discriminate]. econstructor; eauto.
Qed.
Lemma word16_num : forall s, s <> [] -> forallb (fun c => is_set (digit 16 c)) s = true -> numeral 16 s (fst (digits 16 s 0)).
Proof. intros s N H. apply dig_numeral; [apply base16|auto|now apply dig16]. Qed.
Section X.
Variable type_from_name : str -> option Z.
Variable code_from_name : Z -> str -> option Z.
Variable type_max : Z -> Z.
Variable prop_from_name : str -> option Z.
Local Notation means := (file_means yes type_from_name code_from_name type_max prop_from_name).
Example file10_ex : means (F_text file10) [rule10].
Proof.
  constructor. exists [S "# touchpads"; S "[Any touchpad]"; S "MatchUdevType=touchpad"; S "AttrPalmPressureThreshold=90"; []],
    [[]; S "[Any touchpad]"; S "MatchUdevType=touchpad"; S "AttrPalmPressureThreshold=90"; []],
    [[S "[Any touchpad]"; S "MatchUdevType=touchpad"; S "AttrPalmPressureThreshold=90"]]. split; [|split; [|split; [|split]]].
  - unfold file10. repeat (apply tl_step; [reflexivity|]). apply (tl_step [] []); [reflexivity|constructor].
  - constructor; [apply (un_some [] [] (S " touchpads")); vm_compute; solve [intuition discriminate | constructor]|]. repeat (constructor; [now apply un_plain|]). constructor.
  - reflexivity.
  - constructor; [|constructor]. apply (sec yes type_from_name code_from_name type_max prop_from_name (S "[Any touchpad]") [S "MatchUdevType=touchpad"] [Type_ Touchpad] [S "AttrPalmPressureThreshold=90"]); try discriminate.
    + exists (S "Any touchpad"). reflexivity.
    + constructor; [|constructor]. exists "MatchUdevType"%string, (S "touchpad"). split; [apply entry_ok; try reflexivity; discriminate|]. constructor. cbn. tauto.
    + repeat constructor; intros [].
    + constructor; [|constructor]. exists (S "90"). split; [apply entry_ok; try reflexivity; discriminate|]. exists Number. split; [cbn; tauto|]. constructor. reflexivity.
  - discriminate.
Qed.
Example file50_ex : means (F_text file50) [rule50].
Proof.
  constructor. exists [S "[That touchpad]"; S "MatchVendor=0x06CB"; S "AttrPalmPressureThreshold=130 # more"; S "ModelTrackball=0"],
    [S "[That touchpad]"; S "MatchVendor=0x06CB"; S "AttrPalmPressureThreshold=130"; S "ModelTrackball=0"],
    [[S "[That touchpad]"; S "MatchVendor=0x06CB"; S "AttrPalmPressureThreshold=130"; S "ModelTrackball=0"]]. split; [|split; [|split; [|split]]].
  - unfold file50. do 3 (apply tl_step; [reflexivity|]). apply (tl_step (S "ModelTrackball=0") []); [reflexivity|constructor].
  - constructor; [now apply un_plain|]. constructor; [now apply un_plain|]. constructor; [apply (un_some (S "AttrPalmPressureThreshold=130") [" "%char] (S " more"))|constructor; [now apply un_plain|constructor]].
    + vm_compute. intuition discriminate.
    + repeat constructor.
    + vm_compute. intuition discriminate.
  - reflexivity.
  - constructor; [|constructor]. apply (sec yes type_from_name code_from_name type_max prop_from_name (S "[That touchpad]") [S "MatchVendor=0x06CB"] [Vendor 1739] [S "AttrPalmPressureThreshold=130"; S "ModelTrackball=0"]); try discriminate.
    + exists (S "That touchpad"). reflexivity.
    + constructor; [|constructor]. exists "MatchVendor"%string, (S "0x06CB"). split; [apply entry_ok; try reflexivity; discriminate|]. constructor. apply hex_sound. reflexivity.
    + repeat constructor; intros [].
    + constructor; [|constructor; [|constructor]].
      * exists (S "130"). split; [apply entry_ok; try reflexivity; discriminate|]. exists Number. split; [cbn; tauto|]. constructor. reflexivity.
      * exists (S "0"). split; [apply entry_ok; try reflexivity; discriminate|]. exists Flag. split; [cbn; tauto|]. constructor.
  - discriminate.
Qed.
(** The hypotheses of C36_value are met: the file read last decides. *)
Example C36_value_ex : names_ok a_dir /\ load_order a_dir [(S "10-generic.quirks", F_text file10); (S "50-synaptics.quirks", F_text file50)] /\
  describes a_device (Some (S "dmi:x")) None a_facts /\
  (exists l, all_settings (fun a b => true) a_facts (concat [[rule10]; [rule50]] ++ []) l /\ last_setting l "AttrPalmPressureThreshold" (VUint 130)) /\
  quirk_get_name 308 = Some (S "AttrPalmPressureThreshold") /\
  quirks_get PT_UINT (quirks_fetch_for_device (fun a b => true) (quirks_init_subsystem yes type_from_name code_from_name type_max prop_from_name (Some (S "dmi:x")) None a_dir F_missing) a_device) 308
  = G_value (VUint 130).
Proof.
  assert (NO : names_ok a_dir).
  { split; [repeat constructor; cbn; intuition discriminate|]. repeat constructor; vm_compute; intuition discriminate. }
  assert (DE : describes a_device (Some (S "dmi:x")) None a_facts).
  { repeat split; try discriminate.
    - apply udev_ok. reflexivity.
    - exists (S "18"), (S "6cb"), (S "ce2d"), (S "100").
      assert (W : forall s n, s <> [] -> forallb (fun c => is_set (digit 16 c)) s = true -> fst (digits 16 s 0) = n -> n <= 65535 -> word16 s n).
      { intros s n A B C D. split; auto. subst n. apply word16_num; auto. }
      split; [apply udev_ok; reflexivity|]. split; [|split; [|split]]; (apply W; [discriminate|reflexivity|reflexivity|lia]).
    - intros [<-|[]]. exists "ID_INPUT_TOUCHPAD"%string, (S "1"). split; [apply udev_ok; reflexivity|cbn; tauto].
    - intros (k & v & HP & I). apply udev_ok in HP. cbn in I. decompose [or] I; try contradiction;
        match goal with H : (_, _) = _ |- _ => injection H as <- <- end; try discriminate HP. cbn. auto. }
  split; [auto|]. split; [apply (proj1 (conj (scandir_order a_dir (proj1 NO) (proj2 NO)) Logic.I))|]. split; [auto|]. split.
  - exists (settings rule10 ++ settings rule50 ++ []). split.
    + cbn [concat app]. constructor; [|constructor; [|constructor]]; repeat constructor. exists 24, 52781, 256. reflexivity.
    + exists [("AttrPalmPressureThreshold"%string, VUint 90)], [("ModelTrackball"%string, VBool false)]. split; [reflexivity|]. intros [X|[]]. discriminate.
  - split; reflexivity.
Qed.
End X.

(** ** Files that switch all quirks off *)
Section M.
Variable fnmatch : str -> str -> bool.
Variable in_range : Q -> bool.
Variable type_from_name : str -> option Z.
Variable code_from_name : Z -> str -> option Z.
Variable type_max : Z -> Z.
Variable prop_from_name : str -> option Z.
Local Notation bad := (malformed in_range type_from_name code_from_name type_max prop_from_name).
Lemma bad_if : forall t ls, text_lines t ls -> parse_file in_range type_from_name code_from_name type_max prop_from_name [] (F_text t) = None -> bad (F_text t).
Proof.
  intros t ls TL H. econstructor; eauto. intros rs R. destruct (file_complete _ _ _ _ _ [] t rs R) as (secs & E & _). congruence.
Qed.
Definition one_setting (line : str) : str := S "[X]" ++ nl ++ S "MatchUdevType=touchpad" ++ nl ++ line ++ nl ++ [].
Lemma one_lines : forall line, forallb (fun c => negb (Ascii.eqb c LF || Ascii.eqb c NUL)) line && Nat.leb (length line) 510 = true ->
  text_lines (one_setting line) [S "[X]"; S "MatchUdevType=touchpad"; line].
Proof. intros line H. unfold one_setting. do 2 (apply tl_step; [reflexivity|]). apply tl_step; auto. constructor. Qed.
(** "AttrResolutionHint=N" is documented but not accepted, nor is
    "ModelALPSTouchpad": a file using them is malformed, so is one with a line
    of blanks, or with blanks at the end of a line. *)
Theorem C36_documented_refuted : bad (F_text (one_setting (S "AttrResolutionHint=40"))) /\ bad (F_text (one_setting (S "ModelALPSTouchpad=1")))
  /\ bad (F_text (one_setting (S "ModelTrackball=1 "))).
Proof. split; [|split]; (eapply bad_if; [apply one_lines; reflexivity|vm_compute; reflexivity]). Qed.
(** The same section with a known key is well-formed. *)
Example documented_ex : exists rs, file_rules in_range type_from_name code_from_name type_max prop_from_name (one_setting (S "ModelTrackball=1")) rs.
Proof.
  destruct (parse_file in_range type_from_name code_from_name type_max prop_from_name [] (F_text (one_setting (S "ModelTrackball=1")))) as [d|] eqn:E; [|vm_compute in E; discriminate].
  destruct (file_sound _ _ _ _ _ [] d _ _ (one_lines (S "ModelTrackball=1") eq_refl) E) as (rs & _ & R & _). eauto.
Qed.
(** A vendor id beyond 32 bits is not refused: it names another vendor. *)
Theorem C36_hex_refuted : exists ds m, numeral 16 ds m /\ 65535 < m /\ parse_hex (S "0x" ++ ds) = Some 1.
Proof. exists (S "100000001"), 4294967297. split; [apply (word16_num (S "100000001")); [discriminate|reflexivity]|]. split; [lia|reflexivity]. Qed.
End M.
Print Assumptions C36_documented_refuted.
Print Assumptions C36_hex_refuted.
