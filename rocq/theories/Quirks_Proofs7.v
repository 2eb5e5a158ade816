(** Every value kept for a quirk was written in that quirk's format. *)
Require Import Coq.Strings.Ascii Coq.Strings.String Coq.ZArith.ZArith Coq.QArith.QArith Coq.Lists.List Coq.Bool.Bool Coq.micromega.Lia.
Require Import Verif.Str_Model Verif.Str_Spec Verif.Str_Proofs Verif.Str_Proofs2 Verif.Parse_Model Verif.Quirks_Model Verif.Quirks_Spec.
Require Import Verif.Quirks_Proofs Verif.Quirks_Proofs2 Verif.Quirks_Proofs3 Verif.Quirks_Proofs4 Verif.Quirks_Proofs5 Verif.Quirks_Proofs6.
Import ListNotations.
Open Scope Z_scope.

Section E.
Variable fnmatch : str -> str -> bool.
Variable in_range : Q -> bool.
Variable type_from_name : str -> option Z.
Variable code_from_name : Z -> str -> option Z.
Variable type_max : Z -> Z.
Variable prop_from_name : str -> option Z.
Local Notation stext := (setting_text in_range type_from_name code_from_name type_max prop_from_name).
Local Notation vtext := (value_text in_range type_from_name code_from_name type_max prop_from_name).
Local Notation pset := (parse_setting in_range type_from_name code_from_name type_max prop_from_name).
Local Notation pvl := (parse_value_line in_range type_from_name code_from_name type_max prop_from_name).
Local Notation pline := (parse_line in_range type_from_name code_from_name type_max prop_from_name).
Local Notation plines := (parse_lines in_range type_from_name code_from_name type_max prop_from_name).
Local Notation pfile := (parse_file in_range type_from_name code_from_name type_max prop_from_name).
Local Notation pall := (parse_all in_range type_from_name code_from_name type_max prop_from_name).

Definition good_prop (p : Z * value) : Prop := exists k t, quirk_get_name (fst p) = Some (S k) /\ stext k t (snd p).
Definition good_section (s : section) : Prop := Forall good_prop (s_props s).
Lemma match_props : forall s k v s', parse_match s k v = Some s' -> s_props s' = s_props s.
Proof.
  intros s k v s' H. unfold parse_match in H. cbv zeta in H.
  repeat match type of H with
  | (if ?b then _ else _) = _ => destruct b
  | match ?o with Some _ => _ | None => _ end = _ => destruct o
  end; try discriminate; injection H as <-; reflexivity.
Qed.
Lemma value_good : forall s l s', good_section s -> pvl s l = Some s' -> good_section s'.
Proof.
  intros s l s' G H. unfold parse_value_line in H. destruct (strv_from_string l (S "=")) as [[[|key [|v [|]]]|]|]; try discriminate.
  destruct (negb (nonempty key) || negb (nonempty v)); [discriminate|]. destruct (match v with [] => false | c :: _ => quote c end); [discriminate|].
  destruct (strneq key (S "Match") 5); [apply match_props in H; unfold good_section in *; congruence|].
  destruct (S_str key) as [k ->]. change (pset s (S k) v = Some s') in H. apply setting_sound in H. destruct H as (q & x & N & T & ->).
  unfold good_section, add_prop. cbn [s_props]. apply Forall_app. split; auto. repeat constructor. exists k, v. auto.
Qed.
Definition good_reader (r : reader) : Prop := Forall good_section (r_done r) /\ match r_cur r with Some s => good_section s | None => True end.
Lemma finish_good : forall r, good_reader r -> Forall good_section (finish r).
Proof. intros r [A B]. unfold finish. apply Forall_app. split; auto. destruct (r_cur r); auto. Qed.
Lemma line_good : forall r l r', good_reader r -> pline r l = Some r' -> good_reader r'.
Proof.
  intros r l r' G H. unfold parse_line in H. destruct l as [|c l]; [now injection H as <-|].
  destruct (blank_char _); [discriminate|]. destruct (_ || _); [now injection H as <-|]. destruct (blank_char c); [discriminate|].
  destruct (Ascii.eqb c "[").
  - destruct (negb _); [discriminate|]. destruct (negb _); [discriminate|].
    destruct (match r_cur r with Some s => negb (complete s) | None => false end); [discriminate|]. injection H as <-.
    split; cbn [r_done r_cur]; [now apply finish_good|constructor].
  - destruct (negb _); [discriminate|]. cbv zeta in H.
    destruct (match r_state r with STATE_SECTION => None | _ => _ end) as [st|]; [|discriminate].
    destruct G as [G1 G2]. destruct (r_cur r) as [s|] eqn:RC; [|discriminate]. destruct (pvl s (c :: l)) as [s'|] eqn:P; [|discriminate]. injection H as <-.
    split; cbn [r_done r_cur]; auto. eapply value_good; eauto.
Qed.
Lemma lines_good : forall ls r r', good_reader r -> plines r ls = Some r' -> good_reader r'.
Proof.
  induction ls as [|l ls IH]; intros r r' G H; cbn [parse_lines] in H; [now injection H as <-|].
  destruct (pline r (strip_line l)) as [r1|] eqn:P; [|discriminate]. eapply IH; [|exact H]. eapply line_good; eauto.
Qed.
Lemma file_good : forall d f d', Forall good_section d -> pfile d f = Some d' -> Forall good_section d'.
Proof.
  intros d f d' G H. destruct f as [| |t]; cbn [parse_file] in H; [now injection H as <-|discriminate|].
  destruct (plines _ _) as [r|] eqn:P; [|discriminate]. assert (GR : good_reader r) by (eapply lines_good; [|exact P]; split; cbn; auto).
  destruct (r_cur r) as [s|]; [|discriminate]. destruct (complete s); [|discriminate]. injection H as <-. now apply finish_good.
Qed.
Lemma all_good : forall fs d d', Forall good_section d -> pall d fs = Some d' -> Forall good_section d'.
Proof.
  induction fs as [|[n f] fs IH]; intros d d' G H; cbn [parse_all] in H; [now injection H as <-|].
  destruct (pfile d f) as [d1|] eqn:P; [|discriminate]. eapply IH; [|exact H]. eapply file_good; eauto.
Qed.
Lemma init_good : forall dmi dt dir ov c, quirks_init_subsystem in_range type_from_name code_from_name type_max prop_from_name dmi dt dir ov = Some c ->
  Forall good_section (c_sections c).
Proof.
  intros dmi dt dir ov c H. unfold quirks_init_subsystem, parse_files in H.
  assert (G : match match scandir dir with [] => None | _ :: _ => pall [] (scandir dir) end with
      | None => None | Some s => match pfile s ov with Some s' => Some (mkC dmi dt s') | None => None end end = Some c).
  { destruct dmi; [|destruct dt; [|discriminate]]; destruct (scandir dir); auto. }
  clear H. destruct (scandir dir) as [|e fs]; [discriminate|]. destruct (pall [] (e :: fs)) as [s|] eqn:A; [|discriminate].
  destruct (pfile s ov) as [s'|] eqn:P; [|discriminate]. injection G as <-. cbn [c_sections]. eapply file_good; [|exact P]. eapply all_good; [|exact A]. constructor.
Qed.
Lemma fold_good : forall m secs acc, Forall good_section secs -> Forall good_prop acc -> Forall good_prop (fold_left (quirk_match_section fnmatch m) secs acc).
Proof.
  intros m secs. induction secs as [|s secs IH]; intros acc G A; cbn [fold_left]; auto. inversion G; subst. apply IH; auto.
  unfold quirk_match_section. destruct (full_match _ _ _); auto. apply Forall_app. auto.
Qed.

(** ** Formats and types *)
Lemma formats_fun : forall k f f', In (k, f) formats -> In (k, f') formats -> f = f'.
Proof.
  assert (G : forallb (fun e => forallb (fun e' => implb (String.eqb (fst e) (fst e')) (fmt_eqb (snd e) (snd e'))) formats) formats = true) by (vm_compute; reflexivity).
  intros k f f' A B. rewrite forallb_forall in G. specialize (G _ A). rewrite forallb_forall in G. specialize (G _ B). cbn [fst snd] in G.
  rewrite String.eqb_refl in G. now apply fmt_eqb_ok.
Qed.
Lemma format_known : forall id k, quirk_get_name id = Some (S k) -> exists f, In (k, f) formats.
Proof.
  intros id k H. apply name_index in H. destruct H as [H _]. apply nth_error_In in H.
  assert (G : forallb (fun k => existsb (fun e => String.eqb k (fst e)) formats) (model_names ++ attr_names) = true) by (vm_compute; reflexivity).
  rewrite forallb_forall in G. specialize (G _ H). apply existsb_exists in G. destruct G as ([k' f] & I & E). apply String.eqb_eq in E. cbn in E. subst. eauto.
Qed.
End E.

(** ** Loading the files *)
Section L.
Variable fnmatch : str -> str -> bool.
Variable in_range : Q -> bool.
Variable type_from_name : str -> option Z.
Variable code_from_name : Z -> str -> option Z.
Variable type_max : Z -> Z.
Variable prop_from_name : str -> option Z.
Local Notation pfile := (parse_file in_range type_from_name code_from_name type_max prop_from_name).
Local Notation pall := (parse_all in_range type_from_name code_from_name type_max prop_from_name).
Local Notation frules := (file_rules in_range type_from_name code_from_name type_max prop_from_name).
Local Notation init := (quirks_init_subsystem in_range type_from_name code_from_name type_max prop_from_name).
Local Notation means := (file_means in_range type_from_name code_from_name type_max prop_from_name).
Local Notation bad := (malformed in_range type_from_name code_from_name type_max prop_from_name).

Lemma means_parse : forall d f rs, means f rs -> exists secs, pfile d f = Some (d ++ secs) /\ Forall2 denotes secs rs.
Proof.
  intros d f rs H. inversion H; subst.
  - exists []. rewrite app_nil_r. split; auto.
  - now apply file_complete.
Qed.
Lemma means_all : forall fs rss d, Forall2 (fun e rs => means (snd e) rs) fs rss -> exists secs, pall d fs = Some (d ++ secs) /\ Forall2 denotes secs (concat rss).
Proof.
  intros fs rss d H. revert d. induction H as [|[n f] rs fs rss M H IH]; intros d; cbn [parse_all concat].
  - exists []. rewrite app_nil_r. auto.
  - cbn [snd] in M. destruct (means_parse d f rs M) as (s1 & -> & D1). destruct (IH (d ++ s1)) as (s2 & -> & D2). exists (s1 ++ s2). rewrite app_assoc. split; auto.
    now apply Forall2_app.
Qed.
Lemma means_nodup : forall f rs, means f rs -> Forall (fun r => NoDup (map which (criteria r))) rs.
Proof.
  intros f rs H. inversion H as [|t ? R]; subst; [constructor|]. destruct R as (ls & us & gs & _ & _ & _ & G & _). clear H.
  induction G as [|g r gs rs SL G IH]; constructor; auto. inversion SL; subst. auto.
Qed.
Lemma bad_parse : forall d f, bad f -> pfile d f = None.
Proof.
  intros d f H. inversion H as [|t ls TL NR]; subst; auto. destruct (pfile d (F_text t)) as [d'|] eqn:P; auto. exfalso.
  destruct (file_sound _ _ _ _ _ d d' t ls TL P) as (rs & _ & R & _). now apply (NR rs).
Qed.
Lemma bad_all : forall fs d n f, In (n, f) fs -> bad f -> pall d fs = None.
Proof.
  induction fs as [|[m g] fs IH]; intros d n f I B; [destruct I|]. cbn [parse_all]. destruct I as [E|I].
  - injection E as -> ->. now rewrite (bad_parse d f B).
  - destruct (pfile d g); auto. eapply IH; eauto.
Qed.
Lemma init_none : forall dmi dt dir ov, (forall d, pall d (scandir dir) = None) \/ scandir dir = [] \/ (forall d, pfile d ov = None) -> init dmi dt dir ov = None.
Proof.
  intros dmi dt dir ov H. unfold quirks_init_subsystem, parse_files.
  assert (G : match match scandir dir with [] => None | _ :: _ => pall [] (scandir dir) end with
      | None => None | Some s => match pfile s ov with Some s' => Some (mkC dmi dt s') | None => None end end = None).
  { destruct H as [H|[H|H]].
    - rewrite H. destruct (scandir dir); auto.
    - now rewrite H.
    - destruct (scandir dir); auto. destruct (pall _ _); auto. now rewrite H. }
  destruct dmi; [|destruct dt; auto]; destruct (scandir dir); exact G.
Qed.
Lemma init_some : forall dmi dt dir fs rss ov ors, dmi <> None \/ dt <> None -> NoDup (map fst dir) -> Forall proper dir -> load_order dir fs -> fs <> [] ->
  Forall2 (fun e rs => means (snd e) rs) fs rss -> means ov ors ->
  exists secs, init dmi dt dir ov = Some (mkC dmi dt secs) /\ Forall2 denotes secs (concat rss ++ ors) /\
    Forall (fun r => NoDup (map which (criteria r))) (concat rss ++ ors).
Proof.
  intros dmi dt dir fs rss ov ors HD ND P LO NE M MO.
  assert (ES : scandir dir = fs) by (apply load_order_fun; auto).
  destruct (means_all fs rss [] M) as (s1 & A & D1). destruct (means_parse s1 ov ors MO) as (s2 & B & D2). cbn [app] in A.
  exists (s1 ++ s2). split; [|split].
  - unfold quirks_init_subsystem, parse_files. rewrite ES.
    assert (match match fs with [] => None | _ :: _ => pall [] fs end with
      | None => None | Some s => match pfile s ov with Some s' => Some (mkC dmi dt s') | None => None end end = Some (mkC dmi dt (s1 ++ s2))).
    { destruct fs; [congruence|]. now rewrite A, B. }
    destruct dmi, dt; try (destruct fs; exact H). exfalso. destruct HD; congruence.
  - now apply Forall2_app.
  - apply Forall_app. split; [|eapply means_nodup; eauto]. clear -M. induction M; cbn [concat]; [constructor|]. apply Forall_app. split; auto. eapply means_nodup; eauto.
Qed.
End L.
