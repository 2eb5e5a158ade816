(** Settings of quirk files. *)
Require Import Coq.Strings.Ascii Coq.Strings.String Coq.ZArith.ZArith Coq.QArith.QArith Coq.Lists.List Coq.Bool.Bool Coq.micromega.Lia.
Require Import Verif.Str_Model Verif.Str_Spec Verif.Str_Proofs Verif.Str_Proofs2 Verif.Parse_Model Verif.Quirks_Model Verif.Quirks_Spec Verif.Quirks_Proofs Verif.Quirks_Proofs2.
Import ListNotations.
Open Scope Z_scope.

Lemma model_loop_ok : forall n q key r, model_loop n q key = Some r -> quirk_get_name r = Some key /\ q <= r /\ (r = q \/ r < LAST_MODEL).
Proof.
  induction n as [|n IH]; intros q key r H; cbn [model_loop] in H.
  - destruct (quirk_get_name q) as [nm|] eqn:E; [|discriminate]. destruct (streq key nm) eqn:Q; [|discriminate]. injection H as <-.
    apply streq_ok in Q. subst. repeat split; auto; lia.
  - destruct (quirk_get_name q) as [nm|] eqn:E; [|discriminate]. destruct (streq key nm) eqn:Q.
    + injection H as <-. apply streq_ok in Q. subst. repeat split; auto; lia.
    + destruct (q + 1 <? LAST_MODEL) eqn:L; [|discriminate]. apply Z.ltb_lt in L. destruct (IH _ _ _ H) as (A & B & C). repeat split; auto; lia.
Qed.
(** The tables agree; checked by computation *)
Definition format_eq_dec : forall a b : format, {a = b} + {a <> b}.
Proof. decide equality. apply (list_eq_dec string_dec). Defined.
Definition fmt_eqb (a b : format) : bool := if format_eq_dec a b then true else false.
Lemma fmt_eqb_ok : forall a b, fmt_eqb a b = true -> a = b.
Proof. intros a b H. unfold fmt_eqb in H. destruct (format_eq_dec a b); congruence. Qed.
Fixpoint lookup (l : list (string * format)) (k : string) : option format :=
  match l with [] => None | (n, f) :: r => if String.eqb k n then Some f else lookup r k end.
Lemma lookup_In : forall l k f, lookup l k = Some f -> In (k, f) l.
Proof.
  induction l as [|[n g] l IH]; intros k f H; cbn in H; [discriminate|]. destruct (String.eqb k n) eqn:E; [|right; auto].
  apply String.eqb_eq in E. injection H as ->. subst. now left.
Qed.
Definition named (q : Z) (k : string) : bool := match quirk_get_name q with Some n => streq (S k) n | None => false end.
Lemma named_ok : forall q k, named q k = true <-> quirk_get_name q = Some (S k).
Proof.
  intros q k. unfold named. destruct (quirk_get_name q) as [n|]; [rewrite streq_ok|]; split; intros; congruence.
Qed.
Definition attr_format (q : Z) : format :=
  nth (Z.to_nat (q - 300)) [Size; Limits; Number; Words ["reliable"; "write_open"]%string; Words ["internal"; "external"]%string;
    Words ["internal"; "external"]%string; Words ["below"]%string; Limits; Number; Size; Factor; Number; Flag; Number; Words ["watch"]%string;
    Events; Events; Properties; Properties] Flag.
Definition model_check (k : string) : bool :=
  match lookup formats k with Some f => fmt_eqb f Flag | None => false end &&
  negb (strneq (S k) (S "Match") 5) && strneq (S k) (S "Model") 5 &&
  match model_loop 24 FIRST_MODEL (S k) with Some q => named q k | None => false end.
Lemma model_checked : forallb model_check model_names = true.
Proof. vm_compute. reflexivity. Qed.
Definition attr_find (k : string) : option Z :=
  find (fun q => match quirk_get_name q with Some n => streq (S k) n | None => false end) attr_ids.
Definition attr_check (q : Z) : bool :=
  match quirk_get_name q with
  | None => false
  | Some n => let k := string_of_list_ascii n in
      match lookup formats k with Some f => fmt_eqb f (attr_format q) | None => false end &&
      negb (strneq n (S "Match") 5) && negb (strneq n (S "Model") 5) && strneq n (S "Attr") 4 &&
      match attr_find k with Some q' => q' =? q | None => false end
  end.
Lemma attr_checked : forallb attr_check attr_ids = true.
Proof. vm_compute. reflexivity. Qed.
Definition format_check (e : string * format) : bool :=
  (existsb (String.eqb (fst e)) model_names && fmt_eqb (snd e) Flag) ||
  match attr_find (fst e) with Some q => fmt_eqb (snd e) (attr_format q) | None => false end.
Lemma format_checked : forallb format_check formats = true.
Proof. vm_compute. reflexivity. Qed.

Lemma model_facts : forall k, In k model_names -> In (k, Flag) formats /\ strneq (S k) (S "Match") 5 = false /\ strneq (S k) (S "Model") 5 = true /\
  exists q, model_loop 24 FIRST_MODEL (S k) = Some q /\ quirk_get_name q = Some (S k).
Proof.
  intros k H. pose proof model_checked as C. rewrite forallb_forall in C. specialize (C k H). unfold model_check in C.
  rewrite !andb_true_iff in C. destruct C as [[[A B] D] E].
  destruct (lookup formats k) as [f|] eqn:L; [|discriminate]. apply fmt_eqb_ok in A. subst f. apply lookup_In in L.
  destruct (model_loop 24 FIRST_MODEL (S k)) as [q|] eqn:M; [|discriminate]. apply named_ok in E. apply negb_true_iff in B.
  repeat split; auto. exists q. auto.
Qed.
Lemma model_names_ok : forall k, In k model_names -> In (k, Flag) formats.
Proof. intros k H. apply (model_facts k H). Qed.
Lemma attr_facts : forall q k, In q attr_ids -> quirk_get_name q = Some (S k) ->
  In (k, attr_format q) formats /\ strneq (S k) (S "Match") 5 = false /\ strneq (S k) (S "Model") 5 = false /\ strneq (S k) (S "Attr") 4 = true /\
  attr_find k = Some q.
Proof.
  intros q k I N. pose proof attr_checked as C. rewrite forallb_forall in C. specialize (C q I). unfold attr_check in C. rewrite N in C.
  cbv zeta in C. assert (K : string_of_list_ascii (S k) = k) by apply string_of_list_ascii_of_string. rewrite !K in C.
  rewrite !andb_true_iff in C. destruct C as [[[[A B] D] E] F].
  destruct (lookup formats k) as [f|] eqn:L; [|discriminate]. apply fmt_eqb_ok in A. subst f. apply lookup_In in L.
  destruct (attr_find k) as [q'|]; [|discriminate]. apply Z.eqb_eq in F. subst q'. apply negb_true_iff in B, D.
  repeat split; auto.
Qed.
Lemma format_facts : forall k f, In (k, f) formats -> (In k model_names /\ f = Flag) \/
  (exists q, In q attr_ids /\ quirk_get_name q = Some (S k) /\ attr_format q = f).
Proof.
  intros k f H. pose proof format_checked as C. rewrite forallb_forall in C. specialize (C _ H). unfold format_check in C. cbn [fst snd] in C.
  apply orb_true_iff in C. destruct C as [C|C].
  - left. apply andb_true_iff in C. destruct C as [A B]. apply fmt_eqb_ok in B. split; auto.
    apply existsb_exists in A. destruct A as (x & I & E). apply String.eqb_eq in E. now subst.
  - right. destruct (attr_find k) as [q|] eqn:F; [|discriminate]. apply fmt_eqb_ok in C. unfold attr_find in F. apply find_some in F. destruct F as [I N].
    exists q. repeat split; auto. now apply named_ok.
Qed.
Lemma name_model : forall q k, quirk_get_name q = Some (S k) -> FIRST_MODEL <= q < LAST_MODEL -> In k model_names.
Proof.
  intros q k H R. unfold quirk_get_name in H.
  assert (q <? FIRST_MODEL = false) as E1 by (apply Z.ltb_ge; lia). assert (q <? LAST_MODEL = true) as E2 by (apply Z.ltb_lt; lia). rewrite E1, E2 in H.
  destruct (nth_error model_names _) as [n|] eqn:E; [|discriminate]. cbn [option_map] in H. injection H as H. apply S_inj in H. subst. eapply nth_error_In; eauto.
Qed.
Lemma bool_ok : forall v b, bool_word v = Some b <-> value_text (fun _ => true) (fun _ => None) (fun _ _ => None) (fun _ => 0) (fun _ => None) Flag v (VBool b).
Proof.
  intros v b. unfold bool_word. split.
  - destruct (streq v (S "1")) eqn:A.
    + intros H. injection H as <-. apply streq_ok in A. subst. constructor.
    + destruct (streq v (S "0")) eqn:B; [|discriminate]. intros H. injection H as <-. apply streq_ok in B. subst. constructor.
  - intros H. inversion H; subst; reflexivity.
Qed.

Section E.
Variable in_range : Q -> bool.
Variable type_from_name : str -> option Z.
Variable code_from_name : Z -> str -> option Z.
Variable type_max : Z -> Z.
Variable prop_from_name : str -> option Z.
Local Notation vtext := (value_text in_range type_from_name code_from_name type_max prop_from_name).
Local Notation stext := (setting_text in_range type_from_name code_from_name type_max prop_from_name).
Local Notation avalue := (attr_value in_range type_from_name code_from_name type_max prop_from_name).
Local Notation pattr := (parse_attr in_range type_from_name code_from_name type_max prop_from_name).

Lemma flag_ok : forall v b, bool_word v = Some b -> vtext Flag v (VBool b).
Proof. intros v b H. apply bool_ok in H. inversion H; subst; constructor. Qed.
Lemma model_sound : forall s k v s', parse_model s (S k) v = Some s' ->
  exists q x, quirk_get_name q = Some (S k) /\ stext k v x /\ s' = add_prop s q x.
Proof.
  intros s k v s' H. unfold parse_model in H. destruct (bool_word v) as [b|] eqn:B; [|discriminate].
  destruct (model_loop 24 FIRST_MODEL (S k)) as [q|] eqn:L; [|discriminate]. injection H as <-.
  apply model_loop_ok in L. destruct L as (A & C & D). exists q, (VBool b). split; auto. split; auto.
  exists Flag. split; [|now apply flag_ok]. apply model_names_ok. apply (name_model q); auto. unfold FIRST_MODEL, LAST_MODEL in *. lia.
Qed.
Lemma word_ok : forall ws v x, word_value ws v = Some x -> vtext (Words ws) v x.
Proof.
  intros ws v x H. unfold word_value in H. destruct (existsb _ ws) eqn:E; [|discriminate]. injection H as <-.
  apply existsb_exists in E. destruct E as (w & I & Q). apply streq_ok in Q. subst. now constructor.
Qed.
Ltac cases H := unfold attr_ids in H; cbn -[Z.add] in H;
  repeat (destruct H as [<-|H]); [..|destruct H].
Lemma attr_sound_value : forall q v x, In q attr_ids -> avalue q v = Some x -> vtext (attr_format q) v x.
Proof.
  intros q v x I H. cases I; match goal with |- vtext (attr_format ?q) _ _ => let f := eval vm_compute in (attr_format q) in change (attr_format q) with f end;
  match type of H with attr_value _ _ _ _ _ ?q _ = _ => let z := eval vm_compute in q in change q with z in H end;
  cbn [attr_value Z.eqb Pos.eqb orb] in H.
  all: try (now apply word_ok).
  all: try (unfold dim_value in H; destruct (parse_dimension v) as [[]|] eqn:E; [|discriminate]; injection H as <-; now constructor).
  all: try (unfold range_value in H; destruct (parse_range v) as [[]|] eqn:E; [|discriminate]; injection H as <-; now constructor).
  all: try (unfold uint_value in H; destruct (safe_atou v) eqn:E; [|discriminate]; injection H as <-; now constructor).
  all: try (destruct (safe_atod in_range v) eqn:E; [|discriminate]; injection H as <-; now constructor).
  all: try (destruct (bool_word v) eqn:E; [|discriminate]; injection H as <-; now apply flag_ok).
  all: try (destruct (parse_evcode _ _ _ v 32) as [[|]|] eqn:E; try discriminate; injection H as <-; constructor; [auto|discriminate]).
  all: try (destruct (parse_input_prop _ v 32) as [[|]|] eqn:E; try discriminate; injection H as <-; constructor; [auto|discriminate]).
Qed.
Lemma attr_sound : forall s k v s', pattr s (S k) v = Some s' ->
  exists q x, quirk_get_name q = Some (S k) /\ stext k v x /\ s' = add_prop s q x.
Proof.
  intros s k v s' H. unfold parse_attr in H. destruct (find _ attr_ids) as [q|] eqn:F; [|discriminate].
  destruct (avalue q v) as [x|] eqn:V; [|discriminate]. injection H as <-.
  apply find_some in F. destruct F as [I N]. destruct (quirk_get_name q) as [n|] eqn:Q; [|discriminate]. apply streq_ok in N. subst n.
  exists q, x. split; auto. split; auto. exists (attr_format q). split; [now apply attr_facts|now apply attr_sound_value].
Qed.

Lemma word_complete : forall ws v x, vtext (Words ws) v x -> word_value ws v = Some x.
Proof.
  intros ws v x H. inversion H; subst. unfold word_value.
  assert (existsb (fun w0 => streq (S w) (S w0)) ws = true) as ->; auto. apply existsb_exists. exists w. split; auto. apply streq_refl.
Qed.
Definition parse_setting (s : section) (key v : str) : option section :=
  if strneq key (S "Model") 5 then parse_model s key v else if strneq key (S "Attr") 4 then pattr s key v else None.
Lemma setting_complete : forall s k v x, stext k v x ->
  strneq (S k) (S "Match") 5 = false /\ exists q, quirk_get_name q = Some (S k) /\ parse_setting s (S k) v = Some (add_prop s q x).
Proof.
  intros s k v x (f & I & V).
  destruct (format_facts k f I) as [[M ->]|(q & Q & N & EF)].
  - assert (B : exists b, bool_word v = Some b /\ x = VBool b) by (inversion V; subst; eexists; split; reflexivity).
    destruct B as (b & B & ->). destruct (model_facts k M) as (_ & A & C & q & L & N). split; auto. exists q. split; auto.
    unfold parse_setting, parse_model. now rewrite C, B, L.
  - assert (AV : avalue q v = Some x).
    { subst f. clear I N. cases Q; match type of V with vtext (attr_format ?q) _ _ => let f := eval vm_compute in (attr_format q) in change (attr_format q) with f in V end;
      match goal with |- attr_value _ _ _ _ _ ?q _ = _ => let z := eval vm_compute in q in change q with z end;
      cbn [attr_value Z.eqb Pos.eqb orb].
      all: try (now apply word_complete).
      all: inversion V; subst.
      all: try reflexivity.
      all: try (match goal with P : parse_dimension _ = _ |- _ => unfold dim_value; now rewrite P end).
      all: try (match goal with P : parse_range _ = _ |- _ => unfold range_value; now rewrite P end).
      all: try (match goal with P : safe_atou _ = _ |- _ => unfold uint_value; now rewrite P end).
      all: try (match goal with P : safe_atod _ _ = _ |- _ => now rewrite P end).
      all: try (match goal with P : parse_evcode _ _ _ _ 32 = Some ?l, N : ?l <> [] |- _ => rewrite P; destruct l; [congruence|reflexivity] end).
      all: try (match goal with P : parse_input_prop _ _ 32 = Some ?l, N : ?l <> [] |- _ => rewrite P; destruct l; [congruence|reflexivity] end). }
    destruct (attr_facts q k Q N) as (_ & A & B & C & F). split; auto. exists q. split; auto.
    unfold parse_setting, parse_attr. rewrite B, C. fold (attr_find k). now rewrite F, AV.
Qed.
End E.
