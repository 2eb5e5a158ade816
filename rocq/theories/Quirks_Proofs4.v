(** Whole quirk files. *)
Require Import Coq.Strings.Ascii Coq.Strings.String Coq.ZArith.ZArith Coq.QArith.QArith Coq.Lists.List Coq.Bool.Bool Coq.micromega.Lia Coq.Arith.PeanoNat.
Require Import Verif.Str_Model Verif.Str_Spec Verif.Str_Proofs Verif.Str_Proofs2 Verif.Parse_Model Verif.Quirks_Model Verif.Quirks_Spec Verif.Quirks_Proofs Verif.Quirks_Proofs2 Verif.Quirks_Proofs3.
Import ListNotations.
Open Scope Z_scope.

Definition crits (cs : list criterion) : match_ := fold_left add_crit cs no_match.
Lemma crits_snoc : forall cs c, crits (cs ++ [c]) = add_crit (crits cs) c.
Proof. intros. unfold crits. now rewrite fold_left_app. Qed.
Lemma slot_add : forall m c n, (n < 8)%nat -> slot (add_crit m c) n = Nat.eqb n (which c) || slot m n.
Proof.
  intros m c n H. do 8 (destruct n as [|n]; [destruct c; reflexivity|]). lia.
Qed.
Lemma which_lt : forall c, (which c < 8)%nat.
Proof. destruct c; cbn; lia. Qed.
Lemma slot_crits : forall cs n, (n < 8)%nat -> (slot (crits cs) n = false <-> ~ In n (map which cs)).
Proof.
  intros cs n H. induction cs as [|c cs IH] using rev_ind.
  - do 8 (destruct n as [|n]; [cbn; tauto|]). lia.
  - rewrite crits_snoc, slot_add, orb_false_iff, IH, map_app, in_app_iff, Nat.eqb_neq by auto. cbn [map In]. split; [intros [A B] [C|[C|[]]]; congruence|].
    intros A. split; intro; apply A; auto.
Qed.
Lemma nodup_app_l : forall (a b : list nat), NoDup (a ++ b) -> NoDup a.
Proof.
  induction a as [|x a IH]; intros b H; [constructor|]. cbn in H. inversion H; subst. constructor; [|eapply IH; eauto].
  intro I. apply H2. apply in_or_app. now left.
Qed.
Lemma nodup_snoc : forall (l : list nat) x, NoDup l -> ~ In x l -> NoDup (l ++ [x]).
Proof.
  intros l x N I. rewrite <- (rev_involutive (l ++ [x])). apply NoDup_rev. rewrite rev_app_distr. cbn. constructor; [now rewrite <- in_rev|now apply NoDup_rev].
Qed.
Lemma nodup_snoc_inv : forall (l : list nat) x, NoDup (l ++ [x]) -> NoDup l /\ ~ In x l.
Proof.
  intros l x N. apply NoDup_rev in N. rewrite rev_app_distr in N. cbn in N. inversion N; subst. split.
  - apply NoDup_rev in H2. now rewrite rev_involutive in H2.
  - now rewrite in_rev.
Qed.
Definition props_ok (ps : list (Z * value)) (qs : list (string * value)) : Prop :=
  Forall2 (fun p q => quirk_get_name (fst p) = Some (S (fst q)) /\ snd p = snd q) ps qs.
Definition denotes (s : section) (r : rule) : Prop :=
  s_match s = crits (criteria r) /\ props_ok (s_props s) (settings r).
Definition some {A} (l : list A) : bool := match l with [] => false | _ => true end.

Lemma strneq_hd : forall s p n c, strneq s (c :: p) (Datatypes.S n) = true -> exists r, s = c :: r.
Proof.
  intros s p n c H. unfold strneq in H. apply streq_ok in H. destruct s; cbn in H; [discriminate|]. injection H as -> _. eauto.
Qed.

Section E.
Variable in_range : Q -> bool.
Variable type_from_name : str -> option Z.
Variable code_from_name : Z -> str -> option Z.
Variable type_max : Z -> Z.
Variable prop_from_name : str -> option Z.
Local Notation stext := (setting_text in_range type_from_name code_from_name type_max prop_from_name).
Local Notation pset := (parse_setting in_range type_from_name code_from_name type_max prop_from_name).
Local Notation pvl := (parse_value_line in_range type_from_name code_from_name type_max prop_from_name).
Local Notation pline := (parse_line in_range type_from_name code_from_name type_max prop_from_name).
Local Notation plines := (parse_lines in_range type_from_name code_from_name type_max prop_from_name).
Local Notation pfile := (parse_file in_range type_from_name code_from_name type_max prop_from_name).
Local Notation slines := (section_lines in_range type_from_name code_from_name type_max prop_from_name).
Local Notation frules := (file_rules in_range type_from_name code_from_name type_max prop_from_name).

Lemma quote_ok : forall c, quote c = false <-> ~ In c [""""; "'"]%char.
Proof.
  intros c. unfold quote. rewrite orb_false_iff, !Ascii.eqb_neq. cbn. split; [intros [A B] [C|[C|[]]]; congruence|]. intros H. split; intro; subst; apply H; auto.
Qed.
Lemma value_line : forall s l k v, entry l k v ->
  pvl s l = (if strneq (S k) (S "Match") 5 then parse_match s (S k) v else pset s (S k) v) /\
  strneq l (S "Match") 5 = strneq (S k) (S "Match") 5 /\ (exists r, l = S k ++ r) /\ S k <> [].
Proof.
  intros s l k v (SP & HD & QT & TR). destruct (splits2 _ _ _ SP HD) as (r & -> & NK & KN & NV & VN).
  split; [|split; [|split; [eexists; reflexivity|auto]]].
  - unfold parse_value_line. rewrite (strv_words _ _ _ SP) by discriminate.
    destruct (S k) as [|kc kr] eqn:EK; [congruence|]. destruct v as [|vc vr]; [congruence|]. cbn [nonempty negb orb].
    cbn [hd] in QT. apply quote_ok in QT. rewrite QT. unfold parse_setting. destruct (strneq (kc :: kr) (S "Match") 5); auto.
  - apply prefix_eq; [|reflexivity]. repeat constructor; cbn; intros [X|[]]; discriminate.
Qed.
Lemma value_line_entry : forall s l s', pvl s l = Some s' -> hd LF l <> "="%char -> ~ In (last l LF) [" "%char; TAB] ->
  exists k v, entry l k v.
Proof.
  intros s l s' H HD TR. unfold parse_value_line in H.
  destruct (strv_from_string l (S "=")) as [[[|key [|v [|]]]|]|] eqn:E; try discriminate. apply strv_sound in E.
  destruct (S_str key) as [k ->]. exists k, v. split; auto. split; auto. split; auto.
  destruct (negb (nonempty (S k)) || negb (nonempty v)) eqn:N; [discriminate|]. apply orb_false_iff in N. destruct N as [_ N].
  destruct v as [|c v]; [discriminate|]. cbn [hd]. apply quote_ok. destruct (quote c); auto; discriminate.
Qed.
Lemma upcase_eq : forall c, upcase c = true -> c <> "="%char /\ c <> "["%char /\ Ascii.eqb c LF = false /\ Ascii.eqb c "#" = false /\ blank_char c = false /\ Ascii.eqb c "[" = false.
Proof.
  intros c H.
  assert (G : implb (upcase c) (negb (Ascii.eqb c "=") && negb (Ascii.eqb c "[") && negb (Ascii.eqb c LF) && negb (Ascii.eqb c "#") && negb (blank_char c)) = true).
  { clear H. revert c. refine (by_ascii _ _). vm_compute. reflexivity. }
  rewrite H in G. cbn [implb] in G. rewrite !andb_true_iff, !negb_true_iff in G. destruct G as [[[[A B] C] D] E].
  repeat split; auto; now apply Ascii.eqb_neq.
Qed.
Lemma last_ne : forall (l : str) a b, l <> [] -> last l a = last l b.
Proof. induction l as [|c l IH]; intros a b N; [congruence|]. destruct l; auto. cbn [last] in *. apply IH. discriminate. Qed.

(** One line of each kind *)
Definition next_state (st : fstate) (is_match : bool) : option fstate :=
  match st with
  | STATE_SECTION => None
  | STATE_MATCH => if is_match then Some STATE_MATCH_OR_VALUE else None
  | STATE_MATCH_OR_VALUE => if is_match then Some STATE_MATCH_OR_VALUE else Some STATE_VALUE_OR_SECTION
  | STATE_VALUE_OR_SECTION => if is_match then None else Some STATE_VALUE_OR_SECTION
  end.
Lemma entry_line : forall r l k v c t, entry l k v -> S k = c :: t -> upcase c = true ->
  pline r l = match next_state (r_state r) (strneq (S k) (S "Match") 5), r_cur r with
              | Some st, Some s => match (if strneq (S k) (S "Match") 5 then parse_match s (S k) v else pset s (S k) v) with
                                   | Some s' => Some (mkR (r_done r) (Some s') st) | None => None end
              | _, _ => None
              end.
Proof.
  intros r l k v c t EN EK U. destruct (value_line section_new l k v EN) as (_ & M & (x & ->) & _).
  rewrite EK in *. cbn [app] in *. unfold parse_line.
  destruct EN as (SP & HD & QT & TR). rewrite (last_ne _ _ LF) by discriminate. apply blank_no in TR. rewrite TR.
  destruct (upcase_eq c U) as (_ & _ & A & B & D & E). rewrite A, B, D, E, U. cbn [orb negb].
  rewrite M. fold (next_state (r_state r) (strneq (c :: t) (S "Match") 5)).
  destruct (next_state (r_state r) (strneq (c :: t) (S "Match") 5)) as [st|]; auto. destruct (r_cur r) as [s|]; auto.
  assert (EN : entry (c :: t ++ x) k v).
  { split; [exact SP|]. split; [exact HD|]. split; [exact QT|]. apply blank_no. exact TR. }
  destruct (value_line s _ k v EN) as (V & _). rewrite V. rewrite EK. reflexivity.
Qed.
Lemma header_line : forall r h, header h ->
  pline r h = if negb (is_section_state (r_state r)) then None
              else if match r_cur r with Some s => negb (complete s) | None => false end then None
              else Some (mkR (finish r) (Some section_new) STATE_MATCH).
Proof.
  intros r h (t & ->). change (S "[" ++ t ++ S "]") with ("["%char :: t ++ ["]"%char]).
  assert (L : forall d, last ("["%char :: t ++ ["]"%char]) d = "]"%char) by (intros; rewrite app_comm_cons; apply last_last).
  unfold parse_line. cbv beta iota. rewrite !L. reflexivity.
Qed.
Lemma match_key : forall k v c, match_text k v c -> strneq (S k) (S "Match") 5 = true /\ exists t, S k = "M"%char :: t.
Proof. intros k v c H. destruct H; (split; [reflexivity|eexists; reflexivity]). Qed.
Lemma setting_key : forall k v x, stext k v x -> strneq (S k) (S "Match") 5 = false /\ exists c t, S k = c :: t /\ upcase c = true.
Proof.
  intros k v x H. destruct (setting_complete _ _ _ _ _ section_new k v x H) as (A & q & _ & P). split; auto.
  unfold parse_setting in P. destruct (strneq (S k) (S "Model") 5) eqn:M.
  - apply strneq_hd in M. destruct M as [r ->]. exists "M"%char, r. auto.
  - destruct (strneq (S k) (S "Attr") 4) eqn:T; [|discriminate]. apply strneq_hd in T. destruct T as [r ->]. exists "A"%char, r. auto.
Qed.
Lemma setting_sound : forall s k v s', pset s (S k) v = Some s' -> exists q x, quirk_get_name q = Some (S k) /\ stext k v x /\ s' = add_prop s q x.
Proof.
  intros s k v s' H. unfold parse_setting in H. destruct (strneq (S k) (S "Model") 5).
  - now apply model_sound.
  - destruct (strneq (S k) (S "Attr") 4); [|discriminate]. eapply attr_sound; eauto.
Qed.

(** ** The lines of the grammar are accepted *)
Fixpoint plines' (r : reader) (us : list str) : option reader :=
  match us with
  | [] => Some r
  | u :: t => match pline r u with Some r' => plines' r' t | None => None end
  end.
Lemma plines'_app : forall a b r, plines' r (a ++ b) = match plines' r a with Some r' => plines' r' b | None => None end.
Proof. induction a as [|x a IH]; intros b r; cbn; auto. destruct (pline r x); auto. Qed.
Lemma plines_map : forall ls r, plines r ls = plines' r (map strip_line ls).
Proof. induction ls as [|l ls IH]; intros r; cbn; auto. destruct (pline r (strip_line l)); auto. Qed.
Lemma plines_filter : forall us r, plines' r us = plines' r (filter nonempty us).
Proof.
  induction us as [|[|a u] us IH]; intros r; [reflexivity|exact (IH r)|]. cbn [filter nonempty plines']. destruct (pline r (a :: u)); auto.
Qed.

Definition mline (l : str) (c : criterion) : Prop := exists k v, entry l k v /\ match_text k v c.
Definition sline (l : str) (q : string * value) : Prop := exists v, entry l (fst q) v /\ stext (fst q) v (snd q).
Lemma matches_run : forall ms cs d s cs0 st, Forall2 mline ms cs -> NoDup (map which (cs0 ++ cs)) -> s_match s = crits cs0 ->
  st = STATE_MATCH \/ st = STATE_MATCH_OR_VALUE ->
  plines' (mkR d (Some s) st) ms = Some (mkR d (Some (match ms with [] => s | _ => matched s (crits (cs0 ++ cs)) end))
    (match ms with [] => st | _ => STATE_MATCH_OR_VALUE end)).
Proof.
  intros ms cs d s cs0 st H. revert s cs0 st. induction H as [|l c ms cs (k & v & EN & MT) H IH]; intros s cs0 st ND EM ST; [reflexivity|].
  cbn [plines']. destruct (match_key k v c MT) as [MK [t EK]]. rewrite (entry_line _ l k v "M"%char t EN EK eq_refl). cbn [r_state r_cur r_done]. rewrite MK.
  assert (next_state st true = Some STATE_MATCH_OR_VALUE) as -> by (destruct ST as [->| ->]; reflexivity).
  assert (ND' : NoDup (map which cs0 ++ [which c])).
  { rewrite map_app in ND. cbn in ND. change (which c :: map which cs) with ([which c] ++ map which cs) in ND. rewrite app_assoc in ND.
    now apply nodup_app_l in ND. }
  apply nodup_snoc_inv in ND'. destruct ND' as [_ NI].
  rewrite (match_complete s k v c MT); [|rewrite EM; apply slot_crits; auto using which_lt].
  rewrite EM, <- crits_snoc. rewrite (IH (matched s (crits (cs0 ++ [c]))) (cs0 ++ [c]) STATE_MATCH_OR_VALUE); [|now rewrite <- app_assoc|reflexivity|auto].
  rewrite <- app_assoc. cbn [app]. f_equal. destruct ms as [|m ms]; [inversion H; subst; reflexivity|]. unfold matched. cbn [s_props has_property]. reflexivity.
Qed.
Lemma settings_run : forall ss qs d s qs0 st, Forall2 sline ss qs -> props_ok (s_props s) qs0 ->
  st = STATE_MATCH_OR_VALUE \/ st = STATE_VALUE_OR_SECTION ->
  exists s', plines' (mkR d (Some s) st) ss = Some (mkR d (Some s') (match ss with [] => st | _ => STATE_VALUE_OR_SECTION end)) /\
    s_match s' = s_match s /\ has_match s' = has_match s /\ props_ok (s_props s') (qs0 ++ qs) /\ (ss <> [] -> has_property s' = true) /\ (ss = [] -> s' = s).
Proof.
  intros ss qs d s qs0 st H. revert s qs0 st. induction H as [|l q ss qs (v & EN & MT) H IH]; intros s qs0 st PO ST.
  - exists s. rewrite app_nil_r. repeat split; auto; congruence.
  - cbn [plines']. destruct (setting_key _ v _ MT) as [MK (c & t & EK & U)]. rewrite (entry_line _ l _ v c t EN EK U). cbn [r_state r_cur r_done]. rewrite MK.
    assert (next_state st false = Some STATE_VALUE_OR_SECTION) as -> by (destruct ST as [->| ->]; reflexivity).
    destruct (setting_complete _ _ _ _ _ s _ v _ MT) as (_ & i & QN & ->).
    destruct (IH (add_prop s i (snd q)) (qs0 ++ [q]) STATE_VALUE_OR_SECTION) as (s' & R & A & B & C & D & E).
    { apply Forall2_app; auto. }
    { auto. }
    exists s'. rewrite R. rewrite <- app_assoc in C. repeat split; auto.
    + destruct ss; reflexivity.
    + intros _. destruct ss; [rewrite E by auto; reflexivity|apply D; discriminate].
    + discriminate.
Qed.
Definition ready (r : reader) : Prop := is_section_state (r_state r) = true /\ match r_cur r with Some s => complete s = true | None => True end.
Lemma section_run : forall r g rl, slines g rl -> ready r ->
  exists s, plines' r g = Some (mkR (finish r) (Some s) STATE_VALUE_OR_SECTION) /\ denotes s rl /\ complete s = true.
Proof.
  intros r g rl H [R1 R2]. destruct H as [h ms cs ss qs HH MN SN FM ND FS]. cbn [plines'].
  rewrite (header_line r h HH), R1. cbn [negb].
  assert (match r_cur r with Some s => negb (complete s) | None => false end = false) as -> by (destruct (r_cur r); auto; now rewrite R2).
  rewrite plines'_app. rewrite (matches_run ms cs (finish r) section_new [] STATE_MATCH FM ND eq_refl (or_introl eq_refl)).
  destruct ms as [|m ms]; [congruence|]. cbn [app].
  destruct (settings_run ss qs (finish r) (matched section_new (crits cs)) [] STATE_MATCH_OR_VALUE FS) as (s' & P & A & B & C & D & _); [constructor|auto|].
  exists s'. rewrite P. destruct ss as [|x ss]; [congruence|]. split; auto. split.
  - split; [rewrite A; reflexivity|exact C].
  - unfold complete. rewrite B, D by discriminate. reflexivity.
Qed.
Lemma sections_run : forall groups rs r, Forall2 slines groups rs -> ready r -> groups <> [] ->
  exists secs r', plines' r (concat groups) = Some r' /\ finish r' = finish r ++ secs /\ Forall2 denotes secs rs /\
    exists s, r_cur r' = Some s /\ complete s = true.
Proof.
  intros groups rs r H. revert r. induction H as [|g rl groups rs G H IH]; intros r RD N; [congruence|].
  cbn [concat]. rewrite plines'_app. destruct (section_run r g rl G RD) as (s & P & D & C). rewrite P.
  destruct groups as [|g2 groups].
  - inversion H; subst. exists [s], (mkR (finish r) (Some s) STATE_VALUE_OR_SECTION). split; auto. split; auto. split; [now constructor|]. exists s. auto.
  - destruct (IH (mkR (finish r) (Some s) STATE_VALUE_OR_SECTION)) as (secs & r' & P' & F & DS & Q); [split; auto|discriminate|].
    exists (s :: secs), r'. split; auto. split; [rewrite F; unfold finish at 1; cbn [r_done r_cur]; now rewrite <- app_assoc|]. split; [now constructor|exact Q].
Qed.

(** ** What is accepted follows the grammar *)
Definition state_of (ms ss : list str) : fstate :=
  match ms, ss with [], _ => STATE_MATCH | _, [] => STATE_MATCH_OR_VALUE | _, _ => STATE_VALUE_OR_SECTION end.
Inductive rep (d0 : list section) : list str -> reader -> Prop :=
| rep0 : rep d0 [] (mkR d0 None STATE_SECTION)
| rep1 : forall groups rules secs h ms ss cs qs s, Forall2 slines groups rules -> Forall2 denotes secs rules ->
    header h -> Forall2 mline ms cs -> Forall2 sline ss qs -> NoDup (map which cs) -> (ms = [] -> ss = []) ->
    s_match s = crits cs -> props_ok (s_props s) qs -> has_match s = some ms -> has_property s = some ss ->
    rep d0 (concat groups ++ h :: ms ++ ss) (mkR (d0 ++ secs) (Some s) (state_of ms ss)).
Lemma rep_eq : forall d0 us us' r r', rep d0 us r -> us = us' -> r = r' -> rep d0 us' r'.
Proof. intros; subst; auto. Qed.
Lemma state_snoc_m : forall ms l, state_of (ms ++ [l]) [] = STATE_MATCH_OR_VALUE.
Proof. destruct ms; reflexivity. Qed.
Lemma state_snoc_s : forall ms ss l, ms <> [] -> state_of ms (ss ++ [l]) = STATE_VALUE_OR_SECTION.
Proof. destruct ms; [congruence|]. destruct ss; reflexivity. Qed.
Lemma some_snoc : forall {A} (l : list A) x, some (l ++ [x]) = true.
Proof. destruct l; reflexivity. Qed.
Lemma header_of : forall c l, Ascii.eqb c "[" = true -> Ascii.eqb (last (c :: l) c) "]" = true -> header (c :: l).
Proof.
  intros c l A B. apply Ascii.eqb_eq in A, B. subst c. destruct l as [|x l _] using rev_ind; [discriminate|].
  rewrite app_comm_cons, last_last in B. subst x. exists l. reflexivity.
Qed.
Lemma rep_step : forall d0 us r l r', rep d0 us r -> nonempty l = true -> ~ In LF l -> ~ In "#"%char l -> pline r l = Some r' -> rep d0 (us ++ [l]) r'.
Proof.
  intros d0 us r l r' RP NE NL NH H. destruct l as [|c l]; [discriminate|]. unfold parse_line in H.
  destruct (blank_char (last (c :: l) c)) eqn:BL; [discriminate|].
  destruct (Ascii.eqb c LF || Ascii.eqb c "#") eqn:CM.
  { exfalso. apply orb_true_iff in CM. destruct CM as [CM|CM]; apply Ascii.eqb_eq in CM; subst; [apply NL|apply NH]; now left. }
  destruct (blank_char c); [discriminate|]. destruct (Ascii.eqb c "[") eqn:BR.
  { destruct (Ascii.eqb (last (c :: l) c) "]") eqn:LB; cbn [negb] in H; [|discriminate].
    destruct (is_section_state (r_state r)) eqn:IS; cbn [negb] in H; [|discriminate].
    assert (HD : header (c :: l)) by (apply header_of; auto).
    destruct RP as [|groups rules secs h ms ss cs qs s G D HH FM FS ND MS EM PO HM HP].
    - cbn [r_cur] in H. injection H as <-.
      eapply rep_eq; [apply (rep1 d0 [] [] [] (c :: l) [] [] [] [] section_new)|reflexivity|]; try constructor; auto.
    - cbn [r_cur r_state] in *. destruct (complete s) eqn:CP; [|discriminate]. injection H as <-. unfold complete in CP. apply andb_true_iff in CP. destruct CP as [C1 C2].
      eapply rep_eq; [apply (rep1 d0 (groups ++ [h :: ms ++ ss]) (rules ++ [mkRule cs qs]) (secs ++ [s]) (c :: l) [] [] [] [] section_new)| |]; try constructor; auto.
      + apply Forall2_app; auto. constructor; [|constructor]. constructor; auto; [intros ->|intros ->]; [now rewrite HM in C1|now rewrite HP in C2].
      + apply Forall2_app; auto. constructor; [|constructor]. split; auto.
      + rewrite concat_app. cbn [concat]. rewrite app_nil_r. reflexivity.
      + unfold finish. cbn [r_done r_cur]. now rewrite app_assoc. }
  destruct (upcase c) eqn:UC; cbn [negb] in H; [|discriminate]. cbv zeta in H.
  fold (next_state (r_state r) (strneq (c :: l) (S "Match") 5)) in H.
  destruct (next_state (r_state r) (strneq (c :: l) (S "Match") 5)) as [st|] eqn:NS; [|discriminate].
  destruct RP as [|groups rules secs h ms ss cs qs s G D HH FM FS ND MS EM PO HM HP]; [discriminate|]. cbn [r_cur r_state r_done] in *.
  destruct (pvl s (c :: l)) as [s'|] eqn:PV; [|discriminate]. injection H as <-.
  destruct (value_line_entry s (c :: l) s' PV) as (k & v & EN).
  { cbn [hd]. apply (upcase_eq c UC). }
  { rewrite (last_ne _ _ c) by discriminate. now apply blank_no. }
  destruct (value_line s _ k v EN) as (EV & EMT & _). rewrite EV in PV. rewrite EMT in NS.
  destruct (strneq (S k) (S "Match") 5) eqn:MK.
  - destruct (match_sound s k v s' PV) as (cr & MT & SL & ->). rewrite EM in SL. apply slot_crits in SL; [|apply which_lt].
    assert (SS : ss = [] /\ st = STATE_MATCH_OR_VALUE).
    { destruct ms as [|m ms]; [split; auto|destruct ss]; cbn in NS; try discriminate; injection NS as <-; auto. }
    destruct SS as [-> ->].
    eapply rep_eq; [apply (rep1 d0 groups rules secs h (ms ++ [c :: l]) [] (cs ++ [cr]) qs (matched s (add_crit (s_match s) cr)))| |]; auto.
    + apply Forall2_app; auto. constructor; [|constructor]. exists k, v. auto.
    + rewrite map_app. cbn. now apply nodup_snoc.
    + cbn [s_match matched]. rewrite EM. symmetry. apply crits_snoc.
    + rewrite some_snoc. reflexivity.
    + rewrite !app_nil_r, <- app_assoc, <- app_comm_cons. reflexivity.
    + now rewrite state_snoc_m.
  - destruct (setting_sound s k v s' PV) as (q & x & QN & MT & ->).
    assert (SS : ms <> [] /\ st = STATE_VALUE_OR_SECTION).
    { destruct ms as [|m ms]; [cbn in NS; discriminate|]. split; [discriminate|]. destruct ss; cbn in NS; injection NS as <-; auto. }
    destruct SS as [MN ->].
    eapply rep_eq; [apply (rep1 d0 groups rules secs h ms (ss ++ [c :: l]) cs (qs ++ [(k, x)]) (add_prop s q x))| |]; auto.
    + apply Forall2_app; auto. constructor; [|constructor]. exists v. auto.
    + intros ->. congruence.
    + apply Forall2_app; auto.
    + rewrite some_snoc. reflexivity.
    + rewrite <- app_assoc. cbn [app]. now rewrite <- app_assoc.
    + now rewrite state_snoc_s.
Qed.
Lemma rep_run : forall d0 us us0 r r', rep d0 us0 r -> Forall (fun l => ~ In LF l /\ ~ In "#"%char l) us -> plines' r (filter nonempty us) = Some r' ->
  rep d0 (us0 ++ filter nonempty us) r'.
Proof.
  induction us as [|u us IH]; intros us0 r r' RP F H.
  - cbn in *. rewrite app_nil_r. congruence.
  - inversion F as [|? ? [A B] C]; subst. cbn [filter] in *. destruct (nonempty u) eqn:N; [|eapply IH; eauto].
    cbn [plines'] in H. destruct (pline r u) as [r1|] eqn:P; [|discriminate].
    change (u :: filter nonempty us) with ([u] ++ filter nonempty us). rewrite app_assoc. eapply IH; eauto. eapply rep_step; eauto.
Qed.
Lemma strip_clean : forall l, ~ In LF l -> ~ In LF (strip_line l) /\ ~ In "#"%char (strip_line l).
Proof.
  intros l N. pose proof (strip_uncomment l N) as U. revert N U. generalize (strip_line l). intros u N U. destruct U as [l A|l b t A B C].
  - auto.
  - split; intro I; [apply N|apply A]; apply in_or_app; now left.
Qed.

Lemma file_sound : forall d0 d t ls, text_lines t ls -> pfile d0 (F_text t) = Some d ->
  exists rs secs, frules t rs /\ d = d0 ++ secs /\ Forall2 denotes secs rs.
Proof.
  intros d0 d t ls TL. pose proof (text_noLF _ _ TL) as NL. unfold parse_file. rewrite plines_map, (text_read _ _ TL), plines_filter.
  intros H. destruct (plines' _ _) as [r|] eqn:P; [|discriminate].
    assert (RP : rep d0 ([] ++ filter nonempty (map strip_line ls)) r).
    { eapply rep_run; [apply rep0| |exact P]. rewrite Forall_forall in *. intros l I. apply in_map_iff in I. destruct I as (x & <- & I). apply strip_clean. auto. }
    cbn [app] in RP. inversion RP as [E1 E2|groups rules secs h ms ss cs qs s G D HH FM FS ND MS EM PO HM HP E1 E2]; subst; [discriminate|].
    cbn [r_cur] in H. destruct (complete s) eqn:CP; [|discriminate]. injection H as <-. unfold complete in CP. apply andb_true_iff in CP. destruct CP as [C1 C2].
    exists (rules ++ [mkRule cs qs]), (secs ++ [s]). split; [|split].
    + exists ls, (map strip_line ls), (groups ++ [h :: ms ++ ss]). split; auto. split; [now apply uncomments|]. split.
      * rewrite concat_app. cbn [concat]. rewrite app_nil_r. symmetry. exact E1.
      * split; [|destruct rules; discriminate]. apply Forall2_app; auto. constructor; [|constructor].
        constructor; auto; [intros ->|intros ->]; [now rewrite HM in C1|now rewrite HP in C2].
    + unfold finish. cbn. now rewrite app_assoc.
    + apply Forall2_app; auto. constructor; [|constructor]. split; auto.
Qed.
Lemma file_complete : forall d0 t rs, frules t rs -> exists secs, pfile d0 (F_text t) = Some (d0 ++ secs) /\ Forall2 denotes secs rs.
Proof.
  intros d0 t rs (ls & us & groups & TL & U & FE & G & RN). pose proof (text_noLF _ _ TL) as NL. unfold parse_file.
  rewrite plines_map, (text_read _ _ TL), plines_filter. apply uncomments in U; auto. subst us. rewrite FE.
  destruct (sections_run groups rs (mkR d0 None STATE_SECTION) G) as (secs & r' & P & FN & D & s & RC & CP); [split; cbn; auto|intros ->; inversion G; subst; congruence|].
  exists secs. rewrite P, RC, CP. split; auto. rewrite FN. unfold finish. cbn [r_done r_cur]. now rewrite app_nil_r.
Qed.
End E.
