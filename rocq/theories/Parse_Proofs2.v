Require Import Coq.Strings.Ascii Coq.Strings.String Coq.ZArith.ZArith Coq.QArith.QArith Coq.Lists.List Coq.Bool.Bool Coq.micromega.Lia.
Require Import Verif.Str_Model Verif.Str_Spec Verif.Str_Proofs Verif.Str_Proofs2 Verif.Parse_Model Verif.Parse_Spec Verif.Parse_Proofs.
Import ListNotations.
Open Scope Z_scope.

Lemma isdigit_digit : forall c, isdigit c = true <-> digit 10 c <> None.
Proof.
  intros c. assert (G : Bool.eqb (isdigit c) (match digit 10 c with None => false | _ => true end) = true).
  { revert c. refine (by_ascii _ _). vm_compute. reflexivity. }
  apply eqb_prop in G. rewrite G. destruct (digit 10 c); split; congruence.
Qed.
Lemma dig_isdigit : forall s a n, dig 10 s a n -> Forall (fun c => isdigit c = true) s.
Proof. intros s a n H. induction H; constructor; auto. apply isdigit_digit. congruence. Qed.
Lemma isdigit_dig : forall s a, Forall (fun c => isdigit c = true) s -> dig 10 s a (fst (digits 10 s a)).
Proof.
  induction s as [|c s IH]; intros a H; cbn; [constructor|]. inversion H as [|? ? HC HS]; subst. apply isdigit_digit in HC.
  destruct (digit 10 c) as [d|] eqn:E; [|congruence]. econstructor; eauto.
Qed.
Lemma digits_numeral : forall s, s <> [] -> Forall (fun c => isdigit c = true) s -> numeral 10 s (fst (digits 10 s 0)).
Proof. intros s HN H. apply dig_numeral; auto. right; left; auto. apply isdigit_dig. auto. Qed.
Lemma numeral_digits : forall s n, numeral 10 s n -> s <> [] /\ Forall (fun c => isdigit c = true) s /\ fst (digits 10 s 0) = n.
Proof.
  intros s n H. destruct (numeral_dig 10 s n) as [A B]; auto; [right; left; auto|]. split; auto. split; [eapply dig_isdigit; eauto|].
  apply digits_complete in B. rewrite B. reflexivity.
Qed.
Lemma scale_ok : forall n k, (scale n k == inject_Z n / inject_Z (10 ^ Z.of_nat k))%Q.
Proof.
  intros n k. unfold scale. rewrite Qmake_Qdiv. assert (0 < 10 ^ Z.of_nat k) by (apply Z.pow_pos_nonneg; lia).
  rewrite Z2Pos.id by auto. reflexivity.
Qed.

Lemma sign_sound : forall s neg r, sign s = (neg, r) -> exists sg k, s = sg ++ r /\ In (sg, k) signs /\
   forall n, (if (neg : bool) then - n else n) = k * n.
Proof.
  intros s neg r H. unfold sign in H. destruct s as [|c t].
  - injection H as <- <-. exists [], 1. split; auto. split; [left; auto|intros; lia].
  - assert (Gm : is_minus c = true -> c = "-"%char).
    { intros M. assert (G : (if is_minus c then Ascii.eqb c "-" else true) = true).
      { clear. revert c. refine (by_ascii _ _). vm_compute. reflexivity. }
      rewrite M in G. apply Ascii.eqb_eq in G. auto. }
    assert (Gp : is_plus c = true -> c = "+"%char).
    { intros M. assert (G : (if is_plus c then Ascii.eqb c "+" else true) = true).
      { clear. revert c. refine (by_ascii _ _). vm_compute. reflexivity. }
      rewrite M in G. apply Ascii.eqb_eq in G. auto. }
    destruct (is_minus c); [|destruct (is_plus c)]; injection H as <- <-.
    + rewrite Gm by auto. exists (S "-"), (-1). split; auto. split; [right; right; left; auto|intros; lia].
    + rewrite Gp by auto. exists (S "+"), 1. split; auto. split; [right; left; auto|intros; lia].
    + exists [], 1. split; auto. split; [left; auto|intros; lia].
Qed.

Lemma strtod_sound : forall s q, strtod s = Some (q, []) -> decimal s q.
Proof.
  intros s q H. unfold strtod in H. destruct (sign s) as [neg s1] eqn:ES. destruct (sign_sound _ _ _ ES) as (sg & k & -> & HS & HK).
  set (a := span isdigit s1) in *. pose proof (span_skip isdigit s1) as E1. fold a in E1. pose proof (span_all isdigit s1) as A1. fold a in A1.
  destruct (skip isdigit s1) as [|c t] eqn:Er.
  - destruct (nonempty (a ++ [])) eqn:EN; [|discriminate]. injection H as <-. rewrite app_nil_r in *.
    exists sg, k, a, [], (fst (digits 10 a 0)). split; [right; rewrite E1; auto|]. split; auto. rewrite app_nil_r.
    split; [apply digits_numeral; auto; destruct a; discriminate|]. rewrite HK. apply scale_ok.
  - destruct (Ascii.eqb_spec c ".") as [->|NC].
    2:{ exfalso. destruct (nonempty (a ++ [])); discriminate. }
    pose proof (span_skip isdigit t) as E2. pose proof (span_all isdigit t) as A2.
    set (b := span isdigit t) in *. destruct (nonempty (a ++ b)) eqn:EN; [|discriminate].
    injection H as <- HR. rewrite HR, app_nil_r in E2.
    exists sg, k, a, b, (fst (digits 10 (a ++ b) 0)). split; [left; rewrite <- E1, <- E2; auto|]. split; auto.
    split; [apply digits_numeral; [destruct (a ++ b); discriminate|apply Forall_app; auto]|]. rewrite HK. apply scale_ok.
Qed.
Lemma strtod_complete : forall s q, decimal s q -> exists q', strtod s = Some (q', []) /\ (q' == q)%Q.
Proof.
  intros s q (sg & k & a & b & n & HE & HS & HN & HQ). destruct (numeral_digits _ _ HN) as (NE & AD & EV).
  apply Forall_app in AD. destruct AD as [AA AB].
  assert (HD : forall u, sign (sg ++ u) = ((k =? -1), u) \/ (match u with c :: _ => is_minus c || is_plus c | [] => false end) = true).
  { intros u. destruct HS as [HS|[HS|[HS|[]]]]; inversion HS; subst; auto. cbn [app]. destruct u as [|c u]; auto.
    unfold sign. destruct (is_minus c) eqn:E1; auto. destruct (is_plus c) eqn:E2; auto. }
  assert (DS : forall c, isdigit c = true -> is_minus c || is_plus c = false).
  { intros c H. apply isdigit_digit in H. destruct (digit_not_space_sign 10 c) as (_ & X & Y); auto; [right; left; auto|]. rewrite X, Y. auto. }
  assert (KK : forall m, (if k =? -1 then - m else m) = k * m).
  { intros m. destruct (signs_ok sg k HS) as [-> | ->]; cbn [Z.eqb Pos.eqb]; lia. }
  destruct HE as [->|[-> ->]].
  - assert (SG : sign (sg ++ a ++ S "." ++ b) = ((k =? -1), a ++ S "." ++ b)).
    { destruct (HD (a ++ S "." ++ b)) as [X|X]; auto. exfalso. destruct a as [|c a]; [discriminate|]. inversion AA; subst.
      cbn [app] in X. rewrite DS in X by auto. discriminate. }
    unfold strtod. rewrite SG. rewrite span_app, skip_app by auto. cbn [S list_ascii_of_string app span skip].
    change (isdigit ".") with false. cbv iota. cbn [Ascii.eqb Bool.eqb]. rewrite app_nil_r.
    rewrite skip_all by auto. replace (span isdigit b) with b.
    2:{ rewrite <- (app_nil_r b) at 2. rewrite span_app by auto. cbn. rewrite app_nil_r. auto. }
    destruct (a ++ b) as [|x y] eqn:E; [congruence|]. cbn [nonempty]. rewrite EV, KK. eexists. split; [reflexivity|].
    rewrite HQ. apply scale_ok.
  - rewrite app_nil_r in *.
    assert (SG : sign (sg ++ a) = ((k =? -1), a)).
    { destruct (HD a) as [X|X]; auto. exfalso. destruct a as [|c a]; [discriminate|]. inversion AA; subst.
      rewrite DS in X by auto. discriminate. }
    unfold strtod. rewrite SG. rewrite skip_all by auto. replace (span isdigit a) with a.
    2:{ rewrite <- (app_nil_r a) at 2. rewrite span_app by auto. cbn. rewrite app_nil_r. auto. }
    rewrite app_nil_r. destruct a as [|x y] eqn:E; [congruence|]. cbn [nonempty]. rewrite EV, KK. eexists. split; [reflexivity|].
    rewrite HQ. apply scale_ok.
Qed.
Lemma decimal_chars : forall s q, decimal s q -> forallb atod_char s = true.
Proof.
  intros s q (sg & k & a & b & n & HE & HS & HN & HQ). destruct (numeral_digits _ _ HN) as (NE & AD & EV).
  apply Forall_app in AD. destruct AD as [AA AB].
  assert (DC : forall t, Forall (fun c => isdigit c = true) t -> forallb atod_char t = true).
  { intros t H. apply forallb_forall. rewrite Forall_forall in H. intros c I. unfold atod_char. rewrite (H c I). reflexivity. }
  assert (SC : forallb atod_char sg = true) by (destruct HS as [HS|[HS|[HS|[]]]]; inversion HS; reflexivity).
  destruct HE as [->|[-> ->]]; rewrite !forallb_app, SC, (DC a) by auto; auto. rewrite (DC b); auto.
Qed.
Lemma decimal_eq : forall s q q', (q == q')%Q -> decimal s q -> decimal s q'.
Proof. intros s q q' E (sg & k & a & b & n & H1 & H2 & H3 & H4). exists sg, k, a, b, n. repeat (split; auto). rewrite <- E. auto. Qed.

Section Double.
Variable in_range : Q -> bool.
Hypothesis in_range_eq : forall a b, (a == b)%Q -> in_range a = in_range b.

Lemma atod_sound : forall s q, safe_atod in_range s = Some q -> reads in_range s q.
Proof.
  intros s q H. unfold safe_atod in H. destruct (negb _); [discriminate|]. destruct (strtod s) as [[v r]|] eqn:E; [|discriminate].
  destruct r; [|discriminate]. cbn [nonempty] in H. destruct (in_range v) eqn:ER; [|discriminate]. injection H as <-.
  split; auto. apply strtod_sound; auto.
Qed.
Lemma atod_complete : forall s q, reads in_range s q -> exists q', safe_atod in_range s = Some q' /\ (q' == q)%Q.
Proof.
  intros s q [HD HR]. unfold safe_atod. rewrite (decimal_chars s q) by auto. cbn [negb].
  destruct (strtod_complete s q HD) as (q' & -> & E). cbn [nonempty]. rewrite (in_range_eq q' q) by auto. rewrite HR. eauto.
Qed.
Lemma atod_lemma : forall s,
  (forall q, safe_atod in_range s = Some q -> reads in_range s q) /\
  (forall q, reads in_range s q -> exists q', safe_atod in_range s = Some q' /\ (q' == q)%Q).
Proof. split; intros q; [apply atod_sound|apply atod_complete]. Qed.

Lemma first_doubles_sound : forall n l qs, first_doubles in_range n l = Some qs ->
  (n <= length l)%nat /\ Forall2 (reads in_range) (firstn n l) qs.
Proof.
  induction n as [|n IH]; intros l qs H; cbn in H.
  - injection H as <-. split; [lia|constructor].
  - destruct l as [|w l]; [discriminate|]. destruct (safe_atod in_range w) as [v|] eqn:E; [|discriminate].
    destruct (first_doubles in_range n l) as [t|] eqn:E2; [|discriminate]. injection H as <-.
    destruct (IH _ _ E2) as [A B]. split; [cbn; lia|]. cbn. constructor; auto. apply atod_sound; auto.
Qed.
Lemma first_doubles_complete : forall n l qs, (n <= length l)%nat -> Forall2 (reads in_range) (firstn n l) qs ->
  exists qs', first_doubles in_range n l = Some qs' /\ Forall2 Qeq qs' qs.
Proof.
  induction n as [|n IH]; intros l qs HL H; cbn in *.
  - inversion H; subst. exists []. split; auto.
  - destruct l as [|w l]; [cbn in HL; lia|]. inversion H as [|? q ? qs1 HW HF]; subst. destruct (atod_complete w q HW) as (q' & -> & E).
    destruct (IH l qs1 ltac:(cbn in HL; lia) HF) as (qs' & -> & F). eexists. split; eauto.
Qed.
Lemma calibration_lemma : forall s ws, splits (S " ") s ws ->
  (forall qs, parse_calibration in_range s = Some qs -> (6 <= length ws)%nat /\ Forall2 (reads in_range) (firstn 6 ws) qs) /\
  (forall qs, (6 <= length ws)%nat -> Forall2 (reads in_range) (firstn 6 ws) qs ->
     exists qs', parse_calibration in_range s = Some qs' /\ Forall2 Qeq qs' qs).
Proof.
  intros s ws H. destruct (strv_lemma (S " ") s) as (ws' & _ & HU & HE). rewrite <- (HU ws H) in HE. clear HU ws'.
  unfold parse_calibration. rewrite HE. split; intros qs.
  - destruct ws; [discriminate|]. apply first_doubles_sound.
  - intros HL HF. destruct ws; [cbn in HL; lia|]. apply first_doubles_complete; auto.
Qed.

Lemma kv_sound : forall kvsep l out, kv_pairs in_range kvsep l = Some out ->
  Forall2 (fun w p => exists k v, splits kvsep w [k; v] /\ reads in_range k (fst p) /\ reads in_range v (snd p)) l out.
Proof.
  intros kvsep. induction l as [|w l IH]; intros out H; cbn in H.
  - injection H as <-. constructor.
  - destruct (strv_lemma kvsep w) as (ws & HS & HU & HE). rewrite HE in H. destruct ws as [|k [|v [|x y]]]; try discriminate.
    destruct (safe_atod in_range k) as [a|] eqn:Ea; [|discriminate]. destruct (safe_atod in_range v) as [b|] eqn:Eb; [|discriminate].
    destruct (kv_pairs in_range kvsep l) as [t|] eqn:Et; [|discriminate]. injection H as <-.
    constructor; auto. exists k, v. split; auto. split; apply atod_sound; auto.
Qed.
Lemma kv_complete : forall kvsep l out,
  Forall2 (fun w p => exists k v, splits kvsep w [k; v] /\ reads in_range k (fst p) /\ reads in_range v (snd p)) l out ->
  exists out', kv_pairs in_range kvsep l = Some out' /\ Forall2 (fun a b => fst a == fst b /\ snd a == snd b)%Q out' out.
Proof.
  intros kvsep l out H. induction H as [|w p l out (k & v & HS & HK & HV) HF IH]; cbn.
  - exists []. split; auto.
  - destruct (strv_lemma kvsep w) as (ws & _ & HU & HE). rewrite <- (HU _ HS) in HE. rewrite HE.
    destruct (atod_complete _ _ HK) as (a & -> & Ea). destruct (atod_complete _ _ HV) as (b & -> & Eb).
    destruct IH as (t & -> & Ft). eexists. split; [reflexivity|]. constructor; auto.
Qed.
Lemma kv_lemma : forall s pairsep kvsep ws, pairsep <> [] -> kvsep <> [] -> splits pairsep s ws ->
  (forall out, kv_double_from_string in_range s pairsep kvsep = Some out -> ws <> [] /\
     Forall2 (fun w p => exists k v, splits kvsep w [k; v] /\ reads in_range k (fst p) /\ reads in_range v (snd p)) ws out) /\
  (forall out, ws <> [] ->
     Forall2 (fun w p => exists k v, splits kvsep w [k; v] /\ reads in_range k (fst p) /\ reads in_range v (snd p)) ws out ->
     exists out', kv_double_from_string in_range s pairsep kvsep = Some out' /\
       Forall2 (fun a b => fst a == fst b /\ snd a == snd b)%Q out' out).
Proof.
  intros s pairsep kvsep ws HP HK H. destruct (strv_lemma pairsep s) as (ws' & _ & HU & HE). rewrite <- (HU ws H) in HE. clear HU ws'.
  unfold kv_double_from_string. rewrite HE. destruct pairsep; [congruence|]. destruct kvsep; [congruence|]. cbn [nonempty negb orb].
  split; intros out.
  - destruct ws; [discriminate|]. intros X. split; [discriminate|]. apply kv_sound; auto.
  - intros NE HF. destruct ws; [congruence|]. apply kv_complete; auto.
Qed.
End Double.

(** ** Event codes and input properties *)
Lemma map_all_ok : forall {A B} (f : A -> option B) l out, map_all f l = Some out <-> Forall2 (fun x y => f x = Some y) l out.
Proof.
  intros A B f. induction l as [|x l IH]; intros out; cbn.
  - split; intros H; [injection H as <-; constructor|inversion H; auto].
  - split.
    + intros H. destruct (f x) eqn:E; [|discriminate]. destruct (map_all f l) eqn:E2; [|discriminate]. injection H as <-.
      constructor; auto. apply IH; auto.
    + intros H. inversion H as [|? y ? t E F]; subst. rewrite E. apply IH in F. rewrite F. auto.
Qed.
Lemma F2_len : forall {A B} (R : A -> B -> Prop) l m, Forall2 R l m -> length l = length m.
Proof. intros A B R l m H. induction H; cbn; auto. Qed.

Section Names.
Variable type_from_name : str -> option Z.
Variable code_from_name : Z -> str -> option Z.
Variable type_max : Z -> Z.
Variable prop_from_name : str -> option Z.
Hypothesis codes_ok : forall t s c, code_from_name t s = Some c -> 0 <= c <= type_max t.
Hypothesis props_ok : forall s p, prop_from_name s = Some p -> 0 <= p <= 31.

Lemma evcode_word_ok : forall w t c, evcode_word type_from_name code_from_name type_max w = Some (t, c) ->
  c = 65535 \/ 0 <= c <= type_max t.
Proof.
  intros w t c H. unfold evcode_word in H. destruct (existsb _ w).
  - unfold evcode_pair in H. destruct (negb _); [discriminate|]. destruct (scan_c _ _); [|discriminate].
    destruct (scan_x _) as [[x r2]|]; [|discriminate]. destruct (nonempty r2); [discriminate|].
    destruct (type_from_name _) as [t'|]; [|discriminate]. destruct (_ || _) eqn:E; [discriminate|]. injection H as <- <-.
    apply orb_false_elim in E. destruct E as [E1 E2]. apply Z.ltb_ge in E1, E2. lia.
  - unfold evcode_string in H. destruct (strneq w (S "EV_") 3).
    + destruct (type_from_name w); [|discriminate]. injection H as <- <-. left; reflexivity.
    + destruct (find _ _) as [[m t']|]; [|discriminate]. destruct (code_from_name t' w) eqn:E; [|discriminate]. injection H as <- <-.
      right. eapply codes_ok; eauto.
Qed.
Lemma evcode_lemma : forall s ws room out, splits (S ";") s ws ->
  parse_evcode type_from_name code_from_name type_max s room = Some out ->
  (0 < length ws <= 32)%nat /\ length out = Nat.min room (length ws) /\
  Forall (fun e => snd e = 65535 \/ 0 <= snd e <= type_max (fst e)) out.
Proof.
  intros s ws room out HS H. destruct (strv_lemma (S ";") s) as (ws' & _ & HU & HE). rewrite <- (HU ws HS) in HE. clear HU ws'.
  unfold parse_evcode in H. rewrite HE in H. destruct ws as [|w ws]; [discriminate|]. set (l := w :: ws) in *.
  destruct (Nat.ltb 32 (length l)) eqn:EL; [discriminate|]. apply Nat.ltb_ge in EL.
  destruct (map_all _ l) as [o|] eqn:EM; [|discriminate]. injection H as <-. apply map_all_ok in EM.
  pose proof (F2_len _ _ _ EM) as LL. split; [split; [cbn; lia|auto]|]. split.
  - rewrite firstn_length, <- LL. apply Nat.min_l. apply Nat.le_min_r.
  - apply Forall_forall. intros [t c] I. rewrite <- (firstn_skipn (Nat.min room (length l)) o) in EM.
    assert (I' : In (t, c) o). { rewrite <- (firstn_skipn (Nat.min room (length l)) o). apply in_or_app; auto. }
    rewrite firstn_skipn in EM. clear - EM I' codes_ok. induction EM as [|x y l o E F IH]; [destruct I'|].
    destruct I' as [->|I']; auto. apply evcode_word_ok in E. exact E.
Qed.
Lemma evcode_all_or_nothing_lemma : forall s ws room w, splits (S ";") s ws -> In w ws ->
  evcode_word type_from_name code_from_name type_max w = None ->
  parse_evcode type_from_name code_from_name type_max s room = None.
Proof.
  intros s ws room w HS I N. destruct (strv_lemma (S ";") s) as (ws' & _ & HU & HE). rewrite <- (HU ws HS) in HE. clear HU ws'.
  unfold parse_evcode. rewrite HE. destruct ws as [|w' ws]; [destruct I|]. set (l := w' :: ws) in *.
  destruct (Nat.ltb 32 (length l)); auto. destruct (map_all _ l) as [o|] eqn:EM; auto. exfalso. apply map_all_ok in EM.
  clear - EM I N. induction EM as [|x y l o E F IH]; [destruct I|]. destruct I as [->|I]; [congruence|auto].
Qed.
Lemma find_prefix : forall w p t r, w = p ++ r -> In (p, t) code_prefixes ->
  strneq w (S "EV_") 3 = false /\
  exists q, find (fun m => strstartswith w (fst m))
       [(S "KEY_", EV_KEY); (S "BTN_", EV_KEY); (S "ABS_", EV_ABS); (S "REL_", EV_REL); (S "SW_", EV_SW)] = Some (q, t).
Proof.
  intros w p t r -> H. unfold code_prefixes in H. cbn [In] in H.
  destruct H as [H|[H|[H|[H|[H|[]]]]]]; injection H as <- <-; split; try (eexists; reflexivity); reflexivity.
Qed.
Lemma colon_test : forall w, no_colon w -> existsb (Ascii.eqb ":") w = false.
Proof.
  intros w H. destruct (existsb _ w) eqn:E; auto. apply existsb_exists in E. destruct E as (x & I & E).
  apply Ascii.eqb_eq in E. subst. destruct (H I).
Qed.
Lemma upper_ok : forall c, type_char c -> upper c = true.
Proof.
  intros c H. assert (G : (if existsb (Ascii.eqb c) (S "ABCDEFGHIJKLMNOPQRSTUVWXYZ_") then upper c else true) = true).
  { clear. revert c. refine (by_ascii _ _). vm_compute. reflexivity. }
  replace (existsb _ _) with true in G; auto. symmetry. apply existsb_exists. exists c. split; auto. apply Ascii.eqb_refl.
Qed.
Lemma scan_x_ok : forall h c, integer 16 h c -> fits_int c -> 0 <= c -> scan_x h = Some (c, []).
Proof.
  intros h c HI HF HP. destruct (scan_complete 16 h c) as (neg & n & E & EV & HN & Hn); auto; [right; right; auto|].
  unfold scan in E. unfold scan_x. destruct (sign (skip isspace h)) as [ng s1].
  destruct (magnitude 16 s1) as [[m r]|] eqn:EM; [|discriminate]. injection E as -> -> ->.
  assert (EM' : magnitude_x s1 = Some (n, [])).
  { unfold magnitude_x. destruct s1 as [|z [|x r]]; auto. destruct (_ && _) eqn:EX; auto. etransitivity; [|exact EM].
    unfold magnitude. cbn [Z.eqb Pos.eqb andb]. destruct r as [|d r].
    - exfalso. unfold magnitude in EM. destruct (digit 16 z); [|discriminate]. injection EM as EM. cbn [digits] in EM.
      destruct (digit 16 z); [|discriminate]. apply andb_prop in EX. destruct EX as [_ EX]. apply x_no_digit in EX. rewrite EX in EM. discriminate.
    - cbn [Z.eqb Pos.eqb andb]. rewrite EX. destruct (digit 16 d) eqn:Ed; cbn [andb]; auto. exfalso.
      unfold magnitude in EM. rewrite Ed, andb_false_r in EM. cbn [digits] in EM. destruct (digit 16 z); [|discriminate]. injection EM as EM.
      apply andb_prop in EX. destruct EX as [_ EX]. apply x_no_digit in EX. rewrite EX in EM. discriminate. }
  rewrite EM'. unfold fits_int in HF. unfold ULONG_MAX.
  replace (18446744073709551615 <? n) with false by (symmetry; apply Z.ltb_ge; destruct neg; lia).
  rewrite <- EV. rewrite to_int_id by (unfold fits_int; lia). reflexivity.
Qed.
Lemma firstn_all' : forall (w : str) n, (length w <= n)%nat -> firstn n w = w.
Proof. induction w as [|c w IH]; intros [|n] H; cbn in *; auto; [lia|]. rewrite IH by lia. auto. Qed.
Lemma event_name_ok : forall w e, event_name type_from_name code_from_name type_max w e ->
  evcode_word type_from_name code_from_name type_max w = Some e.
Proof.
  intros w e H. unfold evcode_word. destruct H as [r t HN HT|p t r c HP HN HC|w h t c HW HL HU HT HI HF HR].
  - rewrite colon_test.
    + unfold evcode_string. change (strneq (S "EV_" ++ r) (S "EV_") 3) with true. cbv iota. rewrite HT. reflexivity.
    + intros I. apply in_app_or in I. destruct I as [I|I]; auto. cbn in I. repeat (destruct I as [I|I]; [discriminate|]). exact I.
  - rewrite colon_test.
    + unfold evcode_string. destruct (find_prefix (p ++ r) p t r) as [-> (q & ->)]; auto. rewrite HC. reflexivity.
    + intros I. apply in_app_or in I. destruct I as [I|I]; auto.
      unfold code_prefixes in HP. cbn [In] in HP. destruct HP as [HP|[HP|[HP|[HP|[HP|[]]]]]]; injection HP as <- <-; cbn in I;
        repeat (destruct I as [I|I]; [discriminate|]); exact I.
  - replace (existsb (Ascii.eqb ":") (w ++ S ":" ++ h)) with true.
    2:{ symmetry. apply existsb_exists. exists ":"%char. split; [|reflexivity]. apply in_or_app. right; left; reflexivity. }
    unfold evcode_pair. rewrite span_app.
    2:{ eapply Forall_impl; [|exact HU]. intros c0. apply upper_ok. }
    cbn [S list_ascii_of_string app span]. change (upper ":") with false. cbv iota. rewrite app_nil_r, firstn_all' by auto.
    rewrite skipn_app, skipn_all, Nat.sub_diag. cbn [app skipn]. destruct w as [|w0 w1]; [congruence|]. cbn [nonempty negb].
    cbn [scan_c]. cbn [Ascii.eqb Bool.eqb]. rewrite (scan_x_ok h c) by (auto; lia). cbn [nonempty]. rewrite HT.
    replace (c <? 0) with false by (symmetry; apply Z.ltb_ge; lia). replace (type_max t <? c) with false by (symmetry; apply Z.ltb_ge; lia). reflexivity.
Qed.
Lemma evcode_exact_lemma : forall s ws room es, splits (S ";") s ws -> (0 < length ws <= 32)%nat ->
  Forall2 (event_name type_from_name code_from_name type_max) ws es ->
  parse_evcode type_from_name code_from_name type_max s room = Some (firstn room es).
Proof.
  intros s ws room es HS HL HF. destruct (strv_lemma (S ";") s) as (ws' & _ & HU & HE). rewrite <- (HU ws HS) in HE. clear HU ws'.
  unfold parse_evcode. rewrite HE. destruct ws as [|w ws]; [cbn in HL; lia|]. set (l := w :: ws) in *.
  replace (Nat.ltb 32 (length l)) with false by (symmetry; apply Nat.ltb_ge; lia).
  pose proof (F2_len _ _ _ HF) as LL.
  assert (EM : map_all (evcode_word type_from_name code_from_name type_max) l = Some es).
  { apply map_all_ok. clear - HF. induction HF; constructor; auto. apply event_name_ok; auto. }
  rewrite EM. f_equal. rewrite LL. clear. revert room. induction es as [|e es IH]; intros [|room]; cbn; auto. rewrite IH. reflexivity.
Qed.
Lemma input_prop_word_ok : forall w p, input_prop_word prop_from_name w = Some p -> 0 <= p <= 31.
Proof.
  intros w p H. unfold input_prop_word in H. destruct (safe_atou_base 16 w) as [v|] eqn:E; [|eapply props_ok; eauto].
  destruct (31 <? v) eqn:EL; [discriminate|]. injection H as <-. apply Z.ltb_ge in EL.
  apply atou_lemma in E; [|right; right; auto]. destruct E as (n & _ & _ & ->). pose proof (Z.mod_pos_bound n (2^32) ltac:(lia)). lia.
Qed.
Lemma input_prop_lemma : forall s ws room out, splits (S ";") s ws -> parse_input_prop prop_from_name s room = Some out ->
  (0 < length ws <= 32)%nat /\ length out = Nat.min room (length ws) /\ Forall (fun p => 0 <= p <= 31) out.
Proof.
  intros s ws room out HS H. destruct (strv_lemma (S ";") s) as (ws' & _ & HU & HE). rewrite <- (HU ws HS) in HE. clear HU ws'.
  unfold parse_input_prop in H. rewrite HE in H. destruct ws as [|w ws]; [discriminate|]. set (l := w :: ws) in *.
  destruct (Nat.ltb 32 (length l)) eqn:EL; [discriminate|]. apply Nat.ltb_ge in EL.
  destruct (map_all _ l) as [o|] eqn:EM; [|discriminate]. injection H as <-. apply map_all_ok in EM.
  pose proof (F2_len _ _ _ EM) as LL. split; [split; [cbn; lia|auto]|]. split.
  - rewrite firstn_length, <- LL. apply Nat.min_l. apply Nat.le_min_r.
  - apply Forall_forall. intros p I.
    assert (I' : In p o). { rewrite <- (firstn_skipn (Nat.min room (length l)) o). apply in_or_app; auto. }
    clear - EM I' props_ok. induction EM as [|x y l o E F IH]; [destruct I'|]. destruct I' as [->|I']; auto.
    eapply input_prop_word_ok; eauto.
Qed.
End Names.
