(** Lines of quirk files. *)
Require Import Coq.Strings.Ascii Coq.Strings.String Coq.ZArith.ZArith Coq.QArith.QArith Coq.Lists.List Coq.Bool.Bool Coq.micromega.Lia.
Require Import Verif.Str_Model Verif.Str_Spec Verif.Str_Proofs Verif.Str_Proofs2 Verif.Parse_Model Verif.Quirks_Model Verif.Quirks_Spec.
Import ListNotations.
Open Scope Z_scope.

Lemma blank_ok : forall c, blank_char c = true <-> In c [" "%char; TAB].
Proof.
  intros c. unfold blank_char. rewrite orb_true_iff, !Ascii.eqb_eq. cbn [In]. split; intros [H|H]; auto. destruct H; auto. contradiction.
Qed.
Lemma blank_no : forall c, blank_char c = false <-> ~ In c [" "%char; TAB].
Proof. intros c. rewrite <- blank_ok. destruct (blank_char c); split; intro; congruence. Qed.

(** ** Words and prefixes *)
Lemma S_str : forall key : str, exists k, key = S k.
Proof. intros key. exists (string_of_list_ascii key). unfold S. now rewrite list_ascii_of_string_of_list_ascii. Qed.
Lemma S_inj : forall a b, S a = S b -> a = b.
Proof. intros a b H. unfold S in H. rewrite <- (string_of_list_ascii_of_string a), H. apply string_of_list_ascii_of_string. Qed.

Lemma splits2 : forall line k v, splits (S "=") line [k; v] -> hd LF line <> "="%char ->
  exists r, line = k ++ "="%char :: r /\ none_in (S "=") k /\ k <> [] /\ none_in (S "=") v /\ v <> [].
Proof.
  intros line k v H N. inversion H as [| |g w c s ws A W NW C T]; subst.
  assert (G : g = []).
  { destruct g; auto. inversion A; subst. destruct H2 as [<-|[]]. cbn in N. congruence. }
  subst g. destruct C as [<-|[]]. exists s. repeat split; auto.
  - inversion T; subst; auto.
  - inversion T; subst; auto.
Qed.
Lemma prefix_eq : forall n p k r, none_in (S "=") p -> length p = n -> 
  strneq (k ++ "="%char :: r) p n = strneq k p n.
Proof.
  intros n p k r NP L. unfold strneq. rewrite (firstn_all2 p) by lia.
  destruct (le_lt_dec n (length k)) as [C|C].
  - rewrite firstn_app. replace (n - length k)%nat with O by lia. cbn [firstn]. now rewrite app_nil_r.
  - assert (A : streq (firstn n k) p = false).
    { destruct (streq (firstn n k) p) eqn:E; auto. apply streq_ok in E. rewrite firstn_all2 in E by lia. subst k. lia. }
    rewrite A. destruct (streq (firstn n (k ++ "="%char :: r)) p) eqn:E; auto. apply streq_ok in E. exfalso.
    rewrite firstn_app in E. rewrite (firstn_all2 k) in E by lia.
    destruct (n - length k)%nat eqn:D; [lia|]. cbn [firstn] in E. subst p.
    unfold none_in in NP. rewrite Forall_forall in NP. apply (NP "="%char); [apply in_or_app; right; left; reflexivity|left; reflexivity].
Qed.
Lemma strv_words : forall seps s ws, splits seps s ws -> ws <> [] -> strv_from_string s seps = Some (Some ws).
Proof.
  intros seps s ws H N. destruct (strv_lemma seps s) as (ws' & A & U & E). rewrite (U ws H). rewrite (U ws H) in N. rewrite E. destruct ws'; congruence.
Qed.
Lemma strv_sound : forall seps s ws, strv_from_string s seps = Some (Some ws) -> splits seps s ws.
Proof.
  intros seps s ws H. destruct (strv_lemma seps s) as (ws' & A & U & E). rewrite E in H. destruct ws'; [discriminate|]. congruence.
Qed.
Lemma streq_refl : forall s, streq s s = true.
Proof. intros. now apply streq_ok. Qed.
Lemma streq_no : forall a b, streq a b = false <-> a <> b.
Proof. intros a b. destruct (streq a b) eqn:E; rewrite ?streq_ok in E; split; try congruence. intros _ C. apply streq_ok in C. congruence. Qed.

(** ** Removing comments *)
Lemma rstrip_spec : forall s, exists b, s = rstrip s ++ b /\ Forall (fun c => In c [" "%char; TAB]) b /\ ~ In (last (rstrip s) LF) [" "%char; TAB].
Proof.
  induction s as [|c s (b & E & F & L)]; cbn [rstrip].
  - exists []. repeat split; auto. cbn. intros [H|[H|[]]]; discriminate.
  - destruct (blank_char c && negb (nonempty (rstrip s))) eqn:B.
    + apply andb_true_iff in B. destruct B as [B N]. destruct (rstrip s) eqn:R; [|discriminate].
      exists (c :: b). repeat split.
      * cbn. now rewrite E.
      * constructor; auto. now apply blank_ok.
      * cbn. intros [H|[H|[]]]; discriminate.
    + exists b. split; [cbn; now rewrite <- E|]. split; auto.
      destruct (rstrip s) eqn:R.
      * cbn [last]. apply blank_no. destruct (blank_char c); auto.
      * exact L.
Qed.
Lemma rstrip_id : forall l b, Forall (fun c => In c [" "%char; TAB]) b -> ~ In (last l LF) [" "%char; TAB] -> rstrip (l ++ b) = l.
Proof.
  induction l as [|c l IH]; intros b B L; cbn [app].
  - induction B as [|c b H _ IHb]; cbn [rstrip]; auto. rewrite IHb. apply blank_ok in H. now rewrite H.
  - cbn [rstrip]. destruct l as [|d l].
    + rewrite (IH b B); [|cbn; intros [H|[H|[]]]; discriminate]. cbn [nonempty negb]. cbn in L.
      assert (blank_char c = false) as ->; [|reflexivity]. apply blank_no. exact L.
    + rewrite (IH b B L). cbn [nonempty negb]. now rewrite andb_false_r.
Qed.
Lemma existsb_In : forall c (l : str), existsb (Ascii.eqb c) l = true <-> In c l.
Proof.
  intros c l. rewrite existsb_exists. split.
  - intros (x & I & E). apply Ascii.eqb_eq in E. now subst.
  - intros I. exists c. split; auto. apply Ascii.eqb_refl.
Qed.
Lemma existsb_notIn : forall c (l : str), existsb (Ascii.eqb c) l = false <-> ~ In c l.
Proof. intros c l. rewrite <- existsb_In. destruct (existsb (Ascii.eqb c) l); split; intro; congruence. Qed.
Lemma notin_Forall : forall c (l : str), ~ In c l -> Forall (fun x => negb (Ascii.eqb x c) = true) l.
Proof.
  intros c l H. apply Forall_forall. intros x I. apply negb_true_iff. apply Ascii.eqb_neq. intros ->. contradiction.
Qed.
Lemma span_stop : forall c (l r : str), ~ In c l -> span (fun x => negb (Ascii.eqb x c)) (l ++ c :: r) = l.
Proof.
  intros c l r H. rewrite span_app by (apply notin_Forall; auto). cbn. rewrite Ascii.eqb_refl. cbn. apply app_nil_r.
Qed.
Lemma span_id : forall c (l : str), ~ In c l -> span (fun x => negb (Ascii.eqb x c)) l = l.
Proof.
  intros c l H. rewrite <- (app_nil_r l) at 1. rewrite span_app by (apply notin_Forall; auto). cbn. apply app_nil_r.
Qed.
Lemma in_split_first : forall c (l : str), In c l -> exists a b, l = a ++ c :: b /\ ~ In c a.
Proof.
  intros c l. induction l as [|x l IH]; intros [].
  - subst. exists [], l. split; auto.
  - destruct (ascii_dec x c) as [->|N].
    + exists [], l. split; auto.
    + destruct (IH H) as (a & b & -> & NA). exists (x :: a), b. split; auto. intros [E|E]; auto.
Qed.
Lemma strip_uncomment : forall l, ~ In LF l -> uncomment l (strip_line l).
Proof.
  intros l N. unfold strip_line. destruct (existsb (Ascii.eqb "#") l) eqn:E.
  - apply existsb_In in E. destruct (in_split_first _ _ E) as (a & t & -> & NA).
    rewrite span_stop by auto. destruct (rstrip_spec a) as (b & EA & FB & LB).
    rewrite EA at 1. rewrite <- app_assoc. apply un_some; auto. rewrite <- EA. exact NA.
  - apply existsb_notIn in E. rewrite span_id by auto. now constructor.
Qed.
Lemma uncomment_strip : forall l u, ~ In LF l -> uncomment l u -> u = strip_line l.
Proof.
  intros l u N H. unfold strip_line. inversion H as [l' A|l' b t A B C]; subst.
  - apply existsb_notIn in A. rewrite A. now rewrite span_id.
  - assert (existsb (Ascii.eqb "#") (u ++ b ++ S "#" ++ t) = true) as ->.
    { apply existsb_In. rewrite app_assoc. apply in_or_app. right. left. reflexivity. }
    rewrite app_assoc. change (S "#" ++ t) with ("#"%char :: t). rewrite span_stop by auto. symmetry. now apply rstrip_id.
Qed.
Lemma strip_newline : forall l, ~ In LF l -> strip_line (l ++ [LF]) = strip_line l.
Proof.
  intros l N. unfold strip_line. rewrite existsb_app. cbn [existsb]. change (Ascii.eqb "#" LF) with false. rewrite !orb_false_r.
  destruct (existsb (Ascii.eqb "#") l) eqn:E.
  - apply existsb_In in E. destruct (in_split_first _ _ E) as (a & t & -> & NA). rewrite <- app_assoc. cbn [app]. now rewrite !span_stop.
  - rewrite span_stop by auto. now rewrite span_id.
Qed.

(** ** fgets *)
Lemma fgets_line : forall l room cur t, ~ In LF l -> (length l < room)%nat ->
  fgets_all room cur (l ++ LF :: t) = (rev cur ++ l ++ [LF]) :: fgets_all (BUFSIZE - 1) [] t.
Proof.
  induction l as [|c l IH]; intros room cur t N R; cbn [app fgets_all].
  - rewrite Ascii.eqb_refl. cbn [rev]. reflexivity.
  - destruct (Ascii.eqb c LF) eqn:E; [apply Ascii.eqb_eq in E; subst; exfalso; apply N; left; auto|].
    cbn [length] in R. destruct room as [|[|room]]; try lia.
    rewrite IH; [|intro; apply N; right; auto|lia]. cbn [rev]. now rewrite <- app_assoc.
Qed.
Lemma fgets_last : forall l room cur, ~ In LF l -> (length l < room)%nat -> rev cur ++ l <> [] ->
  fgets_all room cur l = [rev cur ++ l].
Proof.
  induction l as [|c l IH]; intros room cur N R E; cbn [fgets_all].
  - rewrite app_nil_r in *. destruct cur; auto. exfalso. now apply E.
  - destruct (Ascii.eqb c LF) eqn:Q; [apply Ascii.eqb_eq in Q; subst; exfalso; apply N; left; auto|].
    cbn [length] in R. destruct room as [|[|room]]; try lia.
    rewrite IH; [|intro; apply N; right; auto|lia|cbn [rev]; destruct (rev cur); discriminate]. cbn [rev]. now rewrite <- app_assoc.
Qed.
Lemma text_read : forall t ls, text_lines t ls -> map strip_line (read_lines t) = map strip_line ls.
Proof.
  intros t ls H. unfold read_lines. change (BUFSIZE - 1)%nat with 511%nat. induction H as [|l NE NL NN LE|l t ls NL NN LE T IH].
  - reflexivity.
  - rewrite fgets_last; [|auto|lia|cbn; auto]. cbn [rev app map]. f_equal. unfold c_string. now rewrite span_id.
  - rewrite fgets_line; [|auto|lia]. cbn [rev app map]. change (BUFSIZE - 1)%nat with 511%nat. rewrite IH. f_equal.
    unfold c_string. rewrite span_id; [now apply strip_newline|].
    intros I. apply in_app_or in I. destruct I as [I|[I|[]]]; auto. discriminate.
Qed.
Lemma text_noLF : forall t ls, text_lines t ls -> Forall (fun l => ~ In LF l) ls.
Proof. induction 1; constructor; auto. Qed.
Lemma uncomments : forall ls us, Forall (fun l => ~ In LF l) ls -> (Forall2 uncomment ls us <-> us = map strip_line ls).
Proof.
  intros ls us H. split.
  - intros F. induction F; auto. inversion H; subst. cbn. f_equal; auto. now apply uncomment_strip.
  - intros ->. induction H; constructor; auto. now apply strip_uncomment.
Qed.
Lemma text_lines_fun : forall t ls ls', text_lines t ls -> text_lines t ls' -> ls = ls'.
Proof.
  assert (K : forall l (t : str) l' t', ~ In LF l -> ~ In LF l' -> l ++ LF :: t = l' ++ LF :: t' -> l = l' /\ t = t').
  { induction l as [|c l IH]; intros t [|c' l'] t' N N' E; cbn in E; inversion E; subst; auto.
    - exfalso. apply N'. left. auto.
    - exfalso. apply N. left. auto.
    - destruct (IH t l' t'); auto; [intro; apply N; right; auto|intro; apply N'; right; auto|]. subst. auto. }
  intros t ls ls' H. revert ls'. induction H as [|l NE NL NN LE|l t ls NL NN LE T IH]; intros ls' H'; inversion H'; subst; auto.
  - congruence.
  - destruct l; discriminate.
  - congruence.
  - exfalso. apply NL. apply in_or_app. right. left. auto.
  - destruct l; discriminate.
  - exfalso. apply H0. apply in_or_app. right. left. auto.
  - destruct (K l t l0 t0) as [-> ->]; auto. f_equal. auto.
Qed.
