Require Import Coq.Strings.Ascii Coq.Strings.String Coq.ZArith.ZArith Coq.Lists.List Coq.Bool.Bool Coq.micromega.Lia.
Require Import Verif.Str_Model Verif.Str_Spec Verif.Str_Proofs.
Import ListNotations.

Lemma in_set_ok : forall seps c, in_set seps c = true <-> In c seps.
Proof.
  intros. unfold in_set. rewrite existsb_exists. split.
  - intros (x & I & E). apply Ascii.eqb_eq in E. subst; auto.
  - intros I. exists c. split; auto. apply Ascii.eqb_refl.
Qed.
Lemma in_set_no : forall seps c, in_set seps c = false <-> ~ In c seps.
Proof. intros. rewrite <- in_set_ok. destruct (in_set seps c); split; congruence. Qed.
Lemma all_in_b : forall seps s, all_in seps s -> Forall (fun c => in_set seps c = true) s.
Proof. intros seps s. apply Forall_impl. intros c. apply in_set_ok. Qed.
Lemma none_in_b : forall seps s, none_in seps s -> Forall (fun c => negb (in_set seps c) = true) s.
Proof. intros seps s. apply Forall_impl. intros c H. apply in_set_no in H. rewrite H. auto. Qed.

Lemma skip_all : forall p s, Forall (fun c => p c = true) s -> skip p s = [].
Proof. intros. rewrite <- (app_nil_r s). rewrite skip_app; auto. Qed.
Lemma skip_stop : forall p c r, p c = false -> skip p (c :: r) = c :: r.
Proof. intros. cbn. rewrite H. auto. Qed.

Lemma next_none : forall seps g, all_in seps g -> exists st, next_word seps g = (None, st).
Proof.
  intros seps g H. unfold next_word. rewrite (skip_all _ _ (all_in_b _ _ H)). destruct g; eauto.
Qed.
Lemma next_some : forall seps g w r, all_in seps g -> w <> [] -> none_in seps w ->
  (r = [] \/ exists c t, r = c :: t /\ In c seps) ->
  next_word seps (g ++ w ++ r) = (Some w, r).
Proof.
  intros seps g w r HG HW HN HR. unfold next_word.
  destruct (g ++ w ++ r) as [|x y] eqn:E.
  { destruct g; [|discriminate]. destruct w; [congruence|discriminate]. }
  rewrite <- E. clear E x y. rewrite (skip_app _ g) by (apply all_in_b; auto).
  destruct w as [|c w]; [congruence|].
  assert (Hc : in_set seps c = false) by (inversion HN; subst; apply in_set_no; auto).
  cbn [app]. rewrite skip_stop by auto.
  change (c :: w ++ r) with ((c :: w) ++ r). rewrite span_app, skip_app by (apply none_in_b; auto).
  destruct HR as [->|(d & t & -> & HD)].
  - cbn. rewrite app_nil_r. reflexivity.
  - apply in_set_ok in HD. rewrite skip_stop by (rewrite HD; auto). cbn [span]. rewrite HD. cbn. rewrite app_nil_r. reflexivity.
Qed.

Lemma loop_complete : forall seps s ws, splits seps s ws -> forall fuel, (length s < fuel)%nat ->
  word_loop fuel seps s = Some ws.
Proof.
  intros seps s ws H. induction H as [g HG|g w HG HW HN|g w c s ws HG HW HN HC HS IH]; intros fuel HF;
    (destruct fuel as [|f]; [lia|]); cbn [word_loop].
  - destruct (next_none seps g HG) as (st & ->). reflexivity.
  - rewrite <- (app_nil_r w) at 1. rewrite next_some; auto.
    assert (0 < length w)%nat by (destruct w; [congruence|cbn; lia]). rewrite app_length in HF.
    destruct f as [|f]; [lia|reflexivity].
  - assert (0 < length w)%nat by (destruct w; [congruence|cbn; lia]).
    rewrite next_some; eauto. rewrite IH; auto. rewrite !app_length in HF. lia.
Qed.
Lemma splits_ex : forall seps s, exists ws, splits seps s ws.
Proof.
  intros seps s. remember (length s) as n eqn:E. assert (L : (length s <= n)%nat) by lia. clear E.
  revert s L. induction n as [|n IH]; intros s L.
  - destruct s; [|cbn in L; lia]. exists []. constructor. constructor.
  - set (g := span (in_set seps) s). set (s1 := skip (in_set seps) s).
    assert (E : s = g ++ s1) by (symmetry; apply span_skip).
    assert (HG : all_in seps g).
    { eapply Forall_impl; [|apply span_all]. intros c. apply in_set_ok. }
    destruct s1 as [|c t] eqn:E1.
    { exists []. rewrite E, app_nil_r. constructor. auto. }
    assert (HC : in_set seps c = false) by (eapply skip_head; exact E1).
    set (p := fun c => negb (in_set seps c)). set (w := span p (c :: t)). set (r := skip p (c :: t)).
    assert (E2 : c :: t = w ++ r) by (symmetry; apply span_skip).
    assert (HW : w <> []) by (unfold w, p; cbn; rewrite HC; discriminate).
    assert (HN : none_in seps w).
    { eapply Forall_impl; [|apply (span_all p)]. unfold p. intros x Hx. apply in_set_no. destruct (in_set seps x); auto; discriminate. }
    destruct r as [|d r'] eqn:Er.
    + exists [w]. rewrite E, E2, app_nil_r. constructor; auto.
    + assert (HD : In d seps).
      { apply skip_head in Er. unfold p in Er. apply in_set_ok. destruct (in_set seps d); auto; discriminate. }
      destruct (IH (d :: r')) as (ws & HS).
      { assert (length s = length g + length w + length (d :: r'))%nat by (rewrite E, E2, !app_length; lia).
        destruct w; [congruence|]. cbn in *. lia. }
      exists (w :: ws). rewrite E, E2. apply sp_cons; auto.
Qed.
Lemma strv_lemma : forall seps s, exists ws, splits seps s ws /\ (forall ws', splits seps s ws' -> ws' = ws) /\
  strv_from_string s seps = Some (match ws with [] => None | _ => Some ws end).
Proof.
  intros seps s. destruct (splits_ex seps s) as (ws & H). exists ws.
  assert (C := loop_complete seps s ws H (Datatypes.S (length s)) ltac:(lia)). split; auto. split.
  - intros ws' H'. assert (C' := loop_complete seps s ws' H' (Datatypes.S (length s)) ltac:(lia)). congruence.
  - unfold strv_from_string. rewrite C. destruct ws; reflexivity.
Qed.

Lemma splits_pre : forall seps g s ws, all_in seps g -> splits seps s ws -> splits seps (g ++ s) ws.
Proof.
  intros seps g s ws HG H. inversion H; subst.
  - constructor. apply Forall_app; auto.
  - rewrite app_assoc. constructor; auto. apply Forall_app; auto.
  - rewrite app_assoc. constructor; auto. apply Forall_app; auto.
Qed.
Lemma join_splits : forall seps j ws, ws <> [] -> j <> [] -> all_in seps j ->
  Forall (fun w => w <> [] /\ none_in seps w) ws -> splits seps (join ws j) ws.
Proof.
  intros seps j ws HW HJ HA HF. induction ws as [|w ws IH]; [congruence|].
  inversion HF as [|? ? [H1 H2] H3]; subst. destruct ws as [|v ws].
  - cbn. apply (sp_last seps [] w); auto. constructor.
  - change (join (w :: v :: ws) j) with (w ++ j ++ join (v :: ws) j).
    destruct j as [|c j]; [congruence|]. inversion HA; subst.
    apply (sp_cons seps [] w c (j ++ join (v :: ws) (c :: j))); auto; [constructor|].
    change (c :: j ++ join (v :: ws) (c :: j)) with ((c :: j) ++ join (v :: ws) (c :: j)).
    apply splits_pre; auto. apply IH; auto. discriminate.
Qed.
Lemma roundtrip_lemma : forall seps j ws s, j <> [] -> all_in seps j ->
  Forall (fun w => w <> [] /\ none_in seps w) ws ->
  strv_join ws j = Some (Some s) -> strv_from_string s seps = Some (Some ws).
Proof.
  intros seps j ws s HJ HA HF H. unfold strv_join in H. destruct ws as [|w ws]; [discriminate|].
  destruct (_ && _); [|discriminate]. assert (E : s = join (w :: ws) j) by congruence. subst s. clear H.
  destruct (strv_lemma seps (join (w :: ws) j)) as (ws' & H1 & H2 & H3). rewrite H3.
  rewrite <- (H2 (w :: ws)); [reflexivity|]. apply join_splits; auto; discriminate.
Qed.

(** ** The rest *)
Lemma keep_ok : forall what s, exists b, s = keep_to_last what s ++ b /\ all_in what b /\
  (keep_to_last what s = [] \/ exists k c, keep_to_last what s = k ++ [c] /\ ~ In c what).
Proof.
  induction s as [|c s (b & E & HB & HK)]; cbn.
  - exists []. split; auto. split; [constructor|auto].
  - destruct (keep_to_last what s) as [|k0 k] eqn:EK.
    + cbn [nonempty negb andb]. rewrite andb_true_r. cbn in E. subst s.
      destruct (in_set what c) eqn:EC.
      * exists (c :: b). split; auto. split; auto. constructor; auto. apply in_set_ok; auto.
      * exists b. split; auto. split; auto. right. exists [], c. split; auto. apply in_set_no; auto.
    + cbn [nonempty negb]. rewrite andb_false_r. exists b. split; [cbn in *; congruence|]. split; auto.
      right. destruct HK as [HK|(k1 & x & HK & HX)]; [discriminate|]. exists (c :: k1), x. split; auto. cbn. congruence.
Qed.
Lemma strip_lemma : forall s what, exists a b, s = a ++ strstrip s what ++ b /\ all_in what a /\ all_in what b /\
  (strstrip s what = [] \/
   (exists c r, strstrip s what = c :: r /\ ~ In c what) /\ exists k d, strstrip s what = k ++ [d] /\ ~ In d what).
Proof.
  intros s what. unfold strstrip. destruct (keep_ok what (skip (in_set what) s)) as (b & E & HB & HK).
  exists (span (in_set what) s), b. rewrite <- E. split; [symmetry; apply span_skip|]. split; [|split; auto].
  - eapply Forall_impl; [|apply span_all]. intros c. apply in_set_ok.
  - destruct HK as [HK|HK]; auto. right. split; auto.
    destruct HK as (k & d & HK & _). rewrite HK in E. 
    destruct (skip (in_set what) s) as [|c r] eqn:ES.
    + destruct k; discriminate.
    + assert (HC := skip_head _ _ _ _ ES). rewrite HK. destruct k as [|k0 k]; cbn in E; inversion E; subst; eexists; eexists; (split; [reflexivity|]); apply in_set_no; auto.
Qed.

Lemma streq_ok : forall a b, streq a b = true <-> a = b.
Proof. intros. unfold streq. destruct (list_eq_dec ascii_dec a b); split; congruence. Qed.
Lemma starts_lemma : forall s p, strstartswith s p = true <-> p <> [] /\ exists r, s = p ++ r.
Proof.
  intros s p. unfold strstartswith, strneq. destruct p as [|c p].
  - split; [discriminate|intros [H _]; congruence].
  - change (Nat.ltb 0 (length (c :: p))) with true. cbn iota. rewrite streq_ok. rewrite (firstn_all (c :: p)). split.
    + intros H. split; [discriminate|]. exists (skipn (length (c :: p)) s). rewrite <- H at 1. symmetry. apply firstn_skipn.
    + intros [_ (r & ->)]. rewrite firstn_app, firstn_all, Nat.sub_diag. cbn [firstn]. apply app_nil_r.
Qed.
Lemma ends_lemma : forall s p, strendswith s p = true <-> p <> [] /\ exists r, s = r ++ p.
Proof.
  intros s p. unfold strendswith, strneq.
  destruct (Nat.eqb (length s) 0) eqn:E1; cbn [orb].
  { apply Nat.eqb_eq in E1. destruct s; [|discriminate]. split; [discriminate|].
    intros [H (r & E)]. destruct p; [congruence|]. destruct r; discriminate. }
  destruct (Nat.eqb (length p) 0) eqn:E2; cbn [orb].
  { apply Nat.eqb_eq in E2. destruct p; [|discriminate]. split; [discriminate|]. intros [H _]; congruence. }
  destruct (Nat.ltb (length s) (length p)) eqn:E3.
  { apply Nat.ltb_lt in E3. split; [discriminate|]. intros [_ (r & ->)]. rewrite app_length in E3. lia. }
  apply Nat.ltb_ge in E3. rewrite streq_ok. rewrite firstn_all. split.
  - intros H. split; [intros ->; discriminate|]. exists (firstn (length s - length p) s).
    rewrite firstn_all2 in H by (rewrite skipn_length; lia).
    rewrite <- (firstn_skipn (length s - length p) s) at 1. rewrite H. reflexivity.
  - intros [_ (r & ->)]. rewrite app_length. replace (length r + length p - length p)%nat with (length r) by lia.
    rewrite skipn_app, skipn_all, Nat.sub_diag. cbn. apply firstn_all.
Qed.

Lemma strrchr_none : forall c s, strrchr c s = None <-> ~ In c s.
Proof.
  induction s as [|x s IH]; cbn; [tauto|]. destruct (strrchr c s) eqn:E.
  - split; [discriminate|]. intros H. exfalso. apply H. right. apply Decidable.not_not; [|intros N; apply IH in N; discriminate].
    destruct (in_dec ascii_dec c s); [left|right]; auto.
  - destruct IH as [IH _]. specialize (IH eq_refl). destruct (Ascii.eqb_spec x c).
    + split; [discriminate|]. intros H. exfalso. auto.
    + split; auto. intros _ [H|H]; auto.
Qed.
Lemma strrchr_some : forall c s t, strrchr c s = Some t <-> exists a b, s = a ++ t /\ t = c :: b /\ ~ In c b.
Proof.
  induction s as [|x s IH]; cbn; intros t.
  - split; [discriminate|]. intros (a & b & E & -> & _). destruct a; discriminate.
  - destruct (strrchr c s) as [u|] eqn:E.
    + split.
      * intros H. injection H as ->. destruct (proj1 (IH t) eq_refl) as (a & b & -> & Et & HN). exists (x :: a), b. auto.
      * intros (a & b & E1 & -> & HN). destruct a as [|y a]; cbn in E1; inversion E1; subst.
        -- exfalso. destruct (proj1 (IH u) eq_refl) as (a' & b' & -> & -> & _). apply HN. apply in_or_app. right. left. auto.
        -- apply (IH (c :: b)). exists a, b. auto.
    + apply strrchr_none in E. destruct (Ascii.eqb_spec x c).
      * subst x. split.
        -- intros H. injection H as <-. exists [], s. auto.
        -- intros (a & b & E1 & -> & HN). destruct a as [|y a]; cbn in E1; [congruence|]. inversion E1; subst.
           exfalso. apply E. apply in_or_app. right. left. auto.
      * split; [discriminate|]. intros (a & b & E1 & -> & HN). destruct a as [|y a]; cbn in E1; inversion E1; subst; [congruence|].
        exfalso. apply E. apply in_or_app. right. left. auto.
Qed.

Lemma basename_lemma : forall s b, safe_basename s = Some b <->
  b <> [] /\ ~ In slash b /\ (s = b \/ exists d, s = d ++ slash :: b).
Proof.
  intros s b. assert (D : s = [] \/ s <> []) by (destruct s; [left|right]; congruence). destruct D as [->|HS].
  - cbn. split; [discriminate|]. intros (H & _ & [H1|(d & H1)]); [congruence|destruct d; discriminate].
  - assert (U : safe_basename s = match strrchr slash s with
       | None => Some s | Some t => match tl t with [] => None | b => Some b end end) by (destruct s; [congruence|reflexivity]).
    rewrite U. clear U. destruct (strrchr slash s) as [t|] eqn:E.
    + apply strrchr_some in E. destruct E as (a & r & -> & -> & HN). cbn [tl]. split.
      * intros H. destruct r as [|x r]; [discriminate|]. injection H as <-. split; [discriminate|]. split; auto. right. eauto.
      * intros (H1 & H2 & H3). assert (r = b).
        { destruct H3 as [<-|(d & H3)]; [exfalso; apply H2; apply in_or_app; right; left; auto|].
          assert (K : strrchr slash (a ++ slash :: r) = Some (slash :: b)).
          { rewrite H3. apply strrchr_some. exists d, b. auto. }
          assert (K2 : strrchr slash (a ++ slash :: r) = Some (slash :: r)) by (apply strrchr_some; exists a, r; auto).
          congruence. }
        subst r. destruct b; [congruence|reflexivity].
    + apply strrchr_none in E. split.
      * intros H. injection H as <-. split; [|split]; auto.
      * intros (H1 & H2 & [->|(d & ->)]); auto. exfalso. apply E. apply in_or_app. right. left. auto.
Qed.
Lemma trunk_lemma : forall s,
  (safe_basename s = None -> trunkname s = []) /\
  forall b, safe_basename s = Some b ->
    (~ In dot b -> trunkname s = b) /\
    (forall t e, b = t ++ dot :: e -> ~ In dot e -> trunkname s = t).
Proof.
  intros s. unfold trunkname. split; [intros ->; auto|]. intros b ->. split.
  - intros H. apply strrchr_none in H. rewrite H. auto.
  - intros t e -> HN. assert (K : strrchr dot (t ++ dot :: e) = Some (dot :: e)) by (apply strrchr_some; exists t, e; auto).
    rewrite K, app_length. replace (length t + length (dot :: e) - length (dot :: e))%nat with (length t) by lia.
    rewrite firstn_app, firstn_all, Nat.sub_diag. cbn. apply app_nil_r.
Qed.
