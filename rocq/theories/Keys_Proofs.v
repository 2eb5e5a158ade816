Require Import Coq.ZArith.ZArith Coq.Lists.List Coq.Bool.Bool Coq.micromega.Lia Coq.Logic.FinFun.
Require Import Verif.Keys_Model Verif.Keys_Spec.
Import ListNotations.
Open Scope Z_scope.

Definition b2z (b : bool) : Z := if b then 1 else 0.

Lemma upd_same : forall A (f : Z -> A) c v, upd f c v c = v.
Proof. intros. unfold upd. rewrite Z.eqb_refl. auto. Qed.
Lemma upd_other : forall A (f : Z -> A) c v x, x <> c -> upd f c v x = f x.
Proof. intros. unfold upd. destruct (Z.eqb_spec x c); congruence. Qed.

Lemma key_range : forall c, is_key c = true -> 0 <= c < KEY_CNT.
Proof.
  intros c. unfold is_key, get_key_type, KEY_CNT. destruct (existsb _ _); [discriminate|].
  destruct ((1 <=? c) && (c <=? 248)) eqn:E1; [lia|].
  destruct ((256 <=? c) && (c <=? 337)); [discriminate|].
  destruct ((352 <=? c) && (c <=? 542)) eqn:E2; [lia|].
  destruct ((544 <=? c) && (c <=? 547)); [discriminate|].
  destruct ((560 <=? c) && (c <? 704)) eqn:E3; [lia|].
  destruct ((704 <=? c) && (c <=? 743)); discriminate.
Qed.
Lemma all_codes_spec : forall c, In c all_codes <-> 0 <= c < KEY_CNT.
Proof.
  intros c. unfold all_codes, KEY_CNT. rewrite in_map_iff. split.
  - intros (x & <- & H). apply in_seq in H. lia.
  - intros H. exists (Z.to_nat c). rewrite in_seq. lia.
Qed.

(** Client view along outputs, from a given view. *)
Definition cv (v0 : Z -> bool) (l : list kout) : Z -> bool := fun c => last (key_transitions c l) (v0 c).
Lemma trans_app : forall c a b, key_transitions c (a ++ b) = key_transitions c a ++ key_transitions c b.
Proof. intros. apply flat_map_app. Qed.
Lemma last_default : forall (l : list bool) a b, l <> [] -> last l a = last l b.
Proof. induction l as [|x l IH]; simpl; intros; [congruence|]. destruct l; auto. apply IH; discriminate. Qed.
Lemma last_cons : forall (A : Type) (l : list A) x d, last (x :: l) d = last l x.
Proof.
  induction l as [|y l IH]; intros; auto.
  transitivity (last (y :: l) d); [reflexivity|]. rewrite !IH. reflexivity.
Qed.
Lemma last_app : forall (A : Type) (a b : list A) d, last (a ++ b) d = last b (last a d).
Proof.
  induction a as [|x a IH]; intros; auto.
  rewrite <- app_comm_cons, !last_cons. apply IH.
Qed.
Lemma alternates_app : forall a b e, alternates e a -> alternates (negb (last a (negb e))) b -> alternates e (a ++ b).
Proof.
  induction a as [|x a IH]; intros b e Ha Hb; simpl in *.
  - rewrite negb_involutive in Hb. auto.
  - destruct Ha as [-> Ha]. split; auto. apply IH; auto. rewrite negb_involutive.
    destruct a; auto. rewrite (last_default _ _ e) in Hb by discriminate. auto.
Qed.

Definition KINV (k : kb) (v : Z -> bool) : Prop :=
  k_dead k = false /\ (forall c, k_cnt k c = b2z (v c)) /\ (forall c, k_hw k c = v c) /\
  (forall c, v c = true -> is_key c = true).

Definition good (v : Z -> bool) (l : list kout) : Prop :=
  (forall c, alternates (negb (v c)) (key_transitions c l)) /\ ~ In KAbort l /\ ~ In KBug l /\
  (forall t c p, In (KKey t c p) l -> is_key c = true).
Lemma good_nil : forall v, good v [].
Proof. intros v. repeat split; simpl; auto; try tauto. Qed.
Lemma good_app : forall v a b, good v a -> good (cv v a) b -> good v (a ++ b).
Proof.
  intros v a b (A1 & A2 & A3 & A4) (B1 & B2 & B3 & B4). split; [|split; [|split]].
  - intros c. rewrite trans_app. apply alternates_app; auto. rewrite negb_involutive. apply B1.
  - intros C. apply in_app_or in C. tauto.
  - intros C. apply in_app_or in C. tauto.
  - intros t c p C. apply in_app_or in C. destruct C; eauto.
Qed.
Lemma cv_app : forall v a b c, cv v (a ++ b) c = cv (cv v a) b c.
Proof. intros. unfold cv. rewrite trans_app, last_app. auto. Qed.

Lemma notify_spec : forall k v t c p,
  k_dead k = false -> (forall x, k_cnt k x = b2z (v x)) -> v c = negb p -> is_key c = true ->
  notify_key k t c p = (mkKB (k_hw k) (upd (k_cnt k) c (b2z p)) false, [KKey t c p]).
Proof.
  intros k v t c p Hd Hc Hv Hk. unfold notify_key, update_key_down_count.
  pose proof (key_range c Hk). rewrite Hc, Hv, Hd.
  replace ((0 <=? c) && (c <? KEY_CNT)) with true by (symmetry; lia).
  destruct p; reflexivity.
Qed.
Lemma good1 : forall v t c p, v c = negb p -> is_key c = true -> good v [KKey t c p].
Proof.
  intros v t c p Hv Hk. split; [|split; [|split]].
  - intros x. simpl. destruct (Z.eqb_spec c x); simpl; auto. subst. rewrite Hv, negb_involutive. auto.
  - intros [C|[]]; discriminate.
  - intros [C|[]]; discriminate.
  - intros t' c' p' [C|[]]. congruence.
Qed.
Lemma cv1 : forall v t c p x, cv v [KKey t c p] x = upd v c p x.
Proof. intros. unfold cv, upd. simpl. rewrite (Z.eqb_sym x c). destruct (c =? x); auto. Qed.

Lemma step_key : forall k v t c val, KINV k v ->
  let r := process_key k t c val in
  good v (snd r) /\ (forall x, is_key x = true -> cv v (snd r) x = kernel_step v (EvKey t c val) x) /\
  KINV (fst r) (cv v (snd r)) /\
  snd r = (if negb (val =? 2) && is_key c && negb (Bool.eqb (v c) (negb (val =? 0)))
           then [KKey t c (negb (val =? 0))] else []).
Proof.
  intros k v t c val (Hd & Hc & Hh & Hk). unfold process_key, kernel_step.
  destruct (val =? 2) eqn:E2.
  { simpl. split; [apply good_nil|]. split; auto. split; auto. repeat split; auto. }
  assert (SAME : is_key c = false -> good v [] /\
     (forall x, is_key x = true -> cv v [] x = (if x =? c then negb (val =? 0) else v x)) /\ KINV k (cv v [])).
  { intros Hkc. split; [apply good_nil|]. split; [|repeat split; auto].
    intros x Hx. unfold cv; simpl. destruct (Z.eqb_spec x c); [congruence|auto]. }
  destruct (get_key_type c) eqn:ET.
  1: { assert (is_key c = false) as Hkc by (unfold is_key; rewrite ET; auto). rewrite Hkc. simpl.
       destruct (SAME Hkc) as (A & B & C). auto. }
  2: { assert (is_key c = false) as Hkc by (unfold is_key; rewrite ET; auto). rewrite Hkc. simpl.
       destruct (SAME Hkc) as (A & B & C). auto. }
  assert (is_key c = true) as Hkc by (unfold is_key; rewrite ET; auto). rewrite Hkc, Hh.
  set (p := negb (val =? 0)).
  replace (val =? 0) with (negb p) by (unfold p; rewrite negb_involutive; auto).
  destruct (v c) eqn:Ev, p eqn:Ep; cbn [andb orb negb Bool.eqb fst snd].
  - split; [apply good_nil|]. split; [|split; [repeat split; auto|auto]].
    intros x _. unfold cv; simpl. destruct (Z.eqb_spec x c); congruence.
  - rewrite (notify_spec (mkKB (upd (k_hw k) c false) (k_cnt k) (k_dead k)) v t c false); auto. cbn [fst snd k_hw k_cnt].
    split; [apply good1; auto|]. split; [|split; [|auto]].
    + intros x _. rewrite cv1. reflexivity.
    + unfold KINV; cbn [k_dead k_hw k_cnt]. split; auto.
      split; [|split]; intros x; rewrite ?cv1; unfold upd; destruct (Z.eqb_spec x c); auto; subst; auto.
  - rewrite (notify_spec (mkKB (upd (k_hw k) c true) (k_cnt k) (k_dead k)) v t c true); auto. cbn [fst snd k_hw k_cnt].
    split; [apply good1; auto|]. split; [|split; [|auto]].
    + intros x _. rewrite cv1. reflexivity.
    + unfold KINV; cbn [k_dead k_hw k_cnt]. split; auto.
      split; [|split]; intros x; rewrite ?cv1; unfold upd; destruct (Z.eqb_spec x c); auto; subst; auto.
  - split; [apply good_nil|]. split; [|split; [repeat split; auto|auto]].
    intros x _. unfold cv; simpl. destruct (Z.eqb_spec x c); congruence.
Qed.

Lemma release_spec : forall codes k v t,
  k_dead k = false -> (forall c, k_cnt k c = b2z (v c)) -> (forall c, v c = true -> is_key c = true) ->
  let r := release_keys k t codes in
  good v (snd r) /\ k_dead (fst r) = false /\ (forall c, k_cnt (fst r) c = b2z (cv v (snd r) c)) /\
  (forall c, cv v (snd r) c = if existsb (Z.eqb c) codes then false else v c).
Proof.
  induction codes as [|c0 cs IH]; intros k v t Hd Hc Hk.
  - simpl. split; [apply good_nil|]. auto.
  - cbn [release_keys]. rewrite Hc. unfold b2z at 1.
    destruct (v c0) eqn:Ev.
    + rewrite (Hk c0 Ev). replace (1 =? 0) with false by reflexivity. cbn [negb].
      rewrite (notify_spec k v t c0 false); auto. cbn [k_dead k_cnt].
      rewrite upd_same. change (b2z false) with 0. change (1 <? b2z true) with false. cbn [Z.eqb negb].
      assert (Hx : forall c, upd (k_cnt k) c0 0 c = b2z (upd v c0 false c)).
      { intros c. unfold upd. destruct (c =? c0); auto. }
      destruct (IH (mkKB (k_hw k) (upd (k_cnt k) c0 0) false) (upd v c0 false) t) as (A & B & C & D); auto.
      { intros c. unfold upd. destruct (Z.eqb_spec c c0); [discriminate|auto]. }
      destruct (release_keys _ t cs) as [k2 o2]. cbn [fst snd app] in *.
      assert (E : forall c, cv v (KKey t c0 false :: o2) c = cv (upd v c0 false) o2 c).
      { intros c. change (KKey t c0 false :: o2) with ([KKey t c0 false] ++ o2). rewrite cv_app.
        unfold cv at 1 3. rewrite cv1. auto. }
      split; [|split; [auto|split]].
      * change (KKey t c0 false :: o2) with ([KKey t c0 false] ++ o2). apply good_app; [apply good1; auto|].
        destruct A as (A1 & A2 & A3 & A4). split; [|auto]. intros c. rewrite cv1. apply A1.
      * intros c. rewrite E. apply C.
      * intros c. rewrite E, D. cbn [existsb]. unfold upd. rewrite (Z.eqb_sym c c0).
        rewrite (Z.eqb_sym c0 c). destruct (c =? c0); simpl; auto. destruct (existsb _ _); auto.
    + cbn [Z.eqb]. destruct (IH k v t Hd Hc Hk) as (A & B & C & D). split; auto. split; auto. split; auto.
      intros c. rewrite D. cbn [existsb]. destruct (Z.eqb_spec c c0); simpl; auto. subst. rewrite Ev.
      destruct (existsb _ _); auto.
Qed.

Lemma step_suspend : forall k v t, KINV k v ->
  let r := suspend_keys k t in
  good v (snd r) /\ (forall x, cv v (snd r) x = false) /\ KINV (fst r) (cv v (snd r)).
Proof.
  intros k v t (Hd & Hc & Hh & Hk). unfold suspend_keys.
  destruct (release_spec all_codes k v t Hd Hc Hk) as (A & B & C & D).
  destruct (release_keys k t all_codes) as [k1 o]. cbn [fst snd] in *. rewrite B.
  assert (F : forall x, cv v o x = false).
  { intros x. rewrite D. destruct (existsb (Z.eqb x) all_codes) eqn:E; auto.
    destruct (v x) eqn:Ev; auto. exfalso.
    assert (existsb (Z.eqb x) all_codes = true); [|congruence].
    apply existsb_exists. exists x. rewrite Z.eqb_refl. split; auto.
    apply all_codes_spec, key_range, Hk, Ev. }
  split; auto. split; auto. split; auto. cbn. split; auto. split.
  - intros c. rewrite F. auto.
  - intros c. rewrite F. discriminate.
Qed.

Lemma run_spec : forall ops k v f, KINV k v -> (forall x, is_key x = true -> v x = f x) ->
  let r := krun k ops in
  good v (snd r) /\ KINV (fst r) (cv v (snd r)) /\
  (forall x, is_key x = true -> cv v (snd r) x = fold_left kernel_step ops f x).
Proof.
  induction ops as [|o ops IH]; intros k v f HI Hf.
  - simpl. split; [apply good_nil|]. auto.
  - cbn [krun]. assert (S : good v (snd (kstep k o)) /\ KINV (fst (kstep k o)) (cv v (snd (kstep k o))) /\
      (forall x, is_key x = true -> cv v (snd (kstep k o)) x = kernel_step f o x)).
    { unfold kstep. rewrite (proj1 HI). destruct o as [t c val|t].
      - destruct (step_key k v t c val HI) as (A & B & C & _). split; auto. split; auto.
        intros x Hx. rewrite B by auto. simpl. destruct (val =? 2); auto. destruct (x =? c); auto.
      - destruct (step_suspend k v t HI) as (A & B & C). split; [exact A|split; [exact C|intros x _; apply B]]. }
    destruct S as (S1 & S2 & S3). destruct (kstep k o) as [k1 o1]. cbn [fst snd] in *.
    destruct (IH k1 _ (kernel_step f o) S2 S3) as (A & B & C).
    destruct (krun k1 ops) as [k2 o2]. cbn [fst snd] in *.
    split; [apply good_app; auto|]. split.
    + destruct B as (B1 & B2 & B3 & B4). split; auto. split; [|split]; intros x; rewrite cv_app; auto.
    + intros x Hx. rewrite cv_app. apply C, Hx.
Qed.

Lemma KINV_init : KINV kb_init (fun _ => false).
Proof. repeat split; auto. discriminate. Qed.

Lemma main : forall ops, good (fun _ => false) (snd (krun kb_init ops)) /\
  KINV (fst (krun kb_init ops)) (fun c => client_down c (snd (krun kb_init ops))) /\
  (forall x, is_key x = true -> client_down x (snd (krun kb_init ops)) = kernel_down ops x).
Proof. intros ops. apply (run_spec ops kb_init (fun _ => false) (fun _ => false) KINV_init). auto. Qed.

Lemma alternate_lemma : forall ops c, alternates true (key_transitions c (snd (krun kb_init ops))).
Proof. intros ops c. destruct (main ops) as ((A & _) & _). apply (A c). Qed.
Lemma abort_lemma : forall ops, ~ In KAbort (snd (krun kb_init ops)) /\ ~ In KBug (snd (krun kb_init ops)).
Proof. intros ops. destruct (main ops) as ((_ & A & B & _) & _). auto. Qed.
Lemma track_lemma : forall ops c, client_down c (snd (krun kb_init ops)) = is_key c && kernel_down ops c.
Proof.
  intros ops c. destruct (main ops) as (_ & B & C). destruct (is_key c) eqn:E; simpl; auto.
  destruct B as (_ & _ & _ & B). destruct (client_down c _) eqn:F; auto. rewrite (B c F) in E. discriminate.
Qed.
Lemma step_lemma : forall ops t c val,
  snd (kstep (fst (krun kb_init ops)) (EvKey t c val)) =
  if negb (val =? 2) && is_key c && negb (Bool.eqb (client_down c (snd (krun kb_init ops))) (negb (val =? 0)))
  then [KKey t c (negb (val =? 0))] else [].
Proof.
  intros ops t c val. destruct (main ops) as (_ & B & _). unfold kstep. rewrite (proj1 B).
  apply (step_key _ _ t c val B).
Qed.
Lemma release_exact : forall codes k v t, NoDup codes ->
  k_dead k = false -> (forall c, k_cnt k c = b2z (v c)) -> (forall c, v c = true -> is_key c = true) ->
  snd (release_keys k t codes) = map (fun c => KKey t c false) (filter v codes).
Proof.
  induction codes as [|c0 cs IH]; intros k v t Hn Hd Hc Hk; auto.
  inversion Hn as [|x l N1 N2]; subst. cbn [release_keys filter]. rewrite Hc. unfold b2z at 1.
  destruct (v c0) eqn:Ev.
  - rewrite (Hk c0 Ev). replace (1 =? 0) with false by reflexivity. cbn [negb].
    rewrite (notify_spec k v t c0 false); auto. cbn [k_dead k_cnt].
    rewrite upd_same. change (b2z false) with 0. change (1 <? b2z true) with false. cbn [Z.eqb negb].
    specialize (IH (mkKB (k_hw k) (upd (k_cnt k) c0 0) false) (upd v c0 false) t N2 eq_refl).
    destruct (release_keys _ t cs) as [k2 o2]. cbn [snd app map] in *. f_equal.
    rewrite IH.
    + f_equal. apply filter_ext_in. intros a Ha. apply upd_other. intros ->. contradiction.
    + intros c. unfold k_cnt, upd. destruct (c =? c0); auto.
    + intros c. unfold upd. destruct (c =? c0); [discriminate|auto].
  - cbn [Z.eqb]. apply IH; auto.
Qed.
Lemma all_codes_NoDup : NoDup all_codes.
Proof. unfold all_codes. apply FinFun.Injective_map_NoDup; [|apply seq_NoDup]. intros x y H. lia. Qed.
Lemma suspend_lemma : forall ops t,
  snd (kstep (fst (krun kb_init ops)) (Suspend t)) =
  map (fun c => KKey t c false) (filter (fun c => client_down c (snd (krun kb_init ops))) all_codes).
Proof.
  intros ops t. destruct (main ops) as (_ & B & _). unfold kstep. rewrite (proj1 B).
  destruct B as (B1 & B2 & B3 & B4). unfold suspend_keys.
  pose proof (release_exact all_codes _ _ t all_codes_NoDup B1 B2 B4) as E.
  destruct (release_keys _ t all_codes) as [k1 o]. exact E.
Qed.

(** ** Seat counts *)
Lemma seat_run_app : forall a b cnt, seat_run cnt (a ++ b) =
  (fst (seat_run (fst (seat_run cnt a)) b), snd (seat_run cnt a) ++ snd (seat_run (fst (seat_run cnt a)) b)).
Proof.
  induction a as [|[c p] a IH]; intros b cnt; simpl; [destruct (seat_run cnt b); auto|].
  destruct (seat_count cnt c p) as [cnt1 n]. rewrite IH.
  destruct (seat_run cnt1 a) as [cnt2 ns]. simpl. destruct (seat_run cnt2 b). auto.
Qed.
Lemma unmatched_bounds : forall evs c n, 0 <= n -> 0 <= unmatched n c evs <= n + Z.of_nat (length evs).
Proof.
  induction evs as [|[c' p] evs IH]; intros c n Hn; simpl length; [simpl; lia|].
  cbn [unmatched]. destruct (c' =? c); [destruct p|].
  - specialize (IH c (n + 1)). lia.
  - specialize (IH c (Z.max 0 (n - 1))). lia.
  - specialize (IH c n). lia.
Qed.
Lemma unmatched_app : forall a b c n, unmatched n c (a ++ b) = unmatched (unmatched n c a) c b.
Proof. induction a as [|[c' p] a IH]; intros; simpl; auto. Qed.
Lemma seat_count_spec : forall cnt c p x, 0 <= cnt x < 2 ^ 32 - 1 -> 0 <= cnt c < 2 ^ 32 - 1 ->
  fst (seat_count cnt c p) x = unmatched (cnt x) x [(c, p)] /\ snd (seat_count cnt c p) = unmatched (cnt c) c [(c, p)].
Proof.
  intros cnt c p x Hx Hc. unfold seat_count, unmatched. rewrite Z.eqb_refl.
  destruct p.
  - cbn [fst snd]. unfold upd. rewrite (Z.eqb_sym x c). rewrite Z.mod_small by lia.
    destruct (Z.eqb_spec c x); subst; auto.
  - destruct (Z.eqb_spec (cnt c) 0) as [E|E]; cbn [fst snd].
    + rewrite E. split; auto. destruct (Z.eqb_spec c x); subst; auto. rewrite E. auto.
    + unfold upd. rewrite (Z.eqb_sym x c). destruct (Z.eqb_spec c x); subst; split; auto; lia.
Qed.
Lemma seat_run_spec : forall evs, Z.of_nat (length evs) < 2 ^ 32 - 1 ->
  forall c, fst (seat_run (fun _ => 0) evs) c = unmatched 0 c evs.
Proof.
  induction evs as [|[c p] evs IH] using rev_ind; intros Hl x; auto.
  rewrite app_length in Hl. simpl in Hl. rewrite seat_run_app, unmatched_app. cbn [fst seat_run].
  assert (IH' : forall c, fst (seat_run (fun _ => 0) evs) c = unmatched 0 c evs) by (apply IH; lia).
  pose proof (unmatched_bounds evs c 0). pose proof (unmatched_bounds evs x 0).
  destruct (seat_count_spec (fst (seat_run (fun _ => 0) evs)) c p x) as [S _]; try (rewrite IH'; lia).
  destruct (seat_count _ c p) as [cnt1 n]. cbn [fst] in *. rewrite S, IH'. auto.
Qed.
Lemma seat_lemma : forall evs c p, Z.of_nat (length evs) < 2 ^ 32 - 1 ->
  snd (seat_run (fun _ => 0) (evs ++ [(c, p)])) =
  snd (seat_run (fun _ => 0) evs) ++ [unmatched 0 c (evs ++ [(c, p)])].
Proof.
  intros evs c p Hl. rewrite seat_run_app. cbn [snd seat_run]. rewrite unmatched_app. f_equal.
  pose proof (unmatched_bounds evs c 0).
  destruct (seat_count_spec (fst (seat_run (fun _ => 0) evs)) c p c) as [_ S]; try (rewrite seat_run_spec by lia; lia).
  rewrite (seat_run_spec evs Hl c) in S.
  destruct (seat_count _ c p) as [cnt1 n]. cbn [snd] in *. rewrite S. auto.
Qed.
