Require Import Coq.Strings.Ascii Coq.Strings.String Coq.ZArith.ZArith Coq.Lists.List Coq.Bool.Bool Coq.micromega.Lia.
Require Import Verif.Str_Model Verif.Str_Spec.
Import ListNotations.
Open Scope Z_scope.

Definition base_ok (base : Z) : Prop := base = 8 \/ base = 10 \/ base = 16.

(** ** Characters: all 256 are checked *)
Definition bools : list bool := [true; false].
Definition all_ascii : list ascii :=
  flat_map (fun a => flat_map (fun b => flat_map (fun c => flat_map (fun d => flat_map (fun e => flat_map (fun f =>
  flat_map (fun g => map (fun h => Ascii a b c d e f g h) bools) bools) bools) bools) bools) bools) bools) bools.
Lemma all_ascii_ok : forall c, In c all_ascii.
Proof.
  assert (B : forall b, In b bools) by (intros []; cbn; auto).
  intros [a b c d e f g h]. unfold all_ascii.
  apply in_flat_map. exists a. split; [apply B|]. apply in_flat_map. exists b. split; [apply B|].
  apply in_flat_map. exists c. split; [apply B|]. apply in_flat_map. exists d. split; [apply B|].
  apply in_flat_map. exists e. split; [apply B|]. apply in_flat_map. exists f. split; [apply B|].
  apply in_flat_map. exists g. split; [apply B|]. apply in_map_iff. exists h. split; [reflexivity|apply B].
Qed.
Lemma by_ascii : forall p : ascii -> bool, forallb p all_ascii = true -> forall c, p c = true.
Proof. intros p H c. rewrite forallb_forall in H. apply H, all_ascii_ok. Qed.

Definition opt_eqb (a b : option ascii) : bool :=
  match a, b with Some x, Some y => Ascii.eqb x y | _, _ => false end.
Lemma opt_eqb_ok : forall a c, opt_eqb a (Some c) = true -> a = Some c.
Proof. intros [x|] c H; [|discriminate]. apply Ascii.eqb_eq in H. congruence. Qed.

Lemma digit_sound : forall base c v, base_ok base -> digit base c = Some v -> digit_value base c v.
Proof.
  intros base c v HB H.
  assert (G : match digit base c with
    | None => true
    | Some v => (0 <=? v) && (v <? base) && (opt_eqb (nth_error alphabet (Z.to_nat v)) (Some c) || opt_eqb (nth_error alphabet_upper (Z.to_nat v)) (Some c))
    end = true).
  { clear H. revert c. refine (by_ascii _ _). destruct HB as [->|[->| ->]]; vm_compute; reflexivity. }
  rewrite H in G. apply andb_prop in G. destruct G as [G G2]. apply andb_prop in G. destruct G as [G0 G1].
  split; [lia|]. apply orb_prop in G2. destruct G2; [left|right]; apply opt_eqb_ok; auto.
Qed.
Lemma digit_complete : forall base c v, base_ok base -> digit_value base c v -> digit base c = Some v.
Proof.
  intros base c v HB [Hv Hc].
  assert (G : v = 0 \/ v = 1 \/ v = 2 \/ v = 3 \/ v = 4 \/ v = 5 \/ v = 6 \/ v = 7 \/ v = 8 \/ v = 9 \/ v = 10 \/ v = 11 \/ v = 12 \/ v = 13 \/ v = 14 \/ v = 15).
  { destruct HB as [->|[->| ->]]; lia. }
  destruct HB as [->|[->| ->]];
  repeat (destruct G as [->|G]; [try lia; destruct Hc as [Hc|Hc]; vm_compute in Hc; inversion Hc; subst; reflexivity|]);
  subst v; try lia; destruct Hc as [Hc|Hc]; vm_compute in Hc; inversion Hc; subst; reflexivity.
Qed.
Lemma digit_ok : forall base c v, base_ok base -> (digit base c = Some v <-> digit_value base c v).
Proof. split; [apply digit_sound|apply digit_complete]; auto. Qed.

Lemma isspace_ok : forall c, isspace c = true <-> blank c.
Proof.
  intros c.
  assert (G : Bool.eqb (isspace c) (existsb (Ascii.eqb c) (S " " ++ map ascii_of_nat [9; 10; 11; 12; 13]%nat)) = true).
  { revert c. refine (by_ascii _ _). vm_compute. reflexivity. }
  apply eqb_prop in G. rewrite G. unfold blank. rewrite existsb_exists. split.
  - intros (x & I & E). apply Ascii.eqb_eq in E. subst. auto.
  - intros I. exists c. split; auto. apply Ascii.eqb_refl.
Qed.

(** ** Lists *)
Lemma span_skip : forall p s, span p s ++ skip p s = s.
Proof. induction s as [|c s IH]; cbn; auto. destruct (p c); cbn; congruence. Qed.
Lemma span_all : forall p s, Forall (fun c => p c = true) (span p s).
Proof. induction s as [|c s IH]; cbn; auto. destruct (p c) eqn:E; auto. Qed.
Lemma skip_head : forall p s c r, skip p s = c :: r -> p c = false.
Proof. induction s as [|x s IH]; cbn; intros c r H; [discriminate|]. destruct (p x) eqn:E; eauto. congruence. Qed.
Lemma skip_app : forall p a b, Forall (fun c => p c = true) a -> skip p (a ++ b) = skip p b.
Proof. induction a as [|c a IH]; cbn; intros b H; auto. inversion H; subst. rewrite H2. auto. Qed.
Lemma span_app : forall p a b, Forall (fun c => p c = true) a -> span p (a ++ b) = a ++ span p b.
Proof. induction a as [|c a IH]; cbn; intros b H; auto. inversion H; subst. rewrite H2, IH; auto. Qed.
Lemma skip_length : forall p s, (length (skip p s) <= length s)%nat.
Proof. induction s as [|c s IH]; cbn; auto. destruct (p c); cbn; lia. Qed.

(** ** Digit runs *)
Inductive dig (base : Z) : str -> Z -> Z -> Prop :=
| dig_nil : forall n, dig base [] n n
| dig_cons : forall c d r a n, digit base c = Some d -> dig base r (a * base + d) n -> dig base (c :: r) a n.
Lemma dig_inv : forall base c r a n, dig base (c :: r) a n -> exists d, digit base c = Some d /\ dig base r (a * base + d) n.
Proof. intros. inversion H; subst. eauto. Qed.
Lemma dig_app : forall base a b x m n, dig base a x m -> dig base b m n -> dig base (a ++ b) x n.
Proof. intros base a b x m n H. revert b n. induction H; intros b' n' HB; cbn; auto. econstructor; eauto. Qed.
Lemma dig_snoc : forall base a c x n, dig base (a ++ [c]) x n ->
  exists m d, dig base a x m /\ digit base c = Some d /\ n = m * base + d.
Proof.
  induction a as [|y a IH]; cbn; intros c x n H; inversion H; subst.
  - inversion H5; subst. exists x, d. split; [constructor|auto].
  - destruct (IH _ _ _ H5) as (m & d' & A & B & C). exists m, d'. split; [econstructor; eauto|auto].
Qed.
Lemma numeral_dig : forall base s n, base_ok base -> numeral base s n -> s <> [] /\ dig base s 0 n.
Proof.
  intros base s n HB H. induction H.
  - split; [discriminate|]. apply digit_complete in H; auto. econstructor; eauto. replace (0 * base + v) with v by lia. constructor.
  - destruct IHnumeral as [_ G]. split; [destruct s; discriminate|]. eapply dig_app; eauto.
    apply digit_complete in H0; auto. econstructor; eauto. constructor.
Qed.
Lemma dig_numeral : forall base s n, base_ok base -> s <> [] -> dig base s 0 n -> numeral base s n.
Proof.
  intros base s. induction s as [|c s IH] using rev_ind; intros n HB HN H; [congruence|].
  apply dig_snoc in H. destruct H as (m & d & H1 & H2 & ->). apply digit_sound in H2; auto.
  destruct s as [|x s].
  - inversion H1; subst. cbn. constructor. auto.
  - apply num_more; auto. apply IH; auto. discriminate.
Qed.

Lemma digits_sound : forall base s a n r, digits base s a = (n, r) ->
  exists ds, s = ds ++ r /\ dig base ds a n.
Proof.
  induction s as [|c s IH]; cbn; intros a n r H.
  - inversion H; subst. exists []. split; auto. constructor.
  - destruct (digit base c) eqn:E.
    + destruct (IH _ _ _ H) as (ds & -> & D). exists (c :: ds). split; auto. econstructor; eauto.
    + inversion H; subst. exists []. split; auto. constructor.
Qed.
Lemma digits_complete : forall base s a n, dig base s a n -> digits base s a = (n, []).
Proof. intros base s a n H. induction H; cbn; auto. rewrite H. auto. Qed.
Lemma dig_fun : forall base s a n m, dig base s a n -> dig base s a m -> n = m.
Proof. intros. apply digits_complete in H, H0. congruence. Qed.

Lemma x_no_digit : forall x, ((code x =? 120) || (code x =? 88)) = true -> digit 16 x = None.
Proof.
  intros x H. assert (G : (if (code x =? 120) || (code x =? 88) then match digit 16 x with None => true | _ => false end else true) = true).
  { clear H. revert x. refine (by_ascii _ _). vm_compute. reflexivity. }
  rewrite H in G. destruct (digit 16 x); auto; discriminate.
Qed.
Lemma x_prefix : forall z x, ((code z =? 48) && ((code x =? 120) || (code x =? 88))) = true ->
  [z; x] = S "0x" \/ [z; x] = S "0X".
Proof.
  intros z x H. apply andb_prop in H. destruct H as [H1 H2].
  assert (Z1 : Ascii.eqb z "0" = true).
  { assert (G : (if code z =? 48 then Ascii.eqb z "0" else true) = true).
    { clear H1. revert z. refine (by_ascii _ _). vm_compute. reflexivity. } rewrite H1 in G. auto. }
  assert (X1 : (Ascii.eqb x "x" || Ascii.eqb x "X") = true).
  { assert (G : (if (code x =? 120) || (code x =? 88) then (Ascii.eqb x "x" || Ascii.eqb x "X") else true) = true).
    { clear H2. revert x. refine (by_ascii _ _). vm_compute. reflexivity. } rewrite H2 in G. auto. }
  apply Ascii.eqb_eq in Z1. subst. apply orb_prop in X1. destruct X1 as [X|X]; apply Ascii.eqb_eq in X; subst; auto.
Qed.

Lemma magnitude_sound : forall base s n r, base_ok base -> magnitude base s = Some (n, r) ->
  exists pre ds, s = pre ++ ds ++ r /\ In pre (prefixes base) /\ ds <> [] /\ dig base ds 0 n.
Proof.
  intros base s n r HB H.
  assert (P : forall c s', match digit base c with Some _ => Some (digits base (c :: s') 0) | None => None end = Some (n, r) ->
     exists pre ds, c :: s' = pre ++ ds ++ r /\ In pre (prefixes base) /\ ds <> [] /\ dig base ds 0 n).
  { intros c s' G. destruct (digit base c) eqn:E; [|discriminate]. injection G as G.
    cbn in G. rewrite E in G. destruct (digits_sound _ _ _ _ _ G) as (ds & -> & D).
    exists [], (c :: ds). split; [reflexivity|]. split; [left; reflexivity|]. split; [discriminate|].
    econstructor; eauto. }
  unfold magnitude in H. destruct s as [|z [|x [|d s]]]; auto; try discriminate; try (apply (P z); auto; fail).
  destruct ((base =? 16) && (code z =? 48) && ((code x =? 120) || (code x =? 88)) && _) eqn:E; [|apply (P z); auto].
  apply andb_prop in E. destruct E as [E ED]. destruct (digit 16 d) eqn:Ed; [|discriminate].
  rewrite <- andb_assoc in E. apply andb_prop in E. destruct E as [E1 E2]. apply Z.eqb_eq in E1. subst base.
  injection H as H. cbn in H. rewrite Ed in H. destruct (digits_sound _ _ _ _ _ H) as (ds & -> & D).
  exists [z; x], (d :: ds). split; [reflexivity|]. split; [|split; [discriminate|econstructor; eauto]].
  apply x_prefix in E2. unfold prefixes. cbn [Z.eqb Pos.eqb]. destruct E2 as [-> | ->]; cbn [In]; auto.
Qed.
Lemma magnitude_complete : forall base pre ds n, base_ok base -> In pre (prefixes base) -> ds <> [] -> dig base ds 0 n ->
  magnitude base (pre ++ ds) = Some (n, []).
Proof.
  intros base pre ds n HB HP HN HD.
  assert (HD' := digits_complete _ _ _ _ HD).
  destruct HP as [<-|HP].
  - cbn [app]. destruct ds as [|c ds]; [congruence|]. destruct (dig_inv _ _ _ _ _ HD) as (d1 & H2 & H4).
    unfold magnitude. rewrite H2, HD'.
    destruct ds as [|x ds]; auto. destruct ds as [|y ds]; auto.
    destruct (dig_inv _ _ _ _ _ H4) as (d2 & H5 & _).
    destruct ((code x =? 120) || (code x =? 88)) eqn:E.
    + destruct (base =? 16) eqn:E16.
      * apply Z.eqb_eq in E16. subst. rewrite x_no_digit in H5 by auto. discriminate.
      * reflexivity.
    + rewrite andb_false_r. reflexivity.
  - unfold prefixes in HP. destruct (base =? 16) eqn:E16; [|destruct HP]. apply Z.eqb_eq in E16. subst.
    destruct ds as [|c ds]; [congruence|].
    assert (Hc : digit 16 c <> None) by (inversion HD; congruence).
    destruct HP as [<-|[<-|[]]]; cbn [app S list_ascii_of_string magnitude]; rewrite HD';
      destruct (digit 16 c); try congruence; reflexivity.
Qed.

Definition signs_ok : forall sg k, In (sg, k) signs -> (k = 1 \/ k = -1).
Proof. intros sg k [H|[H|[H|[]]]]; inversion H; auto. Qed.

Lemma digit_not_space_sign : forall base c, base_ok base -> digit base c <> None ->
  isspace c = false /\ is_minus c = false /\ is_plus c = false.
Proof.
  intros base c HB H.
  assert (G : (match digit base c with None => true | _ => negb (isspace c) && negb (is_minus c) && negb (is_plus c) end) = true).
  { clear H. revert c. refine (by_ascii _ _). destruct HB as [->|[->| ->]]; vm_compute; reflexivity. }
  destruct (digit base c); [|congruence]. destruct (isspace c), (is_minus c), (is_plus c); auto; discriminate.
Qed.

Lemma scan_sound : forall base s neg n r, base_ok base -> scan base s = Some (neg, n, r) ->
  exists s', s = s' ++ r /\ integer base s' (if neg then - n else n) /\ (length r < length s)%nat.
Proof.
  intros base s neg n r HB H. unfold scan in H.
  destruct (sign (skip isspace s)) as [ng s1] eqn:ES.
  destruct (magnitude base s1) as [[n1 r1]|] eqn:EM; [|discriminate]. injection H as <- <- <-.
  destruct (magnitude_sound _ _ _ _ HB EM) as (pre & ds & -> & HP & HN & HD).
  assert (HS : exists sg k, skip isspace s = sg ++ pre ++ ds ++ r1 /\ In (sg, k) signs /\ (if ng then - n1 else n1) = k * n1).
  { unfold sign in ES. destruct (skip isspace s) as [|c t] eqn:Ek.
    - injection ES as <- EE. exists [], 1. split; [exact EE|]. split; [left; reflexivity|lia].
    - assert (Gm : is_minus c = true -> [c] = S "-").
      { intros M. assert (G : (if is_minus c then Ascii.eqb c "-" else true) = true).
        { clear. revert c. refine (by_ascii _ _). vm_compute. reflexivity. }
        rewrite M in G. apply Ascii.eqb_eq in G. subst. reflexivity. }
      assert (Gp : is_plus c = true -> [c] = S "+").
      { intros M. assert (G : (if is_plus c then Ascii.eqb c "+" else true) = true).
        { clear. revert c. refine (by_ascii _ _). vm_compute. reflexivity. }
        rewrite M in G. apply Ascii.eqb_eq in G. subst. reflexivity. }
      destruct (is_minus c).
      + injection ES as <- ->. exists [c], (-1). rewrite Gm by auto. split; [|split; [right; right; left; reflexivity|lia]].
        rewrite <- Gm by auto. reflexivity.
      + destruct (is_plus c).
        * injection ES as <- ->. exists [c], 1. rewrite Gp by auto. split; [|split; [right; left; reflexivity|lia]].
          rewrite <- Gp by auto. reflexivity.
        * injection ES as <- EE. exists [], 1. split; [exact EE|]. split; [left; reflexivity|lia]. }
  destruct HS as (sg & k & ES2 & HSG & HK).
  exists (span isspace s ++ sg ++ pre ++ ds). split; [|split].
  - rewrite <- (span_skip isspace s) at 1. rewrite ES2. rewrite <- !app_assoc. reflexivity.
  - exists (span isspace s), sg, k, pre, ds, n1. split; auto. split; [|split; auto; split; auto; split; auto].
    + eapply Forall_impl; [|apply span_all]. intros c. apply isspace_ok.
    + apply dig_numeral; auto.
  - pose proof (skip_length isspace s). rewrite ES2 in H. rewrite !app_length in H. destruct ds; [congruence|]. cbn in H. lia.
Qed.

Lemma numeral_nonneg : forall base s n, 0 < base -> numeral base s n -> 0 <= n.
Proof.
  intros base s n HB H. induction H as [c v [Hv _]|s n c v H IH [Hv _]]; [lia|].
  assert (0 <= n * base) by (apply Z.mul_nonneg_nonneg; lia). lia.
Qed.

Lemma scan_complete : forall base s v, base_ok base -> integer base s v ->
  exists neg n, scan base s = Some (neg, n, []) /\ v = (if (neg : bool) then - n else n) /\ s <> [] /\ 0 <= n.
Proof.
  intros base s v HB (ws & sg & k & pre & ds & n & -> & HW & HSG & HP & HD & ->).
  destruct (numeral_dig _ _ _ HB HD) as [HN HD'].
  assert (Hn : 0 <= n).
  { eapply numeral_nonneg; [|exact HD]. destruct HB as [->|[-> | ->]]; lia. }
  assert (HW' : Forall (fun c => isspace c = true) ws).
  { eapply Forall_impl; [|exact HW]. intros c. apply isspace_ok. }
  assert (HF : forall c t, pre ++ ds = c :: t -> isspace c = false /\ is_minus c = false /\ is_plus c = false).
  { intros c t E. destruct HP as [<-|HP].
    - destruct ds as [|d ds]; [congruence|]. inversion E; subst. apply (digit_not_space_sign base); auto.
      inversion HD'; congruence.
    - unfold prefixes in HP. destruct (base =? 16); [|destruct HP].
      destruct HP as [<-|[<-|[]]]; cbn in E; inversion E; subst; auto. }
  assert (HE : pre ++ ds <> []) by (destruct pre; [auto|discriminate]).
  unfold scan. rewrite skip_app by auto.
  assert (SC : exists neg, sign (skip isspace (sg ++ pre ++ ds)) = (neg, pre ++ ds) /\ k * n = (if (neg : bool) then - n else n)).
  { destruct (pre ++ ds) as [|c t] eqn:E; [congruence|]. destruct (HF c t eq_refl) as (F1 & F2 & F3).
    destruct HSG as [HSG|[HSG|[HSG|[]]]]; inversion HSG; subst.
    - exists false. split; [|lia]. cbn. rewrite F1. cbn. rewrite F2, F3. reflexivity.
    - exists false. split; [reflexivity|lia].
    - exists true. split; [reflexivity|lia]. }
  destruct SC as (neg & SC & SV). rewrite SC. rewrite (magnitude_complete base pre ds n); auto.
  exists neg, n. split; auto. split; auto. split; auto.
  destruct ws; [|discriminate]. destruct sg; [|discriminate]. exact HE.
Qed.

Lemma same_false : forall s r, (length r < length s)%nat -> same s r = false.
Proof. intros. unfold same. apply Nat.eqb_neq. lia. Qed.
Lemma same_refl : forall s, same s s = true.
Proof. intros. unfold same. apply Nat.eqb_refl. Qed.

Lemma scan_nonneg : forall base s neg n r, base_ok base -> scan base s = Some (neg, n, r) -> 0 <= n.
Proof.
  intros base s neg n r HB H. unfold scan in H. destruct (sign (skip isspace s)) as [ng s1].
  destruct (magnitude base s1) as [[n1 r1]|] eqn:EM; [|discriminate]. injection H as <- <- <-.
  destruct (magnitude_sound _ _ _ _ HB EM) as (pre & ds & -> & HP & HN & HD).
  apply dig_numeral in HD; auto. eapply numeral_nonneg; eauto. destruct HB as [->|[->| ->]]; lia.
Qed.

Lemma atoi_lemma : forall base s v, base_ok base ->
  (safe_atoi_base base s = Some v <-> integer base s v /\ INT_MIN <= v <= INT_MAX).
Proof.
  intros base s v HB. split.
  - unfold safe_atoi_base, strtol. destruct (scan base s) as [[[neg n] r]|] eqn:E.
    2:{ rewrite same_refl. discriminate. }
    destruct (scan_sound _ _ _ _ _ HB E) as (s' & Es & HI & HL).
    set (x := if neg then - n else n) in *.
    destruct (LONG_MAX <? x); [discriminate|]. destruct (x <? LONG_MIN); [discriminate|].
    rewrite same_false by auto. destruct s as [|c s]; [cbn in HL; lia|]. cbn [nonempty andb].
    destruct r; [|discriminate]. cbn [nonempty].
    destruct ((INT_MAX <? x) || (x <? INT_MIN)) eqn:R; [discriminate|]. intros H. injection H as <-.
    rewrite app_nil_r in Es. subst s'. split; auto. apply orb_false_elim in R. lia.
  - intros [HI HR]. destruct (scan_complete _ _ _ HB HI) as (neg & n & E & -> & HN & _).
    unfold safe_atoi_base, strtol. rewrite E. set (x := if neg then - n else n) in *.
    unfold INT_MIN, INT_MAX in HR.
    replace (LONG_MAX <? x) with false by (symmetry; apply Z.ltb_ge; unfold LONG_MAX; lia).
    replace (x <? LONG_MIN) with false by (symmetry; apply Z.ltb_ge; unfold LONG_MIN; lia).
    rewrite same_false by (destruct s; [congruence|cbn; lia]).
    rewrite andb_false_r. replace ((INT_MAX <? x) || (x <? INT_MIN)) with false; auto.
    symmetry. apply orb_false_intro; apply Z.ltb_ge; unfold INT_MAX, INT_MIN; lia.
Qed.

(** Unsigned: what is accepted, exactly. *)
Lemma atou_lemma : forall base s v, base_ok base ->
  (safe_atou_base base s = Some v <->
   exists n, integer base s n /\ (0 <= n < 2^63 \/ - 2^64 < n < - 2^63) /\ v = n mod 2^32).
Proof.
  intros base s v HB. split.
  - unfold safe_atou_base, strtoul. destruct (scan base s) as [[[neg n] r]|] eqn:E.
    2:{ rewrite same_refl. discriminate. }
    pose proof (scan_nonneg _ _ _ _ _ HB E) as Hn.
    destruct (scan_sound _ _ _ _ _ HB E) as (s' & Es & HI & HL).
    destruct (ULONG_MAX <? n) eqn:EU; [discriminate|].
    rewrite same_false by auto. destruct s as [|c s]; [cbn in HL; lia|]. cbn [nonempty andb].
    destruct r; [|discriminate]. cbn [nonempty]. rewrite app_nil_r in Es. subst s'.
    apply Z.ltb_ge in EU. unfold ULONG_MAX in EU |- *.
    match goal with |- (if LONG_MAX <? ?x then _ else _) = _ -> _ => destruct (LONG_MAX <? x) eqn:EL; [discriminate|] end.
    apply Z.ltb_ge in EL. unfold LONG_MAX in EL.
    intros H. injection H as <-. eexists. split; [exact HI|].
    change (18446744073709551615 + 1) with (2^64) in *. change (2^63) with 9223372036854775808.
    destruct neg.
    + destruct (Z.eq_dec n 0) as [->|Hz]; [split; [left; cbn; lia|reflexivity]|].
      assert (M : (- n) mod 2^64 = 2^64 - n).
      { rewrite Z.mod_opp_l_nz; rewrite ?(Z.mod_small n); lia. }
      split; [right; change (2^64) with 18446744073709551616 in *; lia|]. change 18446744073709551616 with (2^64). rewrite M.
      change 4294967296 with (2^32). replace (2^64 - n) with (- n + 2^32 * 2^32) by lia. apply Z.mod_add. lia.
    + split; [left; lia|reflexivity].
  - intros (n & HI & HR & ->). destruct (scan_complete _ _ _ HB HI) as (neg & m & E & -> & HN & Hm).
    unfold safe_atou_base, strtoul. rewrite E. unfold ULONG_MAX, LONG_MAX.
    change (18446744073709551615 + 1) with (2^64).
    change (2^63) with 9223372036854775808 in HR. 
    replace (18446744073709551615 <? m) with false.
    2:{ symmetry. apply Z.ltb_ge. destruct neg; lia. }
    rewrite same_false by (destruct s; [congruence|cbn; lia]). rewrite andb_false_r.
    destruct neg.
    + destruct (Z.eq_dec m 0) as [->|Hz]; [reflexivity|].
      assert (M : (- m) mod 2^64 = 2^64 - m).
      { rewrite Z.mod_opp_l_nz; rewrite ?(Z.mod_small m); lia. }
      rewrite M. replace (9223372036854775807 <? 2^64 - m) with false by (symmetry; apply Z.ltb_ge; lia).
      f_equal. change 4294967296 with (2^32). replace (2^64 - m) with (- m + 2^32 * 2^32) by lia. apply Z.mod_add. lia.
    + replace (9223372036854775807 <? m) with false by (symmetry; apply Z.ltb_ge; lia). reflexivity.
Qed.

Lemma integer_fun : forall base s v w, base_ok base -> integer base s v -> integer base s w -> v = w.
Proof.
  intros base s v w HB H1 H2. destruct (scan_complete _ _ _ HB H1) as (a & m & E1 & -> & _).
  destruct (scan_complete _ _ _ HB H2) as (b & n & E2 & -> & _).
  rewrite E1 in E2. injection E2 as <- <-. reflexivity.
Qed.
