Require Import Coq.Strings.Ascii Coq.Strings.String Coq.ZArith.ZArith Coq.QArith.QArith Coq.Lists.List Coq.Bool.Bool Coq.micromega.Lia.
Require Import Verif.Str_Model Verif.Str_Spec Verif.Str_Proofs Verif.Str_Proofs2 Verif.Parse_Model Verif.Parse_Spec.
Import ListNotations.
Open Scope Z_scope.

Lemma to_int_fits : forall v, fits_int (to_int v).
Proof.
  intros v. unfold fits_int, to_int. pose proof (Z.mod_pos_bound v 4294967296 ltac:(lia)).
  destruct (v mod 4294967296 <? 2147483648) eqn:E; [apply Z.ltb_lt in E|apply Z.ltb_ge in E]; lia.
Qed.
Lemma to_int_id : forall v, fits_int v -> to_int v = v.
Proof.
  intros v [H1 H2]. unfold to_int. destruct (Z.lt_ge_cases v 0).
  - replace (v mod 4294967296) with (v + 4294967296).
    + replace (v + 4294967296 <? 2147483648) with false by (symmetry; apply Z.ltb_ge; lia). lia.
    + apply (Z.mod_unique v 4294967296 (-1)); lia.
  - rewrite Z.mod_small by lia. replace (v <? 2147483648) with true by (symmetry; apply Z.ltb_lt; lia). reflexivity.
Qed.
Lemma base10 : base_ok 10.
Proof. right; left; reflexivity. Qed.
Local Hint Resolve base10 : core.

(** ** scanf *)
Definition no_digit_head (r : str) : Prop := match r with [] => True | c :: _ => digit 10 c = None end.
Lemma digits_stop : forall s a n r, dig 10 s a n -> no_digit_head r -> digits 10 (s ++ r) a = (n, r).
Proof.
  intros s a n r H HR. induction H; cbn.
  - destruct r as [|c r]; cbn; auto. cbn in HR. rewrite HR. reflexivity.
  - rewrite H. auto.
Qed.
Lemma magnitude10 : forall ds n r, ds <> [] -> dig 10 ds 0 n -> no_digit_head r -> magnitude 10 (ds ++ r) = Some (n, r).
Proof.
  intros ds n r HN HD HR. pose proof (digits_stop _ _ _ _ HD HR) as E. destruct ds as [|c ds]; [congruence|].
  destruct (dig_inv _ _ _ _ _ HD) as (d & Hd & _). unfold magnitude. cbn [app] in *. rewrite E, Hd.
  destruct (ds ++ r) as [|x [|y t]]; reflexivity.
Qed.
Lemma scan10 : forall ws sg k ds n r, Forall blank ws -> In (sg, k) signs -> numeral 10 ds n -> no_digit_head r ->
  exists neg, scan 10 (ws ++ sg ++ ds ++ r) = Some (neg, n, r) /\ k * n = (if (neg : bool) then - n else n).
Proof.
  intros ws sg k ds n r HW HS HN HR. destruct (numeral_dig 10 ds n base10 HN) as [HE HD].
  assert (HW' : Forall (fun c => isspace c = true) ws) by (eapply Forall_impl; [|exact HW]; intros; apply isspace_ok; auto).
  unfold scan. rewrite skip_app by auto.
  assert (SC : exists neg, sign (skip isspace (sg ++ ds ++ r)) = (neg, ds ++ r) /\ k * n = (if (neg : bool) then - n else n)).
  { destruct ds as [|c t]; [congruence|]. destruct (dig_inv _ _ _ _ _ HD) as (d & Hd & _).
    destruct (digit_not_space_sign 10 c base10) as (F1 & F2 & F3); [congruence|].
    destruct HS as [HS|[HS|[HS|[]]]]; inversion HS; subst.
    - exists false. split; [|lia]. cbn. rewrite F1. cbn. rewrite F2, F3. reflexivity.
    - exists false. split; [reflexivity|lia].
    - exists true. split; [reflexivity|lia]. }
  destruct SC as (neg & -> & SV). rewrite (magnitude10 ds n r) by auto. eauto.
Qed.
Lemma scan_d_ok : forall ws sg k ds n r, Forall blank ws -> In (sg, k) signs -> numeral 10 ds n -> no_digit_head r ->
  fits_int (k * n) -> scan_d (ws ++ sg ++ ds ++ r) = Some (k * n, r).
Proof.
  intros ws sg k ds n r HW HS HN HR HF. destruct (scan10 ws sg k ds n r) as (neg & E & EV); auto.
  unfold scan_d. rewrite E, <- EV. unfold fits_int in HF. unfold LONG_MAX, LONG_MIN.
  replace (9223372036854775807 <? k * n) with false by (symmetry; apply Z.ltb_ge; lia).
  replace (k * n <? -9223372036854775808) with false by (symmetry; apply Z.ltb_ge; lia).
  rewrite to_int_id by auto. reflexivity.
Qed.
Lemma scan_d_pos : forall ds n r, positive_int ds n -> no_digit_head r -> scan_d (ds ++ r) = Some (n, r).
Proof.
  intros ds n r (HN & HP & HF) HR. rewrite <- (Z.mul_1_l n). 
  apply (scan_d_ok [] [] 1 ds n r); auto; [left; reflexivity|rewrite Z.mul_1_l; auto].
Qed.
Lemma scan_d_fits : forall s v r, scan_d s = Some (v, r) -> fits_int v.
Proof. intros s v r H. unfold scan_d in H. destruct (scan 10 s) as [[[? ?] ?]|]; [|discriminate]. injection H as <- <-. apply to_int_fits. Qed.
Lemma scan_d_reads : forall s v r, scan_d s = Some (v, r) -> exists t n, s = t ++ r /\ integer 10 t n /\ (fits_int n -> v = n) /\
  (length r < length s)%nat.
Proof.
  intros s v r H. unfold scan_d in H. destruct (scan 10 s) as [[[neg n] r']|] eqn:E; [|discriminate].
  destruct (scan_sound _ _ _ _ _ base10 E) as (t & Es & HI & HL). injection H as <- <-.
  exists t, (if neg then - n else n). split; auto. split; auto. split; auto. intros HF.
  set (x := if neg then - n else n) in *. unfold fits_int in HF. unfold LONG_MAX, LONG_MIN.
  replace (9223372036854775807 <? x) with false by (symmetry; apply Z.ltb_ge; lia).
  replace (x <? -9223372036854775808) with false by (symmetry; apply Z.ltb_ge; lia). apply to_int_id. auto.
Qed.
Lemma scan_c_ok : forall c s r, scan_c c s = Some r <-> s = c :: r.
Proof.
  intros c [|x s] r; unfold scan_c; [split; discriminate|]. destruct (Ascii.eqb_spec x c).
  - subst. split; intros H; injection H as ->; reflexivity.
  - split; [discriminate|]. intros H. injection H as -> ->. congruence.
Qed.

(** ** MOUSE_DPI *)
Lemma dpi_entry_plain : forall ds d r, positive_int ds d -> r = [] \/ (exists t, r = " "%char :: t) ->
  dpi_entry (ds ++ r) = Some (d, 1, r).
Proof.
  intros ds d r HP HR. unfold dpi_entry. rewrite (scan_d_pos ds d r); auto.
  - destruct HR as [->|(t & ->)]; reflexivity.
  - destruct HR as [->|(t & ->)]; cbn; auto.
Qed.
Lemma dpi_entry_rate : forall ds d rs rt r, positive_int ds d -> positive_int rs rt -> r = [] \/ (exists t, r = " "%char :: t) ->
  dpi_entry (ds ++ S "@" ++ rs ++ r) = Some (d, rt, r).
Proof.
  intros ds d rs rt r HP HQ HR. unfold dpi_entry. rewrite (scan_d_pos ds d (S "@" ++ rs ++ r)); auto; [|reflexivity].
  cbn [S list_ascii_of_string app scan_c]. cbn [Ascii.eqb Bool.eqb]. rewrite (scan_d_pos rs rt r); auto.
  destruct HR as [->|(t & ->)]; cbn; auto.
Qed.
Lemma numeral_head : forall ds n, numeral 10 ds n -> exists c t, ds = c :: t /\ isdigit c = true.
Proof.
  intros ds n H. destruct (numeral_dig 10 ds n base10 H) as [HE HD]. destruct ds as [|c t]; [congruence|].
  exists c, t. split; auto. destruct (dig_inv _ _ _ _ _ HD) as (d & Hd & _).
  assert (G : match digit 10 c with None => true | Some _ => isdigit c end = true).
  { clear. revert c. refine (by_ascii _ _). vm_compute. reflexivity. }
  rewrite Hd in G. auto.
Qed.
Lemma digit_plain : forall c, isdigit c = true -> Ascii.eqb c " " = false /\ Ascii.eqb c "*" = false.
Proof.
  intros c H. assert (G : (if isdigit c then negb (Ascii.eqb c " ") && negb (Ascii.eqb c "*") else true) = true).
  { clear. revert c. refine (by_ascii _ _). vm_compute. reflexivity. }
  rewrite H in G. apply andb_prop in G. destruct G as [G1 G2]. apply negb_true_iff in G1, G2. auto.
Qed.
Lemma loop_spaces : forall g fuel s d, all_in (S " ") g -> (length g <= fuel)%nat ->
  dpi_loop fuel (g ++ s) d = dpi_loop (fuel - length g) s d.
Proof.
  induction g as [|c g IH]; intros fuel s d HG HL; cbn [app length].
  - rewrite Nat.sub_0_r. reflexivity.
  - inversion HG as [|? ? HC HG']; subst. destruct HC as [<-|[]]. cbn [length] in HL.
    destruct fuel as [|f]; [lia|]. cbn [dpi_loop]. cbn [Ascii.eqb Bool.eqb]. apply IH; auto. lia.
Qed.
Lemma loop_item : forall f s b d r d0, dpi_item s (b, d) -> r = [] \/ (exists t, r = " "%char :: t) ->
  dpi_loop (Datatypes.S f) (s ++ r) d0 = if b then Some d else dpi_loop f r d.
Proof.
  intros f s b d r d0 HI HR.
  assert (HX : exists u q rt, s ++ r = star b ++ u ++ q /\ (exists c t, u = c :: t /\ isdigit c = true) /\
                dpi_entry (u ++ q) = Some (d, rt, r) /\ 0 < d /\ 0 < rt).
  { inversion HI as [? ds ? HP|? ds ? rs rt HP HQ]; subst.
    - exists ds, r, 1. rewrite <- app_assoc. split; auto. split; [eapply numeral_head; apply HP|].
      split; [apply dpi_entry_plain; auto|]. destruct HP as (_ & HP & _). lia.
    - exists ds, (S "@" ++ rs ++ r), rt. rewrite <- !app_assoc. split; auto. split; [eapply numeral_head; apply HP|].
      split; [apply dpi_entry_rate; auto|]. destruct HP as (_ & HP & _), HQ as (_ & HQ & _). lia. }
  destruct HX as (u & q & rt & -> & (c & t & -> & Hc) & HE & H1 & H2).
  assert (F : forall b', (if (d <=? 0) || (rt <=? 0) || starts_with_c "@" r then Some 0 else if (b' : bool) then Some d else dpi_loop f r d)
     = if b' then Some d else dpi_loop f r d).
  { intros b'. replace (d <=? 0) with false by (symmetry; apply Z.leb_gt; lia). replace (rt <=? 0) with false by (symmetry; apply Z.leb_gt; lia).
    destruct HR as [->|(t' & ->)]; reflexivity. }
  destruct (digit_plain c Hc) as [D1 D2].
  destruct b; cbn [star S list_ascii_of_string app dpi_loop].
  - cbn [Ascii.eqb Bool.eqb andb]. rewrite Hc. cbn [negb]. cbn [app] in HE. rewrite HE. apply (F true).
  - rewrite D1, D2. cbn [andb]. cbn [app] in HE. rewrite HE. apply (F false).
Qed.
Fixpoint pick (l : list (bool * Z)) (v : Z) : Z :=
  match l with [] => v | (b, d) :: r => if b then d else pick r d end.
Lemma loop_text : forall s l, dpi_text s l -> forall fuel d, (length s < fuel)%nat -> dpi_loop fuel s d = Some (pick l d).
Proof.
  intros s l H. induction H as [g HG|g s [b v] HG HI|g s [b v] t l HG HI HT IH]; intros fuel d HF; cbn [pick].
  - rewrite <- (app_nil_r g) at 1. rewrite loop_spaces by (auto; lia). destruct (fuel - length g)%nat eqn:E; [lia|reflexivity].
  - rewrite app_length in HF. rewrite loop_spaces by (auto; lia).
    assert (0 < length s)%nat.
    { inversion HI as [? ? ? [HP _]|? ? ? ? ? [HP _]]; subst; apply numeral_head in HP; destruct HP as (? & ? & -> & _); rewrite !app_length; cbn; lia. }
    destruct (fuel - length g)%nat eqn:E; [lia|]. rewrite <- (app_nil_r s). rewrite (loop_item _ s b v) by auto.
    destruct b; auto. destruct n; [lia|reflexivity].
  - rewrite !app_length in HF. rewrite loop_spaces by (auto; lia).
    assert (0 < length s)%nat.
    { inversion HI as [? ? ? [HP _]|? ? ? ? ? [HP _]]; subst; apply numeral_head in HP; destruct HP as (? & ? & -> & _); rewrite !app_length; cbn; lia. }
    destruct (fuel - length g)%nat eqn:E; [lia|]. rewrite (loop_item _ s b v); auto.
    2:{ right. exists t. reflexivity. }
    destruct b; auto. apply IH. rewrite app_length. lia.
Qed.
Lemma pick_chosen : forall l v d, chosen l v -> pick l d = v.
Proof.
  intros l v d H. revert d. destruct H as [(a & b & -> & HF)|(a & -> & HF)]; induction a as [|[x y] a IH]; intros d; cbn; auto;
    inversion HF; subst; cbn in *; subst; auto.
Qed.
Lemma dpi_wellformed_lemma : forall s l v, dpi_text s l -> chosen l v -> parse_mouse_dpi s = Some v.
Proof.
  intros s l v HT HC. unfold parse_mouse_dpi. rewrite (loop_text s l) by (auto; lia). rewrite (pick_chosen l v); auto.
Qed.
Lemma dpi_blank_lemma : forall s, dpi_text s [] -> parse_mouse_dpi s = Some 0.
Proof. intros s H. unfold parse_mouse_dpi. rewrite (loop_text s []) by (auto; lia). reflexivity. Qed.

Lemma digit10_char : forall c, digit 10 c <> None -> In c (S "0123456789").
Proof.
  intros c H. assert (G : match digit 10 c with None => true | Some _ => existsb (Ascii.eqb c) (S "0123456789") end = true).
  { clear. revert c. refine (by_ascii _ _). vm_compute. reflexivity. }
  destruct (digit 10 c); [|congruence]. apply existsb_exists in G. destruct G as (x & I & E). apply Ascii.eqb_eq in E. subst. auto.
Qed.
Lemma dig_chars : forall s a n, dig 10 s a n -> Forall (fun c => In c (S "0123456789")) s.
Proof. intros s a n H. induction H; constructor; auto. apply digit10_char. congruence. Qed.
Lemma integer_chars : forall t n, integer 10 t n -> Forall dpi_char t.
Proof.
  intros t n (ws & sg & k & pre & ds & m & -> & HW & HS & HP & HN & _).
  assert (pre = []) by (destruct HP as [<-|[]]; auto). subst pre.
  apply Forall_app. split; [eapply Forall_impl; [|exact HW]; intros; left; auto|].
  apply Forall_app. split.
  - destruct HS as [HS|[HS|[HS|[]]]]; inversion HS; subst; repeat constructor; right; cbn; tauto.
  - destruct (numeral_dig 10 ds m base10 HN) as [_ HD]. eapply Forall_impl; [|eapply dig_chars; exact HD].
    intros c HC. right. change (S "0123456789@+-") with (S "0123456789" ++ S "@+-"). apply in_or_app. auto.
Qed.
Lemma dpi_entry_reads : forall p d rt q, dpi_entry p = Some (d, rt, q) -> fits_int d /\
  exists t, p = t ++ q /\ Forall dpi_char t /\ (length q < length p)%nat.
Proof.
  intros p d rt q H. unfold dpi_entry in H. destruct (scan_d p) as [[d' r]|] eqn:E; [|discriminate].
  destruct (scan_d_reads _ _ _ E) as (t & n & -> & HI & _ & HL). pose proof (scan_d_fits _ _ _ E) as HF.
  assert (P : Some (d', 1, r) = Some (d, rt, q) -> fits_int d /\ exists t0, t ++ r = t0 ++ q /\ Forall dpi_char t0 /\ (length q < length (t ++ r))%nat).
  { intros G. injection G as <- <- <-. split; auto. exists t. split; auto. split; auto. eapply integer_chars; eauto. }
  destruct (scan_c "@" r) as [r1|] eqn:E1; auto. destruct (scan_d r1) as [[rate r2]|] eqn:E2; auto.
  injection H as <- <- <-. split; auto. apply scan_c_ok in E1. subst r.
  destruct (scan_d_reads _ _ _ E2) as (t2 & n2 & -> & HI2 & _ & HL2).
  exists (t ++ "@"%char :: t2). split; [rewrite <- app_assoc; reflexivity|]. split.
  - apply Forall_app. split; [eapply integer_chars; eauto|]. constructor; [right; cbn; tauto|eapply integer_chars; eauto].
  - rewrite !app_length in *. cbn [length] in *. rewrite app_length in *. lia.
Qed.
Lemma dpi_loop_range : forall fuel s d, 0 <= d -> fits_int d -> (length s < fuel)%nat ->
  exists v, dpi_loop fuel s d = Some v /\ 0 <= v /\ fits_int v.
Proof.
  induction fuel as [|f IH]; intros s d HD HF HL; [lia|]. cbn [dpi_loop]. destruct s as [|c r]; [eauto|].
  cbn [length] in HL. destruct (Ascii.eqb c " "); [apply IH; auto; lia|].
  assert (Z0 : exists v, Some 0 = Some v /\ 0 <= v /\ fits_int v) by (exists 0; unfold fits_int; repeat split; lia).
  destruct (_ && _); auto. set (p := if Ascii.eqb c "*" then r else c :: r).
  assert (LP : (length p <= Datatypes.S (length r))%nat) by (unfold p; destruct (Ascii.eqb c "*"); cbn; lia).
  destruct (dpi_entry p) as [[[d' rt] q]|] eqn:E; auto. destruct (dpi_entry_reads _ _ _ _ E) as (HF' & t & Et & _ & HL').
  destruct (_ || _) eqn:EO; auto. apply orb_false_elim in EO. destruct EO as [EO _]. apply orb_false_elim in EO. destruct EO as [EO _].
  apply Z.leb_gt in EO. destruct (Ascii.eqb c "*"); [exists d'; split; [auto|split; [lia|auto]]|]. apply IH; auto; lia.
Qed.
Lemma dpi_range_lemma : forall s, exists v, parse_mouse_dpi s = Some v /\ 0 <= v /\ fits_int v.
Proof. intros s. apply dpi_loop_range; [lia|unfold fits_int; lia|lia]. Qed.
Lemma dpi_loop_chars : forall fuel s d v, dpi_loop fuel s d = Some v -> v <> 0 -> ~ In "*"%char s -> Forall dpi_char s.
Proof.
  induction fuel as [|f IH]; intros s d v H HV HS; [discriminate|]. cbn [dpi_loop] in H. destruct s as [|c r]; [constructor|].
  destruct (Ascii.eqb_spec c " ") as [->|NS].
  - constructor; [left; cbn; tauto|]. eapply IH; eauto. intros I; apply HS; right; auto.
  - destruct (Ascii.eqb_spec c "*") as [->|NT]; [exfalso; apply HS; left; auto|]. cbn [andb] in H.
    destruct (dpi_entry (c :: r)) as [[[d' rt] q]|] eqn:E; [|congruence]. destruct (_ || _); [congruence|].
    destruct (dpi_entry_reads _ _ _ _ E) as (_ & t & Et & Ht & _). rewrite Et in HS |- *. apply Forall_app. split; auto.
    eapply IH; eauto. intros I; apply HS. apply in_or_app; auto.
Qed.
Lemma dpi_chars_lemma : forall s v, parse_mouse_dpi s = Some v -> v <> 0 -> ~ In "*"%char s -> Forall dpi_char s.
Proof. intros s v H. eapply dpi_loop_chars. exact H. Qed.

(** ** Wheel *)
Lemma wheel_lemma : forall s v, v <> 0 -> v <> INT_MIN ->
  (parse_wheel s = v <-> integer 10 s v /\ -360 <= v <= 360).
Proof.
  intros s v H0 HM. unfold parse_wheel. split.
  - intros H. destruct (safe_atoi s) as [w|] eqn:E; [|congruence]. apply (atoi_lemma 10 s w base10) in E. destruct E as [HI HR].
    destruct (360 <? c_abs w) eqn:EA; [congruence|]. subst w. split; auto. apply Z.ltb_ge in EA. unfold c_abs in EA.
    unfold INT_MIN, INT_MAX in *. rewrite to_int_id in EA by (unfold fits_int; lia). lia.
  - intros [HI HR]. replace (safe_atoi s) with (Some v).
    2:{ symmetry. apply (atoi_lemma 10 s v base10). split; auto. unfold INT_MIN, INT_MAX. lia. }
    unfold c_abs. rewrite to_int_id by (unfold fits_int; lia). replace (360 <? Z.abs v) with false; auto.
    symmetry. apply Z.ltb_ge. lia.
Qed.

(** ** Dimensions and ranges *)
Lemma dimension_range_lemma : forall s w h, parse_dimension s = Some (w, h) -> 0 < w <= 2147483647 /\ 0 < h <= 2147483647.
Proof.
  intros s w h H. unfold parse_dimension in H. destruct (scan_d s) as [[x r]|] eqn:E1; [|discriminate].
  destruct (scan_c "x" r) as [r1|]; [|discriminate]. destruct (scan_d r1) as [[y r2]|] eqn:E2; [|discriminate].
  destruct (_ || _) eqn:EO; [discriminate|]. injection H as <- <-. apply orb_false_elim in EO. destruct EO as [O1 O2].
  apply Z.leb_gt in O1, O2. apply scan_d_fits in E1, E2. unfold fits_int in *. lia.
Qed.
Lemma dimension_exact_lemma : forall a b w h, positive_int a w -> positive_int b h ->
  parse_dimension (a ++ S "x" ++ b) = Some (w, h).
Proof.
  intros a b w h HA HB. unfold parse_dimension. rewrite (scan_d_pos a w); auto; [|reflexivity].
  cbn [S list_ascii_of_string app scan_c]. cbn [Ascii.eqb Bool.eqb]. rewrite <- (app_nil_r b). rewrite (scan_d_pos b h); auto; [|exact I].
  destruct HA as (_ & HA & _), HB as (_ & HB & _).
  replace (w <=? 0) with false by (symmetry; apply Z.leb_gt; lia). replace (h <=? 0) with false by (symmetry; apply Z.leb_gt; lia). reflexivity.
Qed.
Lemma dimension_reads_lemma : forall s w h, parse_dimension s = Some (w, h) ->
  exists a b r m n, s = a ++ S "x" ++ b ++ r /\ integer 10 a m /\ integer 10 b n /\ (fits_int m -> w = m) /\ (fits_int n -> h = n).
Proof.
  intros s w h H. unfold parse_dimension in H. destruct (scan_d s) as [[x r]|] eqn:E1; [|discriminate].
  destruct (scan_c "x" r) as [r1|] eqn:EC; [|discriminate]. destruct (scan_d r1) as [[y r2]|] eqn:E2; [|discriminate].
  destruct (_ || _) eqn:EO; [discriminate|]. injection H as <- <-. apply scan_c_ok in EC. subst r.
  destruct (scan_d_reads _ _ _ E1) as (a & m & -> & A1 & A2 & _). destruct (scan_d_reads _ _ _ E2) as (b & n & -> & B1 & B2 & _).
  exists a, b, r2, m, n. repeat (split; auto).
Qed.
Lemma range_range_lemma : forall s hi lo, parse_range s = Some (hi, lo) ->
  (s = S "none" /\ hi = 0 /\ lo = 0) \/ (lo < hi /\ fits_int hi /\ fits_int lo).
Proof.
  intros s hi lo H. unfold parse_range, streq in H. destruct (list_eq_dec ascii_dec s (S "none")); [left; split; auto; split; congruence|right].
  destruct (scan_d s) as [[x r]|] eqn:E1; [|discriminate].
  destruct (scan_c ":" r) as [r1|]; [|discriminate]. destruct (scan_d r1) as [[y r2]|] eqn:E2; [|discriminate].
  destruct (x <=? y) eqn:EO; [discriminate|]. injection H as <- <-. apply Z.leb_gt in EO. apply scan_d_fits in E1, E2. auto.
Qed.
Lemma range_exact_lemma : forall sa ka a m sb kb b n, In (sa, ka) signs -> numeral 10 a m -> fits_int (ka * m) ->
  In (sb, kb) signs -> numeral 10 b n -> fits_int (kb * n) ->
  parse_range (sa ++ a ++ S ":" ++ sb ++ b) = if ka * m <=? kb * n then None else Some (ka * m, kb * n).
Proof.
  intros sa ka a m sb kb b n HA1 HA2 HA3 HB1 HB2 HB3. unfold parse_range, streq.
  destruct (list_eq_dec ascii_dec _ (S "none")) as [E|_].
  - exfalso. assert (I : In ":"%char (S "none")).
    { rewrite <- E. apply in_or_app; right. apply in_or_app; right. left; reflexivity. }
    cbn in I. repeat (destruct I as [I|I]; [discriminate|]). exact I.
  - pose proof (scan_d_ok [] sa ka a m (S ":" ++ sb ++ b)) as Y. cbn [app] in Y. rewrite Y; auto; [|reflexivity]. clear Y.
    cbn [S list_ascii_of_string app scan_c]. cbn [Ascii.eqb Bool.eqb].
    rewrite <- (app_nil_r b). pose proof (scan_d_ok [] sb kb b n []) as X. cbn [app] in X. rewrite X; auto. exact I.
Qed.

(** ** EVDEV_ABS *)
Lemma not_colon_ok : forall c, not_colon c = true <-> c <> ":"%char.
Proof. intros c. unfold not_colon. destruct (Ascii.eqb_spec c ":"); cbn; split; congruence. Qed.
Lemma no_colon_b : forall f, no_colon f -> Forall (fun c => not_colon c = true) f.
Proof. intros f H. apply Forall_forall. intros c I. apply not_colon_ok. intros ->. auto. Qed.
Lemma nth_error_nil' : forall {A} i, @nth_error A [] i = None.
Proof. intros A [|i]; reflexivity. Qed.
Lemma abs_loop_spec : forall bits s fs, colon_fields s fs ->
  match abs_loop bits s with
  | Some vs => length vs = bits /\ forall i, (i < bits)%nat -> field_value (nth_error fs i) (nth i vs None)
  | None => exists i, (i < bits)%nat /\ ~ exists v, field_value (nth_error fs i) v
  end.
Proof.
  assert (AT : forall c t, match safe_atoi (c :: t) with Some z => field_value (Some (c :: t)) (Some z) | None => ~ exists v, field_value (Some (c :: t)) v end).
  { intros c t. destruct (safe_atoi (c :: t)) as [z|] eqn:E.
    - apply (atoi_lemma 10 _ z base10) in E. exists z. split; auto.
    - intros (v & z & _ & HZ). assert (X : safe_atoi (c :: t) = Some z) by (apply (atoi_lemma 10 _ z base10); exact HZ). congruence. }
  induction bits as [|b IH]; intros s fs H; cbn [abs_loop]; [split; [auto|intros; lia]|].
  assert (NIL : abs_loop b [] = Some (repeat None b)) by (destruct b; reflexivity).
  destruct H as [f HF|f s fs HF HS].
  - destruct f as [|c t].
    + split; [rewrite repeat_length; reflexivity|]. intros i Hi. destruct i as [|i]; cbn [nth_error].
      * reflexivity.
      * rewrite nth_error_nil'. rewrite nth_repeat. reflexivity.
    + assert (HC : not_colon c = true) by (apply no_colon_b in HF; inversion HF; auto). rewrite HC.
      assert (HP : span not_colon (c :: t) = c :: t).
      { rewrite <- (app_nil_r (c :: t)) at 1. rewrite span_app by (apply no_colon_b; auto). cbn. rewrite app_nil_r. reflexivity. }
      rewrite HP. rewrite skip_all by (apply no_colon_b; auto). cbn [tl]. rewrite NIL. specialize (AT c t).
      destruct (safe_atoi (c :: t)) as [z|]; [|exists 0%nat; split; [lia|exact AT]].
      split; [cbn; rewrite repeat_length; reflexivity|]. intros [|i] Hi; [exact AT|]. cbn [nth_error nth].
      rewrite nth_error_nil', nth_repeat. reflexivity.
  - specialize (IH s fs HS). destruct f as [|c t].
    + cbn [S list_ascii_of_string app]. change (not_colon ":") with false. cbv iota.
      destruct (abs_loop b s) as [vs|].
      * destruct IH as [L F]. split; [cbn; lia|]. intros [|i] Hi; [reflexivity|]. apply F. lia.
      * destruct IH as (i & Hi & N). exists (Datatypes.S i). split; [lia|exact N].
    + cbn [S list_ascii_of_string app].
      assert (HC : not_colon c = true) by (apply no_colon_b in HF; inversion HF; auto). rewrite HC.
      change (c :: t ++ ":"%char :: s) with ((c :: t) ++ ":"%char :: s).
      rewrite span_app, skip_app by (apply no_colon_b; auto). cbn [span skip]. change (not_colon ":") with false. cbv iota.
      cbn [tl]. rewrite app_nil_r. specialize (AT c t).
      destruct (safe_atoi (c :: t)) as [z|]; [|exists 0%nat; split; [lia|exact AT]].
      destruct (abs_loop b s) as [vs|].
      * destruct IH as [L F]. split; [cbn; lia|]. intros [|i] Hi; [exact AT|]. apply F. lia.
      * destruct IH as (i & Hi & N). exists (Datatypes.S i). split; [lia|exact N].
Qed.
Lemma field_value_fun : forall f v w, field_value f v -> field_value f w -> v = w.
Proof.
  intros [[|c t]|] v w H1 H2; cbn in *; try congruence. destruct H1 as (a & -> & A & _), H2 as (b & -> & B & _).
  f_equal. eapply integer_fun; eauto.
Qed.
Lemma abs_exact_lemma : forall s fs, colon_fields s fs ->
  (forall vs, (length s <= 24)%nat -> length vs = 5%nat ->
     (forall i, (i < 5)%nat -> field_value (nth_error fs i) (nth i vs None)) -> parse_abs s = vs) /\
  (((length s > 24)%nat \/ exists i, (i < 5)%nat /\ ~ exists v, field_value (nth_error fs i) v) ->
     parse_abs s = [None; None; None; None; None]).
Proof.
  intros s fs H. pose proof (abs_loop_spec 5 s fs H) as L. unfold parse_abs. split.
  - intros vs HL HV HF. replace (Nat.ltb 24 (length s)) with false by (symmetry; apply Nat.ltb_ge; lia).
    destruct (abs_loop 5 s) as [us|].
    + destruct L as [LU FU]. apply (nth_ext _ _ None None); [congruence|]. intros i Hi. rewrite LU in Hi.
      eapply field_value_fun; eauto.
    + exfalso. destruct L as (i & Hi & N). apply N. eauto.
  - destruct (Nat.ltb 24 (length s)) eqn:E; [reflexivity|]. apply Nat.ltb_ge in E. intros [HX|(i & Hi & N)]; [lia|].
    destruct (abs_loop 5 s) as [us|]; [|reflexivity]. exfalso. apply N. destruct L as [_ F]. eauto.
Qed.
Lemma colon_fields_ex : forall s, exists fs, colon_fields s fs.
Proof.
  intros s. induction s as [|c s (fs & IH)].
  - exists [[]]. constructor. intros [].
  - destruct (ascii_dec c ":").
    + subst. exists ([] :: fs). apply (cf_more []); auto. intros [].
    + inversion IH as [f HF|f t gs HF HT]; subst.
      * exists [c :: s]. constructor. intros [I|I]; auto.
      * exists ((c :: f) :: gs). apply (cf_more (c :: f)); auto. intros [I|I]; auto.
Qed.
