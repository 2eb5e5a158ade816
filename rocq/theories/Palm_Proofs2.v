(** * Palms: the keyboard's part *)
Require Import Coq.ZArith.ZArith Coq.Lists.List Coq.Bool.Bool Coq.micromega.Lia.
Require Import Verif.Palm_Model Verif.Palm_Spec Verif.Palm_Proofs1.
Import ListNotations.
Open Scope Z_scope.

Local Arguments key_is_modifier : simpl never.
Local Arguments key_ignore_for_dwt : simpl never.
Lemma modifier_iff : forall k, key_is_modifier k = true <-> modifier k.
Proof.
  intros k. unfold key_is_modifier, modifier. rewrite existsb_exists. split.
  - intros [x [I E]]. apply Z.eqb_eq in E. subst x. cbn in *. tauto.
  - intros I. exists k. split; [cbn in *; tauto | apply Z.eqb_refl].
Qed.
Lemma modifier_iff2 : forall k, existsb (Z.eqb k) [29; 97; 56; 100; 42; 54; 125; 126; 464; 58; 15; 127] = key_is_modifier k.
Proof.
  intros k. apply eq_true_iff_eq. rewrite modifier_iff. unfold modifier. rewrite existsb_exists. split.
  - intros [x [I E]]. apply Z.eqb_eq in E. subst x. exact I.
  - intros I. exists k. split; [exact I | apply Z.eqb_refl].
Qed.
Lemma typewriter_not_ignored : forall k, typewriter k -> key_ignore_for_dwt k = false /\ key_is_modifier k = false.
Proof.
  intros k [L N]. assert (M : key_is_modifier k = false) by (destruct (key_is_modifier k) eqn:E; [exfalso; apply N; apply modifier_iff; exact E | reflexivity]).
  split; [| exact M]. unfold key_ignore_for_dwt. rewrite M. apply Z.leb_gt. exact L.
Qed.
Lemma not_typewriter : forall k, ~ typewriter k -> key_ignore_for_dwt k = true \/ key_is_modifier k = true.
Proof.
  intros k N. destruct (key_is_modifier k) eqn:M; [right; reflexivity | left]. unfold key_ignore_for_dwt. rewrite M. apply Z.leb_le.
  destruct (Z_lt_le_dec k 59) as [L|L]; [exfalso; apply N; split; [exact L |] | exact L]. intro Z. apply modifier_iff in Z. congruence.
Qed.
Lemma clear_bit_remove : forall k l, clear_bit k l = remove Z.eq_dec k l.
Proof.
  intros k l. unfold clear_bit. induction l as [|x l IH]; [reflexivity |]. cbn. destruct (Z.eqb_spec x k) as [E|E]; destruct (Z.eq_dec k x) as [E'|E']; cbn; try congruence; try (exfalso; congruence).
Qed.

(** ** What the keyboard's state says about the history *)
Lemma dwt_run : forall l k, on (krun k l) = dwt_after (on k) l.
Proof.
  induction l as [|i l IH]; intros k; [reflexivity |]. cbn [krun]. rewrite IH.
  destruct i; cbn [kstep dwt_after]; try reflexivity.
  - unfold keyboard_event. destruct p; cbn; [| reflexivity]. destruct (on k) eqn:O; cbn; [| rewrite ?O; reflexivity].
    destruct (key_ignore_for_dwt k0); cbn; [rewrite ?O; reflexivity |]. destruct (key_is_modifier k0); cbn; [rewrite ?O; reflexivity |]. destruct (_ && _); cbn; rewrite ?O; reflexivity.
  - destruct (due _ t); [| reflexivity]. unfold keyboard_timeout. destruct (_ && _); reflexivity.
Qed.
Lemma dwt_after_app : forall a b x, dwt_after x (a ++ b) = dwt_after (dwt_after x a) b.
Proof. induction a as [|i a IH]; intros b x; [reflexivity |]. destruct i; cbn; apply IH. Qed.
Lemma mods_run : forall l k, mods (krun k l) = mods_from (on k) (mods k) l.
Proof.
  induction l as [|i l IH]; intros k; [reflexivity |]. cbn [krun]. rewrite IH.
  destruct i; cbn [kstep mods_from]; try reflexivity.
  - unfold keyboard_event. destruct p; cbn [negb].
    + rewrite modifier_iff2. destruct (on k) eqn:O; cbn [negb]; [| cbn; rewrite ?O; reflexivity].
      unfold key_ignore_for_dwt. destruct (key_is_modifier k0) eqn:M; cbn.
      * rewrite ?O. reflexivity.
      * destruct (KEY_F1 <=? k0); cbn; [rewrite ?O; reflexivity |]. destruct (_ && _); cbn; rewrite ?O; reflexivity.
    + cbn. rewrite clear_bit_remove. reflexivity.
  - destruct (due _ t); [| reflexivity]. unfold keyboard_timeout. destruct (_ && _); reflexivity.
Qed.
Lemma keys_run : forall l k h, (forall i, In i l -> i <> Unplug) -> incl (keys k) h -> incl (keys (krun k l)) (held_from h l).
Proof.
  induction l as [|i l IH]; intros k h N I; [exact I |]. cbn [krun].
  assert (N' : forall j, In j l -> j <> Unplug) by (intros j J; apply N; right; exact J).
  destruct i; cbn [kstep held_from]; try (apply IH; [exact N' | exact I]).
  - unfold keyboard_event. destruct p; cbn [negb].
    + apply IH; [exact N' |]. destruct (negb (on k)); [intros x X; right; apply I; exact X |]. destruct (key_ignore_for_dwt k0); [intros x X; right; apply I; exact X |].
      destruct (key_is_modifier k0); [intros x X; right; apply I; exact X |]. destruct (_ && _); [intros x X; right; apply I; exact X |].
      cbn. intros x [X|X]; [left; exact X | right; apply I; exact X].
    + cbn. apply IH; [exact N' |]. cbn. rewrite clear_bit_remove. intros x X. apply in_remove in X. apply in_in_remove; [tauto | apply I; tauto].
  - destruct (due _ t); [| apply IH; assumption]. unfold keyboard_timeout. destruct (_ && _); apply IH; assumption.
  - exfalso. apply (N Unplug); [left; reflexivity | reflexivity].
Qed.
(** While typing the timer is armed; it is due 500 ms after the last press or timeout, at the latest. *)
Definition armed (r : Z) (k : kbd) : Prop := (typing k = true -> ktimer k <> None) /\ (forall d, ktimer k = Some d -> d <= r + 500000).
Lemma armed_run : forall l k r, armed r k -> by_ r l -> armed r (krun k l).
Proof.
  induction l as [|i l IH]; intros k r A B; [exact A |]. cbn [krun].
  assert (B' : by_ r l) by (intros j J; apply B; right; exact J). pose proof (B i (or_introl eq_refl)) as T. apply IH; [| exact B']. destruct A as [A1 A2].
  destruct i; cbn [kstep]; try (split; assumption).
  - unfold keyboard_event. destruct p; cbn [negb]; [| split; assumption]. destruct (negb (on k)); [split; assumption |].
    destruct (key_ignore_for_dwt k0); [split; assumption |]. destruct (key_is_modifier k0); [split; assumption |]. destruct (_ && _); [split; assumption |].
    split; cbn; [discriminate |]. intros d E. injection E as <-. unfold TIMEOUT_1, TIMEOUT_2. destruct (typing k); lia.
  - destruct (due _ t); [| split; assumption]. unfold keyboard_timeout. destruct (_ && _); split; cbn; try discriminate.
    intros d E. injection E as <-. unfold TIMEOUT_2. lia.
  - split; cbn; [discriminate | exact A2].
Qed.

(** ** Typing *)
Lemma press_types : forall k c t, on k = true -> typewriter c -> mods k = [] -> let k' := fst (keyboard_event k c true t) in
  typing k' = true /\ In c (keys k') /\ last_press k' = t /\ on k' = true /\ (exists d, ktimer k' = Some d /\ t + 200000 <= d).
Proof.
  intros k c t O T M. destruct (typewriter_not_ignored c T) as [I M']. unfold keyboard_event. cbn [negb]. rewrite O. cbn [negb]. rewrite I, M', M. cbn [any_bit]. rewrite andb_false_r. cbn.
  repeat split; [left; reflexivity |]. eexists. split; [reflexivity |]. unfold TIMEOUT_1, TIMEOUT_2. destruct (typing k); lia.
Qed.
Lemma press_types_on : forall k c t, on k = true -> typewriter c -> typing k = true -> let k' := fst (keyboard_event k c true t) in
  typing k' = true /\ In c (keys k') /\ last_press k' = t /\ on k' = true /\ ktimer k' = Some (t + 500000).
Proof.
  intros k c t O T Y. destruct (typewriter_not_ignored c T) as [I M']. unfold keyboard_event. cbn [negb]. rewrite O. cbn [negb]. rewrite I, M', Y. cbn.
  repeat split; left; reflexivity.
Qed.
Lemma typing_stays : forall l k t0 t1, t1 <= t0 + 500000 -> typing k = true -> (exists d, ktimer k = Some d /\ t1 <= d) -> until t0 t1 l ->
  typing (krun k l) = true /\ (exists d, ktimer (krun k l) = Some d /\ t1 <= d).
Proof.
  induction l as [|i l IH]; intros k t0 t1 W Y D U; [split; assumption |]. cbn [krun].
  assert (U' : until t0 t1 l) by (intros j J; apply U; right; exact J). pose proof (U i (or_introl eq_refl)) as X.
  assert (S' : typing (kstep k i) = true /\ exists d, ktimer (kstep k i) = Some d /\ t1 <= d).
  { destruct i; cbn [kstep]; try (split; assumption).
    - unfold keyboard_event. destruct p; cbn [negb]; [| split; assumption]. destruct (negb (on k)); [split; assumption |].
      destruct (key_ignore_for_dwt k0); [split; assumption |]. destruct (key_is_modifier k0); [split; assumption |]. rewrite Y. cbn. split; [reflexivity |].
      eexists. split; [reflexivity |]. unfold TIMEOUT_2. lia.
    - destruct D as [d [E L]]. rewrite E. cbn [due]. replace (d <=? t) with false by (symmetry; apply Z.leb_gt; lia). split; [exact Y |]. exists d. split; assumption.
    - destruct X. }
  destruct S' as [Y' D']. apply (IH _ t0 t1 W Y' D' U').
Qed.
Lemma held_stays : forall l k c, on k = true -> typing k = true -> In c (keys k) -> (forall i, In i l -> i <> Unplug /\ i <> SetDwt false /\ (forall t, i <> Key c false t)) ->
  typing (krun k l) = true.
Proof.
  induction l as [|i l IH]; intros k c O Y I N; [exact Y |]. cbn [krun].
  assert (N' : forall j, In j l -> j <> Unplug /\ j <> SetDwt false /\ (forall t, j <> Key c false t)) by (intros j J; apply N; right; exact J).
  destruct (N i (or_introl eq_refl)) as [N1 [N2 N3]].
  destruct i; cbn [kstep]; try (apply (IH k c O Y I N')); try contradiction.
  - unfold keyboard_event. destruct p; cbn [negb].
    + destruct (negb (on k)) eqn:O'; [rewrite O in O'; discriminate |]. destruct (key_ignore_for_dwt k0); [apply (IH k c O Y I N') |].
      destruct (key_is_modifier k0); [apply (IH _ c); cbn; assumption |]. rewrite Y. cbn. apply (IH _ c); cbn; try assumption; try reflexivity. right. exact I.
    + cbn. apply (IH _ c); cbn; try assumption. unfold clear_bit. apply filter_In. split; [exact I |]. apply negb_true_iff, Z.eqb_neq. intro E. subst k0. apply (N3 t). reflexivity.
  - destruct (due _ t); [| apply (IH k c O Y I N')]. unfold keyboard_timeout. destruct (keys k) as [|x r] eqn:K; [destruct I |]. cbn [any_bit]. rewrite O. cbn.
    apply (IH _ c); cbn; try assumption. reflexivity.
  - destruct b; [| exfalso; apply N2; reflexivity]. apply (IH _ c); cbn; try assumption. reflexivity.
Qed.
Lemma timeout_ends : forall k t r, armed r k -> (on k = true -> keys k = []) -> r + 500000 <= t -> typing (kstep k (KbTimer t)) = false.
Proof.
  intros k t r [A1 A2] K L. cbn. destruct (typing k) eqn:Y.
  - destruct (ktimer k) as [d|] eqn:D; [| exfalso; apply A1; reflexivity]. specialize (A2 d eq_refl). cbn. replace (d <=? t) with true by (symmetry; apply Z.leb_le; lia).
    unfold keyboard_timeout. destruct (on k); [rewrite K by reflexivity |]; reflexivity.
  - destruct (due _ t); [| exact Y]. unfold keyboard_timeout. destruct (_ && _); [exact Y | reflexivity].
Qed.
Lemma no_press_stays : forall l k, typing k = false -> no_press l -> typing (krun k l) = false.
Proof.
  induction l as [|i l IH]; intros k Y N; [exact Y |]. cbn [krun]. assert (N' : no_press l) by (intros c t I; apply (N c t); right; exact I). apply IH; [| exact N'].
  destruct i; cbn [kstep]; try exact Y.
  - destruct p; [exfalso; apply (N k0 t); left; reflexivity | exact Y].
  - destruct (due _ t); [| exact Y]. unfold keyboard_timeout. destruct (_ && _); [exact Y | reflexivity].
  - reflexivity.
Qed.
(** Nothing in [l] is typing *)
Lemma never_typing : forall l k b, on k = b -> typing k = false ->
  (forall l1 c t l2, l = l1 ++ Key c true t :: l2 -> ~ (dwt_after b l1 = true /\ typewriter c /\ mods_from b (mods k) l1 = [])) -> typing (krun k l) = false.
Proof.
  induction l as [|i l IH] using rev_ind; intros k b O Y H; [exact Y |]. rewrite krun_app. cbn [krun].
  assert (P : typing (krun k l) = false).
  { apply (IH k b O Y). intros l1 c t l2 E. apply (H l1 c t (l2 ++ [i])). rewrite E, <- app_assoc. reflexivity. }
  destruct i; cbn [kstep]; try exact P.
  - destruct p; [| exact P]. specialize (H l k0 t [] eq_refl). unfold keyboard_event. cbn [negb]. rewrite dwt_run, O. destruct (dwt_after b l) eqn:D; cbn [negb]; [| exact P].
    destruct (key_ignore_for_dwt k0) eqn:G; [exact P |]. destruct (key_is_modifier k0) eqn:M; [exact P |]. rewrite P. cbn [negb andb].
    rewrite mods_run, O. destruct (mods_from b (mods k) l) eqn:Q; cbn [any_bit]; [| exact P]. exfalso. apply H. split; [reflexivity | split; [| reflexivity]].
    destruct (Z_lt_le_dec k0 59) as [L|L]; [| unfold key_ignore_for_dwt in G; rewrite M in G; apply Z.leb_gt in G; unfold KEY_F1 in G; lia]. split; [exact L |]. intro Z. apply modifier_iff in Z. congruence.
  - destruct (due _ t); [| exact P]. unfold keyboard_timeout. destruct (_ && _); [exact P | reflexivity].
  - reflexivity.
Qed.
