(** * The totem: proofs, the invariant *)
Require Import Coq.ZArith.ZArith Coq.QArith.QArith Coq.Lists.List Coq.Bool.Bool Coq.micromega.Lia.
Require Import Verif.Totem_Model Verif.Totem_Spec Verif.Totem_Proofs Verif.Totem_Proofs2.
Import ListNotations.
Open Scope Z_scope.

Definition sst (w o : bool) : sstate := match w, o with false, false => NONE | false, true => BEGIN | true, true => UPDATE | true, false => END end.
Definition rel (c : cfg) (p : place) (s : slot) : Prop :=
  kv s = val p /\ st s = sst (was p) (on p) /\ (was p = true -> (exists t, tool s = Some t) /\ AX c s /\ nothing (chg s) = negb (fresh p)).
Record inv (c : cfg) (W : world) (P : option nat) (w : totem) (O : list out) : Prop := {
  i_cur : cur w = now W; i_kcur : kcur w = now W; i_btn : bnow (g w) = held W;
  i_rel : Forall2 (rel c) (places W) (slots w);
  i_nodup : NoDup (tools (slots w));
  i_bound : forall t, In t (tools (slots w)) -> (t < next (g w))%nat;
  i_live : forall t, lives t O = L t (slots w);
  i_press : pressed O = Some (bprev (g w));
  i_touch : touch w = P;
  i_told : forall d, (P <> Some d \/ arb w = false) -> told d O = None
}.
Lemma f2_upd : forall (R : place -> slot -> Prop) f h i l1 l2, Forall2 R l1 l2 -> (forall p s, nth_error l1 i = Some p -> nth_error l2 i = Some s -> R p s -> R (f p) (h s)) -> Forall2 R (nth_upd i f l1) (at_ i h l2).
Proof. intros R f h i l1 l2 H. revert i. induction H as [|p s l1 l2 X H IH]; intros i K; [destruct i; constructor |]. destruct i; cbn; constructor; auto. Qed.
Lemma at_at : forall f h i l, at_ i f (at_ i h l) = at_ i (fun s => f (h s)) l.
Proof. intros f h. induction i as [|i IH]; intros [|s l]; cbn; try reflexivity. rewrite IH. reflexivity. Qed.
Lemma at_tools : forall h i l, (forall s, tool (h s) = tool s) -> tools (at_ i h l) = tools l.
Proof. intros h i l H. revert i. induction l as [|s l IH]; intros [|i]; cbn; try reflexivity; [unfold tl_; rewrite H; reflexivity | f_equal; apply IH]. Qed.
Lemma at_L : forall t h i l, (forall s, nth_error l i = Some s -> isdn t (h s) = isdn t s) -> L t (at_ i h l) = L t l.
Proof. intros t h i l. revert i. induction l as [|s l IH]; intros [|i] H; cbn [at_]; try reflexivity; rewrite !L_cons; [rewrite (H s eq_refl); reflexivity |]. rewrite IH; [reflexivity |]. exact H. Qed.
Lemma process_tool : forall k v s, tool (process_abs k v s) = tool s. Proof. destruct k; reflexivity. Qed.
Lemma process_kv : forall k v s, kv (process_abs k v s) = kv s. Proof. destruct k; reflexivity. Qed.

Lemma rel_abs : forall c k v p s, rel c p s -> (k = TRACKING_ID -> (0 <= v -> on p = false /\ was p = false) /\ (v < 0 -> on p = true -> was p = true)) ->
  rel c (says k v p) (process_abs k v (set_kv s (kernel k v (kv s)))) /\ dn (st (process_abs k v (set_kv s (kernel k v (kv s))))) = dn (st s).
Proof.
  intros c k v p s [A [B C]] T. unfold rel, says. cbn [val on was fresh]. destruct k; cbn [process_abs is_value];
    try (rewrite orb_true_r; refine (conj (conj _ (conj B _)) eq_refl); [cbn; rewrite A; reflexivity |]; intro W; destruct (C W) as [C1 [[C2 [C3 C4]] C5]]; refine (conj C1 (conj _ _)); [unfold AX; cbn; rewrite ?orb_true_r; refine (conj _ (conj _ _)); auto; discriminate | unfold nothing; cbn; rewrite ?orb_true_r; reflexivity]).
  - destruct (T eq_refl) as [T1 T2]. cbn [st set_st set_kv]. rewrite B. rewrite orb_false_r. unfold tracking. destruct (Z.leb_spec 0 v) as [V|V].
    + destruct (T1 V) as [X Y]. rewrite X, Y. cbn. refine (conj (conj _ (conj eq_refl _)) eq_refl); [rewrite A; reflexivity | discriminate].
    + refine (conj (conj _ (conj _ _)) _); [cbn; rewrite A; reflexivity | | intro W; apply C in W; destruct W as [C1 [C2 C3]]; refine (conj C1 (conj _ C3)); exact C2 |]; destruct (on p) eqn:OP; [rewrite (T2 V eq_refl); reflexivity | destruct (was p); reflexivity | rewrite (T2 V eq_refl); reflexivity | destruct (was p); reflexivity].
  - rewrite orb_false_r. refine (conj (conj _ (conj B _)) eq_refl); [cbn; rewrite A; reflexivity |]. intro W. destruct (C W) as [C1 [C2 C3]]. refine (conj C1 (conj _ C3)). exact C2.
Qed.
Lemma rel_wf : forall c p s, rel c p s -> wf c s.
Proof. intros c p s [A [B C]] D. rewrite B in D. destruct (was p) eqn:W; [destruct (C eq_refl) as [X [Y _]]; auto | destruct (on p); discriminate]. Qed.
Lemma told_o : forall d o z, (forall e, In e o -> exists t, tool_of e = Some t) -> fold_left (told1 d) o z = z.
Proof. intros d o. induction o as [|e o IH]; intros z H; [reflexivity |]. cbn. rewrite IH by (intros; apply H; right; assumption). destruct (H e (or_introl eq_refl)) as [t T]. destruct e; try reflexivity; discriminate. Qed.
Lemma lives_app : forall t a b, lives t (a ++ b) = fold_left (live1 t) b (lives t a). Proof. intros. apply fold_left_app. Qed.
Lemma pressed_app : forall a b, pressed (a ++ b) = fold_left press1 b (pressed a). Proof. intros. apply fold_left_app. Qed.
Lemma told_app : forall d a b, told d (a ++ b) = fold_left (told1 d) b (told d a). Proof. intros. apply fold_left_app. Qed.

(** What set_touch tells *)
Lemma set_touch_ok : forall c w e w2 o, set_touch c w e = (w2, o) -> (e = false -> active (slots w) = true) ->
  cur w2 = cur w /\ kcur w2 = kcur w /\ slots w2 = slots w /\ touch w2 = touch w /\ g w2 = g w /\
  (forall t z, fold_left (live1 t) o z = z) /\ (forall z, fold_left press1 o z = z) /\
  (touch w = None -> w2 = w /\ o = []) /\
  (forall d z, touch w = Some d -> fold_left (told1 d) o z = if e then None else first_rect c (slots w)) /\
  (forall d z, touch w <> Some d -> fold_left (told1 d) o z = z) /\
  (touch w <> None -> arb w2 = negb e).
Proof.
  intros c w e w2 o H K. unfold set_touch in H. destruct (touch w) as [d|] eqn:T.
  - injection H; intros; subst. clear H. cbn [cur kcur slots touch g arb].
    assert (FR : e = false -> exists q, first_rect c (slots w) = Some q).
    { intro E. specialize (K E). unfold active in K. unfold first_rect. destruct (find _ (slots w)) eqn:F; [cbn; eauto |]. exfalso. apply existsb_exists in K. destruct K as [s [S1 S2]]. apply (find_none _ _ F) in S1. congruence. }
    refine (conj eq_refl (conj eq_refl (conj eq_refl (conj eq_refl (conj eq_refl (conj _ (conj _ (conj _ (conj _ (conj _ _)))))))))).
    + intros t z. destruct e; [reflexivity |]. destruct (FR eq_refl) as [q Q]. rewrite Q. destruct (arb w); reflexivity.
    + intros z. destruct e; [destruct z; reflexivity |]. destruct (FR eq_refl) as [q Q]. rewrite Q. destruct (arb w); destruct z; reflexivity.
    + discriminate.
    + intros u z U. injection U; intro; subst u. destruct e; [cbn; rewrite Nat.eqb_refl; reflexivity |]. destruct (FR eq_refl) as [q Q]. rewrite Q. destruct (arb w); cbn; rewrite Nat.eqb_refl; reflexivity.
    + intros u z U. assert (X : Nat.eqb d u = false) by (apply Nat.eqb_neq; congruence). destruct e; [cbn; rewrite X; reflexivity |]. destruct (FR eq_refl) as [q Q]. rewrite Q. destruct (arb w); cbn; rewrite X; reflexivity.
    + intros _. destruct e; [reflexivity |]. destruct (FR eq_refl) as [q Q]. rewrite Q. reflexivity.
  - injection H; intros; subst. refine (conj eq_refl (conj eq_refl (conj eq_refl (conj T (conj eq_refl (conj _ (conj _ (conj _ (conj _ (conj _ _)))))))))); auto; try congruence.
Qed.
Lemma rel_frame : forall c W l l2 o, Forall2 (rel c) W l ->
  Forall2 (fun s s2 => (st s2 = match st s with BEGIN | UPDATE => UPDATE | _ => NONE end) /\ kv s2 = kv s /\ (tool s <> None -> tool s2 = tool s) /\ (st s <> NONE -> tool s2 <> None) /\ (st s2 = UPDATE -> AX c s2 /\ chg s2 = none /\ says_what c (kv s) (ax s2)) /\
     (forall e a, In e o -> axes_of e = Some a -> tool_of e = tool s2 -> st s <> NONE /\ says_what c (kv s) a) /\
     ((exists t tip a d k, tool s2 = Some t /\ In (Axis t tip a d k) o) <-> st s = UPDATE /\ nothing (chg s) = false)) l l2 ->
  Forall2 (rel c) (map frame_end W) l2.
Proof.
  intros c W l l2 o H. revert l2. induction H as [|p s W l R H IH]; intros l2 K; inversion K as [|? s2 ? l3 X Y]; subst; [constructor |]. cbn. constructor; [| apply IH; assumption].
  destruct X as [X1 [X2 [X3 [X4 [X5 _]]]]]. destruct R as [A [B C]]. unfold rel, frame_end. cbn. rewrite B in X1, X4. refine (conj _ (conj _ _)); [congruence | rewrite X1; destruct (was p), (on p); reflexivity |].
  intro O. rewrite O in X1, X4. assert (st s2 = UPDATE) by (rewrite X1; destruct (was p); reflexivity). destruct (X5 H0) as [Z1 [Z2 Z3]]. refine (conj _ (conj Z1 _)); [| rewrite Z2; reflexivity]. destruct (tool s2) as [t|]; [eauto |]. elim X4; [| reflexivity]. destruct (was p); discriminate.
Qed.
Lemma active_on : forall c W l l2, Forall2 (rel c) W l -> Forall2 (fun s s2 : slot => st s2 = match st s with BEGIN | UPDATE => UPDATE | _ => NONE end) l l2 -> active l2 = existsb on W.
Proof.
  intros c W l l2 H. revert l2. induction H as [|p s W l [A [B C]] H IH]; intros l2 K; inversion K as [|? s2 ? l3 X Y]; subst; [reflexivity |]. cbn. rewrite (IH _ Y : existsb _ _ = _). f_equal. rewrite X, B. destruct (was p), (on p); reflexivity.
Qed.
Lemma f2_length : forall A B (R : A -> B -> Prop) l1 l2, Forall2 R l1 l2 -> length l1 = length l2.
Proof. intros A B R l1 l2 H. induction H; cbn; congruence. Qed.
Lemma step_inv : forall c W P w O e w2 o, inv c W P w O -> behaves1 W e -> step c w e = (w2, o) -> inv c (happens W e) (partner1 P e) w2 (O ++ o).
Proof.
  intros c W P w O e w2 o [Ic Ik Ib Ir In1 In2 Il Ip It Io] B H. destruct e; cbn [step happens partner1 behaves1] in *.
  - injection H; intros; subst w2 o. rewrite app_nil_r. assert (X : which (length (slots w)) v = Z.to_nat v). { unfold which. rewrite <- (f2_length _ _ _ _ _ Ir). destruct B as [B1 B2]. apply Z.leb_le in B1. apply Z.ltb_lt in B2. rewrite B1, B2. reflexivity. } rewrite X. split; auto.
  - injection H; intros; subst w2 o. rewrite app_nil_r. rewrite Ic, Ik. rewrite at_at. split; auto; cbn [slots with_slots places].
    + apply f2_upd; [exact Ir |]. intros p s N1 N2 R. apply rel_abs; [exact R |]. intro K. subst c0. destruct B as [q [Q1 [Q2 Q3]]]. rewrite N1 in Q1. injection Q1; intro; subst q. auto.
    + rewrite at_tools; [exact In1 |]. intro s. rewrite process_tool. reflexivity.
    + intro t. rewrite at_tools; [apply In2 |]. intro s. rewrite process_tool. reflexivity.
    + intro t. rewrite Il. symmetry. apply at_L. intros s N2. unfold isdn. rewrite process_tool. cbn [tool set_kv]. destruct (tool s); [| reflexivity]. f_equal.
      assert (exists p, nth_error (places W) (now W) = Some p /\ rel c p s) as [p [N1 R]]. { clear - Ir N2. revert N2. generalize (now W). induction Ir as [|p q l1 l2 X H IH]; intros [|i] N2; cbn in *; try discriminate; [injection N2; intro; subst; eauto |]. apply IH. exact N2. }
      apply (rel_abs c c0 v p s R). intro K. subst c0. destruct B as [q [Q1 [Q2 Q3]]]. rewrite N1 in Q1. injection Q1; intro; subst q. auto.
  - destruct (Z.eqb v 2); injection H; intros; subst w2 o; rewrite app_nil_r; split; auto.
  - destruct (handle_slots c (g w) (slots w)) as [[b l] o1] eqn:H1. destruct (set_touch c _ _) as [w3 o2] eqn:H2. injection H; intros; subst w3 o.
    assert (WF : Forall (wf c) (slots w)) by (clear - Ir; induction Ir as [|? ? ? ? X Y IH]; constructor; [eapply rel_wf; exact X | exact IH]).
    pose proof (handle_all c (slots w) (g w) b l o1 H1 WF In1 In2) as M. destruct M as [mn mx mp mpr mt mnew mnd mo mlv mrel msome].
    destruct (set_touch_ok _ _ _ _ _ H2) as [S1 [S2 [S3 [S4 [S5 [S6 [S7 [S8 [S9 [S10 S11]]]]]]]]]]; [intro X; apply negb_false_iff in X; exact X |]. cbn [with_g with_slots cur kcur slots touch g arb] in *.
    assert (RF : Forall2 (rel c) (map frame_end (places W)) l) by (eapply rel_frame; [exact Ir | exact mrel]).
    split; cbn [now places held]; rewrite ?S3, ?S5; try congruence; try assumption.
    + intro t. rewrite !lives_app, fold_left_app, Il, mlv, S6. reflexivity.
    + rewrite pressed_app, fold_left_app, Ip, mpr, S7. reflexivity.
    + intros d D. rewrite told_app, fold_left_app. rewrite (told_o d o1) by (intros e E; destruct (msome e E) as [t [T _]]; eauto). rewrite It in *. destruct P as [u|].
      * destruct D as [D|D]; [rewrite S10 by exact D; apply Io; left; exact D |]. rewrite S11 in D by discriminate. apply negb_false_iff in D. destruct (Nat.eq_dec u d) as [->|NE]; [rewrite (S9 d) by reflexivity; rewrite D; reflexivity | rewrite S10 by congruence; apply Io; left; congruence].
      * destruct (S8 eq_refl) as [_ ->]. cbn. apply Io. left. discriminate.
  - destruct B.
  - destruct B.
  - destruct same; [| injection H; intros; subst w2 o; rewrite app_nil_r; split; auto]. rewrite It in *. destruct P as [u|]; injection H; intros; subst w2 o; rewrite app_nil_r; split; auto. intros q _. apply Io. left. discriminate.
  - rewrite It in *. destruct P as [u|]; [| injection H; intros; subst w2 o; rewrite app_nil_r; split; auto]. destruct (Nat.eqb d u) eqn:E; [| injection H; intros; subst w2 o; rewrite app_nil_r; split; auto].
    apply Nat.eqb_eq in E. subst u. destruct (set_touch c w true) as [w3 o3] eqn:H2. injection H; intros; subst w2 o. destruct (set_touch_ok _ _ _ _ _ H2) as [S1 [S2 [S3 [S4 [S5 [S6 [S7 [S8 [S9 [S10 S11]]]]]]]]]]; [discriminate |]. rewrite It in *.
    split; cbn [cur kcur slots touch g arb]; rewrite ?S3, ?S5; try congruence; try assumption.
    + intro t. rewrite lives_app, S6. apply Il.
    + rewrite pressed_app, S7. exact Ip.
    + intros q _. rewrite told_app. destruct (Nat.eq_dec d q) as [->|NE]; [rewrite (S9 q) by reflexivity; reflexivity | rewrite S10 by congruence; apply Io; left; congruence].
Qed.
Lemma run_inv : forall c l W P w O, inv c W P w O -> behaves W l -> inv c (fold_left happens l W) (fold_left partner1 l P) (fst (run c w l)) (O ++ snd (run c w l)).
Proof.
  intros c. induction l as [|e l IH]; intros W P w O I B; [cbn; rewrite app_nil_r; exact I |]. destruct B as [B1 B2]. cbn [run fold_left]. destruct (step c w e) as [w1 o1] eqn:S. pose proof (step_inv _ _ _ _ _ _ _ _ I B1 S) as I1. specialize (IH _ _ _ _ I1 B2). destruct (run c w1 l) as [w2 o2]. cbn [fst snd] in *. rewrite app_assoc. exact IH.
Qed.
