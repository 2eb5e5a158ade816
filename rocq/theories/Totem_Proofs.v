(** * The totem: proofs *)
Require Import Coq.ZArith.ZArith Coq.QArith.QArith Coq.Lists.List Coq.Bool.Bool Coq.micromega.Lia.
Require Import Verif.Totem_Model Verif.Totem_Spec.
Import ListNotations.
Open Scope Z_scope.

Definition dn (z : sstate) : bool := match z with UPDATE | END => true | _ => false end.
Definition isdn (t : nat) (s : slot) : bool := match tool s with Some u => Nat.eqb u t && dn (st s) | None => false end.
Definition L (t : nat) (l : list slot) : life := if existsb (isdn t) l then Down else Out.
Definition tl_ (s : slot) : list nat := match tool s with Some t => [t] | None => [] end.
Definition tools (l : list slot) : list nat := flat_map tl_ l.
(** The axes of the slot are those of the kernel, but for what is marked as changed *)
Definition AX (c : cfg) (s : slot) : Prop :=
  (c_x (chg s) || c_y (chg s) = false -> x (ax s) = k_x (kv s) /\ y (ax s) = k_y (kv s)) /\
  (c_rot (chg s) = false -> rotation (ax s) = Z.rem (360 - k_angle (kv s)) 360) /\
  (c_major (chg s) || c_minor (chg s) = false -> major (ax s) = size (k_major (kv s)) (rmajor c) /\ minor (ax s) = size (k_minor (kv s)) (rminor c)).
Definition wf (c : cfg) (s : slot) : Prop := dn (st s) = true -> (exists t, tool s = Some t) /\ AX c s.

Lemma fetch_ok : forall c s up a d s2, fetch c s = (up, a, d, s2) -> AX c s -> says_what c (kv s) a /\ ax s2 = a /\ kv s2 = kv s /\ tool s2 = tool s /\ st s2 = st s /\ chg s2 = chg s /\ up = negb (nothing (chg s)).
Proof.
  intros c s up a d s2 H [A [B C]]. unfold fetch in H. destruct (nothing (chg s)) eqn:N.
  - injection H; intros; subst. unfold nothing in N. apply negb_true_iff in N. rewrite !orb_false_iff in N. destruct N as [[[[N1 N2] N3] N4] N5]. rewrite N1, N2 in A. rewrite N4, N5 in C. destruct (A eq_refl), (C eq_refl). refine (conj _ _); [| repeat split; auto]. repeat split; auto.
  - injection H; intros; subst. cbn. refine (conj _ _); [| repeat split; auto]. unfold says_what; cbn. destruct (c_x (chg s) || c_y (chg s)); [| destruct (A eq_refl)]; (destruct (c_rot (chg s)); [| specialize (B eq_refl)]); (destruct (c_major (chg s) || c_minor (chg s)); [| destruct (C eq_refl)]); auto.
Qed.
Lemma fetch_all : forall c s up a d s2, fetch c (set_chg (axes_initialize s) all) = (up, a, d, s2) -> says_what c (kv s) a /\ ax s2 = a /\ kv s2 = kv s /\ tool s2 = tool s /\ d = (0, 0) /\ chg s2 = all.
Proof. intros c s up a d s2 H. injection H; intros; subst. cbn. rewrite !Z.sub_diag. unfold says_what. cbn. auto 12. Qed.
Lemma AX_done : forall c s z, says_what c (kv s) (ax s) -> AX c (finish s z).
Proof. intros c s z [A [B [C [D E]]]]. unfold AX. cbn. auto. Qed.

Definition about (t : nat) (e : out) : Prop := tool_of e = Some t.
Lemma live_other : forall t u o z, Forall (about u) o -> u <> t -> fold_left (live1 t) o z = z.
Proof.
  intros t u o z H N. apply Nat.eqb_neq in N. revert z. induction H as [|e o X H IH]; intro z; [reflexivity |]. cbn. rewrite IH. unfold about in X. destruct e; cbn in *; try discriminate; injection X; intro; subst; rewrite N; reflexivity.
Qed.
Lemma button_spec : forall b t tip a d b2 o, button b t tip a d = (b2, o) ->
  bnow b2 = bnow b /\ bprev b2 = bnow b /\ next b2 = next b /\ Forall (about t) o /\ (forall e, In e o -> axes_of e = Some a /\ exists v, e = Button t tip a d v) /\ fold_left press1 o (Some (bprev b)) = Some (bnow b) /\ fold_left (live1 t) o Down = Down.
Proof.
  intros b t tip a d b2 o H. unfold button in H. destruct (Bool.eqb (bnow b) (bprev b)) eqn:E; injection H; intros; subst.
  - apply eqb_prop in E. rewrite E. cbn. repeat split; auto; try constructor; destruct H0.
  - cbn. rewrite E. rewrite Nat.eqb_refl. repeat split; auto; try (constructor; [reflexivity | constructor]); destruct H0 as [X|[]]; subst; cbn; eauto.
Qed.
Lemma press_app : forall o z, (forall e, In e o -> match e with Button _ _ _ _ _ => False | _ => True end) -> fold_left press1 o z = z.
Proof. induction o as [|e o IH]; intros z H; [reflexivity |]. cbn. rewrite IH by (intros; apply H; right; assumption). specialize (H e (or_introl eq_refl)). destruct e; cbn; try reflexivity. destruct H. Qed.

Record hs (c : cfg) (b : glob) (s : slot) (b2 : glob) (s2 : slot) (o : list out) : Prop := {
  h_now : bnow b2 = bnow b;
  h_next : (next b <= next b2)%nat;
  h_prev : st s <> NONE -> bprev b2 = bnow b;
  h_prev0 : st s = NONE -> b2 = b;
  h_press : fold_left press1 o (Some (bprev b)) = Some (bprev b2);
  h_st : st s2 = match st s with BEGIN | UPDATE => UPDATE | _ => NONE end;
  h_kv : kv s2 = kv s;
  h_tool : match tool s with Some t => tool s2 = Some t /\ next b2 = next b | None => (tool s2 = None /\ next b2 = next b) \/ (tool s2 = Some (next b) /\ next b2 = S (next b)) end;
  h_about : Forall (fun e => tool_of e = tool s2 /\ tool_of e <> None) o;
  h_live : forall t, tool s2 = Some t -> fold_left (live1 t) o (if isdn t s then Down else Out) = if isdn t s2 then Down else Out;
  h_axes : forall e a, In e o -> axes_of e = Some a -> st s <> NONE /\ says_what c (kv s) a;
  h_axis : (exists t tip a d k, In (Axis t tip a d k) o) <-> st s = UPDATE /\ nothing (chg s) = false;
  h_ax : st s2 = UPDATE -> AX c s2 /\ chg s2 = none /\ says_what c (kv s) (ax s2);
  h_has : st s <> NONE -> tool s2 <> None
}.
Lemma handle_ok : forall c b s b2 s2 o, handle_slot c b s = (b2, s2, o) -> wf c s -> hs c b s b2 s2 o.
Proof.
  intros c b s b2 s2 o H W. unfold handle_slot in H. unfold wf in W. destruct (st s) eqn:S.
  - injection H; intros; subst. split; try rewrite S; auto; try congruence; try lia.
    + destruct (tool s2); auto.
    + intros e a [].
    + split; [intros [? [? [? [? [? []]]]]] | intros [X _]; discriminate].
  - unfold with_tool in H. destruct (tool s) as [t|] eqn:T.
    + destruct (fetch c _) as [[[up a] d] s3] eqn:F. destruct (fetch_all _ _ _ _ _ _ F) as [A1 [A2 [A3 [A4 [A5 A6]]]]]. destruct (button _ t true a d) as [b3 q] eqn:Q. destruct (button_spec _ _ _ _ _ _ _ Q) as [B1 [B2 [B3 [B4 [B5 [B6 B7]]]]]]. cbn in B1, B2, B3, B6.
      injection H; intros; subst. split; cbn [finish st kv tool set_chg set_last set_st ax]; try rewrite S; auto; try congruence; try lia.
      * cbn. rewrite B6. rewrite B2. reflexivity.
      * rewrite T. split; congruence.
      * rewrite A4, T. repeat constructor; try discriminate. eapply Forall_impl; [| exact B4]. intros e E. unfold about in E. rewrite E. split; [reflexivity | discriminate].
      * intros u U. rewrite A4, T in U. injection U; intro; subst u. unfold isdn. cbn. rewrite T, A4, T, S, Nat.eqb_refl. cbn. rewrite ?Nat.eqb_refl. cbn. exact B7.
      * intros e z X Y. split; [discriminate |]. destruct X as [X|[X|X]]; [subst e; injection Y; intro; subst; exact A1 | subst e; injection Y; intro; subst; exact A1 |]. destruct (B5 e X) as [Z _]. replace z with (ax s3) by congruence. exact A1.
      * split; [intros [? [? [? [? [? [X|[X|X]]]]]]]; try discriminate; destruct (B5 _ X) as [_ [? Z]]; discriminate | intros [X _]; discriminate].
      * intros _. refine (conj _ (conj eq_refl _)); [apply AX_done; rewrite A3; exact A1 | exact A1].
    + destruct (fetch c _) as [[[up a] d] s3] eqn:F. destruct (fetch_all _ _ _ _ _ _ F) as [A1 [A2 [A3 [A4 [A5 A6]]]]]. destruct (button _ (next b) true a d) as [b3 q] eqn:Q. destruct (button_spec _ _ _ _ _ _ _ Q) as [B1 [B2 [B3 [B4 [B5 [B6 B7]]]]]]. cbn in B1, B2, B3, B6, A1, A3, A4.
      injection H; intros; subst. split; cbn [finish st kv tool set_chg set_last set_st ax]; try rewrite S; auto; try congruence; try lia.
      * cbn. rewrite B6. rewrite B2. reflexivity.
      * rewrite T. right. split; congruence.
      * rewrite A4. repeat constructor; try discriminate. eapply Forall_impl; [| exact B4]. intros e E. unfold about in E. rewrite E. split; [reflexivity | discriminate].
      * intros u U. rewrite A4 in U. injection U; intro; subst u. unfold isdn. cbn. rewrite T, A4, Nat.eqb_refl. cbn. rewrite ?Nat.eqb_refl. cbn. exact B7.
      * intros e z X Y. split; [discriminate |]. destruct X as [X|[X|X]]; [subst e; injection Y; intro; subst; exact A1 | subst e; injection Y; intro; subst; exact A1 |]. destruct (B5 e X) as [Z _]. replace z with (ax s3) by congruence. exact A1.
      * split; [intros [? [? [? [? [? [X|[X|X]]]]]]]; try discriminate; destruct (B5 _ X) as [_ [? Z]]; discriminate | intros [X _]; discriminate].
      * intros _. refine (conj _ (conj eq_refl _)); [apply AX_done; rewrite A3; exact A1 | exact A1].
  - destruct (W eq_refl) as [[t T] WA]. rewrite T in H. destruct (fetch c s) as [[[up a] d] s3] eqn:F. destruct (fetch_ok _ _ _ _ _ _ F WA) as [A1 [A2 [A3 [A4 [A5 [A6 A7]]]]]]. destruct (button b t true a d) as [b3 q] eqn:Q. destruct (button_spec _ _ _ _ _ _ _ Q) as [B1 [B2 [B3 [B4 [B5 [B6 B7]]]]]].
    injection H; intros; subst b3 s2 o. split; cbn [finish st kv tool set_chg set_last set_st ax]; try rewrite S; auto; try congruence; try lia.
    + rewrite fold_left_app. rewrite B2, <- B6. f_equal. destruct up; reflexivity.
    + rewrite T. split; congruence.
    + rewrite A4, T. apply Forall_app. split; [destruct up; repeat constructor; discriminate |]. eapply Forall_impl; [| exact B4]. intros e E. unfold about in E. rewrite E. split; [reflexivity | discriminate].
    + intros u U. rewrite A4, T in U. injection U; intro; subst u. unfold isdn. cbn. rewrite A4, T, S, Nat.eqb_refl. cbn. rewrite fold_left_app. replace (fold_left (live1 t) _ Down) with Down; [exact B7 |]. destruct up; cbn; rewrite ?Nat.eqb_refl; reflexivity.
    + intros e z X Y. split; [discriminate |]. apply in_app_iff in X. destruct X as [X|X]; [destruct up; [destruct X as [X|[]]; subst e; injection Y; intro; subst z; exact A1 | destruct X] |]. destruct (B5 e X) as [Z _]. replace z with a by congruence. exact A1.
    + split.
      * intros [t0 [p0 [a0 [d0 [k0 X]]]]]. apply in_app_iff in X. destruct X as [X|X]; [destruct up; [split; [reflexivity |] | destruct X]; symmetry in A7; apply negb_true_iff in A7; exact A7 |]. destruct (B5 _ X) as [_ [? Z]]. discriminate.
      * intros [_ X]. rewrite X in A7. cbn in A7. subst up. repeat eexists. left. reflexivity.
    + intros _. refine (conj _ (conj eq_refl _)); [apply AX_done; rewrite A3, A2; exact A1 | rewrite A2; exact A1].
  - destruct (W eq_refl) as [[t T] WA]. rewrite T in H. destruct (fetch c s) as [[[up a] d] s3] eqn:F. destruct (fetch_ok _ _ _ _ _ _ F WA) as [A1 [A2 [A3 [A4 [A5 [A6 A7]]]]]]. destruct (button b t false a d) as [b3 q] eqn:Q. destruct (button_spec _ _ _ _ _ _ _ Q) as [B1 [B2 [B3 [B4 [B5 [B6 B7]]]]]].
    injection H; intros; subst b3 s2 o. split; cbn [finish st kv tool set_chg set_last set_st ax]; try rewrite S; auto; try congruence; try lia.
    + rewrite fold_left_app. rewrite B2, B6. reflexivity.
    + rewrite T. split; congruence.
    + rewrite A4, T. apply Forall_app. split; [| repeat constructor; discriminate]. eapply Forall_impl; [| exact B4]. intros e E. unfold about in E. rewrite E. split; [reflexivity | discriminate].
    + intros u U. rewrite A4, T in U. injection U; intro; subst u. unfold isdn. cbn. rewrite A4, T, S, Nat.eqb_refl. cbn. rewrite fold_left_app, B7. cbn. rewrite ?Nat.eqb_refl. reflexivity.
    + intros e z X Y. split; [discriminate |]. apply in_app_iff in X. destruct X as [X|[X|[X|[]]]]; [| subst e; injection Y; intro; subst z; exact A1 | subst e; injection Y; intro; subst z; exact A1]. destruct (B5 e X) as [Z _]. replace z with a by congruence. exact A1.
    + split.
      * intros [t0 [p0 [a0 [d0 [k0 X]]]]]. apply in_app_iff in X. destruct X as [X|[X|[X|[]]]]; [| discriminate | discriminate]. destruct (B5 _ X) as [_ [? Z]]. discriminate.
      * intros [X _]. discriminate.
Qed.
