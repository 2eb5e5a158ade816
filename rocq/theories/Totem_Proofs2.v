(** * The totem: proofs, the slots together *)
Require Import Coq.ZArith.ZArith Coq.QArith.QArith Coq.Lists.List Coq.Bool.Bool Coq.micromega.Lia.
Require Import Verif.Totem_Model Verif.Totem_Spec Verif.Totem_Proofs.
Import ListNotations.
Open Scope Z_scope.

Record hss (c : cfg) (b : glob) (l : list slot) (b2 : glob) (l2 : list slot) (o : list out) : Prop := {
  l_now : bnow b2 = bnow b;
  l_next : (next b <= next b2)%nat;
  l_prev : (exists s, In s l /\ st s <> NONE) -> bprev b2 = bnow b;
  l_press : fold_left press1 o (Some (bprev b)) = Some (bprev b2);
  l_tools : forall t, In t (tools l2) -> In t (tools l) \/ (next b <= t)%nat;
  l_new : forall t, In t (tools l2) -> (t < next b2)%nat;
  l_nodup : NoDup (tools l2);
  l_other : forall t z, ~ In t (tools l2) -> fold_left (live1 t) o z = z;
  l_live : forall t, fold_left (live1 t) o (L t l) = L t l2;
  l_rel : Forall2 (fun s s2 => (st s2 = match st s with BEGIN | UPDATE => UPDATE | _ => NONE end) /\ kv s2 = kv s /\ (tool s <> None -> tool s2 = tool s) /\ (st s <> NONE -> tool s2 <> None) /\ (st s2 = UPDATE -> AX c s2 /\ chg s2 = none /\ says_what c (kv s) (ax s2)) /\
     (forall e a, In e o -> axes_of e = Some a -> tool_of e = tool s2 -> st s <> NONE /\ says_what c (kv s) a) /\
     ((exists t tip a d k, tool s2 = Some t /\ In (Axis t tip a d k) o) <-> st s = UPDATE /\ nothing (chg s) = false)) l l2;
  l_some : forall e, In e o -> exists t, tool_of e = Some t /\ In t (tools l2)
}.
Lemma tools_cons : forall s l, tools (s :: l) = tl_ s ++ tools l. Proof. reflexivity. Qed.
Lemma in_tools : forall t l, In t (tools l) <-> exists s, In s l /\ tool s = Some t.
Proof. intros t l. unfold tools. rewrite in_flat_map. split; intros [s [A B]]; exists s; (split; [exact A |]); unfold tl_ in *; destruct (tool s); [destruct B as [->|[]]; reflexivity | destruct B | injection B; intro; subst; left; reflexivity | discriminate]. Qed.
Lemma L_not : forall t l, ~ In t (tools l) -> L t l = Out.
Proof. intros t l H. unfold L. destruct (existsb (isdn t) l) eqn:E; [| reflexivity]. exfalso. apply H. apply existsb_exists in E. destruct E as [s [A B]]. apply in_tools. exists s. split; [exact A |]. unfold isdn in B. destruct (tool s); [| discriminate]. apply andb_true_iff in B. destruct B as [B _]. apply Nat.eqb_eq in B. congruence. Qed.
Lemma L_cons : forall t s l, L t (s :: l) = if isdn t s then Down else L t l.
Proof. intros. unfold L. cbn. destruct (isdn t s); reflexivity. Qed.
Lemma isdn_not : forall t s, tool s <> Some t -> isdn t s = false.
Proof. intros t s H. unfold isdn. destruct (tool s); [| reflexivity]. destruct (Nat.eqb n t) eqn:E; [| reflexivity]. apply Nat.eqb_eq in E. congruence. Qed.
Lemma live_others : forall t o z v, Forall (fun e => tool_of e = v /\ tool_of e <> None) o -> v <> Some t -> fold_left (live1 t) o z = z.
Proof.
  intros t o z v H N. destruct v as [u|]; [apply (live_other t u); [eapply Forall_impl; [| exact H]; intros e [E _]; exact E | congruence] |]. destruct H as [|e o [E F] H]; [reflexivity | contradiction].
Qed.
Lemma handle_all : forall c l b b2 l2 o, handle_slots c b l = (b2, l2, o) -> Forall (wf c) l -> NoDup (tools l) -> (forall t, In t (tools l) -> (t < next b)%nat) -> hss c b l b2 l2 o.
Proof.
  intros c. induction l as [|s l IH]; intros b b2 l2 o H W N B.
  - injection H; intros; subst. split; auto; try (intros; contradiction); try (intros [? [[] _]]).
  - cbn in H. destruct (handle_slot c b s) as [[b1 s1] o1] eqn:H1. destruct (handle_slots c b1 l) as [[b3 l3] o2] eqn:H2. injection H; intros; subst b3 l2 o. clear H.
    inversion W as [|? ? W1 W2]; subst. pose proof (handle_ok _ _ _ _ _ _ H1 W1) as K. rewrite tools_cons in N, B.
    assert (N2 : NoDup (tools l)) by (unfold tl_ in N; destruct (tool s); [inversion N; assumption | exact N]).
    assert (B2 : forall t, In t (tools l) -> (t < next b1)%nat) by (intros t T; pose proof (h_next _ _ _ _ _ _ K); specialize (B t (in_or_app _ _ _ (or_intror T))); lia).
    pose proof (IH _ _ _ _ H2 W2 N2 B2) as M. destruct K as [kn kx kp kp0 kpr kst kkv ktl kab klv kax kas kx2 khas]. destruct M as [mn mx mp mpr mt mnew mnd mo mlv mrel msome].
    assert (D : forall t, tool s1 = Some t -> ~ In t (tools l3)).
    { intros t T X. apply mt in X. destruct (tool s) as [u|] eqn:U.
      - destruct ktl as [T2 NX]. rewrite T2 in T. injection T; intro; subst u. unfold tl_ in N, B. rewrite U in N, B. destruct X as [X|X]; [inversion N; contradiction |]. specialize (B t (or_introl eq_refl)). lia.
      - destruct ktl as [[T2 _]|[T2 NX]]; [congruence |]. rewrite T2 in T. injection T; intro; subst t. destruct X as [X|X]; [specialize (B2 _ X); assert (In (next b) (tl_ s ++ tools l)) by (apply in_or_app; right; exact X); apply B in H; lia | lia]. }
    split.
    + congruence.
    + lia.
    + intros [q [[Q|Q] Z]]; [subst q; destruct (existsb (fun s => negb (is_none (st s))) l) eqn:E |].
      * rewrite mp, kn; [reflexivity |]. apply existsb_exists in E. destruct E as [q [E1 E2]]. exists q. split; [exact E1 |]. intro E3. rewrite E3 in E2. discriminate.
      * assert (b2 = b1). { clear - H2 E. revert b1 b2 l3 o2 H2. induction l as [|q l IH]; intros; [cbn in H2; congruence |]. cbn in E. apply orb_false_iff in E. destruct E as [E1 E2]. cbn in H2. unfold handle_slot in H2 at 1. destruct (st q); try discriminate. destruct (handle_slots c b1 l) as [[b3 l4] o4] eqn:F. injection H2; intros; subst. eapply IH; [exact E2 | exact F]. }
        subst b2. apply kp. exact Z.
      * rewrite mp, kn; [reflexivity | exists q; auto].
    + rewrite fold_left_app, kpr. exact mpr.
    + intros t T. rewrite tools_cons in *. apply in_app_iff in T. destruct T as [T|T].
      * unfold tl_ in T. destruct (tool s1) as [u|] eqn:U; [| destruct T]. destruct T as [->|[]]. destruct (tool s) as [u|] eqn:V; [destruct ktl as [X _]; left; apply in_or_app; left; unfold tl_; rewrite V; left; congruence |]. destruct ktl as [[X _]|[X _]]; [discriminate |]. right. injection X; intro; lia.
      * apply mt in T. destruct T as [T|T]; [left; apply in_or_app; right; exact T | right; lia].
    + intros t T. rewrite tools_cons in T. apply in_app_iff in T. destruct T as [T|T]; [| apply mnew; exact T].
      unfold tl_ in T. destruct (tool s1) as [u|] eqn:U; [| destruct T]. destruct T as [->|[]]. destruct (tool s) as [u|] eqn:V.
      * destruct ktl as [X Y]. specialize (B t). unfold tl_ in B. rewrite V in B. assert (t < next b)%nat by (apply B; left; congruence). lia.
      * destruct ktl as [[X _]|[X Y]]; [discriminate |]. injection X; intro; lia.
    + rewrite tools_cons. unfold tl_. destruct (tool s1) as [u|] eqn:U; [| exact mnd]. constructor; [apply D; reflexivity | exact mnd].
    + intros t z T. rewrite tools_cons in T. rewrite fold_left_app. rewrite (live_others t o1 z (tool s1)); [apply mo; intro X; apply T; apply in_or_app; right; exact X | exact kab |]. intro X. apply T. apply in_or_app. left. unfold tl_. rewrite X. left; reflexivity.
    + intro t. rewrite fold_left_app. rewrite !L_cons. destruct (tool s1) as [u|] eqn:U.
      * destruct (Nat.eq_dec u t) as [->|NE].
        -- assert (X : L t l = Out). { apply L_not. intro X. specialize (D t eq_refl). destruct (tool s) as [v|] eqn:V; [destruct ktl as [Y _]; injection Y; intro; subst v; unfold tl_ in N; rewrite V in N; inversion N; contradiction |]. destruct ktl as [[Y _]|[Y _]]; [discriminate |]. injection Y; intro; subst t. assert (In (next b) (tl_ s ++ tools l)) by (apply in_or_app; right; exact X). apply B in H. lia. }
           rewrite X. rewrite (klv t eq_refl). rewrite (L_not t l3) by (apply D; reflexivity). rewrite mo by (apply D; reflexivity). reflexivity.
        -- rewrite (live_others t o1 _ (tool s1)); [| rewrite U; exact kab | congruence]. rewrite (isdn_not t s1) by congruence. rewrite isdn_not; [apply mlv |]. destruct (tool s); [destruct ktl as [Y _]; congruence | discriminate].
      * rewrite (live_others t o1 _ (tool s1)); [| rewrite U; exact kab | congruence]. rewrite (isdn_not t s1) by congruence. rewrite isdn_not; [apply mlv |]. destruct (tool s); [destruct ktl as [Y _]; congruence | discriminate].
    + assert (SEP : forall e, In e o2 -> tool_of e <> tool s1). { intros e E F. destruct (msome e E) as [t [T1 T2]]. rewrite T1 in F. apply (D t); auto. }
      assert (SEP1 : forall e q, In e o1 -> In q l3 -> tool_of e <> tool q). { intros e q E Q F. rewrite Forall_forall in kab. destruct (kab e E) as [T1 T2]. destruct (tool_of e) as [t|] eqn:T; [| contradiction]. apply (D t); [auto |]. apply in_tools. exists q. auto. }
      constructor.
      * refine (conj kst (conj kkv (conj _ (conj khas (conj kx2 (conj _ _)))))).
        -- intro X. destruct (tool s); [apply ktl | congruence].
        -- intros e a E A T. apply in_app_iff in E. destruct E as [E|E]; [apply (kax e a E A) | elim (SEP e E T)].
        -- rewrite <- kas. split; intros [t [p [a [d [k X]]]]].
           ++ destruct X as [X1 X2]. exists t, p, a, d, k. apply in_app_iff in X2. destruct X2 as [X2|X2]; [exact X2 |]. elim (SEP _ X2). cbn. auto.
           ++ exists t, p, a, d, k. rewrite Forall_forall in kab. destruct (kab _ X) as [Y _]. cbn in Y. split; [auto | apply in_or_app; left; exact X].
      * assert (FI : forall R1 R2 : slot -> slot -> Prop, forall la lb, Forall2 R1 la lb -> (forall a q, In q lb -> R1 a q -> R2 a q) -> Forall2 R2 la lb) by (clear; intros R1 R2 la lb H; induction H; intro X; constructor; [apply X; [left; reflexivity | assumption] | apply IHForall2; intros; apply X; [right |]; assumption]).
        eapply FI; [exact mrel |]. cbn beta. intros q q2 IN [R1 [R2 [R3 [R4 [R5 [R6 R7]]]]]]. refine (conj R1 (conj R2 (conj R3 (conj R4 (conj R5 (conj _ _)))))).
        -- intros e a E A T. apply in_app_iff in E. destruct E as [E|E]; [elim (SEP1 e q2 E IN T) | apply (R6 e a E A T)].
        -- rewrite <- R7. split; intros [t [p [a [d [k [X1 X2]]]]]]; exists t, p, a, d, k; (split; [exact X1 |]).
           ++ apply in_app_iff in X2. destruct X2 as [X2|X2]; [| exact X2]. elim (SEP1 _ q2 X2 IN). cbn. auto.
           ++ apply in_or_app. right. exact X2.
    + intros e E. apply in_app_iff in E. destruct E as [E|E].
      * rewrite Forall_forall in kab. destruct (kab e E) as [T1 T2]. destruct (tool_of e) as [t|] eqn:T; [| contradiction]. exists t. split; [reflexivity |]. apply in_tools. exists s1. split; [left; reflexivity | auto].
      * destruct (msome e E) as [t [T1 T2]]. exists t. split; [exact T1 |]. rewrite tools_cons. apply in_or_app. right. exact T2.
Qed.
