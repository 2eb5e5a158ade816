(** * The totem (C51): the way it moved, and which devices are totems *)
Require Import Coq.ZArith.ZArith Coq.QArith.QArith Coq.Lists.List Coq.Bool.Bool Coq.micromega.Lia.
Require Import Verif.Totem_Model Verif.Totem_Spec Verif.Totem_Proofs Verif.Totem_Proofs2 Verif.Totem_Proofs3 Verif.Totem_Proofs4 Verif.Totem_Props.
Import ListNotations.
Open Scope Z_scope.

(** ** Specification *)
(** The delta of an event, and the position in the last event of a tool *)
Definition delta_of (o : out) : option (Z * Z) := match o with Prox _ _ _ d _ | Tip _ _ _ d _ | Axis _ _ _ d _ | Button _ _ _ d _ => Some d | _ => None end.
Definition seen1 (t : nat) (z : option (Z * Z)) (o : out) : option (Z * Z) :=
  match tool_of o, axes_of o with Some u, Some a => if Nat.eqb u t then Some (x a, y a) else z | _, _ => z end.
Definition seen (t : nat) (l : list out) : option (Z * Z) := fold_left (seen1 t) l None.

(** ** Proofs *)
Definition K (s : slot) : Prop := dn (st s) = true -> last s = (x (ax s), y (ax s)).
Lemma seen_none : forall t o z, (forall e, In e o -> tool_of e <> Some t) -> fold_left (seen1 t) o z = z.
Proof. intros t. induction o as [|e o IH]; intros z H; [reflexivity |]. cbn. rewrite IH by (intros; apply H; right; assumption). unfold seen1. destruct (tool_of e) as [u|] eqn:U; [| reflexivity]. destruct (axes_of e); [| reflexivity]. destruct (Nat.eqb_spec u t) as [->|N]; [| reflexivity]. elim (H e (or_introl eq_refl)). exact U. Qed.
Lemma tool_axes : forall e t, tool_of e = Some t -> exists a, axes_of e = Some a.
Proof. intros e t H. destruct e; cbn in *; try discriminate; eauto. Qed.
Lemma seen_some : forall t o z p, (forall e a, In e o -> tool_of e = Some t -> axes_of e = Some a -> (x a, y a) = p) -> z = Some p \/ (exists e, In e o /\ tool_of e = Some t) -> fold_left (seen1 t) o z = Some p.
Proof.
  intros t. induction o as [|e o IH]; intros z p H E; [destruct E as [->|[e [[] _]]]; reflexivity |]. cbn. apply IH; [intros; eapply H; [right; eassumption | eassumption | eassumption] |].
  destruct (tool_of e) as [u|] eqn:U.
  - destruct (tool_axes e u U) as [a A]. unfold seen1. rewrite U, A. destruct (Nat.eqb_spec u t) as [->|N].
    + left. f_equal. apply (H e a); [left; reflexivity | exact U | exact A].
    + destruct E as [E|[f [[F|F] G]]]; [left; exact E | subst f; congruence | right; eauto].
  - unfold seen1. rewrite U. destruct E as [E|[f [[F|F] G]]]; [left; exact E | subst f; congruence | right; eauto].
Qed.
Definition moved (s s2 : slot) (o : list out) : Prop :=
  K s2 /\ (forall e a, In e o -> tool_of e = tool s2 -> axes_of e = Some a -> (dn (st s2) = true -> (x a, y a) = last s2) /\ delta_of e = Some (if dn (st s) then (x a - fst (last s), y a - snd (last s)) else (0, 0))) /\
  (dn (st s2) = true -> (exists e, In e o /\ tool_of e = tool s2) \/ (dn (st s) = true /\ tool s = tool s2 /\ last s2 = last s)).
Lemma button_delta : forall b t tip a d b2 o e, button b t tip a d = (b2, o) -> In e o -> axes_of e = Some a /\ delta_of e = Some d /\ tool_of e = Some t.
Proof. intros b t tip a d b2 o e H I. unfold button in H. destruct (Bool.eqb _ _); injection H; intros; subst; [destruct I |]. destruct I as [I|[]]. subst e. auto. Qed.
Lemma fetch_delta : forall c s up a d s2, fetch c s = (up, a, d, s2) -> dn (st s) = true -> K s -> d = (x a - fst (last s), y a - snd (last s)) /\ ax s2 = a /\ st s2 = st s /\ tool s2 = tool s /\ (up = false -> (x a, y a) = last s).
Proof.
  intros c s up a d s2 H D k. unfold fetch in H. destruct (nothing (chg s)); injection H; intros; subst; cbn [ax st tool set_ax]; repeat split; try reflexivity; try discriminate.
  - rewrite (k D). cbn. rewrite !Z.sub_diag. reflexivity.
  - intros _. rewrite (k D). reflexivity.
Qed.
Lemma handle_moved : forall c b s b2 s2 o, handle_slot c b s = (b2, s2, o) -> K s -> moved s s2 o.
Proof.
  intros c b s b2 s2 o H k. unfold handle_slot in H. destruct (st s) eqn:S.
  - injection H; intros; subst. refine (conj k (conj _ _)); [intros e a [] | rewrite S; discriminate].
  - destruct (with_tool (next b) s) as [[n s1] t] eqn:T. destruct (fetch c _) as [[[up a] d] s3] eqn:F. destruct (fetch_all _ _ _ _ _ _ F) as [A1 [A2 [A3 [A4 [A5 A6]]]]]. destruct (button _ t true a d) as [b3 q] eqn:Q. injection H; intros; subst b3 s2 o. assert (T1 : tool s1 = Some t) by (unfold with_tool in T; destruct (tool s) eqn:TS; injection T; intros; subst; [exact TS | reflexivity]).
    refine (conj _ (conj _ _)); [intros _; reflexivity | | intros _; left; exists (Prox t true a d (chg s3)); split; [left; reflexivity | cbn; congruence]].
    cbn [finish st set_chg set_last set_st last dn tool]. rewrite S. cbn [dn]. intros e z I _ Z. assert (axes_of e = Some a /\ delta_of e = Some d) as [Y1 Y2]. { destruct I as [I|[I|I]]; [subst e; auto | subst e; auto |]. destruct (button_delta _ _ _ _ _ _ _ e Q I) as [Y1 [Y2 _]]. auto. }
    assert (z = a) by congruence. subst z a. split; [reflexivity | rewrite Y2, A5; reflexivity].
  - destruct (tool s) as [t|] eqn:T; [| injection H; intros; subst; refine (conj k (conj _ _)); [intros e a [E|[]]; subst e; discriminate | rewrite S; right; auto]].
    destruct (fetch c s) as [[[up a] d] s3] eqn:F. assert (D : dn (st s) = true) by (rewrite S; reflexivity). destruct (fetch_delta _ _ _ _ _ _ F D k) as [A1 [A2 [A3 [A4 A5]]]]. destruct (button b t true a d) as [b3 q] eqn:Q. injection H; intros; subst b3 s2 o.
    refine (conj _ (conj _ _)); [intros _; reflexivity | |].
    + cbn [finish st set_chg set_last set_st last dn tool]. rewrite D. intros e z I _ Z. assert (axes_of e = Some a /\ delta_of e = Some d) as [Y1 Y2]. { apply in_app_iff in I. destruct I as [I|I]; [destruct up; [destruct I as [I|[]]; subst e; auto | destruct I] |]. destruct (button_delta _ _ _ _ _ _ _ e Q I) as [Y1 [Y2 _]]. auto. }
      assert (z = a) by congruence. subst z a. split; [reflexivity | rewrite Y2, A1; reflexivity].
    + intros _. cbn [finish st set_chg set_last set_st last dn tool]. destruct up; [left; exists (Axis t true a d (chg s3)); split; [left; reflexivity | cbn; congruence] | right]. rewrite A2. rewrite (A5 eq_refl). auto.
  - destruct (tool s) as [t|] eqn:T; [| injection H; intros; subst; refine (conj k (conj _ _)); [intros e a [E|[]]; subst e; discriminate | rewrite S; right; auto]].
    destruct (fetch c s) as [[[up a] d] s3] eqn:F. assert (D : dn (st s) = true) by (rewrite S; reflexivity). destruct (fetch_delta _ _ _ _ _ _ F D k) as [A1 [A2 [A3 [A4 A5]]]]. destruct (button b t false a d) as [b3 q] eqn:Q. injection H; intros; subst b3 s2 o.
    refine (conj _ (conj _ _)); [intros X; discriminate | | cbn; discriminate].
    rewrite D. intros e z I _ Z. split; [cbn; discriminate |]. assert (axes_of e = Some a /\ delta_of e = Some d) as [Y1 Y2]. { apply in_app_iff in I. destruct I as [I|[I|[I|[]]]]; [| subst e; auto | subst e; auto]. destruct (button_delta _ _ _ _ _ _ _ e Q I) as [Y1 [Y2 _]]. auto. }
    assert (z = a) by congruence. subst z a. rewrite Y2, A1. reflexivity.
Qed.
Lemma f2_imp : forall (R1 R2 : slot -> slot -> Prop) la lb, Forall2 R1 la lb -> (forall a q, In q lb -> R1 a q -> R2 a q) -> Forall2 R2 la lb.
Proof. intros R1 R2 la lb H. induction H; intro X; constructor; [apply X; [left; reflexivity | assumption] | apply IHForall2; intros; apply X; [right |]; assumption]. Qed.
Lemma all_moved : forall c l b b2 l2 o, handle_slots c b l = (b2, l2, o) -> Forall (wf c) l -> Forall K l -> NoDup (tools l) -> (forall t, In t (tools l) -> (t < next b)%nat) -> Forall2 (fun s s2 => moved s s2 o) l l2.
Proof.
  intros c. induction l as [|s l IH]; intros b b2 l2 o H W k N B; [injection H; intros; subst; constructor |].
  pose proof (handle_all c (s :: l) b b2 l2 o H W N B) as M0. pose proof (l_nodup _ _ _ _ _ _ M0) as ND. clear M0. cbn in H. destruct (handle_slot c b s) as [[b1 s1] o1] eqn:H1. destruct (handle_slots c b1 l) as [[b3 l3] o2] eqn:H2. injection H; intros; subst b3 l2 o. clear H.
  inversion W as [|? ? W1 W2]; subst. inversion k as [|? ? k1 k2]; subst. pose proof (handle_ok _ _ _ _ _ _ H1 W1) as h. rewrite tools_cons in N, B.
  assert (N2 : NoDup (tools l)) by (unfold tl_ in N; destruct (tool s); [inversion N; assumption | exact N]).
  assert (B2 : forall t, In t (tools l) -> (t < next b1)%nat) by (intros t T; pose proof (h_next _ _ _ _ _ _ h); specialize (B t (in_or_app _ _ _ (or_intror T))); lia).
  pose proof (handle_all _ _ _ _ _ _ H2 W2 N2 B2) as M. pose proof (h_about _ _ _ _ _ _ h) as kab. pose proof (l_some _ _ _ _ _ _ M) as msome.
  assert (D : forall t, tool s1 = Some t -> ~ In t (tools l3)) by (intros t T; rewrite tools_cons in ND; unfold tl_ in ND; rewrite T in ND; inversion ND; assumption).
  assert (SEP : forall e, In e o2 -> tool_of e <> tool s1). { intros e E F. destruct (msome e E) as [t [T1 T2]]. rewrite T1 in F. apply (D t); auto. }
  assert (SEP1 : forall e q, In e o1 -> In q l3 -> tool_of e <> tool q). { intros e q E Q F. rewrite Forall_forall in kab. destruct (kab e E) as [T1 T2]. destruct (tool_of e) as [t|] eqn:T; [| contradiction]. apply (D t); [auto |]. apply in_tools. exists q. auto. }
  constructor.
  - destruct (handle_moved _ _ _ _ _ _ H1 k1) as [X1 [X2 X3]]. refine (conj X1 (conj _ _)).
    + intros e a E T A. apply in_app_iff in E. destruct E as [E|E]; [apply (X2 e a E T A) | elim (SEP e E T)].
    + intro Y. destruct (X3 Y) as [[e [E T]]|Z]; [left; exists e; split; [apply in_or_app; left; exact E | exact T] | right; exact Z].
  - eapply f2_imp; [apply (IH _ _ _ _ H2 W2 k2 N2 B2) |]. cbn beta. intros q q2 IN [X1 [X2 X3]]. refine (conj X1 (conj _ _)).
    + intros e a E T A. apply in_app_iff in E. destruct E as [E|E]; [elim (SEP1 e q2 E IN T) | apply (X2 e a E T A)].
    + intro Y. destruct (X3 Y) as [[e [E T]]|Z]; [left; exists e; split; [apply in_or_app; right; exact E | exact T] | right; exact Z].
Qed.
Definition J1 (O : list out) (s : slot) : Prop := K s /\ (dn (st s) = true -> forall t, tool s = Some t -> seen t O = Some (last s)).
Definition J (O : list out) (l : list slot) : Prop := Forall (J1 O) l.
Lemma J_quiet : forall O o l, (forall e, In e o -> axes_of e = None) -> J O l -> J (O ++ o) l.
Proof. intros O o l H j. eapply Forall_impl; [| exact j]. intros s [A B]. split; [exact A |]. intros D t T. unfold seen. rewrite fold_left_app. rewrite (seen_none t o); [apply B; assumption |]. intros e E F. destruct (tool_axes e t F) as [a X]. rewrite (H e E) in X. discriminate. Qed.
Lemma start_J : forall c ks n n2 l o, start_slots c n ks = (n2, l, o) -> (n <= n2)%nat /\ (forall e t, In e o -> tool_of e = Some t -> (n <= t < n2)%nat) /\ (forall s t, In s l -> tool s = Some t -> (n <= t < n2)%nat) /\ J o l.
Proof.
  intros c. induction ks as [|k ks IH]; intros n n2 l o H; [injection H; intros; subst; repeat split; try lia; try (intros; contradiction); constructor |]. cbn [start_slots] in H. destruct (start_slot c n k) as [[n1 s] o1] eqn:H1. destruct (start_slots c n1 ks) as [[n3 l3] o2] eqn:H2. injection H; intros; subst n3 l o. clear H.
  destruct (IH _ _ _ _ H2) as [A1 [A2 [A3 A4]]]. unfold start_slot in H1. destruct (Z.eqb (k_id k) (-1)).
  - injection H1; intros; subst n1 s o1. refine (conj A1 (conj A2 (conj _ _))); [intros s t [I|I] T; [subst s; discriminate | eapply A3; eassumption] |]. constructor; [split; [intro D | intro D]; discriminate D | exact A4].
  - destruct (fetch c _) as [[[up a] d] s2] eqn:F. destruct (fetch_all _ _ _ _ _ _ F) as [B1 [B2 [B3 [B4 [B5 B6]]]]]. cbn in B3, B4. assert (B7 : last s2 = (k_x k, k_y k)) by (unfold fetch in F; cbn in F; injection F; intros; subst s2; reflexivity). assert (B8 : ax s2 = a /\ x a = k_x k /\ y a = k_y k) by (destruct B1 as [C1 [C2 _]]; auto). destruct B8 as [B8 [B9 B10]].
    injection H1; intros; subst n1 s o1. refine (conj _ (conj _ (conj _ _))); [lia | | |].
    + intros e t [I|[I|I]] T; [subst e; injection T; intro; lia | subst e; injection T; intro; lia |]. specialize (A2 e t I T). lia.
    + intros s t [I|I] T; [subst s; cbn in T; rewrite B4 in T; injection T; intro; lia |]. specialize (A3 s t I T). lia.
    + constructor.
      * split; [intros _; cbn; rewrite B7, B8, B9, B10; reflexivity |]. intros _ t T. cbn in T. rewrite B4 in T. injection T; intro; subst t. cbn [last set_chg set_st]. unfold seen. apply seen_some; [| right; eexists; split; [left; reflexivity | reflexivity]]. intros e q [I|[I|I]] U Q; [subst e; injection Q; intro; subst q; congruence | subst e; injection Q; intro; subst q; congruence |]. specialize (A2 e n I U). lia.
      * apply Forall_forall. intros s I. pose proof A4 as A5. unfold J in A5. rewrite Forall_forall in A5. destruct (A5 s I) as [C1 C2]. split; [exact C1 |]. intros D t T. rewrite <- (C2 D t T). unfold seen. cbn [app fold_left]. specialize (A3 s t I T). unfold seen1 at 2 3. cbn. assert (X : Nat.eqb n t = false) by (apply Nat.eqb_neq; lia). rewrite X. reflexivity.
Qed.
Lemma all_J : forall c ks k d l, behaves (at_start ks k) l -> J (events c ks k d l) (slots (after c ks k d l)).
Proof.
  intros c ks k d l. induction l as [|e l IH] using rev_ind; intro B.
  - unfold events, after, start. cbn [run fst snd]. destruct (start_slots c 0 ks) as [[n l] o] eqn:H. destruct (set_touch c _ _) as [w o2] eqn:H2. cbn [fst snd]. rewrite app_nil_r. destruct (set_touch_ok _ _ _ _ _ H2) as [_ [_ [S3 _]]]; [intro X; apply negb_false_iff in X; exact X |]. rewrite S3. cbn [slots]. apply J_quiet; [intros e E; eapply touch_outs; eassumption |]. eapply start_J. exact H.
  - apply behaves_app in B. destruct B as [Bl [Be _]]. specialize (IH Bl). rewrite events_snoc, after_snoc. pose proof (all_inv c ks k d l Bl) as [Ic Ik Ib Ir In1 In2 Il Ip It Io]. fold (after c ks k d l) in *. fold (history ks k l) in Be. destruct e; cbn [step]; cbn [behaves1] in Be.
    + cbn [fst snd slots]. rewrite app_nil_r. exact IH.
    + cbn [fst snd slots with_slots]. rewrite app_nil_r, Ic, Ik, at_at. revert Ir IH. generalize (slots (after c ks k d l)). revert Be. generalize (now (history ks k l)). generalize (places (history ks k l)). intros W i Be q Ir j. revert i Be. induction Ir as [|p s W q R Ir IH2]; intros i Be; [destruct i; constructor |]. inversion j as [|? ? j1 j2]; subst. destruct i as [|i]; cbn [at_]; constructor; auto.
      * destruct (rel_abs c c0 v p s R) as [_ X]; [intro E; subst c0; destruct Be as [q0 [Q1 Q2]]; injection Q1; intro; subst q0; exact Q2 |]. destruct j1 as [Y1 Y2]. unfold J1, K. rewrite X. rewrite process_tool. cbn [tool set_kv]. assert (Z : last (process_abs c0 v (set_kv s (kernel c0 v (kv s)))) = last s /\ ax (process_abs c0 v (set_kv s (kernel c0 v (kv s)))) = ax s) by (destruct c0; split; reflexivity). destruct Z as [Z1 Z2]. rewrite Z1, Z2. split; assumption.
      * apply IH2; [exact j2 | exact Be].
    + destruct (Z.eqb v 2); cbn [fst snd slots with_g]; rewrite app_nil_r; exact IH.
    + destruct (handle_slots c (g (after c ks k d l)) (slots (after c ks k d l))) as [[b l2] o] eqn:H. destruct (set_touch c _ _) as [w3 o3] eqn:H2. cbn [fst snd]. destruct (set_touch_ok _ _ _ _ _ H2) as [_ [_ [S3 _]]]; [intro X; apply negb_false_iff in X; exact X |]. rewrite S3. cbn [slots with_g with_slots]. rewrite app_assoc. apply J_quiet; [intros e E; eapply touch_outs; eassumption |].
      assert (WF : Forall (wf c) (slots (after c ks k d l))) by (clear - Ir; induction Ir as [|? ? ? ? X Y IH]; constructor; [eapply rel_wf; exact X | exact IH]).
      assert (KK : Forall K (slots (after c ks k d l))) by (eapply Forall_impl; [| exact IH]; intros s [X _]; exact X).
      pose proof (all_moved _ _ _ _ _ _ H WF KK In1 In2) as M. unfold J. apply Forall_forall. intros s2 I2. apply In_nth_error in I2. destruct I2 as [i I2]. destruct (f2_nth2 _ _ _ _ _ _ _ M I2) as [s [I1 [X1 [X2 X3]]]]. unfold J in IH. rewrite Forall_forall in IH. destruct (IH s (nth_error_In _ _ I1)) as [Y1 Y2]. split; [exact X1 |]. intros D t T. unfold seen. rewrite fold_left_app. apply seen_some.
      * intros e a E F A. apply (X2 e a E); [congruence | exact A | exact D].
      * destruct (X3 D) as [[e [E F]]|[Z1 [Z2 Z3]]]; [right; exists e; split; [exact E | congruence] | left; rewrite Z3; apply Y2; [exact Z1 | congruence]].
    + destruct Be.
    + destruct Be.
    + destruct same; [destruct (touch _) |]; cbn [fst snd slots]; rewrite app_nil_r; exact IH.
    + destruct (touch (after c ks k d l)) as [u|]; [destruct (Nat.eqb d0 u) |]; try (cbn [fst snd slots]; rewrite app_nil_r; exact IH). destruct (set_touch c (after c ks k d l) true) as [w2 o] eqn:H. destruct (set_touch_ok _ _ _ _ _ H) as [_ [_ [S3 _]]]; [discriminate |]. cbn. rewrite S3. apply J_quiet; [intros e E; eapply touch_outs; eassumption | exact IH].
Qed.

(** ** The theorems *)
(** The delta of an event is the way from the position in the last event of the same tool, where that tool was in proximity before this frame; it is zero in the events of the frame that bring the tool into proximity. *)
Theorem C51_delta : forall c ks k d l e t a, behaves (at_start ks k) l -> In e (frame c ks k d l) -> tool_of e = Some t -> axes_of e = Some a ->
  (lives t (events c ks k d l) = Down -> exists p, seen t (events c ks k d l) = Some p /\ delta_of e = Some (x a - fst p, y a - snd p)) /\
  (lives t (events c ks k d l) <> Down -> delta_of e = Some (0, 0)).
Proof.
  intros c ks k d l e t a B E T A. pose proof (all_inv c ks k d l B) as [Ic Ik Ib Ir In1 In2 Il Ip It Io]. fold (after c ks k d l) in *. pose proof (all_J c ks k d l B) as j.
  destruct (frame_hss c ks k d l B) as [b [l2 [o [o2 [H [M [F [S3 [G TT]]]]]]]]]. rewrite F in E. apply in_app_iff in E. destruct E as [E|E]; [| rewrite (touch_outs _ _ _ _ _ _ TT E) in A; discriminate].
  assert (WF : Forall (wf c) (slots (after c ks k d l))) by (clear - Ir; induction Ir as [|? ? ? ? X Y IH]; constructor; [eapply rel_wf; exact X | exact IH]).
  assert (KK : Forall K (slots (after c ks k d l))) by (eapply Forall_impl; [| exact j]; intros s [X _]; exact X).
  pose proof (all_moved _ _ _ _ _ _ H WF KK In1 In2) as MM. destruct (l_some _ _ _ _ _ _ M e E) as [u [U1 U2]]. assert (u = t) by congruence. subst u. apply in_tools in U2. destruct U2 as [s2 [V1 V2]]. apply In_nth_error in V1. destruct V1 as [i V1]. destruct (f2_nth2 _ _ _ _ _ _ _ MM V1) as [s [I1 [X1 [X2 X3]]]].
  destruct (X2 e a E) as [_ Y]; [congruence | exact A |]. rewrite Il. unfold L.
  assert (TS : dn (st s) = true -> tool s = Some t). { intro D. destruct (f2_nth2 _ _ _ _ _ _ _ (l_rel _ _ _ _ _ _ M) V1) as [s0 [V3 [_ [_ [V4 _]]]]]. rewrite I1 in V3. injection V3; intro; subst s0. rewrite Forall_forall in WF. destruct (WF s (nth_error_In _ _ I1) D) as [[z Z] _]. rewrite <- V2. symmetry. apply V4. congruence. }
  destruct (existsb (isdn t) (slots (after c ks k d l))) eqn:X; split; try congruence; intros _.
  - assert (D : dn (st s) = true).
    { apply existsb_exists in X. destruct X as [q [Q1 Q2]]. unfold isdn in Q2. destruct (tool q) as [v|] eqn:Q3; [| discriminate]. apply andb_true_iff in Q2. destruct Q2 as [Q2 Q4]. apply Nat.eqb_eq in Q2. subst v. apply In_nth_error in Q1. destruct Q1 as [m Q1]. destruct (f2_nth _ _ _ _ _ _ _ (l_rel _ _ _ _ _ _ M) Q1) as [q2 [Q5 [_ [_ [Q6 _]]]]]. assert (m = i). { eapply nodup_nth with (t := t); [exact (l_nodup _ _ _ _ _ _ M) | exact Q5 | exact V1 | rewrite Q6; congruence | exact V2]. } subst m. congruence. }
    unfold J in j. rewrite Forall_forall in j. destruct (j s (nth_error_In _ _ I1)) as [_ Z]. exists (last s). split; [apply Z; auto |]. rewrite D in Y. exact Y.
  - destruct (dn (st s)) eqn:D; [| exact Y]. exfalso. assert (existsb (isdn t) (slots (after c ks k d l)) = true); [| congruence]. apply existsb_exists. exists s. split; [eapply nth_error_In; exact I1 |]. unfold isdn. rewrite (TS eq_refl), Nat.eqb_refl. exact D.
Qed.
(** A device is taken for a totem exactly if it has the position axes, multitouch slots, a tool type that can be a dial, a surface with a size, and a resolution for one of the two sizes of the totem. *)
Theorem C51_accepted : forall p, accepts p = true <-> has_xy p = true /\ has_slot p = true /\ (exists m, tool_max p = Some m /\ 10 <= m) /\ has_size p = true /\ (0 < rmaj p \/ 0 < rmin p).
Proof.
  intro p. unfold accepts. rewrite !andb_true_iff, orb_true_iff, !Z.ltb_lt. split.
  - intros [[[[A B] C] D] E]. destruct (tool_max p) as [m|]; [| discriminate]. apply Z.leb_le in C. repeat split; eauto.
  - intros [A [B [[m [C1 C2]] [D E]]]]. rewrite C1. apply Z.leb_le in C2. auto.
Qed.

(** ** Cases *)
(** The second totem is put down and moved three times; the position is told by every event, the delta of the last is from the one before *)
Definition walk : list input := put 1 ++ [Abs POSITION_X 510; Syn; Abs POSITION_Y 380; Syn; Abs POSITION_X 525; Btn0 1].
Example C51_delta_applies : behaves (at_start [k1; k0] 0) walk /\ lives 1 (events c0 [k1; k0] 0 None walk) = Down /\ seen 1 (events c0 [k1; k0] 0 None walk) = Some (510, 380) /\
  map tool_of (frame c0 [k1; k0] 0 None walk) = [Some 0%nat; Some 1%nat] /\ map delta_of (frame c0 [k1; k0] 0 None walk) = [Some (0, 0); Some (15, 0)].
Proof. split; [unfold walk; cbv [put app]; good |]. repeat split; vm_compute; reflexivity. Qed.
Example C51_accepted_applies : accepts {| has_xy := true; has_slot := true; tool_max := Some 15; has_size := true; rmaj := 0; rmin := 10 |} = true /\ accepts {| has_xy := true; has_slot := true; tool_max := Some 15; has_size := true; rmaj := 0; rmin := 0 |} = false.
Proof. split; reflexivity. Qed.
Print Assumptions C51_delta.
Print Assumptions C51_accepted.
