(** * The life of devices: proofs *)
Require Import Coq.ZArith.ZArith Coq.Lists.List Coq.Bool.Bool Coq.Arith.PeanoNat Coq.micromega.Lia.
Require Import Coq.Sorting.Permutation Verif.Life_Model Verif.Life_Spec.
Import ListNotations.
Open Scope Z_scope.

Definition has (l : list dev) (i : nat) : bool := existsb (fun d => Nat.eqb (id d) i) l.
Definition is_fd (f : nat) (d : dev) : bool := match fd d with Some g => Nat.eqb g f | None => false end.
Definition holds (l : list dev) (f : nat) : bool := existsb (is_fd f) l.
Definition L (w : ctx) (i : nat) : life := if has (devs w) i then During else if Nat.ltb i (nid w) then After else Before.
Definition F (w : ctx) (f : nat) : life := if holds (devs w) f then During else if Nat.ltb f (nfd w) then After else Before.
Definition kn (d : dev) : nat * Z * Z := (id d, sys d, seat d).
Definition Kn (w : ctx) : list (nat * Z * Z) := map kn (devs w).
Record inv (w : ctx) : Prop := {
  i_nd : NoDup (map id (devs w ++ gone w));
  i_lt : forall d, In d (devs w ++ gone w) -> (id d < nid w)%nat;
  i_fd : forall d f, In d (devs w) -> fd d = Some f -> (f < nfd w)%nat;
  i_un : forall d e f, In d (devs w) -> In e (devs w) -> fd d = Some f -> fd e = Some f -> id d = id e;
  i_gone : forall d, In d (gone w) -> fd d = None /\ removed d = true;
  i_here : forall d, In d (devs w) -> removed d = false
}.
Record good (w : ctx) (o : list out) (w2 : ctx) : Prop := {
  g_inv : inv w2;
  g_L : forall i, fold_left (live1 i) o (L w i) = L w2 i;
  g_F : forall f, fold_left (file1 f) o (F w f) = F w2 f;
  g_K : fold_left know1 o (Kn w) = Kn w2
}.
Lemma has_in : forall l i, has l i = true <-> exists d, In d l /\ id d = i.
Proof. intros. unfold has. rewrite existsb_exists. split; intros [d [A B]]; exists d; (split; [exact A |]); apply Nat.eqb_eq; exact B. Qed.
Lemma holds_in : forall l f, holds l f = true <-> exists d, In d l /\ fd d = Some f.
Proof. intros. unfold holds. rewrite existsb_exists. split; intros [d [A B]]; exists d; (split; [exact A |]); unfold is_fd in *; destruct (fd d); try discriminate; [apply Nat.eqb_eq in B; congruence | injection B; intro; subst; apply Nat.eqb_refl]. Qed.
Lemma good_refl : forall w, inv w -> good w [] w.
Proof. intros w I. split; auto. Qed.
Lemma good_trans : forall w o w2 o2 w3, good w o w2 -> good w2 o2 w3 -> good w (o ++ o2) w3.
Proof. intros w o w2 o2 w3 [A B C D] [E F0 G H]. split; [exact E | intro; rewrite fold_left_app, B; apply F0 | intro; rewrite fold_left_app, C; apply G | rewrite fold_left_app, D; exact H]. Qed.
(** Only bookkeeping *)
Definition same (w w2 : ctx) : Prop := devs w2 = devs w /\ gone w2 = gone w /\ nid w2 = nid w /\ nfd w2 = nfd w.
Lemma good_same : forall w w2 o, inv w -> same w w2 -> (forall x, In x o -> match x with Ret _ | Crash => True | _ => False end) -> good w o w2.
Proof.
  intros w w2 o I [A [B [C D]]] O. destruct I as [I1 I2 I3 I4 I5 I6]. split.
  - split; rewrite ?A, ?B, ?C, ?D; assumption.
  - intro i. unfold L. rewrite A, C. generalize (if has (devs w) i then During else if (i <? nid w)%nat then After else Before). induction o as [|x o IH]; intro z; [reflexivity |]. cbn. rewrite IH by (intros; apply O; right; assumption). specialize (O x (or_introl eq_refl)). destruct x; try contradiction; reflexivity.
  - intro f. unfold F. rewrite A, D. generalize (if holds (devs w) f then During else if (f <? nfd w)%nat then After else Before). induction o as [|x o IH]; intro z; [reflexivity |]. cbn. rewrite IH by (intros; apply O; right; assumption). specialize (O x (or_introl eq_refl)). destruct x; try contradiction; reflexivity.
  - unfold Kn. rewrite A. generalize (map kn (devs w)). induction o as [|x o IH]; intro z; [reflexivity |]. cbn. rewrite IH by (intros; apply O; right; assumption). specialize (O x (or_introl eq_refl)). destruct x; try contradiction; reflexivity.
Qed.
(** Events of devices that are there *)
Lemma among_live : forall c l w i, (forall d, In d l -> has (devs w) (id d) = true) -> fold_left (live1 i) (among l c) (L w i) = L w i.
Proof.
  unfold among. induction c as [|j c IH]; intros l w i H; [reflexivity |]. cbn. destruct (existsb (fun d => Nat.eqb (id d) j) l) eqn:E; [| apply IH; exact H]. cbn. apply existsb_exists in E. destruct E as [d [D1 D2]]. apply Nat.eqb_eq in D2. subst j.
  destruct (Nat.eqb_spec (id d) i) as [X|X]; [| apply IH; exact H]. subst i. assert (Y : L w (id d) = During) by (unfold L; rewrite (H d D1); reflexivity). rewrite Y. rewrite <- Y at 1. rewrite IH; [exact Y | exact H].
Qed.
Lemma among_file : forall c l f z, fold_left (file1 f) (among l c) z = z.
Proof. unfold among. induction c as [|j c IH]; intros l f z; [reflexivity |]. cbn. destruct (existsb _ l); cbn; apply IH. Qed.
Lemma among_know : forall c l z, fold_left know1 (among l c) z = z.
Proof. unfold among. induction c as [|j c IH]; intros l z; [reflexivity |]. cbn. destruct (existsb _ l); cbn; apply IH. Qed.
Lemma good_among : forall w l c, inv w -> (forall d, In d l -> has (devs w) (id d) = true) -> good w (among l c) w.
Proof. intros. split; [assumption | intro; apply among_live; assumption | intro; apply among_file | apply among_know]. Qed.
Lemma others_in : forall w d e, In e (others w d) -> has (devs w) (id e) = true.
Proof. intros w d e H. unfold others in H. apply filter_In in H. apply has_in. exists e. tauto. Qed.
Lemma here_or_others : forall w d e, In d (devs w) -> In e (d :: others w d) -> has (devs w) (id e) = true.
Proof. intros w d e D [E|E]; [subst e; apply has_in; eauto | eapply others_in; exact E]. Qed.

(** ** A device comes *)
Lemma create_ok : forall w s p se wls u n how c w2 o ok, create w s p se wls u n how c = (w2, o, ok) -> inv w -> good w o w2.
Proof.
  intros w s p se wls u n how c w2 o ok H I. assert (FAIL : good w [Open (nfd w); Close (nfd w)] (more w 0 1 0 0)).
  { destruct I as [I1 I2 I3 I4 I5 I6]. split.
    - split; cbn [devs gone nid nfd more]; try assumption; [intros d D; specialize (I2 d D); lia | intros d f D E; specialize (I3 d f D E); lia].
    - intro i. unfold L. cbn [devs nid more fold_left live1]. rewrite Nat.add_0_r. reflexivity.
    - intro f. unfold F. cbn [devs nfd more fold_left file1]. destruct (Nat.eqb_spec (nfd w) f) as [E|E].
      + subst f. assert (X : holds (devs w) (nfd w) = false). { apply not_true_iff_false. intro X. apply holds_in in X. destruct X as [d [D1 D2]]. apply I3 in D2; [lia | exact D1]. } rewrite X. rewrite Nat.ltb_irrefl. destruct (Nat.ltb_spec (nfd w) (nfd w + 1)); [reflexivity | lia].
      + destruct (holds (devs w) f); [reflexivity |]. destruct (Nat.ltb_spec f (nfd w)), (Nat.ltb_spec f (nfd w + 1)); try reflexivity; lia.
    - reflexivity. }
  unfold create in H. destruct how; try (injection H; intros; subst; apply good_refl; exact I); try (injection H; intros; subst; exact FAIL). clear FAIL.
  set (d := {| id := nid w; sys := s; phys := p; seat := se; wl := wls; ud := u; need := n; fd := Some (nfd w); src := Some (nsrc w); mt := if n then MOPEN else MNONE; off := false; removed := false |}) in *.
  set (w3 := set_devs (more w 1 1 1 0) (devs w ++ [d]) (gone w)) in *.
  injection H; intros; subst o w2. clear H.
  (* the file is opened, the others speak, the device is added: the others are those of before *)
  destruct I as [I1 I2 I3 I4 I5 I6].
  assert (NH : has (devs w) (nid w) = false) by (apply not_true_iff_false; intro X; apply has_in in X; destruct X as [e [E1 E2]]; specialize (I2 e (in_or_app _ _ _ (or_introl E1))); lia).
  assert (NF : holds (devs w) (nfd w) = false) by (apply not_true_iff_false; intro X; apply holds_in in X; destruct X as [e [E1 E2]]; apply I3 in E2; [lia | exact E1]).
  assert (OT : forall e, In e (others w3 d) -> has (devs w) (id e) = true).
  { intros e E. unfold others in E. apply filter_In in E. destruct E as [E1 E2]. apply andb_true_iff in E2. destruct E2 as [_ E2]. apply negb_true_iff in E2. cbn [devs w3 set_devs] in E1. apply in_app_iff in E1. destruct E1 as [E1|[E1|[]]]; [apply has_in; eauto |]. subst e. rewrite Nat.eqb_refl in E2. discriminate. }
  assert (IN : inv w3).
  { split; cbn [devs gone nid nfd w3 set_devs more].
    - rewrite <- app_assoc, map_app. cbn [app map]. rewrite map_app in I1. eapply Permutation.Permutation_NoDup; [apply Permutation.Permutation_middle |]. constructor; [| exact I1]. cbn [id d]. rewrite <- map_app. intro X. apply in_map_iff in X. destruct X as [e [E1 E2]]. specialize (I2 e E2). lia.
    - intros e E. rewrite <- app_assoc in E. cbn [app] in E. apply in_app_iff in E. destruct E as [E|[E|E]]; [specialize (I2 e (in_or_app _ _ _ (or_introl E))); lia | subst e; cbn; lia | specialize (I2 e (in_or_app _ _ _ (or_intror E))); lia].
    - intros e f E G. apply in_app_iff in E. destruct E as [E|[E|[]]]; [specialize (I3 e f E G); lia | subst e; cbn in G; injection G; intro; lia].
    - intros a e f A E G H. apply in_app_iff in A. apply in_app_iff in E. destruct A as [A|[A|[]]], E as [E|[E|[]]]; [eapply I4; eassumption | subst e; cbn in H; injection H; intro; subst f; specialize (I3 a _ A G); lia | subst a; cbn in G; injection G; intro; subst f; specialize (I3 e _ E H); lia | subst; reflexivity].
    - exact I5.
    - intros e E. apply in_app_iff in E. destruct E as [E|[E|[]]]; [apply I6; exact E | subst e; reflexivity]. }
  assert (HD : forall e, In e (d :: others w3 d) -> has (devs w3) (id e) = true). { intros e E. apply here_or_others with (d := d); [cbn [devs w3 set_devs]; apply in_or_app; right; left; reflexivity | exact E]. }
  split.
  - exact IN.
  - intro i. cbn [app fold_left live1]. rewrite fold_left_app. rewrite among_live by exact OT. cbn [fold_left live1 id d]. replace (if Nat.eqb (nid w) i then match L w i with Before => During | _ => Wrong end else L w i) with (L w3 i); [apply among_live; exact HD |].
    unfold L. cbn [devs nid w3 set_devs more]. unfold has. rewrite existsb_app. cbn [existsb]. fold (has (devs w) i). cbn [id d]. rewrite orb_false_r. destruct (Nat.eqb_spec (nid w) i) as [X|X].
    + subst i. rewrite NH, orb_true_r, Nat.ltb_irrefl. reflexivity.
    + rewrite orb_false_r. destruct (has (devs w) i); [reflexivity |]. destruct (Nat.ltb_spec i (nid w)), (Nat.ltb_spec i (nid w + 1)); try reflexivity; lia.
  - intro f. cbn [app fold_left file1]. rewrite fold_left_app. rewrite among_file. cbn [fold_left file1]. rewrite among_file. unfold F. cbn [devs nfd w3 set_devs more]. unfold holds. rewrite existsb_app. cbn [existsb]. fold (holds (devs w) f). rewrite orb_false_r. unfold is_fd. cbn [fd d]. destruct (Nat.eqb_spec (nfd w) f) as [X|X].
    + subst f. rewrite NF, orb_true_r, Nat.ltb_irrefl. reflexivity.
    + rewrite orb_false_r. destruct (holds (devs w) f); [reflexivity |]. destruct (Nat.ltb_spec f (nfd w)), (Nat.ltb_spec f (nfd w + 1)); try reflexivity; lia.
  - cbn [app fold_left know1]. rewrite fold_left_app. rewrite among_know. cbn [fold_left know1]. rewrite among_know. unfold Kn. cbn [devs w3 set_devs]. rewrite map_app. reflexivity.
Qed.

(** ** A device is suspended and resumed *)
Lemma find_id : forall l i d, find (fun d => Nat.eqb (id d) i) l = Some d -> In d l /\ id d = i.
Proof. intros l i d H. apply find_some in H. destruct H as [A B]. apply Nat.eqb_eq in B. auto. Qed.
Lemma upd_id : forall d l, map id (upd d l) = map id l.
Proof. intros d l. unfold upd. rewrite map_map. apply map_ext. intro e. destruct (Nat.eqb_spec (id e) (id d)); auto. Qed.
Lemma upd_has : forall d l i, has (upd d l) i = has l i.
Proof. intros d l i. unfold has, upd. induction l as [|e l IH]; [reflexivity |]. cbn. rewrite IH. destruct (Nat.eqb_spec (id e) (id d)) as [E|E]; [rewrite E |]; reflexivity. Qed.
Lemma in_upd : forall d l e, In e (upd d l) -> (e = d /\ exists e0, In e0 l /\ id e0 = id d) \/ (In e l /\ id e <> id d).
Proof. intros d l e H. unfold upd in H. apply in_map_iff in H. destruct H as [x [A B]]. destruct (Nat.eqb_spec (id x) (id d)) as [E|E]; [left; subst; eauto | right; subst; auto]. Qed.
Lemma upd_other : forall d l e, In e l -> id e <> id d -> In e (upd d l).
Proof. intros d l e H N. unfold upd. apply in_map_iff. exists e. split; [| exact H]. apply Nat.eqb_neq in N. rewrite N. reflexivity. Qed.
Lemma upd_in : forall d l, has l (id d) = true -> In d (upd d l).
Proof. intros d l H. apply has_in in H. destruct H as [e [A B]]. unfold upd. apply in_map_iff. exists e. split; [rewrite B, Nat.eqb_refl; reflexivity | exact A]. Qed.
Lemma upd_none : forall d l, has l (id d) = false -> upd d l = l.
Proof. intros d l H. unfold upd. induction l as [|e l IH]; [reflexivity |]. cbn in H. apply orb_false_iff in H. destruct H as [A B]. cbn. rewrite A. f_equal. apply IH. exact B. Qed.
Lemma nodup_same : forall w d e, inv w -> In d (devs w ++ gone w) -> In e (devs w ++ gone w) -> id d = id e -> d = e.
Proof. intros w d e I D E X. pose proof (i_nd _ I) as N. revert N D E. generalize (devs w ++ gone w). induction l as [|a l IH]; intros N D E; [destruct D |]. cbn in N. inversion N; subst. destruct D as [D|D], E as [E|E]; subst; auto; exfalso; apply H1; [rewrite X | rewrite <- X]; apply in_map; assumption. Qed.
Lemma not_gone : forall w d, inv w -> In d (devs w) -> has (gone w) (id d) = false.
Proof. intros w d I D. apply not_true_iff_false. intro X. apply has_in in X. destruct X as [e [E1 E2]]. pose proof (nodup_same w e d I) as N. assert (e = d) by (apply N; [apply in_or_app; right; exact E1 | apply in_or_app; left; exact D | exact E2]). subst e. destruct (i_gone _ I d E1) as [_ R]. rewrite (i_here _ I d D) in R. discriminate. Qed.
Lemma kn_upd : forall w d d2, inv w -> In d (devs w) -> kn d2 = kn d -> map kn (upd d2 (devs w)) = map kn (devs w).
Proof.
  intros w d d2 I D E. unfold upd. rewrite map_map. apply map_ext_in. intros e H. destruct (Nat.eqb_spec (id e) (id d2)) as [X|X]; [| reflexivity]. replace e with d; [exact E |]. apply (nodup_same w); [exact I | apply in_or_app; left; exact D | apply in_or_app; left; exact H |]. unfold kn in E. injection E; intros; congruence.
Qed.
(** A device's file is closed, or it has a new one, or nothing changes *)
Lemma upd_close : forall w d d2, inv w -> In d (devs w) -> kn d2 = kn d -> removed d2 = false -> fd d2 = None -> good w (match fd d with Some f => [Close f] | None => [] end) (set_devs w (upd d2 (devs w)) (gone w)).
Proof.
  intros w d d2 I D E R N. pose proof I as [I1 I2 I3 I4 I5 I6]. assert (ID : id d2 = id d) by (unfold kn in E; injection E; auto).
  assert (UF : forall f, holds (upd d2 (devs w)) f = (holds (devs w) f && negb (is_fd f d))).
  { intro f. apply eq_true_iff_eq. rewrite andb_true_iff, !holds_in, negb_true_iff. split.
    - intros [e [A B]]. apply in_upd in A. destruct A as [[A _]|[A1 A2]]; [subst e; congruence |]. split; [eauto |]. unfold is_fd. destruct (fd d) as [g|] eqn:G; [| reflexivity]. apply Nat.eqb_neq. intro; subst g. apply A2. rewrite ID. eapply I4; eassumption.
    - intros [[e [A B]] C]. exists e. split; [| exact B]. apply upd_other; [exact A |]. intro X. rewrite ID in X. assert (e = d) by (apply (nodup_same w); [exact I | apply in_or_app; left; exact A | apply in_or_app; left; exact D | exact X]). subst e. unfold is_fd in C. rewrite B, Nat.eqb_refl in C. discriminate. }
  split.
  - split; cbn [devs gone nid nfd set_devs].
    + rewrite map_app, upd_id, <- map_app. exact I1.
    + intros e H. apply in_app_iff in H. destruct H as [H|H]; [| apply I2; apply in_or_app; right; exact H]. apply in_upd in H. destruct H as [[H _]|[H _]]; [subst e; rewrite ID; apply I2; apply in_or_app; left; exact D | apply I2; apply in_or_app; left; exact H].
    + intros e f H G. apply in_upd in H. destruct H as [[H _]|[H _]]; [subst e; congruence | eapply I3; eassumption].
    + intros a b f A B G H. apply in_upd in A. apply in_upd in B. destruct A as [[A _]|[A _]]; [subst a; congruence |]. destruct B as [[B _]|[B _]]; [subst b; congruence |]. eapply I4; eassumption.
    + exact I5.
    + intros e H. apply in_upd in H. destruct H as [[H _]|[H _]]; [subst e; exact R | apply I6; exact H].
  - intro i. replace (L (set_devs w (upd d2 (devs w)) (gone w)) i) with (L w i) by (unfold L; cbn [devs nid set_devs]; rewrite upd_has; reflexivity). destruct (fd d); reflexivity.
  - intro f. unfold F. cbn [devs nfd set_devs]. rewrite UF. unfold is_fd. destruct (fd d) as [g|] eqn:G; [| rewrite andb_true_r; reflexivity]. cbn [fold_left file1]. destruct (Nat.eqb_spec g f) as [X|X]; [| rewrite andb_true_r; reflexivity]. subst g. rewrite andb_false_r. assert (Y : holds (devs w) f = true) by (apply holds_in; eauto). rewrite Y. specialize (I3 d f D G). apply Nat.ltb_lt in I3. rewrite I3. reflexivity.
  - unfold Kn. cbn [devs set_devs]. rewrite (kn_upd w d d2 I D E). destruct (fd d); reflexivity.
Qed.
Lemma upd_open : forall w d d2 s u, inv w -> In d (devs w) -> kn d2 = kn d -> removed d2 = false -> fd d = None -> fd d2 = Some (nfd w) -> good w [Open (nfd w)] (set_devs (more w 0 1 s u) (upd d2 (devs w)) (gone w)).
Proof.
  intros w d d2 s u I D E R N N2. pose proof I as [I1 I2 I3 I4 I5 I6]. assert (ID : id d2 = id d) by (unfold kn in E; injection E; auto).
  assert (NF : holds (devs w) (nfd w) = false) by (apply not_true_iff_false; intro X; apply holds_in in X; destruct X as [e [E1 E2]]; apply I3 in E2; [lia | exact E1]).
  assert (UF : forall f, holds (upd d2 (devs w)) f = (holds (devs w) f || Nat.eqb (nfd w) f)).
  { intro f. apply eq_true_iff_eq. rewrite orb_true_iff, !holds_in. split.
    - intros [e [A B]]. apply in_upd in A. destruct A as [[A _]|[A1 A2]]; [subst e; right; apply Nat.eqb_eq; congruence | left; eauto].
    - intros [[e [A B]]|C]; [exists e; split; [| exact B]; apply upd_other; [exact A |]; intro X; rewrite ID in X; assert (e = d) by (apply (nodup_same w); [exact I | apply in_or_app; left; exact A | apply in_or_app; left; exact D | exact X]); subst e; congruence |]. apply Nat.eqb_eq in C. subst f. exists d2. split; [apply upd_in; rewrite ID; apply has_in; eauto | exact N2]. }
  split.
  - split; cbn [devs gone nid nfd set_devs more].
    + rewrite map_app, upd_id, <- map_app. exact I1.
    + intros e H. rewrite Nat.add_0_r. apply in_app_iff in H. destruct H as [H|H]; [| apply I2; apply in_or_app; right; exact H]. apply in_upd in H. destruct H as [[H _]|[H _]]; [subst e; rewrite ID; apply I2; apply in_or_app; left; exact D | apply I2; apply in_or_app; left; exact H].
    + intros e f H G. apply in_upd in H. destruct H as [[H _]|[H _]]; [subst e; rewrite N2 in G; injection G; lia | specialize (I3 e f H G); lia].
    + intros a b f A B G H. apply in_upd in A. apply in_upd in B. destruct A as [[A _]|[A _]], B as [[B _]|[B _]]; [congruence | subst a; rewrite N2 in G; injection G; intro; subst f; specialize (I3 b _ B H); lia | subst b; rewrite N2 in H; injection H; intro; subst f; specialize (I3 a _ A G); lia | eapply I4; eassumption].
    + exact I5.
    + intros e H. apply in_upd in H. destruct H as [[H _]|[H _]]; [subst e; exact R | apply I6; exact H].
  - intro i. unfold L. cbn [devs nid set_devs more fold_left live1]. rewrite upd_has, Nat.add_0_r. reflexivity.
  - intro f. unfold F. cbn [devs nfd set_devs more fold_left file1]. rewrite UF. destruct (Nat.eqb_spec (nfd w) f) as [X|X].
    + subst f. rewrite NF, orb_true_r, Nat.ltb_irrefl. reflexivity.
    + rewrite orb_false_r. destruct (holds (devs w) f); [reflexivity |]. destruct (Nat.ltb_spec f (nfd w)), (Nat.ltb_spec f (nfd w + 1)); try reflexivity; lia.
  - unfold Kn. cbn [devs set_devs fold_left know1]. rewrite (kn_upd w d d2 I D E). reflexivity.
Qed.
Lemma crash_ok : forall w m, inv w -> good w (match m with MFREED => [Crash] | _ => [] end) w.
Proof. intros w m I. apply good_same; [exact I | repeat split |]. destruct m; cbn; intros x X; try contradiction. destruct X as [X|[]]. subst x. exact Logic.I. Qed.
Lemma suspend_outs : forall w d c d2 o, suspend_dev w d c = (d2, o) -> inv w -> In d (devs w) -> exists o1, o = o1 ++ (match fd d with Some f => [Close f] | None => [] end) /\ good w o1 w /\ kn d2 = kn d /\ removed d2 = removed d /\ fd d2 = None.
Proof.
  intros w d c d2 o H I D. unfold suspend_dev in H. injection H; intros O X. subst d2. eexists. refine (conj _ (conj _ (conj eq_refl (conj eq_refl eq_refl)))); [rewrite <- O; rewrite !app_assoc; f_equal |]. eapply good_trans; [eapply good_trans |].
  - destruct (off d); [apply good_refl; exact I | apply good_among; [exact I |]; intros e E; eapply others_in; exact E].
  - apply good_among; [exact I |]. intros e E. eapply here_or_others; [exact D | exact E].
  - apply crash_ok. exact I.
Qed.
Lemma remove_ok : forall w i c w2 o, remove w i c = (w2, o) -> inv w -> good w o w2.
Proof.
  intros w i c w2 o H I. unfold remove in H. destruct (find _ (devs w)) as [d|] eqn:FD; [| injection H; intros; subst; apply good_refl; exact I]. apply find_id in FD. destruct FD as [D ID]. destruct (suspend_dev w d (c i)) as [d2 o1] eqn:S. destruct (suspend_outs _ _ _ _ _ S I D) as [o2 [O [G [K2 [R2 N2]]]]]. injection H; intros; subst w2 o. clear H. pose proof (i_here _ I d D) as RD. rewrite RD in R2.
  pose proof (upd_close w d d2 I D K2 R2 N2) as G2. assert (ID2 : id d2 = i) by (unfold kn in K2; injection K2; intros; congruence).
  rewrite O, <- app_assoc. apply (good_trans w _ w); [apply good_among; [exact I |]; intros e E; eapply others_in; exact E |]. eapply good_trans; [exact G |]. eapply good_trans; [exact G2 |].
  (* now the last step: the closed device is taken off the list *)
  pose proof (g_inv _ _ _ G2) as [J1 J2 J3 J4 J5 J6]. cbn [devs gone nid nfd set_devs] in *.
  assert (FI : filter (fun e => negb (Nat.eqb (id e) i)) (devs w) = filter (fun e => negb (Nat.eqb (id e) i)) (upd d2 (devs w))).
  { unfold upd. rewrite ID2. generalize (devs w). induction l as [|e l IH]; [reflexivity |]. cbn. destruct (Nat.eqb_spec (id e) i) as [X|X]; cbn; [rewrite ID2, Nat.eqb_refl; cbn; exact IH |]. apply Nat.eqb_neq in X. rewrite X. cbn. f_equal. exact IH. }
  rewrite FI. assert (HI : has (upd d2 (devs w)) i = true) by (rewrite upd_has; apply has_in; eauto).
  assert (SUB : forall e, In e (filter (fun e => negb (Nat.eqb (id e) i)) (upd d2 (devs w))) -> In e (upd d2 (devs w))) by (intros e E; apply filter_In in E; tauto).
  split.
  - split; cbn [devs gone nid nfd set_devs].
    + rewrite map_app. cbn [map]. eapply Permutation.Permutation_NoDup; [apply Permutation.Permutation_middle |]. cbn [id mark]. rewrite ID2. rewrite map_app in J1.
      assert (NG : ~ In i (map id (gone w))). { intro X. apply in_map_iff in X. destruct X as [e [X1 X2]]. pose proof (not_gone w d I D) as Y. rewrite ID in Y. apply not_true_iff_false in Y. apply Y. apply has_in. eauto. }
      constructor.
      * rewrite in_app_iff. intros [X|X]; [| exact (NG X)]. apply in_map_iff in X. destruct X as [e [X1 X2]]. apply filter_In in X2. destruct X2 as [_ X2]. rewrite X1, Nat.eqb_refl in X2. discriminate.
      * clear - J1. revert J1. generalize (upd d2 (devs w)). induction l as [|e l IH]; intro N; [exact N |]. cbn in N. inversion N; subst. cbn. destruct (negb (Nat.eqb (id e) i)); [| apply IH; assumption]. cbn. constructor; [| apply IH; assumption]. rewrite in_app_iff in *. intros [X|X]; apply H1; [left | right; exact X]. apply in_map_iff in X. destruct X as [y [Y1 Y2]]. apply filter_In in Y2. apply in_map_iff. exists y. tauto.
    + intros e E. apply in_app_iff in E. destruct E as [E|[E|E]]; [apply J2; apply in_or_app; left; apply SUB; exact E | subst e; cbn; rewrite ID2, <- ID; apply (i_lt _ I); apply in_or_app; left; exact D | apply J2; apply in_or_app; right; exact E].
    + intros e f E. apply J3. apply SUB. exact E.
    + intros a b f A B. apply J4; apply SUB; assumption.
    + intros e [E|E]; [subst e; cbn; auto | apply J5; exact E].
    + intros e E. apply J6. apply SUB. exact E.
  - intro j. cbn [fold_left live1]. unfold L. cbn [devs nid set_devs]. destruct (Nat.eqb_spec i j) as [X|X].
    + subst j. rewrite HI. assert (Y : has (filter (fun e => negb (Nat.eqb (id e) i)) (upd d2 (devs w))) i = false). { apply not_true_iff_false. intro Y. apply has_in in Y. destruct Y as [e [Y1 Y2]]. apply filter_In in Y1. destruct Y1 as [_ Y1]. rewrite Y2, Nat.eqb_refl in Y1. discriminate. } rewrite Y. assert (Z : (i <? nid w)%nat = true) by (apply Nat.ltb_lt; rewrite <- ID; apply (i_lt _ I); apply in_or_app; left; exact D). rewrite Z. reflexivity.
    + replace (has (filter (fun e => negb (Nat.eqb (id e) i)) (upd d2 (devs w))) j) with (has (upd d2 (devs w)) j); [reflexivity |]. apply eq_true_iff_eq. rewrite !has_in. split; intros [e [A B]]; exists e; (split; [| exact B]); [apply filter_In; split; [exact A |]; rewrite B; apply negb_true_iff; apply Nat.eqb_neq; congruence | apply SUB; exact A].
  - intro f. cbn [fold_left file1]. unfold F. cbn [devs nfd set_devs]. replace (holds (filter (fun e => negb (Nat.eqb (id e) i)) (upd d2 (devs w))) f) with (holds (upd d2 (devs w)) f); [reflexivity |]. apply eq_true_iff_eq. rewrite !holds_in. split; intros [e [A B]]; exists e; (split; [| exact B]); [| apply SUB; exact A]. apply filter_In. split; [exact A |]. apply negb_true_iff. apply Nat.eqb_neq. intro X. apply in_upd in A. destruct A as [[A _]|[_ A]]; [subst e; congruence | congruence].
  - cbn [fold_left know1]. unfold Kn. cbn [devs set_devs]. generalize (upd d2 (devs w)). induction l as [|e l IH]; [reflexivity |]. cbn. destruct (Nat.eqb (id e) i); cbn; [exact IH | f_equal; exact IH].
Qed.
Lemma remove_all_ok : forall l w c w2 o, remove_all w l c = (w2, o) -> inv w -> good w o w2.
Proof. induction l as [|i l IH]; intros w c w2 o H I; [injection H; intros; subst; apply good_refl; exact I |]. cbn in H. destruct (remove w i c) as [w1 o1] eqn:H1. destruct (remove_all w1 l c) as [w3 o2] eqn:H2. injection H; intros; subst. pose proof (remove_ok _ _ _ _ _ H1 I) as G. eapply good_trans; [exact G | eapply IH; [exact H2 | exact (g_inv _ _ _ G)]]. Qed.
Lemma read_ok : forall w s c ok w2 o, read w s c ok = (w2, o) -> inv w -> good w o w2.
Proof.
  intros w s c ok w2 o H I. unfold read in H. destruct (find _ (devs w)) as [d|] eqn:FD; [| injection H; intros; subst; apply good_refl; exact I]. apply find_some in FD. destruct FD as [D _]. injection H; intros; subst w2 o. clear H.
  assert (G : good w (among (d :: others w d) (c_own c)) w) by (apply good_among; [exact I |]; intros e E; eapply here_or_others; [exact D | exact E]). destruct ok; [exact G |]. rewrite <- (app_nil_r (among _ _)). eapply good_trans; [exact G |]. clear G.
  set (d2 := {| id := id d; sys := sys d; phys := phys d; seat := seat d; wl := wl d; ud := ud d; need := need d; fd := fd d; src := None; mt := mt d; off := off d; removed := removed d |}). pose proof I as [I1 I2 I3 I4 I5 I6].
  assert (SAME : forall e, In e (upd d2 (devs w)) -> exists e0, In e0 (devs w) /\ id e0 = id e /\ fd e0 = fd e /\ removed e0 = removed e). { intros e E. apply in_upd in E. destruct E as [[E _]|[E _]]; [subst e; exists d; auto | exists e; auto]. }
  assert (HF : forall f, holds (upd d2 (devs w)) f = holds (devs w) f).
  { intro f. apply eq_true_iff_eq. rewrite !holds_in. split; intros [e [A B]].
    - destruct (SAME e A) as [e0 [X1 [X2 [X3 X4]]]]. exists e0. split; congruence.
    - destruct (Nat.eq_dec (id e) (id d)) as [X|X]; [| exists e; split; [apply upd_other; [exact A | exact X] | exact B]]. exists d2. split; [apply upd_in; apply has_in; eauto |]. assert (e = d) by (apply (nodup_same w); [exact I | apply in_or_app; left; exact A | apply in_or_app; left; exact D | exact X]). subst e. exact B. }
  split.
  - split; cbn [devs gone nid nfd set_devs].
    + rewrite map_app, upd_id, <- map_app. exact I1.
    + intros e H. apply in_app_iff in H. destruct H as [H|H]; [| apply I2; apply in_or_app; right; exact H]. destruct (SAME e H) as [e0 [X1 [X2 _]]]. rewrite <- X2. apply I2. apply in_or_app. left. exact X1.
    + intros e f H G. destruct (SAME e H) as [e0 [X1 [X2 [X3 _]]]]. eapply I3; [exact X1 | congruence].
    + intros a b f A B G H. destruct (SAME a A) as [a0 [X1 [X2 [X3 _]]]]. destruct (SAME b B) as [b0 [Y1 [Y2 [Y3 _]]]]. rewrite <- X2, <- Y2. apply (I4 a0 b0 f); [exact X1 | exact Y1 | congruence | congruence].
    + exact I5.
    + intros e H. destruct (SAME e H) as [e0 [X1 [X2 [X3 X4]]]]. rewrite <- X4. apply I6. exact X1.
  - intro i. unfold L. cbn [devs nid set_devs fold_left]. rewrite upd_has. reflexivity.
  - intro f. unfold F. cbn [devs nfd set_devs fold_left]. rewrite HF. reflexivity.
  - unfold Kn. cbn [devs set_devs fold_left]. symmetry. apply (kn_upd w d d2 I D). reflexivity.
Qed.
