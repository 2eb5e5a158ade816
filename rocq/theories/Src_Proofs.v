(** Proofs for C58. *)
From Coq Require Import ZArith List Bool Arith Lia FinFun.
Import ListNotations.
From Verif Require Import Src_Model Src_Spec.

(** The life of each source, on the observations so far: [t] is everything seen
    up to now. *)
Record inv (s : state) (t : list obs) : Prop := {
  i_epoll : forall i, In i (epoll s) <-> exists fd, heap s i = Some fd /\ fd <> (-1)%Z;
  i_destroy : forall i, In i (destroy s) <-> heap s i = Some (-1)%Z;
  i_nodup : NoDup (destroy s);
  i_next : forall i, heap s i <> None -> i < next s;
  i_seen : forall i, In (Added i) t <-> i < next s;
  i_rem : forall i, In (Removed i) t <-> (i < next s /\ (heap s i = None \/ heap s i = Some (-1)%Z));
  i_freed : forall i, In (Freed i) t <-> (i < next s /\ heap s i = None);
  i_once_r : forall i t1 t2, t = t1 ++ Removed i :: t2 -> ~ In (Called i) t2 /\ ~ In (Removed i) t2;
  i_once_f : forall i t1 t2, t = t1 ++ Freed i :: t2 ->
               ~ In (Called i) t2 /\ ~ In (Removed i) t2 /\ ~ In (Freed i) t2
}.

Lemma inv_init : inv init [].
Proof.
  split; cbn; intros; try (split; intros; try contradiction; try discriminate; try lia).
  - destruct H as [fd [H _]]. discriminate.
  - constructor.
  - congruence.
  - destruct t1; discriminate.
  - destruct t1; discriminate.
  - destruct t1; discriminate.
  - destruct t1; discriminate.
Qed.

(** A split of [t ++ [a]] at [x]. *)
Lemma split_snoc : forall (t : list obs) a t1 x t2,
  t ++ [a] = t1 ++ x :: t2 ->
  (t2 = [] /\ x = a /\ t = t1) \/ (exists t2', t2 = t2' ++ [a] /\ t = t1 ++ x :: t2').
Proof.
  intros t a t1 x t2 H.
  destruct (@exists_last _ (x :: t2)) as [l [b Hb]]; [discriminate|].
  rewrite Hb in H. rewrite app_assoc in H.
  apply app_inj_tail in H. destruct H as [H1 H2]. subst b.
  destruct l as [|y l].
  - cbn in Hb. injection Hb as -> ->. left. rewrite app_nil_r in H1. auto.
  - cbn in Hb. injection Hb as -> ->. right. exists l. auto.
Qed.

Lemma in_snoc : forall (x a : obs) t, In x (t ++ [a]) <-> In x t \/ x = a.
Proof. intros. rewrite in_app_iff. cbn. intuition congruence. Qed.

Lemma set_same : forall h i v, set h i v i = v.
Proof. intros. unfold set. now rewrite Nat.eqb_refl. Qed.

Lemma set_other : forall h i v j, j <> i -> set h i v j = h j.
Proof. intros. unfold set. now rewrite (proj2 (Nat.eqb_neq j i) H). Qed.

Lemma inv_add : forall s t fd ok s' t',
  inv s t -> add_fd s fd ok = (s', t') -> inv s' (t ++ t').
Proof.
  intros s t fd ok s' t' I E. unfold add_fd in E.
  destruct (ok && (0 <=? fd)%Z) eqn:B; injection E as <- <-.
  2:{ now rewrite app_nil_r. }
  apply andb_prop in B. destruct B as [_ B]. apply Z.leb_le in B.
  assert (Hn : heap s (next s) = None).
  { destruct (heap s (next s)) eqn:Hh; [|reflexivity].
    exfalso. apply (Nat.lt_irrefl (next s)). apply (i_next _ _ I). congruence. }
  split; cbn.
  - intros i. rewrite in_app_iff. cbn. destruct (Nat.eq_dec i (next s)) as [->|N].
    + rewrite set_same. split; [|auto]. intros _. exists fd. split; [reflexivity|lia].
    + rewrite set_other by assumption. rewrite (i_epoll _ _ I). intuition congruence.
  - intros i. rewrite (i_destroy _ _ I). destruct (Nat.eq_dec i (next s)) as [->|N].
    + rewrite set_same, Hn. split; intros X; [discriminate|]. injection X as ->. lia.
    + now rewrite set_other.
  - apply (i_nodup _ _ I).
  - intros i. destruct (Nat.eq_dec i (next s)) as [->|N]; [lia|].
    rewrite set_other by assumption. intros X. apply (i_next _ _ I) in X. lia.
  - intros i. rewrite in_snoc, (i_seen _ _ I). split.
    + intros [X|X]; [lia|]. injection X as ->. lia.
    + intros X. destruct (Nat.eq_dec i (next s)) as [->|N]; [auto|left; lia].
  - intros i. rewrite in_snoc, (i_rem _ _ I). destruct (Nat.eq_dec i (next s)) as [->|N].
    + rewrite set_same. split.
      * intros [[X _]|X]; [lia|discriminate].
      * intros [_ [X|X]]; [discriminate|]. injection X as ->. lia.
    + rewrite set_other by assumption. intuition (try discriminate; try lia).
  - intros i. rewrite in_snoc, (i_freed _ _ I). destruct (Nat.eq_dec i (next s)) as [->|N].
    + rewrite set_same. split.
      * intros [[X _]|X]; [lia|discriminate].
      * intros [_ X]; discriminate.
    + rewrite set_other by assumption. intuition (try discriminate; try lia).
  - intros i t1 t2 H. apply split_snoc in H. destruct H as [[_ [H _]]|[t2' [-> H]]]; [discriminate|].
    apply (i_once_r _ _ I) in H. rewrite !in_snoc. intuition discriminate.
  - intros i t1 t2 H. apply split_snoc in H. destruct H as [[_ [H _]]|[t2' [-> H]]]; [discriminate|].
    apply (i_once_f _ _ I) in H. rewrite !in_snoc. intuition discriminate.
Qed.

Lemma inv_remove : forall s t i s' t',
  inv s t -> remove_source s i = Ok (s', t') -> inv s' (t ++ t').
Proof.
  intros s t i s' t' I E. unfold remove_source in E.
  destruct (heap s i) as [fd|] eqn:Hh; [|discriminate].
  destruct (fd =? -1)%Z eqn:B; [discriminate|]. injection E as <- <-.
  apply Z.eqb_neq in B.
  assert (Hlt : i < next s) by (apply (i_next _ _ I); congruence).
  assert (Hnr : ~ In (Removed i) t).
  { rewrite (i_rem _ _ I). intros [_ [X|X]]; congruence. }
  assert (Hnf : ~ In (Freed i) t).
  { rewrite (i_freed _ _ I). intros [_ X]; congruence. }
  split; cbn.
  - intros j. destruct (Nat.eq_dec j i) as [->|N].
    + rewrite set_same. split.
      * intros X. exfalso. exact (remove_In _ _ _ X).
      * intros [f [X Y]]. congruence.
    + rewrite set_other by assumption. rewrite <- (i_epoll _ _ I). split.
      * intros X. apply in_remove in X. tauto.
      * intros X. now apply in_in_remove.
  - intros j. destruct (Nat.eq_dec j i) as [->|N].
    + rewrite set_same. intuition.
    + rewrite set_other by assumption. rewrite <- (i_destroy _ _ I). intuition congruence.
  - constructor; [|apply (i_nodup _ _ I)]. rewrite (i_destroy _ _ I). congruence.
  - intros j. destruct (Nat.eq_dec j i) as [->|N]; [auto|].
    rewrite set_other by assumption. apply (i_next _ _ I).
  - intros j. rewrite in_snoc, (i_seen _ _ I). intuition discriminate.
  - intros j. rewrite in_snoc, (i_rem _ _ I). destruct (Nat.eq_dec j i) as [->|N].
    + rewrite set_same. intuition.
    + rewrite set_other by assumption. intuition congruence.
  - intros j. rewrite in_snoc, (i_freed _ _ I). destruct (Nat.eq_dec j i) as [->|N].
    + rewrite set_same. rewrite Hh. intuition congruence.
    + rewrite set_other by assumption. intuition congruence.
  - intros j t1 t2 H. apply split_snoc in H.
    destruct H as [[-> [H _]]|[t2' [-> H]]]; [cbn; tauto|].
    assert (X : In (Removed j) t) by (rewrite H, in_app_iff; cbn; auto).
    apply (i_once_r _ _ I) in H. rewrite !in_snoc. intuition congruence.
  - intros j t1 t2 H. apply split_snoc in H. destruct H as [[_ [H _]]|[t2' [-> H]]]; [discriminate|].
    assert (X : In (Freed j) t) by (rewrite H, in_app_iff; cbn; auto).
    apply (i_once_f _ _ I) in H. rewrite !in_snoc. intuition congruence.
Qed.

Lemma inv_op : forall s t o s' t', inv s t -> do_op s o = Ok (s', t') -> inv s' (t ++ t').
Proof.
  intros s t [fd ok|i] s' t' I E; cbn in E.
  - destruct (add_fd s fd ok) as [a b] eqn:A. injection E as <- <-. eapply inv_add; eassumption.
  - eapply inv_remove; eassumption.
Qed.

Lemma inv_ops : forall l s t s' t', inv s t -> do_ops s l = Ok (s', t') -> inv s' (t ++ t').
Proof.
  induction l as [|o r IH]; intros s t s' t' I E; cbn in E.
  - injection E as <- <-. now rewrite app_nil_r.
  - destruct (do_op s o) as [[s1 t1]| |] eqn:A; try discriminate.
    destruct (do_ops s1 r) as [[s2 t2]| |] eqn:B; try discriminate. injection E as <- <-.
    rewrite app_assoc. eapply IH; [|eassumption]. eapply inv_op; eassumption.
Qed.

(** Calling a source that is there. *)
Lemma inv_call : forall s t i fd, inv s t -> heap s i = Some fd -> fd <> (-1)%Z -> inv s (t ++ [Called i]).
Proof.
  intros s t i fd I Hh Hfd. split; try apply I.
  - intros j. rewrite in_snoc, (i_seen _ _ I). intuition discriminate.
  - intros j. rewrite in_snoc, (i_rem _ _ I). intuition discriminate.
  - intros j. rewrite in_snoc, (i_freed _ _ I). intuition discriminate.
  - intros j t1 t2 H. apply split_snoc in H. destruct H as [[_ [H _]]|[t2' [-> H]]]; [discriminate|].
    assert (X : In (Removed j) t) by (rewrite H, in_app_iff; cbn; auto).
    apply (i_rem _ _ I) in X.
    apply (i_once_r _ _ I) in H. rewrite !in_snoc. intuition congruence.
  - intros j t1 t2 H. apply split_snoc in H. destruct H as [[_ [H _]]|[t2' [-> H]]]; [discriminate|].
    assert (X : In (Freed j) t) by (rewrite H, in_app_iff; cbn; auto).
    apply (i_freed _ _ I) in X.
    apply (i_once_f _ _ I) in H. rewrite !in_snoc. intuition congruence.
Qed.

(** What the functions that are called leave alone: memory that is there. *)
Lemma op_keeps : forall s o s' t', do_op s o = Ok (s', t') ->
  forall i, heap s i <> None -> heap s' i <> None.
Proof.
  intros s [fd ok|j] s' t' E i H; cbn in E.
  - unfold add_fd in E. destruct (ok && _); injection E as <- <-; [|assumption].
    cbn. unfold set. destruct (Nat.eqb i (next s)); [discriminate|assumption].
  - unfold remove_source in E. destruct (heap s j) as [f|]; [|discriminate].
    destruct (f =? -1)%Z; [discriminate|]. injection E as <- <-. cbn.
    unfold set. destruct (Nat.eqb i j); [discriminate|assumption].
Qed.

Lemma ops_keep : forall l s s' t', do_ops s l = Ok (s', t') ->
  forall i, heap s i <> None -> heap s' i <> None.
Proof.
  induction l as [|o r IH]; intros s s' t' E i H; cbn in E.
  - injection E as <- <-. assumption.
  - destruct (do_op s o) as [[s1 t1]| |] eqn:A; try discriminate.
    destruct (do_ops s1 r) as [[s2 t2]| |] eqn:B; try discriminate. injection E as <- <-.
    eapply IH; [eassumption|]. eapply op_keeps; eassumption.
Qed.

Lemma ops_no_bad : forall l s, do_ops s l <> Bad_memory.
Proof.
  induction l as [|o r IH]; intros s; cbn; [discriminate|].
  destruct (do_op s o) as [[s1 t1]| |] eqn:A; try discriminate.
  - specialize (IH s1). destruct (do_ops s1 r) as [[? ?]| |]; congruence.
  - destruct o; cbn in A; [discriminate|]. unfold remove_source in A.
    destruct (heap s i); [|discriminate]. destruct (_ =? _)%Z; discriminate.
Qed.

Lemma loop_no_bad : forall ready does s,
  (forall i, In i ready -> heap s i <> None) -> loop s ready does <> Bad_memory.
Proof.
  induction ready as [|i r IH]; intros does s H; cbn; [discriminate|].
  destruct (heap s i) as [fd|] eqn:Hh.
  2:{ exfalso. apply (H i); [now left|assumption]. }
  destruct (fd =? -1)%Z.
  - apply IH. intros j J. apply H. now right.
  - destruct (do_ops s (does i)) as [[s1 t1]| |] eqn:A; try discriminate.
    + assert (X : loop s1 r does <> Bad_memory).
      { apply IH. intros j J. eapply ops_keep; [eassumption|]. apply H. now right. }
      destruct (loop s1 r does) as [[? ?]| |]; congruence.
    + exfalso. exact (ops_no_bad _ _ A).
Qed.

Lemma inv_loop : forall ready does s t s' t',
  inv s t -> loop s ready does = Ok (s', t') -> inv s' (t ++ t').
Proof.
  induction ready as [|i r IH]; intros does s t s' t' I E; cbn in E.
  - injection E as <- <-. now rewrite app_nil_r.
  - destruct (heap s i) as [fd|] eqn:Hh; [|discriminate].
    destruct (fd =? -1)%Z eqn:B; [eapply IH; eassumption|]. apply Z.eqb_neq in B.
    destruct (do_ops s (does i)) as [[s1 t1]| |] eqn:A; try discriminate.
    destruct (loop s1 r does) as [[s2 t2]| |] eqn:L; try discriminate. injection E as <- <-.
    replace (t ++ Called i :: t1 ++ t2) with (((t ++ [Called i]) ++ t1) ++ t2)
      by (rewrite <- !app_assoc; reflexivity).
    eapply IH; [|eassumption]. eapply inv_ops; [|eassumption]. eapply inv_call; eassumption.
Qed.

Lemma drop_heap : forall l h i,
  fold_left (fun h i => set h i None) l h i = if in_dec Nat.eq_dec i l then None else h i.
Proof.
  induction l as [|x l IH]; intros h i; [reflexivity|].
  cbn [fold_left]. rewrite IH.
  destruct (in_dec Nat.eq_dec i l) as [H|H], (in_dec Nat.eq_dec i (x :: l)) as [K|K]; try reflexivity.
  - exfalso. apply K. now right.
  - destruct K as [->|K]; [apply set_same|contradiction].
  - apply set_other. intros ->. apply K. now left.
Qed.

Lemma in_freed : forall i l, In (Freed i) (map Freed l) <-> In i l.
Proof.
  intros. rewrite in_map_iff. split.
  - intros [x [X Y]]. injection X as ->. assumption.
  - intros H. exists i. auto.
Qed.

Lemma not_in_freed : forall x l, (forall i, x <> Freed i) -> ~ In x (map Freed l).
Proof. intros x l H X. apply in_map_iff in X. destruct X as [y [Y _]]. eapply H. eauto. Qed.

(** A split of [t ++ u] at [x]. *)
Lemma split_app : forall (t u t1 : list obs) x t2,
  t ++ u = t1 ++ x :: t2 ->
  (exists t2', t = t1 ++ x :: t2' /\ t2 = t2' ++ u) \/ (exists u1, u = u1 ++ x :: t2 /\ t1 = t ++ u1).
Proof.
  induction t as [|a t IH]; intros u t1 x t2 H.
  - right. exists t1. auto.
  - destruct t1 as [|b t1]; cbn in H.
    + injection H as -> <-. left. exists t. auto.
    + injection H as -> H. apply IH in H. destruct H as [[t2' [-> ->]]|[u1 [-> ->]]].
      * left. exists t2'. auto.
      * right. exists u1. auto.
Qed.

Lemma inv_drop : forall s t s' t', inv s t -> drop_destroyed s = (s', t') -> inv s' (t ++ t').
Proof.
  intros s t s' t' I E. unfold drop_destroyed in E. injection E as <- <-.
  assert (D : forall i, In i (destroy s) <-> heap s i = Some (-1)%Z) by apply I.
  split; cbn.
  - intros i. rewrite drop_heap. destruct (in_dec Nat.eq_dec i (destroy s)) as [H|H].
    + rewrite (i_epoll _ _ I). apply D in H. split; intros [fd [X Y]]; congruence.
    + apply (i_epoll _ _ I).
  - intros i. rewrite drop_heap. destruct (in_dec Nat.eq_dec i (destroy s)) as [H|H].
    + split; [contradiction|discriminate].
    + rewrite <- D. tauto.
  - constructor.
  - intros i. rewrite drop_heap. destruct (in_dec Nat.eq_dec i (destroy s)); [congruence|].
    apply (i_next _ _ I).
  - intros i. rewrite in_app_iff, (i_seen _ _ I). split; [|auto].
    intros [X|X]; [assumption|]. exfalso. revert X. apply not_in_freed. discriminate.
  - intros i. rewrite in_app_iff, (i_rem _ _ I), drop_heap.
    assert (X : ~ In (Removed i) (map Freed (destroy s))) by (apply not_in_freed; discriminate).
    destruct (in_dec Nat.eq_dec i (destroy s)) as [H|H].
    + apply D in H. intuition.
    + intuition.
  - intros i. rewrite in_app_iff, in_freed, (i_freed _ _ I), drop_heap.
    destruct (in_dec Nat.eq_dec i (destroy s)) as [H|H].
    + split; [|auto]. intros _. split; [|reflexivity]. apply (i_next _ _ I).
      apply D in H. congruence.
    + intuition.
  - intros i t1 t2 H. apply split_app in H. destruct H as [[t2' [H ->]]|[u1 [H _]]].
    + apply (i_once_r _ _ I) in H. rewrite !in_app_iff.
      assert (X : ~ In (Called i) (map Freed (destroy s))) by (apply not_in_freed; discriminate).
      assert (Y : ~ In (Removed i) (map Freed (destroy s))) by (apply not_in_freed; discriminate).
      tauto.
    + exfalso. assert (X : In (Removed i) (map Freed (destroy s))) by (rewrite H, in_app_iff; cbn; auto).
      revert X. apply not_in_freed. discriminate.
  - intros i t1 t2 H.
    assert (X : ~ In (Called i) (map Freed (destroy s))) by (apply not_in_freed; discriminate).
    assert (Y : ~ In (Removed i) (map Freed (destroy s))) by (apply not_in_freed; discriminate).
    apply split_app in H. destruct H as [[t2' [H ->]]|[u1 [H _]]].
    + assert (Z : ~ In i (destroy s)).
      { assert (W : In (Freed i) t) by (rewrite H, in_app_iff; cbn; auto).
        apply (i_freed _ _ I) in W. rewrite D. intuition congruence. }
      apply (i_once_f _ _ I) in H. rewrite !in_app_iff, in_freed. tauto.
    + assert (N : NoDup (map Freed (destroy s))).
      { apply Injective_map_NoDup; [|apply (i_nodup _ _ I)]. intros a b Q. congruence. }
      rewrite H in N, X, Y. apply NoDup_remove_2 in N. rewrite in_app_iff in N, X, Y. cbn in X, Y. tauto.
Qed.

Lemma inv_act : forall s t a s' t', inv s t -> act s a = Ok (s', t') -> inv s' (t ++ t').
Proof.
  intros s t [o|rep does] s' t' I E; cbn [act] in E.
  - eapply inv_op; eassumption.
  - destruct rep as [ready|]; cbn [dispatch] in E.
    2:{ injection E as <- <-. now rewrite app_nil_r. }
    destruct (loop s ready does) as [[s1 t1]| |] eqn:L; try discriminate.
    destruct (drop_destroyed s1) as [s2 t2] eqn:F. injection E as <- <-.
    rewrite app_assoc. eapply inv_drop; [|eassumption]. eapply inv_loop; eassumption.
Qed.

Lemma inv_history : forall s l s' t', history s l s' t' -> forall t, inv s t -> inv s' (t ++ t').
Proof.
  induction 1; intros t0 I.
  - now rewrite app_nil_r.
  - rewrite app_assoc. apply IHhistory. eapply inv_act; eassumption.
Qed.

(** The calls of one libinput_dispatch. *)
Lemma calls_app : forall a b, calls (a ++ b) = calls a ++ calls b.
Proof. induction a as [|[]]; intros; cbn; rewrite ?IHa; reflexivity. Qed.

Lemma calls_op : forall s o s' t', do_op s o = Ok (s', t') -> calls t' = [].
Proof.
  intros s [fd ok|j] s' t' E; cbn in E.
  - unfold add_fd in E. destruct (ok && _); injection E as <- <-; reflexivity.
  - unfold remove_source in E. destruct (heap s j) as [f|]; [|discriminate].
    destruct (f =? -1)%Z; [discriminate|]. injection E as <- <-. reflexivity.
Qed.

Lemma calls_ops : forall l s s' t', do_ops s l = Ok (s', t') -> calls t' = [].
Proof.
  induction l as [|o r IH]; intros s s' t' E; cbn in E.
  - injection E as <- <-. reflexivity.
  - destruct (do_op s o) as [[s1 t1]| |] eqn:A; try discriminate.
    destruct (do_ops s1 r) as [[s2 t2]| |] eqn:B; try discriminate. injection E as <- <-.
    rewrite calls_app, (calls_op _ _ _ _ A), (IH _ _ _ B). reflexivity.
Qed.

Lemma calls_freed : forall l, calls (map Freed l) = [].
Proof. induction l; [reflexivity|assumption]. Qed.

Lemma calls_loop : forall ready does s s' t',
  loop s ready does = Ok (s', t') -> sublist (calls t') ready.
Proof.
  induction ready as [|i r IH]; intros does s s' t' E; cbn in E.
  - injection E as <- <-. constructor.
  - destruct (heap s i) as [fd|] eqn:Hh; [|discriminate].
    destruct (fd =? -1)%Z; [apply sub_skip; eapply IH; eassumption|].
    destruct (do_ops s (does i)) as [[s1 t1]| |] eqn:A; try discriminate.
    destruct (loop s1 r does) as [[s2 t2]| |] eqn:L; try discriminate. injection E as <- <-.
    cbn. rewrite calls_app, (calls_ops _ _ _ _ A). cbn. apply sub_keep. eapply IH; eassumption.
Qed.

Lemma in_calls : forall i t, In i (calls t) <-> In (Called i) t.
Proof.
  induction t as [|[]]; cbn; [tauto|..]; rewrite IHt; intuition congruence.
Qed.

(** Each reported source is called or was removed. *)
Lemma ops_removed : forall l s s' t' i fd, do_ops s l = Ok (s', t') ->
  heap s i = Some fd -> fd <> (-1)%Z -> i < next s ->
  In (Removed i) t' \/ (heap s' i = Some fd /\ i < next s').
Proof.
  induction l as [|o r IH]; intros s s' t' i fd E H N L; cbn in E.
  - injection E as <- <-. auto.
  - destruct (do_op s o) as [[s1 t1]| |] eqn:A; try discriminate.
    destruct (do_ops s1 r) as [[s2 t2]| |] eqn:B; try discriminate. injection E as <- <-.
    assert (X : In (Removed i) t1 \/ (heap s1 i = Some fd /\ i < next s1)).
    { destruct o as [f ok|j]; cbn in A.
      - unfold add_fd in A. destruct (ok && _); injection A as <- <-; [|auto].
        right. cbn. rewrite set_other by lia. split; [assumption|lia].
      - unfold remove_source in A. destruct (heap s j) as [f|]; [|discriminate].
        destruct (f =? -1)%Z; [discriminate|]. injection A as <- <-. cbn.
        destruct (Nat.eq_dec i j) as [->|M]; [auto|]. rewrite set_other by assumption. auto. }
    rewrite in_app_iff. destruct X as [X|[X Y]]; [auto|].
    destruct (IH _ _ _ _ _ B X N Y); auto.
Qed.

Lemma loop_called : forall ready does s s' t',
  loop s ready does = Ok (s', t') ->
  forall i fd, In i ready -> heap s i = Some fd -> fd <> (-1)%Z -> i < next s ->
  In (Called i) t' \/ In (Removed i) t'.
Proof.
  induction ready as [|j r IH]; intros does s s' t' E i fd K H N Lt; [contradiction|].
  cbn in E. destruct (heap s j) as [fj|] eqn:Hj; [|discriminate].
  destruct (fj =? -1)%Z eqn:B.
  - apply Z.eqb_eq in B. subst fj. destruct K as [->|K]; [congruence|]. eapply IH; eassumption.
  - destruct (do_ops s (does j)) as [[s1 t1]| |] eqn:A; try discriminate.
    destruct (loop s1 r does) as [[s2 t2]| |] eqn:L; try discriminate. injection E as <- <-.
    destruct K as [->|K]; [left; now left|].
    cbn. rewrite !in_app_iff. destruct (ops_removed _ _ _ _ _ _ A H N Lt) as [X|[X Y]]; [auto|].
    destruct (IH _ _ _ _ L _ _ K X N Y); auto.
Qed.

Lemma sublist_in : forall l m, sublist l m -> forall x, In x l -> In x m.
Proof. induction 1; cbn; intuition. Qed.

Lemma sublist_nodup : forall l m, sublist l m -> NoDup m -> NoDup l.
Proof.
  induction 1; intros N; [constructor|..].
  - inversion N; auto.
  - inversion N; subst. constructor; [|auto]. intros X. eapply sublist_in in X; eauto.
Qed.
