Require Import Coq.ZArith.ZArith Coq.Lists.List Coq.Bool.Bool Coq.Arith.Arith Coq.micromega.Lia.
Require Import Verif.Timer_Model Verif.Timer_Spec.
Import ListNotations.
Open Scope Z_scope.

Fixpoint lookup (id : nat) (l : list (nat * Z)) : option Z :=
  match l with [] => None | (i, e) :: r => if (i =? id)%nat then Some e else lookup id r end.

Definition TI (s : tstate) : Prop :=
  NoDup (map fst (t_list s)) /\
  (forall id, lookup id (t_list s) = armed (t_log s) id) /\
  (t_next s = earliest (t_list s) \/ (t_next s = 0 /\ t_list s = [])) /\
  fires_only_when_due (t_log s) /\
  (forall id x, lookup id (t_list s) = Some x -> x <> 0).

Lemma armed_app : forall l e id, armed (l ++ [e]) id = armed_step id (armed l id) e.
Proof. intros; unfold armed; rewrite fold_left_app; reflexivity. Qed.

Lemma in_list_lookup : forall id l, in_list id l = match lookup id l with Some _ => true | None => false end.
Proof. induction l as [|[i e] l IH]; simpl; auto. destruct (i =? id)%nat; auto. Qed.
Lemma lookup_In : forall id l e, lookup id l = Some e -> In id (map fst l).
Proof.
  induction l as [|[i x] l IH]; simpl; intros; [discriminate|].
  destruct (Nat.eqb_spec i id); [auto|right; eauto].
Qed.
Lemma lookup_None : forall id l, lookup id l = None <-> ~ In id (map fst l).
Proof.
  induction l as [|[i x] l IH]; simpl; [tauto|].
  destruct (Nat.eqb_spec i id); [split; [discriminate|tauto]|tauto].
Qed.
Lemma update_map : forall id e l, map fst (update_expire id e l) = map fst l.
Proof. induction l as [|[i x] l IH]; simpl; auto. destruct (i =? id)%nat; simpl; congruence. Qed.
Lemma update_lookup : forall id e l j, In id (map fst l) ->
  lookup j (update_expire id e l) = if (id =? j)%nat then Some e else lookup j l.
Proof.
  induction l as [|[i x] l IH]; simpl; intros j H; [contradiction|].
  destruct (Nat.eqb_spec i id) as [->|Hne]; simpl.
  - destruct (id =? j)%nat; auto.
  - rewrite IH by tauto. destruct (Nat.eqb_spec i j); auto.
    destruct (Nat.eqb_spec id j); congruence.
Qed.
Lemma remove_map : forall id l, incl (map fst (remove_id id l)) (map fst l).
Proof.
  induction l as [|[i x] l IH]; simpl; [apply incl_refl|].
  destruct (i =? id)%nat; [apply incl_tl, incl_refl|].
  simpl. intros y [->|H]; [left; auto|right; auto].
Qed.
Lemma remove_nodup : forall id l, NoDup (map fst l) -> NoDup (map fst (remove_id id l)).
Proof.
  induction l as [|[i x] l IH]; simpl; intros H; auto. inversion H; subst.
  destruct (i =? id)%nat; auto. simpl. constructor; auto.
  intros C. apply H2. apply (remove_map id l); auto.
Qed.
Lemma remove_lookup : forall id l j, NoDup (map fst l) ->
  lookup j (remove_id id l) = if (id =? j)%nat then None else lookup j l.
Proof.
  induction l as [|[i x] l IH]; simpl; intros j H; [destruct (id =? j)%nat; auto|].
  inversion H; subst.
  destruct (Nat.eqb_spec i id) as [->|Hne]; simpl.
  - destruct (Nat.eqb_spec id j) as [->|]; auto. apply lookup_None; auto.
  - rewrite IH by auto. destruct (Nat.eqb_spec i j), (Nat.eqb_spec id j); congruence.
Qed.
Lemma first_due_lookup : forall now l id, NoDup (map fst l) -> first_due now l = Some id ->
  exists e, lookup id l = Some e /\ e <= now.
Proof.
  induction l as [|[i x] l IH]; simpl; intros id H F; [discriminate|]. inversion H; subst.
  destruct (Z.leb_spec x now).
  - inversion F; subst. rewrite Nat.eqb_refl. eauto.
  - destruct (IH _ H3 F) as (e & A & B). exists e; split; auto.
    destruct (Nat.eqb_spec i id); auto. subst. exfalso. apply H2. eapply lookup_In; eauto.
Qed.
Lemma first_due_None : forall now l, first_due now l = None ->
  forall id e, lookup id l = Some e -> now < e.
Proof.
  induction l as [|[i x] l IH]; simpl; intros F id e L; [discriminate|].
  destruct (Z.leb_spec x now); [discriminate|].
  destruct (i =? id)%nat; [inversion L; subst; auto|eauto].
Qed.

Lemma fires_snoc : forall log e, fires_only_when_due log ->
  match e with EFired id now => exists x, armed log id = Some x /\ x <= now | _ => True end ->
  fires_only_when_due (log ++ [e]).
Proof.
  intros log e H He before id now after Heq.
  destruct after as [|z after] using rev_ind.
  - apply app_inj_tail in Heq. destruct Heq; subst. auto.
  - rewrite app_comm_cons, app_assoc in Heq. apply app_inj_tail in Heq. destruct Heq; subst.
    eapply H; reflexivity.
Qed.

Lemma set_TI : forall s id e, TI s -> TI (timer_set id e s).
Proof.
  intros s id e (H1 & H2 & H3 & H4 & H5). unfold timer_set.
  destruct (Z.eqb_spec e 0).
  - split; [|split; [|split; [|split]]]; simpl; auto.
    + intros; rewrite armed_app; simpl; auto.
    + apply fires_snoc; simpl; auto.
  - destruct (in_list id (t_list s)) eqn:Hin; rewrite in_list_lookup in Hin.
    + destruct (lookup id (t_list s)) eqn:Hl; [|discriminate].
      pose proof (lookup_In _ _ _ Hl) as HIn.
      split; [|split; [|split; [|split]]]; cbn [t_list t_next t_log]; auto.
      * rewrite update_map; auto.
      * intros j. rewrite armed_app, update_lookup by auto. simpl. destruct (id =? j)%nat; auto.
      * apply fires_snoc; simpl; auto.
      * intros j x. rewrite update_lookup by auto. destruct (id =? j)%nat; [congruence|apply H5].
    + destruct (lookup id (t_list s)) eqn:Hl; [discriminate|].
      apply lookup_None in Hl.
      split; [|split; [|split; [|split]]]; cbn [t_list t_next t_log]; auto.
      * simpl. constructor; auto.
      * intros j. rewrite armed_app. simpl. destruct (id =? j)%nat; auto.
      * apply fires_snoc; simpl; auto.
      * intros j x. simpl. destruct (id =? j)%nat; [congruence|apply H5].
Qed.

Lemma cancel_TI : forall s id, TI s -> TI (timer_cancel id s).
Proof.
  intros s id (H1 & H2 & H3 & H4 & H5). unfold timer_cancel.
  destruct (in_list id (t_list s)) eqn:Hin; rewrite in_list_lookup in Hin.
  - split; [|split; [|split; [|split]]]; cbn [t_list t_next t_log]; auto.
    + apply remove_nodup; auto.
    + intros j. rewrite armed_app, remove_lookup by auto. simpl. destruct (id =? j)%nat; auto.
    + apply fires_snoc; simpl; auto.
    + intros j x. rewrite remove_lookup by auto. destruct (id =? j)%nat; [congruence|apply H5].
  - destruct (lookup id (t_list s)) eqn:Hl; [discriminate|].
    split; [|split; [|split; [|split]]]; cbn [t_list t_next t_log]; auto.
    + intros j. rewrite armed_app. simpl. destruct (Nat.eqb_spec id j); auto. subst; auto.
    + apply fires_snoc; simpl; auto.
Qed.

Lemma cmd_TI : forall s c, TI s -> TI (do_cmd s c).
Proof. intros s [id e|id] H; simpl; [apply set_TI|apply cancel_TI]; auto. Qed.
Lemma cmds_TI : forall cs s, TI s -> TI (fold_left do_cmd cs s).
Proof. induction cs; simpl; intros; auto using cmd_TI. Qed.

Lemma fired_TI : forall s id now, TI s -> first_due now (t_list s) = Some id ->
  TI (mkT (remove_id id (t_list s)) (earliest (remove_id id (t_list s))) (t_log s ++ [EFired id now])).
Proof.
  intros s id now (H1 & H2 & H3 & H4 & H5) F.
  destruct (first_due_lookup _ _ _ H1 F) as (e & A & B).
  split; [|split; [|split; [|split]]]; cbn [t_list t_next t_log]; auto.
  - apply remove_nodup; auto.
  - intros j. rewrite armed_app, remove_lookup by auto. simpl. destruct (id =? j)%nat; auto.
  - apply fires_snoc; simpl; auto. exists e; rewrite <- H2; auto.
  - intros j x. rewrite remove_lookup by auto. destruct (id =? j)%nat; [congruence|apply H5].
Qed.

Section H.
  Variable cb : list tev -> nat -> Z -> list tcmd.

  Lemma round_TI : forall now s s', TI s -> handler_round cb now s = Some s' -> TI s'.
  Proof.
    intros now s s' H R. unfold handler_round in R.
    destruct (first_due now (t_list s)) as [id|] eqn:F; [|discriminate].
    inversion R; subst. apply cmds_TI. apply fired_TI; auto.
  Qed.
  Lemma handler_TI : forall fuel now s s', TI s -> handler cb fuel now s = Some s' ->
    TI s' /\ first_due now (t_list s') = None.
  Proof.
    induction fuel as [|f IH]; intros now s s' H R; simpl in R;
      destruct (handler_round cb now s) as [s1|] eqn:E; try discriminate.
    - inversion R; subst. split; auto. unfold handler_round in E.
      destruct (first_due now (t_list s')); [discriminate|auto].
    - apply (IH now s1); auto. eapply round_TI; eauto.
    - inversion R; subst. split; auto. unfold handler_round in E.
      destruct (first_due now (t_list s')); [discriminate|auto].
  Qed.

  Lemma TI_init : TI timer_init.
  Proof.
    split; [constructor|split; [auto|split; [right; auto|split]]].
    - intros b id now a H. destruct b; discriminate.
    - discriminate.
  Qed.
  Lemma trun_TI : forall ops, TI (trun cb ops).
  Proof.
    intros ops. unfold trun. generalize TI_init. generalize timer_init.
    induction ops as [|o ops IH]; simpl; intros s H; auto.
    apply IH. destruct o as [c|now]; simpl; [apply cmd_TI; auto|].
    destruct (handler_round cb now s) eqn:E; auto. eapply round_TI; eauto.
  Qed.

  Lemma earliest_fold : forall l m,
    let e := fold_left (fun e (x : nat * Z) => if snd x <? e then snd x else e) l m in
    e <= m /\ (forall id x, In (id, x) l -> e <= x) /\ (e = m \/ exists id, In (id, e) l).
  Proof.
    induction l as [|[i x] l IH]; intros m e; subst e; simpl.
    - split; [lia|split; [contradiction|auto]].
    - destruct (Z.ltb_spec x m).
      + destruct (IH x) as (A & B & C). split; [lia|]. split.
        * intros id y [E|E]; [inversion E; subst; auto|eauto].
        * right. destruct C as [C|[j C]]; [exists i; rewrite C; auto|exists j; auto].
      + destruct (IH m) as (A & B & C). split; [lia|]. split.
        * intros id y [E|E]; [inversion E; subst; lia|eauto].
        * destruct C as [C|[j C]]; [left; exact C|right; exists j; auto].
  Qed.
  Lemma In_lookup : forall l id x, NoDup (map fst l) -> In (id, x) l <-> lookup id l = Some x.
  Proof.
    induction l as [|[i y] l IH]; simpl; intros id x H; [split; [tauto|discriminate]|].
    inversion H; subst. destruct (Nat.eqb_spec i id) as [->|Hne].
    - split.
      + intros [E|E]; [inversion E; auto|]. exfalso. apply H2. apply (in_map fst) in E; auto.
      + intros E; inversion E; auto.
    - rewrite <- IH by auto. split; [intros [E|E]; [inversion E; congruence|auto]|auto].
  Qed.

  Lemma next_earliest_lemma : forall ops,
    let s := trun cb ops in
    is_earliest (t_log s) (t_next s) \/
     (t_next s = 0 /\ forall id, armed (t_log s) id = None).
  Proof.
    intros ops s. destruct (trun_TI ops) as (H1 & H2 & H3 & H4 & H5). fold s in H1, H2, H3, H4, H5.
    destruct H3 as [H3|[H3 H3']].
    - left. unfold earliest in H3.
      destruct (earliest_fold (t_list s) UINT64_MAX) as (A & B & C).
      rewrite <- H3 in A, B, C. split.
      + intros id x Hx. rewrite <- H2 in Hx. apply In_lookup in Hx; auto. eauto.
      + destruct C as [C|[id C]].
        * right. split; auto. intros id x Hx. rewrite <- H2 in Hx. apply In_lookup in Hx; auto.
          rewrite <- C. eapply B; eauto.
        * left. exists id. rewrite <- H2. apply In_lookup; auto.
    - right. split; auto. intros id. rewrite <- H2, H3'. reflexivity.
  Qed.

  Lemma fires_due_lemma : forall ops, fires_only_when_due (t_log (trun cb ops)).
  Proof. intros; apply trun_TI. Qed.

  Lemma handler_complete_lemma : forall ops fuel now s',
    handler cb fuel now (trun cb ops) = Some s' ->
    fires_only_when_due (t_log s') /\
    forall id e, armed (t_log s') id = Some e -> now < e.
  Proof.
    intros ops fuel now s' H.
    destruct (handler_TI fuel now _ _ (trun_TI ops) H) as [(H1 & H2 & H3 & H4 & H5) F].
    split; auto. intros id e A. rewrite <- H2 in A. eapply first_due_None; eauto.
  Qed.

  Lemma flush_complete_lemma : forall ops fuel now s', now < UINT64_MAX ->
    timer_flush cb fuel now (trun cb ops) = Some s' ->
    forall id e, armed (t_log s') id = Some e -> now < e.
  Proof.
    intros ops fuel now s' Hmax H id e A. unfold timer_flush in H.
    pose proof (trun_TI ops) as (H1 & H2 & H3 & H4 & H5).
    destruct (Z.eqb_spec (t_next (trun cb ops)) 0) as [Hz|Hz]; simpl in H.
    - inversion H; subst. destruct H3 as [H3|[H3 H3']].
      + (* earliest is 0: some armed timer would have expiry 0 *)
        exfalso. unfold earliest in H3.
        destruct (earliest_fold (t_list (trun cb ops)) UINT64_MAX) as (_ & _ & [C|[j C]]).
        * rewrite <- H3, Hz in C. discriminate C.
        * rewrite <- H3, Hz in C. apply In_lookup in C; auto. apply (H5 _ _ C); auto.
      + rewrite <- H2, H3' in A. discriminate.
    - destruct (Z.ltb_spec now (t_next (trun cb ops))).
      + inversion H; subst. destruct H3 as [H3|[H3 H3']]; [|congruence].
        destruct (earliest_fold (t_list (trun cb ops)) UINT64_MAX) as (_ & B & _).
        rewrite <- H2 in A. apply In_lookup in A; auto. specialize (B _ _ A).
        unfold earliest in H3. lia.
      + eapply handler_complete_lemma; eauto.
  Qed.

  (** A handler whose callbacks only arm timers in the future terminates. *)
  Definition ndue (now : Z) (l : list (nat * Z)) : nat :=
    length (filter (fun x => snd x <=? now) l).
  Lemma ndue_cons : forall now x l, ndue now (x :: l) = ((if (snd x <=? now)%Z then 1 else 0) + ndue now l)%nat.
  Proof. intros; unfold ndue; simpl. destruct (snd x <=? now); auto. Qed.
  Lemma ndue_remove : forall now id l, (ndue now (remove_id id l) <= ndue now l)%nat.
  Proof.
    induction l as [|[i x] l IH]; simpl; auto.
    destruct (i =? id)%nat; rewrite !ndue_cons; lia.
  Qed.
  Lemma ndue_update : forall now id e l, now < e -> (ndue now (update_expire id e l) <= ndue now l)%nat.
  Proof.
    induction l as [|[i x] l IH]; simpl; intros; auto.
    destruct (i =? id)%nat; rewrite !ndue_cons; simpl.
    - destruct (Z.leb_spec e now); lia.
    - specialize (IH H). lia.
  Qed.
  Lemma ndue_fire : forall now l id, first_due now l = Some id -> NoDup (map fst l) ->
    (ndue now (remove_id id l) < ndue now l)%nat.
  Proof.
    induction l as [|[i x] l IH]; simpl; intros id F N; [discriminate|]. inversion N; subst.
    destruct (Z.leb_spec x now).
    - inversion F; subst. rewrite Nat.eqb_refl, ndue_cons. simpl.
      destruct (Z.leb_spec x now); lia.
    - destruct (Nat.eqb_spec i id) as [->|].
      + exfalso. destruct (first_due_lookup _ _ _ H2 F) as (e & A & _). apply H1. eapply lookup_In; eauto.
      + rewrite !ndue_cons. specialize (IH id F H2). lia.
  Qed.
  Definition future_cmd (now : Z) (c : tcmd) : Prop :=
    match c with CSet _ e => now < e | CCancel _ => True end.
  Lemma cmd_ndue : forall now s c, future_cmd now c ->
    (ndue now (t_list (do_cmd s c)) <= ndue now (t_list s))%nat.
  Proof.
    intros now s [id e|id] H; simpl in *.
    - unfold timer_set. destruct (e =? 0); simpl; auto.
      destruct (in_list id (t_list s)); [apply ndue_update; auto|].
      rewrite ndue_cons. simpl. destruct (Z.leb_spec e now); lia.
    - unfold timer_cancel. destruct (in_list id (t_list s)); simpl; auto. apply ndue_remove.
  Qed.
  Lemma cmds_ndue : forall now cs s, Forall (future_cmd now) cs ->
    (ndue now (t_list (fold_left do_cmd cs s)) <= ndue now (t_list s))%nat.
  Proof.
    induction cs as [|c cs IH]; simpl; intros s H; auto. inversion H; subst.
    specialize (IH (do_cmd s c) H3). pose proof (cmd_ndue now s c H2). lia.
  Qed.
  Lemma handler_terminates_aux : forall now,
    (forall log id, Forall (future_cmd now) (cb log id now)) ->
    forall fuel s, TI s -> (ndue now (t_list s) <= fuel)%nat -> handler cb fuel now s <> None.
  Proof.
    intros now Hcb. induction fuel as [|f IH]; intros s H L; simpl;
      destruct (handler_round cb now s) as [s1|] eqn:E; try discriminate.
    - unfold handler_round in E. destruct (first_due now (t_list s)) eqn:F; [|discriminate].
      destruct H as (N & _). pose proof (ndue_fire _ _ _ F N). lia.
    - apply IH; [eapply round_TI; eauto|].
      unfold handler_round in E. destruct (first_due now (t_list s)) eqn:F; [|discriminate].
      inversion E; subst. destruct H as (N & _). pose proof (ndue_fire _ _ _ F N).
      match goal with |- context [fold_left do_cmd ?cs ?s0] =>
        pose proof (cmds_ndue now cs s0 ltac:(auto)) as Q end.
      simpl in Q. simpl. lia.
  Qed.
  Lemma ndue_length : forall now l, (ndue now l <= length l)%nat.
  Proof. intros; unfold ndue. induction l as [|x l IH]; simpl; auto. destruct (snd x <=? now); simpl; lia. Qed.

  Lemma handler_terminates_lemma : forall ops now,
    (forall log id, Forall (future_cmd now) (cb log id now)) ->
    exists s', handler cb (length (t_list (trun cb ops))) now (trun cb ops) = Some s'.
  Proof.
    intros ops now Hcb.
    destruct (handler cb (length (t_list (trun cb ops))) now (trun cb ops)) eqn:E; eauto.
    exfalso. eapply handler_terminates_aux; eauto using trun_TI, ndue_length.
  Qed.

  (** Which timer fires: the first due one in list order. *)
  Lemma first_due_split : forall now l id, first_due now l = Some id ->
    exists l1 e l2, l = l1 ++ (id, e) :: l2 /\ e <= now /\ forall j x, In (j, x) l1 -> now < x.
  Proof.
    induction l as [|[i x] l IH]; simpl; intros id F; [discriminate|].
    destruct (Z.leb_spec x now).
    - inversion F; subst. exists [], x, l. repeat split; auto. contradiction.
    - destruct (IH _ F) as (l1 & e & l2 & A & B & C). subst l.
      exists ((i, x) :: l1), e, l2. repeat split; auto.
      intros j y [E|E]; [inversion E; subst; auto|eauto].
  Qed.
  Lemma round_order_lemma : forall ops now s',
    handler_round cb now (trun cb ops) = Some s' ->
    exists l1 id e l2 rest, t_list (trun cb ops) = l1 ++ (id, e) :: l2 /\ e <= now /\
      (forall j x, In (j, x) l1 -> now < x) /\
      t_log s' = t_log (trun cb ops) ++ EFired id now :: rest.
  Proof.
    intros ops now s' R. unfold handler_round in R.
    destruct (first_due now (t_list (trun cb ops))) as [id|] eqn:F; [|discriminate].
    destruct (first_due_split _ _ _ F) as (l1 & e & l2 & A & B & C).
    assert (G : forall cs s, exists rest, t_log (fold_left do_cmd cs s) = t_log s ++ rest).
    { induction cs as [|c cs IH]; intros s; simpl; [exists []; rewrite app_nil_r; auto|].
      destruct (IH (do_cmd s c)) as [r Hr]. rewrite Hr.
      assert (exists z, t_log (do_cmd s c) = t_log s ++ [z]) as [z Hz].
      { destruct c; simpl; [unfold timer_set; destruct (_ =? 0)|unfold timer_cancel; destruct (in_list _ _)]; simpl; eauto. }
      rewrite Hz, <- app_assoc. eauto. }
    inversion R; subst.
    match goal with |- context [fold_left do_cmd ?cs ?s0] => destruct (G cs s0) as [r Hr] end.
    exists l1, id, e, l2, r. repeat split; auto. rewrite Hr. simpl. rewrite <- app_assoc. reflexivity.
  Qed.

  Lemma arm_position_lemma : forall ops id e, e <> 0 ->
    let s := trun cb ops in
    t_list (timer_set id e s) =
      match armed (t_log s) id with
      | None => (id, e) :: t_list s
      | Some _ => map (fun x => if (fst x =? id)%nat then (id, e) else x) (t_list s)
      end.
  Proof.
    intros ops id e He s. destruct (trun_TI ops) as (N & L & _). fold s in N, L.
    unfold timer_set. destruct (Z.eqb_spec e 0); [congruence|]. simpl.
    rewrite in_list_lookup, L. destruct (armed (t_log s) id); auto.
    clear L. induction (t_list s) as [|[i x] l IH]; simpl; auto. inversion N; subst.
    destruct (Nat.eqb_spec i id) as [->|].
    - f_equal. clear - H1. induction l as [|[j y] l IH]; simpl; auto.
      destruct (Nat.eqb_spec j id); [subst; exfalso; apply H1; simpl; auto|].
      f_equal. apply IH. simpl in H1. tauto.
    - f_equal. auto.
  Qed.
End H.
