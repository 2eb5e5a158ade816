(** Refinement of the ring buffer to a FIFO list. *)
Require Import Coq.Arith.Arith Coq.Bool.Bool Coq.Lists.List Coq.micromega.Lia.
Require Import Verif.Queue_Model Verif.Queue_Spec.
Import ListNotations.

Lemma mod_lt_2 : forall a l, l <> 0 -> a < 2 * l ->
  a mod l = if a <? l then a else a - l.
Proof.
  intros a l Hl Ha. destruct (Nat.ltb_spec a l).
  - apply Nat.mod_small; lia.
  - replace a with ((a - l) + 1 * l) at 1 by lia.
    rewrite Nat.mod_add by lia. apply Nat.mod_small; lia.
Qed.

Section P.
  Variable E : Type.
  Variable etype : E -> nat.

  Definition wf (q : queue E) (f : fifo E) : Prop :=
    q_len E q = f_cap f /\ 0 < q_len E q /\
    q_count E q = length (f_items f) /\ q_count E q <= q_len E q /\
    q_out E q < q_len E q /\ q_in E q = (q_out E q + q_count E q) mod q_len E q /\
    forall i, i < q_count E q ->
      q_buf E q ((q_out E q + i) mod q_len E q) = nth_error (f_items f) i.

  Lemma wf_init : wf queue_init fifo_init.
  Proof. repeat split; simpl; try lia. Qed.

  Lemma store_wf : forall q f e, wf q f -> q_count E q < q_len E q ->
    wf (mkQueue E (store E (q_buf E q) (q_in E q) e) (q_len E q) (q_count E q + 1)
          ((q_in E q + 1) mod q_len E q) (q_out E q))
       (mkFifo (f_items f ++ [e]) (f_cap f)).
  Proof.
    intros [b len c ci co] [its cap] e (H1&H2&H3&H4&H5&H6&H7) Hlt. simpl in *.
    unfold wf; simpl. repeat split; auto; try lia.
    - rewrite app_length; simpl; lia.
    - rewrite H6. rewrite Nat.add_mod_idemp_l by lia. f_equal; lia.
    - intros i Hi. unfold store.
      destruct (Nat.eq_dec i c) as [->|Hne].
      + rewrite <- H6, Nat.eqb_refl.
        rewrite nth_error_app2 by lia. rewrite H3, Nat.sub_diag. reflexivity.
      + rewrite nth_error_app1 by lia. rewrite <- H7 by lia.
        rewrite H6.
        destruct (Nat.eqb_spec ((co + i) mod len) ((co + c) mod len)) as [Heq|]; auto.
        exfalso. rewrite !mod_lt_2 in Heq by lia.
        destruct (Nat.ltb_spec (co + i) len), (Nat.ltb_spec (co + c) len); lia.
  Qed.

  Lemma grow_wf : forall q f, wf q f -> q_count E q = q_len E q ->
    wf (grow E q) (mkFifo (f_items f) (f_cap f + f_cap f)) /\ q_len E (grow E q) = 2 * q_len E q
    /\ q_count E (grow E q) = q_count E q.
  Proof.
    intros [b len c ci co] [its cap] (H1&H2&H3&H4&H5&H6&H7) Hfull. simpl in *.
    assert (Hio : ci = co).
    { rewrite H6, Hfull. rewrite mod_lt_2 by lia.
      destruct (Nat.ltb_spec (co + len) len); lia. }
    unfold grow; simpl.
    destruct (Nat.ltb_spec 0 c); [|lia]. simpl.
    destruct (Nat.eqb_spec ci 0) as [Hz|Hz]; simpl.
    - split; [|simpl; lia]. assert (co = 0) by lia. subst co.
      unfold wf; simpl. repeat split; auto; try lia.
      + rewrite Nat.mod_small by lia. lia.
      + intros i Hi. rewrite Nat.mod_small by lia. rewrite <- H7 by lia.
        f_equal. simpl. rewrite Nat.mod_small; lia.
    - destruct (Nat.leb_spec ci co); [|lia]. simpl.
      split; [|simpl; lia].
      unfold wf; simpl. repeat split; auto; try lia.
      + rewrite Hio. rewrite mod_lt_2 by lia.
        destruct (Nat.ltb_spec (len * 2 - (len - co) + c) (len * 2)); lia.
      + intros i Hi. rewrite mod_lt_2 by lia. rewrite <- H7 by lia.
        rewrite mod_lt_2 by lia. unfold memmove.
        destruct (Nat.ltb_spec (len * 2 - (len - co) + i) (len * 2)).
        * destruct (Nat.leb_spec (len * 2 - (len - co)) (len * 2 - (len - co) + i)); [|lia].
          destruct (Nat.ltb_spec (len * 2 - (len - co) + i) (len * 2 - (len - co) + (len - co))); [|lia].
          simpl. destruct (Nat.ltb_spec (co + i) len); [|lia]. f_equal; lia.
        * destruct (Nat.leb_spec (len * 2 - (len - co)) (len * 2 - (len - co) + i - len * 2)); [lia|].
          simpl. destruct (Nat.ltb_spec (co + i) len); [lia|]. f_equal; lia.
  Qed.

  Lemma step_wf : forall q f o, wf q f ->
    wf (fst (step E etype q o)) (fst (fifo_step E etype f o)) /\
    snd (step E etype q o) = snd (fifo_step E etype f o).
  Proof.
    intros q f o Hwf. destruct o as [ok e| |]; simpl.
    - unfold post_event.
      pose proof Hwf as (H1&H2&H3&H4&H5&H6&H7).
      destruct (Nat.ltb_spec (q_len E q) (q_count E q + 1)).
      + destruct (Nat.eqb_spec (length (f_items f)) (f_cap f)); [|lia].
        destruct ok; simpl; [|auto].
        split; auto.
        assert (Hf : q_count E q = q_len E q) by lia.
        destruct (grow_wf q f Hwf Hf) as (Hg&Hl&Hc).
        pose proof (store_wf (grow E q) _ e Hg ltac:(lia)) as Hs.
        rewrite Hc in Hs. exact Hs.
      + destruct (Nat.eqb_spec (length (f_items f)) (f_cap f)); [lia|].
        simpl. split; auto. apply store_wf; auto; lia.
    - pose proof Hwf as (H1&H2&H3&H4&H5&H6&H7).
      unfold get_event.
      destruct (Nat.eqb_spec (q_count E q) 0).
      + destruct (f_items f) eqn:Hits; simpl; [split; auto|simpl in H3; lia].
      + destruct (f_items f) as [|e es] eqn:Hits; simpl; [simpl in H3; lia|].
        pose proof (H7 0 ltac:(lia)) as H0. simpl in H0.
        rewrite Nat.add_0_r, Nat.mod_small in H0 by lia. rewrite H0.
        simpl. split; auto.
        unfold wf; simpl. simpl in H3. repeat split; auto; try lia.
        * apply Nat.mod_upper_bound; lia.
        * rewrite Nat.add_mod_idemp_l by lia. rewrite H6. f_equal; lia.
        * intros i Hi. rewrite Nat.add_mod_idemp_l by lia.
          replace (q_out E q + 1 + i) with (q_out E q + S i) by lia.
          rewrite H7 by lia. reflexivity.
    - pose proof Hwf as (H1&H2&H3&H4&H5&H6&H7). unfold next_event_type.
      split; auto.
      destruct (Nat.eqb_spec (q_count E q) 0).
      + destruct (f_items f); auto. simpl in H3; lia.
      + destruct (f_items f) as [|e es] eqn:Hits; [simpl in H3; lia|].
        pose proof (H7 0 ltac:(lia)) as H0. simpl in H0.
        rewrite Nat.add_0_r, Nat.mod_small in H0 by lia. rewrite H0. reflexivity.
  Qed.

  Lemma run_wf : forall ops q f, wf q f ->
    wf (fst (run E etype q ops)) (fst (fifo_run E etype f ops)) /\
    snd (run E etype q ops) = snd (fifo_run E etype f ops).
  Proof.
    induction ops as [|o ops IH]; intros q f Hwf; simpl; auto.
    destruct (step_wf q f o Hwf) as [Hw Ho].
    destruct (step E etype q o) as [q1 b1], (fifo_step E etype f o) as [f1 c1].
    simpl in *. specialize (IH q1 f1 Hw).
    destruct (run E etype q1 ops), (fifo_run E etype f1 ops). simpl in *.
    destruct IH; subst; auto.
  Qed.

  Lemma fifo_run_order : forall ops f,
    all_alloc_ok E ops ->
    f_items f ++ posted E ops =
    received E (snd (fifo_run E etype f ops)) ++ f_items (fst (fifo_run E etype f ops)).
  Proof.
    induction ops as [|o ops IH]; intros f Hok; simpl.
    - rewrite app_nil_r. reflexivity.
    - assert (Hok' : all_alloc_ok E ops) by (intros ok e Hin; apply (Hok ok e); right; auto).
      specialize (fun f => IH f Hok').
      destruct o as [ok e| |]; simpl.
      + pose proof (Hok ok e (or_introl eq_refl)) as ->.
        destruct (length (f_items f) =? f_cap f).
        * specialize (IH (mkFifo (f_items f ++ [e]) (f_cap f + f_cap f))).
          destruct (fifo_run E etype (mkFifo (f_items f ++ [e]) (f_cap f + f_cap f)) ops); simpl in *.
          etransitivity; [|exact IH]. rewrite <- app_assoc. reflexivity.
        * specialize (IH (mkFifo (f_items f ++ [e]) (f_cap f))).
          destruct (fifo_run E etype (mkFifo (f_items f ++ [e]) (f_cap f)) ops); simpl in *.
          etransitivity; [|exact IH]. rewrite <- app_assoc. reflexivity.
      + destruct (f_items f) as [|e es] eqn:Hits.
        * specialize (IH f). rewrite Hits in IH.
          destruct (fifo_run E etype f ops); simpl in *. exact IH.
        * specialize (IH (mkFifo es (f_cap f))). simpl in IH.
          destruct (fifo_run E etype (mkFifo es (f_cap f)) ops); simpl in *.
          etransitivity; [apply (f_equal (cons e)); exact IH|reflexivity].
      + specialize (IH f). destruct (fifo_run E etype f ops); simpl in *. destruct (f_items f); exact IH.
  Qed.

  (* The final state of a run, drained by gets, hands out what is left. *)
  Lemma fifo_drain : forall its cap,
    snd (fifo_run E etype (mkFifo its cap) (repeat OpGet (length its))) = map ObsEvent its.
  Proof.
    induction its as [|e es IH]; intros cap; simpl; auto.
    specialize (IH cap). destruct (fifo_run E etype (mkFifo es cap) (repeat OpGet (length es))).
    simpl in *. rewrite IH. reflexivity.
  Qed.

  Lemma queue_refines_fifo_lemma : forall ops,
    snd (run E etype queue_init ops) = snd (fifo_run E etype fifo_init ops).
  Proof. intros; apply run_wf, wf_init. Qed.

  Lemma queue_no_loss_lemma : forall ops, all_alloc_ok E ops ->
    exists pending,
      posted E ops = received E (snd (run E etype queue_init ops)) ++ pending /\
      snd (run E etype (fst (run E etype queue_init ops)) (repeat OpGet (length pending)))
        = map ObsEvent pending /\
      snd (step E etype
             (fst (run E etype (fst (run E etype queue_init ops)) (repeat OpGet (length pending))))
             OpGet) = ObsNull.
  Proof.
    intros ops Hok.
    destruct (run_wf ops queue_init fifo_init wf_init) as [Hw Ho].
    exists (f_items (fst (fifo_run E etype fifo_init ops))).
    rewrite Ho. split.
    - pose proof (fifo_run_order ops fifo_init Hok) as H. simpl in H. exact H.
    - destruct (fst (fifo_run E etype fifo_init ops)) as [its cap] eqn:Hf. cbn [f_items].
      destruct (run_wf (repeat OpGet (length its)) _ _ Hw) as [Hw2 Ho2].
      split.
      + rewrite Ho2. apply fifo_drain.
      + destruct (step_wf _ _ OpGet Hw2) as [_ Hs]. rewrite Hs.
        assert (Hd : forall l c, f_items (fst (fifo_run E etype (mkFifo l c)
                        (repeat OpGet (length l)))) = []).
        { induction l as [|e es IH]; intros c; simpl; auto.
          specialize (IH c). destruct (fifo_run E etype (mkFifo es c) (repeat OpGet (length es))).
          simpl in *. auto. }
        simpl. rewrite Hd. reflexivity.
  Qed.

  Lemma peek_agrees_lemma : forall ops,
    let q := fst (run E etype queue_init ops) in
    fst (step E etype q OpPeek) = q /\
    match snd (step E etype q OpGet) with
    | ObsNull => snd (step E etype q OpPeek) = ObsType 0
    | ObsEvent e => snd (step E etype q OpPeek) = ObsType (etype e)
    | _ => False
    end.
  Proof.
    intros ops q. split; [reflexivity|].
    destruct (run_wf ops queue_init fifo_init wf_init) as [Hw _]. fold q in Hw.
    destruct (step_wf _ _ OpGet Hw) as [_ Hg]. destruct (step_wf _ _ OpPeek Hw) as [_ Hp].
    rewrite Hg, Hp. simpl.
    destruct (f_items (fst (fifo_run E etype fifo_init ops))); simpl; reflexivity.
  Qed.

  Lemma queue_mem_safe_lemma : forall ops,
    let q := fst (run E etype queue_init ops) in
    q_out E q < q_len E q /\ q_in E q < q_len E q /\ q_count E q <= q_len E q.
  Proof.
    intros ops q. destruct (run_wf ops queue_init fifo_init wf_init) as [Hw _]. fold q in Hw.
    destruct Hw as (H1&H2&H3&H4&H5&H6&H7). repeat split; auto.
    rewrite H6. apply Nat.mod_upper_bound. lia.
  Qed.
End P.
