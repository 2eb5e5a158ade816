Require Import Coq.ZArith.ZArith Coq.Lists.List Coq.Bool.Bool Coq.micromega.Lia.
Require Import Verif.MiddleButton_Model Verif.MiddleButton_Spec Verif.MiddleButton_Proofs Verif.MiddleButton_Proofs2.
Import ListNotations.
Open Scope Z_scope.

(** When the timer is armed it was armed by the last button event. *)
Lemma mrun_app : forall a b m, fst (mrun m (a ++ b)) = fst (mrun (fst (mrun m a)) b).
Proof.
  induction a as [|o a IH]; intros b m; [reflexivity|]. cbn.
  destruct (mstep m o) as [m1 o1]. specialize (IH b m1).
  destruct (mrun m1 (a ++ b)), (mrun m1 a). cbn in *. exact IH.
Qed.
Lemma legal_app : forall a b hw m, legal hw m (a ++ b) -> legal hw m a.
Proof. induction a as [|o a IH]; cbn; intros; auto. destruct H. split; eauto. Qed.
Lemma legal_last : forall a o hw m, legal hw m (a ++ [o]) ->
  match o with
  | Button c _ p => p = negb (fold_left hw_step a hw c) /\ BTN_LEFT <= c < BTN_LEFT + 32
  | Timeout now => exists e, m_timer (fst (mrun m a)) = Some e /\ e <= now
  | Config b => True
  end.
Proof.
  induction a as [|x a IH]; cbn; intros o hw m H.
  - destruct o; tauto.
  - destruct H as [_ H]. specialize (IH _ _ _ H). destruct (mstep m x) as [m1 o1]. cbn in *. destruct (mrun m1 a). exact IH.
Qed.

Lemma apply_config_timer : forall m, m_timer (apply_config m) = m_timer m.
Proof. intros m. unfold apply_config. destruct (Bool.eqb _ _); auto. destruct (negb _); auto. Qed.

Lemma timer_lemma : forall en ops e, legal (fun _ => false) (mb_init en) ops ->
  m_timer (fst (mrun (mb_init en) ops)) = Some e ->
  exists before c after, ops = before ++ Button c (e - 50000) true :: after /\
    (c = BTN_LEFT \/ c = BTN_RIGHT) /\ forall o, In o after -> exists b, o = Config b.
Proof.
  intros en ops. induction ops as [|o ops IH] using rev_ind; intros e HL HT; [discriminate|].
  pose proof (legal_app _ _ _ _ HL) as HL1. pose proof (legal_last _ _ _ _ HL) as HO.
  destruct (main_ok en ops HL1) as (Hl & Hr & A & _). cbv zeta in A.
  rewrite mrun_app in HT. cbn in HT.
  destruct o as [c t p|t|b].
  - cbn in HT. unfold physical_button, filter_button in HT.
    fold (hw_after ops) in HO. destruct HO as [Hp Hc].
    generalize dependent (fst (mrun (mb_init en) ops)). intros m IH HT (HR & _ & HI).
    assert (G : m_timer (let '(m', _, _) := handle_event m t (classify c p) in m') = Some e ->
       m_enabled m = true ->
       p = true /\ (c = BTN_LEFT \/ c = BTN_RIGHT) /\ e = t + 50000).
    { intros T En. rewrite En in HI. destruct HI as [_ HS].
      destruct m as [s mask first tm enb want]. cbn [m_state m_mask m_timer m_enabled] in *.
      unfold classify in T. unfold handle_event in T. cbn [m_state] in T.
      destruct (Z.eqb_spec c BTN_LEFT) as [->|N1]; [|destruct (Z.eqb_spec c BTN_RIGHT) as [->|N2]];
        destruct s; unfold SINV in HS; decompose [and] HS; destruct p; cbn in T; unfold MB_TIMEOUT in T;
        try congruence; try (injection T as <-; auto; fail). 
      all: exfalso; match goal with K : hw_after _ ?x = _, Q : _ = negb (hw_after _ ?x) |- _ => rewrite K in Q; discriminate Q end. }
    destruct (m_enabled m) eqn:En; cbn [negb] in HT.
    2:{ decompose [and] HI. cbn in HT. congruence. }
    replace ((c <? BTN_LEFT) || (32 <=? c - BTN_LEFT)) with false in HT.
    2:{ symmetry. apply orb_false_intro; [apply Z.ltb_ge|apply Z.leb_gt]; lia. }
    destruct (handle_event m t (classify c p)) as [[m1 o1] rc]. 
    set (mask := if p then Z.setbit (m_mask m1) (c - BTN_LEFT) else Z.clearbit (m_mask m1) (c - BTN_LEFT)) in *.
    assert (T1 : m_timer m1 = Some e).
    { destruct (negb (m_mask m1 =? mask) && (mask =? 0)); [|exact HT].
      destruct (handle_event (set_mask m1 mask) t ALL_UP) as [[m3 o3] r3] eqn:E3. cbn in HT.
      rewrite apply_config_timer in HT. destruct m1 as [s1 k1 f1 tm1 e1 w1]. unfold handle_event in E3. cbn in E3.
      destruct s1; cbn in E3; inversion E3; subst; cbn in HT; try congruence; exact HT. }
    destruct (G T1 eq_refl) as (-> & HC & ->).
    exists ops, c, []. split; [|split; [exact HC|intros ? []]].
    replace (t + 50000 - 50000) with t by lia. reflexivity.
  - cbn in HT. destruct HO as (e0 & HO & _).
    revert HT A HO. clear IH. generalize (fst (mrun (mb_init en) ops)). intros m HT A HO. exfalso.
    unfold timeout in HT. destruct m as [s mask first tm enb want]. cbn in HT.
    destruct A as (_ & _ & HI). cbn [m_state m_mask m_timer m_enabled] in *. destruct enb.
    + destruct HI as [_ HS]. destruct s; cbn in HT; unfold SINV in HS; decompose [and] HS; congruence.
    + decompose [and] HI. subst. cbn in HT. congruence.
  - cbn in HT. unfold set_config in HT. rewrite apply_config_timer in HT. cbn in HT.
    destruct (IH e HL1 HT) as (bf & c & af & -> & HC & HA).
    exists bf, c, (af ++ [Config b]). split; [rewrite <- app_assoc; reflexivity|split; [exact HC|]].
    intros o Ho. apply in_app_or in Ho. destruct Ho as [Ho|[<-|[]]]; eauto.
Qed.

Lemma armed_lemma : forall ops c t, legal (fun _ => false) (mb_init true) ops ->
  all_up (hw_after ops) -> m_enabled (fst (mrun (mb_init true) ops)) = true ->
  c = BTN_LEFT \/ c = BTN_RIGHT ->
  m_timer (fst (mrun (mb_init true) (ops ++ [Button c t true]))) = Some (t + 50000) /\
  outs (snd (mrun (fst (mrun (mb_init true) ops)) [Button c t true])) = [].
Proof.
  intros ops c t HL HU HE Hc. rewrite mrun_app.
  destruct (idle_of_all_up ops HL HU HE) as [HS HM].
  destruct (fst (mrun (mb_init true) ops)) as [s mask first tm en want].
  cbn [m_state m_mask m_enabled] in *. subst. destruct Hc as [-> | ->]; split; reflexivity.
Qed.
