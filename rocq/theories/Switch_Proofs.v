Require Import Coq.ZArith.ZArith Coq.Lists.List Coq.Bool.Bool Coq.micromega.Lia.
Require Import Verif.Switch_Model Verif.Switch_Spec.
Import ListNotations.
Open Scope Z_scope.

Lemma reported_app : forall sw a b, reported sw (a ++ b) = reported sw a ++ reported sw b.
Proof. intros sw a b. induction a as [|o a IH]; auto. destruct o as [s x| | |]; cbn; auto. destruct s, sw; cbn; congruence. Qed.
Lemma last_app_default : forall (a b : list bool) d, last (a ++ b) d = last b (last a d).
Proof.
  intros a b d. destruct b as [|y b'] using rev_ind; [rewrite app_nil_r; auto|]. rewrite app_assoc, !last_last. auto.
Qed.
Lemma alternate_app : forall a b d, alternate d a -> alternate (last a d) b -> alternate d (a ++ b).
Proof.
  induction a as [|x a IH]; intros b d H1 H2; [exact H2|]. destruct H1 as [-> H1]. cbn. split; [auto|]. apply IH; auto.
  destruct a; [exact H2|]. replace (last (b0 :: a) (negb d)) with (last (negb d :: b0 :: a) d); auto.
  cbn [last]. clear. revert b0. induction a; intros; cbn; auto.
Qed.
(** An output list takes the client from [c] to [c']. *)
Definition moves (sw : switch) (c : bool) (o : list out) (c' : bool) : Prop :=
  alternate c (reported sw o) /\ last (reported sw o) c = c'.
Lemma moves_app : forall sw a o1 b o2 c, moves sw a o1 b -> moves sw b o2 c -> moves sw a (o1 ++ o2) c.
Proof.
  intros sw a o1 b o2 c [A1 L1] [A2 L2]. unfold moves. rewrite reported_app, last_app_default, L1. split; auto. apply alternate_app; auto. rewrite L1. auto.
Qed.
Lemma moves_nil : forall sw c o, reported sw o = [] -> moves sw c o c.
Proof. intros sw c o H. unfold moves. rewrite H. split; [exact I|reflexivity]. Qed.

Lemma notify_cases : forall s, (closed s = client s /\ lid_notify_toggle s = (s, [])) \/
  (closed s = negb (client s) /\ lid_notify_toggle s = (set_client s (closed s), [Toggle LID (closed s)])).
Proof. intros s. unfold lid_notify_toggle. destruct (closed s) eqn:E1, (client s) eqn:E2; cbn; auto. Qed.
Lemma notify_moves : forall s s' o, lid_notify_toggle s = (s', o) -> moves LID (client s) o (client s') /\ client s' = closed s /\ closed s' = closed s /\ kbds s' = kbds s /\ tm s' = tm s /\ tag_lid s' = tag_lid s /\ reported TABLET_MODE o = [].
Proof.
  intros s s' o H. destruct (notify_cases s) as [[E1 E2]|[E1 E2]]; rewrite E2 in H; injection H as <- <-.
  - split; [apply moves_nil; auto|]. repeat split; auto.
  - split; [split; [split; [exact E1|exact I]|reflexivity]|]. repeat split; auto.
Qed.
Lemma keyboard_event_spec : forall s s' o, lid_keyboard_event s true = (s', o) ->
  moves LID (client s) o (client s') /\ closed s' = false /\ kbds s' = kbds s /\ tm s' = tm s /\ tag_lid s' = tag_lid s /\ reported TABLET_MODE o = [] /\
  ((client s = true -> closed s = true) -> client s' = false) /\ ~ In (Key 0) o.
Proof.
  intros s s' o H. unfold lid_keyboard_event in H. destruct (closed s) eqn:EC; cbn [negb] in H.
  - destruct (lid_notify_toggle (set_closed s false)) as [s1 o1] eqn:E. pose proof (notify_moves _ _ _ E) as (A & B & C & D & F & G & K). injection H as <- <-.
    assert (W : forall l, reported LID (match rel s with WRITE_OPEN => [WriteOpen] | _ => [] end ++ l) = reported LID l) by (intros; destruct (rel s); auto).
    split; [unfold moves; rewrite W; exact A|]. split; [exact C|]. split; [exact D|]. split; [exact F|]. split; [exact G|].
    split; [destruct (rel s); cbn; auto|]. split; [intros _; exact B|].
    destruct (notify_cases (set_closed s false)) as [[_ E2]|[_ E2]]; rewrite E2 in E; injection E as _ <-; destruct (rel s); cbn; intuition discriminate.
  - injection H as <- <-. split; [apply moves_nil; auto|]. rewrite EC. repeat split; auto. intros H. destruct (client s); auto. specialize (H eq_refl). discriminate.
Qed.
Lemma keyboard_event_open : forall s b, closed s = false -> lid_keyboard_event s b = (s, []).
Proof. intros s b H. unfold lid_keyboard_event. rewrite H. reflexivity. Qed.
Lemma listeners_open : forall n s b, closed s = false -> listeners n s b = (s, []).
Proof. induction n; intros s b H; cbn; auto. rewrite keyboard_event_open, IHn by auto. reflexivity. Qed.
Lemma listeners_other : forall n s, listeners n s false = (s, []).
Proof.
  induction n; intros s; cbn; auto. unfold lid_keyboard_event. destruct (closed s); cbn; rewrite IHn; reflexivity.
Qed.
Lemma listeners_key : forall n s, (0 < n)%nat -> listeners n s true = lid_keyboard_event s true.
Proof.
  intros [|n] s H; [lia|]. cbn. destruct (lid_keyboard_event s true) as [s1 o1] eqn:E. pose proof (keyboard_event_spec _ _ _ E) as (_ & C & _).
  rewrite listeners_open by auto. rewrite app_nil_r. reflexivity.
Qed.

(** One step, for both switches. *)
Definition on (s : st) : bool := negb (tm s =? 0).
Lemma step_moves : forall s e s' o, step s e = (s', o) -> moves LID (client s) o (client s').
Proof.
  intros s e s' o H. destruct e as [v|v|k|k|k|k]; cbn in H.
  - unfold process_lid in H. destruct (Bool.eqb (closed (toggle_listeners s (negb (v =? 0)))) (negb (v =? 0))).
    + injection H as <- <-. apply moves_nil; auto.
    + apply notify_moves in H. apply H.
  - unfold process_tablet_mode in H. destruct (tm s =? v); injection H as <- <-; apply moves_nil; auto.
  - unfold keyboard_post in H. set (n := length _) in H. destruct (listeners n s true) as [s1 o1] eqn:E. injection H as <- <-.
    eapply moves_app; [|apply moves_nil; reflexivity]. destruct n as [|n']; [cbn in E; injection E as <- <-; apply moves_nil; auto|].
    rewrite listeners_key in E by lia. apply keyboard_event_spec in E. apply E.
  - unfold keyboard_post in H. rewrite listeners_other in H. injection H as <- <-. apply moves_nil; auto.
  - injection H as <- <-. unfold pair_keyboard. destruct (tag_lid s); apply moves_nil; auto.
  - injection H as <- <-. apply moves_nil; auto.
Qed.
Lemma step_inv : forall s e s' o, (client s = true -> closed s = true) -> step s e = (s', o) -> (client s' = true -> closed s' = true).
Proof.
  intros s e s' o HI H. destruct e as [v|v|k|k|k|k]; cbn in H.
  - unfold process_lid in H. destruct (Bool.eqb (closed (toggle_listeners s (negb (v =? 0)))) (negb (v =? 0))).
    + injection H as <- <-. auto.
    + apply notify_moves in H. destruct H as (_ & B & C & _). rewrite C. rewrite B. auto.
  - unfold process_tablet_mode in H. destruct (tm s =? v); injection H as <- <-; auto.
  - unfold keyboard_post in H. set (n := length _) in H. destruct (listeners n s true) as [s1 o1] eqn:E. injection H as <- <-.
    destruct n as [|n']; [cbn in E; injection E as <- <-; auto|]. rewrite listeners_key in E by lia. apply keyboard_event_spec in E.
    destruct E as (_ & _ & _ & _ & _ & _ & K & _). rewrite (K HI). discriminate.
  - unfold keyboard_post in H. rewrite listeners_other in H. injection H as <- <-. auto.
  - injection H as <- <-. unfold pair_keyboard. destruct (tag_lid s); auto.
  - injection H as <- <-. auto.
Qed.
Lemma step_tm : forall s e s' o, step s e = (s', o) -> (match e with ETm v => bit v | _ => True end) -> bit (tm s) ->
  moves TABLET_MODE (on s) o (on s') /\ bit (tm s').
Proof.
  intros s e s' o H HB HS. destruct e as [v|v|k|k|k|k]; cbn in H.
  - unfold process_lid in H. destruct (Bool.eqb (closed (toggle_listeners s (negb (v =? 0)))) (negb (v =? 0))).
    + injection H as <- <-. split; [apply moves_nil; auto|auto].
    + apply notify_moves in H. destruct H as (_ & _ & _ & _ & T & _ & R). unfold on. rewrite T. split; [apply moves_nil; auto|exact HS].
  - unfold process_tablet_mode in H. destruct (Z.eqb_spec (tm s) v); injection H as <- <-; [split; [apply moves_nil; auto|auto]|].
    split; [|exact HB]. unfold moves, on, bit in *. cbn. destruct HB as [-> | ->], HS as [HS|HS]; rewrite HS in *; try congruence; cbn; auto.
  - unfold keyboard_post in H. set (n := length _) in H. destruct (listeners n s true) as [s1 o1] eqn:E. injection H as <- <-.
    destruct n as [|n']; [cbn in E; injection E as <- <-; split; [apply moves_nil; auto|auto]|]. rewrite listeners_key in E by lia. apply keyboard_event_spec in E.
    destruct E as (_ & _ & _ & T & _ & R & _). unfold on. rewrite T. split; [apply moves_nil; rewrite reported_app, R; reflexivity|auto].
  - unfold keyboard_post in H. rewrite listeners_other in H. injection H as <- <-. split; [apply moves_nil; auto|auto].
  - injection H as <- <-. unfold pair_keyboard. destruct (tag_lid s); split; auto; apply moves_nil; auto.
  - injection H as <- <-. split; [apply moves_nil; auto|auto].
Qed.
Lemma run_app : forall a b s, run s (a ++ b) = let '(s1, o1) := run s a in let '(s2, o2) := run s1 b in (s2, o1 ++ o2).
Proof.
  induction a as [|e a IH]; intros b s; cbn.
  - destruct (run s b); auto.
  - destruct (step s e) as [s1 o1]. rewrite IH. destruct (run s1 a) as [s2 o2]. destruct (run s2 b) as [s3 o3]. rewrite app_assoc. auto.
Qed.
Lemma run_moves : forall l s s' o, run s l = (s', o) -> moves LID (client s) o (client s').
Proof.
  induction l as [|e l IH]; intros s s' o H; cbn in H; [injection H as <- <-; apply moves_nil; auto|].
  destruct (step s e) as [s1 o1] eqn:E1. destruct (run s1 l) as [s2 o2] eqn:E2. injection H as <- <-.
  eapply moves_app; [eapply step_moves; eauto|eapply IH; eauto].
Qed.
Lemma run_inv : forall l s s' o, (client s = true -> closed s = true) -> run s l = (s', o) -> (client s' = true -> closed s' = true).
Proof.
  induction l as [|e l IH]; intros s s' o HI H; cbn in H; [injection H as <- <-; auto|].
  destruct (step s e) as [s1 o1] eqn:E1. destruct (run s1 l) as [s2 o2] eqn:E2. injection H as <- <-. eapply IH; [|eauto]. eapply step_inv; eauto.
Qed.
Lemma run_tm : forall l s s' o, run s l = (s', o) -> tm_bits l -> bit (tm s) -> moves TABLET_MODE (on s) o (on s') /\ bit (tm s').
Proof.
  induction l as [|e l IH]; intros s s' o H HB HS; cbn in H; [injection H as <- <-; split; [apply moves_nil; auto|auto]|].
  destruct (step s e) as [s1 o1] eqn:E1. destruct (run s1 l) as [s2 o2] eqn:E2. injection H as <- <-.
  destruct (step_tm _ _ _ _ E1) as [M1 B1]; [destruct e; cbn in HB; tauto|auto|].
  destruct (IH _ _ _ E2) as [M2 B2]; [destruct e; cbn in HB; tauto|auto|]. split; auto. eapply moves_app; eauto.
Qed.
(** The start of a life. *)
Lemma before_spec : forall before s, let s' := fold_left pair_keyboard before s in
  closed s' = closed s /\ client s' = client s /\ tm s' = tm s /\ tag_lid s' = tag_lid s /\ rel s' = rel s /\
  (tag_lid s = true -> forall k, existsb (fun kb => fst kb =? k) (kbds s') = existsb (fun kb => fst kb =? k) (kbds s) || existsb (Z.eqb k) before).
Proof.
  induction before as [|b before IH]; intros s; cbn [fold_left].
  - repeat split; auto. intros _ k. cbn. rewrite orb_false_r. auto.
  - specialize (IH (pair_keyboard s b)). cbv zeta in IH. destruct IH as (A & B & C & D & E & F). rewrite A, B, C, D, E.
    assert (P : closed (pair_keyboard s b) = closed s /\ client (pair_keyboard s b) = client s /\ tm (pair_keyboard s b) = tm s /\ tag_lid (pair_keyboard s b) = tag_lid s /\ rel (pair_keyboard s b) = rel s)
      by (unfold pair_keyboard; destruct (tag_lid s) eqn:ET; cbn; auto).
    destruct P as (P1 & P2 & P3 & P4 & P5). repeat split; auto. intros HT k. rewrite F by congruence.
    unfold pair_keyboard. rewrite HT. cbn. rewrite (Z.eqb_sym b k). destruct (k =? b), (existsb (fun kb => fst kb =? k) (kbds s)), (existsb (Z.eqb k) before); auto.
Qed.
Lemma sync_spec : forall s hw s' o, sync_initial_state s hw = (s', o) -> client s = false -> closed s = false ->
  moves LID false o (client s') /\ moves TABLET_MODE false o (on s') /\ (client s' = true -> closed s' = true) /\ (closed s' = true -> negb (hw =? 0) = true) /\
  kbds s' = kbds s /\ tm s' = tm s /\ tag_lid s' = tag_lid s /\
  (tag_lid s = true -> client s' = negb (hw =? 0) && match rel s with RELIABLE => true | _ => false end).
Proof.
  intros s hw s' o H HC HD. unfold sync_initial_state in H.
  assert (TM : forall c x, bit x \/ True -> moves c false (if negb (x =? 0) then [Toggle TABLET_MODE true] else []) (match c with LID => false | _ => negb (x =? 0) end)).
  { intros c x _. unfold moves. destruct (x =? 0), c; cbn; auto. }
  destruct (tag_lid s) eqn:ET; cbn [closed set_client set_closed rel] in H.
  - destruct (negb (hw =? 0) && match rel s with RELIABLE => true | _ => false end) eqn:EB.
    + destruct (lid_notify_toggle (set_client (set_closed s (negb (hw =? 0))) false)) as [s1 o1] eqn:E. pose proof (notify_moves _ _ _ E) as (A & B & C & D & F & G & K).
      injection H as <- <-. cbn in A, B, C, D, F, G. apply andb_true_iff in EB. destruct EB as [EH ER]. rewrite EH in *.
      split. { unfold moves in *. rewrite reported_app. replace (reported LID (if negb (tm s1 =? 0) then [Toggle TABLET_MODE true] else [])) with (@nil bool) by (destruct (tm s1 =? 0); auto). rewrite app_nil_r. exact A. }
      split. { unfold moves. rewrite reported_app, K. apply (TM TABLET_MODE (tm s1)); auto. }
      rewrite B, C. repeat split; auto; congruence.
    + injection H as <- <-. cbn.
      split. { unfold moves. destruct (tm s =? 0); cbn; auto. }
      split. { apply (TM TABLET_MODE (tm s)); auto. }
      repeat split; auto; discriminate.
  - injection H as <- <-. rewrite HC, HD. cbn. split. { unfold moves. destruct (tm s =? 0); cbn; auto. }
    split. { apply (TM TABLET_MODE (tm s)); auto. } repeat split; auto; discriminate.
Qed.
Lemma alternation_lemma : forall lid r tmv hw before l s o, life lid r tmv hw before l = (s, o) -> alternate false (reported LID o) /\ view LID o = client s.
Proof.
  intros lid r tmv hw before l s o H. unfold life in H. pose proof (before_spec before (init lid r tmv)) as B. cbv zeta in B. destruct B as (B1 & B2 & B3 & B4 & B5 & _).
  destruct (sync_initial_state (fold_left pair_keyboard before (init lid r tmv)) hw) as [s1 o1] eqn:E1. destruct (run s1 l) as [s2 o2] eqn:E2. injection H as <- <-.
  destruct (sync_spec _ _ _ _ E1) as (M1 & _); [rewrite B2; auto|rewrite B1; auto|].
  pose proof (moves_app _ _ _ _ _ _ M1 (run_moves _ _ _ _ E2)) as [M L]. split; auto.
Qed.
Lemma tm_lemma : forall lid r tmv hw before l s o, life lid r tmv hw before l = (s, o) -> bit tmv -> tm_bits l ->
  alternate false (reported TABLET_MODE o) /\ view TABLET_MODE o = on s.
Proof.
  intros lid r tmv hw before l s o H HB HT. unfold life in H. pose proof (before_spec before (init lid r tmv)) as B. cbv zeta in B. destruct B as (B1 & B2 & B3 & B4 & B5 & _).
  destruct (sync_initial_state (fold_left pair_keyboard before (init lid r tmv)) hw) as [s1 o1] eqn:E1. destruct (run s1 l) as [s2 o2] eqn:E2. injection H as <- <-.
  destruct (sync_spec _ _ _ _ E1) as (_ & M1 & _ & _ & _ & T & _); [rewrite B2; auto|rewrite B1; auto|].
  destruct (run_tm _ _ _ _ E2) as [M2 _]; [auto|rewrite T, B3; exact HB|]. pose proof (moves_app _ _ _ _ _ _ M1 M2) as [M L]. split; auto.
Qed.
(** The tablet-mode value follows the last event. *)
Lemma step_tmv : forall s e s' o, step s e = (s', o) -> tm s' = match e with ETm v => v | _ => tm s end.
Proof.
  intros s e s' o H. destruct e as [v|v|k|k|k|k]; cbn in H.
  - unfold process_lid in H. destruct (Bool.eqb (closed (toggle_listeners s (negb (v =? 0)))) (negb (v =? 0))).
    + injection H as <- <-. auto.
    + apply notify_moves in H. apply H.
  - unfold process_tablet_mode in H. destruct (Z.eqb_spec (tm s) v); injection H as <- <-; auto.
  - unfold keyboard_post in H. set (n := length _) in H. destruct (listeners n s true) as [s1 o1] eqn:E. injection H as <- <-.
    destruct n as [|n']; [cbn in E; injection E as <- <-; auto|]. rewrite listeners_key in E by lia. apply keyboard_event_spec in E. apply E.
  - unfold keyboard_post in H. rewrite listeners_other in H. injection H as <- <-. auto.
  - injection H as <- <-. unfold pair_keyboard. destruct (tag_lid s); auto.
  - injection H as <- <-. auto.
Qed.
Lemma run_tmv : forall l s s' o, run s l = (s', o) -> tm s' = last_tm l (tm s).
Proof.
  induction l as [|e l IH]; intros s s' o H; cbn in H; [injection H as <- <-; auto|].
  destruct (step s e) as [s1 o1] eqn:E1. destruct (run s1 l) as [s2 o2] eqn:E2. injection H as <- <-. rewrite (IH _ _ _ E2), (step_tmv _ _ _ _ E1). destruct e; auto.
Qed.
Lemma tm_view_lemma : forall lid r tmv hw before l s o, life lid r tmv hw before l = (s, o) -> bit tmv -> tm_bits l ->
  view TABLET_MODE o = negb (last_tm l tmv =? 0).
Proof.
  intros lid r tmv hw before l s o H HB HT. destruct (tm_lemma _ _ _ _ _ _ _ _ H HB HT) as [_ ->]. unfold on. f_equal. f_equal.
  unfold life in H. pose proof (before_spec before (init lid r tmv)) as B. cbv zeta in B. destruct B as (B1 & B2 & B3 & B4 & B5 & _).
  destruct (sync_initial_state (fold_left pair_keyboard before (init lid r tmv)) hw) as [s1 o1] eqn:E1. destruct (run s1 l) as [s2 o2] eqn:E2. injection H as <- <-.
  destruct (sync_spec _ _ _ _ E1) as (_ & _ & _ & _ & _ & T & _); [rewrite B2; auto|rewrite B1; auto|]. rewrite (run_tmv _ _ _ _ E2), T, B3. reflexivity.
Qed.

(** The lid as the kernel sees it. *)
Lemma step_hw : forall s e s' o hw, step s e = (s', o) -> (client s = true -> closed s = true) -> (closed s = true -> hw = true) -> lid_changes hw [e] ->
  let hw' := match e with ELid v => negb (v =? 0) | _ => hw end in (closed s' = true -> hw' = true) /\ match e with ELid v => client s' = negb (v =? 0) /\ closed s' = negb (v =? 0) | _ => True end.
Proof.
  intros s e s' o hw H HI HH HC. destruct e as [v|v|k|k|k|k]; cbn in H, HC |- *.
  - destruct HC as [HC _]. unfold process_lid in H. cbn [closed toggle_listeners set_kbds] in H.
    destruct (closed s) eqn:EC.
    + specialize (HH eq_refl). subst hw. cbn in HC. rewrite HC in *. cbn in H. unfold set_closed, toggle_listeners in H.
      apply notify_moves in H. destruct H as (_ & B & C & _). rewrite B, C. cbn. auto.
    + destruct hw; cbn in HC; rewrite HC in *; cbn in H.
      * injection H as <- <-. cbn. rewrite EC. split; [discriminate|]. split; auto. destruct (client s); auto. specialize (HI eq_refl). congruence.
      * apply notify_moves in H. destruct H as (_ & B & C & _). rewrite B, C. cbn. auto.
  - unfold process_tablet_mode in H. destruct (tm s =? v); injection H as <- <-; auto.
  - split; auto. unfold keyboard_post in H. set (n := length _) in H. destruct (listeners n s true) as [s1 o1] eqn:E. injection H as <- <-.
    destruct n as [|n']; [cbn in E; injection E as <- <-; auto|]. rewrite listeners_key in E by lia. apply keyboard_event_spec in E. destruct E as (_ & C & _). rewrite C. discriminate.
  - unfold keyboard_post in H. rewrite listeners_other in H. injection H as <- <-. auto.
  - injection H as <- <-. unfold pair_keyboard. destruct (tag_lid s); auto.
  - injection H as <- <-. auto.
Qed.
Lemma run_hw : forall l s s' o hw v, run s (l ++ [ELid v]) = (s', o) -> (client s = true -> closed s = true) -> (closed s = true -> hw = true) -> lid_changes hw (l ++ [ELid v]) ->
  client s' = negb (v =? 0) /\ closed s' = negb (v =? 0).
Proof.
  induction l as [|e l IH]; intros s s' o hw v H HI HH HC.
  - cbn [app run] in H. destruct (step s (ELid v)) as [s1 o1] eqn:E. injection H as <- <-. apply (step_hw _ _ _ _ hw E HI HH HC).
  - cbn [app run] in H. destruct (step s e) as [s1 o1] eqn:E. destruct (run s1 (l ++ [ELid v])) as [s2 o2] eqn:E2. injection H as <- <-.
    assert (HC1 : lid_changes hw [e] /\ lid_changes (match e with ELid v => negb (v =? 0) | _ => hw end) (l ++ [ELid v])) by (destruct e; cbn in HC |- *; tauto).
    destruct HC1 as [HC1 HC2]. destruct (step_hw _ _ _ _ hw E HI HH HC1) as [HH' _]. eapply IH; eauto. eapply step_inv; eauto.
Qed.
Lemma lid_view_lemma : forall lid r tmv hw before l v s o, life lid r tmv hw before (l ++ [ELid v]) = (s, o) ->
  lid_changes (negb (hw =? 0)) (l ++ [ELid v]) -> view LID o = negb (v =? 0).
Proof.
  intros lid r tmv hw before l v s o H HC. destruct (alternation_lemma _ _ _ _ _ _ _ _ H) as [_ ->].
  unfold life in H. pose proof (before_spec before (init lid r tmv)) as B. cbv zeta in B. destruct B as (B1 & B2 & B3 & B4 & B5 & _).
  destruct (sync_initial_state (fold_left pair_keyboard before (init lid r tmv)) hw) as [s1 o1] eqn:E1. destruct (run s1 (l ++ [ELid v])) as [s2 o2] eqn:E2. injection H as <- <-.
  destruct (sync_spec _ _ _ _ E1) as (_ & _ & I1 & I2 & _); [rewrite B2; auto|rewrite B1; auto|].
  eapply run_hw; eauto.
Qed.
Lemma initial_lemma : forall r tmv hw before s o, life true r tmv hw before [] = (s, o) ->
  view LID o = negb (hw =? 0) && match r with RELIABLE => true | _ => false end.
Proof.
  intros r tmv hw before s o H. destruct (alternation_lemma _ _ _ _ _ _ _ _ H) as [_ ->].
  unfold life in H. pose proof (before_spec before (init true r tmv)) as B. cbv zeta in B. destruct B as (B1 & B2 & B3 & B4 & B5 & _).
  destruct (sync_initial_state (fold_left pair_keyboard before (init true r tmv)) hw) as [s1 o1] eqn:E1. cbn in H. injection H as <- <-.
  destruct (sync_spec _ _ _ _ E1) as (_ & _ & _ & _ & _ & _ & _ & K); [rewrite B2; auto|rewrite B1; auto|]. rewrite B5 in K. apply K. rewrite B4. reflexivity.
Qed.

(** Keyboards. *)
Definition listening (s : st) : Prop := closed s = true -> Forall (fun kb => snd kb = true) (kbds s).
Definition has (s : st) (k : Z) : bool := existsb (fun kb => fst kb =? k) (kbds s).
Lemma notify_kbds : forall s s' o, lid_notify_toggle s = (s', o) -> kbds s' = kbds s /\ tag_lid s' = tag_lid s.
Proof. intros s s' o H. apply notify_moves in H. tauto. Qed.
Lemma filter_has : forall l j k, existsb (fun kb : Z * bool => fst kb =? k) (filter (fun kb => negb (fst kb =? j)) l) = if j =? k then false else existsb (fun kb => fst kb =? k) l.
Proof.
  induction l as [|[x b] l IH]; intros j k; cbn; [destruct (j =? k); auto|]. destruct (Z.eqb_spec x j); cbn; rewrite IH.
  - subst. destruct (Z.eqb_spec j k); auto.
  - destruct (Z.eqb_spec j k); auto. destruct (Z.eqb_spec x k); [congruence|auto].
Qed.
Lemma step_kbds : forall s e s' o, step s e = (s', o) -> tag_lid s = true ->
  tag_lid s' = true /\ (listening s \/ (exists v, e = ELid v) -> listening s') /\ forall k, has s' k = is_paired k [e] (has s k).
Proof.
  intros s e s' o H HT. destruct e as [v|v|k|k|k|k]; cbn in H; unfold listening, has in *.
  - unfold process_lid in H. set (b := negb (v =? 0)) in *.
    assert (K : kbds s' = map (fun kb => (fst kb, b)) (kbds s) /\ tag_lid s' = tag_lid s /\ (closed s' = b)).
    { destruct (Bool.eqb (closed (toggle_listeners s b)) b) eqn:EB.
      - injection H as <- <-. repeat split. apply Bool.eqb_prop in EB. exact EB.
      - pose proof (notify_moves _ _ _ H) as (_ & _ & C & D & _ & G & _). rewrite C, D, G. auto. }
    destruct K as (K1 & K2 & K3). rewrite K1, K2, K3. split; [auto|]. split.
    + intros _ ->. apply Forall_forall. intros x I. apply in_map_iff in I. destruct I as (y & <- & _). reflexivity.
    + intros k. cbn. clear. induction (kbds s) as [|y l IH]; cbn; [reflexivity|]. rewrite IH. reflexivity.
  - unfold process_tablet_mode in H. destruct (tm s =? v); injection H as <- <-; repeat split; auto; intros [L|[w L]]; auto; discriminate.
  - unfold keyboard_post in H. set (n := length _) in H. destruct (listeners n s true) as [s1 o1] eqn:E. injection H as <- <-.
    assert (K : kbds s1 = kbds s /\ tag_lid s1 = tag_lid s /\ (closed s1 = true -> closed s = true)).
    { destruct n as [|n']; [cbn in E; injection E as <- <-; auto|]. rewrite listeners_key in E by lia. apply keyboard_event_spec in E. destruct E as (_ & C & K1 & _ & K2 & _). rewrite C. repeat split; auto. discriminate. }
    destruct K as (K1 & K2 & K3). rewrite K1, K2. split; [auto|]. split; [intros [L|[w L]]; [auto|discriminate]|auto].
  - unfold keyboard_post in H. rewrite listeners_other in H. injection H as <- <-. split; auto. split; [intros [L|[w L]]; [auto|discriminate]|auto].
  - injection H as <- <-. unfold pair_keyboard. rewrite HT. cbn. split; auto. split; [intros [L|[w L]]; [|discriminate]; intros HC; constructor; auto|].
    intros j. destruct (k =? j); auto.
  - injection H as <- <-. cbn. split; auto. split.
    + intros [L|[w L]]; [|discriminate]. intros HC. specialize (L HC). apply Forall_forall. intros x I. apply filter_In in I. destruct I as [I _]. rewrite Forall_forall in L. auto.
    + intros j. rewrite filter_has. destruct (k =? j); auto.
Qed.
Lemma is_paired_app : forall a b k p, is_paired k (a ++ b) p = is_paired k b (is_paired k a p).
Proof. induction a as [|e a IH]; intros; cbn; auto. destruct e; apply IH. Qed.
Lemma run_kbds : forall l s s' o, run s l = (s', o) -> tag_lid s = true ->
  tag_lid s' = true /\ (listening s \/ saw_lid l -> listening s') /\ forall k, has s' k = is_paired k l (has s k).
Proof.
  induction l as [|e l IH]; intros s s' o H HT; cbn in H; [injection H as <- <-; repeat split; auto; intros [L|[v []]]; auto|].
  destruct (step s e) as [s1 o1] eqn:E1. destruct (run s1 l) as [s2 o2] eqn:E2. injection H as <- <-.
  destruct (step_kbds _ _ _ _ E1 HT) as (T1 & L1 & P1). destruct (IH _ _ _ E2 T1) as (T2 & L2 & P2). split; auto. split.
  - intros [L|[v [->|I]]]; apply L2; [left; apply L1; auto|left; apply L1; right; eexists; reflexivity|right; exists v; auto].
  - intros k. rewrite P2, P1. change (e :: l) with ([e] ++ l). rewrite is_paired_app. auto.
Qed.
Lemma key_step : forall s k, listening s -> has s k = true -> (client s = true -> closed s = true) ->
  exists pre s', step s (EKey k) = (s', pre ++ [Key k]) /\ closed s' = false /\ client s' = false /\ reported LID pre = (if client s then [false] else []) /\ (forall j, ~ In (Key j) pre).
Proof.
  intros s k L P HI. cbn [step]. unfold keyboard_post. set (n := length _). destruct (closed s) eqn:EC.
  - assert (N : (0 < n)%nat).
    { unfold n. specialize (L EC). unfold has in P. clear - L P. induction (kbds s) as [|[x b] l IH]; [discriminate|]. inversion L; subst. cbn in *. subst.
      rewrite andb_true_r. destruct (x =? k); cbn; [lia|]. apply IH; auto. }
    rewrite listeners_key by auto. unfold lid_keyboard_event. rewrite EC. cbn [negb].
    destruct (notify_cases (set_closed s false)) as [[E1 E2]|[E1 E2]]; rewrite E2; cbn in E1.
    + eexists. eexists. split; [reflexivity|]. cbn. split; auto. split; [auto|]. rewrite <- E1. split; [destruct (rel s); auto|intros j; destruct (rel s); cbn; intuition discriminate].
    + eexists. eexists. split; [reflexivity|]. cbn. split; auto. split; [auto|]. destruct (client s); cbn in E1; [|discriminate]. split; [destruct (rel s); auto|intros j; destruct (rel s); cbn; intuition discriminate].
  - rewrite listeners_open by auto. exists [], s. split; [reflexivity|]. destruct (client s) eqn:ED; [specialize (HI eq_refl); congruence|]. repeat split; auto.
Qed.
Lemma key_opens_lemma : forall r tmv hw before l k s o, life true r tmv hw before l = (s, o) ->
  before = [] \/ hw = 0 \/ saw_lid l -> is_paired k l (existsb (Z.eqb k) before) = true ->
  exists pre s', step s (EKey k) = (s', pre ++ [Key k]) /\ reported LID pre = (if view LID o then [false] else []) /\ (forall j, ~ In (Key j) pre) /\ closed s' = false.
Proof.
  intros r tmv hw before l k s o H HB HP. destruct (alternation_lemma _ _ _ _ _ _ _ _ H) as [_ ->].
  unfold life in H. pose proof (before_spec before (init true r tmv)) as B. cbv zeta in B. destruct B as (B1 & B2 & B3 & B4 & B5 & B6).
  destruct (sync_initial_state (fold_left pair_keyboard before (init true r tmv)) hw) as [s1 o1] eqn:E1. destruct (run s1 l) as [s2 o2] eqn:E2. injection H as <- <-.
  destruct (sync_spec _ _ _ _ E1) as (_ & _ & I1 & I2 & K1 & _ & K2 & _); [rewrite B2; auto|rewrite B1; auto|].
  assert (T : tag_lid s1 = true) by (rewrite K2, B4; auto).
  destruct (run_kbds _ _ _ _ E2 T) as (_ & L & P).
  destruct (key_step s2 k) as (pre & s' & A & A2 & _ & A4 & A5).
  - apply L. destruct HB as [-> |[-> |HB]]; [left|left|right; auto].
    + cbn in K1. intros _. rewrite K1. constructor.
    + intros C. specialize (I2 C). discriminate.
  - rewrite P. unfold has. rewrite K1, B6 by reflexivity. exact HP.
  - eapply run_inv; eauto.
  - exists pre, s'. auto.
Qed.
(** Events that leave the lid alone. *)
Lemma quiet_lemma : forall s k, step s (EOther k) = (s, [Other k]) /\ (has s k = false -> step s (EKey k) = (s, [Key k])).
Proof.
  intros s k. split; [cbn; unfold keyboard_post; rewrite listeners_other; reflexivity|]. intros H. cbn. unfold keyboard_post.
  replace (length _) with O; [reflexivity|]. unfold has in H. induction (kbds s) as [|[x b] l IH]; auto. cbn in *. destruct (x =? k); [discriminate|]. cbn. apply IH. auto.
Qed.
Lemma unpaired_lemma : forall r tmv hw before l k s o, life true r tmv hw before l = (s, o) ->
  is_paired k l (existsb (Z.eqb k) before) = false -> step s (EKey k) = (s, [Key k]).
Proof.
  intros r tmv hw before l k s o H HP. apply quiet_lemma.
  unfold life in H. pose proof (before_spec before (init true r tmv)) as B. cbv zeta in B. destruct B as (B1 & B2 & B3 & B4 & B5 & B6).
  destruct (sync_initial_state (fold_left pair_keyboard before (init true r tmv)) hw) as [s1 o1] eqn:E1. destruct (run s1 l) as [s2 o2] eqn:E2. injection H as <- <-.
  destruct (sync_spec _ _ _ _ E1) as (_ & _ & I1 & I2 & K1 & _ & K2 & _); [rewrite B2; auto|rewrite B1; auto|].
  assert (T : tag_lid s1 = true) by (rewrite K2, B4; auto).
  destruct (run_kbds _ _ _ _ E2 T) as (_ & L & P). rewrite P. unfold has. rewrite K1, B6 by reflexivity. exact HP.
Qed.

(** The keyboard that follows the tablet-mode switch. *)
Definition tinv (w : tk) : Prop := t_hw w = t_on w /\ t_run w = true /\ paired w = true /\ k_open w = k_mode w && negb (t_on w).
Lemma tinit_inv : forall b, tinv (tinit b).
Proof. destruct b; repeat split. Qed.
Lemma trun_inv : forall l w, tinv w -> careful (t_hw w) (k_mode w) l -> tinv (trun w l) /\ t_hw (trun w l) = last_toggle l (t_hw w) /\ k_mode (trun w l) = last_mode l (k_mode w).
Proof.
  induction l as [|e l IH]; intros [h t r p m k] HI HT; [auto|]. pose proof HI as (H1 & H2 & H3 & H4). cbn in H1, H2, H3, H4. subst.
  destruct e as [b|b|b]; cbn [careful t_hw k_mode] in HT; try contradiction.
  - destruct b, t, m; (match goal with |- tinv (trun ?w (?e :: _)) /\ _ => destruct (IH (tstep w e)) as (A & B & C); [repeat split|exact HT|exact (conj A (conj B C))] end).
  - destruct HT as [HT1 HT2]. destruct b, m, t; try (specialize (HT1 eq_refl eq_refl); discriminate); (match goal with |- tinv (trun ?w (?e :: _)) /\ _ => destruct (IH (tstep w e)) as (A & B & C); [repeat split|exact HT2|exact (conj A (conj B C))] end).
Qed.
Lemma trun_paired : forall l w, paired w = t_run w -> paired (trun w l) = t_run (trun w l).
Proof.
  induction l as [|e l IH]; intros w H; [exact H|]. cbn [trun fold_left]. apply IH. destruct w as [h t r p m k]. cbn in H. subst p.
  destruct e as [b|b|b]; destruct b, t, r, m; reflexivity.
Qed.
