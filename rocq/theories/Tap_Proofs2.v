(** Proofs about complete taps. *)
Require Import Coq.ZArith.ZArith Coq.Lists.List Coq.Bool.Bool Coq.micromega.Lia.
Require Verif.Tp_Model Verif.Tp_Spec.
Require Import Verif.Tap_Model Verif.Tap_Spec Verif.Tap_Proofs.
Import ListNotations.
Open Scope Z_scope.

(** ** Configuration *)
Lemma update_map_kept : forall s, drag (update_map s) = drag s /\ enabled (update_map s) = enabled s /\ suspended (update_map s) = suspended s /\ off (update_map s) = off s.
Proof. intros s. unfold update_map. destruct (is_idle s); repeat split. Qed.
Lemma touch_kept : forall s f m t, kept s (fst (touch_in_frame s f m t)).
Proof.
  intros s f m t. unfold touch_in_frame. destruct (fdirty f); cbn [negb]; [|apply kept_refl].
  assert (H : forall e, kept s (handle_event s e t)) by (intros; apply handle_kept).
  assert (H2 : forall n e e', kept s (handle_event (handle_event (with_nf s n) e t) e' t)).
  { intros. eapply kept_trans; [|apply handle_kept]. eapply kept_trans; [|apply handle_kept]. repeat split. }
  assert (H3 : forall n e, kept s (handle_event (with_nf s n) e t)).
  { intros. eapply kept_trans; [|apply handle_kept]. repeat split. }
  assert (H4 : forall n b e, kept s (handle_event (with_nf (check s b) n) e t)).
  { intros. eapply kept_trans; [|apply handle_kept]. repeat split. }
  assert (H5 : forall n b e, kept s (with_nf (check (handle_event s e t) b) n)).
  { intros. eapply kept_trans; [apply (handle_kept s e t)|]. repeat split. }
  pose proof (kept_refl s) as KR.
  destruct (fs f), (is_thumb m), (is_palm m), (palm f); cbn [fst]; try apply KR; try apply H; try apply H5;
  try (destruct (thumb_tap f); cbn [fst]; [apply KR|destruct (palm_tap f); [apply H2|apply H3]]);
  try (destruct (fwas_down f); [apply H4|apply KR]);
  try (destruct (negb (is_idle s) && thumb f); cbn [fst]; [apply H|destruct (negb (is_idle s) && moved f); cbn [fst]; [apply H|apply KR]]).
Qed.
Lemma touches_kept : forall l s ms t, kept s (fst (touches_in_frame s l ms t)).
Proof.
  induction l as [|f l IH]; intros s ms t; cbn [touches_in_frame]; [destruct ms; apply kept_refl|]. destruct ms as [|m ms]; [apply kept_refl|].
  pose proof (touch_kept s f m t) as K. destruct (touch_in_frame s f m t) as [s1 m1]. specialize (IH s1 ms t). destruct (touches_in_frame s1 l ms t) as [s2 ms2]. cbn [fst] in *. eapply kept_trans; eauto.
Qed.
Lemma handle_state_conf : forall s l c t, let s' := handle_state s l c t in drag s' = drag s /\ enabled s' = enabled s /\ suspended s' = suspended s /\ off s' = off s.
Proof.
  intros s l c t s'. unfold s', handle_state. match goal with |- context [update_map ?x] => destruct (update_map_kept x) as (A & B & C & D) end. rewrite A, B, C, D.
  destruct (off s || negb (tap_enabled s)); [repeat split|]. set (s1 := if clickpad s && c then handle_event s EV_BUTTON t else s).
  assert (K : kept s s1) by (unfold s1; destruct (clickpad s && c); [apply handle_kept|apply kept_refl]).
  pose proof (touches_kept l s1 (marks s1) t) as K2. destruct (touches_in_frame s1 l (marks s1) t) as [s2 ms2]. cbn [fst] in K2. cbn [drag enabled suspended off check with_marks]. unfold kept in *. intuition congruence.
Qed.
Lemma release_all_conf : forall s t, drag (release_all s t) = drag s /\ enabled (release_all s t) = enabled s /\ suspended (release_all s t) = suspended s /\ off (release_all s t) = off s.
Proof.
  intros s t. unfold release_all. cbn [drag enabled suspended off with_nf goto with_marks].
  repeat match goal with |- context [if ?c then _ else _] => destruct c end; repeat split.
Qed.
Lemma timeout_conf : forall s t, drag (timeout s t) = drag s /\ enabled (timeout s t) = enabled s /\ suspended (timeout s t) = suspended s /\ off (timeout s t) = off s.
Proof.
  intros s t. unfold timeout. destruct (timer s); [|repeat split]. destruct (z <=? t); [|repeat split].
  pose proof (handle_kept (clear_timer s) EV_TIMEOUT t) as K. unfold kept in K. cbn in K. intuition.
Qed.
Lemma enabled_update_conf : forall s su en t, enabled (enabled_update s su en t) = en /\ suspended (enabled_update s su en t) = su /\ off (enabled_update s su en t) = off s /\ drag (enabled_update s su en t) = drag s.
Proof.
  intros s su en t. unfold enabled_update. match goal with |- context [Bool.eqb (tap_enabled ?x) _] => set (s1 := x) end.
  destruct (Bool.eqb (tap_enabled s1) (tap_enabled s)); [repeat split|]. destruct (tap_enabled s1); [repeat split|]. destruct (release_all_conf s1 t) as (A & B & C & D). rewrite A, B, C, D. repeat split.
Qed.

Lemma conf_run : forall l s, enabled (run s l) = last_enabled (enabled s) l /\ suspended (run s l) = fold_left (fun b i => match i with Suspend _ => true | Resume _ => false | _ => b end) l (suspended s) /\
  off (run s l) = fold_left (fun b i => match i with Off _ => true | On => false | _ => b end) l (off s).
Proof.
  induction l as [|i l IH]; intros s; [repeat split|]. cbn [run fold_left last_enabled]. change (fold_left step l (step s i)) with (run (step s i) l).
  destruct (IH (step s i)) as (A & B & C). rewrite A, B, C. unfold last_enabled. cbn [fold_left].
  assert (X : enabled (step s i) = match i with SetEnabled e _ => e | _ => enabled s end /\ suspended (step s i) = match i with Suspend _ => true | Resume _ => false | _ => suspended s end /\
     off (step s i) = match i with Off _ => true | On => false | _ => off s end).
  { destruct i; cbn [step].
    - repeat split. - destruct (handle_state_conf s l0 click t) as (_ & ?); auto. - destruct (timeout_conf s t) as (_ & ?); auto.
    - destruct (enabled_update_conf s (suspended s) b t) as (? & ? & ? & _); auto.
    - match goal with |- context [update_map ?x] => destruct (update_map_kept x) as (_ & ? & ? & ?) end. auto.
    - repeat split. - repeat split.
    - destruct (enabled_update_conf s true (enabled s) t) as (? & ? & ? & _); auto.
    - destruct (enabled_update_conf s false (enabled s) t) as (? & ? & ? & _); auto.
    - destruct (release_all_conf s t) as (_ & ?); auto.
    - destruct (release_all_conf s t) as (_ & ? & ? & ?). cbn [enabled suspended off with_off]. auto.
    - repeat split. }
  destruct X as (X1 & X2 & X3). rewrite X1, X2, X3. repeat split.
Qed.

(** ** One finger *)
Notation unmarked := {| is_thumb := false; is_palm := false |}.
Lemma touches_nothing : forall n s ms t, touches_in_frame s (repeat nothing n) ms t = (s, ms).
Proof. induction n as [|n IH]; intros s [|m ms] t; cbn [repeat touches_in_frame]; auto. cbn [touch_in_frame nothing fdirty negb]. rewrite IH. reflexivity. Qed.
Lemma touches_alone : forall i j f s ms t, length ms = (i + S j)%nat ->
  touches_in_frame s (alone i j f) ms t = let '(s', m') := touch_in_frame s f (nth i ms unmarked) t in (s', firstn i ms ++ m' :: skipn (S i) ms).
Proof.
  induction i as [|i IH]; intros j f s [|m ms] t L; cbn in L; try discriminate L; cbn [alone repeat app touches_in_frame nth firstn skipn].
  - destruct (touch_in_frame s f m t) as [s' m']. rewrite touches_nothing. reflexivity.
  - cbn [touch_in_frame nothing fdirty negb]. change (repeat nothing i ++ f :: repeat nothing j) with (alone i j f). rewrite IH by lia.
    destruct (touch_in_frame s f (nth i ms unmarked) t) as [s' m']. reflexivity.
Qed.
Lemma nth_firstn_skipn : forall (i : nat) (ms : list tmark) m d, (i < length ms)%nat -> nth i (firstn i ms ++ m :: skipn (S i) ms) d = m /\ length (firstn i ms ++ m :: skipn (S i) ms) = length ms.
Proof.
  induction i as [|i IH]; intros [|a ms] m d L; cbn in L; try lia.
  - cbn. split; reflexivity.
  - destruct (IH ms m d ltac:(lia)) as [A B]. split; [exact A|]. cbn. f_equal. exact B.
Qed.
Lemma nth_clear : forall i ms, (i < length ms)%nat -> nth i (clear_mark i ms) unmarked = unmarked.
Proof. induction i as [|i IH]; intros [|m ms] L; cbn in L; try lia; cbn; auto. apply IH. lia. Qed.
Lemma fingers_alone : forall i j f, fingers_down (alone i j f) = if is_down f then 1 else 0.
Proof.
  intros. unfold fingers_down, alone. rewrite filter_app. assert (N : forall k, filter is_down (repeat nothing k) = []) by (induction k; cbn; auto).
  rewrite N. cbn [app filter]. destruct (is_down f); rewrite N; reflexivity.
Qed.
(** A frame with one touch in it *)
Lemma frame_alone : forall s i j f t, length (marks s) = (i + S j)%nat -> off s = false -> tap_enabled s = true ->
  exists b, handle_state s (alone i j f) false t =
    let '(s', m') := touch_in_frame s f (nth i (marks s) unmarked) t in update_map (check (with_marks s' (firstn i (marks s) ++ m' :: skipn (S i) (marks s))) b).
Proof.
  intros s i j f t L O E. unfold handle_state. rewrite O, E. cbn [orb negb]. rewrite andb_false_r. rewrite (touches_alone i j f s (marks s) t L).
  destruct (touch_in_frame s f (nth i (marks s) unmarked) t) as [s' m']. eexists. reflexivity.
Qed.

(** What is kept during the session *)
Record ses (i j : nat) (o : list bev) (s : tap) : Prop := { s_len : length (marks s) = (i + S j)%nat; s_off : off s = false; s_en : tap_enabled s = true; s_drag : drag s = false; s_out : out s = o }.
Definition mk (i : nat) (s : tap) : tmark := nth i (marks s) unmarked.
(** Still a tap; no tap any more *)
Definition stA (i : nat) (t0 : Z) (s : tap) : Prop := st s = TOUCH /\ sp s = t0 /\ timer s = Some (t0 + 180000) /\ mk i s = unmarked /\ nf s = 1.
Definition stB (i : nat) (s : tap) : Prop :=
  (st s = HOLD /\ mk i s = unmarked /\ nf s = 1) \/ (st s = DEAD /\ mk i s = unmarked /\ nf s = 1) \/ (st s = DEAD /\ is_palm (mk i s) = true /\ nf s = 0) \/
  (st s = IDLE /\ (is_palm (mk i s) = true \/ is_thumb (mk i s) = true) /\ nf s = 0).
Lemma ses_frame : forall i j o s f t s', ses i j o s -> handle_state s (alone i j f) false t = s' ->
  length (marks s') = (i + S j)%nat /\ off s' = false /\ tap_enabled s' = true /\ drag s' = false.
Proof.
  intros i j o s f t s' [A B C D E] H. pose proof (handle_state_conf s (alone i j f) false t) as K. cbv zeta in K. rewrite H in K. destruct K as (K1 & K2 & K3 & K4).
  unfold tap_enabled in *. rewrite K1, K2, K3, K4. split; [|auto]. destruct (frame_alone s i j f t A B C) as (b & F). rewrite H in F.
  destruct (touch_in_frame s f (nth i (marks s) unmarked) t) as [x m]. destruct (fields_update_map (check (with_marks x (firstn i (marks s) ++ m :: skipn (S i) (marks s))) b)) as (_ & _ & M & _).
  rewrite <- F in M. rewrite M. cbn [marks check with_marks]. rewrite <- A. apply nth_firstn_skipn; [exact unmarked|lia].
Qed.
(** The frame's effect on the fields of interest *)
Lemma frame_fields : forall i j o s f t, ses i j o s ->
  let r := touch_in_frame s f (mk i s) t in let s' := handle_state s (alone i j f) false t in
  st s' = st (fst r) /\ nf s' = nf (fst r) /\ out s' = out (fst r) /\ sp s' = sp (fst r) /\ timer s' = timer (fst r) /\ mk i s' = snd r.
Proof.
  intros i j o s f t [A B C D E] r s'. destruct (frame_alone s i j f t A B C) as (b & F). unfold s'. rewrite F. unfold r, mk in *.
  destruct (touch_in_frame s f (nth i (marks s) unmarked) t) as [x m]. cbn [fst snd].
  unfold update_map. destruct (is_idle _); cbn [st nf out sp timer marks check with_marks]; (do 5 (split; [reflexivity|])); apply nth_firstn_skipn; lia.
Qed.
Lemma ses_step : forall i j o s f t s' o', ses i j o s -> handle_state s (alone i j f) false t = s' -> out s' = o' -> ses i j o' s'.
Proof. intros i j o s f t s' o' S H O. destruct (ses_frame _ _ _ _ _ _ _ S H) as (A & B & C & D). constructor; auto. Qed.

Lemma handle_out_quiet : forall s e t, match st s with IDLE | HOLD | DEAD => True | TOUCH => e <> EV_RELEASE | _ => False end -> out (handle_event s e t) = out s.
Proof.
  intros s e t H. destruct s as [x]. destruct x; try (exfalso; exact H); destruct e; try reflexivity; try (exfalso; apply H; reflexivity);
  unfg; repeat match goal with |- context [if ?c then _ else _] => destruct c end; reflexivity.
Qed.

Lemma mid_A : forall i j o s t0 m, ses i j o s -> stA i t0 s -> (match m with Moves f _ => fs f = Tp_Model.UPDATE | _ => True end) ->
  let s' := step s (meanwhile_input i j m) in ses i j o s' /\ (if disturbs t0 m then stB i s' else stA i t0 s').
Proof.
  intros i j o s t0 m S A F s'. destruct A as (A1 & A2 & A3 & A4 & A5). destruct m as [f t|t]; cbn [meanwhile_input step disturbs] in *.
  - destruct (frame_fields i j o s f t S) as (B1 & B2 & B3 & B4 & B5 & B6). fold s' in B1, B2, B3, B4, B5, B6.
    rewrite A4 in B1, B2, B3, B4, B5, B6. unfold touch_in_frame in B1, B2, B3, B4, B5, B6. rewrite F in B1, B2, B3, B4, B5, B6. cbn [is_thumb is_palm] in *.
    assert (IDL : is_idle s = false) by (unfold is_idle; rewrite A1; reflexivity). rewrite IDL in *. cbn [negb andb] in *.
    assert (BT : becomes_thumb s = true) by (unfold becomes_thumb; rewrite A1; reflexivity). rewrite BT in *.
    destruct (fdirty f); cbn [negb andb fst snd] in *.
    2:{ split; [eapply ses_step; [exact S|reflexivity|]; rewrite B3; apply S|]. unfold stA. rewrite B1, B2, B4, B5, B6. auto. }
    destruct (palm f); cbn [orb fst snd with_nf check st nf out] in *.
    { split; [eapply ses_step; [exact S|reflexivity|]; fold s'; rewrite B3, handle_out_quiet by (rewrite A1; discriminate); apply S|].
      right; right; right. rewrite B1, B2, B6, handle_nf. cbn iota. split; [|split; [left; reflexivity|lia]]. destruct s; cbn in A1; subst; reflexivity. }
    destruct (thumb f); cbn [orb fst snd] in *.
    { split; [eapply ses_step; [exact S|reflexivity|]; fold s'; rewrite B3, handle_out_quiet by (rewrite A1; discriminate); apply S|].
      right; right; right. rewrite B1, B2, B6, handle_nf, BT. split; [|split; [right; reflexivity|lia]]. destruct s; cbn in A1; subst; reflexivity. }
    destruct (moved f); cbn [orb fst snd] in *.
    { split; [eapply ses_step; [exact S|reflexivity|]; fold s'; rewrite B3, handle_out_quiet by (rewrite A1; discriminate); apply S|].
      right; left. rewrite B1, B2, B6, handle_nf. split; [|split; [reflexivity|lia]]. destruct s; cbn in A1; subst; reflexivity. }
    split; [eapply ses_step; [exact S|reflexivity|]; fold s'; rewrite B3; apply S|]. unfold stA. rewrite B1, B2, B4, B5, B6. auto.
  - unfold s', timeout. rewrite A3. destruct (t0 + 180000 <=? t) eqn:T.
    + destruct S as [S1 S2 S3 S4 S5]. pose proof (handle_kept (clear_timer s) EV_TIMEOUT t) as (K1 & K2 & K3 & K4 & K5 & K6 & K7 & K8 & K9). cbn in K1, K2, K3, K4, K5, K6, K7, K8, K9.
      split.
      * constructor; [congruence|congruence|unfold tap_enabled in *; congruence|congruence|]. rewrite handle_out_quiet; [exact S5|]. cbn [st clear_timer with_timer]. rewrite A1. discriminate.
      * left. unfold mk in *. rewrite K9, handle_nf. cbn [nf clear_timer with_timer]. split; [|auto]. destruct s; cbn in A1; subst; reflexivity.
    + split; [exact S|]. unfold stA. auto.
Qed.
Lemma mid_B : forall i j o s m, ses i j o s -> stB i s -> (match m with Moves f _ => fs f = Tp_Model.UPDATE | _ => True end) ->
  let s' := step s (meanwhile_input i j m) in ses i j o s' /\ stB i s'.
Proof.
  intros i j o s m S A F s'. destruct m as [f t|t]; cbn [meanwhile_input step] in *.
  - destruct (frame_fields i j o s f t S) as (B1 & B2 & B3 & B4 & B5 & B6). fold s' in B1, B2, B3, B4, B5, B6. pose proof (s_out _ _ _ _ S) as SO.
    unfold touch_in_frame in B1, B2, B3, B4, B5, B6. rewrite F in B1, B2, B3, B4, B5, B6.
    assert (X : (st s' = st s /\ nf s' = nf s /\ out s' = out s /\ mk i s' = mk i s) \/ (out s' = o /\ stB i s')).
    2:{ destruct X as [(X1 & X2 & X3 & X4)|(X1 & X2)].
        - split; [eapply ses_step; [exact S|reflexivity|fold s'; congruence]|]. unfold stB in *. rewrite X1, X2, X4. exact A.
        - split; [eapply ses_step; [exact S|reflexivity|fold s'; exact X1]|exact X2]. }
    destruct (fdirty f); cbn [negb fst snd] in *; [|left; auto].
    destruct A as [(A1 & A2 & A3)|[(A1 & A2 & A3)|[(A1 & A2 & A3)|(A1 & A2 & A3)]]].
    + rewrite A2 in B1, B2, B3, B4, B5, B6. cbn [is_thumb is_palm] in *. right.
      assert (IDL : is_idle s = false) by (unfold is_idle; rewrite A1; reflexivity). rewrite IDL in *. cbn [negb andb] in *.
      assert (BT : becomes_thumb s = true) by (unfold becomes_thumb; rewrite A1; reflexivity). rewrite BT in *.
      assert (OQ : forall e, out (handle_event s e t) = o) by (intros; rewrite handle_out_quiet; [exact SO|rewrite A1; exact I]).
      destruct (palm f); cbn [fst snd with_nf check st nf out] in *.
      { split; [rewrite B3; apply OQ|]. right; right; right. rewrite B1, B2, B6, handle_nf. split; [|split; [left; reflexivity|lia]]. destruct s; cbn in A1; subst; reflexivity. }
      destruct (thumb f); cbn [fst snd] in *.
      { split; [rewrite B3; apply OQ|]. right; right; right. rewrite B1, B2, B6, handle_nf, BT. split; [|split; [right; reflexivity|lia]]. destruct s; cbn in A1; subst; reflexivity. }
      destruct (moved f); cbn [fst snd] in *.
      { split; [rewrite B3; apply OQ|]. right; left. rewrite B1, B2, B6, handle_nf. split; [|split; [reflexivity|lia]]. destruct s; cbn in A1; subst; reflexivity. }
      split; [rewrite B3; exact SO|]. left. rewrite B1, B2, B6. auto.
    + rewrite A2 in B1, B2, B3, B4, B5, B6. cbn [is_thumb is_palm] in *. right.
      assert (IDL : is_idle s = false) by (unfold is_idle; rewrite A1; reflexivity). rewrite IDL in *. cbn [negb andb] in *.
      assert (BT : becomes_thumb s = false) by (unfold becomes_thumb; rewrite A1; reflexivity). rewrite BT in *.
      assert (OQ : forall e, out (handle_event s e t) = o) by (intros; rewrite handle_out_quiet; [exact SO|rewrite A1; exact I]).
      assert (ST : forall e, st (handle_event s e t) = DEAD).
      { intros e. clear - A1 A3. destruct s; cbn in A1, A3; subst; destruct e; unfg; reflexivity. }
      destruct (palm f); cbn [fst snd with_nf check st nf out] in *.
      { split; [rewrite B3; apply OQ|]. right; right; left. rewrite B1, B2, B6, handle_nf. split; [apply ST|split; [reflexivity|lia]]. }
      destruct (thumb f); cbn [fst snd] in *.
      { split; [rewrite B3; apply OQ|]. right; left. rewrite B1, B2, B6, handle_nf, BT. auto. }
      destruct (moved f); cbn [fst snd] in *.
      { split; [rewrite B3; apply OQ|]. right; left. rewrite B1, B2, B6, handle_nf. auto. }
      split; [rewrite B3; exact SO|]. right; left. rewrite B1, B2, B6. auto.
    + left. rewrite A2 in *. destruct (is_thumb (mk i s)); cbn [fst snd] in *; auto.
    + left. assert (IDL : is_idle s = true) by (unfold is_idle; rewrite A1; reflexivity). destruct (is_thumb (mk i s)); cbn [fst snd] in *; [auto|]. destruct A2 as [A2|A2]; [|discriminate A2]. rewrite A2 in *. cbn [fst snd] in *. auto.
  - unfold s', timeout. destruct (timer s) as [e|]; [|split; [exact S|exact A]]. destruct (e <=? t); [|split; [exact S|exact A]].
    destruct S as [S1 S2 S3 S4 S5]. pose proof (handle_kept (clear_timer s) EV_TIMEOUT t) as (K1 & K2 & K3 & K4 & K5 & K6 & K7 & K8 & K9). cbn in K1, K2, K3, K4, K5, K6, K7, K8, K9.
    assert (QS : match st s with IDLE | HOLD | DEAD => True | _ => False end) by (unfold stB in A; destruct A as [(-> & _)|[(-> & _)|[(-> & _)|(-> & _)]]]; exact I).
    split.
    + constructor; [congruence|congruence|unfold tap_enabled in *; congruence|congruence|]. rewrite handle_out_quiet; [exact S5|]. cbn [st clear_timer with_timer]. destruct (st s); try contradiction QS; exact I.
    + assert (ST : st (handle_event (clear_timer s) EV_TIMEOUT t) = st s) by (clear - QS; destruct s as [x]; cbn in QS; destruct x; try contradiction QS; reflexivity).
      unfold stB, mk in *. rewrite ST, K9, handle_nf. exact A.
Qed.
Lemma mids : forall mid i j o s t0 d, ses i j o s -> (if (d : bool) then stB i s else stA i t0 s) -> Forall (fun m => match m with Moves f _ => fs f = Tp_Model.UPDATE | _ => True end) mid ->
  let s' := run s (map (meanwhile_input i j) mid) in ses i j o s' /\ (if d || existsb (disturbs t0) mid then stB i s' else stA i t0 s').
Proof.
  induction mid as [|m mid IH]; intros i j o s t0 d S D F s'.
  - rewrite orb_false_r. auto.
  - inversion F; subst. cbn [map] in s'. unfold s'. cbn [run fold_left]. change (fold_left step (map (meanwhile_input i j) mid)) with (fun x => run x (map (meanwhile_input i j) mid)). cbv beta.
    cbn [existsb]. destruct d.
    + destruct (mid_B i j o s m S D H1) as [S1 B1]. specialize (IH i j o _ t0 true S1 B1 H2). exact IH.
    + destruct (mid_A i j o s t0 m S D H1) as [S1 B1]. cbn [orb]. specialize (IH i j o _ t0 (disturbs t0 m) S1 B1 H2). exact IH.
Qed.

Lemma one_finger_spec : forall i j b t0 mid e t1 s o, ses i j o s -> st s = IDLE -> nf s = 0 ->
  fs b = Tp_Model.BEGIN -> fdirty b = true -> Forall (fun m => match m with Moves f _ => fs f = Tp_Model.UPDATE | _ => True end) mid ->
  fs e = Tp_Model.END -> fdirty e = true -> fwas_down e = true ->
  let s' := run s (one_finger i j b t0 mid e t1) in
  if is_no_tap b t0 mid e then out s' = o
  else out s' = o ++ [{| at_time := t0; but := LEFT; down := true |}; {| at_time := t1; but := LEFT; down := false |}] /\ st s' = IDLE.
Proof.
  intros i j b t0 mid e t1 s o S IDL NF FB DB FM FE DE WE s'. unfold s', one_finger. cbn [app]. cbn [run fold_left step]. set (s0 := with_marks s (clear_mark i (marks s))).
  assert (S0 : ses i j o s0) by (destruct S; constructor; auto; unfold s0; cbn [marks with_marks]; rewrite clear_length; auto).
  assert (M0 : mk i s0 = unmarked) by (unfold mk, s0; cbn [marks with_marks]; apply nth_clear; destruct S; lia).
  assert (IDL0 : st s0 = IDLE) by exact IDL. assert (NF0 : nf s0 = 0) by exact NF. clearbody s0. clear s IDL NF S s'.
  destruct (frame_fields i j o s0 b t0 S0) as (B1 & B2 & B3 & B4 & B5 & B6). set (s1 := handle_state s0 (alone i j b) false t0) in *.
  pose proof (s_out _ _ _ _ S0) as SO.
  rewrite M0 in B1, B2, B3, B4, B5, B6. unfold touch_in_frame in B1, B2, B3, B4, B5, B6. rewrite FB, DB in B1, B2, B3, B4, B5, B6. cbn [negb is_thumb is_palm] in *.
  assert (X : ses i j o s1 /\ (if palm b || thumb_tap b || palm_tap b then stB i s1 else stA i t0 s1)).
  { destruct (palm b); cbn [orb fst snd] in *.
    { split; [eapply ses_step; [exact S0|reflexivity|]; fold s1; congruence|]. right; right; right. rewrite B1, B2, B6. cbn. auto. }
    destruct (thumb_tap b); cbn [orb fst snd] in *.
    { split; [eapply ses_step; [exact S0|reflexivity|]; fold s1; congruence|]. right; right; right. rewrite B1, B2, B6. cbn. auto. }
    assert (O2 : out (handle_event (with_nf s0 (nf s0 + 1)) EV_TOUCH t0) = o) by (rewrite handle_out_quiet; [exact SO|cbn [st with_nf]; rewrite IDL0; exact I]).
    assert (ST2 : let x := handle_event (with_nf s0 (nf s0 + 1)) EV_TOUCH t0 in st x = TOUCH /\ sp x = t0 /\ timer x = Some (t0 + 180000) /\ nf x = 1).
    { clear - IDL0 NF0. destruct s0; cbn in IDL0, NF0; subst. repeat split. }
    cbv zeta in ST2. destruct ST2 as (ST2 & SP2 & TM2 & NF2).
    destruct (palm_tap b).
    { assert (O3 : out (handle_event (handle_event (with_nf s0 (nf s0 + 1)) EV_TOUCH t0) EV_MOTION t0) = o) by (rewrite handle_out_quiet; [exact O2|rewrite ST2; discriminate]).
      split; [eapply ses_step; [exact S0|reflexivity|]; fold s1; congruence|]. right; left. rewrite B1, B2, B6. split; [|split; [reflexivity|rewrite handle_nf; lia]].
      clear - IDL0. destruct s0; cbn in IDL0; subst. reflexivity. }
    split; [eapply ses_step; [exact S0|reflexivity|]; fold s1; congruence|]. unfold stA. rewrite B1, B2, B4, B5, B6. auto. }
  destruct X as [S1 D1]. clearbody s1. clear B1 B2 B3 B4 B5 B6.
  rewrite fold_left_app. change (fold_left step (map (meanwhile_input i j) mid) s1) with (run s1 (map (meanwhile_input i j) mid)).
  destruct (mids mid i j o s1 t0 _ S1 D1 FM) as [S2 D2]. cbv zeta in S2, D2. set (s2 := run s1 (map (meanwhile_input i j) mid)) in *. clearbody s2.
  cbn [fold_left step]. destruct (frame_fields i j o s2 e t1 S2) as (B1 & B2 & B3 & B4 & B5 & B6). set (s3 := handle_state s2 (alone i j e) false t1) in *. pose proof (s_out _ _ _ _ S2) as SO2.
  unfold touch_in_frame in B1, B2, B3, B4, B5, B6. rewrite FE, DE in B1, B2, B3, B4, B5, B6. cbn [negb] in *. unfold is_no_tap.
  match goal with |- if (?x || palm e) then _ else _ => change x with (palm b || thumb_tap b || palm_tap b || existsb (disturbs t0) mid) in * end.
  destruct (palm b || thumb_tap b || palm_tap b || existsb (disturbs t0) mid); cbn [orb].
  - rewrite B3. clear - D2 SO2 WE. 
    assert (Q : match st s2 with IDLE | HOLD | DEAD => True | TOUCH => EV_PALM <> EV_RELEASE | _ => False end) by (unfold stB in D2; destruct D2 as [(-> & _)|[(-> & _)|[(-> & _)|(-> & _)]]]; exact I).
    assert (OQ : forall ev, out (handle_event s2 ev t1) = o).
    { intros. rewrite handle_out_quiet; [exact SO2|]. unfold stB in D2; destruct D2 as [(-> & _)|[(-> & _)|[(-> & _)|(-> & _)]]]; exact I. }
    destruct (is_thumb (mk i s2)); [exact SO2|]. destruct (is_palm (mk i s2)); [apply OQ|]. destruct (palm e); [apply OQ|]. rewrite WE. cbn [fst].
    rewrite handle_out_quiet; [exact SO2|]. cbn [st with_nf check]. unfold stB in D2; destruct D2 as [(-> & _)|[(-> & _)|[(-> & _)|(-> & _)]]]; exact I.
  - destruct D2 as (D1' & D2 & D3 & D4 & D5). rewrite D4 in B1, B2, B3. cbn [is_thumb is_palm] in B1, B3. destruct (palm e).
    + rewrite B3. cbn [fst out with_nf check]. rewrite handle_out_quiet; [exact SO2|rewrite D1'; discriminate].
    + rewrite WE in B1, B3. cbn [fst] in B1, B3. rewrite B1, B3. pose proof (s_drag _ _ _ _ S2) as DR. clear - D1' D2 SO2 DR.
      destruct s2; cbn in D1', D2, SO2, DR; subst. unfg. cbn. rewrite <- app_assoc. split; reflexivity.
Qed.
