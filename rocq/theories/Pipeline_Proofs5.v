(** Button scrolling holds; suspending; final statements. *)
Require Import Coq.ZArith.ZArith Coq.Lists.List Coq.Bool.Bool Coq.micromega.Lia.
Require Verif.Debounce_Model Verif.Debounce_Spec Verif.Debounce_Proofs.
Require Verif.MiddleButton_Model Verif.MiddleButton_Spec Verif.MiddleButton_Proofs Verif.MiddleButton_Proofs2 Verif.Scroll_Model.
Require Import Verif.Keys_Model Verif.Pipeline_Model Verif.Pipeline_Spec Verif.Pipeline_Proofs Verif.Pipeline_Proofs2 Verif.Pipeline_Proofs3 Verif.Pipeline_Proofs4.
Import ListNotations.
Open Scope Z_scope.
Local Arguments Z.eqb : simpl never.
Local Arguments Z.add : simpl never.
Local Arguments Z.leb : simpl never.
Local Arguments Z.ltb : simpl never.

(** During a hold: scrolling state is not idle, configuration fixed. *)
Definition HELD (b : Z) (ls : lockst) (s : ds) : Prop :=
  s_method s = true /\ s_button s = b /\ nopend s /\ s_lockst s = ls /\ s_state s <> B_IDLE /\ s_cnt s b = 0 /\
  (s_state s = B_DOWN \/ s_timer s = None).

Lemma post_other : forall any s t c p b, c <> b -> nopend s -> s_cnt s b = 0 ->
  let r := post_button any s t c p in
  cfg (fst r) = cfg s /\ nopend (fst r) /\ s_lockst (fst r) = s_lockst s /\ s_state (fst r) = s_state s /\
  s_scr (fst r) = s_scr s /\ s_timer (fst r) = s_timer s /\
  s_cnt (fst r) b = 0 /\ (forall t' p', ~ In (PButton t' b p') (snd r)) /\ (forall t dx dy, ~ In (PMotion t dx dy) (snd r)) /\
  (forall e, ~ In (PAxis e) (snd r)).
Proof.
  intros any s t c p b Hc Hn Hb. unfold post_button, abort.
  destruct (update_key_down_count (s_cnt s) c p) as [[cnt n]|] eqn:E.
  2:{ cbn. repeat split; auto; intros; intuition discriminate. }
  assert (Hcnt : cnt b = 0).
  { unfold update_key_down_count in E. destruct (negb _); [discriminate|]. destruct p.
    - inversion E; subst. rewrite upd_other; auto.
    - destruct (s_cnt s c <=? 0); [discriminate|]. inversion E; subst. rewrite upd_other; auto. }
  destruct ((p && (n =? 1)) || (negb p && (n =? 0))).
  - destruct p; cbn [fst snd].
    + repeat split; auto; intros; cbn; intuition congruence.
    + fold (commit any (set_cnt s cnt)).
      destruct (commit_facts any (set_cnt s cnt)) as (_ & Q & _). rewrite Q by (right; exact Hn).
      repeat split; auto; intros; cbn; intuition congruence.
  - cbn. repeat split; auto; intros; tauto.
Qed.

Lemma held_step : forall b ls s o, HELD b ls s -> not_button b [o] -> (o = HTick -> s_timer s <> None) ->
  let r := hstep s o in
  HELD b ls (fst r) /\ (forall t p, ~ In (PButton t b p) (snd r)) /\ (forall t dx dy, ~ In (PMotion t dx dy) (snd r)) /\
  (s_state s = B_SCROLLING -> s_state (fst r) = B_SCROLLING) /\
  ((exists e, In (PAxis e) (snd r)) -> s_state (fst r) = B_SCROLLING).
Proof.
  intros b ls s o (H1 & H2 & H3 & H4 & H5 & H6 & H7) Hnb Htick. unfold hstep.
  destruct (s_dead s).
  { cbn. split; [unfold HELD; auto 10|]. split; auto. split; auto. split; auto. intros (e & []). }
  destruct o as [any t c p|t dx dy|].
  - assert (Hc : c <> b) by (intros ->; apply (Hnb any t p); left; auto).
    unfold notify_button. rewrite H1, H2. destruct (Z.eqb_spec c b); [contradiction|]. cbn [andb].
    pose proof (post_other any s t c p b Hc H3 H6) as (P1 & P2 & P3 & P4 & P4' & P4'' & P5 & P6 & P7 & P8).
    split; [unfold HELD; rewrite P3, P4, P4''; unfold cfg in P1; inversion P1; repeat split; auto; congruence|].
    split; auto. split; auto. split; [intros; congruence|]. intros (e & He). exfalso. eapply P8; eauto.
  - unfold relative_motion. rewrite H1.
    destruct (s_state s) eqn:Hst; [contradiction| | |].
    + cbn. split; [unfold HELD; rewrite Hst; auto 10|].
      split; [intros; tauto|]. split; [intros; tauto|]. split; [intros; congruence|]. intros (e & He); destruct He.
    + destruct H7 as [H7|H7]; [discriminate|].
      destruct (Scroll_Model.post_scroll _ _ _ _) as [scr o]. cbn [fst snd set_scr set_state s_state].
      split; [unfold HELD; cbn; repeat split; auto; discriminate|].
      split; [intros ? ? Hin; apply in_map_iff in Hin; destruct Hin as (x & Hin & _); discriminate|].
      split; [intros ? ? ? Hin; apply in_map_iff in Hin; destruct Hin as (x & Hin & _); discriminate|]. auto.
    + destruct H7 as [H7|H7]; [discriminate|].
      destruct (Scroll_Model.post_scroll _ _ _ _) as [scr o]. cbn [fst snd set_scr set_state s_state].
      split; [unfold HELD; cbn; rewrite Hst; repeat split; auto; discriminate|].
      split; [intros ? ? Hin; apply in_map_iff in Hin; destruct Hin as (x & Hin & _); discriminate|].
      split; [intros ? ? ? Hin; apply in_map_iff in Hin; destruct Hin as (x & Hin & _); discriminate|]. auto.
  - cbn [fst snd]. split; [unfold HELD; cbn; repeat split; auto; discriminate|].
    specialize (Htick eq_refl). destruct H7 as [H7|H7]; [|contradiction].
    split; [cbn; tauto|]. split; [cbn; tauto|]. split; [intros; congruence|]. intros (e & He); destruct He.
Qed.

Lemma hrun_cons : forall s o r, hrun s (o :: r) =
  (fst (hrun (fst (hstep s o)) r), snd (hstep s o) ++ snd (hrun (fst (hstep s o)) r)).
Proof. intros. cbn [hrun]. destruct (hstep s o) as [s1 o1]. cbn [fst snd]. destruct (hrun s1 r); auto. Qed.

Lemma held_run : forall b ls l s, HELD b ls s -> not_button b l -> ticks_ok s l ->
  let r := hrun s l in
  HELD b ls (fst r) /\ (forall t p, ~ In (PButton t b p) (snd r)) /\ (forall t dx dy, ~ In (PMotion t dx dy) (snd r)) /\
  (s_state s = B_SCROLLING -> s_state (fst r) = B_SCROLLING) /\
  ((exists e, In (PAxis e) (snd r)) -> s_state (fst r) = B_SCROLLING).
Proof.
  induction l as [|o l IH]; intros s H Hn Ht.
  - cbn. split; auto. split; auto. split; auto. split; auto. intros (e & []).
  - cbv zeta. rewrite hrun_cons. cbn [fst snd]. destruct Ht as [Ht1 Ht2].
    assert (Hn1 : not_button b [o]) by (intros any t p [E|[]]; apply (Hn any t p); left; auto).
    assert (Hn2 : not_button b l) by (intros any t p E; apply (Hn any t p); right; auto).
    destruct (held_step b ls s o H Hn1 Ht1) as (A1 & A2 & A3 & A4 & A5).
    destruct (IH _ A1 Hn2 Ht2) as (B1 & B2 & B3 & B4 & B5).
    split; auto. split; [intros t p Hi; apply in_app_or in Hi; destruct Hi; [eapply A2|eapply B2]; eauto|].
    split; [intros t dx dy Hi; apply in_app_or in Hi; destruct Hi; [eapply A3|eapply B3]; eauto|].
    split; [auto|]. intros (e & Hi). apply in_app_or in Hi. destruct Hi as [Hi|Hi]; [apply B4, A5; eauto|apply B5; eauto].
Qed.

(** The final release. *)
Lemma final_release : forall any b s t, HELD b L_IDLE s \/ HELD b L_DISABLED s -> s_dead s = false -> mouse_button b ->
  let r := scroll_release any s t in
  (snd r = [PButton (s_dtime s) b true; PButton t b false] /\ s_state s <> B_SCROLLING \/
   snd r = map PAxis (snd (Scroll_Model.stop_scroll (s_scr s) t)) /\ s_state s = B_SCROLLING) /\
  s_state (fst r) = B_IDLE /\ s_method (fst r) = true /\ s_button (fst r) = b /\ s_cnt (fst r) b = 0 /\ s_dead (fst r) = false /\
  s_lockst (fst r) = s_lockst s.
Proof.
  intros any b s t HH Hd Hb.
  assert (HB : exists ls, HELD b ls s) by (destruct HH; eauto). destruct HB as (ls & H1 & H2 & H3 & H4 & H5 & H6 & _).
  unfold scroll_release. set (s0 := set_timer s None).
  change (s_state s0) with (s_state s).
  assert (Click : let r := andthen (andthen (post_button any s0 (s_dtime s0) (s_button s0) true)
             (fun s1 => post_button any s1 t (s_button s1) false))
             (fun s1 => (set_state s1 B_IDLE, [])) in
    snd r = [PButton (s_dtime s) b true; PButton t b false] /\
    s_state (fst r) = B_IDLE /\ s_method (fst r) = true /\ s_button (fst r) = b /\ s_cnt (fst r) b = 0 /\ s_dead (fst r) = false /\
    s_lockst (fst r) = s_lockst s).
  { set (s1 := set_cnt s0 (upd (s_cnt s0) b (0 + 1))). set (s2 := set_cnt s1 (upd (s_cnt s1) b 0)).
    assert (P1 : post_button any s0 (s_dtime s0) (s_button s0) true = (s1, [PButton (s_dtime s) b true])).
    { change (s_button s0) with (s_button s). rewrite H2.
      rewrite (post_press any s0 (s_dtime s0) b 0 Hb) by (auto; lia). reflexivity. }
    assert (P2 : post_button any s1 t (s_button s1) false = (s2, [PButton t b false])).
    { change (s_button s1) with (s_button s). rewrite H2.
      rewrite (post_release any s1 t b 1); [|auto|apply upd_same|lia]. change (1 =? 1) with true. cbv iota.
      change (1 - 1) with 0. fold s2. fold (commit any s2).
      destruct (commit_facts any s2) as (_ & Q & _). rewrite Q by (right; exact H3). reflexivity. }
    assert (R : andthen (andthen (post_button any s0 (s_dtime s0) (s_button s0) true)
             (fun s1 => post_button any s1 t (s_button s1) false))
             (fun s1 => (set_state s1 B_IDLE, [])) = (set_state s2 B_IDLE, [PButton (s_dtime s) b true; PButton t b false])).
    { rewrite P1. unfold andthen. change (s_dead s1) with (s_dead s). rewrite Hd. rewrite P2.
      change (s_dead s2) with (s_dead s). rewrite Hd. reflexivity. }
    cbv zeta. rewrite R. cbn [fst snd].
    split; [reflexivity|]. split; [reflexivity|]. split; [exact H1|]. split; [exact H2|].
    split; [cbn; apply upd_same|]. split; [exact Hd|reflexivity]. }
  destruct (s_state s) eqn:Hst; [contradiction| | |].
  - destruct Click as [C1 C2]. split; [left; split; [exact C1|discriminate]|exact C2].
  - destruct Click as [C1 C2]. split; [left; split; [exact C1|discriminate]|exact C2].
  - change (s_scr s0) with (s_scr s). destruct (Scroll_Model.stop_scroll (s_scr s) t) as [scr o]. unfold andthen.
    change (s_dead (set_scr s0 scr)) with (s_dead s). rewrite Hd. cbn [fst snd]. rewrite app_nil_r.
    split; [right; auto|]. split; [reflexivity|]. split; [exact H1|]. split; [exact H2|].
    split; [exact H6|]. split; [exact Hd|reflexivity].
Qed.

Lemma hold_lemma : forall s any0 t0 mid any1 t1,
  scroll_idle s -> s_lock s = false -> s_dead s = false ->
  let b := s_button s in
  let s1 := fst (hstep s (HButton any0 t0 b true)) in
  not_button b mid -> ticks_ok s1 mid -> s_dead (fst (hrun s1 mid)) = false ->
  let held := snd (hrun s (HButton any0 t0 b true :: mid)) in
  let fin := snd (hstep (fst (hrun s1 mid)) (HButton any1 t1 b false)) in
  let s' := fst (hstep (fst (hrun s1 mid)) (HButton any1 t1 b false)) in
  (forall t p, ~ In (PButton t b p) held) /\ (forall t dx dy, ~ In (PMotion t dx dy) (held ++ fin)) /\
  (fin = [PButton t0 b true; PButton t1 b false] /\ (forall e, ~ In (PAxis e) held) \/
   fin = map PAxis (snd (Scroll_Model.stop_scroll (s_scr (fst (hrun s1 mid))) t1))) /\
  s_state s' = B_IDLE /\ s_method s' = true /\ s_button s' = b /\ s_lockst s' = L_DISABLED.
Proof.
  intros s any0 t0 mid any1 t1 (H1 & H2 & H3 & H4 & H5 & H6 & H7 & H8 & H9) Hlk Hd b s1 Hnb Htk Hd' held fin s'.
  rewrite Hlk in H6.
  assert (E1 : hstep s (HButton any0 t0 b true) = scroll_press s t0).
  { unfold hstep. rewrite Hd. unfold notify_button. rewrite H1, Z.eqb_refl. cbn [andb]. unfold scroll_button. rewrite H6. auto. }
  assert (HH : HELD b L_DISABLED s1).
  { unfold s1. rewrite E1. unfold HELD, nopend, wants, cfg. cbn. rewrite H1, H2, H3, H4, H5. repeat split; auto. discriminate. }
  destruct (held_run b L_DISABLED mid s1 HH Hnb Htk) as (R1 & R2 & R3 & R4 & R5).
  assert (Eh : held = snd (hrun s1 mid)).
  { unfold held. rewrite hrun_cons. cbn [snd]. rewrite E1. unfold s1. rewrite E1. reflexivity. }
  assert (Efin : hstep (fst (hrun s1 mid)) (HButton any1 t1 b false) = scroll_release any1 (fst (hrun s1 mid)) t1).
  { unfold hstep. rewrite Hd'. unfold notify_button. destruct R1 as (Q1 & Q2 & Q3 & Q4 & _). rewrite Q1, Q2, Z.eqb_refl. cbn [andb].
    unfold scroll_button. rewrite Q4. auto. }
  pose proof (final_release any1 b (fst (hrun s1 mid)) t1 (or_intror R1) Hd' H8) as F. cbv zeta in F.
  rewrite <- Efin in F. fold fin s' in F. destruct F as (F1 & F2 & F3 & F4 & F5 & F6 & F7).
  assert (Hdt : s_dtime (fst (hrun s1 mid)) = t0).
  { assert (G : forall l s, HELD b L_DISABLED s -> not_button b l -> ticks_ok s l -> s_dtime (fst (hrun s l)) = s_dtime s).
    { generalize b as b'. clear. intros b. induction l as [|o l IH]; intros s H Hn Ht; auto. rewrite hrun_cons. cbn [fst].
      assert (Hn1 : not_button b [o]) by (intros any t p [E|[]]; apply (Hn any t p); left; auto).
      assert (Hn2 : not_button b l) by (intros any t p E; apply (Hn any t p); right; auto).
      destruct Ht as [Ht1 Ht2]. destruct (held_step b L_DISABLED s o H Hn1 Ht1) as (A1 & _).
      rewrite IH by auto. clear IH. unfold hstep. destruct (s_dead s); auto. destruct o as [any t c p|t dx dy|]; auto.
      - unfold notify_button. destruct H as (Q1 & Q2 & Q3 & Q4 & _). rewrite Q1, Q2. destruct (Z.eqb_spec c b) as [->|]; [exfalso; eapply Hn1; left; eauto|].
        cbn [andb]. unfold post_button, abort. destruct (update_key_down_count _ _ _) as [[cnt k]|]; auto.
        destruct (_ || _); auto. destruct p; auto. fold (commit any (set_cnt s cnt)).
        destruct (commit_facts any (set_cnt s cnt)) as (_ & Q & _). rewrite Q by (right; exact Q3). auto.
      - unfold relative_motion. destruct (s_method s); auto. destruct (s_state s); auto; destruct (Scroll_Model.post_scroll _ _ _ _); auto. }
    rewrite G by auto. unfold s1. rewrite E1. reflexivity. }
  rewrite Eh. split; auto. split.
  { intros t dx dy Hi. apply in_app_or in Hi. destruct Hi as [Hi|Hi]; [eapply R3; eauto|].
    destruct F1 as [[F1 _]|[F1 _]]; rewrite F1 in Hi; [cbn in Hi; intuition discriminate|].
    apply in_map_iff in Hi. destruct Hi as (x & Hi & _). discriminate. }
  split.
  { destruct F1 as [[F1 F1']|[F1 F1']]; [left|right; auto]. rewrite Hdt in F1. split; auto.
    intros e He. apply F1', R5. eauto. }
  destruct R1 as (_ & _ & _ & Q4 & _). rewrite Q4 in F7. auto.
Qed.

(** With the lock: press, release, press, release make one hold. *)
Lemma hold_locked_lemma : forall s any0 t0 mid1 any1 t1 mid2 any2 t2 mid3 any3 t3,
  scroll_idle s -> s_lock s = true -> s_dead s = false ->
  let b := s_button s in
  let ops := HButton any0 t0 b true :: mid1 ++ HButton any1 t1 b false :: mid2 ++ HButton any2 t2 b true :: mid3 in
  not_button b mid1 -> not_button b mid2 -> not_button b mid3 ->
  ticks_ok s ops -> s_dead (fst (hrun s ops)) = false ->
  let held := snd (hrun s ops) in
  let fin := snd (hstep (fst (hrun s ops)) (HButton any3 t3 b false)) in
  let s' := fst (hstep (fst (hrun s ops)) (HButton any3 t3 b false)) in
  (forall t p, ~ In (PButton t b p) held) /\ (forall t dx dy, ~ In (PMotion t dx dy) (held ++ fin)) /\
  ((exists t, fin = [PButton t b true; PButton t3 b false]) /\ (forall e, ~ In (PAxis e) held) \/
   fin = map PAxis (snd (Scroll_Model.stop_scroll (s_scr (fst (hrun s ops))) t3))) /\
  s_state s' = B_IDLE /\ s_method s' = true /\ s_button s' = b /\ s_lockst s' = L_IDLE.
Proof.
  intros s any0 t0 mid1 any1 t1 mid2 any2 t2 mid3 any3 t3 (H1 & H2 & H3 & H4 & H5 & H6 & H7 & H8 & H9) Hlk Hd b ops N1 N2 N3 Htk Hd' held fin s'.
  rewrite Hlk in H6.
  assert (App : forall l1 l2 s, hrun s (l1 ++ l2) = (fst (hrun (fst (hrun s l1)) l2), snd (hrun s l1) ++ snd (hrun (fst (hrun s l1)) l2))).
  { clear. intros l1. induction l1 as [|o l1 IH]; intros l2 s.
    - cbn. destruct (hrun s l2); auto.
    - cbn [app]. rewrite !hrun_cons. cbn [fst snd]. rewrite IH. cbn [fst snd]. rewrite app_assoc. auto. }
  assert (TApp : forall l1 l2 s, ticks_ok s (l1 ++ l2) -> ticks_ok s l1 /\ ticks_ok (fst (hrun s l1)) l2).
  { clear - App. induction l1 as [|o l1 IH]; intros l2 s H; [cbn; auto|]. destruct H as [A B]. destruct (IH _ _ B) as [C D].
    rewrite hrun_cons. cbn [fst ticks_ok]. auto. }
  assert (Dead : forall l s, s_dead s = true -> hrun s l = (s, [])).
  { clear. induction l as [|o l IH]; intros s H; auto. cbn [hrun]. unfold hstep. rewrite H. rewrite IH by auto. auto. }
  assert (E1 : hstep s (HButton any0 t0 b true) = scroll_press (set_lockst s L_FIRSTDOWN) t0).
  { unfold hstep. rewrite Hd. unfold notify_button. rewrite H1, Z.eqb_refl. cbn [andb]. unfold scroll_button. rewrite H6. auto. }
  set (s1 := fst (scroll_press (set_lockst s L_FIRSTDOWN) t0)) in *.
  assert (HH1 : HELD b L_FIRSTDOWN s1).
  { unfold HELD, nopend, wants, cfg. cbn. rewrite H1, H2, H3, H4, H5. repeat split; auto. discriminate. }
  unfold ops in *. destruct Htk as [_ Htk]. rewrite E1 in Htk. fold s1 in Htk.
  assert (Eo : hrun s (HButton any0 t0 b true :: mid1 ++ HButton any1 t1 b false :: mid2 ++ HButton any2 t2 b true :: mid3) =
     hrun s1 (mid1 ++ HButton any1 t1 b false :: mid2 ++ HButton any2 t2 b true :: mid3)).
  { rewrite hrun_cons. rewrite E1. fold s1. symmetry. apply surjective_pairing. }
  unfold held, fin, s'. clear held fin s'. rewrite Eo in *.
  destruct (TApp _ _ _ Htk) as [T1 T2]. rewrite App in *. cbn [fst snd] in *.
  destruct (held_run b L_FIRSTDOWN mid1 s1 HH1 N1 T1) as (A1 & A2 & A3 & A4 & A5).
  set (s2 := fst (hrun s1 mid1)) in *. set (o2 := snd (hrun s1 mid1)) in *.
  assert (D2 : s_dead s2 = false).
  { destruct (s_dead s2) eqn:D; auto. rewrite (Dead _ _ D) in Hd'. cbn [fst] in Hd'. rewrite D in Hd'; discriminate. }
  assert (E2 : hstep s2 (HButton any1 t1 b false) = (set_lockst s2 L_FIRSTUP, [])).
  { unfold hstep. rewrite D2. unfold notify_button. destruct A1 as (Q1 & Q2 & Q3 & Q4 & _). rewrite Q1, Q2, Z.eqb_refl. cbn [andb].
    unfold scroll_button. rewrite Q4. auto. }
  assert (HH2 : HELD b L_FIRSTUP (set_lockst s2 L_FIRSTUP)).
  { destruct A1 as (Q1 & Q2 & Q3 & Q4 & Q5 & Q6 & Q7). unfold HELD. cbn. repeat split; auto. }
  destruct T2 as [_ T2]. rewrite E2 in T2. cbn [fst] in T2.
  rewrite hrun_cons, E2 in *. cbn [fst snd] in *. rewrite App in *. cbn [fst snd app] in *.
  destruct (TApp _ _ _ T2) as [T3 T4].
  destruct (held_run b L_FIRSTUP mid2 _ HH2 N2 T3) as (B1 & B2 & B3 & B4 & B5).
  set (s3 := fst (hrun (set_lockst s2 L_FIRSTUP) mid2)) in *. set (o3 := snd (hrun (set_lockst s2 L_FIRSTUP) mid2)) in *.
  assert (D3 : s_dead s3 = false).
  { destruct (s_dead s3) eqn:D; auto. rewrite (Dead _ _ D) in Hd'. cbn in Hd'. congruence. }
  assert (E3 : hstep s3 (HButton any2 t2 b true) = (set_lockst s3 L_SECONDDOWN, [])).
  { unfold hstep. rewrite D3. unfold notify_button. destruct B1 as (Q1 & Q2 & Q3 & Q4 & _). rewrite Q1, Q2, Z.eqb_refl. cbn [andb].
    unfold scroll_button. rewrite Q4. auto. }
  assert (HH3 : HELD b L_SECONDDOWN (set_lockst s3 L_SECONDDOWN)).
  { destruct B1 as (Q1 & Q2 & Q3 & Q4 & Q5 & Q6 & Q7). unfold HELD. cbn. repeat split; auto. }
  destruct T4 as [_ T4]. rewrite E3 in T4. cbn [fst] in T4.
  rewrite hrun_cons, E3 in *. cbn [fst snd app] in *.
  destruct (held_run b L_SECONDDOWN mid3 _ HH3 N3 T4) as (C1 & C2 & C3 & C4 & C5).
  set (s4 := fst (hrun (set_lockst s3 L_SECONDDOWN) mid3)) in *. set (o4 := snd (hrun (set_lockst s3 L_SECONDDOWN) mid3)) in *.
  assert (HH4 : HELD b L_IDLE (set_lockst s4 L_IDLE)).
  { destruct C1 as (Q1 & Q2 & Q3 & Q4 & Q5 & Q6 & Q7). unfold HELD. cbn. repeat split; auto. }
  assert (E4 : hstep s4 (HButton any3 t3 b false) = scroll_release any3 (set_lockst s4 L_IDLE) t3).
  { unfold hstep. rewrite Hd'. unfold notify_button. destruct C1 as (Q1 & Q2 & Q3 & Q4 & _). rewrite Q1, Q2, Z.eqb_refl. cbn [andb].
    unfold scroll_button. rewrite Q4. auto. }
  pose proof (final_release any3 b (set_lockst s4 L_IDLE) t3 (or_introl HH4) Hd' H8) as F. cbv zeta in F.
  rewrite E4. destruct F as (F1 & F2 & F3 & F4 & F5 & F6 & F7).
  split.
  { intros t p Hi. repeat (apply in_app_or in Hi; destruct Hi as [Hi|Hi]); [eapply A2|eapply B2|eapply C2]; eauto. }
  split.
  { intros t dx dy Hi. apply in_app_or in Hi. destruct Hi as [Hi|Hi].
    - repeat (apply in_app_or in Hi; destruct Hi as [Hi|Hi]); [eapply A3|eapply B3|eapply C3]; eauto.
    - destruct F1 as [[F1 _]|[F1 _]]; rewrite F1 in Hi; [cbn in Hi; intuition discriminate|].
      apply in_map_iff in Hi. destruct Hi as (x & Hi & _). discriminate. }
  split.
  { destruct F1 as [[F1 F1']|[F1 F1']]; [left|right; auto]. split; [eexists; exact F1|].
    intros e He. apply F1'. cbn [set_lockst s_state].
    repeat (apply in_app_or in He; destruct He as [He|He]).
    - apply C4. cbn. apply B4. cbn. apply A5. eauto.
    - apply C4. cbn. apply B5. eauto.
    - apply C5. eauto. }
  auto.
Qed.
