Require Import Coq.ZArith.ZArith Coq.Lists.List Coq.Bool.Bool Coq.micromega.Lia.
Require Import Verif.MiddleButton_Model Verif.MiddleButton_Spec Verif.MiddleButton_Proofs.
Import ListNotations.
Open Scope Z_scope.

Lemma INV_init : forall en, INV (fun _ => false) (fun _ => 0) None None (mb_init en).
Proof.
  intros en. unfold INV. split; auto. split; auto.
  destruct en; simpl.
  - split; [intros; rewrite Z.bits_0; auto|]. auto 10.
  - auto 10.
Qed.

Definition lhold (c : Z) (h : option (Z * Z)) (log : list (mop * list mout)) := fold_left (hold_step c) log h.

Lemma outs_cons : forall e log, outs (e :: log) = snd e ++ outs log.
Proof. reflexivity. Qed.
Lemma INV_ext : forall hw cnt cnt' Hl Hr m, (forall c, cnt c = cnt' c) ->
  INV hw cnt Hl Hr m -> INV hw cnt' Hl Hr m.
Proof.
  intros. unfold INV in *. rewrite <- !H. dsplit. split; auto. split; auto.
  intros. rewrite <- H. auto.
Qed.

Lemma run_ok : forall ops hw cnt Hl Hr m,
  INV hw cnt Hl Hr m -> legal hw m ops ->
  let log := snd (mrun m ops) in
  INV (fold_left hw_step ops hw) (fun c => cnt c + down c (outs log))
      (lhold BTN_LEFT Hl log) (lhold BTN_RIGHT Hr log) (fst (mrun m ops)) /\
  (forall c, pre_ok (cnt c) (kmax c) c (outs log)) /\
  ~ In MBug (outs log) /\ other_out (outs log) = other_in ops.
Proof.
  induction ops as [|o ops IH]; intros hw cnt Hl Hr m HI HL.
  - cbn. split; [|split; [|split; [tauto|auto]]].
    + eapply INV_ext; [|exact HI]. intros; simpl. lia.
    + intros c. split; auto. eapply INV_cnt; eauto.
  - simpl in HL. destruct HL as [Ho HL].
    assert (HS : STEP_OK hw cnt Hl Hr m o).
    { destruct o as [c t p|t|b].
      - destruct Ho as [-> Hc]. apply step_button; auto.
      - destruct Ho as (e & He & _). apply step_timeout; auto. congruence.
      - apply step_config; auto. }
    destruct HS as (S1 & S2 & S3 & S4).
    simpl. destruct (mstep m o) as [m1 l1] eqn:Em. cbn [fst snd] in *.
    specialize (IH _ _ _ _ _ S1 HL).
    destruct (mrun m1 ops) as [m2 l2]. cbn [fst snd] in *.
    destruct IH as (I1 & I2 & I3 & I4).
    rewrite outs_cons. cbn [snd fst].
    split; [|split; [|split]].
    + eapply INV_ext; [|exact I1].
      intros c; cbv beta. rewrite down_app. lia.
    + intros c. apply pre_ok_app; auto.
    + intros C. apply in_app_or in C. tauto.
    + unfold other_out in *. rewrite filter_app, S4, I4.
      unfold other_in. simpl. rewrite app_nil_r. reflexivity.
Qed.

(** ** Time stamps *)
Fixpoint end_stamp (now : Z) (l : list mout) : Z :=
  match l with [] => now | MBug :: r => end_stamp now r | MPost _ t _ :: r => end_stamp t r end.
Lemma stamps_app : forall a b n, stamps_ok n a -> stamps_ok (end_stamp n a) b -> stamps_ok n (a ++ b).
Proof.
  induction a as [|[c t p|] a IH]; simpl; intros; auto. destruct H; split; auto.
Qed.
Lemma end_stamp_app : forall a b n, end_stamp n (a ++ b) = end_stamp (end_stamp n a) b.
Proof. induction a as [|[c t p|] a IH]; simpl; intros; auto. Qed.


Definition TINV (m : mb) (last now : Z) : Prop :=
  last <= now /\ (m_state m = LEFT_DOWN \/ m_state m = RIGHT_DOWN -> last <= m_first m <= now).
Definition op_now (now : Z) (o : mop) : Z := match op_time o with Some t => t | None => now end.

Lemma h_TINV : forall m t e last now, TINV m last now -> now <= t ->
  let '(m', l, rc) := handle_event m t e in
  TINV m' (end_stamp last l) t /\ stamps_ok last l /\
  (rc = false -> m_state m' <> LEFT_DOWN /\ m_state m' <> RIGHT_DOWN).
Proof.
  intros [s mask first tm en want] t e last now [H1 H2] Ht. cbn [m_state m_first] in H2.
  assert (D : s = LEFT_DOWN \/ s = RIGHT_DOWN \/ (s <> LEFT_DOWN /\ s <> RIGHT_DOWN)) by (destruct s; auto; right; right; split; discriminate).
  destruct D as [->|[->|[N1 N2]]].
  - specialize (H2 (or_introl eq_refl)). destruct e; cbn; unfold TINV; cbn;
      (split; [split; [lia|intros [C|C]; try discriminate; lia]|split; [repeat split; try lia|intros C; try discriminate C; split; discriminate]]).
  - specialize (H2 (or_intror eq_refl)). destruct e; cbn; unfold TINV; cbn;
      (split; [split; [lia|intros [C|C]; try discriminate; lia]|split; [repeat split; try lia|intros C; try discriminate C; split; discriminate]]).
  - destruct s; try congruence; destruct e; cbn; unfold TINV; cbn;
      (split; [split; [lia|intros [C|C]; try discriminate; lia]|split; [repeat split; try lia|intros C; try discriminate C; split; discriminate]]).
Qed.

Lemma TINV_fields : forall m m' last now, m_state m' = m_state m -> m_first m' = m_first m ->
  TINV m last now -> TINV m' last now.
Proof. unfold TINV. intros m m' last now -> ->. auto. Qed.
Lemma apply_config_fields : forall m, m_state (apply_config m) = m_state m /\ m_first (apply_config m) = m_first m.
Proof.
  intros m. unfold apply_config. destruct (Bool.eqb _ _); auto. destruct (negb _); auto.
Qed.
Lemma h_ALL_UP_state : forall m t, let '(m', l, _) := handle_event m t ALL_UP in
  m_state m' = m_state m \/ (m_state m' <> LEFT_DOWN /\ m_state m' <> RIGHT_DOWN).
Proof.
  intros [s mask first tm en want] t. destruct s; cbn; auto; right; split; discriminate.
Qed.

Lemma step_TINV : forall hw cnt Hl Hr m o last now, INV hw cnt Hl Hr m -> TINV m last now ->
  match op_time o with Some t => now <= t | None => True end ->
  TINV (fst (mstep m o)) (end_stamp last (snd (mstep m o))) (op_now now o) /\
  stamps_ok last (snd (mstep m o)).
Proof.
  intros hw cnt Hl Hr m o last now HI HT Ht. destruct o as [c t p|t|b]; unfold op_now; simpl in Ht |- *.
  - unfold physical_button, filter_button. destruct (m_enabled m) eqn:En; cbn [negb].
    2:{ destruct HI as (_ & _ & HI). rewrite En in HI. destruct HI as [E _]. destruct HT as [H1 H2].
        cbn. split; [split; [lia|rewrite E; intros [C|C]; discriminate]|split; [lia|auto]]. }
    destruct ((c <? BTN_LEFT) || (32 <=? c - BTN_LEFT)).
    { cbn. destruct HT as [H1 H2]. split; [split; [lia|intros C; specialize (H2 C); lia]|auto]. }
    pose proof (h_TINV m t (classify c p) _ _ HT Ht) as G.
    destruct (handle_event m t (classify c p)) as [[m1 o1] rc]. destruct G as (G1 & G2 & G3).
    set (mask := if p then Z.setbit (m_mask m1) (c - BTN_LEFT) else Z.clearbit (m_mask m1) (c - BTN_LEFT)).
    assert (F : TINV (set_mask m1 mask) (end_stamp last o1) t) by (eapply TINV_fields; [| |exact G1]; reflexivity).
    assert (E : forall m2 l, TINV m2 (end_stamp last l) t -> stamps_ok last l ->
       (rc = false -> m_state m2 <> LEFT_DOWN /\ m_state m2 <> RIGHT_DOWN) ->
       let l' := if rc then l else l ++ [MPost c t p] in
       TINV m2 (end_stamp last l') t /\ stamps_ok last l').
    { intros m2 l T1 T2 T3. destruct rc; cbv zeta; auto. rewrite end_stamp_app. cbn.
      destruct (T3 eq_refl) as [N1 N2]. split.
      - split; [lia|]. intros [C|C]; contradiction.
      - apply stamps_app; auto. cbn. destruct T1. auto. }
    destruct (negb (m_mask m1 =? mask) && (mask =? 0)).
    + pose proof (h_TINV _ t ALL_UP _ _ F (Z.le_refl t)) as K.
      pose proof (h_ALL_UP_state (set_mask m1 mask) t) as K2.
      destruct (handle_event (set_mask m1 mask) t ALL_UP) as [[m3 o3] r3]. destruct K as (K1 & K3 & _).
      destruct (apply_config_fields m3) as [A1 A2].
      apply (E (apply_config m3) (o1 ++ o3)).
      * rewrite end_stamp_app. eapply TINV_fields; eauto.
      * apply stamps_app; auto.
      * rewrite A1. intros R. destruct (G3 R). destruct K2 as [-> | K2]; auto.
    + apply (E (set_mask m1 mask) o1); auto.
  - unfold timeout. set (m0 := mkMB _ _ _ _ _ _).
    assert (F : TINV m0 last now) by (eapply TINV_fields; [| |exact HT]; reflexivity).
    pose proof (h_TINV m0 t TIMEOUT _ _ F Ht) as G.
    destruct (handle_event m0 t TIMEOUT) as [[m1 o1] rc]. simpl. tauto.
  - split; auto. unfold set_config.
    match goal with |- TINV (apply_config ?x) _ _ => destruct (apply_config_fields x) as [A1 A2] end.
    eapply TINV_fields; [exact A1|exact A2|]. exact HT.
Qed.

Lemma run_TINV : forall ops hw cnt Hl Hr m last now,
  INV hw cnt Hl Hr m -> legal hw m ops -> TINV m last now -> times_ok now ops ->
  stamps_ok last (outs (snd (mrun m ops))).
Proof.
  induction ops as [|o ops IH]; intros hw cnt Hl Hr m last now HI HL HT Hts; [exact I|].
  destruct (run_ok [o] hw cnt Hl Hr m HI) as (I1 & _).
  { simpl in HL |- *. tauto. }
  assert (HL2 : legal (hw_step hw o) (fst (mstep m o)) ops) by (simpl in HL; tauto).
  assert (Ht2 : match op_time o with Some t => now <= t | None => True end /\ times_ok (op_now now o) ops).
  { destruct o; simpl in Hts; unfold op_now; simpl; tauto. }
  destruct Ht2 as [Ht Hts2].
  destruct (step_TINV _ _ _ _ _ o _ _ HI HT Ht) as [T1 T2].
  simpl in I1 |- *. destruct (mstep m o) as [m1 l1]. cbn [fst snd] in *.
  specialize (IH _ _ _ _ _ _ _ I1 HL2 T1 Hts2).
  destruct (mrun m1 ops) as [m2 l2]. cbn [fst snd] in *.
  rewrite outs_cons. apply stamps_app; auto.
Qed.

(** ** The lemmas behind the theorems *)


Lemma main_ok : forall en ops, legal (fun _ => false) (mb_init en) ops ->
  exists Hl Hr,
  let log := snd (mrun (mb_init en) ops) in
  INV (hw_after ops) (fun c => down c (outs log)) Hl Hr (fst (mrun (mb_init en) ops)) /\
  Hl = hold BTN_LEFT log /\ Hr = hold BTN_RIGHT log.
Proof.
  intros en ops HL.
  destruct (run_ok ops _ _ _ _ _ (INV_init en) HL) as (A & _).
  do 2 eexists. split; [|split; reflexivity]. exact A.
Qed.

Lemma within_lemma : forall en ops, legal (fun _ => false) (mb_init en) ops ->
  forall c, within (if c =? BTN_MIDDLE then 2 else 1) c (outs (snd (mrun (mb_init en) ops))).
Proof.
  intros en ops HL c b a E.
  destruct (run_ok ops _ _ _ _ _ (INV_init en) HL) as (_ & P & _). specialize (P c).
  apply (pre_ok_within _ _ _ _ P b a E).
Qed.

Lemma all_up_lemma : forall en ops, legal (fun _ => false) (mb_init en) ops ->
  all_up (hw_after ops) ->
  m_timer (fst (mrun (mb_init en) ops)) = None /\
  forall c, down c (outs (snd (mrun (mb_init en) ops))) = 0.
Proof.
  intros en ops HL HU.
  destruct (main_ok en ops HL) as (Hl & Hr & A & _).
  clear HL. cbv zeta in A.
  generalize dependent (hw_after ops). intros hw HU A.
  set (cnt := fun c => down c (outs (snd (mrun (mb_init en) ops)))) in A.
  change (m_timer (fst (mrun (mb_init en) ops)) = None /\ forall c, cnt c = 0). clearbody cnt.
  generalize dependent (fst (mrun (mb_init en) ops)). intros m (HR & HO & HI).
  pose proof (HU BTN_LEFT) as UL. pose proof (HU BTN_RIGHT) as UR. pose proof (HU BTN_MIDDLE) as UM.
  assert (Hothers : forall c, other c = true -> cnt c = 0).
  { intros c Ho. specialize (HO c Ho). rewrite (HU c) in HO. auto. }
  rewrite UL, UR, UM in HI.
  destruct (m_enabled m).
  - destruct HI as [HM HS]. pose proof (mask_zero _ _ HM HR) as HZ.
    destruct (m_state m); unfold SINV in HS; dsplit; try discriminate.
    + split; auto. intros c. destruct (code_cases c) as [->|[->|[->|Ho]]]; auto.
    + exfalso. apply HZ in HU. auto.
  - dsplit. split; auto. intros c. destruct (code_cases c) as [->|[->|[->|Ho]]]; auto.
Qed.

Lemma no_bug_lemma : forall en ops, legal (fun _ => false) (mb_init en) ops ->
  ~ In MBug (outs (snd (mrun (mb_init en) ops))).
Proof.
  intros en ops HL.
  destruct (run_ok ops _ _ _ _ _ (INV_init en) HL) as (_ & _ & A & _). exact A.
Qed.
Lemma others_lemma : forall en ops, legal (fun _ => false) (mb_init en) ops ->
  other_out (outs (snd (mrun (mb_init en) ops))) = other_in ops.
Proof.
  intros en ops HL.
  destruct (run_ok ops _ _ _ _ _ (INV_init en) HL) as (_ & _ & _ & A). exact A.
Qed.
Lemma stamps_lemma : forall en ops t0, legal (fun _ => false) (mb_init en) ops -> times_ok t0 ops ->
  stamps_ok t0 (outs (snd (mrun (mb_init en) ops))).
Proof.
  intros en ops t0 HL HT. eapply run_TINV; eauto using INV_init.
  split; [lia|]. intros [C|C]; discriminate.
Qed.

Lemma hold_lemma : forall en ops, legal (fun _ => false) (mb_init en) ops ->
  forall c, c = BTN_LEFT \/ c = BTN_RIGHT ->
  hw_after ops c = false \/ m_timer (fst (mrun (mb_init en) ops)) = None ->
  reported_once (hold c (snd (mrun (mb_init en) ops))).
Proof.
  intros en ops HL c Hc Hq.
  destruct (main_ok en ops HL) as (Hl & Hr & (HR & HO & HI) & EL & ER).
  clear HL. cbv zeta in *.
  assert (G : (c = BTN_LEFT -> reported_once Hl) /\ (c = BTN_RIGHT -> reported_once Hr)).
  2:{ destruct G as [G1 G2]. destruct Hc as [C|C]; rewrite C in *; [rewrite <- EL|rewrite <- ER]; auto. }
  clear EL ER.
  assert (M : forall h, mid h -> reported_once h) by (intros h (k & K & ->); simpl; lia).
  revert Hq HI. clear HR HO.
  generalize (hw_after ops), (fst (mrun (mb_init en) ops)), (fun c => down c (outs (snd (mrun (mb_init en) ops)))).
  intros hw m cnt Hq HI. unfold fin in *.
  destruct (m_enabled m).
  - destruct HI as [_ HS]. destruct (m_state m); unfold SINV, fin in HS.
    all: decompose [and] HS; split; intros E; auto.
    all: subst c; destruct Hq as [Hq|Hq]; congruence.
  - decompose [and] HI. auto.
Qed.

(** A lone click of left or right, from rest. *)
Lemma idle_of_all_up : forall ops, legal (fun _ => false) (mb_init true) ops ->
  all_up (hw_after ops) -> m_enabled (fst (mrun (mb_init true) ops)) = true ->
  m_state (fst (mrun (mb_init true) ops)) = IDLE /\ m_mask (fst (mrun (mb_init true) ops)) = 0.
Proof.
  intros ops HL HU HE.
  destruct (main_ok true ops HL) as (Hl & Hr & (HR & HO & HI) & _).
  rewrite HE in HI. destruct HI as [HM HS].
  pose proof (proj2 (mask_zero _ _ HM HR) HU) as HZ.
  pose proof (HU BTN_LEFT). pose proof (HU BTN_RIGHT).
  split; auto.
  destruct (m_state _); unfold SINV in HS; decompose [and] HS; auto; try congruence.
Qed.

Definition out_of (m : mb) (ops : list mop) : list mout := outs (snd (mrun m ops)).

Lemma click_lemma : forall ops c t1 t2 (expire : option Z), legal (fun _ => false) (mb_init true) ops ->
  all_up (hw_after ops) -> m_enabled (fst (mrun (mb_init true) ops)) = true ->
  c = BTN_LEFT \/ c = BTN_RIGHT ->
  outs (snd (mrun (fst (mrun (mb_init true) ops))
    (Button c t1 true :: match expire with Some t => [Timeout t] | None => [] end ++ [Button c t2 false])))
  = [MPost c t1 true; MPost c t2 false].
Proof.
  intros ops c t1 t2 ex HL HU HE Hc.
  destruct (idle_of_all_up ops HL HU HE) as [HS HM].
  destruct (fst (mrun (mb_init true) ops)) as [s mask first tm en want].
  cbn [m_state m_mask m_enabled] in *. subst. destruct Hc as [-> | ->]; destruct ex; destruct want; reflexivity.
Qed.

Lemma chord_lemma : forall ops c1 c2 r1 r2 t1 t2 t3 t4, legal (fun _ => false) (mb_init true) ops ->
  all_up (hw_after ops) -> m_enabled (fst (mrun (mb_init true) ops)) = true ->
  (c1, c2) = (BTN_LEFT, BTN_RIGHT) \/ (c1, c2) = (BTN_RIGHT, BTN_LEFT) ->
  (r1, r2) = (BTN_LEFT, BTN_RIGHT) \/ (r1, r2) = (BTN_RIGHT, BTN_LEFT) ->
  outs (snd (mrun (fst (mrun (mb_init true) ops))
    [Button c1 t1 true; Button c2 t2 true; Button r1 t3 false; Button r2 t4 false]))
  = [MPost BTN_MIDDLE t2 true; MPost BTN_MIDDLE t3 false].
Proof.
  intros ops c1 c2 r1 r2 t1 t2 t3 t4 HL HU HE Hc Hr.
  destruct (idle_of_all_up ops HL HU HE) as [HS HM].
  destruct (fst (mrun (mb_init true) ops)) as [s mask first tm en want].
  cbn [m_state m_mask m_enabled] in *. subst.
  destruct Hc as [Hc|Hc], Hr as [Hr|Hr]; inversion Hc; inversion Hr; subst; destruct want; reflexivity.
Qed.

(** Emulation off: identity. *)
Lemma disabled_lemma : forall m ops, m_enabled m = false -> m_want m = false ->
  (forall b, ~ In (Config b) ops) -> (forall t, ~ In (Timeout t) ops) ->
  outs (snd (mrun m ops)) = map (fun o => match o with Button c t p => MPost c t p | _ => MBug end) ops.
Proof.
  intros m ops He Hw. revert m He Hw.
  induction ops as [|o ops IH]; intros m He Hw HC HT; auto.
  destruct o as [c t p|t|b].
  - simpl. unfold physical_button, filter_button. rewrite He. cbn [negb app].
    specialize (IH m He Hw).
    destruct (mrun m ops) as [m2 l2]. cbn [snd] in *. rewrite outs_cons. cbn [snd app]. f_equal.
    apply IH; intros x Hx; [apply (HC x)|apply (HT x)]; right; auto.
  - exfalso. apply (HT t). left; auto.
  - exfalso. apply (HC b). left; auto.
Qed.
