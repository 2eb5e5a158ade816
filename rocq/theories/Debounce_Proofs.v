Require Import Coq.ZArith.ZArith Coq.Lists.List Coq.Bool.Bool Coq.micromega.Lia.
Require Import Verif.Debounce_Model Verif.Debounce_Spec.
Import ListNotations.
Open Scope Z_scope.
Local Arguments Z.eqb : simpl never.
Local Arguments Z.add : simpl never.
Local Arguments Z.leb : simpl never.

Definition upd (f : Z -> bool) (c : Z) (b : bool) : Z -> bool :=
  fun x => if x =? c then b else f x.

Lemma upd_same : forall f c b, upd f c b c = b.
Proof. intros; unfold upd; rewrite Z.eqb_refl; auto. Qed.
Lemma upd_other : forall f c b x, x <> c -> upd f c b x = f x.
Proof. intros; unfold upd; destruct (Z.eqb_spec x c); congruence. Qed.

(** reported state after some output *)
Fixpoint em_after (em : Z -> bool) (outs : list dout) : Z -> bool :=
  match outs with
  | [] => em
  | Notify c _ p :: r => em_after (upd em c p) r
  | LogBug :: r => em_after em r
  end.
Fixpoint tog (em : Z -> bool) (outs : list dout) : Prop :=
  match outs with
  | [] => True
  | Notify c _ p :: r => em c = negb p /\ tog (upd em c p) r
  | LogBug :: r => tog em r
  end.

Lemma em_after_app : forall a b em, em_after em (a ++ b) = em_after (em_after em a) b.
Proof. induction a as [|[c t p|] a IH]; simpl; auto. Qed.
Lemma tog_app : forall a b em, tog em (a ++ b) <-> tog em a /\ tog (em_after em a) b.
Proof.
  induction a as [|[c t p|] a IH]; simpl; intros; try tauto.
  - rewrite IH; tauto.
  - apply IH.
Qed.

Lemma tog_alternates : forall outs em c, tog em outs ->
  alternates (negb (em c)) (transitions c outs) /\
  em_after em outs c = last (transitions c outs) (em c).
Proof.
  induction outs as [|[c' t p|] outs IH]; simpl; intros em c H; auto.
  destruct H as [H1 H2]. destruct (IH _ c H2) as [A B].
  destruct (Z.eqb_spec c' c) as [->|Hne]; simpl.
  - rewrite upd_same in *. split.
    + rewrite H1. split; [destruct p; auto|]. rewrite negb_involutive. exact A.
    + rewrite B. destruct (transitions c outs); simpl; auto.
      destruct l; auto. clear. generalize b0 l. induction l0; simpl; auto.
      intros; destruct l0; auto.
  - rewrite upd_other in * by auto. auto.
Qed.

Lemma last_default : forall (l : list bool) a b, l <> [] -> last l a = last l b.
Proof. induction l as [|x l IH]; simpl; intros; [congruence|]. destruct l; auto. apply IH; discriminate. Qed.

(** Functional extensionality is avoided: states of buttons are compared
    pointwise. *)
Definition stable (d : deb) (hw em : Z -> bool) : Prop :=
  forall c, em c = hw c.

Definition Inv (d : deb) (hw em : Z -> bool) : Prop :=
  (forall c, c <> d_code d -> em c = hw c) /\
  match d_state d with
  | IsUp => hw (d_code d) = false /\ em (d_code d) = false
  | IsDown => hw (d_code d) = true /\ em (d_code d) = true
  | IsDownWaiting => hw (d_code d) = true /\ em (d_code d) = true
  | IsUpDelaying => hw (d_code d) = false /\ em (d_code d) = true
  | IsUpDelayingSpurious => hw (d_code d) = false /\ em (d_code d) = true
  | IsUpDetectingSpurious => hw (d_code d) = false /\ em (d_code d) = false
  | IsDownDetectingSpurious => hw (d_code d) = true /\ em (d_code d) = false
  | IsUpWaiting => hw (d_code d) = false /\ em (d_code d) = false
  | IsDownDelaying => hw (d_code d) = true /\ em (d_code d) = false
  | Disabled => em (d_code d) = hw (d_code d)
  end.

Ltac dsplit H A B :=
  match type of H with _ /\ _ => destruct H as [A B] | _ => idtac end.

Ltac ev := cbn [handle_event d_state d_code d_time d_timer d_short d_spurious d_sfirst
  cancel_timer cancel_timer_short set_state set_time set_code set_timer set_timer_short
  enable_spurious is_up_handle is_down_handle is_down_waiting_handle is_up_delaying_handle
  is_up_delaying_spurious_handle is_up_detecting_spurious_handle
  is_down_detecting_spurious_handle is_up_waiting_handle is_down_delaying_handle
  disabled_handle notify quiet bug fst snd] in *.

(** Press/release of the tracked button toggles its hardware state. *)
Lemma handle_change : forall d hw em b t,
  Inv d hw em -> hw (d_code d) = negb b ->
  let r := handle_event d (if b then Press else Release) t in
  Inv (fst r) (upd hw (d_code d) b) (em_after em (snd r)) /\ tog em (snd r) /\
  (d_state d = Disabled <-> d_state (fst r) = Disabled) /\ d_code (fst r) = d_code d.
Proof.
  intros [s c tm lt sh sp sf] hw em b t [Ho Hs] Hb.
  destruct s, b; ev; dsplit Hs Hh He; try congruence;
  try destruct sp; ev; unfold Inv; cbn [em_after tog fst snd d_code d_state];
    rewrite ?upd_same; repeat split; intros; rewrite ?upd_other by auto; auto;
    simpl in *; congruence.
Qed.

(** no timer armed *)
Definition TInv0 (d : deb) : Prop := d_timer d = None /\ d_short d = None.

Definition Flushed (d : deb) (hw em : Z -> bool) : Prop :=
  (forall c, em c = hw c) /\ d_timer d = None /\ d_short d = None /\
  match d_state d with
  | IsUp => hw (d_code d) = false
  | IsDown => hw (d_code d) = true
  | Disabled => True
  | _ => False
  end.

Lemma Flushed_Inv : forall d hw em, Flushed d hw em -> Inv d hw em.
Proof.
  intros d hw em (H & _ & _ & Hs). split; auto.
  destruct (d_state d); rewrite ?H; auto; contradiction.
Qed.

Lemma handle_other : forall d hw em t,
  Inv d hw em ->
  let r := handle_event d OtherButton t in
  Flushed (fst r) hw (em_after em (snd r)) /\ tog em (snd r) /\ (d_state d = Disabled <-> d_state (fst r) = Disabled).
Proof.
  intros [s c tm lt sh sp sf] hw em t [Ho Hs].
  destruct s; ev; dsplit Hs Hh He; cbn [em_after tog]; unfold Flushed; cbn [d_state d_timer d_short d_code];
    repeat split; auto; try discriminate;
    intros x; unfold upd; destruct (Z.eqb_spec x c) as [->|Hx]; try congruence;
    try (specialize (Ho x Hx); congruence); auto.
Qed.

Lemma handle_timeouts : forall d hw em t e, e = Timeout \/ e = TimeoutShort ->
  Inv d hw em ->
  let r := handle_event d e t in
  Inv (fst r) hw (em_after em (snd r)) /\ tog em (snd r).
Proof.
  intros [s c tm lt sh sp sf] hw em t e Hev [Ho Hs].
  destruct Hev; subst e; destruct s; ev; dsplit Hs Hh He;
    cbn [em_after tog fst snd]; unfold Inv; cbn [d_state d_code]; rewrite ?upd_same;
    repeat split; intros; rewrite ?upd_other by auto; auto; simpl in *; try congruence.
Qed.

Lemma press_hw_cons : forall hw c b ch, press_hw hw ((c, b) :: ch) = press_hw (upd hw c b) ch.
Proof. reflexivity. Qed.

Lemma Inv_ext : forall d hw hw' em em', (forall c, hw c = hw' c) -> (forall c, em c = em' c) ->
  Inv d hw em -> Inv d hw' em'.
Proof.
  intros d hw hw' em em' H H' [A B]. split.
  - intros c Hc. rewrite <- H, <- H'. auto.
  - destruct (d_state d); rewrite <- H, <- H'; auto.
Qed.

Lemma flush_set : forall d hw em c b d1 f1, Flushed d hw em -> b = negb (hw c) ->
  (if true && negb (is_disabled d) then (set_state (if b then IsUp else IsDown) d, false)
   else (d, true)) = (d1, f1) ->
  Inv (set_code c d1) hw em /\ TInv0 (set_code c d1) /\
  (d_state d = Disabled <-> d_state (set_code c d1) = Disabled).
Proof.
  intros [s dc tm lt sh sp sf] hw em c b d1 f1 (Hst & Htm & Hsh & Hs) Hb Hd1.
  pose proof (Hst c) as Hc. unfold is_disabled in Hd1. unfold Inv, TInv0, Flushed in *. simpl in *.
  destruct (hw c) eqn:Hw; simpl in Hb; subst b;
    destruct s; inversion Hd1; subst; simpl in *; try contradiction;
    repeat split; auto; intros; congruence.
Qed.

Lemma frame_many : forall ch d hw em t,
  NoDup (map fst ch) -> (forall c b, In (c, b) ch -> b = negb (hw c)) ->
  Flushed d hw em ->
  let r := frame_loop true true d ch t in
  Flushed (fst r) (press_hw hw ch) (em_after em (snd r)) /\ tog em (snd r) /\ (d_state d = Disabled <-> d_state (fst r) = Disabled).
Proof.
  induction ch as [|[c b] ch IH]; intros d hw em t Hnd Hch HF r.
  - subst r; simpl. tauto.
  - subst r. cbn [frame_loop]. inversion Hnd as [|? ? Hni Hnd']; subst.
    assert (Hb : b = negb (hw c)) by (apply Hch; left; auto).
    destruct (if true && negb (is_disabled d) then (set_state (if b then IsUp else IsDown) d, false)
              else (d, true)) as [d1 f1] eqn:Hd1.
    destruct (flush_set d hw em c b d1 f1 HF Hb Hd1) as (HI & _ & Hdis).
    pose proof (handle_change (set_code c d1) hw em b t HI) as HC.
    change (d_code (set_code c d1)) with c in HC.
    specialize (HC ltac:(rewrite Hb, negb_involutive; auto)).
    destruct (handle_event (set_code c d1) (if b then Press else Release) t) as [d3 o3] eqn:Hd3.
    cbn [fst snd] in *. destruct HC as (HI3 & HT3 & Hdis3 & Hc3).
    pose proof (handle_other d3 _ _ t HI3) as HO.
    destruct (handle_event d3 OtherButton t) as [d4 o4]. cbn [fst snd] in *.
    destruct HO as (HF4 & HT4 & Hdis4).
    specialize (IH d4 (upd hw c b) (em_after (em_after em o3) o4) t Hnd').
    assert (Hpre : forall c0 b0, In (c0, b0) ch -> b0 = negb (upd hw c b c0)).
    { intros c0 b0 Hin. rewrite upd_other.
      - apply Hch; right; auto.
      - intros ->. apply Hni. apply (in_map fst) in Hin. exact Hin. }
    specialize (IH Hpre HF4). cbv zeta in IH.
    destruct (frame_loop true true d4 ch t) as [d5 o5]. cbn [fst snd] in *.
    destruct IH as (IF & IT & ID).
    rewrite press_hw_cons, !em_after_app, !tog_app. tauto.
Qed.

Lemma frame_step : forall d hw em ch t,
  frame_ok hw ch -> Inv d hw em ->
  let r := handle_frame d ch t in
  Inv (fst r) (press_hw hw ch) (em_after em (snd r)) /\ tog em (snd r) /\
  (d_state d = Disabled <-> d_state (fst r) = Disabled).
Proof.
  intros d hw em ch t (Hnd & Hlen & Hch) HI r. subst r. unfold handle_frame.
  rewrite firstn_all2 by auto. cbv zeta.
  destruct ch as [|[c b] ch].
  - simpl. destruct (negb (0 =? d_code d)).
    + pose proof (handle_other d _ _ t HI) as HO.
      destruct (handle_event d OtherButton t) as [d1 o1]. cbn [fst snd] in *.
      simpl. rewrite app_nil_r. destruct HO as (A & B & C). split; [apply Flushed_Inv; exact A|auto].
    + simpl. tauto.
  - destruct (Nat.ltb_spec 1 (length ((c, b) :: ch))) as [Hm|Hm].
    + simpl orb.
      pose proof (handle_other d _ _ t HI) as HO.
      destruct (handle_event d OtherButton t) as [d1 o1]. cbn [fst snd] in *.
      destruct HO as (A & B & C).
      pose proof (frame_many ((c, b) :: ch) d1 hw _ t Hnd Hch A) as HM. cbv zeta in HM.
      destruct (frame_loop true true d1 ((c, b) :: ch) t) as [d2 o2]. cbn [fst snd] in *.
      destruct HM as (F & T & D). rewrite em_after_app, tog_app.
      split; [apply Flushed_Inv; exact F|]. tauto.
    + destruct ch; [|simpl in Hm; lia]. simpl orb.
      assert (Hb : b = negb (hw c)) by (apply Hch; left; auto).
      rewrite press_hw_cons. cbn [frame_loop press_hw fold_left].
      destruct (Z.eqb_spec c (d_code d)) as [->|Hne]; simpl negb; cbv iota.
      * simpl andb. cbv iota.
        replace (set_code (d_code d) d) with d by (destruct d; reflexivity).
        pose proof (handle_change d hw em b t HI ltac:(rewrite Hb, negb_involutive; auto)) as HC.
        destruct (handle_event d (if b then Press else Release) t) as [d3 o3]. cbn [fst snd] in *.
        simpl. rewrite !app_nil_r. tauto.
      * pose proof (handle_other d _ _ t HI) as HO.
        destruct (handle_event d OtherButton t) as [d1 o1]. cbn [fst snd] in *.
        destruct HO as (HF & B & C).
        destruct (if true && negb (is_disabled d1) then (set_state (if b then IsUp else IsDown) d1, false)
              else (d1, true)) as [d2 f2] eqn:Hd1.
        destruct (flush_set d1 hw _ c b d2 f2 HF Hb Hd1) as (HI2 & _ & Hdis).
        pose proof (handle_change (set_code c d2) hw (em_after em o1) b t HI2) as HC.
        change (d_code (set_code c d2)) with c in HC.
        specialize (HC ltac:(rewrite Hb, negb_involutive; auto)).
        destruct (handle_event (set_code c d2) (if b then Press else Release) t) as [d3 o3].
        cbn [fst snd] in *. rewrite !app_nil_r, em_after_app, tog_app. tauto.
Qed.

Lemma dstep_inv : forall d hw em o,
  match o with Frame ch _ => frame_ok hw ch | _ => True end -> Inv d hw em ->
  let r := dstep d o in
  Inv (fst r) (hw_step hw o) (em_after em (snd r)) /\ tog em (snd r).
Proof.
  intros d hw em o Hok HI. destruct o as [ch t|now|now]; simpl.
  - pose proof (frame_step d hw em ch t Hok HI) as H. cbv zeta in H. tauto.
  - apply handle_timeouts; auto.
  - apply handle_timeouts; auto.
Qed.

Lemma drun_inv : forall ops d hw em, hist_ok hw ops -> Inv d hw em ->
  let r := drun d ops in
  Inv (fst r) (fold_left hw_step ops hw) (em_after em (snd r)) /\ tog em (snd r).
Proof.
  induction ops as [|o ops IH]; intros d hw em Hh HI; simpl; auto.
  destruct Hh as [Ho Hh].
  pose proof (dstep_inv d hw em o Ho HI) as HS. cbv zeta in HS.
  destruct (dstep d o) as [d1 o1]. cbn [fst snd] in *. destruct HS as [HI1 HT1].
  specialize (IH d1 _ _ Hh HI1). cbv zeta in IH.
  destruct (drun d1 ops) as [d2 o2]. cbn [fst snd] in *.
  rewrite em_after_app, tog_app. tauto.
Qed.

Lemma Inv_init : forall q, Inv (deb_init q) (fun _ => false) (fun _ => false).
Proof. intros [|]; split; simpl; auto. Qed.

Lemma debounce_alternates_lemma : forall quirk ops c, hist_ok (fun _ => false) ops ->
  alternates true (transitions c (snd (drun (deb_init quirk) ops))).
Proof.
  intros quirk ops c Hh.
  destruct (drun_inv ops _ _ _ Hh (Inv_init quirk)) as [_ HT].
  apply (tog_alternates _ (fun _ => false) c HT).
Qed.

Lemma reported_em : forall outs c, tog (fun _ => false) outs ->
  em_after (fun _ => false) outs c = reported c outs.
Proof. intros outs c H. apply (tog_alternates outs (fun _ => false) c H). Qed.

(** Timer bookkeeping under the schedules timer.c produces. *)
Definition TInv (d : deb) (now : Z) : Prop :=
  match d_state d with
  | IsUp | IsDown | Disabled => d_timer d = None /\ d_short d = None
  | IsDownWaiting | IsUpDelaying | IsUpWaiting | IsDownDelaying =>
      d_short d = None /\ exists e, d_timer d = Some e /\ e <= now + 25000
  | IsUpDelayingSpurious | IsUpDetectingSpurious | IsDownDetectingSpurious =>
      exists e, d_timer d = Some (e + 25000) /\ d_short d = Some (e + 12000) /\ e <= now /\ d_sfirst d = true
  end.

Fixpoint nobug (outs : list dout) : Prop :=
  match outs with [] => True | LogBug :: _ => False | _ :: r => nobug r end.
Lemma nobug_app : forall a b, nobug (a ++ b) <-> nobug a /\ nobug b.
Proof. induction a as [|[|] a IH]; simpl; intros; try tauto. apply IH. Qed.

Lemma TInv_weaken : forall d n m, n <= m -> TInv d n -> TInv d m.
Proof.
  intros d n m H. unfold TInv. destruct (d_state d); auto.
  all: try (intros [A [e [B C]]]; split; auto; exists e; split; auto; lia).
  all: intros [e [A [B [C D]]]]; exists e; repeat split; auto; lia.
Qed.

Lemma handle_change_T : forall d hw em b t now,
  Inv d hw em -> hw (d_code d) = negb b -> TInv d now -> now <= t ->
  let r := handle_event d (if b then Press else Release) t in
  TInv (fst r) t /\ nobug (snd r).
Proof.
  intros [s c tm lt sh sp sf] hw em b t now [Ho Hs] Hb HT Hn.
  destruct s, b; simpl in Hb; ev; dsplit Hs Hh He; try congruence;
    unfold TInv in *; cbn [d_state d_timer d_short] in *;
    try destruct sp; ev; cbn [nobug]; split; auto;
    try (destruct HT as [A [e [B C]]]; split; auto; exists e; split; auto; lia);
    try (destruct HT as [A B]; subst; split; auto; exists (t + 25000); split; auto; lia);
    try (destruct HT as [e [A [B [C D]]]]; exists e; repeat split; auto; lia);
    try (destruct HT; subst; exists t; repeat split; auto; lia).
Qed.

Lemma handle_other_T : forall d hw em t now,
  Inv d hw em -> TInv d now ->
  let r := handle_event d OtherButton t in
  TInv (fst r) t /\ nobug (snd r).
Proof.
  intros [s c tm lt sh sp sf] hw em t now HI HT.
  destruct s; ev; unfold TInv; cbn; auto.
Qed.

Lemma set_code_T : forall d c now, TInv d now -> TInv (set_code c d) now.
Proof. intros [] ? ?; auto. Qed.

Lemma flushed_T : forall d hw em now, Flushed d hw em -> TInv d now.
Proof. intros d hw em now (_ & A & B & C). unfold TInv. destruct (d_state d); auto; contradiction. Qed.

(** Timestamps. *)
Definition pending (s : dstate) : bool :=
  match s with
  | IsUpDelaying | IsUpDelayingSpurious | IsDownDetectingSpurious | IsDownDelaying => true
  | _ => false
  end.
Definition SInv (d : deb) (now lt : Z) : Prop :=
  lt <= now /\ (pending (d_state d) = true -> lt <= d_time d <= now).
Definition lstamp (lt : Z) (o : list dout) : Z := last (stamps o) lt.

Lemma last_cons : forall (A : Type) (l : list A) x d, last (x :: l) d = last l x.
Proof.
  induction l as [|y l IH]; intros; auto.
  transitivity (last (y :: l) d); [reflexivity|]. rewrite !IH. reflexivity.
Qed.
Lemma last_app : forall (A : Type) (a b : list A) d, last (a ++ b) d = last b (last a d).
Proof.
  induction a as [|x a IH]; intros; auto.
  rewrite <- app_comm_cons, !last_cons. apply IH.
Qed.
Lemma stamps_app : forall a b, stamps (a ++ b) = stamps a ++ stamps b.
Proof. intros; unfold stamps; apply flat_map_app. Qed.
Lemma lstamp_app : forall lt a b, lstamp lt (a ++ b) = lstamp (lstamp lt a) b.
Proof. intros; unfold lstamp. rewrite stamps_app, last_app; auto. Qed.
Lemma nondec_app : forall a b lt, nondecreasing lt (a ++ b) <->
  nondecreasing lt a /\ nondecreasing (last a lt) b.
Proof.
  induction a as [|x a IH]; intros; [simpl; tauto|].
  rewrite last_cons. simpl. rewrite IH. tauto.
Qed.

Definition GInv (d : deb) (hw em : Z -> bool) (now lt : Z) : Prop :=
  Inv d hw em /\ TInv d now /\ SInv d now lt.

(** What each piece of the machine guarantees about its output. *)
Definition good (em : Z -> bool) (lt : Z) (o : list dout) : Prop :=
  tog em o /\ nobug o /\ nondecreasing lt (stamps o).
Lemma good_app : forall em lt a b,
  good em lt (a ++ b) <-> good em lt a /\ good (em_after em a) (lstamp lt a) b.
Proof.
  intros. unfold good. rewrite tog_app, nobug_app, stamps_app, nondec_app. unfold lstamp. tauto.
Qed.

Lemma change_S : forall d (b : bool) t now lt,
  SInv d now lt -> now <= t ->
  let r := handle_event d (if b then Press else Release) t in
  SInv (fst r) t (lstamp lt (snd r)) /\ nondecreasing lt (stamps (snd r)).
Proof.
  intros [s c tm l sh sp sf] b t now lt HS Hn.
  unfold SInv, lstamp, pending in *; cbn [d_state d_time] in *; destruct HS as [H1 H2];
    destruct s, b; ev; try destruct sp; ev; cbn;
    try specialize (H2 eq_refl); repeat split; intros; try lia; try discriminate.
Qed.

Lemma other_S : forall d t now lt,
  SInv d now lt -> now <= t ->
  let r := handle_event d OtherButton t in
  SInv (fst r) t (lstamp lt (snd r)) /\ nondecreasing lt (stamps (snd r)).
Proof.
  intros [s c tm l sh sp sf] t now lt HS Hn.
  unfold SInv, lstamp, pending in *; cbn [d_state d_time] in *; destruct HS as [H1 H2];
    destruct s; ev; cbn; try specialize (H2 eq_refl); repeat split; intros; try lia; try discriminate.
Qed.

Lemma timeouts_S : forall d t now lt e, e = Timeout \/ e = TimeoutShort ->
  SInv d now lt -> now <= t ->
  let r := handle_event d e t in
  SInv (fst r) t (lstamp lt (snd r)) /\ nondecreasing lt (stamps (snd r)).
Proof.
  intros [s c tm l sh sp sf] t now lt e He HS Hn.
  unfold SInv, lstamp, pending in *; cbn [d_state d_time] in *; destruct HS as [H1 H2];
    destruct He; subst e;
    destruct s; ev; cbn; try specialize (H2 eq_refl); repeat split; intros; try lia; try discriminate.
Qed.

Lemma change_G : forall d hw em b t now lt,
  GInv d hw em now lt -> hw (d_code d) = negb b -> now <= t ->
  let r := handle_event d (if b then Press else Release) t in
  GInv (fst r) (upd hw (d_code d) b) (em_after em (snd r)) t (lstamp lt (snd r)) /\
  good em lt (snd r).
Proof.
  intros d hw em b t now lt (HI & HT & HS) Hb Hn.
  pose proof (handle_change d hw em b t HI Hb) as A.
  pose proof (handle_change_T d hw em b t now HI Hb HT Hn) as B.
  pose proof (change_S d b t now lt HS Hn) as C.
  cbv zeta in *. unfold GInv, good. tauto.
Qed.

Definition GFlushed (d : deb) (hw em : Z -> bool) (t lt : Z) : Prop :=
  Flushed d hw em /\ lt <= t.

Lemma other_G : forall d hw em t now lt,
  GInv d hw em now lt -> now <= t ->
  let r := handle_event d OtherButton t in
  GFlushed (fst r) hw (em_after em (snd r)) t (lstamp lt (snd r)) /\ good em lt (snd r).
Proof.
  intros d hw em t now lt (HI & HT & HS) Hn.
  pose proof (handle_other d hw em t HI) as A.
  pose proof (handle_other_T d hw em t now HI HT) as B.
  pose proof (other_S d t now lt HS Hn) as C.
  cbv zeta in *. unfold GFlushed, good. destruct C as [[C _] C']. tauto.
Qed.

Lemma GFlushed_GInv : forall d hw em t lt, GFlushed d hw em t lt -> GInv d hw em t lt.
Proof.
  intros d hw em t lt [HF Hl]. split; [apply Flushed_Inv; auto|].
  split; [eapply flushed_T; eauto|]. split; auto.
  destruct HF as (_ & _ & _ & Hs). destruct (d_state d); simpl; try discriminate; contradiction.
Qed.

Lemma flush_set_G : forall d hw em c b t lt d1 f1, GFlushed d hw em t lt -> b = negb (hw c) ->
  (if true && negb (is_disabled d) then (set_state (if b then IsUp else IsDown) d, false)
   else (d, true)) = (d1, f1) ->
  GInv (set_code c d1) hw em t lt.
Proof.
  intros d hw em c b t lt d1 f1 [HF Hl] Hb Hd1.
  destruct (flush_set d hw em c b d1 f1 HF Hb Hd1) as (A & B & C).
  destruct HF as (_ & _ & _ & Hs).
  assert (Hst : d_state d1 = IsUp \/ d_state d1 = IsDown \/ d_state d1 = Disabled).
  { unfold is_disabled in Hd1. destruct (hw c); simpl in Hb; subst b;
    destruct (d_state d) eqn:E; simpl in Hd1; inversion Hd1; subst; simpl; auto; contradiction. }
  split; [exact A|]. split.
  - unfold TInv. change (d_state (set_code c d1)) with (d_state d1).
    destruct Hst as [->|[->| ->]]; exact B.
  - split; auto. change (d_state (set_code c d1)) with (d_state d1).
    destruct Hst as [->|[->| ->]]; discriminate.
Qed.

Lemma frame_many_G : forall ch d hw em t lt,
  NoDup (map fst ch) -> (forall c b, In (c, b) ch -> b = negb (hw c)) ->
  GFlushed d hw em t lt ->
  let r := frame_loop true true d ch t in
  GFlushed (fst r) (press_hw hw ch) (em_after em (snd r)) t (lstamp lt (snd r)) /\
  good em lt (snd r).
Proof.
  induction ch as [|[c b] ch IH]; intros d hw em t lt Hnd Hch HF r.
  - subst r; simpl. split; auto. repeat split; simpl; auto.
  - subst r. cbn [frame_loop]. inversion Hnd as [|? ? Hni Hnd']; subst.
    assert (Hb : b = negb (hw c)) by (apply Hch; left; auto).
    destruct (if true && negb (is_disabled d) then (set_state (if b then IsUp else IsDown) d, false)
              else (d, true)) as [d1 f1] eqn:Hd1.
    pose proof (flush_set_G d hw em c b t lt d1 f1 HF Hb Hd1) as HI.
    pose proof (change_G (set_code c d1) hw em b t t lt HI) as HC.
    change (d_code (set_code c d1)) with c in HC.
    specialize (HC ltac:(rewrite Hb, negb_involutive; auto) ltac:(lia)).
    destruct (handle_event (set_code c d1) (if b then Press else Release) t) as [d3 o3] eqn:Hd3.
    cbn [fst snd] in *. destruct HC as (HI3 & HT3).
    pose proof (other_G d3 _ _ t _ _ HI3 ltac:(lia)) as HO.
    destruct (handle_event d3 OtherButton t) as [d4 o4]. cbn [fst snd] in *.
    destruct HO as (HF4 & HT4).
    specialize (IH d4 (upd hw c b) (em_after (em_after em o3) o4) t (lstamp (lstamp lt o3) o4) Hnd').
    assert (Hpre : forall c0 b0, In (c0, b0) ch -> b0 = negb (upd hw c b c0)).
    { intros c0 b0 Hin. rewrite upd_other.
      - apply Hch; right; auto.
      - intros ->. apply Hni. apply (in_map fst) in Hin. exact Hin. }
    specialize (IH Hpre HF4). cbv zeta in IH.
    destruct (frame_loop true true d4 ch t) as [d5 o5]. cbn [fst snd] in *.
    destruct IH as (IF & IT).
    rewrite press_hw_cons, !em_after_app, !good_app, !lstamp_app. tauto.
Qed.

Lemma good_nil : forall em lt, good em lt [].
Proof. repeat split; simpl; auto. Qed.

Lemma frame_step_G : forall d hw em ch t now lt,
  frame_ok hw ch -> GInv d hw em now lt -> now <= t ->
  let r := handle_frame d ch t in
  GInv (fst r) (press_hw hw ch) (em_after em (snd r)) t (lstamp lt (snd r)) /\ good em lt (snd r).
Proof.
  intros d hw em ch t now lt (Hnd & Hlen & Hch) HI Hn r. subst r. unfold handle_frame.
  rewrite firstn_all2 by auto. cbv zeta.
  assert (HIt : GInv d hw em t lt).
  { destruct HI as (A & B & C & D). split; auto. split; [eapply TInv_weaken; eauto|].
    split; [lia|]. intros P; specialize (D P); lia. }
  destruct ch as [|[c b] ch].
  - simpl. destruct (negb (0 =? d_code d)).
    + pose proof (other_G d _ _ t _ _ HI Hn) as HO.
      destruct (handle_event d OtherButton t) as [d1 o1]. cbn [fst snd] in *.
      simpl. rewrite app_nil_r. destruct HO as (A & B). split; [apply GFlushed_GInv; exact A|auto].
    + simpl. split; auto. apply good_nil.
  - destruct (Nat.ltb_spec 1 (length ((c, b) :: ch))) as [Hm|Hm].
    + simpl orb.
      pose proof (other_G d _ _ t _ _ HI Hn) as HO.
      destruct (handle_event d OtherButton t) as [d1 o1]. cbn [fst snd] in *.
      destruct HO as (A & B).
      pose proof (frame_many_G ((c, b) :: ch) d1 hw _ t _ Hnd Hch A) as HM. cbv zeta in HM.
      destruct (frame_loop true true d1 ((c, b) :: ch) t) as [d2 o2]. cbn [fst snd] in *.
      destruct HM as (F & T). rewrite em_after_app, good_app, lstamp_app.
      split; [apply GFlushed_GInv; exact F|]. tauto.
    + destruct ch; [|simpl in Hm; lia]. simpl orb.
      assert (Hb : b = negb (hw c)) by (apply Hch; left; auto).
      rewrite press_hw_cons. cbn [frame_loop press_hw fold_left].
      destruct (Z.eqb_spec c (d_code d)) as [->|Hne]; simpl negb; cbv iota.
      * simpl andb. cbv iota.
        replace (set_code (d_code d) d) with d by (destruct d; reflexivity).
        pose proof (change_G d hw em b t _ _ HI ltac:(rewrite Hb, negb_involutive; auto) Hn) as HC.
        destruct (handle_event d (if b then Press else Release) t) as [d3 o3]. cbn [fst snd] in *.
        simpl. rewrite !app_nil_r. tauto.
      * pose proof (other_G d _ _ t _ _ HI Hn) as HO.
        destruct (handle_event d OtherButton t) as [d1 o1]. cbn [fst snd] in *.
        destruct HO as (HF & B).
        destruct (if true && negb (is_disabled d1) then (set_state (if b then IsUp else IsDown) d1, false)
              else (d1, true)) as [d2 f2] eqn:Hd1.
        pose proof (flush_set_G d1 hw _ c b t _ d2 f2 HF Hb Hd1) as HI2.
        pose proof (change_G (set_code c d2) hw (em_after em o1) b t _ _ HI2) as HC.
        change (d_code (set_code c d2)) with c in HC.
        specialize (HC ltac:(rewrite Hb, negb_involutive; auto) ltac:(lia)).
        destruct (handle_event (set_code c d2) (if b then Press else Release) t) as [d3 o3].
        cbn [fst snd] in *. rewrite !app_nil_r, em_after_app, good_app, lstamp_app. tauto.
Qed.

Definition fire_ok (d : deb) (o : dop) : Prop :=
  match o with
  | Frame _ _ => True
  | FireLong now => due (d_timer d) now /\ ~ (due (d_short d) now /\ d_sfirst d = true)
  | FireShort now => due (d_short d) now /\ ~ (due (d_timer d) now /\ d_sfirst d = false)
  end.

Lemma fire_T : forall d hw em now t (short : bool),
  Inv d hw em -> TInv d now -> now <= t ->
  fire_ok d (if short then FireShort t else FireLong t) ->
  let r := dstep d (if short then FireShort t else FireLong t) in
  TInv (fst r) t /\ nobug (snd r).
Proof.
  intros [s c tm lt sh sp sf] hw em now t short [Ho Hs] HT Hn Hf.
  destruct short; cbn [fire_ok] in Hf; destruct Hf as [[e0 [Hd1 Hd2]] Hf];
    destruct s; cbn [dstep]; ev; unfold TInv, due in *; cbn [d_state d_timer d_short d_sfirst nobug] in *;
    repeat match goal with
    | H : _ /\ _ |- _ => destruct H
    | H : exists _, _ |- _ => destruct H
    end; subst; try congruence;
    try (exfalso; apply Hf; split; [eexists; split; [reflexivity|]|reflexivity];
         match goal with H : Some _ = Some _ |- _ => inversion H end; subst; lia);
    split; auto;
    try (split; auto); try (eexists; split; [reflexivity|lia]).
Qed.

Lemma dstep_G : forall d hw em o now lt,
  match o with Frame ch _ => frame_ok hw ch | _ => True end ->
  fire_ok d o ->
  GInv d hw em now lt -> now <= op_time o ->
  let r := dstep d o in
  GInv (fst r) (hw_step hw o) (em_after em (snd r)) (op_time o) (lstamp lt (snd r)) /\
  good em lt (snd r).
Proof.
  intros d hw em o now lt Hok Hsch HI Hn. destruct o as [ch t|t|t].
  - apply (frame_step_G d hw em ch t now lt Hok HI Hn).
  - destruct HI as (A & B & C).
    pose proof (fire_T d hw em now t false A B Hn Hsch) as F.
    pose proof (handle_timeouts (cancel_timer d) hw em t Timeout (or_introl eq_refl) A) as G.
    pose proof (timeouts_S (cancel_timer d) t now lt Timeout (or_introl eq_refl) C Hn) as H.
    cbv zeta in *. unfold GInv, good. cbn [dstep hw_step op_time] in *. tauto.
  - destruct HI as (A & B & C).
    pose proof (fire_T d hw em now t true A B Hn Hsch) as F.
    pose proof (handle_timeouts (cancel_timer_short d) hw em t TimeoutShort (or_intror eq_refl) A) as G.
    pose proof (timeouts_S (cancel_timer_short d) t now lt TimeoutShort (or_intror eq_refl) C Hn) as H.
    cbv zeta in *. unfold GInv, good. cbn [dstep hw_step op_time] in *. tauto.
Qed.

Lemma drun_G : forall ops d hw em now lt,
  hist_ok hw ops -> schedule_ok d ops -> time_ok now ops -> GInv d hw em now lt ->
  let r := drun d ops in
  GInv (fst r) (fold_left hw_step ops hw) (em_after em (snd r)) (end_time now ops) (lstamp lt (snd r)) /\
  good em lt (snd r).
Proof.
  induction ops as [|o ops IH]; intros d hw em now lt Hh Hs Ht HI.
  - simpl. split; auto. apply good_nil.
  - destruct Hh as [Ho Hh], Hs as [Hs1 Hs], Ht as [Ht1 Ht]. cbn [drun].
    pose proof (dstep_G d hw em o now lt Ho Hs1 HI Ht1) as HS. cbv zeta in HS.
    destruct (dstep d o) as [d1 o1]. cbn [fst snd] in *. destruct HS as [HI1 HT1].
    specialize (IH d1 _ _ _ _ Hh Hs Ht HI1). cbv zeta in IH.
    destruct (drun d1 ops) as [d2 o2]. cbn [fst snd] in *.
    rewrite em_after_app, good_app, lstamp_app.
    change (end_time now (o :: ops)) with (end_time (op_time o) ops).
    change (fold_left hw_step (o :: ops) hw) with (fold_left hw_step ops (hw_step hw o)).
    tauto.
Qed.

Lemma GInv_init : forall q now, 0 <= now -> GInv (deb_init q) (fun _ => false) (fun _ => false) now 0.
Proof.
  intros q now Hn. split; [apply Inv_init|]. split.
  - destruct q; unfold TInv; simpl; auto.
  - split; auto. destruct q; discriminate.
Qed.

Lemma nobug_not_in : forall o, nobug o -> ~ In LogBug o.
Proof. induction o as [|[|] o IH]; simpl; intros H; auto. intros [A|A]; [discriminate|]. apply IH; auto. Qed.

Lemma debounce_schedule_lemma : forall quirk ops,
  hist_ok (fun _ => false) ops -> schedule_ok (deb_init quirk) ops -> time_ok 0 ops ->
  let d := fst (drun (deb_init quirk) ops) in
  let outs := snd (drun (deb_init quirk) ops) in
  (~ In LogBug outs) /\ nondecreasing 0 (stamps outs) /\
  (d_timer d = None -> d_short d = None -> forall c, reported c outs = hw_after ops c) /\
  (forall c, reported c outs <> hw_after ops c ->
     exists e, (d_timer d = Some e \/ d_short d = Some e) /\ e <= end_time 0 ops + 25000).
Proof.
  intros quirk ops Hh Hs Ht d outs.
  destruct (drun_G ops _ _ _ 0 0 Hh Hs Ht (GInv_init quirk 0 ltac:(lia))) as [HI HG].
  fold d outs in HI, HG. destruct HG as (HT & HB & HS).
  destruct HI as (HI & HTi & _).
  change (fold_left hw_step ops (fun _ => false)) with (hw_after ops) in HI.
  set (now := end_time 0 ops) in *.
  assert (Hrep : forall c, reported c outs = em_after (fun _ => false) outs c)
    by (intros; symmetry; apply reported_em; auto).
  split; [apply nobug_not_in; auto|]. split; [auto|].
  destruct HI as [Ho Hst]. unfold TInv in HTi.
  split.
  - intros Htm Hsh c. rewrite Hrep.
    destruct (Z.eq_dec c (d_code d)) as [->|Hne]; [|auto].
    destruct (d_state d); try (destruct HTi as [? [? [? ?]]]; congruence);
      try (destruct HTi as [? [? ?]]; congruence); auto; destruct Hst; congruence.
  - intros c Hc. rewrite Hrep in Hc.
    destruct (Z.eq_dec c (d_code d)) as [->|Hne]; [|exfalso; apply Hc; auto].
    destruct (d_state d); try (exfalso; destruct Hst; congruence).
    all: try (destruct HTi as [_ [e [H1 H2]]]; exists e; split; [auto|lia]).
    all: try (destruct HTi as [e [H1 [H2 [H3 H4]]]]; exists (e + 25000); split; [auto|lia]).
Qed.

(** After letting the armed timers fire the reported state is the physical one. *)
Lemma schedule_ok_app : forall a b d, schedule_ok d a -> schedule_ok (fst (drun d a)) b ->
  schedule_ok d (a ++ b).
Proof.
  induction a as [|o a IH]; intros b d Ha Hb; simpl in *; auto.
  destruct Ha as [Ha1 Ha2]. split; auto.
  destruct (dstep d o) as [d1 o1]. simpl in *.
  destruct (drun d1 a) as [d2 o2] eqn:E. simpl in *. apply IH; auto. rewrite E; auto.
Qed.
Lemma hist_ok_app : forall a b hw, hist_ok hw a -> hist_ok (fold_left hw_step a hw) b ->
  hist_ok hw (a ++ b).
Proof. induction a as [|o a IH]; intros; simpl in *; auto. destruct H; split; auto. Qed.
Lemma time_ok_app : forall a b now, time_ok now a -> time_ok (end_time now a) b ->
  time_ok now (a ++ b).
Proof. induction a as [|o a IH]; intros; simpl in *; auto. destruct H; split; auto. Qed.
Lemma drun_app : forall a b d, drun d (a ++ b) =
  (fst (drun (fst (drun d a)) b), snd (drun d a) ++ snd (drun (fst (drun d a)) b)).
Proof.
  induction a as [|o a IH]; intros b d; simpl.
  - destruct (drun d b); auto.
  - destruct (dstep d o) as [d1 o1]. rewrite IH. destruct (drun d1 a) as [d2 o2]. simpl.
    rewrite app_assoc. reflexivity.
Qed.

Lemma settle_ok : forall d hw em now t, Inv d hw em -> TInv d now -> now + 25000 <= t ->
  schedule_ok d (settle_ops d t) /\
  d_timer (fst (drun d (settle_ops d t))) = None /\ d_short (fst (drun d (settle_ops d t))) = None /\
  fold_left hw_step (settle_ops d t) hw = hw /\ hist_ok hw (settle_ops d t).
Proof.
  intros [s c tm lt sh sp sf] hw em now t [Ho Hs] HT Ht. unfold settle_ops, TInv in *.
  destruct s; cbn [d_state d_timer d_short d_code d_sfirst] in *;
    repeat match goal with
    | H : _ /\ _ |- _ => destruct H
    | H : exists _, _ |- _ => destruct H
    end; subst; cbn; unfold due; repeat split; try discriminate;
    try (eexists; split; [reflexivity|lia]);
    intros [[? [? ?]] ?]; discriminate.
Qed.

Lemma debounce_settles_lemma : forall quirk ops t,
  hist_ok (fun _ => false) ops -> schedule_ok (deb_init quirk) ops -> time_ok 0 ops ->
  end_time 0 ops + 25000 <= t ->
  let all := ops ++ settle_ops (fst (drun (deb_init quirk) ops)) t in
  schedule_ok (deb_init quirk) all /\
  (forall c, reported c (snd (drun (deb_init quirk) all)) = hw_after ops c).
Proof.
  intros quirk ops t Hh Hs Ht He all.
  destruct (drun_G ops _ _ _ 0 0 Hh Hs Ht (GInv_init quirk 0 ltac:(lia))) as [HI HG].
  destruct HI as (HI & HTi & _).
  destruct (settle_ok _ _ _ _ t HI HTi He) as (S1 & S2 & S3 & S4 & S5).
  assert (Hsall : schedule_ok (deb_init quirk) all) by (apply schedule_ok_app; auto).
  split; auto.
  assert (Htall : time_ok 0 all).
  { apply time_ok_app; auto. clear - He. unfold settle_ops.
    destruct (d_short _); simpl; destruct (d_timer _); simpl; repeat split; auto; lia. }
  assert (Hhall : hist_ok (fun _ => false) all) by (apply hist_ok_app; auto).
  destruct (debounce_schedule_lemma quirk all Hhall Hsall Htall) as (_ & _ & HQ & _).
  intros c. rewrite HQ.
  - unfold hw_after, all. rewrite fold_left_app, S4. reflexivity.
  - unfold all. rewrite drun_app. exact S2.
  - unfold all. rewrite drun_app. exact S3.
Qed.

(** Bouncing. *)
Lemma bounces_quiet_states : forall ts d c b,
  d_code d = c ->
  (match d_state d with
   | IsDownWaiting | IsDownDetectingSpurious => b = false
   | IsUpDelaying | IsUpDetectingSpurious => b = true
   | _ => False end) ->
  snd (drun d (bounces c b ts)) = [].
Proof.
  induction ts as [|t ts IH]; intros d c b Hc Hs; auto.
  cbn [bounces drun dstep]. unfold handle_frame. cbn [firstn length]. cbv zeta.
  rewrite <- Hc, Z.eqb_refl. cbn [Nat.ltb Nat.leb negb orb frame_loop andb].
  replace (set_code (d_code d) d) with d by (destruct d; reflexivity).
  destruct d as [s dc tm lt sh sp sf].
  destruct s; simpl in Hs; try contradiction; subst b; ev; rewrite Hc;
    (match goal with |- context [drun ?d' (bounces ?c' ?b' ts)] =>
       specialize (IH d' c' b'); destruct (drun d' (bounces c' b' ts)) end);
    simpl in *; rewrite IH; auto.
Qed.

Lemma bounces_spurious : forall ts d c b,
  d_code d = c -> d_spurious d = true ->
  (match d_state d with
   | IsDown => b = false
   | IsUpDelayingSpurious => b = true
   | _ => False end) ->
  snd (drun d (bounces c b ts)) = [].
Proof.
  induction ts as [|t ts IH]; intros d c b Hc Hsp Hs; auto.
  cbn [bounces drun dstep]. unfold handle_frame. cbn [firstn length]. cbv zeta.
  rewrite <- Hc, Z.eqb_refl. cbn [Nat.ltb Nat.leb negb orb frame_loop andb].
  replace (set_code (d_code d) d) with d by (destruct d; reflexivity).
  destruct d as [s dc tm lt sh sp sf]. simpl in Hsp. subst sp.
  destruct s; simpl in Hs; try contradiction; subst b; ev; rewrite Hc;
    (match goal with |- context [drun ?d' (bounces ?c' ?b' ts)] =>
       specialize (IH d' c' b'); destruct (drun d' (bounces c' b' ts)) end);
    simpl in *; rewrite IH; auto.
Qed.

Lemma bounce_press_lemma : forall ops c t0 ts,
  hist_ok (fun _ => false) ops -> schedule_ok (deb_init false) ops -> time_ok 0 ops ->
  let d := fst (drun (deb_init false) ops) in
  d_timer d = None -> d_short d = None -> hw_after ops c = false ->
  snd (drun d (bounces c true (t0 :: ts))) = [Notify c t0 true].
Proof.
  intros ops c t0 ts Hh Hs Ht d Htm Hsh Hc.
  destruct (drun_G ops _ _ _ 0 0 Hh Hs Ht (GInv_init false 0 ltac:(lia))) as [HI HG].
  destruct HI as ((Ho & Hst) & HTi & _). fold d in Ho, Hst, HTi.
  assert (Hnd : d_state d <> Disabled).
  { clear - Hh. subst d.
    assert (G : forall ops d hw em, hist_ok hw ops -> Inv d hw em -> d_state d <> Disabled ->
              d_state (fst (drun d ops)) <> Disabled).
    { induction ops0 as [|o os IH]; intros d hw em H1 H2 H3; auto.
      destruct H1 as [H0 H1]. cbn [drun].
      pose proof (dstep_inv d hw em o H0 H2) as P. cbv zeta in P.
      assert (Q : d_state (fst (dstep d o)) <> Disabled).
      { destruct o as [ch t|t|t]; cbn [dstep].
        - pose proof (frame_step d hw em ch t H0 H2) as F. cbv zeta in F. tauto.
        - destruct d as [s ? ? ? ? ? ?]; destruct s; simpl in *; congruence.
        - destruct d as [s ? ? ? ? ? ?]; destruct s; simpl in *; congruence. }
      destruct (dstep d o) as [d1 o1]. cbn [fst snd] in *.
      specialize (IH d1 _ _ H1 (proj1 P) Q). destruct (drun d1 os); auto. }
    eapply G; eauto; [apply (Inv_init false)|discriminate]. }
  destruct d as [s dc tm lt sh sp sf] eqn:Ed. cbn [d_timer d_short d_state d_code] in *.
  change (fold_left hw_step ops (fun _ => false)) with (hw_after ops) in *.
  unfold TInv in HTi. cbn [d_state d_timer d_short] in HTi. subst lt sh.
  cbn [bounces drun dstep]. unfold handle_frame. cbn [firstn length]. cbv zeta.
  cbn [Nat.ltb Nat.leb orb d_code negb].
  destruct (Z.eqb_spec c dc) as [->|Hne]; cbn [negb frame_loop andb].
  - destruct s; try (destruct HTi as [? [? [? ?]]]; congruence);
      try (destruct HTi as [? [? ?]]; congruence); [|destruct Hst; congruence|congruence].
    ev. cbn [set_code handle_event d_state app]. ev.
    match goal with |- context [drun ?d' (bounces ?c' ?b' ts)] =>
       pose proof (bounces_quiet_states ts d' c' b' eq_refl eq_refl) as IH;
       destruct (drun d' (bounces c' b' ts)) end. simpl in IH. subst l. reflexivity.
  - destruct s; try (destruct HTi as [? [? [? ?]]]; congruence);
      try (destruct HTi as [? [? ?]]; congruence); try congruence;
    simpl;
      match goal with |- context [drun ?d' (bounces ?c' ?b' ts)] =>
       pose proof (bounces_quiet_states ts d' c' b' eq_refl eq_refl) as IH;
       destruct (drun d' (bounces c' b' ts)) end; simpl in IH; subst l; reflexivity.
Qed.

Lemma bounce_release_lemma : forall ops c t0 ts,
  hist_ok (fun _ => false) ops -> schedule_ok (deb_init false) ops -> time_ok 0 ops ->
  let d := fst (drun (deb_init false) ops) in
  d_timer d = None -> d_short d = None -> hw_after ops c = true ->
  snd (drun d (bounces c false (t0 :: ts))) = if d_spurious d then [] else [Notify c t0 false].
Proof.
  intros ops c t0 ts Hh Hs Ht d Htm Hsh Hc.
  destruct (drun_G ops _ _ _ 0 0 Hh Hs Ht (GInv_init false 0 ltac:(lia))) as [HI HG].
  destruct HI as ((Ho & Hst) & HTi & _). fold d in Ho, Hst, HTi.
  assert (Hnd : d_state d <> Disabled).
  { clear - Hh. subst d.
    assert (G : forall ops d hw em, hist_ok hw ops -> Inv d hw em -> d_state d <> Disabled ->
              d_state (fst (drun d ops)) <> Disabled).
    { induction ops0 as [|o os IH]; intros d hw em H1 H2 H3; auto.
      destruct H1 as [H0 H1]. cbn [drun].
      pose proof (dstep_inv d hw em o H0 H2) as P. cbv zeta in P.
      assert (Q : d_state (fst (dstep d o)) <> Disabled).
      { destruct o as [ch t|t|t]; cbn [dstep].
        - pose proof (frame_step d hw em ch t H0 H2) as F. cbv zeta in F. tauto.
        - destruct d as [s ? ? ? ? ? ?]; destruct s; simpl in *; congruence.
        - destruct d as [s ? ? ? ? ? ?]; destruct s; simpl in *; congruence. }
      destruct (dstep d o) as [d1 o1]. cbn [fst snd] in *.
      specialize (IH d1 _ _ H1 (proj1 P) Q). destruct (drun d1 os); auto. }
    eapply G; eauto; [apply (Inv_init false)|discriminate]. }
  destruct d as [s dc tm lt sh sp sf] eqn:Ed. cbn [d_timer d_short d_state d_code d_spurious] in *.
  change (fold_left hw_step ops (fun _ => false)) with (hw_after ops) in *.
  unfold TInv in HTi. cbn [d_state d_timer d_short] in HTi. subst lt sh.
  cbn [bounces drun dstep]. unfold handle_frame. cbn [firstn length]. cbv zeta.
  cbn [Nat.ltb Nat.leb orb d_code negb].
  destruct (Z.eqb_spec c dc) as [->|Hne]; cbn [negb frame_loop andb].
  - destruct s; try (destruct HTi as [? [? [? ?]]]; congruence);
      try (destruct HTi as [? [? ?]]; congruence); [destruct Hst; congruence| |congruence].
    ev. cbn [set_code handle_event d_state app]. destruct sp; ev; cbn [app];
    (match goal with |- context [drun ?d' (bounces ?c' ?b' ts)] =>
       (pose proof (bounces_quiet_states ts d' c' b' eq_refl eq_refl) as IH ||
        pose proof (bounces_spurious ts d' c' b' eq_refl eq_refl eq_refl) as IH);
       destruct (drun d' (bounces c' b' ts)) end; simpl in IH; subst l; reflexivity).
  - destruct s; try (destruct HTi as [? [? [? ?]]]; congruence);
      try (destruct HTi as [? [? ?]]; congruence); try congruence;
    simpl; destruct sp; simpl;
      match goal with |- context [drun ?d' (bounces ?c' ?b' ts)] =>
       (pose proof (bounces_quiet_states ts d' c' b' eq_refl eq_refl) as IH ||
        pose proof (bounces_spurious ts d' c' b' eq_refl eq_refl eq_refl) as IH);
       destruct (drun d' (bounces c' b' ts)) end; simpl in IH; subst l; reflexivity.
Qed.

(** 17 buttons pressed in one frame: the last one is dropped. *)
Definition too_many : list dop :=
  [Frame (map (fun n => (Z.of_nat n, true)) (seq 256 17)) 1000; Frame [(272, false)] 2000].

Lemma too_many_refuted_lemma : exists ops c,
  (forall ch t, In (Frame ch t) ops -> NoDup (map fst ch)) /\
  ~ alternates true (transitions c (snd (drun (deb_init false) ops))).
Proof.
  exists too_many, 272. split.
  - intros ch t [H|[H|[]]]; inversion H; subst; vm_compute;
    repeat (constructor; [simpl; intuition discriminate|]); constructor.
  - vm_compute. intuition discriminate.
Qed.
