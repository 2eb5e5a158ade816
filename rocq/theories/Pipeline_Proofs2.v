(** The whole pipeline: debouncing, then middle-button emulation, then the
    stage of Pipeline_Proofs.v. *)
Require Import Coq.ZArith.ZArith Coq.Lists.List Coq.Bool.Bool Coq.micromega.Lia.
Require Verif.Debounce_Model Verif.Debounce_Spec Verif.Debounce_Proofs.
Require Verif.MiddleButton_Model Verif.MiddleButton_Spec Verif.MiddleButton_Proofs Verif.MiddleButton_Proofs2 Verif.Scroll_Model.
Require Import Verif.Keys_Model Verif.Pipeline_Model Verif.Pipeline_Spec Verif.Pipeline_Proofs.
Import ListNotations.
Open Scope Z_scope.
Local Arguments Z.eqb : simpl never.
Local Arguments Z.add : simpl never.
Local Arguments Z.leb : simpl never.
Local Arguments Z.ltb : simpl never.

Section deb.
Import Verif.Debounce_Model Verif.Debounce_Spec Verif.Debounce_Proofs.
Local Open Scope Z_scope.

Lemma he_codes : forall d e t c t' p, In (Notify c t' p) (snd (handle_event d e t)) -> c = d_code d.
Proof.
  intros [s c0 tm lt sh sp sf] e t c t' p H.
  destruct s, e; ev; try destruct sp; ev; cbn in H; repeat (destruct H as [H|H]); try discriminate; try contradiction;
    inversion H; subst; auto.
Qed.
Lemma he_dcode : forall d e t, d_code (fst (handle_event d e t)) = d_code d.
Proof. intros [s c0 tm lt sh sp sf] e t. destruct s, e; ev; try destruct sp; ev; auto. Qed.
Lemma he_silent : forall d hw em e t c t' p, Inv d hw em -> (e = OtherButton \/ e = Timeout \/ e = TimeoutShort) ->
  em c = false -> hw c = false -> ~ In (Notify c t' p) (snd (handle_event d e t)).
Proof.
  intros d hw em e t c t' p [Ho Hs] He H1 H2 H. pose proof (he_codes _ _ _ _ _ _ H) as ->.
  rewrite H1, H2 in Hs. destruct d as [s c0 tm lt sh sp sf].
  destruct He as [->|[->| ->]]; destruct s; ev; cbn in H; try (destruct Hs; discriminate); intuition discriminate.
Qed.
Lemma fl_codes : forall ch many fl d t c t' p, In (Notify c t' p) (snd (frame_loop many fl d ch t)) -> In c (map fst ch).
Proof.
  induction ch as [|[c0 b] ch IH]; intros many fl d t c t' p H; cbn [frame_loop] in H; [contradiction|].
  destruct (if fl && negb (is_disabled d) then _ else _) as [d1 f1].
  pose proof (he_codes (set_code c0 d1) (if b then Press else Release) t) as A.
  pose proof (he_dcode (set_code c0 d1) (if b then Press else Release) t) as A'.
  destruct (handle_event (set_code c0 d1) (if b then Press else Release) t) as [d3 o3]. cbn [fst snd] in *.
  assert (B : forall d4 o4, (if many then handle_event d3 OtherButton t else (d3, [])) = (d4, o4) ->
     forall x y z, In (Notify x y z) o4 -> x = c0).
  { intros d4 o4 E x y z Hi. destruct many; [|inversion E; subst; contradiction].
    pose proof (he_codes d3 OtherButton t x y z) as C. rewrite E in C. rewrite (C Hi), A'. reflexivity. }
  destruct (if many then handle_event d3 OtherButton t else (d3, [])) as [d4 o4]. specialize (B _ _ eq_refl).
  destruct (frame_loop many (if many then true else f1) d4 ch t) as [d5 o5] eqn:E5. cbn [snd] in H.
  apply in_app_or in H. destruct H as [H|H]; [left; symmetry; eapply A; eauto|].
  apply in_app_or in H. destruct H as [H|H]; [left; symmetry; eapply B; eauto|].
  right. eapply (IH many _ d4 t). rewrite E5. exact H.
Qed.
Lemma frame_silent : forall d hw em ch t c t' p, Inv d hw em ->
  em c = false -> hw c = false -> ~ In c (map fst ch) ->
  ~ In (Notify c t' p) (snd (handle_frame d ch t)).
Proof.
  intros d hw em ch t c t' p HI H1 H2 Hni H. unfold handle_frame in H. cbv zeta in H.
  assert (Hf : forall x, In x (map fst (firstn 16 ch)) -> In x (map fst ch)).
  { intros x Hx. apply in_map_iff in Hx. destruct Hx as (y & <- & Hy). apply in_map.
    rewrite <- (firstn_skipn 16 ch). apply in_or_app. auto. }
  set (ch' := firstn 16 ch) in *.
  destruct ((1 <? length ch')%nat || negb (match ch' with [] => 0 | (c1, _) :: _ => c1 end =? d_code d)).
  - pose proof (he_silent d hw em OtherButton t c t' p HI (or_introl eq_refl) H1 H2) as A.
    destruct (handle_event d OtherButton t) as [d1 o1]. cbn [fst snd] in A.
    destruct (frame_loop (1 <? length ch')%nat true d1 ch' t) as [d2 o2] eqn:E. cbn [snd] in H.
    apply in_app_or in H. destruct H as [H|H]; [tauto|].
    apply Hni, Hf. eapply fl_codes. rewrite E. exact H.
  - destruct (frame_loop (1 <? length ch')%nat false d ch' t) as [d2 o2] eqn:E. cbn [snd app] in H.
    apply Hni, Hf. eapply fl_codes. rewrite E. exact H.
Qed.
Lemma fire_silent : forall d hw em (short : bool) t c t' p, Inv d hw em -> em c = false -> hw c = false ->
  ~ In (Notify c t' p) (snd (dstep d (if short then FireShort t else FireLong t))).
Proof.
  intros d hw em short t c t' p HI H1 H2. destruct short; cbn [dstep].
  - apply (he_silent (cancel_timer_short d) hw em); auto.
  - apply (he_silent (cancel_timer d) hw em); auto.
Qed.

(** With no timer armed the reported state is the physical one. *)
Lemma settled_rep : forall d hw em now, Inv d hw em -> TInv d now -> d_timer d = None -> d_short d = None ->
  (forall c, em c = hw c) /\ (d_state d = IsUp \/ d_state d = IsDown \/ d_state d = Disabled).
Proof.
  intros [s c tm lt sh sp sf] hw em now [Ho Hs] HT H1 H2. cbn in *. subst.
  unfold TInv in HT. destruct s; cbn in HT, Hs;
    repeat match goal with
    | H : _ /\ _ |- _ => destruct H
    | H : exists _, _ |- _ => destruct H
    end; try discriminate; (split; [|auto]);
    intros x; destruct (Z.eq_dec x c) as [->|Hx]; auto; congruence.
Qed.
Lemma calm_frame : forall d hw em c b t, d_state d = IsUp \/ d_state d = IsDown \/ d_state d = Disabled ->
  Inv d hw em -> b = negb (hw c) ->
  snd (handle_frame d [(c, b)] t) = [] \/ snd (handle_frame d [(c, b)] t) = [Notify c t b].
Proof.
  intros [s c0 tm lt sh sp sf] hw em c b t Hs [_ HI] Hb. cbn [d_state] in Hs. unfold handle_frame. cbn [firstn length].
  change ((1 <? 1)%nat) with false. cbn [orb d_code].
  destruct (Z.eqb_spec c c0) as [->|E];
  destruct Hs as [->|[->| ->]]; cbn [d_state d_code] in HI; destruct b; try destruct sp; cbn; auto;
    destruct HI as [HI _]; rewrite HI in Hb; discriminate.
Qed.
Lemma fire_shape : forall d hw em (short : bool) t, Inv d hw em ->
  let r := dstep d (if short then FireShort t else FireLong t) in
  nobug (snd r) ->
  snd r = [] \/ (exists t' p, snd r = [Notify (d_code d) t' p]) /\ forall c, em_after em (snd r) c = hw c.
Proof.
  intros [s c tm lt sh sp sf] hw em short t [Ho Hs]. cbn [d_code d_state] in *.
  destruct short; destruct s; cbn [dstep]; ev; cbn; intros H; auto; try contradiction; right;
    (split; [eexists _, _; reflexivity|]); intros x; unfold upd; destruct (Z.eqb_spec x c) as [->|Hx]; auto;
    destruct Hs; congruence.
Qed.
End deb.

Lemma lh_inv : forall l c, to_left_handed l (to_left_handed l c) = c.
Proof.
  intros [] c; auto. unfold to_left_handed, BTN_LEFT, BTN_RIGHT.
  destruct (Z.eqb_spec c 272) as [->|]; [reflexivity|].
  destruct (Z.eqb_spec c 273) as [->|]; [reflexivity|].
  destruct (Z.eqb_spec c 272); [contradiction|]. destruct (Z.eqb_spec c 273); [contradiction|]. auto.
Qed.
Lemma lh_mouse : forall l c, mouse_button c -> mouse_button (to_left_handed l c).
Proof.
  intros [] c H; auto. unfold to_left_handed, mouse_button, BTN_LEFT, BTN_RIGHT in *.
  destruct (c =? 272); [lia|]. destruct (c =? 273); [lia|auto].
Qed.
Lemma lh_middle : forall l c, to_left_handed l c = 274 <-> c = 274.
Proof.
  intros [] c; [|tauto]. unfold to_left_handed, BTN_LEFT, BTN_RIGHT.
  destruct (Z.eqb_spec c 272); [lia|]. destruct (Z.eqb_spec c 273); [lia|tauto].
Qed.

Lemma INV_ext : forall hw hw' cnt cnt' Hl Hr m, (forall c, hw c = hw' c) -> (forall c, cnt c = cnt' c) ->
  MiddleButton_Proofs.INV hw cnt Hl Hr m -> MiddleButton_Proofs.INV hw' cnt' Hl Hr m.
Proof.
  intros hw hw' cnt cnt' Hl Hr m H1 H2 (A & B & C). unfold MiddleButton_Proofs.INV. repeat split.
  - intros c Hc. rewrite <- H1. auto.
  - intros c Hc. rewrite <- H1, <- H2. auto.
  - destruct (MiddleButton_Model.m_enabled m).
    + destruct C as [C D]. split; [intros n Hn; rewrite <- H1; auto|]. rewrite <- !H1, <- !H2. auto.
    + rewrite <- !H1, <- !H2. auto.
Qed.

Definition allup (f : Z -> bool) : Prop := forall c, f c = false.
Definition mapped (s : ds) (rep : Z -> bool) : Z -> bool := fun c => rep (to_left_handed (s_left s) c).

(** [rep] are the buttons down after debouncing. *)
Definition PREL (s : ds) (rep : Z -> bool) : Prop :=
  exists dc Hl Hr, MiddleButton_Proofs.INV (mapped s rep) dc Hl Hr (s_mb s) /\ SREL s dc.
Definition shared (s : ds) : Prop :=
  MiddleButton_Model.m_enabled (s_mb s) = true /\ s_method s = true /\ s_button s = 274.

Lemma PREL_ext : forall s f g, (forall c, f c = g c) -> PREL s f -> PREL s g.
Proof.
  intros s f g H (dc & Hl & Hr & A & B). exists dc, Hl, Hr. split; auto.
  eapply INV_ext; [| |exact A]; auto. intros c. unfold mapped. auto.
Qed.
Lemma PREL_up : forall s rep, PREL s rep -> allup rep -> forall c, s_cnt s c = 0.
Proof.
  intros s rep (dc & Hl & Hr & A & (B & C & _)) HU c.
  assert (Z0 : forall x, dc x = 0).
  { apply (INV_allup _ _ _ _ _ A). intros x. apply HU. }
  destruct (s_method s && (c =? s_button s)) eqn:E.
  - apply andb_true_iff in E. destruct E as [E1 E2]. apply Z.eqb_eq in E2. subst. apply C; auto.
  - rewrite B; auto.
Qed.

(** What one event into the emulation guarantees. *)
Definition POK (any : bool) (s : ds) (rep' : Z -> bool) (r : dres) : Prop :=
  PREL (fst r) rep' /\ gd (vw s) (snd r) /\ (forall x, va (vw s) (snd r) x = vw (fst r) x) /\
  wants (fst r) = wants s /\
  (cfg (fst r) = cfg s \/ (any = false /\ nopend (fst r) /\ allup rep')) /\
  (any = false -> (exists t c, In (PButton t c false) (snd r)) -> nopend (fst r)) /\
  (MiddleButton_Model.m_enabled (s_mb (fst r)) = true -> MiddleButton_Model.m_enabled (s_mb s) = true).

Lemma step_enabled : forall m o, (forall b, o <> MiddleButton_Model.Config b) ->
  MiddleButton_Model.m_enabled (fst (MiddleButton_Model.mstep m o)) = true -> MiddleButton_Model.m_enabled m = true.
Proof.
  intros m o Ho. destruct (MiddleButton_Model.m_enabled m) eqn:E; auto.
  destruct o as [c t p|now|b]; cbn [MiddleButton_Model.mstep].
  - unfold MiddleButton_Model.physical_button, MiddleButton_Model.filter_button. rewrite E. cbn. congruence.
  - unfold MiddleButton_Model.timeout, MiddleButton_Model.handle_event. destruct m as [[] mask first tm en want]; cbn in *; congruence.
  - exfalso. eapply Ho; eauto.
Qed.

Lemma SREL_set_mb : forall s m dc, SREL s dc -> SREL (set_mb s m) dc.
Proof. intros s m dc H. exact H. Qed.

Lemma mb_stage : forall any s rep rep' o m' l,
  MiddleButton_Model.mstep (s_mb s) o = (m', l) -> (forall b, o <> MiddleButton_Model.Config b) ->
  (forall t c p, o = MiddleButton_Model.Button c t p -> mouse_button c /\ (c = 274 -> ~ shared s)) ->
  forall dc Hl Hr, MiddleButton_Proofs.INV (mapped s rep) dc Hl Hr (s_mb s) -> SREL s dc ->
  MiddleButton_Proofs.STEP_OK (mapped s rep) dc Hl Hr (s_mb s) o ->
  (forall c, MiddleButton_Spec.hw_step (mapped s rep) o c = mapped s rep' c) ->
  (quietc any s \/ (allup rep' /\ last_release dc l) \/ (forall c t p, In (MiddleButton_Model.MPost c t p) l -> p = true)) ->
  (shared s -> rep 274 = false) ->
  POK any s rep' (deliver any (set_mb s m') l).
Proof.
  intros any s rep rep' o m' l E Hnc Hcode dc Hl Hr HI HS HST Hrep Hq Hsh.
  unfold MiddleButton_Proofs.STEP_OK in HST. rewrite E in HST. cbn [fst snd] in HST.
  destruct HST as (HI' & Hpre & Hbug & _).
  assert (D : stage_ok any (set_mb s m') (fun x => dc x + MiddleButton_Spec.down x l) false (deliver any (set_mb s m') l)).
  { apply deliver_ok; auto.
    - intros c t p Hin. pose proof (out_codes (s_mb s) o c t p) as OC. rewrite E in OC. specialize (OC Hin).
      unfold MiddleButton_Model.BTN_LEFT, MiddleButton_Model.BTN_RIGHT, MiddleButton_Model.BTN_MIDDLE in OC.
      destruct OC as [->|[->|[->|[t' OC]]]]; [unfold mouse_button; lia..|].
      destruct (Hcode _ _ _ OC); auto.
    - intros c. eapply pre_ok_weaken; [|apply Hpre]. unfold MiddleButton_Proofs.kmax.
      destruct (c =? MiddleButton_Model.BTN_MIDDLE); lia.
    - cbn [set_mb s_method s_button]. intros Hm. destruct (Z.eq_dec (s_button s) 274) as [Hb|Hb].
      + rewrite Hb. destruct (MiddleButton_Model.m_enabled (s_mb s)) eqn:En.
        * assert (S : shared s) by (split; auto). specialize (Hsh S).
          destruct HS as (_ & HS & _). destruct (HS Hm) as (_ & HS1 & _). rewrite Hb in HS1.
          change 274 with MiddleButton_Model.BTN_MIDDLE. apply mids_pre; [|exact HS1|].
          { replace l with (snd (MiddleButton_Model.mstep (s_mb s) o)) by (rewrite E; auto).
            apply step_mids. intros t p Ho. subst o. destruct (Hcode _ _ _ eq_refl) as [_ Hx].
            apply Hx; auto. }
          { assert (Hmid : mapped s rep' 274 = false).
            { rewrite <- Hrep. destruct o as [c t p|now|b]; cbn [MiddleButton_Spec.hw_step].
              - destruct (Z.eqb_spec 274 c) as [<-|]; [exfalso; eapply (proj2 (Hcode _ _ _ eq_refl)); auto|].
                unfold mapped. rewrite (proj2 (lh_middle (s_left s) 274) eq_refl). auto.
              - unfold mapped. rewrite (proj2 (lh_middle (s_left s) 274) eq_refl). auto.
              - exfalso; eapply Hnc; eauto. }
            pose proof (INV_ext _ _ _ _ _ _ _ Hrep (fun _ => eq_refl) HI') as HI2.
            destruct HI2 as (_ & _ & HI2).
            change MiddleButton_Model.BTN_MIDDLE with 274 in *.
            destruct (MiddleButton_Model.m_enabled m').
            - destruct HI2 as [_ HI2]. unfold MiddleButton_Proofs.SINV in HI2. rewrite Hmid in HI2.
              destruct (MiddleButton_Model.m_state m'); unfold MiddleButton_Proofs.b2z in HI2;
                repeat match goal with H : _ /\ _ |- _ => destruct H end; lia.
            - destruct HI2 as (_ & _ & _ & _ & _ & HI2 & _). rewrite Hmid in HI2. unfold MiddleButton_Proofs.b2z in HI2. lia. }
        * (* emulation off: the count is the button itself *)
          assert (Hoff : o = o /\ match o with
              | MiddleButton_Model.Button c t p => l = [MiddleButton_Model.MPost c t p]
              | _ => True end).
          { split; auto. destruct o as [c t p|now|b]; auto. cbn [MiddleButton_Model.mstep] in E.
            unfold MiddleButton_Model.physical_button, MiddleButton_Model.filter_button in E. rewrite En in E. cbn in E.
            inversion E; auto. }
          destruct HS as (_ & HS & _). destruct (HS Hm) as (_ & HS1 & _). rewrite Hb in HS1.
          assert (Hfin : 0 <= dc 274 + MiddleButton_Spec.down 274 l <= 1).
          { assert (En' : MiddleButton_Model.m_enabled m' = false).
            { destruct (MiddleButton_Model.m_enabled m') eqn:F; auto.
              pose proof (step_enabled (s_mb s) o Hnc) as G. rewrite E in G. cbn [fst] in G. rewrite G in En; auto. }
            destruct HI' as (_ & _ & HI'). rewrite En' in HI'. destruct HI' as (_ & _ & _ & _ & _ & HI' & _).
            change MiddleButton_Model.BTN_MIDDLE with 274 in HI'. rewrite HI'.
            unfold MiddleButton_Proofs.b2z. destruct (MiddleButton_Spec.hw_step (mapped s rep) o 274); lia. }
          destruct o as [c t p|now|b].
          { destruct Hoff as [_ ->]. cbn [MiddleButton_Proofs.pre_ok]. split; auto. split; auto.
            cbn [MiddleButton_Spec.down fold_right] in Hfin. lia. }
          { cbn [MiddleButton_Model.mstep] in E.
            destruct HI as (_ & _ & HI). rewrite En in HI. destruct HI as (Hst & _).
            unfold MiddleButton_Model.timeout, MiddleButton_Model.handle_event in E. cbn [MiddleButton_Model.m_state] in E.
            rewrite Hst in E. cbn in E. inversion E; subst. exfalso. apply Hbug. left; auto. }
          { exfalso; eapply Hnc; eauto. }
      + eapply pre_ok_weaken; [|apply Hpre]. unfold MiddleButton_Proofs.kmax.
        change MiddleButton_Model.BTN_MIDDLE with 274. destruct (Z.eqb_spec (s_button s) 274); [contradiction|lia].
    - destruct Hq as [Hq|[[_ Hq]|Hq]]; auto. right. intros pre t c r El. exfalso.
      assert (F : false = true); [|discriminate]. apply (Hq c t false). rewrite El. apply in_or_app. right. left. auto. }
  destruct D as (D1 & D2 & D3 & D4 & D5 & D6 & D7).
  assert (Hcfg : cfg (fst (deliver any (set_mb s m') l)) = cfg s \/
    (any = false /\ nopend (fst (deliver any (set_mb s m') l)) /\ allup rep')).
  { destruct D6 as [D6|(_ & D6 & D7' & t & c & D8)]; auto.
    destruct Hq as [[Hq|Hq]|[[Hq _]|Hq]]; auto.
    - congruence.
    - left. unfold nopend in *. rewrite <- D7', D5. exact Hq.
    - left. (* only presses: no release was reported and nothing committed *)
      clear - Hq D8 D1 HS. exfalso.
      assert (G : forall l s, (forall c t p, In (MiddleButton_Model.MPost c t p) l -> p = true) ->
                 forall t c, ~ In (PButton t c false) (snd (deliver any s l))).
      { clear. induction l as [|[c t p|] l IH]; intros s Hp t0 c0 H; cbn [deliver] in H.
        - contradiction.
        - assert (p = true) by (apply (Hp c t p); left; auto). subst p.
          destruct (notify_button any s t c true) as [s1 o1] eqn:N. unfold andthen in H.
          assert (No : ~ In (PButton t0 c0 false) o1).
          { unfold notify_button, scroll_button, scroll_press, post_button, abort in N.
            destruct (s_method s && (c =? s_button s)).
            - destruct (s_lockst s); inversion N; subst; cbn; intuition discriminate.
            - destruct (update_key_down_count (s_cnt s) c true) as [[cnt n]|]; [|inversion N; subst; cbn; intuition discriminate].
              destruct ((true && (n =? 1)) || (negb true && (n =? 0))); inversion N; subst; cbn; intuition discriminate. }
          destruct (s_dead s1); [contradiction|]. destruct (deliver any s1 l) as [s2 o2] eqn:E2. cbn [snd] in H.
          apply in_app_or in H. destruct H as [H|H]; [contradiction|].
          eapply (IH s1); [intros; eapply Hp; right; eauto|]. rewrite E2. exact H.
        - unfold andthen in H. destruct (s_dead s); [cbn in H; intuition discriminate|].
          destruct (deliver any s l) as [s2 o2] eqn:E2. cbn [snd] in H. destruct H as [H|H]; [discriminate|].
          eapply (IH s); [intros; eapply Hp; right; eauto|]. rewrite E2. exact H. }
      eapply G; eauto. }
  assert (Hmap : forall c, mapped s rep' c = mapped (fst (deliver any (set_mb s m') l)) rep' c).
  { destruct Hcfg as [Hc|(_ & _ & Hu)].
    - intros c. unfold mapped. replace (s_left (fst (deliver any (set_mb s m') l))) with (s_left s); auto.
      unfold cfg in Hc. congruence.
    - intros c. unfold mapped. rewrite !Hu. auto. }
  unfold POK. split.
  { exists (fun x => dc x + MiddleButton_Spec.down x l), (MiddleButton_Spec.hold_step MiddleButton_Model.BTN_LEFT Hl (o, l)),
      (MiddleButton_Spec.hold_step MiddleButton_Model.BTN_RIGHT Hr (o, l)).
    split; auto. rewrite D4. cbn [set_mb s_mb].
    eapply INV_ext; [| |exact HI']; [|auto]. intros c. rewrite Hrep. apply Hmap. }
  split; [exact D2|]. split; [exact D3|]. split; [exact D5|]. split; [exact Hcfg|]. split; [exact D7|].
  rewrite D4. cbn [set_mb s_mb]. intros En. pose proof (step_enabled (s_mb s) o Hnc) as G. rewrite E in G. auto.
Qed.
