(** Proofs about tablet pads: events of runs; no assert fails; setting up the mode groups *)
Require Import Coq.ZArith.ZArith Coq.QArith.QArith Coq.Lists.List Coq.Bool.Bool Coq.micromega.Lia Coq.micromega.Lqa.
Require Import Verif.Pad_Model Verif.Pad_Spec Verif.Pad_Proofs Verif.Pad_Proofs2 Verif.Pad_Proofs3 Verif.Pad_Proofs4.
Import ListNotations.
Open Scope Z_scope.
Local Opaque codes.

Lemma flush_events : forall lg d p e t p' l, pad_ok p -> keys_ok (bmap p) -> flush lg d p e t = Some (p', l) ->
  Forall (event_ok d (nbuttons p) (groups p)) l /\ Forall (fun x => time_of x = t) l /\
  (forall tog cm, togs (nbuttons p) tog (groups p) -> knows cm (groups p) -> told tog cm l /\ knows (told_mode tog cm l) (groups p')) /\
  (good_log lg -> good_axes d -> (forall a, if is_ring a then amin d a <= value e a <= amax d a else 0 <= value e a <= amax d a) -> Forall position_ok l) /\
  (forall t0 n md g, In (PButton t0 n true md g) l -> exists y, In y (groups p) /\ gix y = g /\ (is_toggle (nbuttons p) y n = true -> forall k, get_mode e g (leds y) = Some k -> md = k)).
Proof.
  intros lg d p e t p' l [K1 K2 K3 K4 K5 K6] KO H. unfold flush in H. destruct (flush_axes lg d p e t) as [[p1 l1]|] eqn:F1; [|discriminate]. destruct (flush_released p1 e t) as [[p2 l2]|] eqn:F2; [|discriminate]. destruct (flush_pressed p2 e t) as [[p3 l3]|] eqn:F3; [|discriminate]. injection H as <- <-. destruct K1 as (_ & _ & _ & MB).
  assert (A : bits p1 = bits p /\ prev p1 = prev p /\ bmap p1 = bmap p /\ nbuttons p1 = nbuttons p /\ groups p1 = groups p /\ Forall (event_ok d (nbuttons p) (groups p)) l1 /\ Forall (fun x => time_of x = t) l1 /\
    (forall tog cm, togs (nbuttons p) tog (groups p) -> knows cm (groups p) -> told tog cm l1 /\ told_mode tog cm l1 = cm) /\ (good_log lg -> good_axes d -> (forall a, if is_ring a then amin d a <= value e a <= amax d a else 0 <= value e a <= amax d a) -> Forall position_ok l1) /\ flat_map ev_key l1 = []).
  { unfold flush_axes in F1. destruct (ax_upd p) eqn:AU; [|injection F1 as <- <-; repeat (split; auto)]. destruct (notify_axes lg d p e t) as [l0|] eqn:N; [|discriminate]. injection F1 as <- <-. destruct (axes_facts _ _ _ _ _ _ K2 N) as (X1 & X2 & X3). pose proof (put_axis_keys _ _ _ _ _ _ N). cbn [bits prev bmap nbuttons groups]. do 5 (split; [reflexivity|]). split; [exact X1|]. split; [exact X2|]. split.
    - intros tog cm T1 T2. apply (told_axes tog cm _ _ T2 X3).
    - split; [intros L G V; eapply axes_positions; eassumption|assumption]. }
  destruct A as (A1 & A2 & A3 & A4 & A5 & A6 & A7 & A8 & A9 & A10).
  assert (B : bits p2 = bits p /\ prev p2 = prev p /\ bmap p2 = bmap p /\ nbuttons p2 = nbuttons p /\ groups_ok (groups p2) /\ map shape (groups p2) = map shape (groups p) /\ Forall (event_ok d (nbuttons p) (groups p)) l2 /\ Forall (fun x => time_of x = t) l2 /\
    (forall tog cm, togs (nbuttons p) tog (groups p) -> knows cm (groups p) -> told tog cm l2 /\ knows (told_mode tog cm l2) (groups p2)) /\ Forall position_ok l2 /\ forall t0 n md g, ~ In (PButton t0 n true md g) l2).
  { unfold flush_released in F2. destruct (released_upd p1) eqn:R; [|injection F2 as <- <-; rewrite A5; repeat (split; auto)].
    destruct (notify_mask (nbuttons p1) (bmap p1) e t false (fun c => prev p1 c && negb (bits p1 c)) codes (groups p1)) as [[gs l0]|] eqn:N; [|discriminate]. injection F2 as <- <-. rewrite A5 in N. destruct (notify_mask_spec _ _ _ _ _ _ _ _ _ _ K2 N) as (N1 & N2 & N3 & N4 & N5 & N6).
    rewrite A3, A4 in N. destruct (notify_events d _ _ _ _ _ _ _ _ _ _ K2 MB KO N) as [E1 E2]. cbn [change_left_handed bits prev bmap nbuttons groups]. do 4 (split; [assumption|]). split; [exact N1|]. split; [exact N2|]. split; [exact E1|]. split; [exact E2|]. split; [intros tog cm T1 T2; exact (notify_told _ _ _ _ _ _ _ _ _ _ _ _ K2 T1 T2 N)|]. split; [eapply notify_no_axis; eassumption|].
    intros t0 n md g I0. specialize (N6 _ I0). cbn in N6. destruct N6 as (_ & X & _). discriminate. }
  destruct B as (B1 & B2 & B3 & B4 & B5 & B6 & B7 & B8 & B9 & B10 & B11).
  assert (C : Forall (event_ok d (nbuttons p) (groups p)) l3 /\ Forall (fun x => time_of x = t) l3 /\ (forall tog cm, togs (nbuttons p) tog (groups p2) -> knows cm (groups p2) -> told tog cm l3 /\ knows (told_mode tog cm l3) (groups p3)) /\ Forall position_ok l3 /\
    forall t0 n md g, In (PButton t0 n true md g) l3 -> exists y, In y (groups p) /\ gix y = g /\ (is_toggle (nbuttons p) y n = true -> forall k, get_mode e g (leds y) = Some k -> md = k)).
  { unfold flush_pressed in F3. destruct (pressed_upd p2) eqn:R; [|injection F3 as <- <-; repeat (split; auto); intros ? ? ? ? []].
    destruct (notify_mask (nbuttons p2) (bmap p2) e t true (fun c => bits p2 c && negb (prev p2 c)) codes (groups p2)) as [[gs l0]|] eqn:N; [|discriminate]. injection F3 as <- <-. destruct (notify_mask_spec _ _ _ _ _ _ _ _ _ _ B5 N) as (N1 & N2 & N3 & N4 & N5 & N6).
    rewrite B3, B4 in N. destruct (notify_events d _ _ _ _ _ _ _ _ _ _ B5 MB KO N) as [E1 E2]. cbn [groups]. split; [eapply Forall_impl; [|exact E1]; intros x; apply event_shape, B6|]. split; [exact E2|]. split; [intros tog cm T1 T2; exact (notify_told _ _ _ _ _ _ _ _ _ _ _ _ B5 T1 T2 N)|]. split; [eapply notify_no_axis; eassumption|].
    intros t0 n md g I0. specialize (N6 _ I0). cbn in N6. destruct N6 as (_ & _ & y & Y1 & Y2 & _ & Y4). apply (in_map shape) in Y1. rewrite B6 in Y1. apply in_map_iff in Y1. destruct Y1 as (z & E & Z1). exists z. split; [exact Z1|]. assert (EG : gix z = gix y) by (injection E; auto). assert (EL : leds z = leds y) by (injection E; auto). split; [congruence|].
    intros TG k GM. rewrite B4 in Y4. apply Y4; [rewrite <- (toggle_shape _ z y _ E); exact TG|reflexivity|congruence]. }
  destruct C as (C1 & C2 & C3 & C4 & C5). rewrite !Forall_app. split; [auto|]. split; [auto|]. split.
  - intros tog cm T1 T2. destruct (A8 tog cm T1 T2) as [X1 X2]. destruct (B9 tog cm T1 T2) as [X3 X4]. destruct (C3 tog _ (togs_shape _ _ _ _ B6 T1) X4) as [X5 X6]. split; [apply told_app; [exact X1|]; rewrite X2; apply told_app; [exact X3|exact X5]|]. rewrite !told_mode_app, X2. exact X6.
  - split; [intros L G V; auto|]. intros t0 n md g I0. apply in_app_or in I0. destruct I0 as [I0|I0].
    + exfalso. assert (X : In (Button n, true) (flat_map ev_key l1)) by (apply in_flat_map; eexists; split; [exact I0|left; reflexivity]). rewrite A10 in X. destruct X.
    + apply in_app_or in I0. destruct I0 as [I0|I0]; [destruct (B11 _ _ _ _ I0)|]. eapply C5, I0.
Qed.
(** The time of the events an input makes *)
Definition input_time (i : pinput) : option Z := match i with Syn _ t | Suspend _ t | SetMode _ _ t => Some t | _ => None end.
Lemma step_events : forall lg d p i p' o, pad_ok p -> keys_ok (bmap p) -> pstep lg d p i = Some (p', o) ->
  Forall (event_ok d (nbuttons p) (groups p)) o /\ Forall (fun x => Some (time_of x) = input_time i) o /\
  (forall tog cm, togs (nbuttons p) tog (groups p) -> knows cm (groups p) -> told tog cm o /\ knows (told_mode tog cm o) (groups p')) /\
  (good_log lg -> good_axes d -> values_ok d i -> Forall position_ok o) /\
  (forall t0 n md g, In (PButton t0 n true md g) o -> exists y e, In y (groups p) /\ gix y = g /\ env_of i = Some e /\ (is_toggle (nbuttons p) y n = true -> forall k, get_mode e g (leds y) = Some k -> md = k)).
Proof.
  intros lg d p i p' o K KO H.
  assert (N : o = [] -> groups p' = groups p -> Forall (event_ok d (nbuttons p) (groups p)) o /\ Forall (fun x => Some (time_of x) = input_time i) o /\
    (forall tog cm, togs (nbuttons p) tog (groups p) -> knows cm (groups p) -> told tog cm o /\ knows (told_mode tog cm o) (groups p')) /\ (good_log lg -> good_axes d -> values_ok d i -> Forall position_ok o) /\
    (forall t0 n md g, In (PButton t0 n true md g) o -> exists y e, In y (groups p) /\ gix y = g /\ env_of i = Some e /\ (is_toggle (nbuttons p) y n = true -> forall k, get_mode e g (leds y) = Some k -> md = k))).
  { intros -> E. rewrite E. repeat (split; auto). intros ? ? ? ? []. }
  assert (F : forall q e t r s, pad_ok q -> bmap q = bmap p -> nbuttons q = nbuttons p -> groups q = groups p -> flush lg d q e t = Some (r, s) -> groups p' = groups r -> o = s -> env_of i = Some e -> input_time i = Some t ->
    Forall (event_ok d (nbuttons p) (groups p)) o /\ Forall (fun x => Some (time_of x) = input_time i) o /\
    (forall tog cm, togs (nbuttons p) tog (groups p) -> knows cm (groups p) -> told tog cm o /\ knows (told_mode tog cm o) (groups p')) /\ (good_log lg -> good_axes d -> values_ok d i -> Forall position_ok o) /\
    (forall t0 n md g, In (PButton t0 n true md g) o -> exists y e, In y (groups p) /\ gix y = g /\ env_of i = Some e /\ (is_toggle (nbuttons p) y n = true -> forall k, get_mode e g (leds y) = Some k -> md = k))).
  { intros q e t r s Q1 Q2 Q3 Q4 FL G -> EI TI. assert (KQ : keys_ok (bmap q)) by (rewrite Q2; exact KO). destruct (flush_events _ _ _ _ _ _ _ Q1 KQ FL) as (X1 & X2 & X3 & X4 & X5). rewrite Q3, Q4 in *. split; [exact X1|]. split; [rewrite TI; eapply Forall_impl; [|exact X2]; intros x; congruence|]. rewrite G. split; [exact X3|].
    split; [unfold values_ok; rewrite EI; exact X4|]. intros t0 n md g I0. destruct (X5 _ _ _ _ I0) as (y & Y1 & Y2 & Y3). exists y, e. auto. }
  destruct (release_ok (tl codes) p K) as (RA & (RB1 & RB2 & RB3 & RB4 & RB5) & RC & RD & _).
  destruct i as [a| | |c v|e t|e t|m e t|b]; cbn [pstep] in H; try (injection H as E1 E2; apply N; subst; reflexivity).
  - injection H as E1 E2. apply N; subst; auto. unfold process_key. destruct (v =? 2); reflexivity.
  - eapply (F p); try reflexivity; auto.
  - eapply F; [exact RA|exact RB1|exact RB2|exact RD|exact H|reflexivity|reflexivity|reflexivity|reflexivity].
  - unfold set_mode in H. destruct (negb (Z.land get_modes m =? m)); [injection H as E1 E2; apply N; subst; reflexivity|]. destruct (m =? mode p); [injection H as E1 E2; apply N; subst; reflexivity|]. destruct (m =? 0); [injection H as E1 E2; apply N; subst; reflexivity|].
    destruct (suspend lg d p e t) as [[q r]|] eqn:S; [|discriminate]. injection H as E1 E2. eapply F; [exact RA|exact RB1|exact RB2|exact RD|exact S|subst; reflexivity|auto|reflexivity|reflexivity].
  - injection H as E1 E2. apply N; subst; auto. unfold set_left_handed. destruct (reversible d); [|reflexivity]. cbn [snd]. match goal with |- context [if ?x then _ else _] => destruct x end; reflexivity.
Qed.
Lemma run_events : forall lg d l p p' o, pad_ok p -> keys_ok (bmap p) -> prun lg d p l = Some (p', o) ->
  Forall (event_ok d (nbuttons p) (groups p)) o /\
  (forall tog cm, togs (nbuttons p) tog (groups p) -> knows cm (groups p) -> told tog cm o /\ knows (told_mode tog cm o) (groups p')) /\
  (good_log lg -> good_axes d -> Forall (values_ok d) l -> Forall position_ok o).
Proof.
  intros lg d. induction l as [|i l IH]; intros p p' o K KO H; cbn [prun] in H.
  - injection H as <- <-. repeat (split; auto).
  - destruct (pstep lg d p i) as [[q r]|] eqn:S; [|discriminate]. destruct (prun lg d q l) as [[q2 r2]|] eqn:E; [|discriminate]. injection H as <- <-.
    destruct (step_spec _ _ _ _ _ _ K S) as (S1 & S2 & S3 & S4 & _). destruct (step_events _ _ _ _ _ _ K KO S) as (V1 & V2 & V3 & V4 & V5). assert (KQ : keys_ok (bmap q)) by (rewrite S2; exact KO). destruct (IH q q2 r2 S1 KQ E) as (W1 & W2 & W3). rewrite S3 in W1, W2. split.
    + apply Forall_app. split; [exact V1|]. eapply Forall_impl; [|exact W1]. intros x. apply event_shape, S4.
    + split.
      * intros tog cm T1 T2. destruct (V3 tog cm T1 T2) as [A B]. destruct (W2 tog _ (togs_shape _ _ _ _ S4 T1) B) as [C D]. split; [apply told_app; assumption|]. rewrite told_mode_app. exact D.
      * intros L G VO. inversion VO; subst. apply Forall_app. auto.
Qed.

(** ** No assert fails *)
Definition covers (d : device) (nb : Z) (gs : list group) : Prop :=
  (forall n, 0 <= n < nb -> exists g, In g gs /\ has_button nb g n = true) /\
  (forall a, has_abs d a = true -> exists g, In g gs /\ (if is_ring a then has_ring d g (axis_number a) else has_strip d g (axis_number a)) = true).
Lemma covers_shape : forall d nb gs gs', map shape gs' = map shape gs -> covers d nb gs -> covers d nb gs'.
Proof.
  intros d nb gs gs' S. assert (Q : forall f : group -> bool, (forall x y, shape x = shape y -> f x = f y) -> (exists g, In g gs /\ f g = true) -> exists g, In g gs' /\ f g = true).
  { intros f Ff (g & G & E). apply (in_map shape) in G. rewrite <- S in G. apply in_map_iff in G. destruct G as (y & E2 & Y). exists y. split; [exact Y|]. rewrite (Ff y g E2). exact E. }
  intros [A B]. split.
  - intros n N. apply Q; [intros x y E; apply button_shape, E|auto].
  - intros a H. apply (Q (fun g => if is_ring a then has_ring d g (axis_number a) else has_strip d g (axis_number a))); [|auto]. intros x y E. unfold has_ring, has_strip. assert (E1 : rmask x = rmask y) by (injection E; auto). assert (E2 : smask x = smask y) by (injection E; auto). rewrite E1, E2. reflexivity.
Qed.
Lemma notify_safe : forall d nb m e t down mask cs gs, groups_ok gs -> (forall c k, m c = Button k -> 0 <= k < nb) -> covers d nb gs -> exists r, notify_mask nb m e t down mask cs gs = Some r.
Proof.
  intros d nb m e t down mask. induction cs as [|c cs IH]; intros gs OK MB CV; cbn; [eexists; reflexivity|]. destruct (mask c); [|apply IH; assumption]. destruct (m c) as [|n|k] eqn:MC; [apply IH; assumption| |].
  - destruct (find _ gs) as [g|] eqn:F.
    + apply find_some in F. destruct F as [FI FB]. set (g1 := if down then update_mode e nb g n else g) in *.
      assert (S1 : shape g1 = shape g) by (unfold g1; destruct down; [apply update_shape|reflexivity]). assert (X1 : gix g1 = gix g) by (injection S1; auto).
      destruct OK as [ND FO]. rewrite Forall_forall in FO. assert (O1 : group_ok g1) by (unfold g1; destruct down; [apply update_ok|]; apply FO, FI).
      assert (SG : forall x, In x gs -> gix x = gix g1 -> x = g) by (intros x X E; apply (same_gix gs); auto; congruence).
      assert (SH : map shape (put gs g1) = map shape gs) by (apply put_shape; [exact ND|intros x X E; rewrite (SG x X E); symmetry; exact S1]).
      assert (OK2 : groups_ok (put gs g1)). { split; [rewrite (shape_gix _ _ SH); exact ND|]. apply Forall_forall. intros x X. apply put_in in X. destruct X as [->|[X _]]; auto. }
      destruct (IH _ OK2 MB (covers_shape _ _ _ _ SH CV)) as [[a b] ->]. eexists. reflexivity.
    + exfalso. destruct (proj1 CV n (MB _ _ MC)) as (g & G & B). apply (find_none _ _ F) in G. congruence.
  - destruct (IH gs OK MB CV) as [[a b] ->]. eexists. reflexivity.
Qed.
Definition changed_ok (d : device) (p : pad) : Prop := forall a, changed p a = true -> has_abs d a = true.
Lemma axis_safe : forall lg d p e t a, changed_ok d p -> covers d (nbuttons p) (groups p) -> exists l, notify_axis lg d p e t a = Some l.
Proof.
  intros lg d p e t a C [_ CV]. unfold notify_axis. destruct (changed p a) eqn:CH; [|eexists; reflexivity]. rewrite (C a CH). destruct (CV a (C a CH)) as (g & G & B). destruct (is_ring a).
  - destruct (find _ _) eqn:F; [eexists; reflexivity|]. apply (find_none _ _ F) in G. congruence.
  - destruct (find _ _) eqn:F; [eexists; reflexivity|]. apply (find_none _ _ F) in G. congruence.
Qed.
Lemma flush_safe : forall lg d p e t, pad_ok p -> changed_ok d p -> covers d (nbuttons p) (groups p) -> exists r, flush lg d p e t = Some r.
Proof.
  intros lg d p e t [K1 K2 K3 K4 K5 K6] C CV. destruct K1 as (_ & _ & _ & MB). unfold flush.
  assert (A : exists p1 l1, flush_axes lg d p e t = Some (p1, l1) /\ bmap p1 = bmap p /\ nbuttons p1 = nbuttons p /\ groups p1 = groups p).
  { unfold flush_axes. destruct (ax_upd p); [|exists p, []; auto]. unfold notify_axes. destruct (axis_safe lg d p e t RING1 C CV) as [? ->]. destruct (axis_safe lg d p e t RING2 C CV) as [? ->]. destruct (axis_safe lg d p e t STRIP1 C CV) as [? ->]. destruct (axis_safe lg d p e t STRIP2 C CV) as [? ->]. cbn [app_opt]. eexists. eexists. split; [reflexivity|auto]. }
  destruct A as (p1 & l1 & -> & A1 & A2 & A3).
  assert (B : exists p2 l2, flush_released p1 e t = Some (p2, l2) /\ bmap p2 = bmap p /\ nbuttons p2 = nbuttons p /\ groups_ok (groups p2) /\ covers d (nbuttons p) (groups p2)).
  { unfold flush_released. destruct (released_upd p1); [|exists p1, []; rewrite A3; auto 10]. destruct (notify_safe d (nbuttons p1) (bmap p1) e t false (fun c => prev p1 c && negb (bits p1 c)) codes (groups p1)) as [[gs l] N]; try (rewrite ?A1, ?A2, ?A3; assumption). rewrite N. eexists. eexists. split; [reflexivity|].
    cbn [change_left_handed bmap nbuttons groups]. rewrite A3 in N. destruct (notify_mask_spec _ _ _ _ _ _ _ _ _ _ K2 N) as (N1 & N2 & _). repeat (split; auto). - apply (covers_shape _ _ _ _ N2 CV). - apply (covers_shape _ _ _ _ N2 CV). }
  destruct B as (p2 & l2 & -> & B1 & B2 & B3 & B4).
  unfold flush_pressed. destruct (pressed_upd p2); [|eexists; reflexivity]. destruct (notify_safe d (nbuttons p2) (bmap p2) e t true (fun c => bits p2 c && negb (prev p2 c)) codes (groups p2)) as [[gs l] N]; try (rewrite ?B1, ?B2; assumption). rewrite N. eexists. reflexivity.
Qed.
Lemma step_safe : forall lg d p i, pad_ok p -> changed_ok d p -> covers d (nbuttons p) (groups p) -> axes_ok d i -> exists p' o, pstep lg d p i = Some (p', o) /\ changed_ok d p'.
Proof.
  intros lg d p i K C CV AO.
  assert (F : forall q e t, pad_ok q -> changed_ok d q -> covers d (nbuttons q) (groups q) -> exists p' o, flush lg d q e t = Some (p', o) /\ changed_ok d p').
  { intros q e t Q1 Q2 Q3. destruct (flush_safe lg d q e t Q1 Q2 Q3) as [[p' o] E]. exists p', o. split; [exact E|]. destruct (flush_spec _ _ _ _ _ _ _ Q1 E) as (_ & _ & _ & _ & X & _). intros a A. rewrite X in A. discriminate. }
  assert (S : forall e t, exists p' o, suspend lg d p e t = Some (p', o) /\ changed_ok d p').
  { intros e t. destruct (release_ok (tl codes) p K) as (RA & (RB1 & RB2 & RB3 & RB4 & RB5) & RC & RD & RE & _). apply F; [exact RA|intros a A; rewrite RE in A; auto|rewrite RB2, RD; exact CV]. }
  destruct i as [a| | |c v|e t|e t|m e t|b]; cbn [pstep].
  - eexists. eexists. split; [reflexivity|]. intros x X. cbn in X. apply orb_true_iff in X. destruct X as [X|X]; [|auto]. cbn in AO. destruct x, a; try discriminate; exact AO.
  - eexists. eexists. split; [reflexivity|exact C].
  - eexists. eexists. split; [reflexivity|exact C].
  - eexists. eexists. split; [reflexivity|]. unfold process_key. destruct (v =? 2); exact C.
  - apply F; assumption.
  - apply S.
  - unfold set_mode. destruct (negb (Z.land get_modes m =? m)); [eexists; eexists; split; [reflexivity|exact C]|]. destruct (m =? mode p); [eexists; eexists; split; [reflexivity|exact C]|]. destruct (m =? 0); [eexists; eexists; split; [reflexivity|exact C]|].
    destruct (S e t) as (q & r & -> & X). eexists. eexists. split; [reflexivity|exact X].
  - eexists. eexists. split; [reflexivity|]. unfold set_left_handed. destruct (reversible d); [|exact C]. cbn [snd]. match goal with |- context [if ?x then _ else _] => destruct x end; exact C.
Qed.
Lemma run_safe : forall lg d l p, pad_ok p -> changed_ok d p -> covers d (nbuttons p) (groups p) -> Forall (axes_ok d) l -> exists r, prun lg d p l = Some r.
Proof.
  intros lg d. induction l as [|i l IH]; intros p K C CV AO; [eexists; reflexivity|]. inversion AO as [|? ? A1 A2]; subst. cbn [prun]. destruct (step_safe lg d p i K C CV A1) as (q & o & E & X). rewrite E. destruct (step_spec _ _ _ _ _ _ K E) as (S1 & S2 & S3 & S4 & _).
  destruct (IH q S1 X) as [[a b] ->]; [rewrite S3; apply (covers_shape _ _ _ _ S4 CV)|exact A2|]. eexists. reflexivity.
Qed.
