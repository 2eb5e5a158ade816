(** Proofs about tablet pads: the events, what they tell about modes; setting up the mode groups; no assert fails *)
Require Import Coq.ZArith.ZArith Coq.QArith.QArith Coq.Lists.List Coq.Bool.Bool Coq.micromega.Lia Coq.micromega.Lqa.
Require Import Verif.Pad_Model Verif.Pad_Spec Verif.Pad_Proofs Verif.Pad_Proofs2 Verif.Pad_Proofs3.
Import ListNotations.
Open Scope Z_scope.
Local Opaque codes.

(** ** Modes told *)
Lemma told_app : forall tog l l' cm, told tog cm l -> told tog (told_mode tog cm l) l' -> told tog cm (l ++ l').
Proof.
  intros tog. induction l as [|e l IH]; intros l' cm A B; [exact B|]. destruct e as [t n dn md g|t k dn|t n po md g|t n po md g]; cbn [app told] in *.
  - unfold told_mode in B. cbn [fold_left] in B. destruct dn; cbn [andb] in *; [destruct (tog g n)|]; [apply IH; assumption| |]; (destruct A as [A1 A2]; split; [exact A1|apply IH; assumption]).
  - apply IH; assumption.
  - destruct A as [A1 A2]. split; [exact A1|apply IH; assumption].
  - destruct A as [A1 A2]. split; [exact A1|apply IH; assumption].
Qed.
Lemma told_mode_app : forall tog l l' cm, told_mode tog cm (l ++ l') = told_mode tog (told_mode tog cm l) l'.
Proof. intros. apply fold_left_app. Qed.
(** [cm] has the modes, [tog] the toggles of the groups *)
Definition togs (nb : Z) (tog : Z -> Z -> bool) (gs : list group) : Prop := forall g, In g gs -> forall n, tog (gix g) n = is_toggle nb g n.
Definition knows (cm : Z -> Z) (gs : list group) : Prop := forall g, In g gs -> cm (gix g) = cur g.
Lemma togs_shape : forall nb tog gs gs', map shape gs' = map shape gs -> togs nb tog gs -> togs nb tog gs'.
Proof.
  intros nb tog gs gs' S K g' G' n. apply (in_map shape) in G'. rewrite S in G'. apply in_map_iff in G'. destruct G' as (g & E & G). rewrite <- (toggle_shape nb g g' n E). assert (X : gix g = gix g') by (injection E; auto). rewrite <- X. apply K, G.
Qed.
Lemma notify_told : forall nb tog m e t down mask cs gs gs' l cm, groups_ok gs -> togs nb tog gs -> knows cm gs -> notify_mask nb m e t down mask cs gs = Some (gs', l) -> told tog cm l /\ knows (told_mode tog cm l) gs'.
Proof.
  intros nb tog m e t down mask. induction cs as [|c cs IH]; intros gs gs' l cm OK TG K H; cbn in H.
  - injection H as <- <-. split; [exact I|exact K].
  - destruct (mask c); [|eapply IH; eassumption]. destruct (m c) as [|n|k]; [eapply IH; eassumption| |].
    + destruct (find _ gs) as [g|] eqn:F; [|discriminate]. apply find_some in F. destruct F as [FI FB]. set (g1 := if down then update_mode e nb g n else g) in *.
      destruct (notify_mask nb m e t down mask cs (put gs g1)) as [[gs2 l2]|] eqn:N; [|discriminate]. injection H as <- <-.
      assert (S1 : shape g1 = shape g) by (unfold g1; destruct down; [apply update_shape|reflexivity]). assert (X1 : gix g1 = gix g) by (injection S1; auto).
      destruct OK as [ND FO]. rewrite Forall_forall in FO. assert (O1 : group_ok g1) by (unfold g1; destruct down; [apply update_ok|]; apply FO, FI).
      assert (SG : forall x, In x gs -> gix x = gix g1 -> x = g) by (intros x X E; apply (same_gix gs); auto; congruence).
      assert (SH : map shape (put gs g1) = map shape gs) by (apply put_shape; [exact ND|intros x X E; rewrite (SG x X E); symmetry; exact S1]).
      assert (OK2 : groups_ok (put gs g1)). { split; [rewrite (shape_gix _ _ SH); exact ND|]. apply Forall_forall. intros x X. apply put_in in X. destruct X as [->|[X _]]; auto. }
      pose proof (togs_shape _ _ _ _ SH TG) as TG2. cbn [told]. unfold told_mode. cbn [fold_left]. fold (told_mode tog).
      assert (P : knows (put_mode cm (gix g1) (cur g1)) (put gs g1)).
      { intros x X. unfold put_mode. apply put_in in X. destruct X as [->|[X Y]]; [rewrite Z.eqb_refl; reflexivity|]. destruct (Z.eqb_spec (gix x) (gix g1)); [contradiction|apply K, X]. }
      assert (SAME : cur g1 = cur g -> cur g1 = cm (gix g1) /\ knows cm (put gs g1)).
      { intros E. split; [rewrite X1, K by exact FI; exact E|]. intros x X. apply put_in in X. destruct X as [->|[X Y]]; [rewrite X1, K by exact FI; auto|apply K, X]. }
      destruct down; cbn [andb].
      * destruct (tog (gix g1) n) eqn:T.
        -- apply (IH _ _ _ (put_mode cm (gix g1) (cur g1)) OK2 TG2 P N).
        -- rewrite X1, (TG g FI n) in T. destruct SAME as [A B]; [unfold g1, update_mode; rewrite T; reflexivity|]. destruct (IH _ _ _ cm OK2 TG2 B N). auto.
      * destruct SAME as [A B]; [reflexivity|]. destruct (IH _ _ _ cm OK2 TG2 B N). auto.
    + destruct (notify_mask nb m e t down mask cs gs) as [[gs2 l2]|] eqn:N; [|discriminate]. injection H as <- <-. destruct (IH _ _ _ cm OK TG K N) as [A B]. split; [exact A|exact B].
Qed.

(** ** All events of a frame *)
Lemma event_shape : forall d nb gs gs' e, map shape gs' = map shape gs -> event_ok d nb gs' e -> event_ok d nb gs e.
Proof.
  intros d nb gs gs' e S. assert (Q : forall g m (f : group -> Z) n, (forall x y, shape x = shape y -> f x = f y) -> (exists x, In x gs' /\ gix x = g /\ Z.testbit (f x) n = true /\ 0 <= m < num_modes x) -> exists x, In x gs /\ gix x = g /\ Z.testbit (f x) n = true /\ 0 <= m < num_modes x).
  { intros g m f n Ff (x & X & Y & Z0 & W). apply (in_map shape) in X. rewrite S in X. apply in_map_iff in X. destruct X as (y & E & Y'). exists y. split; [exact Y'|]. rewrite (Ff y x E). assert (E1 : gix y = gix x) by (injection E; auto). assert (E2 : num_modes y = num_modes x) by (injection E; auto). rewrite E1, E2. auto. }
  destruct e as [t n dn m g|t k dn|t n po m g|t n po m g]; cbn; auto; intros [A B]; (split; [exact A|]).
  - apply (Q g m bmask n); [intros x y E; injection E; auto|exact B].
  - apply (Q g m rmask n); [intros x y E; injection E; auto|exact B].
  - apply (Q g m smask n); [intros x y E; injection E; auto|exact B].
Qed.
Definition keys_ok (m : Z -> mapping) : Prop := forall c k, m c = Key k -> k = 576 \/ k = 632 \/ k = 579.
Lemma notify_events : forall d nb m e t down mask cs gs gs' l, groups_ok gs -> (forall c k, m c = Button k -> 0 <= k < nb) -> keys_ok m -> notify_mask nb m e t down mask cs gs = Some (gs', l) ->
  Forall (event_ok d nb gs) l /\ Forall (fun x => time_of x = t) l.
Proof.
  intros d nb m e t down mask. induction cs as [|c cs IH]; intros gs gs' l OK MB KO H; cbn in H.
  - injection H as <- <-. split; constructor.
  - destruct (mask c); [|eapply IH; eassumption]. destruct (m c) as [|n|k] eqn:MC; [eapply IH; eassumption| |].
    + destruct (find _ gs) as [g|] eqn:F; [|discriminate]. apply find_some in F. destruct F as [FI FB]. set (g1 := if down then update_mode e nb g n else g) in *.
      destruct (notify_mask nb m e t down mask cs (put gs g1)) as [[gs2 l2]|] eqn:N; [|discriminate]. injection H as <- <-.
      assert (S1 : shape g1 = shape g) by (unfold g1; destruct down; [apply update_shape|reflexivity]). assert (X1 : gix g1 = gix g) by (injection S1; auto).
      destruct OK as [ND FO]. rewrite Forall_forall in FO. assert (O1 : group_ok g1) by (unfold g1; destruct down; [apply update_ok|]; apply FO, FI).
      assert (SG : forall x, In x gs -> gix x = gix g1 -> x = g) by (intros x X E; apply (same_gix gs); auto; congruence).
      assert (SH : map shape (put gs g1) = map shape gs) by (apply put_shape; [exact ND|intros x X E; rewrite (SG x X E); symmetry; exact S1]).
      assert (OK2 : groups_ok (put gs g1)). { split; [rewrite (shape_gix _ _ SH); exact ND|]. apply Forall_forall. intros x X. apply put_in in X. destruct X as [->|[X _]]; auto. }
      destruct (IH _ _ _ OK2 MB KO N) as [A B]. split; constructor; auto.
      * cbn. split; [eapply MB; eassumption|]. exists g. split; [exact FI|]. split; [auto|]. unfold has_button in FB. destruct (nb <=? n); [discriminate|]. split; [exact FB|]. destruct O1 as [O1 _]. assert (E2 : num_modes g1 = num_modes g) by (injection S1; auto). rewrite <- E2. exact O1.
      * eapply Forall_impl; [|exact A]. intros x. apply event_shape, SH.
    + destruct (notify_mask nb m e t down mask cs gs) as [[gs2 l2]|] eqn:N; [|discriminate]. injection H as <- <-. destruct (IH _ _ _ OK MB KO N) as [A B]. split; constructor; auto. cbn. eapply KO, MC.
Qed.
Lemma notify_no_axis : forall nb m e t down mask cs gs gs' l, notify_mask nb m e t down mask cs gs = Some (gs', l) -> Forall position_ok l.
Proof.
  intros nb m e t down mask. induction cs as [|c cs IH]; intros gs gs' l H; cbn in H; [injection H as <- <-; constructor|].
  destruct (mask c); [|eapply IH; eassumption]. destruct (m c) as [|n|k]; [eapply IH; eassumption| |].
  - destruct (find _ gs) as [g|]; [|discriminate]. destruct (notify_mask nb m e t down mask cs _) as [[gs2 l2]|] eqn:N; [|discriminate]. injection H as <- <-. constructor; [exact I|]. eapply IH, N.
  - destruct (notify_mask nb m e t down mask cs gs) as [[gs2 l2]|] eqn:N; [|discriminate]. injection H as <- <-. constructor; [exact I|]. eapply IH, N.
Qed.
(** ** Positions *)
Local Open Scope Q_scope.
Lemma trunc_small : forall q, 0 <= q < 2 -> (q < 1 /\ trunc q = 0%Z) \/ (1 <= q /\ trunc q = 1%Z).
Proof.
  intros [n k] [A B]. unfold Qle, Qlt in *. unfold trunc. cbn [Qnum Qden] in *. rewrite Z.quot_div_nonneg by lia. destruct (Z_lt_le_dec n (Z.pos k)).
  - left. split; [lia|apply Z.div_small; lia].
  - right. split; [lia|]. symmetry. apply Z.div_unique with (n - Z.pos k)%Z; lia.
Qed.
Lemma qlt0_spec : forall q, (qlt0 q = true /\ q < 0) \/ (qlt0 q = false /\ 0 <= q).
Proof. intros [n k]. unfold qlt0, Qlt, Qle. cbn. destruct (Z.ltb_spec n 0); [left|right]; split; auto; lia. Qed.
Lemma ring_value : forall d left a v, is_ring a = true -> good_axes d -> (amin d a <= v <= amax d a)%Z ->
  exists q k, handle_ring d left a v = Some q /\ 0 <= q < 360 /\ q == 360 * (inject_Z (v - amin d a) / inject_Z (amax d a - amin d a + 1)) - 90 + (if left then 180 else 0) + 360 * inject_Z k.
Proof.
  intros d left a v R G V. specialize (G a). rewrite R in G. destruct G as [G1 G2]. unfold handle_ring. set (r := (amax d a - amin d a + 1)%Z) in *.
  assert (C : (in_int (r - 1) && in_int r && in_int (v - amin d a) && negb (r =? 0))%Z = true). { unfold in_int. rewrite !andb_true_iff, !Z.leb_le, negb_true_iff, Z.eqb_neq. lia. }
  rewrite C. set (f := inject_Z (v - amin d a) / inject_Z r). assert (RP : 0 < inject_Z r) by (unfold Qlt, inject_Z; cbn; lia).
  assert (F : 0 <= f < 1). { unfold f. assert (X1 : 0 <= inject_Z (v - amin d a)) by (change 0 with (inject_Z 0); rewrite <- Zle_Qle; lia). assert (X2 : inject_Z (v - amin d a) < inject_Z r) by (rewrite <- Zlt_Qlt; lia). split; [apply Qle_shift_div_l; [exact RP|lra]|apply Qlt_shift_div_r; [exact RP|lra]]. }
  set (deg := (if qlt0 (f - (1 # 4)) then f - (1 # 4) + 1 else f - (1 # 4)) * 360). assert (D : 0 <= deg < 360 /\ exists k, deg == 360 * f - 90 + 360 * inject_Z k).
  { unfold deg. destruct (qlt0_spec (f - (1 # 4))) as [[-> H]|[-> H]]; (split; [lra|]); [exists 1%Z|exists 0%Z]; unfold inject_Z; lra. }
  clearbody deg. destruct D as (D & k & DK). destruct left.
  - exists (fmod360 (deg + 180)). unfold fmod360. assert (E : (deg + 180) / 360 == (1 # 360) * (deg + 180)) by (field). assert (T0 : 0 <= (deg + 180) / 360 < 2) by (rewrite E; lra). destruct (trunc_small _ T0) as [[T1 T2]|[T1 T2]]; rewrite E in T1; rewrite T2; [exists k; change (inject_Z 0) with 0|exists (k - 1)%Z; assert (IK : inject_Z (k - 1) == inject_Z k - 1) by (unfold Z.sub; rewrite inject_Z_plus; reflexivity); change (inject_Z 1) with 1]; (split; [reflexivity|]); clearbody f; split; try rewrite IK; lra.
  - exists deg, k. split; [reflexivity|]. split; [exact D|]. lra.
Qed.
Lemma strip_value : forall lg d left a v, good_log lg -> good_axes d -> is_ring a = false -> (0 <= v <= amax d a)%Z ->
  exists q, handle_strip lg d left a v = Some q /\ 0 <= q <= 1 /\ (v = 0%Z -> q == 0) /\ (v <> 0%Z -> q == if left then 1 - lg v / lg (amax d a) else lg v / lg (amax d a)).
Proof.
  intros lg d left a v [L1 L2 L3] G R V. specialize (G a). rewrite R in G. unfold handle_strip. destruct (Z.eqb_spec v 0) as [->|N]; [exists 0; split; [reflexivity|split; [lra|split; [intros; lra|congruence]]]|].
  assert (C : (v <? 0)%Z || (amax d a <=? 1)%Z = false) by (apply orb_false_iff; split; [apply Z.ltb_ge|apply Z.leb_gt]; lia). rewrite C. eexists. split; [reflexivity|].
  pose proof (L2 (amax d a) G) as P. assert (A0 : 0 <= lg v). { destruct (Z.eq_dec v 1) as [->|]; [rewrite L1; lra|]. apply Qlt_le_weak, L2. lia. } assert (A1 : lg v <= lg (amax d a)) by (apply L3; lia).
  assert (X : (lg v - 0) / (lg (amax d a) - 0) == lg v / lg (amax d a)) by (field; lra). assert (Y : 0 <= lg v / lg (amax d a) <= 1). { split; [apply Qle_shift_div_l; [exact P|lra]|apply Qle_shift_div_r; [exact P|lra]]. }
  split; [destruct left; rewrite X; lra|]. split; [contradiction|]. intros _. destruct left; rewrite X; lra.
Qed.
Local Open Scope Z_scope.
Lemma ring_num : forall d a, is_ring a = true -> forall g, has_ring d g (axis_number a) = true -> 0 <= axis_number a < num_rings d /\ Z.testbit (rmask g) (axis_number a) = true.
Proof. intros d a R g H. unfold has_ring in H. destruct (num_rings d <=? axis_number a) eqn:E; [discriminate|]. apply Z.leb_gt in E. split; [|exact H]. destruct a; cbn in *; try discriminate; lia. Qed.
Lemma strip_num : forall d a, is_ring a = false -> forall g, has_strip d g (axis_number a) = true -> 0 <= axis_number a < num_strips d /\ Z.testbit (smask g) (axis_number a) = true.
Proof. intros d a R g H. unfold has_strip in H. destruct (num_strips d <=? axis_number a) eqn:E; [discriminate|]. apply Z.leb_gt in E. split; [|exact H]. destruct a; cbn in *; try discriminate; lia. Qed.
Lemma axes_events : forall lg d p e t l (P : pev -> Prop), notify_axes lg d p e t = Some l -> (forall a l', notify_axis lg d p e t a = Some l' -> Forall P l') -> Forall P l.
Proof.
  intros lg d p e t l P H A. unfold notify_axes, app_opt in H. destruct (notify_axis lg d p e t RING1) as [l1|] eqn:E1; [|discriminate]. destruct (notify_axis lg d p e t RING2) as [l2|] eqn:E2; [|discriminate]. destruct (notify_axis lg d p e t STRIP1) as [l3|] eqn:E3; [|discriminate]. destruct (notify_axis lg d p e t STRIP2) as [l4|] eqn:E4; [|discriminate].
  injection H as <-. rewrite !Forall_app. eauto 10.
Qed.
Lemma axes_facts : forall lg d p e t l, groups_ok (groups p) -> notify_axes lg d p e t = Some l -> Forall (event_ok d (nbuttons p) (groups p)) l /\ Forall (fun x => time_of x = t) l /\
  Forall (fun x => match x with PRing _ _ _ m g | PStrip _ _ _ m g => exists y, In y (groups p) /\ gix y = g /\ cur y = m | _ => False end) l.
Proof.
  intros lg d p e t l [_ GO] H. rewrite Forall_forall in GO. repeat split; apply (axes_events lg d p e t l _ H); intros a l' X; unfold notify_axis in X; (destruct (changed p a); [|injection X as <-; constructor]); (destruct (has_abs d a); [|discriminate]);
   (destruct (is_ring a) eqn:R; destruct (find _ _) as [g|] eqn:F; try discriminate; injection X as <-; apply find_some in F; destruct F as [F F2]; (constructor; [|constructor])); try reflexivity.
  - destruct (ring_num d a R g F2). split; [assumption|]. exists g. split; [exact F|]. split; [reflexivity|]. split; [assumption|apply GO, F].
  - destruct (strip_num d a R g F2). split; [assumption|]. exists g. split; [exact F|]. split; [reflexivity|]. split; [assumption|apply GO, F].
  - exists g. auto.
  - exists g. auto.
Qed.
Lemma axes_positions : forall lg d p e t l, good_log lg -> good_axes d -> (forall a, if is_ring a then amin d a <= value e a <= amax d a else 0 <= value e a <= amax d a) -> notify_axes lg d p e t = Some l -> Forall position_ok l.
Proof.
  intros lg d p e t l LG GA V H. apply (axes_events lg d p e t l _ H); intros a l' X; unfold notify_axis in X; (destruct (changed p a); [|injection X as <-; constructor]); (destruct (has_abs d a); [|discriminate]). specialize (V a).
  destruct (is_ring a) eqn:R; destruct (find _ _) as [g|] eqn:F; try discriminate; injection X as <-; (constructor; [|constructor]); cbn [position_ok]; (destruct (misc_term p && (misc e =? 0)); [exists (-1)%Q; split; [reflexivity|left; reflexivity]|]).
  - destruct (ring_value d (lh p) a (value e a) R GA V) as (q & k & A & B & _). exists q. auto.
  - destruct (strip_value lg d (lh p) a (value e a) LG GA R V) as (q & A & B & _). exists q. auto.
Qed.
Lemma told_axes : forall tog cm gs l, knows cm gs -> Forall (fun x => match x with PRing _ _ _ m g | PStrip _ _ _ m g => exists y, In y gs /\ gix y = g /\ cur y = m | _ => False end) l -> told tog cm l /\ told_mode tog cm l = cm.
Proof.
  intros tog cm gs l K H. induction H as [|x l X H [IH1 IH2]]; [split; [exact I|reflexivity]|]. destruct x as [t n dn md g|t k dn|t n po md g|t n po md g]; try destruct X; cbn [told]; unfold told_mode; cbn [fold_left]; fold (told_mode tog cm l); (split; [|exact IH2]); (split; [|exact IH1]);
    match goal with H : In ?y _ /\ gix ?y = _ /\ cur ?y = _ |- _ => destruct H as (Y1 & Y2 & Y3); rewrite <- Y2, <- Y3; symmetry; apply K, Y1 end.
Qed.
