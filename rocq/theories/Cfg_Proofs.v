(** Proofs about the configuration interface. *)
Require Import Coq.ZArith.ZArith Coq.Lists.List Coq.Bool.Bool Lia.
Require Import Verif.Cfg_Model Verif.Cfg_Spec.
Import ListNotations.
Open Scope Z_scope.

Lemma land_within : forall m v, 0 <= m -> (Z.land m v =? v) = true <-> within v m.
Proof.
  intros m v Hm. rewrite Z.eqb_eq. split.
  - intros H i Hi Hb. rewrite <- H, Z.land_spec in Hb. apply andb_true_iff in Hb. tauto.
  - intros H. apply Z.bits_inj'. intros i Hi. rewrite Z.land_spec.
    destruct (Z.testbit v i) eqn:E; [rewrite (H i Hi E); reflexivity | apply andb_false_r].
Qed.
Lemma no_btnscroll_spec : forall h, no_btnscroll h = false <-> on_button (offers h).
Proof.
  intros h. unfold no_btnscroll, on_button. cbn [offers scrolls]. unfold get_scroll_methods, tp_methods.
  destruct (hooks_tap h), (hooks_btnscroll h), (dm4 h), (2 <=? ntouches h); vm_compute; split; congruence.
Qed.
Lemma no_btnscroll_eq : forall h, no_btnscroll h = negb (hooks_btnscroll h).
Proof.
  intros h. unfold no_btnscroll, get_scroll_methods, tp_methods, hooks_tap, hooks_btnscroll.
  destruct (kind_ h), (mouse h), (relx h || rely h), (dm4 h), (2 <=? ntouches h); reflexivity.
Qed.
Lemma modes_pos : forall h, 0 <= get_send_modes h.
Proof. intros h. unfold get_send_modes, send_modes. destruct (kind_ h), (internal h); vm_compute; congruence. Qed.
Lemma clicks_pos : forall h, 0 <= get_click_methods h.
Proof. intros h. unfold get_click_methods, click_methods. destruct (hooks_tap h), (clickpad h), (has_mt h), (onebutton h); vm_compute; congruence. Qed.
Lemma scrolls_pos : forall h, 0 <= get_scroll_methods h.
Proof. intros h. unfold get_scroll_methods, tp_methods. destruct (hooks_tap h), (hooks_btnscroll h), (dm4 h), (2 <=? ntouches h); vm_compute; congruence. Qed.

Lemma modes_cases : forall h v, Z.land (get_send_modes h) v = v -> v = 0 \/ v = 1 \/ (kind_ h = Touchpad /\ internal h = true /\ (v = 2 \/ v = 3)).
Proof.
  intros h v. unfold get_send_modes, send_modes.
  assert (H1 : Z.land 1 v = v -> v = 0 \/ v = 1).
  { intros H. assert (B := Z.land_ones v 1 ltac:(lia)). change (Z.ones 1) with 1 in B.
    rewrite Z.land_comm in B. rewrite H in B. pose proof (Z.mod_pos_bound v (2 ^ 1) ltac:(lia)). change (2 ^ 1) with 2 in *. lia. }
  assert (H3 : Z.land 3 v = v -> v = 0 \/ v = 1 \/ v = 2 \/ v = 3).
  { intros H. assert (B := Z.land_ones v 2 ltac:(lia)). change (Z.ones 2) with 3 in B.
    rewrite Z.land_comm in B. rewrite H in B. pose proof (Z.mod_pos_bound v (2 ^ 2) ltac:(lia)). change (2 ^ 2) with 4 in *. lia. }
  destruct (kind_ h); try (change (Z.lor 0 1) with 1; intros H; destruct (H1 H); tauto).
  destruct (internal h); [change (Z.lor 0 (Z.lor 1 2)) with 3 | change (Z.lor 0 1) with 1]; intros H.
  - destruct (H3 H) as [-> | [-> | [-> | ->]]]; tauto.
  - destruct (H1 H); tauto.
Qed.

(** fields that no step changes *)
Record conf_ok (h : hw) (c : conf) : Prop := {
  ok_tap : c_tap c = 0 \/ c_tap c = 1;
  ok_wmap : c_wmap c = 0 \/ c_wmap c = 1;
  ok_drag : c_drag c = 0 \/ c_drag c = 1;
  ok_draglock : c_draglock c = 0 \/ c_draglock c = 1;
  ok_send : c_send c = 0 \/ c_send c = 1 \/ (c_send c = 2 /\ kind_ h = Touchpad /\ internal h = true);
  ok_method : hooks_btnscroll h = true -> c_wmethod c = 0 \/ c_wmethod c = 4;
  ok_button : c_wbutton c = 0 \/ btn h (c_wbutton c) = true;
  ok_lock : c_lockst c = c_lock c;
  ok_tpmethod : hooks_tap h = true -> Z.land (tp_methods h) (c_tpmethod c) = c_tpmethod c /\ (c_tpmethod c = 0 \/ c_tpmethod c = 1 \/ c_tpmethod c = 2);
  ok_middef : c_middef c = mid_default h;
  ok_angle : c_angle c = 0 \/ c_angle c = 90 \/ c_angle c = 180 \/ c_angle c = 270 }.

Ltac bb := repeat match goal with
  | H : (_ && _)%bool = true |- _ => apply andb_true_iff in H; destruct H
  | H : (_ && _)%bool = false |- _ => apply andb_false_iff in H
  | H : (_ || _)%bool = true |- _ => apply orb_true_iff in H
  | H : (_ || _)%bool = false |- _ => apply orb_false_iff in H; destruct H
  | H : negb _ = true |- _ => apply negb_true_iff in H
  | H : negb _ = false |- _ => apply negb_false_iff in H
  | H : (_ =? _) = true |- _ => apply Z.eqb_eq in H
  | H : (_ =? _) = false |- _ => apply Z.eqb_neq in H
  | H : (_ <=? _) = true |- _ => apply Z.leb_le in H
  | H : (_ <=? _) = false |- _ => apply Z.leb_gt in H
  end.

Ltac ors E := match type of E with
  | (_ || _)%bool = true => apply orb_true_iff in E; ors E
  | _ \/ _ => destruct E as [E | E]; ors E
  | _ => idtac end.
(** change_* only move wanted values into effect *)
Lemma change_left_wanted : forall c, exists x, change_left c = set_c_left c x.
Proof. intros c. unfold change_left. destruct (Bool.eqb (c_wleft c) (c_left c)), (b_left c); try (exists (c_left c); destruct c; reflexivity). exists (c_wleft c); reflexivity. Qed.
Lemma apply_mid_wanted : forall c, exists x, apply_mid c = set_c_mid c x.
Proof. intros c. unfold apply_mid. destruct (b_mid c), (Bool.eqb (c_wmid c) (c_mid c)); try (exists (c_mid c); destruct c; reflexivity). exists (c_wmid c); reflexivity. Qed.
Lemma update_map_wanted : forall c, exists x, update_map c = set_c_map c x.
Proof. intros c. unfold update_map. destruct (b_tap c), (negb (c_map c =? c_wmap c)); try (exists (c_map c); destruct c; reflexivity). exists (c_wmap c); reflexivity. Qed.
Lemma change_scroll_wanted : forall c, c_lockst c = c_lock c -> exists m b k, change_scroll c = set_c_lockst (set_c_lock (set_c_button (set_c_method c m) b) k) k.
Proof.
  intros c Hk. unfold change_scroll.
  destruct (_ && _)%bool; [exists (c_method c), (c_button c), (c_lock c); destruct c; cbn in *; subst; reflexivity |].
  destruct (b_scroll c); [exists (c_method c), (c_button c), (c_lock c); destruct c; cbn in *; subst; reflexivity |].
  exists (c_wmethod c), (c_wbutton c), (c_wlock c). destruct c; reflexivity.
Qed.

Lemma button_default_ok : forall h, button_default h = 0 \/ btn h (button_default h) = true.
Proof.
  intros h. unfold button_default. destruct (btn h BTN_MIDDLE) eqn:E; [right; exact E |].
  cbn [first_button]. destruct (btn h BTN_SIDE) eqn:E1; [right; exact E1 |].
  destruct (btn h 276) eqn:E2; [right; exact E2 |].
  destruct (btn h 277) eqn:E3; [right; exact E3 |].
  destruct (btn h 278) eqn:E4; [right; exact E4 |].
  destruct (btn h BTN_TASK) eqn:E5; [right; exact E5 |].
  destruct (btn h BTN_RIGHT) eqn:E6; [right; exact E6 | left; reflexivity].
Qed.

Lemma init_ok : forall h, conf_ok h (init h).
Proof.
  intros h. constructor; cbn [init c_tap c_wmap c_drag c_draglock c_send c_wmethod c_wbutton c_lockst c_lock c_tpmethod c_middef c_angle]; auto.
  - unfold tap_default. destruct (hooks_tap h), (negb (btn h BTN_LEFT)); auto.
  - destruct (hooks_tap h); auto.
  - intros ->. unfold method_default. destruct (trackpoint h), (negb (wheel h) && negb (hwheel h) && btn h BTN_MIDDLE)%bool; auto.
  - destruct (hooks_btnscroll h); [apply button_default_ok | auto].
  - intros ->. unfold tp_method_default, tp_methods. destruct (dm4 h), (2 <=? ntouches h); cbn; auto.
Qed.

Lemma set_ok : forall h o v c, (o = Rotation -> 0 <= v) -> conf_ok h c -> conf_ok h (snd (set h o v c)).
Proof.
  intros h o v c Hv C. destruct C as [K1 K2 K3 K4 K5 K6 K7 K8 K9 K10 K11].
  assert (C : conf_ok h c) by (constructor; assumption).
  destruct o; cbn [set].
  - destruct (_ && _)%bool eqn:E; [exact C |]. destruct (get_finger_count h =? 0) eqn:F; [exact C |].
    constructor; cbn; auto. destruct (v =? 1); auto.
  - destruct (negb _) eqn:E; [exact C |]. destruct (get_finger_count h =? 0) eqn:F; [exact C |]. cbn [snd].
    destruct (update_map_wanted (set_c_wmap c v)) as [x ->]. unfold is01 in E. bb. destruct E; bb; constructor; cbn; auto.
  - destruct (_ && _)%bool eqn:E; [exact C |]. destruct (get_finger_count h =? 0) eqn:F; [exact C |].
    bb. destruct E; bb; constructor; cbn; auto.
  - destruct (_ && _)%bool eqn:E; [exact C |]. destruct (get_finger_count h =? 0) eqn:F; [exact C |].
    bb. destruct E; bb; constructor; cbn; auto.
  - destruct (negb _) eqn:E; [exact C |]. bb. apply modes_cases in E.
    unfold sendevents_set. destruct (kind_ h) eqn:Ek;
      [ | | | | ]; destruct E as [-> | [-> | [Et [Ei [-> | ->]]]]]; try discriminate; cbn -[Z.eqb];
      destruct (_ =? c_send c) eqn:Es; cbn [snd]; try exact C; constructor; cbn; auto; try tauto; try (rewrite Ek in *; auto).
  - destruct (negb _); [exact C |]. constructor; cbn; auto.
  - destruct (negb _); [exact C |]. cbn [snd]. destruct (change_left_wanted (set_c_wleft c (truth v))) as [x ->]. constructor; cbn; auto.
  - destruct (negb _); [exact C |]. destruct (negb _); [exact C |]. destruct (hooks_tap h) eqn:Et; [| exact C]. constructor; cbn; auto.
  - destruct (v =? 0); [| destruct (v =? 1)]; try destruct (negb _); try exact C; cbn [snd];
      match goal with |- conf_ok h (apply_mid ?x) => destruct (apply_mid_wanted x) as [y ->] end; constructor; cbn; auto.
  - destruct (negb _) eqn:E; [exact C |]. destruct (negb (_ =? v)) eqn:F; [exact C |]. bb.
    unfold get_scroll_methods in F. destruct (hooks_tap h) eqn:Et.
    + cbn [snd]. destruct (v =? c_tpmethod c); [exact C |]. constructor; cbn; auto. intros _. split; [exact F |].
      ors E; bb; auto. subst v. revert F. unfold tp_methods. destruct (dm4 h), (2 <=? ntouches h); discriminate.
    + destruct (hooks_btnscroll h) eqn:Eb; [| exact C]. cbn [snd].
      destruct (change_scroll_wanted (set_c_wmethod c v) K8) as (m & b & k & ->).
      constructor; cbn; auto; [intros _; ors E; bb; subst v; auto; discriminate | congruence].
  - destruct (no_btnscroll h); [exact C |]. destruct (_ && _)%bool eqn:E; [exact C |]. cbn [snd].
    destruct (change_scroll_wanted (set_c_wbutton c v) K8) as (m & b & k & ->).
    constructor; cbn; auto. bb. unfold truth in E. destruct E; bb; auto.
  - destruct (no_btnscroll h); [exact C |]. destruct (negb _) eqn:E; [exact C |]. cbn [snd].
    destruct (change_scroll_wanted (set_c_wlock c (v =? 1)) K8) as (m & b & k & ->).
    constructor; cbn; auto.
  - destruct (_ && _)%bool eqn:E; [exact C |]. destruct (negb (hooks_dwt h)) eqn:F; [exact C |].
    constructor; cbn; auto.
  - destruct (negb _) eqn:F; [exact C |]. destruct (_ || _)%bool eqn:E; [exact C |].
    bb. specialize (Hv eq_refl). constructor; cbn; auto.
    apply Z.mod_divide in H0; [| lia]. destruct H0 as [q ->]. lia.
Qed.
Lemma step_ok : forall h c x, (forall v, x = Set_ Rotation v -> 0 <= v) -> conf_ok h c -> conf_ok h (step h c x).
Proof.
  intros h c x Hx C. destruct x as [o v | l s m t |]; cbn [step].
  - apply set_ok; [intros ->; eauto | exact C].
  - destruct C. constructor; cbn; auto.
  - destruct C as [K1 K2 K3 K4 K5 K6 K7 K8 K9 K10 K11]. destruct (change_left_wanted c) as [x ->].
    destruct (change_scroll_wanted (set_c_left c x) K8) as (m & b & k & ->).
    match goal with |- conf_ok h (update_map (apply_mid ?x)) => destruct (apply_mid_wanted x) as [y ->] end.
    match goal with |- conf_ok h (update_map ?x) => destruct (update_map_wanted x) as [z ->] end.
    constructor; cbn; auto.
Qed.
Lemma run_snoc : forall h l x, run h (l ++ [x]) = step h (run h l) x.
Proof. intros. unfold run. rewrite fold_left_app. reflexivity. Qed.
Lemma unsigned_snoc : forall l x, unsigned (l ++ [x]) -> unsigned l /\ forall v, x = Set_ Rotation v -> 0 <= v.
Proof. intros l x H. split; [intros v Hv; apply H, in_or_app; auto | intros v ->; apply H, in_or_app; right; left; reflexivity]. Qed.
Lemma run_ok : forall h l, unsigned l -> conf_ok h (run h l).
Proof.
  intros h l. induction l as [| x l IH] using rev_ind; intros H; [apply init_ok |].
  apply unsigned_snoc in H. destruct H as [H1 H2]. rewrite run_snoc. apply step_ok; auto.
Qed.

(** * Statuses *)
Lemma in01 : forall v, one_of v [0; 1] <-> v = 0 \/ v = 1.
Proof. intros v. unfold one_of. cbn. intuition. Qed.
Lemma in012 : forall v, one_of v [0; 1; 2] <-> v = 0 \/ v = 1 \/ v = 2.
Proof. intros v. unfold one_of. cbn. intuition. Qed.
Lemma in0124 : forall v, one_of v [0; 1; 2; 4] <-> v = 0 \/ v = 1 \/ v = 2 \/ v = 4.
Proof. intros v. unfold one_of. cbn. intuition. Qed.
Lemma inturn : forall v, one_of v [0; 90; 180; 270] <-> v = 0 \/ v = 90 \/ v = 180 \/ v = 270.
Proof. intros v. unfold one_of. cbn. intuition. Qed.
Lemma turn_spec : forall v, 0 <= v -> ((360 <=? v) || negb (v mod 90 =? 0))%bool = false <-> one_of v [0; 90; 180; 270].
Proof.
  intros v Hv. rewrite inturn. split.
  - intros H. bb. apply Z.mod_divide in H0; [| lia]. destruct H0 as [q ->]. lia.
  - intros [-> | [-> | [-> | ->]]]; reflexivity.
Qed.

Lemma set_status : forall h o v c, (o = Rotation -> 0 <= v) -> conf_ok h c ->
  (o = ScrollLock -> v = 0 -> on_button (offers h)) -> documented (offers h) o v (fst (set h o v c)).
Proof.
  intros h o v c Hv C Hl.
  assert (TF : forall w, truth w = false <-> w = 0) by (intros w; unfold truth; rewrite negb_false_iff; apply Z.eqb_eq).
  destruct o; cbn [set documented]; cbn [offers fingers modes natural left clicks middle scrolls button dwt rotation].
  1,3,4: rewrite in01; destruct (_ && _)%bool eqn:E; [left; split; [bb; lia | reflexivity] |];
    assert (E1 : v = 0 \/ v = 1) by (bb; destruct E; bb; auto);
    destruct (get_finger_count h =? 0) eqn:F; bb; cbn [fst];
    [destruct E1 as [-> | ->]; [right; right | right; left]; repeat split; auto | right; right; auto].
  - rewrite in01. unfold is01. destruct (negb _) eqn:E; [left; split; [bb; lia | reflexivity] |].
    assert (E1 : v = 0 \/ v = 1) by (bb; destruct E; bb; auto).
    destruct (get_finger_count h =? 0) eqn:F; bb; auto.
  - destruct (Z.land (get_send_modes h) v =? v) eqn:E; cbn [negb].
    + left. pose proof (proj1 (land_within _ _ (modes_pos h)) E) as W. split; [exact W |].
      bb. apply modes_cases in E. unfold sendevents_set.
      destruct (kind_ h) eqn:Ek; destruct E as [-> | [-> | [Et [Ei [-> | ->]]]]]; try discriminate;
        cbn -[Z.eqb]; destruct (_ =? c_send c); reflexivity.
    + right. split; [| reflexivity]. intros W. apply (land_within _ _ (modes_pos h)) in W. congruence.
  - destruct (hooks_natural h); cbn; auto.
  - destruct (hooks_left h); cbn; auto.
  - rewrite in012. destruct (negb (_ || _ || _)) eqn:E; [left; split; [bb; lia | reflexivity] |].
    assert (E1 : v = 0 \/ v = 1 \/ v = 2) by (bb; ors E; bb; auto).
    right. destruct (Z.land (get_click_methods h) v =? v) eqn:F; cbn [negb].
    + left. split; [exact E1 |]. split; [apply (land_within _ _ (clicks_pos h)), F |]. destruct (hooks_tap h); reflexivity.
    + right. split; [exact E1 |]. split; [| reflexivity]. intros W. apply (land_within _ _ (clicks_pos h)) in W. congruence.
  - rewrite in01. destruct (v =? 0) eqn:E0; bb; [subst v; right; right; destruct (hooks_mid h); cbn; auto |].
    destruct (v =? 1) eqn:E1; bb; [subst v; right; destruct (hooks_mid h); cbn; auto 6 | left; split; [lia | reflexivity]].
  - rewrite in0124. destruct (negb (_ || _ || _ || _)) eqn:E; [left; split; [bb; lia | reflexivity] |].
    assert (E1 : v = 0 \/ v = 1 \/ v = 2 \/ v = 4) by (bb; ors E; bb; auto).
    right. destruct (Z.land (get_scroll_methods h) v =? v) eqn:F; cbn [negb].
    + left. split; [exact E1 |]. split; [apply (land_within _ _ (scrolls_pos h)), F |]. destruct (hooks_tap h), (hooks_btnscroll h); reflexivity.
    + right. split; [exact E1 |]. split; [| reflexivity]. intros W. apply (land_within _ _ (scrolls_pos h)) in W. congruence.
  - destruct (no_btnscroll h) eqn:E.
    + left. split; [| reflexivity]. intros W. apply no_btnscroll_spec in W. congruence.
    + apply no_btnscroll_spec in E. right. destruct (truth v) eqn:T; cbn [andb].
      * assert (v <> 0) by (intros Z; apply TF in Z; congruence). destruct (btn h v) eqn:B; cbn; auto 6.
      * apply TF in T. right. auto.
  - destruct (no_btnscroll h) eqn:E.
    + assert (N : ~ on_button (offers h)) by (intros W; apply no_btnscroll_spec in W; congruence).
      right; left. split; [exact N |]. split; [intros Z; apply N, Hl; auto | reflexivity].
    + apply no_btnscroll_spec in E. rewrite in01. right; right. unfold is01. destruct (negb _) eqn:F.
      * left. split; [exact E |]. split; [bb; lia | reflexivity].
      * right. split; [exact E |]. split; [bb; destruct F; bb; auto | reflexivity].
  - rewrite in01. destruct (_ && _)%bool eqn:E; [left; split; [bb; lia | reflexivity] |].
    assert (E1 : v = 0 \/ v = 1) by (bb; destruct E; bb; auto).
    right. destruct (hooks_dwt h) eqn:F; cbn [negb fst]; [right; auto |].
    destruct E1 as [-> | ->]; [right | left]; auto.
  - destruct (hooks_rotation h) eqn:F; cbn [negb].
    + specialize (Hv eq_refl). right; right. destruct ((360 <=? v) || negb (v mod 90 =? 0))%bool eqn:E.
      * right. repeat split. intros W. apply (turn_spec v Hv) in W. congruence.
      * left. apply (turn_spec v Hv) in E. auto.
    + destruct (truth v) eqn:T; cbn [fst]; [right; left; repeat split; intros Z; apply TF in Z; congruence | left; apply TF in T; auto].
Qed.

(** documented results are unique *)
Lemma documented_unique : forall f o v r r', documented f o v r -> documented f o v r' -> r = r'.
Proof.
  intros f o v r r'. destruct o; cbn [documented]; rewrite ?in01, ?in012, ?in0124;
    intros H H'; decompose [or and] H; decompose [or and] H'; try congruence; try tauto; try lia; exfalso; subst; try congruence; tauto.
Qed.

(** * Effects *)
Lemma set_refused : forall h o v c, fst (set h o v c) <> SUCCESS -> snd (set h o v c) = c.
Proof.
  intros h o v c. destruct o; cbn [set]; try (unfold sendevents_set; destruct (kind_ h));
    repeat match goal with
    | |- context [match ?b with true => _ | false => _ end] => destruct b; cbn [fst snd]
    | |- context [match ?k with Touchpad => _ | _ => _ end] => destruct k
    end; try congruence.
Qed.

Ltac wanted := repeat match goal with
  | |- context [update_map ?x] => destruct (update_map_wanted x) as [? ->]
  | |- context [apply_mid ?x] => destruct (apply_mid_wanted x) as [? ->]
  | |- context [change_left ?x] => destruct (change_left_wanted x) as [? ->]
  | K : c_lockst ?c = c_lock ?c |- context [change_scroll ?x] => destruct (change_scroll_wanted x K) as (? & ? & ? & ->)
  end.

Lemma set_shown : forall h o v c, (o = Rotation -> 0 <= v) -> conf_ok h c -> o <> ScrollLock -> fst (set h o v c) = SUCCESS -> shown o v (get h o (snd (set h o v c))).
Proof.
  intros h o v c Hv C Ho. pose proof (ok_lock h c C) as K.
  destruct o; try congruence; cbn [set shown get]; rewrite ?no_btnscroll_eq; unfold is01.
  1,3,4: destruct (_ && _)%bool eqn:E; cbn [fst snd]; [congruence |]; destruct (get_finger_count h =? 0) eqn:F; cbn [fst snd];
    [unfold truth; destruct (v =? 0) eqn:Z; cbn; bb; [auto | congruence] | intros _; cbn; bb; destruct E; bb; subst; reflexivity].
  - destruct (negb _) eqn:E; cbn [fst snd]; [congruence |]. destruct (get_finger_count h =? 0) eqn:F; cbn [fst snd]; [congruence |]. intros _. wanted. reflexivity.
  - destruct (Z.land (get_send_modes h) v =? v) eqn:E; cbn [negb]; [| cbn; congruence].
    bb. apply modes_cases in E. unfold sendevents_set.
    destruct (kind_ h) eqn:Ek; destruct E as [-> | [-> | [Et [Ei [-> | ->]]]]]; try discriminate;
      cbn -[Z.eqb]; destruct (_ =? c_send c) eqn:Q; bb; cbn; auto.
  - destruct (hooks_natural h); cbn [negb fst snd]; [| congruence]. intros _. unfold truth. cbn. destruct (v =? 0) eqn:Z; bb; auto.
  - destruct (hooks_left h); cbn [negb fst snd]; [| congruence]. intros _. wanted. unfold truth. cbn. destruct (v =? 0) eqn:Z; bb; auto.
  - destruct (negb (_ || _ || _)) eqn:E; cbn [fst snd]; [congruence |]. clear E. unfold get_click_methods. destruct (hooks_tap h) eqn:T.
    + destruct (negb _); cbn [fst snd]; [congruence | reflexivity].
    + rewrite Z.land_0_l. destruct (0 =? v) eqn:Z; cbn; bb; congruence.
  - destruct (v =? 0) eqn:E0; [| destruct (v =? 1) eqn:E1]; cbn [fst snd]; [| | congruence]; bb; subst v;
      destruct (hooks_mid h); cbn [negb fst snd]; try congruence; intros _; wanted; reflexivity.
  - destruct (negb (_ || _ || _ || _)) eqn:E; cbn [fst snd]; [congruence |]. clear E. unfold get_scroll_methods. destruct (hooks_tap h) eqn:T.
    + destruct (negb _); cbn [fst snd]; [congruence |]. intros _. destruct (v =? c_tpmethod c) eqn:Q; bb; [auto | reflexivity].
    + destruct (hooks_btnscroll h).
      * destruct (negb _); cbn [fst snd]; [congruence |]. intros _. wanted. reflexivity.
      * rewrite Z.land_0_l. destruct (0 =? v) eqn:Z; cbn; bb; congruence.
  - destruct (hooks_btnscroll h); cbn [negb fst snd]; [| congruence].
    destruct (_ && _)%bool; cbn [fst snd]; [congruence |]. intros _. wanted. reflexivity.
  - destruct (_ && _)%bool eqn:E; cbn [fst snd]; [congruence |]. destruct (hooks_dwt h); cbn [negb fst snd].
    + intros _. cbn. bb. destruct E; bb; subst; reflexivity.
    + unfold truth. destruct (v =? 0) eqn:Z; cbn; bb; congruence.
  - destruct (hooks_rotation h); cbn [negb fst snd].
    + destruct (_ || _)%bool; cbn [fst snd]; [congruence | reflexivity].
    + unfold truth. destruct (v =? 0) eqn:Z; cbn; bb; congruence.
Qed.

Lemma set_others : forall h o o' v c, conf_ok h c -> o' <> o -> o' <> ScrollLock -> get h o' (snd (set h o v c)) = get h o' c.
Proof.
  intros h o o' v c C Hne Hl. pose proof (ok_lock h c C) as K.
  destruct o; cbn [set]; try (unfold sendevents_set; destruct (kind_ h));
    repeat match goal with
    | |- context [snd (match ?b with true => _ | false => _ end)] => destruct b; cbn [fst snd]
    | |- context [match ?k with Touchpad => _ | _ => _ end] => destruct k
    | |- context [if ?v =? c_tpmethod c then _ else _] => destruct (v =? c_tpmethod c)
    end; try reflexivity; wanted; destruct o'; try congruence; reflexivity.
Qed.

Lemma busy_same : forall h o c l s m t, get h o (step h c (Busy l s m t)) = get h o c.
Proof. intros. destruct o; reflexivity. Qed.
Lemma settle_same : forall h o c, conf_ok h c -> o <> ScrollLock -> get h o (step h c Settle) = get h o c.
Proof. intros h o c C Ho. pose proof (ok_lock h c C) as K. cbn [step]. 
  destruct (change_left_wanted c) as [x ->]. destruct (change_scroll_wanted (set_c_left c x) K) as (a & b & k & ->). wanted. destruct o; try congruence; reflexivity. Qed.

Lemma init_default : forall h o, get h o (init h) = get_default h o (init h).
Proof.
  intros h o. destruct o; unfold get, get_default; rewrite ?no_btnscroll_eq; unfold get_finger_count, init;
    cbn [c_tap c_wmap c_drag c_draglock c_send c_natural c_wleft c_click c_wmid c_middef c_wmethod c_wbutton c_lockst c_tpmethod c_dwt c_angle negb b2z];
    destruct (hooks_tap h), (hooks_btnscroll h), (hooks_dwt h); cbn [negb b2z];
    try reflexivity; try (destruct (tap_count h =? 0); reflexivity); try (destruct (hooks_natural h); reflexivity);
    try (destruct (hooks_left h); reflexivity); try (destruct (hooks_rotation h); reflexivity).
Qed.
Lemma default_const : forall h o c, conf_ok h c -> get_default h o c = get_default h o (init h).
Proof. intros h o c C. destruct o; try reflexivity. cbn [get_default init c_middef]. rewrite (ok_middef h c C). reflexivity. Qed.

Theorem history : forall h o l, unsigned l -> o <> ScrollLock -> last_set (offers h) o (get_default h o (run h l)) l (get h o (run h l)).
Proof.
  intros h o l Hu Ho. rewrite (default_const h o _ (run_ok h l Hu)).
  induction l as [| x l IH] using rev_ind.
  - cbn [run fold_left]. change (run h []) with (init h). rewrite init_default. constructor.
  - apply unsigned_snoc in Hu. destruct Hu as [Hu Hx]. specialize (IH Hu). pose proof (run_ok h l Hu) as C. rewrite run_snoc.
    destruct x as [o' v | b1 b2 b3 b4 |].
    + assert (D : o = o' \/ o <> o') by (destruct o, o'; (left; reflexivity) || (right; discriminate)).
      destruct D as [<- | D].
      * cbn [step]. assert (Hv : o = Rotation -> 0 <= v) by (intros ->; eauto).
        pose proof (set_status h o v _ Hv C ltac:(congruence)) as S.
        destruct (fst (set h o v (run h l))) eqn:E.
        -- apply ls_set; [exact S |]. apply set_shown; auto.
        -- rewrite set_refused by congruence. eapply ls_refused; eauto. discriminate.
        -- rewrite set_refused by congruence. eapply ls_refused; eauto. discriminate.
      * cbn [step]. apply ls_other; [congruence |]. rewrite set_others; auto.
    + apply ls_other; [congruence |]. rewrite busy_same. exact IH.
    + apply ls_other; [congruence |]. rewrite settle_same; auto.
Qed.
