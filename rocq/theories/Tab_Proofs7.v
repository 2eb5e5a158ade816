(** * Tablet tools: the ranges of the axis values *)
Require Import Coq.ZArith.ZArith Coq.QArith.QArith Coq.QArith.Qround Coq.QArith.Qfield Coq.Lists.List Coq.Bool.Bool Coq.micromega.Lia Coq.micromega.Lqa.
From Verif Require Import Tab_Model Tab_Spec2.
Import ListNotations.
Open Scope Z_scope.

(** ** Arithmetic *)
Lemma inj_le : forall a b, a <= b -> (inject_Z a <= inject_Z b)%Q.
Proof. intros a b H. rewrite <- Zle_Qle. exact H. Qed.
Lemma inj_lt : forall a b, a < b -> (inject_Z a < inject_Z b)%Q.
Proof. intros a b H. rewrite <- Zlt_Qlt. exact H. Qed.
Lemma ratio_unit : forall n m, 0 <= n <= m -> 0 < m -> between 0 (ratio n m) 1.
Proof.
  intros n m H P. unfold ratio. pose proof (inj_lt 0 m P) as L. split.
  - apply Qle_shift_div_l; [exact L|]. rewrite Qmult_0_l. apply (inj_le 0 n). lia.
  - apply Qle_shift_div_r; [exact L|]. rewrite Qmult_1_l. apply inj_le. lia.
Qed.
Lemma ratio_le1 : forall n m, n <= m -> 0 < m -> (ratio n m <= 1)%Q.
Proof. intros n m H P. unfold ratio. apply Qle_shift_div_r; [exact (inj_lt 0 m P)|]. rewrite Qmult_1_l. apply inj_le. exact H. Qed.
Lemma unit_range_unit : forall d a v, amin d a < amax d a -> amin d a <= v <= amax d a -> between 0 (unit_range d a v) 1.
Proof. intros d a v L H. apply ratio_unit; lia. Qed.
Lemma fmod_range : forall q, (0 <= fmod360 q)%Q /\ (fmod360 q < 360)%Q.
Proof.
  intros q. unfold fmod360. pose proof (Qfloor_le (q / 360)) as A. pose proof (Qlt_floor (q / 360)) as B. rewrite inject_Z_plus in B.
  assert (E : (q == 360 * (q / 360))%Q) by (field; discriminate). set (r := (q / 360)%Q) in *. set (f := inject_Z (Qfloor r)) in *. change (inject_Z 1) with 1%Q in B. split; lra.
Qed.
Lemma slider_range : forall d v, amin d SLIDER < amax d SLIDER -> amin d SLIDER <= v <= amax d SLIDER -> between (-1) (norm_slider d v) 1.
Proof. intros d v L H. destruct (unit_range_unit d SLIDER v L H) as [A B]. unfold norm_slider. split; lra. Qed.
Lemma pressure_range : forall d o v, (p_upper o < amax d PRESSURE /\ p_offset o < amax d PRESSURE) -> v <= amax d PRESSURE -> between 0 (norm_pressure d o v) 1.
Proof.
  intros d o v [U O] H. unfold norm_pressure. cbv zeta. set (off := if p_has o then p_offset o else p_upper o). assert (F : off < amax d PRESSURE) by (unfold off; destruct (p_has o); assumption).
  destruct (Qle_bool (ratio (v - off) (amax d PRESSURE - off)) 0) eqn:E; [split; lra|]. split.
  - destruct (Qlt_le_dec 0 (ratio (v - off) (amax d PRESSURE - off))) as [L | L]; [lra|]. apply Qle_bool_iff in L. congruence.
  - apply ratio_le1; lia.
Qed.
Lemma most_tilt_nonneg : forall d a, sane d -> (0 <= most_tilt d a)%Q.
Proof.
  intros d a (R & _ & _ & _ & D & _). unfold most_tilt. destruct (has_abs d a) eqn:E; cbn [negb]; [|lra]. destruct (R a E) as [L RS].
  destruct (negb (ares d a =? 0) && (0 <? amax d a) && (amin d a <? 0)) eqn:C; [|lra]. apply andb_prop in C. destruct C as [C C2]. apply andb_prop in C. destruct C as [C C1].
  apply negb_true_iff, Z.eqb_neq in C. apply Z.ltb_lt in C1, C2. apply Qle_shift_div_l; [apply (inj_lt 0); lia|]. rewrite Qmult_0_l. apply Qmult_le_0_compat; [exact D | apply (inj_le 0); lia].
Qed.
Lemma tilt_range : forall d a v, sane d -> has_abs d a = true -> amin d a <= v <= amax d a -> between (- most_tilt d a) (adjust_tilt d a v) (most_tilt d a).
Proof.
  intros d a v (R & _ & _ & _ & D & _) E H. destruct (R a E) as [L RS]. unfold most_tilt, adjust_tilt. rewrite E. cbn [negb].
  destruct (negb (ares d a =? 0) && (0 <? amax d a) && (amin d a <? 0)) eqn:C.
  - apply andb_prop in C. destruct C as [C C2]. apply andb_prop in C. destruct C as [C C1]. apply negb_true_iff, Z.eqb_neq in C. apply Z.ltb_lt in C1, C2.
    assert (P : (0 < inject_Z (ares d a))%Q) by (apply (inj_lt 0); lia). set (r := inject_Z (ares d a)) in *. set (m := Z.max (- amin d a) (amax d a)).
    pose proof (inj_le v m ltac:(lia)) as A. pose proof (inj_le (- m) v ltac:(lia)) as B. rewrite inject_Z_opp in B.
    assert (A' : (deg_per_rad d * inject_Z v <= deg_per_rad d * inject_Z m)%Q) by (rewrite (Qmult_comm _ (inject_Z v)), (Qmult_comm _ (inject_Z m)); apply Qmult_le_compat_r; assumption).
    assert (B' : (deg_per_rad d * - inject_Z m <= deg_per_rad d * inject_Z v)%Q) by (rewrite (Qmult_comm _ (inject_Z v)), (Qmult_comm _ (- inject_Z m)); apply Qmult_le_compat_r; assumption).
    split.
    + apply Qle_shift_div_l; [exact P|]. setoid_replace (- (deg_per_rad d * inject_Z m / r) * r)%Q with (deg_per_rad d * - inject_Z m)%Q; [exact B'|]. field. lra.
    + apply Qle_shift_div_r; [exact P|]. setoid_replace (deg_per_rad d * inject_Z m / r * r)%Q with (deg_per_rad d * inject_Z m)%Q; [exact A'|]. field. lra.
  - destruct (unit_range_unit d a v L H) as [A B]. split; lra.
Qed.
Lemma between_opp : forall m x, between (- m) x m -> between (- m) (- x) m.
Proof. intros m x [A B]. split; lra. Qed.
Lemma qsum_between : forall m l, (forall x, In x l -> between (- m) x m) -> between (- (inject_Z (Z.of_nat (length l)) * m)) (qsum l) (inject_Z (Z.of_nat (length l)) * m).
Proof.
  intros m l. induction l as [|x l IH]; intros H.
  - cbn [length qsum fold_right]. change (Z.of_nat 0) with 0. split; change (inject_Z 0) with 0%Q; lra.
  - destruct (H x (or_introl eq_refl)) as [A B]. destruct (IH (fun y Y => H y (or_intror Y))) as [C D]. cbn [qsum fold_right]. fold (qsum l). cbn [length]. rewrite Nat2Z.inj_succ.
    unfold Z.succ. rewrite inject_Z_plus. change (inject_Z 1) with 1%Q. set (k := inject_Z (Z.of_nat (length l))) in *. split; lra.
Qed.
Lemma mean_between : forall m l n, length l = n -> (0 < n)%nat -> (forall x, In x l -> between (- m) x m) -> between (- m) (qsum l / inject_Z (Z.of_nat n)) m.
Proof.
  intros m l n <- P H. destruct (qsum_between m l H) as [A B]. assert (Q0 : (0 < inject_Z (Z.of_nat (length l)))%Q) by (apply (inj_lt 0); lia). set (k := inject_Z (Z.of_nat (length l))) in *. split.
  - apply Qle_shift_div_l; [exact Q0|]. lra.
  - apply Qle_shift_div_r; [exact Q0|]. lra.
Qed.
Lemma range_percent_below : forall d a p, 0 <= amin d a -> amin d a < amax d a -> p < 100 -> 0 <= p -> range_percent d a p < amax d a.
Proof. intros d a p M L P P0. unfold range_percent. rewrite Z.quot_div_nonneg by nia. apply Z.div_lt_upper_bound; nia. Qed.

(** ** The invariant *)
Definition ranged (a : axis) : bool := match a with DISTANCE | PRESSURE | SLIDER | TILT_X | TILT_Y => true | _ => false end.
Record G (d : device) (s : tab) : Prop := {
  g_ax : in_ranges d (ax s);
  g_samples : forall k, in_ranges d (samples s k);
  g_absv : within d (absv s);
  g_locals : Forall (suits d) (locals s);
  g_globals : Forall (suits d) (globals s);
  g_changed : forall a, ranged a = true -> changed s a = true -> has_abs d a = true }.
Lemma G_frame : forall d s s', ax s' = ax s -> samples s' = samples s -> absv s' = absv s -> locals s' = locals s -> globals s' = globals s -> changed s' = changed s -> G d s -> G d s'.
Proof. intros d s s' A B C D E F H. destruct H. constructor; rewrite ?A, ?B, ?C, ?D, ?E, ?F; assumption. Qed.
Lemma G_ax : forall d s a, in_ranges d a -> G d s -> G d (set_ax s a).
Proof. intros d s a A [B C D E F H]. constructor; assumption. Qed.
Lemma G_changed : forall d s c, (forall a, ranged a = true -> c a = true -> changed s a = true \/ has_abs d a = true) -> G d s -> G d (set_changed s c).
Proof. intros d s c A [B C D E F H]. constructor; try assumption. cbn [changed set_changed]. intros a R CA. destruct (A a R CA) as [X | X]; [exact (H a R X) | exact X]. Qed.
Lemma G_no_axes : forall d s, G d s -> G d (set_changed s no_axes).
Proof. intros d s. apply G_changed. intros a _ X. discriminate X. Qed.
Lemma G_absv : forall d s v, within d v -> G d s -> G d (set_absv s v).
Proof. intros d s a A [B C D E F H]. constructor; assumption. Qed.
Lemma G_globals : forall d s v, Forall (suits d) v -> G d s -> G d (set_globals s v).
Proof. intros d s a A [B C D E F H]. constructor; assumption. Qed.
Lemma G_locals : forall d s v, Forall (suits d) v -> G d s -> G d (set_locals s v).
Proof. intros d s a A [B C D E F H]. constructor; assumption. Qed.
Lemma G_samples : forall d s v, (forall k, in_ranges d (v k)) -> G d s -> G d (set_samples s v).
Proof. intros d s a A [B C D E F H]. constructor; assumption. Qed.
Ltac fr H := eapply G_frame; [| | | | | | exact H]; reflexivity.

(** ** Axes *)
Lemma set_pt_ranges : forall d a p, in_ranges d a -> in_ranges d (set_pt a p).
Proof. intros d a p H. exact H. Qed.
Lemma set_delta_ranges : forall d a p, in_ranges d a -> in_ranges d (set_delta a p).
Proof. intros d a p H. exact H. Qed.
Lemma set_wheel_ranges : forall d a p, in_ranges d a -> in_ranges d (set_wheel a p).
Proof. intros d a p H. exact H. Qed.
Lemma set_wheel_discrete_ranges : forall d a p, in_ranges d a -> in_ranges d (set_wheel_discrete a p).
Proof. intros d a p H. exact H. Qed.
Lemma set_pressure_ranges : forall d a p, between 0 p 1 -> in_ranges d a -> in_ranges d (set_pressure a p).
Proof. intros d a p P (_ & B & C & D & E & F). exact (conj P (conj B (conj C (conj D (conj E F))))). Qed.
Lemma set_distance_ranges : forall d a p, between 0 p 1 -> in_ranges d a -> in_ranges d (set_distance a p).
Proof. intros d a p P (A & _ & C & D & E & F). exact (conj A (conj P (conj C (conj D (conj E F))))). Qed.
Lemma set_slider_ranges : forall d a p, between (-1) p 1 -> in_ranges d a -> in_ranges d (set_slider a p).
Proof. intros d a p P (A & B & _ & D & E & F). exact (conj A (conj B (conj P (conj D (conj E F))))). Qed.
Lemma set_rotation_ranges : forall d a p, in_ranges d a -> in_ranges d (set_rotation a (fmod360 p)).
Proof. intros d a p (A & B & C & _ & E & F). exact (conj A (conj B (conj C (conj (fmod_range p) (conj E F))))). Qed.
Lemma set_tilt_ranges : forall d a x y, between (- most_tilt d TILT_X) x (most_tilt d TILT_X) -> between (- most_tilt d TILT_Y) y (most_tilt d TILT_Y) -> in_ranges d a -> in_ranges d (set_tilt a (x, y)).
Proof. intros d a x y P P' (A & B & C & D & _ & _). exact (conj A (conj B (conj C (conj D (conj P P'))))). Qed.
Lemma axes0_ranges : forall d, sane d -> in_ranges d axes0.
Proof.
  intros d S. pose proof (most_tilt_nonneg d TILT_X S). pose proof (most_tilt_nonneg d TILT_Y S). unfold in_ranges, axes0, between. cbn [pressure distance slider rotation tilt fst snd].
  refine (conj (conj _ _) (conj (conj _ _) (conj (conj _ _) (conj (conj _ _) (conj (conj _ _) (conj _ _)))))); lra.
Qed.

Lemma G_need : forall d s a, G d s -> G d (need_abs d s a).
Proof. intros d s a H. unfold need_abs. destruct (has_abs d a); [exact H | fr H]. Qed.
Lemma need_ax : forall d s a, ax (need_abs d s a) = ax s /\ absv (need_abs d s a) = absv s /\ lh (need_abs d s a) = lh s /\ changed (need_abs d s a) = changed s.
Proof. intros d s a. unfold need_abs. destruct (has_abs d a); repeat split; reflexivity. Qed.
Lemma G_update_xy : forall d s, G d s -> G d (update_xy d s).
Proof. intros d s H. unfold update_xy. destruct (changed s X || changed s Y); [|exact H]. cbv zeta. apply G_ax; [|exact H]. apply set_pt_ranges. exact (g_ax _ _ H). Qed.
Lemma G_update_pressure : forall d s o, suits d o -> G d s -> G d (update_pressure d s o).
Proof.
  intros d s o SU H. unfold update_pressure. destruct (changed s PRESSURE) eqn:C; [|exact H]. cbv zeta. pose proof (g_changed _ _ H PRESSURE eq_refl C) as HA. destruct (need_ax d s PRESSURE) as (A & B & _). rewrite A, B.
  apply G_ax; [|apply G_need; exact H]. apply set_pressure_ranges; [|exact (g_ax _ _ H)]. apply pressure_range; [apply SU; exact HA | apply (g_absv _ _ H PRESSURE HA)].
Qed.
Lemma G_update_distance : forall d s, sane d -> G d s -> G d (update_distance d s).
Proof.
  intros d s SA H. unfold update_distance. destruct (changed s DISTANCE) eqn:C; [|exact H]. cbv zeta. pose proof (g_changed _ _ H DISTANCE eq_refl C) as HA. destruct (need_ax d s DISTANCE) as (A & B & _). rewrite A, B.
  apply G_ax; [|apply G_need; exact H]. apply set_distance_ranges; [|exact (g_ax _ _ H)]. apply unit_range_unit; [apply SA; exact HA | apply (g_absv _ _ H _ HA)].
Qed.
Lemma G_update_slider : forall d s, sane d -> G d s -> G d (update_slider d s).
Proof.
  intros d s SA H. unfold update_slider. destruct (changed s SLIDER) eqn:C; [|exact H]. cbv zeta. pose proof (g_changed _ _ H SLIDER eq_refl C) as HA. destruct (need_ax d s SLIDER) as (A & B & _). rewrite A, B.
  apply G_ax; [|apply G_need; exact H]. apply set_slider_ranges; [|exact (g_ax _ _ H)]. apply slider_range; [apply SA; exact HA | apply (g_absv _ _ H _ HA)].
Qed.
Lemma lh_between : forall (b : bool) m q, between (- m) q m -> between (- m) (if b then (- q)%Q else q) m.
Proof. intros [|] m q H; [apply between_opp|]; exact H. Qed.
Lemma G_update_tilt : forall d s, sane d -> G d s -> G d (update_tilt d s).
Proof.
  intros d s SA H. unfold update_tilt. destruct (changed s TILT_X || changed s TILT_Y) eqn:C; [|exact H]. cbv zeta.
  assert (HA : has_abs d TILT_X = true /\ has_abs d TILT_Y = true).
  { destruct SA as (_ & _ & _ & E & _). apply orb_prop in C. destruct C as [C | C]; [pose proof (g_changed _ _ H TILT_X eq_refl C) | pose proof (g_changed _ _ H TILT_Y eq_refl C)]; split; congruence. }
  destruct HA as [HX HY]. destruct (need_ax d (need_abs d s TILT_X) TILT_Y) as (A & B & L & _). rewrite A, B, L. destruct (need_ax d s TILT_X) as (A' & B' & L' & _). rewrite A', B', L'.
  apply G_ax; [|apply G_need, G_need; exact H].
  apply set_tilt_ranges; [apply lh_between, tilt_range; [exact SA | exact HX | exact (g_absv _ _ H _ HX)] | apply lh_between, tilt_range; [exact SA | exact HY | exact (g_absv _ _ H _ HY)] | exact (g_ax _ _ H)].
Qed.
Lemma G_update_wheel : forall d s, G d s -> G d (update_wheel d s).
Proof. intros d s H. unfold update_wheel. destruct (changed s REL_WHEEL); apply G_ax; try exact H; exact (g_ax _ _ H). Qed.
Lemma G_update_rotation : forall d s, sane d -> G d s -> G d (update_rotation d s).
Proof.
  intros d s SA H. unfold update_rotation. destruct (is_mouse (ctype s)).
  - cbv zeta.
    assert (H1 : forall s1, G d s1 -> G d (set_ax (set_changed s1 (aupd (aupd (changed s1) TILT_X false) TILT_Y false)) (set_tilt (ax s1) (0%Q, 0%Q)))).
    { intros s1 G1. pose proof (most_tilt_nonneg d TILT_X SA). pose proof (most_tilt_nonneg d TILT_Y SA). apply G_ax.
      - apply set_tilt_ranges; [split; lra | split; lra | exact (g_ax _ _ G1)].
      - apply G_changed; [|exact G1]. intros a R. unfold aupd. destruct a; cbn; intros X; first [discriminate X | left; exact X]. }
    destruct (changed s TILT_X || changed s TILT_Y); [|exact (H1 _ H)]. apply H1. apply G_changed; [|apply G_ax; [apply set_rotation_ranges; exact (g_ax _ _ H) | exact H]].
    intros a R. unfold aupd. destruct a; cbn in R |- *; intros X; first [discriminate R | left; exact X].
  - cbv zeta.
    assert (H1 : forall s1, G d s1 -> G d (if lh s1 then set_ax s1 (set_rotation (ax s1) (fmod360 (180 + rotation (ax s1))%Q)) else s1)).
    { intros s1 G1. destruct (lh s1); [|exact G1]. apply G_ax; [apply set_rotation_ranges; exact (g_ax _ _ G1) | exact G1]. }
    destruct (changed s ROTATION_Z); [|exact (H1 _ H)]. apply H1. destruct (need_ax d s ROTATION_Z) as (A & B & _). rewrite A, B. apply G_ax; [apply set_rotation_ranges; exact (g_ax _ _ H) | apply G_need; exact H].
Qed.
Lemma G_history : forall d n s a, in_ranges d a -> G d s -> G d (history_push d n s a).
Proof.
  intros d n. induction n as [|n IH]; intros s a A H; cbn [history_push]; cbv zeta.
  - match goal with |- context [set_hcount ?x ?y] => assert (H1 : G d (set_hcount x y)) end.
    { eapply (G_frame d (set_samples s _)); try reflexivity. apply G_samples; [|exact H]. intros k. destruct (Nat.eqb k _); [exact A | exact (g_samples _ _ H k)]. }
    match goal with |- G d (if ?b then _ else _) => destruct b end; [fr H1 | exact H1].
  - match goal with |- context [set_hcount ?x ?y] => assert (H1 : G d (set_hcount x y)) end.
    { eapply (G_frame d (set_samples s _)); try reflexivity. apply G_samples; [|exact H]. intros k. destruct (Nat.eqb k _); [exact A | exact (g_samples _ _ H k)]. }
    match goal with |- G d (if ?b then _ else _) => destruct b end; [apply IH; [exact A | exact H1] | exact H1].
Qed.
Lemma G_smoothen : forall d s, sane d -> G d s -> G d (fst (smoothen d s)) /\ in_ranges d (snd (smoothen d s)).
Proof.
  intros d s SA H. unfold smoothen. cbv zeta. cbn [fst snd]. split.
  - destruct (Nat.leb (hsize d) (hcount s)); [exact H | fr H].
  - destruct SA as (_ & _ & _ & _ & _ & HS). apply set_tilt_ranges; [| | apply set_pt_ranges; exact (g_ax _ _ H)]; apply mean_between; rewrite ?map_length, ?seq_length; try exact HS; try reflexivity;
      intros x IN; apply in_map_iff in IN; destruct IN as (a & <- & IN); apply in_map_iff in IN; destruct IN as (k & <- & _); unfold history_get; apply (g_samples _ _ H).
Qed.
Lemma G_process_delta : forall d s o a t, in_ranges d a -> G d s -> G d (fst (process_delta d s o a t)) /\ in_ranges d (snd (process_delta d s o a t)).
Proof.
  intros d s o a t A H. unfold process_delta. cbv zeta. cbn [fst snd]. split; [|apply set_delta_ranges; exact A]. eapply (G_frame d (set_changed s _)); try reflexivity. apply G_changed; [|exact H].
  intros x R. destruct (negb (fst (pt a) =? fst (smooth_pt s))), (negb (snd (pt a) =? snd (smooth_pt s))); unfold aupd; destruct x; cbn in R |- *; intros Y; first [discriminate R | left; exact Y].
Qed.
Lemma G_axes_chain : forall d s o, sane d -> suits d o -> G d s -> G d (update_rotation d (update_wheel d (update_tilt d (update_slider d (update_distance d (update_pressure d (update_xy d s) o)))))).
Proof. intros d s o SA SU H. apply G_update_rotation, G_update_wheel, G_update_tilt, G_update_slider, G_update_distance, G_update_pressure, G_update_xy; assumption. Qed.
Lemma G_check : forall d s o t s' a rc, sane d -> suits d o -> G d s -> check_notify_axes d s o t = (s', a, rc) -> G d s' /\ in_ranges d a.
Proof.
  intros d s o t s' a rc SA SU H E. unfold check_notify_axes in E. cbv zeta in E.
  set (s1 := if existsb (changed s) all_axes then _ else s) in E. assert (H1 : G d s1) by (unfold s1; destruct (existsb (changed s) all_axes); [apply G_axes_chain; assumption | exact H]).
  set (s2 := if econt s1 || lcont s1 then _ else s1) in E. assert (H2 : G d s2) by (unfold s2; destruct (econt s1 || lcont s1); [fr H1 | exact H1]).
  assert (H3 : G d (history_push d (hsize d) s2 (ax s2))) by (apply G_history; [exact (g_ax _ _ H2) | exact H2]).
  destruct (G_smoothen d _ SA H3) as [H4 A4]. destruct (smoothen d (history_push d (hsize d) s2 (ax s2))) as [s4 a4]. cbn [fst snd] in H4, A4.
  destruct (G_process_delta d s4 o a4 t A4 H4) as [H5 A5]. destruct (process_delta d s4 o a4 t) as [s5 a5]. cbn [fst snd] in H5, A5. injection E as <- <- _. split; assumption.
Qed.

(** ** Sending *)
Definition ev_ok (d : device) (e : tev) : Prop := forall a, axes_of e = Some a -> in_ranges d a.
Lemma ev_nil : forall d, Forall (ev_ok d) [].
Proof. constructor. Qed.
Lemma ev_one : forall d e, ev_ok d e -> Forall (ev_ok d) [e].
Proof. intros d e H. constructor; [exact H | constructor]. Qed.
Lemma G_change_rotation : forall d s b, G d s -> G d (fst (change_rotation s b)) /\ Forall (ev_ok d) (snd (change_rotation s b)).
Proof.
  intros d s b H. unfold change_rotation, apply_rotation. cbv zeta. cbn [fst snd]. split.
  - set (s1 := set_want_rotate s _). assert (H1 : G d s1) by (unfold s1; fr H). destruct (Bool.eqb (rotate s1) (want_rotate s1)); [exact H1|]. destruct (negb (outp s1)); [exact H1 | fr H1].
  - destruct (touch_dev _); [destruct b|]; try apply ev_nil. apply ev_one. intros a X. discriminate X.
Qed.
Lemma G_change_left : forall d s, G d s -> G d (fst (change_to_left_handed s)) /\ Forall (ev_ok d) (snd (change_to_left_handed s)).
Proof. intros d s H. unfold change_to_left_handed. destruct (Bool.eqb (lh s) (lh_want s)); [split; [exact H | apply ev_nil]|]. apply G_change_rotation. fr H. Qed.
Lemma G_send_prox_in : forall d s o a t s' a' out, in_ranges d a -> G d s -> send_prox_in s o a t = (s', a', out) -> G d s' /\ in_ranges d a' /\ Forall (ev_ok d) out.
Proof.
  intros d s o a t s' a' out A H E. unfold send_prox_in in E. destruct (negb (entering s)); injection E as <- <- <-.
  - refine (conj H (conj A (ev_nil d))).
  - refine (conj _ (conj A _)); [apply G_no_axes; fr H|]. apply ev_one. intros x X. injection X as <-. exact A.
Qed.
Lemma G_send_tip : forall d s o a t s' a' out b, in_ranges d a -> G d s -> send_tip s o a t = (s', a', out, b) -> G d s' /\ in_ranges d a' /\ Forall (ev_ok d) out.
Proof.
  intros d s o a t s' a' out b A H E. unfold send_tip in E. destruct (econt s); [|destruct (lcont s)]; injection E as <- <- <- _.
  - refine (conj _ (conj A _)); [apply G_no_axes; fr H|]. apply ev_one. intros x X. injection X as <-. exact A.
  - refine (conj _ (conj A _)); [apply G_no_axes; fr H|]. apply ev_one. intros x X. injection X as <-. exact A.
  - refine (conj H (conj A (ev_nil d))).
Qed.
Lemma G_send_axes : forall d s o a t s' a' out, in_ranges d a -> G d s -> send_axes s o a t = (s', a', out) -> G d s' /\ in_ranges d a' /\ Forall (ev_ok d) out.
Proof.
  intros d s o a t s' a' out A H E. unfold send_axes in E. destruct (negb (axes_upd s)); injection E as <- <- <-.
  - refine (conj H (conj A (ev_nil d))).
  - refine (conj _ (conj A _)); [apply G_no_axes; fr H|]. apply ev_one. intros x X. injection X as <-. exact A.
Qed.
Lemma G_notify : forall d s o t p, G d s -> Forall (ev_ok d) (notify_buttons s o t p).
Proof. intros d s o t p H. unfold notify_buttons. cbv zeta. apply Forall_forall. intros e IN. apply in_map_iff in IN. destruct IN as (c & <- & _). intros a X. injection X as <-. exact (g_ax _ _ H). Qed.
Lemma G_send_buttons : forall d s o t s' out, G d s -> send_buttons s o t = (s', out) -> G d s' /\ Forall (ev_ok d) out.
Proof.
  intros d s o t s' out H E. unfold send_buttons in E. cbv zeta in E. injection E as <- <-. split; [fr H|]. apply Forall_app. split.
  - destruct (released_upd s); [apply G_notify; exact H | apply ev_nil].
  - destruct (pressed_upd _); [apply G_notify; fr H | apply ev_nil].
Qed.
Lemma G_send_prox_out : forall d s o a t s' out b, in_ranges d a -> G d s -> send_prox_out s o a t = (s', out, b) -> G d s' /\ Forall (ev_ok d) out.
Proof.
  intros d s o a t s' out b A H E. unfold send_prox_out in E. destruct (negb (leaving s)); injection E as <- <- _; [refine (conj H (ev_nil d))|]. split; [apply G_no_axes; fr H|].
  apply ev_one. intros x X. injection X as <-. exact A.
Qed.
Lemma G_send_events : forall d s o t s' out, sane d -> suits d o -> G d s -> send_events d s o t = (s', out) -> G d s' /\ Forall (ev_ok d) out.
Proof.
  intros d s o t s' out SA SU H E. unfold send_events in E.
  match type of E with (match ?x with _ => _ end) = _ => assert (X0 : G d (fst (fst x)) /\ in_ranges d (snd (fst x)) /\ Forall (ev_ok d) (snd x)) end.
  { destruct (leaving s); [cbn [fst snd]; refine (conj _ (conj (g_ax _ _ H) (ev_nil d))); fr H|]. destruct (check_notify_axes d s o t) as [[s1 a1] rc] eqn:EC.
    destruct (G_check _ _ _ _ _ _ _ SA SU H EC) as [H1 A1]. cbn [fst snd]. refine (conj H1 (conj A1 _)). destruct rc; [|apply ev_nil]. unfold update_rect. destruct (touch_dev s1); [|apply ev_nil].
    destruct (arb s1); try apply ev_nil. apply ev_one. intros x X. discriminate X. }
  match type of E with (match ?x with _ => _ end) = _ => destruct x as [[s0 a0] o0] end. cbn [fst snd] in X0. destruct X0 as (H0 & A0 & F0).
  destruct (send_prox_in s0 o a0 t) as [[s1 a1] o1] eqn:E1. destruct (G_send_prox_in _ _ _ _ _ _ _ _ A0 H0 E1) as (H1 & A1 & F1).
  destruct (send_tip s1 o a1 t) as [[[s2 a2] o2] b] eqn:E2. destruct (G_send_tip _ _ _ _ _ _ _ _ _ A1 H1 E2) as (H2 & A2 & F2).
  match type of E with (match ?x with _ => _ end) = _ => assert (X3 : G d (fst (fst x)) /\ in_ranges d (snd (fst x)) /\ Forall (ev_ok d) (snd x)) end.
  { destruct b; [cbn [fst snd]; refine (conj H2 (conj A2 (ev_nil d)))|]. destruct (send_axes s2 o a2 t) as [[s3 a3] o3] eqn:E3. exact (G_send_axes _ _ _ _ _ _ _ _ A2 H2 E3). }
  match type of E with (match ?x with _ => _ end) = _ => destruct x as [[s3 a3] o3] end. cbn [fst snd] in X3. destruct X3 as (H3 & A3 & F3).
  set (s3' := set_changed (set_econt s3 false) no_axes) in E. assert (H3' : G d s3') by (unfold s3'; apply G_no_axes; fr H3). cbv zeta in E.
  destruct (send_buttons s3' o t) as [s4 o4] eqn:E4. destruct (G_send_buttons _ _ _ _ _ _ H3' E4) as [H4 F4].
  destruct (send_prox_out s4 o a3 t) as [[s5 o5] g] eqn:E5. destruct (G_send_prox_out _ _ _ _ _ _ _ _ A3 H4 E5) as [H5 F5].
  match type of E with (match ?x with _ => _ end) = _ => assert (X6 : G d (fst x) /\ Forall (ev_ok d) (snd x)) end.
  { destruct g; [|split; [exact H5 | apply ev_nil]]. destruct (G_change_left d s5 H5) as [H6 F6]. destruct (change_to_left_handed s5) as [s6 o6]. cbn [fst snd] in H6, F6 |- *. split; [|exact F6].
    eapply (G_frame d (apply_rotation s6)); try reflexivity. unfold apply_rotation. destruct (Bool.eqb (rotate s6) (want_rotate s6)); [exact H6|]. destruct (negb (outp s6)); [exact H6 | fr H6]. }
  match type of E with (match ?x with _ => _ end) = _ => destruct x as [s6 o6] end. cbn [fst snd] in X6. destruct X6 as [H6 F6]. injection E as <- <-. split; [exact H6|].
  repeat (apply Forall_app; split; try assumption).
Qed.
