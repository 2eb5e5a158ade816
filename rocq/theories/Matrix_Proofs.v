Require Import Coq.ZArith.ZArith Coq.QArith.QArith Coq.QArith.Qfield Coq.Lists.List Coq.Bool.Bool Coq.micromega.Lia Coq.micromega.Lqa Coq.Setoids.Setoid.
Require Import Verif.Matrix_Model Verif.Matrix_Spec.
Import ListNotations.
Open Scope Q_scope.

Lemma to_int_comp : forall p q, p == q -> to_int p = to_int q.
Proof.
  intros [a b] [c d] H. unfold Qeq in H. unfold to_int. cbn in *.
  rewrite <- (Z.quot_mul_cancel_r a (Zpos b) (Zpos d)) by discriminate.
  rewrite <- (Z.quot_mul_cancel_r c (Zpos d) (Zpos b)) by discriminate.
  rewrite H. f_equal. lia.
Qed.
Lemma to_int_int : forall z, to_int (inject_Z z) = z.
Proof. intros. unfold to_int. cbn. apply Z.quot_1_r. Qed.
Lemma to_int_truncates : forall q, truncates q (to_int q).
Proof.
  intros [a b]. unfold truncates, to_int, Qle, Qlt, inject_Z, Qplus, Qminus, Qopp, Qplus. cbn [Qnum Qden].
  pose proof (Z.quot_rem' a (Zpos b)) as E. split; intros H.
  - assert (0 <= a)%Z by lia. pose proof (Z.rem_bound_pos a (Zpos b) H0 ltac:(lia)). split; nia.
  - assert (a <= 0)%Z by lia.
    pose proof (Z.rem_bound_pos (- a) (Zpos b) ltac:(lia) ltac:(lia)) as R. rewrite Z.rem_opp_l in R by discriminate.
    split; nia.
Qed.
Lemma is_identity_iff : forall m, is_identity m = true <-> same m init_identity.
Proof.
  intros m. unfold is_identity, same. rewrite !andb_true_iff, !Qeq_bool_iff. split.
  - intros ((((((((H1 & H2) & H3) & H4) & H5) & H6) & H7) & H8) & H9) r c R C.
    destruct r as [|[|[|r]]]; destruct c as [|[|[|c]]]; try lia; assumption.
  - intros H.
    pose proof (H 0%nat 0%nat ltac:(lia) ltac:(lia)). pose proof (H 0%nat 1%nat ltac:(lia) ltac:(lia)). pose proof (H 0%nat 2%nat ltac:(lia) ltac:(lia)).
    pose proof (H 1%nat 0%nat ltac:(lia) ltac:(lia)). pose proof (H 1%nat 1%nat ltac:(lia) ltac:(lia)). pose proof (H 1%nat 2%nat ltac:(lia) ltac:(lia)).
    pose proof (H 2%nat 0%nat ltac:(lia) ltac:(lia)). pose proof (H 2%nat 1%nat ltac:(lia) ltac:(lia)). pose proof (H 2%nat 2%nat ltac:(lia) ltac:(lia)).
    tauto.
Qed.
Ltac mat := cbv [mult fold_left put init_identity from_farray6 init_scale init_translate to_relative nth Nat.eqb andb].
Lemma apply_mult : forall m1 m2 p, aff m2 -> qpair (apply (mult m1 m2) p) (apply m1 (apply m2 p)).
Proof.
  intros m1 m2 [x y] (A1 & A2 & A3). unfold qpair, apply, mult, fold_left. cbn [fst snd]. rewrite A1, A2, A3. split; ring.
Qed.
Lemma mult_assoc : forall a b c, same (mult a (mult b c)) (mult (mult a b) c).
Proof. intros a b c r k _ _. unfold mult, fold_left. ring. Qed.
Lemma mult_id_l : forall a, same (mult init_identity a) a.
Proof. intros a r c R C. destruct r as [|[|[|r]]]; try lia; mat; ring. Qed.
Lemma mult_id_r : forall a, same (mult a init_identity) a.
Proof. intros a r c R C. destruct c as [|[|[|c]]]; try lia; mat; ring. Qed.
Lemma mult_aff : forall a b, aff a -> aff b -> aff (mult a b).
Proof. intros a b (A1 & A2 & A3) (B1 & B2 & B3). unfold aff, mult, fold_left. rewrite A1, A2, A3, B1, B2, B3. repeat split; ring. Qed.
Lemma aff_array : forall v, aff (from_farray6 v).
Proof. intros. unfold aff, from_farray6. cbv [put init_identity Nat.eqb andb]. repeat split; reflexivity. Qed.
Lemma array_roundtrip : forall v, length v = 6%nat -> to_farray6 (from_farray6 v) = v.
Proof. intros v H. destruct v as [|a [|b [|c [|d [|e [|f [|]]]]]]]; try discriminate. reflexivity. Qed.
Lemma array_apply : forall v x y, length v = 6%nat -> qpair (apply (from_farray6 v) (x, y)) (affine v x y).
Proof. intros v x y H. destruct v as [|a [|b [|c [|d [|e [|f [|]]]]]]]; try discriminate. unfold qpair, apply, affine. mat. cbn. split; ring. Qed.

Definition wide (a : absinfo) : Prop := (minimum a <= maximum a)%Z.
Lemma range_pos : forall a, wide a -> 0 < range a.
Proof. intros a H. unfold range, wide in *. change 0 with (inject_Z 0). rewrite <- Zlt_Qlt. lia. Qed.
Lemma unnormal_normal : forall a v, wide a -> unnormal a (normal a v) == v.
Proof. intros a v H. pose proof (range_pos a H). unfold unnormal, normal. field. intros E. rewrite E in H0. apply (Qlt_irrefl 0). auto. Qed.
Lemma identity_affine : forall v x y, length v = 6%nat -> is_identity (from_farray6 v) = true -> qpair (affine v x y) (x, y).
Proof.
  intros v x y H E. destruct v as [|a [|b [|c [|d [|e [|f [|]]]]]]]; try discriminate. rewrite is_identity_iff in E.
  pose proof (E 0%nat 0%nat ltac:(lia) ltac:(lia)) as E1. pose proof (E 0%nat 1%nat ltac:(lia) ltac:(lia)) as E2. pose proof (E 0%nat 2%nat ltac:(lia) ltac:(lia)) as E3.
  pose proof (E 1%nat 0%nat ltac:(lia) ltac:(lia)) as E4. pose proof (E 1%nat 1%nat ltac:(lia) ltac:(lia)) as E5. pose proof (E 1%nat 2%nat ltac:(lia) ltac:(lia)) as E6.
  revert E1 E2 E3 E4 E5 E6. mat. intros E1 E2 E3 E4 E5 E6. unfold qpair, affine. cbn [fst snd]. rewrite E1, E2, E3, E4, E5, E6. split; ring.
Qed.
Lemma drop_comp : forall p q, qpair p q -> drop p = drop q.
Proof. intros p q [H1 H2]. unfold drop. rewrite (to_int_comp _ _ H1), (to_int_comp _ _ H2). reflexivity. Qed.
Lemma calibrate_matrix : forall d v x y, length v = 6%nat -> wide (ax d) -> wide (ay d) -> is_identity (from_farray6 v) = false ->
  qpair (apply (calibration (device_calibrate d v)) (x, y))
        (let p := affine v (normal (ax d) x) (normal (ay d) y) in (unnormal (ax d) (fst p), unnormal (ay d) (snd p))).
Proof.
  intros d v x y H WX WY E. unfold device_calibrate. rewrite E. cbn [negb calibration]. 
  pose proof (range_pos _ WX) as RX. pose proof (range_pos _ WY) as RY. unfold range in RX, RY.
  assert (NX : ~ inject_Z (maximum (ax d) - minimum (ax d) + 1) == 0) by (intros F; rewrite F in RX; apply (Qlt_irrefl 0); auto).
  assert (NY : ~ inject_Z (maximum (ay d) - minimum (ay d) + 1) == 0) by (intros F; rewrite F in RY; apply (Qlt_irrefl 0); auto).
  destruct v as [|a [|b [|c [|dd [|e [|f [|]]]]]]]; try discriminate. clear E H.
  unfold qpair, apply, affine, unnormal, normal, range. rewrite !inject_Z_opp.
  set (sx := inject_Z (maximum (ax d) - minimum (ax d) + 1)) in *. set (sy := inject_Z (maximum (ay d) - minimum (ay d) + 1)) in *.
  generalize (inject_Z (minimum (ax d))) as mx. generalize (inject_Z (minimum (ay d))) as my. intros my mx.
  mat. cbn [fst snd]. split; field; auto.
Qed.
Lemma mult_vec_drop : forall m x y, mult_vec m x y = drop (apply m (inject_Z x, inject_Z y)).
Proof. reflexivity. Qed.
Lemma calibrate_transform_lemma : forall d v x y, length v = 6%nat -> wide (ax d) -> wide (ay d) ->
  transform_absolute (device_calibrate d v) x y = drop (calibrated (ax d) (ay d) v x y).
Proof.
  intros d v x y H WX WY. unfold transform_absolute. destruct (is_identity (from_farray6 v)) eqn:E.
  - assert (A : apply_calibration (device_calibrate d v) = false) by (unfold device_calibrate; rewrite E; reflexivity). rewrite A. cbn [negb].
    assert (Q : qpair (calibrated (ax d) (ay d) v x y) (inject_Z x, inject_Z y)).
    { unfold calibrated. destruct (identity_affine v (normal (ax d) (inject_Z x)) (normal (ay d) (inject_Z y)) H E) as [E1 E2].
      split; cbn [fst snd] in *.
      - unfold unnormal. rewrite E1. apply (unnormal_normal (ax d)); auto.
      - unfold unnormal. rewrite E2. apply (unnormal_normal (ay d)); auto. }
    rewrite (drop_comp _ _ Q). unfold drop. cbn [fst snd]. rewrite !to_int_int. reflexivity.
  - assert (A : apply_calibration (device_calibrate d v) = true) by (unfold device_calibrate; rewrite E; reflexivity). rewrite A. cbn [negb].
    rewrite mult_vec_drop. apply drop_comp. apply (calibrate_matrix d v (inject_Z x) (inject_Z y)); auto.
Qed.
Lemma relative_lemma : forall d v x y, length v = 6%nat -> wide (ax d) -> wide (ay d) ->
  transform_relative (device_calibrate d v) x y =
  drop (fst (calibrated (ax d) (ay d) v x y) - fst (calibrated (ax d) (ay d) v 0 0),
        snd (calibrated (ax d) (ay d) v x y) - snd (calibrated (ax d) (ay d) v 0 0)).
Proof.
  intros d v x y H WX WY. unfold transform_relative. destruct (is_identity (from_farray6 v)) eqn:E.
  - assert (A : apply_calibration (device_calibrate d v) = false) by (unfold device_calibrate; rewrite E; reflexivity). rewrite A. cbn [negb].
    assert (Q : forall x y, qpair (calibrated (ax d) (ay d) v x y) (inject_Z x, inject_Z y)).
    { clear x y. intros x y. unfold calibrated. destruct (identity_affine v (normal (ax d) (inject_Z x)) (normal (ay d) (inject_Z y)) H E) as [E1 E2].
      split; cbn [fst snd] in *.
      - unfold unnormal. rewrite E1. apply (unnormal_normal (ax d)); auto.
      - unfold unnormal. rewrite E2. apply (unnormal_normal (ay d)); auto. }
    destruct (Q x y) as [Q1 Q2]. destruct (Q 0%Z 0%Z) as [Q3 Q4]. cbn [fst snd] in *.
    unfold drop. cbn [fst snd]. rewrite <- (to_int_int x) at 1. rewrite <- (to_int_int y) at 1. f_equal; apply to_int_comp.
    + rewrite Q1, Q3. ring.
    + rewrite Q2, Q4. ring.
  - assert (A : apply_calibration (device_calibrate d v) = true) by (unfold device_calibrate; rewrite E; reflexivity). rewrite A. cbn [negb].
    rewrite mult_vec_drop. apply drop_comp.
    destruct (calibrate_matrix d v (inject_Z x) (inject_Z y) H WX WY E) as [Q1 Q2]. destruct (calibrate_matrix d v (inject_Z 0) (inject_Z 0) H WX WY E) as [Q3 Q4].
    unfold calibrated. cbv zeta in *. cbn [fst snd] in *. split; cbn [fst snd].
    + rewrite <- Q1, <- Q3. unfold apply, to_relative. cbv [put init_identity Nat.eqb andb]. cbn [fst snd]. change (inject_Z 0) with 0. ring.
    + rewrite <- Q2, <- Q4. unfold apply, to_relative. cbv [put init_identity Nat.eqb andb]. cbn [fst snd]. change (inject_Z 0) with 0. ring.
Qed.
Lemma get_set_lemma : forall d v, length v = 6%nat ->
  let d' := calibration_set_matrix d v in
  snd (calibration_get_matrix d') = v /\
  (fst (calibration_get_matrix d') = false <-> Forall2 Qeq v [1; 0; 0; 0; 1; 0]) /\
  calibration_get_default_matrix d' = calibration_get_default_matrix d /\ ax d' = ax d /\ ay d' = ay d.
Proof.
  intros d v H d'. unfold d', calibration_set_matrix, calibration_get_matrix, calibration_get_default_matrix.
  assert (U : usermatrix (device_calibrate d v) = from_farray6 v) by (unfold device_calibrate; destruct (is_identity (from_farray6 v)); reflexivity).
  assert (D : default_calibration (device_calibrate d v) = default_calibration d) by (unfold device_calibrate; destruct (is_identity (from_farray6 v)); reflexivity).
  rewrite U, D. cbn [fst snd]. split; [apply array_roundtrip; auto|]. split; [|split; [reflexivity|]].
  - rewrite negb_false_iff, is_identity_iff. destruct v as [|a [|b [|c [|e [|f [|g [|]]]]]]]; try discriminate. split.
    + intros S. pose proof (S 0%nat 0%nat ltac:(lia) ltac:(lia)) as E1. pose proof (S 0%nat 1%nat ltac:(lia) ltac:(lia)) as E2. pose proof (S 0%nat 2%nat ltac:(lia) ltac:(lia)) as E3.
      pose proof (S 1%nat 0%nat ltac:(lia) ltac:(lia)) as E4. pose proof (S 1%nat 1%nat ltac:(lia) ltac:(lia)) as E5. pose proof (S 1%nat 2%nat ltac:(lia) ltac:(lia)) as E6.
      repeat (constructor; [assumption|]). constructor.
    + intros F r k R K. repeat match goal with H : Forall2 _ (_ :: _) _ |- _ => apply Forall2_cons_iff in H; destruct H end || idtac.
      inversion F as [|? ? ? ? F1 F']; subst. inversion F' as [|? ? ? ? F2 F'']; subst. inversion F'' as [|? ? ? ? F3 F3']; subst.
      inversion F3' as [|? ? ? ? F4 F4']; subst. inversion F4' as [|? ? ? ? F5 F5']; subst. inversion F5' as [|? ? ? ? F6 F6']; subst.
      destruct r as [|[|[|r]]]; destruct k as [|[|[|k]]]; try lia; mat; try assumption; reflexivity.
  - unfold device_calibrate. destruct (is_identity (from_farray6 v)); split; reflexivity.
Qed.
Lemma default_lemma : forall d v, length v = 6%nat -> let d' := set_default_calibration d v in
  snd (calibration_get_default_matrix d') = v /\ snd (calibration_get_matrix d') = v /\
  forall w, length w = 6%nat -> snd (calibration_get_default_matrix (calibration_set_matrix d' w)) = v.
Proof.
  intros d v H d'. unfold d', set_default_calibration.
  set (d1 := {| ax := ax d; ay := ay d; apply_calibration := apply_calibration d; calibration := calibration d; default_calibration := from_farray6 v; usermatrix := usermatrix d |}).
  destruct (get_set_lemma d1 v H) as (A & _ & C & _). unfold calibration_set_matrix in *. split; [rewrite C; apply array_roundtrip; auto|]. split; [exact A|].
  intros w HW. destruct (get_set_lemma (device_calibrate d1 v) w HW) as (_ & _ & C' & _). unfold calibration_set_matrix in C'. rewrite C', C. apply array_roundtrip; auto.
Qed.

(** Rotation. *)
Lemma quarter_vec : forall k x y, (k < 4)%nat -> mult_vec (init_rotate (90 * Z.of_nat k)) x y = quarters k (x, y).
Proof.
  intros k x y H.
  assert (I : forall q z, q == inject_Z z -> to_int q = z) by (intros q z E; rewrite (to_int_comp _ _ E); apply to_int_int).
  unfold mult_vec, init_rotate. destruct k as [|[|[|[|k]]]]; try lia; cbv [put init_identity Nat.eqb andb sin_deg cos_deg]; cbn -[inject_Z to_int Qmult Qplus Qopp]; unfold quarter; cbn [fst snd]; f_equal;
    apply I; rewrite ?inject_Z_opp; change (inject_Z 1) with 1; ring.
Qed.
Lemma rotation_lemma : forall r deg r' x y, avail r = true -> (0 <= deg)%Z -> config_rotation_set_angle r deg = (SUCCESS, r') ->
  exists k, (k < 4)%nat /\ deg = (90 * Z.of_nat k)%Z /\ config_rotation_get_angle r' = deg /\ avail r' = true /\ rotate_relative r' x y = quarters k (x, y).
Proof.
  intros r deg r' x y HA HD H. unfold config_rotation_set_angle in H. rewrite HA in H. cbn [negb] in H.
  destruct (Z.leb_spec 360 deg); [discriminate|]. destruct (Z.eqb_spec (deg mod 90) 0) as [E|]; [|discriminate]. injection H as <-.
  apply Z.mod_divide in E; [|lia]. destruct E as [k E]. exists (Z.to_nat k). assert (0 <= k < 4)%Z by lia.
  split; [lia|]. split; [lia|]. split; [reflexivity|]. split; [reflexivity|]. unfold rotate_relative. cbn [avail negb rmatrix].
  rewrite <- quarter_vec by lia. do 2 f_equal. lia.
Qed.
Lemma rotation_refused : forall r deg s r', (0 <= deg)%Z -> config_rotation_set_angle r deg = (s, r') -> s <> SUCCESS -> r' = r /\
  (avail r = true -> ~ In deg [0; 90; 180; 270]%Z).
Proof.
  intros r deg s r' HD H HS. unfold config_rotation_set_angle in H. destruct (avail r) eqn:HA; cbn [negb] in H.
  - destruct ((360 <=? deg)%Z || negb (deg mod 90 =? 0)%Z)%bool eqn:E; [|injection H as <- _; congruence]. injection H as _ <-. split; [auto|].
    intros _ [<-|[<-|[<-|[<-|[]]]]]; discriminate.
  - injection H as _ <-. split; [auto|discriminate].
Qed.
Lemma four_quarters : forall p, quarters 4 p = p.
Proof. intros [x y]. cbn [quarters]. unfold quarter. cbn [fst snd]. rewrite !Z.opp_involutive. reflexivity. Qed.
Lemma rotation_start : forall a x y, rotate_relative (rot_init a) x y = (x, y).
Proof.
  intros a x y. unfold rotate_relative. destruct a; cbn [avail rot_init negb rmatrix]; [|reflexivity].
  change (mult_vec init_identity x y) with (mult_vec init_identity x y). rewrite mult_vec_drop.
  assert (Q : qpair (apply init_identity (inject_Z x, inject_Z y)) (inject_Z x, inject_Z y)) by (unfold qpair, apply; mat; cbn [fst snd]; split; ring).
  rewrite (drop_comp _ _ Q). unfold drop. cbn [fst snd]. rewrite !to_int_int. reflexivity.
Qed.

(** Coordinates in events. *)
Lemma scale_bounds : forall a (x w : Z), wide a -> (0 < w)%Z -> (minimum a <= x <= maximum a)%Z ->
  0 <= scale_axis a (inject_Z x) (inject_Z w) /\ scale_axis a (inject_Z x) (inject_Z w) < inject_Z w.
Proof.
  intros a x w W HW HX. pose proof (range_pos a W) as R. unfold range in R. unfold scale_axis. split.
  - apply Qle_shift_div_l; auto. rewrite Qmult_0_l. unfold Qminus. rewrite <- inject_Z_opp, <- inject_Z_plus, <- inject_Z_mult. change 0 with (inject_Z 0). rewrite <- Zle_Qle. nia.
  - apply Qlt_shift_div_r; auto. unfold Qminus. rewrite <- inject_Z_opp, <- inject_Z_plus, <- !inject_Z_mult. rewrite <- Zlt_Qlt. nia.
Qed.
Lemma scale_mono : forall a w x y, wide a -> 0 < w -> x < y -> scale_axis a x w < scale_axis a y w.
Proof.
  intros a w x y W HW HX. pose proof (range_pos a W) as R. unfold range in R. unfold scale_axis, Qdiv.
  apply Qmult_lt_compat_r; [apply Qinv_lt_0_compat; auto|]. apply Qmult_lt_compat_r; auto. lra.
Qed.
Lemma scale_ends : forall a w, wide a -> scale_axis a (inject_Z (minimum a)) w == 0 /\ scale_axis a (inject_Z (maximum a + 1)) w == w.
Proof.
  intros a w W. pose proof (range_pos a W) as R. unfold range in R.
  assert (N : ~ inject_Z (maximum a - minimum a + 1) == 0) by (intros F; rewrite F in R; apply (Qlt_irrefl 0); auto).
  unfold scale_axis. split; [field; auto|].
  assert (E : inject_Z (maximum a + 1) - inject_Z (minimum a) == inject_Z (maximum a - minimum a + 1)).
  { unfold Qminus. rewrite <- inject_Z_opp, <- inject_Z_plus. replace (maximum a + 1 + - minimum a)%Z with (maximum a - minimum a + 1)%Z by lia. reflexivity. }
  rewrite E. field. auto.
Qed.
Lemma mm_lemma : forall a (x y : Z), (resolution a <> 0)%Z ->
  convert_to_mm a (inject_Z (minimum a)) == 0 /\
  (convert_to_mm a (inject_Z y) - convert_to_mm a (inject_Z x)) * inject_Z (resolution a) == inject_Z (y - x).
Proof.
  intros a x y R. assert (N : ~ inject_Z (resolution a) == 0) by (intros F; apply R; unfold Qeq in F; cbn in F; lia).
  unfold convert_to_mm. split; [field; auto|]. unfold Z.sub. rewrite inject_Z_plus, inject_Z_opp. field. auto.
Qed.
Lemma size_lemma : forall d w h, device_get_size d false = Some (w, h) -> wide (ax d) -> wide (ay d) -> (0 < resolution (ax d))%Z -> (0 < resolution (ay d))%Z ->
  forall x y, (minimum (ax d) <= x <= maximum (ax d))%Z -> (minimum (ay d) <= y <= maximum (ay d))%Z ->
  0 <= convert_to_mm (ax d) (inject_Z x) <= w /\ 0 <= convert_to_mm (ay d) (inject_Z y) <= h.
Proof.
  intros d w h H WX WY RX RY x y HX HY. unfold device_get_size in H.
  destruct (false || (resolution (ax d) =? 0)%Z || (resolution (ay d) =? 0)%Z)%bool; [discriminate|]. injection H as <- <-.
  assert (B : forall a v, (0 < resolution a)%Z -> (minimum a <= v <= maximum a)%Z ->
    0 <= convert_to_mm a (inject_Z v) <= convert_to_mm a (inject_Z (maximum a))).
  { intros a v R V. assert (R' : 0 < inject_Z (resolution a)) by (change 0 with (inject_Z 0); rewrite <- Zlt_Qlt; auto).
    unfold convert_to_mm. split.
    - apply Qle_shift_div_l; auto. rewrite Qmult_0_l. unfold Qminus. rewrite <- inject_Z_opp, <- inject_Z_plus. change 0 with (inject_Z 0). rewrite <- Zle_Qle. lia.
    - unfold Qdiv. apply Qmult_le_compat_r; [|apply Qlt_le_weak, Qinv_lt_0_compat; auto]. apply Qplus_le_l. rewrite <- Zle_Qle. lia. }
  split; apply B; auto.
Qed.
