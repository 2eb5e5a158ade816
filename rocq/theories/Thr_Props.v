(** C59: what counts as a touch on a touchpad, and where palms are expected. *)
From Coq Require Import ZArith Bool Lia.
From Verif Require Import Str_Model Parse_Model Parse_Spec Parse_Proofs Parse_Props Tp_Model Thr_Model Thr_Spec Thr_Proofs.
Open Scope Z_scope.

(** Fingers are told by their size exactly if the device has touch sizes and at
    least five slots and the quirk gives a range other than none. *)
Theorem C59_size : forall d lo hi,
  init_mode d = BySize lo hi <->
  touch_major d = true /\ 5 <= slots d /\ q_size d = Some (hi, lo) /\ (hi <> 0 \/ lo <> 0).
Proof.
  intros d lo hi. unfold init_mode, init_touch_size.
  assert (P : forall m, match init_pressure d with Some (h, l) => ByPressure l h | None => ByFake end = m ->
              m <> BySize lo hi).
  { intros m <-. destruct (init_pressure d) as [[h l]|]; discriminate. }
  destruct (touch_major d); cbn [negb].
  2:{ split; [intros E; exfalso; exact (P _ eq_refl E)|intros [E _]; discriminate]. }
  destruct (q_size d) as [[h l]|].
  2:{ split; [intros E; exfalso; exact (P _ eq_refl E)|intros [_ [_ [E _]]]; discriminate]. }
  destruct (slots d <? 5) eqn:S.
  { apply Z.ltb_lt in S. split; [intros E; exfalso; exact (P _ eq_refl E)|lia]. }
  apply Z.ltb_ge in S.
  destruct ((h =? 0) && (l =? 0)) eqn:Z.
  { apply andb_prop in Z. rewrite !Z.eqb_eq in Z. destruct Z as [-> ->].
    split; [intros E; exfalso; exact (P _ eq_refl E)|].
    intros [_ [_ [E N]]]. injection E as <- <-. lia. }
  apply andb_false_iff in Z. rewrite !Z.eqb_neq in Z. split.
  - intros E. injection E as <- <-. auto.
  - intros [_ [_ [E _]]]. injection E as <- <-. reflexivity.
Qed.
Print Assumptions C59_size.

(** If fingers are told by pressure, both thresholds can be reached on the axis,
    and the one to begin is not below the one to end; the axis is no real force
    axis. *)
Theorem C59_pressure : forall d lo hi,
  (exists text, q_pressure d = parse_range text) ->
  init_mode d = ByPressure lo hi ->
  (forall a, p_mt d = Some a -> ares a = 0) /\
  exists a, (if multitouch d then p_mt d else p_st d) = Some a /\
    (amin a <= amax a -> amin a <= lo /\ lo <= hi /\ hi <= amax a).
Proof.
  intros d lo hi [text T] E. unfold init_mode in E.
  destruct (init_touch_size d) as [[h l]|]; [discriminate|].
  destruct (init_pressure d) as [[h l]|] eqn:P; [|discriminate]. injection E as -> ->.
  unfold init_pressure, p_axis in P.
  destruct (pressurepad d) eqn:F; [discriminate|]. split.
  { intros a A. unfold pressurepad in F. rewrite A in F. apply negb_false_iff, Z.eqb_eq in F. exact F. }
  destruct (if multitouch d then p_mt d else p_st d) as [a|]; [|discriminate].
  exists a. split; [reflexivity|]. intros V.
  destruct (q_pressure d) as [[h l]|].
  - destruct ((h =? 0) && (l =? 0)) eqn:Z; [discriminate|].
    destruct ((amax a <? h) || (h <? amin a) || (amax a <? l) || (l <? amin a)) eqn:C; [discriminate|].
    injection P as -> ->. rewrite !orb_false_iff, !Z.ltb_ge in C.
    symmetry in T. apply range_range in T. destruct T as [[_ [-> ->]]|[L _]]; [discriminate|]. lia.
  - destruct (_ || _ || _ || _); [discriminate|]. injection P as <- <-.
    pose proof (percent_bounds a 12 ltac:(lia) V). pose proof (percent_bounds a 10 ltac:(lia) V).
    assert (percent a 10 <= percent a 12) by (apply quot_mono; unfold range; lia). lia.
Qed.
Print Assumptions C59_pressure.

(** Without quirks a pressure axis is always used: touches begin at 12 percent of
    it and end below 10 percent, to a unit; the two differ if the axis has at
    least 50 steps from zero. *)
Theorem C59_default : forall d a,
  q_pressure d = None -> q_size d = None -> (forall b, p_mt d = Some b -> ares b = 0) ->
  (if multitouch d then p_mt d else p_st d) = Some a -> amin a <= amax a ->
  exists lo hi, init_mode d = ByPressure lo hi /\
    Z.abs (100 * (lo - amin a) - 10 * (amax a - amin a)) < 100 /\
    Z.abs (100 * (hi - amin a) - 12 * (amax a - amin a)) < 100 /\
    (0 <= amin a -> 50 <= amax a - amin a -> lo < hi).
Proof.
  intros d a Q S F A V. exists (percent a 10), (percent a 12).
  pose proof (percent_bounds a 12 ltac:(lia) V) as [B1 B2].
  pose proof (percent_bounds a 10 ltac:(lia) V) as [B3 B4].
  split; [|split; [assumption|split; [assumption|]]].
  - unfold init_mode, init_touch_size, init_pressure, p_axis. rewrite S, Q.
    assert (P : pressurepad d = false).
    { unfold pressurepad. destruct (p_mt d) as [b|]; [|reflexivity]. now rewrite (F b eq_refl). }
    rewrite P, A. replace (if negb (touch_major d) then None else None : option (Z * Z)) with (@None (Z * Z)) by (destruct (touch_major d); reflexivity).
    replace ((amax a <? percent a 12) || (percent a 12 <? amin a) || (amax a <? percent a 10) || (percent a 10 <? amin a)) with false; [reflexivity|].
    symmetry. rewrite !orb_false_iff, !Z.ltb_ge. lia.
  - intros Z R. unfold percent, range.
    replace (100 * amin a + 12 * (amax a - amin a))
      with ((100 * amin a + 10 * (amax a - amin a) + 2 * (amax a - amin a - 50)) + 1 * 100) by ring.
    rewrite Z.quot_add by nia.
    assert (X : Z.quot (100 * amin a + 10 * (amax a - amin a)) 100 <=
                Z.quot (100 * amin a + 10 * (amax a - amin a) + 2 * (amax a - amin a - 50)) 100)
      by (apply quot_mono; lia).
    lia.
Qed.
Print Assumptions C59_default.

(** A range given by quirk is used as it is if the axis has it; none, or a range
    outside the axis, turns pressure off. *)
Theorem C59_quirk : forall d a hi lo,
  q_pressure d = Some (hi, lo) -> q_size d = None ->
  (forall b, p_mt d = Some b -> ares b = 0) ->
  (if multitouch d then p_mt d else p_st d) = Some a ->
  (~ (hi = 0 /\ lo = 0) /\ amin a <= hi <= amax a /\ amin a <= lo <= amax a -> init_mode d = ByPressure lo hi) /\
  (~ (~ (hi = 0 /\ lo = 0) /\ amin a <= hi <= amax a /\ amin a <= lo <= amax a) -> init_mode d = ByFake).
Proof.
  intros d a hi lo Q S F A.
  assert (P : pressurepad d = false).
  { unfold pressurepad. destruct (p_mt d) as [b|]; [|reflexivity]. now rewrite (F b eq_refl). }
  assert (E : init_mode d =
    if (hi =? 0) && (lo =? 0) then ByFake
    else if (amax a <? hi) || (hi <? amin a) || (amax a <? lo) || (lo <? amin a) then ByFake else ByPressure lo hi).
  { unfold init_mode, init_touch_size, init_pressure, p_axis. rewrite S, Q, P, A.
    destruct (touch_major d); cbn [negb];
    destruct ((hi =? 0) && (lo =? 0)); try reflexivity;
    destruct (_ || _ || _ || _); reflexivity. }
  rewrite E. split.
  - intros [N [H L]].
    replace ((hi =? 0) && (lo =? 0)) with false
      by (symmetry; apply andb_false_iff; rewrite !Z.eqb_neq; lia).
    replace ((amax a <? hi) || (hi <? amin a) || (amax a <? lo) || (lo <? amin a)) with false; [reflexivity|].
    symmetry. rewrite !orb_false_iff, !Z.ltb_ge. lia.
  - intros N. destruct ((hi =? 0) && (lo =? 0)) eqn:B; [reflexivity|].
    apply andb_false_iff in B. rewrite !Z.eqb_neq in B.
    destruct ((amax a <? hi) || (hi <? amin a) || (amax a <? lo) || (lo <? amin a)) eqn:C; [reflexivity|].
    rewrite !orb_false_iff, !Z.ltb_ge in C. exfalso. apply N. lia.
Qed.
Print Assumptions C59_quirk.

Definition sample : device :=
  {| ax := {| amin := 1000; amax := 6000; ares := 50 |}; ay := {| amin := 1000; amax := 4500; ares := 50 |};
     no_resolution := false; multitouch := true;
     p_mt := Some {| amin := 0; amax := 255; ares := 0 |}; p_st := Some {| amin := 0; amax := 255; ares := 0 |};
     touch_major := false; slots := 2; q_pressure := None; q_size := None;
     q_palm_pressure := None; q_palm_size := None; external := false; combo_below := false;
     tablet := false; topbuttons := false |}.

Example C59_mode_example : init_mode sample = ByPressure 25 30.
Proof. reflexivity. Qed.

(** On an axis of few steps both defaults are its minimum: every finger that
    hovers is a touch, and no pressure ends one. *)
Theorem C59_default_refuted : exists d a,
  q_pressure d = None /\ q_size d = None /\ p_mt d = Some a /\ amin a = 0 /\ amax a = 7 /\
  exists lo hi, init_mode d = ByPressure lo hi /\
    forall p, amin a <= p <= amax a -> ~ p < lo /\ hi <= p.
Proof.
  exists {| ax := ax sample; ay := ay sample; no_resolution := false; multitouch := true;
     p_mt := Some {| amin := 0; amax := 7; ares := 0 |}; p_st := None;
     touch_major := false; slots := 2; q_pressure := None; q_size := None;
     q_palm_pressure := None; q_palm_size := None; external := false; combo_below := false;
     tablet := false; topbuttons := false |}, {| amin := 0; amax := 7; ares := 0 |}.
  repeat split. exists 0, 0. split; [reflexivity|]. cbn. lia.
Qed.
Print Assumptions C59_default_refuted.

(** The palm zones of a touchpad that knows its size and is built in (or is part
    of a keyboard, below the keys), 70 mm wide or more: a touch in a side zone is
    within 8 mm and 8 percent of that side, and one more than a unit inside of
    both is in the zone; the same of the top zone with 5 percent, on touchpads
    higher than 55 mm without buttons at the top, others have none. *)
Theorem C59_zones : forall d garbage,
  no_resolution d = false -> sane (ax d) -> sane (ay d) -> at_least (ax d) 70 ->
  tablet d = false -> (external d = true -> combo_below d = true) ->
  let z := palm_zones d garbage in
  (forall x, in_side z x = true ->
     closer (x - amin (ax d)) (ax d) 8 8 \/ closer (amax (ax d) - x) (ax d) 8 8) /\
  (forall x, closer (x + 1 - amin (ax d)) (ax d) 8 8 \/ closer (amax (ax d) - (x - 1)) (ax d) 8 8 ->
     in_side z x = true) /\
  (forall y, in_top z y = true -> -2147483648 <= y ->
     topbuttons d = false /\ 55 * ares (ay d) < amax (ay d) - amin (ay d) /\
     100 * (y - amin (ay d)) < 5 * (amax (ay d) - amin (ay d))) /\
  (forall y, topbuttons d = false -> 55 * ares (ay d) < amax (ay d) - amin (ay d) ->
     100 * (y + 1 - amin (ay d)) <= 5 * (amax (ay d) - amin (ay d)) -> in_top z y = true).
Proof.
  intros d g R [X1 [X2 X3]] [Y1 [Y2 Y3]] W T C z.
  assert (E : z =
    {| left := Z.quot (Z.min (800 * ares (ax d)) (8 * range (ax d)) + 100 * amin (ax d)) 100;
       right := Z.quot (100 * range (ax d) - Z.min (800 * ares (ax d)) (8 * range (ax d)) + 100 * amin (ax d)) 100;
       upper := if negb (topbuttons d) && (55 * ares (ay d) <? range (ay d))
                then Z.quot (5 * range (ay d) + 100 * amin (ay d)) 100 else -2147483648 |}).
  { unfold z, palm_zones, default_resolution, get_size. rewrite R, T.
    replace (false || external d && negb (combo_below d)) with false.
    2:{ destruct (external d); [|reflexivity]. now rewrite C. }
    replace ((ares (ax d) =? 0) || (ares (ay d) =? 0)) with false.
    2:{ symmetry. rewrite orb_false_iff, !Z.eqb_neq. lia. }
    replace (range (ax d) <? 70 * ares (ax d)) with false.
    2:{ symmetry. apply Z.ltb_ge. exact W. }
    rewrite !to_units_sane by assumption. reflexivity. }
  rewrite E. clear E z. unfold in_side, in_top, closer, range. cbn [left right upper].
  repeat split.
  - intros x H. apply orb_prop in H. rewrite !Z.ltb_lt in H. destruct H as [H|H].
    + apply below_quot in H; [|lia]. left. lia.
    + apply above_quot in H; [|lia]. right. lia.
  - intros x H. apply orb_true_iff. rewrite !Z.ltb_lt. destruct H as [H|H].
    + left. apply quot_below; lia.
    + right. apply quot_above; lia.
  - apply Z.ltb_lt in H. destruct (topbuttons d); [cbn in H; lia|reflexivity].
  - apply Z.ltb_lt in H. destruct (55 * ares (ay d) <? amax (ay d) - amin (ay d)) eqn:B;
      [now apply Z.ltb_lt|]. rewrite andb_false_r in H. lia.
  - apply Z.ltb_lt in H.
    destruct (negb (topbuttons d) && (55 * ares (ay d) <? amax (ay d) - amin (ay d))); [|lia].
    apply below_quot in H; lia.
  - intros y B H L. rewrite B. replace (55 * ares (ay d) <? amax (ay d) - amin (ay d)) with true
      by (symmetry; now apply Z.ltb_lt). cbn [negb andb]. apply Z.ltb_lt. apply quot_below; lia.
Qed.
Print Assumptions C59_zones.

Example C59_zones_example :
  palm_zones sample ((0, 1), (0, 1)) = {| left := 1400; right := 5600; upper := 1175 |}.
Proof. reflexivity. Qed.

(** Drawing tablets, external touchpads that are not below a keyboard, and
    touchpads narrower than 70 mm have no zones. *)
Theorem C59_no_zones : forall d garbage x y,
  tablet d = true \/ (external d = true /\ combo_below d = false) \/
  (no_resolution d = false /\ sane (ax d) /\ sane (ay d) /\ ~ at_least (ax d) 70) ->
  -2147483648 <= x <= 2147483647 -> -2147483648 <= y ->
  in_side (palm_zones d garbage) x = false /\ in_top (palm_zones d garbage) y = false.
Proof.
  intros d g x y H X Y.
  assert (E : palm_zones d g = no_zones).
  { unfold palm_zones. destruct (default_resolution d) as [a b] eqn:D.
    destruct H as [H|[[H1 H2]|[N [[A1 [A2 A3]] [[B1 [B2 B3]] W]]]]].
    - now rewrite H.
    - rewrite H1, H2. cbn. now rewrite orb_true_r.
    - unfold default_resolution in D. rewrite N in D. injection D as <- <-.
      destruct (tablet d || external d && negb (combo_below d)); [reflexivity|].
      unfold get_size.
      replace ((ares (ax d) =? 0) || (ares (ay d) =? 0)) with false
        by (symmetry; rewrite orb_false_iff, !Z.eqb_neq; lia).
      replace (range (ax d) <? 70 * ares (ax d)) with true; [reflexivity|].
      symmetry. apply Z.ltb_lt. unfold at_least in W. unfold range. lia. }
  rewrite E. unfold in_side, in_top, no_zones; cbn [left right upper].
  rewrite orb_false_iff, !Z.ltb_ge. lia.
Qed.
Print Assumptions C59_no_zones.

(** A touchpad of unknown size is assumed to be 69 mm wide, "1 under palm
    detection", but the resolution is rounded down: one with 1000 units is 71 mm
    wide and has palm zones. *)
Theorem C59_assumed_refuted : exists d, no_resolution d = true /\ external d = false /\
  forall garbage, in_side (palm_zones d garbage) 79 = true.
Proof.
  exists {| ax := {| amin := 0; amax := 1000; ares := 1 |}; ay := {| amin := 0; amax := 700; ares := 1 |};
     no_resolution := true; multitouch := true; p_mt := None; p_st := None;
     touch_major := false; slots := 2; q_pressure := None; q_size := None;
     q_palm_pressure := None; q_palm_size := None; external := false; combo_below := false;
     tablet := false; topbuttons := false |}.
  split; [reflexivity|]. split; [reflexivity|]. intros. reflexivity.
Qed.
Print Assumptions C59_assumed_refuted.

(** With fewer than 69 units the resolution is rounded down to zero, the size
    stays uninitialised, and with it the zones: here one and the same touchpad
    is all palm zone or has none. *)
Theorem C59_uninitialised_refuted : exists d, no_resolution d = true /\
  (exists garbage, forall x, amin (ax d) < x <= amax (ax d) -> in_side (palm_zones d garbage) x = true) /\
  (exists garbage, forall x, amin (ax d) < x <= amax (ax d) -> in_side (palm_zones d garbage) x = false).
Proof.
  exists {| ax := {| amin := 0; amax := 64; ares := 1 |}; ay := {| amin := 0; amax := 64; ares := 1 |};
     no_resolution := true; multitouch := true; p_mt := None; p_st := None;
     touch_major := false; slots := 2; q_pressure := None; q_size := None;
     q_palm_pressure := None; q_palm_size := None; external := false; combo_below := false;
     tablet := false; topbuttons := false |}.
  split; [reflexivity|]. split.
  - exists ((100, 1), (100, 1)). intros x. cbn [ax amin amax]. intros H.
    unfold in_side. apply orb_true_iff. right. apply Z.ltb_lt. cbn. lia.
  - exists ((0, 1), (0, 1)). intros x. cbn [ax amin amax]. intros H.
    unfold in_side. apply orb_false_iff. rewrite !Z.ltb_ge. cbn. lia.
Qed.
Print Assumptions C59_uninitialised_refuted.

(** Palms are told by pressure only on an axis of many touches that is no force
    axis, above the threshold of the quirk or 130; by size only with a quirk, and
    never above zero; and neither on external touchpads that are not below a
    keyboard. *)
Theorem C59_palm : forall d,
  (forall t, palm_pressure d = Some t <->
     (exists a, p_mt d = Some a /\ ares a = 0) /\
     (external d = true -> combo_below d = true \/ tablet d = true) /\
     (q_palm_pressure d = Some t \/ (q_palm_pressure d = None /\ t = 130))) /\
  (forall t, palm_size d = Some t <->
     (external d = true -> combo_below d = true \/ tablet d = true) /\
     q_palm_size d = Some t /\ t <> 0).
Proof.
  intros d. unfold palm_pressure, palm_size, palm_on, pressurepad.
  assert (O : negb (external d && negb (combo_below d) && negb (tablet d)) = true <->
              (external d = true -> combo_below d = true \/ tablet d = true)).
  { destruct (external d), (combo_below d), (tablet d); cbn; intuition congruence. }
  destruct (negb (external d && negb (combo_below d) && negb (tablet d))).
  - assert (O' : external d = true -> combo_below d = true \/ tablet d = true) by tauto.
    split; intros t.
    + destruct (p_mt d) as [a|]; cbn.
      * destruct (ares a =? 0) eqn:Z; cbn.
        -- apply Z.eqb_eq in Z. split.
           ++ intros E. injection E as <-. split; [eauto|]. split; [assumption|].
              destruct (q_palm_pressure d); auto.
           ++ intros [_ [_ [Q|[Q ->]]]]; now rewrite Q.
        -- apply Z.eqb_neq in Z. split; [discriminate|]. intros [[b [B1 B2]] _]. congruence.
      * split; [discriminate|]. intros [[b [B1 B2]] _]. discriminate.
    + destruct (q_palm_size d) as [u|]; [|intuition discriminate].
      destruct (u =? 0) eqn:Z.
      * apply Z.eqb_eq in Z. split; [discriminate|]. intros [_ [E N]]. congruence.
      * apply Z.eqb_neq in Z. split.
        -- intros E. injection E as <-. auto.
        -- intros [_ [E _]]. congruence.
  - assert (O' : ~ (external d = true -> combo_below d = true \/ tablet d = true)) by (intros Q; apply O in Q; discriminate).
    split; intros t; (split; [discriminate|tauto]).
Qed.
Print Assumptions C59_palm.

Example C59_palm_example : palm_pressure sample = Some 130 /\ palm_size sample = None.
Proof. split; reflexivity. Qed.

(** A touchpad without a right button is a clickpad if it says so or has a left
    one, but for Apple's with one button; with a right button it is none. *)
Theorem C59_clickpad : forall b l r o,
  guess_clickpad b l r o = true <-> r = false /\ (b = true \/ (l = true /\ o = false)).
Proof. intros [] [] [] []; cbn; intuition discriminate. Qed.
Print Assumptions C59_clickpad.

(** Thumbs are looked for exactly on clickpads of known size at least 50 mm
    high: in the lowest 15 percent, and the exclusion area is the lowest 8
    percent, both to a unit. *)
Theorem C59_thumb : forall d clickpad,
  no_resolution d = false -> sane (ax d) -> sane (ay d) ->
  let h := amax (ay d) - amin (ay d) in
  (thumb_lines clickpad d <> None <-> clickpad = true /\ at_least (ay d) 50) /\
  forall l, thumb_lines clickpad d = Some l ->
    (forall y, below_lower l y = true -> 100 * (amax (ay d) - y) < 8 * h) /\
    (forall y, 100 * (amax (ay d) - (y - 1)) <= 8 * h -> below_lower l y = true) /\
    (forall y, below_upper l y = true -> 100 * (amax (ay d) - (y + 1)) < 15 * h) /\
    (forall y, 100 * (amax (ay d) - y) <= 15 * h -> below_upper l y = true) /\
    (forall y, below_lower l y = true -> below_upper l y = true).
Proof.
  intros d c R [X1 [X2 X3]] [Y1 [Y2 Y3]] h.
  assert (E : thumb_lines c d =
    if c && negb (range (ay d) <? 50 * ares (ay d))
    then Some (Z.quot (85 * range (ay d) + 100 * amin (ay d)) 100, Z.quot (92 * range (ay d) + 100 * amin (ay d)) 100)
    else None).
  { unfold thumb_lines, default_resolution, get_size. rewrite R.
    replace ((ares (ax d) =? 0) || (ares (ay d) =? 0)) with false
      by (symmetry; rewrite orb_false_iff, !Z.eqb_neq; lia).
    rewrite !to_units_sane by assumption.
    destruct c, (range (ay d) <? 50 * ares (ay d)); reflexivity. }
  rewrite E. unfold range. fold h. split.
  - unfold at_least. fold h. destruct c; cbn [andb].
    + destruct (h <? 50 * ares (ay d)) eqn:B; cbn [negb].
      * apply Z.ltb_lt in B. split; [congruence|lia].
      * apply Z.ltb_ge in B. split; [auto|discriminate].
    + split; [congruence|intros [Q _]; discriminate].
  - intros l L. destruct (c && _); [|discriminate].
    match type of L with Some ?p = _ => assert (L' : l = p) by congruence end. subst l.
    unfold below_lower, below_upper. cbn [fst snd].
    pose proof (quot_bounds (85 * h + 100 * amin (ay d)) 100 ltac:(lia)) as B1.
    pose proof (quot_bounds (92 * h + 100 * amin (ay d)) 100 ltac:(lia)) as B2.
    assert (H : amax (ay d) = amin (ay d) + h) by (unfold h; lia).
    assert (H0 : 0 < h) by (unfold h; lia). clearbody h.
    repeat split; intros y; rewrite ?negb_true_iff, ?Z.ltb_lt, ?Z.ltb_ge; intros Q.
    + apply above_quot in Q; [clear B1 B2; lia|lia].
    + apply quot_above; [lia|clear B1 B2; lia].
    + lia.
    + apply Z.nlt_ge. intros W. apply below_quot in W; lia.
    + assert (Z.quot (85 * h + 100 * amin (ay d)) 100 <= Z.quot (92 * h + 100 * amin (ay d)) 100)
        by (apply quot_mono; lia). lia.
Qed.
Print Assumptions C59_thumb.

Example C59_thumb_example : thumb_lines (guess_clickpad true true false false) sample = Some (3975, 4220).
Proof. reflexivity. Qed.
