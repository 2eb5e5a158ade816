(** * Palms: proofs *)
Require Import Coq.ZArith.ZArith Coq.Lists.List Coq.Bool.Bool Coq.micromega.Lia Coq.QArith.QArith.
Require Import Verif.Palm_Model Verif.Palm_Spec Verif.Palm_Proofs1 Verif.Palm_Proofs2 Verif.Palm_Proofs3 Verif.Palm_Proofs4 Verif.Palm_Proofs5 Verif.Palm_Proofs6.
Require Verif.Es_Model Verif.Gest_Model.
Import ListNotations.
Open Scope Z_scope.
Local Arguments frame : simpl never.
Local Arguments keyboard_event : simpl never.

(** ** Touches no finger may be seen in again *)
Definition clean_or_forever (y : touch) : Prop := palm y = PALM_NONE \/ forever (palm y).
Lemma first_hit_inv : forall (I : touch -> Prop) l x y b, (forall d, In d l -> forall z z1 b1, I z -> d z = (z1, b1) -> I z1) -> I x -> first_hit l x = (y, b) -> I y.
Proof.
  intros I l. induction l as [|d l IH]; intros x y b H P E; [injection E as <- _; exact P |]. cbn in E. destruct (d x) as [x1 b1] eqn:D.
  pose proof (H d (or_introl eq_refl) x x1 b1 P D) as P1. destruct b1; [injection E as <- _; exact P1 |]. apply (IH x1 y b); auto. intros d' I' z z1 b2 Pz. apply H; [right; exact I' | exact Pz].
Qed.
Local Ltac fin := cbn; split; [assumption | split; [assumption |]]; repeat match goal with P : palm _ = _ |- _ => rewrite P; clear P end; tauto.
Lemma cof_update : forall c k r a m t x, st (now x) = UPDATE -> (use_mt_tool c = true -> toolpalm (now x) = false) -> clean_or_forever x -> clean_or_forever (fst (palm_detect c k r a m t x)).
Proof.
  intros c k r a m t x U T P. unfold palm_detect. destruct (first_hit _ x) as [y b] eqn:E. cbn [fst].
  assert (G : st (now y) = UPDATE /\ (use_mt_tool c = true -> toolpalm (now y) = false) /\ clean_or_forever y); [| apply G].
  revert E. apply (first_hit_inv (fun y => st (now y) = UPDATE /\ (use_mt_tool c = true -> toolpalm (now y) = false) /\ clean_or_forever y)); [| auto].
  clear x U T P y b. intros d I z z1 b1 [U [T P]] D. unfold clean_or_forever, forever in *. cbn in I.
  destruct I as [<-|[<-|[<-|[<-|[<-|[<-|[<-|[<-|[]]]]]]]]].
  - unfold pressure_triggered in D. destruct (negb _); [injection D as <- _; fin |]. destruct P as [P|[P|[P|P]]]; rewrite P in D; try destruct (_ <? _); injection D as <- _; fin.
  - unfold arbitration_triggered in D. destruct a; injection D as <- _; fin.
  - unfold dwt_triggered in D. rewrite U in D. cbn in D. rewrite andb_false_r in D. destruct (_ && _ && _ && _); injection D as <- _; fin.
  - unfold trackpoint_triggered in D. rewrite U in D. cbn in D. rewrite andb_false_r in D. destruct (negb (monitor_trackpoint c)); [injection D as <- _; fin |]. cbn in D. destruct (_ && _ && _ && _); injection D as <- _; fin.
  - unfold tool_triggered in D. destruct (use_mt_tool c); cbn in D; [| injection D as <- _; fin]. rewrite (T eq_refl) in D. destruct P as [P|[P|[P|P]]]; rewrite P in D; injection D as <- _; fin.
  - unfold touch_size_triggered in D. destruct (negb _); [injection D as <- _; fin |]. destruct P as [P|[P|[P|P]]]; rewrite P in D; try destruct (_ || _); injection D as <- _; fin.
  - unfold edge_triggered in D. rewrite U in D. cbn in D. destruct P as [P|[P|[P|P]]]; rewrite P in D; destruct m; injection D as <- _; fin.
  - unfold pressure_triggered in D. destruct (negb _); [injection D as <- _; fin |]. destruct P as [P|[P|[P|P]]]; rewrite P in D; try destruct (_ <? _); injection D as <- _; fin.
Qed.
Lemma heavy_update : forall c k r a m t x, st (now x) = UPDATE -> toolpalm (now x) = false -> clean_or_forever x -> too_hard c (now x) \/ too_big c (now x) -> forever (palm (fst (palm_detect c k r a m t x))).
Proof.
  intros c k r a m t x U T [P|P] H.
  - destruct H as [[H1 H2]|[H1 H2]].
    + unfold palm_detect. cbn [first_hit]. unfold pressure_triggered at 1. rewrite H1, P. cbn [negb]. replace (pressure_threshold c <? pressure (now x)) with true by (symmetry; apply Z.ltb_lt; exact H2). cbn. left. reflexivity.
    + unfold palm_detect. cbn [first_hit]. destruct (pressure_triggered c x) as [x1 b] eqn:E.
      assert (Q : x1 = x /\ b = false \/ palm x1 = PALM_PRESSURE /\ b = true) by (unfold pressure_triggered in E; destruct (negb _); [injection E as <- <-; auto |]; rewrite P in E; destruct (_ <? _); injection E as <- <-; auto).
      destruct Q as [[-> ->]|[Q ->]]; [| cbn; left; exact Q]. destruct a; [| cbn; right; right; reflexivity | cbn; right; right; reflexivity]. cbn [arbitration_triggered].
      assert (D : dwt_triggered k x = (x, false)) by (unfold dwt_triggered; rewrite U, P; cbn; rewrite ?andb_false_r; reflexivity).
      assert (T' : trackpoint_triggered c r x = (x, false)) by (unfold trackpoint_triggered; rewrite U, P; destruct (negb _); cbn; rewrite ?andb_false_r; reflexivity).
      assert (L : tool_triggered c x = (x, false)) by (unfold tool_triggered; rewrite P, T; destruct (negb _); reflexivity).
      rewrite D, T', L. unfold touch_size_triggered. rewrite H1, P. cbn [negb].
      replace ((size_threshold c <? major (now x)) || (size_threshold c <? minor (now x))) with true; [cbn; right; left; reflexivity |].
      symmetry. apply orb_true_iff. destruct H2 as [H2|H2]; [left | right]; apply Z.ltb_lt; exact H2.
  - destruct (forever_update c k r a m t x U P) as [E|E]; rewrite E; [exact P | right; right; reflexivity].
Qed.
Lemma active_none : forall c s f g u t i, length f = length (touches s) -> nth_error (snd (frame c s f g u t)) i = Some true -> exists y, nth_error (touches (fst (frame c s f g u t))) i = Some y /\ palm y = PALM_NONE.
Proof.
  intros c s f g u t i L T.
  assert (J : (i < length (touches s))%nat).
  { assert (X : length (snd (frame c s f g u t)) = length (touches s)).
    { destruct (frame_same c s f g u t) as [_ [_ [_ [_ E]]]]. unfold frame in *. cbn [fst snd] in *. rewrite <- E.
      unfold post_process, post_events. set (z := match u with Some _ => _ | None => _ end). clearbody z.
      assert (A : forall h k l, length (active_from c h k l) = length l) by (intros h k l; revert k; induction l as [|a l IH]; intros k; [reflexivity | cbn; rewrite IH; reflexivity]).
      destruct (nfingers_down (touches z)); cbn; destruct (_ || _); rewrite ?map_length, ?A; reflexivity. }
    rewrite <- X. apply nth_error_Some. congruence. }
  destruct (nth_some _ (touches s) i _ eq_refl J) as [x X]. destruct (nth_some _ f i _ L J) as [v V].
  destruct (frame_touch c s f g u t i x v X V) as [m [y [h [P [_ [_ [R _]]]]]]]. exists y. split; [exact P |]. rewrite T in R. injection R as R.
  destruct (_ || _); [discriminate |]. unfold touch_active in R. destruct (palm y); [reflexivity | ..]; cbn in R; rewrite andb_false_r in R; discriminate.
Qed.
Lemma cof_run : forall c n j l s x, (j < n)%nat -> sized n l -> goes_on j l -> never_tool j l -> nth_error (touches s) j = Some x -> clean_or_forever x -> exists y, nth_error (touches (run c s l)) j = Some y /\ clean_or_forever y.
Proof.
  intros c n j l s x L Z G NT X P.
  destruct (contact_inv c n j (fun _ y => clean_or_forever y) l L Z G) with (s := s) (x := x) as [y [Y' Q]]; auto.
  - intros s0 i x0 y I X0 P0 [->|[v [t [m [Sh [U0 [F Q]]]]]]]; [exact P0 |]. destruct (enter_update t x0 v U0 F) as [E1 [E2 [_ [E4 _]]]]. destruct Q as [_ [Q2 _]].
    assert (TV : toolpalm v = false) by (destruct Sh as [[f [g [u [-> V]]]]|[w [f [-> V]]]]; apply (NT f v); eauto 6).
    unfold clean_or_forever. rewrite Q2. destruct (after_eq c s0 m t (enter t x0 v)) as [E|[_ E]]; rewrite E; [rewrite E1; exact P0 |].
    apply cof_update; rewrite ?E4; auto. unfold clean_or_forever. rewrite E1. exact P0.
  - exists y. auto.
Qed.
Lemma forever_run : forall c n j l s x, (j < n)%nat -> sized n l -> goes_on j l -> nth_error (touches s) j = Some x -> forever (palm x) -> exists y, nth_error (touches (run c s l)) j = Some y /\ forever (palm y).
Proof.
  intros c n j l s x L Z G X P.
  destruct (contact_inv c n j (fun _ y => forever (palm y)) l L Z G) with (s := s) (x := x) as [y [Y' Q]]; auto.
  - intros s0 i x0 y I X0 P0 [->|[v [t [m [Sh [U0 [F Q]]]]]]]; [exact P0 |]. destruct (enter_update t x0 v U0 F) as [E1 [E2 [_ [E4 _]]]]. destruct Q as [_ [Q2 _]].
    rewrite Q2. destruct (after_eq c s0 m t (enter t x0 v)) as [E|[_ E]]; rewrite E; [rewrite E1; exact P0 |].
    destruct (forever_update c (kb s0) (tr s0) (astate (ar s0)) m t (enter t x0 v)) as [W|W]; rewrite ?E4, ?E1; auto; rewrite W; [rewrite E1; exact P0 | right; right; reflexivity].
  - exists y. auto.
Qed.
(** ... and the frame after *)
Lemma forever_frame : forall c n j s x f g u t, (j < n)%nat -> length (touches s) = n -> length f = n -> goes_on j [Frame f g u t] -> nth_error (touches s) j = Some x -> forever (palm x) -> nth_error (snd (frame c s f g u t)) j = Some false.
Proof.
  intros c n j s x f g u t L N F G X P. assert (Z : sized n [Frame f g u t]) by (intros k [<-|[]]; exact F).
  destruct (forever_run c n j [Frame f g u t] s x L Z G X P) as [y [Y Q]]. cbn [run] in Y. rewrite fst_step_frame in Y.
  apply (palm_still c s f g u t j y Y); [congruence |]. destruct Q as [Q|[Q|Q]]; rewrite Q; discriminate.
Qed.

(** ** The edges *)
Lemma edge_update : forall c k r a m t x, st (now x) = UPDATE -> palm x = PALM_EDGE -> m = false -> (in_edge_zone c (now x) \/ ptime x + 200000 <= t) ->
  palm (fst (palm_detect c k r a m t x)) = PALM_EDGE \/ palm (fst (palm_detect c k r a m t x)) = PALM_ARBITRATION.
Proof.
  intros c k r a m t x U P M H. unfold palm_detect. cbn [first_hit].
  assert (P1 : pressure_triggered c x = (x, false)) by (unfold pressure_triggered; rewrite P; destruct (negb _); reflexivity). rewrite P1.
  destruct a; [| cbn; auto | cbn; auto]. cbn [arbitration_triggered].
  assert (D : dwt_triggered k x = (x, false)) by (unfold dwt_triggered; rewrite U, P; cbn; rewrite ?andb_false_r; reflexivity).
  assert (T' : trackpoint_triggered c r x = (x, false)) by (unfold trackpoint_triggered; rewrite U, P; destruct (negb _); cbn; rewrite ?andb_false_r; reflexivity).
  assert (L : tool_triggered c x = (x, false)) by (unfold tool_triggered; rewrite P; destruct (negb _); reflexivity).
  assert (Z : touch_size_triggered c x = (x, false)) by (unfold touch_size_triggered; rewrite P; destruct (negb _); reflexivity).
  assert (MO : move_out_of_edge c x t = false).
  { unfold move_out_of_edge. destruct H as [H|H].
    - replace (in_edge c (now x)) with true; [rewrite andb_false_r; reflexivity |]. symmetry. unfold in_edge, in_side_edge, in_top_edge. rewrite !orb_true_iff, !Z.ltb_lt. destruct H as [H|[H|H]]; auto.
    - replace (t <? ptime x + 200000) with false by (symmetry; apply Z.ltb_ge; exact H). reflexivity. }
  assert (G : edge_triggered c m t x = (x, false)) by (unfold edge_triggered; rewrite P, MO, M; reflexivity).
  rewrite D, T', L, Z, G, P1. left. exact P.
Qed.
Lemma edge_ptime : forall c k r a m t x, st (now x) = UPDATE -> palm x = PALM_EDGE -> ptime (fst (palm_detect c k r a m t x)) = ptime x /\ pfirst (fst (palm_detect c k r a m t x)) = pfirst x.
Proof.
  intros c k r a m t x U P. unfold palm_detect. cbn [first_hit].
  assert (P1 : pressure_triggered c x = (x, false)) by (unfold pressure_triggered; rewrite P; destruct (negb _); reflexivity). rewrite P1.
  destruct a; [| cbn; auto | cbn; auto]. cbn [arbitration_triggered].
  assert (D : dwt_triggered k x = (x, false)) by (unfold dwt_triggered; rewrite U, P; cbn; rewrite ?andb_false_r; reflexivity).
  assert (T' : trackpoint_triggered c r x = (x, false)) by (unfold trackpoint_triggered; rewrite U, P; destruct (negb _); cbn; rewrite ?andb_false_r; reflexivity).
  assert (L : tool_triggered c x = (x, false)) by (unfold tool_triggered; rewrite P; destruct (negb _); reflexivity).
  assert (Z : touch_size_triggered c x = (x, false)) by (unfold touch_size_triggered; rewrite P; destruct (negb _); reflexivity).
  rewrite D, T', L, Z. unfold edge_triggered. rewrite P. destruct (m || _).
  - unfold pressure_triggered. cbn. destruct (negb _); [cbn; auto |]. destruct (_ <? _); cbn; auto.
  - rewrite P1. cbn. auto.
Qed.
Lemma edge_begin : forall c k r t x, st (now x) = BEGIN -> palm x = PALM_NONE -> calm c (now x) -> in_edge_zone c (now x) -> typing k = false -> pointing r = false -> (is_clickpad c = true -> soft (now x) = false) -> redge (now x) = false ->
  palm (fst (palm_detect c k r ARB_NONE false t x)) = PALM_EDGE /\ ptime (fst (palm_detect c k r ARB_NONE false t x)) = t /\ pfirst (fst (palm_detect c k r ARB_NONE false t x)) = (px (now x), py (now x)).
Proof.
  intros c k r t x U P C H T R S1 S2. unfold palm_detect. cbn [first_hit]. rewrite calm_pressure by (try assumption; congruence). cbn [arbitration_triggered].
  assert (D : dwt_triggered k x = (x, false)) by (unfold dwt_triggered; rewrite U, P, T; cbn; rewrite !andb_false_r; reflexivity).
  assert (T' : trackpoint_triggered c r x = (x, false)) by (unfold trackpoint_triggered; rewrite U, P, R; destruct (negb _); cbn; rewrite ?andb_false_r; reflexivity).
  rewrite D, T', calm_tool, calm_size by assumption. unfold edge_triggered. rewrite P, U, S2. cbn [is_st negb orb].
  replace (in_edge c (now x)) with true by (symmetry; unfold in_edge, in_side_edge, in_top_edge; rewrite !orb_true_iff, !Z.ltb_lt; destruct H as [H|[H|H]]; auto). cbn [negb].
  replace (is_clickpad c && soft (now x)) with false by (destruct (is_clickpad c); [rewrite (S1 eq_refl); reflexivity | reflexivity]). cbn. auto.
Qed.

(** Which touches a frame looks at together with this one *)
Lemma now_after : forall c s m t x, now (after c s m t x) = now x.
Proof. intros. unfold after. destruct (_ || _); [reflexivity | apply detect_now]. Qed.
Lemma fold_at : forall c g t s i x, nth_error (touches s) i = Some x ->
  exists h y, nth_error (touches (fold_left (process_touch c g t) (seq 0 (length (touches s))) s)) i = Some y /\
    same_but_speed y (after c s (multifinger c h i (touches (fold_left (process_touch c g t) (seq 0 i) s))) t x) /\ (detect_thumbs c = false -> True).
Proof.
  intros c g t s i x X. assert (L : (i < length (touches s))%nat) by (apply nth_error_Some; congruence).
  replace (length (touches s)) with (i + S (length (touches s) - i - 1))%nat by lia. rewrite seq_app, fold_left_app. cbn [seq fold_left plus].
  set (s1 := fold_left (process_touch c g t) (seq 0 i) s).
  assert (X1 : nth_error (touches s1) i = Some x) by (unfold s1; rewrite fold_other; [exact X | rewrite in_seq; lia]).
  assert (SM : kb s1 = kb s /\ tr s1 = tr s /\ ar s1 = ar s) by (destruct (fold_same c g t (seq 0 i) s) as [A [B [C _]]]; auto). destruct SM as [A [B C]].
  set (s2 := process_touch c g t s1 i).
  assert (Y : exists h y, nth_error (touches s2) i = Some y /\ same_but_speed y (after c s (multifinger c h i (touches s1)) t x)).
  { unfold s2, process_touch, after. rewrite X1. destruct (is_st (st (now x)) NONE) eqn:E; [exists (th s1), x; cbn; repeat split; exact X1 |].
    destruct (dirty (now x)) eqn:D; cbn [negb].
    - rewrite A, B, C. set (h := thumb_update_touch _ _ _ _ _ _ _ _). exists h. destruct (palm_detect c (kb s) (tr s) (astate (ar s)) (multifinger c h i (touches s1)) t x) as [x1 fine].
      eexists. split; [cbn; eapply put_same; exact X1 | cbn; repeat split].
    - exists (th s1). eexists. split; [cbn; eapply put_same; exact X1 | cbn; repeat split]. }
  destruct Y as [h [y [Y Q]]]. exists h, y. split; [rewrite fold_other; [exact Y | rewrite in_seq; lia] | auto].
Qed.
Lemma fold_now : forall c g t l s j x, nth_error (touches s) j = Some x -> exists y, nth_error (touches (fold_left (process_touch c g t) l s)) j = Some y /\ now y = now x.
Proof.
  intros c g t l. induction l as [|i l IH]; intros s j x X; [exists x; auto |]. cbn [fold_left].
  destruct (Nat.eq_dec i j) as [->|D].
  - destruct (process_touch_this c g t s j x X) as [m [y [Y [Q _]]]]. rewrite now_after in Q. destruct (IH _ j y Y) as [z [Zn Z]]. exists z. split; [exact Zn | congruence].
  - destruct (IH (process_touch c g t s i) j x) as [z [Zn Z]]; [rewrite process_touch_other by exact D; exact X | exists z; auto].
Qed.
Lemma fold_length : forall c g t l s, length (touches (fold_left (process_touch c g t) l s)) = length (touches s).
Proof. intros c g t l s. destruct (fold_same c g t l s) as [_ [_ [_ [_ E]]]]. exact E. Qed.
Lemma alone_multi : forall c g t s f i h l, length f = length (touches s) -> alone i f ->
  multifinger c h i (touches (fold_left (process_touch c g t) l (with_touches s (enter_all t (touches s) f)))) = false.
Proof.
  intros c g t s f i h l L A. set (s0 := with_touches s (enter_all t (touches s) f)). set (s1 := fold_left _ l s0). unfold multifinger.
  assert (D : (nfingers_down (touches s1) <= 1)%nat).
  { apply (down_alone _ i). intros j x J N. assert (E : exists x0, nth_error (touches s0) j = Some x0).
    { destruct (nth_error (touches s0) j) eqn:E0; [eauto |]. apply nth_error_None in E0. assert (K : (j < length (touches s1))%nat) by (apply nth_error_Some; congruence). unfold s1 in K. rewrite fold_length in K. lia. }
    destruct E as [x0 E]. destruct (fold_now c g t l s0 j x0 E) as [y [Y Q]]. fold s1 in Y. rewrite J in Y. injection Y as <-. rewrite Q.
    destruct (enter_all_inv t (touches s) f j x0 L E) as [x1 [v [_ [V ->]]]]. rewrite enter_now. apply (A j v V N). }
  destruct (nfingers_down (touches s1)) as [|[|k]]; [reflexivity | reflexivity | lia].
Qed.
(** The frame, for a touch that is alone *)
Lemma frame_alone : forall c s f g u t i x v, length f = length (touches s) -> nth_error (touches s) i = Some x -> nth_error f i = Some v -> alone i f ->
  exists y, nth_error (touches (fst (frame c s f g u t))) i = Some y /\ same_but_speed y (after c s false t (enter t x v)).
Proof.
  intros c s f g u t i x v L X V A. pose proof (enter_all_nth t _ _ _ _ _ X V) as E. set (s0 := with_touches s (enter_all t (touches s) f)).
  destruct (fold_at c g t s0 i (enter t x v) E) as [h [y [Y [Q _]]]]. unfold s0 in Q. rewrite alone_multi in Q by assumption. exists y. split; [| exact Q].
  unfold frame. fold s0. cbn [fst]. destruct (post_process_same (match u with Some j => with_th (process_state c g t s0) (thumb_suppress (th (process_state c g t s0)) j) | None => process_state c g t s0 end)) as [_ [_ [_ [_ T]]]].
  rewrite T. assert (P1 : nth_error (touches (process_state c g t s0)) i = Some y) by (unfold process_state; destruct (_ && _ && _); cbn; exact Y). destruct u; cbn; exact P1.
Qed.
(** A touch that is no palm moves *)
Lemma finger_moves : forall c s f g u t i x v y, typing (kb s) = false -> pointing (tr s) = false -> length f = length (touches s) -> nth_error (touches s) i = Some x -> nth_error f i = Some v -> st v = BEGIN \/ st v = UPDATE ->
  nth_error (touches (fst (frame c s f g u t))) i = Some y -> palm y = PALM_NONE ->
  (detect_thumbs c = false \/ (tst (th s) = TH_FINGER /\ alone i f /\ py v < upper_thumb_line c /\ u = None)) ->
  nth_error (snd (frame c s f g u t)) i = Some (free_out v).
Proof.
  intros c s f g u t i x v y QK QT L H G U Y PY T.
  destruct (frame_touch c s f g u t i x v H G) as [m [y' [h [P [Q [NY [R E]]]]]]]. rewrite Y in P. injection P as <-.
  assert (I : thumb_ignored c h i = false).
  { apply finger_not_ignored. destruct T as [T|[T1 [T2 [T3 T4]]]]; [left; exact T | right]. subst u. rewrite E. apply (lone_thumb c s f g t i x v); assumption. }
  rewrite R, QT, QK. cbn [orb]. unfold touch_active, is_down. rewrite NY, PY, I. destruct U as [-> | ->]; reflexivity.
Qed.
Definition on_edge (t0 x0 y0 : Z) (y : touch) : Prop := palm y = PALM_EDGE /\ ptime y = t0 /\ pfirst y = (x0, y0).
Lemma edge_lands : forall c s f g u t i x v, quiet s -> length f = length (touches s) -> nth_error (touches s) i = Some x -> nth_error f i = Some v -> lands_in_edge c v -> alone i f ->
  exists y, nth_error (touches (fst (frame c s f g u t))) i = Some y /\ on_edge t (px v) (py v) y.
Proof.
  intros c s f g u t i x v [QK [QT QA]] L X V [B [F [D [E [C [S1 S2]]]]]] A. destruct (frame_alone c s f g u t i x v L X V A) as [y [Y Q]]. exists y. split; [exact Y |].
  destruct (enter_begin t x v B) as [E1 [E2 [E3 _]]]. destruct Q as [_ [Q2 [Q3 [Q4 _]]]]. unfold on_edge. rewrite Q2, Q3, Q4.
  rewrite after_dirty by (rewrite E2; first [exact D | rewrite B; discriminate]). rewrite QA.
  destruct (edge_begin c (kb s) (tr s) t (enter t x v)) as [P1 [P2 P3]]; rewrite ?E2; auto. rewrite P3, E2. auto.
Qed.
Lemma edge_run : forall c n i l s x t0 x0 y0, (i < n)%nat -> length (touches s) = n -> sized n l -> goes_on i l -> no_pen l -> astate (ar s) = ARB_NONE -> edge_stays c i t0 l -> nth_error (touches s) i = Some x -> on_edge t0 x0 y0 x ->
  exists y, nth_error (touches (run c s l)) i = Some y /\ on_edge t0 x0 y0 y.
Proof.
  intros c n i l. induction l as [|a l IH]; intros s x t0 x0 y0 I N Z G P A ES X O; [exists x; auto |]. cbn [run].
  assert (Z1 : sized n [a]) by (intros k [<-|[]]; apply Z; left; reflexivity). assert (Z' : sized n l) by (intros k K; apply Z; right; exact K).
  assert (P' : no_pen l) by (intros w f t K; apply (P w f t); right; exact K). assert (ES' : edge_stays c i t0 l) by (intros f g u t v K; apply (ES f g u t v); right; exact K).
  assert (G' : goes_on i l) by (intros f [[g [u [t K]]]|[w [t K]]]; apply G; [left; exists g, u, t | right; exists w, t]; right; exact K).
  destruct (step_parts c s a) as [_ [_ [SA SL]]]. rewrite N in SL.
  assert (A' : astate (ar (fst (step c s a))) = ARB_NONE) by (rewrite SA; apply (arb_none [a] (ar s) A); intros w f t [K|[]]; apply (P w f t); left; exact K).
  assert (Y : exists y, nth_error (touches (fst (step c s a))) i = Some y /\ on_edge t0 x0 y0 y); [| destruct Y as [y [Y O']]; apply (IH _ y); assumption].
  destruct a as [f g u t|k p t|t|b| |t|t|w f t|t|m].
  1: { destruct (G f (or_introl (ex_intro _ g (ex_intro _ u (ex_intro _ t (or_introl eq_refl)))))) as [v [V [U F]]]. destruct (ES f g u t v (or_introl eq_refl) V) as [AL H].
    assert (L : length f = length (touches s)) by (rewrite N; apply (Z (Frame f g u t)); left; reflexivity).
    destruct (frame_alone c s f g u t i x v L X V AL) as [y [Y Q]]. exists y. rewrite fst_step_frame. split; [exact Y |]. destruct (enter_update t x v U F) as [E1 [E2 [E3 [E4 _]]]].
    destruct Q as [_ [Q2 [Q3 [Q4 _]]]]. destruct O as [O1 [O2 O3]]. unfold on_edge. rewrite Q2, Q3, Q4. destruct (after_eq c s false t (enter t x v)) as [E|[_ E]]; rewrite E; [rewrite E1, E2, E3; auto |].
    destruct (edge_ptime c (kb s) (tr s) (astate (ar s)) false t (enter t x v)) as [T1 T2]; rewrite ?E1, ?E4; auto. rewrite T1, T2, E2, E3. rewrite A in *.
    destruct (edge_update c (kb s) (tr s) ARB_NONE false t (enter t x v)) as [W|W]; rewrite ?E1, ?E4; auto; [destruct H as [H|H]; [left; exact H | right; rewrite E2, O2; exact H] |].
    exfalso. revert W. unfold palm_detect. cbn [first_hit arbitration_triggered].
    set (z := enter t x v) in *. assert (Pz : palm z = PALM_EDGE) by congruence.
    assert (P1 : pressure_triggered c z = (z, false)) by (unfold pressure_triggered; rewrite Pz; destruct (negb _); reflexivity).
    assert (D : dwt_triggered (kb s) z = (z, false)) by (unfold dwt_triggered; rewrite E4, U, Pz; cbn; rewrite ?andb_false_r; reflexivity).
    assert (T' : trackpoint_triggered c (tr s) z = (z, false)) by (unfold trackpoint_triggered; rewrite E4, U, Pz; destruct (negb _); cbn; rewrite ?andb_false_r; reflexivity).
    assert (L' : tool_triggered c z = (z, false)) by (unfold tool_triggered; rewrite Pz; destruct (negb _); reflexivity).
    assert (Z0 : touch_size_triggered c z = (z, false)) by (unfold touch_size_triggered; rewrite Pz; destruct (negb _); reflexivity).
    rewrite P1, D, T', L', Z0. unfold edge_triggered. rewrite Pz. destruct (false || _); [| rewrite P1; cbn; rewrite Pz; discriminate].
    unfold pressure_triggered. cbn. destruct (negb _); [cbn; discriminate |]. destruct (_ <? _); cbn; discriminate. }
  all: destruct (step_touch c s _ i x n I Z1 X) as [y [Y E]]; exists y; split; [exact Y |]; destruct E as [->|[v [t0' [m' [Sh _]]]]]; [exact O |]; exfalso; destruct Sh as [[? [? [? [K _]]]]|[? [? [K _]]]]; try discriminate K.
  eapply P. left. reflexivity.
Qed.
(** Moving out of the edge *)
Lemma moved_out : forall c x t, outside_edges c (now x) -> t < ptime x + 200000 -> moves_away c (fst (pfirst x)) (snd (pfirst x)) (now x) -> move_out_of_edge c x t = true.
Proof.
  intros c x t [[O1 O2] O3] T M. unfold move_out_of_edge. replace (t <? ptime x + 200000) with true by (symmetry; apply Z.ltb_lt; exact T).
  unfold in_edge, in_side_edge, in_top_edge. replace (px (now x) <? left_edge c) with false by (symmetry; apply Z.ltb_ge; exact O1). replace (right_edge c <? px (now x)) with false by (symmetry; apply Z.ltb_ge; exact O2).
  replace (py (now x) <? upper_edge c) with false by (symmetry; apply Z.ltb_ge; exact O3). cbn [orb negb andb].
  unfold moves_away in M. set (d := Gest_Model.get_direction _ _) in *. clearbody d. set (fx := fst (pfirst x)) in *. set (fy := snd (pfirst x)) in *.
  assert (Small : (d < 256)%N -> d <> 0%N -> forall ds, (ds = 238 \/ ds = 56)%N -> (forall k, (k < 8)%N -> N.testbit ds k = false -> N.testbit d k = false) ->
    negb (ds =? 0)%N && negb (N.land d ds =? 0)%N && (N.land d (N.lxor 255 ds) =? 0)%N = true).
  { intros D1 D2 ds Hds K. assert (E1 : N.land d ds = d).
    { apply N.bits_inj. intros k. rewrite N.land_spec. destruct (N.ltb k 8) eqn:KL; [apply N.ltb_lt in KL | apply N.ltb_ge in KL].
      - destruct (N.testbit ds k) eqn:B; [apply andb_true_r |]. rewrite (K k KL B). reflexivity.
      - replace (N.testbit d k) with false; [reflexivity |]. symmetry. destruct d as [|p]; [reflexivity |]. apply N.bits_above_log2. apply N.lt_le_trans with 8%N; [| exact KL]. apply N.log2_lt_pow2; [reflexivity | exact D1]. }
    assert (E2 : N.land d (N.lxor 255 ds) = 0%N).
    { apply N.bits_inj. intros k. rewrite N.land_spec, N.lxor_spec, N.bits_0. destruct (N.ltb k 8) eqn:KL; [apply N.ltb_lt in KL | apply N.ltb_ge in KL].
      - destruct (N.testbit ds k) eqn:B; [| rewrite (K k KL B); reflexivity]. replace (N.testbit 255 k) with true; [cbn; apply andb_false_r |].
        assert (Q : (k = 0 \/ k = 1 \/ k = 2 \/ k = 3 \/ k = 4 \/ k = 5 \/ k = 6 \/ k = 7)%N) by lia. repeat (destruct Q as [->|Q]; [reflexivity |]). subst k. reflexivity.
      - replace (N.testbit d k) with false; [reflexivity |]. symmetry. destruct d as [|p]; [reflexivity |]. apply N.bits_above_log2. apply N.lt_le_trans with 8%N; [| exact KL]. apply N.log2_lt_pow2; [reflexivity | exact D1]. }
    rewrite E1, E2. apply N.eqb_neq in D2. rewrite D2. destruct Hds as [-> | ->]; reflexivity. }
  destruct M as [[H [D0 [D8 [B0 B4]]]]|[H [Hy [D0 [D8 B]]]]].
  - replace ((fx <? left_edge c) || (right_edge c <? fx)) with true by (symmetry; apply orb_true_iff; rewrite !Z.ltb_lt; exact H). apply Small; auto. intros k KL K.
    assert (Q : (k = 0 \/ k = 1 \/ k = 2 \/ k = 3 \/ k = 4 \/ k = 5 \/ k = 6 \/ k = 7)%N) by lia. repeat (destruct Q as [->|Q]; [first [assumption | discriminate] |]). subst k. first [assumption | discriminate].
  - replace (fx <? left_edge c) with false by (symmetry; apply Z.ltb_ge; lia). replace (right_edge c <? fx) with false by (symmetry; apply Z.ltb_ge; lia). replace (fy <? upper_edge c) with true by (symmetry; apply Z.ltb_lt; exact Hy).
    cbn [orb]. apply Small; auto. intros k KL K.
    assert (Q : (k = 0 \/ k = 1 \/ k = 2 \/ k = 3 \/ k = 4 \/ k = 5 \/ k = 6 \/ k = 7)%N) by lia. repeat (destruct Q as [->|Q]; [first [discriminate | apply B; cbn; tauto] |]). subst k. first [discriminate | apply B; cbn; tauto].
Qed.
Lemma edge_release : forall c k r m t x, st (now x) = UPDATE -> palm x = PALM_EDGE -> calm c (now x) -> m = true \/ move_out_of_edge c x t = true -> palm (fst (palm_detect c k r ARB_NONE m t x)) = PALM_NONE.
Proof.
  intros c k r m t x U P C H. unfold palm_detect. cbn [first_hit arbitration_triggered].
  assert (P1 : pressure_triggered c x = (x, false)) by (unfold pressure_triggered; rewrite P; destruct (negb _); reflexivity).
  assert (D : dwt_triggered k x = (x, false)) by (unfold dwt_triggered; rewrite U, P; cbn; rewrite ?andb_false_r; reflexivity).
  assert (T' : trackpoint_triggered c r x = (x, false)) by (unfold trackpoint_triggered; rewrite U, P; destruct (negb _); cbn; rewrite ?andb_false_r; reflexivity).
  assert (L : tool_triggered c x = (x, false)) by (unfold tool_triggered; rewrite P; destruct (negb _); reflexivity).
  assert (Z : touch_size_triggered c x = (x, false)) by (unfold touch_size_triggered; rewrite P; destruct (negb _); reflexivity).
  assert (G : edge_triggered c m t x = (with_palm x PALM_NONE, false)) by (unfold edge_triggered; rewrite P; destruct H as [-> | ->]; [reflexivity | rewrite orb_true_r; reflexivity]).
  rewrite P1, D, T', L, Z, G. rewrite calm_pressure; [reflexivity | exact C | cbn; discriminate].
Qed.

(** ** Two fingers *)
Lemma other_active_one : forall c h i l k j x, nth_error l j = Some x -> (k + j)%nat <> i -> touch_active c h (k + j) x (if Nat.ltb (k + j) i then free_mid (now x) else free_pre (now x)) = true -> other_active c h i k l = true.
Proof.
  intros c h i l. induction l as [|a l IH]; intros k [|j] x X N T; cbn in *; try discriminate.
  - injection X as ->. rewrite Nat.add_0_r in *. rewrite T. destruct (Nat.eqb i k) eqn:E; [apply Nat.eqb_eq in E; congruence | reflexivity].
  - apply orb_true_iff. right. apply (IH (S k) j x X); rewrite Nat.add_succ_comm; assumption.
Qed.
Lemma two_down : forall l i j x y, nth_error l i = Some x -> nth_error l j = Some y -> i <> j -> is_down x = true -> is_down y = true -> (2 <= nfingers_down l)%nat.
Proof.
  assert (One : forall l i x, nth_error l i = Some x -> is_down x = true -> (1 <= nfingers_down l)%nat).
  { intros l. unfold nfingers_down. induction l as [|a l IH]; intros [|i] x X D; try discriminate; cbn in *.
    - injection X as ->. rewrite D. cbn. lia.
    - specialize (IH i x X D). destruct (is_down a); cbn; lia. }
  intros l. induction l as [|a l IH]; intros i j x y X Y N D E; [destruct i; discriminate |]. unfold nfingers_down in *. cbn [filter]. destruct i as [|i], j as [|j]; cbn in X, Y.
  - contradiction.
  - injection X as ->. rewrite D. cbn. pose proof (One l j y Y E) as O. unfold nfingers_down in O. lia.
  - injection Y as ->. rewrite E. cbn. pose proof (One l i x X D) as O. unfold nfingers_down in O. lia.
  - specialize (IH i j x y X Y ltac:(congruence) D E). destruct (is_down a); cbn; lia.
Qed.
(** The other touch is no palm in this frame: it lands outside the edges, or goes on *)
Definition plain (c : config) (x : touch) (v : seen) : Prop := lands c v \/ (st v = UPDATE /\ fresh v = false /\ calm c v /\ palm x = PALM_NONE).
Lemma plain_after : forall c s m t x v, quiet s -> plain c x v -> palm (enter t x v) = PALM_NONE /\ palm (after c s m t (enter t x v)) = PALM_NONE /\ (st v = BEGIN \/ st v = UPDATE).
Proof.
  intros c s m t x v [QK [QT QA]] [[B [F [D [O C]]]]|[U [F [C P]]]].
  - destruct (enter_begin t x v B) as [E1 [E2 [E3 _]]]. assert (P0 : palm (enter t x v) = PALM_NONE) by auto. split; [exact P0 | split; [| auto]].
    rewrite after_dirty by (rewrite E2; first [exact D | rewrite B; discriminate]). rewrite QA, begin_clean by (rewrite ?E2; assumption). exact P0.
  - destruct (enter_update t x v U F) as [E1 [E2 [_ [E4 _]]]]. split; [congruence | split; [| auto]].
    destruct (after_eq c s m t (enter t x v)) as [E|[_ E]]; rewrite E; [congruence |]. rewrite QA, none_update by (rewrite ?E1, ?E4; assumption). cbn. congruence.
Qed.
Lemma frame_second : forall c s f g u t i x v j xj vj, detect_thumbs c = false -> quiet s -> length f = length (touches s) -> nth_error (touches s) i = Some x -> nth_error f i = Some v -> st v = BEGIN \/ st v = UPDATE ->
  i <> j -> nth_error (touches s) j = Some xj -> nth_error f j = Some vj -> plain c xj vj -> free_pre vj = true -> free_mid vj = true ->
  exists y, nth_error (touches (fst (frame c s f g u t))) i = Some y /\ same_but_speed y (after c s true t (enter t x v)).
Proof.
  intros c s f g u t i x v j xj vj DT Q L X V U N XJ VJ PL F1 F2. pose proof (enter_all_nth t _ _ _ _ _ X V) as E. pose proof (enter_all_nth t _ _ _ _ _ XJ VJ) as EJ. set (s0 := with_touches s (enter_all t (touches s) f)).
  destruct (fold_at c g t s0 i (enter t x v) E) as [h [y [Y [Sm _]]]].
  assert (M : multifinger c h i (touches (fold_left (process_touch c g t) (seq 0 i) s0)) = true).
  { set (s1 := fold_left (process_touch c g t) (seq 0 i) s0).
    assert (PJ : exists z, nth_error (touches s1) j = Some z /\ now z = vj /\ palm z = PALM_NONE /\ (st vj = BEGIN \/ st vj = UPDATE)).
    { destruct (Nat.ltb j i) eqn:LT.
      - apply Nat.ltb_lt in LT. assert (IN : In j (seq 0 i)) by (apply in_seq; lia).
        destruct (fold_this c g t (seq 0 i) s0 j (enter t xj vj) (seq_NoDup _ _) IN EJ) as [m [z [Zn [S1 [S2 _]]]]].
        destruct (plain_after c s0 m t xj vj Q PL) as [_ [P2 P3]]. exists z. split; [exact Zn |]. split; [rewrite S1, now_after; apply enter_now |]. split; [rewrite S2; exact P2 | exact P3].
      - apply Nat.ltb_ge in LT. destruct (plain_after c s0 false t xj vj Q PL) as [P1 [_ P3]]. exists (enter t xj vj). split; [unfold s1; rewrite fold_other; [exact EJ | rewrite in_seq; lia] |]. split; [apply enter_now |]. auto. }
    destruct PJ as [z [Zn [Z1 [Z2 Z3]]]]. destruct (fold_now c g t (seq 0 i) s0 i (enter t x v) E) as [xi [XI NI]]. fold s1 in XI.
    unfold multifinger. apply andb_true_iff. split.
    - apply Nat.leb_le. apply (two_down _ i j xi z XI Zn N); unfold is_down; [rewrite NI, enter_now; destruct U as [-> | ->]; reflexivity | rewrite Z1; destruct Z3 as [-> | ->]; reflexivity].
    - apply (other_active_one c h i _ 0 j z Zn); [cbn; congruence |]. cbn [plus]. unfold touch_active, is_down. rewrite Z1, Z2, finger_not_ignored by (left; exact DT). rewrite F1, F2. destruct Z3 as [-> | ->]; destruct (Nat.ltb j i); reflexivity. }
  rewrite M in Sm. exists y. split; [| exact Sm].
  unfold frame. fold s0. cbn [fst]. destruct (post_process_same (match u with Some j => with_th (process_state c g t s0) (thumb_suppress (th (process_state c g t s0)) j) | None => process_state c g t s0 end)) as [_ [_ [_ [_ T]]]].
  rewrite T. assert (P1 : nth_error (touches (process_state c g t s0)) i = Some y) by (unfold process_state; destruct (_ && _ && _); cbn; exact Y). destruct u; cbn; exact P1.
Qed.
(** abort() is never reached *)
Lemma process_touch_ok : forall c g t s i, ok (process_touch c g t s i) = ok s.
Proof.
  intros c g t s i. unfold process_touch. destruct (nth_error (touches s) i) as [x|]; [| reflexivity]. destruct (is_st _ NONE); [reflexivity |]. destruct (negb _); [reflexivity |].
  match goal with |- context [palm_detect ?a ?b ?d ?e ?k ?l ?m] => pose proof (detect_fine a b d e k l m) as F; destruct (palm_detect a b d e k l m) as [x1 fine] end. cbn in *. rewrite F. apply andb_true_r.
Qed.
Lemma frame_ok : forall c s f g u t, ok (fst (frame c s f g u t)) = ok s.
Proof.
  intros c s f g u t. unfold frame. cbn [fst]. set (s0 := with_touches s _).
  assert (F : forall l s1, ok (fold_left (process_touch c g t) l s1) = ok s1) by (induction l as [|i l IH]; intros s1; [reflexivity |]; cbn; rewrite IH; apply process_touch_ok).
  assert (P : ok (process_state c g t s0) = ok s) by (unfold process_state; destruct (_ && _ && _); cbn [ok with_th]; rewrite F; reflexivity).
  unfold post_process. destruct u as [j|]; match goal with |- context [nfingers_down ?x] => destruct (nfingers_down x) end; exact P.
Qed.
Lemma step_ok : forall c s i, ok (fst (step c s i)) = ok s.
Proof.
  intros c s i. destruct i as [f g u t|k p t|t|b| |t|t|w f t|t|m]; cbn [step].
  - pose proof (frame_ok c s f g u t) as F. destruct (frame c s f g u t). exact F.
  - destruct (keyboard_event (kb s) k p t). reflexivity.
  - destruct (due _ t); [destruct (keyboard_timeout (kb s) t) |]; reflexivity.
  - reflexivity.
  - reflexivity.
  - destruct (monitor_trackpoint c); [destruct (trackpoint_event (tr s) t) |]; reflexivity.
  - destruct (due _ t); [destruct (trackpoint_timeout (tr s)) |]; reflexivity.
  - pose proof (frame_ok c (with_th (with_ar s {| astate := astate (ar s); atimer := None |}) thumb_reset) f true None t) as F.
    destruct w, (astate (ar s)); try reflexivity; destruct (frame c _ f true None t); exact F.
  - destruct (due _ t); reflexivity.
  - reflexivity.
Qed.
