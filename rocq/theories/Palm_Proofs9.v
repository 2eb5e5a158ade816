(** * Thumbs: two touches *)
Require Import Coq.ZArith.ZArith Coq.Lists.List Coq.Bool.Bool Coq.micromega.Lia.
Require Import Verif.Palm_Model Verif.Palm_Spec Verif.Palm_Spec2 Verif.Palm_Proofs1 Verif.Palm_Proofs2 Verif.Palm_Proofs3 Verif.Palm_Proofs4 Verif.Palm_Proofs5 Verif.Palm_Proofs6 Verif.Palm_Proofs7 Verif.Palm_Proofs8.
Require Verif.Es_Model Verif.Gest_Model.
Import ListNotations.
Open Scope Z_scope.
Local Arguments frame : simpl never.
Local Arguments keyboard_event : simpl never.
Local Arguments Z.mul : simpl never.
Local Arguments Z.add : simpl never.

(** ** The loop that looks for the two lowest *)
Lemma look_skip : forall f i x, st (now x) = NONE -> look f i x = f.
Proof. intros f i x H. unfold look. rewrite H. reflexivity. Qed.
Lemma look_none : forall l f k, (forall j x, nth_error l j = Some x -> st (now x) = NONE) -> look_all f k l = f.
Proof. induction l as [|a l IH]; intros f k H; [reflexivity |]. cbn. rewrite look_skip by (apply (H O); reflexivity). apply IH. intros j x J. apply (H (S j) x J). Qed.
Lemma look_one : forall l f k i x, nth_error l i = Some x -> (forall j y, nth_error l j = Some y -> j <> i -> st (now y) = NONE) -> look_all f k l = look f (k + i) x.
Proof.
  induction l as [|a l IH]; intros f k i x X H; [destruct i; discriminate |]. cbn [look_all]. destruct i as [|i]; cbn in X.
  - injection X as ->. rewrite Nat.add_0_r. apply look_none. intros j y J. apply (H (S j) y J). discriminate.
  - rewrite look_skip by (apply (H O); [reflexivity | discriminate]). rewrite (IH f (S k) i x X); [rewrite Nat.add_succ_comm; reflexivity |]. intros j y J N. apply (H (S j) y J). congruence.
Qed.
Lemma look_two : forall l f k i j x y, (i < j)%nat -> nth_error l i = Some x -> nth_error l j = Some y -> (forall a z, nth_error l a = Some z -> a <> i -> a <> j -> st (now z) = NONE) ->
  look_all f k l = look (look f (k + i) x) (k + j) y.
Proof.
  induction l as [|a l IH]; intros f k i j x y OR X Y H; [destruct i; discriminate |]. cbn [look_all]. destruct i as [|i]; cbn in X.
  - injection X as ->. destruct j as [|j]; [lia |]. cbn in Y. rewrite Nat.add_0_r. rewrite (look_one l _ (S k) j y Y); [rewrite Nat.add_succ_comm; reflexivity |].
    intros b z Z N. apply (H (S b) z Z); congruence.
  - destruct j as [|j]; [lia |]. cbn in Y. rewrite look_skip by (apply (H O); [reflexivity | discriminate | discriminate]). rewrite (IH f (S k) i j x y ltac:(lia) X Y); [rewrite !Nat.add_succ_comm; reflexivity |].
    intros b z Z N1 N2. apply (H (S b) z Z); congruence.
Qed.
Definition found_pair (f : found) (i j : nat) (x y : touch) : Prop :=
  f_newest f = Some (j, y) /\ f_speed f = Z.max (Z.max 0 (exceeded x)) (exceeded y) /\ (exists o z, f_oldest f = Some (o, z) /\ itime z = Z.min (itime x) (itime y)) /\
  ((f_first f = Some (i, x) /\ f_second f = Some (j, y) /\ hy (now y) <= hy (now x)) \/ (f_first f = Some (j, y) /\ f_second f = Some (i, x) /\ hy (now x) <= hy (now y))).
Lemma pair_found : forall l i j x y, i <> j -> nth_error l i = Some x -> nth_error l j = Some y -> (forall a z, nth_error l a = Some z -> a <> i -> a <> j -> st (now z) = NONE) -> st (now x) = UPDATE -> st (now y) = BEGIN ->
  found_pair (look_all found0 0 l) i j x y.
Proof.
  intros l i j x y N X Y H U B. assert (O : (i < j \/ j < i)%nat) by lia. destruct O as [O|O].
  - rewrite (look_two l found0 0 i j x y O X Y H). cbn [plus]. unfold look at 2. rewrite U. cbn. unfold look. rewrite B. cbn. unfold found_pair.
    destruct (itime y <? itime x) eqn:T, (hy (now x) <? hy (now y)) eqn:E; rewrite ?Z.ltb_lt, ?Z.ltb_ge in *; cbn; (split; [reflexivity | split; [lia | split]]);
      try (do 2 eexists; split; [reflexivity | lia]); first [left; repeat split; first [reflexivity | lia] | right; repeat split; first [reflexivity | lia]].
  - rewrite (look_two l found0 0 j i y x O Y X ltac:(intros a z Z N1 N2; apply (H a z Z N2 N1))). cbn [plus]. unfold look at 2. rewrite B. cbn. unfold look. rewrite U. cbn. unfold found_pair.
    destruct (itime x <? itime y) eqn:T, (hy (now y) <? hy (now x)) eqn:E; rewrite ?Z.ltb_lt, ?Z.ltb_ge in *; cbn; (split; [reflexivity | split; [lia | split]]);
      try (do 2 eexists; split; [reflexivity | lia]); first [left; repeat split; first [reflexivity | lia] | right; repeat split; first [reflexivity | lia]].
Qed.
(** ** The thumb among two *)
Section Two.
Variables (c : config) (m : Es_Model.smethod) (nfd : nat) (l : list touch) (h : thumb) (i j : nat) (x y : touch).
Hypothesis FP : found_pair (look_all found0 0 l) i j x y.
Hypothesis N2 : (2 <= nfd)%nat.
Let r := thumb_update_multifinger c m nfd l h.
Local Ltac unpack :=
  unfold r, thumb_update_multifinger; destruct FP as [F1 [F2 [[o [z [F3 F4]]] F5]]]; destruct (look_all found0 0 l) as [ff fs fn fo sp]; cbn [f_first f_second f_newest f_oldest f_speed] in *;
  subst fn fo sp; destruct F5 as [[F5 [F6 F7]]|[F5 [F6 F7]]]; subst ff fs; cbn zeta.
Local Ltac cmp := repeat (match goal with
  | |- context [?a <? ?b] => let E := fresh "E" in destruct (a <? b) eqn:E; [apply Z.ltb_lt in E | apply Z.ltb_ge in E]
  | |- context [?a <=? ?b] => let E := fresh "E" in destruct (a <=? b) eqn:E; [apply Z.leb_le in E | apply Z.leb_gt in E]
  end; cbn [andb orb negb]; try (exfalso; lia)).
Lemma multi_near : m = Es_Model.M_2FG \/ (exceeded x <= 5 /\ exceeded y <= 5) -> near c (now x) (now y) -> tst r = TH_FINGER.
Proof.
  intros M [A B]. unpack.
  all: replace (Nat.leb 2 nfd) with true by (symmetry; apply Nat.leb_le; exact N2); destruct (tst h) eqn:T; cbn [andb]; destruct M as [->|[M1 M2]]; cbn [twofinger_method negb orb]; cmp; reflexivity.
Qed.
(** Both came within 100 ms, above the lower line *)
Lemma multi_together : (exceeded x <= 5 /\ exceeded y <= 5) -> itime x <= itime y -> itime y - itime x < 100000 -> hy (now x) < lower_thumb_line c -> hy (now y) < lower_thumb_line c -> tst r = TH_FINGER.
Proof.
  intros [M1 M2] T1 T2 L1 L2. unfold THUMB_TIMEOUT in *. unpack; rewrite F4; unfold THUMB_TIMEOUT.
  all: replace (Nat.leb 2 nfd) with true by (symmetry; apply Nat.leb_le; exact N2); destruct (tst h) eqn:T; cbn [andb]; cmp; reflexivity.
Qed.
(** The other one is fast *)
Lemma multi_fast : tst h = TH_FINGER -> 5 < exceeded x -> (m <> Es_Model.M_2FG \/ beyond c (now x) (now y)) -> tst r = TH_SUPPRESSED /\ tix r = Some j.
Proof.
  intros T M B. unfold beyond in B.
  assert (B' : negb (twofinger_method m) = true \/ beyond c (now x) (now y)) by (destruct B as [B|B]; [left; destruct m; try reflexivity; contradiction | right; exact B]). clear B. unfold beyond in B'.
  unpack.
  all: replace (Nat.leb 2 nfd) with true by (symmetry; apply Nat.leb_le; exact N2); rewrite T; cbn [andb]; unfold thumb_suppress; rewrite T; cbn [orb].
  all: destruct (negb (twofinger_method m)); cbn [orb]; cmp; try (split; reflexivity); exfalso; destruct B' as [B'|B']; first [discriminate | lia].
Qed.
(** One is far below the other, and they did not come together *)
Lemma multi_below : jail i true h \/ (tst h = TH_FINGER /\ exceeded x <= 5 /\ exceeded y <= 5) -> itime x <= itime y ->
  (far_below c (now x) (now y) \/ far_below c (now y) (now x)) -> 0 <= Gest_Model.ry (gp c) ->
  100000 <= itime y - itime x \/ lower_thumb_line c <= Z.max (hy (now x)) (hy (now y)) ->
  (tst r = TH_PINCH \/ tst r = TH_SUPPRESSED) /\ tix r = Some (if hy (now y) <? hy (now x) then i else j).
Proof.
  intros J T FB RY W. unfold far_below in FB. cbn in J.
  assert (JJ : (tst h = TH_JAILED \/ (tst h = TH_FINGER /\ exceeded x <= 5 /\ exceeded y <= 5))) by (destruct J as [[J _]|J]; auto). clear J.
  assert (PS : forall k, (tst (thumb_pinch h k) = TH_PINCH /\ tix (thumb_pinch h k) = Some k) /\ (tst (thumb_suppress h k) = TH_SUPPRESSED /\ tix (thumb_suppress h k) = Some k)).
  { intro k. unfold thumb_pinch, thumb_suppress. destruct JJ as [-> | [-> _]]; cbn; auto. }
  unpack; rewrite F4; unfold THUMB_TIMEOUT.
  all: replace (Nat.leb 2 nfd) with true by (symmetry; apply Nat.leb_le; exact N2).
  - replace (hy (now y) <? hy (now x)) with true by (symmetry; apply Z.ltb_lt; lia). destruct (PS i) as [[P1 P2] [P3 P4]].
    destruct JJ as [->|[-> [M1 M2]]]; cbn [andb]; cmp; destruct (pinch_ok h); auto.
  - replace (hy (now y) <? hy (now x)) with false by (symmetry; apply Z.ltb_ge; lia). destruct (PS j) as [[P1 P2] [P3 P4]].
    destruct JJ as [->|[-> [M1 M2]]]; cbn [andb]; cmp; destruct (pinch_ok h); auto.
Qed.
End Two.

(** ** A frame with two touches *)
Lemma thumb_two : forall c m g nfd n h i x, (2 <= nfd)%nat -> st (now x) <> END -> tst h <> TH_PINCH -> tst (thumb_update_touch c m g nfd n h i x) = tst h /\ tix (thumb_update_touch c m g nfd n h i x) = tix h.
Proof.
  intros c m g nfd n h i x N E P. unfold thumb_update_touch. destruct (negb _); [auto |]. set (h1 := if (10 <=? _) && _ && _ then _ else h).
  assert (H1 : tst h1 = tst h /\ tix h1 = tix h) by (subst h1; destruct ((10 <=? exceeded x) && pinch_ok h && g); [cbn; destruct (tst h); auto; exfalso; apply P; reflexivity | auto]). clearbody h1.
  replace (is_st (st (now x)) END) with false by (destruct (st (now x)); try reflexivity; contradiction). cbn [andb]. replace (Nat.ltb 1 nfd) with true by (symmetry; apply Nat.ltb_lt; lia). exact H1.
Qed.
Lemma down_map : forall l l', (forall k x, nth_error l k = Some x -> exists y, nth_error l' k = Some y /\ now y = now x) -> length l' = length l -> nfingers_down l' = nfingers_down l.
Proof.
  intros l. unfold nfingers_down. induction l as [|a l IH]; intros l' H L; destruct l' as [|b l']; cbn in L; try lia. cbn [filter].
  destruct (H O a eq_refl) as [y [Y E]]. cbn in Y. injection Y as <-. assert (D : is_down b = is_down a) by (unfold is_down; rewrite E; reflexivity). rewrite D.
  assert (Q := IH l' (fun k x K => H (S k) x K) ltac:(lia)). destruct (is_down a); cbn; rewrite Q; reflexivity.
Qed.
Lemma fold_th : forall c g t l s, (2 <= nfingers_down (touches s))%nat -> (forall k x, nth_error (touches s) k = Some x -> st (now x) <> END) -> tst (th s) <> TH_PINCH ->
  tst (th (fold_left (process_touch c g t) l s)) = tst (th s) /\ tix (th (fold_left (process_touch c g t) l s)) = tix (th s).
Proof.
  intros c g t l. induction l as [|a l IH]; intros s N E P; [auto |]. cbn [fold_left].
  assert (S1 : tst (th (process_touch c g t s a)) = tst (th s) /\ tix (th (process_touch c g t s a)) = tix (th s)).
  { unfold process_touch. destruct (nth_error (touches s) a) as [x|] eqn:X; [| auto]. destruct (is_st _ NONE); [auto |]. destruct (negb _); [auto |]. destruct (palm_detect _ _ _ _ _ _ _) as [x1 fine].
    cbn [th with_ok with_th]. apply thumb_two; [exact N | apply (E a x X) | exact P]. }
  destruct S1 as [S1 S2].
  assert (NW : forall k x, nth_error (touches s) k = Some x -> exists y, nth_error (touches (process_touch c g t s a)) k = Some y /\ now y = now x) by (intros k x K; apply (fold_now c g t [a] s k x K)).
  assert (LN : length (touches (process_touch c g t s a)) = length (touches s)) by apply (fold_length c g t [a] s).
  destruct (IH (process_touch c g t s a)) as [Q1 Q2]; [rewrite (down_map _ _ NW LN); exact N | | rewrite S1; exact P | rewrite Q1, Q2; auto].
  intros k y K. assert (L : (k < length (touches s))%nat) by (rewrite <- LN; apply nth_error_Some; congruence). destruct (nth_some _ (touches s) k _ eq_refl L) as [x X]. destruct (NW k x X) as [y' [Y' NY]]. rewrite K in Y'. injection Y' as <-. rewrite NY. apply (E k x X).
Qed.
Lemma detect_itime : forall c k r a m t x, itime (fst (palm_detect c k r a m t x)) = itime x.
Proof.
  intros c k r a m t x. unfold palm_detect.
  assert (G : forall l, (forall d, In d l -> forall z, itime (fst (d z)) = itime z) -> forall z, itime (fst (first_hit l z)) = itime z).
  { induction l as [|d l IH]; intros H z; [reflexivity |]. cbn [first_hit]. destruct (d z) as [z1 b] eqn:D. assert (E : itime z1 = itime z) by (change z1 with (fst (z1, b)); rewrite <- D; apply H; left; reflexivity).
    destruct b; [exact E |]. rewrite IH; [exact E | intros d' K; apply H; right; exact K]. }
  match goal with |- context [first_hit ?l x] => pose proof (G l) as G'; destruct (first_hit l x) as [x1 hit] eqn:F end. cbn [fst]. change x1 with (fst (x1, hit)). rewrite <- F. apply G'.
  assert (HP : forall z, itime (fst (pressure_triggered c z)) = itime z) by (intro z; unfold pressure_triggered; destruct (negb _); [reflexivity |]; destruct (palm z); try reflexivity; destruct (_ <? _); reflexivity).
  intros d [<-|[<-|[<-|[<-|[<-|[<-|[<-|[<-|[]]]]]]]]] z.
  - apply HP.
  - unfold arbitration_triggered. destruct a; reflexivity.
  - unfold dwt_triggered. destruct (_ && _ && _); [reflexivity |]. destruct (_ && _); reflexivity.
  - unfold trackpoint_triggered. destruct (negb _); [reflexivity |]. destruct (_ && _ && _); [reflexivity |]. destruct (_ && _); reflexivity.
  - unfold tool_triggered. destruct (negb _); [reflexivity |]. destruct (palm z); try reflexivity; destruct (toolpalm _); reflexivity.
  - unfold touch_size_triggered. destruct (negb _); [reflexivity |]. destruct (palm z); try reflexivity; destruct (_ || _); reflexivity.
  - unfold edge_triggered. destruct (palm z); repeat (match goal with |- context [if ?b then _ else _] => destruct b end); reflexivity.
  - apply HP.
Qed.
Lemma after_itime : forall c s m t x, itime (after c s m t x) = itime x.
Proof. intros. unfold after. destruct (_ || _); [reflexivity | apply detect_itime]. Qed.
Lemma fold_exceeded : forall c g t s i x, nth_error (touches s) i = Some x -> st (now x) <> NONE -> 0 <= exceeded x <= 15 ->
  exists y, nth_error (touches (fold_left (process_touch c g t) (seq 0 (length (touches s))) s)) i = Some y /\ exceeded y = count (now x) (exceeded x).
Proof.
  intros c g t s i x X NN K. assert (L : (i < length (touches s))%nat) by (apply nth_error_Some; congruence).
  replace (length (touches s)) with (i + S (length (touches s) - i - 1))%nat by lia. rewrite seq_app, fold_left_app. cbn [seq fold_left plus].
  set (s1 := fold_left (process_touch c g t) (seq 0 i) s).
  assert (X1 : nth_error (touches s1) i = Some x) by (unfold s1; rewrite fold_other; [exact X | rewrite in_seq; lia]).
  assert (Y : exists y, nth_error (touches (process_touch c g t s1 i)) i = Some y /\ exceeded y = count (now x) (exceeded x)).
  { unfold process_touch. rewrite X1. replace (is_st (st (now x)) NONE) with false by (destruct (st (now x)); try reflexivity; contradiction). rewrite <- (count_eq _ _ K).
    destruct (dirty (now x)); cbn [negb].
    - destruct (palm_detect _ _ _ _ _ _ _) as [x1 fine]. eexists. split; [cbn; eapply put_same2; exact X1 | reflexivity].
    - eexists. split; [cbn; eapply put_same2; exact X1 | reflexivity]. }
  destruct Y as [y [Y Q]]. exists y. split; [rewrite fold_other; [exact Y | rewrite in_seq; lia] | exact Q].
Qed.
(** The state of the thumb in a frame in which [j] comes down beside [i] *)
Lemma pair_thumb : forall c s f g t i j x v w, detect_thumbs c = true -> length f = length (touches s) -> i <> j -> nth_error (touches s) i = Some x -> nth_error f i = Some v -> nth_error f j = Some w ->
  pair_ i j f -> st v = UPDATE -> fresh v = false -> st w = BEGIN -> dirty w = true -> 0 <= exceeded x <= 15 ->
  exists nfd l h a b, (2 <= nfd)%nat /\ (tst (th s) <> TH_PINCH -> tst h = tst (th s) /\ tix h = tix (th s)) /\ found_pair (look_all found0 0 l) i j a b /\ now a = v /\ now b = w /\ itime a = itime x /\ itime b = t /\ exceeded a = count v (exceeded x) /\ exceeded b = count w 0 /\
    th (process_state c g t (with_touches s (enter_all t (touches s) f))) = thumb_update_multifinger c (meth s) nfd l h.
Proof.
  intros c s f g t i j x v w DT L NE X V W PR U F B D K. set (s0 := with_touches s (enter_all t (touches s) f)).
  assert (J : (j < length (touches s))%nat) by (rewrite <- L; apply nth_error_Some; congruence). destruct (nth_some _ (touches s) j _ eq_refl J) as [xj XJ].
  pose proof (enter_all_nth t _ _ i x v X V) as Ei. pose proof (enter_all_nth t _ _ j xj w XJ W) as Ej. change (nth_error (touches s0) i = Some (enter t x v)) in Ei. change (nth_error (touches s0) j = Some (enter t xj w)) in Ej.
  destruct (enter_update t x v U F) as [_ [_ [_ [ENi EEi]]]]. destruct (enter_begin t xj w B) as [_ [ENj [_ EEj]]].
  assert (O : forall k y, nth_error (touches s0) k = Some y -> k <> i -> k <> j -> st (now y) = NONE).
  { intros k y Ky N1 N2. destruct (enter_all_inv t _ _ k y L Ky) as [x' [v' [_ [V' ->]]]]. rewrite enter_now. apply (PR k v' V' N1 N2). }
  assert (E : forall k y, nth_error (touches s0) k = Some y -> st (now y) <> END).
  { intros k y Ky. destruct (Nat.eq_dec k i) as [->|N1]; [rewrite Ei in Ky; injection Ky as <-; rewrite ENi, U; discriminate |]. destruct (Nat.eq_dec k j) as [->|N2']; [rewrite Ej in Ky; injection Ky as <-; rewrite ENj, B; discriminate |]. rewrite (O k y Ky N1 N2'). discriminate. }
  assert (N2 : (2 <= nfingers_down (touches s0))%nat) by (apply (two_down _ i j _ _ Ei Ej NE); unfold is_down; [rewrite ENi, U | rewrite ENj, B]; reflexivity).
  set (s1 := fold_left (process_touch c g t) (seq 0 (length (touches s0))) s0).
  pose proof (fold_th c g t (seq 0 (length (touches s0))) s0 N2 E) as T1. fold s1 in T1.
  destruct (fold_exceeded c g t s0 i (enter t x v) Ei ltac:(rewrite ENi, U; discriminate) ltac:(rewrite EEi; exact K)) as [a [A1 A2]].
  destruct (fold_exceeded c g t s0 j (enter t xj w) Ej ltac:(rewrite ENj, B; discriminate) ltac:(rewrite EEj; lia)) as [b [B1 B2]].
  destruct (fold_at c g t s0 i _ Ei) as [h1 [a' [A3 [SA _]]]]. destruct (fold_at c g t s0 j _ Ej) as [h2 [b' [B3 [SB _]]]]. fold s1 in A1, A3, B1, B3. rewrite A1 in A3. injection A3 as <-. rewrite B1 in B3. injection B3 as <-.
  destruct SA as [SA1 [_ [_ [_ SA2]]]]. destruct SB as [SB1 [_ [_ [_ SB2]]]]. rewrite now_after, ENi in SA1. rewrite now_after, ENj in SB1. rewrite after_itime in SA2, SB2. rewrite ENi, EEi in A2. rewrite ENj, EEj in B2.
  assert (IT : itime (enter t x v) = itime x) by (unfold enter; rewrite F, U; reflexivity). assert (JT : itime (enter t xj w) = t) by (unfold enter; rewrite B; reflexivity).
  assert (NW : forall k y, nth_error (touches s0) k = Some y -> exists z, nth_error (touches s1) k = Some z /\ now z = now y) by (intros k y Ky; apply (fold_now c g t _ s0 k y Ky)).
  assert (LN : length (touches s1) = length (touches s0)) by apply fold_length.
  assert (N3 : (2 <= nfingers_down (touches s1))%nat) by (rewrite (down_map _ _ NW LN); exact N2).
  exists (nfingers_down (touches s1)), (touches s1), (th s1), a, b. refine (conj N3 (conj T1 (conj _ (conj SA1 (conj SB1 (conj _ (conj _ (conj A2 (conj B2 _))))))))).
  - apply pair_found; auto; [| congruence | congruence]. intros k z Kz N1 N2'. assert (LK : (k < length (touches s0))%nat) by (rewrite <- LN; apply nth_error_Some; congruence).
    destruct (nth_some _ (touches s0) k _ eq_refl LK) as [y Ky]. destruct (NW k y Ky) as [z' [Z1 Z2]]. rewrite Kz in Z1. injection Z1 as <-. rewrite Z2. apply (O k y Ky N1 N2').
  - congruence.
  - congruence.
  - unfold process_state. fold s1. rewrite DT. cbn [andb].
    replace (has_new (touches s1)) with true by (symmetry; unfold has_new; apply existsb_exists; exists b; split; [apply (nth_error_In _ j B1) | rewrite SB1, D, B; reflexivity]).
    replace (Nat.leb 2 (nfingers_down (touches s1))) with true by (symmetry; apply Nat.leb_le; exact N3). cbn [andb th with_th].
    assert (M : meth s1 = meth s) by (destruct (fold_same c g t (seq 0 (length (touches s0))) s0) as [_ [_ [_ [M _]]]]; exact M). rewrite M. reflexivity.
Qed.

(** ** Histories *)
Definition ranged (s : tpad) : Prop := forall x, In x (touches s) -> 0 <= exceeded x <= 15.
Lemma put_in : forall (A : Type) (l : list A) i y x, In x (put i y l) -> x = y \/ In x l.
Proof. intros A l. induction l as [|a l IH]; intros i y x H; [destruct i; cbn in H; auto |]. destruct i; cbn in H; destruct H as [<-|H]; cbn; auto. destruct (IH i y x H); auto. Qed.
Lemma ranged_touch : forall c g t s i, ranged s -> ranged (process_touch c g t s i).
Proof.
  intros c g t s i R. unfold process_touch. destruct (nth_error (touches s) i) as [x|] eqn:X; [| exact R]. assert (RX : 0 <= exceeded x <= 15) by (apply R; apply (nth_error_In _ i X)).
  destruct (is_st _ NONE); [exact R |]. destruct (dirty (now x)) eqn:D; cbn [negb].
  - destruct (palm_detect _ _ _ _ _ _ _) as [x1 fine]. intros y Y. cbn in Y. apply put_in in Y. destruct Y as [->|Y]; [| apply R; exact Y]. cbn. pose proof (count_eq (now x) _ RX) as E. rewrite D in E. rewrite E. apply count_range. exact RX.
  - intros y Y. cbn in Y. apply put_in in Y. destruct Y as [->|Y]; [| apply R; exact Y]. cbn. unfold slower. destruct (0 <? exceeded x) eqn:E; rewrite ?Z.ltb_lt, ?Z.ltb_ge in E; lia.
Qed.
Lemma ranged_frame : forall c s f g u t, ranged s -> ranged (fst (frame c s f g u t)).
Proof.
  intros c s f g u t R. assert (R0 : ranged (with_touches s (enter_all t (touches s) f))).
  { unfold ranged in *. cbn. revert f R. induction (touches s) as [|a l IH]; intros f R x X; [destruct f; destruct X |]. destruct f as [|v f]; [apply R; exact X |]. cbn in X. destruct X as [<-|X].
    - assert (RA := R a (or_introl eq_refl)). unfold enter. destruct (fresh v), (st v); cbn; lia.
    - apply (IH f (fun y Y => R y (or_intror Y)) x X). }
  set (s0 := with_touches s (enter_all t (touches s) f)) in *.
  assert (RF : forall l s', ranged s' -> ranged (fold_left (process_touch c g t) l s')) by (induction l as [|a l IH]; intros s' R'; [exact R' |]; cbn [fold_left]; apply IH; apply ranged_touch; exact R').
  assert (R1 : ranged (process_state c g t s0)) by (unfold process_state; destruct (_ && _ && _); apply (RF _ s0 R0)).
  unfold frame. fold s0. cbn [fst]. intros x X. apply R1.
  assert (E : touches (post_process (match u with Some i => with_th (process_state c g t s0) (thumb_suppress (th (process_state c g t s0)) i) | None => process_state c g t s0 end)) = touches (process_state c g t s0)).
  { unfold post_process. destruct (nfingers_down _); destruct u; reflexivity. }
  rewrite <- E. exact X.
Qed.
Lemma ranged_run : forall c l s, no_pen l -> ranged s -> ranged (run c s l).
Proof.
  intros c l. induction l as [|a l IH]; intros s P R; [exact R |]. cbn [run]. apply IH; [intros w f t K; apply (P w f t); right; exact K |].
  destruct a as [f g u t|k p t|t|b| |t|t|w f t|t|m];
    try (match goal with |- context [step c s ?a] => destruct (step_meth_th c s a ltac:(intros; discriminate) ltac:(intros; discriminate)) as [_ [_ E]] end; unfold ranged; rewrite E; exact R).
  - rewrite fst_step_frame. apply ranged_frame. exact R.
  - exfalso. apply (P w f t). left. reflexivity.
Qed.
Lemma ranged_init : forall n b m0, ranged (init n b m0).
Proof. intros n b m0 x X. apply repeat_spec in X. subst x. cbn. lia. Qed.
Lemma itime_run : forall c n j l s x, (j < n)%nat -> sized n l -> goes_on j l -> nth_error (touches s) j = Some x -> exists y, nth_error (touches (run c s l)) j = Some y /\ itime y = itime x.
Proof.
  intros c n j l s x L Z G X.
  destruct (contact_inv c n j (fun _ y => itime y = itime x) l L Z G) with (s := s) (x := x) as [y [Y' Q]]; auto.
  - intros s0 i x0 y I X0 P0 [->|[v [t [m [Sh [U0 [F Q]]]]]]]; [exact P0 |]. destruct Q as [_ [_ [_ [_ Q]]]]. rewrite Q, after_itime. rewrite <- P0. unfold enter. rewrite F, U0. reflexivity.
  - exists y. auto.
Qed.
(** [i] alone on the touchpad since it came down *)
Lemma lone_history : forall c n b m0 l f0 g0 t0 m i v0, detect_thumbs c = true -> idle_from true l -> no_pen (l ++ Frame f0 g0 None t0 :: m) -> sized n (l ++ Frame f0 g0 None t0 :: m) ->
  nth_error f0 i = Some v0 -> st v0 = BEGIN -> dirty v0 = true -> goes_on i m -> only i (Frame f0 g0 None t0 :: m) ->
  let s := run c (init n b m0) (l ++ Frame f0 g0 None t0 :: m) in
  jail i (rests c i (method_after m0 l) 0 (Frame f0 g0 None t0 :: m)) (th s) /\ meth s = method_after m0 (l ++ Frame f0 g0 None t0 :: m) /\
  exists x, nth_error (touches s) i = Some x /\ exceeded x = excess i 0 (Frame f0 g0 None t0 :: m) /\ 0 <= exceeded x <= 15 /\ itime x = t0.
Proof.
  intros c n b m0 l f0 g0 t0 m i v0 DT ID P Z V0 B D G O s. destruct (no_pen_app l _ P) as [Pl Pm].
  assert (LF : length f0 = n) by (apply (Z (Frame f0 g0 None t0)); apply in_or_app; right; left; reflexivity). assert (I : (i < n)%nat) by (rewrite <- LF; apply nth_error_Some; congruence).
  assert (Zl : sized n l) by (intros z Hz; apply Z; apply in_or_app; left; exact Hz). assert (Zm : sized n m) by (intros z Hz; apply Z; apply in_or_app; right; right; exact Hz).
  assert (Pm' : no_pen m) by (intros w f' t' K; apply (Pm w f' t'); right; exact K).
  set (s0 := run c (init n b m0) l). destruct (run_touch c n b m0 l i I) as [x0 X0]. fold s0 in X0. assert (N0 : length (touches s0) = n) by apply run_length.
  assert (T0 : th s0 = thumb_reset) by (apply (idle_thumb c n l (init n b m0) true); auto; cbn; apply repeat_length).
  assert (M0 : meth s0 = method_after m0 l) by (unfold s0; rewrite (meth_run c n l (init n b m0)); auto; cbn; apply repeat_length).
  destruct (O f0 g0 None t0 (or_introl eq_refl)) as [A _].
  destruct (lone_land c n i s0 x0 f0 g0 t0 v0 DT N0 LF X0 V0 A B D T0) as [J1 [_ [y [Y [C1 C2]]]]]. rewrite M0 in J1.
  set (s1 := fst (frame c s0 f0 g0 None t0)) in *.
  assert (E : s = run c s1 m) by (unfold s; change (Frame f0 g0 None t0 :: m) with ([Frame f0 g0 None t0] ++ m); do 2 rewrite run_app; cbn [run]; rewrite fst_step_frame; reflexivity).
  assert (N1 : length (touches s1) = n) by (destruct (frame_same c s0 f0 g0 None t0) as [_ [_ [_ [_ L1]]]]; unfold s1; rewrite L1; exact N0).
  assert (M1 : meth s1 = method_after m0 l) by (destruct (frame_same c s0 f0 g0 None t0) as [_ [_ [_ [L1 _]]]]; unfold s1; rewrite L1; exact M0).
  assert (O' : only i m) by (intros f' g' u' t' K; apply (O f' g' u' t'); right; exact K).
  destruct (lone_run c n i m s1 y (thumb_place c (method_after m0 l) v0) (count v0 0) DT I N1 Zm Pm' G O' Y C1 C2 J1) as [J2 [z [Zn [C3 C4]]]].
  destruct (itime_run c n i m s1 y I Zm G Y) as [z' [Zn' IT]]. rewrite Zn in Zn'. injection Zn' as <-. rewrite <- E in *.
  cbn [rests excess]. rewrite V0, D. cbn [negb orb]. change (0 <? 10) with true. rewrite andb_true_r. rewrite M1 in J2. split; [exact J2 |]. split.
  - unfold s. rewrite (meth_run c n _ (init n b m0)); auto. cbn. apply repeat_length.
  - exists z. rewrite C3. refine (conj Zn (conj eq_refl (conj C4 _))). rewrite IT.
    destruct (frame_touch c s0 f0 g0 None t0 i x0 v0 X0 V0) as [mm [y' [h' [Y' [[_ [_ [_ [_ Q]]]] _]]]]]. fold s1 in Y'. rewrite Y in Y'. injection Y' as <-. rewrite Q, after_itime. unfold enter. rewrite B. reflexivity.
Qed.
