(** * Palms: a lone finger is no thumb; invariants of a contact *)
Require Import Coq.ZArith.ZArith Coq.Lists.List Coq.Bool.Bool Coq.micromega.Lia.
Require Import Verif.Palm_Model Verif.Palm_Spec Verif.Palm_Proofs1 Verif.Palm_Proofs2 Verif.Palm_Proofs3.
Import ListNotations.
Open Scope Z_scope.

Lemma blocked : forall c s f g u t, typing (kb s) = true \/ pointing (tr s) = true -> ~ In true (snd (frame c s f g u t)).
Proof.
  intros c s f g u t B I. unfold frame in I. cbn [snd] in I. unfold post_events in I.
  destruct (process_state_same c g t (with_touches s (enter_all t (touches s) f))) as [KB [TR _]]. change (kb (with_touches s (enter_all t (touches s) f))) with (kb s) in KB. change (tr (with_touches s (enter_all t (touches s) f))) with (tr s) in TR.
  set (z := process_state c g t _) in *. clearbody z.
  assert (X : forall w, tr w = tr s -> kb w = kb s -> In true (if pointing (tr w) || typing (kb w) then map (fun _ => false) (touches w) else active_from c (th w) 0 (touches w)) -> False).
  { intros w A D J. rewrite A, D in J. replace (pointing (tr s) || typing (kb s)) with true in J by (destruct B as [-> | ->]; rewrite ?orb_true_r; reflexivity).
    apply in_map_iff in J. destruct J as [? [J _]]. discriminate. }
  destruct u as [k|]; [apply (X (with_th z (thumb_suppress (th z) k))); assumption | apply (X z); assumption].
Qed.

(** ** Frames in which one touch is alone *)
Lemma fold_one : forall c g t l s i, (forall j x, In j l -> j <> i -> nth_error (touches s) j = Some x -> st (now x) = NONE) -> NoDup l ->
  fold_left (process_touch c g t) l s = if in_dec Nat.eq_dec i l then process_touch c g t s i else s.
Proof.
  intros c g t l. induction l as [|a l IH]; intros s i H N; [reflexivity |]. inversion N as [|? ? N1 N2]; subst. cbn [fold_left].
  destruct (Nat.eq_dec a i) as [->|D].
  - assert (E : fold_left (process_touch c g t) l (process_touch c g t s i) = process_touch c g t s i).
    { rewrite (IH _ i); [| | exact N2].
      - destruct (in_dec Nat.eq_dec i l); [contradiction | reflexivity].
      - intros j x J K Q. rewrite process_touch_other in Q by (intro Z; apply K; symmetry; exact Z). apply (H j x (or_intror J) K Q). }
    rewrite E. cbn. destruct (Nat.eq_dec i i) as [_|X]; [| contradiction]. destruct (in_dec Nat.eq_dec i (i :: l)) as [_|X]; [reflexivity | exfalso; apply X; left; reflexivity].
  - assert (E : process_touch c g t s a = s).
    { unfold process_touch. destruct (nth_error (touches s) a) as [x|] eqn:Q; [| reflexivity]. rewrite (H a x (or_introl eq_refl) D Q). reflexivity. }
    rewrite E, (IH s i); [| intros j x J K Q; apply (H j x (or_intror J) K Q) | exact N2].
    destruct (in_dec Nat.eq_dec i l) as [I|I]; destruct (in_dec Nat.eq_dec i (a :: l)) as [I'|I']; try reflexivity; exfalso; [apply I'; right; exact I |]. destruct I' as [I'|I']; contradiction.
Qed.
Lemma enter_all_inv : forall t l f j y, length f = length l -> nth_error (enter_all t l f) j = Some y -> exists x v, nth_error l j = Some x /\ nth_error f j = Some v /\ y = enter t x v.
Proof.
  intros t l. induction l as [|a l IH]; intros [|w f] j y L H; cbn in L; try discriminate; [destruct j; discriminate |]. destruct j as [|j]; cbn in H |- *.
  - injection H as <-. eauto.
  - apply IH; [injection L as L; exact L | exact H].
Qed.
Lemma down_alone : forall l i, (forall j x, nth_error l j = Some x -> j <> i -> st (now x) = NONE) -> (nfingers_down l <= 1)%nat.
Proof.
  intros l. unfold nfingers_down. induction l as [|a l IH]; intros i H; [cbn; lia |]. cbn [filter].
  destruct i as [|i].
  - assert (E : filter is_down l = []).
    { clear IH. assert (Z : forall x, In x l -> st (now x) = NONE) by (intros x I; apply In_nth_error in I; destruct I as [k K]; apply (H (S k) x K); discriminate).
      clear H. induction l as [|b l IH]; [reflexivity |]. cbn. unfold is_down at 1. rewrite (Z b (or_introl eq_refl)). cbn. apply IH. intros x I. apply Z. right. exact I. }
    rewrite E. destruct (is_down a); cbn; lia.
  - unfold is_down at 1. rewrite (H O a eq_refl) by discriminate. cbn. apply (IH i). intros j x J D. apply (H (S j) x J). lia.
Qed.
Lemma not_jailed : forall c m x, py (now x) < upper_thumb_line c -> needs_jail c m x = false.
Proof. intros c m x L. unfold needs_jail. replace (py (now x) <? upper_thumb_line c) with true by (symmetry; apply Z.ltb_lt; exact L). reflexivity. Qed.
Lemma update_finger : forall c m g nfd n h i x, py (now x) < upper_thumb_line c -> tst h = TH_FINGER -> tst (thumb_update_touch c m g nfd n h i x) = TH_FINGER.
Proof.
  intros c m g nfd n h i x L F. unfold thumb_update_touch. destruct (negb _); [exact F |]. rewrite F.
  match goal with |- context [if ?b then {| tst := TH_FINGER; tix := _; pinch_ok := _ |} else h] => set (h1 := if b then {| tst := TH_FINGER; tix := tix h; pinch_ok := false |} else h); assert (F1 : tst h1 = TH_FINGER) by (subst h1; destruct b; [reflexivity | exact F]) end.
  clearbody h1. destruct (_ && _); [reflexivity |]. destruct (Nat.ltb 1 nfd); [exact F1 |]. cbn zeta.
  unfold thumb_revive. rewrite F1. cbn [andb]. rewrite not_jailed by exact L. rewrite andb_false_r, F1, F1. exact F1.
Qed.
(** The thumb state after a frame in which touch [i], above the thumb area, is alone *)
Lemma lone_thumb : forall c s f g t i x v, length f = length (touches s) -> nth_error (touches s) i = Some x -> nth_error f i = Some v -> alone i f -> py v < upper_thumb_line c -> tst (th s) = TH_FINGER ->
  tst (th (process_state c g t (with_touches s (enter_all t (touches s) f)))) = TH_FINGER.
Proof.
  intros c s f g t i x v L H G A P F. unfold process_state. set (s0 := with_touches s (enter_all t (touches s) f)).
  assert (N : forall j y, nth_error (touches s0) j = Some y -> j <> i -> st (now y) = NONE).
  { intros j y J D. destruct (enter_all_inv t _ _ j y L J) as [x' [v' [X [V ->]]]]. rewrite enter_now. apply (A j v' V D). }
  rewrite (fold_one c g t _ s0 i); [| intros j y _ D J; apply (N j y J D) | apply seq_NoDup].
  set (s1 := if in_dec Nat.eq_dec i (seq 0 (length (touches s0))) then process_touch c g t s0 i else s0).
  assert (F1 : tst (th s1) = TH_FINGER).
  { subst s1. destruct (in_dec _ _ _); [| exact F]. unfold process_touch. destruct (nth_error (touches s0) i) as [y|] eqn:Y; [| exact F].
    destruct (is_st _ NONE); [exact F |]. destruct (negb _); [exact F |]. destruct (palm_detect _ _ _ _ _ _ _) as [x1 fine]. cbn [th with_ok with_th].
    apply update_finger; [| exact F]. change (touches s0) with (enter_all t (touches s) f) in Y. rewrite (enter_all_nth t _ _ i x v H G) in Y. injection Y as <-. rewrite enter_now. exact P. }
  assert (N1 : (nfingers_down (touches s1) <= 1)%nat).
  { apply (down_alone _ i). intros j y J D. assert (J' : nth_error (touches s0) j = Some y) by (subst s1; destruct (in_dec _ _ _); [rewrite process_touch_other in J by (intro Z; apply D; symmetry; exact Z) |]; exact J).
    apply (N j y J' D). }
  replace (Nat.leb 2 (nfingers_down (touches s1))) with false by (symmetry; apply Nat.leb_gt; lia). rewrite andb_false_r. exact F1.
Qed.
Lemma finger_not_ignored : forall c h i, detect_thumbs c = false \/ tst h = TH_FINGER -> thumb_ignored c h i = false.
Proof. intros c h i [H|H]; unfold thumb_ignored; rewrite H; [reflexivity | apply andb_false_r]. Qed.

(** What the touches look like after a frame *)
Lemma frame_now : forall c s f g u t j y, length f = length (touches s) -> nth_error (touches (fst (frame c s f g u t))) j = Some y -> nth_error f j = Some (now y).
Proof.
  intros c s f g u t j y L H.
  assert (J : (j < length (touches s))%nat) by (destruct (frame_same c s f g u t) as [_ [_ [_ [_ E]]]]; rewrite <- E; apply nth_error_Some; congruence).
  destruct (nth_some _ (touches s) j _ eq_refl J) as [x X]. destruct (nth_some _ f j _ L J) as [v V].
  destruct (frame_touch c s f g u t j x v X V) as [m [y' [h [P [_ [Q _]]]]]]. rewrite H in P. injection P as ->. rewrite Q. exact V.
Qed.
Lemma no_finger_down : forall c s f g u t, length f = length (touches s) -> no_finger f -> nfingers_down (touches (fst (frame c s f g u t))) = O.
Proof.
  intros c s f g u t L N. unfold nfingers_down.
  assert (Z : forall x, In x (touches (fst (frame c s f g u t))) -> is_down x = false).
  { intros x I. apply In_nth_error in I. destruct I as [k K]. apply frame_now in K; [| exact L]. apply nth_error_In in K. destruct (N _ K) as [A B]. unfold is_down. destruct (st (now x)); try reflexivity; contradiction. }
  induction (touches (fst (frame c s f g u t))) as [|a l IH]; [reflexivity |]. cbn. rewrite (Z a (or_introl eq_refl)). apply IH. intros x I. apply Z. right. exact I.
Qed.
Lemma idle_thumb : forall c n l s b, length (touches s) = n -> sized n l -> no_pen l -> (b = true -> th s = thumb_reset) -> idle_from b l -> th (run c s l) = thumb_reset.
Proof.
  intros c n l. induction l as [|i l IH]; intros s b L Z P H I; [apply H; exact I |]. cbn [run].
  assert (Z' : sized n l) by (intros k K; apply Z; right; exact K). assert (P' : no_pen l) by (intros w f t K; apply (P w f t); right; exact K).
  destruct (step_parts c s i) as [_ [_ [_ L']]]. rewrite L in L'. pose proof (Z i (or_introl eq_refl)) as LF.
  destruct i as [f g u t|k p t|t|x| |t|t|w f t|t|m]; cbn [idle_from] in I.
  - destruct I as [[N I]|[N I]].
    + apply (IH _ true L' Z' P'); [| exact I]. intros _. cbn [step]. pose proof (no_finger_down c s f g u t ltac:(congruence) N) as D.
      unfold frame in *. cbn [fst] in *. set (s2 := match u with Some j => with_th _ _ | None => _ end) in *. unfold post_process in *.
      destruct (nfingers_down (touches s2)) eqn:E; [reflexivity |]. rewrite E in D. discriminate.
    + apply (IH _ false L' Z' P'); [discriminate | exact I].
  - apply (IH _ b L' Z' P'); [| exact I]. intro B. cbn [step]. destruct (keyboard_event (kb s) k p t). apply H. exact B.
  - apply (IH _ b L' Z' P'); [| exact I]. intro B. cbn [step]. destruct (due _ t); [destruct (keyboard_timeout (kb s) t) |]; apply H; exact B.
  - apply (IH _ b L' Z' P'); [| exact I]. exact H.
  - apply (IH _ b L' Z' P'); [| exact I]. exact H.
  - apply (IH _ b L' Z' P'); [| exact I]. intro B. cbn [step]. destruct (monitor_trackpoint c); [destruct (trackpoint_event (tr s) t) |]; apply H; exact B.
  - apply (IH _ b L' Z' P'); [| exact I]. intro B. cbn [step]. destruct (due _ t); [destruct (trackpoint_timeout (tr s)) |]; apply H; exact B.
  - exfalso. apply (P w f t). left. reflexivity.
  - apply (IH _ b L' Z' P'); [| exact I]. intro B. cbn [step]. destruct (due _ t); apply H; exact B.
  - apply (IH _ b L' Z' P'); [| exact I]. exact H.
Qed.
Lemma arb_none : forall l a, astate a = ARB_NONE -> no_pen l -> astate (arun a l) = ARB_NONE.
Proof.
  induction l as [|i l IH]; intros a A P; [exact A |]. cbn [arun]. apply IH; [| intros w f t I; apply (P w f t); right; exact I].
  destruct i; cbn [astep]; try exact A; [exfalso; apply (P which f t); left; reflexivity |]. destruct (due _ t); [reflexivity | exact A].
Qed.
Lemma trp_none : forall c l r, pointing r = false -> pcount r = 0 -> no_trackpoint l -> pointing (trun c r l) = false /\ pcount (trun c r l) = 0.
Proof.
  intros c. induction l as [|i l IH]; intros r A Z P; [auto |]. cbn [trun]. assert (P' : no_trackpoint l) by (intros t I; apply (P t); right; exact I).
  destruct i; cbn [tstep]; try (apply IH; assumption); [exfalso; apply (P t); left; reflexivity |]. destruct (due _ t); apply IH; cbn; auto.
Qed.

(** ** A finger lands *)
Definition quiet (s : tpad) : Prop := typing (kb s) = false /\ pointing (tr s) = false /\ astate (ar s) = ARB_NONE.
Lemma land : forall c s f g u t i x v, quiet s -> length f = length (touches s) -> nth_error (touches s) i = Some x -> nth_error f i = Some v -> lands c v ->
  (detect_thumbs c = false \/ (tst (th s) = TH_FINGER /\ alone i f /\ py v < upper_thumb_line c /\ u = None)) ->
  nth_error (snd (frame c s f g u t)) i = Some (free_out v) /\
  exists y, nth_error (touches (fst (frame c s f g u t))) i = Some y /\ palm y = PALM_NONE /\ ptime y = t /\ now y = v.
Proof.
  intros c s f g u t i x v [QK [QT QA]] L H G [S' [F [D [O C]]]] T.
  destruct (frame_touch c s f g u t i x v H G) as [m [y [h [P [Q [N [R E]]]]]]].
  destruct (enter_begin t x v S') as [E1 [E2 [E3 _]]].
  assert (A : after c s m t (enter t x v) = enter t x v).
  { unfold after. rewrite E2, S', D, QA. cbn. rewrite begin_clean; rewrite ?E2; auto. }
  rewrite A in Q. destruct Q as [Q1 [Q2 [Q3 _]]]. rewrite (E3 F) in Q2.
  assert (I : thumb_ignored c h i = false).
  { apply finger_not_ignored. destruct T as [T|[T1 [T2 [T3 T4]]]]; [left; exact T | right]. subst u. rewrite E. apply (lone_thumb c s f g t i x v); assumption. }
  split; [| exists y; repeat split; congruence]. rewrite R, QT, QK. cbn [orb]. unfold touch_active, is_down. rewrite N, S', Q2, I. reflexivity.
Qed.
Lemma init_touches : forall n b m i, (i < n)%nat -> nth_error (touches (init n b m)) i = Some touch0.
Proof. intros n b m i L. cbn. apply nth_error_repeat. exact L. Qed.
Lemma run_touch : forall c n b m l i, (i < n)%nat -> exists x, nth_error (touches (run c (init n b m) l)) i = Some x.
Proof.
  intros c n b m l i L. destruct (run_parts c l (init n b m)) as [_ [_ [_ E]]]. apply (nth_some _ _ i n); [| exact L]. rewrite E. cbn. apply repeat_length.
Qed.
Lemma run_length : forall c n b m l, length (touches (run c (init n b m) l)) = n.
Proof. intros c n b m l. destruct (run_parts c l (init n b m)) as [_ [_ [_ E]]]. rewrite E. cbn. apply repeat_length. Qed.
(** ... after a history *)
Lemma land_after : forall c n b m0 l f g u t i v, (i < n)%nat -> sized n (l ++ [Frame f g u t]) -> no_pen l -> typing (krun (kb (init n b m0)) l) = false -> pointing (trun c (tr (init n b m0)) l) = false ->
  nth_error f i = Some v -> lands c v -> no_thumb c l i [Frame f g u t] ->
  nth_error (moving c n b m0 l f g u t) i = Some (free_out v) /\
  exists y, nth_error (touches (run c (init n b m0) (l ++ [Frame f g u t]))) i = Some y /\ palm y = PALM_NONE /\ ptime y = t /\ now y = v.
Proof.
  intros c n b m0 l f g u t i v L Z P K T V D N. destruct (run_touch c n b m0 l i L) as [x X]. destruct (run_parts c l (init n b m0)) as [RK [RT [RA _]]].
  assert (LF : length f = n) by (apply (Z (Frame f g u t)); apply in_or_app; right; left; reflexivity).
  assert (H := land c (run c (init n b m0) l) f g u t i x v). rewrite run_app. cbn [run step].
  assert (E : fst (let '(s1, o) := frame c (run c (init n b m0) l) f g u t in (s1, Some o)) = fst (frame c (run c (init n b m0) l) f g u t)) by (destruct (frame c (run c (init n b m0) l) f g u t); reflexivity).
  rewrite E. apply H; try assumption.
  - unfold quiet. rewrite RK, RT, RA. split; [exact K | split; [exact T |]]. apply arb_none; [reflexivity | exact P].
  - rewrite run_length. exact LF.
  - destruct N as [N|[I N]]; [left; exact N | right]. destruct (N _ (or_introl eq_refl)) as [A [B C]]. split; [| split; [exact A | split; [apply C; exact V | exact B]]].
    rewrite (idle_thumb c n l (init n b m0) true); [reflexivity | | | exact P | reflexivity | exact I].
    + cbn. apply repeat_length.
    + intros k K'. apply Z. apply in_or_app. left. exact K'.
Qed.
