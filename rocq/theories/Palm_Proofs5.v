(** * Palms: contacts *)
Require Import Coq.ZArith.ZArith Coq.Lists.List Coq.Bool.Bool Coq.micromega.Lia.
Require Import Verif.Palm_Model Verif.Palm_Spec Verif.Palm_Proofs1 Verif.Palm_Proofs2 Verif.Palm_Proofs3 Verif.Palm_Proofs4.
Import ListNotations.
Open Scope Z_scope.

(** An invariant of a touch that goes on *)
Lemma contact_inv : forall c n j (I : tpad -> touch -> Prop) l, (j < n)%nat -> sized n l -> goes_on j l ->
  (forall s i x y, In i l -> nth_error (touches s) j = Some x -> I s x -> (y = x \/ exists v t m, shows i j v t /\ st v = UPDATE /\ fresh v = false /\ same_but_speed y (after c s m t (enter t x v))) -> I (fst (step c s i)) y) ->
  forall s x, nth_error (touches s) j = Some x -> I s x -> exists y, nth_error (touches (run c s l)) j = Some y /\ I (run c s l) y.
Proof.
  intros c n j I l. induction l as [|i l IH]; intros L Z G H s x X P; [exists x; auto |]. cbn [run].
  assert (Z1 : sized n [i]) by (intros k [<-|[]]; apply Z; left; reflexivity). assert (Z' : sized n l) by (intros k K; apply Z; right; exact K).
  assert (G' : goes_on j l) by (intros f [[g [u [t K]]]|[w [t K]]]; apply G; [left | right]; eauto using in_cons; do 2 eexists; right; exact K).
  destruct (step_touch c s i j x n L Z1 X) as [y [Y E]].
  apply (IH L Z' G' (fun s i x y K => H s i x y (or_intror K)) _ y Y). apply (H s i x y (or_introl eq_refl) X P).
  destruct E as [E|[v [t [m [Sh Q]]]]]; [left; exact E | right]. exists v, t, m. split; [exact Sh |]. destruct (goes_on_shows j _ i v t G (or_introl eq_refl) Sh) as [A B]. auto.
Qed.
Lemma goes_on_app : forall j a b, goes_on j (a ++ b) -> goes_on j a /\ goes_on j b.
Proof.
  intros j a b G. split; intros f [[g [u [t K]]]|[w [t K]]]; apply G.
  - left. exists g, u, t. apply in_or_app. left. exact K.
  - right. exists w, t. apply in_or_app. left. exact K.
  - left. exists g, u, t. apply in_or_app. right. exact K.
  - right. exists w, t. apply in_or_app. right. exact K.
Qed.
Lemma sized_app : forall n a b, sized n (a ++ b) -> sized n a /\ sized n b.
Proof. intros n a b Z. split; intros i I; apply Z; apply in_or_app; auto. Qed.
Lemma sized_cons : forall n i b, sized n (i :: b) -> sized n [i] /\ sized n b.
Proof. intros n i b Z. apply (sized_app n [i] b). exact Z. Qed.
Lemma no_pen_app : forall a b, no_pen (a ++ b) -> no_pen a /\ no_pen b.
Proof. intros a b Z. split; intros w f t I; apply (Z w f t); apply in_or_app; auto. Qed.
Lemma no_trackpoint_app : forall a b, no_trackpoint (a ++ b) -> no_trackpoint a /\ no_trackpoint b.
Proof. intros a b Z. split; intros t I; apply (Z t); apply in_or_app; auto. Qed.
Lemma after_eq : forall c s m t x, after c s m t x = x \/ (dirty (now x) = true /\ after c s m t x = fst (palm_detect c (kb s) (tr s) (astate (ar s)) m t x)).
Proof. intros c s m t x. unfold after. destruct (_ || _) eqn:E; [left; reflexivity |]. apply orb_false_iff in E. destruct E as [_ E]. apply negb_false_iff in E. auto. Qed.
Lemma after_dirty : forall c s m t x, st (now x) <> NONE -> dirty (now x) = true -> after c s m t x = fst (palm_detect c (kb s) (tr s) (astate (ar s)) m t x).
Proof. intros c s m t x N D. unfold after. rewrite D. destruct (st (now x)); try reflexivity. contradiction. Qed.

(** ** A clean contact *)
Definition clean_in (c : config) (j : nat) (i : input) : Prop := match i with Frame f _ _ _ => forall v, nth_error f j = Some v -> calm c v | Arb _ _ _ => False | _ => True end.
Lemma stays_clean : forall c n j l s x, (j < n)%nat -> sized n l -> goes_on j l -> all_calm c j l -> no_pen l -> astate (ar s) = ARB_NONE -> nth_error (touches s) j = Some x -> palm x = PALM_NONE ->
  exists y, nth_error (touches (run c s l)) j = Some y /\ palm y = PALM_NONE /\ ptime y = ptime x.
Proof.
  intros c n j l s x L Z G C P A X N.
  destruct (contact_inv c n j (fun s y => astate (ar s) = ARB_NONE /\ palm y = PALM_NONE /\ ptime y = ptime x) l L Z G) with (s := s) (x := x) as [y [Y [_ Q]]]; auto.
  - intros s0 i x0 y I X0 [A0 [N0 T0]] E. destruct (step_parts c s0 i) as [_ [_ [SA _]]]. rewrite SA.
    split; [apply (arb_none [i] (ar s0) A0); intros w f t [K|[]]; apply (P w f t); subst i; exact I |].
    destruct E as [->|[v [t [m [Sh [U [F [Q1 [Q2 [Q3 _]]]]]]]]]]; [auto |]. rewrite Q2, Q3. destruct (enter_update t x0 v U F) as [E1 [E2 [_ [E4 _]]]].
    destruct (after_eq c s0 m t (enter t x0 v)) as [E|[_ E]]; rewrite E; [split; congruence |].
    assert (CV : calm c v) by (destruct Sh as [[f [g [u [-> V]]]]|[w [f [-> V]]]]; [apply (C f g u t v I V) | exfalso; apply (P w f t I)]).
    rewrite A0, none_update by (rewrite ?E1, ?E4; assumption). cbn [fst]. split; congruence.
  - exists y. split; [exact Y | exact Q].
Qed.
Lemma lone_run : forall c n j l s, (j < n)%nat -> length (touches s) = n -> sized n l -> no_pen l -> (forall x, In x l -> lone c j x) -> tst (th s) = TH_FINGER -> tst (th (run c s l)) = TH_FINGER.
Proof.
  intros c n j l. induction l as [|i l IH]; intros s L N Z P H F; [exact F |]. cbn [run].
  assert (Z' : sized n l) by (intros k K; apply Z; right; exact K). assert (P' : no_pen l) by (intros w f t K; apply (P w f t); right; exact K).
  destruct (step_parts c s i) as [_ [_ [_ L']]]. rewrite N in L'. pose proof (Z i (or_introl eq_refl)) as LF.
  apply (IH _ L L' Z' P' (fun x K => H x (or_intror K))). specialize (H i (or_introl eq_refl)).
  destruct i as [f g u t|k p t|t|x| |t|t|w f t|t|m]; cbn [step].
  - destruct H as [A [-> Q]]. destruct (nth_some _ (touches s) j n N L) as [x X]. destruct (nth_some _ f j n LF L) as [v V].
    pose proof (lone_thumb c s f g t j x v ltac:(congruence) X V A (Q v V) F) as T. unfold frame. cbn [fst]. unfold post_process. destruct (nfingers_down _); [reflexivity | exact T].
  - destruct (keyboard_event (kb s) k p t). exact F.
  - destruct (due _ t); [destruct (keyboard_timeout (kb s) t) |]; exact F.
  - exact F.
  - exact F.
  - destruct (monitor_trackpoint c); [destruct (trackpoint_event (tr s) t) |]; exact F.
  - destruct (due _ t); [destruct (trackpoint_timeout (tr s)) |]; exact F.
  - exfalso. apply (P w f t). left. reflexivity.
  - destruct (due _ t); exact F.
  - exact F.
Qed.
(** A frame of a contact that is no palm at its end *)
Lemma still_none : forall c s f g u t i x v, quiet s -> length f = length (touches s) -> nth_error (touches s) i = Some x -> nth_error f i = Some v -> st v = UPDATE -> fresh v = false -> calm c v ->
  palm x = PALM_NONE \/ (dirty v = true /\ palm x = PALM_TYPING /\ last_press (kb s) < ptime x) \/ (dirty v = true /\ monitor_trackpoint c = true /\ palm x = PALM_TRACKPOINT /\ last_point (tr s) < ptime x) ->
  (detect_thumbs c = false \/ (tst (th s) = TH_FINGER /\ alone i f /\ py v < upper_thumb_line c /\ u = None)) ->
  nth_error (snd (frame c s f g u t)) i = Some (free_out v).
Proof.
  intros c s f g u t i x v [QK [QT QA]] L H G U F C N T.
  destruct (frame_touch c s f g u t i x v H G) as [m [y [h [P [Q [NY [R E]]]]]]]. destruct (enter_update t x v U F) as [E1 [E2 [_ [E4 _]]]].
  assert (PY : palm y = PALM_NONE).
  { destruct Q as [_ [-> _]]. destruct N as [N|[[D [N K]]|[D [M [N K]]]]].
    - destruct (after_eq c s m t (enter t x v)) as [E'|[_ E']]; rewrite E'; [congruence |]. rewrite QA, none_update by (rewrite ?E1, ?E4; assumption). cbn [fst]. congruence.
    - rewrite after_dirty by (rewrite E4; first [exact D | rewrite U; discriminate]). rewrite QA. apply typing_release; rewrite ?E1, ?E2, ?E4; auto.
    - rewrite after_dirty by (rewrite E4; first [exact D | rewrite U; discriminate]). rewrite QA. apply trackpoint_release; rewrite ?E1, ?E2, ?E4; auto. }
  assert (I : thumb_ignored c h i = false).
  { apply finger_not_ignored. destruct T as [T|[T1 [T2 [T3 T4]]]]; [left; exact T | right]. subst u. rewrite E. apply (lone_thumb c s f g t i x v); assumption. }
  rewrite R, QT, QK. cbn [orb]. unfold touch_active, is_down. rewrite NY, U, PY, I. reflexivity.
Qed.
(** A frame of a contact that is a palm *)
Lemma palm_still : forall c s f g u t i y, nth_error (touches (fst (frame c s f g u t))) i = Some y -> length f = length (touches s) -> palm y <> PALM_NONE -> nth_error (snd (frame c s f g u t)) i = Some false.
Proof.
  intros c s f g u t i y Y L N.
  assert (J : (i < length (touches s))%nat) by (destruct (frame_same c s f g u t) as [_ [_ [_ [_ E]]]]; rewrite <- E; apply nth_error_Some; congruence).
  destruct (nth_some _ (touches s) i _ eq_refl J) as [x X]. destruct (nth_some _ f i _ L J) as [v V].
  destruct (frame_touch c s f g u t i x v X V) as [m [y' [h [P [_ [_ [R _]]]]]]]. rewrite Y in P. injection P as <-. rewrite R. destruct (_ || _); [reflexivity |].
  unfold touch_active. destruct (palm y); try contradiction; rewrite andb_false_r; reflexivity.
Qed.

(** ** Palms that rest while typing *)
Lemma kstep_last : forall k i r, r <= last_press k -> from r [i] -> r <= last_press (kstep k i).
Proof.
  intros k i r L F. specialize (F i (or_introl eq_refl)). destruct i; cbn [kstep]; try exact L.
  - unfold keyboard_event. destruct p; cbn [negb]; [| exact L]. destruct (negb (on k)); [exact L |]. destruct (key_ignore_for_dwt k0); [exact L |].
    destruct (key_is_modifier k0); [exact L |]. destruct (_ && _); [exact L |]. cbn. exact F.
  - destruct (due _ t); [| exact L]. unfold keyboard_timeout. destruct (_ && _); [exact F | exact L].
Qed.
Definition resting (t0 : Z) (y : touch) : Prop := forever (palm y) \/ (palm y = PALM_TYPING /\ ptime y = t0).
Lemma resting_update : forall c s m t x v t0, st v = UPDATE -> fresh v = false -> resting t0 x -> t0 <> 0 -> typing (kb s) = true \/ t0 <= last_press (kb s) -> forall y, same_but_speed y (after c s m t (enter t x v)) -> resting t0 y.
Proof.
  intros c s m t x v t0 U F R T0 K y [_ [Q2 [Q3 _]]]. destruct (enter_update t x v U F) as [E1 [E2 [_ [E4 _]]]]. unfold resting. rewrite Q2, Q3.
  destruct (after_eq c s m t (enter t x v)) as [E|[_ E]]; rewrite E; [rewrite E1, E2; exact R |].
  destruct R as [R|[R1 R2]].
  - left. destruct (forever_update c (kb s) (tr s) (astate (ar s)) m t (enter t x v)) as [P|P]; rewrite ?E1, ?E4; auto; rewrite P; [rewrite E1; exact R | right; right; reflexivity].
  - destruct (typing_update c (kb s) (tr s) (astate (ar s)) m t (enter t x v)) as [[P|P] P']; rewrite ?E1, ?E2, ?E4, ?R2; auto.
    + destruct K as [K|K]; [left; exact K | right; split; [exact T0 | exact K]].
    + right. rewrite P, P', E2. auto.
    + left. rewrite P. right; right; reflexivity.
Qed.
Lemma resting_typing : forall c n j l s x t0 tk, (j < n)%nat -> sized n l -> goes_on j l -> t0 <> 0 -> until tk (tk + 200000) l -> typing (kb s) = true -> (exists d, ktimer (kb s) = Some d /\ tk + 200000 <= d) ->
  nth_error (touches s) j = Some x -> resting t0 x -> exists y, nth_error (touches (run c s l)) j = Some y /\ resting t0 y.
Proof.
  intros c n j l s x t0 tk L Z G T0 U Y D X R.
  destruct (contact_inv c n j (fun s y => (typing (kb s) = true /\ exists d, ktimer (kb s) = Some d /\ tk + 200000 <= d) /\ resting t0 y) l L Z G) with (s := s) (x := x) as [y [Y' [_ Q]]]; auto.
  - intros s0 i x0 y I X0 [[Y0 D0] R0] E. destruct (step_parts c s0 i) as [SK _]. rewrite SK.
    split; [apply (typing_stays [i] (kb s0) tk (tk + 200000)); try assumption; [lia |]; intros k [<-|[]]; apply U; exact I |].
    destruct E as [->|[v [t [m [Sh [U0 [F Q]]]]]]]; [exact R0 |]. apply (resting_update c s0 m t x0 v t0 U0 F R0 T0 (or_introl Y0) y Q).
  - exists y. auto.
Qed.
Lemma resting_after : forall c n j l s x t0, (j < n)%nat -> sized n l -> goes_on j l -> t0 <> 0 -> from t0 l -> t0 <= last_press (kb s) ->
  nth_error (touches s) j = Some x -> resting t0 x -> exists y, nth_error (touches (run c s l)) j = Some y /\ resting t0 y /\ t0 <= last_press (kb (run c s l)).
Proof.
  intros c n j l s x t0 L Z G T0 U K X R.
  destruct (contact_inv c n j (fun s y => t0 <= last_press (kb s) /\ resting t0 y) l L Z G) with (s := s) (x := x) as [y [Y' [Q1 Q]]]; auto.
  - intros s0 i x0 y I X0 [K0 R0] E. destruct (step_parts c s0 i) as [SK _]. rewrite SK.
    split; [apply kstep_last; [exact K0 |]; intros k [<-|[]]; apply U; exact I |].
    destruct E as [->|[v [t [m [Sh [U0 [F Q]]]]]]]; [exact R0 |]. apply (resting_update c s0 m t x0 v t0 U0 F R0 T0 (or_intror K0) y Q).
  - exists y. auto.
Qed.
Lemma resting_palm : forall t0 y, resting t0 y -> palm y <> PALM_NONE.
Proof. intros t0 y [[R|[R|R]]|[R _]]; rewrite R; discriminate. Qed.
Lemma land_typing : forall c s f g u t i x v, on (kb s) = true -> typing (kb s) = true -> nth_error (touches s) i = Some x -> nth_error f i = Some v -> st v = BEGIN -> dirty v = true ->
  exists y, nth_error (touches (fst (frame c s f g u t))) i = Some y /\ resting t y.
Proof.
  intros c s f g u t i x v O Y X V B D. destruct (frame_touch c s f g u t i x v X V) as [m [y [h [P [Q _]]]]]. exists y. split; [exact P |]. destruct (enter_begin t x v B) as [E1 [E2 _]].
  destruct Q as [_ [Q2 [Q3 _]]]. unfold resting. rewrite Q2, Q3. rewrite after_dirty by (rewrite E2; first [exact D | rewrite B; discriminate]).
  destruct (begin_typing c (kb s) (tr s) (astate (ar s)) m t (enter t x v)) as [[P1|P1] P2]; rewrite ?E2; auto. right. rewrite P2, E1. auto.
Qed.
Lemma fst_step_frame : forall c s f g u t, fst (step c s (Frame f g u t)) = fst (frame c s f g u t).
Proof. intros. cbn. destruct (frame c s f g u t). reflexivity. Qed.

(** ** Fingers that land while typing ends, or before it began *)
Lemma idle_keys : forall l k r, keys k = [] -> no_press l -> armed r k -> armed r (krun k l) /\ keys (krun k l) = [] /\ last_press (krun k l) = last_press k.
Proof.
  induction l as [|i l IH]; intros k r K N A; [auto |]. cbn [krun]. assert (N' : no_press l) by (intros c t I; apply (N c t); right; exact I).
  assert (X : keys (kstep k i) = [] /\ armed r (kstep k i) /\ last_press (kstep k i) = last_press k).
  { destruct i; cbn [kstep]; auto.
    - destruct p; [exfalso; apply (N k0 t); left; reflexivity |]. cbn. rewrite K. auto.
    - destruct (due _ t); [| auto]. unfold keyboard_timeout. rewrite K. cbn. rewrite andb_false_r. cbn. split; [reflexivity |]. split; [split; cbn; discriminate | reflexivity].
    - cbn. split; [exact K |]. destruct A as [A1 A2]. split; [split; cbn; [discriminate | exact A2] | reflexivity]. }
  destruct X as [X1 [X2 X3]]. destruct (IH _ r X1 N' X2) as [Y1 [Y2 Y3]]. rewrite Y3. auto.
Qed.
Lemma armed_init : forall b r, armed r {| on := b; typing := false; keys := []; mods := []; last_press := 0; ktimer := None |}.
Proof. intros b r. split; cbn; discriminate. Qed.
Lemma last_by : forall l k r, last_press k <= r -> by_ r l -> last_press (krun k l) <= r.
Proof.
  induction l as [|i l IH]; intros k r L B; [exact L |]. cbn [krun]. apply IH; [| intros j J; apply B; right; exact J]. specialize (B i (or_introl eq_refl)).
  destruct i; cbn [kstep]; try exact L.
  - unfold keyboard_event. destruct p; cbn [negb]; [| exact L]. destruct (negb (on k)); [exact L |]. destruct (key_ignore_for_dwt k0); [exact L |].
    destruct (key_is_modifier k0); [exact L |]. destruct (_ && _); [exact L |]. exact B.
  - destruct (due _ t); [| exact L]. unfold keyboard_timeout. destruct (_ && _); [exact B | exact L].
Qed.
Lemma begin_either : forall c k r m t x, st (now x) = BEGIN -> palm x = PALM_NONE -> calm c (now x) -> outside_edges c (now x) -> pointing r = false ->
  (palm (fst (palm_detect c k r ARB_NONE m t x)) = PALM_NONE \/ palm (fst (palm_detect c k r ARB_NONE m t x)) = PALM_TYPING) /\ ptime (fst (palm_detect c k r ARB_NONE m t x)) = ptime x.
Proof.
  intros c k r m t x U P C O R. unfold palm_detect. cbn [first_hit]. rewrite calm_pressure by (try assumption; congruence). cbn [arbitration_triggered].
  destruct (on k && typing k) eqn:Y.
  - assert (D : exists z, dwt_triggered k x = (z, true) /\ palm z = PALM_TYPING /\ ptime z = ptime x) by (unfold dwt_triggered; rewrite U, Y; cbn; eexists; split; [reflexivity | auto]).
    destruct D as [z [D [D1 D2]]]. rewrite D. cbn. auto.
  - assert (D : dwt_triggered k x = (x, false)) by (unfold dwt_triggered; rewrite U, Y, P; cbn; rewrite !andb_false_r; reflexivity).
    assert (T' : trackpoint_triggered c r x = (x, false)) by (unfold trackpoint_triggered; rewrite U, P, R; destruct (negb _); cbn; rewrite ?andb_false_r; reflexivity).
    rewrite D, T', calm_tool, calm_size by assumption.
    assert (G : edge_triggered c m t x = (x, false)).
    { unfold edge_triggered. rewrite P, U. destruct m; [reflexivity |]. destruct O as [[O1 O2] O3]. unfold in_edge, in_side_edge, in_top_edge.
      replace (px (now x) <? left_edge c) with false by (symmetry; apply Z.ltb_ge; exact O1). replace (right_edge c <? px (now x)) with false by (symmetry; apply Z.ltb_ge; exact O2).
      replace (py (now x) <? upper_edge c) with false by (symmetry; apply Z.ltb_ge; exact O3). reflexivity. }
    rewrite G, calm_pressure by (try assumption; congruence). cbn. auto.
Qed.
Definition late (t0 : Z) (y : touch) : Prop := palm y = PALM_NONE \/ (palm y = PALM_TYPING /\ ptime y = t0).
Lemma land_late : forall c s f g u t i x v, astate (ar s) = ARB_NONE -> pointing (tr s) = false -> nth_error (touches s) i = Some x -> nth_error f i = Some v -> lands c v ->
  exists y, nth_error (touches (fst (frame c s f g u t))) i = Some y /\ late t y.
Proof.
  intros c s f g u t i x v A R X V [B [F [D [O C]]]]. destruct (frame_touch c s f g u t i x v X V) as [m [y [h [P [Q _]]]]]. exists y. split; [exact P |]. destruct (enter_begin t x v B) as [E1 [E2 [E3 _]]].
  destruct Q as [_ [Q2 [Q3 _]]]. unfold late. rewrite Q2, Q3. rewrite after_dirty by (rewrite E2; first [exact D | rewrite B; discriminate]). rewrite A.
  destruct (begin_either c (kb s) (tr s) m t (enter t x v)) as [[P1|P1] P2]; rewrite ?E2; auto. right. rewrite P2, E1. auto.
Qed.
Lemma late_update : forall c s m t x v t0 y, astate (ar s) = ARB_NONE -> st v = UPDATE -> fresh v = false -> calm c v -> late t0 x -> last_press (kb s) < t0 -> same_but_speed y (after c s m t (enter t x v)) -> late t0 y.
Proof.
  intros c s m t x v t0 y A U F C R L [_ [Q2 [Q3 _]]]. destruct (enter_update t x v U F) as [E1 [E2 [_ [E4 _]]]]. unfold late. rewrite Q2, Q3.
  destruct (after_eq c s m t (enter t x v)) as [E|[_ E]]; rewrite E; [rewrite E1, E2; exact R |]. rewrite A.
  destruct R as [R|[R1 R2]]; [left; rewrite none_update by (rewrite ?E1, ?E4; assumption); cbn; congruence |].
  destruct (typing (kb s)) eqn:Y; [| left; apply typing_release; rewrite ?E1, ?E2, ?E4; auto; lia].
  destruct (typing_update c (kb s) (tr s) ARB_NONE m t (enter t x v)) as [[P|P] P']; rewrite ?E1, ?E2, ?E4; auto.
  - right. rewrite P, P', E2. auto.
  - exfalso. revert P. unfold palm_detect. cbn [first_hit]. rewrite calm_pressure by (rewrite ?E1, ?E4; first [assumption | congruence]). cbn [arbitration_triggered].
    set (z := enter t x v) in *. assert (D : dwt_triggered (kb s) z = (z, false)) by (unfold dwt_triggered; rewrite E4, U, Y; cbn; rewrite ?andb_false_r; reflexivity).
    assert (T' : trackpoint_triggered c (tr s) z = (z, false)) by (unfold trackpoint_triggered; rewrite E1, R1; destruct (negb _); reflexivity).
    assert (L' : tool_triggered c z = (z, false)) by (unfold tool_triggered; rewrite E1, R1; destruct (negb _); reflexivity).
    assert (G : edge_triggered c m t z = (z, false)) by (unfold edge_triggered; rewrite E1, R1, E4, U; destruct m; reflexivity).
    rewrite D, T', L', calm_size by (rewrite E4; assumption). rewrite G, calm_pressure by (rewrite ?E1, ?E4; first [assumption | congruence]). cbn. rewrite E1, R1. discriminate.
Qed.
Lemma late_run : forall c n j l s x t0 r, (j < n)%nat -> sized n l -> goes_on j l -> all_calm c j l -> no_pen l -> no_press l -> keys (kb s) = [] -> armed r (kb s) -> last_press (kb s) < t0 -> astate (ar s) = ARB_NONE ->
  nth_error (touches s) j = Some x -> late t0 x -> exists y, nth_error (touches (run c s l)) j = Some y /\ late t0 y.
Proof.
  intros c n j l s x t0 r L Z G C P N K Ar LP A X R.
  destruct (contact_inv c n j (fun s y => astate (ar s) = ARB_NONE /\ (keys (kb s) = [] /\ armed r (kb s) /\ last_press (kb s) < t0) /\ late t0 y) l L Z G) with (s := s) (x := x) as [y [Y' [_ [_ Q]]]]; auto.
  - intros s0 i x0 y I X0 [A0 [[K0 [R0 L0]] T0]] E. destruct (step_parts c s0 i) as [SK [_ [SA _]]]. rewrite SA, SK.
    split; [apply (arb_none [i] (ar s0) A0); intros w f t [K'|[]]; apply (P w f t); subst i; exact I |].
    assert (N1 : no_press [i]) by (intros c' t' [K'|[]]; apply (N c' t'); subst i; exact I).
    destruct (idle_keys [i] (kb s0) r K0 N1 R0) as [B1 [B2 B3]]. cbn [krun] in B1, B2, B3. split; [rewrite B3; auto |].
    destruct E as [->|[v [t [m [Sh [U0 [F Q]]]]]]]; [exact T0 |].
    assert (CV : calm c v) by (destruct Sh as [[f [g [u [-> V]]]]|[w [f [-> V]]]]; [apply (C f g u t v I V) | exfalso; apply (P w f t I)]).
    apply (late_update c s0 m t x0 v t0 y A0 U0 F CV T0 L0 Q).
  - exists y. auto.
Qed.
