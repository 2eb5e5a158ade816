(** Physical buttons, areas in millimetres, pointer motion, top buttons *)
Require Import Coq.ZArith.ZArith Coq.Lists.List Coq.Bool.Bool Coq.micromega.Lia.
Require Verif.Tp_Model.
Require Import Verif.Tap_Model Verif.Tpb_Model Verif.Tpb_Spec Verif.Tpb_Proofs Verif.Tpb_Proofs2.
Import ListNotations.
Open Scope Z_scope.

(** ** Physical buttons *)
Record psim (h : bool) (s : dev) (v : pview) : Prop := {
  q_susp : susp s = false; q_lh : lh s = h; q_wlh : want_lh s = h; q_phys : phys s = p_hw v; q_old : old s = p_sent v; q_ok : ok s = true;
  q_kc : forall b, get_count (kc s) (swap h b) = b2z (get_bit (p_sent v) b); q_out : out s = map to_client (p_out v) }.
Lemma psim_same : forall h s s' v, psim h s v -> susp s' = susp s -> lh s' = lh s -> want_lh s' = want_lh s -> phys s' = phys s -> old s' = old s -> ok s' = ok s -> kc s' = kc s -> out s' = out s -> psim h s' v.
Proof. intros h s s' v S E1 E2 E3 E4 E5 E6 E7 E8. destruct S. constructor; rewrite ?E1, ?E2, ?E3, ?E4, ?E5, ?E6, ?E7, ?E8; assumption. Qed.
Lemma swap_inj : forall h a b, button_eqb (swap h a) (swap h b) = button_eqb a b.
Proof. intros [] [] []; reflexivity. Qed.
(** One button *)
Lemma post_one_spec : forall h now was s b (c : button -> Z),
  lh s = h -> want_lh s = h -> ok s = true -> (forall x, get_count (kc s) (swap h x) = c x) -> c b = b2z (get_bit was b) ->
  let s' := post_one now was s b in
  lh s' = h /\ want_lh s' = h /\ ok s' = true /\ (forall x, get_count (kc s') (swap h x) = if button_eqb x b then b2z (get_bit now b) else c x)
  /\ out s' = out s ++ map to_client (changed h now was b) /\ phys s' = phys s /\ old s' = old s /\ susp s' = susp s.
Proof.
  intros h now was s b c L W O K CB. unfold post_one, changed.
  assert (T : to_left_handed s b = swap h b) by (unfold to_left_handed, swap; rewrite L; reflexivity).
  destruct (get_bit now b) eqn:N, (get_bit was b) eqn:P; cbn [xorb Bool.eqb]; cbn zeta.
  - rewrite app_nil_r. repeat split; auto. intros x. rewrite K. destruct (button_eqb x b) eqn:E; [apply button_eqb_spec in E; subst x; exact CB|reflexivity].
  - rewrite T, notify_press by (rewrite K; exact CB). cbn. repeat split; auto. intros x. rewrite get_set_count, swap_inj. destruct (button_eqb x b); [reflexivity|apply K].
  - rewrite T, notify_release; [|rewrite K; exact CB|rewrite L, W; reflexivity]. cbn. repeat split; auto. intros x. rewrite get_set_count, swap_inj. destruct (button_eqb x b); [reflexivity|apply K].
  - rewrite app_nil_r. repeat split; auto. intros x. rewrite K. destruct (button_eqb x b) eqn:E; [apply button_eqb_spec in E; subst x; exact CB|reflexivity].
Qed.
Lemma psim_frame : forall p h s v l t, kind p = Physical -> psim h s v -> psim h (fst (frame p s l t)) (pview_frame h v).
Proof.
  intros p h s v l t P S. unfold frame, post_button_events. rewrite P. set (s1 := with_tbs s _). assert (S1 : psim h s1 v) by (eapply psim_same; [exact S|..]; reflexivity). clearbody s1. clear S.
  cbn [fst]. unfold apply_middle. rewrite P. destruct S1. unfold post_physical. cbn [fold_left]. rewrite q_phys0, q_old0.
  destruct (post_one_spec h (p_hw v) (p_sent v) s1 LEFT _ q_lh0 q_wlh0 q_ok0 q_kc0 eq_refl) as (a1 & a2 & a3 & a4 & a5 & a6 & a7 & a8). set (sa := post_one (p_hw v) (p_sent v) s1 LEFT) in *. clearbody sa.
  destruct (post_one_spec h (p_hw v) (p_sent v) sa RIGHT _ a1 a2 a3 a4 eq_refl) as (b1 & b2 & b3 & b4 & b5 & b6 & b7 & b8). set (sb := post_one (p_hw v) (p_sent v) sa RIGHT) in *. clearbody sb.
  destruct (post_one_spec h (p_hw v) (p_sent v) sb MIDDLE _ b1 b2 b3 b4 eq_refl) as (c1 & c2 & c3 & c4 & c5 & c6 & c7 & c8). set (sc := post_one (p_hw v) (p_sent v) sb MIDDLE) in *. clearbody sc.
  assert (PH : phys sc = p_hw v) by (rewrite c6, b6, a6; exact q_phys0).
  constructor; cbn [with_old susp lh want_lh phys old ok kc out pview_frame p_hw p_sent p_out]; auto.
  - rewrite c8, b8, a8. exact q_susp0.
  - intros b. rewrite c4. destruct b; reflexivity.
  - rewrite c5, b5, a5, q_out0, !map_app, <- !app_assoc. reflexivity.
Qed.
Lemma psim_step : forall p h s v i, kind p = Physical -> never_suspended [i] -> psim h s v -> psim h (bstep p s i) (pview_step h v i).
Proof.
  intros p h s v i P N S. assert (CL : closed p s = false) by (unfold closed; rewrite (q_susp _ _ _ S); reflexivity).
  destruct i as [b d|l t|i t|l t|l t|l t|l t| | |m0|b|b|b d]; cbn [bstep never_suspended pview_step] in *; try contradiction; rewrite ?CL.
  - destruct S. unfold process_button. rewrite P. constructor; cbn; auto. rewrite q_phys0. reflexivity.
  - apply psim_frame; assumption.
  - destruct (nth_error (tbs s) i) as [b|]; [|exact S]. destruct (tmr b) as [e|]; [|exact S]. destruct (e <=? t); [|exact S]. eapply psim_same; [exact S|..]; reflexivity.
  - unfold clear. apply psim_frame; [exact P|]. destruct S. assert (E : phys (release_all_buttons s) = no_bits).
    { unfold release_all_buttons. destruct (any_bit (phys s)) eqn:A; [reflexivity|]. unfold any_bit in A. apply orb_false_iff in A. destruct A as [A A3]. apply orb_false_iff in A. destruct A as [A1 A2]. destruct (phys s); cbn in *; subst; reflexivity. }
    constructor; cbn [p_hw p_sent p_out]; try exact E; unfold release_all_buttons; destruct (any_bit (phys s)); cbn; auto.
  - destruct (trackpoint s); [exact S|]. eapply psim_same; [exact S|..]; reflexivity.
  - destruct m0; (eapply psim_same; [exact S|..]; reflexivity).
  - rewrite P. exact S.
Qed.
Lemma psim_run : forall p h l s v, kind p = Physical -> never_suspended l -> psim h s v -> psim h (brun p s l) (pview_run h v l).
Proof.
  intros p h l. induction l as [|i l IH]; intros s v P N S; [exact S|]. cbn [brun pview_run fold_left]. apply IH; [exact P|destruct i; cbn in N; try contradiction; exact N|].
  apply psim_step; auto. destruct i; cbn in *; try contradiction; exact I.
Qed.

(** ** The areas, in units *)
Lemma quot_bounds : forall a b, 0 < b -> a - b < b * Z.quot a b < a + b.
Proof. intros a b H. pose proof (Z.quot_rem' a b) as E. pose proof (Z.rem_bound_abs a b ltac:(lia)) as R. lia. Qed.


(** ** Cores over frames *)
Lemma frame_tbs : forall p s l t, tbs (fst (frame p s l t)) = touches_frame p (ar s) (qr s) (qp s) t (tbs s) 0 l.
Proof.
  intros p s l t. unfold frame. set (s1 := with_tbs s _). change (touches_frame p (ar s) (qr s) (qp s) t (tbs s) 0 l) with (tbs s1). clearbody s1.
  assert (E : tbs (fst (post_button_events p s1 l)) = tbs s1).
  { unfold post_button_events. destruct (kind p); [apply (post_clickpad_same p s1 l)|apply (post_clickpad_same p s1 l)|]. cbn [fst]. unfold post_physical. cbn [fold_left].
    assert (Q : forall c o s0 b, tbs (post_one c o s0 b) = tbs s0) by (intros c o s0 b; unfold post_one; destruct (xorb _ _); [|reflexivity]; apply (notify_same s0 (to_left_handed s0 b) (get_bit c b))).
    rewrite !Q. reflexivity. }
  destruct (post_button_events p s1 l) as [s2 q]. cbn [fst] in *. rewrite <- E. pose proof (apply_middle_same p (with_old s2 (phys s2))) as A. cbn zeta in A. destruct A as (-> & _). reflexivity.
Qed.
Lemma frame_ar : forall p s l t, mid s = want_mid s -> ar (fst (frame p s l t)) = ar s /\ mid (fst (frame p s l t)) = want_mid (fst (frame p s l t)).
Proof.
  intros p s l t M. unfold frame. set (s1 := with_tbs s _). assert (M1 : mid s1 = want_mid s1) by exact M. change (ar s) with (ar s1). clearbody s1. clear M.
  assert (E : let s' := fst (post_button_events p s1 l) in ar s' = ar s1 /\ mid s' = mid s1 /\ want_mid s' = want_mid s1).
  { unfold post_button_events. destruct (kind p); [pose proof (post_clickpad_same p s1 l) as P; cbn zeta in *; tauto|pose proof (post_clickpad_same p s1 l) as P; cbn zeta in *; tauto|]. cbn [fst]. unfold post_physical. cbn [fold_left].
    assert (Q : forall c o s0 b, ar (post_one c o s0 b) = ar s0 /\ mid (post_one c o s0 b) = mid s0 /\ want_mid (post_one c o s0 b) = want_mid s0) by (intros c o s0 b; unfold post_one; destruct (xorb _ _); [|repeat split]; pose proof (notify_same s0 (to_left_handed s0 b) (get_bit c b)) as N; cbn zeta in N; tauto).
    cbn zeta. rewrite !(proj1 (Q _ _ _ _)), !(proj1 (proj2 (Q _ _ _ _))), !(proj2 (proj2 (Q _ _ _ _))). repeat split. }
  cbn zeta in E. destruct (post_button_events p s1 l) as [s2 q]. cbn [fst] in *. destruct E as (E1 & E2 & E3).
  assert (X : apply_middle p (with_old s2 (phys s2)) = with_old s2 (phys s2)) by (unfold apply_middle; destruct (kind p); try reflexivity; cbn [with_old want_mid mid]; rewrite E2, E3, M1, eqb_reflx, orb_true_r; reflexivity).
  rewrite X. cbn [with_old ar mid want_mid]. rewrite E1, E2, E3. auto.
Qed.

(** ** Which fingers move the pointer *)
Definition but_moved (b b' : tb) : Prop :=
  bs b' = bs b /\ cur b' = cur b /\ tmr b' = tmr b /\ ix b' = ix b /\ iy b' = iy b /\ it b' = it b /\ (has_moved b = true -> has_moved b' = true).
Lemma but_moved_refl : forall b, but_moved b b.
Proof. intros b. unfold but_moved. auto 10. Qed.
Lemma but_moved_trans : forall a b c, but_moved a b -> but_moved b c -> but_moved a c.
Proof. intros a b c (A1 & A2 & A3 & A4 & A5 & A6 & A7) (B1 & B2 & B3 & B4 & B5 & B6 & B7). unfold but_moved. rewrite B1, B2, B3, B4, B5, B6. auto 10. Qed.
Definition close (t u : Z) : Prop := Z.abs (t - u) <= 80000.
Lemma release_other_spec : forall t b, but_moved b (release_other t b) /\ (has_moved (release_other t b) = true <-> has_moved b = true \/ (bs b = B_BOTTOM /\ close t (it b))).
Proof.
  intros t b. unfold release_other, but_moved, close. destruct (bs b) eqn:E; try (split; [auto 10|split; [auto|intros [H|[H _]]; [exact H|discriminate H]]]).
  destruct (has_moved b) eqn:M; cbn [orb]; [split; [auto 10|split; auto]|].
  assert (X : (if it b <? t then t - it b else it b - t) = Z.abs (t - it b)) by (destruct (Z.ltb_spec (it b) t); lia). rewrite X.
  destruct (Z.ltb_spec 80000 (Z.abs (t - it b))) as [L|L]; cbn; rewrite ?E, ?M; (split; [auto 10|]); split; auto; try discriminate; intros [H|[_ H]]; [discriminate H|lia].
Qed.
(** What the frame does to touch [k] in state [b] makes it release others. *)
Definition trigger (p : pad) (a : areas) (b : tb) (f : ft) : Prop :=
  bs b = B_BOTTOM /\ (f_state f = Tp_Model.BEGIN \/ f_state f = Tp_Model.UPDATE \/ f_state f = Tp_Model.MAYBE_END) /\ f_dirty f = true /\
  (in_bottom a (f_y f) = false \/ (far p b (f_x f) (f_y f) = true /\ f_state f <> Tp_Model.BEGIN)).
Lemma nth_map_release : forall t l i, nth i (map (release_other t) l) tb0 = release_other t (nth i l tb0).
Proof. intros. change tb0 with (release_other t tb0) at 1. apply map_nth. Qed.
Lemma region_bottom : forall a x y, (exists r, region_at a x y = r /\ bot r) <-> in_bottom a y = true.
Proof.
  intros a x y. unfold region_at, bot. destruct (in_bottom a y); split; intros H; try reflexivity; try discriminate H.
  - destruct (b_right a <? x); [eauto|]. destruct (b_mid a <? x); eauto.
  - destruct H as (r & H & B). destruct (in_top a y); [destruct (t_right a <? x); [|destruct (_ && _)]|]; subst r; destruct B as [B|[B|B]]; discriminate B.
Qed.
(** Handling an event for touch [k], seen from touch [i] *)
Lemma handle_other : forall l k i e t, (k < length l)%nat -> i <> k ->
  but_moved (nth i l tb0) (nth i (handle_event l k e t) tb0) /\
  (has_moved (nth i (handle_event l k e t) tb0) = true <-> has_moved (nth i l tb0) = true \/ (snd (event1 (nth k l tb0) e t) = true /\ bs (nth i l tb0) = B_BOTTOM /\ close (it (fst (event1 (nth k l tb0) e t))) (it (nth i l tb0)))).
Proof.
  intros l k i e t L N. unfold handle_event. destruct (event1 (nth k l tb0) e t) as [b o]. cbn [fst snd]. apply Nat.eqb_neq in N. destruct o.
  - rewrite nth_map_release, nth_upd by exact L. rewrite N. destruct (release_other_spec (it b) (nth i l tb0)) as [A B]. split; [exact A|]. rewrite B. tauto.
  - rewrite nth_upd by exact L. rewrite N. split; [apply but_moved_refl|]. split; [auto|intros [H|[H _]]; [exact H|discriminate H]].
Qed.
Lemma event1_snd : forall b e t, snd (event1 b e t) = true <-> bs b = B_BOTTOM /\ exists r, e = In_ r /\ ~ bot r.
Proof.
  intros b e t. unfold event1, bot. destruct (bs b) eqn:E; cbn [snd]; try (split; [discriminate|intros [H _]; discriminate H]).
  destruct e as [r| | | |]; cbn [bottom_event snd]; try (split; [discriminate|intros (_ & r & H & _); discriminate H]).
  destruct r; cbn [snd]; split; intros H; try reflexivity; try discriminate H; try (destruct H as (_ & r & H & B); injection H as <-; contradiction B; auto; fail);
    (split; [reflexivity|]); eexists; (split; [reflexivity|]); intros [X|[X|X]]; discriminate X.
Qed.
Lemma event1_it : forall b e t, it (fst (event1 b e t)) = it b /\ ix (fst (event1 b e t)) = ix b /\ iy (fst (event1 b e t)) = iy b /\ has_moved (fst (event1 b e t)) = has_moved b.
Proof. intros [s c m x y z h] e t. unfold event1. cbn [bs]. destruct s, e as [[]| | | |]; cbn; try (repeat split; reflexivity); destruct (is_cur c _); repeat split; reflexivity. Qed.
Lemma handle_length : forall l k e t, length (handle_event l k e t) = length l.
Proof. intros. unfold handle_event. destruct (event1 _ _ _) as [b o]. destruct o; rewrite ?map_length, upd_length; reflexivity. Qed.
Lemma check_length : forall p l k x y, length (check_movement p l k x y) = length l.
Proof. intros. unfold check_movement. destruct (bs _); try reflexivity. destruct (_ && _); rewrite ?map_length, ?upd_length; reflexivity. Qed.
Lemma handle_quiet : forall l k i e t, (k < length l)%nat -> i <> k -> snd (event1 (nth k l tb0) e t) = false -> nth i (handle_event l k e t) tb0 = nth i l tb0.
Proof. intros l k i e t L N H. unfold handle_event. destruct (event1 (nth k l tb0) e t) as [b o]. cbn in H. subst o. rewrite nth_upd by exact L. apply Nat.eqb_neq in N. rewrite N. reflexivity. Qed.
(** Touch [k]'s part of the frame, seen from touch [i] *)
Lemma touch_other : forall p a q r t l k i f, (k < length l)%nat -> i <> k ->
  but_moved (nth i l tb0) (nth i (touch_frame p a q r t l k f) tb0) /\
  (has_moved (nth i (touch_frame p a q r t l k f) tb0) = true -> has_moved (nth i l tb0) = true \/
     (trigger p a (nth k l tb0) f /\ bs (nth i l tb0) = B_BOTTOM /\ close (if match f_state f with Tp_Model.BEGIN => true | _ => false end then t else it (nth k l tb0)) (it (nth i l tb0)))) /\
  (bs (nth k l tb0) = B_BOTTOM -> f_state f = Tp_Model.UPDATE -> f_dirty f = true -> in_bottom a (f_y f) = false -> bs (nth i l tb0) = B_BOTTOM -> close (it (nth k l tb0)) (it (nth i l tb0)) ->
     has_moved (nth i (touch_frame p a q r t l k f) tb0) = true).
Proof.
  intros p a q r t l k i f L N.
  (* the last two events never concern others *)
  assert (Q : forall l0 (z : bool) e, length l0 = length l -> e = B_RELEASE \/ e = B_PRESS -> nth i (if z then handle_event l0 k e t else l0) tb0 = nth i l0 tb0).
  { intros l0 z e LE E. destruct z; [|reflexivity]. apply handle_quiet; [lia|exact N|]. destruct (snd (event1 (nth k l0 tb0) e t)) eqn:X; [|reflexivity]. apply event1_snd in X. destruct X as (_ & x & X & _). destruct E as [-> | ->]; discriminate X. }
  set (G := fun l1 : list tb => but_moved (nth i l tb0) (nth i l1 tb0) /\
    (has_moved (nth i l1 tb0) = true -> has_moved (nth i l tb0) = true \/
     (trigger p a (nth k l tb0) f /\ bs (nth i l tb0) = B_BOTTOM /\ close (if match f_state f with Tp_Model.BEGIN => true | _ => false end then t else it (nth k l tb0)) (it (nth i l tb0)))) /\
    (bs (nth k l tb0) = B_BOTTOM -> f_state f = Tp_Model.UPDATE -> f_dirty f = true -> in_bottom a (f_y f) = false -> bs (nth i l tb0) = B_BOTTOM -> close (it (nth k l tb0)) (it (nth i l tb0)) ->
      has_moved (nth i l1 tb0) = true)).
  change (G (touch_frame p a q r t l k f)).
  assert (GQ : forall l1, length l1 = length l -> G l1 -> G (if r then handle_event (if q then handle_event l1 k B_RELEASE t else l1) k B_PRESS t else (if q then handle_event l1 k B_RELEASE t else l1))).
  { intros l1 LE H. unfold G. rewrite Q; [|destruct q; rewrite ?handle_length; exact LE|auto]. rewrite Q; [exact H|exact LE|auto]. }
  assert (N0 : (f_state f = Tp_Model.UPDATE -> f_dirty f = false) -> G l).
  { intros H. split; [apply but_moved_refl|]. split; [auto|]. intros _ U D. rewrite (H U) in D. discriminate D. }
  (* touch k moves about *)
  assert (D : forall l0, length l0 = length l -> nth i l0 tb0 = nth i l tb0 -> bs (nth k l0 tb0) = bs (nth k l tb0) ->
     it (nth k l0 tb0) = (if match f_state f with Tp_Model.BEGIN => true | _ => false end then t else it (nth k l tb0)) ->
     (far p (nth k l0 tb0) (f_x f) (f_y f) = true -> far p (nth k l tb0) (f_x f) (f_y f) = true /\ f_state f <> Tp_Model.BEGIN) ->
     (f_state f = Tp_Model.BEGIN \/ f_state f = Tp_Model.UPDATE \/ f_state f = Tp_Model.MAYBE_END) ->
     G (if f_dirty f then let l := if in_bottom a (f_y f) then check_movement p l0 k (f_x f) (f_y f) else l0 in handle_event l k (In_ (region_at a (f_x f) (f_y f))) t else l0)).
  { intros l0 LE EI EB ET EF ST. destruct (f_dirty f) eqn:DI; [|unfold G; rewrite EI; apply N0; reflexivity]. cbv zeta.
    destruct (in_bottom a (f_y f)) eqn:IB.
    - (* within the bottom area: only check_movement *)
      assert (RB : bot (region_at a (f_x f) (f_y f))) by (destruct (proj2 (region_bottom a (f_x f) (f_y f)) IB) as (x & X & B); rewrite X; exact B).
      unfold G. rewrite handle_quiet; [|rewrite check_length; lia|exact N|].
      2:{ match goal with |- ?x = false => destruct x eqn:X end; [|reflexivity]. apply event1_snd in X. destruct X as (_ & x & X & NB). injection X as <-. contradiction. }
      unfold check_movement. rewrite EB. destruct (bs (nth k l tb0)) eqn:BK; try (rewrite EI; split; [apply but_moved_refl|]; split; [auto|intros; congruence]).
      destruct (negb (has_moved (nth k l0 tb0)) && far p (nth k l0 tb0) (f_x f) (f_y f)) eqn:FA; [|rewrite EI; split; [apply but_moved_refl|]; split; [auto|intros; congruence]].
      apply andb_true_iff in FA. destruct FA as [_ FA]. destruct (EF FA) as [F1 F2]. rewrite nth_map_release, nth_upd by lia. rewrite (proj2 (Nat.eqb_neq i k) N), EI, ET.
      destruct (release_other_spec (if match f_state f with Tp_Model.BEGIN => true | _ => false end then t else it (nth k l tb0)) (nth i l tb0)) as [A B]. split; [exact A|]. split; [|intros; congruence].
      intros H. apply B in H. destruct H as [H|[H1 H2]]; [left; exact H|right]. split; [|split; assumption]. unfold trigger. rewrite BK, DI. auto 8.
    - destruct (handle_other l0 k i (In_ (region_at a (f_x f) (f_y f))) t ltac:(lia) N) as [A B]. rewrite EI in A, B. destruct (event1_it (nth k l0 tb0) (In_ (region_at a (f_x f) (f_y f))) t) as (I1 & _). rewrite I1, ET in B.
      assert (NB : ~ bot (region_at a (f_x f) (f_y f))) by (intros H; assert (X : in_bottom a (f_y f) = true) by (apply (region_bottom a (f_x f)); eauto); congruence).
      split; [exact A|]. split.
      + intros H. apply B in H. destruct H as [H|(H1 & H2 & H3)]; [left; exact H|right]. apply event1_snd in H1. destruct H1 as [H1 _]. rewrite EB in H1. split; [|split; assumption]. unfold trigger. auto.
      + intros BK U _ _ BI CL. apply B. right. split; [|split; [exact BI|rewrite U; exact CL]]. apply event1_snd. split; [rewrite EB; exact BK|eauto]. }
  unfold touch_frame. destruct (f_state f) eqn:ST; try (apply N0; discriminate).
  - apply GQ; [destruct (f_dirty f); [|rewrite upd_length; reflexivity]; cbv zeta; rewrite handle_length; destruct (in_bottom a (f_y f)); rewrite ?check_length, upd_length; reflexivity|].
    apply D; auto.
    + apply upd_length.
    + rewrite nth_upd by exact L. rewrite (proj2 (Nat.eqb_neq i k) N). reflexivity.
    + rewrite nth_upd by exact L. rewrite Nat.eqb_refl. reflexivity.
    + rewrite nth_upd by exact L. rewrite Nat.eqb_refl. reflexivity.
    + rewrite nth_upd by exact L. rewrite Nat.eqb_refl. unfold far. cbn [ix iy]. rewrite !Z.sub_diag. intros H. apply Z.ltb_lt in H. nia.
  - apply GQ; [destruct (f_dirty f); [|reflexivity]; cbv zeta; rewrite handle_length; destruct (in_bottom a (f_y f)); rewrite ?check_length; reflexivity|].
    apply D; auto. intros H. split; [exact H|discriminate].
  - apply GQ; [destruct (f_dirty f); [|reflexivity]; cbv zeta; rewrite handle_length; destruct (in_bottom a (f_y f)); rewrite ?check_length; reflexivity|].
    apply D; auto. intros H. split; [exact H|discriminate].
  - apply GQ; [apply handle_length|]. unfold G. rewrite handle_quiet; [|exact L|exact N|].
    + apply N0. intros H; discriminate H.
    + destruct (snd (event1 (nth k l tb0) B_UP t)) eqn:X; [|reflexivity]. apply event1_snd in X. destruct X as (_ & x & X & _). discriminate X.
Qed.

Lemma touch_length : forall p a q r t l k f, length (touch_frame p a q r t l k f) = length l.
Proof.
  intros. assert (D : forall l0, length (if f_dirty f then let l := if in_bottom a (f_y f) then check_movement p l0 k (f_x f) (f_y f) else l0 in handle_event l k (In_ (region_at a (f_x f) (f_y f))) t else l0) = length l0).
  { intros l0. destruct (f_dirty f); [|reflexivity]. cbv zeta. rewrite handle_length. destruct (in_bottom a (f_y f)); rewrite ?check_length; reflexivity. }
  unfold touch_frame. destruct (f_state f); try reflexivity; (destruct r, q; rewrite ?handle_length, ?D, ?upd_length, ?handle_length, ?D, ?upd_length; reflexivity).
Qed.
Lemma touches_length : forall p a q r t fs l k, length (touches_frame p a q r t l k fs) = length l.
Proof. induction fs as [|f fs IH]; intros l k; [reflexivity|]. cbn [touches_frame]. rewrite IH. apply touch_length. Qed.
(** A touch that is not (or no longer) among those handled *)
Definition reach (p : pad) (a : areas) (t : Z) (l0 : list tb) (fs : list ft) (k0 i : nat) : Prop :=
  exists k f, nth_error fs k = Some f /\ (k0 + k)%nat <> i /\ trigger p a (nth (k0 + k) l0 tb0) f /\
    close (if match f_state f with Tp_Model.BEGIN => true | _ => false end then t else it (nth (k0 + k) l0 tb0)) (it (nth i l0 tb0)).
Lemma trigger_same : forall p a b b' f, but_moved b b' -> trigger p a b' f -> trigger p a b f.
Proof. intros p a b b' f (A1 & A2 & A3 & A4 & A5 & A6 & _) (T1 & T2 & T3 & T4). unfold trigger, far in *. rewrite A1 in T1. rewrite A4, A5 in T4. auto. Qed.
Lemma touches_outside : forall p a q r t i fs l k0, (k0 + length fs <= length l)%nat -> ((i < k0)%nat \/ (k0 + length fs <= i)%nat) ->
  but_moved (nth i l tb0) (nth i (touches_frame p a q r t l k0 fs) tb0) /\
  (has_moved (nth i (touches_frame p a q r t l k0 fs) tb0) = true -> has_moved (nth i l tb0) = true \/ (bs (nth i l tb0) = B_BOTTOM /\ reach p a t l fs k0 i)) /\
  (forall k f, nth_error fs k = Some f -> bs (nth (k0 + k) l tb0) = B_BOTTOM -> f_state f = Tp_Model.UPDATE -> f_dirty f = true -> in_bottom a (f_y f) = false ->
     bs (nth i l tb0) = B_BOTTOM -> close (it (nth (k0 + k) l tb0)) (it (nth i l tb0)) -> has_moved (nth i (touches_frame p a q r t l k0 fs) tb0) = true).
Proof.
  induction fs as [|f fs IH]; intros l k0 L I.
  - cbn [touches_frame]. split; [apply but_moved_refl|]. split; [auto|]. intros [|k] f H; discriminate H.
  - cbn [touches_frame length] in *. assert (NE : i <> k0) by (cbn in I; lia). destruct (touch_other p a q r t l k0 i f ltac:(lia) NE) as (T1 & T2 & T3).
    destruct (IH (touch_frame p a q r t l k0 f) (S k0)) as (A1 & A2 & A3); [rewrite touch_length; lia|lia|].
    assert (O : forall k, k <> k0 -> but_moved (nth k l tb0) (nth k (touch_frame p a q r t l k0 f) tb0)) by (intros k N; apply touch_other; [lia|exact N]).
    split; [exact (but_moved_trans _ _ _ T1 A1)|]. split.
    + intros H. apply A2 in H. destruct H as [H|[H1 (k & g & G1 & G2 & G3 & G4)]].
      * apply T2 in H. destruct H as [H|(H1 & H2 & H3)]; [left; exact H|right]. split; [exact H2|]. exists 0%nat, f. rewrite Nat.add_0_r. auto.
      * right. destruct T1 as (B1 & _ & _ & _ & _ & B6 & _). split; [rewrite <- B1; exact H1|]. exists (S k), g. replace (k0 + S k)%nat with (S k0 + k)%nat by lia.
        assert (N : (S k0 + k <> k0)%nat) by lia. pose proof (O _ N) as (C1 & C2 & C3 & C4 & C5 & C6 & C7). split; [exact G1|]. split; [exact G2|]. split; [eapply trigger_same; [apply O; exact N|exact G3]|]. rewrite <- C6, <- B6. exact G4.
    + intros [|k] g G BK U D NB BI CL; cbn in G.
      * injection G as <-. rewrite Nat.add_0_r in *. apply A1. apply T3; auto.
      * replace (k0 + S k)%nat with (S k0 + k)%nat in * by lia. assert (N : (S k0 + k <> k0)%nat) by lia. pose proof (O _ N) as (C1 & C2 & C3 & C4 & C5 & C6 & C7). destruct T1 as (B1 & _ & _ & _ & _ & B6 & _).
        apply (A3 k g); auto; [rewrite C1; exact BK|rewrite B1; exact BI|rewrite C6, B6; exact CL].
Qed.
Lemma touches_app : forall p a q r t fs gs l k, touches_frame p a q r t l k (fs ++ gs) = touches_frame p a q r t (touches_frame p a q r t l k fs) (k + length fs) gs.
Proof. induction fs as [|f fs IH]; intros gs l k; cbn [app touches_frame length]; [rewrite Nat.add_0_r; reflexivity|]. rewrite IH. f_equal. lia. Qed.
(** The finger itself *)
Lemma own_event : forall l k e t, (k < length l)%nat -> nth k (handle_event l k e t) tb0 = (let (b, o) := event1 (nth k l tb0) e t in if o then release_other (it b) b else b).
Proof. intros l k e t L. unfold handle_event. destruct (event1 (nth k l tb0) e t) as [b o]. destruct o; rewrite ?nth_map_release, nth_upd, Nat.eqb_refl by exact L; reflexivity. Qed.
Definition steady (f : ft) : Prop := f_state f = Tp_Model.UPDATE \/ f_state f = Tp_Model.MAYBE_END.
Lemma event1_bottom_stays : forall b e t, bs b = B_BOTTOM -> bs (fst (event1 b e t)) = B_BOTTOM -> has_moved (fst (event1 b e t)) = has_moved b /\ snd (event1 b e t) = false /\ (forall r, e = In_ r -> bot r).
Proof.
  intros b e t B H. split; [apply event1_it|]. unfold event1 in *. rewrite B in *. unfold bot. destruct e as [[]| | | |]; cbn in *; try discriminate H; (split; [reflexivity|]); intros x X; try discriminate X; injection X as <-; auto.
Qed.
(** no way into B_BOTTOM again within the same frame *)
Lemma not_bottom_again : forall b e t, bs b <> B_BOTTOM -> e = B_PRESS \/ e = B_RELEASE -> bs (fst (event1 b e t)) <> B_BOTTOM.
Proof. intros [s c m x y z h] e t H E. unfold event1. cbn [bs] in *. destruct E as [-> | ->], s; cbn; congruence. Qed.
Lemma release_bs : forall t b, bs (release_other t b) = bs b.
Proof. intros. apply release_other_spec. Qed.
Lemma own_frame : forall p a q r t l k f, (k < length l)%nat -> steady f -> bs (nth k l tb0) = B_BOTTOM -> bs (nth k (touch_frame p a q r t l k f) tb0) = B_BOTTOM ->
  let b := nth k l tb0 in let b' := nth k (touch_frame p a q r t l k f) tb0 in
  it b' = it b /\ (has_moved b' = true <-> has_moved b = true \/ (f_dirty f = true /\ far p b (f_x f) (f_y f) = true)) /\ (f_dirty f = true -> in_bottom a (f_y f) = true).
Proof.
  intros p a q r t l k f L ST B B'. cbn zeta.
  set (l1 := if f_dirty f then let l := if in_bottom a (f_y f) then check_movement p l k (f_x f) (f_y f) else l in handle_event l k (In_ (region_at a (f_x f) (f_y f))) t else l) in *.
  assert (E : touch_frame p a q r t l k f = (if r then handle_event (if q then handle_event l1 k B_RELEASE t else l1) k B_PRESS t else (if q then handle_event l1 k B_RELEASE t else l1))) by (unfold touch_frame; destruct ST as [-> | ->]; reflexivity).
  rewrite E in *. assert (L1 : length l1 = length l) by (unfold l1; destruct (f_dirty f); [|reflexivity]; cbv zeta; rewrite handle_length; destruct (in_bottom a (f_y f)); rewrite ?check_length; reflexivity).
  assert (Q : forall l2 (z : bool) e, length l2 = length l -> e = B_RELEASE \/ e = B_PRESS -> bs (nth k (if z then handle_event l2 k e t else l2) tb0) = B_BOTTOM ->
     bs (nth k l2 tb0) = B_BOTTOM /\ has_moved (nth k (if z then handle_event l2 k e t else l2) tb0) = has_moved (nth k l2 tb0) /\ it (nth k (if z then handle_event l2 k e t else l2) tb0) = it (nth k l2 tb0)).
  { intros l2 z e L2 EE H. destruct z; [|auto]. rewrite own_event in * by lia. assert (S : snd (event1 (nth k l2 tb0) e t) = false). { destruct (snd (event1 (nth k l2 tb0) e t)) eqn:X; [|reflexivity]. apply event1_snd in X. destruct X as (_ & x & X & _). destruct EE as [-> | ->]; discriminate X. }
    destruct (event1_it (nth k l2 tb0) e t) as (I1 & _ & _ & I4). pose proof (not_bottom_again (nth k l2 tb0) e t) as NB. destruct (event1 (nth k l2 tb0) e t) as [b' o]. cbn [fst snd] in *. subst o. split; [|auto]. destruct (bs (nth k l2 tb0)); try reflexivity; exfalso; apply NB; try discriminate; tauto. }
  set (l1' := if q then handle_event l1 k B_RELEASE t else l1) in *. assert (L1' : length l1' = length l) by (unfold l1'; destruct q; rewrite ?handle_length; exact L1).
  destruct (Q l1' r B_PRESS L1' (or_intror eq_refl) B') as (P1 & P2 & P3). rewrite P2, P3.
  destruct (Q l1 q B_RELEASE L1 (or_introl eq_refl) P1) as (R1 & R2 & R3). fold l1' in R2, R3. rewrite R2, R3. clearbody l1'. clear P2 P3 R2 R3 P1 B' E Q L1'.
  unfold l1 in *. destruct (f_dirty f) eqn:D; [|split; [reflexivity|]; split; [|discriminate]; split; [auto|intros [H|[H _]]; [exact H|discriminate H]]]. cbv zeta in *.
  set (l2 := if in_bottom a (f_y f) then check_movement p l k (f_x f) (f_y f) else l) in *. assert (L2 : length l2 = length l) by (unfold l2; destruct (in_bottom a (f_y f)); rewrite ?check_length; reflexivity).
  rewrite own_event in * by lia.
  assert (C : bs (nth k l2 tb0) = B_BOTTOM /\ it (nth k l2 tb0) = it (nth k l tb0) /\ (in_bottom a (f_y f) = true -> (has_moved (nth k l2 tb0) = true <-> has_moved (nth k l tb0) = true \/ far p (nth k l tb0) (f_x f) (f_y f) = true))).
  { unfold l2. destruct (in_bottom a (f_y f)); [|repeat split; [exact B|discriminate|discriminate]]. unfold check_movement. rewrite B. destruct (has_moved (nth k l tb0)) eqn:M; cbn [negb andb]; [rewrite B, M; tauto|].
    destruct (far p (nth k l tb0) (f_x f) (f_y f)); [|rewrite B, M; split; [reflexivity|]; split; [reflexivity|]; intros _; split; [discriminate|intros [H|H]; discriminate H]].
    rewrite nth_map_release, nth_upd, Nat.eqb_refl by exact L. destruct (release_other_spec (it (nth k l tb0)) (set_moved (nth k l tb0))) as ((X1 & _ & _ & _ & _ & X6 & X7) & _). rewrite X1, X6. cbn. split; [exact B|]. split; [reflexivity|]. intros _. split; [auto|]. intros _. apply X7. reflexivity. }
  destruct C as (C1 & C2 & C3). assert (R1' : bs (fst (event1 (nth k l2 tb0) (In_ (region_at a (f_x f) (f_y f))) t)) = B_BOTTOM) by (destruct (event1 (nth k l2 tb0) _ t) as [b' o]; cbn [fst]; destruct o; rewrite ?release_bs in R1; exact R1).
  destruct (event1_bottom_stays _ _ t C1 R1') as (S1 & S2 & S3). destruct (event1_it (nth k l2 tb0) (In_ (region_at a (f_x f) (f_y f))) t) as (I1 & _).
  destruct (event1 (nth k l2 tb0) (In_ (region_at a (f_x f) (f_y f))) t) as [b' o]. cbn [fst snd] in *. subst o. assert (IB : in_bottom a (f_y f) = true) by (apply (region_bottom a (f_x f)); eexists; split; [reflexivity|]; apply S3; reflexivity).
  rewrite I1, C2, S1. split; [reflexivity|]. split; [|auto]. rewrite (C3 IB). tauto.
Qed.
Lemma nth_error_split_at : forall A (l : list A) i x, nth_error l i = Some x -> exists l1 l2, l = l1 ++ x :: l2 /\ length l1 = i.
Proof. intros A l i x H. apply nth_error_split in H. destruct H as (l1 & l2 & H & E). eauto. Qed.
Lemma frame_moves : forall p a q r t l fs i f, (length fs = length l) -> nth_error fs i = Some f -> steady f ->
  let b := nth i l tb0 in let b' := nth i (touches_frame p a q r t l 0 fs) tb0 in
  bs b = B_BOTTOM -> bs b' = B_BOTTOM ->
  (has_moved b' = true -> has_moved b = true \/ (f_dirty f = true /\ far p b (f_x f) (f_y f) = true) \/ reach p a t l fs 0 i) /\
  (has_moved b = true \/ (f_dirty f = true /\ far p b (f_x f) (f_y f) = true) -> has_moved b' = true) /\
  (forall k g, nth_error fs k = Some g -> k <> i -> bs (nth k l tb0) = B_BOTTOM -> f_state g = Tp_Model.UPDATE -> f_dirty g = true -> in_bottom a (f_y g) = false -> close (it (nth k l tb0)) (it b) -> has_moved b' = true).
Proof.
  intros p a q r t l fs i f LE N ST. cbn zeta. destruct (nth_error_split_at _ _ _ _ N) as (f1 & f2 & -> & L1). rewrite app_length in LE. cbn [length] in LE. rewrite touches_app. cbn [touches_frame].
  replace (0 + length f1)%nat with i by lia. set (l1 := touches_frame p a q r t l 0 f1). set (l2 := touch_frame p a q r t l1 i f).
  assert (LL1 : length l1 = length l) by apply touches_length. assert (LL2 : length l2 = length l) by (unfold l2; rewrite touch_length; exact LL1).
  assert (W1 : (0 + length f1 <= length l)%nat) by lia. assert (W2 : ((i < 0) \/ (0 + length f1 <= i))%nat) by lia. assert (W3 : (S i + length f2 <= length l2)%nat) by lia. assert (W4 : ((i < S i) \/ (S i + length f2 <= i))%nat) by lia.
  destruct (touches_outside p a q r t i f1 l 0 W1 W2) as (A1 & A2 & A3). fold l1 in A1, A2, A3.
  destruct (touches_outside p a q r t i f2 l2 (S i) W3 W4) as (B1 & B2 & B3).
  intros HB HB'. assert (X1 : bs (nth i l1 tb0) = B_BOTTOM) by (destruct A1 as (-> & _); exact HB). assert (X2 : bs (nth i l2 tb0) = B_BOTTOM) by (destruct B1 as (<- & _); exact HB').
  destruct (own_frame p a q r t l1 i f ltac:(lia) ST X1 X2) as (O1 & O2 & _). fold l2 in O1, O2.
  assert (FF : far p (nth i l1 tb0) (f_x f) (f_y f) = far p (nth i l tb0) (f_x f) (f_y f)) by (destruct A1 as (_ & _ & _ & Y1 & Y2 & _); unfold far; rewrite Y1, Y2; reflexivity). rewrite FF in O2.
  assert (IT : it (nth i l2 tb0) = it (nth i l tb0)) by (rewrite O1; apply A1).
  assert (LATER : forall k, (i < k)%nat -> but_moved (nth k l tb0) (nth k l2 tb0)).
  { intros k K. eapply but_moved_trans; [apply (touches_outside p a q r t k f1 l 0); lia|]. fold l1. destruct (Nat.lt_ge_cases i (length l1)) as [Y|Y]; [apply touch_other; lia|lia]. }
  split; [|split].
  - intros H. apply B2 in H. destruct H as [H|(_ & k & g & G1 & G2 & G3 & G4)].
    + apply O2 in H. destruct H as [H|H]; [|right; left; exact H]. apply A2 in H. destruct H as [H|(_ & k & g & G1 & G2 & G3 & G4)]; [left; exact H|right; right]. exists k, g. split; [rewrite nth_error_app1; [exact G1|apply nth_error_Some; congruence]|auto].
    + right. right. exists (i + S k)%nat, g. assert (KK : (S i + k = 0 + (i + S k))%nat) by lia. rewrite KK in *. assert (W : (i < 0 + (i + S k))%nat) by lia. pose proof (LATER _ W) as LT. split; [rewrite nth_error_app2 by lia; replace (i + S k - length f1)%nat with (S k) by lia; exact G1|]. split; [exact G2|].
      split; [eapply trigger_same; [exact LT|exact G3]|]. rewrite IT in G4. destruct LT as (_ & _ & _ & _ & _ & C6 & _). rewrite <- C6. exact G4.
  - intros H. apply B1. apply O2. destruct H as [H|H]; [left; apply A1; exact H|right; exact H].
  - intros k g G NE BK U D NB CL. destruct (Nat.lt_ge_cases k i) as [K|K].
    + apply B1, O2. left. apply (A3 k g); auto. rewrite nth_error_app1 in G by lia. exact G.
    + assert (K' : (i < k)%nat) by lia. pose proof (LATER _ K') as (C1 & _ & _ & _ & _ & C6 & _). rewrite nth_error_app2 in G by lia. replace (k - length f1)%nat with (S (k - S i)) in G by lia. cbn in G. replace k with (S i + (k - S i))%nat in * by lia.
      apply (B3 (k - S i)%nat g); auto; [replace (S i + (k - S i) - S i)%nat with (k - S i)%nat in G by lia; exact G|rewrite C1; exact BK|rewrite C6, IT; exact CL].
Qed.
