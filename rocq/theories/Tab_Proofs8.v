(** * Tablet tools: the axis values of whole histories, and that they are the kernel's last *)
Require Import Coq.ZArith.ZArith Coq.QArith.QArith Coq.QArith.Qround Coq.QArith.Qminmax Coq.Lists.List Coq.Bool.Bool Coq.micromega.Lia Coq.micromega.Lqa.
From Verif Require Import Tab_Model Tab_Spec2 Tab_Proofs Tab_Proofs7.
Import ListNotations.
Open Scope Z_scope.
Ltac fr H := eapply G_frame; [| | | | | | exact H]; reflexivity.

(** ** Tools *)
Lemma copy_caps_has : forall d l a, a <> ROTATION_Z -> copy_caps d l (fun _ => false) a = true -> has_abs d a = true.
Proof. intros d l a N H. unfold copy_caps in H. rewrite orb_false_l in H. apply andb_prop in H. destruct H as [_ H]. destruct a; try exact H. congruence. Qed.
Lemma tool_caps_has : forall d ty id a, a <> ROTATION_Z -> tool_caps d ty id a = true -> has_abs d a = true.
Proof.
  intros d ty id a N H. unfold tool_caps in H. destruct (styli d id) as [w|]; [|exact (copy_caps_has _ _ _ N H)]. unfold wacom_caps in H. cbv zeta in H.
  destruct (w_tilt w && w_puck w); [|exact (copy_caps_has _ _ _ N H)]. unfold aupd in H. destruct (axis_eqb a ROTATION_Z) eqn:E; [destruct a; try discriminate E; congruence|]. exact (copy_caps_has _ _ _ N H).
Qed.
Lemma new_tool_suits : forall d n ty id sr, sane d -> suits d (new_tool d n ty id sr).
Proof.
  intros d n ty id sr (R & P0 & Q & _). split; [intros a N H; exact (tool_caps_has _ _ _ _ N H)|]. intros P. destruct (R _ P) as [L _]. specialize (P0 P). unfold new_tool, thresholds. rewrite P. cbn [p_upper p_offset]. split; [|exact L].
  pose proof (range_percent_below d PRESSURE 5 P0 L ltac:(lia) ltac:(lia)) as B. destruct (quirk_range d) as [[lo hi]|] eqn:EQ; [|exact B]. destruct (hi <=? lo); [exact B | exact (Q _ _ eq_refl)].
Qed.
Lemma find_suits : forall d f l o, Forall (suits d) l -> find f l = Some o -> suits d o.
Proof. intros d f l o F H. apply find_some in H. rewrite Forall_forall in F. exact (F o (proj1 H)). Qed.
Lemma G_get_tool : forall d s ty id sr, sane d -> G d s -> G d (fst (get_tool d s ty id sr)) /\ suits d (snd (get_tool d s ty id sr)).
Proof.
  intros d s ty id sr SA H. unfold get_tool. cbv zeta. destruct (if sr =? 0 then None else find _ (globals s)) as [o|] eqn:E1.
  - cbn [fst snd]. split; [exact H|]. destruct (sr =? 0); [discriminate E1 | exact (find_suits _ _ _ _ (g_globals _ _ H) E1)].
  - destruct (find _ (locals s)) as [o|] eqn:E2; cbn [fst snd]; [split; [exact H | exact (find_suits _ _ _ _ (g_locals _ _ H) E2)]|].
    pose proof (new_tool_suits d (next_tid s) ty id sr SA) as N. split; [|exact N]. assert (H1 : G d (set_next_tid s (S (next_tid s)))) by fr H.
    destruct (sr =? 0); [apply G_locals | apply G_globals]; try exact H1; constructor; try exact N; [exact (g_locals _ _ H) | exact (g_globals _ _ H)].
Qed.
Lemma G_put_tool : forall d s o, suits d o -> G d s -> G d (put_tool s o).
Proof.
  intros d s o SU H. unfold put_tool. cbv zeta. assert (M : forall l, Forall (suits d) l -> Forall (suits d) (map (fun x => if Nat.eqb (tid x) (tid o) then o else x) l)).
  { intros l F. rewrite Forall_forall in *. intros x IN. apply in_map_iff in IN. destruct IN as (y & <- & IN). destruct (Nat.eqb (tid y) (tid o)); [exact SU | exact (F y IN)]. }
  apply G_globals; [apply M; exact (g_globals _ _ H)|]. apply G_locals; [apply M; exact (g_locals _ _ H) | exact H].
Qed.
Lemma detect_offset_suits : forall d s o, sane d -> suits d o -> suits d (detect_offset d s o).
Proof.
  intros d s o SA [C P]. unfold detect_offset. cbv zeta. destruct (negb (changed s PRESSURE)); [split; assumption|]. destruct (negb (has_abs d PRESSURE && has_abs d DISTANCE)); [split; assumption|].
  destruct (p_has o); [destruct (absv s PRESSURE <? p_offset o) eqn:E; [|split; assumption]|].
  - apply Z.ltb_lt in E. split; [exact C|]. intros HP. destruct (P HP) as [A B]. cbn [set_p_offset p_upper p_offset]. split; lia.
  - destruct (absv s PRESSURE <=? amin d PRESSURE); [split; assumption|]. destruct (negb (entering s)); [split; assumption|]. destruct (absv s DISTANCE <? range_percent d DISTANCE 50); [split; assumption|].
    destruct (range_percent d PRESSURE 20 <? absv s PRESSURE) eqn:E; [split; assumption|]. apply Z.ltb_ge in E. split; [exact C|]. intros HP. destruct (P HP) as [A B]. cbn [set_p_lower set_p_has set_p_offset p_upper p_offset].
    split; [exact A|]. destruct SA as (R & P0 & _). destruct (R _ HP) as [L _]. specialize (P0 HP). pose proof (range_percent_below d PRESSURE 20 P0 L ltac:(lia) ltac:(lia)). lia.
Qed.
Lemma G_caps : forall d s o, suits d o -> G d s -> G d (set_changed s (caps o)).
Proof. intros d s o [C _]. apply G_changed. intros a R H. right. apply C; [|exact H]. intros ->. discriminate R. Qed.
Lemma G_sanitize_pd : forall d s o, G d s -> G d (sanitize_pressure_distance d s o).
Proof.
  intros d s o H. unfold sanitize_pressure_distance. cbv zeta. destruct (negb (has_abs d PRESSURE && has_abs d DISTANCE)); [exact H|]. destruct (negb (changed s DISTANCE) && negb (changed s PRESSURE)); [exact H|].
  assert (F : forall k, G d (set_changed s (aupd (changed s) k false))). { intros k. apply G_changed; [|exact H]. intros a R. unfold aupd. destruct (axis_eqb a k); [intros X; discriminate X | intros X; left; exact X]. }
  destruct ((amin d DISTANCE <? absv s DISTANCE) && (amin d PRESSURE <? absv s PRESSURE)).
  - destruct (p_offset o <? absv s PRESSURE); (apply G_ax; [|apply F]); [apply set_distance_ranges | apply set_pressure_ranges]; try exact (g_ax _ _ H); split; lra.
  - destruct (changed s PRESSURE && negb (p_offset o <? absv s PRESSURE)); [|exact H]. destruct (Qeq_bool (pressure (ax s)) 0); [apply F|]. apply G_ax; [|exact H]. apply set_pressure_ranges; [split; lra | exact (g_ax _ _ H)].
Qed.
Lemma G_sanitize_mr : forall d s, G d s -> G d (sanitize_mouse_rotation s).
Proof.
  intros d s H. unfold sanitize_mouse_rotation. destruct (is_mouse (ctype s) && (changed s TILT_X || changed s TILT_Y)); [|exact H]. apply G_changed; [|exact H].
  intros a R. unfold aupd. destruct a; cbn in R |- *; intros X; first [discriminate R | left; exact X].
Qed.
Lemma G_detect_contact : forall d s o, G d s -> G d (detect_contact d s o).
Proof.
  intros d s o H. unfold detect_contact. cbv zeta. destruct (negb (caps o PRESSURE)); [exact H|]. destruct (negb (has_abs d PRESSURE)); [exact H|].
  match goal with |- G d (if ?a then _ else if ?b then _ else _) => destruct a; [|destruct b] end; try exact H; fr H.
Qed.
Lemma G_prox_state : forall d s o, suits d o -> G d s -> G d (update_proximity_state d s o).
Proof.
  intros d s o SU H. unfold update_proximity_state. cbv zeta. destruct (negb (has_abs d DISTANCE)); [exact H|]. destruct (absv s DISTANCE =? 0); [exact H|].
  destruct ((absv s DISTANCE <? dist_max d) && (oor s || outp s)).
  - eapply (G_frame d (set_changed s (caps o))); try reflexivity. apply G_caps; assumption.
  - destruct (absv s DISTANCE <? dist_max d); [exact H|]. destruct (oor s || outp s); [exact H|]. destruct (entering s); fr H.
Qed.
Lemma G_update_tool : forall d s ty b, G d s -> G d (update_tool s ty b).
Proof. intros d s ty b H. unfold update_tool. destruct b; [fr H|]. destruct (negb (outp s)); [fr H | exact H]. Qed.
Lemma G_prox_timer : forall d s t, G d s -> G d (set_prox_timer s t).
Proof. intros d s t H. unfold set_prox_timer. destruct (need_force s); [fr H | exact H]. Qed.
(** What tablet_update_tool_state leaves alone *)
Definition six (s : tab) := (ax s, samples s, absv s, locals s, globals s, changed s).
Lemma G_six : forall d s s', six s' = six s -> G d s -> G d s'.
Proof. intros d s s' E. unfold six in E. injection E as A B C D F K. apply G_frame; assumption. Qed.
Lemma six_prox_timer : forall s t, six (set_prox_timer s t) = six s.
Proof. intros s t. unfold set_prox_timer. destruct (need_force s); reflexivity. Qed.
Lemma six_update_tool : forall s ty b, six (update_tool s ty b) = six s.
Proof. intros s ty b. unfold update_tool. destruct b; [reflexivity|]. destruct (negb (outp s)); reflexivity. Qed.
Lemma six_uts : forall s t, six (fst (update_tool_state s t)) = six s.
Proof.
  intros s t. unfold update_tool_state.
  set (s1 := if forced s && tool_upd s && (tstate s =? 0) then _ else s). assert (E1 : six s1 = six s) by (unfold s1; destruct (forced s && tool_upd s && (tstate s =? 0)); reflexivity).
  cbv zeta. set (s2 := if axes_upd s1 then _ else s1).
  assert (E2 : six s2 = six s).
  { rewrite <- E1. unfold s2. destruct (axes_upd s1); [|reflexivity]. destruct (forced s1); [destruct (negb (tool_upd s1) && (tstate s1 =? 0)); reflexivity|]. destruct ((tstate s1 =? 0) && (ctype s1 =? 0)); reflexivity. }
  clearbody s2. clear s1 E1. destruct (tstate s2 =? ptstate s2); [exact E2|].
  set (two := negb (Z.land (tstate s2) (tstate s2 - 1) =? 0)). set (new := if two then Z.lxor (tstate s2) (ptstate s2) else 0). set (s3 := if two then set_tstate s2 0 else s2).
  assert (E3 : six s3 = six s) by (unfold s3; destruct two; exact E2). clearbody s3. clear E2. set (ty := ffs (Z.lxor (tstate s3) (ptstate s3)) - 1).
  set (s4 := if ty <? 0 then set_crash s3 true else s3). assert (E4 : six s4 = six s) by (unfold s4; destruct (ty <? 0); exact E3). clearbody s4. clear E3.
  set (state := negb (Z.land (tstate s4) (bit ty) =? 0)). set (s5 := update_tool s4 ty state). assert (E5 : six s5 = six s) by (unfold s5; rewrite six_update_tool; exact E4). clearbody s5. clear E4.
  set (s6 := if ty =? PEN then _ else s5).
  assert (E6 : six s6 = six s). { unfold s6. destruct (ty =? PEN); [|exact E5]. destruct state; [rewrite six_prox_timer; exact E5|]. destruct (negb (in_progress s5)); exact E5. }
  clearbody s6. destruct (negb (new =? 0)); exact E6.
Qed.

(** ** News *)
Definition fresh (d : device) (v : axis -> Z) (e : tev) : Prop :=
  forall a, axes_of e = Some a ->
  (news e SLIDER = true -> slider a = norm_slider d (v SLIDER)) /\ (news e DISTANCE = true -> distance a = norm_distance d (v DISTANCE)) /\
  (news e PRESSURE = true -> exists o, (match e with EProx _ x _ _ _ | ETip _ x _ _ _ | EAxis _ x _ _ _ => Some x | _ => None end) = Some o /\ pressure a = norm_pressure d o (v PRESSURE)).
Definition up_to_date (d : device) (o : tool) (s : tab) (a : axes) : Prop :=
  (changed s SLIDER = true -> slider a = norm_slider d (absv s SLIDER)) /\ (changed s DISTANCE = true -> distance a = norm_distance d (absv s DISTANCE)) /\
  (changed s PRESSURE = true -> pressure a = norm_pressure d o (absv s PRESSURE)).
Lemma utd_changed : forall d o s a, changed s SLIDER = false -> changed s DISTANCE = false -> changed s PRESSURE = false -> up_to_date d o s a.
Proof. intros d o s a A B C. unfold up_to_date. rewrite A, B, C. split; [discriminate | split; discriminate]. Qed.
Lemma chain_utd : forall d s o, let s' := update_rotation d (update_wheel d (update_tilt d (update_slider d (update_distance d (update_pressure d (update_xy d s) o))))) in
  up_to_date d o s' (ax s') /\ absv s' = absv s.
Proof.
  intros d s o. cbv zeta.
  set (s1 := update_xy d s). assert (A1 : absv s1 = absv s /\ changed s1 = changed s) by (unfold s1, update_xy; cbv zeta; destruct (changed s X || changed s Y); split; reflexivity). destruct A1 as [A1 C1]. clearbody s1.
  set (s2 := update_pressure d s1 o).
  assert (A2 : absv s2 = absv s /\ changed s2 = changed s /\ (changed s PRESSURE = true -> pressure (ax s2) = norm_pressure d o (absv s PRESSURE))).
  { unfold s2, update_pressure. destruct (changed s1 PRESSURE) eqn:E; [|rewrite <- C1; refine (conj A1 (conj eq_refl _)); rewrite E; discriminate]. cbv zeta. destruct (need_ax d s1 PRESSURE) as (X & Y & _ & Z).
    cbn [absv changed ax set_ax set_pressure pressure]. rewrite Y, Z, A1, C1. refine (conj eq_refl (conj eq_refl _)). intros _. reflexivity. }
  clearbody s2. destruct A2 as (A2 & C2 & P2).
  set (s3 := update_distance d s2).
  assert (A3 : absv s3 = absv s /\ changed s3 = changed s /\ (changed s PRESSURE = true -> pressure (ax s3) = norm_pressure d o (absv s PRESSURE)) /\ (changed s DISTANCE = true -> distance (ax s3) = norm_distance d (absv s DISTANCE))).
  { unfold s3, update_distance. destruct (changed s2 DISTANCE) eqn:E; [|refine (conj A2 (conj C2 (conj P2 _))); rewrite <- C2, E; discriminate]. cbv zeta. destruct (need_ax d s2 DISTANCE) as (X & Y & _ & Z).
    cbn [absv changed ax set_ax set_distance pressure distance]. rewrite X, Y, Z, A2, C2. refine (conj eq_refl (conj eq_refl (conj P2 _))). intros _. reflexivity. }
  clearbody s3. destruct A3 as (A3 & C3 & P3 & D3).
  set (s4 := update_slider d s3).
  assert (A4 : absv s4 = absv s /\ changed s4 = changed s /\ up_to_date d o s4 (ax s4)).
  { unfold s4, update_slider. destruct (changed s3 SLIDER) eqn:E.
    - cbv zeta. destruct (need_ax d s3 SLIDER) as (X & Y & _ & Z). unfold up_to_date. cbn [absv changed ax set_ax set_slider pressure distance slider]. rewrite X, Y, Z, A3, C3.
      refine (conj eq_refl (conj eq_refl (conj _ (conj D3 P3)))). intros _. reflexivity.
    - unfold up_to_date. rewrite A3, C3. refine (conj eq_refl (conj eq_refl (conj _ (conj D3 P3)))). rewrite <- C3, E. discriminate. }
  clearbody s4. destruct A4 as (A4 & _ & U4).
  set (s5 := update_tilt d s4).
  assert (A5 : absv s5 = absv s /\ up_to_date d o s5 (ax s5)).
  { unfold s5, update_tilt. destruct (changed s4 TILT_X || changed s4 TILT_Y); [|split; assumption]. cbv zeta. destruct (need_ax d (need_abs d s4 TILT_X) TILT_Y) as (X & Y & _ & Z). destruct (need_ax d s4 TILT_X) as (X' & Y' & _ & Z').
    unfold up_to_date in *. cbn [absv changed ax set_ax set_tilt pressure distance slider]. rewrite X, Y, Z, X', Y', Z'. split; assumption. }
  clearbody s5. destruct A5 as (A5 & U5).
  set (s6 := update_wheel d s5). assert (A6 : absv s6 = absv s /\ up_to_date d o s6 (ax s6)) by (unfold s6, update_wheel; destruct (changed s5 REL_WHEEL); split; assumption).
  clearbody s6. destruct A6 as (A6 & U6). unfold update_rotation. destruct (is_mouse (ctype s6)).
  - cbv zeta. destruct (changed s6 TILT_X || changed s6 TILT_Y); split; assumption.
  - cbv zeta. destruct (changed s6 ROTATION_Z).
    + destruct (need_ax d s6 ROTATION_Z) as (X & Y & L & Z).
      match goal with |- context [set_ax (need_abs d s6 ROTATION_Z) ?x] => set (s7 := set_ax (need_abs d s6 ROTATION_Z) x) end.
      assert (A7 : absv s7 = absv s /\ up_to_date d o s7 (ax s7)). { unfold s7, up_to_date in *. cbn [absv changed ax set_ax set_rotation pressure distance slider]. rewrite X, Y, Z. split; assumption. }
      clearbody s7. destruct A7 as [A7 U7]. destruct (lh s7); split; assumption.
    + destruct (lh s6); split; assumption.
Qed.
Lemma history_keeps : forall d n s a, ax (history_push d n s a) = ax s /\ absv (history_push d n s a) = absv s /\ changed (history_push d n s a) = changed s.
Proof.
  intros d n. induction n as [|n IH]; intros s a; cbn [history_push]; cbv zeta.
  - match goal with |- context [if ?b then set_hang _ _ else _] => destruct b end; repeat split; reflexivity.
  - match goal with |- context [if ?b then history_push _ _ _ _ else _] => destruct b end; [|repeat split; reflexivity].
    match goal with |- context [history_push d n ?x a] => destruct (IH x a) as (A & B & C) end. rewrite A, B, C. repeat split; reflexivity.
Qed.
Lemma check_fresh : forall d s o t s' a rc, check_notify_axes d s o t = (s', a, rc) -> up_to_date d o s' a /\ absv s' = absv s.
Proof.
  intros d s o t s' a rc E. unfold check_notify_axes in E. cbv zeta in E.
  set (s1 := if existsb (changed s) all_axes then _ else s) in E.
  assert (U1 : up_to_date d o s1 (ax s1) /\ absv s1 = absv s).
  { unfold s1. destruct (existsb (changed s) all_axes) eqn:EX; [apply chain_utd|]. split; [|reflexivity].
    assert (N : forall x, In x all_axes -> changed s x = false). { intros x IN. destruct (changed s x) eqn:EC; [|reflexivity]. assert (existsb (changed s) all_axes = true) by (apply existsb_exists; exists x; split; assumption). congruence. }
    apply utd_changed; apply N; cbn; tauto. }
  clearbody s1. destruct U1 as [U1 A1]. set (s2 := if econt s1 || lcont s1 then _ else s1) in E.
  assert (U2 : up_to_date d o s2 (ax s2) /\ absv s2 = absv s) by (unfold s2; destruct (econt s1 || lcont s1); split; assumption). clearbody s2. destruct U2 as [U2 A2].
  destruct (history_keeps d (hsize d) s2 (ax s2)) as (HA & HB & HC). set (s3 := history_push d (hsize d) s2 (ax s2)) in *. clearbody s3.
  unfold smoothen in E. cbv zeta in E. unfold process_delta in E. cbv zeta in E. set (s4 := if Nat.leb (hsize d) (hcount s3) then s3 else set_crash s3 true) in E.
  assert (X4 : ax s4 = ax s3 /\ absv s4 = absv s3 /\ changed s4 = changed s3) by (unfold s4; destruct (Nat.leb (hsize d) (hcount s3)); repeat split; reflexivity). clearbody s4. destruct X4 as (A4 & B4 & C4).
  injection E as <- <- _. split; [|cbn [absv set_smooth_pt set_changed]; congruence].
  unfold up_to_date in *. cbn [absv set_smooth_pt set_changed changed set_delta slider distance pressure set_tilt set_pt]. rewrite HA, B4, C4, HB, HC.
  match goal with |- context [aupd (if ?b then _ else _) Y true] => destruct b end; match goal with |- context [if ?b then aupd _ Y true else _] => destruct b end; exact U2.
Qed.
Lemma fresh_one : forall d o s a e, axes_of e = Some a -> (match e with EProx _ x _ _ _ | ETip _ x _ _ _ | EAxis _ x _ _ _ => Some x | _ => None end) = Some o -> news e = changed s -> up_to_date d o s a -> Forall (fresh d (absv s)) [e].
Proof.
  intros d o s a e A O N (U1 & U2 & U3). constructor; [|constructor]. intros a' A'. assert (a' = a) by congruence. subst a'. rewrite N. refine (conj U1 (conj U2 _)). intros P. exists o. split; [exact O | exact (U3 P)].
Qed.
Lemma fresh_silent : forall d v l, (forall e, In e l -> news e = fun _ => false) -> Forall (fresh d v) l.
Proof. intros d v l H. apply Forall_forall. intros e IN a _. rewrite (H e IN). split; [discriminate | split; discriminate]. Qed.
Lemma notify_silent : forall s o t p e, In e (notify_buttons s o t p) -> news e = fun _ => false.
Proof. intros s o t p e IN. unfold notify_buttons in IN. apply in_map_iff in IN. destruct IN as (c & <- & _). reflexivity. Qed.
Lemma change_left_silent : forall s e, In e (snd (change_to_left_handed s)) -> (news e = fun _ => false) /\ is_leave e = false.
Proof.
  intros s e IN. unfold change_to_left_handed in IN. destruct (Bool.eqb (lh s) (lh_want s)); [destruct IN|]. unfold change_rotation in IN. cbv zeta in IN. cbn [snd] in IN.
  destruct (touch_dev _); [|destruct IN]. destruct IN as [<- | []]. split; reflexivity.
Qed.
Lemma send_fresh : forall d s o t s' out, send_events d s o t = (s', out) -> absv s' = absv s /\ ((forall e, In e out -> is_leave e = false) -> Forall (fresh d (absv s)) out).
Proof.
  intros d s o t s' out E. unfold send_events in E.
  match type of E with (match ?x with _ => _ end) = _ => assert (X0 : absv (fst (fst x)) = absv s /\ leaving (fst (fst x)) = leaving s /\ (leaving s = false -> up_to_date d o (fst (fst x)) (snd (fst x))) /\ (forall e, In e (snd x) -> news e = fun _ => false)) end.
  { destruct (leaving s) eqn:EL; [cbn [fst snd]; refine (conj eq_refl (conj EL (conj _ _))); [discriminate | intros e []]|]. destruct (check_notify_axes d s o t) as [[s1 a1] rc] eqn:EC.
    destruct (check_fresh _ _ _ _ _ _ _ EC) as [U A]. cbn [fst snd]. assert (L1 : leaving s1 = leaving s).
    { pose proof (Tab_Proofs.check_notify_same _ _ _ _ _ _ _ EC) as SM. unfold Tab_Proofs.same in SM. decompose [and] SM. assumption. }
    rewrite L1. refine (conj A (conj EL (conj (fun _ => U) _))). intros e IN. destruct rc; [|destruct IN]. unfold update_rect in IN. destruct (touch_dev s1); [|destruct IN]. destruct (arb s1); try destruct IN as [<- | []]; try destruct IN. reflexivity. }
  match type of E with (match ?x with _ => _ end) = _ => destruct x as [[s0 a0] o0] end. cbn [fst snd] in X0. destruct X0 as (V0 & L0 & U0 & N0).
  unfold send_prox_in in E.
  match type of E with (match ?x with _ => _ end) = _ => assert (X1 : absv (fst (fst x)) = absv s /\ leaving (fst (fst x)) = leaving s /\ (leaving s = false -> up_to_date d o (fst (fst x)) (snd (fst x))) /\ (leaving s = false -> Forall (fresh d (absv s)) (snd x))) end.
  { destruct (negb (entering s0)); cbn [fst snd]; [refine (conj V0 (conj L0 (conj U0 (fun _ => Forall_nil _))))|]. refine (conj V0 (conj L0 (conj _ _))); [intros _; apply utd_changed; reflexivity|].
    intros L. rewrite <- V0. apply (fresh_one d o s0 a0); try reflexivity. exact (U0 L). }
  match type of E with (match ?x with _ => _ end) = _ => destruct x as [[s1 a1] o1] end. cbn [fst snd] in X1. destruct X1 as (V1 & L1 & U1 & F1). clear U0 L0 V0.
  unfold send_tip in E.
  match type of E with (match ?x with _ => _ end) = _ => assert (X2 : absv (fst (fst (fst x))) = absv s /\ leaving (fst (fst (fst x))) = leaving s /\ (leaving s = false -> up_to_date d o (fst (fst (fst x))) (snd (fst (fst x)))) /\ (leaving s = false -> Forall (fresh d (absv s)) (snd (fst x)))) end.
  { destruct (econt s1); [|destruct (lcont s1)]; cbn [fst snd].
    - refine (conj V1 (conj L1 (conj _ _))); [intros _; apply utd_changed; reflexivity|]. intros L. rewrite <- V1. apply (fresh_one d o s1 a1); try reflexivity. exact (U1 L).
    - refine (conj V1 (conj L1 (conj _ _))); [intros _; apply utd_changed; reflexivity|]. intros L. rewrite <- V1. apply (fresh_one d o s1 a1); try reflexivity. exact (U1 L).
    - refine (conj V1 (conj L1 (conj U1 (fun _ => Forall_nil _)))). }
  match type of E with (match ?x with _ => _ end) = _ => destruct x as [[[s2 a2] o2] b] end. cbn [fst snd] in X2. destruct X2 as (V2 & L2 & U2 & F2). clear U1 L1 V1.
  unfold send_axes in E.
  match type of E with (match ?x with _ => _ end) = _ => assert (X3 : absv (fst (fst x)) = absv s /\ leaving (fst (fst x)) = leaving s /\ (leaving s = false -> Forall (fresh d (absv s)) (snd x))) end.
  { destruct b; cbn [fst snd]; [refine (conj V2 (conj L2 (fun _ => Forall_nil _)))|]. destruct (negb (axes_upd s2)); cbn [fst snd]; [refine (conj V2 (conj L2 (fun _ => Forall_nil _)))|].
    refine (conj V2 (conj L2 _)). intros L. rewrite <- V2. apply (fresh_one d o s2 a2); try reflexivity. exact (U2 L). }
  match type of E with (match ?x with _ => _ end) = _ => destruct x as [[s3 a3] o3] end. cbn [fst snd] in X3. destruct X3 as (V3 & L3 & F3). clear U2 L2 V2. cbv zeta in E.
  set (s3' := set_changed (set_econt s3 false) no_axes) in E. assert (V3' : absv s3' = absv s) by exact V3. assert (L3' : leaving s3' = leaving s) by exact L3. clearbody s3'. clear V3 L3.
  unfold send_buttons in E. cbv zeta in E. set (o4 := ((if released_upd s3' then _ else []) ++ _)%list) in E. set (s4 := set_pressed_upd (set_released_upd s3' false) false) in E.
  assert (N4 : forall e, In e o4 -> news e = fun _ => false). { intros e IN. unfold o4 in IN. apply in_app_or in IN. destruct IN as [IN | IN]; [destruct (released_upd s3') | destruct (pressed_upd _)]; try destruct IN; exact (notify_silent _ _ _ _ _ IN). }
  assert (V4 : absv s4 = absv s) by exact V3'. assert (L4 : leaving s4 = leaving s) by exact L3'. clearbody s4 o4. clear V3' L3'.
  unfold send_prox_out in E. rewrite L4 in E. destruct (leaving s) eqn:EL; cbn [negb] in E.
  - set (s5 := set_changed (set_leaving (set_outp s4 true) false) no_axes) in E. assert (V5 : absv s5 = absv s) by exact V4. clearbody s5.
    pose proof (change_left_silent s5) as N6. assert (V6 : absv (fst (change_to_left_handed s5)) = absv s5).
    { unfold change_to_left_handed, change_rotation, apply_rotation. cbv zeta. destruct (Bool.eqb (lh s5) (lh_want s5)); [reflexivity|]. cbn [fst]. match goal with |- context [if Bool.eqb ?a ?b then _ else _] => destruct (Bool.eqb a b) end; [reflexivity|].
      match goal with |- context [if negb ?a then _ else _] => destruct (negb a) end; reflexivity. }
    destruct (change_to_left_handed s5) as [s6 o6]. cbn [fst snd] in *. injection E as <- <-. split.
    + cbn [absv set_hcount]. unfold apply_rotation. destruct (Bool.eqb (rotate s6) (want_rotate s6)); [congruence|]. destruct (negb (outp s6)); cbn [absv set_rotate]; congruence.
    + intros H. exfalso. specialize (H (EProx t o false (changed s4) a3)). cbn in H. assert (X : true = false) by (apply H; rewrite !in_app_iff; cbn; tauto). discriminate X.
  - injection E as <- <-. split; [exact V4|]. intros _. repeat (apply Forall_app; split); try (apply fresh_silent; assumption); auto.
Qed.
