(** * Touchpad buttons: the properties *)
Require Import Coq.ZArith.ZArith Coq.Lists.List Coq.Bool.Bool Coq.micromega.Lia.
Require Verif.Tp_Model.
Require Import Verif.Tap_Model Verif.Tpb_Model Verif.Tpb_Spec Verif.Tpb_Proofs Verif.Tpb_Proofs2.
Import ListNotations.
Open Scope Z_scope.

(** C31.  Whatever clicks, fingers, timers, taps, settings, suspends and trackpoints do, on a clickpad no assertion fails, the client sees presses and releases of each button
    in turn, and so does every trackpoint that is handed the top buttons.  (Not while a click is held as the device is removed or libinput suspended with a trackpoint
    paired, nor when trackpoints come or go while the touchpad is suspended: see the refuted statements below.) *)
Theorem C31_presses_alternate : forall p n m l, clicky p -> (kind p = OneButton -> one_button l) -> taps_ok l -> trackpoints_ok false l -> never_removed l ->
  let s := brun p (binit p n m) l in
  ok s = true /\ forall b, alternate false (seen b (out s)) /\ Forall (alternate false) (handed b (out s) []).
Proof.
  intros p n m l C O TA TR NR s. assert (SU : susp (binit p n m) = false) by (destruct m; reflexivity).
  destruct (run_good p l (binit p n m) (fun _ => false) C (init_good p n m)) as (th & ((((A1 & A2 & A3 & A4) & B) & _) & _) & E); [apply inputs_ok_intro; auto; rewrite SU; exact TR|].
  split; [exact A1|]. intros b. split; [apply A3|apply B].
Qed.
Print Assumptions C31_presses_alternate.

(** C31.  After a frame with the physical button up, only what tapping holds is held. *)
Theorem C31_released_with_the_click : forall p n m l f t, clicky p -> (kind p = OneButton -> one_button l) -> taps_ok l -> trackpoints_ok false l -> never_removed l ->
  let s := brun p (binit p n m) (l ++ [BFrame f t]) in
  pl (hw p false no_bits l) = false -> forall b, client_holds b (out s) = tap_holds b l /\ down_after false (last (handed b (out s) []) []) = false.
Proof.
  intros p n m l f t C O TA TR NR s H b. assert (SU : susp (binit p n m) = false) by (destruct m; reflexivity). assert (PH : phys (binit p n m) = no_bits) by (destruct m; reflexivity).
  assert (X : inputs_ok p (binit p n m) (fun _ => false) (l ++ [BFrame f t])).
  { apply inputs_ok_intro.
    - intros K. specialize (O K). clear - O. induction l as [|i l IH]; [exact I|]. destruct i; cbn in *; try (apply IH; exact O). split; [apply O|apply IH; apply O].
    - exact C.
    - intros x. rewrite tapped_app. cbn [tapped]. rewrite app_nil_r. apply TA.
    - rewrite SU. clear - TR. revert TR. generalize false as q. induction l as [|i l IH]; intros q T; [exact I|]. destruct i; cbn in *; try (apply IH; exact T); (split; [apply T|apply IH; apply T]).
    - clear - NR. induction l as [|i l IH]; [exact I|]. destruct i; cbn in *; try (apply IH; exact NR). exact NR. }
  destruct (run_good p (l ++ [BFrame f t]) (binit p n m) (fun _ => false) C (init_good p n m) X) as (th & ((((A1 & A2 & A3 & A4) & B) & _ & _ & I1 & _) & CL) & E). fold s in A1, A2, A3, A4, B, I1, CL.
  assert (N : active s = None).
  { unfold s in *. rewrite brun_app in *. set (s0 := brun p (binit p n m) l) in *. cbn [brun fold_left bstep] in *. destruct (closed p s0) eqn:Q; [apply CL; first [exact Q|rewrite Q; exact Q]|].
    apply I1. pose proof (frame_same p s0 f t) as F. cbn zeta in F. destruct F as (_ & -> & _). unfold s0. rewrite run_phys, SU, PH. exact H. }
  split.
  - rewrite A4, E. unfold own, is_active. rewrite N. cbn [andb orb]. rewrite th_after_tapped, tapped_app. cbn [tapped]. rewrite app_nil_r. reflexivity.
  - destruct (B b) as [_ ->]. unfold tpown, is_active. rewrite N. reflexivity.
Qed.
Print Assumptions C31_released_with_the_click.

(** C31.  While a click is held, nothing more is sent, whatever fingers, timers and settings do; and when the physical button comes up, the button that was pressed is released. *)
Inductive meanwhile : binput -> Prop :=
| MFrame f t : meanwhile (BFrame f t) | MTimer i t : meanwhile (BTimer i t) | MMethod m : meanwhile (SetMethod m) | MMiddle b : meanwhile (SetMiddle b) | MLeft b : meanwhile (SetLeft b)
| MButton : meanwhile (Button LEFT true).
Lemma held_step : forall p s th b i, clicky p -> Inv s th -> susp s = false -> active s = Some b -> phys s = {| pl := true; pr := false; pm := false |} -> old s = phys s -> meanwhile i ->
  let s' := bstep p s i in
  out s' = out s /\ Inv s' th /\ susp s' = false /\ active s' = Some b /\ phys s' = {| pl := true; pr := false; pm := false |} /\ old s' = phys s' /\ active_top s' = active_top s /\ trackpoint s' = trackpoint s.
Proof.
  intros p s th b i C H SU AC P O M. cbn zeta. assert (CL : closed p s = false) by (unfold closed; rewrite SU; reflexivity). assert (NP : pending s = false) by (destruct H as (_ & _ & _ & _ & H); destruct (pending s); [rewrite (H eq_refl) in AC; discriminate|reflexivity]).
  assert (IV : Inv (bstep p s i) th).
  { replace th with (th_after th i) by (destruct M; reflexivity). apply step_inv; auto; [rewrite CL; discriminate|]. destruct M; cbn; auto. }
  assert (SP : susp (bstep p s i) = false) by (rewrite bstep_susp; destruct M; exact SU).
  assert (G : out (bstep p s i) = out s /\ active (bstep p s i) = Some b /\ phys (bstep p s i) = {| pl := true; pr := false; pm := false |} /\ old (bstep p s i) = phys (bstep p s i) /\ active_top (bstep p s i) = active_top s /\ trackpoint (bstep p s i) = trackpoint s).
  { destruct M; cbn [bstep]; rewrite ?CL.
    - unfold frame. set (s1 := with_tbs s _). assert (E : post_button_events p s1 f = (s1, false)).
      { rewrite (post_events_clicky p s1 f C). unfold post_clickpad. cbn [with_tbs s1 pending phys old]. rewrite NP, O, P. reflexivity. }
      rewrite E. cbn [fst]. pose proof (apply_middle_same p (with_old s1 (phys s1))) as A. cbn zeta in A. destruct A as (_ & A1 & A2 & _ & _ & A3 & A4 & A5 & _ & _ & _ & _ & A6 & A7 & A8 & A9 & A10).
      rewrite A1, A2, A3, A4, A6, A10. cbn. auto 8.
    - destruct (nth_error (tbs s) i) as [x|]; [|rewrite O; auto 8]. destruct (tmr x) as [e|]; [|rewrite O; auto 8]. destruct (e <=? t); cbn; rewrite ?O; auto 8.
    - destruct m; cbn; rewrite ?O; auto 8.
    - destruct (kind p); [|rewrite O; auto 8|rewrite O; auto 8]. pose proof (apply_middle_same p (with_mid s (mid s) b0)) as A. cbn zeta in A. destruct A as (_ & A1 & A2 & _ & _ & A3 & A4 & A5 & _ & _ & _ & _ & A6 & A7 & A8 & A9 & A10).
      rewrite A1, A2, A3, A4, A6, A10. cbn. rewrite O. auto 8.
    - destruct (kind p); [|rewrite O; auto 8|]; (pose proof (change_left_handed_same (with_lh s (lh s) b0)) as A; cbn zeta in A; destruct A as (_ & _ & A1 & A2 & _ & _ & A3 & A4 & A5 & _ & _ & _ & _ & A6 & A7 & A8 & A9 & A10);
        rewrite A1, A2, A3, A4, A6, A10; cbn; rewrite O; auto 8).
    - unfold process_button. destruct (kind p); cbn; rewrite P; cbn; rewrite O, P; auto 8. }
  tauto.
Qed.
Theorem C31_same_button_released : forall p n m l r f t b, clicky p -> (kind p = OneButton -> one_button l) -> taps_ok l -> trackpoints_ok false l -> never_removed l -> Forall meanwhile r ->
  let s := brun p (binit p n m) l in
  susp s = false -> (exists f0 t0 l0, l = l0 ++ [BFrame f0 t0]) -> (forall x, tap_holds x l = false) ->
  client_holds b (out s) = true ->
  out (brun p s r) = out s /\ out (brun p s (r ++ [Button LEFT false; BFrame f t])) = out s ++ [ToClient b false].
Proof.
  intros p n m l r f t b C O TA TR NR MW s SU LF TH CH. assert (SU0 : susp (binit p n m) = false) by (destruct m; reflexivity). assert (PH0 : phys (binit p n m) = no_bits) by (destruct m; reflexivity).
  destruct (run_good p l (binit p n m) (fun _ => false) C (init_good p n m)) as (th & (IV & CL) & E); [apply inputs_ok_intro; auto; rewrite SU0; exact TR|]. fold s in IV, CL.
  assert (TH' : forall x, th x = false) by (intros x; rewrite E, th_after_tapped; apply TH).
  assert (OW : own s b = true) by (destruct IV as (((_ & _ & _ & A4) & _) & _); rewrite A4, TH', orb_false_r in CH; exact CH).
  assert (AC : active s = Some b) by (unfold own, is_active in OW; destruct (active s) as [x|]; [|discriminate OW]; apply andb_true_iff in OW; destruct OW as [OW _]; apply button_eqb_spec in OW; congruence).
  assert (NT : trackpoint s && active_top s = false) by (unfold own in OW; apply andb_true_iff in OW; destruct OW as [_ OW]; destruct (trackpoint s), (active_top s); cbn in *; congruence).
  assert (OP : old s = phys s).
  { destruct LF as (f0 & t0 & l0 & ->). unfold s in *. rewrite brun_app in *. set (s0 := brun p (binit p n m) l0) in *. cbn [brun fold_left bstep] in *. destruct (closed p s0) eqn:Q.
    - unfold closed in Q. rewrite SU in Q. discriminate Q.
    - pose proof (frame_same p s0 f0 t0) as F. cbn zeta in F. destruct F as (F1 & F2 & _). rewrite F1, F2. reflexivity. }
  assert (PH : phys s = {| pl := true; pr := false; pm := false |}).
  { destruct IV as (_ & O1 & O2 & I1 & _). rewrite (only_left_split _ O1). f_equal. rewrite <- OP. destruct (pl (old s)); [reflexivity|]. rewrite (I1 eq_refl) in AC. discriminate AC. }
  assert (G : forall r s1, Forall meanwhile r -> Inv s1 th -> susp s1 = false -> active s1 = Some b -> phys s1 = {| pl := true; pr := false; pm := false |} -> old s1 = phys s1 -> trackpoint s1 && active_top s1 = false ->
    let s' := brun p s1 r in out s' = out s1 /\ Inv s' th /\ susp s' = false /\ active s' = Some b /\ phys s' = {| pl := true; pr := false; pm := false |} /\ old s' = phys s' /\ trackpoint s' && active_top s' = false).
  { clear E. induction r0 as [|i r0 IH]; intros s1 F I1 S1 A1 P1 O1 T1; [cbn; auto 10|]. inversion F; subst. destruct (held_step p s1 th b i C I1 S1 A1 P1 O1 H1) as (h1 & h2 & h3 & h4 & h5 & h6 & h7 & h8).
    cbn [brun fold_left]. destruct (IH (bstep p s1 i) H2 h2 h3 h4 h5 h6) as (k1 & k2); [rewrite h7, h8; exact T1|]. cbn zeta in *. split; [etransitivity; [exact k1|exact h1]|exact k2]. }
  destruct (G r s MW IV SU AC PH OP NT) as (g1 & g2 & g3 & g4 & g5 & g6 & g7). split; [exact g1|]. rewrite brun_app. set (s2 := brun p s r) in *. rewrite <- g1. clearbody s2.
  cbn [brun fold_left bstep]. assert (CL2 : closed p s2 = false) by (unfold closed; rewrite g3; reflexivity). rewrite CL2.
  assert (PB : process_button p s2 LEFT false = with_phys s2 no_bits (qp s2 || false) (qr s2 || true)) by (unfold process_button; destruct (kind p); rewrite g5; reflexivity).
  rewrite PB. replace (closed p (with_phys s2 no_bits (qp s2 || false) (qr s2 || true))) with false by (symmetry; exact CL2).
  unfold frame. set (s3 := with_tbs (with_phys s2 no_bits (qp s2 || false) (qr s2 || true)) _). rewrite (post_events_clicky p s3 f C).
  assert (PC : fst (post_clickpad p s3 f) = notify_button (with_active s3 None false false) b false).
  { unfold post_clickpad. replace (negb (pending s3) && bits_eqb (phys s3) (old s3)) with false by (unfold s3; cbn [with_tbs with_phys pending phys old]; rewrite g6, g5; cbn; rewrite andb_false_r; reflexivity).
    replace (any_bit (phys s3)) with false by reflexivity. replace (active s3) with (Some b) by (symmetry; exact g4). unfold notify_clickpad. cbn [with_active trackpoint susp method active_top].
    replace (trackpoint s3 && active_top s3) with false by (symmetry; exact g7). replace (trackpoint s3 && susp s3) with false by (unfold s3; cbn; rewrite g3, andb_false_r; reflexivity). destruct (method s3); reflexivity. }
  destruct (post_clickpad p s3 f) as [s4 q]. cbn [fst] in *. subst s4. pose proof (apply_middle_same p (with_old (notify_button (with_active s3 None false false) b false) (phys (notify_button (with_active s3 None false false) b false)))) as A. cbn zeta in A.
  destruct A as (_ & _ & _ & _ & _ & _ & _ & _ & _ & _ & _ & _ & _ & _ & _ & _ & ->). cbn [with_old out]. apply (notify_release' (with_active s3 None false false) b).
  destruct g2 as (((_ & K2 & _) & _) & _). change (get_count (kc s2) b = 1). rewrite K2, TH'. unfold own, is_active. rewrite g4, button_eqb_refl, g3, orb_false_r, g7. reflexivity.
Qed.
Print Assumptions C31_same_button_released.

(** C31.  Button areas: what a clickpad without top buttons sends is exactly what [view_run] says: the button chosen by the areas the fingers count for in the first frame
    with the button down and a finger present, and its release in the first frame with the button up.  [a]: the areas, [em]: middle button emulation, [h]: left-handed. *)
Theorem C31_areas_choose_the_button : forall p n m em h l, clicky p -> has_top p = false -> m <> M_FINGER -> (em = true \/ h = true -> kind p = Clickpad) ->
  (kind p = OneButton -> one_button l) -> plain n l -> y_ok l ->
  let s0 := brun p (binit p n m) [SetMiddle em; SetLeft h] in
  out (brun p s0 l) = map to_client (v_out (view_run (ar s0) em h (view0 n) l)) /\ map cur (tbs (brun p s0 l)) = v_areas (view_run (ar s0) em h (view0 n) l).
Proof.
  intros p n m em h l C T M K OB PL Y s0. assert (S : sim p n (ar s0) m em h s0 (view0 n)).
  { assert (R : forall k, map core (repeat tb0 k) = repeat (B_NONE, None, None) k) by (induction k as [|k IH]; [reflexivity|]; cbn; rewrite IH; reflexivity).
    assert (F : forall k, Forall okc (map core (repeat tb0 k))) by (intros k; rewrite R; induction k; cbn; constructor; [left; reflexivity|assumption]).
    assert (Q : forall k, map cur (repeat tb0 k) = repeat None k) by (induction k as [|k IH]; [reflexivity|]; cbn; rewrite IH; reflexivity).
    assert (LQ : forall k, length (repeat tb0 k) = k) by (intros; apply repeat_length).
    unfold s0, brun. cbn [fold_left bstep]. destruct C as [C|C]; rewrite C.
    - unfold apply_middle. rewrite C. unfold change_left_handed. destruct m, em, h; cbn; constructor; cbn; auto; try (intros []; reflexivity); try discriminate; try (split; reflexivity).
    - assert (em = false /\ h = false) as [-> ->] by (rewrite C in K; destruct em, h; auto; discriminate K; auto). destruct m; cbn; constructor; cbn; auto; try (intros []; reflexivity); try discriminate; try (split; reflexivity). }
  assert (TB : t_bot (ar s0) = INT_MIN).
  { unfold s0, brun. cbn [fold_left bstep]. unfold binit, apply_middle, change_left_handed, init_top_softbuttons. rewrite T. destruct (kind p), m, em, h; reflexivity. }
  pose proof (sim_run p n (ar s0) m em h l s0 (view0 n) C M TB OB PL Y S) as X. split; [apply (s_out _ _ _ _ _ _ _ _ X)|apply (s_cur _ _ _ _ _ _ _ _ X)].
Qed.
Print Assumptions C31_areas_choose_the_button.

(** C31.  Clickfinger: one finger left, two fingers right if they are near each other, else left, three fingers middle, more nothing. *)
Theorem C31_fingers_choose_the_button : forall p n l, clicky p -> (kind p = OneButton -> one_button l) -> plain n l ->
  exists v, fview_run p fview0 l v /\ out (brun p (binit p n M_FINGER) l) = map to_client (w_out v).
Proof.
  intros p n l C OB PL. destruct (fsim_run p l (binit p n M_FINGER) fview0 n C OB PL) as (v & V1 & V2).
  - apply repeat_length.
  - constructor; cbn; auto; try (split; reflexivity). intros []; reflexivity.
  - exists v. split; [exact V1|apply (z_out _ _ V2)].
Qed.
Print Assumptions C31_fingers_choose_the_button.
