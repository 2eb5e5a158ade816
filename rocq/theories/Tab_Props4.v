(** * Tablet tools: the touch device is silenced while a tool is in proximity (C45) *)
Require Import Coq.ZArith.ZArith Coq.QArith.QArith Coq.Lists.List Coq.Bool.Bool Coq.micromega.Lia.
From Verif Require Import Tab_Model Tab_Spec Tab_Spec2 Tab_Proofs Tab_Proofs2 Tab_Proofs3 Tab_Proofs4 Tab_Proofs5 Tab_Proofs6 Tab_Proofs7 Tab_Proofs8 Tab_Proofs9 Tab_Proofs10 Tab_Props Tab_Props2 Tab_Props3.
Import ListNotations.
Open Scope Z_scope.

Lemma no_change_after : forall l x, forallb (fun i => negb (touch_change i)) l = true -> fold_left touch_after l x = x.
Proof.
  induction l as [|i l IH]; intros x H; [reflexivity|]. cbn [forallb] in H. apply andb_prop in H. destruct H as [H1 H2]. apply negb_true_iff in H1. cbn [fold_left].
  assert (E : touch_after x i = x) by (destruct i; cbn in H1 |- *; try reflexivity; [rewrite H1; reflexivity | discriminate H1]). rewrite E. exact (IH x H2).
Qed.
Lemma one_touch_present : forall l x, one_touch l -> fold_left touch_after l x <> None.
Proof.
  intros l x (l1 & id & a & b & lf & l2 & -> & AB & N). rewrite forallb_app in N. apply andb_prop in N. destruct N as [N1 N2]. rewrite fold_left_app. cbn [fold_left touch_after]. rewrite AB, (no_change_after _ _ N2). discriminate.
Qed.
(** At the end of every frame, the touch device has been told that there is no tool exactly if the client sees none *)
Theorem C45_follows : forall d n w l t, mice d = false -> no_suspend l -> orderly d w (l ++ [ISyn t]) -> one_touch l ->
  (told (outs d (S (S n)) w (l ++ [ISyn t])) = NOT_ACTIVE <-> proximity (outs d (S (S n)) w (l ++ [ISyn t])) = None).
Proof.
  intros d n w l t M NS O OT. destruct O as [O1 O2].
  assert (NS' : forallb (fun i => negb (is_suspend i)) (l ++ [ISyn t]) = true) by (rewrite forallb_app; unfold no_suspend in NS; rewrite NS; reflexivity).
  assert (X : told (outs d (S (S n)) w (l ++ [ISyn t])) = arb (final d (S (S n)) w (l ++ [ISyn t]))).
  { unfold outs, final. destruct (run d (S (S n)) (start d w) (l ++ [ISyn t])) as [s' out] eqn:E. destruct (run_tracks _ _ _ _ _ _ E) as [[T _] _]. cbn [fst snd]. pose proof (start_two d w) as S2. unfold two in S2. injection S2 as _ S2. rewrite S2 in T. symmetry. exact T. }
  rewrite X. clear X.
  assert (LV : live d (final d (S (S n)) w (l ++ [ISyn t])) (view2 cl0 (erase (outs d (S (S n)) w (l ++ [ISyn t])))) (hardware d w (l ++ [ISyn t]))).
  { unfold final, outs. destruct (run d (S (S n)) (start d w) (l ++ [ISyn t])) as [s' out] eqn:E. cbn [fst snd]. exact (run_live _ _ _ _ _ _ _ _ M NS' (start_live d w M) O2 E). }
  rewrite <- view_vp.
  assert (EN : entering (final d (S (S n)) w (l ++ [ISyn t])) = false /\ (arb (final d (S (S n)) w (l ++ [ISyn t])) = NOT_ACTIVE <-> oor (final d (S (S n)) w (l ++ [ISyn t])) || leaving (final d (S (S n)) w (l ++ [ISyn t])) || outp (final d (S (S n)) w (l ++ [ISyn t])) = true)).
  { destruct (frame_end d n w l t M (conj O1 O2) NS) as (L0 & _ & _). unfold final in *. rewrite run_snoc. cbn [fst].
    assert (TD : touch_dev (fst (run d (S (S n)) (start d w) l)) <> None). { destruct (run d (S (S n)) (start d w) l) as [s0 o0] eqn:E0. destruct (run_tracks _ _ _ _ _ _ E0) as [_ V]. cbn [fst]. rewrite V. exact (one_touch_present _ _ OT). }
    destruct (step d (S (S n)) (fst (run d (S (S n)) (start d w) l)) (ISyn t)) as [s' out] eqn:E. cbn [fst]. cbn [step] in E. split; [|exact (syn_arb _ _ _ _ _ _ E TD)].
    destruct L0 as [[J HI _ _] SH _ LE]. unfold syn in E. destruct (flush d (S (S n)) (fst (run d (S (S n)) (start d w) l)) t) as [s1 o1] eqn:EF. pose proof (flush_entering _ _ _ _ _ _ _ _ J HI SH LE EF) as E1.
    assert (E2 : entering (fst (toggle_touch d s1 t)) = entering s1). { unfold toggle_touch, set_touch_enabled. destruct (oor s1 || leaving s1 || outp s1); [|destruct (Qeq_bool (fst (tilt (ax s1))) 0); [|destruct (arb s1)]]; destruct (touch_dev s1); reflexivity. }
    destruct (toggle_touch d s1 t) as [s2 o2]. cbn [fst] in E2. injection E as <- _. cbn [entering set_last_time reset_state set_btn_down set_tool_upd set_pbtn]. congruence. }
  destruct EN as [EN AR]. rewrite AR. destruct LV as [[J _ _ _] _ _ LE]. destruct J as [J _ _]. rewrite (i_oor _ _ _ J), LE. cbn [orb]. destruct (outp (final d (S (S n)) w (l ++ [ISyn t]))) eqn:EO.
  - destruct (i_out _ _ _ J EO) as [V _]. tauto.
  - pose proof (i_in _ _ _ J EO) as V. rewrite EN in V. destruct V as [o V]. rewrite V. split; discriminate.
Qed.
Print Assumptions C45_follows.
Lemma acc_rect_at : forall before t r after x, acc_rect x (before ++ ORect t r :: after) -> told_from x before = IGNORE_RECT.
Proof. intros before t r after x H. apply acc_rect_app in H. destruct H as [_ H]. cbn [acc_rect] in H. apply H. Qed.
(** The rectangle to ignore is only moved while the device has been told to ignore a rectangle *)
Theorem C45_rectangles : forall d n w l before t r after, outs d n w l = (before ++ ORect t r :: after)%list -> told before = IGNORE_RECT.
Proof.
  intros d n w l before t r after H. unfold outs in H. destruct (run d n (start d w) l) as [s' out] eqn:E. cbn [snd] in H. subst out. destruct (run_tracks _ _ _ _ _ _ E) as [[_ A] _].
  pose proof (start_two d w) as S2. unfold two in S2. injection S2 as _ S2. rewrite S2 in A. exact (acc_rect_at _ _ _ _ _ A).
Qed.
Print Assumptions C45_rectangles.
(** A tablet without tilt never has it ignore a part only *)
Theorem C45_without_tilt : forall d n w l t r, sane d -> fair d w l -> has_abs d TILT_X = false -> ~ In (OArb t IGNORE_RECT r) (outs d n w l).
Proof.
  intros d n w l t r SA (V & GL & F) N IN. unfold outs in IN. destruct (run d n (start d w) l) as [s' out] eqn:E. cbn [snd] in IN. pose proof (run_no_rect _ _ _ _ _ _ SA F (start_G d w SA V GL) N E) as X.
  rewrite Forall_forall in X. exact (X _ IN t r eq_refl).
Qed.
Print Assumptions C45_without_tilt.

(** ** Examples *)
Definition says (e : tev) : list (sum brief (arbitration * bool)) := match e with OArb _ w r => [inr (w, match r with Some _ => true | None => false end)] | ORect _ _ => [inr (IGNORE_RECT, false)] | _ => map inl (brief_of e) end.
Definition touching : list input := [IAdded 7 true false false; ITool PEN true; IAbs X 100; IAbs Y 100; IAbs DISTANCE 21; IAbs TILT_X 30; ISyn 1000; IAbs X 300; ISyn 2000; ITool PEN false; ISyn 3000].
Example touching_case : flat_map says (outs pen_pad 2 demo_w touching) =
  [inl (BIn PEN); inr (IGNORE_RECT, true); inr (IGNORE_RECT, false); inl (BAxis false); inl (BOut PEN); inr (NOT_ACTIVE, false)].
Proof. vm_compute. reflexivity. Qed.
Example touching_hyps : mice pen_pad = false /\ no_suspend touching /\ orderly pen_pad demo_w touching /\ one_touch (removelast touching).
Proof.
  split; [reflexivity|]. split; [reflexivity|]. split; [apply orderly_ok; reflexivity|]. exists [], 7%nat, true, false, false, (tl (removelast touching)). split; [reflexivity|]. split; reflexivity.
Qed.
(** A touch device that is replaced while the tool is in proximity: the second is not told *)
Theorem C45_replaced_refuted : ~ forall d n w l l2 id t, mice d = false -> no_suspend (l ++ IAdded id true false false :: l2) -> orderly d w (l ++ IAdded id true false false :: l2 ++ [ISyn t]) ->
  proximity (outs d (S (S n)) w (l ++ IAdded id true false false :: l2 ++ [ISyn t])) <> None ->
  exists new, outs d (S (S n)) w (l ++ IAdded id true false false :: l2 ++ [ISyn t]) = (outs d (S (S n)) w l ++ new)%list /\ exists t' x r, In (OArb t' x r) new.
Proof.
  intros H. set (l := [IAdded 7 true false false; ITool PEN true; IAbs X 100; IAbs Y 100; IAbs TILT_X 30; ISyn 1000; IRemoved 7]). set (l2 := [IAbs X 300]).
  destruct (H pen_pad 0%nat demo_w l l2 8%nat 2000) as (new & E & t' & x & r & IN).
  - reflexivity.
  - reflexivity.
  - apply orderly_ok; reflexivity.
  - vm_compute. discriminate.
  - assert (L : (length (filter is_arb (outs pen_pad 2 demo_w (l ++ IAdded 8 true false false :: l2 ++ [ISyn 2000]))) = length (filter is_arb (outs pen_pad 2 demo_w l)))%nat) by (vm_compute; reflexivity).
    rewrite E, filter_app, app_length in L. assert (X : In (OArb t' x r) (filter is_arb new)) by (apply filter_In; split; [exact IN | reflexivity]). destruct (filter is_arb new); [destruct X | cbn [length] in L; lia].
Qed.
Print Assumptions C45_replaced_refuted.
