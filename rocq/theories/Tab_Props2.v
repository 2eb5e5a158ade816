(** * Tablet tools: tools that come and go are seen; a frame that never ends (C34) *)
Require Import Coq.ZArith.ZArith Coq.QArith.QArith Coq.Lists.List Coq.Bool.Bool Coq.micromega.Lia.
From Verif Require Import Tab_Model Tab_Spec Tab_Proofs Tab_Proofs2 Tab_Proofs3 Tab_Proofs4 Tab_Proofs5 Tab_Proofs6 Tab_Props.
Import ListNotations.
Open Scope Z_scope.

Lemma run_snoc : forall d n l s i, run d n s (l ++ [i]) =
  (fst (step d n (fst (run d n s l)) i), (snd (run d n s l) ++ snd (step d n (fst (run d n s l)) i))%list).
Proof.
  intros d n. induction l as [|x l IH]; intros s i; cbn [app run].
  - cbn [fst snd]. destruct (step d n s i) as [a b]. cbn [fst snd app]. rewrite app_nil_r. reflexivity.
  - destruct (step d n s x) as [a b] eqn:E. rewrite IH. destruct (run d n a l) as [a' b']. cbn [fst snd]. destruct (step d n a' i) as [a'' b'']. cbn [fst snd]. rewrite app_assoc. reflexivity.
Qed.
Definition no_suspend (l : list input) : Prop := forallb (fun i => negb (is_suspend i)) l = true.
Lemma frame_end : forall d n w l t, mice d = false -> orderly d w (l ++ [ISyn t]) -> no_suspend l ->
  live d (final d (S (S n)) w l) (view2 cl0 (erase (outs d (S (S n)) w l))) (hardware d w l) /\ Inv1 (final d (S (S n)) w l) (proximity (outs d (S (S n)) w l)) /\
  option_map ttype (proximity (outs d (S (S n)) w (l ++ [ISyn t]))) = outcome (final d (S (S n)) w l).
Proof.
  intros d n w l t M [O1 O2] NS. unfold final, outs. rewrite run_snoc. destruct (run d (S (S n)) (start d w) l) as [s out] eqn:ER. cbn [fst snd].
  assert (R1 : forall pre i post, l = pre ++ i :: post -> rules d (fold_left (hw_step d) pre (hw0 w)) i). { intros pre i post E. apply (O2 pre i (post ++ [ISyn t])). rewrite E, <- app_assoc. reflexivity. }
  pose proof (run_live _ _ _ _ _ _ _ _ M NS (start_live d w M) R1 ER) as LV. split; [exact LV|].
  assert (I1 : Inv1 s (proximity out)).
  { unfold proximity. rewrite view1_erase. clear - ER. revert ER. generalize (start_inv1 d w). generalize (start d w). generalize (@None tool). revert s out.
    induction l as [|i l IH]; intros s out p s0 I0 ER; cbn [run] in ER; [injection ER as <- <-; exact I0|].
    destruct (step d (S (S n)) s0 i) as [s1 o1] eqn:ES. destruct (run d (S (S n)) s1 l) as [s2 o2] eqn:ER2. injection ER as <- <-. destruct (step_inv1 _ _ _ _ _ _ _ I0 ES) as [_ I1].
    rewrite erase_app, view1_app. exact (IH _ _ _ _ I1 ER2). }
  split; [exact I1|]. destruct (step d (S (S n)) s (ISyn t)) as [s' o'] eqn:ES. cbn [fst snd]. destruct (step_inv1 _ _ _ _ _ _ _ I1 ES) as [_ I2]. destruct LV as [[J HI _ _] SH _ LV].
  rewrite <- view_vp, erase_app, view2_app. eapply syn_seen; [exact J | exact HI | exact SH | exact LV | exact ES|].
  rewrite <- view2_app, <- erase_app, view_vp. unfold proximity in *. rewrite fold_left_app. rewrite view1_erase. exact I2.
Qed.
Lemma outcome_named : forall d s c h ty, live d s c h -> mice d = false -> h_named h = Some ty -> is_pen ty = true -> h_down h ty = true -> outcome s = Some ty.
Proof.
  intros d s c h ty [_ SH T _] M N P D. unfold tnamed in T. rewrite N, D in T. unfold outcome. cbv zeta.
  assert (NZ : Z.lor (ptstate s) (bit ty) <> 0). { intros E. apply Z.lor_eq_0_iff in E. apply (bit_nonzero _ P). tauto. }
  assert (I : injected s = Z.lor (ptstate s) (bit ty)). { unfold injected. rewrite T. apply Z.eqb_neq in NZ. rewrite NZ, andb_false_r. reflexivity. }
  rewrite I. apply Z.eqb_neq in NZ. rewrite NZ. destruct SH as [(A & B & _) | (A & B & C & _)].
  - rewrite A. rewrite Z.lor_0_l, Z.lxor_0_r. destruct (bit_single _ P) as (_ & X & Y & _). apply Z.eqb_neq in X. rewrite X, Y. reflexivity.
  - rewrite C. destruct (Z.eq_dec ty (ctype s)) as [-> | NE].
    + rewrite Z.lor_diag, Z.eqb_refl. reflexivity.
    + destruct (lxor_lor_bit _ _ B P NE) as (X & _ & Y). apply Z.eqb_neq in Y. rewrite Y, X. reflexivity.
Qed.
Lemma named_pen : forall d w l ty, mice d = false -> h_named (hardware d w l) = Some ty -> is_pen ty = true.
Proof.
  intros d w l ty M. unfold hardware. assert (H0 : forall ty, h_named (hw0 w) = Some ty -> is_pen ty = true) by (intros x X; discriminate X). revert H0. generalize (hw0 w).
  induction l as [|i l IH]; intros h H0 E; cbn [fold_left] in E; [exact (H0 _ E)|]. apply (IH (hw_step d h i)); [|exact E].
  intros x. destruct i; cbn [hw_step h_named]; try (intros X; discriminate X); try apply H0. destruct (tool_enabled d ty0) eqn:EE; cbn [h_named]; [|apply H0]. intros X. injection X as <-. exact (enabled_pen _ _ M EE).
Qed.
(** A tool that comes is in proximity after its frame: in place of the one before, if there was one *)
Theorem C34_comes : forall d n w l t ty, mice d = false -> no_suspend l -> orderly d w (l ++ [ISyn t]) ->
  h_named (hardware d w l) = Some ty -> h_down (hardware d w l) ty = true ->
  exists o, proximity (outs d (S (S n)) w (l ++ [ISyn t])) = Some o /\ ttype o = ty.
Proof.
  intros d n w l t ty M NS O N D. destruct (frame_end d n w l t M O NS) as (LV & _ & E). rewrite (outcome_named _ _ _ _ _ LV M N (named_pen _ _ _ _ M N) D) in E.
  destruct (proximity (outs d (S (S n)) w (l ++ [ISyn t]))) as [o|]; [|discriminate]. exists o. split; [reflexivity | injection E as E; exact E].
Qed.
Print Assumptions C34_comes.
Lemma in_prox : forall d s c h out o, live d s c h -> vp c = Some o -> Inv1 s (Some o) -> out = vp c -> outp s = false /\ is_pen (ctype s) = true /\ ptstate s = bit (ctype s) /\ ctype s = ttype o /\ injected s = tstate s.
Proof.
  intros d s c h out o [[J HI S0 M] SH T L] V I1 _. destruct SH as [(A & B & _) | (A & B & C & D)].
  - destruct (i_out _ _ _ (j_inv _ _ _ J) B) as (X & _). congruence.
  - assert (EE : entering s = false). { pose proof (i_in _ _ _ (j_inv _ _ _ J) A) as X. destruct (entering s); [congruence | reflexivity]. }
    destruct (I1 A (i_oor _ _ _ (j_inv _ _ _ J)) EE) as (o' & E & TT). injection E as <-. repeat split; try assumption; [congruence|].
    destruct (update_tool_state s 0) as [s' tw] eqn:EU. destruct (uts_turn s 0 s' tw (h_named h)) as (_ & _ & X & _); [right; repeat split; assumption | exact EU | exact (X A)].
Qed.
(** A tool that leaves is gone after its frame *)
Theorem C34_goes : forall d n w l t o, mice d = false -> no_suspend l -> orderly d w (l ++ [ISyn t]) ->
  proximity (outs d (S (S n)) w l) = Some o -> h_named (hardware d w l) = Some (ttype o) -> h_down (hardware d w l) (ttype o) = false ->
  proximity (outs d (S (S n)) w (l ++ [ISyn t])) = None.
Proof.
  intros d n w l t o M NS O P N D. destruct (frame_end d n w l t M O NS) as (LV & I1 & E). rewrite P in I1.
  destruct (in_prox _ _ _ _ _ o LV (eq_trans (view_vp _) P) I1 eq_refl) as (A & B & C & DD & F).
  assert (OC : outcome (final d (S (S n)) w l) = None).
  { unfold outcome. cbv zeta. rewrite F. destruct LV as [_ _ T _]. unfold tnamed in T. rewrite N, D, C, DD, Z.ldiff_diag in T. rewrite T. reflexivity. }
  rewrite OC in E. destruct (proximity (outs d (S (S n)) w (l ++ [ISyn t]))); [discriminate | reflexivity].
Qed.
Print Assumptions C34_goes.
(** A tool stays in proximity through every frame that does not name it *)
Theorem C34_stays : forall d n w l t o, mice d = false -> no_suspend l -> orderly d w (l ++ [ISyn t]) ->
  proximity (outs d (S (S n)) w l) = Some o -> (forall ty, h_named (hardware d w l) = Some ty -> ty <> ttype o /\ h_down (hardware d w l) ty = false) ->
  exists o', proximity (outs d (S (S n)) w (l ++ [ISyn t])) = Some o' /\ ttype o' = ttype o.
Proof.
  intros d n w l t o M NS O P N. destruct (frame_end d n w l t M O NS) as (LV & I1 & E). rewrite P in I1.
  destruct (in_prox _ _ _ _ _ o LV (eq_trans (view_vp _) P) I1 eq_refl) as (A & B & C & DD & F).
  assert (OC : outcome (final d (S (S n)) w l) = Some (ttype o)).
  { unfold outcome. cbv zeta. rewrite F. destruct LV as [_ _ T _]. unfold tnamed in T. pose proof (bit_nonzero _ B) as BN. apply Z.eqb_neq in BN.
    assert (TT : tstate (final d (S (S n)) w l) = ptstate (final d (S (S n)) w l)).
    { destruct (h_named (hardware d w l)) as [ty|] eqn:EN; [|exact T]. destruct (N ty eq_refl) as [N1 N2]. rewrite N2 in T. rewrite T, C.
      pose proof (named_pen _ _ _ _ M EN) as PN. rewrite <- DD in N1. revert N1 B. generalize (ctype (final d (S (S n)) w l)). intros c N1 B. apply pen_in in B, PN. cbn in B, PN.
      decompose [or] B; try contradiction; subst c; decompose [or] PN; try contradiction; subst ty; try congruence; vm_compute; reflexivity. }
    rewrite TT, C, BN, Z.eqb_refl. congruence. }
  rewrite OC in E. destruct (proximity (outs d (S (S n)) w (l ++ [ISyn t]))) as [o'|]; [|discriminate]. exists o'. split; [reflexivity | injection E as E; exact E].
Qed.
Print Assumptions C34_stays.
Example comes_ex : mice (demo true false) = false /\ no_suspend visit /\ orderly (demo true false) demo_w visit /\ h_named (hardware (demo true false) demo_w (removelast visit)) = Some PEN
  /\ h_down (hardware (demo true false) demo_w (removelast visit)) PEN = true.
Proof. split; [reflexivity|]. split; [reflexivity|]. split; [apply orderly_ok; reflexivity|]. split; reflexivity. Qed.

(** ** A frame that never ends *)
(** A puck was last seen 20 units away and is gone; a pen and an eraser come in one frame: tablet_flush sends the puck's proximity events for ever *)
Definition endless : list input := [ITool MOUSE true; IAbs X 100; IAbs DISTANCE 20; ISyn 1000; ITool MOUSE false; ISyn 2000; ITool PEN true; ITool ERASER true].
Theorem C34_frames_end_refuted : forall n, hang (final (demo true true) n demo_w (endless ++ [ISyn 3000])) = true.
Proof.
  intros n. unfold final. rewrite run_snoc. cbn [fst]. destruct n as [|n].
  - vm_compute. reflexivity.
  - change (step (demo true true) (S n) (fst (run (demo true true) (S n) (start (demo true true) demo_w) endless)) (ISyn 3000))
      with (syn (demo true true) (S n) (fst (run (demo true true) (S n) (start (demo true true) demo_w) endless)) 3000).
    apply syn_hang. constructor; [reflexivity | split | | | | |]; vm_compute; try reflexivity; discriminate.
Qed.
Print Assumptions C34_frames_end_refuted.
