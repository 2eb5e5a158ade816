(** * Tablet tools: proximity, tip and button nesting (C34) *)
Require Import Coq.ZArith.ZArith Coq.QArith.QArith Coq.Lists.List Coq.Bool.Bool Coq.micromega.Lia.
From Verif Require Import Tab_Model Tab_Spec Tab_Proofs Tab_Proofs2 Tab_Proofs3 Tab_Proofs4 Tab_Proofs5.
Import ListNotations.
Open Scope Z_scope.

(** ** From the events to the proofs' abbreviation of them and back *)
Lemma view1_erase : forall l p, fold_left (fun p e => match e with EProx _ o true _ _ => Some o | EProx _ _ false _ _ => None | _ => p end) l p = view1 p (erase l).
Proof.
  induction l as [|e l IH]; intros p; [reflexivity|]. cbn [fold_left]. rewrite IH. change (erase (e :: l)) with (erase1 e ++ erase l). rewrite view1_app. f_equal. destruct e; try reflexivity. destruct enter; reflexivity.
Qed.
Lemma view2_erase : forall l c, view2 c (erase l) =
  Cl (fold_left (fun p e => match e with EProx _ o true _ _ => Some o | EProx _ _ false _ _ => None | _ => p end) l (vp c))
     (fold_left (fun b e => match e with ETip _ _ x _ _ => x | _ => b end) l (vt c)) (vh (view2 c (erase l))).
Proof.
  induction l as [|e l IH]; intros c; [destruct c; reflexivity|]. change (erase (e :: l)) with (erase1 e ++ erase l). rewrite view2_app, IH. cbn [fold_left]. f_equal; destruct e; try reflexivity; destruct enter; reflexivity.
Qed.
Lemma held_erase : forall l c k, vh (view2 c (erase l)) k = fold_left (fun b e => match e with EButton _ _ _ _ x p => if x =? k then p else b | _ => b end) l (vh c k).
Proof.
  induction l as [|e l IH]; intros c k; [reflexivity|]. change (erase (e :: l)) with (erase1 e ++ erase l). rewrite view2_app, IH. cbn [fold_left]. f_equal. destruct e; try reflexivity; [destruct enter; reflexivity|].
  cbn. unfold upd. rewrite Z.eqb_sym. reflexivity.
Qed.

(** ** Every tool event lies in proximity of a tool of its type: every tablet, every history *)
Theorem C34_in_proximity : forall d n w l before e after o,
  outs d n w l = before ++ e :: after -> tool_of e = Some o -> is_enter e = false ->
  exists o', proximity before = Some o' /\ ttype o' = ttype o.
Proof.
  intros d n w l before e after o H T E. unfold outs in H. destruct (run d n (start d w) l) as [s out] eqn:ER. cbn [snd] in H. subst out.
  pose proof (run_inv1 _ _ _ _ _ _ _ (start_inv1 d w) ER) as A. rewrite erase_app, acc1_app in A. destruct A as [_ A].
  change (erase (e :: after)) with (erase1 e ++ erase after) in A. rewrite acc1_app in A. destruct A as [A _]. unfold proximity. rewrite view1_erase.
  destruct e; cbn in T, E; try discriminate T; injection T as ->; [destruct enter; [discriminate E|]| | |]; cbn in A; destruct A as [A _]; exact A.
Qed.
Print Assumptions C34_in_proximity.

(** ** Tablets without mouse and lens, and a kernel that changes one tool a frame *)
Lemma strict_at : forall d n w l before e after, mice d = false -> orderly d w l -> outs d (S n) w l = before ++ e :: after ->
  forall x, In x (erase1 e) -> ok2 (dev_axis d PRESSURE) (view2 cl0 (erase before)) x.
Proof.
  intros d n w l before e after M [_ OD] H x IN. unfold outs in H. destruct (run d (S n) (start d w) l) as [s out] eqn:ER. cbn [snd] in H. subst out.
  destruct (run_good _ _ _ _ _ _ _ _ M (start_good d w M) OD ER) as [A _]. rewrite erase_app, acc2_app in A. destruct A as [_ A].
  change (erase (e :: after)) with (erase1 e ++ erase after) in A. rewrite acc2_app in A. destruct A as [A _].
  destruct e; cbn in IN; try contradiction; [destruct enter| | |]; destruct IN as [<- | []]; cbn in A; destruct A as [A _]; exact A.
Qed.
Lemma view_vp : forall l, vp (view2 cl0 (erase l)) = proximity l.
Proof. intros l. rewrite view2_erase. reflexivity. Qed.
Lemma view_vt : forall l, vt (view2 cl0 (erase l)) = tip l.
Proof. intros l. rewrite view2_erase. reflexivity. Qed.
Lemma view_vh : forall l k, vh (view2 cl0 (erase l)) k = held l k.
Proof. intros l k. rewrite held_erase. reflexivity. Qed.

(** A tool comes into proximity only when there is none *)
Theorem C34_one_tool : forall d n w l before t o a c after, mice d = false -> orderly d w l ->
  outs d (S n) w l = before ++ EProx t o true a c :: after -> proximity before = None.
Proof.
  intros d n w l before t o a c after M O H. pose proof (strict_at _ _ _ _ _ _ _ M O H (AIn o) (or_introl eq_refl)) as A. cbn in A. rewrite view_vp in A. exact A.
Qed.
Print Assumptions C34_one_tool.
(** ... and when it leaves, no button is held, and the tip is up if the tablet has pressure *)
Theorem C34_leaves_clean : forall d n w l before t o a c after, mice d = false -> orderly d w l ->
  outs d (S n) w l = before ++ EProx t o false a c :: after -> (forall k, held before k = false) /\ (dev_axis d PRESSURE = true -> tip before = false).
Proof.
  intros d n w l before t o a c after M O H. pose proof (strict_at _ _ _ _ _ _ _ M O H (AOut o) (or_introl eq_refl)) as A. cbn in A. rewrite view_vt in A. destruct A as [A B].
  split; [|exact B]. intros k. rewrite <- view_vh. apply A.
Qed.
Print Assumptions C34_leaves_clean.
(** Tip events alternate, starting with tip-down *)
Theorem C34_tip_alternates : forall d n w l before t o b a c after, mice d = false -> dev_axis d PRESSURE = true -> orderly d w l ->
  outs d (S n) w l = before ++ ETip t o b a c :: after -> tip before = negb b.
Proof.
  intros d n w l before t o b a c after M P O H. pose proof (strict_at _ _ _ _ _ _ _ M O H (ATip o b) (or_introl eq_refl)) as A. cbn in A. rewrite view_vt in A. exact (A P).
Qed.
Print Assumptions C34_tip_alternates.
(** ... and axis and button events say what the tip events said *)
Theorem C34_tip_consistent : forall d n w l before e b after, mice d = false -> dev_axis d PRESSURE = true -> orderly d w l ->
  outs d (S n) w l = before ++ e :: after -> says_tip e = Some b -> b = tip before.
Proof.
  intros d n w l before e b after M P O H T. rewrite <- view_vt. destruct e; cbn in T; try discriminate T; injection T as ->.
  - pose proof (strict_at _ _ _ _ _ _ _ M O H _ (or_introl eq_refl)) as A. exact (A P).
  - pose proof (strict_at _ _ _ _ _ _ _ M O H _ (or_introl eq_refl)) as [A _]. exact (A P).
Qed.
Print Assumptions C34_tip_consistent.
(** A button is pressed only when it is up *)
Theorem C34_press_up : forall d n w l before t o b sc k after, mice d = false -> orderly d w l ->
  outs d (S n) w l = before ++ EButton t o b sc k true :: after -> held before k = false.
Proof.
  intros d n w l before t o b sc k after M O H. pose proof (strict_at _ _ _ _ _ _ _ M O H _ (or_introl eq_refl)) as [_ A]. rewrite <- view_vh. exact (A eq_refl).
Qed.
Print Assumptions C34_press_up.

(** ** Example: a pen comes, touches, presses a button, moves and leaves at once; the library lifts the tip and the button first *)
Definition demo (pressure_ mouse : bool) : device :=
  {| has_abs := fun a => match a with X | Y | DISTANCE => true | PRESSURE => pressure_ | _ => false end; amin := fun _ => 0; amax := fun a => match a with DISTANCE => 63 | PRESSURE => 2047 | _ => 20000 end;
     ares := fun a => match a with X | Y => 100 | _ => 0 end; afuzz := fun _ => 0; has_key := fun c => (c =? BTN_STYLUS) || (c =? BTN_STYLUS2) || (mouse && (c =? BTN_LEFT));
     has_tool_pen := true; has_tool_mouse := mouse; has_tool_lens := false; vendor_wacom := true; styli := fun _ => None; quirk_range := None;
     calibrate := fun p => p; accel := fun _ _ p => (inject_Z (fst p), inject_Z (snd p)); wheel_angle := 15; deg_per_rad := 180 / 3; atan2_deg := fun _ _ => 0%Q; hsize := 4; reversible := true |}.
Definition demo_w : world := {| w_globals := []; w_values := fun _ => 0; w_down := fun _ => false; w_misc := 0; w_now := 0 |}.
Inductive brief := BIn (ty : Z) | BOut (ty : Z) | BTip (b : bool) | BAxis (tip : bool) | BButton (tip : bool) (c : Z) (p : bool).
Definition brief_of (e : tev) : list brief :=
  match e with
  | EProx _ o true _ _ => [BIn (ttype o)] | EProx _ o false _ _ => [BOut (ttype o)] | ETip _ _ b _ _ => [BTip b] | EAxis _ _ b _ _ => [BAxis b] | EButton _ _ b _ c p => [BButton b c p] | _ => []
  end.
Definition story (d : device) (n : nat) (l : list input) : list brief := flat_map brief_of (outs d n demo_w l).
Definition visit : list input :=
  [ITool PEN true; IAbs X 100; IAbs Y 100; IAbs DISTANCE 20; ISyn 1000; IAbs PRESSURE 900; IAbs DISTANCE 0; ISyn 2000; IButton BTN_STYLUS true; ISyn 3000; IAbs X 200; ISyn 4000; IAbs PRESSURE 0; ITool PEN false; ISyn 5000;
   ITool ERASER true; IAbs X 300; ISyn 6000; ITool PEN true; ISyn 7000].
Example visit_story : story (demo true false) 2 visit =
  [BIn PEN; BTip true; BButton true BTN_STYLUS true; BAxis true; BTip false; BButton false BTN_STYLUS false; BOut PEN; BIn ERASER; BOut ERASER; BIn PEN].
Proof. vm_compute. reflexivity. Qed.
(** The rules of a kernel, checked by computation *)
Definition rules_b (h : hw) (i : input) : bool :=
  match i with
  | ITool ty _ => match h_named h with None => true | Some x => x =? ty end
  | ITimer _ | ISuspend _ => negb (h_mid h)
  | _ => true
  end.
Fixpoint orderly_b (d : device) (h : hw) (l : list input) : bool := match l with [] => true | i :: l => rules_b h i && orderly_b d (hw_step d h i) l end.
Lemma orderly_ok : forall d w l, mice d = false -> orderly_b d (hw0 w) l = true -> orderly d w l.
Proof.
  intros d w l M H. split; [intros X; congruence|]. unfold hardware. generalize dependent (hw0 w). induction l as [|x l IH]; intros h H pre i post E; [destruct pre; discriminate E|].
  cbn [orderly_b] in H. apply andb_prop in H. destruct H as [H1 H2]. destruct pre as [|y pre]; cbn [app] in E; injection E as -> ->.
  - cbn [fold_left]. destruct i; cbn in *; try exact I; try (intros X; congruence).
    + intros _. split; [|intros X; congruence]. destruct (h_named h) as [z|]; [right; apply Z.eqb_eq in H1; congruence | left; reflexivity].
    + split; [destruct (h_mid h); [discriminate | reflexivity] | intros X; congruence].
    + split; [destruct (h_mid h); [discriminate | reflexivity] | intros X; congruence].
  - cbn [fold_left]. exact (IH _ H2 pre i post eq_refl).
Qed.
Example visit_orderly : mice (demo true false) = false /\ dev_axis (demo true false) PRESSURE = true /\ orderly (demo true false) demo_w visit.
Proof. split; [reflexivity|]. split; [reflexivity|]. apply orderly_ok; reflexivity. Qed.

(** ** Where the property fails *)
(** Two tools that change places within a frame: the first never leaves *)
Definition swap : list input := [ITool ERASER true; IAbs X 100; ISyn 1000; ITool ERASER false; ITool PEN true; ISyn 2000].
Theorem C34_one_tool_refuted : ~ forall d n w l before t o a c after, outs d (S n) w l = before ++ EProx t o true a c :: after -> proximity before = None.
Proof.
  intros H. remember (outs (demo true false) 2 demo_w swap) as l eqn:E.
  assert (L : exists e1 t o a c, l = [e1; EProx t o true a c] /\ exists o', proximity [e1] = Some o').
  { subst l. unfold outs, demo_w, swap. vm_compute. do 5 eexists. split; [reflexivity|]. eexists. reflexivity. }
  destruct L as (e1 & t & o & a & c & -> & o' & P). rewrite (H _ _ _ _ [e1] t o a c [] (eq_sym E)) in P. discriminate.
Qed.
(** ... and the other way round: the second never comes *)
Example swap_back : story (demo true false) 2 [ITool PEN true; IAbs X 100; ISyn 1000; ITool PEN false; ITool ERASER true; ISyn 2000; IAbs X 200; ISyn 3000] = [BIn PEN; BOut PEN].
Proof. vm_compute. reflexivity. Qed.
(** A tablet without pressure: the tip goes down in the frame the tool leaves in; a tip that is never lifted, an unpressed button that is *)
Theorem C34_tip_up_refuted : ~ forall d n w l before t o a c after, mice d = false -> orderly d w l -> outs d (S n) w l = before ++ EProx t o false a c :: after -> tip before = false.
Proof.
  intros H. set (l := [ITool PEN true; IAbs X 100; ISyn 1000; ITouch true; ITool PEN false; ISyn 2000]). remember (outs (demo false false) 2 demo_w l) as x eqn:E.
  assert (L : exists e1 e2 t o a c, x = [e1; e2] ++ [EProx t o false a c] /\ tip [e1; e2] = true).
  { subst x. unfold outs, demo_w, l. vm_compute. do 6 eexists. split; reflexivity. }
  destruct L as (e1 & e2 & t & o & a & c & -> & T). rewrite (H (demo false false) 1%nat demo_w l [e1; e2] t o a c []) in T; [discriminate | reflexivity | apply orderly_ok; reflexivity | exact (eq_sym E)].
Qed.
Theorem C34_release_held_refuted : ~ forall d n w l before t o b a k after, mice d = false -> orderly d w l -> outs d (S n) w l = before ++ EButton t o b a k false :: after -> held before k = true.
Proof.
  intros H. set (l := [IButton BTN_STYLUS true; ISyn 500; ITool PEN true; IAbs X 100; ISyn 1000; IButton BTN_STYLUS false; ISyn 2000]). remember (outs (demo true false) 2 demo_w l) as x eqn:E.
  assert (L : exists e1 t o b a k, x = [e1] ++ [EButton t o b a k false] /\ held [e1] k = false).
  { subst x. unfold outs, demo_w, l. vm_compute. do 6 eexists. split; [reflexivity|]. reflexivity. }
  destruct L as (e1 & t & o & b & a & k & -> & T). rewrite (H (demo true false) 1%nat demo_w l [e1] t o b a k []) in T; [discriminate | reflexivity | apply orderly_ok; reflexivity | exact (eq_sym E)].
Qed.
(** A mouse that came and went beyond the range of 42: pens are dead from then on *)
Example far_mouse : story (demo true true) 2 [ITool MOUSE true; IAbs X 100; IAbs DISTANCE 50; ISyn 1000; ITool MOUSE false; IAbs DISTANCE 0; ISyn 2000;
  ITool PEN true; IAbs X 500; ISyn 3000; IAbs PRESSURE 1000; ISyn 4000; ITool PEN false; ISyn 5000] = [].
Proof. vm_compute. reflexivity. Qed.
(** A pen in proximity at suspend, lifted meanwhile: its next visit is not seen *)
Example suspended_pen : story (demo true false) 2 [ITool PEN true; IAbs X 100; ISyn 1000; ISuspend 1500; ITool PEN true; IAbs X 200; ISyn 2000; IAbs X 300; ISyn 3000; ITool PEN false; ISyn 4000;
  ITool PEN true; IAbs X 400; ISyn 5000] = [BIn PEN; BOut PEN; BIn PEN].
Proof. vm_compute. reflexivity. Qed.
