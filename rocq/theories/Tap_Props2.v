(** C53: tap-and-drag, drag lock and double taps *)
Require Import Coq.ZArith.ZArith Coq.Lists.List Coq.Bool.Bool Coq.micromega.Lia.
Require Verif.Tp_Model.
Require Import Verif.Tap_Model Verif.Tap_Spec Verif.Tap_Spec2 Verif.Tap_Proofs Verif.Tap_Proofs2 Verif.Tap_Proofs3 Verif.Tap_Proofs4 Verif.Tap_Proofs5 Verif.Tap_Props.
Import ListNotations.
Open Scope Z_scope.

(** The touchpad is idle after [l]: tapping is on, the mapping as last configured is in use *)
Definition idle_after (n : nat) (pad en : bool) (start : Z) (l : list input) : Prop :=
  legal start (repeat false n) l /\ let s := run (init n pad en) l in st s = IDLE /\ tap_enabled s = true /\ off s = false /\ map_ s = last_map l.
Lemma after_tap : forall n pad en start l x, idle_after n pad en start l -> last_drag l = true -> proper_tap n x ->
  exists f, button_for (last_map l) (fingers_of n x) = Some (button_of (last_map l) f) /\ let s := run (init n pad en) l in let s1 := run s (tap_inputs x) in
  kd n (last_map l) (last_draglock l) s1 /\ st s1 = TAPPED f /\ timer s1 = Some (drag_deadline n x) /\ nf s1 = 0 /\ out s1 = out s ++ [press (button_of (last_map l) f) (pressed_at n x)] /\ sr s1 = lifted_at n x.
Proof.
  intros n pad en start l x (L & ST & EN & OF & MP) DR (C1 & C2 & K & Z). set (s := run (init n pad en) l) in *.
  pose proof (inv_run l start start _ _ (inv_init n pad en start) L) as [C LM N]. fold s in C, LM, N. rewrite EN, OF in N. pose proof (c_nf _ _ _ _ _ C) as CF. rewrite ST in CF. cbn in CF.
  assert (LEN : length (marks s) = n).
  { rewrite LM. clear - L. revert L. assert (G : forall l now was, length was = n -> legal now was l -> length (last_down was l) = n).
    { induction l0 as [|x l0 IH]; intros now was W LG; [exact W|]. destruct x; cbn [legal last_down] in *; try (apply (IH now was W); tauto); try (eapply IH; [|apply LG]; exact W).
      destruct LG as (_ & F & LG). apply (IH t _ ltac:(rewrite map_length; rewrite <- (Forall2_length' _ _ _ F); exact W) LG). }
    intros L. apply (G l start _ (repeat_length _ _) L). }
  destruct (settings_run l (init n pad en)) as [D1 D2]. fold s in D1, D2. cbn [drag draglock init] in D1, D2. change (drag s = last_drag l) in D1. change (draglock s = last_draglock l) in D2. pose proof (want_run l (init n pad en)) as D3. fold s in D3. cbn [want_map init] in D3. change (want_map s = last_map l) in D3.
  pose proof (tap_spec n s (comes x) (goes x) (out s) (fingers_of n x) LEN ST ltac:(lia) eq_refl ltac:(congruence) EN OF C1 C2 eq_refl (proj1 K) Z) as U. rewrite D1, DR in U. fold (tap_inputs x) in U. set (s1 := run s (tap_inputs x)) in *.
  destruct U as [U1 U2 U3 U4 U5 U6 _ _ _ U7]. specialize (U7 eq_refl). replace (4 <=? fingers_of n x) with false in U7 by (symmetry; apply Z.leb_gt; lia). destruct U7 as (V1 & V2 & V3 & V4).
  exists (kf (fingers_of n x)). split. { unfold button_for, kf. destruct (Z.eqb_spec (fingers_of n x) 1); [destruct (last_map l); reflexivity|]. destruct (Z.eqb_spec (fingers_of n x) 2); [destruct (last_map l); reflexivity|]. destruct (Z.eqb_spec (fingers_of n x) 3); [destruct (last_map l); reflexivity|lia]. }
  cbv zeta. rewrite MP in *. split; [constructor; auto|].
  - unfold s1, tap_inputs. rewrite run_app. rewrite (frames_len (goes x) _ n); [reflexivity| |].
    + apply frames_len; [exact LEN|]. intros f t I. rewrite (calm_len _ _ _ _ _ C1 I). apply repeat_length.
    + intros f t I. rewrite (calm_len _ _ _ _ _ C2 I), (downs_len _ _ _ C1). apply repeat_length.
  - unfold s1, tap_inputs. rewrite run_app, !frames_lock. exact D2.
  - auto 10.
Qed.

(** C53.  Tap-and-drag: a tap with one to three fingers and a finger put down within 180, 200 or 220 ms that moves or rests: the button stays pressed while the finger is down, and without drag lock is released when it is lifted. *)
Theorem C53_tap_and_drag : forall n pad en start l x y, idle_after n pad en start l -> last_drag l = true -> proper_tap n x -> proper n (drag_deadline n x) y -> drags y = true ->
  exists b, button_for (last_map l) (fingers_of n x) = Some b /\ let s := run (init n pad en) l in
  out (run s (tap_inputs x ++ put_down y)) = out s ++ [press b (pressed_at n x)] /\
  (last_draglock l = false -> out (run s (tap_inputs x ++ stroke_inputs y)) = out s ++ [press b (pressed_at n x); release b (t_end y)]).
Proof.
  intros n pad en start l x y I DR TX PY DY. destruct (after_tap n pad en start l x I DR TX) as (f & B & K & ST & TM & NF & O & SR). exists (button_of (last_map l) f). split; [exact B|]. cbv zeta in *.
  set (s := run (init n pad en) l) in *. set (s1 := run s (tap_inputs x)) in *. pose proof (put_down_spec n _ _ f _ y s1 K (or_introl ST) TM NF PY) as H. rewrite ST, DY in H. split.
  - rewrite run_app. fold s1. rewrite (h_out _ _ _ _ _ _ _ _ _ _ _ _ H). exact O.
  - intros LK. unfold stroke_inputs. rewrite !run_app. fold s1. rewrite LK in *. destruct (lift_spec n _ _ _ f _ _ y _ (or_introl eq_refl) PY _ _ _ H) as (_ & _ & _ & E). cbn [run fold_left]. rewrite E, O, <- app_assoc. reflexivity.
Qed.
Print Assumptions C53_tap_and_drag.

Lemma strokes_run : forall ys n m f d s o, kd n m true s -> st s = DRAGGING_WAIT f -> timer s = Some d -> nf s = 0 -> out s = o -> strokes_ok n d ys ->
  let s' := run s (concat (map stroke_inputs ys)) in kd n m true s' /\ st s' = DRAGGING_WAIT f /\ timer s' = Some (next_deadline d ys) /\ nf s' = 0 /\ out s' = o.
Proof.
  induction ys as [|y ys IH]; intros n m f d s o K ST TM NF O OK; [cbn; auto|]. cbn [strokes_ok] in OK. destruct OK as (P & D & OK). cbn [map concat next_deadline]. cbv zeta. rewrite run_app.
  pose proof (put_down_spec n _ _ f _ y s K (or_intror ST) TM NF P) as H. rewrite ST, D in H. destruct (lift_spec n _ _ _ f _ _ y _ (or_intror eq_refl) P _ _ _ H) as (A1 & A2 & A3 & A4 & A5).
  assert (E : run s (stroke_inputs y) = step (run s (put_down y)) (lift y)) by (unfold stroke_inputs; rewrite run_app; reflexivity). rewrite E. apply IH; auto. congruence.
Qed.
(** C53.  Drag lock: any number of strokes within 300 ms of each other drag with the button pressed; it is released 300 ms after the last, or when a finger that only taps is lifted. *)
Theorem C53_drag_lock : forall n pad en start l x y ys, idle_after n pad en start l -> last_drag l = true -> last_draglock l = true -> proper_tap n x ->
  proper n (drag_deadline n x) y -> drags y = true -> strokes_ok n (t_end y + 300000) ys ->
  exists b, button_for (last_map l) (fingers_of n x) = Some b /\ let s := run (init n pad en) l in let h := run s (tap_inputs x ++ stroke_inputs y ++ concat (map stroke_inputs ys)) in let d := next_deadline (t_end y + 300000) ys in
  out h = out s ++ [press b (pressed_at n x)] /\
  (forall t, out (step h (Timer t)) = out h ++ if d <=? t then [release b t] else []) /\
  (forall z, proper n d z -> drags z = false -> out (run h (put_down z)) = out h /\ out (run h (stroke_inputs z)) = out h ++ [release b (t_end z)]).
Proof.
  intros n pad en start l x y ys I DR LK TX PY DY OK. destruct (after_tap n pad en start l x I DR TX) as (f & B & K & ST & TM & NF & O & SR). exists (button_of (last_map l) f). split; [exact B|]. cbv zeta in *.
  set (s := run (init n pad en) l) in *. rewrite !run_app. set (s1 := run s (tap_inputs x)) in *. pose proof (put_down_spec n _ _ f _ y s1 K (or_introl ST) TM NF PY) as H. rewrite ST, DY in H. rewrite LK in *.
  destruct (lift_spec n _ _ _ f _ _ y _ (or_introl eq_refl) PY _ _ _ H) as (A1 & A2 & A3 & A4 & A5).
  assert (E : run s1 (stroke_inputs y) = step (run s1 (put_down y)) (lift y)) by (unfold stroke_inputs; rewrite run_app; reflexivity). rewrite E.
  destruct (strokes_run ys n _ f _ _ _ A1 A3 A5 A2 A4 OK) as (B1 & B2 & B3 & B4 & B5). set (h := run (step (run s1 (put_down y)) (lift y)) (concat (map stroke_inputs ys))) in *. clearbody h.
  split; [congruence|]. split.
  - intros t. cbn [step]. unfold timeout. rewrite B3. destruct (next_deadline (t_end y + 300000) ys <=? t); [|rewrite app_nil_r; reflexivity]. pose proof (k_map _ _ _ _ B1) as MP. clear - B2 MP. destruct h; cbn in *; subst. unfg. reflexivity.
  - intros z PZ DZ. pose proof (put_down_spec n _ _ f _ z h B1 (or_intror B2) B3 B4 PZ) as HZ. rewrite B2, DZ in HZ. split; [apply (h_out _ _ _ _ _ _ _ _ _ _ _ _ HZ)|].
    destruct (lift_spec n _ _ _ f _ _ z _ (or_intror eq_refl) PZ _ _ _ HZ) as (_ & _ & _ & EZ). unfold stroke_inputs. rewrite run_app. exact EZ.
Qed.
Print Assumptions C53_drag_lock.

(** C53.  Double tap: a finger put down in time that neither moves nor rests: the first button is released at the time its first finger was lifted, and the left one is pressed at the time the second finger came;
    it is released, at the time that finger was lifted, when 180 ms have passed. *)
Theorem C53_double_tap : forall n pad en start l x y, idle_after n pad en start l -> last_drag l = true -> proper_tap n x -> proper n (drag_deadline n x) y -> drags y = false ->
  exists b, button_for (last_map l) (fingers_of n x) = Some b /\ let s := run (init n pad en) l in let h := run s (tap_inputs x ++ stroke_inputs y) in
  out h = out s ++ [press b (pressed_at n x); release b (lifted_at n x); press LEFT (t_begin y)] /\
  forall t, out (step h (Timer t)) = out h ++ if t_end y + 180000 <=? t then [release LEFT (t_end y)] else [].
Proof.
  intros n pad en start l x y I DR TX PY DY. destruct (after_tap n pad en start l x I DR TX) as (f & B & K & ST & TM & NF & O & SR). exists (button_of (last_map l) f). split; [exact B|]. cbv zeta in *.
  set (s := run (init n pad en) l) in *. rewrite !run_app. set (s1 := run s (tap_inputs x)) in *. pose proof (put_down_spec n _ _ f _ y s1 K (or_introl ST) TM NF PY) as H. rewrite ST, DY in H.
  destruct (lift_spec n _ _ _ f _ _ y _ (or_introl eq_refl) PY _ _ _ H) as (A1 & A2 & A3 & A4 & A5 & A6).
  assert (E : run s1 (stroke_inputs y) = step (run s1 (put_down y)) (lift y)) by (unfold stroke_inputs; rewrite run_app; reflexivity). rewrite E. set (h := step (run s1 (put_down y)) (lift y)) in *. clearbody h. split.
  - rewrite A4, O, SR, <- app_assoc. reflexivity.
  - intros t. cbn [step]. unfold timeout. rewrite A6. destruct (t_end y + 180000 <=? t); [|rewrite app_nil_r; reflexivity]. clear - A3 A5. destruct h; cbn in *; subst. unfg. unfold release. destruct map_; reflexivity.
Qed.
Print Assumptions C53_double_tap.

(** Concrete cases: a finger taps from 1 to 50 ms and is put down again at 100 ms; it moves at 110 ms and is lifted at 500 ms, or is lifted at once; with drag lock it comes back at 700 ms. *)
Definition tap1 : calm_tap := {| comes := [([bg; no_], 1000)]; goes := [([en_; no_], 50000)] |}.
Definition stroke1 (h : list meanwhile) (t u : Z) : stroke := {| at_ := 0; behind := 1; looks := [t - 10000]; s_begin := bg; t_begin := t; s_hold := h; s_end := en_; t_end := u |}.
Lemma tap1_ok : proper_tap 2 tap1.
Proof.
  unfold proper_tap, fingers_of, tap1; cbn. refine (conj _ (conj _ (conj _ eq_refl))).
  - refine (conj _ (conj eq_refl (conj eq_refl I))). constructor; [cbn; auto|]. constructor; [cbn; auto|]. constructor.
  - refine (conj _ (conj eq_refl (conj eq_refl I))). constructor; [cbn; auto|]. constructor; [cbn; auto|]. constructor.
  - vm_compute. split; intros Q; discriminate Q.
Qed.
Lemma stroke1_ok : forall h t u d, t - 10000 < d -> (h = [] \/ h = [Moves (mov up_) 110000] \/ h = [Moves (mov up_) 720000]) -> proper 2 d (stroke1 h t u).
Proof.
  intros h t u d D H. unfold proper, stroke1, calm_finger; cbn. refine (conj eq_refl (conj _ (conj eq_refl (conj eq_refl (conj _ (conj _ (conj eq_refl (conj eq_refl (conj eq_refl _))))))))); auto. destruct H as [->|[->| ->]]; repeat constructor.
Qed.
Example drag_example : exists b, button_for LRM 1 = Some b /\ out (run (init 2 true true) (tap_inputs tap1 ++ stroke_inputs (stroke1 [Moves (mov up_) 110000] 100000 500000))) = [press b 1000; release b 500000].
Proof.
  destruct (C53_tap_and_drag 2 true true 0 [] tap1 (stroke1 [Moves (mov up_) 110000] 100000 500000)) as (b & B & _ & R); [repeat split|reflexivity|apply tap1_ok|apply stroke1_ok; [vm_compute; reflexivity|auto]|reflexivity|]. exists b. split; [exact B|apply R; reflexivity].
Qed.
Example lock_example : let y := stroke1 [Moves (mov up_) 110000] 100000 500000 in let ys := [stroke1 [Moves (mov up_) 720000] 700000 900000] in let z := stroke1 [] 1000000 1050000 in
  idle_after 2 true true 0 [SetDragLock true] /\ last_drag [SetDragLock true] = true /\ last_draglock [SetDragLock true] = true /\ proper_tap 2 tap1 /\ proper 2 (drag_deadline 2 tap1) y /\ drags y = true /\ strokes_ok 2 (t_end y + 300000) ys /\
  proper 2 (next_deadline (t_end y + 300000) ys) z /\ drags z = false /\
  out (run (init 2 true true) ([SetDragLock true] ++ tap_inputs tap1 ++ stroke_inputs y ++ concat (map stroke_inputs ys) ++ [Timer 1199999])) = [press LEFT 1000] /\
  out (run (init 2 true true) ([SetDragLock true] ++ tap_inputs tap1 ++ stroke_inputs y ++ concat (map stroke_inputs ys) ++ [Timer 1200000])) = [press LEFT 1000; release LEFT 1200000] /\
  out (run (init 2 true true) ([SetDragLock true] ++ tap_inputs tap1 ++ stroke_inputs y ++ concat (map stroke_inputs ys) ++ stroke_inputs z)) = [press LEFT 1000; release LEFT 1050000].
Proof.
  cbv zeta. split; [repeat split|]. split; [reflexivity|]. split; [reflexivity|]. split; [apply tap1_ok|]. split; [apply stroke1_ok; [vm_compute; reflexivity|auto]|]. split; [reflexivity|].
  split; [cbn [strokes_ok]; split; [apply stroke1_ok; [vm_compute; reflexivity|auto]|]; split; [reflexivity|exact I]|]. split; [apply stroke1_ok; [vm_compute; reflexivity|auto]|]. vm_compute. repeat split.
Qed.
Example double_example : exists b, button_for LRM 1 = Some b /\ out (run (init 2 true true) (tap_inputs tap1 ++ stroke_inputs (stroke1 [] 100000 140000))) = [press b 1000; release b 50000; press LEFT 100000].
Proof.
  destruct (C53_double_tap 2 true true 0 [] tap1 (stroke1 [] 100000 140000)) as (b & B & R & _); [repeat split|reflexivity|apply tap1_ok|apply stroke1_ok; [vm_compute; reflexivity|auto]|reflexivity|]. exists b. split; [exact B|exact R].
Qed.
