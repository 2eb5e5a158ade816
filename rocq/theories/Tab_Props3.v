(** * Tablet tools: the values of the axes (C44) *)
Require Import Coq.ZArith.ZArith Coq.QArith.QArith Coq.QArith.Qminmax Coq.Lists.List Coq.Bool.Bool Coq.micromega.Lia Coq.micromega.Lqa.
From Verif Require Import Tab_Model Tab_Spec Tab_Spec2 Tab_Proofs7 Tab_Proofs8 Tab_Proofs9 Tab_Props Tab_Props2.
Import ListNotations.
Open Scope Z_scope.

(** Every axis value of every event lies in its documented range *)
Theorem C44_ranges : forall d n w l e a, sane d -> fair d w l -> In e (outs d n w l) -> axes_of e = Some a -> in_ranges d a.
Proof.
  intros d n w l e a SA (V & GL & F) IN A. unfold outs in IN. destruct (run d n (start d w) l) as [s out] eqn:E. cbn [snd] in IN.
  destruct (run_G d n l _ _ _ SA F (start_G d w SA V GL) E) as [_ O]. rewrite Forall_forall in O. exact (O e IN a A).
Qed.
Print Assumptions C44_ranges.
(** An axis an event says has changed has the kernel's last value, scaled: from 0 or -1 at the one end of its range (for the pressure, from the tool's
    threshold or offset) to 1 at the other.  Of frames in which no tool leaves *)
Theorem C44_news : forall d n w l i new e a, outs d n w (l ++ [i]) = (outs d n w l ++ new)%list -> (forall x, In x new -> is_leave x = false) -> In e new -> axes_of e = Some a ->
  (news e SLIDER = true -> (slider a == 2 * part (amin d SLIDER) (amax d SLIDER) (kernel d w l SLIDER) - 1)%Q) /\
  (news e DISTANCE = true -> (distance a == part (amin d DISTANCE) (amax d DISTANCE) (kernel d w l DISTANCE))%Q) /\
  (news e PRESSURE = true -> exists o, tool_of e = Some o /\ (pressure a == Qmax 0 (part (if p_has o then p_offset o else p_upper o) (amax d PRESSURE) (kernel d w l PRESSURE)))%Q).
Proof.
  intros d n w l i new e a H NL IN A. assert (E : new = snd (step d n (final d n w l) i)).
  { unfold outs in H at 1. rewrite run_snoc in H. cbn [snd] in H. apply app_inv_head in H. symmetry. exact H. }
  destruct (step d n (final d n w l) i) as [s' out] eqn:ES. cbn [snd] in E. subst out. destruct (step_fresh _ _ _ _ _ _ ES) as [_ F]. specialize (F NL). rewrite Forall_forall in F. destruct (F e IN a A) as (P1 & P2 & P3).
  assert (K : absv (final d n w l) = kernel d w l). { unfold final. rewrite run_kernel, start_absv. reflexivity. }
  rewrite K in *. refine (conj _ (conj _ _)).
  - intros N. rewrite (P1 N). unfold norm_slider, unit_range, ratio, part. lra.
  - intros N. rewrite (P2 N). reflexivity.
  - intros N. destruct (P3 N) as (o & T & P). exists o. split; [destruct e; try discriminate T; exact T|]. rewrite P. unfold norm_pressure. cbv zeta. set (off := if p_has o then p_offset o else p_upper o). fold (part off (amax d PRESSURE) (kernel d w l PRESSURE)).
    unfold ratio. fold (part off (amax d PRESSURE) (kernel d w l PRESSURE)). generalize (part off (amax d PRESSURE) (kernel d w l PRESSURE)). intros q. destruct (Qle_bool q 0) eqn:EQ.
    + apply Qle_bool_iff in EQ. rewrite (Q.max_l 0 q EQ). reflexivity.
    + destruct (Qlt_le_dec 0 q) as [L | L]; [|apply Qle_bool_iff in L; congruence]. rewrite Q.max_r; [reflexivity | lra].
Qed.
Print Assumptions C44_news.
(** The remainder modulo 360 is only ever taken of numbers that are not negative, where C's fmod is the one of the model *)
Theorem C44_fmod_arguments : forall d v x y r, amin d ROTATION_Z <= v -> amin d ROTATION_Z < amax d ROTATION_Z -> (0 <= r)%Q -> (-180 <= atan2_deg d (- x) y)%Q ->
  (0 <= ratio (v - amin d ROTATION_Z) (amax d ROTATION_Z - amin d ROTATION_Z + 1) * 360 + 90)%Q /\ (0 <= 360 + (if Qeq_bool x 0 && Qeq_bool y 0 then 0 else atan2_deg d (- x) y) - 5)%Q /\ (0 <= 180 + r)%Q.
Proof.
  intros d v x y r H L R A. refine (conj _ (conj _ _)); [|destruct (Qeq_bool x 0 && Qeq_bool y 0); lra | lra].
  assert (Q0 : (0 <= ratio (v - amin d ROTATION_Z) (amax d ROTATION_Z - amin d ROTATION_Z + 1))%Q). { unfold ratio. apply Qle_shift_div_l; [apply (inj_lt 0); lia|]. rewrite Qmult_0_l. apply (inj_le 0). lia. }
  lra.
Qed.
Print Assumptions C44_fmod_arguments.

(** ** Examples: the values of a pen that comes, touches, is pressed harder and leaves *)
Definition pen_pad : device :=
  {| has_abs := fun a => match a with X | Y | DISTANCE | PRESSURE | TILT_X | TILT_Y | SLIDER => true | _ => false end; amin := fun a => match a with TILT_X | TILT_Y => -60 | _ => 0 end;
     amax := fun a => match a with DISTANCE => 63 | PRESSURE => 2047 | TILT_X | TILT_Y => 60 | SLIDER => 100 | _ => 20000 end;
     ares := fun a => match a with X | Y => 100 | _ => 0 end; afuzz := fun _ => 0; has_key := fun c => (c =? BTN_STYLUS);
     has_tool_pen := true; has_tool_mouse := false; has_tool_lens := false; vendor_wacom := true; styli := fun _ => None; quirk_range := None;
     calibrate := fun p => p; accel := fun _ _ p => (inject_Z (fst p), inject_Z (snd p)); wheel_angle := 15; deg_per_rad := 180 / 3; atan2_deg := fun _ _ => 0%Q; hsize := 4; reversible := true |}.
Definition strokes : list input :=
  [ITool PEN true; IAbs X 100; IAbs Y 100; IAbs DISTANCE 21; IAbs SLIDER 75; IAbs TILT_X 30; ISyn 1000; IAbs PRESSURE 2047; IAbs DISTANCE 0; ISyn 2000; IAbs PRESSURE 1000; ISyn 3000; IAbs PRESSURE 0; ITool PEN false; ISyn 4000].
Definition values (e : tev) : list (Q * Q * Q * Q) := match axes_of e with Some a => [(Qred (pressure a), Qred (distance a), Qred (slider a), Qred (fst (tilt a)))] | None => [] end.
(** (1000 - 102) / (2047 - 102): the pen's threshold is 5 % of the range *)
Example strokes_values : flat_map values (outs pen_pad 2 demo_w strokes) =
  [(0, 1 # 3, 1 # 2, 32); (1, 0, 1 # 2, 32); (898 # 1945, 0, 1 # 2, 32); (898 # 1945, 0, 1 # 2, 32); (898 # 1945, 0, 1 # 2, 32)]%Q.
Proof. vm_compute. reflexivity. Qed.
Example pen_pad_sane : sane pen_pad /\ fair pen_pad demo_w strokes.
Proof.
  split.
  - unfold sane. refine (conj _ (conj _ (conj _ (conj _ (conj _ _))))).
    + intros a _. destruct a; cbn; lia.
    + intros _. cbn. lia.
    + intros lo hi X. discriminate X.
    + reflexivity.
    + vm_compute. discriminate.
    + cbn. lia.
  - refine (conj _ (conj (Forall_nil _) _)); [intros a _; destruct a; cbn; lia|]. unfold strokes. repeat constructor; cbn; lia.
Qed.

(** ** Where more would be false *)
(** When a tool leaves, the tip-up event says that the pressure has changed, but carries the old pressure *)
Theorem C44_news_leaving_refuted : ~ forall d n w l i new e a, sane d -> fair d w (l ++ [i]) -> outs d n w (l ++ [i]) = (outs d n w l ++ new)%list -> In e new -> axes_of e = Some a -> news e PRESSURE = true ->
  exists o, tool_of e = Some o /\ (pressure a == Qmax 0 (part (if p_has o then p_offset o else p_upper o) (amax d PRESSURE) (kernel d w l PRESSURE)))%Q.
Proof.
  intros H. set (l := removelast strokes). set (i := ISyn 4000).
  assert (L : exists o ch a rest, outs pen_pad 2 demo_w (l ++ [i]) = (outs pen_pad 2 demo_w l ++ ETip 4000 o false ch a :: rest)%list /\ ch PRESSURE = true /\ kernel pen_pad demo_w l PRESSURE = 0 /\ Qle_bool (pressure a) 0 = false /\ p_has o = false /\ p_upper o = 102).
  { unfold l, i, strokes, outs, demo_w. vm_compute. do 4 eexists. split; [reflexivity|]. repeat split; reflexivity. }
  destruct L as (o & ch & a & rest & E & C & K & P & PH & PU). destruct (H pen_pad 2%nat demo_w l i _ (ETip 4000 o false ch a) a (proj1 pen_pad_sane) (proj2 pen_pad_sane) E (or_introl eq_refl) eq_refl C) as (o' & T & X).
  injection T as <-. rewrite K, PH, PU in X. assert (Y : (Qmax 0 (part 102 (amax pen_pad PRESSURE) 0) == 0)%Q) by (vm_compute; reflexivity). rewrite Y in X.
  assert (Z0 : Qle_bool (pressure a) 0 = true) by (apply Qle_bool_iff; rewrite X; lra). congruence.
Qed.
Print Assumptions C44_news_leaving_refuted.
(** A tool with a serial number keeps the threshold of the tablet it was first seen on: on a tablet with a smaller range its pressure exceeds 1 *)
Definition small_pad : device :=
  {| has_abs := has_abs pen_pad; amin := amin pen_pad; amax := fun a => match a with PRESSURE => 255 | _ => amax pen_pad a end; ares := ares pen_pad; afuzz := afuzz pen_pad; has_key := has_key pen_pad;
     has_tool_pen := true; has_tool_mouse := false; has_tool_lens := false; vendor_wacom := true; styli := fun _ => None; quirk_range := None;
     calibrate := fun p => p; accel := accel pen_pad; wheel_angle := 15; deg_per_rad := 180 / 3; atan2_deg := fun _ _ => 0%Q; hsize := 4; reversible := true |}.
(** ... as made by a tablet with 8192 levels *)
Definition big_tool : tool := Tool 0 PEN 77 0 (fun a => match a with X | Y | PRESSURE | DISTANCE => true | _ => false end) (fun _ => false) 0 false 81 409.
Theorem C44_foreign_tool_refuted : ~ forall d n w l e a, sane d -> within d (w_values w) -> Forall (fair_input d) l -> In e (outs d n w l) -> axes_of e = Some a -> (pressure a <= 1)%Q.
Proof.
  intros H. set (w := {| w_globals := [big_tool]; w_values := fun _ => 0; w_down := fun _ => false; w_misc := 0; w_now := 0 |}). set (l := [ITool PEN true; IAbs X 100; IAbs PRESSURE 10; ISerial 77; ISyn 1000]).
  assert (L : exists o ch a rest, outs small_pad 2 w l = EProx 1000 o true ch a :: rest /\ Qle_bool (pressure a) 1 = false).
  { unfold outs, w, l. vm_compute. do 4 eexists. split; reflexivity. }
  destruct L as (o & ch & a & rest & E & P).
  assert (S1 : sane small_pad).
  { refine (conj _ (conj _ (conj _ (conj _ (conj _ _))))); [intros x _; destruct x; cbn; lia | intros _; cbn; lia | intros lo hi Y; discriminate Y | reflexivity | vm_compute; discriminate | cbn; lia]. }
  assert (S2 : within small_pad (w_values w)) by (intros x _; destruct x; cbn; lia).
  assert (S3 : Forall (fair_input small_pad) l) by (unfold l; repeat constructor; cbn; lia).
  pose proof (H small_pad 2%nat w l (EProx 1000 o true ch a) a S1 S2 S3) as X. rewrite E in X. specialize (X (or_introl eq_refl) eq_refl).
  apply Qle_bool_iff in X. congruence.
Qed.
Print Assumptions C44_foreign_tool_refuted.
