(** * C52: noise of a touchpad does not move the pointer, and motion is not lost *)
Require Import Coq.ZArith.ZArith Coq.QArith.QArith Coq.Lists.List Coq.Bool.Bool Coq.micromega.Lia Coq.micromega.Lqa.
Require Import Verif.Jit_Model Verif.Jit_Spec Verif.Jit_Proofs Verif.Jit_Proofs2 Verif.Jit_Proofs3 Verif.Jit_Proofs4.
Import ListNotations.
Open Scope Z_scope.

(** A touchpad with 40 and 20 units/mm *)
Definition cfg0 : cfg := {| rx := 40; ry := 20; mx := 10; my := 5; nojump := false; testdev := false; alps := false; t450 := false; clickpad := true |}.
Definition touch0 : touch := {| pt := (0, 0); hist := []; dsq := 0; xh := 0; center := (0, 0); pinned := false; pcenter := (0, 0); again := false |}.
Definition pad0 (h : bool) : pad := {| hyst := h; mtime := 0; nonmotion := 0; oldn := 0; touches := [touch0; touch0] |}.
Definition none : up := {| u_new := false; u_none := true; u_end := false; u_dirty := false; u_x := None; u_y := None |}.
Definition at_ (new : bool) (x y : Z) : up := {| u_new := new; u_none := false; u_end := false; u_dirty := true; u_x := Some x; u_y := Some y |}.
Definition fr (z : Z) (n : nat) (l : list up) : frame := {| time := z; nf := n; motion := true; other := false; press := false; begins := false; ups := l |}.
Definition one (z : Z) (new : bool) (x y : Z) : frame := fr z 1 [at_ new x y; none].
Definition motions (c : cfg) (i : nat) (s : pad) (l : list frame) : list (Z * Z) :=
  snd (fold_left (fun a f => let s1 := step c (fst a) f in (s1, snd a ++ [match nth_error (touches s1) i with Some t => delta t | None => (0, 0) end])) l (s, [])).
Ltac there_ := eexists; split; [reflexivity |]; split; [reflexivity |]; split; [reflexivity |]; intros; reflexivity.
Ltac stays_ := split; [eexists; split; reflexivity |]; let g := fresh in let H := fresh in intros g H; repeat (destruct H as [H|H]; [subst; there_ |]); destruct H.

(** ** Jumps *)
(** However the finger's coordinates jump, the pointer does not move more than 20 mm in 12 ms, with a finger that has been there since hysteresis was last switched *)
Theorem C52_no_jump : forall c i l f s t1, stays i (l ++ [f]) -> l <> [] -> (exists t, finger i s t) -> hyst (run c s (l ++ [f])) = hyst s -> 0 <= mx c -> 0 <= my c -> 0 < rx c -> 0 < ry c ->
  nojump c = false -> testdev c = false -> 0 < time f - last_time l <= 30000 -> finger i (run c s (l ++ [f])) t1 -> at_most c 20 (delta t1) (time f - last_time l).
Proof.
  intros c i l f s t1 S N T H MX MY RX RY NJ TD TM F. destruct (last_frame c i l f s S N T H) as [t [t1' [u [F0 [F1 [U [K [K1 C]]]]]]]]. rewrite (finger_fun _ _ _ _ F1 F) in *. clear t1' F1.
  destruct C as [C|[_ C]]; [rewrite (restarts_delta _ _ _ _ _ C); apply at_most_zero; assumption |]. rewrite (moves_delta _ _ _ _ _ _ _ C K). destruct C as [_ [_ [_ C]]]. destruct K as [[r K] KC]. destruct (u_dirty u).
  - destruct C as [tj [J [P _]]]. destruct (no_jump_found c (with_pt t (said (pt t) u)) (time f) tj (pt t) (last_time l) r J NJ TD K TM) as [A _]. cbn [with_pt pt] in A. assert (B : at_most c 20 (sub (said (pt t) u) (pt t)) (time f - last_time l)) by (apply at_most_of; [lia | exact A]). rewrite P. destruct (hyst s); [| exact B]. rewrite (KC eq_refl). destruct (hysteresis_spec (mx c) (my c) (said (pt t) u) (pt t) MX MY). apply (at_most_smaller c 20 _ (pt t) (said (pt t) u)); assumption.
  - destruct C as [P _]. rewrite P. unfold sub. rewrite !Z.sub_diag. apply at_most_zero; assumption.
Qed.
Print Assumptions C52_no_jump.
Definition jump_ : list frame := [one 1000 true 1000 1000; one 13000 false 1000 1000; one 25000 false 1080 1000; one 37000 false 3000 1000; one 49000 false 3080 1000].
Example C52_no_jump_ex : stays 0 jump_ /\ motions cfg0 0 (pad0 false) jump_ = [(0, 0); (0, 0); (80, 0); (0, 0); (80, 0)] /\ hyst (run cfg0 (pad0 false) jump_) = false.
Proof. split; [stays_ | split; reflexivity]. Qed.

(** Nor does its speed grow by more than 7 mm per 12 ms from one frame to the next *)
Theorem C52_no_burst : forall c i l f g s t1 t2 v, stays i (l ++ [f; g]) -> l <> [] -> (exists t, finger i s t) -> hyst s = false -> hyst (run c s (l ++ [f; g])) = false -> 0 < rx c -> 0 < ry c ->
  nojump c = false -> testdev c = false -> 0 < time f - last_time l <= 30000 -> 0 < time g - time f <= 30000 -> finger i (run c s (l ++ [f])) t1 -> finger i (run c s (l ++ [f; g])) t2 ->
  (0 <= v)%Q -> delta t1 <> (0, 0) -> at_most c v (delta t1) (time f - last_time l) -> at_most c (v + 7) (delta t2) (time g - time f).
Proof.
  intros c i l f g s t1 t2 v S N T H0 H RX RY NJ TD TM1 TM2 F1 F2 V ND AM. change [f; g] with ([f] ++ [g]) in *. rewrite app_assoc in *. assert (N2 : l ++ [f] <> []) by (destruct l; discriminate). rewrite <- H0 in H.
  destruct (last_frame c i (l ++ [f]) g s S N2 T H) as [t [t2' [u2 [G0 [G1 [U2 [K [K2 C2]]]]]]]]. rewrite (finger_fun _ _ _ _ G1 F2), (finger_fun _ _ _ _ G0 F1) in *. clear t G0 t2' G1.
  destruct (stays_snoc i (l ++ [f]) g S N2) as [S1 _]. destruct (last_frame c i l f s S1 N T (hyst_before _ _ _ _ H)) as [t0 [t1' [u1 [G0 [G1 [U1 [K0 [K1 C1]]]]]]]]. rewrite (finger_fun _ _ _ _ G1 F1) in *. clear t1' G1.
  assert (LT : last_time (l ++ [f]) = time f) by (unfold last_time; rewrite rev_app_distr; reflexivity). rewrite LT in *. rewrite H0 in *.
  destruct C2 as [C2|[_ C2]]; [rewrite (restarts_delta _ _ _ _ _ C2); apply at_most_zero; assumption |]. rewrite (moves_delta _ _ _ _ _ _ _ C2 K).
  destruct C1 as [C1|[_ C1]]; [rewrite (restarts_delta _ _ _ _ _ C1) in ND; contradiction |]. rewrite (moves_delta _ _ _ _ _ _ _ C1 K0) in AM, ND.
  destruct C2 as [_ [_ [_ C2]]]. destruct (u_dirty u2); [| destruct C2 as [P _]; rewrite P; unfold sub; rewrite !Z.sub_diag; apply at_most_zero; assumption].
  destruct C1 as [_ [_ [_ C1]]]. destruct (u_dirty u1); [| destruct C1 as [P _]; rewrite P in ND; unfold sub in ND; rewrite !Z.sub_diag in ND; contradiction].
  destruct C1 as [j1 [J1 [P1 D1]]]. destruct C2 as [j2 [J2 [P2 _]]]. destruct K0 as [[r0 K0] _]. destruct K as [[r K] _].
  destruct (no_jump_found c (with_pt t0 (said (pt t0) u1)) (time f) j1 (pt t0) (last_time l) r0 J1 NJ TD K0 TM1) as [_ [_ [A1 _]]]. destruct (no_jump_found c (with_pt t1 (said (pt t1) u2)) (time g) j2 (pt t1) (time f) r J2 NJ TD K TM2) as [_ [A2 _]]. cbn [with_pt pt dsq] in A1, A2. rewrite <- P1 in A1. rewrite <- P2 in A2. rewrite D1 in A2.
  apply at_most_of; [lia |]. refine (not_grew _ (dsq j1) v _ V _ A2).
  - rewrite A1. apply Qmult_le_0_compat; [apply mmsq_nonneg | apply sq_nonneg].
  - rewrite A1. apply at_most_to; [lia | exact AM].
Qed.
Print Assumptions C52_no_burst.
Definition burst_ : list frame := [one 1000 true 1000 1000; one 13000 false 1000 1000; one 25000 false 1200 1000; one 37000 false 1640 1000; one 49000 false 2400 1000].
Example C52_no_burst_ex : stays 0 burst_ /\ motions cfg0 0 (pad0 false) burst_ = [(0, 0); (0, 0); (200, 0); (440, 0); (0, 0)] /\ hyst (run cfg0 (pad0 false) burst_) = false.
Proof. split; [stays_ | split; reflexivity]. Qed.

(** The first motion of a finger is at most 7 mm in 12 ms *)
Theorem C52_first_motion : forall c i f g s t2, stays i [f; g] -> (exists t, finger i s t) -> hyst (run c s [f; g]) = hyst s -> 0 <= mx c -> 0 <= my c -> 0 < rx c -> 0 < ry c -> nojump c = false -> testdev c = false -> 0 < time g - time f <= 30000 ->
  finger i (run c s [f; g]) t2 -> at_most c 7 (delta t2) (time g - time f).
Proof.
  intros c i f g s t2 S [t0 T] H MX MY RX RY NJ TD TM F. destruct (last_frame c i [f] g s S ltac:(discriminate) (ex_intro _ t0 T) H) as [t [t2' [u [F0 [F1 [U [K [K2 C]]]]]]]]. rewrite (finger_fun _ _ _ _ F1 F) in *. clear t2' F1. cbn in F0. change (last_time [f]) with (time f) in *.
  destruct C as [C|[_ C]]; [rewrite (restarts_delta _ _ _ _ _ C); apply at_most_zero; assumption |]. rewrite (moves_delta _ _ _ _ _ _ _ C K).
  destruct S as [[u0 [U0 N0]] B]. destruct (B f (or_introl eq_refl)) as [u0' [U0' [A1 [_ A3]]]]. rewrite (of_fun _ _ _ _ U0' U0) in *. destruct (dsq_step c s f i t0 u0 T U0 A1) as [t1 [F1 [_ [Z1 _]]]]. rewrite (finger_fun _ _ _ _ F0 F1) in *. specialize (Z1 (A3 (or_introl N0)) NJ (or_introl N0)).
  destruct C as [_ [_ [_ C]]]. destruct K as [[r K] KC]. destruct (u_dirty u); [| destruct C as [P _]; rewrite P; unfold sub; rewrite !Z.sub_diag; apply at_most_zero; assumption].
  destruct C as [tj [J [P _]]]. destruct (no_jump_found c (with_pt t1 (said (pt t1) u)) (time g) tj (pt t1) (time f) r J NJ TD K TM) as [_ [A _]]. cbn [with_pt pt dsq] in A. rewrite Z1 in A.
  assert (X : at_most c 7 (sub (said (pt t1) u) (pt t1)) (time g - time f)). { apply at_most_of; [lia |]. pose proof (not_grew _ 0%Q 0%Q ltac:(lra) ltac:(lra) ltac:(lra) A). lra. }
  rewrite P. destruct (hyst s); [| exact X]. rewrite (KC eq_refl). destruct (hysteresis_spec (mx c) (my c) (said (pt t1) u) (pt t1) MX MY). apply (at_most_smaller c 7 _ (pt t1) (said (pt t1) u)); assumption.
Qed.
Print Assumptions C52_first_motion.
(** ... in the second frame, and in the third, if the number of fingers changed in the first *)
Theorem C52_first_motion_counted : forall c i f g k s t3, stays i [f; g; k] -> (exists t, finger i s t) -> hyst (run c s [f; g; k]) = hyst s -> 0 <= mx c -> 0 <= my c -> 0 < rx c -> 0 < ry c -> nojump c = false -> testdev c = false -> nf f <> oldn s -> 0 < time k - time g <= 30000 ->
  finger i (run c s [f; g; k]) t3 -> at_most c 7 (delta t3) (time k - time g).
Proof.
  intros c i f g k s t3 S [t0 T] H MX MY RX RY NJ TD NF TM F. destruct (last_frame c i [f; g] k s S ltac:(discriminate) (ex_intro _ t0 T) H) as [t [t3' [u [F0 [F1 [U [K [K3 C]]]]]]]]. rewrite (finger_fun _ _ _ _ F1 F) in *. clear t3' F1. cbn in F0. change (last_time [f; g]) with (time g) in *.
  destruct C as [C|[_ C]]; [rewrite (restarts_delta _ _ _ _ _ C); apply at_most_zero; assumption |]. rewrite (moves_delta _ _ _ _ _ _ _ C K).
  destruct S as [[u0 [U0 N0]] B]. destruct (B f (or_introl eq_refl)) as [u0' [U0' [A1 [_ A3]]]]. rewrite (of_fun _ _ _ _ U0' U0) in *. destruct (dsq_step c s f i t0 u0 T U0 A1) as [t1 [F1 [_ [Z1 [_ Z2]]]]]. specialize (Z1 (A3 (or_introl N0)) NJ (or_introl N0)).
  assert (R1 : fst (fst (need_reset c s f)) = true) by (unfold need_reset; apply Nat.eqb_neq in NF; rewrite NF; reflexivity). rewrite R1 in Z2.
  destruct (B g (or_intror (or_introl eq_refl))) as [u1 [U1 [B1 _]]]. destruct (dsq_step c (step c s f) g i t1 u1 F1 U1 B1) as [t2 [F2 [Y1 [Y2 _]]]]. rewrite (finger_fun _ _ _ _ F0 F2) in *.
  assert (D2 : dsq t2 = 0%Q) by (destruct (u_dirty u1); [apply Y2; auto | rewrite Y1; auto]).
  destruct C as [_ [_ [_ C]]]. destruct K as [[r K] KC]. destruct (u_dirty u); [| destruct C as [P _]; rewrite P; unfold sub; rewrite !Z.sub_diag; apply at_most_zero; assumption].
  destruct C as [tj [J [P _]]]. destruct (no_jump_found c (with_pt t2 (said (pt t2) u)) (time k) tj (pt t2) (time g) r J NJ TD K TM) as [_ [A _]]. cbn [with_pt pt dsq] in A. rewrite D2 in A.
  assert (X : at_most c 7 (sub (said (pt t2) u) (pt t2)) (time k - time g)). { apply at_most_of; [lia |]. pose proof (not_grew _ 0%Q 0%Q ltac:(lra) ltac:(lra) ltac:(lra) A). lra. }
  rewrite P. destruct (hyst s); [| exact X]. rewrite (KC eq_refl). destruct (hysteresis_spec (mx c) (my c) (said (pt t2) u) (pt t2) MX MY). apply (at_most_smaller c 7 _ (pt t2) (said (pt t2) u)); assumption.
Qed.
Print Assumptions C52_first_motion_counted.
Example C52_first_motion_ex : motions cfg0 0 (pad0 false) [one 1000 true 1000 1000; one 13000 false 1000 1000; one 25000 false 1280 1000] = [(0, 0); (0, 0); (280, 0)] /\ motions cfg0 0 (pad0 false) [one 1000 true 1000 1000; one 13000 false 1000 1000; one 25000 false 1281 1000] = [(0, 0); (0, 0); (0, 0)].
Proof. split; reflexivity. Qed.

(** ALPS touchpads that say (4095, 0) do not move the pointer *)
Theorem C52_alps : forall c i l f s t1 t u, stays i (l ++ [f]) -> l <> [] -> (exists t, finger i s t) -> hyst (run c s (l ++ [f])) = hyst s ->
  nojump c = false -> testdev c = false -> alps c = true -> 0 < time f - last_time l <= 30000 -> finger i (run c s l) t -> of i f u -> said (pt t) u = (4095, 0) -> finger i (run c s (l ++ [f])) t1 -> delta t1 = (0, 0).
Proof.
  intros c i l f s t1 t u S N T H NJ TD AL TM F U SD F1. destruct (last_frame c i l f s S N T H) as [t' [t1' [u' [G0 [G1 [U' [K [K1 C]]]]]]]]. rewrite (finger_fun _ _ _ _ G1 F1), (finger_fun _ _ _ _ G0 F), (of_fun _ _ _ _ U' U) in *. clear t1' t' u' G0 G1 U'.
  destruct C as [C|[_ C]]; [exact (restarts_delta _ _ _ _ _ C) |]. rewrite (moves_delta _ _ _ _ _ _ _ C K). destruct C as [_ [_ [_ C]]]. destruct (u_dirty u).
  - destruct C as [tj [J _]]. destruct K as [[r K] _]. destruct (no_jump_found c (with_pt t (said (pt t) u)) (time f) tj (pt t) (last_time l) r J NJ TD K TM) as [_ [_ [_ X]]]. exfalso. apply X. split; [exact AL | exact SD].
  - destruct C as [P _]. rewrite P. unfold sub. rewrite !Z.sub_diag. reflexivity.
Qed.
Print Assumptions C52_alps.
Definition alps0 : cfg := {| rx := 40; ry := 20; mx := 10; my := 5; nojump := false; testdev := false; alps := true; t450 := false; clickpad := true |}.
Example C52_alps_ex : motions alps0 0 (pad0 false) [one 1000 true 4000 2; one 13000 false 4000 2; one 25000 false 4095 0; one 37000 false 4010 2] = [(0, 0); (0, 0); (0, 0); (10, 0)] /\ motions cfg0 0 (pad0 false) [one 1000 true 4000 2; one 13000 false 4000 2; one 25000 false 4095 0; one 37000 false 4010 2] = [(0, 0); (0, 0); (95, -2); (-85, 2)].
Proof. split; reflexivity. Qed.

(** ** Rest *)
(** With hysteresis, a finger that trembles inside the margin does not move the pointer, ever *)
Theorem C52_rest : forall c i s f g l t, nojump c = false -> testdev c = false -> alps c = false -> t450 c = false -> 0 < mx c -> 0 < my c -> hyst s = true -> stays i (f :: g :: l) -> same_fingers (f :: g :: l) -> (exists t0, finger i s t0) ->
  finger i (run c s [f; g]) t -> rests c i (pt t) (time g) l -> exists t1, finger i (run c s (f :: g :: l)) t1 /\ pt t1 = pt t /\ (l <> [] -> delta t1 = (0, 0)).
Proof.
  intros c i s f g l t NJ TD AL T4 MX MY H S SF [t0 T] F R.
  assert (HE : hyst (run c s [f; g]) = hyst s) by (rewrite H; apply run_mono; exact H).
  destruct (two_frames c i s f g l t0 T4 NJ S T (SF g f (or_intror (or_introl eq_refl)) (or_introl eq_refl)) HE) as [t' [F' [K [A D]]]]. rewrite (finger_fun _ _ _ _ F' F) in *. clear t' F'. rewrite H in *.
  change (run c s (f :: g :: l)) with (run c (run c s [f; g]) l). apply (rest_from c i NJ TD AL T4 MX MY l _ t (time g)); try assumption.
  - intros k K1. cbn. rewrite step_oldn. apply SF; cbn; auto.
  - intros k K1. destruct S as [_ S]. apply S. cbn. auto.
Qed.
Print Assumptions C52_rest.
Definition tremble_ : list frame := [one 1000 true 1000 1000; one 13000 false 1000 1000; one 25000 false 1009 1000; one 37000 false 991 1001; one 49000 false 1004 1004].
Example C52_rest_ex : stays 0 tremble_ /\ same_fingers tremble_ /\ rests cfg0 0 (1000, 1000) 13000 (skipn 2 tremble_) /\ motions cfg0 0 (pad0 true) tremble_ = [(0, 0); (0, 0); (0, 0); (0, 0); (0, 0)] /\ motions cfg0 0 (pad0 false) tremble_ = [(0, 0); (0, 0); (9, 0); (-18, 1); (13, 3)].
Proof.
  split; [stays_ |]. split; [intros f g; intros A B; repeat (destruct A as [A|A]; [subst; repeat (destruct B as [B|B]; [subst; reflexivity |]); destruct B |]); destruct A |]. split; [| split; reflexivity].
  cbn [tremble_ skipn rests]. repeat (eexists; split; [reflexivity |]; split; [reflexivity |]; split; [reflexivity |]; split; [right; right; split; [reflexivity |]; unfold at_most, Qle; cbn; discriminate |]). exact I.
Qed.

(** A single frame: inside the margin of where it was last, no motion *)
Theorem C52_small : forall c i l f s t t1 u, stays i (l ++ [f]) -> l <> [] -> (exists t, finger i s t) -> hyst s = true -> 0 < mx c -> 0 < my c -> finger i (run c s l) t -> of i f u -> inside c (said (pt t) u) (pt t) -> finger i (run c s (l ++ [f])) t1 -> delta t1 = (0, 0).
Proof.
  intros c i l f s t t1 u S N T H MX MY F U IN F1. assert (HE : hyst (run c s (l ++ [f])) = hyst s) by (rewrite H; apply run_mono; exact H). destruct (last_frame c i l f s S N T HE) as [t' [t1' [u' [G0 [G1 [U' [K [K1 C]]]]]]]]. rewrite (finger_fun _ _ _ _ G1 F1), (finger_fun _ _ _ _ G0 F), (of_fun _ _ _ _ U' U), H in *. clear t1' t' u' G0 G1 U'.
  destruct C as [C|[_ C]]; [exact (restarts_delta _ _ _ _ _ C) |]. rewrite (moves_delta _ _ _ _ _ _ _ C K). destruct C as [_ [_ [_ C]]]. destruct K as [_ KC]. assert (P : pt t1 = pt t). { destruct (u_dirty u); [destruct C as [tj [_ [P _]]]; rewrite P, (KC eq_refl); apply hysteresis_inside; assumption | destruct C as [P _]; exact P]. } rewrite P. unfold sub. rewrite !Z.sub_diag. reflexivity.
Qed.
Print Assumptions C52_small.

(** ** Fingers that come and go *)
(** When the number of fingers changes, no finger moves anything in that frame or in the next *)
Theorem C52_fingers : forall c i s f g t u v t1 t2, finger i s t -> of i f u -> of i g v -> u_none u = false -> u_none v = false -> nf f <> oldn s -> finger i (run c s [f]) t1 -> finger i (run c s [f; g]) t2 -> delta t1 = (0, 0) /\ delta t2 = (0, 0).
Proof.
  intros c i s f g t u v t1 t2 T U V NU NV NF F1 F2. cbn in F1, F2. assert (R1 : fst (fst (need_reset c s f)) = true) by (unfold need_reset; apply Nat.eqb_neq in NF; rewrite NF; reflexivity).
  destruct (dsq_step c s f i t u T U NU) as [t1' [G1 [_ [_ [_ A]]]]]. rewrite (finger_fun _ _ _ _ G1 F1) in *. clear t1' G1. rewrite R1 in A.
  destruct (step_nth c s f i t u T U) as [m [s0 [s1 [k [P [G _]]]]]]. pose proof (finger_fun _ _ _ _ G F1) as EQ. rewrite R1 in P. destruct (pin_fields (press f && clickpad c) k) as [_ [_ [_ [_ [_ Q]]]]]. rewrite EQ in Q. split.
  - rewrite Q. destruct (touch_cases _ _ _ _ _ _ _ _ _ _ _ P NU) as [_ [[C _]|[C _]]]; [unfold delta; rewrite C; reflexivity | discriminate].
  - destruct (step_nth c (step c s f) g i t1 v F1 V) as [m2 [s2 [s3 [k2 [P2 [G2 _]]]]]]. pose proof (finger_fun _ _ _ _ G2 F2) as EQ2. destruct (pin_fields (press g && clickpad c) k2) as [_ [_ [_ [_ [_ Q2]]]]]. rewrite EQ2 in Q2. rewrite Q2. destruct (touch_cases _ _ _ _ _ _ _ _ _ _ _ P2 NV) as [_ [[C _]|[_ [C _]]]]; [unfold delta; rewrite C; reflexivity |]. exfalso. unfold enter in C. destruct (u_new v), (u_end v); cbn in C; try congruence. destruct (hist t1) as [|[p z] r]; cbn in C; congruence.
Qed.
Print Assumptions C52_fingers.
Definition second_ : list frame := [one 1000 true 1000 1000; one 13000 false 1000 1000; one 25000 false 1040 1000; fr 37000 2 [at_ false 1080 1000; at_ true 2000 1000]; fr 49000 2 [at_ false 1120 1000; at_ false 2040 1000]; fr 61000 2 [at_ false 1160 1000; at_ false 2080 1000]].
Example C52_fingers_ex : motions cfg0 0 (pad0 false) second_ = [(0, 0); (0, 0); (40, 0); (0, 0); (0, 0); (40, 0)] /\ motions cfg0 1 (pad0 false) second_ = [(0, 0); (0, 0); (0, 0); (0, 0); (0, 0); (40, 0)].
Proof. split; reflexivity. Qed.

(** ** Nothing is lost *)
(** Without hysteresis, the motions of a finger that is not too fast add up to the way it went *)
Theorem C52_exact : forall c i s f g l t, nojump c = false -> testdev c = false -> alps c = false -> t450 c = false -> hyst s = false -> hyst (run c s (f :: g :: l)) = false -> stays i (f :: g :: l) -> same_fingers (f :: g :: l) -> (exists t0, finger i s t0) ->
  finger i (run c s [f; g]) t -> slow c i (pt t) (time g) l -> total c i (run c s [f; g]) l = sub (goes i (pt t) l) (pt t).
Proof.
  intros c i s f g l t NJ TD AL T4 H0 H S SF [t0 T] F SL. change (run c s (f :: g :: l)) with (run c (run c s [f; g]) l) in H. assert (HE : hyst (run c s [f; g]) = false) by (destruct (hyst (run c s [f; g])) eqn:E; [rewrite (run_mono c l _ E) in H; discriminate | reflexivity]).
  destruct (two_frames c i s f g l t0 T4 NJ S T (SF g f (or_intror (or_introl eq_refl)) (or_introl eq_refl)) ltac:(congruence)) as [t' [F' [K [A D]]]]. rewrite (finger_fun _ _ _ _ F' F) in *. clear t' F'. rewrite H0 in K.
  apply (exact_from c i NJ TD AL T4 l _ t (time g)); try assumption.
  - intros k K1. cbn. rewrite step_oldn. apply SF; cbn; auto.
  - intros k K1. destruct S as [_ S]. apply S. cbn. auto.
Qed.
Print Assumptions C52_exact.
Definition way_ : list frame := [one 1000 true 1000 1000; one 13000 false 1000 1000; one 25000 false 1100 1010; one 37000 false 1300 1020; one 80000 false 2300 1000].
Example C52_exact_ex : stays 0 way_ /\ slow cfg0 0 (1000, 1000) 13000 (skipn 2 way_) /\ hyst (run cfg0 (pad0 false) way_) = false /\ total cfg0 0 (run cfg0 (pad0 false) (firstn 2 way_)) (skipn 2 way_) = (1300, 0).
Proof.
  split; [stays_ |]. split; [| split; reflexivity]. cbn [way_ skipn slow].
  eexists. split; [reflexivity |]. split; [reflexivity |]. split; [right; right; split; [reflexivity |]; unfold at_most, Qle; cbn; discriminate |].
  eexists. split; [reflexivity |]. split; [reflexivity |]. split; [right; right; split; [reflexivity |]; unfold at_most, Qle; cbn; discriminate |].
  eexists. split; [reflexivity |]. split; [reflexivity |]. split; [right; left; reflexivity | exact I].
Qed.

(** With hysteresis, the place that is used lies between the place it was and the finger, and never more than the margin behind the finger *)
Theorem C52_lag : forall c i l f s t t1 u, stays i (l ++ [f]) -> l <> [] -> (exists t, finger i s t) -> hyst s = true -> 0 < mx c -> 0 < my c -> alps c = false -> finger i (run c s l) t -> of i f u -> finger i (run c s (l ++ [f])) t1 ->
  between (fst (pt t)) (fst (said (pt t) u)) (fst (pt t1)) /\ between (snd (pt t)) (snd (said (pt t) u)) (snd (pt t1)) /\ close c (said (pt t) u) (pt t1).
Proof.
  intros c i l f s t t1 u S N T H MX MY AL F U F1. assert (HE : hyst (run c s (l ++ [f])) = hyst s) by (rewrite H; apply run_mono; exact H). destruct (last_frame c i l f s S N T HE) as [t' [t1' [u' [G0 [G1 [U' [K [K1 C]]]]]]]]. rewrite (finger_fun _ _ _ _ G1 F1), (finger_fun _ _ _ _ G0 F), (of_fun _ _ _ _ U' U), H in *. clear t1' t' u' G0 G1 U'.
  destruct (stays_snoc i l f S N) as [_ [u' [U' [_ [_ DD]]]]]. rewrite (of_fun _ _ _ _ U' U) in *. clear u' U'.
  assert (SELF : forall p, close c p p) by (intro p; unfold close; rewrite !Z.sub_diag; cbn; nia).
  destruct C as [[_ C]|[_ C]]; [rewrite (C AL); split; [unfold between; lia |]; split; [unfold between; lia | apply SELF] |]. destruct C as [_ [_ [_ C]]]. destruct K as [_ KC]. destruct (u_dirty u) eqn:D.
  - destruct C as [tj [_ [P _]]]. rewrite P, (KC eq_refl). destruct (hysteresis_spec (mx c) (my c) (said (pt t) u) (pt t) ltac:(lia) ltac:(lia)) as [A B]. refine (conj A (conj B _)). exact (hysteresis_lag (mx c) (my c) (said (pt t) u) (pt t) MX MY).
  - destruct C as [P _]. assert (SP : said (pt t) u = pt t). { unfold said. destruct (u_x u) eqn:X; [exfalso; assert (false = true) by (apply DD; right; left; congruence); discriminate |]. destruct (u_y u) eqn:X2; [exfalso; assert (false = true) by (apply DD; right; right; congruence); discriminate |]. destruct (pt t); reflexivity. } rewrite SP, P. split; [unfold between; lia |]. split; [unfold between; lia | apply SELF].
Qed.
Print Assumptions C52_lag.
Definition drag_ : list frame := [one 1000 true 1000 1000; one 13000 false 1000 1000; one 25000 false 1100 1000; one 37000 false 1200 1000; one 49000 false 1185 1000; one 61000 false 1150 1000].
Example C52_lag_ex : stays 0 drag_ /\ motions cfg0 0 (pad0 true) drag_ = [(0, 0); (0, 0); (90, 0); (100, 0); (0, 0); (-30, 0)].
Proof. split; [stays_ | reflexivity]. Qed.

(** ** Clicks *)
(** After a click of a clickpad a finger is held where it is until it is 1.5 mm away *)
Theorem C52_pinned : forall c i s f l t0 u0, clickpad c = true -> press f = true -> finger i s t0 -> of i f u0 -> u_none u0 = false ->
  (forall g, In g l -> press g = false /\ exists u, of i g u /\ u_none u = false /\ u_new u = false) ->
  exists p t1, finger i (step c s f) p /\ finger i (run c s (f :: l)) t1 /\ pcenter t1 = pt p /\
    (pinned t1 = true <-> forall a g b u t, l = a ++ g :: b -> of i g u -> u_dirty u = true -> finger i (run c s (f :: a ++ [g])) t -> ~ far c (pt t) (pt p)).
Proof.
  intros c i s f l t0 u0 CP PR T U0 NU L. destruct (step_nth c s f i t0 u0 T U0) as [m [s0 [s1 [k [P [F _]]]]]]. rewrite PR, CP in F. cbn [andb pinned_if] in F. exists (pin k). revert L. induction l as [|g l IH] using rev_ind; intro L.
  - exists (pin k). split; [exact F |]. split; [exact F |]. split; [reflexivity |]. split; [intros _ a g b u t E; destruct a; discriminate | reflexivity].
  - destruct IH as [t1 [_ [F1 [C1 I1]]]]; [intros h Hh; apply L; apply in_or_app; auto |]. destruct (L g ltac:(apply in_or_app; right; left; reflexivity)) as [PG [u [U [NN NW]]]].
    destruct (pin_step c (run c s (f :: l)) g i t1 u F1 U NN NW ltac:(rewrite PG; reflexivity)) as [t2 [F2 [C2 I2]]]. exists t2. split; [exact F |]. split; [rewrite app_comm_cons, run_app; exact F2 |]. split; [congruence |]. rewrite I2, I1. clear I1 I2. split.
    + intros [A B] a h b v t E V D G. destruct b as [|x b'] using rev_ind.
      * apply app_inj_tail in E. destruct E as [E1 E2]. subst a h. rewrite app_comm_cons, run_app in G. cbn [run fold_left] in G. rewrite (finger_fun _ _ _ _ G F2). rewrite <- C1. intro X. apply B. split; [rewrite (of_fun _ _ _ _ U V); exact D | exact X].
      * rewrite app_comm_cons, app_assoc in E. apply app_inj_tail in E. destruct E as [E1 E2]. exact (A a h b' v t E1 V D G).
    + intro A. split; [intros a h b v t E V D G; apply (A a h (b ++ [g]) v t); [rewrite E, <- app_assoc; reflexivity | exact V | exact D | exact G] |]. intros [D X]. rewrite C1 in X. apply (A l g [] u t2); [reflexivity | exact U | exact D | rewrite app_comm_cons, run_app; exact F2 | exact X].
Qed.
Print Assumptions C52_pinned.
Definition click_ (x : Z) : list frame := [one 1000 true 1000 1000; one 13000 false 1000 1000; {| time := 14000; nf := 1; motion := false; other := false; press := true; begins := false; ups := [{| u_new := false; u_none := false; u_end := false; u_dirty := false; u_x := None; u_y := None |}; none] |}; one 25000 false x 1000; one 37000 false 1010 1000].
Example C52_pinned_ex : map pinned (touches (run cfg0 (pad0 false) (click_ 1059))) = [true; true] /\ map pinned (touches (run cfg0 (pad0 false) (click_ 1060))) = [false; true].
Proof. split; reflexivity. Qed.

(** ** Switching hysteresis on *)
(** The only finger of a touchpad that goes right (or straight up or down), or that goes left in every frame, or whose frames are more than 40 ms apart does not switch it on *)
Theorem C52_straight : forall c s t t1 f l, alps c = false -> touches s = [t] -> hyst s = false -> begins f = true -> (forall g, In g l -> begins g = false) -> stays 0 (f :: l) -> finger 0 (step c s f) t1 ->
  each 0 rightward (pt t1) (time f) l \/ each 0 leftward (pt t1) (time f) l \/ each 0 apart (pt t1) (time f) l -> hyst (run c s (f :: l)) = false.
Proof.
  intros c s t t1 f l AL T H BG NB [[u [U NW]] S] F E. destruct (first_touch c s f t u T H U NW (S f (or_introl eq_refl)) BG) as [t' [T1 [X1 [H1 [M1 K1]]]]]. assert (EQ : t' = t1) by (unfold finger in F; rewrite T1 in F; cbn in F; congruence). subst t'. cbn. change (fold_left (step c) l (step c s f)) with (run c (step c s f) l).
  assert (TH : forall g, In g l -> there 0 g /\ begins g = false) by (intros g G; split; [apply S; right; exact G | apply NB; exact G]).
  destruct E as [E|[E|E]].
  - apply (wobble_run _ _ keeps_right c AL l _ t1 (time f) T1 H1 K1 X1 TH E).
  - apply (wobble_run _ _ keeps_left c AL l _ t1 (time f) T1 H1 K1 (or_introl X1) TH E).
  - apply (wobble_run _ _ keeps_apart c AL l _ t1 (time f) T1 H1 K1); [split; [exact X1 | rewrite M1; lia] | exact TH | exact E].
Qed.
Print Assumptions C52_straight.
Definition pad1 : pad := {| hyst := false; mtime := 0; nonmotion := 0; oldn := 0; touches := [touch0] |}.
Definition down_ : frame := {| time := 1000; nf := 1; motion := true; other := false; press := false; begins := true; ups := [at_ true 1000 1000] |}.
Definition left_ : list frame := [fr 13000 1 [at_ false 999 1000]; fr 25000 1 [at_ false 990 1000]; fr 37000 1 [at_ false 985 1000]; fr 49000 1 [at_ false 980 1000]; fr 61000 1 [at_ false 975 1000]].
Definition wobble_ : list frame := [fr 13000 1 [at_ false 1000 1000]; fr 25000 1 [at_ false 999 1000]; fr 37000 1 [at_ false 1000 1000]; fr 49000 1 [at_ false 999 1000]].
Example C52_straight_ex : stays 0 (down_ :: left_) /\ each 0 leftward (1000, 1000) 1000 left_ /\ hyst (run cfg0 pad1 (down_ :: left_)) = false /\ hyst (run cfg0 pad1 (down_ :: wobble_)) = true.
Proof. split; [stays_ |]. split; [| split; reflexivity]. cbn [left_ each]. repeat (eexists; split; [reflexivity |]; split; [reflexivity |]). exact I. Qed.

(** ** What is not so *)
(** When wobbling switches hysteresis on, the pointer is dragged towards the corner: the finger went 1 unit left, and the motion is 6 units left and 5 up *)
Theorem C52_switched_on_refuted : exists c s l f t t1 u, stays 0 (l ++ [f]) /\ hyst s = false /\ finger 0 (run c s l) t /\ of 0 f u /\ finger 0 (run c s (l ++ [f])) t1 /\
  sub (said (pt t) u) (pt t) = (-1, 0) /\ delta t1 = (-6, -5) /\ ~ between (fst (pt t)) (fst (said (pt t) u)) (fst (pt t1)).
Proof.
  exists cfg0, pad1, (down_ :: firstn 3 wobble_), (fr 49000 1 [at_ false 999 1000]). do 3 eexists. split; [stays_ |]. split; [reflexivity |]. split; [vm_compute; reflexivity |]. split; [reflexivity |]. split; [vm_compute; reflexivity |]. split; [reflexivity |]. split; [reflexivity |]. unfold between. cbn. lia.
Qed.
Print Assumptions C52_switched_on_refuted.
(** A finger that only goes left, with a frame in which it stands still, switches hysteresis on *)
Definition still_ : list frame := [fr 13000 1 [at_ false 1000 1000]; fr 25000 1 [at_ false 990 1000]; fr 37000 1 [at_ false 990 1000]; fr 49000 1 [at_ false 980 1000]].
Theorem C52_straight_refuted : exists c s l, stays 0 l /\ hyst s = false /\ each 0 (fun p _ q _ => fst q <= fst p) (1000, 1000) 1000 (tl l) /\ hyst (run c s l) = true.
Proof. exists cfg0, pad1, (down_ :: still_). split; [stays_ |]. split; [reflexivity |]. split; [| reflexivity]. cbn [tl still_ each]. repeat (eexists; split; [reflexivity |]; split; [cbn; lia |]). exact I. Qed.
Print Assumptions C52_straight_refuted.
