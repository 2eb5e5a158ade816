(** * When a touchpad is off (C50) *)
Require Import Coq.ZArith.ZArith Coq.Lists.List Coq.Bool.Bool Coq.micromega.Lia.
Require Import Verif.Susp_Model Verif.Susp_Spec Verif.Susp_Proofs Verif.Susp_Proofs2 Verif.Susp_Proofs3 Verif.Susp_Proofs4.
Import ListNotations.

Lemma sane_ok : forall w l, sane w l -> ok w.
Proof. intros w [|x l] H; [exact H | apply H]. Qed.
Lemma after_run : forall c o ds h, sane ds (map fst h) -> J c (there ds (map fst h)) (closed (map fst h)) (setting c (map fst h)) (run c (init c o ds) h).
Proof. intros c o ds h S. apply J_run; [exact S |]. apply J_init. apply (sane_ok _ _ S). Qed.
Lemma reason_bits : forall c w cl m s, J c w cl m s ->
  (m = 1%Z \/ (m = 2%Z /\ UM w) \/ (internal c = true /\ exists d, In d w /\ lidsw d = true /\ off d = false /\ In (did d) cl) \/ (internal c = true /\ no_tm c = false /\ exists d, In d w /\ tmsw d = true /\ off d = false /\ tmstate d = true) -> any_reason s = true) /\
  (ok w -> any_reason s = true -> m = 1%Z \/ (m = 2%Z /\ CM w) \/ (internal c = true /\ exists d, In d w /\ lidsw d = true /\ off d = false /\ In (did d) cl) \/ (internal c = true /\ no_tm c = false /\ exists d, In d w /\ tmsw d = true /\ off d = false /\ tmstate d = true)).
Proof.
  intros c w cl m s [O [M [MM [K [A [B [D [E [F [G H]]]]]]]]]]. unfold any_reason. split.
  - intros [X|[[X Y]|[[X [d [Y1 [Y2 [Y3 Y4]]]]]|[X [N [d [Y1 [Y2 [Y3 Y4]]]]]]]]].
    + rewrite F, M, X. cbn. rewrite orb_true_r. reflexivity.
    + rewrite G; [reflexivity | congruence | exact Y].
    + replace (r_lid s) with true; [rewrite orb_true_r; reflexivity |]. symmetry. apply B. exists (did d). split; [apply A; split; [exact X | exists d; auto] | exact Y4].
    + replace (r_tm s) with true; [rewrite orb_true_r; reflexivity |]. symmetry. apply E. exists (did d). split; [apply D; refine (conj X (conj N _)); exists d; auto | exists d; auto].
  - intros [ND _] X. rewrite !orb_true_iff in X. destruct X as [[[X|X]|X]|X].
    + right. left. destruct (H X) as [Y Z]. split; [congruence | exact Z].
    + left. rewrite F in X. apply Z.eqb_eq in X. congruence.
    + right. right. left. apply B in X. destruct X as [i [X Y]]. apply A in X. destruct X as [X [d [Z1 [Z2 [Z3 Z4]]]]]. split; [exact X |]. exists d. rewrite Z2. auto.
    + right. right. right. apply E in X. destruct X as [i [X Y]]. apply D in X. destruct X as [X [N [d [Z1 [Z2 [Z3 Z4]]]]]]. destruct Y as [e [W1 [W2 W3]]]. refine (conj X (conj N _)). exists d. rewrite (same_did w d e ND Z1 W1) in * by congruence. auto.
Qed.
Lemma ok_there : forall l w, sane w l -> ok (there w l).
Proof. induction l as [|x l IH]; intros w S; [exact S |]. cbn. apply IH. apply S. Qed.

(** As long as there is a reason the touchpad is off, whatever else happens and however opening the device goes. *)
Theorem C50_off : forall c o ds h, sane ds (map fst h) -> reason (mouse_usable ds (map fst h)) c ds (map fst h) -> working c o ds h = false.
Proof.
  intros c o ds h S R. unfold working. apply safe_run. apply (proj1 (reason_bits c _ _ _ _ (after_run c o ds h S))). exact R.
Qed.
(** A touchpad whose device can be opened is off only if there is a reason: the setting, an external mouse that is connected, the lid or tablet mode. *)
Theorem C50_on : forall c ds h, opened h -> sane ds (map fst h) -> working c true ds h = false -> reason (mouse_connected ds (map fst h)) c ds (map fst h).
Proof.
  intros c ds h OP S R. unfold working in R. rewrite (live_works c _ (live_run c ds h OP)) in R. apply negb_false_iff in R.
  apply (proj2 (reason_bits c _ _ _ _ (after_run c true ds h S))); [apply ok_there; exact S | exact R].
Qed.
(** So it is off exactly when there is a reason, if no mouse is connected and disabled. *)
Theorem C50_off_iff : forall c ds h, opened h -> sane ds (map fst h) -> (forall d, In d (there ds (map fst h)) -> mouse d = true -> off d = false) ->
  (working c true ds h = false <-> reason (mouse_connected ds (map fst h)) c ds (map fst h)).
Proof.
  intros c ds h OP S NM. split; [apply C50_on; assumption |]. intros R. apply C50_off; [exact S |]. destruct R as [R|[[R [d [X Y]]]|R]]; [left; exact R | right; left; split; [exact R | exists d; auto] | right; right; exact R].
Qed.
(** The setting is what was last set, if supported. *)
Theorem C50_setting : forall c o ds h, sane ds (map fst h) -> get_mode (run c (init c o ds) h) = setting c (map fst h).
Proof. intros c o ds h S. apply (after_run c o ds h S). Qed.

(** A touchpad without top buttons that stays on is left alone: no button is released and no finger lifted. *)
Lemma snd_then : forall x f, snd (then_ x f) = snd x ++ snd (f (fst x)).
Proof. intros [s o] f. unfold then_. cbn. destruct (f s). reflexivity. Qed.
Lemma suspend_reason : forall c s x, any_reason (fst (tp_suspend c s x)) = true.
Proof. intros c [a b d e m l t p f o] x. unfold tp_suspend. destruct x, a, b, d, e, (top c); reflexivity. Qed.
Lemma resume_clear : forall c o s x, top c = false -> ~ In Clear (snd (tp_resume c o s x)).
Proof. intros c o s x T H. unfold tp_resume in H. cbn zeta in H. rewrite T in H. destruct (any_reason _); [destruct H |]. destruct (fd _); [destruct H as [H|[]]; discriminate |]. destruct o; cbn in H; [| destruct H as [H|[]]; discriminate]. unfold told_resumed in H. destruct H as [H|H]; [discriminate |]. destruct (susp _); cbn in H; intuition discriminate. Qed.
Lemma removed_clear : forall c o s d, top c = false -> ~ In Clear (snd (device_removed c o s d)).
Proof.
  intros c o s d T H. unfold device_removed in H. rewrite !snd_then in H. apply in_app_iff in H. destruct H as [H|H]; [apply in_app_iff in H; destruct H as [H|H] |].
  - destruct (is_dev (lid_of s) d); [revert H; apply resume_clear; exact T | destruct H].
  - destruct (is_dev (tm_of _) d); [revert H; apply resume_clear; exact T | destruct H].
  - destruct (_ && _); [revert H; apply resume_clear; exact T | destruct H].
Qed.
Lemma added_clear : forall c s d, any_reason (fst (device_added c s d)) = false -> snd (device_added c s d) = [].
Proof.
  intros c s d. unfold device_added. rewrite fst_then, snd_then. set (p := pair_tm c (pair_lid c s d) d).
  assert (P : any_reason (fst p) = false -> snd p = []).
  { unfold p, pair_tm. destruct (negb (tmsw d)); [reflexivity |]. destruct (tm_of _); [reflexivity |]. destruct (_ || _); [reflexivity |]. cbn zeta. destruct (tmstate d); [| reflexivity]. intro X. rewrite suspend_reason in X. discriminate. }
  destruct (_ && _); [intro X; rewrite suspend_reason in X; discriminate |]. cbn. intro X. rewrite P by exact X. reflexivity.
Qed.
Lemma run_snoc : forall c x op h s, run c s (h ++ [(x, op)]) = fst (step c (run c s h) x op).
Proof. intros c x op h. induction h as [|[y q] h IH]; intro s; [reflexivity |]. cbn [app run]. apply IH. Qed.
Theorem C50_undisturbed : forall c o ds h x op, top c = false -> working c o ds (h ++ [(x, op)]) = true -> ~ In Clear (snd (step c (run c (init c o ds) h) x op)).
Proof.
  intros c o ds h x op T W. assert (RA : any_reason (fst (step c (run c (init c o ds) h) x op)) = false).
  { destruct (any_reason (fst (step c (run c (init c o ds) h) x op))) eqn:R; [| reflexivity]. unfold working in W. pose proof (safe_run c o ds (h ++ [(x, op)])) as S. unfold safe in S.
    pose proof (run_snoc c x op h (init c o ds)) as E.
    rewrite E in *. rewrite (S R) in W. discriminate. }
  set (s := run c (init c o ds) h) in *. clearbody s. intro H. destruct x; cbn [step] in *.
  - rewrite added_clear in H by exact RA. destruct H.
  - destruct (find_dev i (others s)) as [d|]; [| destruct H]. rewrite !snd_then in H. cbn [snd] in H. rewrite app_nil_r in H. apply in_app_iff in H. destruct H as [H|H]; [revert H; apply removed_clear; exact T |]. destruct (off d); [destruct H | revert H; apply removed_clear; exact T].
  - destruct (find_dev i (others s)) as [d|]; [| destruct H]. destruct (off d); [destruct H |]. rewrite !snd_then in H. cbn [snd] in H. rewrite app_nil_r in H. revert H; apply removed_clear; exact T.
  - destruct (find_dev i (others s)) as [d|]; [| destruct H]. destruct (off d); [| destruct H]. rewrite snd_then in H. rewrite fst_then in RA. cbn [snd fst] in *. rewrite app_nil_r in H. rewrite added_clear in H by exact RA. destruct H.
  - cbn zeta in *. destruct (lid_of s) as [j|]; [| destruct H]. destruct (Nat.eqb i j); [| destruct H]. destruct closed; [rewrite suspend_reason in RA; discriminate |]. revert H; apply resume_clear; exact T.
  - cbn zeta in *. destruct (tm_of s) as [j|]; [| destruct H]. destruct (Nat.eqb i j); [| destruct H]. destruct on; [rewrite suspend_reason in RA; discriminate |]. revert H; apply resume_clear; exact T.
  - unfold set_mode in *. destruct (negb _); [destruct H |]. cbn zeta in *. set (v := if _ && _ then _ else _) in *. destruct (Z.eqb v (mode s)); [destruct H |].
    destruct (Z.eqb v 0); [| destruct (Z.eqb v 1); [| destruct (Z.eqb v 2); [| destruct H]]]; cbn [fst snd] in *; rewrite !snd_then in H; rewrite !fst_then in RA; cbn [fst snd] in *; rewrite app_nil_r in H; apply in_app_iff in H.
    + destruct H as [H|H]; revert H; apply resume_clear; exact T.
    + exfalso. assert (X : any_reason (core (fst (tp_resume c op (fst (tp_suspend c s SENDEVENTS)) EXTERNAL_MOUSE))) = true) by (rewrite core_resume, core_suspend; reflexivity). change (any_reason (fst (tp_resume c op (fst (tp_suspend c s SENDEVENTS)) EXTERNAL_MOUSE)) = true) in X. change (any_reason (fst (tp_resume c op (fst (tp_suspend c s SENDEVENTS)) EXTERNAL_MOUSE)) = false) in RA. congruence.
    + destruct (existsb mouse (others s)).
      * exfalso. assert (X : any_reason (core (fst (tp_resume c op (fst (tp_suspend c s EXTERNAL_MOUSE)) SENDEVENTS))) = true) by (rewrite core_resume, core_suspend; reflexivity). change (any_reason (fst (tp_resume c op (fst (tp_suspend c s EXTERNAL_MOUSE)) SENDEVENTS)) = true) in X. change (any_reason (fst (tp_resume c op (fst (tp_suspend c s EXTERNAL_MOUSE)) SENDEVENTS)) = false) in RA. congruence.
      * destruct H as [H|H]; [destruct H | revert H; apply resume_clear; exact T].
Qed.

(** ** What does not hold *)
Definition plain (i : nat) : dev := {| did := i; mouse := false; lidsw := false; tmsw := false; lidstate := false; tmstate := false; off := false |}.
Definition a_mouse (i : nat) : dev := {| did := i; mouse := true; lidsw := false; tmsw := false; lidstate := false; tmstate := false; off := false |}.
Definition a_lid (i : nat) (b : bool) : dev := {| did := i; mouse := false; lidsw := true; tmsw := false; lidstate := b; tmstate := false; off := false |}.
Definition a_tablet (i : nat) (b : bool) : dev := {| did := i; mouse := false; lidsw := false; tmsw := true; lidstate := false; tmstate := b; off := false |}.
Definition laptop : pad := {| internal := true; no_tm := false; top := false |}.
Definition thinkpad : pad := {| internal := true; no_tm := false; top := true |}.
Ltac sane_ := repeat match goal with
  | |- _ /\ _ => split
  | |- sane _ _ => cbn [sane after map fst app upd enabled did off]
  | |- ok _ => split; [cbn; repeat (constructor; cbn; try (intuition discriminate)) | split; cbn; intuition (subst; cbn in *; congruence)]
  | |- allowed _ _ => cbn [allowed]
  | |- ~ In _ _ => cbn; intuition discriminate
  | |- True => exact I
  | |- _ = _ => reflexivity
  | |- exists d, In d _ /\ _ => eexists; cbn; intuition eauto
  end.
(** A touchpad that is added while the lid is closed works, although the lid switch is there, enabled, and has reported the lid as closed. *)
Theorem C50_lid_at_start_refuted : exists c ds, (exists d, In d ds /\ lidsw d = true /\ off d = false /\ lidstate d = true) /\ internal c = true /\ sane ds [] /\ working c true ds [] = true.
Proof. exists laptop, [a_lid 1 true]. split; [exists (a_lid 1 true); cbn; auto |]. sane_. Qed.
(** The same if the lid switch is disabled and enabled while the lid is closed. *)
Theorem C50_lid_reenabled_refuted : exists c ds h, sane ds (map fst h) /\ opened h /\ internal c = true /\ (exists d, In d (there ds (map fst h)) /\ lidsw d = true /\ off d = false /\ lidstate d = true) /\ working c true ds h = true.
Proof.
  exists laptop, [a_lid 1 false], [(Lid 1 true, true); (Off 1, true); (On 1, true)]. split; [| split; [intros x o [X|[X|[X|[]]]]; injection X; auto | split; [reflexivity | split; [eexists; split; [left; reflexivity | auto] | reflexivity]]]].
  sane_.
Qed.
(** With two disabled mice a touchpad set to be disabled while there is an external mouse stays off; and whether one disabled mouse counts depends on what came first. *)
Theorem C50_disabled_mice_refuted : exists c ds h h1 h2, sane ds (map fst h) /\ opened h /\ setting c (map fst h) = 2%Z /\ ~ mouse_usable ds (map fst h) /\ working c true ds h = false /\
  sane [a_mouse 1] (map fst h1) /\ sane [a_mouse 1] (map fst h2) /\ there [a_mouse 1] (map fst h1) = there [a_mouse 1] (map fst h2) /\ setting c (map fst h1) = setting c (map fst h2) /\ working c true [a_mouse 1] h1 = true /\ working c true [a_mouse 1] h2 = false.
Proof.
  exists laptop, [a_mouse 1; a_mouse 2], [(SetMode 2, true); (Off 1, true); (Off 2, true)], [(SetMode 2, true); (Off 1, true)], [(Off 1, true); (SetMode 2, true)].
  split; [sane_ |]. split; [intros x o [X|[X|[X|[]]]]; injection X; auto |]. split; [reflexivity |]. split; [intros [d [[X|[X|[]]] [_ Y]]]; subst d; discriminate Y |]. split; [reflexivity |].
  split; [sane_ |]. split; [sane_ |]. repeat split; reflexivity.
Qed.
(** On a touchpad with top buttons, set to be disabled while there is an external mouse, the removal of any device releases the buttons and lifts the fingers. *)
Theorem C50_top_disturbed_refuted : exists c ds h i, sane ds (map fst h ++ [Unplug i]) /\ there ds (map fst h) = [plain i] /\ working c true ds h = true /\ working c true ds (h ++ [(Unplug i, true)]) = true /\ In Clear (snd (step c (run c (init c true ds) h) (Unplug i) true)).
Proof. exists thinkpad, [plain 1], [(SetMode 2, true)], 1%nat. split; [sane_ |]. split; [reflexivity |]. split; [reflexivity |]. split; [reflexivity |]. vm_compute. auto. Qed.
(** A second lid switch is never looked at. *)
Theorem C50_second_lid_refuted : exists c ds h, opened h /\ NoDup (map did ds) /\ (exists d, In d (there ds (map fst h)) /\ lidsw d = true /\ off d = false /\ lidstate d = true /\ In (did d) (closed (map fst h))) /\ internal c = true /\ working c true ds h = true.
Proof.
  exists laptop, [a_lid 1 false; a_lid 2 false], [(Lid 2 true, true)]. split; [intros x o [X|[]]; injection X; auto |]. split; [cbn; repeat (constructor; cbn; try (intuition discriminate)) |]. split; [exists (a_lid 2 true); cbn; auto 7 |]. split; reflexivity.
Qed.

(** ** Cases *)
(** The lid is closed, the touchpad disabled, the lid opened, a mouse plugged in, the setting changed, the mouse removed *)
Definition story : list (input * bool) := [(Lid 1 true, true); (SetMode 1, true); (Lid 1 false, true); (Plug (a_mouse 3), true); (SetMode 2, true); (Unplug 3, true)].
Example C50_off_applies : sane [a_lid 1 false; a_tablet 2 false] (map fst (firstn 4 story)) /\ reason (mouse_usable [a_lid 1 false; a_tablet 2 false] (map fst (firstn 4 story))) laptop [a_lid 1 false; a_tablet 2 false] (map fst (firstn 4 story)).
Proof. split; [unfold story; cbn [firstn map fst]; sane_ | left; reflexivity]. Qed.
Example C50_off_iff_applies : sane [a_lid 1 false; a_tablet 2 false] (map fst story) /\ opened story /\
  map (fun k => working laptop true [a_lid 1 false; a_tablet 2 false] (firstn k story)) (seq 0 7) = [true; false; false; false; false; false; true] /\ ~ reason (mouse_connected [a_lid 1 false; a_tablet 2 false] (map fst story)) laptop [a_lid 1 false; a_tablet 2 false] (map fst story).
Proof.
  assert (S : sane [a_lid 1 false; a_tablet 2 false] (map fst story)) by (unfold story; sane_). assert (O : opened story) by (intros x o X; cbn in X; repeat (destruct X as [X|X]; [injection X; auto |]); destruct X).
  refine (conj S (conj O (conj eq_refl _))). intro R. apply C50_off_iff in R; [discriminate R | exact O | exact S |]. intros d [X|[X|[]]]; subst d; discriminate.
Qed.
Example C50_undisturbed_applies : working laptop true [plain 1] ([(SetMode 2, true)] ++ [(Unplug 1, true)]) = true.
Proof. reflexivity. Qed.
Print Assumptions C50_off.
Print Assumptions C50_on.
Print Assumptions C50_off_iff.
Print Assumptions C50_setting.
Print Assumptions C50_undisturbed.
Print Assumptions C50_lid_at_start_refuted.
Print Assumptions C50_lid_reenabled_refuted.
Print Assumptions C50_disabled_mice_refuted.
Print Assumptions C50_top_disturbed_refuted.
Print Assumptions C50_second_lid_refuted.
