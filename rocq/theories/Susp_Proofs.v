Require Import Coq.ZArith.ZArith Coq.Lists.List Coq.Bool.Bool Coq.micromega.Lia.
Require Import Verif.Susp_Model Verif.Susp_Spec.
Import ListNotations.

(** ** Without the power *)
Definition core (s : state) : state := with_power s false true.
Lemma core_suspend : forall c s x, core (fst (tp_suspend c s x)) = with_reason (core s) x true.
Proof. intros c [a b d e m l t p f o] x. unfold tp_suspend, core. destruct x, a, b, d, e, (top c); reflexivity. Qed.
Lemma core_resume : forall c op s x, core (fst (tp_resume c op s x)) = with_reason (core s) x false.
Proof. intros c op [a b d e m l t p f o] x. unfold tp_resume, core. destruct x, a, b, d, e, (top c), f, op; reflexivity. Qed.
Lemma fst_then : forall x f, fst (then_ x f) = fst (f (fst x)).
Proof. intros [s o] f. unfold then_. cbn. destruct (f s). reflexivity. Qed.
Definition c_added (c : pad) (s : state) (d : dev) : state :=
  let s1 := pair_lid c s d in
  let s2 := if negb (tmsw d) then s1 else match tm_of s1 with Some _ => s1 | None => if negb (internal c) || no_tm c then s1 else let s2 := with_tm s1 (Some (did d)) in if tmstate d then with_reason s2 TABLET_MODE true else s2 end in
  if Z.eqb (mode s2) 2 && mouse d then with_reason s2 EXTERNAL_MOUSE true else s2.
Definition c_removed (s : state) (d : dev) : state :=
  let s1 := if is_dev (lid_of s) d then with_reason (with_lid s None) LID false else s in
  let s2 := if is_dev (tm_of s1) d then with_reason (with_tm s1 None) TABLET_MODE false else s1 in
  if Z.eqb (mode s2) 2 && negb (existsb (fun e => negb (Nat.eqb (did e) (did d)) && mouse e) (others s2)) then with_reason s2 EXTERNAL_MOUSE false else s2.
Lemma core_pair_lid : forall c s d, core (pair_lid c s d) = pair_lid c (core s) d.
Proof. intros c s d. unfold pair_lid. destruct (negb (lidsw d) || negb (internal c)); [reflexivity |]. cbn. destruct (lid_of s); reflexivity. Qed.
Lemma core_pair_tm : forall c s d, core (fst (pair_tm c s d)) = if negb (tmsw d) then core s else match tm_of (core s) with Some _ => core s | None => if negb (internal c) || no_tm c then core s else let s2 := with_tm (core s) (Some (did d)) in if tmstate d then with_reason s2 TABLET_MODE true else s2 end.
Proof. intros c s d. unfold pair_tm. destruct (negb (tmsw d)); [reflexivity |]. cbn [tm_of core with_power]. destruct (tm_of s); [reflexivity |]. destruct (negb (internal c) || no_tm c); [reflexivity |]. cbn zeta. destruct (tmstate d); [rewrite core_suspend |]; reflexivity. Qed.
Lemma core_added : forall c s d, core (fst (device_added c s d)) = c_added c (core s) d.
Proof.
  intros c s d. unfold device_added. rewrite fst_then. unfold c_added. cbn zeta. rewrite <- core_pair_lid.
  rewrite <- core_pair_tm. set (s2 := fst (pair_tm c (pair_lid c s d) d)). change (mode (core s2)) with (mode s2). destruct (Z.eqb (mode s2) 2 && mouse d); [apply core_suspend | reflexivity].
Qed.
Lemma core_removed : forall c op s d, core (fst (device_removed c op s d)) = c_removed (core s) d.
Proof.
  intros c op s d. unfold device_removed. rewrite !fst_then. unfold c_removed. cbn zeta.
  set (s1 := fst (if is_dev (lid_of s) d then _ else _)).
  assert (E1 : (if is_dev (lid_of (core s)) d then with_reason (with_lid (core s) None) LID false else core s) = core s1).
  { unfold s1. change (lid_of (core s)) with (lid_of s). destruct (is_dev (lid_of s) d); [rewrite core_resume |]; reflexivity. }
  rewrite E1. set (s2 := fst (if is_dev (tm_of s1) d then _ else _)).
  assert (E2 : (if is_dev (tm_of (core s1)) d then with_reason (with_tm (core s1) None) TABLET_MODE false else core s1) = core s2).
  { unfold s2. change (tm_of (core s1)) with (tm_of s1). destruct (is_dev (tm_of s1) d); [rewrite core_resume |]; reflexivity. }
  rewrite E2. change (mode (core s2)) with (mode s2). change (others (core s2)) with (others s2).
  destruct (Z.eqb (mode s2) 2 && _); [apply core_resume | reflexivity].
Qed.
(** ** The power follows the reasons *)
Definition safe (s : state) : Prop := any_reason s = true -> works s = false.
Definition live (c : pad) (s : state) : Prop := (any_reason s = false -> susp s = false /\ fd s = true) /\ (any_reason s = true -> susp s = true /\ fd s = top c).
(** A touchpad that has its node and no top buttons is not suspended; with them, it always has it *)
Definition node (c : pad) (s : state) : Prop := if top c then fd s = true else fd s = negb (susp s).
Lemma suspend_safe : forall c s x, safe s -> safe (fst (tp_suspend c s x)).
Proof. intros c [a b d e m l t p f o] x H. unfold safe, tp_suspend, works in *. destruct x, a, b, d, e, (top c); cbn in *; auto. Qed.
Lemma resume_safe : forall c op s x, safe s -> safe (fst (tp_resume c op s x)).
Proof. intros c op [a b d e m l t p f o] x H. unfold safe, tp_resume, works in *. destruct x, a, b, d, e, (top c), f, op, p; cbn in *; auto; try discriminate; intros; try discriminate; auto. Qed.
Lemma suspend_live : forall c s x, live c s -> live c (fst (tp_suspend c s x)).
Proof. intros c [a b d e m l t p f o] x [H1 H2]. unfold live, tp_suspend in *. cbn in H1, H2. destruct a, b, d, e; cbn in H1, H2; first [destruct (H1 eq_refl) as [-> ->] | destruct (H2 eq_refl) as [-> ->]]; clear H1 H2; destruct x, (top c); cbn; split; intros; try discriminate; auto. Qed.
Lemma resume_live : forall c s x, live c s -> live c (fst (tp_resume c true s x)).
Proof. intros c [a b d e m l t p f o] x [H1 H2]. unfold live, tp_resume in *. cbn in H1, H2. destruct a, b, d, e; cbn in H1, H2; first [destruct (H1 eq_refl) as [-> ->] | destruct (H2 eq_refl) as [-> ->]]; clear H1 H2; destruct x, (top c); cbn; split; intros; try discriminate; auto. Qed.
Section Power.
Variables (c : pad) (op : bool) (P : state -> Prop).
Hypothesis PS : forall s x, P s -> P (fst (tp_suspend c s x)).
Hypothesis PR : forall s x, P s -> P (fst (tp_resume c op s x)).
Hypothesis PW : forall s s', susp s = susp s' -> fd s = fd s' -> any_reason s = any_reason s' -> P s -> P s'.
Lemma power_added : forall s d, P s -> P (fst (device_added c s d)).
Proof.
  intros s d H. unfold device_added. rewrite fst_then.
  assert (H1 : P (pair_lid c s d)) by (unfold pair_lid; destruct (_ || _); auto; destruct (lid_of s); auto; apply (PW s); auto).
  assert (H2 : P (fst (pair_tm c (pair_lid c s d) d))).
  { unfold pair_tm. destruct (negb (tmsw d)); auto. destruct (tm_of (pair_lid c s d)); auto. destruct (_ || _); auto. cbn zeta. assert (P (with_tm (pair_lid c s d) (Some (did d)))) by (apply (PW (pair_lid c s d)); auto). destruct (tmstate d); auto. }
  destruct (_ && _); auto.
Qed.
Lemma power_removed : forall s d, P s -> P (fst (device_removed c op s d)).
Proof.
  intros s d H. unfold device_removed. rewrite !fst_then.
  set (s1 := fst (if is_dev (lid_of s) d then _ else _)).
  assert (H1 : P s1) by (unfold s1; destruct (is_dev (lid_of s) d); auto; apply PR; apply (PW s); auto).
  set (s2 := fst (if is_dev (tm_of s1) d then _ else _)).
  assert (H2 : P s2) by (unfold s2; destruct (is_dev (tm_of s1) d); auto; apply PR; apply (PW s1); auto).
  destruct (_ && _); auto.
Qed.
Lemma power_mode : forall s m, P s -> P (fst (fst (set_mode c op s m))).
Proof.
  intros s m H. unfold set_mode. destruct (negb _); auto. cbn zeta. set (v := if _ && _ then _ else _). destruct (Z.eqb v (mode s)); auto.
  destruct (Z.eqb v 0); [| destruct (Z.eqb v 1); [| destruct (Z.eqb v 2); auto]]; cbn [fst]; rewrite !fst_then; cbn [fst].
  - apply (PW (fst (tp_resume c op (fst (tp_resume c op s SENDEVENTS)) EXTERNAL_MOUSE))); auto.
  - apply (PW (fst (tp_resume c op (fst (tp_suspend c s SENDEVENTS)) EXTERNAL_MOUSE))); auto.
  - set (s1 := fst (if existsb _ _ then _ else _)). assert (P s1) by (unfold s1; destruct (existsb _ _); auto). apply (PW (fst (tp_resume c op s1 SENDEVENTS))); auto.
Qed.
Lemma power_step : forall s x, P s -> P (fst (step c s x op)).
Proof.
  intros s x H. destruct x; cbn [step].
  - apply power_added. apply (PW s); auto.
  - destruct (find_dev i (others s)) as [d|]; auto. rewrite !fst_then. cbn [fst]. set (s1 := fst (device_removed c op s d)). assert (P s1) by (apply power_removed; auto).
    set (s2 := fst (if off d then _ else _)). assert (P s2) by (unfold s2; destruct (off d); auto; apply power_removed; auto). apply (PW s2); auto.
  - destruct (find_dev i (others s)) as [d|]; auto. destruct (off d); auto. rewrite !fst_then. cbn [fst]. apply (PW (fst (device_removed c op s d))); auto. apply power_removed; auto.
  - destruct (find_dev i (others s)) as [d|]; auto. destruct (off d); auto. rewrite !fst_then. cbn [fst]. apply (PW (fst (device_added c s d))); auto. apply power_added; auto.
  - cbn zeta. assert (P (with_others s (set_lidstate i closed (others s)))) by (apply (PW s); auto). destruct (lid_of s) as [j|]; auto. destruct (Nat.eqb i j); auto. destruct closed; auto.
  - cbn zeta. assert (P (with_others s (set_tmstate i on (others s)))) by (apply (PW s); auto). destruct (tm_of s) as [j|]; auto. destruct (Nat.eqb i j); auto. destruct on; auto.
  - apply power_mode; auto.
Qed.
Lemma power_meet : forall l s, P s -> P (fold_left (meet c op) l s).
Proof. induction l as [|d l IH]; intros s H; cbn; auto. apply IH. unfold meet. destruct (off d); [apply power_removed |]; apply power_added; auto. Qed.
End Power.
Lemma safe_congr : forall s s', susp s = susp s' -> fd s = fd s' -> any_reason s = any_reason s' -> safe s -> safe s'.
Proof. unfold safe, works. intros s s' -> -> ->. auto. Qed.
Lemma live_congr : forall c s s', susp s = susp s' -> fd s = fd s' -> any_reason s = any_reason s' -> live c s -> live c s'.
Proof. unfold live. intros c s s' -> -> ->. auto. Qed.
Lemma safe_run : forall c o ds h, safe (run c (init c o ds) h).
Proof.
  intros c o ds h. assert (S0 : safe (init c o ds)) by (apply (power_meet c o safe (suspend_safe c) (resume_safe c o) safe_congr); intro H; discriminate H).
  revert S0. generalize (init c o ds). induction h as [|[x b] h IH]; intros s S0; [exact S0 |]. cbn. apply IH. apply (power_step c b safe (suspend_safe c) (resume_safe c b) safe_congr). exact S0.
Qed.
Lemma live_run : forall c ds h, opened h -> live c (run c (init c true ds) h).
Proof.
  intros c ds h. assert (S0 : live c (init c true ds)) by (apply (power_meet c true (live c) (suspend_live c) (resume_live c) (live_congr c)); split; intro H; [auto | discriminate H]).
  revert S0. generalize (init c true ds). induction h as [|[x b] h IH]; intros s S0 H; [exact S0 |]. cbn. assert (b = true) by (apply (H x); left; reflexivity). subst b. apply IH; [| intros y o K; apply (H y); right; exact K].
  apply (power_step c true (live c) (suspend_live c) (resume_live c) (live_congr c)). exact S0.
Qed.
Lemma live_works : forall c s, live c s -> works s = negb (any_reason s).
Proof. intros c s [H1 H2]. unfold works. destruct (any_reason s); [destruct H2 as [-> _] | destruct H1 as [-> ->]]; reflexivity. Qed.
