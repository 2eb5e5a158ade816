(** * C54: only open files are watched *)
Require Import Coq.ZArith.ZArith Coq.Lists.List Coq.Bool.Bool Coq.Arith.PeanoNat Coq.micromega.Lia.
Require Import Verif.Life_Model Verif.Life_Spec Verif.Life_Proofs Verif.Life_Proofs2.
Import ListNotations.
Open Scope Z_scope.

(** A device that is watched has its file. *)
Definition fit (d : dev) : Prop := src d <> None -> fd d <> None.
Definition fits (w : ctx) : Prop := Forall fit (devs w) /\ Forall fit (gone w).
Lemma fits_upd : forall d l, fit d -> Forall fit l -> Forall fit (upd d l).
Proof. intros d l D H. unfold upd. apply Forall_map. eapply Forall_impl; [|exact H]. intros e E. destruct (Nat.eqb _ _); assumption. Qed.
Lemma fits_filter : forall f l, Forall fit l -> Forall fit (filter f l).
Proof. intros f l H. rewrite Forall_forall in *. intros e E. apply filter_In in E. apply H, E. Qed.
Lemma suspend_fit : forall w d c, fit (fst (suspend_dev w d c)).
Proof. intros w d c X. exfalso. apply X. reflexivity. Qed.
Lemma create_fits : forall w s p se wls u n how c, fits w -> fits (fst (fst (create w s p se wls u n how c))).
Proof.
  intros w s p se wls u n how c [A B]. destruct how; cbn; try (split; assumption).
  split; cbn; [|assumption]. apply Forall_app. split; [assumption|]. constructor; [|constructor]. intros _. cbn. discriminate.
Qed.
Lemma remove_fits : forall w i c, fits w -> fits (fst (remove w i c)).
Proof.
  intros w i c [A B]. unfold remove. destruct (find _ (devs w)) as [d|]; [|split; assumption].
  pose proof (suspend_fit w d (c i)) as S. destruct (suspend_dev w d (c i)) as [d2 o]. cbn in *.
  split; cbn; [now apply fits_filter|]. constructor; assumption.
Qed.
Lemma remove_all_fits : forall l w c, fits w -> fits (fst (remove_all w l c)).
Proof.
  induction l as [|i l IH]; intros w c H; [assumption|]. cbn. pose proof (remove_fits w i c H) as R.
  destruct (remove w i c) as [w1 o1]. specialize (IH w1 c R). destruct (remove_all w1 l c). assumption.
Qed.
Lemma added_fits : forall w k name, fits w -> fits (fst (device_added w k name)).
Proof.
  intros w k name H. unfold device_added. destruct (seat_id w); [|assumption]. destruct (negb _); [assumption|].
  destruct (duplicate _ _ _); [assumption|].
  match goal with |- context [create ?a ?b ?c ?d ?e ?f ?g ?h ?i] => pose proof (create_fits a b c d e f g h i H) as R; destruct (create a b c d e f g h i) as [[w2 o] ok] end.
  assumption.
Qed.
Lemma add_devices_fits : forall l w, fits w -> fits (fst (add_devices w l)).
Proof.
  induction l as [|k l IH]; intros w H; [assumption|]. cbn.
  assert (R : fits (fst (if k_ready k then device_added w k None else (w, [])))) by (destruct (k_ready k); [now apply added_fits|assumption]).
  destruct (if k_ready k then device_added w k None else (w, [])) as [w1 o1]. specialize (IH w1 R). destruct (add_devices w1 l). assumption.
Qed.
Lemma udev_enable_fits : forall w m l, fits w -> fits (fst (udev_enable w m l)).
Proof.
  intros w m l H. unfold udev_enable. destruct (mon w); [assumption|]. destruct (seat_id w); [|assumption].
  destruct m; try exact H. pose proof (add_devices_fits l (set_mon w true true) H) as R. destruct (add_devices _ l). assumption.
Qed.
Lemma path_enable_fits : forall l w how hc c, fits w -> fits (fst (path_enable w l how hc c)).
Proof.
  induction l as [|p l IH]; intros w how hc c H; [assumption|]. cbn. unfold path_enable1.
  match goal with |- context [create ?a ?b ?c ?d ?e ?f ?g ?h ?i] => pose proof (create_fits a b c d e f g h i H) as R; destruct (create a b c d e f g h i) as [[w1 o1] ok] end.
  cbn in R. destruct ok.
  - specialize (IH w1 how hc c R). destruct (path_enable w1 l how hc c). assumption.
  - pose proof (remove_all_fits (map id (devs w1)) w1 c R) as Q. unfold path_disable. destruct (remove_all _ _ _). assumption.
Qed.
Lemma path_create_fits : forall w p name how c, fits w -> fits (fst (path_create w p name how c)).
Proof.
  intros w p name how c H. unfold path_create, path_enable1.
  match goal with |- context [create ?a ?b ?c ?d ?e ?f ?g ?h ?i] => pose proof (create_fits a b c d e f g h i H) as R; destruct (create a b c d e f g h i) as [[w1 o1] ok] end.
  destruct ok; exact R.
Qed.
Lemma path_remove_fits : forall w i c, fits w -> fits (fst (path_remove w i c)).
Proof. intros w i c H. unfold path_remove. destruct (handle w i); [|assumption]. apply remove_fits. exact H. Qed.
Lemma handle_fit : forall w i d, fits w -> handle w i = Some d -> fit d.
Proof. intros w i d [A B] H. unfold handle in H. apply find_some in H. destruct H as [H _]. apply in_app_or in H. rewrite Forall_forall in A, B. destruct H; auto. Qed.
Lemma read_fits : forall w s c ok, fits w -> fits (fst (read w s c ok)).
Proof.
  intros w s c ok [A B]. unfold read. destruct (find _ (devs w)) as [d|]; [|split; assumption]. destruct ok; [split; assumption|].
  split; cbn; [|assumption]. apply fits_upd; [|assumption]. intros X. exfalso. apply X. reflexivity.
Qed.
Lemma serve_fits : forall l w, fits w -> fits (fst (serve w l)).
Proof.
  induction l as [|x l IH]; intros w H; [assumption|]. cbn.
  match goal with |- context [let '(w1, o1) := ?e in _] => assert (R : fits (fst e)); [|destruct e as [w1 o1]; specialize (IH w1 R); destruct (serve w1 l); assumption] end.
  destruct x as [s c ok|e c|i c].
  - now apply read_fits.
  - destruct (msrc w); [|assumption]. destruct e; [now apply added_fits|now apply remove_all_fits].
  - destruct (find _ (devs w)); assumption.
Qed.
Lemma resume_fits : forall w d b c, fits w -> fit d -> fits (fst (fst (resume_dev w d b c))) /\ fit (snd (fst (resume_dev w d b c))).
Proof.
  intros w d b c H D. unfold resume_dev. destruct (fd d); [split; assumption|]. destruct (removed d); [split; assumption|].
  destruct b; cbn; try destruct (need d); cbn; (split; [exact H|]); try assumption; intros X; cbn in *; congruence.
Qed.
Lemma step_fits : forall x w, fits w -> fits (fst (step w x)).
Proof.
  intros x w H. destruct x; cbn.
  - destruct (upath w); [assumption|]. destruct (seat_id w); [assumption|]. apply udev_enable_fits. exact H.
  - destruct (upath w); [apply remove_all_fits; exact H|]. unfold udev_disable. destruct (mon w); [|assumption]. destruct (msrc w); [apply remove_all_fits; exact H|exact H].
  - destruct (upath w); [now apply path_enable_fits|now apply udev_enable_fits].
  - destruct (upath w); [|assumption]. apply path_create_fits. exact H.
  - destruct (upath w); [now apply path_remove_fits|assumption].
  - destruct (handle w i) as [d|]; [|assumption]. destruct (upath w).
    + pose proof (path_remove_fits w i c H) as R. destruct (path_remove w i c) as [w1 o1].
      match goal with |- context [path_create ?a ?b ?c ?d ?e] => pose proof (path_create_fits a b c d e R) as Q; destruct (path_create a b c d e) end. exact Q.
    + pose proof (remove_all_fits (firsts (sys d) [] (devs w)) w c H) as R. unfold device_removed. destruct (remove_all _ _ _) as [w1 o1].
      match goal with |- context [device_added ?a ?b ?c] => pose proof (added_fits a b c R) as Q; destruct (device_added a b c) end. exact Q.
  - destruct (find _ (devs w)) as [d|]; [|assumption]. pose proof (suspend_fit w d c) as S. destruct (suspend_dev w d c) as [d2 o].
    destruct H as [A B]. split; cbn; [now apply fits_upd|assumption].
  - destruct (handle w i) as [d|] eqn:E; [|assumption]. pose proof (resume_fits w d b c H (handle_fit _ _ _ H E)) as [R S].
    destruct (resume_dev w d b c) as [[w2 d2] o]. cbn in *. destruct R as [A B]. split; cbn; apply fits_upd; assumption.
  - apply serve_fits. exact H.
Qed.
Lemma run_fits : forall l w, fits w -> fits (fst (run w l)).
Proof.
  induction l as [|x l IH]; intros w H; [assumption|]. cbn. pose proof (step_fits x w H) as R. destruct (step w x) as [w1 o1].
  specialize (IH w1 R). destruct (run w1 l). assumption.
Qed.

(** At every point of every history, whatever libinput_dispatch can be told to read is an open file of a device that is there. So a device that was disabled or removed, whose file is closed, is not read. *)
Theorem C54_watched_open : forall p l s c ok, reported (state p l) (Source s c ok) = true ->
  exists d f, In d (devs (state p l)) /\ src d = Some s /\ fd d = Some f /\
    lives (id d) (outs p l) = During /\ file f (outs p l) = During.
Proof.
  intros p l s c ok H. cbn in H. unfold has_src in H. apply existsb_exists in H. destruct H as [d [D S]].
  destruct (src d) as [t|] eqn:E; [|discriminate]. apply Nat.eqb_eq in S. subst t.
  assert (R : fits (state p l)) by (apply run_fits; split; constructor).
  destruct R as [A _]. rewrite Forall_forall in A. specialize (A d D). unfold fit in A. rewrite E in A.
  destruct (fd d) as [f|] eqn:G; [|exfalso; apply A; congruence].
  exists d, f. repeat split; try assumption.
  - rewrite lives_state. unfold L. replace (has (devs (state p l)) (id d)) with true; [reflexivity|]. symmetry. apply has_in. eauto.
  - rewrite file_state. unfold F. replace (holds (devs (state p l)) f) with true; [reflexivity|]. symmetry. apply holds_in. eauto.
Qed.
Print Assumptions C54_watched_open.

(** A device that is added is watched; once it is disabled it is not. *)
Definition quiet : chat := {| c_other := []; c_off := []; c_own := [] |}.
Definition plug : call := PathAdd {| k_sys := 7; k_phys := 1; k_wl := 2; k_ready := true; k_need := false; k_how := WORKS; k_chat := quiet |}.
Example C54_watched_open_example :
  reported (state true [plug]) (Source 0 quiet true) = true /\
  reported (state true [plug; Disable 0 quiet]) (Source 0 quiet true) = false.
Proof. split; reflexivity. Qed.
