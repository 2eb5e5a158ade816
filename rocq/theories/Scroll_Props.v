(** C11: scroll sequences and their termination. *)
Require Import Coq.QArith.QArith Coq.QArith.Qabs Coq.ZArith.ZArith Coq.Lists.List Coq.Bool.Bool.
Require Import Verif.Scroll_Model Verif.Scroll_Spec Verif.Scroll_Proofs.
Import ListNotations.
Open Scope Q_scope.

(** C11.  With positive thresholds (the default), on each axis a client sees
    only sequences of non-zero values each closed by exactly one zero, and
    never a zero on an axis that was not scrolling. *)
Theorem scroll_sequences : forall thr dl inv nat0 ops a, 0 < thr -> 0 < dl ->
  sequences false (values a (snd (srun (scr_init thr dl inv nat0) ops))).
Proof. exact sequences_lemma. Qed.
Print Assumptions scroll_sequences.

(** C11.  Whatever the thresholds, when scrolling stops no axis remains in
    progress, and an axis in progress gets exactly one more value, zero. *)
Theorem scroll_stop_terminates : forall thr dl inv nat0 ops t a,
  let before := values a (snd (srun (scr_init thr dl inv nat0) ops)) in
  let after := values a (snd (srun (scr_init thr dl inv nat0) (ops ++ [Stop t]))) in
  in_progress after = false /\ (in_progress before = true -> after = before ++ [0]).
Proof. exact stop_lemma. Qed.
Print Assumptions scroll_stop_terminates.

(** C11.  A movement produces on an axis nothing, or exactly the movement on
    that very axis (with the configured sign); and only if since the last stop
    the movement on that axis has reached the distance threshold, or contained
    a single step of at least the direction-lock threshold. *)
Theorem scroll_threshold : forall thr dl inv nat0 ops t dx dy a,
  let s := fst (srun (scr_init thr dl inv nat0) ops) in
  let new := values a (snd (sstep s (Post t dx dy))) in
  new = [] \/
  (new = [sign a (natural_after nat0 ops) inv (motion1 a dx dy)] /\ ~ motion1 a dx dy == 0 /\
   engaged thr dl (motion a (ops ++ [Post t dx dy]))).
Proof. exact threshold_lemma. Qed.
Print Assumptions scroll_threshold.

(** Once an axis scrolls, every further movement on it is delivered until the
    sequence is stopped. *)
Theorem scroll_delivers : forall thr dl inv nat0 ops t dx dy a,
  let r := srun (scr_init thr dl inv nat0) ops in
  in_progress (values a (snd r)) = true -> ~ motion1 a dx dy == 0 ->
  values a (snd (sstep (fst r) (Post t dx dy))) = [sign a (natural_after nat0 ops) inv (motion1 a dx dy)].
Proof. exact delivered_lemma. Qed.
Print Assumptions scroll_delivers.

(** Every movement or stop is reported as at most one event. *)
Theorem scroll_one_event : forall s o, (length (snd (sstep s o)) <= 1)%nat.
Proof. exact one_event_lemma. Qed.
Print Assumptions scroll_one_event.

(** FINDING.  With the threshold 0 that touchpads use (evdev-mt-touchpad.c:3140)
    both axes start scrolling with the first movement, even an axis that did
    not move; at the end the client is told that an axis stopped scrolling on
    which it never saw a scroll event. *)
Theorem scroll_touchpad_spurious_stop_refuted :
  ~ (forall ops a, sequences false (values a (snd (srun scr_touchpad ops)))).
Proof.
  intros H. specialize (H [Post 1 3 0; Stop 2] Vertical). simpl in H. destruct H; discriminate.
Qed.
Print Assumptions scroll_touchpad_spurious_stop_refuted.

(** Non-vacuity: a default device moves 3, then 3 down (6 >= 5 starts), then
    mostly right (6 >= 5 unlocks horizontal), then stops. *)
Example scroll_demo : 
  snd (srun scr_default [Post 1 1 3; Post 2 1 3; Post 3 1 2; Post 4 6 1; Stop 5])
  = [Axis 2 (Some 3) None; Axis 3 (Some 2) None; Axis 4 (Some 1) (Some 6); Axis 5 (Some 0) (Some 0)].
Proof. reflexivity. Qed.
Example scroll_demo_progress :
  in_progress (values Vertical (snd (srun scr_default [Post 1 1 3; Post 2 1 3]))) = true /\
  in_progress (values Horizontal (snd (srun scr_default [Post 1 1 3; Post 2 1 3]))) = false /\ 0 < 5.
Proof. repeat split; reflexivity. Qed.
Example scroll_demo_natural :
  snd (srun (scr_init 5 5 true false) [SetNatural true; Post 1 6 6; Stop 3])
  = [Axis 1 (Some (-(6))) (Some (-(-(6)))); Axis 3 (Some 0) (Some 0)].
Proof. reflexivity. Qed.
