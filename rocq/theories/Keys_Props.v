(** C03, C04, C15 and C16 for keys. *)
Require Import Coq.ZArith.ZArith Coq.Lists.List Coq.Bool.Bool.
Require Import Verif.Keys_Model Verif.Keys_Spec Verif.Keys_Proofs.
Import ListNotations.
Open Scope Z_scope.

(** C04.  Whatever the kernel sends, and whenever the device is suspended,
    press and release events of every key alternate, starting with a press. *)
Theorem keys_alternate : forall ops c,
  alternates true (key_transitions c (snd (krun kb_init ops))).
Proof. exact alternate_lemma. Qed.
Print Assumptions keys_alternate.

(** C04, C15, C16.  At every moment the client's view of every key is the
    kernel's; in particular after a suspend no key is down, and after it the
    next press is seen again. *)
Theorem keys_track_kernel : forall ops c,
  client_down c (snd (krun kb_init ops)) = is_key c && kernel_down ops c.
Proof. exact track_lemma. Qed.
Print Assumptions keys_track_kernel.

(** C04.  A kernel event changes the view of no other key, and is delivered,
    with its time, exactly if it changes the state of the key. *)
Theorem keys_event_exact : forall ops t c val,
  snd (kstep (fst (krun kb_init ops)) (EvKey t c val)) =
  if negb (val =? 2) && is_key c && negb (Bool.eqb (client_down c (snd (krun kb_init ops))) (negb (val =? 0)))
  then [KKey t c (negb (val =? 0))] else [].
Proof. exact step_lemma. Qed.
Print Assumptions keys_event_exact.

(** C15.  A suspend releases exactly the keys that are down, each once, in
    ascending order. *)
Theorem keys_suspend_releases : forall ops t,
  snd (kstep (fst (krun kb_init ops)) (Suspend t)) =
  map (fun c => KKey t c false) (filter (fun c => client_down c (snd (krun kb_init ops))) all_codes).
Proof. exact suspend_lemma. Qed.
Print Assumptions keys_suspend_releases.

(** No assertion of the key code can fail, no internal error is logged. *)
Theorem keys_no_abort : forall ops,
  ~ In KAbort (snd (krun kb_init ops)) /\ ~ In KBug (snd (krun kb_init ops)).
Proof. exact abort_lemma. Qed.
Print Assumptions keys_no_abort.

(** C03.  The count reported with each event is the number of presses of that
    code on the seat not yet matched by a release.  (The counters are 32 bit.) *)
Theorem seat_counts_exact : forall evs c p, Z.of_nat (length evs) < 2 ^ 32 - 1 ->
  snd (seat_run (fun _ => 0) (evs ++ [(c, p)])) =
  snd (seat_run (fun _ => 0) evs) ++ [unmatched 0 c (evs ++ [(c, p)])].
Proof. exact seat_lemma. Qed.
Print Assumptions seat_counts_exact.

(** Non-vacuity: A down, repeat, duplicate, B down, suspend, A down again. *)
Example keys_demo : snd (krun kb_init
  [EvKey 1 30 1; EvKey 2 30 2; EvKey 3 30 1; EvKey 4 48 1; EvKey 5 48 0; EvKey 6 48 0;
   Suspend 7; EvKey 8 30 0; EvKey 9 30 1]) =
  [KKey 1 30 true; KKey 4 48 true; KKey 5 48 false; KKey 7 30 false; KKey 9 30 true].
Proof. vm_compute. reflexivity. Qed.
Example seat_demo : snd (seat_run (fun _ => 0)
  [(30, false); (30, true); (272, true); (30, true); (30, false); (30, false); (30, false)]) =
  [0; 1; 1; 2; 1; 0; 0].
Proof. vm_compute. reflexivity. Qed.
