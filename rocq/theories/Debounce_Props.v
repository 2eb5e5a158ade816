(** Property theorems C05, C06: debouncing. *)
Require Import Coq.ZArith.ZArith Coq.Lists.List Coq.Bool.Bool.
Require Import Verif.Debounce_Model Verif.Debounce_Spec Verif.Debounce_Proofs Verif.Debounce_Proofs2.
Import ListNotations.
Open Scope Z_scope.

(** C05: for every button, whatever the hardware does and whenever the timers
    fire, presses and releases alternate, beginning with a press. *)
Theorem debounce_alternates : forall quirk ops c, hist_ok (fun _ => false) ops ->
  alternates true (transitions c (snd (drun (deb_init quirk) ops))).
Proof. exact debounce_alternates_lemma. Qed.
Print Assumptions debounce_alternates.

(** C05: the bound of 16 buttons per frame in [hist_ok] is needed. *)
Theorem debounce_17_buttons_refuted : exists ops c,
  (forall ch t, In (Frame ch t) ops -> NoDup (map fst ch)) /\
  ~ alternates true (transitions c (snd (drun (deb_init false) ops))).
Proof. exact too_many_refuted_lemma. Qed.
Print Assumptions debounce_17_buttons_refuted.

(** C06: no unexpected event is ever seen by the state machine, timestamps
    never go backwards, with no timer armed the reported state of every button
    is its physical state, and whenever it is not a timer is armed that
    expires within 25 ms of the last event. *)
Theorem debounce_tracks_hardware : forall quirk ops,
  hist_ok (fun _ => false) ops -> schedule_ok (deb_init quirk) ops -> time_ok 0 ops ->
  let d := fst (drun (deb_init quirk) ops) in
  let outs := snd (drun (deb_init quirk) ops) in
  (~ In LogBug outs) /\ nondecreasing 0 (stamps outs) /\
  (d_timer d = None -> d_short d = None -> forall c, reported c outs = hw_after ops c) /\
  (forall c, reported c outs <> hw_after ops c ->
     exists e, (d_timer d = Some e \/ d_short d = Some e) /\ e <= end_time 0 ops + 25000).
Proof. exact debounce_schedule_lemma. Qed.
Print Assumptions debounce_tracks_hardware.

(** C06: 25 ms after the last event, all armed timers are due; letting them
    fire makes the reported
    state of every button equal to its physical state. *)
Theorem debounce_settles : forall quirk ops t,
  hist_ok (fun _ => false) ops -> schedule_ok (deb_init quirk) ops -> time_ok 0 ops ->
  end_time 0 ops + 25000 <= t ->
  let all := ops ++ settle_ops (fst (drun (deb_init quirk) ops)) t in
  schedule_ok (deb_init quirk) all /\
  (forall c, reported c (snd (drun (deb_init quirk) all)) = hw_after ops c).
Proof. exact debounce_settles_lemma. Qed.
Print Assumptions debounce_settles.

(** C05: any number of bounces after a press, before the timer fires, produce
    exactly one notification, at the time of the first contact. *)
Theorem bounce_press_reported_once : forall ops c t0 ts,
  hist_ok (fun _ => false) ops -> schedule_ok (deb_init false) ops -> time_ok 0 ops ->
  let d := fst (drun (deb_init false) ops) in
  d_timer d = None -> d_short d = None -> hw_after ops c = false ->
  snd (drun d (bounces c true (t0 :: ts))) = [Notify c t0 true].
Proof. exact bounce_press_lemma. Qed.
Print Assumptions bounce_press_reported_once.

(** C05: likewise for a release; once spurious debouncing is enabled even the
    release is held back. *)
Theorem bounce_release_reported_once : forall ops c t0 ts,
  hist_ok (fun _ => false) ops -> schedule_ok (deb_init false) ops -> time_ok 0 ops ->
  let d := fst (drun (deb_init false) ops) in
  d_timer d = None -> d_short d = None -> hw_after ops c = true ->
  snd (drun d (bounces c false (t0 :: ts))) = if d_spurious d then [] else [Notify c t0 false].
Proof. exact bounce_release_lemma. Qed.
Print Assumptions bounce_release_reported_once.

(** C05: once a held button was seen to be released and pressed again so fast
    that the short timer had not yet fired, later releases of that kind, of any
    button and with any number of bounces, are not reported at all. *)
Theorem spurious_release_filtered : forall ops c t0 t1 t2 rest c' u0 us,
  let all := (ops ++ [Frame [(c, false)] t0; Frame [(c, true)] t1; FireShort t2]) ++ rest in
  hist_ok (fun _ => false) all -> schedule_ok (deb_init false) all -> time_ok 0 all ->
  let d := fst (drun (deb_init false) ops) in
  let d' := fst (drun (deb_init false) all) in
  d_timer d = None -> d_short d = None -> hw_after ops c = true ->
  d_timer d' = None -> d_short d' = None -> hw_after all c' = true ->
  snd (drun d' (bounces c' false (u0 :: us))) = [].
Proof. exact spurious_lemma. Qed.
Print Assumptions spurious_release_filtered.

(** A history with bounces, both timers and another button meets all
    hypotheses. *)
Definition demo : list dop :=
  [Frame [(272, true)] 1000; Frame [(272, false)] 2000; Frame [(272, true)] 3000;
   FireLong 26000; Frame [(272, false)] 100000; Frame [(272, true)] 101000;
   FireShort 112000; Frame [(272, false)] 200000; Frame [(273, true)] 201000].
Example demo_ok : hist_ok (fun _ => false) demo /\ schedule_ok (deb_init false) demo /\ time_ok 0 demo.
Proof.
  unfold demo. split; [|split].
  - simpl; repeat split; try (repeat constructor; simpl; intuition discriminate);
      intros c b [H|[]]; inversion H; subst; vm_compute; reflexivity.
  - cbn [schedule_ok]. unfold due.
    repeat match goal with
    | |- _ /\ _ => split
    | |- True => exact I
    | |- exists _, _ => eexists; split; [vm_compute; reflexivity|vm_compute; discriminate]
    | |- ~ _ => let E := fresh in let F := fresh in
        intros [[? [E _]] F]; vm_compute in E, F; discriminate
    end.
  - vm_compute. repeat split; discriminate.
Qed.
Example demo_outs : snd (drun (deb_init false) demo) =
  [Notify 272 1000 true; Notify 272 100000 false; Notify 272 101000 true;
   Notify 272 200000 false; Notify 273 201000 true].
Proof. vm_compute. reflexivity. Qed.

(** The hypotheses of [spurious_release_filtered] are met with this history,
    whose last three operations are the spurious release. *)
Definition demo_spurious : list dop :=
  ([Frame [(272, true)] 1000; FireLong 26000] ++
   [Frame [(272, false)] 100000; Frame [(272, true)] 101000; FireShort 112000]) ++ [].
Example demo_spurious_ok :
  hist_ok (fun _ => false) demo_spurious /\ schedule_ok (deb_init false) demo_spurious /\ time_ok 0 demo_spurious /\
  d_timer (fst (drun (deb_init false) [Frame [(272, true)] 1000; FireLong 26000])) = None /\
  d_timer (fst (drun (deb_init false) demo_spurious)) = None /\
  d_short (fst (drun (deb_init false) demo_spurious)) = None /\
  hw_after demo_spurious 272 = true.
Proof.
  unfold demo_spurious. split; [|split; [|split]].
  - simpl; repeat split; try (repeat constructor; simpl; intuition discriminate);
      intros c b [H|[]]; inversion H; subst; vm_compute; reflexivity.
  - cbn [schedule_ok app]. unfold due.
    repeat match goal with
    | |- _ /\ _ => split
    | |- True => exact I
    | |- exists _, _ => eexists; split; [vm_compute; reflexivity|vm_compute; discriminate]
    | |- ~ _ => let E := fresh in let F := fresh in
        intros [[? [E _]] F]; vm_compute in E, F; discriminate
    end.
  - vm_compute. repeat split; discriminate.
  - vm_compute. repeat split; reflexivity.
Qed.
