(** C07, C08: middle-button emulation. *)
Require Import Coq.ZArith.ZArith Coq.Lists.List Coq.Bool.Bool.
Require Import Verif.MiddleButton_Model Verif.MiddleButton_Spec Verif.MiddleButton_Proofs Verif.MiddleButton_Proofs2 Verif.MiddleButton_Proofs3.
Import ListNotations.
Open Scope Z_scope.

(** C07.  In every legal history, presses and releases of every button but
    middle alternate at the output; middle is pressed at most twice at once
    (physically and by emulation; the next stage counts presses). *)
Theorem mb_alternates : forall en ops,
  legal (fun _ => false) (mb_init en) ops ->
  forall c, within (if c =? BTN_MIDDLE then 2 else 1) c (outs (snd (mrun (mb_init en) ops))).
Proof. exact within_lemma. Qed.
Print Assumptions mb_alternates.

(** C07.  With all physical buttons up nothing is logically pressed and no
    timer is pending. *)
Theorem mb_nothing_stuck : forall en ops,
  legal (fun _ => false) (mb_init en) ops ->
  all_up (hw_after ops) ->
  m_timer (fst (mrun (mb_init en) ops)) = None /\
  forall c, down c (outs (snd (mrun (mb_init en) ops))) = 0.
Proof. exact all_up_lemma. Qed.
Print Assumptions mb_nothing_stuck.

(** C07.  Every press of left or right is reported exactly once: as itself or
    as part of a middle click; at the latest when it is released or when the
    timer is no longer pending. *)
Theorem mb_every_press_reported_once : forall en ops,
  legal (fun _ => false) (mb_init en) ops ->
  forall c, c = BTN_LEFT \/ c = BTN_RIGHT ->
  hw_after ops c = false \/ m_timer (fst (mrun (mb_init en) ops)) = None ->
  reported_once (hold c (snd (mrun (mb_init en) ops))).
Proof. exact hold_lemma. Qed.
Print Assumptions mb_every_press_reported_once.

(** All other buttons pass unchanged and in order. *)
Theorem mb_others_untouched : forall en ops,
  legal (fun _ => false) (mb_init en) ops ->
  other_out (outs (snd (mrun (mb_init en) ops))) = other_in ops.
Proof. exact others_lemma. Qed.
Print Assumptions mb_others_untouched.

(** Button events leave in the order of their time stamps. *)
Theorem mb_time_order : forall en ops t0,
  legal (fun _ => false) (mb_init en) ops -> times_ok t0 ops ->
  stamps_ok t0 (outs (snd (mrun (mb_init en) ops))).
Proof. exact stamps_lemma. Qed.
Print Assumptions mb_time_order.

(** The state machine never sees an event it considers impossible. *)
Theorem mb_no_internal_error : forall en ops,
  legal (fun _ => false) (mb_init en) ops ->
  ~ In MBug (outs (snd (mrun (mb_init en) ops))).
Proof. exact no_bug_lemma. Qed.
Print Assumptions mb_no_internal_error.

(** From rest, a click of left or right alone, short or long, is reported as
    that click with its own times. *)
Theorem mb_single_click : forall ops c t1 t2 (expire : option Z),
  legal (fun _ => false) (mb_init true) ops ->
  all_up (hw_after ops) -> m_enabled (fst (mrun (mb_init true) ops)) = true ->
  c = BTN_LEFT \/ c = BTN_RIGHT ->
  outs (snd (mrun (fst (mrun (mb_init true) ops))
    (Button c t1 true :: match expire with Some t => [Timeout t] | None => [] end ++ [Button c t2 false])))
  = [MPost c t1 true; MPost c t2 false].
Proof. exact click_lemma. Qed.
Print Assumptions mb_single_click.

(** From rest, left and right pressed before the timer fires (50 ms after the
    first press) give exactly one middle click, whatever the order. *)
Theorem mb_chord : forall ops c1 c2 r1 r2 t1 t2 t3 t4,
  legal (fun _ => false) (mb_init true) ops ->
  all_up (hw_after ops) -> m_enabled (fst (mrun (mb_init true) ops)) = true ->
  (c1, c2) = (BTN_LEFT, BTN_RIGHT) \/ (c1, c2) = (BTN_RIGHT, BTN_LEFT) ->
  (r1, r2) = (BTN_LEFT, BTN_RIGHT) \/ (r1, r2) = (BTN_RIGHT, BTN_LEFT) ->
  outs (snd (mrun (fst (mrun (mb_init true) ops))
    [Button c1 t1 true; Button c2 t2 true; Button r1 t3 false; Button r2 t4 false]))
  = [MPost BTN_MIDDLE t2 true; MPost BTN_MIDDLE t3 false].
Proof. exact chord_lemma. Qed.
Print Assumptions mb_chord.

(** C07.  From rest, a press of left or right is withheld for 50 ms, and a timer
    is pending only while the last button event is such a press, 50 ms before it
    expires. *)
Theorem mb_delay : forall ops c t, legal (fun _ => false) (mb_init true) ops ->
  all_up (hw_after ops) -> m_enabled (fst (mrun (mb_init true) ops)) = true ->
  c = BTN_LEFT \/ c = BTN_RIGHT ->
  m_timer (fst (mrun (mb_init true) (ops ++ [Button c t true]))) = Some (t + 50000) /\
  outs (snd (mrun (fst (mrun (mb_init true) ops)) [Button c t true])) = [].
Proof. exact armed_lemma. Qed.
Print Assumptions mb_delay.
Theorem mb_delay_bound : forall en ops e, legal (fun _ => false) (mb_init en) ops ->
  m_timer (fst (mrun (mb_init en) ops)) = Some e ->
  exists before c after, ops = before ++ Button c (e - 50000) true :: after /\
    (c = BTN_LEFT \/ c = BTN_RIGHT) /\ forall o, In o after -> exists b, o = Config b.
Proof. exact timer_lemma. Qed.
Print Assumptions mb_delay_bound.

(** With emulation off every button passes unchanged. *)
Theorem mb_off_is_identity : forall m ops, m_enabled m = false -> m_want m = false ->
  (forall b, ~ In (Config b) ops) -> (forall t, ~ In (Timeout t) ops) ->
  outs (snd (mrun m ops)) = map (fun o => match o with Button c t p => MPost c t p | _ => MBug end) ops.
Proof. exact disabled_lemma. Qed.
Print Assumptions mb_off_is_identity.

(** C08 is part of the theorems above as far as [legal] allows [Config]:
    switching emulation off at any time, and switching it on while no button
    is held.  Without the last restriction it is false: switching emulation on
    while left is held loses the release, left stays pressed for the client. *)
Theorem mb_enable_while_held_refuted : exists ops,
  legal_hw (fun _ => false) (mb_init false) ops /\ times_ok 0 ops /\ all_up (hw_after ops) /\
  down BTN_LEFT (outs (snd (mrun (mb_init false) ops))) = 1.
Proof.
  exists [Button BTN_LEFT 1 true; Config true; Button BTN_LEFT 2 false].
  split; [|split; [|split]].
  - repeat split; discriminate.
  - repeat split; discriminate.
  - intros c. unfold hw_after. cbn [fold_left hw_step]. destruct (c =? BTN_LEFT); reflexivity.
  - reflexivity.
Qed.
Print Assumptions mb_enable_while_held_refuted.

(** Buttons outside BTN_LEFT..BTN_LEFT+31 (e.g. BTN_0, 0x100) are dropped
    while emulation is on; if it is switched off while such a button is held,
    its release is passed on although its press was not. *)
Theorem mb_low_button_refuted : exists ops,
  times_ok 0 ops /\ all_up (hw_after ops) /\
  down 256 (outs (snd (mrun (mb_init true) ops))) = -1.
Proof.
  exists [Button 256 1 true; Config false; Button 256 2 false].
  split; [|split].
  - repeat split; discriminate.
  - intros c. unfold hw_after. cbn [fold_left hw_step]. destruct (c =? 256); reflexivity.
  - reflexivity.
Qed.
Print Assumptions mb_low_button_refuted.

(** A history with a chord, another button, a timeout and a settings change
    meets the hypotheses. *)
Definition mb_demo : list mop :=
  [Button BTN_LEFT 1000 true; Button BTN_RIGHT 20000 true; Config false; Button 275 30000 true;
   Button BTN_LEFT 40000 false; Button BTN_RIGHT 50000 false; Button 275 60000 false;
   Config true; Button BTN_RIGHT 70000 true; Timeout 120000; Button BTN_RIGHT 130000 false].
Example mb_demo_legal : legal (fun _ => false) (mb_init true) mb_demo /\ times_ok 0 mb_demo /\
  all_up (hw_after mb_demo).
Proof.
  split; [|split].
  - unfold mb_demo. cbn [legal].
    repeat match goal with
    | |- _ /\ _ => split
    | |- True => exact I
    | |- exists _, _ => eexists; split; [vm_compute; reflexivity|vm_compute; discriminate]
    | |- _ = true -> _ = false -> all_up _ => intros _ _; unfold all_up;
        let c := fresh in intros c; cbn [hw_step];
        repeat match goal with |- context [if ?b then _ else _] => destruct b end; reflexivity
    | |- _ = true -> _ => intros ?; discriminate
    | |- _ => vm_compute; first [reflexivity | discriminate]
    end.
  - repeat split; discriminate.
  - intros c. unfold hw_after, mb_demo. cbn [fold_left hw_step].
    repeat match goal with |- context [if ?b then _ else _] => destruct b end; reflexivity.
Qed.
Example mb_demo_outs : outs (snd (mrun (mb_init true) mb_demo)) =
  [MPost BTN_MIDDLE 20000 true; MPost BTN_MIDDLE 30000 false; MPost 275 30000 true;
   MPost 275 60000 false; MPost BTN_RIGHT 70000 true; MPost BTN_RIGHT 130000 false].
Proof. vm_compute. reflexivity. Qed.
