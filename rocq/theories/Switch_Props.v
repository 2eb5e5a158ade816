(** * Lid and tablet-mode switches (C17, C41) *)
Require Import Coq.ZArith.ZArith Coq.Lists.List Coq.Bool.Bool.
Require Import Verif.Switch_Model Verif.Switch_Spec Verif.Switch_Proofs.
Import ListNotations.
Open Scope Z_scope.

(** C17: whatever the device, the keyboards and the kernel do, the lid is never reported twice in the same state, and the first report says closed. *)
Theorem lid_reports_alternate : forall lid r tmv hw before l s o,
  life lid r tmv hw before l = (s, o) -> alternate false (reported LID o).
Proof. intros. eapply alternation_lemma; eauto. Qed.
Print Assumptions lid_reports_alternate.
Example lid_reports_example : reported LID (snd (life true RELIABLE 0 1 [5] [ELid 0; ELid 1; EKey 5; ELid 0; ELid 1])) = [true; false; true; false; true].
Proof. reflexivity. Qed.

(** After every move of the lid the client believes what the lid did, keyboard or not. *)
Theorem lid_reports_follow_the_lid : forall lid r tmv hw before l v s o,
  life lid r tmv hw before (l ++ [ELid v]) = (s, o) -> lid_changes (negb (hw =? 0)) (l ++ [ELid v]) ->
  view LID o = negb (v =? 0).
Proof. exact lid_view_lemma. Qed.
Print Assumptions lid_reports_follow_the_lid.
Example lid_follow_example :
  lid_changes false [ELid 1; EPair 5; EKey 5; ELid 0; ELid 1] /\ view LID (snd (life true UNKNOWN 0 0 [] [ELid 1; EPair 5; EKey 5; ELid 0; ELid 1])) = true /\
  reported LID (snd (life true UNKNOWN 0 0 [] [ELid 1; EPair 5; EKey 5; ELid 0; ELid 1])) = [true; false; true].
Proof. repeat split. Qed.

(** At start a closed lid is reported when the hardware is known to be reliable, and only then. *)
Theorem lid_initial_state : forall r tmv hw before s o, life true r tmv hw before [] = (s, o) ->
  view LID o = negb (hw =? 0) && match r with RELIABLE => true | _ => false end.
Proof. exact initial_lemma. Qed.
Print Assumptions lid_initial_state.
Example lid_initial_example : view LID (snd (life true RELIABLE 0 1 [] [])) = true /\ view LID (snd (life true UNKNOWN 0 1 [] [])) = false.
Proof. split; reflexivity. Qed.

(** Typing on a paired keyboard while the lid is believed closed first reports the lid open, then the key.
    Missing case: keyboards that were there before a device whose lid is closed from the start (refuted below). *)
Theorem lid_typing_opens_partial : forall r tmv hw before l k s o,
  life true r tmv hw before l = (s, o) -> before = [] \/ hw = 0 \/ saw_lid l ->
  is_paired k l (existsb (Z.eqb k) before) = true ->
  exists pre s', step s (EKey k) = (s', pre ++ [Key k]) /\ reported LID pre = (if view LID o then [false] else []) /\
    (forall j, ~ In (Key j) pre) /\ closed s' = false.
Proof. exact key_opens_lemma. Qed.
Print Assumptions lid_typing_opens_partial.
Example lid_typing_example :
  saw_lid [ELid 1] /\ is_paired 5 [ELid 1] (existsb (Z.eqb 5) [4; 5]) = true /\ view LID (snd (life true WRITE_OPEN 0 0 [4; 5] [ELid 1])) = true /\
  snd (step (fst (life true WRITE_OPEN 0 0 [4; 5] [ELid 1])) (EKey 5)) = [WriteOpen; Toggle LID false; Key 5].
Proof. repeat split. exists 1. left. reflexivity. Qed.
(** The keyboard was there first, the lid is closed from the start: the client is told that it is closed, and typing does not change that. *)
Theorem lid_typing_opens_refuted : exists before k s o s' o',
  life true RELIABLE 0 1 before [] = (s, o) /\ existsb (Z.eqb k) before = true /\ view LID o = true /\
  step s (EKey k) = (s', o') /\ reported LID o' = [] /\ s' = s.
Proof. exists [5], 5. do 4 eexists. repeat split. Qed.
Print Assumptions lid_typing_opens_refuted.
(** Nothing else on a keyboard touches the lid, and no other keyboard does. *)
Theorem lid_ignores_other_keyboard_events : forall s k, step s (EOther k) = (s, [Other k]).
Proof. intros. apply quiet_lemma. Qed.
Print Assumptions lid_ignores_other_keyboard_events.
Theorem lid_ignores_unpaired_keyboards : forall r tmv hw before l k s o, life true r tmv hw before l = (s, o) ->
  is_paired k l (existsb (Z.eqb k) before) = false -> step s (EKey k) = (s, [Key k]).
Proof. exact unpaired_lemma. Qed.
Print Assumptions lid_ignores_unpaired_keyboards.
Example lid_unpaired_example : is_paired 5 [EUnpair 5; ELid 1] (existsb (Z.eqb 5) [5]) = false /\
  view LID (snd (life true RELIABLE 0 0 [5] [EUnpair 5; ELid 1])) = true /\ snd (step (fst (life true RELIABLE 0 0 [5] [EUnpair 5; ELid 1])) (EKey 5)) = [Key 5].
Proof. repeat split. Qed.

(** The tablet-mode switch: reports alternate and always end in the present state of the switch. *)
Theorem tablet_mode_reports : forall lid r tmv hw before l s o, life lid r tmv hw before l = (s, o) -> bit tmv -> tm_bits l ->
  alternate false (reported TABLET_MODE o) /\ view TABLET_MODE o = negb (last_tm l tmv =? 0).
Proof. intros. split; [eapply tm_lemma; eauto|eapply tm_view_lemma; eauto]. Qed.
Print Assumptions tablet_mode_reports.
Example tablet_mode_example : bit 1 /\ tm_bits [ETm 0; EKey 3; ETm 0; ETm 1] /\
  reported TABLET_MODE (snd (life false UNKNOWN 1 0 [] [ETm 0; EKey 3; ETm 0; ETm 1])) = [true; false; true].
Proof. repeat split; cbn; unfold bit; auto. Qed.

(** C41: the built-in keyboard is open exactly when the client wants it and the machine is not in tablet mode,
    as long as the client leaves the switch device alone and does not enable the keyboard in tablet mode. *)
Theorem keyboard_follows_tablet_mode_partial : forall on l, careful on true l ->
  k_open (trun (tinit on) l) = last_mode l true && negb (last_toggle l on).
Proof.
  intros on l H. destruct (trun_inv l (tinit on)) as ((A & _ & _ & D) & B & C); [apply tinit_inv|destruct on; exact H|].
  rewrite D, <- A, B, C. destruct on; reflexivity.
Qed.
Print Assumptions keyboard_follows_tablet_mode_partial.
Example keyboard_follows_example : careful false true [TToggle true; KMode false; TToggle false; KMode true; TToggle true; TToggle false] /\
  k_open (trun (tinit false) [TToggle true; KMode false; TToggle false; KMode true; TToggle true; TToggle false]) = true /\
  k_open (trun (tinit false) [TToggle true; KMode false; TToggle false; KMode true; TToggle true]) = false.
Proof. cbn. repeat split; auto. Qed.
(** Disabling and enabling the keyboard in tablet mode opens it. *)
Theorem keyboard_follows_tablet_mode_refuted_reenabled : exists l,
  last_mode l true && negb (last_toggle l false) = false /\ k_open (trun (tinit false) l) = true.
Proof. exists [TToggle true; KMode false; KMode true]. split; reflexivity. Qed.
Print Assumptions keyboard_follows_tablet_mode_refuted_reenabled.
(** Disabling the switch device in tablet mode leaves the keyboard closed, even when the machine is unfolded and the switch device enabled again. *)
Theorem keyboard_follows_tablet_mode_refuted_switch_disabled : exists l,
  last_mode l true && negb (last_toggle l false) = true /\ t_run (trun (tinit false) l) = true /\ k_open (trun (tinit false) l) = false.
Proof. exists [TToggle true; TMode false; TToggle false; TMode true]. repeat split. Qed.
Print Assumptions keyboard_follows_tablet_mode_refuted_switch_disabled.
(** Whatever happened before (switch device and keyboard disabled and enabled in any order): entering tablet mode closes the keyboard,
    leaving it opens a keyboard that the client wants, a disabled switch device has no effect,
    and enabling the switch device closes the keyboard if the machine was last known to be in tablet mode. *)
Theorem tablet_mode_switch_acts : forall on l, let w := trun (tinit on) l in
  (t_run w = true -> t_on w = false -> k_open (tstep w (TToggle true)) = false) /\
  (t_run w = true -> t_on w = true -> k_open (tstep w (TToggle false)) = if k_mode w then true else k_open w) /\
  (t_run w = false -> forall b, k_open (tstep w (TToggle b)) = k_open w) /\
  (t_run w = false -> k_open (tstep w (TMode true)) = if t_on w then false else k_open w).
Proof.
  intros on l w. assert (P : paired w = t_run w) by (apply trun_paired; destruct on; reflexivity).
  destruct w as [h t r p m k]. cbn in P. subst p. repeat split; intros; cbn in *; subst; try destruct b; try destruct t; destruct m; reflexivity.
Qed.
Print Assumptions tablet_mode_switch_acts.
Example tablet_mode_switch_acts_example : let w := trun (tinit false) [TToggle true; TMode false; KMode false; KMode true] in
  t_run w = false /\ t_on w = true /\ k_open w = true /\ k_open (tstep w (TMode true)) = false.
Proof. repeat split. Qed.
