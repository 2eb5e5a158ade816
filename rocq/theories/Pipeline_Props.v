(** What a client relies on about the buttons of a mouse, from the kernel's
    events to its event queue: properties C05, C07, C10, C15, C16, C24. *)
Require Import Coq.ZArith.ZArith Coq.Lists.List Coq.Bool.Bool Coq.micromega.Lia.
Require Verif.Debounce_Model Verif.MiddleButton_Model Verif.Scroll_Model.
Require Import Verif.Keys_Model Verif.Pipeline_Model Verif.Pipeline_Spec Verif.Pipeline_Proofs4 Verif.Pipeline_Proofs5 Verif.Pipeline_Proofs6.
Import ListNotations.
Open Scope Z_scope.

(** For every button the events alternate press, release, press, ...; no
    assertion fails and no internal error is reported: whatever the mixture of
    debouncing, left-handed mode, middle button emulation, button scrolling,
    scroll lock and deferred configuration. *)
Theorem pipeline_buttons : forall quirk left middle method button lock scr now ops,
  0 <= now -> mouse_button button ->
  let p0 := ps_init quirk left middle method button lock scr in
  legal now p0 ops ->
  let outs := snd (prun p0 ops) in
  (forall c, alternates true (transitions c outs)) /\ ~ In PAbort outs /\ ~ In PBug outs.
Proof. intros. apply (buttons_lemma quirk left middle method lock button scr now); auto. Qed.
Print Assumptions pipeline_buttons.

(** No button is left down for the client once the hardware has all up, the
    frame is complete and debouncing is over. *)
Theorem pipeline_released : forall quirk left middle method button lock scr now ops,
  0 <= now -> mouse_button button ->
  let p0 := ps_init quirk left middle method button lock scr in
  legal now p0 ops ->
  let p := fst (prun p0 ops) in let outs := snd (prun p0 ops) in
  settled p -> p_key p = false -> (forall c, hw_after ops c = false) ->
  forall c, client_down c outs = false.
Proof. intros until 3. apply (released_lemma quirk left middle method lock button scr now); auto. Qed.
Print Assumptions pipeline_released.

(** Without middle button emulation, once debouncing is over the client sees
    the state of the hardware through the left-handed mapping, for every
    button but the one used for scrolling. *)
Theorem pipeline_exact : forall quirk left middle method button lock scr now ops,
  0 <= now -> mouse_button button ->
  let p0 := ps_init quirk left middle method button lock scr in
  legal now p0 ops ->
  let p := fst (prun p0 ops) in let outs := snd (prun p0 ops) in
  settled p -> p_key p = false -> MiddleButton_Model.m_enabled (s_mb (p_ds p)) = false ->
  forall c, (s_method (p_ds p) = true -> c <> s_button (p_ds p)) ->
  client_down c outs = hw_after ops (to_left_handed (s_left (p_ds p)) c).
Proof. intros until 3. apply (exact_lemma quirk left middle method lock button scr now); auto. Qed.
Print Assumptions pipeline_exact.

(** C24.  The mapping, scroll method, scroll button and lock in force change
    only at a moment when the hardware has every button up and the client sees
    none down; and when the last button's release is delivered, no change
    remains pending. *)
Theorem pipeline_config_deferred : forall quirk left middle method button lock scr now ops o,
  0 <= now -> mouse_button button ->
  let p0 := ps_init quirk left middle method button lock scr in
  legal now p0 ops ->
  let p := fst (prun p0 ops) in let outs := snd (prun p0 ops) in
  op_ok (end_time now ops) p o ->
  let p' := fst (pstep p o) in
  ((s_left (p_ds p'), s_method (p_ds p'), s_button (p_ds p'), s_lock (p_ds p')) <>
   (s_left (p_ds p), s_method (p_ds p), s_button (p_ds p), s_lock (p_ds p)) ->
   (forall c, hw_after (ops ++ [o]) c = false) /\ forall c, client_down c (outs ++ snd (pstep p o)) = false) /\
  ((forall c, hw_after (ops ++ [o]) c = false) -> (exists t c, In (PButton t c false) (snd (pstep p o))) ->
   ~ pending p').
Proof. intros until 3. apply (config_lemma quirk left middle method lock button scr now); auto. Qed.
Print Assumptions pipeline_config_deferred.

(** C15.  Suspending or removing the device releases exactly the buttons the
    client sees down, each once.  Partial: debouncing must be over; in
    left-handed mode neither left nor right may be down; with emulation the
    physical middle button must be up.  The refutations below show that each
    restriction is needed. *)
Theorem pipeline_suspend_partial : forall quirk left middle method button lock scr now ops t,
  0 <= now -> mouse_button button ->
  let p0 := ps_init quirk left middle method button lock scr in
  legal now p0 ops ->
  let p := fst (prun p0 ops) in let outs := snd (prun p0 ops) in
  settled p -> p_key p = false ->
  (s_left (p_ds p) = true -> client_down 272 outs = false /\ client_down 273 outs = false) ->
  (MiddleButton_Model.m_enabled (s_mb (p_ds p)) = true -> hw_after ops 274 = false) ->
  snd (pstep p (Suspend t)) = map (fun c => PButton t c false) (filter (fun c => client_down c outs) mouse_buttons) /\
  snd (pstep p (Remove t)) = map (fun c => PButton t c false) (filter (fun c => client_down c outs) mouse_buttons).
Proof. intros until 3. apply (suspend_lemma quirk left middle method lock button scr now); auto. Qed.
Print Assumptions pipeline_suspend_partial.

(** C15.  Removal leaves no timer of the device armed. *)
Theorem pipeline_remove_timers_partial : forall quirk left middle method button lock scr now ops t,
  0 <= now -> mouse_button button ->
  let p0 := ps_init quirk left middle method button lock scr in
  legal now p0 ops ->
  let p := fst (prun p0 ops) in let outs := snd (prun p0 ops) in
  settled p -> p_key p = false ->
  (s_left (p_ds p) = true -> client_down 272 outs = false /\ client_down 273 outs = false) ->
  (MiddleButton_Model.m_enabled (s_mb (p_ds p)) = true -> hw_after ops 274 = false) ->
  let p' := fst (pstep p (Remove t)) in
  settled p' /\ s_timer (p_ds p') = None /\ MiddleButton_Model.m_timer (s_mb (p_ds p')) = None.
Proof. intros until 3. apply (remove_lemma quirk left middle method lock button scr now); auto. Qed.
Print Assumptions pipeline_remove_timers_partial.

(** C10.  Scrolling by holding a button: from its press to its release the
    client sees no motion and no event of that button.  The release either
    delivers a click, pressed at the time of the press, and then nothing was
    scrolled; or it delivers what ends the scrolling (see Scroll_Props.v) and
    no click.  Then all is as before. *)
Theorem scroll_hold : forall s any0 t0 mid any1 t1,
  scroll_idle s -> s_lock s = false -> s_dead s = false ->
  let b := s_button s in
  let s1 := fst (hstep s (HButton any0 t0 b true)) in
  not_button b mid -> ticks_ok s1 mid -> s_dead (fst (hrun s1 mid)) = false ->
  let held := snd (hrun s (HButton any0 t0 b true :: mid)) in
  let fin := snd (hstep (fst (hrun s1 mid)) (HButton any1 t1 b false)) in
  let s' := fst (hstep (fst (hrun s1 mid)) (HButton any1 t1 b false)) in
  (forall t p, ~ In (PButton t b p) held) /\ (forall t dx dy, ~ In (PMotion t dx dy) (held ++ fin)) /\
  (fin = [PButton t0 b true; PButton t1 b false] /\ (forall e, ~ In (PAxis e) held) \/
   fin = map PAxis (snd (Scroll_Model.stop_scroll (s_scr (fst (hrun s1 mid))) t1))) /\
  s_state s' = B_IDLE /\ s_method s' = true /\ s_button s' = b /\ s_lockst s' = L_DISABLED.
Proof. exact hold_lemma. Qed.
Print Assumptions scroll_hold.

(** C10 with the lock: press, release, press, release are one hold. *)
Theorem scroll_hold_locked : forall s any0 t0 mid1 any1 t1 mid2 any2 t2 mid3 any3 t3,
  scroll_idle s -> s_lock s = true -> s_dead s = false ->
  let b := s_button s in
  let ops := HButton any0 t0 b true :: mid1 ++ HButton any1 t1 b false :: mid2 ++ HButton any2 t2 b true :: mid3 in
  not_button b mid1 -> not_button b mid2 -> not_button b mid3 ->
  ticks_ok s ops -> s_dead (fst (hrun s ops)) = false ->
  let held := snd (hrun s ops) in
  let fin := snd (hstep (fst (hrun s ops)) (HButton any3 t3 b false)) in
  let s' := fst (hstep (fst (hrun s ops)) (HButton any3 t3 b false)) in
  (forall t p, ~ In (PButton t b p) held) /\ (forall t dx dy, ~ In (PMotion t dx dy) (held ++ fin)) /\
  ((exists t, fin = [PButton t b true; PButton t3 b false]) /\ (forall e, ~ In (PAxis e) held) \/
   fin = map PAxis (snd (Scroll_Model.stop_scroll (s_scr (fst (hrun s ops))) t3))) /\
  s_state s' = B_IDLE /\ s_method s' = true /\ s_button s' = b /\ s_lockst s' = L_IDLE.
Proof. exact hold_locked_lemma. Qed.
Print Assumptions scroll_hold_locked.

(** * Concrete cases meeting the hypotheses *)
Definition mouse (left middle method lock : bool) : ps :=
  ps_init false left middle method 274 lock Scroll_Model.scr_default.

(** A sufficient test for [legal], to evaluate it on examples. *)
Definition dueb (tm : option Z) (t : Z) : bool := match tm with Some e => e <=? t | None => false end.
Definition settledb (p : ps) : bool :=
  match Debounce_Model.d_timer (p_deb p), Debounce_Model.d_short (p_deb p) with None, None => true | _, _ => false end.
Definition pendingb (p : ps) : bool :=
  let s := p_ds p in
  negb (Bool.eqb (s_wleft s) (s_left s) && Bool.eqb (s_wmethod s) (s_method s) &&
        (s_wbutton s =? s_button s) && Bool.eqb (s_wlock s) (s_lock s)).
Definition op_okb (now : Z) (p : ps) (o : pop) : bool :=
  (now <=? op_time now o) &&
  match o with
  | Key c v => (272 <=? c) && (c <? 288) && (negb (c =? 274) || negb (MiddleButton_Model.m_enabled (s_mb (p_ds p))))
  | Rel _ _ => true
  | Syn t => negb (pendingb p) || match moved p with [] => true | [_] => settledb p | _ => false end
  | DebounceTimer t => negb (p_key p) && dueb (Debounce_Model.d_timer (p_deb p)) t && negb (dueb (Debounce_Model.d_short (p_deb p)) t)
  | DebounceTimerShort t => negb (p_key p) && dueb (Debounce_Model.d_short (p_deb p)) t && negb (dueb (Debounce_Model.d_timer (p_deb p)) t)
  | MiddleTimer t => negb (p_key p) && dueb (MiddleButton_Model.m_timer (s_mb (p_ds p))) t
  | ScrollTimer t => negb (p_key p) && dueb (s_timer (p_ds p)) t
  | SetLeft _ | SetMethod _ | SetLock _ => negb (p_key p) && settledb p
  | SetButton c => negb (p_key p) && settledb p && ((272 <=? c) && (c <? 288))
  | _ => false
  end.
Fixpoint legalb (now : Z) (p : ps) (ops : list pop) : bool :=
  match ops with
  | [] => true
  | o :: os => op_okb now p o && legalb (op_time now o) (fst (pstep p o)) os
  end.
Lemma dueb_spec : forall tm t, dueb tm t = true <-> due tm t.
Proof.
  intros [e|] t; unfold dueb, due; split.
  - intros H. exists e. split; auto. apply Z.leb_le; auto.
  - intros (x & H & L). inversion H; subst. apply Z.leb_le; auto.
  - discriminate.
  - intros (x & H & _). discriminate.
Qed.
Lemma settledb_spec : forall p, settledb p = true -> settled p.
Proof. intros p. unfold settledb, settled. destruct (Debounce_Model.d_timer _), (Debounce_Model.d_short _); auto; discriminate. Qed.
Lemma pendingb_spec : forall p, pendingb p = false -> ~ pending p.
Proof.
  intros p H. unfold pendingb in H. apply negb_false_iff in H. rewrite !andb_true_iff, !Bool.eqb_true_iff, Z.eqb_eq in H.
  unfold pending. intuition congruence.
Qed.
Lemma op_okb_spec : forall now p o, op_okb now p o = true -> op_ok now p o.
Proof.
  intros now p o H. unfold op_okb in H. apply andb_true_iff in H. destruct H as [H1 H]. apply Z.leb_le in H1.
  split; auto. destruct o; auto; try discriminate; repeat (apply andb_true_iff in H; destruct H as [H ?]).
  - apply Z.leb_le in H. apply Z.ltb_lt in H2. split; [split; auto|]. intros -> E. cbn in H0. rewrite E in H0. discriminate.
  - intros Hp. apply orb_true_iff in H. destruct H as [H|H].
    + apply negb_true_iff in H. exfalso. eapply pendingb_spec; eauto.
    + destruct (moved p) as [|c [|]]; auto; [|discriminate]. right. split; [apply settledb_spec; auto|eauto].
  - apply negb_true_iff in H. apply negb_true_iff in H0. split; auto. split; [apply dueb_spec; auto|].
    intros [D _]. apply dueb_spec in D. congruence.
  - apply negb_true_iff in H. apply negb_true_iff in H0. split; auto. split; [apply dueb_spec; auto|].
    intros [D _]. apply dueb_spec in D. congruence.
  - apply negb_true_iff in H. split; auto. apply dueb_spec; auto.
  - apply negb_true_iff in H. split; auto. apply dueb_spec; auto.
  - apply negb_true_iff in H. split; auto. apply settledb_spec; auto.
  - apply negb_true_iff in H. split; auto. apply settledb_spec; auto.
  - apply negb_true_iff in H. split; auto. apply andb_true_iff in H0. destruct H0 as [A B].
    split; [apply settledb_spec; auto|]. split; [apply Z.leb_le; auto|apply Z.ltb_lt; auto].
  - apply negb_true_iff in H. split; auto. apply settledb_spec; auto.
Qed.
Lemma legalb_spec : forall ops now p, legalb now p ops = true -> legal now p ops.
Proof.
  induction ops as [|o ops IH]; intros now p H; [exact I|]. cbn [legalb] in H. apply andb_true_iff in H.
  split; [apply op_okb_spec|apply IH]; apply H.
Qed.
Ltac legal_run := apply legalb_spec; vm_compute; reflexivity.

(** Left-handed click with a bouncing release, then the left-handed setting
    is turned off while the button is down. *)
Definition demo1 : list pop :=
  [Key 272 1; Syn 1000; DebounceTimer 26000; SetLeft false; Rel 2 3; Syn 50000;
   Key 272 0; Syn 100000; DebounceTimerShort 112500; DebounceTimer 125000; Key 272 1; Syn 200000; DebounceTimer 225000].
Example demo1_legal : legal 0 (mouse true false false false) demo1.
Proof. legal_run. Qed.
Example demo1_out : snd (prun (mouse true false false false) demo1) =
  [PButton 1000 273 true; PMotion 50000 2 3; PButton 100000 273 false; PButton 200000 272 true].
Proof. vm_compute. reflexivity. Qed.

(** Middle button emulation: left and right together. *)
Definition demo2 : list pop :=
  [Key 272 1; Syn 1000; DebounceTimer 26000; Key 273 1; Syn 30000; Key 272 0; Syn 100000; Key 273 0; Syn 101000;
   DebounceTimerShort 113000; DebounceTimer 126000].
Example demo2_legal : legal 0 (mouse false true false false) demo2.
Proof. legal_run. Qed.
Example demo2_out : snd (prun (mouse false true false false) demo2) =
  [PButton 30000 274 true; PButton 100000 274 false].
Proof. vm_compute. reflexivity. Qed.

(** Button scrolling, then a click of the scroll button. *)
Definition demo3 : list pop :=
  [Key 274 1; Syn 1000; DebounceTimer 26000; Rel 1 1; Syn 50000; ScrollTimer 201000; Rel 0 10; Syn 300000;
   Key 274 0; Syn 400000; DebounceTimerShort 412000; DebounceTimer 425000;
   Key 274 1; Syn 500000; DebounceTimer 525000; Key 274 0; Syn 600000; DebounceTimerShort 612000; DebounceTimer 625000].
Example demo3_legal : legal 0 (mouse false false true false) demo3.
Proof. legal_run. Qed.
Example demo3_out : transitions 274 (snd (prun (mouse false false true false) demo3)) = [true; false] /\
  existsb (fun o => match o with PAxis _ => true | _ => false end) (snd (prun (mouse false false true false) demo3)) = true.
Proof. vm_compute. auto. Qed.

(** Suspended with two buttons down. *)
Definition demo4 : list pop := [Key 272 1; Syn 1000; DebounceTimer 26000; Key 275 1; Syn 50000; DebounceTimer 75000].
Example demo4_legal : legal 0 (mouse false false false false) demo4.
Proof. legal_run. Qed.
Example demo4_suspend :
  let p := fst (prun (mouse false false false false) demo4) in
  settled p /\ p_key p = false /\ snd (pstep p (Suspend 90000)) = [PButton 90000 272 false; PButton 90000 275 false].
Proof. vm_compute. auto. Qed.

(** A hold with another button clicked meanwhile; with and without lock. *)
Definition hold_mid : list hop :=
  [HMotion 10 1 0; HButton true 20 272 true; HTick; HMotion 300000 0 5; HButton true 400000 272 false].
Example hold_met : forall lock, let s := p_ds (mouse false false true lock) in
  scroll_idle s /\ s_dead s = false /\ not_button 274 hold_mid /\
  let s1 := fst (hstep s (HButton true 0 274 true)) in
  ticks_ok s1 hold_mid /\ s_dead (fst (hrun s1 hold_mid)) = false /\
  existsb (fun o => match o with PAxis _ => true | _ => false end) (snd (hrun s1 hold_mid)) = true.
Proof.
  intros [|]; (split; [unfold scroll_idle, mouse_button; vm_compute; intuition congruence|]; split; [reflexivity|]; split;
    [intros any t p H; cbn in H; intuition congruence|]; split; [vm_compute; intuition congruence|]; vm_compute; auto).
Qed.

(** * Refutations: what the code does outside the hypotheses *)

(** C15.  In left-handed mode a suspend with a button down releases the wrong
    button, whose count is zero: an assertion fails. *)
Theorem suspend_lefthanded_refuted :
  snd (prun (mouse true false false false)
         [Key 272 1; Syn 1; DebounceTimer 30000; Suspend 50000]) =
  [PButton 1 273 true; PAbort].
Proof. vm_compute. reflexivity. Qed.

(** C15.  Suspending does not stop the middle button timer: a press is
    delivered after the suspend and never released. *)
Theorem suspend_middle_timer_refuted :
  let ops := [Key 272 1; Syn 1; DebounceTimer 30000; Suspend 40000; MiddleTimer 50001] in
  snd (prun (mouse false true false false) ops) = [PButton 1 272 true] /\
  forall c, p_hw (fst (prun (mouse false true false false) ops)) c = false.
Proof. split; [vm_compute; reflexivity|intros; vm_compute; reflexivity]. Qed.

(** C15.  Physical middle button and the emulated one together: the suspend
    reports an internal error and releases nothing. *)
Theorem suspend_middle_twice_refuted :
  let ops := [Key 274 1; Syn 1; DebounceTimer 30000; Key 272 1; Syn 60000; Key 273 1; Syn 61000; DebounceTimer 90000] in
  let r := prun (mouse false true false false) ops in
  client_down 274 (snd r) = true /\ settled (fst r) /\
  ~ In (PButton 100000 274 false) (snd (pstep (fst r) (Suspend 100000))) /\
  In PBug (snd (pstep (fst r) (Suspend 100000))).
Proof. vm_compute. intuition discriminate. Qed.

(** C16.  A mouse suspended with a button down: after the resume the first
    press of that button is lost, and its release fails an assertion. *)
Theorem resume_button_refuted :
  snd (prun (mouse false false false false)
         [Key 272 1; Syn 1; DebounceTimer 30000; Suspend 50000; Key 272 1; Syn 100000; Key 272 0; Syn 200000]) =
  [PButton 1 272 true; PButton 50000 272 false; PAbort].
Proof. vm_compute. reflexivity. Qed.

(** C24.  Left-handed mode set while a release is being debounced: the mapping
    changes although the client still sees the button down, and its release
    then fails an assertion. *)
Theorem lefthanded_debounce_refuted :
  snd (prun (mouse false false false false)
         [Key 272 1; Syn 1; Key 272 0; Syn 10000; SetLeft true; DebounceTimer 30000]) =
  [PButton 1 272 true; PAbort].
Proof. vm_compute. reflexivity. Qed.

(** C24.  Left-handed mode set while two buttons are down which are then
    released in one frame: the mapping changes between the two releases. *)
Theorem lefthanded_frame_refuted :
  In PAbort (snd (prun (mouse false false false false)
         [Key 272 1; Syn 1; DebounceTimer 30000; Key 273 1; Syn 60000; DebounceTimer 90000;
          SetLeft true; Key 272 0; Key 273 0; Syn 100000])).
Proof. vm_compute. auto. Qed.

(** C24.  With middle button emulation a pending change is not applied when
    the last button goes up: the next click still has the old mapping. *)
Theorem lefthanded_middle_refuted :
  let ops := [Key 272 1; Syn 1; DebounceTimer 30000; Key 273 1; Syn 31000; DebounceTimer 60000; SetLeft true;
              Key 272 0; Syn 100000; DebounceTimer 130000; Key 273 0; Syn 200000; DebounceTimer 230000] in
  let click := [Key 272 1; Syn 300000; DebounceTimer 330000; MiddleTimer 350000] in
  (forall c, hw_after ops c = false) /\ (forall c, client_down c (snd (prun (mouse false true false false) ops)) = false) /\
  pending (fst (prun (mouse false true false false) ops)) /\
  snd (prun (fst (prun (mouse false true false false) ops)) click) = [PButton 300000 272 true].
Proof.
  split; [|split; [|split]].
  - intros c. unfold hw_after. cbn [fold_left hw_step]. cbn. destruct (c =? 273); auto. destruct (c =? 272); auto.
  - intros c. assert (E : snd (prun (mouse false true false false)
      [Key 272 1; Syn 1; DebounceTimer 30000; Key 273 1; Syn 31000; DebounceTimer 60000; SetLeft true;
              Key 272 0; Syn 100000; DebounceTimer 130000; Key 273 0; Syn 200000; DebounceTimer 230000]) =
      [PButton 31000 274 true; PButton 100000 274 false]) by (vm_compute; reflexivity).
    rewrite E. unfold client_down, transitions. cbn [flat_map]. destruct (274 =? c); reflexivity.
  - left. vm_compute. discriminate.
  - vm_compute. reflexivity.
Qed.

(** C24, C10.  A scroll button outside BTN_LEFT..BTN_TASK: the scroll method
    changes while it is held and its release fails an assertion. *)
Theorem scroll_button_range_refuted :
  snd (prun (ps_init false false false true 256 false Scroll_Model.scr_default)
         [Key 256 1; Syn 1; DebounceTimer 30000; SetMethod false; Key 256 0; Syn 100000]) = [PAbort].
Proof. vm_compute. reflexivity. Qed.

(** C10.  Button scrolling with lock on the middle button shared between the
    hardware and the emulation: the second press fails an assertion. *)
Theorem scroll_lock_emulation_refuted :
  snd (prun (mouse false true true true)
         [Key 274 1; Syn 1; DebounceTimer 30000; Key 272 1; Syn 60000; Key 273 1; Syn 61000]) = [PAbort].
Proof. vm_compute. reflexivity. Qed.

(** C09, C10.  The method is changed while the scroll lock keeps scrolling
    with the button up: the scroll sequence is never terminated. *)
Theorem scroll_lock_method_refuted :
  let ops := [Key 274 1; Syn 1; DebounceTimer 30000; ScrollTimer 200001; Rel 0 10; Syn 210000; Key 274 0; Syn 220000;
              DebounceTimer 250000; SetMethod false; Rel 1 1; Syn 300000] in
  match snd (prun (mouse false false true true) ops) with
  | [PAxis _; PMotion 300000 1 1] => True
  | _ => False
  end.
Proof. vm_compute. exact I. Qed.
