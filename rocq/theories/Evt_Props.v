(** Property C56: what an event tells its reader.

    An event comes to the caller with a type.  For every event the caller can
    see exactly one of the functions libinput_event_get_X_event gives a struct;
    an accessor that applies gives the value the device's driver put into the
    event, an accessor that does not apply gives zero and logs a client bug, and
    no accessor ever reads a field the event does not have. *)
From Coq Require Import ZArith List Bool Lia.
From Verif Require Import Evt_Model Evt_Spec Evt_Proofs.
Import ListNotations.
Open Scope Z_scope.

(** Everything the driver says is what the reader is told, and nothing else:
    for every call of a notify function that makes an event and every
    accessor. *)
Theorem C56_tells : forall (d : device) (caps : family -> bool) n e a,
  sensible n ->
  notify caps n = Some e ->
  call d a e =
  match tells d n a with
  | Some v => Returns v
  | None => Client_bug (nothing a)
  end.
Proof. intros d caps n e a S H. rewrite (made _ _ _ H). apply call_tells, S. Qed.
Print Assumptions C56_tells.

(** A scroll event with the vertical axis only. *)
Example C56_tells_example : forall d,
  let n := pointer_notify_axis 5000123 1 2 7 15 0 120 in
  sensible n /\
  exists e, notify (fun _ => true) n = Some e /\
    call d pointer_get_time e = Returns 5000 /\
    call d (pointer_has_axis 0) e = Returns 1 /\
    call d (pointer_has_axis 1) e = Returns 0 /\
    call d (pointer_get_axis_value 0) e = Returns 15 /\
    call d (pointer_get_axis_value_discrete 0) e = Returns 120 /\
    call d (pointer_get_axis_value 1) e = Client_bug 0 /\
    call d pointer_get_dx e = Client_bug 0 /\
    call d touch_get_slot e = Client_bug 0.
Proof. intro d. split; [exact I|]. eexists. split; [reflexivity|]. repeat split. Qed.

(** The struct of an event: for an event as the library makes it, the function
    libinput_event_get_X_event gives the event itself exactly when the event is
    of the family X, and otherwise NULL and a message; so each event has exactly
    one.  The way back, libinput_event_X_get_base_event, gives the same event. *)
Theorem C56_one_struct : forall e f, typ e <> NONE ->
  (kind (typ e) = Some f ->
     get_event f e = Returns (Some e) /\ get_base_event f e = Returns (Some e)) /\
  (kind (typ e) <> Some f ->
     get_event f e = Client_bug None /\ get_base_event f e = Client_bug None).
Proof.
  intros [t s m] f N. cbn in *.
  split; intro K.
  - destruct t; cbn in K; try congruence; injection K as <-; split; reflexivity.
  - destruct t; cbn in K; try congruence; destruct f; try congruence; split; reflexivity.
Qed.
Print Assumptions C56_one_struct.

Example C56_one_struct_example :
  let e := make (touch_notify_frame 17) in
  typ e <> NONE /\ kind (typ e) = Some F_touch /\ kind (typ e) <> Some F_gesture /\
  get_event F_touch e = Returns (Some e) /\ get_event F_gesture e = Client_bug None.
Proof. repeat split; discriminate. Qed.

(** The struct is the one the event was allocated as: the cast never yields a
    struct the memory is not. *)
Theorem C56_struct_is_real : forall caps n e f e',
  sensible n -> notify caps n = Some e ->
  get_event f e = Returns (Some e') -> e' = e /\ struct_of e = f.
Proof.
  intros caps n e f e' S H G. pose proof (made _ _ _ H) as ->.
  pose proof (made_kind n S) as K.
  assert (N : typ (make n) <> NONE)
    by (intro T; rewrite T in K; discriminate).
  destruct (C56_one_struct (make n) f N) as [Y Z].
  destruct (family_eq_dec (struct_of (make n)) f) as [E|E].
  - rewrite E in K. destruct (Y K) as [Y1 _]. rewrite Y1 in G. injection G as <-. auto.
  - assert (X : kind (typ (make n)) <> Some f) by congruence.
    destruct (Z X) as [Z1 _]. rewrite Z1 in G. discriminate.
Qed.
Print Assumptions C56_struct_is_real.

Example C56_struct_is_real_example :
  let n := gesture_notify_pinch 100 GESTURE_PINCH_UPDATE 2 1 2 3 4 5 6 in
  sensible n /\ exists e, notify (fun _ => true) n = Some e /\
  get_event F_gesture e = Returns (Some e).
Proof. split; [right; reflexivity|]. eexists. split; reflexivity. Qed.

(** No accessor reads what is not there: on any event whose type says truly
    which struct it is, every accessor, whether it applies or not, returns. *)
Theorem C56_no_misread : forall d e a,
  kind (typ e) = Some (struct_of e) ->
  exists v, call d a e = Returns v \/ call d a e = Client_bug v.
Proof.
  intros d [t s m] a K. cbn in K.
  destruct t; cbn in K; try discriminate; injection K as <-;
    destruct a; cbn - [axis_value has_axis bit_is_set us2ms];
    try (eexists; left; reflexivity);
    try (eexists; right; reflexivity);
    unfold axis_value;
    match goal with |- context [has_axis ?e ?x =? 0] => destruct (has_axis e x =? 0) end;
    solve [eexists; left; reflexivity | eexists; right; reflexivity].
Qed.
Print Assumptions C56_no_misread.

Example C56_no_misread_example : forall d,
  let e := make (switch_notify_toggle 8 1 1) in
  kind (typ e) = Some (struct_of e) /\
  call d switch_get_switch e = Returns 1 /\ call d keyboard_get_key e = Client_bug 0.
Proof. repeat split. Qed.

(** Every event the library makes is such an event. *)
Theorem C56_types_true : forall caps n e,
  sensible n -> notify caps n = Some e -> kind (typ e) = Some (struct_of e).
Proof. intros caps n e S H. rewrite (made _ _ _ H). apply made_kind, S. Qed.
Print Assumptions C56_types_true.

Example C56_types_true_example :
  let n := tablet_pad_notify_key 9 240 1 in
  sensible n /\ exists e, notify (fun _ => false) n = Some e /\ kind (typ e) = Some F_tablet_pad.
Proof. split; [exact I|]. eexists. split; reflexivity. Qed.

(** Every event but the coming and going of a device has its time, in
    microseconds and, as a 32 bit number, in milliseconds. *)
Theorem C56_time : forall d caps n e t,
  sensible n -> notify caps n = Some e -> happened n = Some t ->
  exists f in_ms in_us,
    kind (typ e) = Some f /\ time_accessors f = Some (in_ms, in_us) /\
    call d in_us e = Returns t /\
    call d in_ms e = Returns (ms t).
Proof.
  intros d caps n e t S H T. pose proof (made _ _ _ H) as ->.
  destruct n; cbn in T; try discriminate; injection T as <-;
    cbn [sensible] in S; try (destruct S as [-> | ->]);
    do 3 eexists; (split; [reflexivity|]); (split; [reflexivity|]); split; reflexivity.
Qed.
Print Assumptions C56_time.

Example C56_time_example : forall d,
  let n := keyboard_notify_key 4294967297999 30 1 1 in
  sensible n /\ happened n = Some 4294967297999 /\
  exists e, notify (fun _ => true) n = Some e /\
  call d keyboard_get_time_usec e = Returns 4294967297999 /\
  call d keyboard_get_time e = Returns 1.
Proof. intro d. split; [exact I|]. split; [reflexivity|]. eexists. repeat split. Qed.

(** Events in the order of their times have that order in milliseconds too, as
    long as the clock of 32 bits does not go round between them. *)
Theorem C56_time_order : forall t u, 0 <= t <= u ->
  u / 1000 < 2 ^ 32 * (t / 1000 / 2 ^ 32 + 1) -> ms t <= ms u.
Proof.
  intros t u [T U] W. unfold ms.
  assert (A : t / 1000 <= u / 1000) by (apply Z.div_le_mono; lia).
  set (x := t / 1000) in *. set (y := u / 1000) in *.
  pose proof (Z.div_mod x (2 ^ 32) ltac:(lia)) as X.
  pose proof (Z.div_mod y (2 ^ 32) ltac:(lia)) as Y.
  pose proof (Z.mod_pos_bound y (2 ^ 32) ltac:(lia)) as B.
  assert (Q : y / 2 ^ 32 = x / 2 ^ 32).
  { assert (x / 2 ^ 32 <= y / 2 ^ 32) by (apply Z.div_le_mono; lia).
    assert (y / 2 ^ 32 < x / 2 ^ 32 + 1) by (apply Z.div_lt_upper_bound; lia).
    lia. }
  rewrite Q in Y. lia.
Qed.
Print Assumptions C56_time_order.

Example C56_time_order_example :
  0 <= 5000 <= 9999 /\ 9999 / 1000 < 2 ^ 32 * (5000 / 1000 / 2 ^ 32 + 1) /\ ms 5000 = 5 /\ ms 9999 = 9.
Proof. repeat split; vm_compute; congruence. Qed.

(** After seven weeks the milliseconds begin again: then a later event can
    have the smaller number. *)
Theorem C56_time_order_refuted : exists t u, 0 <= t <= u /\ ms u < ms t.
Proof. exists 4294967295000, 4294967296000. split; [lia|]. vm_compute. reflexivity. Qed.
Print Assumptions C56_time_order_refuted.

(** An event for a capability the device lacks is not made. *)
Theorem C56_capability : forall caps n e f,
  sensible n -> notify caps n = Some e ->
  kind (typ e) = Some f ->
  caps f = true \/ f = F_tablet_tool \/ f = F_tablet_pad \/ f = F_device_notify.
Proof.
  intros caps n e f S H K. pose proof (made _ _ _ H) as E. subst e.
  unfold notify in H.
  destruct n; cbn in K; try (injection K as <-); auto;
    cbn in H; try (left; match type of H with (if caps ?g then _ else _) = _ =>
      destruct (caps g) eqn:C; [reflexivity|discriminate] end);
    cbn [sensible] in S; destruct S as [-> | ->]; cbn in K; injection K as <-;
    left; destruct (caps F_gesture) eqn:C; solve [reflexivity | discriminate].
Qed.
Print Assumptions C56_capability.

Example C56_capability_example :
  notify (fun f => negb (family_beq f F_touch)) (touch_notify_frame 3) = None /\
  exists e, notify (family_beq F_touch) (touch_notify_frame 3) = Some e.
Proof. split; [reflexivity|eexists; reflexivity]. Qed.

(** An event holds the tool or the mode group it tells of: what
    libinput_event_destroy releases is what was taken for the event, no more
    and no less, and it is what the accessor gives. *)
Theorem C56_references : forall caps n e,
  sensible n -> notify caps n = Some e -> releases e = takes n.
Proof.
  intros caps n e S H. rewrite (made _ _ _ H).
  destruct n; try reflexivity; destruct S as [-> | ->]; reflexivity.
Qed.
Print Assumptions C56_references.

Example C56_references_example : forall ax,
  let n := tablet_notify_proximity 1 55 1 6 ax in
  sensible n /\ exists e, notify (fun _ => false) n = Some e /\ releases e = [Tool 55].
Proof. intro ax. split; [exact I|]. eexists. repeat split. Qed.

Theorem C56_told_is_held : forall d caps n e v,
  sensible n -> notify caps n = Some e ->
  (call d tablet_tool_get_tool e = Returns v -> takes n = [Tool v]) /\
  (call d tablet_pad_get_mode_group e = Returns v -> takes n = [Mode_group v]).
Proof.
  intros d caps n e v S H.
  split; intro C; rewrite (C56_tells d caps n e _ S H) in C;
    destruct n; cbn in C; try discriminate; injection C as <-; reflexivity.
Qed.
Print Assumptions C56_told_is_held.

Example C56_told_is_held_example : forall d,
  let n := tablet_pad_notify_ring 40 0 90 2 77 1 in
  sensible n /\ exists e, notify (fun _ => false) n = Some e /\
  call d tablet_pad_get_mode_group e = Returns 77 /\ releases e = [Mode_group 77].
Proof. intro d. split; [exact I|]. eexists. repeat split. Qed.
