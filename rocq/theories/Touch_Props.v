(** Property theorems C12, C13, C14, C15 (touches), C37, C38. *)
Require Import Coq.ZArith.ZArith Coq.Lists.List Coq.Bool.Bool.
Require Import Verif.Touch_Model Verif.Touch_Spec Verif.Touch_Proofs Verif.Touch_Proofs2 Verif.Touch_Proofs3.
Import ListNotations.
Open Scope Z_scope.

(** C12, C13: whatever the kernel, pens and the caller do to any number of
    touch devices on a seat, the touch events make sense to the client
    ([legal]): down, motions, up or cancel, with the seat slot of the down, the
    lowest unused one; and the seat slots of the touches down are different. *)
Theorem touch_protocol : forall hyst w ops, new_seat w ->
  exists v, legal [] (snd (wrun hyst w ops)) v /\ seat_slots_ok v.
Proof. exact legal_lemma. Qed.
Print Assumptions touch_protocol.

(** C12: the touches the client knows to be down are determined by the events. *)
Theorem touch_view_unique : forall outs v v1 v2, legal v outs v1 -> legal v outs v2 -> v1 = v2.
Proof. intros outs v v1 v2 H1 H2. exact (legal_det outs v v1 H1 v2 H2). Qed.
Print Assumptions touch_view_unique.

(** C14: the events of one operation (hardware frame, suspend, arbitration)
    carry its time and device; there is at most one frame event, it is last,
    and only after touch events.  There is one for sure if the operation is not
    a multitouch hardware frame with two or more changed slots.  Missing: that
    case, see [touch_frame_refuted]. *)
Theorem touch_frame_partial : forall hyst w ops k o, new_seat w ->
  let w1 := fst (wrun hyst w ops) in
  let outs := snd (wstep hyst w1 (k, o)) in
  frame_shape outs /\
  Forall (fun e => fst e = k /\ stamp e = top_time o) outs /\
  ((forall t, o <> Syn t) \/ dv_mt (w_dev w1 k) = false \/
   (length (filter sl_dirty (dv_slots (w_dev w1 k))) <= 1)%nat -> frame_closed outs).
Proof. exact frames_lemma. Qed.
Print Assumptions touch_frame_partial.

(** C15: suspending (disabling, removing) a device cancels exactly its touches,
    closed by a frame, and leaves those of other devices alone. *)
Theorem touch_suspend : forall hyst w ops k t, new_seat w ->
  let outs := snd (wstep hyst (fst (wrun hyst w ops)) (k, Suspend t)) in
  exists v v', legal [] (snd (wrun hyst w ops)) v /\ legal v outs v' /\
    Forall (is_cancel_or_frame k t) outs /\ frame_closed outs /\
    (forall i n, ~ In (k, i, n) v') /\
    (forall k' i n, k' <> k -> (In (k', i, n) v <-> In (k', i, n) v')).
Proof. exact suspend_lemma. Qed.
Print Assumptions touch_suspend.

(** C37: when a pen comes near, all touches of the panel are cancelled; if the
    pen leaves at [off] or later, then until [off] + 90 ms no touch event of the
    panel is sent, whatever happens. *)
Theorem touch_muted : forall hyst w ops k r t ops2 off, new_seat w ->
  timers_ok hyst w (ops ++ (k, Arbitrate A_IGNORE_ALL r t) :: ops2) ->
  (forall s, In (k, ArbTimer s) ops2 -> s < off + 90000) ->
  (forall r' s, In (k, Arbitrate A_NOT_ACTIVE r' s) ops2 -> off <= s) ->
  let w1 := fst (wrun hyst w (ops ++ [(k, Arbitrate A_IGNORE_ALL r t)])) in
  (exists v, legal [] (snd (wrun hyst w (ops ++ [(k, Arbitrate A_IGNORE_ALL r t)]))) v /\ forall i n, ~ In (k, i, n) v) /\
  Forall (fun e => fst e <> k) (snd (wrun hyst w1 ops2)).
Proof. exact muted_lemma. Qed.
Print Assumptions touch_muted.

(** C37: while the hand's rectangle is to be ignored no multitouch touch starts
    in it. *)
Theorem touch_rect : forall hyst w ops k t r, new_seat w -> pen_after k ops = (A_IGNORE_RECT, r) ->
  forall s i n p, In (k, TDown s i n p) (snd (wstep hyst (fst (wrun hyst w ops)) (k, Syn t))) ->
  0 <= i -> in_rect p r = false.
Proof. exact rect_lemma. Qed.
Print Assumptions touch_rect.

(** C38: on a multitouch panel a touch is down only if its finger was down at
    the last SYN_REPORT: lifting a finger ends its touch.  Either there are no
    palms and pens, or the kernel reuses a slot only in a later frame. *)
Theorem touch_lifted : forall hyst w ops k touch hp hy ab pts cur, new_seat w ->
  w_dev w k = dev_init touch true hp hy ab true pts cur -> (cur < length pts)%nat ->
  let f0 := fingers_init pts cur in
  slots_ok k (Z.of_nat (length pts)) ops -> not_muted k ops -> spaced k f0 ops \/ plain k ops ->
  exists v, legal [] (snd (wrun hyst w ops)) v /\
    forall i n, In (k, i, n) v -> f_sync (fingers_after k f0 ops) i = true.
Proof. exact lifted_lemma. Qed.
Print Assumptions touch_lifted.

(** C38: touches are reported where the finger is (devices without hysteresis). *)
Theorem touch_position : forall hyst w ops k touch hp ab pts cur t, new_seat w ->
  w_dev w k = dev_init touch true hp false ab true pts cur -> (cur < length pts)%nat ->
  let f0 := fingers_init pts cur in
  slots_ok k (Z.of_nat (length pts)) ops -> not_muted k ops -> spaced k f0 ops \/ plain k ops ->
  forall u i n p, let outs := snd (wstep hyst (fst (wrun hyst w ops)) (k, Syn t)) in
    In (k, TDown u i n p) outs \/ In (k, TMotion u i n p) outs -> p = f_pos (fingers_after k f0 ops) i.
Proof. exact position_lemma. Qed.
Print Assumptions touch_position.

(** C38: every new contact is reported in its hardware frame, unless at that
    moment all 32 seat slots are taken. *)
Theorem touch_reported : forall hyst w ops k hp hy ab pts cur t j, new_seat w ->
  w_dev w k = dev_init true true hp hy ab true pts cur -> (cur < length pts)%nat ->
  let f0 := fingers_init pts cur in
  let f := fingers_after k f0 ops in
  slots_ok k (Z.of_nat (length pts)) ops -> plain k ops ->
  0 <= j < Z.of_nat (length pts) -> f_sync f j = false -> f_down f j = true ->
  let outs := snd (wstep hyst (fst (wrun hyst w ops)) (k, Syn t)) in
  (exists n p, In (k, TDown t j n p) outs) \/
  (exists o1 o2 v1, outs = o1 ++ o2 /\ legal [] (snd (wrun hyst w ops) ++ o1) v1 /\
     forall n, 0 <= n < 32 -> exists k' i', In (k', i', n) v1).
Proof. exact reported_lemma. Qed.
Print Assumptions touch_reported.

(** *** Concrete seats *)
Definition panel (mt hy : bool) : dev := dev_init true mt true hy (0, 0) true (if mt then [(0, 0); (0, 0)] else []) 0.
Definition two (a b : dev) : seat := mkSeat 0 (fun k => if Nat.eqb k 0 then a else b).
Lemma two_new : forall m1 h1 m2 h2, new_seat (two (panel m1 h1) (panel m2 h2)).
Proof.
  intros. split; [reflexivity|]. intros k. unfold two. cbn [w_dev].
  destruct (Nat.eqb k 0); unfold panel; do 8 eexists; split; [reflexivity|auto|reflexivity|auto].
Qed.
Definition snap (p c : point) : point := if (Z.abs (fst p - fst c) <? 5) && (Z.abs (snd p - snd c) <? 5) then c else p.

(** Two fingers and a single-touch panel; one finger lifts, the device is suspended. *)
Definition tdemo : list (nat * top) :=
  [(0%nat, Slot 0); (0%nat, Track 1 false); (0%nat, PosX 10); (0%nat, PosY 20);
   (0%nat, Slot 1); (0%nat, Track 2 false); (0%nat, PosX 30); (0%nat, Syn 100);
   (1%nat, AbsX 5); (1%nat, BtnTouch 1); (1%nat, Syn 150);
   (0%nat, Slot 0); (0%nat, Track (-1) false); (0%nat, Slot 1); (0%nat, PosY 7); (0%nat, Syn 200);
   (0%nat, Suspend 300)].
Example tdemo_outs : snd (wrun snap (two (panel true false) (panel false false)) tdemo) =
  [(0%nat, TDown 100 0 0 (10, 20)); (0%nat, TDown 100 1 1 (30, 0)); (0%nat, TFrame 100);
   (1%nat, TDown 150 (-1) 2 (5, 0)); (1%nat, TFrame 150);
   (0%nat, TUp 200 0 0); (0%nat, TMotion 200 1 1 (30, 7)); (0%nat, TFrame 200);
   (0%nat, TCancel 300 1 1); (0%nat, TFrame 300)].
Proof. vm_compute. reflexivity. Qed.

Fixpoint spacedb (k : nat) (f : fingers) (ops : list (nat * top)) : bool :=
  match ops with
  | [] => true
  | a :: r => (if Nat.eqb (fst a) k then match snd a with Track v _ => (v <? 0) || negb (f_sync f (f_cur f)) | _ => true end else true)
              && spacedb k (fstep k f a) r
  end.
Lemma spacedb_ok : forall ops k f, spacedb k f ops = true -> spaced k f ops.
Proof.
  induction ops as [|[j o] ops IH]; intros k f H; cbn in *; auto. apply andb_prop in H. destruct H as [H1 H2]. split; auto.
  intros v p E Hv. inversion E; subst. rewrite Nat.eqb_refl in H1. apply orb_prop in H1. destruct H1 as [H1|H1].
  - apply Z.ltb_lt in H1. exfalso. apply (Zlt_not_le _ _ H1 Hv).
  - destruct (f_sync f (f_cur f)); auto; discriminate.
Qed.
Ltac no_in := intros; intros I; cbn in I; repeat (destruct I as [I|I]; [inversion I; fail|]); auto.
Example tdemo_met : let f0 := fingers_init [(0, 0); (0, 0)] 0 in
  slots_ok 0 2 tdemo /\ not_muted 0 tdemo /\ spaced 0 f0 tdemo /\ plain 0 tdemo.
Proof.
  cbv zeta. split; [|split; [|split]].
  - intros v I. cbn in I. repeat (destruct I as [I|I]; [inversion I; subst; split; vm_compute; congruence|]). contradiction.
  - unfold not_muted. no_in.
  - apply spacedb_ok. vm_compute. reflexivity.
  - unfold plain. split; [no_in|split; no_in].
Qed.

(** C14 is false: two touches change in one hardware frame, the hysteresis
    swallows the motion of the second, and the frame event for the first is not
    sent (fallback_flush_mt_events forgets that it sent something,
    /repo/src/evdev-fallback.c:932-945). *)
Theorem touch_frame_refuted : exists w ops k o, new_seat w /\
  ~ frame_closed (snd (wstep snap (fst (wrun snap w ops)) (k, o))).
Proof.
  exists (two (panel true true) (panel false false)),
    [(0%nat, Slot 0); (0%nat, Track 1 false); (0%nat, Slot 1); (0%nat, Track 2 false); (0%nat, Syn 100);
     (0%nat, Slot 0); (0%nat, PosX 50); (0%nat, Slot 1); (0%nat, PosX 1)], 0%nat, (Syn 200).
  split; [apply two_new|].
  assert (E : snd (wstep snap (fst (wrun snap (two (panel true true) (panel false false))
    [(0%nat, Slot 0); (0%nat, Track 1 false); (0%nat, Slot 1); (0%nat, Track 2 false); (0%nat, Syn 100);
     (0%nat, Slot 0); (0%nat, PosX 50); (0%nat, Slot 1); (0%nat, PosX 1)])) (0%nat, Syn 200)) =
     [(0%nat, TMotion 200 0 0 (50, 0))]) by (vm_compute; reflexivity).
  rewrite E. intros [H|(evs & k & t & H)]; [discriminate|].
  change [(0%nat, TMotion 200 0 0 (50, 0))] with ([] ++ [(0%nat, TMotion 200 0 0 (50, 0))]) in H.
  apply app_inj_tail in H. destruct H as [_ H]. discriminate.
Qed.
Print Assumptions touch_frame_refuted.

Definition final (outs : list (nat * tout)) (v : view) : view :=
  fold_left (fun v e => match e with
    | (k, TDown _ i n _) => (k, i, n) :: v
    | (k, TUp _ i _) | (k, TCancel _ i _) => drop k i v
    | _ => v end) outs v.
Lemma final_ok : forall outs v v', legal v outs v' -> v' = final outs v.
Proof. intros outs v v' H. induction H; cbn; auto. Qed.

(** C38 without its conditions is false: a finger leaves and in the same
    hardware frame a palm takes its slot; the touch is never ended, although
    all contacts are lifted afterwards. *)
Theorem touch_lifted_refuted : exists w ops k pts, new_seat w /\
  w_dev w k = dev_init true true true false (0, 0) true pts 0 /\
  slots_ok k (Z.of_nat (length pts)) ops /\ not_muted k ops /\
  (forall i, f_sync (fingers_after k (fingers_init pts 0) ops) i = false) /\
  forall v, legal [] (snd (wrun snap w ops)) v -> v = [(k, 0, 0)].
Proof.
  exists (two (panel true false) (panel false false)),
    [(0%nat, Slot 0); (0%nat, Track 1 false); (0%nat, Syn 100);
     (0%nat, Track (-1) false); (0%nat, Track 2 true); (0%nat, Syn 200);
     (0%nat, Track (-1) false); (0%nat, Syn 300)], 0%nat, [(0, 0); (0, 0)].
  split; [apply two_new|]. split; [reflexivity|]. split; [|split; [|split]].
  - intros v I. cbn in I. repeat (destruct I as [I|I]; [inversion I; subst; split; vm_compute; congruence|]). contradiction.
  - unfold not_muted. no_in.
  - intros i. cbn. destruct (i =? 0); reflexivity.
  - intros v H. apply final_ok in H. rewrite H. vm_compute. reflexivity.
Qed.
Print Assumptions touch_lifted_refuted.

(** C38 is false across pen/touch arbitration: ABS_MT_SLOT events are dropped
    while the panel is muted, so afterwards a finger is reported in the slot of
    another one. *)
Theorem touch_muted_slot_refuted : exists w ops k pts, new_seat w /\ timers_ok snap w ops /\
  w_dev w k = dev_init true true true false (0, 0) true pts 0 /\
  slots_ok k (Z.of_nat (length pts)) ops /\
  f_sync (fingers_after k (fingers_init pts 0) ops) 0 = false /\
  f_sync (fingers_after k (fingers_init pts 0) ops) 1 = true /\
  forall v, legal [] (snd (wrun snap w ops)) v -> v = [(k, 0, 0)].
Proof.
  set (ops := [(0%nat, Arbitrate A_IGNORE_ALL (mkRect 0 0 0 0) 100); (0%nat, Slot 1); (0%nat, Track 1 false); (0%nat, Syn 200);
     (0%nat, Arbitrate A_NOT_ACTIVE (mkRect 0 0 0 0) 300); (0%nat, ArbTimer 90300);
     (0%nat, Track (-1) false); (0%nat, Syn 100000); (0%nat, Track 2 false); (0%nat, Syn 200000)]).
  exists (two (panel true false) (panel false false)), ops, 0%nat, [(0, 0); (0, 0)].
  split; [apply two_new|]. split; [|split; [reflexivity|split; [|split; [|split]]]].
  - unfold ops. cbn [timers_ok]. repeat (split; [intros k t E; try discriminate|]); auto.
    inversion E; subst. exists 90300. split; [vm_compute; reflexivity|apply Z.le_refl].
  - intros v I. cbn in I. repeat (destruct I as [I|I]; [inversion I; subst; split; vm_compute; congruence|]). contradiction.
  - vm_compute. reflexivity.
  - vm_compute. reflexivity.
  - intros v H. apply final_ok in H. rewrite H. vm_compute. reflexivity.
Qed.
Print Assumptions touch_muted_slot_refuted.

(** C37 is false for single-touch panels: the rectangle is not looked at. *)
Theorem touch_rect_single_refuted : exists w ops k t r, new_seat w /\ pen_after k ops = (A_IGNORE_RECT, r) /\
  exists n p, In (k, TDown t (-1) n p) (snd (wstep snap (fst (wrun snap w ops)) (k, Syn t))) /\ in_rect p r = true.
Proof.
  exists (two (panel false false) (panel false false)),
    [(0%nat, Arbitrate A_IGNORE_RECT (mkRect 0 0 10 10) 100); (0%nat, AbsX 5); (0%nat, BtnTouch 1)], 0%nat, 200, (mkRect 0 0 10 10).
  split; [apply two_new|]. split; [reflexivity|]. exists 0, (5, 0). split; [vm_compute; left; reflexivity|reflexivity].
Qed.
Print Assumptions touch_rect_single_refuted.

(** C12 needs ABS_X on touch devices: without it the first suspend cancels a
    touch in seat slot 0 that the device does not have. *)
Theorem touch_no_abs_x_refuted : exists w ops, w_map w = 0 /\
  (forall k, exists hx, w_dev w k = dev_init true true false false (0, 0) hx [(0, 0)] 0) /\
  forall v, ~ legal [] (snd (wrun snap w ops)) v.
Proof.
  exists (mkSeat 0 (fun k => dev_init true true false false (0, 0) (Nat.eqb k 0) [(0, 0)] 0)),
    [(0%nat, Track 1 false); (0%nat, Syn 100); (1%nat, Suspend 200)].
  split; [reflexivity|]. split; [intros k; eexists; reflexivity|]. intros v H.
  assert (E : snd (wrun snap (mkSeat 0 (fun k => dev_init true true false false (0, 0) (Nat.eqb k 0) [(0, 0)] 0))
     [(0%nat, Track 1 false); (0%nat, Syn 100); (1%nat, Suspend 200)]) =
     [(0%nat, TDown 100 0 0 (0, 0)); (0%nat, TFrame 100); (1%nat, TCancel 200 (-1) 0); (1%nat, TFrame 200)]) by (vm_compute; reflexivity).
  rewrite E in H. repeat (match goal with G : legal _ (_ :: _) _ |- _ => inversion G; clear G; subst end).
  match goal with G : In (1%nat, _, _) _ |- _ => cbn in G; repeat (destruct G as [G|G]; [inversion G|]); contradiction end.
Qed.
Print Assumptions touch_no_abs_x_refuted.

(** A muted panel; the hypotheses of [touch_muted] and [touch_rect] are met. *)
Example muted_met : timers_ok snap (two (panel true false) (panel false false))
  ([(0%nat, Track 1 false); (0%nat, Syn 50)] ++ (0%nat, Arbitrate A_IGNORE_ALL (mkRect 0 0 0 0) 100) ::
   [(0%nat, Track 2 false); (0%nat, Syn 120); (0%nat, Arbitrate A_NOT_ACTIVE (mkRect 0 0 0 0) 300); (0%nat, Suspend 400)]) /\
  snd (wrun snap (two (panel true false) (panel false false))
    ([(0%nat, Track 1 false); (0%nat, Syn 50)] ++ [(0%nat, Arbitrate A_IGNORE_ALL (mkRect 0 0 0 0) 100)])) =
  [(0%nat, TDown 50 0 0 (0, 0)); (0%nat, TFrame 50); (0%nat, TCancel 100 0 0); (0%nat, TFrame 100)].
Proof.
  split; [|vm_compute; reflexivity]. cbn [timers_ok app]. repeat (split; [intros k t E; discriminate|]). exact I.
Qed.
Example rect_met : exists r, pen_after 0 [(0%nat, Arbitrate A_IGNORE_RECT (mkRect 0 0 10 10) 100); (0%nat, UpdateRect (mkRect 5 5 10 10));
    (0%nat, Track 1 false); (0%nat, PosX 50)] = (A_IGNORE_RECT, r) /\
  snd (wstep snap (fst (wrun snap (two (panel true false) (panel false false))
    [(0%nat, Arbitrate A_IGNORE_RECT (mkRect 0 0 10 10) 100); (0%nat, UpdateRect (mkRect 5 5 10 10));
     (0%nat, Track 1 false); (0%nat, PosX 50)])) (0%nat, Syn 200)) = [(0%nat, TDown 200 0 0 (50, 0)); (0%nat, TFrame 200)].
Proof. eexists. split; vm_compute; reflexivity. Qed.
