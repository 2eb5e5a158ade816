(** Proofs about tapping. *)
Require Import Coq.ZArith.ZArith Coq.Lists.List Coq.Bool.Bool Coq.micromega.Lia.
Require Verif.Tp_Model Verif.Tp_Spec.
Require Import Verif.Tap_Model Verif.Tap_Spec.
Import ListNotations.
Open Scope Z_scope.

(** ** Event lists *)
Fixpoint lastt (lo : Z) (l : list bev) : Z := match l with [] => lo | e :: r => lastt (at_time e) r end.
Lemma lastt_app : forall l lo e, lastt lo (l ++ [e]) = at_time e.
Proof. induction l; intros; cbn; auto. Qed.
Lemma in_order_app : forall l lo e, in_order lo (l ++ [e]) <-> in_order lo l /\ lastt lo l <= at_time e.
Proof. induction l as [|a l IH]; intros; cbn; [intuition|]. rewrite IH. intuition. Qed.
Lemma held_app : forall l h l', held h (l ++ l') = match held h l with Some h' => held h' l' | None => None end.
Proof.
  induction l as [|a l IH]; intros; cbn; [reflexivity|]. destruct h as [b|]; destruct (down a); try reflexivity; try apply IH.
  destruct (button_eqb b (but a)); [apply IH|reflexivity].
Qed.
Lemma button_eqb_refl : forall b, button_eqb b b = true.
Proof. destruct b; reflexivity. Qed.

(** ** The state machine's invariant *)
Definition expect (x : tap_state) : option Z :=
  match x with
  | IDLE | TAPPED _ | DRAGGING_WAIT _ => Some 0
  | TOUCH | HOLD | TOUCH_2_RELEASE | TOUCH_3_RELEASE_2 | DRAGGING_OR_DOUBLETAP _ | DRAGGING _ | DRAGGING_OR_TAP _ => Some 1
  | TOUCH_2 | TOUCH_2_HOLD | TOUCH_3_RELEASE | DRAGGING_2 _ => Some 2
  | TOUCH_3 | TOUCH_3_HOLD => Some 3
  | DEAD => None
  end.
Definition pressed_of (x : tap_state) : option nfg :=
  match x with
  | TAPPED n | DRAGGING n | DRAGGING_WAIT n | DRAGGING_OR_DOUBLETAP n | DRAGGING_OR_TAP n | DRAGGING_2 n => Some n
  | _ => None
  end.
Definition armed (x : tap_state) : bool :=
  match x with
  | TOUCH | TOUCH_2 | TOUCH_3 | TOUCH_2_RELEASE | TOUCH_3_RELEASE | TOUCH_3_RELEASE_2 | TAPPED _ | DRAGGING_WAIT _ | DRAGGING_OR_DOUBLETAP _ | DRAGGING_OR_TAP _ => true
  | _ => false
  end.
Definition torder (x : tap_state) (p r l now : Z) : Prop :=
  match x with
  | TOUCH | TOUCH_2 | TOUCH_3 => l <= p /\ p <= now
  | TOUCH_2_RELEASE | TOUCH_3_RELEASE | TOUCH_3_RELEASE_2 => l <= p /\ p <= r /\ r <= now
  | TAPPED _ | DRAGGING _ | DRAGGING_WAIT _ | DRAGGING_OR_TAP _ | DRAGGING_2 _ => l <= r /\ r <= now
  | DRAGGING_OR_DOUBLETAP _ => l <= r /\ r <= p /\ p <= now
  | _ => True
  end.
Definition isF (n : nfg) (o : option nfg) : bool := match n, o with F1, Some F1 | F2, Some F2 | F3, Some F3 => true | _, _ => false end.
Record core (d : Z) (a : bool) (lo now : Z) (s : tap) : Prop := {
  c_nf : match expect (st s) with Some k => nf s + d = k | None => 0 <= nf s + d end;
  c_held : held None (out s) = Some (option_map (button_of (map_ s)) (pressed_of (st s)));
  c_p1 : p1 s = isF F1 (pressed_of (st s)); c_p2 : p2 s = isF F2 (pressed_of (st s)); c_p3 : p3 s = isF F3 (pressed_of (st s));
  c_timer : a = true -> armed (st s) = true -> exists e, timer s = Some e /\ e <= now + 300000;
  c_order : in_order lo (out s); c_last : lastt lo (out s) <= now; c_times : torder (st s) (sp s) (sr s) (lastt lo (out s)) now;
  c_ok : ok s = true; c_bug : bug s = false }.

Lemma core_mono : forall d a lo now now' s, core d a lo now s -> now <= now' -> core d a lo now' s.
Proof.
  intros d a lo now now' s C L. destruct C. constructor; auto; try lia.
  - intros A B. destruct (c_timer0 A B) as (e & E & F). exists e. split; [auto|lia].
  - destruct (st s); cbn in *; auto; lia.
Qed.
Definition kept (s s' : tap) : Prop :=
  drag s' = drag s /\ draglock s' = draglock s /\ map_ s' = map_ s /\ want_map s' = want_map s /\ enabled s' = enabled s /\ suspended s' = suspended s /\ off s' = off s /\ clickpad s' = clickpad s /\ marks s' = marks s.
Lemma kept_refl : forall s, kept s s. Proof. repeat split. Qed.
Lemma kept_trans : forall a b c, kept a b -> kept b c -> kept a c.
Proof. unfold kept. intros. intuition congruence. Qed.

Ltac unf := cbv beta iota zeta delta [handle_event idle_event touch_event hold_event tapped_event touch2_event touch2_hold_event touch2_release_event touch3_event touch3_hold_event
  touch3_release_event touch3_release2_event dragging_or_doubletap_event dragging_event dragging_wait_event dragging_tap_event dragging2_event dead_event
  move_to_dead click notify set_timer set_drag_timer set_draglock_timer clear_timer goto save_press save_release with_timer with_nf with_marks with_off check log_bug zfg
  st sp sr timer drag draglock map_ want_map p1 p2 p3 nf enabled suspended off clickpad marks ok bug out becomes_thumb
  expect pressed_of armed torder isF option_map is_idle] in *.
Ltac unfg := cbv beta iota zeta delta [handle_event idle_event touch_event hold_event tapped_event touch2_event touch2_hold_event touch2_release_event touch3_event touch3_hold_event
  touch3_release_event touch3_release2_event dragging_or_doubletap_event dragging_event dragging_wait_event dragging_tap_event dragging2_event dead_event
  move_to_dead click notify set_timer set_drag_timer set_draglock_timer clear_timer goto save_press save_release with_timer with_nf with_marks with_off check log_bug zfg
  st sp sr timer drag draglock map_ want_map p1 p2 p3 nf enabled suspended off clickpad marks ok bug out becomes_thumb
  expect pressed_of armed torder isF option_map is_idle] .

Lemma handle_kept : forall s e t, kept s (handle_event s e t).
Proof.
  intros s e t. destruct s as [x]. unfold kept. destruct x, e; unf; try (repeat split; fail);
  repeat match goal with |- context [if ?c then _ else _] => destruct c end; repeat split.
Qed.
Lemma handle_nf : forall s e t, nf (handle_event s e t) = match e with EV_THUMB => if becomes_thumb s then nf s - 1 else nf s | _ => nf s end.
Proof.
  intros s e t. destruct s as [x]. destruct x, e; unf; try reflexivity;
  repeat match goal with |- context [if ?c then _ else _] => destruct c end; reflexivity.
Qed.

(** One event: fingers counted before and after *)
Definition pre (e : tap_event) : Z := match e with EV_TOUCH => -1 | EV_RELEASE => 1 | _ => 0 end.
Definition post (e : tap_event) : Z := match e with EV_PALM => -1 | _ => 0 end.
Definition can (e : tap_event) (s : tap) : Prop :=
  match e with
  | EV_MOTION | EV_PALM | EV_THUMB => 1 <= nf s
  | EV_TOUCH => 1 <= nf s
  | EV_RELEASE => 0 <= nf s
  | _ => True
  end.
Lemma handle_core : forall s e t lo, core (pre e) (match e with EV_TIMEOUT => false | _ => true end) lo t s -> can e s -> core (post e) true lo t (handle_event s e t).
Proof.
  intros s e t lo C P. destruct s as [x vsp vsr vt dr dl m wm q1 q2 q3 n en su of cp mk vok vbug vout]. destruct C as [A1 A2 A3 A4 A5 A6 A7 A8 A9 A10 A11]. cbv [can] in P.
  cbv beta iota delta [st sp sr timer map_ p1 p2 p3 nf ok bug out] in A1, A2, A3, A4, A5, A6, A7, A8, A9, A10, A11, P. subst q1 q2 q3 vok vbug.
  destruct x as [| | |nx| | | | | | | |nx|nx|nx|nx|nx|], e; cbv beta iota delta [pre post] in *; try lia;
  try destruct nx; cbv beta iota delta [expect pressed_of armed torder isF option_map] in A1, A2, A6, A9; unfg; try match goal with |- context [if dr then _ else _] => destruct dr end; try match goal with |- context [if dl then _ else _] => destruct dl end; try (destruct (n =? 0) eqn:N0; [apply Z.eqb_eq in N0|apply Z.eqb_neq in N0]);
  (constructor; unfg;
   [ try lia
   | try assumption; repeat (rewrite held_app; rewrite ?A2); cbn [held at_time but down]; rewrite ?A2; cbn [held at_time but down]; rewrite ?button_eqb_refl; cbn; rewrite ?button_eqb_refl; reflexivity
   | reflexivity | reflexivity | reflexivity
   | intros HA HB; try discriminate HB; try (eexists; split; [reflexivity|lia]); try (apply A6; reflexivity)
   | try assumption; rewrite ?in_order_app, ?lastt_app; cbn [at_time]; (split; [try (split; [assumption|lia]); assumption|lia])
   | try assumption; rewrite ?lastt_app; cbn [at_time]; lia
   | try exact I; try assumption; rewrite ?lastt_app; cbn [at_time]; lia
   | reflexivity | try reflexivity; try lia]).
Qed.

(** ** Frames *)
Lemma core_with_nf : forall d a lo now s n, core d a lo now s -> core (nf s + d - n) a lo now (with_nf s n).
Proof. intros d a lo now s n []. constructor; auto. cbn [with_nf nf st]. destruct (expect (st s)); lia. Qed.
Lemma core_check : forall d a lo now s b, core d a lo now s -> b = true -> core d a lo now (check s b).
Proof. intros d a lo now s b [] ->. constructor; auto. cbn [check ok]. rewrite c_ok0. reflexivity. Qed.
Lemma core_d : forall d d' a lo now s, core d a lo now s -> d = d' -> core d' a lo now s.
Proof. intros; subst; auto. Qed.
Lemma core_marks : forall d a lo now s m, core d a lo now s -> core d a lo now (with_marks s m).
Proof. intros d a lo now s m []. constructor; auto. Qed.

Definition cnt (w : bool) (m : tmark) : Z := if w && negb (is_thumb m) && negb (is_palm m) then 1 else 0.
Lemma counted_cons : forall w was m ms, counted (w :: was) (m :: ms) = cnt w m + counted was ms.
Proof. reflexivity. Qed.
Lemma cnt_range : forall w m, 0 <= cnt w m <= 1.
Proof. intros. unfold cnt. destruct (w && _ && _); lia. Qed.
Lemma counted_nonneg : forall was ms, 0 <= counted was ms.
Proof. induction was as [|w was IH]; intros [|m ms]; try (cbn; lia). rewrite counted_cons. pose proof (cnt_range w m). specialize (IH ms). lia. Qed.

Lemma touch_core : forall s f m w t lo s' m', follows w f -> core 0 true lo t s -> cnt w m <= nf s ->
  touch_in_frame s f m t = (s', m') -> core 0 true lo t s' /\ nf s' = nf s - cnt w m + cnt (is_down f) m' /\ kept s s'.
Proof.
  intros s f m w t lo s' m' F C N E. unfold touch_in_frame in E.
  assert (NN : 0 <= nf s) by (pose proof (cnt_range w m); lia).
  destruct (fdirty f) eqn:D; cbn [negb] in E.
  2:{ injection E as <- <-. split; [auto|]. split; [|apply kept_refl]. unfold follows in F. unfold is_down.
      destruct w; [destruct F as [F|(F & F1 & _)]; [rewrite F; lia|congruence]|destruct F as [F|[F|(F & F1)]]; try congruence; rewrite F; unfold cnt; cbn; lia]. }
  destruct m as [mth mp]. cbn [is_thumb is_palm] in E.
  unfold follows in F. destruct w.
  - (* was down *) assert (FS : fs f = Tp_Model.UPDATE \/ fs f = Tp_Model.END) by (destruct F as [F|(F & _)]; auto).
    assert (E0 : (if mth then (s, {| is_thumb := mth; is_palm := mp |})
                  else if mp then ((match fs f with Tp_Model.END => handle_event s EV_PALM_UP t | _ => s end), {| is_thumb := mth; is_palm := mp |})
                  else if palm f then (let s := handle_event s EV_PALM t in (with_nf (check s (0 <? nf s)) (nf s - 1), mark_palm {| is_thumb := mth; is_palm := mp |}))
                  else match fs f with
                       | Tp_Model.END => ((if fwas_down f then handle_event (with_nf (check s (1 <=? nf s)) (nf s - 1)) EV_RELEASE t else s), {| is_thumb := mth; is_palm := mp |})
                       | _ => if negb (is_idle s) && thumb f then (handle_event s EV_THUMB t, if becomes_thumb s then mark_thumb {| is_thumb := mth; is_palm := mp |} else {| is_thumb := mth; is_palm := mp |})
                              else if negb (is_idle s) && moved f then (handle_event s EV_MOTION t, {| is_thumb := mth; is_palm := mp |}) else (s, {| is_thumb := mth; is_palm := mp |})
                       end) = (s', m')) by (destruct FS as [FS|FS]; rewrite FS in E |- *; exact E).
    clear E. destruct mth; [injection E0 as <- <-; split; [auto|split; [|apply kept_refl]]; unfold cnt; cbn; rewrite !andb_false_r; cbn; lia|].
    destruct mp.
    { assert (X : nf s' = nf s /\ core 0 true lo t s' /\ kept s s').
      { destruct (fs f); injection E0 as <- <-; try (split; [auto|split; [auto|apply kept_refl]]).
        split; [apply handle_nf|split; [apply (handle_core s EV_PALM_UP t lo); [exact C|exact I]|apply handle_kept]]. }
      destruct X as (X1 & X2 & X3). split; [auto|split; [|auto]]. assert (m' = {| is_thumb := false; is_palm := true |}) by congruence. subst m'. unfold cnt. cbn. rewrite !andb_false_r. lia. }
    assert (N1 : 1 <= nf s) by (unfold cnt in N; cbn in N; lia).
    destruct (palm f).
    { cbv zeta in E0. injection E0 as <- <-. pose proof (handle_core s EV_PALM t lo C N1) as HC. pose proof (handle_nf s EV_PALM t) as HN. cbn iota in HN.
      split; [|split; [|]].
      - apply core_d with (d := nf (handle_event s EV_PALM t) + -1 - (nf (handle_event s EV_PALM t) - 1)); [|lia].
        apply (core_with_nf (-1) true lo t (check (handle_event s EV_PALM t) _)). apply core_check; [exact HC|]. apply Z.ltb_lt. lia.
      - unfold cnt. cbn. rewrite !andb_false_r. cbn [nf with_nf]. lia.
      - eapply kept_trans; [apply (handle_kept s EV_PALM t)|]. repeat split. }
    destruct FS as [FS|FS]; rewrite FS in *.
    + destruct (is_idle s) eqn:I; cbn [negb andb] in E0.
      { injection E0 as <- <-. split; [auto|split; [|apply kept_refl]]. unfold cnt, is_down. rewrite FS. cbn. lia. }
      destruct (thumb f).
      { injection E0 as <- <-. split; [apply (handle_core s EV_THUMB t lo C N1)|split; [|apply handle_kept]]. rewrite handle_nf. unfold cnt, is_down. rewrite FS. destruct (becomes_thumb s); cbn; lia. }
      destruct (moved f).
      { injection E0 as <- <-. split; [apply (handle_core s EV_MOTION t lo C N1)|split; [|apply handle_kept]]. rewrite handle_nf. unfold cnt, is_down. rewrite FS. cbn. lia. }
      injection E0 as <- <-. split; [auto|split; [|apply kept_refl]]. unfold cnt, is_down. rewrite FS. cbn. lia.
    + destruct F as [F|(_ & _ & WD)]; [discriminate F|]. rewrite WD in E0. injection E0 as <- <-.
      assert (C1 : core 1 true lo t (with_nf (check s (1 <=? nf s)) (nf s - 1))).
      { apply core_d with (d := nf s + 0 - (nf s - 1)); [|lia]. apply (core_with_nf 0 true lo t (check s _)). apply core_check; [exact C|]. apply Z.leb_le. lia. }
      split; [apply (handle_core _ EV_RELEASE t lo C1); cbn [can nf with_nf]; lia|split].
      * rewrite handle_nf. cbn [nf with_nf]. unfold cnt, is_down. rewrite FS. cbn. lia.
      * eapply kept_trans; [|apply handle_kept]. repeat split.
  - (* was not down *) assert (Z0 : forall mm, cnt false mm = 0) by reflexivity. rewrite Z0 in *.
    destruct F as [F|[F|(F & _)]]; rewrite F in E.
    + injection E as <- <-. split; [auto|split; [|apply kept_refl]]. unfold is_down. rewrite F, Z0. lia.
    + destruct mth; [|destruct mp]; injection E as <- <-; (split; [auto|split; [|apply kept_refl]]; unfold is_down; rewrite F, Z0; lia).
    + destruct mth; [injection E as <- <-; split; [auto|split; [|apply kept_refl]]; unfold cnt; cbn; rewrite !andb_false_r; cbn; lia|].
      destruct mp; [injection E as <- <-; split; [auto|split; [|apply kept_refl]]; unfold cnt; cbn; rewrite !andb_false_r; cbn; lia|].
      destruct (palm f); [injection E as <- <-; split; [auto|split; [|apply kept_refl]]; unfold cnt; cbn; rewrite !andb_false_r; cbn; lia|].
      destruct (thumb_tap f); [injection E as <- <-; split; [auto|split; [|apply kept_refl]]; unfold cnt; cbn; rewrite !andb_false_r; cbn; lia|].
      injection E as <- <-.
      assert (C1 : core (-1) true lo t (with_nf s (nf s + 1))).
      { apply core_d with (d := nf s + 0 - (nf s + 1)); [|lia]. apply (core_with_nf 0 true lo t s). exact C. }
      assert (C2 : core 0 true lo t (handle_event (with_nf s (nf s + 1)) EV_TOUCH t)) by (apply (handle_core _ EV_TOUCH t lo C1); cbn [can nf with_nf]; lia).
      assert (N2 : nf (handle_event (with_nf s (nf s + 1)) EV_TOUCH t) = nf s + 1) by (rewrite handle_nf; reflexivity).
      assert (K2 : kept s (handle_event (with_nf s (nf s + 1)) EV_TOUCH t)) by (eapply kept_trans; [|apply handle_kept]; repeat split).
      assert (Z1 : cnt (is_down f) {| is_thumb := false; is_palm := false |} = 1) by (unfold cnt, is_down; rewrite F; reflexivity). rewrite Z1.
      destruct (palm_tap f).
      * split; [apply (handle_core _ EV_MOTION t lo C2); cbn [can]; lia|split; [rewrite handle_nf, N2; lia|]]. eapply kept_trans; [exact K2|apply handle_kept].
      * split; [exact C2|split; [lia|exact K2]].
Qed.

Lemma touches_core : forall l was s ms t lo K s' ms', Forall2 follows was l -> length ms = length was -> core 0 true lo t s -> 0 <= K -> nf s = K + counted was ms ->
  touches_in_frame s l ms t = (s', ms') -> core 0 true lo t s' /\ nf s' = K + counted (map is_down l) ms' /\ length ms' = length was /\ kept s s'.
Proof.
  induction l as [|f l IH]; intros was s ms t lo K s' ms' F L C K0 N E.
  - inversion F; subst. destruct ms; [|discriminate L]. cbn in E. injection E as <- <-. repeat split; auto; apply C.
  - inversion F as [|w ? was' ? F1 F2]; subst. destruct ms as [|m ms]; [discriminate L|]. cbn in L. injection L as L.
    cbn [touches_in_frame] in E. destruct (touch_in_frame s f m t) as [s1 m1] eqn:E1. destruct (touches_in_frame s1 l ms t) as [s2 ms2] eqn:E2. injection E as <- <-.
    rewrite counted_cons in N. pose proof (counted_nonneg was' ms). destruct (touch_core s f m w t lo s1 m1 F1 C ltac:(lia) E1) as (C1 & N1 & K1).
    pose proof (cnt_range (is_down f) m1).
    destruct (IH was' s1 ms t lo (K + cnt (is_down f) m1) s2 ms2 F2 L C1 ltac:(lia) ltac:(lia) E2) as (C2 & N2 & L2 & K2).
    split; [auto|]. split; [cbn [map]; rewrite counted_cons; lia|]. split; [cbn; congruence|]. eapply kept_trans; eauto.
Qed.

(** ** The whole invariant *)
Record inv (lo now : Z) (was : list bool) (s : tap) : Prop := {
  i_core : core 0 true lo now s;
  i_len : length (marks s) = length was;
  i_cnt : if tap_enabled s && negb (off s) then nf s = counted was (marks s) else st s = IDLE /\ nf s = 0 }.

Lemma core_update_map : forall d a lo now s, core d a lo now s -> core d a lo now (update_map s).
Proof.
  intros d a lo now s C. unfold update_map, is_idle. case_eq (st s); intros; auto.
  destruct C. rewrite H in c_nf0, c_held0, c_p4, c_p5, c_p6, c_timer0, c_times0. constructor; assumption.
Qed.
Lemma counted_le_down : forall l ms, counted (map is_down l) ms <= fingers_down l.
Proof.
  induction l as [|f l IH]; intros [|m ms]; unfold fingers_down in *; cbn [map counted filter]; try (cbn; lia).
  specialize (IH ms). destruct (is_down f); cbn [length andb]; [|lia]. destruct (negb (is_thumb m) && negb (is_palm m)); lia.
Qed.
Lemma fields_update_map : forall s, st (update_map s) = st s /\ nf (update_map s) = nf s /\ marks (update_map s) = marks s /\ enabled (update_map s) = enabled s /\ suspended (update_map s) = suspended s /\ off (update_map s) = off s /\ out (update_map s) = out s.
Proof. intros s. unfold update_map. destruct (is_idle s); repeat split. Qed.
Lemma inv_update_map : forall lo now was s, inv lo now was s -> inv lo now was (update_map s).
Proof.
  intros lo now was s [C L N]. destruct (fields_update_map s) as (A & B & D & E & F & G & _). constructor.
  - apply core_update_map, C. - congruence. - unfold tap_enabled in *. rewrite A, B, D, E, F, G. exact N.
Qed.

Lemma inv_frame : forall lo now was s l c t, inv lo now was s -> now <= t -> Forall2 follows was l -> inv lo t (map is_down l) (handle_state s l c t).
Proof.
  intros lo now was s l c t [C L N] T F. unfold handle_state. apply inv_update_map.
  pose proof (core_mono _ _ _ _ _ _ C T) as C1. assert (LL : length (map is_down l) = length was) by (rewrite map_length; symmetry; clear - F; induction F; cbn; congruence).
  destruct (off s || negb (tap_enabled s)) eqn:OFF.
  { constructor; auto; [congruence|]. replace (tap_enabled s && negb (off s)) with false in N |- * by (destruct (off s), (tap_enabled s); cbn in OFF; try discriminate OFF; reflexivity). exact N. }
  apply orb_false_iff in OFF. destruct OFF as [O1 O2]. apply negb_false_iff in O2. rewrite O1, O2 in N. cbn [negb andb] in N.
  set (s1 := if clickpad s && c then handle_event s EV_BUTTON t else s).
  assert (X : core 0 true lo t s1 /\ nf s1 = nf s /\ kept s s1).
  { unfold s1. destruct (clickpad s && c); [|split; [auto|split; [auto|apply kept_refl]]]. split; [apply (handle_core s EV_BUTTON t lo C1 I)|split; [apply handle_nf|apply handle_kept]]. }
  destruct X as (X1 & X2 & X3). destruct X3 as (Y1 & Y2 & Y3 & Y4 & Y5 & Y6 & Y7 & Y8 & Y9).
  destruct (touches_in_frame s1 l (marks s1) t) as [s2 ms2] eqn:E2.
  destruct (touches_core l was s1 (marks s1) t lo 0 s2 ms2 F ltac:(congruence) X1 ltac:(lia) ltac:(rewrite X2, Y9; lia) E2) as (C2 & N2 & L2 & K2).
  destruct K2 as (Z1 & Z2 & Z3 & Z4 & Z5 & Z6 & Z7 & Z8 & Z9).
  assert (NF : nf (with_marks s2 ms2) = counted (map is_down l) ms2) by (cbn [nf with_marks]; lia).
  constructor.
  - apply core_check; [apply core_marks, C2|]. rewrite NF. pose proof (counted_le_down l ms2). pose proof (counted_nonneg (map is_down l) ms2).
    apply andb_true_iff. split; [apply Z.leb_le; lia|]. destruct (fingers_down l =? 0) eqn:F0; [|reflexivity]. apply Z.eqb_eq in F0. apply Z.eqb_eq. lia.
  - cbn [marks check with_marks]. congruence.
  - unfold tap_enabled in *. cbn [enabled suspended off check with_marks nf marks]. rewrite Z5, Z6, Z7, Y5, Y6, Y7, O1, O2. cbn [negb andb]. lia.
Qed.

Lemma inv_timeout : forall lo now was s t, inv lo now was s -> now <= t -> inv lo t was (timeout s t).
Proof.
  intros lo now was s t [C L N] T. pose proof (core_mono _ _ _ _ _ _ C T) as C1. unfold timeout. destruct (timer s) as [e|]; [|constructor; auto].
  destruct (e <=? t); [|constructor; auto].
  assert (C2 : core 0 false lo t (clear_timer s)) by (destruct C1; constructor; auto; discriminate).
  pose proof (handle_core (clear_timer s) EV_TIMEOUT t lo C2 I) as C3. pose proof (handle_nf (clear_timer s) EV_TIMEOUT t) as N3. cbn iota in N3. cbn [nf clear_timer with_timer] in N3.
  pose proof (handle_kept (clear_timer s) EV_TIMEOUT t) as (Y1 & Y2 & Y3 & Y4 & Y5 & Y6 & Y7 & Y8 & Y9). cbn [drag draglock map_ want_map enabled suspended off clickpad marks clear_timer with_timer] in *.
  constructor; [exact C3|congruence|]. unfold tap_enabled in *. rewrite Y5, Y6, Y7, Y9, N3. destruct ((enabled s && negb (suspended s)) && negb (off s)); [exact N|].
  destruct N as [N1 N2]. split; [|exact N2]. unfold handle_event. cbn [st clear_timer with_timer]. rewrite N1. cbn [idle_event]. cbn [st clear_timer with_timer]. rewrite N1. cbn [st clear_timer with_timer]. exact N1.
Qed.

Lemma release_all_facts : forall lo t s, core 0 true lo t s ->
  core 0 true lo t (release_all s t) /\ st (release_all s t) = IDLE /\ nf (release_all s t) = 0 /\ marks (release_all s t) = map mark_palm (marks s) /\
  enabled (release_all s t) = enabled s /\ suspended (release_all s t) = suspended s /\ off (release_all s t) = off s /\
  out (release_all s t) = out s ++ match pressed_of (st s) with Some n => [{| at_time := t; but := button_of (map_ s) n; down := false |}] | None => [] end.
Proof.
  intros lo t s [A1 A2 A3 A4 A5 A6 A7 A8 A9 A10 A11]. unfold release_all.
  assert (R : forall n x, pressed_of (st s) = Some n -> x = notify s t n false ->
     core 0 true lo t (with_nf (goto (with_marks x (map mark_palm (marks x))) IDLE) 0)).
  { intros n x P ->. rewrite P in *. constructor; unf; try assumption.
    all: try (destruct n; congruence). all: try exact I. all: try lia. all: try (intros _ HH; discriminate HH).
    - rewrite held_app, A2. cbn. rewrite button_eqb_refl. reflexivity.
    - rewrite in_order_app. cbn [at_time]. split; assumption.
    - rewrite lastt_app. cbn [at_time]. lia. }
  destruct (pressed_of (st s)) as [[| |]|] eqn:P; cbn [isF] in *; repeat (first [rewrite A3|rewrite A4|rewrite A5]; cbn [notify p1 p2 p3]).
  - split; [eapply R; reflexivity|]. repeat split.
  - split; [eapply R; reflexivity|]. repeat split.
  - split; [eapply R; reflexivity|]. repeat split.
  - split; [|repeat split; cbn [out with_nf goto with_marks]; rewrite app_nil_r; reflexivity]. constructor; unf; auto; try lia; intros _ HH; discriminate HH.
Qed.
Lemma counted_palm : forall was ms, counted was (map mark_palm ms) = 0.
Proof. induction was as [|w was IH]; intros [|m ms]; cbn [map counted]; auto. rewrite IH. cbn [is_palm mark_palm]. rewrite andb_false_r. reflexivity. Qed.
Lemma counted_none : forall was ms, ~ In true was -> counted was ms = 0.
Proof. induction was as [|w was IH]; intros [|m ms] H; cbn [counted]; auto. destruct w; [exfalso; apply H; left; reflexivity|]. cbn [andb]. rewrite IH; [reflexivity|]. intros G; apply H; right; exact G. Qed.
Lemma counted_clear : forall was ms n, nth n was false = false -> counted was (clear_mark n ms) = counted was ms.
Proof.
  induction was as [|w was IH]; intros [|m ms] [|n] H; cbn [counted clear_mark]; auto.
  - cbn in H. subst w. reflexivity.
  - cbn in H. rewrite IH by exact H. reflexivity.
Qed.
Lemma clear_length : forall ms n, length (clear_mark n ms) = length ms.
Proof. induction ms as [|m ms IH]; intros [|n]; cbn; auto. Qed.

Lemma inv_enabled_update : forall lo now was s su en t, inv lo now was s -> now <= t -> inv lo t was (enabled_update s su en t).
Proof.
  intros lo now was s su en t [C L N] T. pose proof (core_mono _ _ _ _ _ _ C T) as C1. unfold enabled_update.
  match goal with |- context [Bool.eqb (tap_enabled ?x) _] => set (s1 := x) end.
  assert (Cs : core 0 true lo t s1) by (destruct C1; constructor; auto).
  destruct (Bool.eqb (tap_enabled s1) (tap_enabled s)) eqn:EB.
  { apply eqb_prop in EB. constructor; [exact Cs|exact L|]. rewrite EB. exact N. }
  destruct (tap_enabled s1) eqn:TE.
  - assert (TS : tap_enabled s = false) by (destruct (tap_enabled s); [discriminate EB|reflexivity]). rewrite TS in N. cbn [andb] in N. destruct N as [N1 N2].
    constructor.
    + destruct Cs as [A1 A2 A3 A4 A5 A6 A7 A8 A9 A10 A11]. assert (S1 : st s1 = IDLE) by exact N1. rewrite S1 in *. constructor; unf; auto; try (intros _ HH; discriminate HH).
    + cbn [marks with_nf goto with_marks]. rewrite map_length. exact L.
    + cbn [nf with_nf goto with_marks marks]. match goal with |- if ?b then _ else _ => destruct b end; [symmetry; apply counted_palm|split; reflexivity].
  - destruct (release_all_facts lo t s1 Cs) as (R1 & R2 & R3 & R4 & R5 & R6 & R7 & _). constructor; [exact R1|rewrite R4, map_length; exact L|].
    rewrite R2, R3, R4. match goal with |- if ?b then _ else _ => destruct b end; [symmetry; apply counted_palm|split; reflexivity].
Qed.
Lemma inv_release_all : forall lo now was s t, inv lo now was s -> now <= t -> inv lo t was (release_all s t).
Proof.
  intros lo now was s t [C L N] T. pose proof (core_mono _ _ _ _ _ _ C T) as C1. destruct (release_all_facts lo t s C1) as (R1 & R2 & R3 & R4 & R5 & R6 & R7 & _).
  constructor; [exact R1|rewrite R4, map_length; exact L|]. rewrite R2, R3, R4. match goal with |- if ?b then _ else _ => destruct b end; [symmetry; apply counted_palm|split; reflexivity].
Qed.

Lemma inv_run : forall l lo now was s, inv lo now was s -> legal now was l -> inv lo (last_time now l) (last_down was l) (run s l).
Proof.
  induction l as [|i l IH]; intros lo now was s I H; [exact I|]. cbn [run fold_left]. change (fold_left step l (step s i)) with (run (step s i) l).
  destruct i; cbn [legal last_time last_down] in *; cbn [step].
  - destruct H as [H1 H2]. apply IH; [|exact H2]. destruct I as [C L N]. constructor; [apply core_marks, C|cbn [marks with_marks]; rewrite clear_length; exact L|].
    unfold tap_enabled in *. cbn [enabled suspended off nf marks st with_marks]. rewrite counted_clear by exact H1. exact N.
  - destruct H as (H1 & H2 & H3). apply IH; [|exact H3]. eapply inv_frame; eauto.
  - destruct H as (H1 & H2). apply IH; [|exact H2]. eapply inv_timeout; eauto.
  - destruct H as (H1 & H2). apply IH; [|exact H2]. eapply inv_enabled_update; eauto.
  - apply IH; [|exact H]. apply inv_update_map. destruct I as [C L N]. constructor; [destruct C; constructor; auto|exact L|exact N].
  - apply IH; [|exact H]. destruct I as [C L N]. constructor; [destruct C; constructor; auto|exact L|exact N].
  - apply IH; [|exact H]. destruct I as [C L N]. constructor; [destruct C; constructor; auto|exact L|exact N].
  - destruct H as (H1 & H2). apply IH; [|exact H2]. eapply inv_enabled_update; eauto.
  - destruct H as (H1 & H2). apply IH; [|exact H2]. eapply inv_enabled_update; eauto.
  - destruct H as (H1 & H2). apply IH; [|exact H2]. eapply inv_release_all; eauto.
  - destruct H as (H1 & H2). apply IH; [|exact H2]. destruct I as [C L N]. pose proof (core_mono _ _ _ _ _ _ C H1) as C1. destruct (release_all_facts lo t s C1) as (R1 & R2 & R3 & R4 & R5 & R6 & R7 & _).
    constructor; [destruct R1; constructor; auto|cbn [marks with_off]; rewrite R4, map_length; exact L|].
    unfold tap_enabled. cbn [enabled suspended off nf marks st with_off]. rewrite andb_false_r. split; assumption.
  - destruct H as (H1 & H2). apply IH; [|exact H2]. destruct I as [C L N]. constructor; [destruct C; constructor; auto|exact L|].
    unfold tap_enabled in *. cbn [enabled suspended off nf marks st with_off]. rewrite counted_none by exact H1. destruct ((enabled s && negb (suspended s)) && negb (off s)) eqn:B.
    + apply andb_true_iff in B. destruct B as [B _]. rewrite B. cbn. rewrite counted_none in N by exact H1. exact N.
    + destruct N as [N1 N2]. destruct ((enabled s && negb (suspended s)) && negb false); [exact N2|split; assumption].
Qed.
Lemma inv_init : forall n pad en lo, inv lo lo (repeat false n) (init n pad en).
Proof.
  intros. constructor.
  - constructor; unf; auto; try reflexivity; try lia; cbn; auto; try lia; try (intros _ HH; discriminate HH).
  - cbn. rewrite !repeat_length. reflexivity.
  - cbn [nf init marks]. rewrite counted_none; [|intros H; apply repeat_spec in H; discriminate H]. match goal with |- if ?b then _ else _ => destruct b end; [reflexivity|split; reflexivity].
Qed.
Lemma run_app : forall l1 l2 s, run s (l1 ++ l2) = run (run s l1) l2.
Proof. intros. unfold run. apply fold_left_app. Qed.
