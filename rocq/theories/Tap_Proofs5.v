(** Proofs about tap-and-drag *)
Require Import Coq.ZArith.ZArith Coq.Lists.List Coq.Bool.Bool Coq.micromega.Lia.
Require Verif.Tp_Model.
Require Import Verif.Tap_Model Verif.Tap_Spec Verif.Tap_Spec2 Verif.Tap_Proofs Verif.Tap_Proofs2 Verif.Tap_Proofs3.
Import ListNotations.
Open Scope Z_scope.

(** ** Settings *)
Lemma touch_kept' : forall s f m t, draglock (fst (touch_in_frame s f m t)) = draglock s.
Proof. intros. apply (touch_kept s f m t). Qed.
Lemma handle_state_lock : forall s l c t, draglock (handle_state s l c t) = draglock s.
Proof.
  intros s l c t. unfold handle_state. assert (U : forall x, draglock (update_map x) = draglock x) by (intros; unfold update_map; destruct (is_idle x); reflexivity). rewrite U. destruct (off s || negb (tap_enabled s)); [reflexivity|].
  set (s1 := if clickpad s && c then handle_event s EV_BUTTON t else s). assert (H1 : draglock s1 = draglock s) by (unfold s1; destruct (clickpad s && c); [apply (handle_kept s EV_BUTTON t)|reflexivity]).
  pose proof (touches_kept l s1 (marks s1) t) as (_ & K & _). destruct (touches_in_frame s1 l (marks s1) t) as [s2 ms]. cbn in *. congruence.
Qed.
Lemma settings_run : forall l s, drag (run s l) = fold_left (fun b i => match i with SetDrag e => e | _ => b end) l (drag s) /\
  draglock (run s l) = fold_left (fun b i => match i with SetDragLock e => e | _ => b end) l (draglock s).
Proof.
  induction l as [|i l IH]; intros s; [split; reflexivity|]. cbn [run fold_left]. change (fold_left step l (step s i)) with (run (step s i) l). destruct (IH (step s i)) as [A B]. rewrite A, B.
  assert (X : drag (step s i) = match i with SetDrag e => e | _ => drag s end /\ draglock (step s i) = match i with SetDragLock e => e | _ => draglock s end).
  { assert (U : forall x, draglock (update_map x) = draglock x /\ drag (update_map x) = drag x) by (intros; unfold update_map; destruct (is_idle x); split; reflexivity).
    assert (RA : forall t, draglock (release_all s t) = draglock s /\ drag (release_all s t) = drag s) by (intros t; unfold release_all; destruct (p1 s); cbn; [|destruct (p2 s); cbn; [|destruct (p3 s); cbn]]; cbn; repeat match goal with |- context [if ?c then _ else _] => destruct c; cbn end; split; reflexivity).
    assert (EU : forall su en t, draglock (enabled_update s su en t) = draglock s /\ drag (enabled_update s su en t) = drag s).
    { intros su en t. unfold enabled_update. match goal with |- context [Bool.eqb ?a ?b] => destruct (Bool.eqb a b) end; [split; reflexivity|]. match goal with |- context [if tap_enabled ?a then _ else _] => destruct (tap_enabled a) end; [split; reflexivity|].
      unfold release_all. cbn. repeat match goal with |- context [if ?c then _ else _] => destruct c; cbn end; split; reflexivity. }
    destruct i; cbn [step]; try (split; reflexivity); try (split; apply EU); try (split; apply RA).
    - split; [apply (handle_state_conf s l0 click t)|apply handle_state_lock].
    - unfold timeout. destruct (timer s); [|split; reflexivity]. destruct (z <=? t); [|split; reflexivity]. pose proof (handle_kept (clear_timer s) EV_TIMEOUT t) as (K1 & K2 & _). split; [exact K1|exact K2].
    - match goal with |- context [update_map ?x] => destruct (U x) as [U1 U2]; rewrite U1, U2 end. split; reflexivity. }
  destruct X as [-> ->]. destruct i; split; reflexivity.
Qed.

(** ** What is kept during a drag *)
Record kd (n : nat) (m : tap_map) (lk : bool) (s : tap) : Prop := { k_len : length (marks s) = n; k_off : off s = false; k_en : tap_enabled s = true; k_map : map_ s = m; k_want : want_map s = m; k_lock : draglock s = lk }.
Lemma kd_event : forall n m lk s e t, kd n m lk s -> kd n m lk (handle_event s e t).
Proof. intros n m lk s e t [A B C D E F]. pose proof (handle_kept s e t) as (K1 & K2 & K3 & K4 & K5 & K6 & K7 & K8 & K9). constructor; try congruence. unfold tap_enabled in *. congruence. Qed.
Lemma kd_ext : forall n m lk s s', kd n m lk s -> marks s' = marks s -> off s' = off s -> enabled s' = enabled s -> suspended s' = suspended s -> map_ s' = map_ s -> want_map s' = want_map s -> draglock s' = draglock s -> kd n m lk s'.
Proof. intros n m lk s s' [A B C D E F]. intros. constructor; try congruence. unfold tap_enabled in *. congruence. Qed.
(** A frame in which one finger's event leaves the marks alone *)
Lemma kd_frame : forall i j m lk s f t s1, kd (i + S j) m lk s -> mk i s = unmarked -> touch_in_frame s f unmarked t = (s1, unmarked) -> kd (i + S j) m lk s1 ->
  let s' := handle_state s (alone i j f) false t in
  kd (i + S j) m lk s' /\ mk i s' = unmarked /\ st s' = st s1 /\ nf s' = nf s1 /\ out s' = out s1 /\ sp s' = sp s1 /\ sr s' = sr s1 /\ timer s' = timer s1.
Proof.
  intros i j m lk s f t s1 K MK T K1 s'. destruct (frame_alone s i j f t (k_len _ _ _ _ K) (k_off _ _ _ _ K) (k_en _ _ _ _ K)) as (b & F). unfold mk in MK. rewrite MK, T in F. unfold s'. rewrite F. clear F s'.
  destruct (nth_firstn_skipn i (marks s) unmarked unmarked ltac:(rewrite (k_len _ _ _ _ K); lia)) as [N1 N2]. destruct K1 as [A B C D E G]. pose proof (k_len _ _ _ _ K) as L.
  unfold update_map, tap_enabled in *. match goal with |- context [is_idle ?x] => destruct (is_idle x) end; cbn [marks off enabled suspended map_ want_map draglock check with_marks st nf out sp sr timer]; (split; [constructor; unfold tap_enabled; cbn [marks off enabled suspended map_ want_map draglock check with_marks st nf out sp sr timer]; auto; congruence|]); unfold mk; cbn [marks off enabled suspended map_ want_map draglock check with_marks st nf out sp sr timer]; auto 10.
Qed.
(** The finger comes *)
Lemma begin_frame : forall n m lk s x d, kd n m lk s -> proper n d x -> nf s = 0 ->
  let s0 := with_nf (with_marks s (clear_mark (at_ x) (marks s))) 1 in
  let s1 := handle_event s0 EV_TOUCH (t_begin x) in
  let s' := run s [Begin (at_ x); Frame (alone (at_ x) (behind x) (s_begin x)) false (t_begin x)] in
  kd n m lk s' /\ mk (at_ x) s' = unmarked /\ st s' = st s1 /\ nf s' = nf s1 /\ out s' = out s1 /\ sp s' = sp s1 /\ sr s' = sr s1 /\ timer s' = timer s1.
Proof.
  intros n m lk s x d K P NF s0 s1 s'. destruct P as (PN & _ & FB & DB & (C1 & C2 & C3 & C4) & _). unfold s'. cbn [run fold_left step]. subst n.
  assert (K0 : kd (at_ x + S (behind x)) m lk (with_marks s (clear_mark (at_ x) (marks s)))) by (destruct K; constructor; cbn; auto; rewrite clear_length; assumption).
  assert (E : touch_in_frame (with_marks s (clear_mark (at_ x) (marks s))) (s_begin x) unmarked (t_begin x) = (s1, unmarked)).
  { unfold touch_in_frame. rewrite DB, FB. cbn [negb is_thumb is_palm]. rewrite C1, C3, C4. cbn [nf with_marks]. rewrite NF. reflexivity. }
  refine (kd_frame _ _ _ _ _ _ _ _ K0 _ E _).
  - unfold mk. cbn. apply nth_clear. rewrite (k_len _ _ _ _ K). lia.
  - apply kd_event. eapply kd_ext; [exact K0|..]; reflexivity.
Qed.
(** The clock is looked at too early *)
Lemma early : forall l s d, timer s = Some d -> Forall (fun t => t < d) l -> run s (map Timer l) = s.
Proof. induction l as [|t l IH]; intros s d T F; [reflexivity|]. inversion_clear F as [|? ? F1 F2]. cbn [map run fold_left step]. unfold timeout at 1. rewrite T. replace (d <=? t) with false by (symmetry; apply Z.leb_gt; exact F1). exact (IH s d T F2). Qed.

(** While the finger is down.  [w]: the state until it drags *)
Definition waiting (n : nfg) (x : tap_state) : Prop := x = DRAGGING_OR_DOUBLETAP n \/ x = DRAGGING_OR_TAP n.
Record hd (i j : nat) (m : tap_map) (lk : bool) (o : list bev) (n : nfg) (w : tap_state) (t0 pp rl : Z) (dr : bool) (s : tap) : Prop := {
  h_kd : kd (i + S j) m lk s; h_mk : mk i s = unmarked; h_nf : nf s = 1; h_out : out s = o; h_sp : dr = false -> sp s = pp; h_sr : dr = false -> sr s = rl;
  h_st : st s = if dr then DRAGGING n else w; h_tm : dr = false -> timer s = Some (t0 + 180000) }.
Definition starts (t0 : Z) (m : meanwhile) : bool := match m with Moves f _ => fdirty f && moved f | TimeIs t => t0 + 180000 <=? t end.
Lemma hold_step : forall i j m lk o n w ts t0 pp rl dr s x, waiting n w -> hd i j m lk o n w t0 pp rl dr s -> (dr = false -> ts = t0) ->
  (match x with Moves f _ => fs f = Tp_Model.UPDATE /\ calm_finger f | TimeIs _ => True end) ->
  hd i j m lk o n w t0 pp rl (dr || starts ts x) (step s (meanwhile_input i j x)).
Proof.
  intros i j m lk o n w ts t0 pp rl dr s x W [K MK NF O SP SR ST TM] TS C. destruct x as [f t|t]; cbn [meanwhile_input step starts].
  - destruct C as [FU (C1 & C2 & C3 & C4)]. assert (ID : is_idle s = false) by (unfold is_idle; rewrite ST; destruct dr, W as [->| ->]; reflexivity).
    set (s1 := if fdirty f && moved f then handle_event s EV_MOTION t else s).
    assert (E : touch_in_frame s f unmarked t = (s1, unmarked)). { unfold touch_in_frame, s1. rewrite FU, ID, C1, C2. cbn [is_thumb is_palm negb andb]. destruct (fdirty f); [|reflexivity]. cbn [negb andb]. destruct (moved f); reflexivity. }
    assert (K1 : kd (i + S j) m lk s1) by (unfold s1; destruct (fdirty f && moved f); [apply kd_event|]; exact K).
    destruct (kd_frame i j m lk s f t s1 K MK E K1) as (A1 & A2 & A3 & A4 & A5 & A6 & A7 & A8).
    assert (X : nf s1 = 1 /\ out s1 = o /\ (dr || fdirty f && moved f = false -> sp s1 = pp /\ sr s1 = rl /\ timer s1 = Some (t0 + 180000)) /\ st s1 = if dr || fdirty f && moved f then DRAGGING n else w).
    { unfold s1. destruct (fdirty f && moved f).
      - rewrite orb_true_r. clear - NF O ST W. destruct s; cbn in *; subst. destruct dr, W as [->| ->]; unfg; cbn; refine (conj eq_refl (conj eq_refl (conj _ eq_refl))); intros Q; discriminate Q.
      - rewrite orb_false_r. refine (conj NF (conj O (conj _ ST))). intros Q. auto. }
    destruct X as (X1 & X2 & X3 & X4). constructor; try congruence; intros Q; rewrite ?A6, ?A7, ?A8; apply X3, Q.
  - assert (TO : kd (i + S j) m lk (timeout s t) /\ mk i (timeout s t) = unmarked).
    { unfold timeout. destruct (timer s); [|auto]. destruct (z <=? t); [|auto]. pose proof (handle_kept (clear_timer s) EV_TIMEOUT t) as (_ & _ & _ & _ & _ & _ & _ & _ & KM). split; [apply kd_event; eapply kd_ext; [exact K|..]; reflexivity|]. unfold mk in *. rewrite KM. exact MK. }
    destruct TO as [T1 T2]. destruct dr; cbn [orb].
    + assert (E : nf (timeout s t) = 1 /\ out (timeout s t) = o /\ st (timeout s t) = DRAGGING n). { unfold timeout. destruct (timer s); [|auto]. destruct (z <=? t); [|auto]. clear - NF O ST. destruct s; cbn in *; subst. unfg. repeat split. }
      destruct E as (E1 & E2 & E3). constructor; auto; intros Q; discriminate Q.
    + rewrite (TS eq_refl). specialize (TM eq_refl). unfold timeout in *. rewrite TM in *. destruct (t0 + 180000 <=? t); [|constructor; auto].
      assert (E : nf (handle_event (clear_timer s) EV_TIMEOUT t) = 1 /\ out (handle_event (clear_timer s) EV_TIMEOUT t) = o /\ st (handle_event (clear_timer s) EV_TIMEOUT t) = DRAGGING n) by (clear - NF O ST W; destruct s; cbn in *; subst; destruct W as [->| ->]; unfg; repeat split).
      destruct E as (E1 & E2 & E3). constructor; auto; intros Q; discriminate Q.
Qed.
Lemma hold_run : forall h i j m lk o n w t0 pp rl dr s, waiting n w -> hd i j m lk o n w t0 pp rl dr s ->
  Forall (fun x => match x with Moves f _ => fs f = Tp_Model.UPDATE /\ calm_finger f | TimeIs _ => True end) h ->
  hd i j m lk o n w t0 pp rl (dr || existsb (starts t0) h) (run s (map (meanwhile_input i j) h)).
Proof.
  induction h as [|x h IH]; intros i j m lk o n w t0 pp rl dr s W H F; cbn [existsb map]; [rewrite orb_false_r; exact H|]. inversion_clear F as [|? ? F1 F2]. rewrite orb_assoc. cbn [run fold_left]. apply IH; auto. apply hold_step; auto.
Qed.
(** The finger is lifted *)
Lemma lift_frame : forall i j m lk o n w t0 pp rl dr s f t, hd i j m lk o n w t0 pp rl dr s -> fs f = Tp_Model.END -> fdirty f = true -> fwas_down f = true -> palm f = false ->
  let s1 := handle_event (with_nf (check s (1 <=? nf s)) 0) EV_RELEASE t in let s' := step s (Frame (alone i j f) false t) in
  kd (i + S j) m lk s' /\ st s' = st s1 /\ nf s' = nf s1 /\ out s' = out s1 /\ sp s' = sp s1 /\ sr s' = sr s1 /\ timer s' = timer s1.
Proof.
  intros i j m lk o n w t0 pp rl dr s f t [K MK NF _ _ _ _ _] FE FD FW PF s1 s'. assert (E : touch_in_frame s f unmarked t = (s1, unmarked)) by (unfold touch_in_frame, s1; rewrite FE, FD, FW, PF, NF; reflexivity).
  destruct (kd_frame i j m lk s f t s1 K MK E) as (A1 & _ & A3 & A4 & A5 & A6 & A7 & A8); [apply kd_event; eapply kd_ext; [exact K|..]; reflexivity|]. unfold s'. cbn [step]. auto 10.
Qed.

(** A stroke begins *)
Lemma put_down_spec : forall n m lk f d x s, kd n m lk s -> st s = TAPPED f \/ st s = DRAGGING_WAIT f -> timer s = Some d -> nf s = 0 -> proper n d x ->
  hd (at_ x) (behind x) m lk (out s) f (match st s with TAPPED _ => DRAGGING_OR_DOUBLETAP f | _ => DRAGGING_OR_TAP f end) (t_begin x) (match st s with TAPPED _ => t_begin x | _ => sp s end) (sr s) (drags x) (run s (put_down x)).
Proof.
  intros n m lk f d x s K ST TM NF P. unfold put_down. rewrite !run_app, (early _ s d TM) by apply P. destruct (begin_frame n m lk s x d K P NF) as (A1 & A2 & A3 & A4 & A5 & A6 & A7 & A8).
  change (drags x) with (false || existsb (starts (t_begin x)) (s_hold x)). apply hold_run; [destruct ST as [-> | ->]; [left|right]; reflexivity| |apply P].
  assert (PN : n = (at_ x + S (behind x))%nat) by apply P. rewrite PN in A1.
  set (s1 := handle_event (with_nf (with_marks s (clear_mark (at_ x) (marks s))) 1) EV_TOUCH (t_begin x)) in *.
  assert (X : st s1 = match st s with TAPPED _ => DRAGGING_OR_DOUBLETAP f | _ => DRAGGING_OR_TAP f end /\ nf s1 = 1 /\ out s1 = out s /\ sp s1 = match st s with TAPPED _ => t_begin x | _ => sp s end /\ sr s1 = sr s /\ timer s1 = Some (t_begin x + 180000)).
  { unfold s1. clear - ST. destruct s; cbn in ST. destruct ST as [-> | ->]; unfg; cbn; repeat split. }
  destruct X as (X1 & X2 & X3 & X4 & X5 & X6). constructor; try congruence; intros _; congruence.
Qed.
(** It ends *)
Lemma lift_spec : forall n m lk o f d w x s, waiting f w -> proper n d x -> forall pp rl dr, hd (at_ x) (behind x) m lk o f w (t_begin x) pp rl dr s -> let s' := step s (lift x) in
  kd n m lk s' /\ nf s' = 0 /\
  if dr then if lk then st s' = DRAGGING_WAIT f /\ out s' = o /\ timer s' = Some (t_end x + 300000) else st s' = IDLE /\ out s' = o ++ [release (button_of m f) (t_end x)]
  else match w with
       | DRAGGING_OR_TAP _ => st s' = IDLE /\ out s' = o ++ [release (button_of m f) (t_end x)]
       | _ => st s' = TAPPED F1 /\ out s' = o ++ [release (button_of m f) rl; press LEFT pp] /\ sr s' = t_end x /\ timer s' = Some (t_end x + 180000)
       end.
Proof.
  intros n m lk o f d w x s W (PN & _ & _ & _ & _ & _ & FE & FD & FW & (PF & _)) pp rl dr H. cbv zeta. unfold lift. subst n.
  destruct (lift_frame _ _ _ _ _ _ _ _ _ _ _ _ (s_end x) (t_end x) H FE FD FW PF) as (A1 & A2 & A3 & A4 & A5 & A6 & A7). cbv zeta in *.
  set (s1 := handle_event (with_nf (check s (1 <=? nf s)) 0) EV_RELEASE (t_end x)) in *. destruct H as [[KL KO KE KM KW KK] MK NF O SP SR ST TM].
  assert (X : nf s1 = 0 /\ if dr then if lk then st s1 = DRAGGING_WAIT f /\ out s1 = o /\ timer s1 = Some (t_end x + 300000) else st s1 = IDLE /\ out s1 = o ++ [release (button_of m f) (t_end x)]
  else match w with
       | DRAGGING_OR_TAP _ => st s1 = IDLE /\ out s1 = o ++ [release (button_of m f) (t_end x)]
       | _ => st s1 = TAPPED F1 /\ out s1 = o ++ [release (button_of m f) rl; press LEFT pp] /\ sr s1 = t_end x /\ timer s1 = Some (t_end x + 180000)
       end).
  { unfold s1. clear - NF O SP SR ST TM W KM KK. destruct s; cbn in *. subst. destruct dr; [destruct lk; unfg; cbn; repeat split|]. rewrite SP, SR by reflexivity. destruct W as [-> | ->]; unfg; cbn; rewrite <- ?app_assoc; repeat split. }
  split; [exact A1|]. rewrite A2, A3, A4, A6, A7. exact X.
Qed.
Lemma want_run : forall l s, want_map (run s l) = fold_left (fun b i => match i with SetMap e => e | _ => b end) l (want_map s).
Proof.
  induction l as [|i l IH]; intros s; [reflexivity|]. cbn [run fold_left]. change (fold_left step l (step s i)) with (run (step s i) l). rewrite (IH (step s i)).
  assert (U : forall x, want_map (update_map x) = want_map x) by (intros; unfold update_map; destruct (is_idle x); reflexivity).
  assert (RA : forall t, want_map (release_all s t) = want_map s) by (intros t; unfold release_all; cbn; repeat match goal with |- context [if ?c then _ else _] => destruct c; cbn end; reflexivity).
  assert (EU : forall su en t, want_map (enabled_update s su en t) = want_map s).
  { intros su en t. unfold enabled_update. match goal with |- context [Bool.eqb ?a ?b] => destruct (Bool.eqb a b) end; [reflexivity|]. match goal with |- context [if tap_enabled ?a then _ else _] => destruct (tap_enabled a) end; [reflexivity|].
    unfold release_all. cbn. repeat match goal with |- context [if ?c then _ else _] => destruct c; cbn end; reflexivity. }
  assert (X : want_map (step s i) = match i with SetMap e => e | _ => want_map s end); [|rewrite X; destruct i; reflexivity].
  destruct i; cbn [step]; try reflexivity; try apply EU; try apply RA.
  - unfold handle_state. rewrite U. destruct (off s || negb (tap_enabled s)); [reflexivity|].
    set (s1 := if clickpad s && click then handle_event s EV_BUTTON t else s). assert (H1 : want_map s1 = want_map s) by (unfold s1; destruct (clickpad s && click); [apply (handle_kept s EV_BUTTON t)|reflexivity]).
    pose proof (touches_kept l0 s1 (marks s1) t) as (_ & _ & _ & K & _). destruct (touches_in_frame s1 l0 (marks s1) t) as [s2 ms]. cbn in *. congruence.
  - unfold timeout. destruct (timer s); [|reflexivity]. destruct (z <=? t); [|reflexivity]. apply (handle_kept (clear_timer s) EV_TIMEOUT t).
  - rewrite U. reflexivity.
Qed.
(** After the tap *)
Lemma frames_lock : forall l s, draglock (run s (frames l)) = draglock s.
Proof.
  intros l s. destruct (settings_run (frames l) s) as [_ ->]. assert (G : forall l' b, Forall (fun i => match i with SetDragLock _ => False | _ => True end) l' -> fold_left (fun b i => match i with SetDragLock e => e | _ => b end) l' b = b).
  { induction l' as [|i l' IH]; intros b F; [reflexivity|]. inversion_clear F as [|? ? F1 F2]. cbn [fold_left]. destruct i; try (apply IH; exact F2). contradiction. }
  apply G. unfold frames. induction l as [|[f t] l IH]; [constructor|]. cbn [map concat]. apply Forall_app. split; [|exact IH]. unfold shown. apply Forall_app. split; [|repeat constructor].
  cbn [fst]. generalize 0%nat. induction f as [|x f IHf]; intros k; cbn [beginning]; [constructor|]. apply Forall_app. split; [destruct (isb x); repeat constructor|apply IHf].
Qed.
