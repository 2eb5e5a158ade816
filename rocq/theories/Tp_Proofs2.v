(** More proofs about the touchpad's fingers: tools, pressure, size, was_down, clearing. *)
Require Import Coq.ZArith.ZArith Coq.Lists.List Coq.Bool.Bool Lia.
Require Import Verif.Tp_Model Verif.Tp_Spec Verif.Tp_Proofs.
Import ListNotations.
Open Scope Z_scope.

(** *** Tools *)
Lemma tools_spec : forall l f, f_overflow f = false -> never_quint l ->
  let g := tools l f in f_overflow g = false /\ f_touch g = last_value BTN_TOUCH (f_touch f) l /\ f_finger g = last_value BTN_TOOL_FINGER (f_finger f) l /\ f_double g = last_value BTN_TOOL_DOUBLETAP (f_double f) l /\
  f_triple g = last_value BTN_TOOL_TRIPLETAP (f_triple f) l /\ f_quad g = last_value BTN_TOOL_QUADTAP (f_quad f) l.
Proof.
  induction l as [|i l IH]; intros f O Q; [repeat split; auto|]. destruct Q as [Q1 Q2]. unfold tools, last_value. cbn [fold_left].
  destruct i as [[| | | | | |c p|] d|d|a c]; cbn [tool_eqb]; try (apply (IH f O Q2)); try (apply (IH no_fake eq_refl Q2)).
  assert (O2 : c <> BTN_TOOL_QUINTTAP \/ p = false -> f_overflow (fake_finger_set f c p) = false) by (intros; destruct c, p; cbn; auto; destruct H; congruence).
  assert (QP : c <> BTN_TOOL_QUINTTAP \/ p = false) by (destruct c; try (left; discriminate); destruct p; [exfalso; exact Q1|auto]).
  pose proof (IH (fake_finger_set f c p) (O2 QP) Q2) as X. unfold tools, last_value in X. cbv zeta in X |- *.
  destruct c; cbn [tool_eqb fake_finger_set f_overflow f_touch f_finger f_double f_triple f_quad] in *; try exact X.
  destruct QP as [QP| ->]; [congruence|exact X].
Qed.
Lemma reported_spec : forall l (fi : bool), never_quint l -> let f := tools l (if fi then fake_finger_set no_fake BTN_TOOL_FINGER true else no_fake) in
  fake_finger_count f = fingers_reported fi l /\ f_touch f = last_value BTN_TOUCH false l.
Proof.
  intros l fi Q f. destruct (tools_spec l (if fi then fake_finger_set no_fake BTN_TOOL_FINGER true else no_fake)) as (A & B & C & D & E & F); [destruct fi; reflexivity|exact Q|].
  fold f in A, B, C, D, E, F. unfold fake_finger_count, fingers_reported. rewrite A, C, D, E, F, B. destruct fi; auto.
Qed.

(** *** Forall over all touches *)
Section Fa.
Variable Q : touch -> Prop.
Lemma fa_acc_all : forall f l i n k l' n' k', Forall Q l -> (forall i t n k, Q t -> Q (fst (fst (f i t n k)))) -> acc_all i f l n k = (l', n', k') -> Forall Q l'.
Proof.
  intros f l. induction l as [|t l IH]; intros i n k l' n' k' F H E; cbn in E; [injection E as <- _ _; constructor|]. inversion F; subst.
  destruct (f i t n k) as [[t1 n1] k1] eqn:E1. destruct (acc_all (S i) f l n1 k1) as [[l2 n2] k2] eqn:E2. injection E as <- _ _. constructor; [|eapply IH; eauto]. specialize (H i t n k H2). rewrite E1 in H. exact H.
Qed.
Lemma fa_acc_nth : forall f l j n k l' n' k', Forall Q l -> (forall t n k, Q t -> Q (fst (fst (f t n k)))) -> acc_nth j f l n k = (l', n', k') -> Forall Q l'.
Proof.
  intros f l. induction l as [|t l IH]; intros [|j] n k l' n' k' F H E; cbn in E; try (injection E as <- _ _; constructor); inversion F; subst.
  - destruct (f t n k) as [[t1 n1] k1] eqn:E1. injection E as <- _ _. constructor; auto. specialize (H t n k H2). rewrite E1 in H. exact H.
  - destruct (acc_nth j f l n k) as [[l2 n2] k2] eqn:E2. injection E as <- _ _. constructor; auto. eapply IH; eauto.
Qed.
Lemma fa_update : forall f l j, Forall Q l -> (forall t, Q t -> Q (f t)) -> Forall Q (update_nth j f l).
Proof. intros f l. induction l as [|t l IH]; intros [|j] F H; cbn; auto; inversion F; subst; constructor; auto. Qed.
Lemma fa_map : forall f l, Forall Q l -> (forall t, Q t -> Q (f t)) -> Forall Q (map f l).
Proof. intros f l F H. induction F; cbn; constructor; auto. Qed.
Hypothesis Qb : forall t n k, Q t -> Q (fst (fst (begin_touch t n k))).
Hypothesis Qm : forall t n k, Q t -> Q (fst (fst (maybe_end_touch t n k))).
Lemma fa_begin : forall g l n k l' n' k', Forall Q l -> begin_until g l n k = (l', n', k') -> Forall Q l'.
Proof.
  intros g l. induction l as [|t l IH]; intros n k l' n' k' F E; cbn [begin_until] in E; [injection E as <- _ _; constructor|]. inversion F; subst. pose proof (Qb t n k H1) as B.
  destruct (ts t); try (destruct (begin_until g l n k) as [[l2 n2] k2] eqn:E2; injection E as <- _ _; constructor; auto; eapply IH; eauto).
  destruct (begin_touch t n k) as [[t1 n1] k1]. cbn in B. destruct (g <=? n1); [injection E as <- _ _; constructor; auto|]. destruct (begin_until g l n1 k1) as [[l2 n2] k2] eqn:E2. injection E as <- _ _. constructor; auto. eapply IH; eauto.
Qed.
Lemma fa_end : forall sk st g l n k l' n' k', Forall Q l -> end_until sk st g l n k = (l', n', k') -> Forall Q l'.
Proof.
  intros sk st g l. induction l as [|t l IH]; intros n k l' n' k' F E; cbn [end_until] in E; [injection E as <- _ _; constructor|]. inversion F; subst. pose proof (Qm t n k H1) as B.
  destruct (sk (ts t)); [destruct (end_until sk st g l n k) as [[l2 n2] k2] eqn:E2; injection E as <- _ _; constructor; auto; eapply IH; eauto|].
  destruct (maybe_end_touch t n k) as [[t1 n1] k1]. cbn in B. destruct (st && (n1 =? g)); [injection E as <- _ _; constructor; auto|]. destruct (end_until sk st g l n1 k1) as [[l2 n2] k2] eqn:E2. injection E as <- _ _. constructor; auto. eapply IH; eauto.
Qed.
Lemma fa_back : forall sk st g l n k l' n' k', Forall Q l -> end_back sk st g l n k = (l', n', k') -> Forall Q l'.
Proof.
  intros sk st g l n k l' n' k' F E. unfold end_back in E. destruct (end_until sk st g (rev l) n k) as [[r n1] k1] eqn:E1. injection E as <- _ _. apply Forall_rev. eapply fa_end; [|exact E1]. apply Forall_rev. exact F.
Qed.
Lemma fa_unhover : forall s, Forall Q (touches s) -> Forall Q (touches (unhover s)).
Proof.
  intros s F. unfold unhover. destruct (mode s) as [lo hi|lo hi|].
  - unfold unhover_pressure.
    match goal with |- context [acc_all 0 ?f ?l ?n ?k] => destruct (acc_all 0 f l n k) as [[l1 n1] k1] eqn:E; assert (F1 : Forall Q l1) end.
    { eapply fa_acc_all; [exact F| |exact E]. cbn beta. intros j t n k H. destruct (Nat.ltb j _); auto. destruct (ts t); auto; destruct (_ && _); auto. }
    match goal with |- context [if ?c || (n1 =? 0) then _ else _] => destruct (c || (n1 =? 0)) end; [exact F1|].
    match goal with |- context [if ?c then begin_until ?a ?b ?d ?e else ?x] => destruct (if c then begin_until a b d e else x) as [[l2 n2] k2] eqn:E2; assert (F2 : Forall Q l2) end.
    { match type of E2 with (if ?c then _ else _) = _ => destruct c end; [eapply fa_begin; eauto|injection E2 as <- _ _; auto]. }
    match goal with |- context [if ?c then end_back ?a ?b ?d ?e ?f ?g else ?x] => destruct (if c then end_back a b d e f g else x) as [[l3 n3] k3] eqn:E3 end.
    cbn. match type of E3 with (if ?c then _ else _) = _ => destruct c end; [eapply fa_back; eauto|injection E3 as <- _ _; auto].
  - unfold unhover_size. match goal with |- context [acc_all 0 ?f ?l ?n ?k] => destruct (acc_all 0 f l n k) as [[l1 n1] k1] eqn:E end. cbn.
    eapply fa_acc_all; [exact F| |exact E]. cbn beta. intros j t n k H. destruct (_ && _); auto. destruct (ts t); auto; destruct (_ || _); auto.
  - unfold unhover_fake. destruct (_ && _); [exact F|]. destruct (_ =? _); [exact F|]. destruct (_ && _); [exact F|].
    match goal with |- context [if ?c then begin_until ?a ?b ?d ?e else ?x] => destruct (if c then begin_until a b d e else x) as [[l2 n2] k2] eqn:E2; assert (F2 : Forall Q l2) end.
    { match type of E2 with (if ?c then _ else _) = _ => destruct c end; [eapply fa_begin; eauto|injection E2 as <- _ _; auto]. }
    match goal with |- context [if ?c then end_back ?a ?b ?d ?e ?f ?g else ?x] => destruct (if c then end_back a b d e f g else x) as [[l3 n3] k3] eqn:E3 end.
    cbn. match type of E3 with (if ?c then _ else _) = _ => destruct c end; [eapply fa_back; eauto|injection E3 as <- _ _; auto].
Qed.
Hypothesis Qn : forall t n k, Q t -> Q (fst (fst (new_touch t n k))).
Hypothesis Qe : forall t n k, Q t -> Q (fst (fst (end_sequence t n k))).
Hypothesis Qr : forall t n k, ts t = MAYBE_END -> Q t -> Q (fst (fst (recover_ended_touch t n k))).
Hypothesis Qd : forall t d, Q t -> Q (set_dirty t d).
Hypothesis Qt : forall t, Q t -> Q (end_touch t).
Hypothesis Qp : forall t, Q t -> Q (post_touch t).
Lemma fa_fake : forall s, Forall Q (touches s) -> Forall Q (touches (process_fake_touches s)).
Proof.
  intros s F. unfold process_fake_touches. destruct (_ =? _); [exact F|].
  set (s1 := if synaptics s then restore_synaptics_touches s else s). assert (F1 : Forall Q (touches s1)).
  { unfold s1. destruct (synaptics s); [|exact F]. unfold restore_synaptics_touches. destruct (_ <? 3); [exact F|]. destruct (_ || _); [exact F|].
    match goal with |- context [acc_all 0 ?f ?l ?n ?k] => destruct (acc_all 0 f l n k) as [[l1 n1] k1] eqn:E end. cbn. eapply fa_acc_all; [exact F| |exact E]. cbn beta. intros j t n k H. destruct (Nat.ltb j _); auto. destruct (ts t) eqn:T; auto. }
  clearbody s1. match goal with |- context [if ?c then with_num_slots s1 ?x else s1] => set (s2 := if c then with_num_slots s1 x else s1) end. assert (F2 : Forall Q (touches s2)) by (unfold s2; destruct (_ && _); exact F1). clearbody s2.
  match goal with |- context [acc_all 0 ?f ?l ?n ?k] => destruct (acc_all 0 f l n k) as [[l1 n1] k1] eqn:E end. cbn. eapply fa_acc_all; [exact F2| |exact E]. cbn beta. intros j t n k H. destruct (Nat.ltb j _); auto. destruct (_ <? _); auto.
Qed.
Lemma fa_frame : forall s d, Forall Q (touches s) -> Forall Q (touches (frame s d)).
Proof.
  intros s d F. unfold frame. destruct (position_dirty (pre_process s) d) as (l & E & R). rewrite E. cbn [touches with_touches].
  assert (F1 : Forall Q (touches (pre_process s))) by (unfold pre_process; cbn [touches with_touches]; apply fa_map; [apply fa_unhover, fa_fake, F|exact Qt]).
  clear E. revert F1. induction R as [|t t' a b (dd & RR) R IH]; intros F1; constructor; inversion F1; subst; auto.
Qed.
Lemma fa_cleared : forall s, Forall Q (touches s) -> Forall Q (touches (cleared s)).
Proof.
  intros s F. unfold cleared. match goal with |- context [acc_all 0 ?f ?l ?n ?k] => destruct (acc_all 0 f l n k) as [[l1 n1] k1] eqn:E end. cbn. eapply fa_acc_all; [exact F| |exact E]. cbn beta. auto.
Qed.
Lemma fa_current : forall s f, Forall Q (touches s) -> (forall t n k, Q t -> Q (fst (fst (f t n k)))) -> Forall Q (touches (on_current s f)).
Proof. intros s f F H. rewrite on_current_touches. destruct (acc_nth (current s) f (touches s) (nfd s) (ok s)) as [[l n] k] eqn:E. cbn. eapply fa_acc_nth; eauto. Qed.
Hypothesis Qv : forall t p a b, Q t -> Q {| ts := ts t; dirty := true; has_ended := has_ended t; was_down := was_down t; pressure := p; major := a; minor := b |}.
Lemma fa_step : forall s i, Forall Q (touches s) -> Forall Q (touches (fst (istep s i))) /\ Forall (Forall Q) (snd (istep s i)).
Proof.
  intros s i F. destruct i as [e d|d|a c].
  - destruct e; cbn [istep step]; try (split; [|apply Forall_nil]; cbn [fst]; unfold process_absolute).
    + destruct (has_mt s); exact F.
    + destruct (has_mt s); [|exact F]. destruct (v =? -1); apply fa_current; auto.
    + apply fa_update; auto.
    + apply fa_update; auto.
    + destruct (has_mt s); [|exact F]. apply fa_update; auto.
    + destruct (has_mt s); [|exact F]. apply fa_update; auto.
    + exact F.
    + pose proof (fa_frame s d F) as G. split; [cbn; apply fa_map; auto|]. repeat constructor; auto.
  - cbn [istep]. rewrite clear_state_eq. pose proof (fa_frame (cleared s) d (fa_cleared s F)) as G. cbn [fst snd]. split; [cbn; apply fa_map; auto|repeat constructor; auto].
  - split; [exact F|constructor].
Qed.
Lemma fa_run : forall l s, Forall Q (touches s) -> Forall Q (touches (fst (run s l))) /\ Forall (Forall Q) (snd (run s l)).
Proof.
  induction l as [|i l IH]; intros s F; cbn [run]; [split; [exact F|constructor]|]. destruct (fa_step s i F) as [A B]. destruct (istep s i) as [s1 o1]. cbn [fst snd] in A, B. destruct (IH s1 A) as [C D]. destruct (run s1 l) as [s2 o2]. cbn [fst snd] in *. split; [exact C|]. apply Forall_app. auto.
Qed.
End Fa.

(** *** was_down *)
Definition wd (t : touch) : Prop := match ts t with BEGIN | UPDATE | MAYBE_END | END => was_down t = true | _ => True end.
Ltac wdt := intros; match goal with t : touch |- _ => tdes t end; unfold wd, new_touch, begin_touch, maybe_end_touch, end_sequence, recover_ended_touch, end_touch, post_touch in *; cbn in *.
Lemma wd_run : forall l s, Forall wd (touches s) -> Forall (Forall wd) (snd (run s l)).
Proof.
  intros l s F. apply (fa_run wd); auto; try (wdt; destruct tts; cbn in *; try discriminate; auto; fail).
  - wdt. destruct tdi, tts, the; cbn in *; auto.
Qed.
Lemma init_wd : forall nt ns sl m h sy al a (fi : bool), Forall wd (touches (init nt ns sl m h sy al a fi)).
Proof. intros. cbn. apply Forall_forall. intros t I. apply repeat_spec in I. subst. exact Logic.I. Qed.

(** *** Clearing *)
Definition gone (t : touch) : Prop := ts t = NONE \/ ts t = MAYBE_END.
Lemma cleared_gone : forall ds s, inv ds s -> Forall gone (touches (cleared s)).
Proof.
  intros ds s (A & _ & _). unfold cleared. match goal with |- context [acc_all 0 ?f ?l ?n ?k] => destruct (acc_all 0 f l n k) as [[l1 n1] k1] eqn:E end. cbn.
  revert A E. generalize (nfd s) (ok s) 0%nat l1 n1 k1. induction (touches s) as [|t l IH]; intros n k i l1' n1' k1' A E; cbn in E; [injection E as <- _ _; constructor|].
  destruct A as [A1 A2]. destruct (end_sequence t n k) as [[t1 n2] k2] eqn:E1. destruct (acc_all (S i) _ l n2 k2) as [[l2 n3] k3] eqn:E2. injection E as <- _ _.
  constructor; [|eapply IH; eauto]. unfold end_sequence, maybe_end_touch in E1. destruct t as [tts ? ? ? ? ? ?]. cbn in E1. unfold gone. 
  unfold bt in A1; cbn in A1, E1. destruct tts; injection E1 as <- _ _; cbn; auto; destruct (nth i ds false); intuition discriminate.
Qed.

Lemma fake_gone : forall s, fakes s = no_fake -> Forall gone (touches s) -> Forall gone (touches (process_fake_touches s)).
Proof.
  intros s N F. unfold process_fake_touches. rewrite N. change (fake_finger_count no_fake) with 0. cbn [Z.eqb FAKE_FINGER_OVERFLOW].
  unfold restore_synaptics_touches. rewrite N. change (fake_finger_count no_fake) with 0. cbn [Z.ltb Z.compare].
  replace (if synaptics s then s else s) with s by (destruct (synaptics s); reflexivity).
  replace (alps s && false && has_mt s && (0 <? nactive s) && (nactive s <? 0) && (nactive s <? Z.of_nat (num_slots s))) with false by (rewrite andb_false_r; reflexivity).
  match goal with |- context [acc_all 0 ?f ?l ?n ?k] => destruct (acc_all 0 f l n k) as [[l1 n1] k1] eqn:E end. cbn. eapply fa_acc_all; [exact F| |exact E]. cbn beta. intros j t n k H. destruct (Nat.ltb j _); auto.
  destruct (Z.of_nat j <? 0) eqn:Z; [apply Z.ltb_lt in Z; lia|]. tdes t. unfold end_sequence, maybe_end_touch, gone in *. cbn in *. destruct H as [H|H]; subst; cbn; auto.
Qed.
Lemma clear_down : forall ds s d, inv ds s -> Forall (fun t => still_down t = false) (snd (clear_state s d)) /\ nfd (fst (clear_state s d)) = 0.
Proof.
  intros ds s d H. rewrite clear_state_eq. cbn [fst snd]. destruct (cleared_inv ds s H) as (H1 & _).
  assert (N : fakes (cleared s) = no_fake) by (unfold cleared; destruct (acc_all _ _ _ _ _) as [[? ?] ?]; reflexivity).
  pose proof (fake_gone _ N (cleared_gone ds s H)) as G. destruct (fake_inv ds _ H1) as ((_ & _ & LF) & _).
  assert (A : Forall (fun t => still_down t = false) (touches (frame (cleared s) d))).
  { apply Forall_forall. intros t I. destruct (In_nth _ _ touch0 I) as (j & LJ & E). destruct (frame_fol ds (cleared s) d H1) as ((_ & _ & LL) & _). destruct H1 as (B1 & B2 & B3).
    assert (LJ2 : (j < length (touches (cleared s)))%nat) by congruence.
    destruct (frame_touch ds (cleared s) d j) as (t1 & dd & U & EF); [repeat split; auto|exact LJ2|]. rewrite E in EF. rewrite EF.
    rewrite Forall_forall in G. assert (GJ : gone (nth j (touches (process_fake_touches (cleared s))) touch0)) by (apply G, nth_In; congruence).
    destruct U as (_ & U2 & _). unfold still_down, gone, absent in *. unfold end_touch. destruct GJ as [GJ|GJ]; rewrite GJ in U2; specialize (U2 eq_refl); rewrite U2; cbn; rewrite ?U2; reflexivity. }
  split; [exact A|]. destruct (frame_fol ds (cleared s) d H1) as ((_ & FN & _) & _). cbn [post_process with_touches nfd]. rewrite FN.
  clear - A. induction A as [|t l E A IH]; cbn [cnt]; auto. rewrite IH. change (is_down t) with (still_down t). rewrite E. reflexivity.
Qed.

(** *** Relations between the touches before and after *)
Section Fr.
Variable R : touch -> touch -> Prop.
Hypothesis Rr : forall t, R t t.
Hypothesis Rt : forall a b c, R a b -> R b c -> R a c.
Lemma fr_refl : forall l, Forall2 R l l. Proof. induction l; constructor; auto. Qed.
Lemma fr_trans : forall a b c, Forall2 R a b -> Forall2 R b c -> Forall2 R a c.
Proof. intros a b c H. revert c. induction H; intros c K; inversion K; subst; constructor; eauto. Qed.
Lemma fr_acc_nth : forall f l j n k l' n' k', (forall t n k, R t (fst (fst (f t n k)))) -> acc_nth j f l n k = (l', n', k') -> Forall2 R l l'.
Proof.
  intros f l. induction l as [|t l IH]; intros [|j] n k l' n' k' H E; cbn in E; try (injection E as <- _ _; constructor).
  - destruct (f t n k) as [[t1 n1] k1] eqn:E1. injection E as <- _ _. constructor; [|apply fr_refl]. specialize (H t n k). rewrite E1 in H. exact H.
  - destruct (acc_nth j f l n k) as [[l2 n2] k2] eqn:E2. injection E as <- _ _. constructor; auto. eapply IH; eauto.
Qed.
Lemma fr_update : forall f l j, (forall t, R t (f t)) -> Forall2 R l (update_nth j f l).
Proof. intros f l. induction l as [|t l IH]; intros [|j] H; cbn; constructor; auto. apply fr_refl. Qed.
Lemma fr_map : forall f l, (forall t, R t (f t)) -> Forall2 R l (map f l).
Proof. intros f l H. induction l; cbn; constructor; auto. Qed.
Hypothesis Rb : forall t n k, R t (fst (fst (begin_touch t n k))).
Hypothesis Rm : forall t n k, R t (fst (fst (maybe_end_touch t n k))).
Lemma fr_begin : forall g l n k l' n' k', begin_until g l n k = (l', n', k') -> Forall2 R l l'.
Proof.
  intros g l. induction l as [|t l IH]; intros n k l' n' k' E; cbn [begin_until] in E; [injection E as <- _ _; constructor|]. pose proof (Rb t n k) as B.
  destruct (ts t); try (destruct (begin_until g l n k) as [[l2 n2] k2] eqn:E2; injection E as <- _ _; constructor; auto; eapply IH; eauto).
  destruct (begin_touch t n k) as [[t1 n1] k1]. cbn in B. destruct (g <=? n1); [injection E as <- _ _; constructor; auto; apply fr_refl|]. destruct (begin_until g l n1 k1) as [[l2 n2] k2] eqn:E2. injection E as <- _ _. constructor; auto. eapply IH; eauto.
Qed.
Lemma fr_end : forall sk st g l n k l' n' k', end_until sk st g l n k = (l', n', k') -> Forall2 R l l'.
Proof.
  intros sk st g l. induction l as [|t l IH]; intros n k l' n' k' E; cbn [end_until] in E; [injection E as <- _ _; constructor|]. pose proof (Rm t n k) as B.
  destruct (sk (ts t)); [destruct (end_until sk st g l n k) as [[l2 n2] k2] eqn:E2; injection E as <- _ _; constructor; auto; eapply IH; eauto|].
  destruct (maybe_end_touch t n k) as [[t1 n1] k1]. cbn in B. destruct (st && (n1 =? g)); [injection E as <- _ _; constructor; auto; apply fr_refl|]. destruct (end_until sk st g l n1 k1) as [[l2 n2] k2] eqn:E2. injection E as <- _ _. constructor; auto. eapply IH; eauto.
Qed.
Lemma fr_back : forall sk st g l n k l' n' k', end_back sk st g l n k = (l', n', k') -> Forall2 R l l'.
Proof.
  intros sk st g l n k l' n' k' E. unfold end_back in E. destruct (end_until sk st g (rev l) n k) as [[r n1] k1] eqn:E1. injection E as <- _ _. rewrite <- (rev_involutive l). apply Forall2_rev'. eapply fr_end, E1.
Qed.
Lemma fr_unhover : forall s, Forall2 R (touches s) (touches (unhover s)).
Proof.
  intros s. unfold unhover. destruct (mode s) as [lo hi|lo hi|].
  - unfold unhover_pressure.
    match goal with |- context [acc_all 0 ?f ?l ?n ?k] => destruct (acc_all 0 f l n k) as [[l1 n1] k1] eqn:E; assert (F1 : Forall2 R l l1) end.
    { eapply acc_all_F2; [|exact E]. cbn beta. intros j t n k. destruct (Nat.ltb j _); cbn [fst]; auto. destruct (ts t); cbn [fst]; auto; destruct (_ && _); cbn [fst]; auto. }
    match goal with |- context [if ?c || (n1 =? 0) then _ else _] => destruct (c || (n1 =? 0)) end; [exact F1|].
    match goal with |- context [if ?c then begin_until ?a ?b ?d ?e else ?x] => destruct (if c then begin_until a b d e else x) as [[l2 n2] k2] eqn:E2; assert (F2 : Forall2 R l1 l2) end.
    { match type of E2 with (if ?c then _ else _) = _ => destruct c end; [eapply fr_begin; eauto|injection E2 as <- _ _; apply fr_refl]. }
    match goal with |- context [if ?c then end_back ?a ?b ?d ?e ?f ?g else ?x] => destruct (if c then end_back a b d e f g else x) as [[l3 n3] k3] eqn:E3; assert (F3 : Forall2 R l2 l3) end.
    { match type of E3 with (if ?c then _ else _) = _ => destruct c end; [eapply fr_back; eauto|injection E3 as <- _ _; apply fr_refl]. }
    cbn. eapply fr_trans; [exact F1|]. eapply fr_trans; eauto.
  - unfold unhover_size. match goal with |- context [acc_all 0 ?f ?l ?n ?k] => destruct (acc_all 0 f l n k) as [[l1 n1] k1] eqn:E end. cbn.
    eapply acc_all_F2; [|exact E]. cbn beta. intros j t n k. destruct (_ && _); cbn [fst]; auto. destruct (ts t); cbn [fst]; auto; destruct (_ || _); cbn [fst]; auto.
  - unfold unhover_fake. destruct (_ && _); [apply fr_refl|]. destruct (_ =? _); [apply fr_refl|]. destruct (_ && _); [apply fr_refl|].
    match goal with |- context [if ?c then begin_until ?a ?b ?d ?e else ?x] => destruct (if c then begin_until a b d e else x) as [[l2 n2] k2] eqn:E2; assert (F2 : Forall2 R (touches s) l2) end.
    { match type of E2 with (if ?c then _ else _) = _ => destruct c end; [eapply fr_begin; eauto|injection E2 as <- _ _; apply fr_refl]. }
    match goal with |- context [if ?c then end_back ?a ?b ?d ?e ?f ?g else ?x] => destruct (if c then end_back a b d e f g else x) as [[l3 n3] k3] eqn:E3; assert (F3 : Forall2 R l2 l3) end.
    { match type of E3 with (if ?c then _ else _) = _ => destruct c end; [eapply fr_back; eauto|injection E3 as <- _ _; apply fr_refl]. }
    cbn. eapply fr_trans; eauto.
Qed.
Hypothesis Rn : forall t n k, R t (fst (fst (new_touch t n k))).
Hypothesis Re : forall t n k, R t (fst (fst (end_sequence t n k))).
Hypothesis Rc : forall t n k, R t (fst (fst (recover_ended_touch t n k))).
Hypothesis Rd : forall t d, R t (set_dirty t d).
Hypothesis Rtt : forall t, R t (end_touch t).
Hypothesis Rp : forall t, R t (post_touch t).
Lemma fr_fake : forall s, Forall2 R (touches s) (touches (process_fake_touches s)).
Proof.
  intros s. unfold process_fake_touches. destruct (_ =? _); [apply fr_refl|].
  set (s1 := if synaptics s then restore_synaptics_touches s else s). assert (F1 : Forall2 R (touches s) (touches s1)).
  { unfold s1. destruct (synaptics s); [|apply fr_refl]. unfold restore_synaptics_touches. destruct (_ <? 3); [apply fr_refl|]. destruct (_ || _); [apply fr_refl|].
    match goal with |- context [acc_all 0 ?f ?l ?n ?k] => destruct (acc_all 0 f l n k) as [[l1 n1] k1] eqn:E end. cbn. eapply acc_all_F2; [|exact E]. cbn beta. intros j t n k. destruct (Nat.ltb j _); cbn [fst]; auto. destruct (ts t) eqn:T; cbn [fst]; auto. }
  clearbody s1. match goal with |- context [if ?c then with_num_slots s1 ?x else s1] => set (s2 := if c then with_num_slots s1 x else s1) end. assert (F2 : touches s2 = touches s1) by (unfold s2; destruct (_ && _); reflexivity). clearbody s2.
  match goal with |- context [acc_all 0 ?f ?l ?n ?k] => destruct (acc_all 0 f l n k) as [[l1 n1] k1] eqn:E end. cbn. eapply fr_trans; [exact F1|]. rewrite <- F2. eapply acc_all_F2; [|exact E]. cbn beta. intros j t n k. destruct (Nat.ltb j _); cbn [fst]; auto. destruct (_ <? _); cbn [fst]; auto.
Qed.
Lemma fr_frame : forall s d, Forall2 R (touches s) (touches (frame s d)).
Proof.
  intros s d. unfold frame. destruct (position_dirty (pre_process s) d) as (l & E & F). rewrite E. cbn [touches with_touches].
  assert (F1 : Forall2 R (touches s) (touches (pre_process s))) by (unfold pre_process; cbn [touches with_touches]; eapply fr_trans; [apply fr_fake|]; eapply fr_trans; [apply fr_unhover|apply fr_map, Rtt]).
  eapply fr_trans; [exact F1|]. clear - F Rd. induction F as [|t t' a b (dd & ->) F IH]; constructor; auto.
Qed.
Lemma fr_cleared : forall s, Forall2 R (touches s) (touches (cleared s)).
Proof. intros s. unfold cleared. match goal with |- context [acc_all 0 ?f ?l ?n ?k] => destruct (acc_all 0 f l n k) as [[l1 n1] k1] eqn:E end. cbn. eapply acc_all_F2; [|exact E]. cbn beta. auto. Qed.
Lemma fr_current : forall s f, (forall t n k, R t (fst (fst (f t n k)))) -> Forall2 R (touches s) (touches (on_current s f)).
Proof. intros s f H. rewrite on_current_touches. destruct (acc_nth (current s) f (touches s) (nfd s) (ok s)) as [[l n] k] eqn:E. cbn. eapply fr_acc_nth; eauto. Qed.
Lemma fr_step : forall s i, match i with Ev (Pressure _) _ | Ev (Major _) _ | Ev (Minor _) _ => False | _ => True end -> Forall2 R (touches s) (touches (fst (istep s i))).
Proof.
  intros s i C. destruct i as [e d|d|a c].
  - destruct e; cbn [istep step]; cbn [fst]; unfold process_absolute; try (exfalso; exact C).
    + destruct (has_mt s); apply fr_refl.
    + destruct (has_mt s); [|apply fr_refl]. destruct (v =? -1); apply (fr_current (with_nactive s _ _)); auto.
    + apply fr_update; auto.
    + apply fr_refl.
    + cbn. eapply fr_trans; [apply fr_frame|apply fr_map, Rp].
  - cbn [istep]. rewrite clear_state_eq. cbn. eapply fr_trans; [apply fr_cleared|]. eapply fr_trans; [apply fr_frame|apply fr_map, Rp].
  - apply fr_refl.
Qed.
End Fr.
Definition same_values (t t' : touch) : Prop := pressure t' = pressure t /\ major t' = major t /\ minor t' = minor t.
Lemma values_step : forall s i, match i with Ev (Pressure _) _ | Ev (Major _) _ | Ev (Minor _) _ => False | _ => True end -> Forall2 same_values (touches s) (touches (fst (istep s i))).
Proof.
  intros s i C. apply (fr_step same_values); auto.
  all: try (wdt; unfold same_values; destruct tts; cbn; auto; fail).
  - intros a b c (A1 & A2 & A3) (B1 & B2 & B3). unfold same_values. rewrite B1, B2, B3. auto.
  - wdt. unfold same_values. destruct tdi, tts, the; cbn; auto.
Qed.
Lemma values_run : forall l ds k s j, inv ds s -> slots_inv false k s -> slots_below (num_slots s) l -> no_resync l -> (j < num_slots s)%nat ->
  let t := nth j (touches s) touch0 in let t' := nth j (touches (fst (run s l))) touch0 in
  pressure t' = last_pressure j (cur k) (pressure t) l /\ major t' = last_major j (cur k) (major t) l /\ minor t' = last_minor j (cur k) (minor t) l.
Proof.
  induction l as [|i l IH]; intros ds k s j H S B N LJ t t'; [repeat split|]. destruct B as [B1 B2]. destruct N as [N1 N2].
  destruct (istep_slots false ds k s i H S) as [S1 NS]; [destruct i as [[]| |]; auto; exfalso; exact N1|].
  destruct (istep_inv ds s i H) as (ds' & H' & _).
  assert (R : fst (run s (i :: l)) = fst (run (fst (istep s i)) l)) by (clear; cbn [run]; destruct (istep s i) as [s1 o1]; cbn [fst]; destruct (run s1 l) as [s2 o2]; reflexivity).
  unfold t'. rewrite R. destruct (IH ds' (kstep k i) (fst (istep s i)) j H' S1 ltac:(rewrite NS; exact B2) N2 ltac:(lia)) as (I1 & I2 & I3). rewrite I1, I2, I3.
  assert (L : (j < length (touches s))%nat) by (destruct S as (_ & _ & _ & _ & L & _); lia).
  assert (GEN : match i with Ev (Pressure _) _ | Ev (Major _) _ | Ev (Minor _) _ => False | _ => True end -> same_values t (nth j (touches (fst (istep s i))) touch0)).
  { intros C. apply (F2_nth _ _ _ j (values_step s i C) L). }
  destruct i as [e d|d|a c]; [|specialize (GEN Logic.I); destruct GEN as (G1 & G2 & G3); cbn [last_pressure last_major last_minor kstep cur]; rewrite G1, G2, G3; auto|exfalso; exact N1].
  assert (MT : has_mt s = true) by apply S. pose proof (current_slot _ _ _ S) as CS.
  destruct e; try (specialize (GEN Logic.I); destruct GEN as (G1 & G2 & G3); cbn [last_pressure last_major last_minor kstep cur]; rewrite G1, G2, G3; auto; fail).
  all: cbn [last_pressure last_major last_minor kstep istep step fst process_absolute]; rewrite ?MT; cbn [touches with_touches]; rewrite CS, nth_update, (proj2 (Nat.ltb_lt _ _) L), andb_true_r; destruct (Nat.eqb (cur k) j); cbn; auto.
Qed.

(** *** Hysteresis *)
Lemma frame_slot : forall ds k s d j, inv ds s -> slots_inv false k s -> (j < num_slots s)%nat ->
  let s0 := process_fake_touches s in let t := nth j (touches s) touch0 in
  nth j (touches s0) touch0 = t /\ num_slots s0 = num_slots s /\ fakes s0 = fakes s /\ mode s0 = mode s /\ length (touches s0) = length (touches s) /\
  still_down (nth j (touches (frame s d)) touch0) = still_down (nth j (touches (unhover s0)) touch0).
Proof.
  intros ds k s d j H S LJ s0 t. destruct S as (M & SY & AL & SL & LL & LA & SO). destruct (fake_inv ds s H) as ((_ & _ & LF) & _ & (c1 & c2 & c3 & _) & _ & NS & _). fold s0 in LF, c1, c2, c3, NS. specialize (NS AL).
  assert (L : (j < length (touches s))%nat) by lia. destruct H as (H1 & H2 & H3).
  split; [apply fake_slots; auto; unfold start_of; rewrite M; exact LJ|]. split; [exact NS|]. split; [exact c1|]. split; [exact c3|]. split; [congruence|].
  unfold frame. destruct (position_dirty (pre_process s) d) as (l & E & F). rewrite E. cbn [touches with_touches].
  assert (LU : length (touches (unhover s0)) = length (touches s)) by (rewrite (F2_length _ _ _ (unhover_urel s0)); congruence).
  pose proof (F2_nth _ _ _ j F) as FJ. unfold pre_process in FJ. cbn [touches with_touches] in FJ. rewrite map_length in FJ. fold s0 in FJ. rewrite LU in FJ. destruct (FJ L) as (dd & FE). rewrite nth_map_t in FE by reflexivity. rewrite FE.
  unfold still_down, end_touch. destruct (ts (nth j (touches (unhover s0)) touch0)) eqn:ET; cbn; rewrite ?ET; reflexivity.
Qed.
Definition soft (lo hi : Z) (b : touch -> bool -> bool) (t : touch) : bool :=
  match ts t with UPDATE => negb (dirty t) || b t true | HOVERING => dirty t && b t false | _ => false end.
Lemma pressure_slot : forall ds k s d j lo hi, inv ds s -> slots_inv false k s -> mode s = ByPressure lo hi -> (j < num_slots s)%nat ->
  fake_finger_count (fakes s) <= Z.of_nat (num_slots s) \/ fake_finger_count (fakes s) = FAKE_FINGER_OVERFLOW ->
  still_down (nth j (touches (frame s d)) touch0) = soft lo hi (fun t => pressed_hard lo hi (pressure t)) (nth j (touches s) touch0).
Proof.
  intros ds k s d j lo hi H S MO LJ FF. destruct (frame_slot ds k s d j H S LJ) as (A1 & A2 & A3 & A4 & A5 & A6). rewrite A6. set (s0 := process_fake_touches s) in *.
  assert (BT : bt (nth j ds false) (nth j (touches s) touch0)). { destruct H as (H1 & _ & _). apply (all_i_nth _ _ _ j H1). destruct S as (_ & _ & _ & _ & L & _). lia. }
  unfold unhover. rewrite A4, MO. unfold unhover_pressure. rewrite A2, A3.
  assert (NF : (if fake_finger_count (fakes s) =? FAKE_FINGER_OVERFLOW then 0 else fake_finger_count (fakes s)) <=? Z.of_nat (num_slots s) = true).
  { destruct (fake_finger_count (fakes s) =? FAKE_FINGER_OVERFLOW) eqn:O; apply Z.leb_le; [lia|]. apply Z.eqb_neq in O. destruct FF; [lia|congruence]. }
  match goal with |- context [acc_all 0 ?f ?l ?n ?k] => destruct (acc_all 0 f l n k) as [[l1 n1] k1] eqn:E;
    destruct (acc_all_rel (fun i t t' => (i < num_slots s)%nat -> bt (nth i ds false) t -> still_down t' = soft lo hi (fun t => pressed_hard lo hi (pressure t)) t) f l 0 n k l1 n1 k1) as [B1 B2]; auto end.
  - intros i t n k0 _ LI B. rewrite (proj2 (Nat.ltb_lt _ _) LI), NF. cbn [orb]. tdes t. unfold soft, pressed_hard, bt in *. cbn [ts dirty pressure] in *.
    destruct (nth i ds false); [destruct B as [B|[B D]]|destruct B as [B|B]]; subst; cbn -[Z.ltb Z.leb].
    + destruct tdi; cbn -[Z.ltb Z.leb]; [|reflexivity]. rewrite (Z.leb_antisym tpr lo). destruct (tpr <? lo); reflexivity.
    + destruct (tpr <? lo); reflexivity.
    + reflexivity.
    + destruct tdi; cbn -[Z.ltb Z.leb]; [|reflexivity]. destruct (hi <=? tpr); reflexivity.
  - rewrite NF. cbn [orb touches with_touches]. rewrite <- A1. apply B2; [rewrite A5; destruct S as (_ & _ & _ & _ & L & _); lia|exact LJ|rewrite A1; exact BT].
Qed.
Lemma size_slot : forall ds k s d j lo hi, inv ds s -> slots_inv false k s -> mode s = BySize lo hi -> (j < num_slots s)%nat ->
  still_down (nth j (touches (frame s d)) touch0) = soft lo hi (fun t => big_enough lo hi (major t) (minor t)) (nth j (touches s) touch0).
Proof.
  intros ds k s d j lo hi H S MO LJ. destruct (frame_slot ds k s d j H S LJ) as (A1 & A2 & A3 & A4 & A5 & A6). rewrite A6. set (s0 := process_fake_touches s) in *.
  assert (BT : bt (nth j ds false) (nth j (touches s) touch0)). { destruct H as (H1 & _ & _). apply (all_i_nth _ _ _ j H1). destruct S as (_ & _ & _ & _ & L & _). lia. }
  unfold unhover. rewrite A4, MO. unfold unhover_size. rewrite A2.
  match goal with |- context [acc_all 0 ?f ?l ?n ?k] => destruct (acc_all 0 f l n k) as [[l1 n1] k1] eqn:E;
    destruct (acc_all_rel (fun i t t' => (i < num_slots s)%nat -> bt (nth i ds false) t -> still_down t' = soft lo hi (fun t => big_enough lo hi (major t) (minor t)) t) f l 0 n k l1 n1 k1) as [B1 B2]; auto end.
  - intros i t n k0 _ LI B. rewrite (proj2 (Nat.ltb_lt _ _) LI). cbn [andb]. tdes t. unfold soft, big_enough, bt in *. cbn [ts dirty major minor] in *.
    destruct (nth i ds false); [destruct B as [B|[B D]]|destruct B as [B|B]]; subst; cbn -[Z.ltb Z.leb].
    + destruct tdi; cbn -[Z.ltb Z.leb]; [|reflexivity]. rewrite (Z.leb_antisym tma lo), (Z.leb_antisym tmi lo). destruct (tma <? lo), (tmi <? lo); reflexivity.
    + destruct ((tma <? lo) || (tmi <? lo)); reflexivity.
    + destruct tdi; reflexivity.
    + destruct tdi; cbn -[Z.ltb Z.leb]; [|reflexivity]. destruct ((hi <? tma) && (lo <? tmi) || (lo <? tma) && (hi <? tmi)); reflexivity.
  - cbn [touches with_touches]. rewrite <- A1. apply B2; [rewrite A5; destruct S as (_ & _ & _ & _ & L & _); lia|exact LJ|rewrite A1; exact BT].
Qed.
