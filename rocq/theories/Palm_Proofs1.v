(** * Palms: the parts of the state on their own, one touch in a frame *)
Require Import Coq.ZArith.ZArith Coq.Lists.List Coq.Bool.Bool Coq.micromega.Lia.
Require Import Verif.Palm_Model Verif.Palm_Spec.
Import ListNotations.
Open Scope Z_scope.

(** ** What a frame leaves alone *)
Lemma process_touch_same : forall c g t s i, let s' := process_touch c g t s i in
  kb s' = kb s /\ tr s' = tr s /\ ar s' = ar s /\ meth s' = meth s /\ length (touches s') = length (touches s).
Proof.
  intros c g t s i. unfold process_touch. destruct (nth_error (touches s) i) as [x|]; [| cbn; auto].
  destruct (is_st _ NONE); [cbn; auto |].
  assert (PL : forall (A : Type) (y : A) l j, length (put j y l) = length l) by (intros A y l; induction l as [|a l IH]; intros [|j]; cbn; auto).
  destruct (negb _); [cbn; rewrite PL; auto |].
  destruct (palm_detect _ _ _ _ _ _ _) as [x1 fine]. cbn. rewrite PL. auto.
Qed.
Lemma fold_same : forall c g t l s, let s' := fold_left (process_touch c g t) l s in
  kb s' = kb s /\ tr s' = tr s /\ ar s' = ar s /\ meth s' = meth s /\ length (touches s') = length (touches s).
Proof.
  intros c g t l. induction l as [|i l IH]; intros s; cbn; [auto |]. specialize (IH (process_touch c g t s i)). cbn in IH.
  destruct (process_touch_same c g t s i) as [A [B [C [D E]]]]. destruct IH as [F [G [H [I J]]]]. repeat split; congruence.
Qed.
Lemma process_state_same : forall c g t s, let s' := process_state c g t s in
  kb s' = kb s /\ tr s' = tr s /\ ar s' = ar s /\ meth s' = meth s /\ length (touches s') = length (touches s).
Proof.
  intros. subst s'. unfold process_state. destruct (fold_same c g t (seq 0 (length (touches s))) s) as [A [B [C [D E]]]].
  destruct (_ && _ && _); cbn; auto.
Qed.
Lemma enter_all_length : forall t l f, length (enter_all t l f) = length l.
Proof. intros t l. induction l as [|x l IH]; intros [|v f]; cbn; auto. Qed.
Lemma post_process_same : forall s, let s' := post_process s in kb s' = kb s /\ tr s' = tr s /\ ar s' = ar s /\ meth s' = meth s /\ touches s' = touches s.
Proof. intros s. unfold post_process. destruct (nfingers_down _); cbn; auto. Qed.
Lemma frame_same : forall c s f g u t, let s' := fst (frame c s f g u t) in
  kb s' = kb s /\ tr s' = tr s /\ ar s' = ar s /\ meth s' = meth s /\ length (touches s') = length (touches s).
Proof.
  intros. subst s'. unfold frame.
  destruct (process_state_same c g t (with_touches s (enter_all t (touches s) f))) as [A [B [C [D E]]]]. cbn in A, B, C, D, E. rewrite enter_all_length in E.
  set (s1 := process_state c g t _) in *. clearbody s1.
  assert (X : forall z, (kb z = kb s1 /\ tr z = tr s1 /\ ar z = ar s1 /\ meth z = meth s1 /\ touches z = touches s1) -> let s' := post_process z in
     kb s' = kb s /\ tr s' = tr s /\ ar s' = ar s /\ meth s' = meth s /\ length (touches s') = length (touches s)).
  { intros z [P [Q [R [S' T]]]] s'. destruct (post_process_same z) as [P1 [Q1 [R1 [S1 T1]]]]. subst s'. rewrite P1, Q1, R1, S1, T1, P, Q, R, S', T. auto. }
  cbn. apply X. destruct u; cbn; auto.
Qed.

(** ** The keyboard, the trackpoint and the pen on their own *)
Definition kstep (k : kbd) (i : input) : kbd :=
  match i with
  | Key c p t => fst (keyboard_event k c p t)
  | KbTimer t => if due (ktimer k) t then fst (keyboard_timeout k t) else k
  | SetDwt b => dwt_config_set k b
  | Unplug => keyboard_removed k
  | _ => k
  end.
Definition tstep (c : config) (r : trp) (i : input) : trp :=
  match i with
  | Point t => if monitor_trackpoint c then fst (trackpoint_event r t) else r
  | TpTimer t => if due (ttimer r) t then fst (trackpoint_timeout r) else r
  | _ => r
  end.
Definition arb_eq (a b : arb_state) : bool := match a, b with ARB_NONE, ARB_NONE | ARB_ALL, ARB_ALL | ARB_RECT, ARB_RECT => true | _, _ => false end.
Definition astep (a : arbr) (i : input) : arbr :=
  match i with
  | Arb w _ t => if arb_eq w (astate a) then a else match w with ARB_NONE => {| astate := astate a; atimer := Some (t + 90000) |} | _ => {| astate := w; atimer := None |} end
  | ArbTimer t => if due (atimer a) t then {| astate := ARB_NONE; atimer := None |} else a
  | _ => a
  end.
Lemma step_parts : forall c s i, let s' := fst (step c s i) in
  kb s' = kstep (kb s) i /\ tr s' = tstep c (tr s) i /\ ar s' = astep (ar s) i /\ length (touches s') = length (touches s).
Proof.
  intros c s i. destruct i as [f g u t|k p t|t|b| |t|t|w f t|t|m]; cbn [step kstep tstep astep].
  - destruct (frame_same c s f g u t) as [A [B [C [D E]]]]. destruct (frame c s f g u t) as [s1 o]. cbn in *. auto.
  - destruct (keyboard_event (kb s) k p t) as [k1 x]. cbn. auto.
  - destruct (due _ t); [| cbn; auto]. destruct (keyboard_timeout (kb s) t) as [k1 x]. cbn. auto.
  - cbn. auto.
  - cbn. auto.
  - destruct (monitor_trackpoint c); [| cbn; auto]. destruct (trackpoint_event (tr s) t) as [r1 x]. cbn. auto.
  - destruct (due _ t); [| cbn; auto]. destruct (trackpoint_timeout (tr s)) as [r1 x]. cbn. auto.
  - destruct w, (astate (ar s)) eqn:E; cbn [arb_eq]; try (cbn; rewrite ?E; solve [auto]);
    (match goal with |- context [frame c ?z f true None t] => destruct (frame_same c z f true None t) as [A [B [C [D F]]]]; destruct (frame c z f true None t) as [s1 o] end; cbn in *; auto).
  - destruct (due _ t); cbn; auto.
  - cbn. auto.
Qed.
Fixpoint krun (k : kbd) (l : list input) : kbd := match l with [] => k | i :: r => krun (kstep k i) r end.
Fixpoint trun (c : config) (x : trp) (l : list input) : trp := match l with [] => x | i :: r => trun c (tstep c x i) r end.
Fixpoint arun (a : arbr) (l : list input) : arbr := match l with [] => a | i :: r => arun (astep a i) r end.
Lemma run_parts : forall c l s, let s' := run c s l in
  kb s' = krun (kb s) l /\ tr s' = trun c (tr s) l /\ ar s' = arun (ar s) l /\ length (touches s') = length (touches s).
Proof.
  intros c l. induction l as [|i l IH]; intros s; [cbn; auto |]. cbn [run krun trun arun].
  destruct (step_parts c s i) as [A [B [C D]]]. specialize (IH (fst (step c s i))). cbn zeta in *.
  rewrite <- A, <- B, <- C. rewrite <- D. exact IH.
Qed.
Lemma run_app : forall c a b s, run c s (a ++ b) = run c (run c s a) b.
Proof. intros c a b. induction a as [|i a IH]; intros s; [reflexivity | cbn; apply IH]. Qed.
Lemma krun_app : forall a b k, krun k (a ++ b) = krun (krun k a) b.
Proof. intros a b. induction a as [|i a IH]; intros k; [reflexivity | cbn; apply IH]. Qed.
Lemma trun_app : forall c a b k, trun c k (a ++ b) = trun c (trun c k a) b.
Proof. intros c a b. induction a as [|i a IH]; intros k; [reflexivity | cbn; apply IH]. Qed.
Lemma arun_app : forall a b k, arun k (a ++ b) = arun (arun k a) b.
Proof. intros a b. induction a as [|i a IH]; intros k; [reflexivity | cbn; apply IH]. Qed.

(** ** One touch in a frame *)
Lemma put_same : forall (A : Type) (y : A) l i x, nth_error l i = Some x -> nth_error (put i y l) i = Some y.
Proof. intros A y l. induction l as [|a l IH]; intros [|i] x H; cbn in *; try discriminate; eauto. Qed.
Lemma put_other : forall (A : Type) (y : A) l i j, i <> j -> nth_error (put i y l) j = nth_error l j.
Proof. intros A y l. induction l as [|a l IH]; intros [|i] [|j] H; cbn; auto; try (exfalso; apply H; reflexivity). Qed.
Lemma process_touch_other : forall c g t s i j, i <> j -> nth_error (touches (process_touch c g t s i)) j = nth_error (touches s) j.
Proof.
  intros c g t s i j N. unfold process_touch. destruct (nth_error (touches s) i) as [x|]; [| reflexivity].
  destruct (is_st _ NONE); [reflexivity |]. destruct (negb _); [cbn; apply put_other; exact N |].
  destruct (palm_detect _ _ _ _ _ _ _) as [x1 fine]. cbn. apply put_other. exact N.
Qed.
Lemma fold_other : forall c g t l s j, ~ In j l -> nth_error (touches (fold_left (process_touch c g t) l s)) j = nth_error (touches s) j.
Proof.
  intros c g t l. induction l as [|i l IH]; intros s j N; [reflexivity |]. cbn. rewrite IH by (intro Z; apply N; right; exact Z).
  apply process_touch_other. intro Z. apply N. left. exact Z.
Qed.
(** What became of a touch: only the counter differs from what palm detection returns *)
Definition same_but_speed (a b : touch) : Prop := now a = now b /\ palm a = palm b /\ ptime a = ptime b /\ pfirst a = pfirst b /\ itime a = itime b.
Definition after (c : config) (s : tpad) (multi : bool) (t : Z) (x : touch) : touch :=
  if is_st (st (now x)) NONE || negb (dirty (now x)) then x else fst (palm_detect c (kb s) (tr s) (astate (ar s)) multi t x).
Lemma process_touch_this : forall c g t s i x, nth_error (touches s) i = Some x ->
  exists multi y, nth_error (touches (process_touch c g t s i)) i = Some y /\ same_but_speed y (after c s multi t x).
Proof.
  intros c g t s i x H. unfold process_touch, after. rewrite H. destruct (is_st (st (now x)) NONE) eqn:E; [exists false, x; cbn; repeat split; exact H |].
  destruct (dirty (now x)) eqn:D; cbn [negb].
  - match goal with |- context [palm_detect c _ _ _ ?m t x] => exists m; destruct (palm_detect c (kb s) (tr s) (astate (ar s)) m t x) as [x1 fine] end.
    eexists. split; [cbn; eapply put_same; exact H | cbn; repeat split].
  - exists false. eexists. split; [cbn; eapply put_same; exact H | cbn; repeat split].
Qed.
Lemma fold_this : forall c g t l s i x, NoDup l -> In i l -> nth_error (touches s) i = Some x ->
  exists multi y, nth_error (touches (fold_left (process_touch c g t) l s)) i = Some y /\ same_but_speed y (after c s multi t x).
Proof.
  intros c g t l. induction l as [|a l IH]; intros s i x N I H; [destruct I |]. inversion N as [|? ? N1 N2]; subst. cbn.
  destruct (Nat.eq_dec a i) as [->|D].
  - destruct (process_touch_this c g t s i x H) as [m [y [P Q]]]. exists m, y. split; [| exact Q]. rewrite fold_other by exact N1. exact P.
  - destruct I as [I|I]; [contradiction |].
    assert (H' : nth_error (touches (process_touch c g t s a)) i = Some x) by (rewrite process_touch_other by exact D; exact H).
    destruct (IH (process_touch c g t s a) i x N2 I H') as [m [y [P Q]]]. exists m, y. split; [exact P |].
    destruct (process_touch_same c g t s a) as [A [B [C _]]]. unfold after in *. rewrite A, B, C in Q. exact Q.
Qed.
Lemma enter_all_nth : forall t l f i x v, nth_error l i = Some x -> nth_error f i = Some v -> nth_error (enter_all t l f) i = Some (enter t x v).
Proof. intros t l. induction l as [|a l IH]; intros [|w f] [|i] x v H G; cbn in *; try discriminate; [congruence |]. eapply IH; eassumption. Qed.
Lemma active_from_nth : forall c h l k i x, nth_error l i = Some x -> nth_error (active_from c h k l) i = Some (touch_active c h (k + i) x (free_out (now x))).
Proof.
  intros c h l. induction l as [|a l IH]; intros k [|i] x H; cbn in *; try discriminate.
  - injection H as ->. rewrite Nat.add_0_r. reflexivity.
  - rewrite (IH (S k) i x H). rewrite Nat.add_succ_comm. reflexivity.
Qed.
Lemma enter_now : forall t x v, now (enter t x v) = v.
Proof. intros. unfold enter. destruct (st v), (fresh v); reflexivity. Qed.
Lemma detect_now : forall c k r a m t x, now (fst (palm_detect c k r a m t x)) = now x.
Proof.
  intros. assert (F : forall l, (forall d, In d l -> forall y, now (fst (d y)) = now y) -> forall y, now (fst (first_hit l y)) = now y).
  { induction l as [|d l IH]; intros H y; [reflexivity |]. cbn. pose proof (H d (or_introl eq_refl) y) as E. destruct (d y) as [y1 b]. cbn in E. destruct b; [exact E |].
    rewrite IH; [exact E |]. intros d' I. apply H. right. exact I. }
  unfold palm_detect. match goal with |- context [first_hit ?l x] => assert (E : now (fst (first_hit l x)) = now x) end.
  { apply F. intros d I y. cbn in I.
    repeat (destruct I as [<-|I]; [unfold pressure_triggered, arbitration_triggered, dwt_triggered, trackpoint_triggered, tool_triggered, touch_size_triggered, edge_triggered;
      repeat match goal with |- context [if ?b then _ else _] => destruct b | |- context [match ?p with PALM_NONE => _ | _ => _ end] => destruct p | |- context [match ?p with ARB_NONE => _ | _ => _ end] => destruct p end; reflexivity |]). destruct I. }
  destruct (first_hit _ x) as [x1 hit]. exact E.
Qed.
(** The frame, for one touch *)
Lemma frame_touch : forall c s f g u t i x v, nth_error (touches s) i = Some x -> nth_error f i = Some v ->
  exists multi y h, nth_error (touches (fst (frame c s f g u t))) i = Some y /\ same_but_speed y (after c s multi t (enter t x v)) /\ now y = v /\
    nth_error (snd (frame c s f g u t)) i = Some (if pointing (tr s) || typing (kb s) then false else touch_active c h i y (free_out v)) /\
    h = match u with Some j => thumb_suppress (th (process_state c g t (with_touches s (enter_all t (touches s) f)))) j | None => th (process_state c g t (with_touches s (enter_all t (touches s) f))) end.
Proof.
  intros c s f g u t i x v H G. pose proof (enter_all_nth t _ _ _ _ _ H G) as E.
  assert (L : (i < length (enter_all t (touches s) f))%nat) by (apply nth_error_Some; congruence).
  set (s0 := with_touches s (enter_all t (touches s) f)).
  destruct (fold_this c g t (seq 0 (length (touches s0))) s0 i _ (seq_NoDup _ _) (proj2 (in_seq _ _ _) (conj (Nat.le_0_l _) L)) E) as [m [y [P Q]]].
  assert (P1 : nth_error (touches (process_state c g t s0)) i = Some y).
  { unfold process_state. destruct (_ && _ && _); cbn; exact P. }
  destruct (process_state_same c g t s0) as [KB [TR _]]. 
  assert (NY : now y = v).
  { destruct Q as [Q _]. rewrite Q. unfold after. rewrite enter_now. destruct (is_st (st v) NONE || negb (dirty v)); [apply enter_now |]. rewrite detect_now. apply enter_now. }
  exists m, y. eexists. split; [| split; [exact Q | split; [exact NY | split; [| reflexivity]]]].
  - unfold frame. fold s0. cbn [fst]. destruct (post_process_same (match u with Some j => with_th (process_state c g t s0) (thumb_suppress (th (process_state c g t s0)) j) | None => process_state c g t s0 end)) as [_ [_ [_ [_ T]]]].
    rewrite T. destruct u; cbn; exact P1.
  - unfold frame. fold s0. cbn [snd]. unfold post_events.
    assert (X : forall z, tr z = tr s -> kb z = kb s -> touches z = touches (process_state c g t s0) ->
      nth_error (if pointing (tr z) || typing (kb z) then map (fun _ => false) (touches z) else active_from c (th z) 0 (touches z)) i = Some (if pointing (tr s) || typing (kb s) then false else touch_active c (th z) i y (free_out v))).
    { intros z A B C. rewrite A, B, C. destruct (_ || _).
      - rewrite nth_error_map, P1. reflexivity.
      - rewrite (active_from_nth c (th z) _ 0 i y P1). rewrite NY. reflexivity. }
    destruct u as [j|]; [exact (X (with_th (process_state c g t s0) (thumb_suppress (th (process_state c g t s0)) j)) TR KB eq_refl) | exact (X _ TR KB eq_refl)].
Qed.
