(** * The totem (C51) *)
Require Import Coq.ZArith.ZArith Coq.QArith.QArith Coq.Lists.List Coq.Bool.Bool Coq.micromega.Lia.
Require Import Verif.Totem_Model Verif.Totem_Spec Verif.Totem_Proofs Verif.Totem_Proofs2 Verif.Totem_Proofs3 Verif.Totem_Proofs4.
Import ListNotations.
Open Scope Z_scope.

Lemma f2_nth : forall A B (R : A -> B -> Prop) l1 l2 i a, Forall2 R l1 l2 -> nth_error l1 i = Some a -> exists b, nth_error l2 i = Some b /\ R a b.
Proof. intros A B R l1 l2 i a H. revert i. induction H; intros [|i] N; cbn in *; try discriminate; [injection N; intro; subst; eauto | eauto]. Qed.
Lemma f2_nth2 : forall A B (R : A -> B -> Prop) l1 l2 i b, Forall2 R l1 l2 -> nth_error l2 i = Some b -> exists a, nth_error l1 i = Some a /\ R a b.
Proof. intros A B R l1 l2 i b H. revert i. induction H; intros [|i] N; cbn in *; try discriminate; [injection N; intro; subst; eauto | eauto]. Qed.
Lemma nodup_nth : forall l i j s q t, NoDup (tools l) -> nth_error l i = Some s -> nth_error l j = Some q -> tool s = Some t -> tool q = Some t -> i = j.
Proof.
  induction l as [|a l IH]; intros i j s q t N I J S Q; [destruct i; discriminate |]. rewrite tools_cons in N.
  assert (X : forall m r, nth_error l m = Some r -> tool r = Some t -> tool a = Some t -> False). { intros m r M R A. unfold tl_ in N. rewrite A in N. inversion N; subst. apply H1. apply in_tools. exists r. split; [eapply nth_error_In; exact M | exact R]. }
  destruct i as [|i], j as [|j]; cbn in I, J; [reflexivity | injection I; intro; subst a; elim (X j q); auto | injection J; intro; subst a; elim (X i s); auto |]. f_equal. apply (IH i j s q t); auto. unfold tl_ in N. destruct (tool a); [inversion N; assumption | exact N].
Qed.

(** Every tool comes into proximity, then down, then sends axes and buttons, then goes up, then out of proximity, over and over; between two events from the kernel it is either down or out.  The tools that are down are those of the totems that were on the surface at the end of the last frame; no two have the same tool. *)
Theorem C51_life : forall c ks k d l, behaves (at_start ks k) l ->
  (forall t, lives t (events c ks k d l) = Down <-> exists i p, nth_error (places (history ks k l)) i = Some p /\ was p = true /\ owner c ks k d l i t) /\
  (forall t, lives t (events c ks k d l) = Down \/ lives t (events c ks k d l) = Out) /\
  (forall i p, nth_error (places (history ks k l)) i = Some p -> was p = true -> exists t, owner c ks k d l i t) /\
  (forall i j t, owner c ks k d l i t -> owner c ks k d l j t -> i = j).
Proof.
  intros c ks k d l B. pose proof (all_inv c ks k d l B) as [Ic Ik Ib Ir In1 In2 Il Ip It Io]. fold (after c ks k d l) in *. refine (conj _ (conj _ (conj _ _))).
  - intro t. rewrite Il. unfold L. split.
    + destruct (existsb _ _) eqn:E; [| discriminate]. intros _. apply existsb_exists in E. destruct E as [s [S1 S2]]. apply In_nth_error in S1. destruct S1 as [i S1]. destruct (f2_nth2 _ _ _ _ _ _ _ Ir S1) as [p [P1 [P2 [P3 P4]]]]. exists i, p. unfold isdn in S2. destruct (tool s) as [u|] eqn:U; [| discriminate]. apply andb_true_iff in S2. destruct S2 as [S2 S3]. apply Nat.eqb_eq in S2. subst u. refine (conj P1 (conj _ _)); [rewrite P3 in S3; destruct (was p), (on p); (reflexivity || discriminate) | exists s; auto].
    + intros [i [p [P1 [P2 [s [S1 S2]]]]]]. destruct (f2_nth _ _ _ _ _ _ _ Ir P1) as [s2 [S3 [R1 [R2 R3]]]]. rewrite S1 in S3. injection S3; intro; subst s2. replace (existsb _ _) with true; [reflexivity |]. symmetry. apply existsb_exists. exists s. split; [eapply nth_error_In; exact S1 |]. unfold isdn. rewrite S2, Nat.eqb_refl, R2, P2. destruct (on p); reflexivity.
  - intro t. rewrite Il. unfold L. destruct (existsb _ _); auto.
  - intros i p P1 P2. destruct (f2_nth _ _ _ _ _ _ _ Ir P1) as [s [S1 [R1 [R2 R3]]]]. destruct (R3 P2) as [[t T] _]. exists t, s. auto.
  - intros i j t [s [S1 S2]] [q [Q1 Q2]]. eapply nodup_nth; [exact In1 | exact S1 | exact Q1 | exact S2 | exact Q2].
Qed.
Lemma frame_hss : forall c ks k d l, behaves (at_start ks k) l -> exists b l2 o o2, handle_slots c (g (after c ks k d l)) (slots (after c ks k d l)) = (b, l2, o) /\ hss c (g (after c ks k d l)) (slots (after c ks k d l)) b l2 o /\
  frame c ks k d l = o ++ o2 /\ slots (after c ks k d (l ++ [Syn])) = l2 /\ g (after c ks k d (l ++ [Syn])) = b /\ set_touch c (with_g (with_slots (after c ks k d l) l2) b) (negb (active l2)) = (after c ks k d (l ++ [Syn]), o2).
Proof.
  intros c ks k d l B. pose proof (all_inv c ks k d l B) as [Ic Ik Ib Ir In1 In2 Il Ip It Io]. fold (after c ks k d l) in *.
  assert (WF : Forall (wf c) (slots (after c ks k d l))) by (clear - Ir; induction Ir as [|? ? ? ? X Y IH]; constructor; [eapply rel_wf; exact X | exact IH]).
  destruct (handle_slots c (g (after c ks k d l)) (slots (after c ks k d l))) as [[b l2] o] eqn:H. pose proof (handle_all _ _ _ _ _ _ H WF In1 In2) as M.
  destruct (set_touch c (with_g (with_slots (after c ks k d l) l2) b) (negb (active l2))) as [w3 o3] eqn:H2. exists b, l2, o, o3.
  assert (E : after c ks k d (l ++ [Syn]) = w3). { unfold after. rewrite run_app. fold (after c ks k d l). unfold after in *. destruct (run c (fst (start c ks k d)) l) as [w1 o1]. cbn [fst] in *. cbn [run step]. rewrite H, H2. reflexivity. }
  destruct (set_touch_ok _ _ _ _ _ H2) as [S1 [S2 [S3 [S4 [S5 _]]]]]; [intro X; apply negb_false_iff in X; exact X |]. rewrite E. repeat split; try assumption; try apply M. unfold frame. cbn [step]. rewrite H, H2. reflexivity.
Qed.
Lemma after_snoc : forall c ks k d l e, after c ks k d (l ++ [e]) = fst (step c (after c ks k d l) e).
Proof. intros. unfold after. rewrite run_app. destruct (run c _ l) as [w1 o1]. cbn. destruct (step c w1 e). reflexivity. Qed.
Lemma events_snoc : forall c ks k d l e, events c ks k d (l ++ [e]) = events c ks k d l ++ snd (step c (after c ks k d l) e).
Proof. intros. unfold events, after. rewrite run_app. destruct (run c _ l) as [w1 o1]. cbn. destruct (step c w1 e). cbn. rewrite app_nil_r, app_assoc. reflexivity. Qed.

Lemma touch_outs : forall c w e w2 o x, set_touch c w e = (w2, o) -> In x o -> axes_of x = None.
Proof.
  intros c w e w2 o x H I. unfold set_touch in H. destruct (touch w); [| injection H; intros; subst; destruct I]. injection H; intros O _. rewrite <- O in I. destruct e; [destruct I as [I|[]]; subst x; reflexivity |]. destruct (arb w); [destruct (first_rect c (slots w)); [destruct I as [I|[]]; subst x; reflexivity | destruct I] | destruct I as [I|[]]; subst x; reflexivity].
Qed.
(** A slot keeps its tool. *)
Theorem C51_same_tool : forall c ks k d l m i t, behaves (at_start ks k) (l ++ m) -> owner c ks k d l i t -> owner c ks k d (l ++ m) i t.
Proof.
  intros c ks k d l m. revert l. induction m as [|e m IH]; intros l i t B O; [rewrite app_nil_r; exact O |].
  replace (l ++ e :: m) with ((l ++ [e]) ++ m) in * by (rewrite <- app_assoc; reflexivity). apply IH; [exact B |]. apply behaves_app in B. destruct B as [B _]. apply behaves_app in B. destruct B as [Bl [Be _]].
  destruct O as [s [S1 S2]]. destruct e.
  - exists s. rewrite after_snoc. auto.
  - unfold owner. rewrite after_snoc. cbn [step fst slots with_slots]. revert S1. generalize (slots (after c ks k d l)). generalize (cur (after c ks k d l)). generalize (kcur (after c ks k d l)). intros n1 n2 q S1.
    assert (AT : forall h n q s, (forall s, tool (h s) = tool s) -> nth_error q i = Some s -> exists s2, nth_error (at_ n h q) i = Some s2 /\ tool s2 = tool s). { clear. intros h n q s T. revert n i. induction q as [|a q IH]; intros [|n] [|i] N; cbn in *; try discriminate; eauto. injection N; intro; subst. exists (h s). auto. }
    destruct (AT (fun s => set_kv s (kernel c0 v (kv s))) n1 q s (fun s => eq_refl) S1) as [s1 [X1 X2]]. destruct (AT (process_abs c0 v) n2 _ s1 (process_tool c0 v) X1) as [s2 [Y1 Y2]]. exists s2. split; [exact Y1 | congruence].
  - exists s. rewrite after_snoc. cbn [step fst]. destruct (Z.eqb v 2); auto.
  - destruct (frame_hss c ks k d l Bl) as [b [l2 [o [o2 [H [M [F [S3 [G T]]]]]]]]]. unfold owner. rewrite S3. destruct (f2_nth _ _ _ _ _ _ _ (l_rel _ _ _ _ _ _ M) S1) as [s2 [X1 [_ [_ [X2 _]]]]]. exists s2. split; [exact X1 |]. rewrite X2 by congruence. exact S2.
  - destruct Be.
  - destruct Be.
  - exists s. rewrite after_snoc. cbn [step]. destruct same; [destruct (touch _) |]; auto.
  - unfold owner. rewrite after_snoc. cbn [step]. destruct (touch (after c ks k d l)) as [u|]; [destruct (Nat.eqb d0 u) |]; [| exists s; auto | exists s; auto]. destruct (set_touch c (after c ks k d l) true) as [w2 o] eqn:H. destruct (set_touch_ok _ _ _ _ _ H) as [_ [_ [S3 _]]]; [discriminate |]. cbn. rewrite S3. exists s. auto.
Qed.
(** Whatever is sent has the position, rotation and size that the device gave last for that slot. *)
Theorem C51_axes : forall c ks k d l e a, behaves (at_start ks k) l -> In e (frame c ks k d l) -> axes_of e = Some a ->
  exists i p t, nth_error (places (history ks k l)) i = Some p /\ owner c ks k d (l ++ [Syn]) i t /\ tool_of e = Some t /\ (on p = true \/ was p = true) /\ says_what c (val p) a.
Proof.
  intros c ks k d l e a B E A. pose proof (all_inv c ks k d l B) as [Ic Ik Ib Ir In1 In2 Il Ip It Io]. fold (after c ks k d l) in *. destruct (frame_hss c ks k d l B) as [b [l2 [o [o2 [H [M [F [S3 [G T]]]]]]]]]. rewrite F in E. apply in_app_iff in E. destruct E as [E|E].
  - destruct (l_some _ _ _ _ _ _ M e E) as [t [T1 T2]]. apply in_tools in T2. destruct T2 as [s2 [U1 U2]]. apply In_nth_error in U1. destruct U1 as [i U1]. destruct (f2_nth2 _ _ _ _ _ _ _ (l_rel _ _ _ _ _ _ M) U1) as [s [V1 [_ [_ [_ [_ [_ [V2 _]]]]]]]]. destruct (f2_nth2 _ _ _ _ _ _ _ Ir V1) as [p [P1 [P2 [P3 P4]]]]. destruct (V2 e a E A) as [W1 W2]; [congruence |]. exists i, p, t. refine (conj P1 (conj _ (conj T1 (conj _ _)))).
    + exists s2. rewrite S3. auto.
    + rewrite P3 in W1. destruct (on p), (was p); auto.
    + rewrite <- P2. exact W2.
  - rewrite (touch_outs _ _ _ _ _ _ T E) in A. discriminate.
Qed.
(** A totem that stays on the surface sends axes exactly if the device gave a new value in the frame. *)
Theorem C51_moves : forall c ks k d l i p t, behaves (at_start ks k) l -> nth_error (places (history ks k l)) i = Some p -> on p = true -> was p = true -> owner c ks k d l i t ->
  ((exists tip a dl ch, In (Axis t tip a dl ch) (frame c ks k d l)) <-> fresh p = true).
Proof.
  intros c ks k d l i p t B P O WS [s [S1 S2]]. pose proof (all_inv c ks k d l B) as [Ic Ik Ib Ir In1 In2 Il Ip It Io]. fold (after c ks k d l) in *. destruct (frame_hss c ks k d l B) as [b [l2 [o [o2 [H [M [F [S3 [G T]]]]]]]]].
  destruct (f2_nth _ _ _ _ _ _ _ Ir P) as [s0 [N0 [R1 [R2 R3]]]]. rewrite S1 in N0. injection N0; intro; subst s0. destruct (R3 WS) as [_ [_ R4]]. destruct (f2_nth _ _ _ _ _ _ _ (l_rel _ _ _ _ _ _ M) S1) as [s2 [X1 [_ [_ [X2 [_ [_ [_ X3]]]]]]]]. rewrite X2 in X3 by congruence. rewrite S2, R2, O, WS, R4 in X3. cbn [sst] in X3.
  assert (Z : (exists tip a dl ch, In (Axis t tip a dl ch) (frame c ks k d l)) <-> (exists t0 tip a dl ch, Some t = Some t0 /\ In (Axis t0 tip a dl ch) o)).
  { rewrite F. split.
    - intros [q [a [dl [ch E]]]]. exists t, q, a, dl, ch. split; [reflexivity |]. apply in_app_iff in E. destruct E as [E|E]; [exact E |]. pose proof (touch_outs _ _ _ _ _ _ T E) as Q. discriminate.
    - intros [t0 [q [a [dl [ch [E1 E2]]]]]]. injection E1; intro; subst t0. exists q, a, dl, ch. apply in_or_app. left. exact E2. }
  rewrite Z, X3. split; [intros [_ X]; apply negb_false_iff in X; exact X | intro X; split; [reflexivity | rewrite X; reflexivity]].
Qed.
(** The button is pressed and released in turn, and once a frame with a totem ends its state is what the device says. *)
Theorem C51_button : forall c ks k d l, behaves (at_start ks k) l ->
  pressed (events c ks k d l) <> None /\ ((exists p, In p (places (history ks k l)) /\ (on p = true \/ was p = true)) -> pressed (events c ks k d (l ++ [Syn])) = Some (held (history ks k l))).
Proof.
  intros c ks k d l B. pose proof (all_inv c ks k d l B) as [Ic Ik Ib Ir In1 In2 Il Ip It Io]. fold (after c ks k d l) in *. split; [rewrite Ip; discriminate |]. intros [p [P1 P2]].
  destruct (frame_hss c ks k d l B) as [b [l2 [o [o2 [H [M [F [S3 [G T]]]]]]]]]. rewrite events_snoc. fold (frame c ks k d l). rewrite F, pressed_app, fold_left_app, Ip, (l_press _ _ _ _ _ _ M).
  destruct (set_touch_ok _ _ _ _ _ T) as [_ [_ [_ [_ [_ [_ [S7 _]]]]]]]; [intro X; apply negb_false_iff in X; exact X |]. rewrite S7. f_equal. rewrite <- Ib. apply (l_prev _ _ _ _ _ _ M). apply In_nth_error in P1. destruct P1 as [i P1]. destruct (f2_nth _ _ _ _ _ _ _ Ir P1) as [s [X1 [X2 [X3 _]]]]. exists s. split; [eapply nth_error_In; exact X1 |]. rewrite X3. destruct P2 as [P2|P2]; rewrite P2; [destruct (was p) | destruct (on p)]; discriminate.
Qed.
(** After each frame the touch device of the totem has been told to ignore the place of the totem in the first slot with one, and to ignore nothing if there is none; no other device is told anything. *)
Theorem C51_touch : forall c ks k d l u, behaves (at_start ks k) l -> told u (events c ks k d (l ++ [Syn])) = match partner d l with
  | Some v => if Nat.eqb v u then option_map (fun p => ignored c (val p)) (first_on (places (history ks k l))) else None | None => None end.
Proof.
  intros c ks k d l u B. pose proof (all_inv c ks k d l B) as [Ic Ik Ib Ir In1 In2 Il Ip It Io]. fold (after c ks k d l) in *.
  destruct (frame_hss c ks k d l B) as [b [l2 [o [o2 [H [M [F [S3 [G T]]]]]]]]]. rewrite events_snoc. fold (frame c ks k d l). rewrite F, told_app, fold_left_app. rewrite (told_o u o) by (intros e E; destruct (l_some _ _ _ _ _ _ M e E) as [t [T1 _]]; eauto).
  destruct (set_touch_ok _ _ _ _ _ T) as [_ [_ [_ [_ [_ [_ [_ [S8 [S9 [S10 _]]]]]]]]]]; [intro X; apply negb_false_iff in X; exact X |]. cbn [with_g with_slots touch slots] in *. rewrite It in *. destruct (partner d l) as [v|].
  - destruct (Nat.eqb v u) eqn:E; [apply Nat.eqb_eq in E; subst v; rewrite (S9 u) by reflexivity | apply Nat.eqb_neq in E; rewrite S10 by congruence; apply Io; left; congruence].
    assert (X : active l2 = existsb on (places (history ks k l))) by (eapply active_on; [exact Ir |]; pose proof (l_rel _ _ _ _ _ _ M) as R; clear - R; induction R as [|? ? ? ? [X _] Y IH]; constructor; assumption).
    assert (Y : first_rect c l2 = option_map (fun p => ignored c (val p)) (first_on (places (history ks k l)))).
    { pose proof (l_rel _ _ _ _ _ _ M) as R. clear - R Ir. unfold first_rect, first_on. revert R; revert l2. induction Ir as [|p s W l1 [R1 [R2 R3]] HH IH]; intros l2 R; inversion R as [|? s2 ? l3 X Y]; subst; [reflexivity |]. destruct X as [X1 [X2 [_ [_ [X5 _]]]]]. rewrite R2 in X1. cbn [find]. destruct (on p) eqn:O.
      - assert (Z : st s2 = UPDATE) by (rewrite X1; destruct (was p); reflexivity). rewrite Z. cbn. destruct (X5 Z) as [_ [_ [Q1 [Q2 _]]]]. unfold rect_of, ignored, mm. cbn. rewrite Q1, Q2, R1. reflexivity.
      - assert (Z : st s2 = NONE) by (rewrite X1; destruct (was p); reflexivity). rewrite Z. cbn. apply IH. exact Y. }
    rewrite X, Y. unfold first_on. destruct (existsb on _) eqn:E; cbn; [reflexivity |]. destruct (find on _) eqn:FN; [| reflexivity]. apply find_some in FN. destruct FN as [FN1 FN2]. assert (existsb on (places (history ks k l)) = true) by (apply existsb_exists; eauto). congruence.
  - destruct (S8 eq_refl) as [_ ->]. cbn. apply Io. left. discriminate.
Qed.
(** With the angles the kernel documents the rotation is from 0 to 359 degrees and goes the other way round. *)
Theorem C51_rotation : forall c k a, says_what c k a -> -90 <= k_angle k <= 90 -> 0 <= rotation a < 360 /\ (rotation a = - k_angle k \/ rotation a = 360 - k_angle k).
Proof.
  intros c k a [_ [_ [R _]]] B. rewrite R. rewrite Z.rem_mod_nonneg by lia. pose proof (Z.mod_pos_bound (360 - k_angle k) 360 ltac:(lia)). split; [exact H |]. destruct (Z_lt_dec 0 (k_angle k)) as [X|X].
  - right. rewrite Z.mod_small by lia. reflexivity.
  - left. symmetry. apply Z.mod_unique with 1; lia.
Qed.

(** ** What does not hold *)
Definition c0 : cfg := {| minx := 0; miny := 0; resx := 10; resy := 10; rmajor := 10; rminor := 10 |}.
Definition k0 : kern := {| k_id := -1; k_x := 500; k_y := 400; k_angle := 0; k_major := 700; k_minor := 700 |}.
Definition put (i : Z) : list input := [Slot i; Abs TRACKING_ID 7; Abs POSITION_X 600; Syn].
Definition take (i : Z) : list input := [Slot i; Abs TRACKING_ID (-1); Syn].
Ltac good := repeat match goal with
  | |- behaves _ [] => exact I
  | |- behaves _ (_ :: _) => split
  | |- behaves1 _ (Abs TRACKING_ID _) => eexists; split; [vm_compute; reflexivity | split; [let H := fresh in intro H; (exfalso; apply H; vm_compute; reflexivity) || (split; vm_compute; reflexivity) | let H := fresh in let H2 := fresh in intros H H2; discriminate H || discriminate H2 || (vm_compute; reflexivity)]]
  | |- behaves1 _ (Slot _) => split; [discriminate | vm_compute; reflexivity]
  | |- behaves1 _ _ => exact I
  end.
(** The button is pressed with one totem and released with another, if the first is lifted in between. *)
Definition clicks (l : list out) : list (nat * bool) := flat_map (fun o => match o with Button t _ _ _ b => [(t, b)] | _ => [] end) l.
Theorem C51_button_tool_refuted : exists c ks k d l t u, behaves (at_start ks k) l /\ t <> u /\ clicks (events c ks k d l) = [(t, true); (u, false)].
Proof.
  exists c0, [k0; k0], O, None, (put 0 ++ put 1 ++ [Btn0 1; Syn] ++ take 0 ++ [Btn0 0; Syn]), 0%nat, 1%nat. split; [cbv [put take app]; good |]. split; [discriminate | vm_compute; reflexivity].
Qed.
(** A button event can say that the tip is up although the last tip event said that it is down. *)
Theorem C51_button_tip_refuted : exists c ks k d l t, behaves (at_start ks k) l /\ lives t (events c ks k d l) = Down /\ match frame c ks k d l with Button u tip _ _ _ :: _ => u = t /\ tip = false | _ => False end.
Proof. exists c0, [k0], O, None, (put 0 ++ [Btn0 1; Slot 0; Abs TRACKING_ID (-1)]), 0%nat. split; [cbv [put take app]; good |]. split; [vm_compute; reflexivity | vm_compute; auto]. Qed.
(** If a totem is put down and lifted within the first frame the process ends in a failing assertion. *)
Theorem C51_one_frame_refuted : exists c ks k d l, In Assert (events c ks k d l) /\ l = [Abs TRACKING_ID 7; Abs TRACKING_ID (-1); Syn].
Proof. exists c0, [k0], O, None. eexists. split; [| reflexivity]. vm_compute. auto. Qed.
(** Later it goes up and out of proximity without having come in; and one that is replaced by another within a frame comes into proximity twice. *)
Theorem C51_replaced_refuted : exists c ks k d l m, behaves (at_start ks k) l /\ lives 0 (events c ks k d l) = Out /\ lives 0 (events c ks k d (l ++ [Abs TRACKING_ID 8; Abs TRACKING_ID (-1); Syn])) = Wrong /\
  behaves (at_start ks k) m /\ lives 0 (events c ks k d m) = Down /\ lives 0 (events c ks k d (m ++ [Abs TRACKING_ID (-1); Abs TRACKING_ID 8; Syn])) = Wrong.
Proof. exists c0, [k0], O, None, (put 0 ++ take 0), (put 0). split; [cbv [put take app]; good |]. split; [vm_compute; reflexivity |]. split; [vm_compute; reflexivity |]. split; [cbv [put take app]; good |]. repeat split; vm_compute; reflexivity. Qed.
(** Disabling the totem sends a second proximity-out for a totem that left before.  If a totem is on the surface when it is disabled, then after it is enabled again that one sends axes without having come into proximity, and goes out of proximity a second time when lifted. *)
Theorem C51_disabled_refuted : exists c ks k d l m, behaves (at_start ks k) l /\ lives 0 (events c ks k d l) = Out /\ lives 0 (events c ks k d (l ++ [Suspend])) = Wrong /\
  behaves (at_start ks k) m /\ lives 0 (events c ks k d m) = Down /\ lives 0 (events c ks k d (m ++ [Suspend])) = Out /\
  lives 0 (events c ks k d (m ++ [Suspend; Resume (map kv (slots (after c ks k d m))) k; Abs POSITION_X 610; Syn])) = Wrong /\ lives 0 (events c ks k d (m ++ [Suspend; Resume (map kv (slots (after c ks k d m))) k; Abs TRACKING_ID (-1); Syn])) = Wrong.
Proof. exists c0, [k0], O, None, (put 0 ++ take 0), (put 0). split; [cbv [put take app]; good |]. split; [vm_compute; reflexivity |]. split; [vm_compute; reflexivity |]. split; [cbv [put take app]; good |]. repeat split; vm_compute; reflexivity. Qed.
(** Disabling the totem sends a button release without a press, if the button went down with no totem on the surface; and no release for one that was pressed, if the button went up then. *)
Theorem C51_disabled_button_refuted : exists c ks k d l m, behaves (at_start ks k) l /\ pressed (events c ks k d l) = Some false /\ pressed (events c ks k d (l ++ [Suspend])) = None /\
  behaves (at_start ks k) m /\ pressed (events c ks k d m) = Some true /\ pressed (events c ks k d (m ++ [Suspend])) = Some true.
Proof. exists c0, [k0], O, None, (put 0 ++ take 0 ++ [Btn0 1; Syn]), (put 0 ++ [Btn0 1; Syn] ++ take 0 ++ [Btn0 0; Syn]). split; [cbv [put take app]; good |]. split; [vm_compute; reflexivity |]. split; [vm_compute; reflexivity |]. split; [cbv [put take app]; good |]. repeat split; vm_compute; reflexivity. Qed.
(** A device that gives no resolution for one of the two sizes is accepted; that size is then not a number. *)
Theorem C51_size_refuted : exists p c k a, accepts p = true /\ rmaj p = rmajor c /\ rmin p = rminor c /\ says_what c k a /\ minor a = None.
Proof. exists {| has_xy := true; has_slot := true; tool_max := Some 10; has_size := true; rmaj := 10; rmin := 0 |}, {| minx := 0; miny := 0; resx := 10; resy := 10; rmajor := 10; rminor := 0 |}, k0, {| x := 500; y := 400; rotation := 0; major := size 700 10; minor := None |}. refine (conj eq_refl (conj eq_refl (conj eq_refl (conj _ _)))); [unfold says_what; repeat split |]; reflexivity. Qed.
(** With both resolutions the sizes are numbers. *)
Theorem C51_size : forall c k a, rmajor c <> 0 -> rminor c <> 0 -> says_what c k a -> major a = Some (inject_Z (k_major k) / inject_Z (rmajor c))%Q /\ minor a = Some (inject_Z (k_minor k) / inject_Z (rminor c))%Q.
Proof. intros c k a A B [_ [_ [_ [M N]]]]. rewrite M, N. unfold size. apply Z.eqb_neq in A, B. rewrite A, B. auto. Qed.

(** ** Cases *)
(** Two totems, the second put down, moved with the button, the first lifted *)
Definition k1 : kern := {| k_id := 3; k_x := 500; k_y := 400; k_angle := 30; k_major := 700; k_minor := 700 |}.
Definition story : list input := put 1 ++ [Btn0 1; Abs ORIENTATION (-20); Syn] ++ take 0 ++ [Btn0 0; Added 5 true].
Example C51_applies : behaves (at_start [k1; k0] 0) story /\ map was (places (history [k1; k0] 0 story)) = [false; true] /\
  lives 0 (events c0 [k1; k0] 0 None story) = Out /\ lives 1 (events c0 [k1; k0] 0 None story) = Down /\ pressed (events c0 [k1; k0] 0 None story) = Some true /\ pressed (events c0 [k1; k0] 0 None (story ++ [Syn])) = Some false /\
  partner None story = Some 5%nat /\ told 5 (events c0 [k1; k0] 0 None (story ++ [Syn])) = Some (30, 10, 100, 100).
Proof. split; [unfold story; cbv [put take app]; good |]. repeat split; vm_compute; reflexivity. Qed.
Example C51_moves_applies : let l := put 1 ++ [Abs ORIENTATION (-20)] in behaves (at_start [k1; k0] 0) l /\ (exists p, nth_error (places (history [k1; k0] 0 l)) 1 = Some p /\ on p = true /\ was p = true /\ fresh p = true) /\ (exists p, nth_error (places (history [k1; k0] 0 l)) 0 = Some p /\ on p = true /\ was p = true /\ fresh p = false) /\ owner c0 [k1; k0] 0 None l 1 1 /\ length (frame c0 [k1; k0] 0 None l) = 1%nat.
Proof. split; [cbv [put take app]; good |]. split; [eexists; repeat split |]. split; [eexists; repeat split |]. split; [eexists; split; reflexivity | reflexivity]. Qed.
Print Assumptions C51_life.
Print Assumptions C51_same_tool.
Print Assumptions C51_axes.
Print Assumptions C51_moves.
Print Assumptions C51_button.
Print Assumptions C51_touch.
Print Assumptions C51_rotation.
Print Assumptions C51_size.
Print Assumptions C51_button_tool_refuted.
Print Assumptions C51_button_tip_refuted.
Print Assumptions C51_one_frame_refuted.
Print Assumptions C51_replaced_refuted.
Print Assumptions C51_disabled_refuted.
Print Assumptions C51_disabled_button_refuted.
Print Assumptions C51_size_refuted.
