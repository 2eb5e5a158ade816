(** * C30: touchpad gestures and two-finger scrolling *)
Require Import Coq.ZArith.ZArith Coq.QArith.QArith Coq.QArith.Qabs Coq.Lists.List Coq.Bool.Bool Coq.micromega.Lia Coq.micromega.Lqa.
Require Import Verif.Scroll_Model.
Require Verif.Es_Model.
Require Import Verif.Gest_Model Verif.Gest_Spec Verif.Gest_Proofs Verif.Gest_Proofs2 Verif.Gest_Proofs3 Verif.Gest_Proofs4 Verif.Gest_Proofs5 Verif.Gest_Proofs6 Verif.Gest_Proofs7 Verif.Gest_Proofs8.
Import ListNotations.
Open Scope Z_scope.

(** ** A touchpad for the examples: 5 slots, 10 units per mm *)
Definition ex_oct (x y : Q) : Q := if negb (Qle_bool x 0) || (Qeq_bool x 0 && negb (Qle_bool y 0)) then 2 else 6.
Definition ex_pad : gpad := {| slots := 5; enabled := true; rx := 10; ry := 10; thumbs := false; oct := ex_oct |}.
Definition ex_t (x y dx dy : Z) : gtouch := {| act := true; gdirty := true; gx := x; gy := y; gdx := dx; gdy := dy |}.
Definition ex_f (l : list gtouch) : gframe := {| tl := l; acc := fun d => d; una := fun d => d; ang := 0; elig := true; moved := true; held := false |}.
Definition ex_i (l : list gtouch) (t : Z) : ginput := GFrame (ex_f l) (GGo false) t.
Lemma ex_good : good_oct ex_pad.
Proof.
  intros x y. cbn [oct ex_pad]. unfold ex_oct.
  assert (D : forall q, Qle_bool q 0 = true /\ (q <= 0)%Q \/ Qle_bool q 0 = false /\ (0 < q)%Q) by (intros q; destruct (Qle_bool q 0) eqn:E; [left; apply Qle_bool_iff in E; auto | right; split; [reflexivity|]; apply Qnot_le_lt; rewrite <- Qle_bool_iff; congruence]).
  assert (E : forall q, Qeq_bool q 0 = true /\ (q == 0)%Q \/ Qeq_bool q 0 = false /\ ~ (q == 0)%Q) by (intros q; destruct (Qeq_bool q 0) eqn:K; [left; apply Qeq_bool_iff in K; auto | right; split; [reflexivity|]; rewrite <- Qeq_bool_iff; congruence]).
  destruct (D x) as [[-> X]|[-> X]], (E x) as [[-> X1]|[-> X1]], (D y) as [[-> Y]|[-> Y]], (D (- x)%Q) as [[-> XN]|[-> XN]], (E (- x)%Q) as [[-> X2]|[-> X2]], (D (- y)%Q) as [[-> YN]|[-> YN]]; cbn [negb andb orb];
    repeat split; intros; first [lra | exfalso; lra | left; reflexivity | right; reflexivity | exfalso; match goal with H : ~ (_ /\ _) |- _ => apply H; split; lra end].
Qed.
(** Three fingers swipe by 2 mm, twice, and are lifted *)
Definition ex_swipe : list ginput :=
  [ex_i [ex_t 100 100 0 0; ex_t 300 120 0 0; ex_t 500 140 0 0] 1000;
   ex_i [ex_t 120 100 20 0; ex_t 320 120 20 0; ex_t 520 140 20 0] 20000;
   ex_i [ex_t 140 100 20 0; ex_t 340 120 20 0; ex_t 540 140 20 0] 30000;
   ex_i [] 40000].
(** Two fingers pinch outwards *)
Definition ex_pinch : list ginput :=
  [ex_i [ex_t 400 400 0 0; ex_t 800 400 0 0] 1000;
   ex_i [ex_t 380 400 (-20) 0; ex_t 820 400 20 0] 20000;
   ex_i [ex_t 360 400 (-20) 0; ex_t 840 400 20 0] 30000;
   ex_i [] 40000].
(** Two fingers scroll down *)
Definition ex_scroll : list ginput :=
  [ex_i [ex_t 400 400 0 0; ex_t 600 400 0 0] 1000;
   ex_i [ex_t 400 420 0 20; ex_t 600 420 0 20] 20000;
   ex_i [ex_t 400 440 0 20; ex_t 600 440 0 20] 30000;
   ex_i [] 40000].
Definition M2 := Es_Model.M_2FG.

(** ** The order of events *)
(** C30.  A gesture is a begin, updates (at least one) and an end, of the same kind and finger count; gestures, scrolling and pointer motion never overlap. *)
Theorem C30_sequences : forall p m l, exists x, sees false Idle (out (after p m l)) = Some x.
Proof. intros p m l. destruct (in_sees _ _ (inv_run false p m l ltac:(discriminate))) as (x & E & _). eauto. Qed.
Print Assumptions C30_sequences.
Example C30_sequences_ex :
  out (after ex_pad M2 ex_swipe) =
    [TBegin Swipe 3 20000; TUpdate Swipe 3 20000 (60 # 3, 0 # 3)%Q (60 # 3, 0 # 3)%Q (Fin 0) 0; TUpdate Swipe 3 30000 (60 # 3, 0 # 3)%Q (60 # 3, 0 # 3)%Q (Fin 0) 0; TEnd Swipe 3 40000 false (Fin 0)] /\
  sees false Idle (out (after ex_pad M2 (firstn 3 ex_swipe))) = Some (Doing Swipe 3 true) /\
  sees false Idle [TBegin Swipe 3 1; TBegin Pinch 2 2] = None /\ sees false Idle [TBegin Swipe 3 1; TEnd Swipe 3 2 false (Fin 0)] = None /\ sees false Idle [TUpdate Swipe 3 1 (0, 0)%Q (0, 0)%Q (Fin 0) 0] = None.
Proof. vm_compute. auto. Qed.
(** If the scroll method does not change and the filter is plain, scrolling that has not started is not ended either. *)
Theorem C30_sequences_strict : forall p m l, 0 < rx p -> 0 < ry p -> Forall plain l -> exists x, sees true Idle (out (after p m l)) = Some x.
Proof. intros p m l RX RY F. destruct (in_sees _ _ (inv_run true p m l (fun _ => conj RX (conj RY F)))) as (x & E & _). eauto. Qed.
Print Assumptions C30_sequences_strict.
Example C30_sequences_strict_ex :
  Forall plain ex_scroll /\ out (after ex_pad M2 ex_scroll) = [TAxis (Axis 20000 (Some (40 # 2)%Q) None); TAxis (Axis 30000 (Some (40 # 2)%Q) None); TAxis (Axis 40000 (Some 0%Q) (Some 0%Q))] /\
  sees true Idle [TAxis (Axis 40000 (Some 0%Q) (Some 0%Q))] = None.
Proof. split; [repeat constructor; auto | vm_compute; auto]. Qed.
(** Without these conditions it is not so: two-finger scrolling, the method is switched to edge scrolling and back, and the fingers are lifted *)
Theorem C30_sequences_strict_refuted : exists l, sees true Idle (out (after ex_pad M2 l)) = None.
Proof.
  exists [ex_i [ex_t 400 400 0 0; ex_t 600 400 0 0] 1000; ex_i [ex_t 400 420 0 20; ex_t 600 420 0 20] 20000; GSetMethod Es_Model.M_EDGE 21000; GSetMethod M2 22000;
          ex_i [ex_t 401 420 1 0; ex_t 601 420 1 0] 30000; ex_i [] 40000].
  vm_compute. reflexivity.
Qed.
Print Assumptions C30_sequences_strict_refuted.
(** After the fingers have been lifted, gestures are cancelled, or the finger has become that of a drag, nothing is open *)
Theorem C30_finished : forall p m l i, finishes i -> sees false Idle (out (after p m (l ++ [i]))) = Some Idle.
Proof.
  intros p m l i F. pose proof (inv_run false p m l ltac:(discriminate)) as IN. pose proof (finished false p _ i IN F) as S. rewrite <- after_app in S.
  exact (proj2 (not_started_still false _ (inv_run false p m (l ++ [i]) ltac:(discriminate)) S)).
Qed.
Print Assumptions C30_finished.
Example C30_finished_ex : finishes (ex_i [] 40000) /\ finishes (GStop 5) /\ sees false Idle (out (after ex_pad M2 (firstn 3 ex_pinch))) = Some (Doing Pinch 2 true) /\
  out (after ex_pad M2 (firstn 3 ex_pinch ++ [GStop 35000])) = out (after ex_pad M2 (firstn 3 ex_pinch)) ++ [TEnd Pinch 2 35000 true (Fin (230400000000 # 193600000000))].
Proof. split; [left; reflexivity|]. split; [exact I|]. vm_compute. auto. Qed.
(** What a frame may bring: the time and the finger count of the events *)
Theorem C30_frame_events : forall p m l f h t e, In e (events p m l (GFrame f h t)) ->
  match e with
  | TBegin _ n t' | TUpdate _ n t' _ _ _ _ => t' = t /\ n = count f /\ (2 <= n <= 4)%nat /\ h = GGo false
  | TEnd _ _ t' c _ => t' = t /\ (count f = 0%nat /\ c = false \/ c = true /\ (h = GIgnored \/ h = GGo true))
  | TAxis (Axis t' v x) => t' = t /\ (is_stop v x = true -> finishes (GFrame f h t)) /\ (is_stop v x = false -> (2 <= count f <= 4)%nat /\ h = GGo false)
  | TMotion t' _ => t' = t /\ moved f = true /\ (count f = 1%nat /\ h = GGo false \/ h = GGo true)
  | TThumb _ => (2 <= count f <= 4)%nat /\ h = GGo false
  end.
Proof.
  intros p m l f h t e H. pose proof (events_adds _ _ _ _ _ _ (frame_adds p (after p m l) f h t) H) as K.
  destruct e as [k n t'|k n t' d u z a|k n t' c z|[t' v x]|t' d|i]; cbn in K |- *; tauto.
Qed.
Print Assumptions C30_frame_events.
Example C30_frame_events_ex : events ex_pad M2 (firstn 1 ex_swipe) (ex_i [ex_t 120 100 20 0; ex_t 320 120 20 0; ex_t 520 140 20 0] 20000) =
  [TBegin Swipe 3 20000; TUpdate Swipe 3 20000 (60 # 3, 0 # 3)%Q (60 # 3, 0 # 3)%Q (Fin 0) 0] /\
  events ex_pad M2 [ex_i [ex_t 100 100 0 0] 1000] (ex_i [ex_t 120 90 20 (-10)] 20000) = [TMotion 20000 (20 # 1, -10 # 1)%Q].
Proof. vm_compute. auto. Qed.
(** A timeout, a change of settings or a cancellation brings no motion *)
Theorem C30_other_events : forall p m l i e, In e (events p m l i) -> (forall f h t, i <> GFrame f h t) ->
  match e with TEnd _ _ _ _ _ => True | TAxis (Axis _ v h) => is_stop v h = true | _ => False end.
Proof. exact other_inputs. Qed.
Print Assumptions C30_other_events.
(** A gesture ends with all fingers lifted: then and only then it is not cancelled.  Else: gestures are stopped, or another number of fingers has been on the touchpad for 100 ms. *)
Theorem C30_end_reason : forall p m l i k n t c z, In (TEnd k n t c z) (events p m l i) ->
  match i with
  | GFrame f h t' => t = t' /\ (count f = 0%nat /\ c = false \/ c = true /\ (h = GIgnored \/ h = GGo true))
  | GStop t' => t = t' /\ c = true
  | GTimer t' => t = t' /\ c = true /\ exists l1 f h s0 l2, l = l1 ++ GFrame f h s0 :: l2 /\ count f <> n /\ count f <> 0%nat /\ Forall (steadily (count f)) l2 /\ s0 + 100000 <= t
  | _ => False
  end.
Proof. exact end_reason. Qed.
Print Assumptions C30_end_reason.
Definition ex_add : list ginput := firstn 3 ex_swipe ++ [ex_i [ex_t 140 100 0 0; ex_t 340 120 0 0; ex_t 540 140 0 0; ex_t 700 140 0 0] 40000].
Example C30_end_reason_ex : events ex_pad M2 (firstn 3 ex_swipe) (ex_i [] 40000) = [TEnd Swipe 3 40000 false (Fin 0)] /\
  events ex_pad M2 ex_add (GTimer 139999) = [] /\ events ex_pad M2 ex_add (GTimer 140000) = [TEnd Swipe 3 140000 true (Fin 0)].
Proof. vm_compute. auto. Qed.
(** When another number of fingers has been on the touchpad for 100 ms no gesture with the old number is open *)
Theorem C30_new_finger_count : forall p m l1 f h s0 l2 t k n u, count f <> 0%nat -> (forall f' h' t', In (GFrame f' h' t') l1 -> t' <= s0) -> Forall (steadily (count f)) l2 -> s0 + 100000 <= t ->
  sees false Idle (out (after p m ((l1 ++ GFrame f h s0 :: l2) ++ [GTimer t]))) = Some (Doing k n u) -> n = count f.
Proof.
  intros p m l1 f h s0 l2 t k n u NZ OLD ST T E. pose proof (switch_ends p m l1 f h s0 l2 t NZ OLD ST T) as K. cbn zeta in K.
  destruct (in_sees _ _ (inv_run false p m ((l1 ++ GFrame f h s0 :: l2) ++ [GTimer t]) ltac:(discriminate))) as (x & E' & FT). rewrite E in E'. inversion E'; subst x. unfold fits in FT.
  destruct (started _); [|contradiction]. rewrite <- (K eq_refl). destruct (gst _), k, u; try contradiction; exact FT.
Qed.
Print Assumptions C30_new_finger_count.
Example C30_new_finger_count_ex : sees false Idle (out (after ex_pad M2 ex_add)) = Some (Doing Swipe 3 true) /\ sees false Idle (out (after ex_pad M2 (ex_add ++ [GTimer 140000]))) = Some Idle.
Proof. vm_compute. auto. Qed.

(** ** Which gesture *)
(** Three or four fingers that move together: a swipe, at the latest once they have moved by 2 or 2.5 mm *)
Theorem C30_swipe_recognised : forall p m l f t f2 t2 ox oy n, at_rest l -> enabled p = true -> (n <= slots p)%nat -> (3 <= n <= 4)%nat -> count f = n -> translated f f2 ox oy ->
  at_least p ox oy ((3 # 2) + (1 # 2) * inject_Z (Z.of_nat n - 2)) -> moves p f2 ->
  exists d, average p f2 d /\ events p m (l ++ [GFrame f (GGo false) t]) (GFrame f2 (GGo false) t2) = [TBegin Swipe n t2; TUpdate Swipe n t2 (acc f2 d) (una f2 d) (Fin 0) 0].
Proof.
  intros p m l f t f2 t2 ox oy n R EN SL NR C TR LE MV. assert (NZ : zero2 (touches_delta p f2 true) = false).
  { destruct (zero2 _) eqn:Z; [|reflexivity]. exfalso. apply (MV _ (is_average p f2)). unfold zero2 in Z. apply andb_prop in Z as [A B]. split; apply Qeq_bool_iff; assumption. }
  exists (touches_delta p f2 true). split; [apply is_average|].
  destruct (swipe_recognised p m l f t f2 t2 ox oy n R EN SL NR C TR LE NZ) as [u E]. rewrite E. 
  assert (I : In (TUpdate Swipe n t2 (acc f2 (touches_delta p f2 true)) u (Fin 0) 0) (events p m (l ++ [GFrame f (GGo false) t]) (GFrame f2 (GGo false) t2))) by (rewrite E; right; left; reflexivity).
  apply (events_adds _ _ _ _ _ _ (vals_step p _ _)) in I. destruct I as (f' & h' & EF & _ & U & _). inversion EF; subst f' h'. unfold filtered in U. rewrite NZ in U. rewrite U. reflexivity.
Qed.
Print Assumptions C30_swipe_recognised.
(** Two fingers that move together: scrolling, at the latest after 1.5 mm *)
Theorem C30_scroll_recognised : forall p m l f t f2 t2 ox oy, at_rest l -> (forall i, In i l -> forall m' t', i <> GSetMethod m' t') -> m = M2 -> 0 < rx p -> 0 < ry p -> enabled p = true -> (2 <= slots p)%nat ->
  count f = 2%nat -> translated f f2 ox oy -> at_least p ox oy (3 # 2) -> moves p f2 -> plain (GFrame f2 (GGo false) t2) ->
  exists v h, events p m (l ++ [GFrame f (GGo false) t]) (GFrame f2 (GGo false) t2) = [TAxis (Axis t2 v h)] /\ is_scroll v h = true.
Proof.
  intros p m l f t f2 t2 ox oy R NM -> RX RY EN SL C TR LE MV PL. assert (NZ : zero2 (touches_delta p f2 true) = false).
  { destruct (zero2 _) eqn:Z; [|reflexivity]. exfalso. apply (MV _ (is_average p f2)). unfold zero2 in Z. apply andb_prop in Z as [A B]. split; apply Qeq_bool_iff; assumption. }
  eapply scroll_recognised; eauto. clear - NM. induction l as [|i l IH] using rev_ind; [reflexivity|]. rewrite after_app. rewrite <- IH by (intros j J; apply NM; apply in_or_app; auto).
  specialize (NM i ltac:(apply in_or_app; right; left; reflexivity)). set (s := after p M2 l). clearbody s.
  assert (GE : forall s t c, meth (gend s t c) = meth s) by (intros; apply gend_fc).
  destruct i as [f h t|t|t|m' t|b]; cbn [gstep].
  - assert (GH : meth (ghandle s f t) = meth s) by (unfold ghandle; destruct (Nat.eqb _ _); [reflexivity|]; destruct (Nat.eqb _ _); [apply GE|]; destruct (negb _); [reflexivity|]; destruct (Nat.eqb _ _); reflexivity).
    rewrite <- GH. set (s1 := ghandle s f t). clearbody s1. destruct h as [| | |one]; auto. unfold gpost. destruct (fc s1) eqn:F; [auto|]. destruct one; cbn [pend fc with_count].
    + destruct (moved f); [unfold post_motion; destruct (_ && _)|]; apply GE.
    + destruct (pend s1); [|auto]. rewrite F. pose proof (proj2 (proj2 (proj2 (chain_same p s1 f t)))) as K. destruct n as [|[|[|[|n]]]]; auto. destruct (moved f); [unfold post_motion; destruct (_ && _)|]; reflexivity.
  - destruct (tmr s); [|auto]. destruct (_ <=? _); [|auto]. cbn [pend with_tmr]. destruct (pend s); [reflexivity|]. apply (GE (with_tmr s None)).
  - apply GE.
  - destruct (NM m' t eq_refl).
  - reflexivity.
Qed.
Print Assumptions C30_scroll_recognised.
(** Two fingers that move apart, or towards each other, by 1.5 mm each: a pinch; its updates have the ratio of the distances as their scale *)
Theorem C30_pinch_recognised : forall p m l f1 t1 f2 t2 f3 t3 a b xa ya xb yb ox oy xa' ya' xb' yb',
  at_rest l -> 0 < rx p -> 0 < ry p -> enabled p = true -> (2 <= slots p)%nat -> good_oct p ->
  only f1 a b -> spot f1 a xa ya -> spot f1 b xb yb ->
  only f2 a b -> spot f2 a (xa + ox) (ya + oy) -> spot f2 b (xb - ox) (yb - oy) -> at_least p ox oy (3 # 2) ->
  (t2 <= t1 + 150000 \/ (40 * 40 <= apart2 p (xa + ox) 0 (xb - ox) 0)%Q \/ (7 * 7 <= apart2 p 0 (ya + oy) 0 (yb - oy))%Q) ->
  ~ (apart2 p (xa + ox) (ya + oy) (xb - ox) (yb - oy) == 0)%Q ->
  only f3 a b -> spot f3 a xa' ya' -> spot f3 b xb' yb' -> ~ (apart2 p xa' ya' xb' yb' == apart2 p (xa + ox) (ya + oy) (xb - ox) (yb - oy))%Q ->
  events p m (l ++ [GFrame f1 (GGo false) t1]) (GFrame f2 (GGo false) t2) = [] /\
  exists d u q ag, events p m ((l ++ [GFrame f1 (GGo false) t1]) ++ [GFrame f2 (GGo false) t2]) (GFrame f3 (GGo false) t3) = [TBegin Pinch 2 t3; TUpdate Pinch 2 t3 d u (Fin q) ag] /\
    (q * apart2 p (xa + ox) (ya + oy) (xb - ox) (yb - oy) == apart2 p xa' ya' xb' yb')%Q.
Proof. exact pinch_recognised. Qed.
Print Assumptions C30_pinch_recognised.
Lemma ex_only x y x' y' dx dy dx' dy' : only (ex_f [ex_t x y dx dy; ex_t x' y' dx' dy']) 0 1.
Proof.
  split; [lia|]. intros [|[|i]]; cbn.
  - split; [auto | intros _; eexists; split; reflexivity].
  - split; [auto | intros _; eexists; split; reflexivity].
  - split; [intros (t & H & _); destruct i; discriminate H | lia].
Qed.
Example C30_recognised_ex :
  at_rest [ex_i [] 0] /\ good_oct ex_pad /\
  (translated (ex_f [ex_t 100 100 0 0; ex_t 300 120 0 0; ex_t 500 140 0 0]) (ex_f [ex_t 120 100 20 0; ex_t 320 120 20 0; ex_t 520 140 20 0]) 20 0 /\ at_least ex_pad 20 0 ((3 # 2) + (1 # 2) * inject_Z (Z.of_nat 3 - 2)) /\
   moves ex_pad (ex_f [ex_t 120 100 20 0; ex_t 320 120 20 0; ex_t 520 140 20 0])) /\
  (translated (ex_f [ex_t 400 400 0 0; ex_t 600 400 0 0]) (ex_f [ex_t 400 420 0 20; ex_t 600 420 0 20]) 0 20 /\ at_least ex_pad 0 20 (3 # 2) /\ moves ex_pad (ex_f [ex_t 400 420 0 20; ex_t 600 420 0 20])) /\
  (only (ex_f [ex_t 400 400 0 0; ex_t 800 400 0 0]) 0 1 /\ spot (ex_f [ex_t 380 400 (-20) 0; ex_t 820 400 20 0]) 0 (400 + -20) (400 + 0) /\ spot (ex_f [ex_t 380 400 (-20) 0; ex_t 820 400 20 0]) 1 (800 - -20) (400 - 0) /\ at_least ex_pad (-20) 0 (3 # 2)) /\
  out (after ex_pad M2 ex_pinch) = [TBegin Pinch 2 30000; TUpdate Pinch 2 30000 (0, 0)%Q (0, 0)%Q (Fin (230400000000 # 193600000000)) 0; TEnd Pinch 2 40000 false (Fin (230400000000 # 193600000000))].
Proof.
  split; [exists [], (ex_f []), (GGo false), 0; split; reflexivity|]. split; [apply ex_good|].
  assert (MV : forall f a b, average ex_pad f (a, b) -> counts ex_pad f <> [] -> ~ (a == 0 /\ b == 0)%Q -> moves ex_pad f).
  { intros f a b [(E & _)|(_ & A & B)] NE NZ d [(E2 & _)|(_ & A' & B')] [X Y]; try contradiction. apply NZ. rewrite X in A'. rewrite Y in B'. cbn [fst snd] in A, B.
    assert (N0 : ~ (inject_Z (Z.of_nat (length (counts ex_pad f))) == 0)%Q) by (destruct (counts ex_pad f); [contradiction|]; cbn [length]; unfold Qeq; cbn; lia).
    rewrite <- A', Qmult_0_l in A. rewrite <- B', Qmult_0_l in B. split; [destruct (Qmult_integral _ _ A) | destruct (Qmult_integral _ _ B)]; auto; contradiction. }
  split; [|split; [|split]].
  - split; [repeat constructor|]. split; [unfold at_least, Qle; cbn; lia|]. apply (MV _ (20 # 1)%Q 0%Q).
    + right. split; [discriminate|]. split; reflexivity.
    + discriminate.
    + intros [A _]. discriminate A.
  - split; [repeat constructor|]. split; [unfold at_least, Qle; cbn; lia|]. apply (MV _ 0%Q (20 # 1)%Q).
    + right. split; [discriminate|]. split; reflexivity.
    + discriminate.
    + intros [_ A]. discriminate A.
  - split; [apply ex_only|]. split; [eexists; split; [reflexivity | split; reflexivity]|]. split; [eexists; split; [reflexivity | split; reflexivity]|]. unfold at_least, Qle; cbn; lia.
  - vm_compute. reflexivity.
Qed.
(** Fingers that keep their places relative to each other are never a pinch, and none of them is taken for a thumb *)
Theorem C30_together_no_pinch : forall p m base l i e, Forall (shifted base) (l ++ [i]) -> In e (events p m l i) ->
  match e with TBegin Pinch _ _ | TUpdate Pinch _ _ _ _ _ _ | TEnd Pinch _ _ _ _ | TThumb _ => False | _ => True end.
Proof.
  intros p m base l i e F H. apply Forall_app in F as [F1 F2]. inversion F2; subst. exact (events_adds _ _ _ _ _ _ (proj2 (par_step p base (after p m l) i (par_run p m base l F1) ltac:(assumption))) H).
Qed.
Print Assumptions C30_together_no_pinch.
Example C30_together_no_pinch_ex : Forall (shifted [(100, 100); (300, 120); (500, 140)]) (firstn 3 ex_swipe).
Proof. repeat constructor; [exists 0, 0 | exists 20, 0 | exists 40, 0]; repeat constructor. Qed.
(** A touchpad without gestures scrolls and moves the pointer, no more *)
Theorem C30_disabled : forall p m l i e, enabled p = false -> In e (events p m l i) -> match e with TAxis _ | TMotion _ _ => True | _ => False end.
Proof. intros p m l i e EN H. pose proof (events_adds _ _ _ _ _ _ (proj2 (off_step p (after p m l) i EN (off_run p m EN l))) H) as K. destruct e; cbn in K; auto. Qed.
Print Assumptions C30_disabled.
Definition ex_semi : gpad := {| slots := 2; enabled := false; rx := 10; ry := 10; thumbs := false; oct := ex_oct |}.
Example C30_disabled_ex : out (after ex_semi M2 ex_scroll) = [TAxis (Axis 20000 (Some (40 # 2)%Q) None); TAxis (Axis 30000 (Some (40 # 2)%Q) None); TAxis (Axis 40000 (Some 0%Q) (Some 0%Q))] /\ out (after ex_semi M2 ex_pinch) = [].
Proof. vm_compute. auto. Qed.

(** ** The values *)
(** A swipe's motion is the average motion of the fingers, accelerated and not *)
Theorem C30_swipe_values : forall p m l i n t d u z a, In (TUpdate Swipe n t d u z a) (events p m l i) ->
  exists f h v, i = GFrame f h t /\ average p f v /\ (~ (fst v == 0 /\ snd v == 0) -> d = acc f v /\ u = una f v)%Q /\ ((fst v == 0 /\ snd v == 0) -> d = (0, 0) /\ u = (0, 0))%Q.
Proof.
  intros p m l i n t d u z a H. apply (events_adds _ _ _ _ _ _ (vals_step p _ _)) in H. destruct H as (f & h & -> & -> & -> & _). exists f, h, (touches_delta p f true). split; [reflexivity|]. split; [apply is_average|].
  unfold filtered, zero2. destruct (Qeq_bool (fst _) 0) eqn:X; cbn [andb].
  - destruct (Qeq_bool (snd _) 0) eqn:Y; apply Qeq_bool_iff in X.
    + apply Qeq_bool_iff in Y. split; [intros N; destruct N; auto | auto].
    + split; [auto|]. intros [_ K]. apply Qeq_bool_iff in K. congruence.
  - split; [auto|]. intros [K _]. apply Qeq_bool_iff in K. congruence.
Qed.
Print Assumptions C30_swipe_values.
(** Pointer motion is the accelerated motion of the finger; with a held clickpad the sum of the fingers' *)
Theorem C30_pointer_motion : forall p m l i t d, In (TMotion t d) (events p m l i) -> exists f h, i = GFrame f h t /\ (held f = false -> exists v, average p f v /\ (d = acc f v \/ d = (0, 0)%Q /\ (fst v == 0 /\ snd v == 0)%Q)).
Proof.
  intros p m l i t d H. destruct i as [f h t'|t'|t'|m' t'|b]; try (pose proof (other_inputs p m l _ _ H ltac:(discriminate)) as []).
  destruct (events_adds _ _ _ _ _ _ (frame_adds p (after p m l) f h t') H) as (-> & -> & _). exists f, h. split; [reflexivity|]. intros ->. exists (touches_delta p f true). split; [apply is_average|]. cbn [negb].
  unfold filtered. destruct (zero2 _) eqn:Z; [|auto]. right. unfold zero2 in Z. apply andb_prop in Z as [A B]. split; [reflexivity|]. split; apply Qeq_bool_iff; assumption.
Qed.
Print Assumptions C30_pointer_motion.
(** A scroll event has on each axis the unaccelerated average motion, or nothing; with natural scrolling the opposite direction *)
Theorem C30_scroll_values : forall p m l i t v h, In (TAxis (Axis t v h)) (events p m l i) -> is_stop v h = false ->
  exists f hw d, i = GFrame f hw t /\ average p f d /\ (forall a, v = Some a -> a = dirq (natural_after l) (snd (una f d)) \/ (a == 0)%Q) /\ (forall a, h = Some a -> a = dirq (natural_after l) (fst (una f d)) \/ (a == 0)%Q).
Proof. exact scroll_value. Qed.
Print Assumptions C30_scroll_values.
Example C30_scroll_values_ex : events ex_pad M2 (GSetNatural true :: firstn 1 ex_scroll) (ex_i [ex_t 400 420 0 20; ex_t 600 420 0 20] 20000) = [TAxis (Axis 20000 (Some (-40 # 2)%Q) None)].
Proof. vm_compute. reflexivity. Qed.
(** Fingers that only move up and down, within 15 degrees, never scroll horizontally *)
Theorem C30_scroll_vertical : forall b p m l i t v h, Forall (along_y b p) (l ++ [i]) -> In (TAxis (Axis t v h)) (events p m l i) -> forall a, h = Some a -> (a == 0)%Q.
Proof. exact scroll_upright. Qed.
Print Assumptions C30_scroll_vertical.
Theorem C30_scroll_horizontal : forall b p m l i t v h, 0 < rx p -> 0 < ry p -> Forall (along_x b p) (l ++ [i]) -> In (TAxis (Axis t v h)) (events p m l i) -> forall a, v = Some a -> (a == 0)%Q.
Proof. exact scroll_flat. Qed.
Print Assumptions C30_scroll_horizontal.
Definition ex_slanted : list ginput :=
  [ex_i [ex_t 400 400 0 0; ex_t 600 400 0 0] 1000; ex_i [ex_t 405 420 5 20; ex_t 605 420 5 20] 20000; ex_i [ex_t 410 440 5 20; ex_t 610 440 5 20] 30000].
Example C30_scroll_vertical_ex : Forall (along_y false ex_pad) ex_slanted /\ out (after ex_pad M2 ex_slanted) = [TAxis (Axis 20000 (Some (40 # 2)%Q) None); TAxis (Axis 30000 (Some (40 # 2)%Q) None)].
Proof.
  split; [|vm_compute; reflexivity].
  assert (K : forall t x y x' y' dx dy, ((373 # 100) * Qabs (inject_Z dx / 10) <= inject_Z dy / 10)%Q -> along_y false ex_pad (ex_i [ex_t x y dx dy; ex_t x' y' dx dy] t)).
  { intros t x y x' y' dx dy H d [(E & _)|(_ & A & B)]; [discriminate E|]. cbn [counts ex_pad slots firstn tl ex_f filter act ex_t length map fold_right gdirty gdx gdy Z.of_nat] in A, B. cbn zeta. change (inject_Z (rx ex_pad)) with 10%Q. change (inject_Z (ry ex_pad)) with 10%Q.
    change (inject_Z (Z.pos (Pos.of_succ_nat 1))) with 2%Q in A, B. rewrite !inject_Z_plus in A, B. change (inject_Z 0) with 0%Q in A, B.
    assert (X : (fst d == inject_Z dx)%Q) by lra. assert (Y : (snd d == inject_Z dy)%Q) by lra. rewrite X, Y. exact H. }
  repeat constructor; apply K; unfold Qle; cbn; lia.
Qed.
(** The updates of one pinch: two touches, whose distance, relative to that at the beginning, is the scale; the angles add up to how far the line through them has turned;
    the motion adds up to how far the middle between them has moved, if the filter is a constant factor *)
Theorem C30_pinch_values : forall p m l i n t k, In (TBegin Pinch n t) (events p m l i) ->
  exists a b d0 ang0 mid0, forall w, no_end p m (l ++ [i]) w -> Forall (linear k) (i :: w) ->
  forall w1 y w2, i :: w = w1 ++ y :: w2 -> forall n' t' d u z ag, In (TUpdate Pinch n' t' d u z ag) (events p m (l ++ w1) y) ->
  exists f h, y = GFrame f h t' /\ scales z (apart2 p (fst (at_ f a)) (snd (at_ f a)) (fst (at_ f b)) (snd (at_ f b))) d0 /\
    (exists j, turned (out (after p m (l ++ w1 ++ [y]))) == ang f - ang0 + inject_Z (360 * j))%Q /\
    let v := travelled (out (after p m (l ++ w1 ++ [y]))) in (fst v == k * (fst (middle f a b) - fst mid0) /\ snd v == k * (snd (middle f a b) - snd mid0))%Q.
Proof.
  intros p m l i n t k H. destruct (pinch_window p m (Some k) l i n t H) as (x & X & W). exists (ga x), (gb x), (gd x), (gang x), (gmid x).
  intros w NE L w1 y w2 E n' t' d u z ag U. destruct (W w NE) with (w1 := w1) (y := y) (w2 := w2) as [P F]; [|exact E|].
  { eapply Forall_impl; [|exact L]. intros j LJ k' K. rewrite X in K. inversion K; subst. exact LJ. }
  rewrite Forall_forall in F. destruct (F _ U) as (f & h & -> & SC). exists f, h. split; [reflexivity|]. split; [exact SC|].
  destruct (update_here p m (l ++ w1) f h t' n' t' d u z ag U) as [A B]. cbn zeta in *. rewrite <- app_assoc in A, B. destruct (pn_sums _ _ P) as ((j & T) & _ & TR). cbn [s_turn s_trav summed] in T, TR.
  rewrite (pn_a _ _ P), (pn_b _ _ P) in B. rewrite A in T. split; [exists j; exact T|]. destruct (TR k X) as [T1 T2]. cbn [fst snd] in T1, T2. inversion B as [[B1 B2]]. rewrite B1 in T1. rewrite B2 in T2. split; [exact T1 | exact T2].
Qed.
Print Assumptions C30_pinch_values.
Definition ex_more : list ginput := [ex_i [ex_t 350 400 (-10) 0; ex_t 870 400 30 0] 35000].
Example C30_pinch_values_ex :
  In (TBegin Pinch 2 30000) (events ex_pad M2 (firstn 2 ex_pinch) (ex_i [ex_t 360 400 (-20) 0; ex_t 840 400 20 0] 30000)) /\
  Forall (linear 1) (ex_i [ex_t 360 400 (-20) 0; ex_t 840 400 20 0] 30000 :: ex_more) /\ no_end ex_pad M2 (firstn 3 ex_pinch) ex_more /\
  events ex_pad M2 (firstn 3 ex_pinch) (ex_i [ex_t 350 400 (-10) 0; ex_t 870 400 30 0] 35000) = [TUpdate Pinch 2 35000 (40 # 4, 0 # 4)%Q (40 # 4, 0 # 4)%Q (Fin (270400000000 # 193600000000)) 0].
Proof.
  split; [vm_compute; auto|]. split; [assert (L : forall q : Q, (1 * q)%Q = q) by (intros [x y]; unfold Qmult; cbn [Qnum Qden]; f_equal; lia); constructor; [|constructor; [|constructor]]; intros [x y]; cbn [una ex_f fst snd]; rewrite !L; reflexivity|]. split; [|vm_compute; reflexivity].
  intros w1 i w2 E k n t c z. destruct w1 as [|a w1]; [|destruct w1; discriminate E]. inversion E; subst. vm_compute. intros [K|[]]. discriminate K.
Qed.
(** The end of a pinch has the scale of the last update *)
Theorem C30_end_scale : forall p m l i n t c z, In (TEnd Pinch n t c z) (events p m l i) -> last_scale (out (after p m l)) = Some z.
Proof. exact end_scale. Qed.
Print Assumptions C30_end_scale.
(** An update turns by at most half a turn *)
Theorem C30_angle_range : forall p m l i n t d u z a, Forall angles_in_range (l ++ [i]) -> In (TUpdate Pinch n t d u z a) (events p m l i) -> (-180 <= a <= 180)%Q.
Proof. exact angle_of_update. Qed.
Print Assumptions C30_angle_range.
(** The scale is not always a number: if the fingers meet when the pinch is recognised, every later scale is infinite *)
Theorem C30_scale_is_a_number_refuted : exists l i n t d u a, In (TUpdate Pinch n t d u Inf a) (events ex_pad M2 l i).
Proof.
  exists [ex_i [ex_t 400 400 0 0; ex_t 440 400 0 0] 1000; ex_i [ex_t 420 400 20 0; ex_t 420 400 (-20) 0] 20000], (ex_i [ex_t 415 400 (-5) 0; ex_t 425 400 5 0] 30000).
  do 5 eexists. vm_compute. eauto.
Qed.
Print Assumptions C30_scale_is_a_number_refuted.
