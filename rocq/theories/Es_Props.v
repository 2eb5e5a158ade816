(** * Edge scrolling *)
Require Import Coq.ZArith.ZArith Coq.QArith.QArith Coq.Lists.List Coq.Bool.Bool Coq.micromega.Lia.
Require Verif.Tp_Model.
Require Import Verif.Es_Model Verif.Es_Spec Verif.Es_Proofs Verif.Es_Proofs2 Verif.Es_Proofs3.
Import ListNotations.
Open Scope Z_scope.

(** C32.  The scroll events of a finger are sequences of non-zero events on one axis, each ended by one zero event on that axis; when the finger is up no sequence is open. *)
Theorem C32_sequences : forall p c n l k, (k < n)%nat -> legal false (repeat None n) l ->
  exists d, open_after None (from k (eout (erun p (einit c n) l))) = Some d /\ (nth_error (last_phases (repeat None n) l) k = Some None -> d = None).
Proof.
  intros p c n l k H L. destruct (touch_invariant p c n l k H L) as (sil & p1 & e & A & B & [HJ _] & C). exists (dir e). split; [exact C|]. rewrite A. intros Q. injection Q as ->. destruct HJ as (_ & _ & _ & _ & J5). destruct (dir e); [destruct J5 as (_ & X & _); discriminate X|reflexivity].
Qed.
Print Assumptions C32_sequences.
(** A touchpad of 100 mm by 70 mm, 40 units per mm *)
Definition epad1 : epad := {| minx := 0; maxx := 4000; resx := 40; miny := 0; maxy := 2800; resy := 40; clickpad := true |}.
Definition c_edge : cfg := {| method := M_EDGE; btn_areas := true |}.
Definition fr (s : Tp_Model.tstate) (x y : Z) (vx vy : Q) : eft := {| st := s; dirty := true; px := x; py := y; bad := false; nx := vx; ny := vy |}.
Definition idle : eft := {| st := Tp_Model.NONE; dirty := false; px := 0; py := 0; bad := false; nx := 0; ny := 0 |}.
Definition palm (f : eft) : eft := {| st := st f; dirty := dirty f; px := px f; py := py f; bad := true; nx := nx f; ny := ny f |}.
(** Two fingers in turn: down the right edge, along the bottom edge *)
Definition hist1 : list einput :=
  [EFrame [fr Tp_Model.BEGIN 3900 1000 0 0; idle] Posted 1000;
   EFrame [fr Tp_Model.UPDATE 3900 1060 0 (3 # 1); idle] Posted 11000;
   EFrame [fr Tp_Model.UPDATE 3900 1150 0 (4 # 1); idle] Posted 21000;
   EFrame [fr Tp_Model.UPDATE 3800 1200 (-1 # 1) (5 # 1); fr Tp_Model.BEGIN 1000 2700 0 0] Posted 31000;
   EFrame [fr Tp_Model.END 3800 1200 0 0; fr Tp_Model.UPDATE 1200 2700 (7 # 1) 0] Posted 41000;
   EFrame [idle; fr Tp_Model.UPDATE 1300 2700 (8 # 1) 0] Posted 51000;
   EFrame [idle; fr Tp_Model.END 1300 2700 0 0] Posted 61000;
   EFrame [idle; idle] Posted 71000].
Example hist1_legal : legal false (repeat None 2) hist1.
Proof. cbn. repeat match goal with |- _ /\ _ => split | |- Forall2 _ _ _ => constructor | |- follows _ _ => unfold follows; cbn | |- _ -> _ => intros Q; discriminate Q | |- True => exact I end; try reflexivity; lia. Qed.
Example hist1_events : eout (erun epad1 (einit c_edge 2) hist1) =
  [(0%nat, VERTICAL, 4 # 1); (0%nat, VERTICAL, 5 # 1); (0%nat, VERTICAL, 0); (1%nat, HORIZONTAL, 7 # 1); (1%nat, HORIZONTAL, 8 # 1); (1%nat, HORIZONTAL, 0)]%Q.
Proof. vm_compute. reflexivity. Qed.

(** C32.  What a client sees: when all fingers are up, the last event of each axis is a zero event, if there is any. *)
Lemma closed_in : forall o d x a v y, open_after d o = Some None -> o = x ++ (a, v) :: y -> Qeq_bool v 0 = false -> exists w, In (a, w) y /\ Qeq_bool w 0 = true.
Proof.
  intros o d x a v y O -> Z. rewrite open_app in O. destruct (open_after d x) as [d'|]; [|discriminate O]. cbn in O. rewrite Z in O.
  assert (O' : open_after (Some a) y = Some None) by (destruct d' as [b|]; [destruct a, b; try discriminate O; exact O|exact O]). clear O. revert O'. induction y as [|[b w] y IH]; intros O; [discriminate O|]. cbn in O. destruct (Qeq_bool w 0) eqn:W.
  - exists w. split; [left; destruct a, b; try discriminate O; reflexivity|exact W].
  - destruct (IH ltac:(destruct a, b; try discriminate O; exact O)) as (u & I & U). exists u. split; [right; exact I|exact U].
Qed.
Lemma from_none : forall p k l s, nth_error (tts s) k = None -> from k (eout s) = [] -> from k (eout (erun p s l)) = [].
Proof.
  intros p k l. induction l as [|i l IH]; intros s N F; [exact F|]. cbn [erun fold_left]. change (from k (eout (erun p (estep p s i) l)) = []).
  assert (P : forall c x, nth_error x k = None -> nth_error (tts (put s c (each 0 x))) k = None /\ from k (eout (put s c (each 0 x))) = []).
  { intros c x X. destruct (each_spec x 0 k) as [E1 E2]. cbn [put tts eout]. rewrite X in E1, E2. cbn in E2. rewrite from_app, F, E2. auto. }
  destruct i as [fs h t|j t| |m|b]; cbn [estep].
  - destruct (P (conf s) (frames p (conf s) h t (tts s) fs)) as [P1 P2]; [rewrite nth_frames, N; reflexivity|]. apply IH; assumption.
  - destruct (P (conf s) (timers p (conf s) j t (tts s))) as [P1 P2]; [rewrite nth_timers, N; reflexivity|]. apply IH; assumption.
  - destruct (P (conf s) (map stop (tts s))) as [P1 P2]; [rewrite nth_error_map, N; reflexivity|]. apply IH; assumption.
  - destruct (smethod_eqb m (method (conf s))); [apply IH; assumption|]. destruct (P {| method := m; btn_areas := btn_areas (conf s) |} (map stop (tts s))) as [P1 P2]; [rewrite nth_error_map, N; reflexivity|]. apply IH; assumption.
  - apply IH; assumption.
Qed.
Theorem C32_terminated_for_the_client : forall p c n l a, legal false (repeat None n) l -> Forall (fun x => x = None) (last_phases (repeat None n) l) ->
  on_axis a (eout (erun p (einit c n) l)) = [] \/ exists q v, on_axis a (eout (erun p (einit c n) l)) = q ++ [v] /\ (v == 0)%Q.
Proof.
  intros p c n l a L UP. set (o := eout (erun p (einit c n) l)).
  assert (CL : forall k, open_after None (from k o) = Some None).
  { intros k. destruct (Nat.lt_ge_cases k n) as [H|H].
    - destruct (C32_sequences p c n l k H L) as (d & O & D). fold o in O. rewrite O. f_equal. apply D. destruct (touch_invariant p c n l k H L) as (_ & p1 & _ & A & _). rewrite A. f_equal. rewrite Forall_forall in UP. apply UP. eapply nth_error_In; eauto.
    - unfold o. rewrite from_none; [reflexivity| |reflexivity]. cbn. apply nth_error_None. rewrite repeat_length. exact H. }
  clearbody o. set (g := fun x : nat * axis * Q => match snd (fst x), a with VERTICAL, VERTICAL | HORIZONTAL, HORIZONTAL => true | _, _ => false end).
  assert (X : filter g o = [] \/ exists x k v y, o = x ++ (k, a, v) :: y /\ filter g y = []).
  { clear CL UP L. induction o as [|[[k b] v] o IH] using rev_ind; [auto|]. destruct (g (k, b, v)) eqn:G.
    - right. exists o, k, v, []. split; [|reflexivity]. destruct a, b; try discriminate G; reflexivity.
    - rewrite filter_app. cbn [filter]. rewrite G, app_nil_r. destruct IH as [IH|(x & k' & v' & y & -> & Y)]; [auto|]. right. exists x, k', v', (y ++ [(k, b, v)]). split; [rewrite <- app_assoc; reflexivity|]. rewrite filter_app, Y. cbn [filter]. rewrite G. reflexivity. }
  unfold on_axis. fold g. destruct X as [X|(x & k & v & y & X & Y)]; [left; rewrite X; reflexivity|]. right. rewrite X, filter_app. cbn [filter]. replace (g (k, a, v)) with true by (destruct a; reflexivity). rewrite Y, map_app. cbn. exists (map snd (filter g x)), v. split; [reflexivity|].
  destruct (Qeq_bool v 0) eqn:Z; [apply Qeq_bool_iff, Z|]. exfalso. specialize (CL k). rewrite X, from_app in CL. unfold from at 2 in CL. cbn [filter fst snd] in CL. rewrite Nat.eqb_refl in CL. cbn [map fst snd] in CL. destruct (closed_in _ _ _ _ _ _ CL eq_refl Z) as (w & I & _). apply in_map_iff in I. destruct I as ([[k' b'] u] & E & I). cbn in E. injection E as -> ->. apply filter_In in I. destruct I as [I _].
  assert (IN : In (k', a, w) (filter g y)) by (apply filter_In; split; [exact I|unfold g; cbn; destruct a; reflexivity]). rewrite Y in IN. exact IN.
Qed.
Print Assumptions C32_terminated_for_the_client.
Example terminated_example : last_phases (repeat None 2) hist1 = [None; None] /\ on_axis VERTICAL (eout (erun epad1 (einit c_edge 2) hist1)) = [4 # 1; 5 # 1; 0]%Q.
Proof. split; vm_compute; reflexivity. Qed.

(** C32.  Where scroll events come from.  A scroll event with value [v] on axis [a] (VERTICAL for the right edge, HORIZONTAL for the bottom edge) that touch [k] causes with input [i]:
    edge scrolling is enabled; the touch is not a palm, is in that edge in this frame and [v] is its motion along the edge; it was put down in that edge, since when the finger has not been lifted,
    and it stayed in it until it had moved 3 mm along it or, without software buttons, was there for 300 ms. *)
Theorem C32_scroll_origin : forall p c n l i k a v o, res_ok p -> (k < n)%nat -> legal false (repeat None n) (l ++ [i]) ->
  from k (eout (erun p (einit c n) (l ++ [i]))) = from k (eout (erun p (einit c n) l)) ++ o -> In (a, v) o -> ~ (v == 0)%Q ->
  method (conf (erun p (einit c n) l)) = M_EDGE /\
  (exists f, frame_of k i = Some f /\ st f = Tp_Model.UPDATE /\ dirty f = true /\ bad f = false /\ in_edge p a f /\ v = value a f) /\
  exists l1 b w lock w2, l ++ [i] = l1 ++ b :: w ++ lock :: w2 /\ starts_scrolling p (btn_areas c) k a l1 b w lock /\ Forall (fun x => ~ begins k x) (lock :: w2).
Proof.
  intros p c n l i k a v o RES H L E IN NZ. assert (Z : Qeq_bool v 0 = false) by (destruct (Qeq_bool v 0) eqn:Q; [exfalso; apply NZ, Qeq_bool_iff, Q|reflexivity]).
  destruct (legal_app l [i] _ _ L) as [L1 L2]. assert (H0 : Hist p (btn_areas c) k [] et0) by (apply hist_trivial; auto).
  destruct (run_hist p (btn_areas c) k l c _ _ None et0 RES eq_refl H0 (JJ0 c) L1 (nth_error_repeat _ H)) as (R1 & R2 & p1 & R3 & R4).
  destruct (run_touch p k l (einit c n) et0 (init_touch c n k H)) as (A1 & A2 & A3). destruct (run_touch p k (l ++ [i]) (einit c n) et0 (init_touch c n k H)) as (B1 & B2 & B3). rewrite B2, A2 in E. rewrite trun_snoc in E. cbn [conf einit] in *.
  set (e := fst (trun p k c et0 l)) in *. set (c1 := fold_left cstep l c) in *. cbn [fst snd] in E. rewrite app_assoc in E. apply app_inv_head in E. subst o.
  destruct (tlegal_of k [] _ _ i p1 L2 R3) as (TL & _). destruct (tstep_hist p (btn_areas c) k l c1 _ p1 e i RES R1 R4 TL R2) as [T1 T2]. destruct (T2 a v (conj IN Z)) as ((f & F1 & F) & TE & TA). destruct (tstep_JJ p k c1 _ p1 e i R4 TL) as [[(_ & _ & _ & J4 & _) _] _].
  split; [|split; [exists f; split; [exact F1|exact F]|apply T1; assumption]].
  rewrite A3. assert (CE : cstep c1 i = c1) by (destruct i; try discriminate F1; reflexivity). rewrite CE in J4. unfold edge_on in J4. destruct (method c1); try reflexivity; destruct (J4 eq_refl); congruence.
Qed.
Print Assumptions C32_scroll_origin.
(** Without software buttons resting 300 ms is enough; a finger that leaves the edge before that never scrolls, also when it returns *)
Definition hist2 (x : Z) : list einput :=
  [EFrame [fr Tp_Model.BEGIN 3900 1000 0 0] Posted 1000; EFrame [fr Tp_Model.UPDATE x 1010 0 (1 # 1)] Posted 11000; ETimer 0 301000; EFrame [fr Tp_Model.UPDATE 3900 1020 0 (1 # 1)] Posted 311000].
Example origin_example : eout (erun epad1 (einit {| method := M_EDGE; btn_areas := false |} 1) (hist2 3900)) = [(0%nat, VERTICAL, 1 # 1)] /\ eout (erun epad1 (einit {| method := M_EDGE; btn_areas := false |} 1) (hist2 3700)) = [].
Proof. split; vm_compute; reflexivity. Qed.

(** C32.  Once its scrolling is ended (it is lifted, a button is pressed, a key typed, the trackpoint used) a finger does not scroll again until a new finger is put down. *)
Theorem C32_ended_for_good : forall p c n l1 i l2 k a o, (k < n)%nat -> legal false (repeat None n) (l1 ++ i :: l2) ->
  from k (eout (erun p (einit c n) (l1 ++ [i]))) = from k (eout (erun p (einit c n) l1)) ++ o -> In (a, 0%Q) o -> Forall (fun x => ~ begins k x) l2 ->
  from k (eout (erun p (einit c n) (l1 ++ i :: l2))) = from k (eout (erun p (einit c n) (l1 ++ [i]))).
Proof.
  intros p c n l1 i l2 k a o H L E IN NB. destruct (run_touch p k l1 (einit c n) et0 (init_touch c n k H)) as (A1 & A2 & A3). destruct (run_touch p k (l1 ++ [i]) (einit c n) et0 (init_touch c n k H)) as (B1 & B2 & B3). destruct (run_touch p k (l1 ++ i :: l2) (einit c n) et0 (init_touch c n k H)) as (C1 & C2 & C3).
  rewrite B2, A2 in E. rewrite B2, C2. cbn [conf einit eout] in *. change (i :: l2) with ([i] ++ l2). rewrite app_assoc, trun_app. rewrite trun_snoc in *. cbn [fst snd] in *. rewrite app_assoc in E. apply app_inv_head in E. subst o.
  assert (LL : legal false (repeat None n) ((l1 ++ [i]) ++ l2)) by (rewrite <- app_assoc; exact L). destruct (legal_app _ _ _ _ LL) as [L3 _]. destruct (legal_app l1 [i] _ _ L3) as [L4 L5].
  destruct (trun_JJ p k l1 c false (repeat None n) None et0 (JJ0 c) L4 (nth_error_repeat _ H)) as (sil & p1 & P1 & P2 & _).
  assert (JX : exists p2, nth_error (fst (phases_run (repeat None n) false l1)) k = Some p2 /\ JJ (fold_left cstep l1 c) (snd (phases_run (repeat None n) false l1)) p2 (fst (trun p k c et0 l1))).
  { clear - H L4. assert (G : forall l ph sil p0 c e, JJ c sil p0 e -> legal sil ph l -> nth_error ph k = Some p0 -> exists p2, nth_error (fst (phases_run ph sil l)) k = Some p2 /\ JJ (fold_left cstep l c) (snd (phases_run ph sil l)) p2 (fst (trun p k c e l))).
    { induction l as [|x l IH]; intros ph sil p0 c0 e J0 L N; [exists p0; auto|]. destruct (tphase_run k x sil ph p0 l L N) as (TL & L' & N'). destruct (tstep_JJ p k c0 sil p0 e x J0 TL) as [J1 _]. cbn [trun fold_left phases_run]. destruct (tstep p k c0 e x) as [e1 o1]. cbn [fst] in J1. destruct (IH _ _ _ _ e1 J1 L' N') as (p2 & Q1 & Q2). exists p2. split; [exact Q1|]. destruct (trun p k (cstep c0 x) e1 l). exact Q2. }
    apply (G l1 _ _ None); [apply JJ0|exact L4|apply nth_error_repeat, H]. }
  destruct JX as (p2 & JX1 & JX2). destruct (tlegal_of k [] _ _ i p2 L5 JX1) as (TL & _). pose proof (zero_step p k _ _ _ _ i a 0%Q JX2 TL IN eq_refl) as Q.
  pose proof (quiet_run p k l2 (fold_left cstep (l1 ++ [i]) c) _ Q NB) as QR. destruct (trun p k (fold_left cstep (l1 ++ [i]) c) (fst (tstep p k (fold_left cstep l1 c) (fst (trun p k c et0 l1)) i)) l2) as [e3 o3]. cbn [snd] in *. subst o3. rewrite app_nil_r. reflexivity.
Qed.
Print Assumptions C32_ended_for_good.
Example ended_example : eout (erun epad1 (einit c_edge 2) (firstn 3 hist1 ++ [EStop; EFrame [fr Tp_Model.UPDATE 3900 1300 0 (6 # 1); idle] Posted 31000])) = [(0%nat, VERTICAL, 4 # 1); (0%nat, VERTICAL, 0)]%Q.
Proof. vm_compute. reflexivity. Qed.

(** C32.  A finger put down in the edge that stays in it scrolls as soon as it has moved 3 mm along it, if it is not in the corner; nothing is lost or added. *)
Theorem C32_scrolls_after_3mm : forall p c n l1 fs0 h0 t0 f0 w i f k a, (k < n)%nat -> legal false (repeat None n) (l1 ++ EFrame fs0 h0 t0 :: w ++ [i]) ->
  method (conf (erun p (einit c n) l1)) = M_EDGE -> Forall (lifts_cleanly k) l1 ->
  nth_error fs0 k = Some f0 -> st f0 = Tp_Model.BEGIN -> in_edge p a f0 -> Forall (undisturbed k) w -> stays_in_edge p a k w ->
  scroll_frame p a k i f -> ~ in_edge p (other a) f -> three_mm p a <= Z.abs (along a f - along a f0) ->
  from k (eout (erun p (einit c n) (l1 ++ EFrame fs0 h0 t0 :: w ++ [i]))) = from k (eout (erun p (einit c n) (l1 ++ EFrame fs0 h0 t0 :: w))) ++ [(a, value a f)].
Proof.
  intros p c n l1 fs0 h0 t0 f0 w i f k a H L ME LC N0 S0 I0 UW SW SF NO MM.
  destruct (run_touch p k l1 (einit c n) et0 (init_touch c n k H)) as (_ & _ & A3). cbn [conf einit] in A3. rewrite A3 in ME. assert (EO : edge_on (fold_left cstep l1 c) = true) by (unfold edge_on; rewrite ME; reflexivity).
  destruct (clean_run p k l1 c false _ None et0 _ (JJ0 c) L (nth_error_repeat _ H) LC (fun _ => eq_refl)) as (sil & ph & p1 & L1 & N1 & J1 & E1).
  destruct (tphase_run k _ sil ph p1 _ L1 N1) as (TL & L2 & N2). pose proof (begin_armed p k _ sil p1 _ fs0 h0 t0 f0 a J1 TL E1 EO N0 S0 I0) as A1. set (b := EFrame fs0 h0 t0) in *. set (c1 := fold_left cstep l1 c) in *. set (e0 := fst (trun p k c et0 l1)) in *. set (e1 := fst (tstep p k c1 e0 b)) in *.
  assert (P0 : tphase k p1 b = Some (bad f0)) by (unfold b; cbn; rewrite N0; unfold phase; rewrite S0; reflexivity). rewrite P0 in N2.
  destruct (armed_run p k a f0 _ w c1 _ _ (bad f0) e1 [i] L2 N2 UW SW EO A1) as (A2 & EO2 & sil' & ph' & L3 & N3). destruct (tphase_run k i _ _ _ _ L3 N3) as (TL3 & _).
  destruct SF as (fs & t & -> & NF & SF & DF & BF & IF & VF). cbn in TL3. destruct TL3 as ((f' & NF' & FF) & _). rewrite NF in NF'. injection NF' as <-. assert (M := proj1 FF).
  destruct (run_touch p k (l1 ++ b :: w) (einit c n) et0 (init_touch c n k H)) as (_ & B2 & _). destruct (run_touch p k (l1 ++ b :: w ++ [EFrame fs Posted t]) (einit c n) et0 (init_touch c n k H)) as (_ & C2 & _). rewrite B2, C2. cbn [conf einit eout].
  replace (l1 ++ b :: w ++ [EFrame fs Posted t]) with ((l1 ++ b :: w) ++ [EFrame fs Posted t]) by (rewrite <- app_assoc; reflexivity). rewrite trun_snoc. cbn [snd]. rewrite app_assoc. f_equal.
  assert (ST : fst (trun p k c et0 (l1 ++ b :: w)) = fst (trun p k c1 e1 w) /\ fold_left cstep (l1 ++ b :: w) c = fold_left cstep w c1).
  { rewrite trun_app, fold_left_app. fold c1. unfold e1, e0. destruct (trun p k c et0 l1) as [x y]. cbn [fst trun fold_left]. fold c1. destruct (tstep p k c1 x b) as [x1 y1]. cbn [fst]. change (cstep c1 b) with c1. destruct (trun p k c1 x1 w). split; reflexivity. }
  destruct ST as [-> ->]. set (e2 := fst (trun p k c1 e1 w)) in *. set (c2 := fold_left cstep w c1) in *. cbn [tstep]. rewrite NF. cbn [frame1].
  destruct (armed_handle p c2 a f0 _ e2 f t M EO2 A2 SF (fun _ => IF)) as [A4 A5]. destruct (armed_post p c2 a f0 _ _ f t M EO2 A4) as [_ A6]. apply A6; auto.
Qed.
Print Assumptions C32_scrolls_after_3mm.
Example after_3mm_example : from 0 (eout (erun epad1 (einit c_edge 2) (firstn 3 hist1))) = from 0 (eout (erun epad1 (einit c_edge 2) (firstn 2 hist1))) ++ [(VERTICAL, 4 # 1)].
Proof.
  refine (C32_scrolls_after_3mm epad1 c_edge 2 [] _ _ _ (fr Tp_Model.BEGIN 3900 1000 0 0) [EFrame [fr Tp_Model.UPDATE 3900 1060 0 (3 # 1); idle] Posted 11000] _ (fr Tp_Model.UPDATE 3900 1150 0 (4 # 1)) 0 VERTICAL _ _ _ _ _ _ _ _ _ _ _ _); try reflexivity; try (constructor; fail).
  - lia.
  - cbn. repeat match goal with |- _ /\ _ => split | |- Forall2 _ _ _ => constructor | |- follows _ _ => unfold follows; cbn | |- _ -> _ => intros Q; discriminate Q | |- True => exact I end; try reflexivity; lia.
  - repeat constructor. eexists. split; reflexivity.
  - constructor; [|constructor]. intros f Q _. injection Q as <-. cbn. lia.
  - exists [fr Tp_Model.UPDATE 3900 1150 0 (4 # 1); idle], 21000. repeat split; reflexivity.
  - cbn. intros [Q _]. lia.
  - cbn. lia.
Qed.

(** C32.  A finger put down in one edge only that has moved 3 mm, or rested 300 ms where there are no software buttons, keeps scrolling: each later frame in which it is in the edge and moves along it
    sends exactly that motion, until it is lifted or scrolling is stopped. *)
Theorem C32_keeps_scrolling : forall p c n l1 fs0 h0 t0 f0 w lock w2 i f k a, (k < n)%nat -> legal false (repeat None n) (l1 ++ EFrame fs0 h0 t0 :: w ++ lock :: w2 ++ [i]) ->
  method (conf (erun p (einit c n) l1)) = M_EDGE -> Forall (lifts_cleanly k) l1 ->
  nth_error fs0 k = Some f0 -> st f0 = Tp_Model.BEGIN -> in_edge p a f0 -> ~ in_edge p (other a) f0 -> Forall (undisturbed k) w -> stays_in_edge p a k w ->
  ((exists t, lock = ETimer k t /\ t0 + 300000 <= t /\ areas_after (btn_areas c) l1 = false) \/ (exists g, scroll_frame p a k lock g /\ three_mm p a <= Z.abs (along a g - along a f0))) ->
  Forall (undisturbed k) w2 -> scroll_frame p a k i f ->
  from k (eout (erun p (einit c n) (l1 ++ EFrame fs0 h0 t0 :: w ++ lock :: w2 ++ [i]))) = from k (eout (erun p (einit c n) (l1 ++ EFrame fs0 h0 t0 :: w ++ lock :: w2))) ++ [(a, value a f)].
Proof.
  intros p c n l1 fs0 h0 t0 f0 w lock w2 i f k a H L ME LC N0 S0 I0 NO UW SW LK UW2 SF.
  destruct (run_touch p k l1 (einit c n) et0 (init_touch c n k H)) as (_ & _ & A3). cbn [conf einit] in A3. rewrite A3 in ME. assert (EO : edge_on (fold_left cstep l1 c) = true) by (unfold edge_on; rewrite ME; reflexivity).
  assert (AR : btn_areas (fold_left cstep l1 c) = areas_after (btn_areas c) l1). { clear. unfold areas_after. revert c. induction l1 as [|x l1 IH]; intros c; [reflexivity|]. cbn [fold_left]. rewrite IH. destruct x; reflexivity. }
  destruct (clean_run p k l1 c false _ None et0 _ (JJ0 c) L (nth_error_repeat _ H) LC (fun _ => eq_refl)) as (sil & ph & p1 & L1 & N1 & J1 & E1).
  destruct (tphase_run k _ sil ph p1 _ L1 N1) as (TL & L2 & N2). pose proof (begin_armed p k _ sil p1 _ fs0 h0 t0 f0 a J1 TL E1 EO N0 S0 I0) as A1. set (b := EFrame fs0 h0 t0) in *. set (c1 := fold_left cstep l1 c) in *. set (e0 := fst (trun p k c et0 l1)) in *. set (e1 := fst (tstep p k c1 e0 b)) in *.
  assert (P0 : tphase k p1 b = Some (bad f0)) by (unfold b; cbn; rewrite N0; unfold phase; rewrite S0; reflexivity). rewrite P0 in N2.
  destruct (armed_run p k a f0 _ w c1 _ _ (bad f0) e1 _ L2 N2 UW SW EO A1) as (A2 & EO2 & sil' & ph' & L3 & N3). destruct (tphase_run k lock _ _ _ _ L3 N3) as (TL3 & L4 & N4).
  set (e2 := fst (trun p k c1 e1 w)) in *. set (c2 := fold_left cstep w c1) in *. set (e3 := fst (tstep p k c2 e2 lock)).
  assert (UL : undisturbed k lock) by (destruct LK as [(t & -> & _)|(g & (fs & t & -> & X & Y & _) & _)]; cbn; [exact I|split; [reflexivity|exists g; auto]]).
  destruct (und_phase k sil' (bad f0) lock TL3 UL) as [P4 EO3]. rewrite P4 in N4. specialize (EO3 c2). rewrite EO2 in EO3.
  assert (OT : edge_of (other a) e2 = false) by (destruct A2 as (_ & Q & _); destruct (edge_of (other a) e2); [exfalso; apply NO, Q; reflexivity|reflexivity]).
  assert (LO : locked a e3).
  { unfold e3. destruct LK as [(t & -> & T & AA)|(g & (fs & t & -> & X & Y & D & B & IE & V) & MM)].
    - cbn [tstep]. rewrite Nat.eqb_refl. cbn [fst]. unfold timer1. rewrite AR, AA in A2. destruct A2 as (Q1 & _ & Q3). assert (OE : only_edge a e2) by (destruct a; cbn in Q1, OT; split; assumption). destruct Q3 as [(E & _ & _ & TM)|E].
      + rewrite TM. replace (t0 + 300000 <=? t) with true by (symmetry; apply Z.leb_le; exact T). unfold handle. cbn. rewrite E. split; [destruct a; exact OE|reflexivity].
      + destruct (tmr e2) as [z|]; [|split; assumption]. destruct (z <=? t); [|split; assumption]. unfold handle. cbn. rewrite E. split; [destruct a; exact OE|reflexivity].
    - cbn [tstep]. rewrite X. cbn [frame1]. cbn in TL3. destruct TL3 as ((f' & X' & FF) & _). rewrite X in X'. injection X' as <-. assert (M := proj1 FF).
      assert (OT' : edge_of (other a) (handle_state p c2 e2 g t) = false).
      { destruct (armed_handle p c2 a f0 _ e2 g t M EO2 A2 Y (fun _ => IE)) as [(_ & Q & _) _]. destruct (edge_of (other a) (handle_state p c2 e2 g t)); [exfalso; apply NO, Q; reflexivity|reflexivity]. }
      destruct (armed_handle p c2 a f0 _ e2 g t M EO2 A2 Y (fun _ => IE)) as [A4 _]. destruct (armed_post p c2 a f0 _ _ g t M EO2 A4) as [_ A6]. apply A6; auto. }
  destruct (locked_run p k a w2 (cstep c2 lock) _ _ (bad f0) e3 [i] L4 N4 UW2 EO3 LO) as (LO2 & EO4 & sil5 & ph5 & L5 & N5). destruct (tphase_run k i _ _ _ _ L5 N5) as (TL5 & _).
  destruct SF as (fs & t & -> & NF & SF & DF & BF & IF & VF). cbn in TL5. destruct TL5 as ((f' & NF' & FF) & _). rewrite NF in NF'. injection NF' as <-. assert (M := proj1 FF).
  destruct (run_touch p k (l1 ++ b :: w ++ lock :: w2) (einit c n) et0 (init_touch c n k H)) as (_ & B2 & _). destruct (run_touch p k (l1 ++ b :: w ++ lock :: w2 ++ [EFrame fs Posted t]) (einit c n) et0 (init_touch c n k H)) as (_ & C2 & _). rewrite B2, C2. cbn [conf einit eout].
  replace (l1 ++ b :: w ++ lock :: w2 ++ [EFrame fs Posted t]) with ((l1 ++ b :: w ++ lock :: w2) ++ [EFrame fs Posted t]) by (rewrite <- app_assoc; cbn; rewrite <- app_assoc; reflexivity). rewrite trun_snoc. cbn [snd]. rewrite app_assoc. f_equal.
  assert (ST : fst (trun p k c et0 (l1 ++ b :: w ++ lock :: w2)) = fst (trun p k (cstep c2 lock) e3 w2) /\ fold_left cstep (l1 ++ b :: w ++ lock :: w2) c = fold_left cstep w2 (cstep c2 lock)).
  { rewrite trun_app, fold_left_app. fold c1. unfold e3, c2, e2, e1, e0. destruct (trun p k c et0 l1) as [x y]. cbn [fst trun fold_left]. destruct (tstep p k c1 x b) as [x1 y1]. cbn [fst]. change (cstep c1 b) with c1. rewrite trun_app, fold_left_app. destruct (trun p k c1 x1 w) as [x2 y2]. cbn [fst trun fold_left]. destruct (tstep p k (fold_left cstep w c1) x2 lock) as [x3 y3]. cbn [fst]. destruct (trun p k (cstep (fold_left cstep w c1) lock) x3 w2). split; reflexivity. }
  destruct ST as [-> ->]. set (e4 := fst (trun p k (cstep c2 lock) e3 w2)) in *. set (c4 := fold_left cstep w2 (cstep c2 lock)) in *. cbn [tstep]. rewrite NF. cbn [frame1].
  apply (locked_post p c4 a _ f t M EO4); auto. apply locked_handle; assumption.
Qed.
Print Assumptions C32_keeps_scrolling.
Example keeps_scrolling_example : from 0 (eout (erun epad1 (einit c_edge 2) (firstn 4 hist1))) = from 0 (eout (erun epad1 (einit c_edge 2) (firstn 3 hist1))) ++ [(VERTICAL, 5 # 1)].
Proof. vm_compute. reflexivity. Qed.

(** C32.  On a touchpad that is not a clickpad and less than 40 mm high there is no horizontal edge scrolling. *)
Theorem C32_no_bottom_edge : forall p c n l k v, res_ok p -> (k < n)%nat -> legal false (repeat None n) l -> clickpad p = false -> maxy p - miny p < 40 * resy p ->
  In (HORIZONTAL, v) (from k (eout (erun p (einit c n) l))) -> False.
Proof.
  intros p c n l k v RES H L CP SM.
  assert (NZ : forall w, Qeq_bool w 0 = false -> In (HORIZONTAL, w) (from k (eout (erun p (einit c n) l))) -> False).
  { intros w Z. clear v. induction l as [|i l IH] using rev_ind; [intros []|]. destruct (legal_app l [i] _ _ L) as [L1 _]. specialize (IH L1). intros IN.
    destruct (run_touch p k l (einit c n) et0 (init_touch c n k H)) as (A1 & A2 & A3). destruct (run_touch p k (l ++ [i]) (einit c n) et0 (init_touch c n k H)) as (B1 & B2 & B3). rewrite trun_snoc in B2. cbn [snd] in B2. rewrite app_assoc, <- A2 in B2. rewrite B2, in_app_iff in IN. destruct IN as [IN|IN]; [exact (IH IN)|].
    destruct (C32_scroll_origin p c n l i k HORIZONTAL w _ RES H L B2 IN) as (_ & (f & _ & _ & _ & _ & IE & _) & _).
    - intros Q. apply Qeq_bool_iff in Q. congruence.
    - unfold in_edge in IE. destruct IE as [_ [Q|Q]]; [congruence|lia]. }
  destruct (C32_sequences p c n l k H L) as (d & O & _). intros IN. revert IN.
  assert (G : forall o d0 d1, open_after d0 o = Some d1 -> d0 <> Some HORIZONTAL -> (forall w, In (HORIZONTAL, w) o -> Qeq_bool w 0 = true) -> ~ In (HORIZONTAL, v) o).
  { clear. induction o as [|[a w] o IHo]; intros d0 d1 O ND Q; [intros []|]. cbn in O. destruct a.
    - intros [X|X]; [discriminate X|]. destruct d0 as [[]|]; [destruct (Qeq_bool w 0)|exfalso; apply ND; reflexivity|destruct (Qeq_bool w 0); [discriminate O|]]; (eapply IHo; [exact O|discriminate|intros u U; apply Q; right; exact U|exact X]).
    - exfalso. pose proof (Q w (or_introl eq_refl)) as W. rewrite W in O. destruct d0 as [[]|]; [discriminate O|apply ND; reflexivity|discriminate O]. }
  apply (G _ None d O); [discriminate|]. intros w W. destruct (Qeq_bool w 0) eqn:Z; [reflexivity|]. exfalso. exact (NZ w Z W).
Qed.
Print Assumptions C32_no_bottom_edge.
Example no_bottom_edge_example : let p := {| minx := 0; maxx := 2800; resx := 40; miny := 0; maxy := 1400; resy := 40; clickpad := false |} in
  eout (erun p (einit c_edge 1) [EFrame [fr Tp_Model.BEGIN 1000 1350 0 0] Posted 1000; EFrame [fr Tp_Model.UPDATE 1200 1350 (7 # 1) 0] Posted 11000]) = [].
Proof. vm_compute. reflexivity. Qed.

(** ** What does not hold *)
Definition hist3 (h : how) : list einput :=
  [EFrame [fr Tp_Model.BEGIN 3900 1000 0 0] Posted 1000; EFrame [fr Tp_Model.UPDATE 3900 1150 0 (4 # 1)] Posted 11000; EFrame [fr Tp_Model.END 3900 1150 0 0] h 21000].
(** C32 is false if the finger is recognised as a palm or thumb while it scrolls: no zero event is sent when it is lifted.  If the next finger in its slot scrolls along the bottom edge the sequence on the vertical axis is never ended. *)
Definition hist4 : list einput :=
  [EFrame [fr Tp_Model.BEGIN 3900 1000 0 0] Posted 1000; EFrame [fr Tp_Model.UPDATE 3900 1150 0 (4 # 1)] Posted 11000; EFrame [palm (fr Tp_Model.UPDATE 3900 1180 0 (1 # 1))] Posted 21000;
   EFrame [palm (fr Tp_Model.END 3900 1180 0 0)] Posted 31000; EFrame [fr Tp_Model.BEGIN 1000 2700 0 0] Posted 41000; EFrame [fr Tp_Model.UPDATE 1200 2700 (7 # 1) 0] Posted 51000; EFrame [fr Tp_Model.END 1200 2700 0 0] Posted 61000].
Theorem C32_palm_unterminated_refuted : exists l, any_history [false] l /\ last_down [false] l = [false] /\ on_axis VERTICAL (eout (erun epad1 (einit c_edge 1) l)) = [4 # 1].
Proof. exists hist4. split; [cbn; repeat split; repeat constructor|]. split; vm_compute; reflexivity. Qed.
Print Assumptions C32_palm_unterminated_refuted.
(** C32 is false if the device is removed or suspended by libinput_suspend or the caller while a finger scrolls: the flag that silences it is set before its fingers are lifted. *)
Theorem C32_suspend_unterminated_refuted : exists l, any_history [false] l /\ last_down [false] l = [false] /\ on_axis VERTICAL (eout (erun epad1 (einit c_edge 1) l)) = [4 # 1].
Proof. exists (hist3 Silent). split; [cbn; repeat split; repeat constructor|]. split; vm_compute; reflexivity. Qed.
Print Assumptions C32_suspend_unterminated_refuted.
(** C32 is false if the scroll method is changed while a finger that has not yet scrolled is in the edge: a later finger in the same slot, put down in the middle of the touchpad, scrolls. *)
Definition hist5 : list einput :=
  [EFrame [fr Tp_Model.BEGIN 3900 1000 0 0] Posted 1000; ESetScroll M_2FG; EFrame [fr Tp_Model.END 3900 1000 0 0] Posted 11000; EFrame [fr Tp_Model.BEGIN 2000 1000 0 0] Posted 21000; ESetScroll M_EDGE;
   EFrame [fr Tp_Model.UPDATE 3900 1200 (9 # 1) (4 # 1)] Posted 31000].
Theorem C32_started_outside_refuted : exists l, any_history [false] l /\ (forall f h t, In (EFrame [f] h t) l -> st f = Tp_Model.BEGIN -> py f = 1000 /\ (t = 1000 \/ px f = 2000)) /\
  eout (erun epad1 (einit c_edge 1) (firstn 5 l)) = [] /\ eout (erun epad1 (einit c_edge 1) l) = [(0%nat, VERTICAL, 4 # 1)].
Proof.
  exists hist5. split; [cbn; repeat split; repeat constructor|]. split; [|split; vm_compute; reflexivity].
  intros f h t IN S. cbn in IN. repeat (destruct IN as [IN|IN]; [try discriminate IN; injection IN as <- <- <-; cbn in *; try discriminate S; auto|]). contradiction IN.
Qed.
Print Assumptions C32_started_outside_refuted.
(** C32's "or moved out of it" holds only until the finger has started to scroll: after that it may leave the edge, and scrolls again when it comes back. *)
Theorem C32_left_the_edge_refuted : exists l, legal false [None] l /\ (exists f t, In (EFrame [f] Posted t) l /\ t = 21000 /\ px f = 2000) /\
  eout (erun epad1 (einit c_edge 1) l) = [(0%nat, VERTICAL, 4 # 1); (0%nat, VERTICAL, 6 # 1)].
Proof.
  exists [EFrame [fr Tp_Model.BEGIN 3900 1000 0 0] Posted 1000; EFrame [fr Tp_Model.UPDATE 3900 1150 0 (4 # 1)] Posted 11000; EFrame [fr Tp_Model.UPDATE 2000 1150 (-9 # 1) (5 # 1)] Posted 21000; EFrame [fr Tp_Model.UPDATE 3900 1150 (9 # 1) (6 # 1)] Posted 31000].
  split; [|split; [exists (fr Tp_Model.UPDATE 2000 1150 (-9 # 1) (5 # 1)), 21000; cbn; auto 10|vm_compute; reflexivity]].
  cbn. repeat match goal with |- _ /\ _ => split | |- Forall2 _ _ _ => constructor | |- follows _ _ => unfold follows; cbn | |- _ -> _ => intros Q; discriminate Q | |- True => exact I end; try reflexivity; lia.
Qed.
Print Assumptions C32_left_the_edge_refuted.
(** If a finger is lifted in the very frame in which a button stops its scrolling, the next finger in its slot cannot scroll. *)
Theorem C32_next_finger_refuted : let next := [EFrame [fr Tp_Model.BEGIN 3900 1000 0 0] Posted 41000; EFrame [fr Tp_Model.UPDATE 3900 1150 0 (4 # 1)] Posted 51000] in
  legal false [None] (hist3 Stopped ++ next) /\
  eout (erun epad1 (einit c_edge 1) (hist3 Posted ++ next)) = [(0%nat, VERTICAL, 4 # 1); (0%nat, VERTICAL, 0); (0%nat, VERTICAL, 4 # 1)]%Q /\
  eout (erun epad1 (einit c_edge 1) (hist3 Stopped ++ next)) = [(0%nat, VERTICAL, 4 # 1); (0%nat, VERTICAL, 0)]%Q.
Proof.
  cbv zeta. split; [|split; vm_compute; reflexivity]. cbn. repeat match goal with |- _ /\ _ => split | |- Forall2 _ _ _ => constructor | |- follows _ _ => unfold follows; cbn | |- _ -> _ => intros Q; discriminate Q | |- True => exact I end; try reflexivity; lia.
Qed.
Print Assumptions C32_next_finger_refuted.
