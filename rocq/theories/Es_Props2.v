(** C32: which fingers move the pointer while edge scrolling is on *)
Require Import Coq.ZArith.ZArith Coq.QArith.QArith Coq.Lists.List Coq.Bool.Bool Coq.micromega.Lia.
Require Verif.Tp_Model.
Require Import Verif.Es_Model Verif.Es_Spec Verif.Es_Proofs Verif.Es_Proofs2 Verif.Es_Proofs3 Verif.Es_Props.
Import ListNotations.
Open Scope Z_scope.

(** Finger [k] moves the pointer after these inputs. *)
Definition moves_pointer (p : epad) (c : cfg) (n : nat) (l : list einput) (k : nat) : bool :=
  match nth_error (tts (erun p (einit c n) l)) k with Some e => active e | None => false end.
Lemma moves_state : forall p c n l k, (k < n)%nat -> moves_pointer p c n l k = active (fst (trun p k c et0 l)).
Proof. intros p c n l k H. unfold moves_pointer. destruct (run_touch p k l (einit c n) et0 (init_touch c n k H)) as (A & _ & _). rewrite A. reflexivity. Qed.
Lemma armed_inactive : forall p a f0 tm e, armed p a f0 tm e -> active e = false.
Proof. intros p a f0 tm e (_ & _ & [(E & _)|E]); unfold active; rewrite E; reflexivity. Qed.

(** C32.  A finger put down in the edge does not move the pointer as long as it stays in the edge, whether it has started to scroll or not. *)
Theorem C32_edge_no_pointer : forall p c n l1 fs0 h0 t0 f0 w k a, (k < n)%nat -> legal false (repeat None n) (l1 ++ EFrame fs0 h0 t0 :: w) ->
  method (conf (erun p (einit c n) l1)) = M_EDGE -> Forall (lifts_cleanly k) l1 ->
  nth_error fs0 k = Some f0 -> st f0 = Tp_Model.BEGIN -> in_edge p a f0 -> Forall (undisturbed k) w -> stays_in_edge p a k w ->
  moves_pointer p c n (l1 ++ EFrame fs0 h0 t0 :: w) k = false.
Proof.
  intros p c n l1 fs0 h0 t0 f0 w k a H L ME LC N0 S0 I0 UW SW. rewrite moves_state by exact H.
  destruct (run_touch p k l1 (einit c n) et0 (init_touch c n k H)) as (_ & _ & A3). cbn [conf einit] in A3. rewrite A3 in ME. assert (EO : edge_on (fold_left cstep l1 c) = true) by (unfold edge_on; rewrite ME; reflexivity).
  destruct (clean_run p k l1 c false _ None et0 _ (JJ0 c) L (nth_error_repeat _ H) LC (fun _ => eq_refl)) as (sil & ph & p1 & L1 & N1 & J1 & E1).
  destruct (tphase_run k _ sil ph p1 _ L1 N1) as (TL & L2 & N2). pose proof (begin_armed p k _ sil p1 _ fs0 h0 t0 f0 a J1 TL E1 EO N0 S0 I0) as A1. set (b := EFrame fs0 h0 t0) in *. set (c1 := fold_left cstep l1 c) in *. set (e0 := fst (trun p k c et0 l1)) in *. set (e1 := fst (tstep p k c1 e0 b)) in *.
  assert (P0 : tphase k p1 b = Some (bad f0)) by (unfold b; cbn; rewrite N0; unfold phase; rewrite S0; reflexivity). rewrite P0 in N2.
  rewrite <- (app_nil_r w) in L2. destruct (armed_run p k a f0 _ w c1 _ _ (bad f0) e1 [] L2 N2 UW SW EO A1) as (A2 & _).
  assert (ST : fst (trun p k c et0 (l1 ++ b :: w)) = fst (trun p k c1 e1 w)).
  { rewrite trun_app. unfold e1, e0. destruct (trun p k c et0 l1) as [x y]. cbn [fst trun]. fold c1. destruct (tstep p k c1 x b) as [x1 y1]. cbn [fst]. change (cstep c1 b) with c1. destruct (trun p k c1 x1 w). reflexivity. }
  rewrite ST. exact (armed_inactive _ _ _ _ _ A2).
Qed.
Print Assumptions C32_edge_no_pointer.
Example edge_no_pointer_example : moves_pointer epad1 c_edge 2 (firstn 1 hist1) 0 = false /\ moves_pointer epad1 c_edge 2 (firstn 2 hist1) 0 = false /\
  moves_pointer epad1 c_edge 1 [EFrame [fr Tp_Model.BEGIN 3900 1000 0 0] Posted 1000; EFrame [fr Tp_Model.UPDATE 2000 1000 0 0] Posted 11000] 0 = true.
Proof.
  split; [|split; [|reflexivity]]; [refine (C32_edge_no_pointer epad1 c_edge 2 [] _ _ _ (fr Tp_Model.BEGIN 3900 1000 0 0) [] 0 VERTICAL _ _ _ _ _ _ _ _ _)
    |refine (C32_edge_no_pointer epad1 c_edge 2 [] _ _ _ (fr Tp_Model.BEGIN 3900 1000 0 0) [EFrame [fr Tp_Model.UPDATE 3900 1060 0 (3 # 1); idle] Posted 11000] 0 VERTICAL _ _ _ _ _ _ _ _ _)];
  try reflexivity; try (constructor; fail); try lia.
  - cbn. repeat match goal with |- _ /\ _ => split | |- Forall2 _ _ _ => constructor | |- follows _ _ => unfold follows; cbn | |- _ -> _ => intros Q; discriminate Q | |- True => exact I end; try reflexivity; lia.
  - cbn. repeat match goal with |- _ /\ _ => split | |- Forall2 _ _ _ => constructor | |- follows _ _ => unfold follows; cbn | |- _ -> _ => intros Q; discriminate Q | |- True => exact I end; try reflexivity; lia.
  - repeat constructor. eexists. split; reflexivity.
  - constructor; [|constructor]. intros f Q _. injection Q as <-. cbn. lia.
Qed.

(** C32.  A finger that has started to scroll does not move the pointer until it is lifted or scrolling is stopped, wherever it goes. *)
Theorem C32_scrolling_no_pointer : forall p c n l1 fs0 h0 t0 f0 w lock w2 k a, (k < n)%nat -> legal false (repeat None n) (l1 ++ EFrame fs0 h0 t0 :: w ++ lock :: w2) ->
  method (conf (erun p (einit c n) l1)) = M_EDGE -> Forall (lifts_cleanly k) l1 ->
  nth_error fs0 k = Some f0 -> st f0 = Tp_Model.BEGIN -> in_edge p a f0 -> ~ in_edge p (other a) f0 -> Forall (undisturbed k) w -> stays_in_edge p a k w ->
  ((exists t, lock = ETimer k t /\ t0 + 300000 <= t /\ areas_after (btn_areas c) l1 = false) \/ (exists g, scroll_frame p a k lock g /\ three_mm p a <= Z.abs (along a g - along a f0))) ->
  Forall (undisturbed k) w2 ->
  moves_pointer p c n (l1 ++ EFrame fs0 h0 t0 :: w ++ lock :: w2) k = false.
Proof.
  intros p c n l1 fs0 h0 t0 f0 w lock w2 k a H L ME LC N0 S0 I0 NO UW SW LK UW2. rewrite moves_state by exact H.
  destruct (run_touch p k l1 (einit c n) et0 (init_touch c n k H)) as (_ & _ & A3). cbn [conf einit] in A3. rewrite A3 in ME. assert (EO : edge_on (fold_left cstep l1 c) = true) by (unfold edge_on; rewrite ME; reflexivity).
  assert (AR : btn_areas (fold_left cstep l1 c) = areas_after (btn_areas c) l1). { clear. unfold areas_after. revert c. induction l1 as [|x l1 IH]; intros c; [reflexivity|]. cbn [fold_left]. rewrite IH. destruct x; reflexivity. }
  destruct (clean_run p k l1 c false _ None et0 _ (JJ0 c) L (nth_error_repeat _ H) LC (fun _ => eq_refl)) as (sil & ph & p1 & L1 & N1 & J1 & E1).
  destruct (tphase_run k _ sil ph p1 _ L1 N1) as (TL & L2 & N2). pose proof (begin_armed p k _ sil p1 _ fs0 h0 t0 f0 a J1 TL E1 EO N0 S0 I0) as A1. set (b := EFrame fs0 h0 t0) in *. set (c1 := fold_left cstep l1 c) in *. set (e0 := fst (trun p k c et0 l1)) in *. set (e1 := fst (tstep p k c1 e0 b)) in *.
  assert (P0 : tphase k p1 b = Some (bad f0)) by (unfold b; cbn; rewrite N0; unfold phase; rewrite S0; reflexivity). rewrite P0 in N2.
  destruct (armed_run p k a f0 _ w c1 _ _ (bad f0) e1 _ L2 N2 UW SW EO A1) as (A2 & EO2 & sil' & ph' & L3 & N3). destruct (tphase_run k lock _ _ _ _ L3 N3) as (TL3 & L4 & N4).
  set (e2 := fst (trun p k c1 e1 w)) in *. set (c2 := fold_left cstep w c1) in *. set (e3 := fst (tstep p k c2 e2 lock)).
  assert (UL : undisturbed k lock) by (destruct LK as [(t & -> & _)|(g & (fs & t & -> & X & Y & _) & _)]; cbn; [exact I|split; [reflexivity|exists g; auto]]).
  destruct (und_phase k sil' (bad f0) lock TL3 UL) as [P4 EO3]. rewrite P4 in N4. specialize (EO3 c2). rewrite EO2 in EO3.
  assert (OT : edge_of (other a) e2 = false) by (destruct A2 as (_ & Q & _); destruct (edge_of (other a) e2); [exfalso; apply NO, Q; reflexivity|reflexivity]).
  assert (LO : locked a e3).
  { unfold e3. destruct LK as [(t & -> & T & AA)|(g & (fs & t & -> & X & Y & D & B & IE & V) & MM)].
    - cbn [tstep]. rewrite Nat.eqb_refl. cbn [fst]. unfold timer1. rewrite AR, AA in A2. destruct A2 as (Q1 & _ & Q3). assert (OE : only_edge a e2) by (destruct a; cbn in Q1, OT; split; assumption). destruct Q3 as [(E & _ & _ & TM)|E].
      + rewrite TM. replace (t0 + 300000 <=? t) with true by (symmetry; apply Z.leb_le; exact T). unfold handle. cbn. rewrite E. split; [destruct a; exact OE|reflexivity].
      + destruct (tmr e2) as [z|]; [|split; assumption]. destruct (z <=? t); [|split; assumption]. unfold handle. cbn. rewrite E. split; [destruct a; exact OE|reflexivity].
    - cbn [tstep]. rewrite X. cbn [frame1]. cbn in TL3. destruct TL3 as ((f' & X' & FF) & _). rewrite X in X'. injection X' as <-. assert (M := proj1 FF).
      assert (OT' : edge_of (other a) (handle_state p c2 e2 g t) = false).
      { destruct (armed_handle p c2 a f0 _ e2 g t M EO2 A2 Y (fun _ => IE)) as [(_ & Q & _) _]. destruct (edge_of (other a) (handle_state p c2 e2 g t)); [exfalso; apply NO, Q; reflexivity|reflexivity]. }
      destruct (armed_handle p c2 a f0 _ e2 g t M EO2 A2 Y (fun _ => IE)) as [A4 _]. destruct (armed_post p c2 a f0 _ _ g t M EO2 A4) as [_ A6]. apply A6; auto. }
  rewrite <- (app_nil_r w2) in L4. destruct (locked_run p k a w2 (cstep c2 lock) _ _ (bad f0) e3 [] L4 N4 UW2 EO3 LO) as (LO2 & _).
  assert (ST : fst (trun p k c et0 (l1 ++ b :: w ++ lock :: w2)) = fst (trun p k (cstep c2 lock) e3 w2)).
  { rewrite trun_app. unfold e3, c2, e2, e1, e0. destruct (trun p k c et0 l1) as [x y]. cbn [fst trun]. fold c1. destruct (tstep p k c1 x b) as [x1 y1]. cbn [fst]. change (cstep c1 b) with c1. rewrite trun_app. destruct (trun p k c1 x1 w) as [x2 y2]. cbn [fst trun]. destruct (tstep p k (fold_left cstep w c1) x2 lock) as [x3 y3]. cbn [fst]. destruct (trun p k (cstep (fold_left cstep w c1) lock) x3 w2). reflexivity. }
  rewrite ST. destruct LO2 as [_ E]. unfold active. rewrite E. reflexivity.
Qed.
Print Assumptions C32_scrolling_no_pointer.
Example scrolling_no_pointer_example : let w := [EFrame [fr Tp_Model.BEGIN 3900 1000 0 0] Posted 1000; EFrame [fr Tp_Model.UPDATE 3900 1150 0 (4 # 1)] Posted 11000] in
  from 0 (eout (erun epad1 (einit c_edge 1) w)) = [(VERTICAL, 4 # 1)] /\ moves_pointer epad1 c_edge 1 (w ++ [EFrame [fr Tp_Model.UPDATE 2000 1150 0 0] Posted 21000]) 0 = false.
Proof.
  cbv zeta. split; [reflexivity|].
  refine (C32_scrolling_no_pointer epad1 c_edge 1 [] _ _ _ (fr Tp_Model.BEGIN 3900 1000 0 0) [] (EFrame [fr Tp_Model.UPDATE 3900 1150 0 (4 # 1)] Posted 11000) [EFrame [fr Tp_Model.UPDATE 2000 1150 0 0] Posted 21000] 0 VERTICAL _ _ _ _ _ _ _ _ _ _ _ _); try reflexivity; try (constructor; fail); try lia.
  - cbn. repeat match goal with |- _ /\ _ => split | |- Forall2 _ _ _ => constructor | |- follows _ _ => unfold follows; cbn | |- _ -> _ => intros Q; discriminate Q | |- True => exact I end; try reflexivity; lia.
  - cbn. intros [Q _]. lia.
  - right. exists (fr Tp_Model.UPDATE 3900 1150 0 (4 # 1)). split; [|cbn; lia]. exists [fr Tp_Model.UPDATE 3900 1150 0 (4 # 1)], 11000. repeat split; reflexivity.
  - constructor; [|constructor]. split; [reflexivity|]. exists (fr Tp_Model.UPDATE 2000 1150 0 0). split; reflexivity.
Qed.

(** C32.  A finger put down outside the edges, or with another scroll method, moves the pointer until it is lifted: it can come into the edge, and stopping others does not concern it. *)
Definition not_lifted (k : nat) (x : einput) : Prop := forall f, frame_of k x = Some f -> st f = Tp_Model.UPDATE.
Definition roams (e : et) : Prop := est e = E_AREA.
Lemma roams_frame : forall p c h t e f, st f = Tp_Model.UPDATE \/ st f = Tp_Model.BEGIN -> roams (handle_state p c e f t) -> er (handle_state p c e f t) = false -> eb (handle_state p c e f t) = false ->
  roams (fst (frame1 p c h t e f)) /\ er (fst (frame1 p c h t e f)) = false /\ eb (fst (frame1 p c h t e f)) = false.
Proof.
  intros p c h t e f _ R A B. unfold frame1. set (e1 := handle_state p c e f t) in *.
  assert (PO : forall e, roams e -> er e = false -> eb e = false -> roams (fst (post p c e f t)) /\ er (fst (post p c e f t)) = false /\ eb (fst (post p c e f t)) = false).
  { intros e2 R2 A2 B2. unfold post. rewrite A2, B2. cbn [orb andb]. destruct (negb (dirty f) || bad f); [auto|]. destruct (dir e2); cbn; auto. }
  assert (SO : roams (fst (stop e1)) /\ er (fst (stop e1)) = false /\ eb (fst (stop e1)) = false) by (unfold stop; destruct (dir e1); cbn; auto; split; [reflexivity|auto]).
  destruct h; [apply PO; assumption|exact SO| |auto].
  destruct (stop e1) as [e2 o2]. cbn [fst] in SO. destruct SO as (S1 & S2 & S3). specialize (PO e2 S1 S2 S3). destruct (post p c e2 f t). exact PO.
Qed.
Lemma roams_step : forall p k c e x, roams e -> er e = false -> eb e = false -> not_lifted k x -> let e' := fst (tstep p k c e x) in roams e' /\ er e' = false /\ eb e' = false.
Proof.
  intros p k c e x R A B NL. cbv zeta. destruct x as [fs h t|j t| |m|b]; cbn [tstep].
  - destruct (nth_error fs k) as [f|] eqn:E; [|auto]. specialize (NL f E). assert (HS : handle_state p c e f t = e). { unfold handle_state. rewrite NL. unfold handle. rewrite R. destruct (edge_on c), (dirty f); reflexivity. }
    apply roams_frame; rewrite ?HS; auto.
  - destruct (Nat.eqb j k); [|auto]. cbn [fst]. unfold timer1. destruct (tmr e) as [z|]; [|auto]. destruct (z <=? t); [|auto]. unfold handle. cbn. rewrite R. repeat split; assumption.
  - unfold stop. destruct (dir e); cbn; auto. repeat split.
  - destruct (smethod_eqb m (method c)); [auto|]. unfold stop. destruct (dir e); cbn; auto. repeat split.
  - auto.
Qed.
Theorem C32_outside_moves_pointer : forall p c n l1 fs0 h0 t0 f0 w k, (k < n)%nat -> legal false (repeat None n) (l1 ++ EFrame fs0 h0 t0 :: w) -> Forall (lifts_cleanly k) l1 ->
  nth_error fs0 k = Some f0 -> st f0 = Tp_Model.BEGIN -> method (conf (erun p (einit c n) l1)) <> M_EDGE \/ (forall a, ~ in_edge p a f0) -> Forall (not_lifted k) w ->
  moves_pointer p c n (l1 ++ EFrame fs0 h0 t0 :: w) k = true.
Proof.
  intros p c n l1 fs0 h0 t0 f0 w k H L LC N0 S0 OUT NW. rewrite moves_state by exact H.
  destruct (run_touch p k l1 (einit c n) et0 (init_touch c n k H)) as (_ & _ & A3). cbn [conf einit] in A3. rewrite A3 in OUT.
  destruct (clean_run p k l1 c false _ None et0 _ (JJ0 c) L (nth_error_repeat _ H) LC (fun _ => eq_refl)) as (sil & ph & p1 & L1 & N1 & J1 & E1).
  destruct (tphase_run k _ sil ph p1 _ L1 N1) as (TL & L2 & N2). set (b := EFrame fs0 h0 t0) in *. set (c1 := fold_left cstep l1 c) in *. set (e0 := fst (trun p k c et0 l1)) in *.
  destruct TL as ((f & NF & FF) & _). rewrite N0 in NF. injection NF as <-. unfold follows in FF. rewrite S0 in FF. destruct FF as (M & -> & D0). specialize (E1 eq_refl).
  assert (HS : roams (handle_state p c1 e0 f0 t0) /\ er (handle_state p c1 e0 f0 t0) = false /\ eb (handle_state p c1 e0 f0 t0) = false).
  { destruct J1 as [J1 _]. unfold handle_state. rewrite S0. destruct (edge_on c1) eqn:EO.
    - rewrite D0. unfold handle. rewrite E1. assert (OUT2 : forall a, ~ in_edge p a f0) by (destruct OUT as [Q|Q]; [exfalso; apply Q; unfold edge_on in EO; destruct (method c1); congruence|exact Q]).
      assert (AV : at_right p c1 (px f0) = false). { destruct (at_right p c1 (px f0)) eqn:E; [|reflexivity]. exfalso. apply (OUT2 VERTICAL). apply (at_edge_iff p c1 VERTICAL f0 M EO). exact E. }
      assert (AH : at_bottom p c1 (py f0) = false). { destruct (at_bottom p c1 (py f0)) eqn:E; [|reflexivity]. exfalso. apply (OUT2 HORIZONTAL). apply (at_edge_iff p c1 HORIZONTAL f0 M EO). exact E. }
      rewrite AV, AH. cbn. repeat split.
    - cbn. unfold J in J1. repeat split; cbn; apply J1; auto. }
  set (e1 := fst (tstep p k c1 e0 b)).
  assert (R1 : roams e1 /\ er e1 = false /\ eb e1 = false). { unfold e1, b. cbn [tstep]. rewrite N0. destruct HS as (H1 & H2 & H3). apply roams_frame; auto. }
  assert (G : forall w c e, roams e -> er e = false -> eb e = false -> Forall (not_lifted k) w -> roams (fst (trun p k c e w))).
  { clear. induction w as [|x w IH]; intros c e R A B F; [exact R|]. inversion_clear F as [|? ? F1 F2]. cbn [trun]. destruct (roams_step p k c e x R A B F1) as (R2 & A2 & B2). destruct (tstep p k c e x) as [e2 o2]. cbn [fst] in *. specialize (IH (cstep c x) e2 R2 A2 B2 F2). destruct (trun p k (cstep c x) e2 w). exact IH. }
  assert (ST : fst (trun p k c et0 (l1 ++ b :: w)) = fst (trun p k c1 e1 w)).
  { rewrite trun_app. unfold e1, e0. destruct (trun p k c et0 l1) as [x y]. cbn [fst trun]. fold c1. destruct (tstep p k c1 x b) as [x1 y1]. cbn [fst]. change (cstep c1 b) with c1. destruct (trun p k c1 x1 w). reflexivity. }
  rewrite ST. unfold active. destruct R1 as (R1 & R2 & R3). rewrite (G w c1 e1 R1 R2 R3 NW). reflexivity.
Qed.
Print Assumptions C32_outside_moves_pointer.
Example outside_example : let w := [EFrame [fr Tp_Model.BEGIN 2000 1000 0 0] Posted 1000; EFrame [fr Tp_Model.UPDATE 3900 1000 0 0] Posted 11000; EStop] in
  moves_pointer epad1 c_edge 1 w 0 = true.
Proof.
  refine (C32_outside_moves_pointer epad1 c_edge 1 [] _ _ _ (fr Tp_Model.BEGIN 2000 1000 0 0) _ 0 _ _ _ _ _ _ _); try reflexivity; try lia; try (constructor; fail).
  - cbn. repeat match goal with |- _ /\ _ => split | |- Forall2 _ _ _ => constructor | |- follows _ _ => unfold follows; cbn | |- _ -> _ => intros Q; discriminate Q | |- True => exact I end; try reflexivity; lia.
  - right. intros []; cbn; [lia|]. intros [Q _]. lia.
  - constructor; [|constructor; [|constructor]]; intros f Q; [injection Q as <-; reflexivity|discriminate Q].
Qed.
