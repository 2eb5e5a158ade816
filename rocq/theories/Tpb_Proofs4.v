(** One finger on a touchpad with top buttons *)
Require Import Coq.ZArith.ZArith Coq.Lists.List Coq.Bool.Bool Coq.micromega.Lia.
Require Verif.Tp_Model.
Require Import Verif.Tap_Model Verif.Tpb_Model Verif.Tpb_Spec Verif.Tpb_Proofs Verif.Tpb_Proofs2 Verif.Tpb_Proofs3.
Import ListNotations.
Open Scope Z_scope.

Record one (a : areas) (s : dev) (b : tb) : Prop := { o_tbs : tbs s = [b]; o_qp : qp s = false; o_qr : qr s = false; o_susp : susp s = false; o_mid : mid s = want_mid s; o_ar : ar s = a }.
Definition alone (p : pad) (a : areas) (t : Z) (b : tb) (f : ft) : tb := nth 0 (touch_frame p a false false t [b] 0 f) tb0.
Lemma frame_queue : forall p s l t, qp (fst (frame p s l t)) = false /\ qr (fst (frame p s l t)) = false /\ susp (fst (frame p s l t)) = susp s.
Proof.
  intros p s l t. pose proof (bstep_susp p s (Clear l t)) as SU. assert (SU' : susp (fst (frame p s l t)) = susp s).
  { pose proof (frame_same p s l t) as F. cbn zeta in F. tauto. }
  split; [|split; [|exact SU']]; unfold frame; destruct (post_button_events p _ l) as [s1 q]; cbn [fst]; pose proof (apply_middle_same p (with_old s1 (phys s1))) as A; cbn zeta in A;
    decompose [and] A; match goal with H : ?f (apply_middle _ _) = _ |- ?f _ = _ => rewrite H; reflexivity end.
Qed.
Lemma one_frame : forall p a s b f t, one a s b -> one a (bstep p s (BFrame [f] t)) (alone p a t b f).
Proof.
  intros p a s b f t [T P R S M A]. cbn [bstep]. unfold closed. rewrite S. cbn [andb].
  destruct (frame_queue p s [f] t) as (Q1 & Q2 & Q3). destruct (frame_ar p s [f] t M) as (F1 & F2).
  constructor; auto; [|congruence|congruence]. rewrite frame_tbs, T, P, R, A. cbn [touches_frame]. unfold alone. pose proof (touch_length p a false false t [b] 0 f) as L. destruct (touch_frame p a false false t [b] 0 f) as [|x [|]]; try discriminate L. reflexivity.
Qed.
Lemma one_timer : forall p a s b t, one a s b -> one a (bstep p s (BTimer 0 t)) (match tmr b with Some e => if e <=? t then nth 0 (handle_event [{| bs := bs b; cur := cur b; tmr := None; ix := ix b; iy := iy b; it := it b; has_moved := has_moved b |}] 0 B_TIMEOUT t) tb0 else b | None => b end).
Proof.
  intros p a s b t [T P R S M A]. cbn [bstep]. rewrite T. cbn [nth_error]. destruct (tmr b) as [e|]; [|constructor; assumption]. destruct (e <=? t); [|constructor; assumption].
  cbn [upd]. pose proof (handle_length [{| bs := bs b; cur := cur b; tmr := None; ix := ix b; iy := iy b; it := it b; has_moved := has_moved b |}] 0 B_TIMEOUT t) as L. destruct (handle_event _ 0 B_TIMEOUT t) as [|x [|]]; try discriminate L. constructor; cbn; assumption || reflexivity.
Qed.
Lemma idle_one : forall s, idle s -> exists b, one (ar s) s b /\ bs b = B_NONE.
Proof. intros s [[b [T B]] [Q1 Q2] S M _ _ _ _]. exists b. split; [constructor; auto|exact B]. Qed.

(** ** The finger's machine, alone *)
Lemma alone_begin : forall p a t b f r, bs b = B_NONE -> down_in a r f -> is_top r -> bs (alone p a t b f) = B_TOP_NEW /\ cur (alone p a t b f) = Some r /\ tmr (alone p a t b f) = Some (t + 100000).
Proof.
  intros p a t b f r B (S & D & R) T. unfold alone, touch_frame. rewrite S, D. cbv zeta. cbn [nth upd]. unfold check_movement. cbn [nth bs]. rewrite B.
  replace (if in_bottom a (f_y f) then _ else _) with [{| bs := B_NONE; cur := cur b; tmr := tmr b; ix := f_x f; iy := f_y f; it := t; has_moved := false |}] by (destruct (in_bottom a (f_y f)); reflexivity).
  rewrite R. destruct T as [-> | [-> | ->]]; repeat split; reflexivity.
Qed.
Lemma alone_step : forall p a t b f, on_pad f -> bs b <> B_BOTTOM -> alone p a t b f = if f_dirty f then fst (event1 b (In_ (region_at a (f_x f) (f_y f))) t) else b.
Proof.
  intros p a t b f S N. unfold alone, touch_frame. assert (E : forall x y, check_movement p [b] 0 x y = [b]) by (intros; unfold check_movement; cbn [nth]; destruct (bs b); try reflexivity; contradiction).
  assert (O : forall e, snd (event1 b e t) = false) by (intros e; destruct (snd (event1 b e t)) eqn:X; [|reflexivity]; apply event1_snd in X; destruct X; contradiction).
  destruct S as [-> | ->]; cbv zeta; rewrite E; (replace (if in_bottom a (f_y f) then [b] else [b]) with [b] by (destruct (in_bottom a (f_y f)); reflexivity)); (destruct (f_dirty f); [|reflexivity]); unfold handle_event; cbn [nth];
    specialize (O (In_ (region_at a (f_x f) (f_y f)))); destruct (event1 b _ t) as [x o]; cbn in O; subst o; reflexivity.
Qed.
Lemma top_cases : forall r, is_top r \/ ~ is_top r.
Proof. intros r. unfold is_top. destruct r; try (left; tauto); right; intros [H|[H|H]]; discriminate H. Qed.

(** Waiting: the finger is in [r], nothing happened before [e] *)
Definition holds (P : tb -> Prop) (a : areas) (s : dev) : Prop := exists b, one a s b /\ P b.
Lemma only_keeps : forall p a (P : tb -> Prop) (F : ft -> Prop) e l s,
  (forall b f t, F f -> P b -> P (alone p a t b f)) ->
  (forall b t, t < e -> P b -> P (match tmr b with Some e => if e <=? t then nth 0 (handle_event [{| bs := bs b; cur := cur b; tmr := None; ix := ix b; iy := iy b; it := it b; has_moved := has_moved b |}] 0 B_TIMEOUT t) tb0 else b | None => b end)) ->
  only F e l -> holds P a s -> holds P a (brun p s l).
Proof.
  intros p a P F e l s HF HT H. revert s. induction H as [|f t l Hf H IH|t l Ht H IH]; intros s (b & O & B); [exists b; auto| |]; cbn [brun fold_left]; apply IH.
  - eexists. split; [apply one_frame; exact O|auto].
  - eexists. split; [apply one_timer; exact O|auto].
Qed.
Definition waits (r : region) (e : Z) (b : tb) : Prop := bs b = B_TOP_NEW /\ cur b = Some r /\ tmr b = Some e.
Lemma is_cur_refl : forall r, is_cur (Some r) r = true. Proof. intros []; reflexivity. Qed.
Lemma waits_stay : forall p a r e l s, is_top r -> only (stays_in a r) e l -> holds (waits r e) a s -> holds (waits r e) a (brun p s l).
Proof.
  intros p a r e l s T O H. revert O H. apply only_keeps.
  - intros b f t [S D] (B1 & B2 & B3). rewrite alone_step by (auto; congruence). destruct (f_dirty f) eqn:X; [|split; auto]. rewrite (D eq_refl). unfold event1. rewrite B1. cbn [fst]. destruct T as [-> | [-> | ->]]; cbn [top_new_event]; rewrite B2; cbn; split; auto.
  - intros b t L (B1 & B2 & B3). rewrite B3. replace (e <=? t) with false by (symmetry; apply Z.leb_gt; exact L). split; auto.
Qed.
Lemma begin_waits : forall p s f t r, idle s -> down_in (ar s) r f -> is_top r -> holds (waits r (t + 100000)) (ar s) (bstep p s (BFrame [f] t)).
Proof. intros p s f t r I D T. destruct (idle_one s I) as (b & O & B). eexists. split; [apply one_frame; exact O|]. apply alone_begin; assumption. Qed.
Lemma area_holds : forall P a s c, holds P a s -> (forall b, P b -> cur b = c) -> area_of s = c.
Proof. intros P a s c (b & O & H) C. unfold area_of. rewrite (o_tbs _ _ _ O). apply C, H. Qed.
Definition in_main (b : tb) : Prop := bs b = B_AREA /\ cur b = Some MAIN.
Lemma main_stays : forall p a e l s, only on_pad e l -> holds in_main a s -> holds in_main a (brun p s l).
Proof.
  intros p a e l s O H. revert O H. apply only_keeps.
  - intros b f t S (B1 & B2). rewrite alone_step by (auto; congruence). destruct (f_dirty f); [|split; auto]. unfold event1. rewrite B1. split; auto.
  - intros b t L (B1 & B2). destruct (tmr b); [|split; auto]. destruct (_ <=? t); [|split; auto]. unfold handle_event, event1. cbn [nth]. cbn [bs]. rewrite B1. cbn. split; auto.
Qed.
Lemma waits_leave : forall p a r e s f t, outside_top a f -> holds (waits r e) a s -> holds in_main a (bstep p s (BFrame [f] t)).
Proof.
  intros p a r e s f t (S & D & N) (b & O & B1 & B2 & B3). eexists. split; [apply one_frame; exact O|]. rewrite alone_step by (unfold on_pad; auto; congruence). rewrite D. unfold event1. rewrite B1. cbn [fst].
  destruct (region_at a (f_x f) (f_y f)); try (exfalso; apply N; unfold is_top; tauto); split; reflexivity.
Qed.
Definition kept (r : region) (b : tb) : Prop := bs b = B_TOP /\ cur b = Some r /\ tmr b = None.
Lemma waits_timeout : forall p a r e s t, e <= t -> holds (waits r e) a s -> holds (kept r) a (bstep p s (BTimer 0 t)).
Proof.
  intros p a r e s t L (b & O & B1 & B2 & B3). eexists. split; [apply one_timer; exact O|]. rewrite B3. replace (e <=? t) with true by (symmetry; apply Z.leb_le; exact L). unfold handle_event, event1. cbn [nth bs]. rewrite B1. cbn. rewrite B2. repeat split; reflexivity.
Qed.
Lemma kept_stays : forall p a r e l s, is_top r -> only (stays_in a r) e l -> holds (kept r) a s -> holds (kept r) a (brun p s l).
Proof.
  intros p a r e l s T O H. revert O H. apply only_keeps.
  - intros b f t [S D] (B1 & B2 & B3). rewrite alone_step by (auto; congruence). destruct (f_dirty f) eqn:X; [|split; auto]. rewrite (D eq_refl). unfold event1. rewrite B1. cbn [fst]. destruct T as [-> | [-> | ->]]; cbn [top_event]; rewrite B2; cbn; split; auto.
  - intros b t L (B1 & B2 & B3). rewrite B3. split; auto.
Qed.
Definition leaving (r : region) (e : Z) (b : tb) : Prop := bs b = B_TOP_TO_IGNORE /\ cur b = Some r /\ tmr b = Some e.
Lemma kept_leave : forall p a r s f t, outside_top a f -> holds (kept r) a s -> holds (leaving r (t + 300000)) a (bstep p s (BFrame [f] t)).
Proof.
  intros p a r s f t (S & D & N) (b & O & B1 & B2 & B3). eexists. split; [apply one_frame; exact O|]. rewrite alone_step by (unfold on_pad; auto; congruence). rewrite D. unfold event1. rewrite B1. cbn [fst].
  destruct (region_at a (f_x f) (f_y f)); try (exfalso; apply N; unfold is_top; tauto); (split; [reflexivity|]; split; [exact B2|reflexivity]).
Qed.
Lemma leaving_stays : forall p a r e l s, only (outside_top a) e l -> holds (leaving r e) a s -> holds (leaving r e) a (brun p s l).
Proof.
  intros p a r e l s O H. revert O H. apply only_keeps.
  - intros b f t (S & D & N) (B1 & B2 & B3). rewrite alone_step by (unfold on_pad; auto; congruence). rewrite D. unfold event1. rewrite B1. cbn [fst].
    destruct (region_at a (f_x f) (f_y f)); try (exfalso; apply N; unfold is_top; tauto); split; auto.
  - intros b t L (B1 & B2 & B3). rewrite B3. replace (e <=? t) with false by (symmetry; apply Z.leb_gt; exact L). split; auto.
Qed.
Lemma leaving_back : forall p a r e s f t, is_top r -> on_pad f -> f_dirty f = true -> region_at a (f_x f) (f_y f) = r -> holds (leaving r e) a s -> holds (kept r) a (bstep p s (BFrame [f] t)).
Proof.
  intros p a r e s f t T S D R (b & O & B1 & B2 & B3). eexists. split; [apply one_frame; exact O|]. rewrite alone_step by (auto; congruence). rewrite D, R. unfold event1. rewrite B1. cbn [fst].
  destruct T as [-> | [-> | ->]]; cbn [top_to_ignore_event]; rewrite B2; cbn; (split; [reflexivity|]; split; [exact B2|reflexivity]).
Qed.
Definition ignored (b : tb) : Prop := bs b = B_IGNORE /\ cur b = None /\ tmr b = None.
Lemma leaving_timeout : forall p a r e s t, e <= t -> holds (leaving r e) a s -> holds ignored a (bstep p s (BTimer 0 t)).
Proof.
  intros p a r e s t L (b & O & B1 & B2 & B3). eexists. split; [apply one_timer; exact O|]. rewrite B3. replace (e <=? t) with true by (symmetry; apply Z.leb_le; exact L). unfold handle_event, event1. cbn [nth bs]. rewrite B1. cbn. repeat split; reflexivity.
Qed.
Lemma ignored_stays : forall p a e l s, only on_pad e l -> holds ignored a s -> holds ignored a (brun p s l).
Proof.
  intros p a e l s O H. revert O H. apply only_keeps.
  - intros b f t S (B1 & B2 & B3). rewrite alone_step by (auto; congruence). destruct (f_dirty f); [|split; auto]. unfold event1. rewrite B1. split; auto.
  - intros b t L (B1 & B2 & B3). rewrite B3. split; auto.
Qed.
(** ** Resting on the bottom area *)
Definition rests (x0 y0 : Z) (b : tb) : Prop := bs b = B_BOTTOM /\ ix b = x0 /\ iy b = y0 /\ has_moved b = false.
Definition roams (b : tb) : Prop := bs b = B_AREA \/ (bs b = B_BOTTOM /\ has_moved b = true).
Lemma far_beyond : forall p b x y, far p b x y = true <-> beyond_5mm p (ix b) (iy b) x y.
Proof. intros. unfold far, beyond_5mm. rewrite Z.ltb_lt. lia. Qed.
Lemma alone_rests : forall p a t b f, on_pad f -> bs b = B_BOTTOM ->
  let b' := alone p a t b f in
  if f_dirty f then
    if in_bottom a (f_y f) then bs b' = B_BOTTOM /\ ix b' = ix b /\ iy b' = iy b /\ has_moved b' = has_moved b || far p b (f_x f) (f_y f)
    else bs b' = B_AREA
  else b' = b.
Proof.
  intros p a t b f S B b'. assert (E : b' = nth 0 (if f_dirty f then let l := if in_bottom a (f_y f) then check_movement p [b] 0 (f_x f) (f_y f) else [b] in handle_event l 0 (In_ (region_at a (f_x f) (f_y f))) t else [b]) tb0) by (unfold b', alone, touch_frame; destruct S as [-> | ->]; reflexivity).
  rewrite E. clear E b'. destruct (f_dirty f); [|reflexivity]. cbv zeta. pose proof (region_bottom a (f_x f) (f_y f)) as R. destruct (in_bottom a (f_y f)) eqn:IB.
  - destruct (proj2 R eq_refl) as (r & -> & BO). clear R. unfold check_movement. cbn [nth]. rewrite B.
    assert (G : forall c, bs c = B_BOTTOM -> let c' := nth 0 (handle_event [c] 0 (In_ r) t) tb0 in bs c' = B_BOTTOM /\ ix c' = ix c /\ iy c' = iy c /\ has_moved c' = has_moved c).
    { intros c C. unfold handle_event, event1. cbn [nth]. rewrite C. destruct BO as [-> | [-> | ->]]; cbn; destruct (is_cur (cur c) _); cbn; auto. }
    destruct (has_moved b) eqn:M; cbn [negb andb orb]; [destruct (G b B) as (G1 & G2 & G3 & G4); rewrite M in G4; auto|].
    destruct (far p b (f_x f) (f_y f)); [|destruct (G b B) as (G1 & G2 & G3 & G4); rewrite M in G4; auto]. cbn [upd map].
    assert (C : release_other (it b) (set_moved b) = set_moved b) by (unfold release_other; cbn; rewrite B; reflexivity). rewrite C. apply (G (set_moved b)). exact B.
  - destruct (event1 b (In_ (region_at a (f_x f) (f_y f))) t) as [x o] eqn:X. unfold handle_event. cbn [nth]. rewrite X. cbn [upd map].
    assert (Y : bs x = B_AREA). { unfold event1 in X. rewrite B in X. destruct (region_at a (f_x f) (f_y f)) eqn:Q; cbn in X; try (injection X as <- <-; reflexivity); exfalso; assert (false = true) by (apply R; eexists; split; [reflexivity|unfold bot; tauto]); discriminate. }
    destruct o; cbn; rewrite ?release_bs; exact Y.
Qed.
