Require Import Coq.ZArith.ZArith Coq.QArith.QArith Coq.Lists.List Coq.Bool.Bool Coq.micromega.Lia.
Require Verif.Tp_Model.
Require Import Verif.Es_Model Verif.Es_Spec Verif.Es_Proofs Verif.Es_Proofs2.
Import ListNotations.
Open Scope Z_scope.

(** ** After a terminating event *)
Definition quiet (e : et) : Prop := (est e = E_NONE \/ est e = E_AREA) /\ dir e = None /\ er e = false /\ eb e = false.
Lemma quiet_post : forall p c e f t, quiet e -> post p c e f t = (e, []).
Proof. intros p c e f t (_ & D & R & B). unfold post. rewrite R, B, D. cbn. destruct (negb (dirty f) || bad f); reflexivity. Qed.
Lemma quiet_stop : forall e, quiet e -> stop e = (e, []).
Proof. intros e (_ & D & _). unfold stop. rewrite D. reflexivity. Qed.
Lemma quiet_handle : forall p c e f t, quiet e -> st f <> Tp_Model.BEGIN -> quiet (handle_state p c e f t).
Proof.
  intros p c e f t Q NB. pose proof Q as (E & D & R & B). assert (QN : quiet (to_none e)) by (split; [auto|cbn; auto]). assert (QW : quiet (with_est e E_NONE)) by (split; [auto|cbn; auto]).
  unfold handle_state. destruct (edge_on c); [destruct (dirty f); [|exact Q]|]; destruct (st f); try exact Q; try (exfalso; apply NB; reflexivity); try exact QW; unfold handle; destruct E as [-> | ->]; auto.
Qed.
Lemma quiet_step : forall p k c e i, quiet e -> ~ begins k i -> quiet (fst (tstep p k c e i)) /\ snd (tstep p k c e i) = [].
Proof.
  intros p k c e i Q NB. destruct i as [fs h t|j t| |m|b]; cbn [tstep].
  - destruct (nth_error fs k) as [f|] eqn:N; [|auto]. assert (NS : st f <> Tp_Model.BEGIN) by (intros X; apply NB; exists f; auto). pose proof (quiet_handle p c e f t Q NS) as Q1. unfold frame1. cbv zeta. set (e1 := handle_state p c e f t) in *. clearbody e1.
    destruct h; rewrite ?(quiet_stop e1 Q1), ?(quiet_post p c e1 f t Q1); auto.
  - destruct (Nat.eqb j k); [|auto]. cbn. split; [|reflexivity]. destruct Q as (E & D & R & B). unfold timer1. destruct (tmr e); [|repeat split; auto]. destruct (z <=? t); [|repeat split; auto]. unfold handle. cbn. destruct E as [E|E]; rewrite E; cbn; repeat split; auto.
  - rewrite quiet_stop by exact Q. auto.
  - destruct (smethod_eqb m (method c)); rewrite ?(quiet_stop e Q); auto.
  - auto.
Qed.
Lemma quiet_run : forall p k l c e, quiet e -> Forall (fun i => ~ begins k i) l -> snd (trun p k c e l) = [].
Proof.
  intros p k l. induction l as [|i l IH]; intros c e Q NB; [reflexivity|]. inversion NB; subst. cbn [trun]. destruct (quiet_step p k c e i Q H1) as [Q1 O]. destruct (tstep p k c e i) as [e1 o1]. cbn [fst snd] in *. specialize (IH (cstep c i) e1 Q1 H2). destruct (trun p k (cstep c i) e1 l) as [e2 o2]. cbn [snd] in *. subst. reflexivity.
Qed.
Lemma stop_quiet : forall e a v, In (a, v) (snd (stop e)) -> quiet (fst (stop e)).
Proof. intros e a v. unfold stop. destruct (dir e); [|intros []]. intros _. repeat split; cbn; auto. Qed.
Lemma zero_post : forall p c f e t a v, K c f e -> In (a, v) (snd (post p c e f t)) -> Qeq_bool v 0 = true -> quiet (fst (post p c e f t)).
Proof.
  intros p c f e t a v (K1 & K2 & K3 & K4 & K5) IN Z. unfold post in *. destruct (negb (dirty f) || bad f); [contradiction IN|]. match type of IN with context[if ?b then (e, []) else _] => destruct b end; [contradiction IN|].
  destruct (er e) eqn:R, (eb e) eqn:B; cbv zeta in *; [contradiction IN| | |].
  - match type of IN with context[Qeq_bool ?x 0] => set (n := x) in * end. destruct (Qeq_bool n 0) eqn:X; [contradiction IN|]. destruct IN as [IN|[]]. congruence.
  - match type of IN with context[Qeq_bool ?x 0] => set (n := x) in * end. destruct (Qeq_bool n 0) eqn:X; [contradiction IN|]. destruct IN as [IN|[]]. congruence.
  - destruct (dir e) as [d|]; [|contradiction IN]. destruct K5 as (_ & [(O & _)|[P _]]); [destruct d; destruct O; congruence|]. repeat split; cbn; auto.
Qed.
Lemma zero_step : forall p k c sil ph e i a v, JJ c sil ph e -> tlegal k sil ph i -> In (a, v) (snd (tstep p k c e i)) -> Qeq_bool v 0 = true -> quiet (fst (tstep p k c e i)).
Proof.
  intros p k c sil ph e i a v [HJ HS] L IN Z. destruct i as [fs h t|j t| |m|b]; cbn [tstep tlegal] in *.
  - destruct L as ((f & N & F) & S). rewrite N in *. pose proof (K_intro p c ph e f t HJ F) as HK. unfold frame1 in *. cbv zeta in *. set (e1 := handle_state p c e f t) in *. clearbody e1. destruct h.
    + eapply zero_post; eauto.
    + eapply stop_quiet; eauto.
    + pose proof (stop_quiet e1) as SQ. pose proof (stop_K c f e1 HK) as JS. destruct (stop_spec e1) as [D _]. assert (HK2 : K c f (fst (stop e1))) by (apply J_K; [exact JS|intros b Q; congruence]). destruct (stop e1) as [e2 o1]. cbn [fst snd] in *.
      pose proof (zero_post p c f e2 t a v HK2) as ZP. pose proof (fun Q => quiet_post p c e2 f t Q) as QP. destruct (post p c e2 f t) as [e3 o2]. cbn [fst snd] in *. apply in_app_iff in IN. destruct IN as [IN|IN]; [|auto]. specialize (SQ a v IN). specialize (QP SQ). injection QP as -> _. exact SQ.
    + contradiction IN.
  - destruct (Nat.eqb j k); contradiction IN.
  - eapply stop_quiet; eauto.
  - destruct (smethod_eqb m (method c)); [contradiction IN|eapply stop_quiet; eauto].
  - contradiction IN.
Qed.

(** ** Fingers that scroll *)
Definition armed (p : epad) (a : axis) (f0 : eft) (tm : option Z) (e : et) : Prop :=
  edge_of a e = true /\ (edge_of (other a) e = true -> in_edge p (other a) f0) /\ ((est e = E_NEW /\ x0 e = px f0 /\ y0 e = py f0 /\ tmr e = tm) \/ est e = E_EDGE).
Definition locked (a : axis) (e : et) : Prop := only_edge a e /\ est e = E_EDGE.
Definition at_edge (p : epad) (c : cfg) (a : axis) (f : eft) : bool := match a with VERTICAL => at_right p c (px f) | HORIZONTAL => at_bottom p c (py f) end.
Lemma at_edge_iff : forall p c a f, py f <= 2147483647 -> edge_on c = true -> (at_edge p c a f = true <-> in_edge p a f).
Proof.
  intros p c a f M E. destruct a; unfold at_edge, in_edge; split; intros H.
  - apply at_right_in in H. apply H.
  - unfold at_right. rewrite E. cbn. apply Z.ltb_lt. unfold right_edge. lia.
  - apply at_bottom_in in H; [|exact M]. apply H.
  - unfold at_bottom. rewrite E. cbn. apply Z.ltb_lt. unfold bottom_edge. destruct H as [H1 H2]. rewrite <- Z.leb_le, <- orb_true_iff in H2. rewrite H2. lia.
Qed.
Lemma narrow_edges : forall p c e f a, at_edge p c a f = true -> edge_of a e = true ->
  narrow p c e (px f) (py f) = {| est := est e; er := er e && at_right p c (px f); eb := eb e && at_bottom p c (py f); tmr := tmr e; x0 := x0 e; y0 := y0 e; dir := dir e |}.
Proof. intros p c e f a H E. unfold narrow. cbv zeta. destruct a; cbn in H, E; rewrite H, E; cbn; rewrite ?orb_true_r; reflexivity. Qed.
(** In a posted frame *)
Lemma locked_post : forall p c a e f t, py f <= 2147483647 -> edge_on c = true -> locked a e ->
  locked a (fst (post p c e f t)) /\ (dirty f = true -> bad f = false -> in_edge p a f -> Qeq_bool (value a f) 0 = false -> snd (post p c e f t) = [(a, value a f)]).
Proof.
  intros p c a e f t M EO [O E]. unfold post. destruct (negb (dirty f) || bad f) eqn:ND; [split; [split; assumption|intros D B; rewrite D, B in ND; discriminate ND]|].
  destruct ((er e || eb e) && negb (er e && at_right p c (px f) || eb e && at_bottom p c (py f))) eqn:OUT.
  - split; [split; assumption|]. intros _ _ IN _. apply (proj2 (at_edge_iff p c a f M EO)) in IN. destruct a; destruct O as [R B]; rewrite R, B in OUT; cbn in *; rewrite IN in OUT; discriminate OUT.
  - destruct a; destruct O as [R B]; rewrite R, B; cbv zeta; rewrite E.
    + destruct (Qeq_bool (ny f) 0) eqn:Z; cbn [fst snd]; [split; [split; [split|]; assumption|intros _ _ _ Q; cbn in Q; congruence]|]. split; [|intros; reflexivity]. destruct (posted_spec p c (Some VERTICAL) e (px f) (py f) t) as (P1 & P2 & _ & P4). split; [split; congruence|rewrite P4, E; reflexivity].
    + destruct (Qeq_bool (nx f) 0) eqn:Z; cbn [fst snd]; [split; [split; [split|]; assumption|intros _ _ _ Q; cbn in Q; congruence]|]. split; [|intros; reflexivity]. destruct (posted_spec p c (Some HORIZONTAL) e (px f) (py f) t) as (P1 & P2 & _ & P4). split; [split; congruence|rewrite P4, E; reflexivity].
Qed.
Lemma armed_post : forall p c a f0 tm e f t, py f <= 2147483647 -> edge_on c = true -> armed p a f0 tm e ->
  armed p a f0 tm (fst (post p c e f t)) /\
  (dirty f = true -> bad f = false -> in_edge p a f -> edge_of (other a) e = false -> Qeq_bool (value a f) 0 = false -> three_mm p a <= Z.abs (along a f - along a f0) -> snd (post p c e f t) = [(a, value a f)] /\ locked a (fst (post p c e f t))).
Proof.
  intros p c a f0 tm e f t M EO (A1 & A2 & A3). unfold post. destruct (negb (dirty f) || bad f) eqn:ND; [split; [split; auto|intros D B; rewrite D, B in ND; discriminate ND]|].
  destruct ((er e || eb e) && negb (er e && at_right p c (px f) || eb e && at_bottom p c (py f))) eqn:OUT.
  - split; [split; auto|]. intros _ _ IN OT _ _. apply (proj2 (at_edge_iff p c a f M EO)) in IN. destruct a; cbn in A1, OT, IN; rewrite A1, OT, IN in OUT; discriminate OUT.
  - assert (KEEP : armed p a f0 tm e) by (split; auto).
    assert (PK : forall x, armed p a f0 tm (handle p c (with_dir e x) E_POSTED (px f) (py f) t)).
    { intros x. destruct (posted_spec p c x e (px f) (py f) t) as (P1 & P2 & P3 & P4). set (e' := handle p c (with_dir e x) E_POSTED (px f) (py f) t) in *. unfold armed. assert (EQ : forall b, edge_of b e' = edge_of b e) by (intros []; assumption). rewrite !EQ. split; [exact A1|]. split; [exact A2|]. right. rewrite P4. destruct A3 as [[-> _]| ->]; reflexivity. }
    destruct a; unfold edge_of, other, value, three_mm, along in A1 |- *; rewrite A1; cbv zeta.
    + destruct (eb e) eqn:B; cbv zeta; [split; [exact KEEP|discriminate]|]. match goal with |- context[Qeq_bool ?x 0] => set (n := x) in * end. split; [destruct (Qeq_bool n 0); [exact KEEP|apply PK]|]. intros _ _ _ _ Z3 MM. assert (n = ny f) as ->.
      { unfold n. destruct (est e) eqn:E; try reflexivity. destruct A3 as [(_ & X & Y & _)|X]; [|discriminate X]. rewrite Y. replace (Z.abs (py f - py f0) <? 3 * resy p) with false by (symmetry; apply Z.ltb_ge; exact MM). reflexivity. }
      rewrite Z3. cbn [snd fst]. split; [reflexivity|]. destruct (posted_spec p c (Some VERTICAL) e (px f) (py f) t) as (P1 & P2 & P3 & P4). split; [split; congruence|]. rewrite P4. destruct A3 as [[-> _]| ->]; reflexivity.
    + destruct (er e) eqn:R; cbv zeta; [split; [exact KEEP|discriminate]|]. match goal with |- context[Qeq_bool ?x 0] => set (n := x) in * end. split; [destruct (Qeq_bool n 0); [exact KEEP|apply PK]|]. intros _ _ _ _ Z3 MM. assert (n = nx f) as ->.
      { unfold n. destruct (est e) eqn:E; try reflexivity. destruct A3 as [(_ & X & Y & _)|X]; [|discriminate X]. rewrite X. replace (Z.abs (px f - px f0) <? 3 * resx p) with false by (symmetry; apply Z.ltb_ge; exact MM). reflexivity. }
      rewrite Z3. cbn [snd fst]. split; [reflexivity|]. destruct (posted_spec p c (Some HORIZONTAL) e (px f) (py f) t) as (P1 & P2 & P3 & P4). split; [split; congruence|]. rewrite P4. destruct A3 as [[-> _]| ->]; reflexivity.
Qed.
Lemma locked_handle : forall p c a e f t, locked a e -> st f = Tp_Model.UPDATE -> locked a (handle_state p c e f t).
Proof.
  intros p c a e f t [O E] S. unfold handle_state. rewrite S. destruct (edge_on c), (dirty f); try (split; assumption). unfold handle. rewrite E. destruct a; destruct O as [R B]; rewrite R, B; cbn; split; try split; assumption.
Qed.
Lemma armed_handle : forall p c a f0 tm e f t, py f <= 2147483647 -> edge_on c = true -> armed p a f0 tm e -> st f = Tp_Model.UPDATE -> (dirty f = true -> in_edge p a f) ->
  armed p a f0 tm (handle_state p c e f t) /\ (dirty f = true -> ~ in_edge p (other a) f -> edge_of (other a) (handle_state p c e f t) = false).
Proof.
  intros p c a f0 tm e f t M EO (A1 & A2 & A3) S IN. unfold handle_state. rewrite EO, S. destruct (dirty f) eqn:D; [|split; [split; auto|discriminate]]. specialize (IN eq_refl). apply (proj2 (at_edge_iff p c a f M EO)) in IN.
  assert (NA : ~ in_edge p (other a) f -> at_edge p c (other a) f = false) by (intros Q; destruct (at_edge p c (other a) f) eqn:X; [exfalso; apply Q, (at_edge_iff p c _ f M EO), X|reflexivity]).
  assert (NW : armed p a f0 tm (narrow p c e (px f) (py f)) /\ (true = true -> ~ in_edge p (other a) f -> edge_of (other a) (narrow p c e (px f) (py f)) = false)).
  { rewrite (narrow_edges p c e f a IN A1). split.
    - split; [|split; [|cbn; auto]]; [destruct a; cbn in *; rewrite A1, IN; reflexivity|]. destruct a; cbn in *; intros Q; apply andb_true_iff in Q; destruct Q as [Q _]; auto.
    - intros _ Q. specialize (NA Q). destruct a; cbn in *; rewrite NA; apply andb_false_r. }
  unfold handle. destruct A3 as [(E & X & Y & T)|E]; rewrite E; [exact NW|]. destruct (er e && eb e) eqn:RB; [exact NW|]. split; [split; auto|]. intros _ _. destruct a; cbn in *; rewrite A1 in RB; cbn in RB; rewrite ?andb_true_r in RB; exact RB.
Qed.

(** ** Runs *)
Lemma und_phase : forall k sil p0 x, tlegal k sil (Some p0) x -> undisturbed k x -> tphase k (Some p0) x = Some p0 /\ forall c, edge_on (cstep c x) = edge_on c.
Proof.
  intros k sil p0 x L U. destruct x as [fs h t|j t| |m|b]; cbn in *; try (split; [reflexivity|intros c; reflexivity]); [|discriminate L].
  destruct L as ((f & N & F) & _), U as (_ & f' & N' & S). rewrite N in N'. injection N' as <-. rewrite N. unfold follows in F. rewrite S in F. destruct F as [_ F]. unfold phase. rewrite S. auto.
Qed.
Lemma armed_step : forall p k c sil p0 a f0 tm e x, tlegal k sil (Some p0) x -> undisturbed k x -> edge_on c = true -> armed p a f0 tm e -> (forall f, frame_of k x = Some f -> dirty f = true -> in_edge p a f) ->
  armed p a f0 tm (fst (tstep p k c e x)).
Proof.
  intros p k c sil p0 a f0 tm e x L U EO A S. destruct x as [fs h t|j t| |m|b]; cbn [tstep] in *.
  - cbn in L, U, S. destruct L as ((f & N & F) & _), U as (-> & f' & N' & ST). rewrite N in N'. injection N' as <-. rewrite N. cbn [frame1]. apply armed_post; [apply F|exact EO|]. apply armed_handle; auto. apply F.
  - destruct (Nat.eqb j k); [|exact A]. cbn. destruct A as (A1 & A2 & A3). unfold timer1. destruct (tmr e) as [z|] eqn:T; [|split; auto; rewrite T; auto]. destruct (z <=? t); [|split; auto; rewrite T; auto]. unfold handle. cbn. destruct A3 as [(E & X & Y & _)|E]; rewrite E; cbn; split; [destruct a; exact A1|split; [destruct a; exact A2|auto]|destruct a; exact A1|split; [destruct a; exact A2|auto]].
  - contradiction U.
  - discriminate L.
  - exact A.
Qed.
Lemma locked_step : forall p k c sil p0 a e x, tlegal k sil (Some p0) x -> undisturbed k x -> edge_on c = true -> locked a e -> locked a (fst (tstep p k c e x)).
Proof.
  intros p k c sil p0 a e x L U EO A. destruct x as [fs h t|j t| |m|b]; cbn [tstep] in *.
  - cbn in L, U. destruct L as ((f & N & F) & _), U as (-> & f' & N' & ST). rewrite N in N'. injection N' as <-. rewrite N. cbn [frame1]. apply locked_post; [apply F|exact EO|]. apply locked_handle; auto.
  - destruct (Nat.eqb j k); [|exact A]. cbn. destruct A as (O & E). unfold timer1. destruct (tmr e) as [z|] eqn:T; [|split; assumption]. destruct (z <=? t); [|split; assumption]. unfold handle. cbn. rewrite E. split; [destruct a; exact O|reflexivity].
  - contradiction U.
  - discriminate L.
  - exact A.
Qed.
Lemma phases_app : forall a b ph sil, phases_run ph sil (a ++ b) = phases_run (fst (phases_run ph sil a)) (snd (phases_run ph sil a)) b.
Proof. induction a as [|x a IH]; intros; cbn; [reflexivity|apply IH]. Qed.
Lemma tphase_run : forall k x sil ph p0 l, legal sil ph (x :: l) -> nth_error ph k = Some p0 ->
  tlegal k sil p0 x /\ legal (lastsil x sil) (match x with EFrame fs _ _ => map phase fs | _ => ph end) l /\ nth_error (match x with EFrame fs _ _ => map phase fs | _ => ph end) k = Some (tphase k p0 x).
Proof.
  intros k x sil ph p0 l L N. destruct (tlegal_of k l sil ph x p0 L N) as (TL & _). split; [exact TL|]. destruct x as [fs h t|j t| |m|b]; cbn in *; auto.
  - destruct L as (_ & _ & L). split; [exact L|]. destruct TL as ((f & N' & _) & _). rewrite nth_error_map, N'. reflexivity.
  - destruct L. auto.
Qed.
Lemma armed_run : forall p k a f0 tm w c sil ph p0 e rest, legal sil ph (w ++ rest) -> nth_error ph k = Some (Some p0) -> Forall (undisturbed k) w -> stays_in_edge p a k w -> edge_on c = true -> armed p a f0 tm e ->
  armed p a f0 tm (fst (trun p k c e w)) /\ edge_on (fold_left cstep w c) = true /\ exists sil' ph', legal sil' ph' rest /\ nth_error ph' k = Some (Some p0).
Proof.
  intros p k a f0 tm w. induction w as [|x w IH]; intros c sil ph p0 e rest L N U S EO A; [split; [exact A|]; split; [exact EO|]; exists sil, ph; auto|].
  inversion U as [|? ? U1 U2]; subst. inversion S as [|? ? S1 S2]; subst. cbn [app] in L. destruct (tphase_run k x sil ph (Some p0) _ L N) as (TL & L' & N'). destruct (und_phase k sil p0 x TL U1) as [P1 P2]. rewrite P1 in N'.
  pose proof (armed_step p k c sil p0 a f0 tm e x TL U1 EO A S1) as A'. cbn [trun fold_left]. destruct (tstep p k c e x) as [e1 o1]. cbn [fst] in A'. specialize (P2 c). rewrite EO in P2. destruct (IH (cstep c x) _ _ p0 e1 rest L' N' U2 S2 P2 A') as (I1 & I2 & I3). destruct (trun p k (cstep c x) e1 w) as [e2 o2]. cbn [fst] in *. auto.
Qed.
Lemma locked_run : forall p k a w c sil ph p0 e rest, legal sil ph (w ++ rest) -> nth_error ph k = Some (Some p0) -> Forall (undisturbed k) w -> edge_on c = true -> locked a e ->
  locked a (fst (trun p k c e w)) /\ edge_on (fold_left cstep w c) = true /\ exists sil' ph', legal sil' ph' rest /\ nth_error ph' k = Some (Some p0).
Proof.
  intros p k a w. induction w as [|x w IH]; intros c sil ph p0 e rest L N U EO A; [split; [exact A|]; split; [exact EO|]; exists sil, ph; auto|].
  inversion U as [|? ? U1 U2]; subst. cbn [app] in L. destruct (tphase_run k x sil ph (Some p0) _ L N) as (TL & L' & N'). destruct (und_phase k sil p0 x TL U1) as [P1 P2]. rewrite P1 in N'.
  pose proof (locked_step p k c sil p0 a e x TL U1 EO A) as A'. cbn [trun fold_left]. destruct (tstep p k c e x) as [e1 o1]. cbn [fst] in A'. specialize (P2 c). rewrite EO in P2. destruct (IH (cstep c x) _ _ p0 e1 rest L' N' U2 P2 A') as (I1 & I2 & I3). destruct (trun p k (cstep c x) e1 w) as [e2 o2]. cbn [fst] in *. auto.
Qed.
(** Lifted touches are at rest, if they are lifted cleanly *)
Lemma clean_step : forall p k c sil ph e x, JJ c sil ph e -> tlegal k sil ph x -> lifts_cleanly k x -> (ph = None -> est e = E_NONE) -> (tphase k ph x = None -> est (fst (tstep p k c e x)) = E_NONE).
Proof.
  intros p k c sil ph e x [HJ HS] L C IH T. assert (DN : ph = None -> dir e = None) by (intros ->; destruct HJ as (_ & _ & _ & _ & J5); destruct (dir e); [destruct J5 as (_ & X & _); discriminate X|reflexivity]).
  destruct x as [fs h t|j t| |m|b]; cbn [tstep tlegal tphase] in *.
  - destruct L as ((f & N & F) & S). cbn in C. specialize (C f N). rewrite N in *. destruct F as [_ F]. unfold phase in T.
    assert (E1 : est (handle_state p c e f t) = E_NONE /\ (dir e = None \/ h = Posted \/ h = Silent)).
    { unfold handle_state. destruct (st f) eqn:ST; try discriminate T; try contradiction; try (specialize (IH F); split; [destruct (edge_on c), (dirty f); exact IH|auto]).
      - destruct F as [_ D]. rewrite D. split; [|auto]. destruct (edge_on c); [|reflexivity]. unfold handle. destruct (est e) eqn:E; try reflexivity. exact E. }
    destruct E1 as [E1 E2]. pose proof (handle_state_dir p c e f t) as HD. unfold frame1. cbv zeta. set (e1 := handle_state p c e f t) in *. clearbody e1.
    assert (PE : forall e2, est e2 = E_NONE -> est (fst (post p c e2 f t)) = E_NONE).
    { intros e2 X. unfold post. destruct (negb (dirty f) || bad f); [exact X|]. match goal with |- context[if ?b then (e2, []) else _] => destruct b end; [exact X|]. destruct (er e2), (eb e2); cbv zeta; try exact X; try (destruct (dir e2); exact X);
      match goal with |- context[Qeq_bool ?x 0] => destruct (Qeq_bool x 0) end; try exact X; cbn [fst]; unfold handle; cbn; rewrite X; exact X. }
    destruct h; auto.
    + destruct E2 as [E2|[E2|E2]]; try discriminate E2. unfold stop. rewrite HD, E2. exact E1.
    + destruct E2 as [E2|[E2|E2]]; try discriminate E2. unfold stop. rewrite HD, E2. cbn. specialize (PE e1 E1). destruct (post p c e1 f t). exact PE.
  - specialize (IH T). destruct (Nat.eqb j k); [|exact IH]. cbn. unfold timer1. destruct (tmr e); [|exact IH]. destruct (z <=? t); [|exact IH]. unfold handle. cbn. rewrite IH. reflexivity.
  - unfold stop. rewrite (DN T). exact (IH T).
  - destruct (smethod_eqb m (method c)); [exact (IH T)|]. unfold stop. rewrite (DN T). exact (IH T).
  - exact (IH T).
Qed.
Lemma clean_run : forall p k l c sil ph p0 e rest, JJ c sil p0 e -> legal sil ph (l ++ rest) -> nth_error ph k = Some p0 -> Forall (lifts_cleanly k) l -> (p0 = None -> est e = E_NONE) ->
  exists sil' ph' p1, legal sil' ph' rest /\ nth_error ph' k = Some p1 /\ JJ (fold_left cstep l c) sil' p1 (fst (trun p k c e l)) /\ (p1 = None -> est (fst (trun p k c e l)) = E_NONE).
Proof.
  intros p k l. induction l as [|x l IH]; intros c sil ph p0 e rest HJ L N C H0; [exists sil, ph, p0; auto|].
  inversion C as [|? ? C1 C2]; subst. cbn [app] in L. destruct (tphase_run k x sil ph p0 _ L N) as (TL & L' & N'). destruct (tstep_JJ p k c sil p0 e x HJ TL) as [HJ' _]. pose proof (clean_step p k c sil p0 e x HJ TL C1 H0) as H1. cbn [trun fold_left]. destruct (tstep p k c e x) as [e1 o1]. cbn [fst] in *.
  destruct (IH (cstep c x) _ _ _ e1 rest HJ' L' N' C2 H1) as (sil' & ph' & p1 & A & B & D & E). exists sil', ph', p1. destruct (trun p k (cstep c x) e1 l). auto.
Qed.
(** The finger is put down in the edge *)
Lemma begin_armed : forall p k c sil ph e fs h t f a, JJ c sil ph e -> tlegal k sil ph (EFrame fs h t) -> (ph = None -> est e = E_NONE) -> edge_on c = true -> nth_error fs k = Some f -> st f = Tp_Model.BEGIN -> in_edge p a f ->
  armed p a f (if btn_areas c then None else Some (t + 300000)) (fst (tstep p k c e (EFrame fs h t))).
Proof.
  intros p k c sil ph e fs h t f a [HJ HS] L H0 EO N S IN. cbn [tstep tlegal] in *. destruct L as ((f' & N' & F) & _). rewrite N in N'. injection N' as <-. rewrite N. unfold follows in F. rewrite S in F. destruct F as (M & -> & D). specialize (H0 eq_refl).
  assert (DN : dir e = None) by (destruct HJ as (_ & _ & _ & _ & J5); destruct (dir e); [destruct J5 as (_ & X & _); discriminate X|reflexivity]).
  assert (A1 : armed p a f (if btn_areas c then None else Some (t + 300000)) (handle_state p c e f t)).
  { unfold handle_state. rewrite EO, D, S. unfold handle. rewrite H0. pose proof IN as AE. apply (proj2 (at_edge_iff p c a f M EO)) in AE. replace (at_right p c (px f) || at_bottom p c (py f)) with true by (destruct a; cbn in AE; rewrite AE, ?orb_true_r; reflexivity).
    split; [destruct a; exact AE|]. split; [|left; cbn; auto]. intros Q. apply (at_edge_iff p c (other a) f M EO). destruct a; exact Q. }
  unfold frame1. cbv zeta. pose proof (handle_state_dir p c e f t) as HD. rewrite DN in HD. set (e1 := handle_state p c e f t) in *. clearbody e1. destruct h.
  - apply armed_post; assumption.
  - unfold stop. rewrite HD. exact A1.
  - unfold stop. rewrite HD. pose proof (armed_post p c a f _ e1 f t M EO A1) as [P _]. destruct (post p c e1 f t). exact P.
  - exact A1.
Qed.
Lemma trun_snoc : forall p k c e l i, trun p k c e (l ++ [i]) = (fst (tstep p k (fold_left cstep l c) (fst (trun p k c e l)) i), snd (trun p k c e l) ++ snd (tstep p k (fold_left cstep l c) (fst (trun p k c e l)) i)).
Proof. intros. rewrite trun_app. destruct (trun p k c e l) as [e1 o1]. cbn [trun fst snd]. destruct (tstep p k (fold_left cstep l c) e1 i) as [e2 o2]. rewrite app_nil_r. reflexivity. Qed.
