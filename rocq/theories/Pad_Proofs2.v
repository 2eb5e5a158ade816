(** Proofs about tablet pads: what the client sees *)
Require Import Coq.ZArith.ZArith Coq.QArith.QArith Coq.Lists.List Coq.Bool.Bool Coq.micromega.Lia Coq.micromega.Lqa Coq.Logic.FinFun.
Require Import Verif.Pad_Model Verif.Pad_Spec Verif.Pad_Proofs.
Import ListNotations.
Open Scope Z_scope.

Definition meqb (a b : mapping) : bool := match a, b with Unmapped, Unmapped => true | Button x, Button y | Key x, Key y => x =? y | _, _ => false end.
Lemma meqb_spec : forall a b, reflect (a = b) (meqb a b).
Proof. intros [|x|x] [|y|y]; cbn; try (constructor; congruence); destruct (Z.eqb_spec x y); constructor; congruence. Qed.
Definition updm (w : mapping -> bool) (x : mapping) (d : bool) : mapping -> bool := fun y => if meqb y x then d else w y.
Fixpoint pairedm (w : mapping -> bool) (l : list (mapping * bool)) : Prop := match l with [] => True | (x, d) :: l => w x = negb d /\ pairedm (updm w x d) l end.
Definition afterm (w : mapping -> bool) (l : list (mapping * bool)) : mapping -> bool := fold_left (fun w x => updm w (fst x) (snd x)) l w.
Lemma pairedm_ext : forall l w w', (forall x, w x = w' x) -> pairedm w l -> pairedm w' l.
Proof. induction l as [|[x d] l IH]; intros w w' E P; [exact I|]. destruct P as [P1 P2]. split; [rewrite <- E; exact P1|]. eapply IH; [|exact P2]. intros y. unfold updm. destruct (meqb y x); auto. Qed.
Lemma afterm_ext : forall l w w', (forall x, w x = w' x) -> forall x, afterm w l x = afterm w' l x.
Proof. induction l as [|[x d] l IH]; intros w w' E y; [apply E|]. apply IH. intros z. unfold updm. destruct (meqb z (fst (x, d))); auto. Qed.
Lemma pairedm_app : forall l l' w, pairedm w l -> pairedm (afterm w l) l' -> pairedm w (l ++ l').
Proof. induction l as [|[x d] l IH]; intros l' w A B; [exact B|]. destruct A as [A1 A2]. split; [exact A1|]. apply IH; assumption. Qed.
Lemma afterm_app : forall l l' w, afterm w (l ++ l') = afterm (afterm w l) l'.
Proof. intros. unfold afterm. apply fold_left_app. Qed.
Lemma paired_m : forall l b k w, (forall n, b n = w (Button n)) -> (forall n, k n = w (Key n)) -> pairedm w (flat_map ev_key l) -> paired b k l.
Proof.
  induction l as [|e l IH]; intros b k w B K P; [exact I|]. destruct e as [t n d md g|t n d|t n po md g|t n po md g]; cbn in *; try (eapply IH; eassumption).
  - destruct P as [P1 P2]. split; [rewrite B; exact P1|]. eapply IH; [| |exact P2].
    + intros x. unfold upd, updm. cbn. rewrite B. reflexivity.
    + intros x. unfold updm. cbn. apply K.
  - destruct P as [P1 P2]. split; [rewrite K; exact P1|]. eapply IH; [| |exact P2].
    + intros x. unfold updm. cbn. apply B.
    + intros x. unfold upd, updm. cbn. rewrite K. reflexivity.
Qed.
Lemma down_m : forall l w n, fold_left (fun b e => match e with PButton _ m d _ _ => if n =? m then d else b | _ => b end) l (w (Button n)) = afterm w (flat_map ev_key l) (Button n).
Proof. induction l as [|e l IH]; intros w n; [reflexivity|]. destruct e as [t x d md g|t x d|t x po md g|t x po md g]; cbn [flat_map ev_key app fold_left]; [exact (IH (updm w (Button x) d) n)|exact (IH (updm w (Key x) d) n)|apply IH|apply IH]. Qed.
Lemma keydown_m : forall l w n, fold_left (fun b e => match e with PKey _ m d => if n =? m then d else b | _ => b end) l (w (Key n)) = afterm w (flat_map ev_key l) (Key n).
Proof. induction l as [|e l IH]; intros w n; [reflexivity|]. destruct e as [t x d md g|t x d|t x po md g|t x po md g]; cbn [flat_map ev_key app fold_left]; [exact (IH (updm w (Button x) d) n)|exact (IH (updm w (Key x) d) n)|apply IH|apply IH]. Qed.

(** The buttons down according to [st] *)
Definition view (m : Z -> mapping) (st : Z -> bool) (x : mapping) : bool := match x with Unmapped => false | _ => existsb (fun c => st c && meqb (m c) x) codes end.
Lemma codes_nodup : NoDup codes.
Proof. unfold codes. apply FinFun.Injective_map_NoDup; [intros a b; lia|apply seq_NoDup]. Qed.
Lemma in_codes : forall c, In c codes <-> 0 <= c < 768.
Proof.
  intros c. unfold codes, KEY_CNT. rewrite in_map_iff. split.
  - intros (n & <- & H). apply in_seq in H. lia.
  - intros H. exists (Z.to_nat c). split; [lia|]. apply in_seq. lia.
Qed.
Lemma tl_codes : forall c, In c (tl codes) <-> 1 <= c < 768.
Proof.
  intros c. assert (E : tl codes = map Z.of_nat (seq 1 767)) by reflexivity. rewrite E, in_map_iff. split.
  - intros (n & <- & H). apply in_seq in H. lia.
  - intros H. exists (Z.to_nat c). split; [lia|]. apply in_seq. lia.
Qed.
Local Opaque codes.
Lemma view_ext : forall m st st' x, (forall c, In c codes -> m c <> Unmapped -> st c = st' c) -> view m st x = view m st' x.
Proof.
  intros m st st' x E. unfold view. destruct x; [reflexivity| |]; apply eq_true_iff_eq; rewrite !existsb_exists; split; intros (c & C & H); exists c; (split; [exact C|]); apply andb_true_iff in H; destruct H as [H1 H2];
    destruct (meqb_spec (m c) (Button n)) || destruct (meqb_spec (m c) (Key k)); try discriminate; rewrite andb_true_r; (rewrite <- E || rewrite E); auto; congruence.
Qed.
Lemma view_one : forall m st c x, map_inj m -> In c codes -> m c = x -> x <> Unmapped -> view m st x = st c.
Proof.
  intros m st c x [A B] C M N. assert (V : forall c', st c' && meqb (m c') x = true -> st c' = true /\ c' = c).
  { intros c' H. apply andb_true_iff in H. destruct H as [H1 H2]. destruct (meqb_spec (m c') x) as [E|]; [|discriminate]. split; [exact H1|]. destruct x; [congruence|eapply A; eauto|eapply B; eauto]. }
  destruct (st c) eqn:S.
  - unfold view. destruct x; [congruence| |]; apply existsb_exists; exists c; (split; [exact C|]); rewrite S, M; cbn; apply Z.eqb_refl.
  - unfold view. destruct x; [congruence| |]; apply not_true_is_false; intros H; apply existsb_exists in H; destruct H as (c' & _ & H); apply V in H; destruct H; congruence.
Qed.
Lemma view_upd : forall m st c x d, map_inj m -> In c codes -> m c = x -> x <> Unmapped -> forall y, view m (upd st c d) y = updm (view m st) x d y.
Proof.
  intros m st c x d MI C M N y. unfold updm. destruct (meqb_spec y x) as [->|Y].
  - rewrite (view_one m (upd st c d) c x MI C M N). unfold upd. rewrite Z.eqb_refl. reflexivity.
  - unfold view. destruct y; [reflexivity| |]; apply eq_true_iff_eq; rewrite !existsb_exists; split; intros (c' & C' & H); exists c'; (split; [exact C'|]); unfold upd in *; (destruct (Z.eqb_spec c' c) as [->|]; [|exact H]); exfalso; apply andb_true_iff in H; destruct H as [_ H];
      destruct (meqb_spec (m c) (Button n)) || destruct (meqb_spec (m c) (Key k)); congruence.
Qed.
Lemma pairs : forall m mask down cs st, map_inj m -> NoDup cs -> incl cs codes -> (forall c, In c cs -> mask c = true -> st c = negb down) ->
  pairedm (view m st) (flat_map (key_of m mask down) cs) /\
  forall st', (forall c, In c codes -> st' c = if mask c && existsb (Z.eqb c) cs then down else st c) -> forall x, afterm (view m st) (flat_map (key_of m mask down) cs) x = view m st' x.
Proof.
  intros m mask down. induction cs as [|c cs IH]; intros st MI ND IN H.
  - split; [exact I|]. intros st' S x. cbn. apply view_ext. intros c C _. rewrite S by exact C. cbn. rewrite andb_false_r. reflexivity.
  - cbn [flat_map]. apply NoDup_cons_iff in ND. destruct ND as [NI ND]. assert (INC : incl cs codes) by (intros z Z0; apply IN; right; exact Z0). unfold key_of at 1 3. destruct (mask c) eqn:MC; [destruct (m c) as [|n|k] eqn:M|].
    1,4: destruct (IH st MI ND INC (fun z Z0 => H z (or_intror Z0))) as [A B]; split; [exact A|]; intros st' S x; rewrite (B (fun z => if mask z && existsb (Z.eqb z) cs then down else st z)) by reflexivity; apply view_ext; intros z Z0 NM; rewrite S by exact Z0; cbn [existsb];
         destruct (Z.eqb_spec z c) as [->|]; [congruence || (rewrite MC; reflexivity)|reflexivity].
    all: assert (NU : m c <> Unmapped) by congruence; pose proof (view_upd m st c (m c) down MI (IN c (or_introl eq_refl)) eq_refl NU) as VU; rewrite M in VU;
         assert (H' : forall z, In z cs -> mask z = true -> upd st c down z = negb down) by (intros z Z0 MZ; unfold upd; destruct (Z.eqb_spec z c) as [->|]; [contradiction|apply H; [right; exact Z0|exact MZ]]);
         destruct (IH (upd st c down) MI ND INC H') as [A B].
    all: split; [cbn [app pairedm]; split; [rewrite <- M; rewrite (view_one m st c (m c) MI (IN c (or_introl eq_refl)) eq_refl NU); apply H; [left; reflexivity|exact MC]|eapply pairedm_ext; [exact VU|exact A]]|].
    all: intros st' S x; match goal with |- afterm _ ([?q] ++ ?L) x = _ => change (afterm (view m st) ([q] ++ L) x) with (afterm (updm (view m st) (fst q) (snd q)) L x); cbn [fst snd] end; rewrite (afterm_ext _ _ _ (fun y => eq_sym (VU y))); apply B; intros z Z0; rewrite S by exact Z0; cbn [existsb]; unfold upd; destruct (Z.eqb_spec z c) as [->|]; cbn; [rewrite MC; cbn; destruct (existsb (Z.eqb c) cs); reflexivity|reflexivity].
Qed.

(** ** One frame *)
Lemma put_axis_keys : forall lg d p e t l, notify_axes lg d p e t = Some l -> flat_map ev_key l = [].
Proof.
  intros lg d p e t l H. assert (A : forall a l, notify_axis lg d p e t a = Some l -> flat_map ev_key l = []).
  { intros a l0 X. unfold notify_axis in X. destruct (changed p a); [|injection X as <-; reflexivity]. destruct (has_abs d a); [|discriminate]. destruct (is_ring a); destruct (find _ _); try discriminate; injection X as <-; reflexivity. }
  unfold notify_axes, app_opt in H. destruct (notify_axis lg d p e t RING1) as [l1|] eqn:E1; [|discriminate]. destruct (notify_axis lg d p e t RING2) as [l2|] eqn:E2; [|discriminate]. destruct (notify_axis lg d p e t STRIP1) as [l3|] eqn:E3; [|discriminate]. destruct (notify_axis lg d p e t STRIP2) as [l4|] eqn:E4; [|discriminate].
  injection H as <-. rewrite !flat_map_app. apply A in E1, E2, E3, E4. rewrite E1, E2, E3, E4. reflexivity.
Qed.
Lemma axes_mode_ok : forall lg d p e t l, groups_ok (groups p) -> notify_axes lg d p e t = Some l -> Forall (mode_ok (groups p)) l.
Proof.
  intros lg d p e t l [_ GO] H. rewrite Forall_forall in GO. assert (A : forall a l, notify_axis lg d p e t a = Some l -> Forall (mode_ok (groups p)) l).
  { intros a l0 X. unfold notify_axis in X. destruct (changed p a); [|injection X as <-; constructor]. destruct (has_abs d a); [|discriminate]. destruct (is_ring a); destruct (find _ _) as [g|] eqn:F; try discriminate; injection X as <-; apply find_some in F; destruct F as [F _];
      (constructor; [|constructor]); exists g; (split; [exact F|]); (split; [reflexivity|]); apply GO, F. }
  unfold notify_axes, app_opt in H. destruct (notify_axis lg d p e t RING1) as [l1|] eqn:E1; [|discriminate]. destruct (notify_axis lg d p e t RING2) as [l2|] eqn:E2; [|discriminate]. destruct (notify_axis lg d p e t STRIP1) as [l3|] eqn:E3; [|discriminate]. destruct (notify_axis lg d p e t STRIP2) as [l4|] eqn:E4; [|discriminate].
  injection H as <-. rewrite !Forall_app. eauto 10.
Qed.
(** Between inputs *)
Record pad_ok (p : pad) : Prop := {
  k_map : map_good (bmap p) (nbuttons p); k_groups : groups_ok (groups p);
  k_rel : released_upd p = false -> forall c, prev p c = true -> bits p c = true; k_pr : pressed_upd p = false -> forall c, bits p c = true -> prev p c = true;
  k_ax : ax_upd p = false -> forall a, changed p a = false; k_mode : mode p = 0 \/ mode p = 1 }.
Definition same_device (p p' : pad) : Prop := bmap p' = bmap p /\ nbuttons p' = nbuttons p /\ map shape (groups p') = map shape (groups p) /\ mode p' = mode p /\ lh_want p' = lh_want p.
Lemma mode_ok_shape : forall gs gs' e, map shape gs' = map shape gs -> mode_ok gs' e -> mode_ok gs e.
Proof.
  intros gs gs' e S. assert (Q : forall g m, (exists x, In x gs' /\ gix x = g /\ 0 <= m < num_modes x) -> exists x, In x gs /\ gix x = g /\ 0 <= m < num_modes x).
  { intros g m (x & X & Y & Z0). apply (in_map shape) in X. rewrite S in X. apply in_map_iff in X. destruct X as (y & E & Y'). exists y. split; [exact Y'|]. injection E. intros. split; congruence. }
  destruct e; cbn; auto.
Qed.
Lemma flush_spec : forall lg d p e t p' l, pad_ok p -> flush lg d p e t = Some (p', l) ->
  pad_ok p' /\ same_device p p' /\ bits p' = bits p /\ prev p' = bits p /\ (forall a, changed p' a = false) /\ ax_upd p' = false /\ pressed_upd p' = false /\ released_upd p' = false /\
  pairedm (view (bmap p) (prev p)) (flat_map ev_key l) /\ (forall x, afterm (view (bmap p) (prev p)) (flat_map ev_key l) x = view (bmap p) (bits p) x) /\ Forall (mode_ok (groups p)) l /\
  (lh p' = lh p \/ (lh p' = lh_want p /\ any_down p = false)).
Proof.
  intros lg d p e t p' l [K1 K2 K3 K4 K5 K6] H. unfold flush in H. destruct (flush_axes lg d p e t) as [[p1 l1]|] eqn:F1; [|discriminate]. destruct (flush_released p1 e t) as [[p2 l2]|] eqn:F2; [|discriminate]. destruct (flush_pressed p2 e t) as [[p3 l3]|] eqn:F3; [|discriminate]. injection H as <- <-.
  assert (A : bits p1 = bits p /\ prev p1 = prev p /\ bmap p1 = bmap p /\ nbuttons p1 = nbuttons p /\ groups p1 = groups p /\ mode p1 = mode p /\ lh p1 = lh p /\ lh_want p1 = lh_want p /\ pressed_upd p1 = pressed_upd p /\ released_upd p1 = released_upd p /\ ax_upd p1 = false /\ (forall a, changed p1 a = false) /\ flat_map ev_key l1 = [] /\ Forall (mode_ok (groups p)) l1).
  { unfold flush_axes in F1. destruct (ax_upd p) eqn:AU; [|injection F1 as <- <-; repeat (split; auto)]. destruct (notify_axes lg d p e t) as [l0|] eqn:N; [|discriminate]. injection F1 as <- <-. cbn. pose proof (put_axis_keys _ _ _ _ _ _ N). pose proof (axes_mode_ok _ _ _ _ _ _ K2 N). repeat (split; auto). }
  destruct A as (A1 & A2 & A3 & A4 & A5 & A6 & A7 & A8 & A9 & A10 & A11 & A12 & A13 & A14). destruct K1 as (MI & M0 & NN & MB). pose proof codes_nodup as CN.
  assert (B : bits p2 = bits p /\ prev p2 = prev p /\ bmap p2 = bmap p /\ nbuttons p2 = nbuttons p /\ groups_ok (groups p2) /\ map shape (groups p2) = map shape (groups p) /\ mode p2 = mode p /\ (lh p2 = lh p \/ (lh p2 = lh_want p /\ any_down p = false)) /\ lh_want p2 = lh_want p
    /\ pressed_upd p2 = pressed_upd p /\ released_upd p2 = false /\ ax_upd p2 = false /\ (forall a, changed p2 a = false) /\ Forall (mode_ok (groups p)) l2 /\ pairedm (view (bmap p) (prev p)) (flat_map ev_key l2) /\ forall x, afterm (view (bmap p) (prev p)) (flat_map ev_key l2) x = view (bmap p) (fun c => prev p c && bits p c) x).
  { unfold flush_released in F2. destruct (released_upd p1) eqn:R.
    - destruct (notify_mask (nbuttons p1) (bmap p1) e t false (fun c => prev p1 c && negb (bits p1 c)) codes (groups p1)) as [[gs l0]|] eqn:N; [|discriminate]. injection F2 as <- <-. rewrite A5 in N. destruct (notify_mask_spec _ _ _ _ _ _ _ _ _ _ K2 N) as (N1 & N2 & N3 & N4 & _ & _).
      rewrite A1, A2, A3 in N3. destruct (pairs (bmap p) (fun c => prev p c && negb (bits p c)) false codes (prev p) MI CN (incl_refl _)) as [P1 P2]; [intros c _ X; apply andb_true_iff in X; apply X|].
      cbn [change_left_handed bits prev bmap nbuttons groups mode lh lh_want pressed_upd released_upd ax_upd changed]. rewrite N3. repeat (split; auto).
      + unfold any_down. cbn [bits]. rewrite A1, A7, A8. destruct (existsb (bits p) codes); auto.
      + intros x. apply P2. intros c C. assert (E : existsb (Z.eqb c) codes = true) by (apply existsb_exists; exists c; split; [exact C|apply Z.eqb_refl]). rewrite E, andb_true_r. destruct (prev p c), (bits p c); reflexivity.
    - injection F2 as <- <-. rewrite A5. repeat (split; auto). intros x. cbn. apply view_ext. intros c _ _. assert (X := K3 (eq_sym A10) c). destruct (prev p c); [rewrite X by reflexivity; reflexivity|reflexivity]. }
  destruct B as (B1 & B2 & B3 & B4 & B5 & B6 & B7 & B8 & B9 & B10 & B11 & B12 & B13 & B14 & B15 & B16).
  assert (C : bits p3 = bits p /\ bmap p3 = bmap p /\ nbuttons p3 = nbuttons p /\ groups_ok (groups p3) /\ map shape (groups p3) = map shape (groups p) /\ mode p3 = mode p /\ (lh p3 = lh p \/ (lh p3 = lh_want p /\ any_down p = false)) /\ lh_want p3 = lh_want p
    /\ pressed_upd p3 = false /\ released_upd p3 = false /\ ax_upd p3 = false /\ (forall a, changed p3 a = false) /\ Forall (mode_ok (groups p)) l3 /\ pairedm (view (bmap p) (fun c => prev p c && bits p c)) (flat_map ev_key l3) /\ forall x, afterm (view (bmap p) (fun c => prev p c && bits p c)) (flat_map ev_key l3) x = view (bmap p) (bits p) x).
  { unfold flush_pressed in F3. destruct (pressed_upd p2) eqn:R.
    - destruct (notify_mask (nbuttons p2) (bmap p2) e t true (fun c => bits p2 c && negb (prev p2 c)) codes (groups p2)) as [[gs l0]|] eqn:N; [|discriminate]. injection F3 as <- <-. destruct (notify_mask_spec _ _ _ _ _ _ _ _ _ _ B5 N) as (N1 & N2 & N3 & N4 & _ & _).
      rewrite B1, B2, B3 in N3. destruct (pairs (bmap p) (fun c => bits p c && negb (prev p c)) true codes (fun c => prev p c && bits p c) MI CN (incl_refl _)) as [P1 P2]; [intros c _ X; destruct (bits p c), (prev p c); auto; discriminate|].
      cbn [bits bmap nbuttons groups mode lh lh_want pressed_upd released_upd ax_upd changed]. rewrite N3. split; [exact B1|]. split; [exact B3|]. split; [exact B4|]. split; [exact N1|]. split; [congruence|]. split; [exact B7|]. split; [exact B8|]. split; [exact B9|]. split; [reflexivity|]. split; [exact B11|]. split; [exact B12|]. split; [exact B13|].
      split; [eapply Forall_impl; [|exact N4]; intros x; apply mode_ok_shape, B6|]. split; [exact P1|].
      intros x. apply P2. intros c C. assert (E : existsb (Z.eqb c) codes = true) by (apply existsb_exists; exists c; split; [exact C|apply Z.eqb_refl]). rewrite E, andb_true_r. destruct (prev p c), (bits p c); reflexivity.
    - injection F3 as <- <-. split; [exact B1|]. split; [exact B3|]. split; [exact B4|]. split; [exact B5|]. split; [exact B6|]. split; [exact B7|]. split; [exact B8|]. split; [exact B9|]. split; [exact R|]. split; [exact B11|]. split; [exact B12|]. split; [exact B13|]. split; [constructor|]. split; [exact I|].
      intros x. cbn. apply view_ext. intros c _ _. assert (X := K4 (eq_sym B10) c). destruct (bits p c); [rewrite X by reflexivity; reflexivity|apply andb_false_r]. }
  destruct C as (C1 & C2 & C3 & C4 & C5 & C6 & C7 & C8 & C9 & C10 & C11 & C12 & C13 & C14 & C15).
  split; [constructor; cbn [save_prev bmap nbuttons groups released_upd pressed_upd prev bits ax_upd changed mode]; rewrite ?C2, ?C3, ?C6; auto; repeat (split; auto)|].
  split; [repeat (split; auto)|]. cbn [save_prev bits prev changed ax_upd pressed_upd released_upd lh]. split; [exact C1|]. split; [exact C1|]. split; [exact C12|]. split; [exact C11|]. split; [exact C9|]. split; [exact C10|].
  rewrite !flat_map_app, A13. cbn [app]. split; [apply pairedm_app; [exact B15|eapply pairedm_ext; [intros; symmetry; apply B16|exact C14]]|]. split; [|split; [rewrite !Forall_app; auto|exact C7]].
  intros x. rewrite afterm_app. erewrite afterm_ext by (intros; apply B16). apply C15.
Qed.
