(** Proofs about tablet pads: runs *)
Require Import Coq.ZArith.ZArith Coq.QArith.QArith Coq.Lists.List Coq.Bool.Bool Coq.micromega.Lia Coq.micromega.Lqa.
Require Import Verif.Pad_Model Verif.Pad_Spec Verif.Pad_Proofs Verif.Pad_Proofs2.
Import ListNotations.
Open Scope Z_scope.
Local Opaque codes.

(** ** Every input keeps the invariant *)
Lemma set_down_ok : forall p c b, pad_ok p -> pad_ok (set_down p c b).
Proof.
  intros p c b [K1 K2 K3 K4 K5 K6]. constructor; cbn [set_down bmap nbuttons groups released_upd pressed_upd prev bits ax_upd changed mode]; auto; unfold upd.
  - destruct b; [|discriminate]. intros R x X. destruct (x =? c); auto.
  - destruct b; [discriminate|]. intros R x X. destruct (x =? c); [discriminate|auto].
Qed.
Lemma release_ok : forall cs p, pad_ok p -> let p' := fold_left (fun p c => if bits p c then set_down p c false else p) cs p in
  pad_ok p' /\ same_device p p' /\ prev p' = prev p /\ groups p' = groups p /\ changed p' = changed p /\ ax_upd p' = ax_upd p /\ misc_term p' = misc_term p /\ lh p' = lh p /\ forall c, bits p' c = if existsb (Z.eqb c) cs then false else bits p c.
Proof.
  induction cs as [|c cs IH]; intros p K; cbn [fold_left].
  - repeat (split; auto).
  - assert (Q : pad_ok (if bits p c then set_down p c false else p)) by (destruct (bits p c); [apply set_down_ok|]; exact K). destruct (IH _ Q) as (A & B & C & D & E & F & G & H & J). split; [exact A|].
    split; [destruct B as (B1 & B2 & B3 & B4 & B5); repeat split; [rewrite B1|rewrite B2|rewrite B3|rewrite B4|rewrite B5]; destruct (bits p c); reflexivity|].
    split; [rewrite C; destruct (bits p c); reflexivity|]. split; [rewrite D; destruct (bits p c); reflexivity|]. split; [rewrite E; destruct (bits p c); reflexivity|]. split; [rewrite F; destruct (bits p c); reflexivity|]. split; [rewrite G; destruct (bits p c); reflexivity|]. split; [rewrite H; destruct (bits p c); reflexivity|].
    intros x. rewrite J. cbn [existsb]. destruct (existsb (Z.eqb x) cs); [destruct (x =? c); reflexivity|]. destruct (Z.eqb_spec x c) as [->|N]; cbn [orb].
    + destruct (bits p c) eqn:Bc; [cbn [set_down bits]; unfold upd; rewrite Z.eqb_refl; reflexivity|exact Bc].
    + destruct (bits p c); [cbn [set_down bits]; unfold upd; destruct (Z.eqb_spec x c); [contradiction|reflexivity]|reflexivity].
Qed.
(** What one input does *)
Definition flushes (p : pad) (i : pinput) : bool := match i with Syn _ _ | Suspend _ _ => true | SetMode m _ _ => (Z.land get_modes m =? m) && negb (m =? mode p) && negb (m =? 0) | _ => false end.
Definition quiet (p p' : pad) : Prop := prev p' = prev p /\ map shape (groups p') = map shape (groups p) /\ bmap p' = bmap p /\ nbuttons p' = nbuttons p.
Definition next_bits (p : pad) (i : pinput) : Z -> bool :=
  match i with KeyEv c v => if v =? 2 then bits p else upd (bits p) c (negb (v =? 0)) | Suspend _ _ => fun c => if existsb (Z.eqb c) (tl codes) then false else bits p c
  | SetMode _ _ _ => if flushes p i then fun c => if existsb (Z.eqb c) (tl codes) then false else bits p c else bits p | _ => bits p end.
Definition next_mode (p : pad) (i : pinput) : Z := match i with SetMode m _ _ => if Z.land get_modes m =? m then m else mode p | _ => mode p end.
Lemma land1 : forall m, Z.land get_modes m = m -> m = 0 \/ m = 1.
Proof. intros m H. unfold get_modes in H. assert (X : 0 <= Z.land 1 m) by (apply Z.land_nonneg; lia). assert (Y : Z.land 1 m = m mod 2) by (rewrite Z.land_comm; apply (Z.land_ones m 1); lia). assert (Z0 := Z.mod_pos_bound m 2). lia. Qed.
Lemma with_mode_ok : forall p m, m = 0 \/ m = 1 -> pad_ok p -> pad_ok (with_mode p m).
Proof. intros p m M [K1 K2 K3 K4 K5 K6]. constructor; auto. Qed.
Lemma step_spec : forall lg d p i p' o, pad_ok p -> pstep lg d p i = Some (p', o) ->
  pad_ok p' /\ bmap p' = bmap p /\ nbuttons p' = nbuttons p /\ map shape (groups p') = map shape (groups p) /\ (forall c, bits p' c = next_bits p i c) /\ mode p' = next_mode p i /\
  pairedm (view (bmap p) (prev p)) (flat_map ev_key o) /\ (forall x, afterm (view (bmap p) (prev p)) (flat_map ev_key o) x = view (bmap p) (prev p') x) /\
  (if flushes p i then forall c, prev p' c = bits p' c else prev p' = prev p /\ o = [] /\ groups p' = groups p).
Proof.
  intros lg d p i p' o K H.
  assert (S : forall e t q r, suspend lg d p e t = Some (q, r) -> pad_ok q /\ bmap q = bmap p /\ nbuttons q = nbuttons p /\ map shape (groups q) = map shape (groups p) /\ (forall c, bits q c = if existsb (Z.eqb c) (tl codes) then false else bits p c) /\ mode q = mode p /\
     pairedm (view (bmap p) (prev p)) (flat_map ev_key r) /\ (forall x, afterm (view (bmap p) (prev p)) (flat_map ev_key r) x = view (bmap p) (prev q) x) /\ forall c, prev q c = bits q c).
  { intros e t q r X. unfold suspend in X. destruct (release_ok (tl codes) p K) as (A & (B1 & B2 & B3 & B4 & B5) & C & D & E & F & G & H1 & J). destruct (flush_spec _ _ _ _ _ _ _ A X) as (F1 & (F2 & F3 & F4 & F5 & F6) & F7 & F8 & F9 & F10 & F11 & F12 & F13 & F14 & F15 & F16).
    rewrite B1, C in F13, F14. split; [exact F1|]. split; [congruence|]. split; [congruence|]. split; [congruence|]. split; [intros c; rewrite F7; apply J|]. split; [congruence|]. split; [exact F13|]. split; [intros x; rewrite F14, F8; reflexivity|]. intros c. rewrite F7, F8. reflexivity. }
  assert (T : forall q, pad_ok q -> bmap q = bmap p -> nbuttons q = nbuttons p -> groups q = groups p -> prev q = prev p -> mode q = next_mode p i -> (forall c, bits q c = next_bits p i c) -> flushes p i = false -> q = p' -> o = [] ->
    pad_ok p' /\ bmap p' = bmap p /\ nbuttons p' = nbuttons p /\ map shape (groups p') = map shape (groups p) /\ (forall c, bits p' c = next_bits p i c) /\ mode p' = next_mode p i /\
    pairedm (view (bmap p) (prev p)) (flat_map ev_key o) /\ (forall x, afterm (view (bmap p) (prev p)) (flat_map ev_key o) x = view (bmap p) (prev p') x) /\ (if flushes p i then forall c, prev p' c = bits p' c else prev p' = prev p /\ o = [] /\ groups p' = groups p)).
  { intros q Q1 Q2 Q3 Q4 Q5 Q6 Q7 Q8 <- ->. rewrite Q8, Q4. split; [exact Q1|]. split; [exact Q2|]. split; [exact Q3|]. split; [reflexivity|]. split; [exact Q7|]. split; [exact Q6|]. split; [exact I|]. split; [intros x; rewrite Q5; reflexivity|auto]. }
  destruct K as [K1 K2 K3 K4 K5 K6] eqn:KE. clear KE. destruct i as [a| | |c v|e t|e t|m e t|b]; cbn [pstep] in H.
  - injection H as E1 E2. refine (T _ _ _ _ _ _ _ _ _ E1 (eq_sym E2)); try reflexivity. constructor; auto; discriminate.
  - injection H as E1 E2. refine (T _ _ _ _ _ _ _ _ _ E1 (eq_sym E2)); try reflexivity. constructor; auto.
  - injection H as E1 E2. refine (T _ _ _ _ _ _ _ _ _ E1 (eq_sym E2)); try reflexivity. exact K.
  - injection H as E1 E2. unfold process_key in E1. destruct (v =? 2) eqn:V; refine (T _ _ _ _ _ _ _ _ _ E1 (eq_sym E2)); try reflexivity; try (intros x; cbn [next_bits]; rewrite V; reflexivity); [exact K|apply set_down_ok, K].
  - destruct (flush_spec _ _ _ _ _ _ _ K H) as (F1 & (F2 & F3 & F4 & F5 & F6) & F7 & F8 & F9 & F10 & F11 & F12 & F13 & F14 & F15 & F16). cbn [flushes next_bits next_mode]. repeat (split; auto); try (intros; congruence).
  - destruct (S e t p' o H) as (S1 & S2 & S3 & S4 & S5 & S6 & S7 & S8 & S9). cbn [flushes next_bits next_mode]. repeat (split; auto).
  - unfold set_mode in H. destruct (Z.eqb_spec (Z.land get_modes m) m) as [L|L]; cbn [negb] in H.
    + assert (LB : (Z.land get_modes m =? m) = true) by (apply Z.eqb_eq; exact L). assert (M := land1 m L). destruct (m =? mode p) eqn:MM.
      * injection H as E1 E2. apply Z.eqb_eq in MM. assert (FL : flushes p (SetMode m e t) = false) by (cbn [flushes]; rewrite LB; destruct (Z.eqb_spec m (mode p)); [reflexivity|congruence]).
        refine (T _ _ _ _ _ _ _ _ _ E1 (eq_sym E2)); try reflexivity; auto; [cbn [next_mode]; rewrite LB; auto|intros x; unfold next_bits; rewrite FL; reflexivity].
      * destruct (Z.eqb_spec m 0) as [M0|M0].
        -- injection H as E1 E2. assert (FL : flushes p (SetMode m e t) = false) by (cbn [flushes]; rewrite LB, MM, M0; reflexivity). refine (T _ _ _ _ _ _ _ _ _ E1 (eq_sym E2)); try reflexivity; auto; [apply with_mode_ok; assumption|cbn [next_mode]; rewrite LB; auto|intros x; unfold next_bits; rewrite FL; reflexivity].
        -- destruct (suspend lg d p e t) as [[q r]|] eqn:SU; [|discriminate]. injection H as <- <-. destruct (S e t q r SU) as (S1 & S2 & S3 & S4 & S5 & S6 & S7 & S8 & S9).
           assert (FL : flushes p (SetMode m e t) = true) by (cbn [flushes]; rewrite LB, MM; destruct (Z.eqb_spec m 0); [contradiction|reflexivity]). rewrite FL. unfold next_bits. rewrite FL. cbn [next_mode with_mode bmap nbuttons groups bits mode prev]. rewrite LB. split; [apply with_mode_ok; assumption|]. repeat (split; auto).
    + injection H as E1 E2. assert (LB : (Z.land get_modes m =? m) = false) by (apply Z.eqb_neq; exact L). assert (FL : flushes p (SetMode m e t) = false) by (cbn [flushes]; rewrite LB; reflexivity). refine (T _ _ _ _ _ _ _ _ _ E1 (eq_sym E2)); try reflexivity; auto; [cbn [next_mode]; rewrite LB; reflexivity|intros x; unfold next_bits; rewrite FL; reflexivity].
  - injection H as E1 E2. unfold set_left_handed in E1. destruct (reversible d); [|refine (T _ _ _ _ _ _ _ _ _ E1 (eq_sym E2)); try reflexivity; exact K]. cbn [snd] in E1. match type of E1 with (if ?x then _ else _) = _ => destruct x end; refine (T _ _ _ _ _ _ _ _ _ E1 (eq_sym E2)); try reflexivity; constructor; auto.
Qed.

(** ** Whole runs *)
Lemma prun_app : forall lg d l l' p p' o, prun lg d p (l ++ l') = Some (p', o) -> exists q o1 o2, prun lg d p l = Some (q, o1) /\ prun lg d q l' = Some (p', o2) /\ o = o1 ++ o2.
Proof.
  intros lg d. induction l as [|i l IH]; intros l' p p' o H; cbn [app prun] in *; [exists p, [], o; auto|]. destruct (pstep lg d p i) as [[q r]|]; [|discriminate]. destruct (prun lg d q (l ++ l')) as [[q2 r2]|] eqn:E; [|discriminate]. injection H as <- <-.
  destruct (IH _ _ _ _ E) as (q1 & o1 & o2 & A & B & C). exists q1, (r ++ o1), o2. rewrite A. repeat split; auto. rewrite C, app_assoc. reflexivity.
Qed.
Lemma tl_bit : forall c, existsb (Z.eqb c) (tl codes) = true <-> 1 <= c < 768.
Proof. intros c. rewrite existsb_exists, <- tl_codes. split; [intros (x & X & E); apply Z.eqb_eq in E; subst; exact X|intros X; exists c; split; [exact X|apply Z.eqb_refl]]. Qed.
Lemma next_physical : forall p i s, mode p = 0 \/ mode p = 1 -> (forall c, 1 <= c < 768 -> bits p c = snd s c) -> mode p = fst s -> (forall c, 1 <= c < 768 -> next_bits p i c = snd (physical1 s i) c) /\ next_mode p i = fst (physical1 s i).
Proof.
  intros p i [sm sb] M B E. cbn [fst snd] in *. assert (Q : forall c, 1 <= c < 768 -> existsb (Z.eqb c) (tl codes) = true) by (intros c C; apply tl_bit, C). destruct i as [a| | |c v|e t|e t|m e t|b]; cbn [next_bits next_mode physical1 fst snd]; auto.
  - split; [|exact E]. intros x X. destruct (v =? 2); [auto|]. unfold upd. destruct (x =? c); auto.
  - split; [|exact E]. intros x X. rewrite Q by exact X. reflexivity.
  - cbn [flushes]. destruct (Z.eqb_spec (Z.land get_modes m) m) as [L|L].
    + rewrite <- E. destruct (Z.eqb_spec m (mode p)) as [X|X]; cbn [negb andb]; [split; [exact B|exact X]|]. apply land1 in L. destruct L as [-> | ->]; cbn; split; auto. intros x X1. rewrite Q by exact X1. reflexivity.
    + assert (M0 : m <> 0) by (intros ->; apply L; reflexivity). assert (M1 : m <> 1) by (intros ->; apply L; reflexivity). cbn [andb]. destruct (m =? sm); [split; auto|]. destruct (Z.eqb_spec m 0); [contradiction|]. destruct (Z.eqb_spec m 1); [contradiction|]. split; auto.
Qed.
Lemma run_spec : forall lg d l p p' o s, pad_ok p -> (forall c, 1 <= c < 768 -> bits p c = snd s c) -> mode p = fst s -> prun lg d p l = Some (p', o) ->
  pad_ok p' /\ bmap p' = bmap p /\ nbuttons p' = nbuttons p /\ map shape (groups p') = map shape (groups p) /\ (forall c, 1 <= c < 768 -> bits p' c = snd (fold_left physical1 l s) c) /\ mode p' = fst (fold_left physical1 l s) /\
  pairedm (view (bmap p) (prev p)) (flat_map ev_key o) /\ (forall x, afterm (view (bmap p) (prev p)) (flat_map ev_key o) x = view (bmap p) (prev p') x).
Proof.
  intros lg d. induction l as [|i l IH]; intros p p' o s K B M H; cbn [prun] in H.
  - injection H as <- <-. repeat (split; auto).
  - destruct (pstep lg d p i) as [[q r]|] eqn:S; [|discriminate]. destruct (prun lg d q l) as [[q2 r2]|] eqn:E; [|discriminate]. injection H as <- <-.
    destruct (step_spec _ _ _ _ _ _ K S) as (S1 & S2 & S3 & S4 & S5 & S6 & S7 & S8 & S9). destruct (next_physical p i s (k_mode p K) B M) as [N1 N2].
    destruct (IH q q2 r2 (physical1 s i) S1) as (R1 & R2 & R3 & R4 & R5 & R6 & R7 & R8); [intros c C; rewrite S5; apply N1, C|congruence|exact E|]. rewrite S2 in R7, R8. cbn [fold_left]. split; [exact R1|]. split; [congruence|]. split; [congruence|]. split; [congruence|]. split; [exact R5|]. split; [exact R6|]. rewrite flat_map_app. split.
    + apply pairedm_app; [exact S7|]. eapply pairedm_ext; [intros; symmetry; apply S8|exact R7].
    + intros x. rewrite afterm_app. erewrite afterm_ext by (intros; apply S8). apply R8.
Qed.
