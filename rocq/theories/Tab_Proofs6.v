(** * Proofs about tablet tools: a frame that never ends; tools that come and go are seen *)
Require Import Coq.ZArith.ZArith Coq.QArith.QArith Coq.Lists.List Coq.Bool.Bool Coq.micromega.Lia.
From Verif Require Import Tab_Model Tab_Spec Tab_Proofs Tab_Proofs2 Tab_Proofs3 Tab_Proofs4 Tab_Proofs5.
Import ListNotations.
Open Scope Z_scope.

(** ** The endless loop of tablet_flush *)
Record loops (d : device) (s : tab) : Prop := {
  l_dist : has_abs d DISTANCE = true; l_far : absv s DISTANCE <> 0 /\ absv s DISTANCE < dist_max d;
  l_two : two_tools (tstate s) = true; l_prev : ptstate s = 0; l_mouse : is_mouse (ctype s) = true; l_oor : oor s = false; l_leaving : leaving s = false }.
Lemma loops_round : forall d s t, loops d s -> exists s1 o, round d s t = (s1, Some (o, true)) /\ forall s2 out, send_events d s1 o t = (s2, out) -> loops d s2.
Proof.
  intros d s t [LD LF LT LP LM LO LL].
  assert (TZ : tstate s <> 0). { intros E. rewrite E in LT. discriminate LT. } pose proof TZ as TZ'. apply Z.eqb_neq in TZ'.
  assert (TI : injected s = tstate s). { unfold injected. rewrite TZ'. rewrite andb_false_r. reflexivity. }
  destruct (update_tool_state s t) as [s1 tw] eqn:EU. pose proof (uts_spec _ _ _ _ EU) as [UK UC]. unfold round. rewrite EU.
  destruct UC as [(U0 & _) | (U0 & U1 & U2 & U3 & U4)]; [congruence|].
  unfold uts_t2, uts_new, uts_on, uts_ty, uts_t2 in *. rewrite TI, LT, LP, Z.lxor_0_r, TZ' in *. cbn [negb] in U2, U3. change (Z.lxor 0 0) with 0 in U4.
  change (negb (Z.land 0 (bit (ffs 0 - 1)) =? 0)) with false in U4. cbv iota in U4. destruct U4 as (V1 & V2 & V3 & V4). rewrite LL in V4. cbn [orb] in V4. subst tw.
  assert (CM : is_mouse (ctype s1) = true) by congruence. assert (CZ : (ctype s1 =? 0) = false). { apply Z.eqb_neq. intros E. rewrite E in CM. discriminate CM. } rewrite CZ.
  destruct (get_tool d s1 (ctype s1) (cid s1) (cserial s1)) as [s2 o] eqn:EG. apply get_tool_spec in EG. destruct EG as [GK GT]. rewrite GT, CM.
  unfold kept in UK. unfold kept_tools in GK. decompose [and] UK. decompose [and] GK. clear UK GK.
  set (s3 := update_proximity_state d s2 o).
  assert (S3 : absv s3 = absv s /\ tstate s3 = tstate s /\ ptstate s3 = 0 /\ is_mouse (ctype s3) = true /\ oor s3 = false /\ outp s3 = false /\ leaving s3 = negb (outp s)).
  { unfold s3, update_proximity_state. rewrite LD. cbn [negb]. replace (absv s2) with (absv s) by congruence. destruct LF as [F1 F2]. apply Z.eqb_neq in F1. apply Z.ltb_lt in F2. rewrite F1, F2. cbv zeta iota.
    replace (oor s2) with (oor s) by congruence. replace (outp s2) with (outp s) by congruence. rewrite LO. cbn [orb andb]. destruct (outp s) eqn:EO; cbn [negb andb] in *.
    - unfold force_presses. fields. repeat split; congruence.
    - repeat split; congruence. }
  clearbody s3. destruct S3 as (A1 & A2 & A3 & A4 & A5 & A6 & A7). rewrite A5, A6. cbn [orb]. destruct (prepare d s3 o) as [s4 o4] eqn:EP. apply prepare_spec in EP. destruct EP as [PK _].
  exists s4, o4. split; [reflexivity|]. intros s5 out ES. apply send_events_sends in ES. destruct ES. unfold kept_prep in PK. unfold rest in sd_rest. decompose [and] PK. decompose [and] sd_rest. clear PK sd_rest.
  constructor; try assumption; try congruence.
Qed.
Lemma loops_hang : forall d n s t, loops d s -> hang (fst (flush d n s t)) = true.
Proof.
  intros d. induction n as [|n IH]; intros s t L; [reflexivity|]. rewrite flush_eq. destruct (loops_round d s t L) as (s1 & o & -> & NX). destruct (send_events d s1 o t) as [s2 out] eqn:ES.
  specialize (IH s2 t (NX _ _ eq_refl)). destruct (flush d n s2 t) as [s3 o3]. exact IH.
Qed.
Lemma toggle_hang : forall d s t, hang (fst (toggle_touch d s t)) = hang s.
Proof. intros. destruct (toggle_spec d s t) as [_ (w & [-> | ->])]; reflexivity. Qed.
Lemma syn_hang : forall d n s t, loops d s -> hang (fst (syn d n s t)) = true.
Proof.
  intros d n s t L. pose proof (loops_hang d n s t L) as H. unfold syn. destruct (flush d n s t) as [s1 o1]. pose proof (toggle_hang d s1 t) as T. destruct (toggle_touch d s1 t) as [s2 o2]. cbn [fst] in *.
  unfold reset_state. fields. congruence.
Qed.

(** ** Without suspending, the tool state says what the client sees *)
Definition sh2 (s : tab) (named : option Z) : Prop :=
  (ptstate s = 0 /\ outp s = true /\ (tstate s = 0 \/ exists ty, named = Some ty /\ is_pen ty = true /\ tstate s = bit ty))
  \/ (outp s = false /\ is_pen (ctype s) = true /\ ptstate s = bit (ctype s)
      /\ match named with
         | None => tstate s = ptstate s
         | Some ty => is_pen ty = true /\ tool_upd s = true /\ (tstate s = Z.lor (ptstate s) (bit ty) \/ tstate s = Z.ldiff (ptstate s) (bit ty))
         end).
Lemma bit_single : forall ty, is_pen ty = true -> two_tools (bit ty) = false /\ bit ty <> 0 /\ ffs (bit ty) - 1 = ty /\ (Z.land (bit ty) (bit ty) =? 0) = false.
Proof. intros ty H. apply pen_in in H. cbn in H. decompose [or] H; try contradiction; subst ty; (split; [reflexivity|]; split; [vm_compute; discriminate|]; split; reflexivity). Qed.
Lemma pen_change2 : forall c ty t, is_pen c = true -> is_pen ty = true -> (t = Z.lor (bit c) (bit ty) \/ t = Z.ldiff (bit c) (bit ty)) ->
  t = bit c \/ (two_tools t = false /\ t = 0 /\ ty = c /\ ffs (Z.lxor 0 (bit c)) - 1 = c) \/ (two_tools t = true /\ Z.lxor t (bit c) = bit ty /\ ty <> c /\ ffs (Z.lxor 0 (bit c)) - 1 = c /\ t = Z.lor (bit c) (bit ty)).
Proof.
  intros c ty t H1 H2 H3. apply pen_in in H1, H2. cbn in H1, H2.
  decompose [or] H1; try contradiction; subst c; decompose [or] H2; try contradiction; subst ty; (destruct H3 as [-> | ->]);
    ((left; vm_compute; reflexivity) || (right; left; split; [vm_compute; reflexivity|]; split; [vm_compute; reflexivity|]; split; vm_compute; reflexivity)
     || (right; right; split; [vm_compute; reflexivity|]; split; [vm_compute; reflexivity|]; split; [intros X; discriminate X|]; split; vm_compute; reflexivity)).
Qed.
(** One call of tablet_update_tool_state *)
Inductive turn (s s' : tab) (tw : bool) : Prop :=
| T_idle : tw = false -> injected s = 0 -> ptstate s' = 0 -> tstate s' = 0 -> outp s = true -> outp s' = true -> leaving s' = leaving s -> entering s' = entering s -> ctype s' = ctype s -> turn s s' tw
| T_comes : forall ty, tw = false -> is_pen ty = true -> injected s = bit ty -> outp s = true -> ctype s' = ty -> ptstate s' = bit ty -> tstate s' = bit ty -> outp s' = false -> entering s' = true -> leaving s' = leaving s -> turn s s' tw
| T_stays : tw = false -> injected s = ptstate s -> outp s = false -> is_pen (ctype s) = true -> ctype s' = ctype s -> ptstate s' = bit (ctype s) -> tstate s' = bit (ctype s) -> outp s' = false -> leaving s' = leaving s -> entering s' = entering s -> turn s s' tw
| T_goes : tw = false -> injected s = 0 -> ptstate s <> 0 -> outp s = false -> is_pen (ctype s) = true -> ctype s' = ctype s -> ptstate s' = 0 -> tstate s' = 0 -> outp s' = false -> leaving s' = true -> entering s' = entering s -> turn s s' tw
| T_both : forall ty, tw = true -> is_pen ty = true -> ty <> ctype s -> injected s = Z.lor (ptstate s) (bit ty) -> outp s = false -> is_pen (ctype s) = true -> ctype s' = ctype s -> ptstate s' = 0 -> tstate s' = bit ty
    -> outp s' = false -> leaving s' = true -> entering s' = entering s -> turn s s' tw.
Lemma uts_turn : forall s t s' tw named, sh2 s named -> update_tool_state s t = (s', tw) -> kept s s' /\ turn s s' tw /\ (outp s = false -> injected s = tstate s) /\ (tstate s <> 0 -> injected s = tstate s).
Proof.
  intros s t s' tw named SH H. apply uts_spec in H. destruct H as [K C]. split; [exact K|].
  assert (INZ : tstate s <> 0 -> injected s = tstate s). { intros E. apply Z.eqb_neq in E. unfold injected. rewrite E, andb_false_r. reflexivity. }
  destruct SH as [(P0 & O & T) | (O & CP & PB & N)].
  - split; [|split; [congruence | exact INZ]].
    assert (TI : injected s = 0 \/ exists ty, is_pen ty = true /\ injected s = bit ty).
    { destruct T as [T | (ty & _ & TP & T)].
      - unfold injected. destruct (_ && _ && _); [right; exists PEN; split; reflexivity | left; exact T].
      - right. exists ty. split; [exact TP|]. rewrite INZ; [exact T|]. rewrite T. apply bit_nonzero. exact TP. }
    destruct C as [(U0 & U1 & U2 & U3 & U4 & U5 & U6 & U7 & U8) | (U0 & U1 & U2 & U3 & U4)].
    + apply T_idle; congruence.
    + destruct TI as [TI | (ty & TP & TI)]; [congruence|]. destruct (bit_single ty TP) as (B1 & B2 & B3 & B4).
      unfold uts_t2, uts_new, uts_on, uts_ty, uts_t2 in *. rewrite TI, P0, B1, Z.lxor_0_r, B3, B4 in *. cbn [Z.eqb negb] in *. destruct U4 as (V1 & V2 & V3 & V4).
      apply (T_comes s s' tw ty); congruence.
  - assert (NZ : ctype s <> 0). { intros E. rewrite E in CP. discriminate CP. } apply Z.eqb_neq in NZ.
    assert (TI : injected s = tstate s).
    { unfold injected. rewrite NZ. destruct (tstate s =? 0) eqn:E0; [|rewrite andb_false_r; reflexivity].
      destruct named as [ty|].
      - destruct N as (_ & TU & _). rewrite TU. cbn [andb negb]. rewrite andb_false_r. cbv iota. rewrite andb_false_r. reflexivity.
      - apply Z.eqb_eq in E0. exfalso. apply (bit_nonzero _ CP). congruence. }
    split; [|split; [intros _; exact TI | exact INZ]].
    destruct C as [(U0 & U1 & U2 & U3 & U4 & U5 & U6 & U7 & U8) | (U0 & U1 & U2 & U3 & U4)].
    + apply T_stays; congruence.
    + rewrite TI in U0. destruct named as [ty|]; [|congruence]. destruct N as (TP & TU & N). rewrite PB in N, U0.
      unfold uts_t2, uts_new, uts_on, uts_ty, uts_t2 in *. rewrite TI, PB in *.
      destruct (pen_change2 _ _ _ CP TP N) as [X | [(E2 & E0 & EC & EF) | (E2 & EX & EC & EF & EL)]]; [congruence | |].
      * rewrite E2, E0, EF in *. rewrite Z.land_0_l in U4. cbn [Z.eqb negb] in U4, U2, U3. destruct U4 as (V1 & V2 & V3 & V4). rewrite O, orb_true_r in V4. apply T_goes; try congruence.
      * rewrite E2, EF in *. rewrite Z.land_0_l in U4. cbn [Z.eqb negb] in U4. destruct U4 as (V1 & V2 & V3 & V4). rewrite O, orb_true_r in V4.
        rewrite EX in *. pose proof (bit_nonzero _ TP) as BN. apply Z.eqb_neq in BN. rewrite BN in *. cbn [negb] in U2, U3. apply (T_both s s' tw ty); congruence.
Qed.
(** What a round does to the tool state, sending included *)
Lemma round_sh2 : forall d s t named s1 r, sh2 s named -> oor s = false -> ctype s = 0 \/ is_pen (ctype s) = true -> round d s t = (s1, r) ->
  match r with
  | None => sh2 s1 None /\ injected s = 0 /\ outp s1 = true
  | Some (o, tw) => outp s1 = false /\ ttype o = ctype s1 /\ is_pen (ctype s1) = true /\
      ((tw = false /\ (outp s = true \/ injected s = ptstate s /\ ctype s1 = ctype s) /\ injected s = bit (ctype s1) /\ leaving s1 = leaving s /\ ptstate s1 = bit (ctype s1) /\ tstate s1 = bit (ctype s1))
       \/ (tw = false /\ injected s = 0 /\ leaving s1 = true /\ ptstate s1 = 0 /\ tstate s1 = 0)
       \/ (tw = true /\ outp s = false /\ leaving s1 = true /\ ptstate s1 = 0 /\ exists ty, is_pen ty = true /\ tstate s1 = bit ty /\ ty <> ctype s /\ injected s = Z.lor (ptstate s) (bit ty)))
  end.
Proof.
  intros d s t named s1 r SH OR CT H. unfold round in H. destruct (update_tool_state s t) as [s2 tw] eqn:EU. destruct (uts_turn _ _ _ _ _ SH EU) as (UK & TU & _ & _). clear EU.
  assert (OR2 : oor s2 = false). { unfold kept in UK. decompose [and] UK. congruence. } clear UK.
  assert (PS : outp s = false -> ptstate s = bit (ctype s)). { destruct SH as [SH|SH]; [decompose [and] SH; congruence | tauto]. } clear SH.
  assert (TC : (injected s = 0 /\ outp s = true /\ ptstate s2 = 0 /\ tstate s2 = 0 /\ outp s2 = true /\ is_mouse (ctype s2) = false) \/ (outp s2 = false /\ is_pen (ctype s2) = true /\
     ((tw = false /\ (outp s = true \/ injected s = ptstate s /\ ctype s2 = ctype s) /\ injected s = bit (ctype s2) /\ leaving s2 = leaving s /\ ptstate s2 = bit (ctype s2) /\ tstate s2 = bit (ctype s2))
       \/ (tw = false /\ injected s = 0 /\ leaving s2 = true /\ ptstate s2 = 0 /\ tstate s2 = 0)
       \/ (tw = true /\ outp s = false /\ leaving s2 = true /\ ptstate s2 = 0 /\ exists ty, is_pen ty = true /\ tstate s2 = bit ty /\ ty <> ctype s /\ injected s = Z.lor (ptstate s) (bit ty))))).
  { destruct TU as [T1 T2 T3 T4 T5 T6 T7 T8 T9 | ty T1 T2 T3 T4 T5 T6 T7 T8 T9 T10 | T1 T2 T3 T4 T5 T6 T7 T8 T9 T10 | T1 T2 T3 T4 T5 T6 T7 T8 T9 T10 T11 | ty T1 T2 T3 T4 T5 T6 T7 T8 T9 T10 T11 T12].
    - left. repeat split; try assumption. rewrite T9. destruct CT as [-> | CT]; [reflexivity | exact (is_pen_mouse _ CT)].
    - right. split; [exact T8|]. split; [congruence|]. left. split; [exact T1|]. split; [left; exact T4|]. repeat split; congruence.
    - right. split; [exact T8|]. split; [congruence|]. left. specialize (PS T3). split; [exact T1|]. split; [right; split; congruence|]. repeat split; congruence.
    - right. split; [exact T9|]. split; [congruence|]. right. left. repeat split; congruence.
    - right. split; [exact T10|]. split; [congruence|]. right. right. split; [exact T1|]. split; [exact T5|]. split; [exact T11|]. split; [exact T8|]. exists ty. repeat split; assumption. }
  clear TU CT PS. destruct (ctype s2 =? 0) eqn:EC.
  { injection H as <- <-. apply Z.eqb_eq in EC. destruct TC as [(A & B & C & D & E & F) | (_ & A & _)]; [|rewrite EC in A; discriminate A].
    split; [left; split; [exact C|]; split; [exact E | left; exact D]|]. split; assumption. }
  destruct (get_tool d s2 (ctype s2) (cid s2) (cserial s2)) as [s3 o] eqn:EG. apply get_tool_spec in EG. destruct EG as [GK GT]. unfold kept_tools in GK. decompose [and] GK. clear GK.
  rewrite GT in H. destruct TC as [(A & B & C & D & E & F) | (A & B & C)].
  - rewrite F in H. replace (outp s3) with true in H by congruence. cbn [orb] in H. injection H as <- <-. split; [|split; congruence]. left. split; [congruence|]. split; [congruence|]. left. congruence.
  - rewrite (is_pen_mouse _ B) in H. replace (outp s3) with false in H by congruence. replace (oor s3) with false in H by congruence. cbn [orb] in H.
    destruct (prepare d s3 o) as [s4 o4] eqn:EP. injection H as <- <-. destruct (prepare_spec _ _ _ _ _ EP) as (PK & P1 & P2 & _). unfold kept_prep in PK. decompose [and] PK. clear PK.
    replace (outp s4) with (outp s2) by congruence. replace (ctype s4) with (ctype s2) by congruence. replace (leaving s4) with (leaving s2) by congruence.
    replace (ptstate s4) with (ptstate s2) by congruence. replace (tstate s4) with (tstate s2) by congruence. split; [exact A|]. split; [congruence|]. split; [exact B | exact C].
Qed.
(** The frame as a whole: [Some ty], a tool of type ty is in proximity afterwards *)
Definition now_in (s : tab) : option Z := if outp s then None else Some (ctype s).
Definition outcome (s : tab) : option Z :=
  let x := injected s in
  if x =? 0 then None else if x =? ptstate s then Some (ctype s) else Some (ffs (Z.lxor x (ptstate s)) - 1).
Lemma lxor_lor_bit : forall c ty, is_pen c = true -> is_pen ty = true -> ty <> c -> ffs (Z.lxor (Z.lor (bit c) (bit ty)) (bit c)) - 1 = ty /\ Z.lor (bit c) (bit ty) <> 0 /\ Z.lor (bit c) (bit ty) <> bit c.
Proof.
  intros c ty H1 H2 H3. apply pen_in in H1, H2. cbn in H1, H2.
  decompose [or] H1; try contradiction; subst c; decompose [or] H2; try contradiction; subst ty; try congruence; (split; [vm_compute; reflexivity|]; split; vm_compute; discriminate).
Qed.
Lemma send_tools : forall d s o t s' out, send_events d s o t = (s', out) -> outp s' = outp s || leaving s /\ ctype s' = ctype s /\ ptstate s' = ptstate s /\ tstate s' = tstate s /\ oor s' = oor s /\ leaving s' = false.
Proof. intros d s o t s' out H. apply send_events_sends in H. destruct H. unfold rest in sd_rest. decompose [and] sd_rest. repeat split; assumption. Qed.
Lemma round_oor : forall d s t c named s1 o tw, inv3 d s c -> heldin s c -> shape s named -> round d s t = (s1, Some (o, tw)) -> oor s1 = false.
Proof. intros d s t c named s1 o tw J H S R. apply (round_inv2 _ _ _ _ _ _ _ J H S) in R. destruct R as [R _]. exact (r_oor _ _ _ R). Qed.
Lemma sh2_shape : forall s named, sh2 s named -> shape s named.
Proof.
  intros s named [(A & B & C) | (A & B)]; [left | right; exact B]. split; [exact A|]. split; [exact B|]. destruct C as [-> | (ty & _ & P & ->)]; [left; reflexivity | apply pens_bit; exact P].
Qed.
Lemma bit_inj : forall a b, is_pen a = true -> is_pen b = true -> bit a = bit b -> a = b.
Proof. intros a b A B E. destruct (bit_single a A) as (_ & _ & H & _). destruct (bit_single b B) as (_ & _ & H' & _). rewrite E in H. congruence. Qed.
Lemma flush_sh2 : forall d n s t c named s' out, inv3 d s c -> heldin s c -> sh2 s named -> leaving s = false -> flush d (S (S n)) s t = (s', out) ->
  sh2 s' None /\ now_in s' = outcome s /\ (leaving s' = false).
Proof.
  intros d n s t c named s' out J HI SH L H. rewrite flush_eq in H. destruct (round d s t) as [s1 r] eqn:ER.
  pose proof (round_sh2 _ _ _ _ _ _ SH (i_oor _ _ _ (j_inv _ _ _ J)) (j_ctype _ _ _ J) ER) as R.
  pose proof (round_inv2 _ _ _ _ _ _ _ J HI (sh2_shape _ _ SH) ER) as RI.
  assert (PS : outp s = false -> is_pen (ctype s) = true /\ ptstate s = bit (ctype s)). { destruct SH as [SH|SH]; [decompose [and] SH; congruence | tauto]. }
  assert (PZ : outp s = true -> ptstate s = 0). { destruct SH as [SH|SH]; [tauto | decompose [and] SH; congruence]. }
  unfold now_in, outcome. cbv zeta. destruct r as [[o tw]|].
  2: { injection H as <- <-. destruct R as (R1 & R2 & R3). destruct RI as (RI & _). rewrite R2, R3. split; [exact R1|]. split; [reflexivity|]. apply (i_out _ _ _ (j_inv _ _ _ RI) R3). }
  destruct (send_events d s1 o t) as [s2 o1] eqn:ES. destruct (send_tools _ _ _ _ _ _ ES) as (S1 & S2 & S3 & S4 & S5 & S6). destruct R as (RO & RT & RP & R).
  destruct R as [(R0 & R1 & R2 & R3 & R4 & R5) | [(R0 & R1 & R2 & R3 & R4) | (R0 & R1 & R2 & R3 & ty & R4 & R5 & R6 & R7)]]; subst tw.
  - injection H as <- <-. rewrite RO, R3, L in S1. cbn [orb] in S1. rewrite S1. split; [right; split; [exact S1|]; split; [congruence|]; split; congruence|]. split; [|exact S6].
    rewrite R2. pose proof (bit_nonzero _ RP) as BN. apply Z.eqb_neq in BN. rewrite BN. rewrite S2. destruct R1 as [R1 | [R1 R1']].
    + rewrite (PZ R1), BN, Z.lxor_0_r. destruct (bit_single _ RP) as (_ & _ & B & _). rewrite B. reflexivity.
    + rewrite <- R2, R1, Z.eqb_refl. congruence.
  - injection H as <- <-. rewrite RO, R2 in S1. cbn [orb] in S1. rewrite S1, R1. split; [|split; [reflexivity | exact S6]]. left. split; [congruence|]. split; [exact S1|]. left. congruence.
  - destruct (flush d (S n) s2 t) as [s3 o2] eqn:EF. injection H as <- <-. rewrite RO, R2 in S1. cbn [orb] in S1. destruct RI as (RD & AS & _).
    destruct (send_inv2 _ _ _ _ _ _ _ _ RD AS ES) as (_ & J2 & _ & N2 & _).
    assert (HI2 : heldin s2 (view2 c (erase o1))). { intros k E. rewrite N2 in E; [discriminate | left; reflexivity]. }
    assert (SH2 : sh2 s2 (Some ty)). { left. split; [congruence|]. split; [exact S1|]. right. exists ty. split; [reflexivity|]. split; [exact R4 | congruence]. }
    assert (I2 : injected s2 = bit ty). { unfold injected. rewrite S4, R5. pose proof (bit_nonzero _ R4) as BN. apply Z.eqb_neq in BN. rewrite BN, andb_false_r. reflexivity. }
    destruct (PS R1) as [PS1 PS2]. destruct (lxor_lor_bit _ _ PS1 R4 R6) as (X1 & X2 & X3). rewrite R7, PS2, X1. apply Z.eqb_neq in X2, X3. rewrite X2, X3.
    rewrite flush_eq in EF. destruct (round d s2 t) as [s4 r] eqn:ER2.
    pose proof (round_sh2 _ _ _ _ _ _ SH2 (i_oor _ _ _ (j_inv _ _ _ J2)) (j_ctype _ _ _ J2) ER2) as Q. destruct r as [[o' tw]|].
    2: { exfalso. destruct Q as (_ & Q & _). rewrite I2 in Q. exact (bit_nonzero _ R4 Q). }
    destruct (send_events d s4 o' t) as [s5 o3] eqn:ES2. destruct (send_tools _ _ _ _ _ _ ES2) as (W1 & W2 & W3 & W4 & W5 & W6). destruct Q as (QO & QT & QP & Q).
    destruct Q as [(Q0 & Q1 & Q2 & Q3 & Q4 & Q5) | [(Q0 & Q1 & Q2 & Q3 & Q4) | (Q0 & Q1 & Q2 & Q3 & Q4)]]; subst tw; [| exfalso; rewrite I2 in Q1; exact (bit_nonzero _ R4 Q1) | congruence].
    injection EF as <- <-. rewrite QO, Q3, S6 in W1. cbn [orb] in W1. rewrite W1. split; [right; split; [exact W1|]; split; [congruence|]; split; congruence|]. split; [|exact W6].
    f_equal. rewrite W2. apply bit_inj; [exact QP | exact R4 | congruence].
Qed.

(** ** Histories without suspending *)
Definition tnamed (s : tab) (h : hw) : Prop :=
  tstate s = match h_named h with Some ty => if h_down h ty then Z.lor (ptstate s) (bit ty) else Z.ldiff (ptstate s) (bit ty) | None => ptstate s end.
Record live (d : device) (s : tab) (c : cl) (h : hw) : Prop := { v_good : good d s c h; v_sh2 : sh2 s (h_named h); v_named : tnamed s h; v_leaving : leaving s = false }.
Definition is_suspend (i : input) : bool := match i with ISuspend _ => true | _ => false end.
Lemma sh2_quiet : forall s s' named, quiet s s' -> sh2 s named -> sh2 s' named.
Proof.
  intros s s' named Q S. unfold quiet in Q. decompose [and] Q. unfold sh2 in *. replace (ptstate s') with (ptstate s) by congruence. replace (tstate s') with (tstate s) by congruence. replace (outp s') with (outp s) by congruence.
  replace (ctype s') with (ctype s) by congruence. replace (tool_upd s') with (tool_upd s) by congruence. exact S.
Qed.
(** The inputs that leave the tools alone *)
Definition quiet_input (i : input) : bool := match i with ITool _ _ | ISyn _ | ITimer _ | ISuspend _ => false | _ => true end.
Lemma quiet_step : forall d n s i s' out, quiet_input i = true -> step d n s i = (s', out) ->
  ptstate s' = ptstate s /\ tstate s' = tstate s /\ outp s' = outp s /\ ctype s' = ctype s /\ tool_upd s' = tool_upd s /\ leaving s' = leaving s /\ entering s' = entering s.
Proof.
  intros d n s i s' out QI H.
  assert (QQ : forall x, quiet s x -> ptstate x = ptstate s /\ tstate x = tstate s /\ outp x = outp s /\ ctype x = ctype s /\ tool_upd x = tool_upd s /\ leaving x = leaving s /\ entering x = entering s).
  { intros x Q. unfold quiet in Q. decompose [and] Q. repeat split; assumption. }
  unfold step in H. destruct i; try discriminate QI.
  - assert (HH : s' = (if match a with REL_WHEEL => true | _ => false end then s else process_absolute d s a v)). { destruct a; injection H as <- <-; reflexivity. } subst s'. apply QQ.
    destruct a; try apply quiet_refl; unfold process_absolute; (destruct (negb (has_abs d _)); [apply quiet_refl|]); cbv zeta; (destruct (fuzzed _ _ _ _); quiets).
  - injection H as <- <-. apply QQ. quiets.
  - injection H as <- <-. apply QQ. unfold process_wheel. destruct (negb (has_abs d REL_WHEEL)); [apply quiet_refl | quiets].
  - injection H as <- <-. unfold process_touch. destruct (dev_axis d PRESSURE); [apply QQ, quiet_refl|]. destruct down; fields; repeat split; reflexivity.
  - injection H as <- <-. unfold update_button. destruct (negb (known_button c)); [apply QQ, quiet_refl|]. destruct down; fields; repeat split; reflexivity.
  - injection H as <- <-. apply QQ. unfold process_serial. destruct (v =? -1); [apply quiet_refl | quiets].
  - injection H as <- <-. apply QQ. quiets.
  - apply QQ. unfold device_added in H. set (s1 := if touchscreen || ext_touchpad then _ else s) in H.
    assert (Q1 : quiet s s1). { unfold s1. destruct (touchscreen || ext_touchpad); [quiets | apply quiet_refl]. } clearbody s1.
    destruct ext_touchpad; [|injection H as <- <-; exact Q1]. destruct left.
    + destruct (rotation_quiet (set_rot_lh (set_rot_dev s1 (Some id)) true) true) as [Q2 E2]. rewrite H in Q2. cbn [fst] in Q2. eapply quiet_trans; [exact Q1|]. exact Q2.
    + injection H as <- <-. eapply quiet_trans; [exact Q1|]. quiets.
  - apply QQ. unfold device_removed in H. set (s1 := if is_dev (touch_dev s) id then _ else s) in H.
    assert (Q1 : quiet s s1). { unfold s1. destruct (is_dev (touch_dev s) id); [quiets | apply quiet_refl]. } clearbody s1.
    destruct (is_dev (rot_dev s1) id); [|injection H as <- <-; exact Q1].
    destruct (rotation_quiet (set_rot_lh (set_rot_dev s1 None) false) true) as [Q2 E2]. rewrite H in Q2. cbn [fst] in Q2. eapply quiet_trans; [exact Q1|]. exact Q2.
  - apply QQ. unfold left_toggled in H. destruct (rot_dev s); [|injection H as <- <-; apply quiet_refl].
    destruct (rotation_quiet (set_rot_lh s left) false) as [Q2 E2]. rewrite H in Q2. exact Q2.
  - apply QQ. destruct (reversible d); [|injection H as <- <-; apply quiet_refl]. destruct (left_quiet (set_lh_want s left)) as [Q2 E2]. rewrite H in Q2. exact Q2.
  - injection H as <- <-. apply QQ. quiets.
Qed.
Lemma quiet_hw : forall d h i, quiet_input i = true -> h_named (hw_step d h i) = h_named h /\ h_down (hw_step d h i) = h_down h.
Proof. intros d h i Q. destruct i; try discriminate Q; split; reflexivity. Qed.
Lemma lor_ldiff : forall a b, Z.lor (Z.ldiff a b) b = Z.lor a b.
Proof. intros. apply Z.bits_inj'. intros n _. rewrite !Z.lor_spec, Z.ldiff_spec. destruct (Z.testbit a n), (Z.testbit b n); reflexivity. Qed.
Lemma ldiff_lor : forall a b, Z.ldiff (Z.lor a b) b = Z.ldiff a b.
Proof. intros. apply Z.bits_inj'. intros n _. rewrite !Z.ldiff_spec, Z.lor_spec. destruct (Z.testbit a n), (Z.testbit b n); reflexivity. Qed.
Lemma ldiff_ldiff : forall a b, Z.ldiff (Z.ldiff a b) b = Z.ldiff a b.
Proof. intros. apply Z.bits_inj'. intros n _. rewrite !Z.ldiff_spec. destruct (Z.testbit a n), (Z.testbit b n); reflexivity. Qed.
Lemma tool_live : forall d s ty down h, mice d = false -> sh2 s (h_named h) -> tnamed s h -> (tool_enabled d ty = true -> h_named h = None \/ h_named h = Some ty) ->
  sh2 (process_tool d s ty down) (h_named (hw_step d h (ITool ty down))) /\ tnamed (process_tool d s ty down) (hw_step d h (ITool ty down)).
Proof.
  intros d s ty down h M S T R. unfold process_tool. cbn [hw_step]. destruct (tool_enabled d ty) eqn:EE; cbn [negb]; [|split; assumption].
  pose proof (enabled_pen _ _ M EE) as P. specialize (R eq_refl). unfold sh2, tnamed in *. cbv zeta. fields. cbn [h_named h_down]. unfold upd. rewrite Z.eqb_refl.
  assert (TN : (if down then Z.lor (tstate s) (bit ty) else Z.ldiff (tstate s) (bit ty)) = if down then Z.lor (ptstate s) (bit ty) else Z.ldiff (ptstate s) (bit ty)).
  { rewrite T. destruct R as [-> | ->]; [reflexivity|]. destruct (h_down h ty), down; rewrite ?lor_bit_lor, ?lor_ldiff, ?ldiff_lor, ?ldiff_ldiff; reflexivity. }
  split; [|exact TN]. destruct S as [(A & B & C) | (A & B & C & D)].
  - left. split; [exact A|]. split; [exact B|]. rewrite TN, A. destruct down; [right; exists ty; split; [reflexivity|]; split; [exact P | reflexivity] | left; reflexivity].
  - right. split; [exact A|]. split; [exact B|]. split; [exact C|]. split; [exact P|]. split; [reflexivity|]. rewrite TN. destruct down; [left | right]; reflexivity.
Qed.
Lemma sh2_none : forall s, sh2 s None -> tstate s = ptstate s.
Proof. intros s [(A & _ & [B | (ty & B & _)]) | (_ & _ & _ & A)]; congruence. Qed.
Lemma syn_sh2 : forall d n s t c named s' out, inv3 d s c -> heldin s c -> sh2 s named -> leaving s = false -> syn d (S (S n)) s t = (s', out) ->
  sh2 s' None /\ now_in s' = outcome s /\ leaving s' = false.
Proof.
  intros d n s t c named s' out J H S L E. unfold syn in E. destruct (flush d (Datatypes.S (Datatypes.S n)) s t) as [s1 o1] eqn:EF. destruct (flush_sh2 _ _ _ _ _ _ _ _ J H S L EF) as (A & B & C).
  pose proof (toggle_quiet d s1 t) as TQ. destruct (toggle_touch d s1 t) as [s2 o2]. cbn [fst] in TQ. injection E as <- <-. pose proof (sh2_quiet _ _ _ TQ A) as A'.
  unfold quiet in TQ. decompose [and] TQ. split; [|split].
  - unfold sh2, reset_state in *. fields. exact A'.
  - unfold now_in, reset_state in *. fields. replace (outp s2) with (outp s1) by congruence. replace (ctype s2) with (ctype s1) by congruence. exact B.
  - unfold reset_state. fields. congruence.
Qed.
Lemma step_live : forall d n s i c h s' out, mice d = false -> is_suspend i = false -> live d s c h -> rules d h i -> step d (S (S n)) s i = (s', out) -> live d s' (view2 c (erase out)) (hw_step d h i).
Proof.
  intros d n s i c h s' out MC NS [G S T L] R H. destruct (step_good _ _ _ _ _ _ _ _ MC G R H) as [_ G']. destruct (quiet_input i) eqn:QI.
  - destruct (quiet_step _ _ _ _ _ _ QI H) as (Q1 & Q2 & Q3 & Q4 & Q5 & Q6 & Q7). destruct (quiet_hw d h i QI) as [H1 H2]. constructor; [exact G' | | | congruence].
    + rewrite H1. unfold sh2 in *. rewrite Q1, Q2, Q3, Q4, Q5. exact S.
    + unfold tnamed in *. rewrite H1, H2, Q1, Q2. exact T.
  - destruct i; try discriminate QI; try discriminate NS; cbn [step] in H.
    + injection H as <- <-. destruct (tool_live d s ty down h MC S T) as [A B]. { intros E. cbn [rules] in R. apply R in E. tauto. }
      constructor; [exact G' | exact A | exact B|]. unfold process_tool. destruct (negb (tool_enabled d ty)); exact L.
    + destruct G as [J HI _ _]. destruct (syn_sh2 _ _ _ _ _ _ _ _ J HI S L H) as (A & B & C). constructor; [exact G' | exact A | exact (sh2_none _ A) | exact C].
    + destruct R as [MD _]. cbn [hw_step] in *. destruct (timer s) as [x|]; [|injection H as <- <-; constructor; assumption]. destruct (x <=? now); [|injection H as <- <-; constructor; assumption].
      destruct G as [J HI S0 M]. rewrite (M MD) in S. unfold tnamed in T. rewrite (M MD) in T.
      assert (Q0 : quiet s (set_timer s None)) by quiets. set (s0 := set_timer s None) in *.
      assert (PT : forall x, quiet s (set_prox_timer s0 x)). { intros y. unfold set_prox_timer, s0. fields. destruct (need_force s); [quiets | exact Q0]. }
      assert (DONE : forall x, quiet s x -> sh2 x (h_named h) /\ tnamed x h /\ leaving x = false).
      { intros y Q. rewrite (M MD). split; [exact (sh2_quiet _ _ _ Q S)|]. unfold quiet in Q. decompose [and] Q. unfold tnamed. rewrite (M MD). split; congruence. }
      unfold timeout in H. destruct (contact s0 || btn_down s0); [injection H as <- <-; destruct (DONE _ (PT now)) as (D1 & D2 & D3); constructor; assumption|].
      destruct (_ <? last_time s0); [injection H as <- <-; destruct (DONE _ (PT (last_time s0))) as (D1 & D2 & D3); constructor; assumption|].
      assert (Q1 : quiet s (set_in_progress s0 true)) by (unfold s0; quiets). set (s1 := set_in_progress s0 true) in *. clearbody s0 s1.
      destruct (syn d (Datatypes.S (Datatypes.S n)) (process_tool d s1 PEN false) now) as [s2 o2] eqn:ES. injection H as <- <-.
      assert (J1 : inv3 d s1 c). { unfold quiet in Q1. decompose [and] Q1. eapply inv3_quiet; [ | | | | | | | |exact J]; assumption. }
      assert (HI1 : heldin s1 c). { intros k E. apply HI in E. unfold quiet in Q1. decompose [and] Q1. replace (pbtn s1) with (pbtn s) by congruence. replace (btn s1) with (btn s) by congruence. replace (released_upd s1) with (released_upd s) by congruence. exact E. }
      destruct (process_tool_inv d s1 PEN false c J1 HI1) as [J' HI']. pose proof (sh2_quiet _ _ _ Q1 S) as S1.
      set (hx := Build_hw (h_down h) None false (h_dist h) (h_btn h)).
      assert (T1 : tnamed s1 hx). { unfold tnamed, hx. cbn [h_named]. exact (sh2_none _ S1). }
      destruct (tool_live d s1 PEN false hx MC S1 T1) as [S' _]. { intros _. left. reflexivity. }
      assert (L1 : leaving (process_tool d s1 PEN false) = false). { unfold quiet in Q1. decompose [and] Q1. unfold process_tool. destruct (negb (tool_enabled d PEN)); fields; congruence. }
      destruct (syn_sh2 _ _ _ _ _ _ _ _ J' HI' S' L1 ES) as (A & B & C).
      constructor; [exact G' | rewrite (M MD); unfold sh2 in *; fields; exact A | unfold tnamed; rewrite (M MD); fields; exact (sh2_none _ A) | exact C].
Qed.
Lemma run_live : forall d n l s c h s' out, mice d = false -> forallb (fun i => negb (is_suspend i)) l = true -> live d s c h -> (forall pre i post, l = pre ++ i :: post -> rules d (fold_left (hw_step d) pre h) i) ->
  run d (S (S n)) s l = (s', out) -> live d s' (view2 c (erase out)) (fold_left (hw_step d) l h).
Proof.
  intros d n. induction l as [|i l IH]; intros s c h s' out MC NS G R H; cbn [run] in H.
  { injection H as <- <-. exact G. }
  cbn [forallb] in NS. apply andb_prop in NS. destruct NS as [NI NS]. apply negb_true_iff in NI.
  destruct (step d (S (S n)) s i) as [s1 o1] eqn:ES. destruct (run d (S (S n)) s1 l) as [s2 o2] eqn:ER. injection H as <- <-.
  pose proof (step_live _ _ _ _ _ _ _ _ MC NI G (R [] i l eq_refl) ES) as G1.
  assert (R1 : forall pre j post, l = pre ++ j :: post -> rules d (fold_left (hw_step d) pre (hw_step d h i)) j). { intros pre j post E. apply (R (i :: pre) j post). rewrite E. reflexivity. }
  pose proof (IH _ _ _ _ _ MC NS G1 R1 ER) as G2. rewrite erase_app, view2_app. exact G2.
Qed.
Lemma start_live : forall d w, mice d = false -> live d (start d w) cl0 (hw0 w).
Proof.
  intros d w MC. pose proof (start_good d w MC) as G. unfold start in *. pose proof (post_added_spec d (init d (w_globals w) (w_values w)) (w_down w) (w_misc w) (w_now w)) as H. cbv zeta in H.
  set (s0 := init d (w_globals w) (w_values w)) in *.
  assert (I0 : outp s0 = true /\ leaving s0 = false /\ ptstate s0 = 0 /\ tstate s0 = 0) by (repeat split; reflexivity).
  set (s := post_added _ _ _ _ _) in *. clearbody s s0. destruct I0 as (O & L & P & T). destruct (find _ _) as [ty|] eqn:EF.
  - apply find_some in EF. destruct EF as [_ EF]. apply andb_prop in EF. destruct EF as [EF _]. apply (enabled_pen _ _ MC) in EF. decompose [and] H. constructor; [exact G | | unfold tnamed; cbn; congruence | congruence].
    right. cbn [h_named hw0]. split; [congruence|]. split; [congruence|]. split; congruence.
  - subst s. constructor; [exact G | | unfold tnamed; cbn; congruence | exact L]. left. split; [exact P|]. split; [exact O | left; exact T].
Qed.
(** After a frame the client sees what the tool state says *)
Lemma flush_entering : forall d n s t c named s' out, inv3 d s c -> heldin s c -> sh2 s named -> leaving s = false -> flush d (S (S n)) s t = (s', out) -> entering s' = false.
Proof.
  intros d n s t c named s' out J HI SH L H. rewrite flush_eq in H. destruct (round d s t) as [s1 r] eqn:ER. pose proof (round_inv2 _ _ _ _ _ _ _ J HI (sh2_shape _ _ SH) ER) as RI. destruct r as [[o tw]|].
  2: { injection H as <- <-. destruct RI as (RI & _ & RO). apply (i_out _ _ _ (j_inv _ _ _ RI) RO). }
  destruct (send_events d s1 o t) as [s2 o1] eqn:ES. pose proof (send_events_sends _ _ _ _ _ _ ES) as SD. destruct tw; [|injection H as <- <-; exact (sd_entering _ _ _ _ SD)].
  destruct (flush d (S n) s2 t) as [s3 o3] eqn:EF. injection H as <- <-. destruct RI as (RD & AS & _). destruct (send_inv2 _ _ _ _ _ _ _ _ RD AS ES) as (_ & J2 & _ & N2 & S2).
  assert (HI2 : heldin s2 (view2 c (erase o1))). { intros k E. rewrite N2 in E; [discriminate | left; reflexivity]. }
  rewrite flush_eq in EF. destruct (round d s2 t) as [s4 r] eqn:ER2. pose proof (round_inv2 _ _ _ _ _ _ _ J2 HI2 S2 ER2) as RI2. destruct r as [[o' tw]|].
  2: { injection EF as <- <-. destruct RI2 as (RI2 & _ & RO). apply (i_out _ _ _ (j_inv _ _ _ RI2) RO). }
  destruct RI2 as (_ & _ & _ & TF). rewrite (TF eq_refl) in EF. destruct (send_events d s4 o' t) as [s5 o5] eqn:ES2. injection EF as <- <-. exact (sd_entering _ _ _ _ (send_events_sends _ _ _ _ _ _ ES2)).
Qed.
Lemma syn_seen : forall d n s t c named s' out, inv3 d s c -> heldin s c -> sh2 s named -> leaving s = false -> syn d (S (S n)) s t = (s', out) -> Inv1 s' (vp (view2 c (erase out))) ->
  option_map ttype (vp (view2 c (erase out))) = outcome s.
Proof.
  intros d n s t c named s' out J HI SH L H I1. destruct (syn_sh2 _ _ _ _ _ _ _ _ J HI SH L H) as (A & B & C). destruct (syn_good _ _ _ _ _ _ _ _ J HI (sh2_shape _ _ SH) H) as (_ & J' & _ & _).
  rewrite <- B. unfold now_in. destruct (outp s') eqn:EO.
  - destruct (i_out _ _ _ (j_inv _ _ _ J') EO) as (-> & _). reflexivity.
  - assert (EE : entering s' = false).
    { unfold syn in H. destruct (flush d (S (S n)) s t) as [s1 o1] eqn:EF. pose proof (flush_entering _ _ _ _ _ _ _ _ J HI SH L EF) as E1. pose proof (toggle_quiet d s1 t) as TQ. destruct (toggle_touch d s1 t) as [s2 o2]. cbn [fst] in TQ. injection H as <- <-.
      unfold quiet in TQ. decompose [and] TQ. unfold reset_state. fields. congruence. }
    destruct (I1 EO (i_oor _ _ _ (j_inv _ _ _ J')) EE) as (o & -> & T). cbn. congruence.
Qed.
