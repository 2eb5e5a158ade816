(** * Proofs about tablet tools: strict nesting on tablets without mouse and lens, over all histories *)
Require Import Coq.ZArith.ZArith Coq.QArith.QArith Coq.Lists.List Coq.Bool.Bool Coq.micromega.Lia.
From Verif Require Import Tab_Model Tab_Spec Tab_Proofs Tab_Proofs2 Tab_Proofs3 Tab_Proofs4.
Import ListNotations.
Open Scope Z_scope.

Lemma prepare_leaving : forall d s o s' o', leaving s = true -> prepare d s o = (s', o') ->
  released_upd s' = true /\ (forall k, btn s' k = false) /\ econt s' = econt s /\ lcont s' = (contact s || lcont s).
Proof.
  intros d s o s' o' L H. unfold prepare in H. rewrite L in H. cbv zeta in H. fields_in H. injection H as <- <-.
  destruct (contact s); fields; repeat split; reflexivity.
Qed.
Lemma sanitize_buttons : forall d s o, released_upd (sanitize_mouse_rotation (sanitize_pressure_distance d s o)) = released_upd s /\ btn (sanitize_mouse_rotation (sanitize_pressure_distance d s o)) = btn s
  /\ econt (sanitize_mouse_rotation (sanitize_pressure_distance d s o)) = econt s /\ lcont (sanitize_mouse_rotation (sanitize_pressure_distance d s o)) = lcont s.
Proof.
  intros. set (x := sanitize_pressure_distance d s o).
  assert (A : released_upd x = released_upd s /\ btn x = btn s /\ econt x = econt s /\ lcont x = lcont s).
  { unfold x, sanitize_pressure_distance. repeat match goal with |- context [if ?b then _ else _] => destruct b end; fields; repeat split; reflexivity. }
  clearbody x. destruct A as (A & B & C & D). rewrite <- A, <- B, <- C, <- D. unfold sanitize_mouse_rotation. destruct (_ && _); fields; repeat split; reflexivity.
Qed.
Lemma prepare_staying : forall d s o s' o', leaving s = false -> prepare d s o = (s', o') ->
  released_upd s' = released_upd s /\ btn s' = btn s /\
  (econt s = false -> lcont s = false -> (econt s' = true -> contact s = false /\ lcont s' = false) /\ (lcont s' = true -> contact s = true)).
Proof.
  intros d s o s' o' L H. unfold prepare in H. rewrite L in H. destruct (axes_upd s || entering s).
  2: { injection H as <- <-. repeat split; try reflexivity; congruence. }
  cbv zeta in H. set (s1 := if entering s then set_changed s (caps o) else s) in H.
  assert (A : released_upd s1 = released_upd s /\ btn s1 = btn s /\ econt s1 = econt s /\ lcont s1 = lcont s /\ contact s1 = contact s).
  { unfold s1. destruct (entering s); fields; repeat split; reflexivity. }
  clearbody s1. destruct A as (A & B & C & D & E). set (o1 := detect_offset d s1 o) in H.
  set (s2 := put_tool s1 o1) in H. assert (A2 : released_upd s2 = released_upd s /\ btn s2 = btn s /\ econt s2 = econt s /\ lcont s2 = lcont s /\ contact s2 = contact s).
  { unfold s2, put_tool. fields. repeat split; assumption. } clearbody s2 o1. clear A B C D E. destruct A2 as (A & B & C & D & E).
  injection H as <- <-. destruct (sanitize_buttons d (detect_contact d s2 o1) o1) as (P & Q & R & T). rewrite P, Q, R, T. unfold detect_contact.
  destruct (negb (caps o1 PRESSURE)); [repeat split; congruence|]. destruct (negb (has_abs d PRESSURE)); [repeat split; congruence|]. cbv zeta.
  set (p := if p_has o1 then _ else _). clearbody p. rewrite E. destruct (contact s).
  - rewrite andb_true_r, andb_false_r. destruct (p <=? p_lower o1); fields; repeat split; congruence.
  - rewrite andb_false_r, andb_true_r. destruct (p_upper o1 <=? p); fields; repeat split; congruence.
Qed.
Record inv3 (d : device) (s : tab) (c : cl) : Prop := {
  j_inv : inv2 d s c; j_known : known_held c; j_ctype : ctype s = 0 \/ is_pen (ctype s) = true }.
Definition after_shape (s : tab) (tw : bool) : Prop :=
  is_pen (ctype s) = true /\ ((leaving s = true /\ ptstate s = 0 /\ pens (tstate s)) \/ (tw = false /\ ptstate s = bit (ctype s) /\ tstate s = ptstate s)).
Lemma is_pen_mouse : forall ty, is_pen ty = true -> is_mouse ty = false.
Proof. intros ty H. apply pen_in in H. cbn in H. decompose [or] H; try contradiction; subst ty; reflexivity. Qed.
Lemma round_inv2 : forall d s t c named s' r, inv3 d s c -> heldin s c -> shape s named -> round d s t = (s', r) ->
  match r with
  | None => inv3 d s' c /\ shape s' None /\ outp s' = true
  | Some (o, tw) => ready d s' c /\ after_shape s' tw /\ (leaving s = true -> leaving s' = true) /\ (named = None -> tw = false)
  end.
Proof.
  intros d s t c named s' r I0 HI SH H. unfold round in H. destruct (update_tool_state s t) as [s1 tw] eqn:EU.
  destruct (uts_shape _ _ _ _ _ SH EU) as [UK UO]. destruct I0 as [I0 KH CT]. clear EU.
  assert (UX : (ptstate s = 0 -> outp s = true)). { destruct SH as [SH|SH]; [tauto|]. decompose [and] SH. intros E. exfalso. apply (bit_nonzero (ctype s)); congruence. }
  assert (HI1 : heldin s1 c).
  { intros k E. apply HI in E. unfold kept in UK. decompose [and] UK. replace (pbtn s1) with (pbtn s) by congruence. replace (btn s1) with (btn s) by congruence. replace (released_upd s1) with (released_upd s) by congruence. exact E. }
  assert (TWF : named = None -> outp s1 = false -> tw = false).
  { intros E O. destruct UO as [UO | [UO | UO]]; [tauto | | tauto]. destruct UO as (_ & _ & _ & _ & U & _ & V). rewrite (V E) in U. congruence. }
  assert (LV : outp s1 = false -> leaving s = true -> leaving s1 = true).
  { intros _ L. destruct UO as [UO | [UO | UO]]; decompose [and] UO; rewrite ?L in *; cbn [orb] in *; congruence. }
  assert (I1 : inv2 d s1 c /\ (ctype s1 = 0 \/ is_pen (ctype s1) = true) /\
     ((outp s1 = true /\ shape s1 None) \/ (outp s1 = false /\ is_pen (ctype s1) = true /\ ((leaving s1 = true /\ ptstate s1 = 0 /\ pens (tstate s1)) \/ (tw = false /\ ptstate s1 = bit (ctype s1) /\ tstate s1 = ptstate s1))))).
  { unfold kept in UK. decompose [and] UK. clear UK. destruct I0. destruct UO as [UO | [UO | UO]].
    - destruct UO as (U1 & U2 & U3 & U4 & U5 & U6 & U7 & U8 & U9). split; [|split; [right; congruence|]].
      + constructor; try (replace (oor s1) with (oor s) by congruence; assumption); rewrite ?U7, ?U8, ?U9; try assumption.
        * intros P. replace (contact s1) with (contact s) by congruence. replace (econt s1) with (econt s) by congruence. replace (lcont s1) with (lcont s) by congruence. apply i_tip. exact P.
      + destruct (outp s1) eqn:EO; [left|right]; (split; [reflexivity|]).
        * right. split; [congruence|]. split; congruence.
        * split; [congruence|]. right. split; [exact U1|]. split; congruence.
    - destruct UO as (U1 & U2 & U3 & U4 & U5 & U6 & _). split; [|split; [rewrite U3; exact CT|]].
      + constructor; try (replace (oor s1) with (oor s) by congruence; assumption); rewrite ?U4, ?U5, ?U6; try assumption.
        * intros O. rewrite O. destruct (i_out O) as (A & B & C). rewrite C. repeat split; assumption.
        * intros P. replace (contact s1) with (contact s) by congruence. replace (econt s1) with (econt s) by congruence. replace (lcont s1) with (lcont s) by congruence. apply i_tip. exact P.
      + rewrite U5. destruct (outp s) eqn:EO; [left|right]; (split; [reflexivity|]).
        * left. split; [exact U1|]. split; [congruence | exact U2].
        * assert (CP : is_pen (ctype s1) = true). { rewrite U3. destruct SH as [SH|SH]; [decompose [and] SH; congruence | tauto]. }
          split; [exact CP|]. left. rewrite U6. rewrite orb_true_r. split; [reflexivity|]. split; [exact U1 | exact U2].
    - destruct UO as (U1 & U2 & U3 & U4 & U5 & U6 & U7 & U8). destruct (i_out U1) as (A & B & C). split; [|split; [right; exact U3|]].
      + constructor; try (replace (oor s1) with (oor s) by congruence; assumption); try congruence.
        * intros _. rewrite U6. exact A.
        * intros P. replace (contact s1) with (contact s) by congruence. replace (econt s1) with (econt s) by congruence. replace (lcont s1) with (lcont s) by congruence. apply i_tip. exact P.
      + right. split; [exact U7|]. split; [exact U3|]. right. split; [exact U2|]. split; congruence. }
  clear I0 SH UK UO UX CT. destruct I1 as (I1 & CT & FIN).
  destruct (ctype s1 =? 0) eqn:EC.
  { injection H as <- <-. apply Z.eqb_eq in EC. destruct FIN as [[FO FS] | (_ & FP & _)]; [|rewrite EC in FP; discriminate FP].
    split; [constructor; [exact I1 | exact KH | left; exact EC]|]. split; [exact FS | exact FO]. }
  apply Z.eqb_neq in EC. destruct CT as [CT|CT]; [contradiction|].
  destruct (get_tool d s1 (ctype s1) (cid s1) (cserial s1)) as [s2 o] eqn:EG. apply get_tool_spec in EG. destruct EG as [GK GT].
  rewrite GT in H. rewrite (is_pen_mouse _ CT) in H.
  assert (I2 : inv2 d s2 c /\ is_pen (ctype s2) = true /\
     ((outp s2 = true /\ shape s2 None) \/ (outp s2 = false /\ ((leaving s2 = true /\ ptstate s2 = 0 /\ pens (tstate s2)) \/ (tw = false /\ ptstate s2 = bit (ctype s2) /\ tstate s2 = ptstate s2))))).
  { unfold kept_tools in GK. decompose [and] GK. destruct I1. unfold shape in *.
    replace (outp s2) with (outp s1) by congruence. replace (leaving s2) with (leaving s1) by congruence. replace (ptstate s2) with (ptstate s1) by congruence.
    replace (tstate s2) with (tstate s1) by congruence. replace (ctype s2) with (ctype s1) by congruence.
    split; [|split; [exact CT|]].
    - constructor; try (replace (oor s2) with (oor s1) by congruence; assumption); try assumption.
      + replace (outp s2) with (outp s1) by congruence. replace (entering s2) with (entering s1) by congruence. replace (leaving s2) with (leaving s1) by congruence. assumption.
      + replace (outp s2) with (outp s1) by congruence. replace (entering s2) with (entering s1) by congruence. assumption.
      + intros P. replace (contact s2) with (contact s1) by congruence. replace (econt s2) with (econt s1) by congruence. replace (lcont s2) with (lcont s1) by congruence. apply i_tip. exact P.
    - destruct FIN as [FIN|FIN]; [left; exact FIN | right; tauto]. }
  assert (HI2 : heldin s2 c).
  { intros k E. apply HI1 in E. unfold kept_tools in GK. decompose [and] GK. replace (pbtn s2) with (pbtn s1) by congruence. replace (btn s2) with (btn s1) by congruence. replace (released_upd s2) with (released_upd s1) by congruence. exact E. }
  assert (LV2 : outp s2 = false -> leaving s = true -> leaving s2 = true). { unfold kept_tools in GK. decompose [and] GK. replace (outp s2) with (outp s1) by congruence. replace (leaving s2) with (leaving s1) by congruence. exact LV. }
  assert (TWF2 : named = None -> outp s2 = false -> tw = false). { unfold kept_tools in GK. decompose [and] GK. replace (outp s2) with (outp s1) by congruence. exact TWF. }
  clear I1 CT FIN GK GT EC HI1 LV TWF. destruct I2 as (I2 & CP & FIN).
  pose proof (i_oor _ _ _ I2) as R. rewrite R, orb_false_r in H. destruct (outp s2) eqn:EO.
  { injection H as <- <-. destruct FIN as [[_ FS] | [FO _]]; [|discriminate]. split; [constructor; [exact I2 | exact KH | right; exact CP]|]. split; [exact FS | exact EO]. }
  destruct FIN as [[FO _] | [_ FIN]]; [discriminate|].
  destruct (prepare d s2 o) as [s3 o3] eqn:EP. injection H as <- <-. destruct (prepare_spec _ _ _ _ _ EP) as (PK & _).
  unfold kept_prep in PK. decompose [and] PK. clear PK. destruct I2. split.
  - constructor; try congruence.
    + replace (entering s3) with (entering s2) by congruence. apply i_in. exact EO.
    + exact i_none.
    + intros k E. split; [exact (KH k E)|]. destruct (HI2 k E) as [A B]. split; [congruence|]. destruct (leaving s2) eqn:EL.
      * destruct (prepare_leaving _ _ _ _ _ EL EP) as (X & _). right. exact X.
      * destruct (prepare_staying _ _ _ _ _ EL EP) as (X & Y & _). rewrite X, Y. exact B.
    + intros L. assert (L2 : leaving s2 = true) by congruence. destruct (prepare_leaving _ _ _ _ _ L2 EP) as (X & Y & Z & W). split; [exact X|]. split; [exact Y|].
      intros P. destruct (i_tip P) as (_ & E1 & E2 & _). split; [congruence|]. rewrite W, E2, orb_false_r. congruence.
    + intros P. destruct (i_tip P) as (E0 & E1 & E2 & E3). replace (contact s3) with (contact s2) by congruence. split; [exact E0|].
      destruct (leaving s2) eqn:EL.
      * destruct (prepare_leaving _ _ _ _ _ EL EP) as (X & Y & Z & W). rewrite Z, W, E1, E2, orb_false_r. split; [intros X1; discriminate X1|]. split; [intros X1; exact X1 | exact E3].
      * destruct (prepare_staying _ _ _ _ _ EL EP) as (X & Y & Z). destruct (Z E1 E2) as [Z1 Z2]. split; [exact Z1|]. split; [exact Z2 | exact E3].
  - unfold after_shape. replace (leaving s3) with (leaving s2) by congruence. replace (ptstate s3) with (ptstate s2) by congruence.
    replace (tstate s3) with (tstate s2) by congruence. replace (ctype s3) with (ctype s2) by congruence. split; [split; [exact CP | exact FIN]|]. split; [exact (LV2 eq_refl) | intros E; exact (TWF2 E eq_refl)].
Qed.
Lemma send_inv2 : forall d s o t c tw s' out, ready d s c -> after_shape s tw -> send_events d s o t = (s', out) ->
  acc2 (dev_axis d PRESSURE) c (erase out) /\ inv3 d s' (view2 c (erase out)) /\ (forall k, vh (view2 c (erase out)) k = true -> btn s' k = true)
  /\ (tw = true \/ leaving s = true -> forall k, vh (view2 c (erase out)) k = false) /\ shape s' None.
Proof.
  intros d s o t c tw s' out R AS H. apply send_events_sends in H. destruct H. pose proof (sent_acc2 d s o c R) as S. cbv zeta in S. rewrite sd_out.
  destruct S as (A & K & L & B & B' & T). destruct R. destruct AS as [CP SH]. unfold rest in sd_rest. decompose [and] sd_rest. clear sd_rest.
  split; [exact A|]. split; [|split; [|split]].
  - constructor; [|exact K | right; congruence]. constructor; try congruence.
    + rewrite sd_outp, r_out. cbn [orb]. intros E. rewrite E in L. split; [tauto|]. split; assumption.
    + rewrite sd_outp, r_out, sd_entering. cbn [orb]. intros E. rewrite E in L. exact L.
    + intros E. destruct (leaving s); [tauto|]. destruct L as [o' L]. congruence.
    + intros P. destruct (T P) as [T1 T2]. destruct (r_tip P) as (X & Y & Z & W).
      split; [congruence|]. split; [exact sd_econt|]. split.
      * rewrite sd_lcont. destruct (econt s); [|apply andb_false_r]. destruct (Y eq_refl) as [_ Q]. rewrite Q. reflexivity.
      * intros E. destruct (leaving s); [exact (T2 eq_refl)|]. destruct L as [o' L]. congruence.
  - intros k E. replace (btn s') with (btn s) by congruence. exact (B k E).
  - intros E. assert (LV : leaving s = true). { destruct E as [E|E]; [|exact E]. destruct SH as [SH|SH]; [tauto|]. decompose [and] SH. congruence. }
    rewrite LV in L. tauto.
  - unfold shape. rewrite sd_outp, r_out. cbn [orb]. replace (ptstate s') with (ptstate s) by congruence. replace (tstate s') with (tstate s) by congruence. replace (ctype s') with (ctype s) by congruence.
    destruct SH as [(X & Y & Z) | (X & Y & Z)]; [left; tauto | right; tauto].
Qed.
Lemma flush_inv2 : forall d n s t c named s' out, inv3 d s c -> heldin s c -> shape s named -> flush d (S n) s t = (s', out) ->
  acc2 (dev_axis d PRESSURE) c (erase out) /\ inv3 d s' (view2 c (erase out)) /\ (forall k, vh (view2 c (erase out)) k = true -> btn s' k = true) /\ shape s' None
  /\ (leaving s = true -> named = None -> forall k, vh (view2 c (erase out)) k = false).
Proof.
  intros d. induction n as [|n IH]; intros s t c named s' out I0 HI SH H; rewrite flush_eq in H; destruct (round d s t) as [s1 r] eqn:ER; pose proof (round_inv2 _ _ _ _ _ _ _ I0 HI SH ER) as R;
    (destruct r as [[o tw]|]; [|injection H as <- <-; destruct R as (R1 & R2 & R3); destruct R1 as [R1 R4 R5]; destruct (i_out _ _ _ R1 R3) as (R6 & _);
      change (view2 c (erase [])) with c; split; [exact I|]; split; [constructor; assumption|]; split; [intros k E; rewrite (i_none _ _ _ R1 R6) in E; discriminate|]; split; [exact R2 | intros _ _; exact (i_none _ _ _ R1 R6)]]);
    destruct R as (RD & AS & LV & TF); destruct (send_events d s1 o t) as [s2 o1] eqn:ES; destruct (send_inv2 _ _ _ _ _ _ _ _ RD AS ES) as (A & J & B & N & S2).
  - destruct tw; cbn [flush] in H; injection H as <- <-; rewrite ?app_nil_r.
    + split; [exact A|]. split; [destruct J as [J1 J2 J3]; constructor; [|exact J2 | exact J3]; destruct J1; constructor; assumption|]. split; [exact B|]. split; [exact S2|]. intros L _. apply N. right. exact (LV L).
    + split; [exact A|]. split; [exact J|]. split; [exact B|]. split; [exact S2|]. intros L _. apply N. right. exact (LV L).
  - destruct tw.
    + destruct (flush d (S n) s2 t) as [s3 o2] eqn:EF. injection H as <- <-. rewrite erase_app, acc2_app, view2_app.
      assert (HI2 : heldin s2 (view2 c (erase o1))). { intros k E. rewrite N in E; [discriminate | left; reflexivity]. }
      destruct (IH _ _ _ _ _ _ J HI2 S2 EF) as (A2 & J2 & B2 & S3 & _). split; [split; assumption|]. split; [exact J2|]. split; [exact B2|]. split; [exact S3|].
      intros _ E. specialize (TF E). discriminate TF.
    + injection H as <- <-. split; [exact A|]. split; [exact J|]. split; [exact B|]. split; [exact S2|]. intros L _. apply N. right. exact (LV L).
Qed.

(** ** Every input *)
Record good (d : device) (s : tab) (c : cl) (h : hw) : Prop := {
  g_inv : inv3 d s c; g_held : heldin s c; g_shape : shape s (h_named h); g_mid : h_mid h = false -> h_named h = None }.
Definition quiet (s s' : tab) : Prop :=
  oor s' = oor s /\ leaving s' = leaving s /\ outp s' = outp s /\ entering s' = entering s /\ contact s' = contact s /\ econt s' = econt s /\ lcont s' = lcont s
  /\ btn s' = btn s /\ pbtn s' = pbtn s /\ released_upd s' = released_upd s /\ ptstate s' = ptstate s /\ tstate s' = tstate s /\ ctype s' = ctype s /\ tool_upd s' = tool_upd s.
Ltac quiets := unfold quiet; fields; repeat split; reflexivity.
Lemma inv3_quiet : forall d s s' c, oor s' = oor s -> leaving s' = leaving s -> outp s' = outp s -> entering s' = entering s -> contact s' = contact s -> econt s' = econt s -> lcont s' = lcont s -> ctype s' = ctype s ->
  inv3 d s c -> inv3 d s' c.
Proof.
  intros d s s' c E1 E2 E3 E4 E5 E6 E7 E8 [J K T]. constructor; [|exact K | rewrite E8; exact T]. destruct J. constructor; rewrite ?E1, ?E2, ?E3, ?E4, ?E5, ?E6, ?E7; assumption.
Qed.
Lemma good_quiet : forall d s s' c h, quiet s s' -> good d s c h -> good d s' c h.
Proof.
  intros d s s' c h Q [J H S M]. unfold quiet in Q. decompose [and] Q. constructor; [|  | |exact M].
  - eapply inv3_quiet; [ | | | | | | | |exact J]; assumption.
  - intros k E. apply H in E. replace (pbtn s') with (pbtn s) by congruence. replace (btn s') with (btn s) by congruence. replace (released_upd s') with (released_upd s) by congruence. exact E.
  - unfold shape in *. replace (ptstate s') with (ptstate s) by congruence. replace (tstate s') with (tstate s) by congruence. replace (outp s') with (outp s) by congruence.
    replace (ctype s') with (ctype s) by congruence. replace (tool_upd s') with (tool_upd s) by congruence. exact S.
Qed.
Lemma good_mid : forall d s c h h', h_named h' = h_named h -> (h_mid h' = false -> h_mid h = false) -> good d s c h -> good d s c h'.
Proof. intros d s c h h' N M [J H S G]. constructor; [exact J | exact H | rewrite N; exact S|]. intros E. rewrite N. apply G, M, E. Qed.
Lemma touch_quiet : forall s w r t, quiet s (fst (set_touch_enabled s w r t)).
Proof. intros. destruct (set_touch_spec s w r t) as [_ [-> | ->]]; quiets. Qed.
Lemma toggle_quiet : forall d s t, quiet s (fst (toggle_touch d s t)).
Proof. intros. destruct (toggle_spec d s t) as [_ (w & [-> | ->])]; quiets. Qed.
Lemma rest_quiet : forall s s', rest s s' /\ (pressed_upd s' = pressed_upd s /\ released_upd s' = released_upd s /\ contact s' = contact s /\ leaving s' = leaving s /\ outp s' = outp s
   /\ entering s' = entering s /\ econt s' = econt s /\ lcont s' = lcont s) -> quiet s s'.
Proof. intros s s' [R F]. unfold rest in R. decompose [and] R. decompose [and] F. unfold quiet. repeat split; assumption. Qed.
Lemma rotation_quiet : forall s b, quiet s (fst (change_rotation s b)) /\ erase (snd (change_rotation s b)) = [].
Proof. intros. destruct (change_rotation_rest s b) as (R & E & F). split; [|exact E]. apply rest_quiet. split; [exact R | tauto]. Qed.
Lemma left_quiet : forall s, quiet s (fst (change_to_left_handed s)) /\ erase (snd (change_to_left_handed s)) = [].
Proof. intros. destruct (change_left_rest s) as (R & E & F). split; [|exact E]. apply rest_quiet. split; [exact R | tauto]. Qed.
Lemma quiet_trans : forall a b c, quiet a b -> quiet b c -> quiet a c.
Proof. unfold quiet. intros a b c A B. decompose [and] A. decompose [and] B. repeat split; congruence. Qed.
Lemma quiet_refl : forall a, quiet a a.
Proof. intros. unfold quiet. repeat split; reflexivity. Qed.
Lemma syn_good : forall d n s t c named s' out, inv3 d s c -> heldin s c -> shape s named -> syn d (Datatypes.S n) s t = (s', out) ->
  acc2 (dev_axis d PRESSURE) c (erase out) /\ inv3 d s' (view2 c (erase out)) /\ heldin s' (view2 c (erase out)) /\ shape s' None.
Proof.
  intros d n s t c named s' out J H S E. unfold syn in E. destruct (flush d (Datatypes.S n) s t) as [s1 o1] eqn:EF. destruct (flush_inv2 _ _ _ _ _ _ _ _ J H S EF) as (A & J1 & B & S1 & _).
  destruct (toggle_spec d s1 t) as [TO _]. pose proof (toggle_quiet d s1 t) as TQ. destruct (toggle_touch d s1 t) as [s2 o2]. cbn [fst snd] in *. injection E as <- <-.
  rewrite erase_app, TO, app_nil_r. unfold quiet in TQ. decompose [and] TQ. split; [exact A|]. split; [|split].
  - eapply inv3_quiet; [ | | | | | | | |exact J1]; unfold reset_state; fields; assumption.
  - intros k K. apply B in K. unfold reset_state. fields. replace (btn s2) with (btn s1) by congruence. split; [exact K | left; exact K].
  - unfold shape in *. unfold reset_state. fields. replace (ptstate s2) with (ptstate s1) by congruence. replace (tstate s2) with (tstate s1) by congruence. replace (outp s2) with (outp s1) by congruence.
    replace (ctype s2) with (ctype s1) by congruence. exact S1.
Qed.
Lemma enabled_pen : forall d ty, mice d = false -> tool_enabled d ty = true -> is_pen ty = true.
Proof.
  intros d ty M E. unfold tool_enabled in E. unfold mice in M. apply orb_false_iff in M. destruct M as [M1 M2]. destruct (ty =? MOUSE); [congruence|]. destruct (ty =? LENS); congruence.
Qed.
Lemma lor_bit_lor : forall t b, Z.lor (Z.lor t b) b = Z.lor t b.
Proof. intros. rewrite <- Z.lor_assoc, Z.lor_diag. reflexivity. Qed.
Lemma pen_repeat : forall c ty down t, is_pen c = true -> is_pen ty = true -> (t = Z.lor (bit c) (bit ty) \/ t = Z.ldiff (bit c) (bit ty)) ->
  (if down : bool then Z.lor t (bit ty) else Z.ldiff t (bit ty)) = Z.lor (bit c) (bit ty) \/ (if down then Z.lor t (bit ty) else Z.ldiff t (bit ty)) = Z.ldiff (bit c) (bit ty).
Proof.
  intros c ty down t H1 H2 H3. apply pen_in in H1, H2. cbn in H1, H2.
  decompose [or] H1; try contradiction; subst c; decompose [or] H2; try contradiction; subst ty; (destruct H3 as [-> | ->]); destruct down; vm_compute; tauto.
Qed.
Lemma tool_shape : forall d s ty down named, mice d = false -> shape s named -> (tool_enabled d ty = true -> named = None \/ named = Some ty) ->
  shape (process_tool d s ty down) (if tool_enabled d ty then Some ty else named).
Proof.
  intros d s ty down named M S R. unfold process_tool. destruct (tool_enabled d ty) eqn:EE; cbn [negb]; [|exact S]. pose proof (enabled_pen _ _ M EE) as P. specialize (R eq_refl).
  unfold shape in *. cbv zeta. fields. destruct S as [(A & B & C) | (A & B & C)].
  - left. split; [exact A|]. split; [exact B|]. apply pens_change; assumption.
  - right. split; [exact A|]. split; [exact B|]. split; [exact P|]. split; [reflexivity|]. rewrite B in *. destruct R as [-> | ->].
    + rewrite C. destruct down; [left | right]; reflexivity.
    + destruct C as (_ & _ & C). apply pen_repeat; assumption.
Qed.
Lemma process_tool_inv : forall d s ty down c, inv3 d s c -> heldin s c -> inv3 d (process_tool d s ty down) c /\ heldin (process_tool d s ty down) c.
Proof.
  intros d s ty down c J H. unfold process_tool. destruct (negb (tool_enabled d ty)); [split; assumption|]. split; [|exact H].
  eapply inv3_quiet; [ | | | | | | | |exact J]; reflexivity.
Qed.
Lemma step_good : forall d n s i c h s' out, mice d = false -> good d s c h -> rules d h i -> step d (Datatypes.S n) s i = (s', out) ->
  acc2 (dev_axis d PRESSURE) c (erase out) /\ good d s' (view2 c (erase out)) (hw_step d h i).
Proof.
  intros d n s i c h s' out MC G R H. unfold step in H. destruct i; cbn [hw_step rules] in *.
  - assert (HH : s' = (if match a with REL_WHEEL => true | _ => false end then s else process_absolute d s a v) /\ out = []).
    { destruct a; injection H as <- <-; split; reflexivity. }
    destruct HH as [-> ->]. split; [exact I|]. apply (good_mid d _ c h); [reflexivity | intros E; discriminate E|]. apply (good_quiet d s); [|exact G].
    destruct a; try apply quiet_refl; unfold process_absolute; (destruct (negb (has_abs d _)); [apply quiet_refl|]); cbv zeta; (destruct (fuzzed _ _ _ _); quiets).
  - injection H as <- <-. split; [exact I|]. apply (good_mid d _ c h); [reflexivity | intros E; discriminate E|]. apply (good_quiet d s); [quiets | exact G].
  - injection H as <- <-. split; [exact I|]. apply (good_mid d _ c h); [reflexivity | intros E; discriminate E|]. apply (good_quiet d s); [|exact G]. unfold process_wheel. destruct (negb (has_abs d REL_WHEEL)); [apply quiet_refl | quiets].
  - injection H as <- <-. split; [exact I|]. change (view2 c (erase [])) with c. destruct G as [J HI S M]. destruct (process_tool_inv d s ty down c J HI) as [J' HI'].
    assert (RR : tool_enabled d ty = true -> h_named h = None \/ h_named h = Some ty). { intros E. apply R in E. tauto. }
    pose proof (tool_shape d s ty down _ MC S RR) as S'. destruct (tool_enabled d ty); (constructor; [exact J' | exact HI' | exact S'|]); [intros E; discriminate E | exact M].
  - injection H as <- <-. split; [exact I|]. change (view2 c (erase [])) with c. apply (good_mid d _ c h); [reflexivity | intros E; discriminate E|].
    unfold process_touch. destruct (dev_axis d PRESSURE) eqn:EP; [exact G|]. destruct G as [[J K T] HI S M]. destruct J. destruct down; (constructor; [constructor; [constructor; fields; try assumption|exact K | exact T] | exact HI | exact S | exact M]); congruence.
  - injection H as <- <-. split; [exact I|]. change (view2 c (erase [])) with c. apply (good_mid d _ c h); [reflexivity | intros E; discriminate E|].
    unfold update_button. destruct (negb (known_button c0)); [exact G|]. destruct G as [J HI S M]. destruct down; (constructor; [eapply inv3_quiet; [ | | | | | | | |exact J]; reflexivity | | exact S | exact M]); intros k E; fields; destruct (HI k E) as [A B]; (split; [exact A|]).
    + destruct B as [B|B]; [left; unfold upd; destruct (k =? c0); [reflexivity | exact B] | right; exact B].
    + right. reflexivity.
  - injection H as <- <-. split; [exact I|]. apply (good_mid d _ c h); [reflexivity | intros E; discriminate E|]. apply (good_quiet d s); [|exact G]. unfold process_serial. destruct (v =? -1); [apply quiet_refl | quiets].
  - destruct G as [J HI S M]. destruct (syn_good _ _ _ _ _ _ _ _ J HI S H) as (A & J' & HI' & S'). split; [exact A|]. constructor; [exact J' | exact HI' | exact S' | reflexivity].
  - destruct R as [MD _]. destruct (timer s) as [x|]; [|injection H as <- <-; split; [exact I | exact G]]. destruct (x <=? now); [|injection H as <- <-; split; [exact I | exact G]].
    apply (good_quiet d s (set_timer s None)) in G; [|quiets]. set (s0 := set_timer s None) in *. clearbody s0. unfold timeout in H.
    assert (PT : forall x, quiet s0 (set_prox_timer s0 x)). { intros y. unfold set_prox_timer. destruct (need_force s0); [quiets | apply quiet_refl]. }
    destruct (contact s0 || btn_down s0); [injection H as <- <-; split; [exact I | apply (good_quiet d s0); [apply PT | exact G]]|].
    destruct (_ <? last_time s0); [injection H as <- <-; split; [exact I | apply (good_quiet d s0); [apply PT | exact G]]|].
    assert (G1 : good d (set_in_progress s0 true) c h) by (apply (good_quiet d s0); [quiets | exact G]). set (s1 := set_in_progress s0 true) in *. clearbody s1. destruct G1 as [J HI S M].
    destruct (syn d (Datatypes.S n) (process_tool d s1 PEN false) now) as [s2 o2] eqn:ES. injection H as <- <-.
    destruct (process_tool_inv d s1 PEN false c J HI) as [J' HI']. rewrite (M MD) in S. assert (RR : tool_enabled d PEN = true -> @None Z = None \/ @None Z = Some PEN) by (intros _; left; reflexivity).
    pose proof (tool_shape d s1 PEN false _ MC S RR) as S'. destruct (syn_good _ _ _ _ _ _ _ _ J' HI' S' ES) as (A & J2 & HI2 & S2). split; [exact A|].
    apply (good_quiet d s2); [quiets|]. constructor; [exact J2 | exact HI2 | rewrite (M MD); exact S2 | exact M].
  - destruct R as [MD _]. unfold suspend in H. pose proof (touch_quiet s NOT_ACTIVE None now) as TQ. destruct (set_touch_spec s NOT_ACTIVE None now) as [TO _]. destruct (set_touch_enabled s NOT_ACTIVE None now) as [s1 o1]. cbn [fst snd] in *.
    apply (good_quiet d s s1) in G; [|exact TQ]. destruct (outp s1) eqn:EO; [injection H as <- <-; rewrite TO; split; [exact I | exact G]|].
    destruct (flush d (Datatypes.S n) (set_leaving s1 true) now) as [s2 o2] eqn:EF. injection H as <- <-. rewrite erase_app, TO. cbn [app]. destruct G as [[J K T] HI S M].
    assert (J1 : inv3 d (set_leaving s1 true) c). { constructor; [|exact K | exact T]. destruct J. constructor; fields; try assumption. intros E. congruence. }
    destruct (flush_inv2 _ _ _ _ _ _ _ _ J1 HI S EF) as (A & J2 & B & S2 & N). split; [exact A|]. constructor; [exact J2 | | rewrite (M MD); exact S2 | exact M].
    intros k E. rewrite (N eq_refl (M MD)) in E. discriminate.
  - injection H as <- <-. split; [exact I|]. apply (good_mid d _ c h); [reflexivity | intros E; exact E|]. apply (good_quiet d s); [quiets | exact G].
  - unfold device_added in H. set (s1 := if touchscreen || ext_touchpad then _ else s) in H.
    assert (Q1 : quiet s s1). { unfold s1. destruct (touchscreen || ext_touchpad); [quiets | apply quiet_refl]. } clearbody s1.
    destruct ext_touchpad; [|injection H as <- <-; split; [exact I | apply (good_quiet d s); [exact Q1 | exact G]]]. destruct left.
    + destruct (rotation_quiet (set_rot_lh (set_rot_dev s1 (Some id)) true) true) as [Q2 E2]. rewrite H in Q2, E2. cbn [fst snd] in *. rewrite E2. split; [exact I|].
      apply (good_quiet d s); [|exact G]. eapply quiet_trans; [exact Q1|]. exact Q2.
    + injection H as <- <-. split; [exact I|]. apply (good_quiet d s); [|exact G]. eapply quiet_trans; [exact Q1|]. quiets.
  - unfold device_removed in H. set (s1 := if is_dev (touch_dev s) id then _ else s) in H.
    assert (Q1 : quiet s s1). { unfold s1. destruct (is_dev (touch_dev s) id); [quiets | apply quiet_refl]. } clearbody s1.
    destruct (is_dev (rot_dev s1) id); [|injection H as <- <-; split; [exact I | apply (good_quiet d s); [exact Q1 | exact G]]].
    destruct (rotation_quiet (set_rot_lh (set_rot_dev s1 None) false) true) as [Q2 E2]. rewrite H in Q2, E2. cbn [fst snd] in *. rewrite E2. split; [exact I|].
    apply (good_quiet d s); [|exact G]. eapply quiet_trans; [exact Q1|]. exact Q2.
  - unfold left_toggled in H. destruct (rot_dev s); [|injection H as <- <-; split; [exact I | exact G]].
    destruct (rotation_quiet (set_rot_lh s left) false) as [Q2 E2]. rewrite H in Q2, E2. cbn [fst snd] in *. rewrite E2. split; [exact I|]. apply (good_quiet d s); [exact Q2 | exact G].
  - destruct (reversible d); [|injection H as <- <-; split; [exact I | exact G]].
    destruct (left_quiet (set_lh_want s left)) as [Q2 E2]. rewrite H in Q2, E2. cbn [fst snd] in *. rewrite E2. split; [exact I|]. apply (good_quiet d s); [exact Q2 | exact G].
  - injection H as <- <-. split; [exact I|]. apply (good_quiet d s); [quiets | exact G].
Qed.
Lemma run_good : forall d n l s c h s' out, mice d = false -> good d s c h -> (forall pre i post, l = pre ++ i :: post -> rules d (fold_left (hw_step d) pre h) i) -> run d (Datatypes.S n) s l = (s', out) ->
  acc2 (dev_axis d PRESSURE) c (erase out) /\ good d s' (view2 c (erase out)) (fold_left (hw_step d) l h).
Proof.
  intros d n. induction l as [|i l IH]; intros s c h s' out MC G R H; cbn [run] in H.
  { injection H as <- <-. split; [exact I | exact G]. }
  destruct (step d (Datatypes.S n) s i) as [s1 o1] eqn:ES. destruct (run d (Datatypes.S n) s1 l) as [s2 o2] eqn:ER. injection H as <- <-.
  destruct (step_good _ _ _ _ _ _ _ _ MC G (R [] i l eq_refl) ES) as [A G1].
  assert (R1 : forall pre j post, l = pre ++ j :: post -> rules d (fold_left (hw_step d) pre (hw_step d h i)) j). { intros pre j post E. apply (R (i :: pre) j post). rewrite E. reflexivity. }
  destruct (IH _ _ _ _ _ MC G1 R1 ER) as [A2 G2]. rewrite erase_app, acc2_app, view2_app. split; [split; assumption | exact G2].
Qed.
Lemma start_good : forall d w, mice d = false -> good d (start d w) cl0 (hw0 w).
Proof.
  intros d w MC. unfold start. pose proof (post_added_spec d (init d (w_globals w) (w_values w)) (w_down w) (w_misc w) (w_now w)) as H. cbv zeta in H.
  set (s0 := init d (w_globals w) (w_values w)) in *.
  assert (I0 : outp s0 = true /\ entering s0 = false /\ leaving s0 = false /\ oor s0 = false /\ contact s0 = false /\ econt s0 = false /\ lcont s0 = false /\ ptstate s0 = 0 /\ tstate s0 = 0 /\ ctype s0 = 0) by (repeat split; reflexivity).
  set (s := post_added _ _ _ _ _) in *. clearbody s s0. destruct I0 as (O & E & L & R & C & EC & LC & P & T & CT). destruct (find _ _) as [ty|] eqn:EF.
  - apply find_some in EF. destruct EF as [_ EF]. apply andb_prop in EF. destruct EF as [EF _]. apply (enabled_pen _ _ MC) in EF. decompose [and] H. constructor.
    + constructor; [|intros k X; discriminate X | right; congruence]. constructor; try congruence.
      * intros _. replace (entering s) with true by congruence. reflexivity.
      * intros _ k. reflexivity.
      * intros _. split; [cbn; congruence|]. split; [congruence|]. split; [congruence | reflexivity].
    + intros k X. discriminate X.
    + right. cbn [h_named hw0]. split; [congruence|]. split; congruence.
    + reflexivity.
  - rewrite H. constructor.
    + constructor; [|intros k X; discriminate X | left; exact CT]. constructor; try congruence.
      * intros _. split; [reflexivity|]. split; assumption.
      * intros _ k. reflexivity.
      * intros _. split; [exact C|]. split; [exact EC|]. split; [exact LC | reflexivity].
    + intros k X. discriminate X.
    + left. split; [exact P|]. split; [exact O|]. rewrite T. left. reflexivity.
    + reflexivity.
Qed.
