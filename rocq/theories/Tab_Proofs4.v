(** * Proofs about tablet tools: strict nesting on tablets without mouse and lens *)
Require Import Coq.ZArith.ZArith Coq.QArith.QArith Coq.Lists.List Coq.Bool.Bool Coq.micromega.Lia.
From Verif Require Import Tab_Model Tab_Spec Tab_Proofs Tab_Proofs2 Tab_Proofs3.
Import ListNotations.
Open Scope Z_scope.

(** ** Bit sets of pens *)
Definition pen_sets : list Z := [0; 2; 4; 6; 8; 10; 12; 14; 16; 18; 20; 22; 24; 26; 28; 30; 32; 34; 36; 38; 40; 42; 44; 46; 48; 50; 52; 54; 56; 58; 60; 62].
Definition pens (t : Z) : Prop := In t pen_sets.
Definition pen_list : list Z := [1; 2; 3; 4; 5].
Lemma pen_in : forall ty, is_pen ty = true <-> In ty pen_list.
Proof.
  intros ty. split.
  - intros H. unfold is_pen, PEN, ERASER, BRUSH, PENCIL, AIRBRUSH in H. unfold pen_list. cbn. lia.
  - intros H. cbn in H. decompose [or] H; subst; try reflexivity; contradiction.
Qed.
Lemma forall_pens : forall (P : Z -> bool), forallb P pen_sets = true -> forall t, pens t -> P t = true.
Proof. intros P H t I. rewrite forallb_forall in H. apply H. exact I. Qed.
Lemma forall_pen : forall (P : Z -> bool), forallb P pen_list = true -> forall t, is_pen t = true -> P t = true.
Proof. intros P H t I. rewrite forallb_forall in H. apply H. apply pen_in. exact I. Qed.
Definition pensb (t : Z) : bool := existsb (Z.eqb t) pen_sets.
Lemma pensb_ok : forall t, pensb t = true -> pens t.
Proof. intros t H. unfold pensb in H. apply existsb_exists in H. destruct H as (x & I & E). apply Z.eqb_eq in E. subst. exact I. Qed.
Lemma pens_change : forall t ty down, pens t -> is_pen ty = true -> pens (if down : bool then Z.lor t (bit ty) else Z.ldiff t (bit ty)).
Proof.
  intros t ty down H1 H2. apply pensb_ok.
  assert (A : forallb (fun t => forallb (fun ty => pensb (Z.lor t (bit ty)) && pensb (Z.ldiff t (bit ty))) pen_list) pen_sets = true) by (vm_compute; reflexivity).
  pose proof (forall_pens _ A t H1) as B. cbv beta in B. pose proof (forall_pen _ B ty H2) as C. cbv beta in C. apply andb_prop in C. destruct C, down; assumption.
Qed.
Lemma pens_bit : forall ty, is_pen ty = true -> pens (bit ty).
Proof. intros ty H. apply pen_in in H. cbn in H. decompose [or] H; subst; try contradiction; unfold pens; vm_compute; tauto. Qed.
Lemma pens_single : forall t, pens t -> two_tools t = false -> t <> 0 ->
  is_pen (ffs t - 1) = true /\ t = bit (ffs t - 1) /\ Z.land t (bit (ffs t - 1)) <> 0.
Proof.
  intros t H T Z0.
  assert (A : forallb (fun t => two_tools t || (t =? 0) || (is_pen (ffs t - 1) && (t =? bit (ffs t - 1)) && negb (Z.land t (bit (ffs t - 1)) =? 0))) pen_sets = true) by (vm_compute; reflexivity).
  pose proof (forall_pens _ A t H) as B. cbv beta in B. rewrite T in B. apply Z.eqb_neq in Z0. rewrite Z0 in B. cbn [orb] in B.
  apply andb_prop in B. destruct B as [B C]. apply andb_prop in B. destruct B as [B D]. split; [exact B|]. split; [apply Z.eqb_eq; exact D|]. apply Z.eqb_neq. apply negb_true_iff. exact C.
Qed.
(** A tool that leaves, or a second one that comes *)
Lemma pen_change : forall c ty t, is_pen c = true -> is_pen ty = true -> (t = Z.lor (bit c) (bit ty) \/ t = Z.ldiff (bit c) (bit ty)) -> t <> bit c ->
  (two_tools t = false /\ t = 0 /\ ffs (Z.lxor 0 (bit c)) - 1 = c /\ Z.land 0 (bit c) = 0) \/ (two_tools t = true /\ pens (Z.lxor t (bit c)) /\ ffs (Z.lxor 0 (bit c)) - 1 = c /\ Z.land 0 (bit c) = 0).
Proof.
  intros c ty t H1 H2 H3 H4. apply pen_in in H1, H2. cbn in H1, H2.
  decompose [or] H1; try contradiction; subst c; decompose [or] H2; try contradiction; subst ty; (destruct H3 as [-> | ->]);
    (try (exfalso; apply H4; vm_compute; reflexivity)); ((left; split; [vm_compute; reflexivity|]; split; [vm_compute; reflexivity|]; split; vm_compute; reflexivity) ||
    (right; split; [vm_compute; reflexivity|]; split; [apply pensb_ok; vm_compute; reflexivity|]; split; vm_compute; reflexivity)).
Qed.
Lemma bit_nonzero : forall c, is_pen c = true -> bit c <> 0.
Proof. intros c H. apply pen_in in H. cbn in H. decompose [or] H; subst; try contradiction; vm_compute; discriminate. Qed.

(** ** The shape of the tool state: [named] is the tool this frame's events were about *)
Definition shape (s : tab) (named : option Z) : Prop :=
  (ptstate s = 0 /\ outp s = true /\ pens (tstate s))
  \/ (is_pen (ctype s) = true /\ ptstate s = bit (ctype s)
      /\ match named with
         | None => tstate s = ptstate s
         | Some ty => is_pen ty = true /\ tool_upd s = true /\ (tstate s = Z.lor (ptstate s) (bit ty) \/ tstate s = Z.ldiff (ptstate s) (bit ty))
         end).
Definition uts_out (s s' : tab) (tw : bool) (named : option Z) : Prop :=
  (tw = false /\ tstate s' = ptstate s' /\ ptstate s' = ptstate s /\ ctype s' = ctype s /\ is_pen (ctype s) = true /\ ptstate s = bit (ctype s)
    /\ entering s' = entering s /\ outp s' = outp s /\ leaving s' = leaving s)
  \/ (ptstate s' = 0 /\ pens (tstate s') /\ (ctype s' = ctype s) /\ entering s' = entering s /\ outp s' = outp s /\ leaving s' = leaving s || negb (outp s) /\ (named = None -> outp s = true))
  \/ (outp s = true /\ tw = false /\ is_pen (ctype s') = true /\ ptstate s' = bit (ctype s') /\ tstate s' = bit (ctype s') /\ entering s' = true /\ outp s' = false /\ leaving s' = leaving s).
Lemma uts_shape : forall s t s' tw named, shape s named -> update_tool_state s t = (s', tw) -> kept s s' /\ uts_out s s' tw named.
Proof.
  intros s t s' tw named SH H. apply uts_spec in H. destruct H as [K C]. split; [exact K|]. unfold uts_out.
  destruct SH as [(P0 & O & T) | (CP & PB & N)].
  - assert (TI : pens (injected s)).
    { unfold injected. destruct (_ && _ && _); [apply pens_bit; reflexivity | exact T]. }
    right. destruct C as [(U0 & U1 & U2 & U3 & U4 & U5 & U6 & U7 & U8) | (U0 & U1 & U2 & U3 & U4)].
    + left. rewrite O. cbn [negb]. rewrite orb_false_r. repeat split; try congruence.
    + unfold uts_t2, uts_new, uts_ty, uts_on in *. rewrite P0 in *. destruct (two_tools (injected s)) eqn:E2.
      * left. unfold uts_ty, uts_t2 in U4. rewrite E2, P0 in U4. change (negb (Z.land 0 (bit (ffs (Z.lxor 0 0) - 1)) =? 0)) with false in U4. cbv iota in U4.
        rewrite Z.lxor_0_r in U2. destruct (injected s =? 0) eqn:E0; cbn [negb] in U2; [apply Z.eqb_eq in E0; congruence|].
        split; [exact U1|]. split; [rewrite U2; exact TI|]. destruct U4 as (V1 & V2 & V3 & V4). repeat split; assumption || (intros _; exact O).
      * right. cbn [Z.eqb negb] in U2, U3. unfold uts_ty, uts_t2 in U4. rewrite E2, P0 in U4. rewrite Z.lxor_0_r in U4. destruct (pens_single _ TI E2 U0) as (A & B & L).
        apply Z.eqb_neq in L. rewrite L in U4. cbn [negb] in U4. destruct U4 as (V1 & V2 & V3 & V4). rewrite V1. repeat split; try congruence.
  - assert (NZ : ctype s <> 0). { intros E. rewrite E in CP. discriminate CP. } apply Z.eqb_neq in NZ.
    assert (TI : injected s = tstate s).
    { unfold injected. rewrite NZ. destruct (tstate s =? 0) eqn:E0; [|rewrite andb_false_r; reflexivity].
      destruct named as [ty|].
      - destruct N as (_ & TU & _). rewrite TU. cbn [andb negb]. rewrite andb_false_r. cbv iota. rewrite andb_false_r. reflexivity.
      - apply Z.eqb_eq in E0. exfalso. apply (bit_nonzero _ CP). congruence. }
    destruct C as [(U0 & U1 & U2 & U3 & U4 & U5 & U6 & U7 & U8) | (U0 & U1 & U2 & U3 & U4)].
    + left. repeat split; congruence.
    + right. left. rewrite TI in U0. destruct named as [ty|]; [|congruence]. destruct N as (TP & TU & N). rewrite PB in N, U0.
      unfold uts_t2, uts_new in *. rewrite TI in *. unfold uts_on, uts_ty, uts_t2 in U4. rewrite TI, PB in *.
      destruct (pen_change _ _ _ CP TP N U0) as [(E2 & E0 & EF & EL) | (E2 & EX & EF & EL)]; rewrite E2 in *.
      * rewrite E0 in *. cbn [Z.eqb negb] in U2. rewrite EF, EL in U4. change (negb (0 =? 0)) with false in U4. cbv iota in U4.
        split; [exact U1|]. split; [rewrite U2; left; reflexivity|]. destruct U4 as (V1 & V2 & V3 & V4). repeat split; assumption || discriminate.
      * rewrite EF, EL in U4. change (negb (0 =? 0)) with false in U4. cbv iota in U4. destruct U4 as (V1 & V2 & V3 & V4). split; [exact U1|]. split; [|repeat split; assumption || discriminate].
        rewrite U2. destruct (negb _); [exact EX | left; reflexivity].
Qed.

(** ** The client *)
Record cl := Cl { vp : option tool; vt : bool; vh : Z -> bool }.
Definition cl0 : cl := Cl None false (fun _ => false).
Definition cl_step (c : cl) (e : aev) : cl :=
  match e with
  | AIn o => Cl (Some o) (vt c) (vh c) | AOut _ => Cl None (vt c) (vh c) | ATip _ b => Cl (vp c) b (vh c) | AAxis _ _ => c
  | ABtn _ _ k p => Cl (vp c) (vt c) (upd (vh c) k p)
  end.
(** [pr]: the tablet has pressure *)
Definition ok2 (pr : bool) (c : cl) (e : aev) : Prop :=
  match e with
  | AIn _ => vp c = None
  | AOut _ => (forall k, vh c k = false) /\ (pr = true -> vt c = false)
  | ATip _ b => pr = true -> vt c = negb b
  | AAxis _ b => pr = true -> b = vt c
  | ABtn _ b k p => (pr = true -> b = vt c) /\ (p = true -> vh c k = false)
  end.
Fixpoint acc2 (pr : bool) (c : cl) (l : list aev) : Prop := match l with [] => True | e :: l => ok2 pr c e /\ acc2 pr (cl_step c e) l end.
Definition view2 (c : cl) (l : list aev) : cl := fold_left cl_step l c.
Lemma acc2_app : forall pr a b c, acc2 pr c (a ++ b) <-> acc2 pr c a /\ acc2 pr (view2 c a) b.
Proof. intros pr. induction a as [|e a IH]; intros b c; cbn [app acc2 view2 fold_left]; [tauto|]. rewrite IH. unfold view2. tauto. Qed.
Lemma view2_app : forall a b c, view2 c (a ++ b) = view2 (view2 c a) b.
Proof. intros. unfold view2. apply fold_left_app. Qed.

(** ** The invariant *)
Record inv2 (d : device) (s : tab) (c : cl) : Prop := {
  i_oor : oor s = false;
  i_out : outp s = true -> vp c = None /\ entering s = false /\ leaving s = false;
  i_in : outp s = false -> if entering s then vp c = None else exists o, vp c = Some o;
  i_none : vp c = None -> forall k, vh c k = false;
  i_tip : dev_axis d PRESSURE = true -> contact s = vt c /\ econt s = false /\ lcont s = false /\ (vp c = None -> vt c = false) }.
(** ... and before tablet_flush moreover *)
Definition heldin (s : tab) (c : cl) : Prop := forall k, vh c k = true -> pbtn s k = true /\ (btn s k = true \/ released_upd s = true).

Lemma buttons_nodup : NoDup buttons.
Proof. repeat constructor; cbn; intuition discriminate. Qed.
Lemma btn_view : forall o b f p c, vp (view2 c (btn_events o b f p)) = vp c /\ vt (view2 c (btn_events o b f p)) = vt c /\
  forall k, vh (view2 c (btn_events o b f p)) k = (if existsb (Z.eqb k) (filter f buttons) then p else vh c k).
Proof.
  intros o b f p. unfold btn_events. induction (filter f buttons) as [|x l IH]; intros c; cbn [map view2 fold_left existsb]; [repeat split; reflexivity|].
  destruct (IH (cl_step c (ABtn o b x p))) as (A & B & C). unfold view2 in *. rewrite A, B. split; [reflexivity|]. split; [reflexivity|]. intros k. rewrite C. cbn [cl_step vh]. unfold upd.
  rewrite (Z.eqb_sym k x). destruct (x =? k), (existsb (Z.eqb k) l); reflexivity.
Qed.
Lemma btn_acc : forall pr o b f p c, (pr = true -> b = vt c) -> (p = true -> forall k, In k buttons -> f k = true -> vh c k = false) -> acc2 pr c (btn_events o b f p).
Proof.
  intros pr o b f p. unfold btn_events.
  assert (G : forall l c, NoDup l -> (pr = true -> b = vt c) -> (p = true -> forall k, In k l -> vh c k = false) -> acc2 pr c (map (fun k => ABtn o b k p) l)).
  { induction l as [|x l IH]; intros c ND HB HH; [exact I|]. cbn [map acc2 ok2 cl_step]. inversion ND; subst. split; [split; [exact HB|]; intros E; apply HH; [exact E | left; reflexivity]|].
    apply IH; [assumption | exact HB|]. intros E k IN. cbn [vh]. unfold upd. destruct (k =? x) eqn:EK; [apply Z.eqb_eq in EK; subst; contradiction|]. apply HH; [exact E | right; exact IN]. }
  intros c HB HH. apply G; [apply NoDup_filter, buttons_nodup | exact HB|]. intros E k IN. apply filter_In in IN. destruct IN. apply HH; assumption.
Qed.
(** A call of tablet_send_events, by what holds before it *)
Record ready (d : device) (s : tab) (c : cl) : Prop := {
  r_out : outp s = false; r_oor : oor s = false;
  r_in : if entering s then vp c = None else exists o, vp c = Some o;
  r_none : vp c = None -> forall k, vh c k = false;
  r_held : forall k, vh c k = true -> In k buttons /\ pbtn s k = true /\ (btn s k = true \/ released_upd s = true);
  r_leave : leaving s = true -> released_upd s = true /\ (forall k, btn s k = false) /\ (dev_axis d PRESSURE = true -> econt s = false /\ lcont s = contact s);
  r_tip : dev_axis d PRESSURE = true -> contact s = vt c /\ (econt s = true -> contact s = false /\ lcont s = false) /\ (lcont s = true -> contact s = true) /\ (vp c = None -> vt c = false) }.
Definition known_held (c : cl) : Prop := forall k, vh c k = true -> In k buttons.
Lemma btn_events_known : forall o b f p c, known_held c -> known_held (view2 c (btn_events o b f p)).
Proof.
  intros o b f p c H k E. destruct (btn_view o b f p c) as (_ & _ & V). rewrite V in E. destruct (existsb (Z.eqb k) (filter f buttons)) eqn:EX; [|exact (H k E)].
  apply existsb_exists in EX. destruct EX as (x & IN & EQ). apply Z.eqb_eq in EQ. subst x. apply filter_In in IN. tauto.
Qed.
Lemma existsb_in : forall f k, In k buttons -> f k = true -> existsb (Z.eqb k) (filter f buttons) = true.
Proof. intros f k IN H. apply existsb_exists. exists k. split; [apply filter_In; split; assumption | apply Z.eqb_refl]. Qed.
Lemma in_existsb : forall f k, existsb (Z.eqb k) (filter f buttons) = true -> In k buttons /\ f k = true.
Proof. intros f k H. apply existsb_exists in H. destruct H as (x & IN & EQ). apply Z.eqb_eq in EQ. subst x. apply filter_In in IN. exact IN. Qed.
Lemma sent_acc2 : forall d s o c, ready d s c -> let c' := view2 c (sent s o) in
  acc2 (dev_axis d PRESSURE) c (sent s o) /\ known_held c' /\ (if leaving s then vp c' = None /\ (forall k, vh c' k = false) else exists o', vp c' = Some o')
  /\ (forall k, vh c' k = true -> btn s k = true) /\ (forall k, vh c' k = true -> pbtn s k = true \/ (pressed_upd s = true /\ btn s k = true))
  /\ (dev_axis d PRESSURE = true -> vt c' = tip_after s /\ (leaving s = true -> vt c' = false)).
Proof.
  intros d s o c R. destruct R. cbv zeta. unfold sent.
  set (P := dev_axis d PRESSURE) in *.
  set (l0 := if entering s then [AIn o] else []).
  set (l1 := if econt s then _ else _).
  set (l2 := if released_upd s then _ else _).
  set (l3 := if pressed_upd s then _ else _).
  rewrite !acc2_app, !view2_app.
  assert (H0 : acc2 P c l0 /\ (exists o', vp (view2 c l0) = Some o') /\ vh (view2 c l0) = vh c /\ vt (view2 c l0) = vt c).
  { unfold l0. destruct (entering s); cbn; [|split; [exact I | split; [exact r_in0 | split; reflexivity]]]. split; [split; [exact r_in0 | exact I]|]. split; [exists o; reflexivity | split; reflexivity]. }
  destruct H0 as (A0 & (o' & V0) & B0 & T0). set (c0 := view2 c l0) in *. clearbody c0 l0.
  assert (H1 : acc2 P c0 l1 /\ vp (view2 c0 l1) = Some o' /\ vh (view2 c0 l1) = vh c /\ (P = true -> vt (view2 c0 l1) = tip_after s)).
  { unfold l1, tip_after. destruct (econt s) eqn:EE.
    - cbn. split; [split; [|exact I]|split; [exact V0 | split; [exact B0 | reflexivity]]]. intros HP. destruct (r_tip0 HP) as (X & Y & _). rewrite T0, <- X. apply Y. reflexivity.
    - destruct (lcont s) eqn:EL.
      + cbn. split; [split; [|exact I]|split; [exact V0 | split; [exact B0 | reflexivity]]]. intros HP. destruct (r_tip0 HP) as (X & _ & Y & _). rewrite T0, <- X. apply Y. reflexivity.
      + assert (HT : P = true -> contact s = vt c0). { intros HP. destruct (r_tip0 HP) as (X & _). congruence. }
        destruct (axes_upd s && negb (leaving s) && negb (entering s)); cbn.
        * split; [split; [exact HT | exact I]|]. split; [exact V0|]. split; [exact B0|]. intros HP. symmetry. exact (HT HP).
        * split; [exact I|]. split; [exact V0|]. split; [exact B0|]. intros HP. symmetry. exact (HT HP). }
  destruct H1 as (A1 & V1 & B1 & T1). set (c1 := view2 c0 l1) in *. clearbody c1 l1.
  assert (K1 : known_held c1). { intros k E. rewrite B1 in E. apply r_held0 in E. tauto. }
  assert (H2 : acc2 P c1 l2 /\ vp (view2 c1 l2) = Some o' /\ (forall k, vh (view2 c1 l2) k = true -> vh c k = true /\ btn s k = true) /\ (P = true -> vt (view2 c1 l2) = tip_after s) /\ known_held (view2 c1 l2)
     /\ (leaving s = true -> forall k, vh (view2 c1 l2) k = false)).
  { unfold l2. destruct (released_upd s) eqn:ER.
    - set (f := fun k => pbtn s k && negb (btn s k)). destruct (btn_view o (tip_after s) f false c1) as (X & Y & Z).
      split; [apply btn_acc; [intros HP; symmetry; exact (T1 HP) | discriminate]|]. split; [congruence|].
      assert (HB : forall k, vh (view2 c1 (btn_events o (tip_after s) f false)) k = true -> vh c k = true /\ btn s k = true).
      { intros k E. rewrite Z in E. destruct (existsb (Z.eqb k) (filter f buttons)) eqn:EX; [discriminate|]. rewrite B1 in E. split; [exact E|].
        destruct (r_held0 k E) as (IN & PB & _). destruct (btn s k) eqn:EB; [reflexivity|]. rewrite (existsb_in f k IN) in EX; [discriminate|]. unfold f. rewrite PB, EB. reflexivity. }
      split; [exact HB|]. split; [intros HP; rewrite Y; exact (T1 HP)|]. split; [apply btn_events_known; exact K1|].
      intros L k. destruct (vh _ k) eqn:E; [|reflexivity]. apply HB in E. destruct (r_leave0 L) as (_ & NB & _). rewrite NB in E. destruct E; discriminate.
    - cbn. split; [exact I|]. split; [exact V1|]. split; [intros k E; rewrite B1 in E; split; [exact E|]; destruct (r_held0 k E) as (_ & _ & [X|X]); [exact X | discriminate]|]. split; [exact T1|]. split; [exact K1|].
      intros L. destruct (r_leave0 L) as (X & _). discriminate. }
  destruct H2 as (A2 & V2 & B2 & T2 & K2 & L2). set (c2 := view2 c1 l2) in *. clearbody c2 l2.
  assert (H3 : acc2 P c2 l3 /\ vp (view2 c2 l3) = Some o' /\ (forall k, vh (view2 c2 l3) k = true -> btn s k = true /\ (pbtn s k = true \/ pressed_upd s = true)) /\ (P = true -> vt (view2 c2 l3) = tip_after s)
     /\ known_held (view2 c2 l3) /\ (leaving s = true -> forall k, vh (view2 c2 l3) k = false)).
  { unfold l3. destruct (pressed_upd s) eqn:EP.
    - set (f := fun k => btn s k && negb (pbtn s k)). destruct (btn_view o (tip_after s) f true c2) as (X & Y & Z).
      split; [apply btn_acc; [intros HP; symmetry; exact (T2 HP)|]|].
      { intros _ k IN F. destruct (vh c2 k) eqn:E; [|reflexivity]. apply B2 in E. destruct E as [E _]. destruct (r_held0 k E) as (_ & PB & _). unfold f in F. rewrite PB in F. rewrite andb_false_r in F. discriminate. }
      split; [congruence|]. split; [|split; [intros HP; rewrite Y; exact (T2 HP)|split; [apply btn_events_known; exact K2|]]].
      + intros k E. rewrite Z in E. destruct (existsb (Z.eqb k) (filter f buttons)) eqn:EX.
        * apply in_existsb in EX. destruct EX as [_ F]. unfold f in F. apply andb_prop in F. split; [tauto | right; reflexivity].
        * apply B2 in E. destruct E as [E EB]. split; [exact EB|]. left. apply r_held0 in E. tauto.
      + intros L k. rewrite Z. destruct (existsb (Z.eqb k) (filter f buttons)) eqn:EX; [|exact (L2 L k)].
        apply in_existsb in EX. destruct EX as [_ F]. unfold f in F. destruct (r_leave0 L) as (_ & NB & _). rewrite NB in F. discriminate.
    - cbn. split; [exact I|]. split; [exact V2|]. split; [|split; [exact T2 | split; [exact K2 | exact L2]]]. intros k E. apply B2 in E. destruct E as [E EB]. split; [exact EB|]. left. apply r_held0 in E. tauto. }
  destruct H3 as (A3 & V3 & B3 & T3 & K3 & L3). set (c3 := view2 c2 l3) in *. clearbody c3 l3.
  assert (TL : leaving s = true -> P = true -> vt c3 = false).
  { intros L HP. rewrite (T3 HP). unfold tip_after. destruct (r_leave0 L) as (_ & _ & X). destruct (X HP) as [E1 E2]. rewrite E1, E2. destruct (contact s); reflexivity. }
  destruct (leaving s) eqn:EL.
  - cbn. split; [split; [exact A0|]; split; [exact A1|]; split; [exact A2|]; split; [exact A3|]; split; [|exact I]; split; [exact (L3 eq_refl) | exact (TL eq_refl)]|].
    split; [exact K3|]. split; [split; [reflexivity | exact (L3 eq_refl)]|]. split; [intros k E; apply B3 in E; tauto|]. split; [intros k E; apply B3 in E; tauto|].
    intros HP. split; [exact (T3 HP) | intros _; exact (TL eq_refl HP)].
  - cbn. split; [tauto|]. split; [exact K3|]. split; [exists o'; exact V3|]. split; [intros k E; apply B3 in E; tauto|]. split; [intros k E; apply B3 in E; tauto|].
    intros HP. split; [exact (T3 HP) | discriminate].
Qed.
