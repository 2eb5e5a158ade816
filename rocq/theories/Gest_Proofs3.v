(** * Touchpad gestures: scrolling *)
Require Import Coq.ZArith.ZArith Coq.QArith.QArith Coq.QArith.Qabs Coq.Lists.List Coq.Bool.Bool Coq.micromega.Lia Coq.micromega.Lqa.
Require Import Verif.Scroll_Model.
Require Verif.Es_Model.
Require Import Verif.Gest_Model Verif.Gest_Spec Verif.Gest_Proofs Verif.Gest_Proofs2.
Import ListNotations.
Open Scope Z_scope.

Lemma sumz_map f l : sumz f l = fold_right Z.add 0 (map f l).
Proof. induction l as [|t l IH]; cbn; [reflexivity|]. unfold sumz in IH. rewrite IH. reflexivity. Qed.
Lemma is_average p f : average p f (touches_delta p f true).
Proof.
  unfold average, touches_delta. fold (counts p f). cbn [negb orb]. destruct (counts p f) as [|a l] eqn:E.
  - left. split; [reflexivity|]. reflexivity.
  - right. split; [discriminate|]. cbn [length Nat.eqb]. rewrite !sumz_map. set (n := S (length l)).
    assert (N : ~ (inject_Z (Z.of_nat n) == 0)%Q) by (unfold Qeq, n; cbn; lia). cbn [fst snd]. split; field; exact N.
Qed.

(** ** Staying close to an axis *)
Lemma decay_nonneg td : 0 <= td <= 100000 ->
  (0 <= (if 0 <? td then if Qle_bool (inject_Z td) 33000 then (50000 - inject_Z td) / 50000 else (100000 - inject_Z td) / 200000 else 0))%Q.
Proof.
  intros H. assert (A : (inject_Z td <= 100000)%Q) by (unfold Qle; cbn; lia). destruct (0 <? td); [|lra].
  destruct (Qle_bool (inject_Z td) 33000) eqn:E.
  - apply Qle_bool_iff in E. apply Qle_shift_div_l; lra.
  - apply Qle_shift_div_l; lra.
Qed.
Lemma td_range t prev : let td := if prev =? 0 then 0 else t - prev in let td := if (td <? 0) || (100000 <? td) then 0 else td in 0 <= td <= 100000.
Proof. cbn zeta. set (a := if prev =? 0 then 0 else t - prev). destruct (a <? 0) eqn:X, (100000 <? a) eqn:Y; cbn; lia. Qed.
Lemma dirq0 b q : (dirq b q == 0 <-> q == 0)%Q.
Proof. unfold dirq. destruct b; [|reflexivity]. split; intros H; lra. Qed.
Lemma cone_sum k b x y x' y' d : (0 <= k)%Q -> (0 <= d)%Q -> (k * Qabs x <= dirq b y)%Q -> (k * Qabs x' <= dirq b y')%Q -> (k * Qabs (x * d + x') <= dirq b (y * d + y'))%Q.
Proof.
  intros K D A B.
  assert (T : (Qabs (x * d + x') <= Qabs x * d + Qabs x')%Q).
  { eapply Qle_trans; [apply Qabs_triangle|]. rewrite Qabs_Qmult, (Qabs_pos d D). apply Qle_refl. }
  assert (T2 : (k * Qabs (x * d + x') <= k * (Qabs x * d + Qabs x'))%Q) by (rewrite !(Qmult_comm k); apply Qmult_le_compat_r; assumption).
  eapply Qle_trans; [exact T2|]. assert (A2 : (k * Qabs x * d <= dirq b y * d)%Q) by (apply Qmult_le_compat_r; assumption).
  setoid_replace (dirq b (y * d + y'))%Q with (dirq b y * d + dirq b y')%Q by (unfold dirq; destruct b; ring).
  setoid_replace (k * (Qabs x * d + Qabs x'))%Q with (k * Qabs x * d + k * Qabs x')%Q by ring. lra.
Qed.
Lemma dirq_abs b q : (dirq b q <= Qabs q)%Q.
Proof. destruct b; cbn; [rewrite <- Qabs_opp|]; apply Qle_Qabs. Qed.
Definition upright (b : bool) (l : slock) : Prop := ah l = false /\ dh l = 0 /\ ((373 # 100) * Qabs (vx l) <= dirq b (vy l))%Q.
Lemma upright_step b p l raw delta t : upright b l -> ((373 # 100) * Qabs (fst (mm p raw)) <= dirq b (snd (mm p raw)))%Q ->
  let '(l', d) := constrain p l raw delta t in upright b l' /\ fst d = 0%Q.
Proof.
  intros (A & B & C) M. unfold constrain. rewrite A, B. cbn [andb].
  pose proof (td_range t (tprev l)) as TR. cbn zeta in TR |- *. set (td := if _ || _ then 0 else _) in *. clearbody td.
  pose proof (decay_nonneg td TR) as DN. set (dc := if 0 <? td then _ else _) in *. clearbody dc.
  set (x := (vx l * dc + fst (mm p raw))%Q). set (y := (vy l * dc + snd (mm p raw))%Q).
  assert (CN : ((373 # 100) * Qabs x <= dirq b y)%Q) by (apply cone_sum; auto; lra). pose proof (dirq_abs b y) as DA. pose proof (Qabs_nonneg x) as AX.
  assert (ST : forall k, (k <= 373 # 100)%Q -> steep k x y = true).
  { intros k K. unfold steep. apply orb_true_iff. right. apply Qle_bool_iff. assert (k * Qabs x <= (373 # 100) * Qabs x)%Q by (apply Qmult_le_compat_r; assumption). lra. }
  clearbody x y. rewrite !ST by (unfold Qle; cbn; lia). cbn [negb andb]. rewrite ?andb_false_r, ?andb_true_r. cbn [andb].
  assert (S0 : (if td <? 0 then 0 - td else 0) = 0) by (destruct (td <? 0) eqn:E; lia). rewrite S0.
  destruct (negb (Qle_bool (sq (x, y)) _)); cbn; (destruct (_ =? 100000); cbn; [|destruct (av l)]; cbn; repeat split; auto).
Qed.
Definition flat (b : bool) (l : slock) : Prop := av l = false /\ dv l = 0 /\ (Qabs (vy l) <= (27 # 100) * dirq b (vx l))%Q.
Lemma flat_step b p l raw delta t : 0 < rx p -> 0 < ry p -> zero2 raw = false -> flat b l -> (Qabs (snd (mm p raw)) <= (27 # 100) * dirq b (fst (mm p raw)))%Q ->
  let '(l', d) := constrain p l raw delta t in flat b l' /\ snd d = 0%Q.
Proof.
  intros RX RY NZ (A & B & C) M. unfold constrain. rewrite A, B, andb_false_r.
  pose proof (td_range t (tprev l)) as TR. cbn zeta in TR |- *. set (td := if _ || _ then 0 else _) in *. clearbody td.
  pose proof (decay_nonneg td TR) as DN. set (dc := if 0 <? td then _ else _) in *. clearbody dc.
  set (mx := fst (mm p raw)) in *. set (my := snd (mm p raw)) in *.
  assert (MNZ : ~ (mx == 0)%Q).
  { intros E. assert (Y0 : (my == 0)%Q).
    { pose proof (Qle_Qabs my) as P1. pose proof (Qle_Qabs (- my)) as P2. rewrite Qabs_opp in P2. assert (dirq b mx == 0)%Q by (apply dirq0; exact E). lra. }
    unfold mx, my, mm in E, Y0. cbn [fst snd] in E, Y0. pose proof (inj_pos _ RX) as PX. pose proof (inj_pos _ RY) as PY.
    assert (X1 : (fst raw == 0)%Q). { setoid_replace (fst raw) with (fst raw / inject_Z (rx p) * inject_Z (rx p))%Q by (field; lra). rewrite E. ring. }
    assert (Y1 : (snd raw == 0)%Q). { setoid_replace (snd raw) with (snd raw / inject_Z (ry p) * inject_Z (ry p))%Q by (field; lra). rewrite Y0. ring. }
    unfold zero2 in NZ. apply Qeq_bool_iff in X1, Y1. rewrite X1, Y1 in NZ. discriminate. }
  set (x := (vx l * dc + mx)%Q). set (y := (vy l * dc + my)%Q).
  assert (CN : (Qabs y <= (27 # 100) * dirq b x)%Q).
  { pose proof (cone_sum (100 # 27) b (vy l) (vx l) my mx dc) as K. fold x y in K.
    assert (100 # 27 >= 0)%Q by (unfold Qle; cbn; lia). assert (K1 : ((100 # 27) * Qabs y <= dirq b x)%Q).
    { apply K; auto; lra. } lra. }
  assert (XP : (0 < dirq b x)%Q).
  { assert (MP : (0 < dirq b mx)%Q). { pose proof (Qabs_nonneg my). assert (~ (dirq b mx == 0)%Q) by (rewrite dirq0; exact MNZ). lra. }
    assert (VP : (0 <= dirq b (vx l))%Q) by (pose proof (Qabs_nonneg (vy l)); lra).
    assert (DP : (0 <= dirq b (vx l) * dc)%Q) by (apply Qmult_le_0_compat; assumption).
    unfold x. setoid_replace (dirq b (vx l * dc + mx))%Q with (dirq b (vx l) * dc + dirq b mx)%Q by (unfold dirq; destruct b; ring). lra. }
  pose proof (dirq_abs b x) as DX. pose proof (Qabs_nonneg y) as AY.
  assert (S30 : steep (57 # 100) x y = false).
  { unfold steep. apply orb_false_iff. split.
    - destruct (Qeq_bool x 0) eqn:E; [|reflexivity]. apply Qeq_bool_iff in E. assert (dirq b x == 0)%Q by (apply dirq0; exact E). lra.
    - destruct (Qle_bool _ _) eqn:E; [|reflexivity]. apply Qle_bool_iff in E. assert (HX : (Qabs x == dirq b x)%Q) by (unfold dirq in *; destruct b; [rewrite Qabs_neg by lra | rewrite Qabs_pos by lra]; reflexivity). lra. }
  clearbody x y. rewrite S30. cbn [negb andb]. rewrite ?andb_false_r, ?andb_true_r. cbn [andb].
  assert (S0 : (if td <? 0 then 0 - td else 0) = 0) by (destruct (td <? 0) eqn:E; lia). rewrite S0.
  assert (Z0 : (if negb (steep (173 # 100) x y) && negb (Qle_bool (sq (x, y)) ((15 # 100) * (15 # 100))) && negb (steep (27 # 100) x y) then 0 else 0) = 0) by (destruct (_ && _); reflexivity).
  rewrite Z0. cbn. destruct (_ =? 100000); cbn; [|destruct (ah l)]; cbn; repeat split; auto.
Qed.
(** Where the axis events of a run come from *)
Definition ax_ok (P : Q * Q -> Prop) (nat_ : bool) (f : gframe) (p : gpad) (e : gout) : Prop :=
  match e with
  | TAxis (Axis _ v h) => is_stop v h = true \/ exists d, P d /\ (forall a, v = Some a -> a = dirq nat_ (snd d)) /\ (forall a, h = Some a -> a = dirq nat_ (fst d)) /\ (v = None -> (snd d == 0)%Q) /\ (h = None -> (fst d == 0)%Q)
  | _ => True
  end.
Lemma post_scroll_values (P : Q * Q -> Prop) f p c t d : (c_thr c == 0)%Q -> c_h c = c_v c -> c_inv c = false -> P d ->
  Forall (ax_ok P (c_nat c) f p) (map TAxis (snd (post_scroll c t (fst d) (snd d)))).
Proof.
  intros T H IV PD. pose proof (post_scroll_on c t (fst d) (snd d) T H) as K. destruct (post_scroll c t (fst d) (snd d)) as [c' o]. destruct K as (_ & _ & _ & N & J & _ & ->). cbn [snd].
  destruct (is0 (fst d) && is0 (snd d)); cbn; [constructor|]. constructor; [|constructor]. cbn. right. exists d. split; [exact PD|]. rewrite N, J, IV.
  unfold is0. destruct (Qeq_bool (snd d) 0) eqn:Y, (Qeq_bool (fst d) 0) eqn:X; cbn; repeat split; try (intros a E; inversion E; reflexivity); try discriminate; intros _; apply Qeq_bool_iff; assumption.
Qed.
Lemma scr_same b p s i : inv b s -> c_inv (sc (gstep p s i)) = c_inv (sc s) /\ c_nat (sc (gstep p s i)) = match i with GSetNatural x => x | _ => c_nat (sc s) end.
Proof.
  intros IN.
  assert (E : forall s t c, c_inv (sc (gend s t c)) = c_inv (sc s) /\ c_nat (sc (gend s t c)) = c_nat (sc s)).
  { intros s0 t c. unfold gend, stop_2fg. cbn. destruct (started s0); cbn; auto. destruct (gst s0); cbn; auto. destruct (meth s0); cbn; auto. }
  destruct i as [f h t|t|t|m t|x]; cbn [gstep].
  - assert (G : c_inv (sc (ghandle s f t)) = c_inv (sc s) /\ c_nat (sc (ghandle s f t)) = c_nat (sc s)).
    { unfold ghandle. destruct (Nat.eqb (count f) (fc s)); auto. destruct (Nat.eqb (count f) 0); [cbn; apply E|]. destruct (negb _); auto. destruct (Nat.eqb _ _); auto. }
    destruct G as [G1 G2]. rewrite <- G1, <- G2. set (s1 := ghandle s f t). clearbody s1. destruct h as [| | |one]; auto. unfold gpost. destruct (fc s1) eqn:F; auto. destruct one; cbn [pend fc with_count].
    + destruct (moved f); [unfold post_motion; destruct (_ && _)|]; cbn; apply E.
    + destruct (pend s1); auto. rewrite F.
      assert (PG : c_inv (sc (post_gesture p s1 f t)) = c_inv (sc s1) /\ c_nat (sc (post_gesture p s1 f t)) = c_nat (sc s1)).
      { clear. rewrite post_gesture_chain. cbn zeta. set (s2 := match gst s1 with G_NONE => _ | _ => _ end).
        assert (H2 : sc s2 = sc s1) by (subst s2; destruct (gst s1); auto; apply st_none_same). rewrite <- H2. clearbody s2.
        set (s3 := match gst s2 with G_UNKNOWN => _ | _ => _ end).
        assert (H3 : c_inv (sc s3) = c_inv (sc s2) /\ c_nat (sc s3) = c_nat (sc s2)).
        { subst s3. destruct (gst s2); auto. unfold detect. destruct (_ && _ && _); [cbn; auto|]. destruct (_ && _); [auto|].
          destruct (if _ <? _ then _ else _) as [[thumb tm] fm].
          destruct (_ && _); [destruct (Nat.eqb _ _); cbn; auto|]. destruct (_ && _ && _); [cbn; auto|].
          destruct (_ && _ && _); [cbn; auto|]. destruct (_ && _ && _ && _ && _); [cbn; auto|]. destruct (_ || _); [auto|].
          destruct (_ && _); [cbn; auto|]. destruct (_ && _); cbn; auto. }
        destruct H3 as [H3 H4]. rewrite <- H3, <- H4. clearbody s3. clear.
        assert (GS : sc (gstart s3 t) = sc s3) by (destruct (gstart_adds p s3 f t) as (_ & _ & C & _); exact C).
        destruct (gst s3); auto.
        - unfold st_scroll. destruct (meth s3); auto. destruct (zero2 _); auto. destruct (constrain _ _ _ _ _) as [l d]. rewrite GS. unfold post_scroll. destruct (if negb (c_h _) && _ then _ else _). cbn. auto.
        - unfold st_pinch. destruct (_ && _); cbn; rewrite ?GS; auto.
        - unfold st_swipe. destruct (_ && _); cbn; rewrite ?GS; auto. }
      destruct n as [|[|[|[|n]]]]; auto. destruct (moved f); [unfold post_motion; destruct (_ && _)|]; cbn; auto.
  - destruct (tmr s); auto. destruct (_ <=? _); auto. cbn. destruct (pend s); cbn; auto. apply (E (with_tmr s None)).
  - apply E.
  - destruct (Es_Model.smethod_eqb _ _); auto. unfold stop_2fg. destruct (meth s); cbn; auto.
  - auto.
Qed.
Lemma scr_run p m : forall l, c_inv (sc (after p m l)) = false /\ c_nat (sc (after p m l)) = natural_after l.
Proof.
  induction l as [|i l [A B]] using rev_ind; [split; reflexivity|]. rewrite after_app. unfold natural_after. rewrite fold_left_app. fold (natural_after l). cbn [fold_left].
  destruct (scr_same false p (after p m l) i (inv_run false p m l ltac:(discriminate))) as [C D]. rewrite C, D, A. split; [reflexivity|]. destruct i; auto.
Qed.
(** ** Scrolling in a run *)
Definition scrolls (p : gpad) (s : g) (f : gframe) (t : Z) (l : slock) (d : Q * Q) : Prop :=
  let raw := touches_delta p f true in
  exists l0, (started s = true /\ gst s = G_SCROLL /\ l0 = sl s \/ started s = false /\ l0 = slock0) /\ zero2 raw = false /\ zero2 (una f raw) = false /\ constrain p l0 raw (una f raw) t = (l, d).
Lemma adds_ax_none (P : Q * Q -> Prop) b f p s s' (Q0 : gout -> Prop) : (forall e, Q0 e -> match e with TAxis (Axis _ v h) => is_stop v h = true | _ => True end) -> adds Q0 s s' -> adds (ax_ok P b f p) s s'.
Proof. intros W. apply adds_weaken. intros e K. specialize (W e K). destruct e as [| | |[t v h]| |]; cbn; auto. Qed.
Lemma gend_sl s t c : sl (gend s t c) = sl s.
Proof. unfold gend, stop_2fg. cbn. destruct (started s); cbn; auto. destruct (gst s); cbn; auto. destruct (meth s); cbn; auto. Qed.
Lemma st_scroll_origin b p s f t : inv b s -> c_inv (sc s) = false -> gst s = G_SCROLL ->
  adds (ax_ok (fun d => exists l, scrolls p s f t l d) (c_nat (sc s)) f p) s (st_scroll p s f t) /\
  (sl (st_scroll p s f t) = sl s \/ exists l d, scrolls p s f t l d /\ sl (st_scroll p s f t) = l).
Proof.
  intros IN IV G. unfold st_scroll. destruct (meth s); try (split; [apply adds_refl; reflexivity | left; reflexivity]).
  destruct (zero2 (filtered (touches_delta p f true) (una f))) eqn:Z; [split; [apply adds_refl; reflexivity | left; reflexivity]|].
  assert (ZR : zero2 (touches_delta p f true) = false) by (unfold filtered in Z; destruct (zero2 (touches_delta p f true)); [discriminate Z | reflexivity]).
  assert (FE : filtered (touches_delta p f true) (una f) = una f (touches_delta p f true)) by (unfold filtered; rewrite ZR; reflexivity). rewrite FE in *.
  destruct (constrain p (sl (gstart s t)) (touches_delta p f true) (una f (touches_delta p f true)) t) as [l d] eqn:K.
  assert (SC : scrolls p s f t l d).
  { exists (sl (gstart s t)). repeat split; auto. unfold gstart. destruct (started s) eqn:S; [left; auto|]. right. rewrite G. auto. }
  assert (GS : sc (gstart s t) = sc s /\ out (gstart s t) = out s) by (unfold gstart; destruct (started s); [|rewrite G]; auto). destruct GS as [GS GO]. rewrite GS.
  pose proof (post_scroll_values (fun d => exists l, scrolls p s f t l d) f p (sc s) t d (in_thr b s IN) (in_vh b s IN) IV (ex_intro _ l SC)) as PV.
  destruct (post_scroll (sc s) t (fst d) (snd d)) as [c o]. cbn. split.
  - exists (map TAxis o). split; [cbn; rewrite GO; reflexivity | exact PV].
  - right. exists l, d. auto.
Qed.
Lemma detect_sl p s f t : sl (detect p s f t) = sl s /\ started (detect p s f t) = started s.
Proof.
  unfold detect. destruct (_ && _ && _); [cbn; auto|]. destruct (_ && _); [auto|].
  destruct (if _ <? _ then _ else _) as [[thumb tm] fm].
  destruct (_ && _); [destruct (Nat.eqb _ _); cbn; auto|]. destruct (_ && _ && _); [cbn; auto|].
  destruct (_ && _ && _); [cbn; auto|]. destruct (_ && _ && _ && _ && _); [cbn; auto|]. destruct (_ || _); [auto|].
  destruct (_ && _); [cbn; auto|]. destruct (_ && _); cbn; auto.
Qed.
Lemma ghandle_sl s f t : sl (ghandle s f t) = sl s /\ (started (ghandle s f t) = true -> started s = true /\ gst (ghandle s f t) = gst s) /\ (started (ghandle s f t) = false -> started s = false \/ gst (ghandle s f t) = G_NONE).
Proof.
  unfold ghandle. destruct (Nat.eqb (count f) (fc s)); [cbn; auto|]. destruct (Nat.eqb (count f) 0); [cbn; rewrite gend_sl, gend_started; repeat split; auto; try discriminate; intros _; right; apply gend_fc|].
  destruct (started s) eqn:S; cbn [negb]; [|cbn; rewrite S; repeat split; auto; discriminate]. destruct (Nat.eqb (count f) (pend s)); cbn; rewrite S; (split; [reflexivity | split; [auto | discriminate]]).
Qed.
Lemma scroll_origin p s f h t : inv false s -> c_inv (sc s) = false ->
  adds (ax_ok (fun d => exists s' l, scrolls p s' f t l d /\ sl s' = sl s /\ (started s = false -> started s' = false) /\ (started s' = true -> gst s = G_SCROLL)) (c_nat (sc s)) f p) s (gstep p s (GFrame f h t)) /\
  (sl (gstep p s (GFrame f h t)) = sl s \/ exists s' l d, scrolls p s' f t l d /\ sl s' = sl s /\ sl (gstep p s (GFrame f h t)) = l).
Proof.
  intros IN IV. set (P := fun d => exists s' l, _).
  assert (EA : forall b s t c, adds (ax_ok P b f p) s (gend s t c)).
  { intros b s0 t0 c. eapply adds_ax_none; [|apply gend_adds]. intros e; destruct e as [| | |[t' v x]| |]; cbn; tauto. }
  assert (HA : adds (ax_ok P (c_nat (sc s)) f p) s (ghandle s f t)).
  { unfold ghandle. destruct (Nat.eqb (count f) (fc s)); [apply adds_refl; reflexivity|]. destruct (Nat.eqb (count f) 0).
    - destruct (EA (c_nat (sc s)) s t false) as (o & O & F). exists o. auto.
    - destruct (negb _); [apply adds_refl; reflexivity|]. destruct (Nat.eqb _ _); apply adds_refl; reflexivity. }
  pose proof (inv_ghandle false s f t IN) as I1.
  assert (SCR : c_inv (sc (ghandle s f t)) = false /\ c_nat (sc (ghandle s f t)) = c_nat (sc s)).
  { destruct (scr_same false p s (GFrame f GSilent t) IN) as [A B]. cbn [gstep] in A, B. rewrite A, B. auto. }
  destruct SCR as [IV1 N1]. destruct (ghandle_sl s f t) as (L1 & S1 & S2).
  cbn [gstep]. set (s1 := ghandle s f t) in *. clearbody s1.
  destruct h as [| | |one]; try (split; [exact HA | left; exact L1]).
  - split; [eapply adds_trans; [exact HA | apply EA] | left; rewrite gend_sl; exact L1].
  - unfold gpost. destruct (fc s1) eqn:FC; [split; [exact HA | left; exact L1]|]. destruct one; cbn [pend fc with_count].
    + destruct (EA (c_nat (sc s)) s1 t true) as (o & O & F).
      assert (A2 : adds (ax_ok P (c_nat (sc s)) f p) s1 (with_count (gend s1 t true) 1 0)) by (exists o; auto).
      destruct (moved f); [|split; [eapply adds_trans; eauto | left; cbn; rewrite gend_sl; exact L1]].
      split; [|left; unfold post_motion; destruct (_ && _); cbn; rewrite gend_sl; exact L1].
      eapply adds_trans; [exact HA|]. eapply adds_trans; [exact A2|]. eapply adds_ax_none; [|apply post_motion_adds]. intros e; destruct e; tauto.
    + destruct (pend s1); [|split; [exact HA | left; exact L1]]. rewrite FC.
      assert (PG : (2 <= fc s1 <= 4)%nat -> adds (ax_ok P (c_nat (sc s)) f p) s1 (post_gesture p s1 f t) /\ (sl (post_gesture p s1 f t) = sl s \/ exists s' l d, scrolls p s' f t l d /\ sl s' = sl s /\ sl (post_gesture p s1 f t) = l)).
      { intros FR. rewrite post_gesture_chain. cbn zeta. set (s2 := match gst s1 with G_NONE => _ | _ => _ end).
        assert (NS : started s1 = true -> gst s1 <> G_NONE /\ gst s1 <> G_UNKNOWN).
        { intros S. destruct I1 as [A B C D [x [E F]]]. unfold fits in F. rewrite S in F. split; intros H; rewrite H in F; exact F. }
        assert (H2 : out s2 = out s1 /\ sc s2 = sc s1 /\ sl s2 = sl s1 /\ started s2 = started s1 /\ inv false s2 /\ (started s2 = true -> gst s2 = gst s1)).
        { subst s2. destruct (gst s1) eqn:G; auto 10. destruct (st_none_same p s1 f t) as (A1 & A2 & A3 & A4 & A5 & A6 & A7 & A8). rewrite A1, A6, A8, st_none_started.
          assert (S : started s1 = false) by (destruct (started s1); [destruct (NS eq_refl); congruence | reflexivity]). rewrite S. repeat (split; [reflexivity|]). split; [apply inv_st_none; assumption | discriminate]. }
        destruct H2 as (O2 & C2 & L2 & T2 & I2 & G2). clearbody s2.
        set (s3 := match gst s2 with G_UNKNOWN => _ | _ => _ end).
        assert (H3 : adds (ax_ok P (c_nat (sc s)) f p) s2 s3 /\ c_inv (sc s3) = c_inv (sc s2) /\ c_nat (sc s3) = c_nat (sc s2) /\ sl s3 = sl s2 /\ started s3 = started s2 /\ inv false s3 /\ (started s3 = true -> gst s3 = gst s1)).
        { subst s3. destruct (gst s2) eqn:G.
          - split; [apply adds_refl; reflexivity|]. repeat (split; [reflexivity|]). split; [exact I2|]. intros S. specialize (G2 S). congruence.
          - destruct (detect_sl p s2 f t) as [D1 D2]. assert (S : started s2 = false).
            { destruct (started s2) eqn:S; [|reflexivity]. specialize (G2 eq_refl). destruct (NS (eq_sym T2)). congruence. }
            split; [eapply adds_ax_none; [|apply detect_adds]; intros e; destruct e; tauto|]. 
            destruct (inv_detect false p s2 f t S I2) as [DI DS]. assert (DC : c_inv (sc (detect p s2 f t)) = c_inv (sc s2) /\ c_nat (sc (detect p s2 f t)) = c_nat (sc s2)).
            { clear. unfold detect. destruct (_ && _ && _); [cbn; auto|]. destruct (_ && _); [auto|].
              destruct (if _ <? _ then _ else _) as [[thumb tm] fm].
              destruct (_ && _); [destruct (Nat.eqb _ _); cbn; auto|]. destruct (_ && _ && _); [cbn; auto|].
              destruct (_ && _ && _); [cbn; auto|]. destruct (_ && _ && _ && _ && _); [cbn; auto|]. destruct (_ || _); [auto|].
              destruct (_ && _); [cbn; auto|]. destruct (_ && _); cbn; auto. }
            destruct DC as [DC1 DC2]. repeat (split; [assumption|]). intros; congruence.
          - split; [apply adds_refl; reflexivity|]. repeat (split; [reflexivity|]). split; [exact I2|]. intros S. specialize (G2 S). congruence.
          - split; [apply adds_refl; reflexivity|]. repeat (split; [reflexivity|]). split; [exact I2|]. intros S. specialize (G2 S). congruence.
          - split; [apply adds_refl; reflexivity|]. repeat (split; [reflexivity|]). split; [exact I2|]. intros S. specialize (G2 S). congruence. }
        destruct H3 as (A3 & C3 & C3' & L3 & T3 & I3 & G3). clearbody s3.
        assert (A13 : adds (ax_ok P (c_nat (sc s)) f p) s1 s3) by (eapply adds_trans; [apply adds_refl; exact O2 | exact A3]).
        assert (L13 : sl s3 = sl s) by congruence.
        assert (NA : adds (ax_ok P (c_nat (sc s)) f p) s1 s3 /\ (sl s3 = sl s \/ exists s' l d, scrolls p s' f t l d /\ sl s' = sl s /\ sl s3 = l)) by auto.
        assert (GO : forall x, gst s3 = x -> x <> G_SCROLL -> sl (gstart s3 t) = sl s3).
        { intros x X N. unfold gstart. destruct (started s3); [reflexivity|]. rewrite X. destruct x; try reflexivity. congruence. }
        assert (NoAx : forall s' (Q0 : gout -> Prop), adds Q0 s3 s' -> (forall e, Q0 e -> match e with TAxis (Axis _ v h) => is_stop v h = true | _ => True end) -> adds (ax_ok P (c_nat (sc s)) f p) s1 s').
        { intros s' Q0 A W. eapply adds_trans; [exact A13|]. eapply adds_ax_none; eauto. }
        assert (GA : forall x, gst s3 = x -> x <> G_SCROLL -> adds (fun e => match e with TAxis _ => False | _ => True end) s3 (gstart s3 t)).
        { intros x X N. unfold gstart. destruct (started s3); [apply adds_refl; reflexivity|]. rewrite X. destruct x; try (apply adds_refl; reflexivity); eexists; (split; [reflexivity | repeat constructor]). }
        destruct (gst s3) eqn:G; try exact NA.
        - destruct (st_scroll_origin false p s3 f t I3) as [A L]; [congruence | exact G|]. split.
          + eapply adds_trans; [exact A13|]. rewrite C3', C2, N1 in A. eapply adds_weaken; [|exact A]. intros e. destruct e as [| | |[t' v x]| |]; cbn; auto. intros [H|(d & (l & SL) & R)]; [left; exact H|]. right. exists d. split; [|exact R].
            exists s3, l. split; [exact SL|]. split; [exact L13|]. split.
            * intros S. rewrite T3, T2. destruct (started s1) eqn:SS; [|reflexivity]. destruct (S1 eq_refl). congruence.
            * intros S. assert (S1t : started s1 = true) by congruence. destruct (S1 S1t) as [_ E]. rewrite <- E. symmetry. apply G3, S.
          + destruct L as [L|(l & d & SL & L)]; [left; congruence | right; exists s3, l, d; auto].
        - split.
          + unfold st_pinch. destruct (_ && _); [apply adds_trans with (s1 := s3); [exact A13 | apply adds_refl; reflexivity]|].
            eapply NoAx with (Q0 := fun e => match e with TAxis _ => False | _ => True end); [|intros e; destruct e; tauto].
            eapply adds_trans; [apply (GA _ eq_refl); discriminate|]. eexists. split; [reflexivity | repeat constructor].
          + left. unfold st_pinch. destruct (_ && _); cbn; [exact L13|]. rewrite (GO G_PINCH); [exact L13 | exact eq_refl | discriminate].
        - split.
          + unfold st_swipe. destruct (_ && _); [exact A13|].
            eapply NoAx with (Q0 := fun e => match e with TAxis _ => False | _ => True end); [|intros e; destruct e; tauto].
            eapply adds_trans; [apply (GA _ eq_refl); discriminate|]. eexists. split; [reflexivity | repeat constructor].
          + left. unfold st_swipe. destruct (_ && _); cbn; [exact L13|]. rewrite (GO G_SWIPE); [exact L13 | exact eq_refl | discriminate]. }
      destruct n as [|[|[|[|n]]]]; try (destruct PG as [PG1 PG2]; [lia|]; split; [eapply adds_trans; eauto | exact PG2]); [|split; [exact HA | left; exact L1]].
      destruct (moved f); [|split; [exact HA | left; exact L1]]. split; [|left; unfold post_motion; destruct (_ && _); exact L1].
      eapply adds_trans; [exact HA|]. eapply adds_ax_none; [|apply post_motion_adds]. intros e; destruct e; tauto.
Qed.
Lemma other_sl p s i : (forall f h t, i <> GFrame f h t) -> sl (gstep p s i) = sl s.
Proof.
  intros N. destruct i as [f h t'|t'|t'|m' t'|b]; cbn.
  - destruct (N f h t' eq_refl).
  - destruct (tmr s); auto. destruct (_ <=? _); auto. cbn. destruct (pend s); cbn; auto. apply (gend_sl (with_tmr s None)).
  - apply gend_sl.
  - destruct (Es_Model.smethod_eqb _ _); auto. unfold stop_2fg. destruct (meth s); auto.
  - reflexivity.
Qed.
Lemma constrain_vals p l raw delta t : let d := snd (constrain p l raw delta t) in (fst d = 0%Q \/ fst d = fst delta) /\ (snd d = 0%Q \/ snd d = snd delta).
Proof.
  unfold constrain. destruct (ah l && av l); [cbn; auto|]. cbn zeta. 
  destruct (if _ =? 100000 then (true, _) else _) as [a1 a2]. destruct (if _ =? 100000 then _ else (a1, a2)) as [a3 a4]. destruct (if _ && _ && _ then (true, true) else _) as [a5 a6]. cbn.
  split; match goal with |- context [if ?c then _ else _] => destruct c end; auto.
Qed.
Lemma upright_run b p m : forall l, Forall (along_y b p) l -> upright b (sl (after p m l)).
Proof.
  induction l as [|i l IH] using rev_ind; intros A; [cbn; repeat split; unfold Qle; destruct b; cbn; lia|]. apply Forall_app in A as [A1 A2]. specialize (IH A1). inversion A2 as [|? ? AI _]; subst.
  rewrite after_app. pose proof (inv_run false p m l ltac:(discriminate)) as IN. destruct (scr_run p m l) as [IV _].
  destruct i as [f h t'|t'|t'|m' t'|b']; try (rewrite other_sl; [exact IH | discriminate]).
  destruct (scroll_origin p (after p m l) f h t' IN IV) as [_ [E|(s' & l' & d & (l0 & L0 & _ & _ & K) & SE & E)]]; rewrite E; [exact IH|].
  cbn in AI. specialize (AI _ (is_average p f)). assert (U0 : upright b l0).
  { destruct L0 as [(_ & _ & ->)|(_ & ->)]; [rewrite SE; exact IH | repeat split; unfold Qle; destruct b; cbn; lia]. }
  pose proof (upright_step b p l0 (touches_delta p f true) (una f (touches_delta p f true)) t' U0 AI) as H. rewrite K in H. apply H.
Qed.
Lemma flat_run b p m : 0 < rx p -> 0 < ry p -> forall l, Forall (along_x b p) l -> flat b (sl (after p m l)).
Proof.
  intros RX RY. induction l as [|i l IH] using rev_ind; intros A; [cbn; repeat split; unfold Qle; destruct b; cbn; lia|]. apply Forall_app in A as [A1 A2]. specialize (IH A1). inversion A2 as [|? ? AI _]; subst.
  rewrite after_app. pose proof (inv_run false p m l ltac:(discriminate)) as IN. destruct (scr_run p m l) as [IV _].
  destruct i as [f h t'|t'|t'|m' t'|b']; try (rewrite other_sl; [exact IH | discriminate]).
  destruct (scroll_origin p (after p m l) f h t' IN IV) as [_ [E|(s' & l' & d & (l0 & L0 & ZR & _ & K) & SE & E)]]; rewrite E; [exact IH|].
  cbn in AI. specialize (AI _ (is_average p f)). assert (U0 : flat b l0).
  { destruct L0 as [(_ & _ & ->)|(_ & ->)]; [rewrite SE; exact IH | repeat split; unfold Qle; destruct b; cbn; lia]. }
  pose proof (flat_step b p l0 (touches_delta p f true) (una f (touches_delta p f true)) t' RX RY ZR U0 AI) as H. rewrite K in H. apply H.
Qed.
