Require Import Coq.ZArith.ZArith Coq.Lists.List Coq.Bool.Bool Coq.micromega.Lia.
Require Import Verif.MiddleButton_Model Verif.MiddleButton_Spec.
Import ListNotations.
Open Scope Z_scope.

Definition b2z (b : bool) : Z := if b then 1 else 0.
Definition kmax (c : Z) : Z := if c =? BTN_MIDDLE then 2 else 1.

Fixpoint pre_ok (n k c : Z) (l : list mout) : Prop :=
  0 <= n <= k /\ match l with [] => True | o :: r => pre_ok (n + delta c o) k c r end.

Lemma down_app : forall c a b, down c (a ++ b) = down c a + down c b.
Proof. induction a; intros; simpl; auto. rewrite IHa. lia. Qed.
Lemma pre_ok_app : forall c k a b n, pre_ok n k c a -> pre_ok (n + down c a) k c b -> pre_ok n k c (a ++ b).
Proof.
  induction a; simpl; intros b n H1 H2; [rewrite Z.add_0_r in H2; auto|].
  destruct H1. split; auto. apply IHa; auto. rewrite <- Z.add_assoc. auto.
Qed.
Lemma pre_ok_within : forall c k l n, pre_ok n k c l ->
  forall b a, l = b ++ a -> 0 <= n + down c b <= k.
Proof.
  induction l; intros n H b a0 E.
  - destruct b; [|discriminate]. simpl in *. lia.
  - destruct b as [|x b]; simpl in *; [lia|]. inversion E; subst. destruct H as [_ H].
    specialize (IHl _ H b a0 eq_refl). lia.
Qed.

(** Invariant linking physical state, logical counts, machine and holds. *)
Definition fin := reported_once.
Definition mid (h : option (Z * Z)) : Prop := exists k, 1 <= k /\ h = Some (0, k).

Definition SINV (s : mstate) (hl hr hm : bool) (cl cr cm : Z) (Hl Hr : option (Z * Z))
  (mask : Z) (tm : option Z) : Prop :=
  match s with
  | IDLE => hl = false /\ hr = false /\ cl = 0 /\ cr = 0 /\ cm = b2z hm /\ tm = None /\ fin Hl /\ fin Hr
  | LEFT_DOWN => hl = true /\ hr = false /\ cl = 0 /\ cr = 0 /\ cm = b2z hm /\ tm <> None /\
      Hl = Some (0, 0) /\ fin Hr
  | RIGHT_DOWN => hl = false /\ hr = true /\ cl = 0 /\ cr = 0 /\ cm = b2z hm /\ tm <> None /\
      fin Hl /\ Hr = Some (0, 0)
  | MIDDLE => hl = true /\ hr = true /\ cl = 0 /\ cr = 0 /\ cm = b2z hm + 1 /\ tm = None /\ mid Hl /\ mid Hr
  | LEFT_UP_PENDING => hl = true /\ hr = false /\ cl = 0 /\ cr = 0 /\ cm = b2z hm /\ tm = None /\ mid Hl /\ fin Hr
  | RIGHT_UP_PENDING => hl = false /\ hr = true /\ cl = 0 /\ cr = 0 /\ cm = b2z hm /\ tm = None /\ fin Hl /\ mid Hr
  | PASSTHROUGH => cl = b2z hl /\ cr = b2z hr /\ cm = b2z hm /\ mask <> 0 /\ tm = None /\ fin Hl /\ fin Hr
  | IGNORE_LR => hl = true /\ hr = true /\ cl = 0 /\ cr = 0 /\ cm = b2z hm /\ tm = None /\ fin Hl /\ fin Hr
  | IGNORE_L => hl = true /\ cl = 0 /\ cr = b2z hr /\ cm = b2z hm /\ tm = None /\ fin Hl /\ fin Hr
  | IGNORE_R => hr = true /\ cl = b2z hl /\ cr = 0 /\ cm = b2z hm /\ tm = None /\ fin Hl /\ fin Hr
  end.

Definition INV (hw : Z -> bool) (cnt : Z -> Z) (Hl Hr : option (Z * Z)) (m : mb) : Prop :=
  (forall c, ~ (BTN_LEFT <= c < BTN_LEFT + 32) -> hw c = false) /\
  (forall c, other c = true -> cnt c = b2z (hw c)) /\
  if m_enabled m then
    (forall n, 0 <= n -> Z.testbit (m_mask m) n = hw (BTN_LEFT + n)) /\
    SINV (m_state m) (hw BTN_LEFT) (hw BTN_RIGHT) (hw BTN_MIDDLE)
         (cnt BTN_LEFT) (cnt BTN_RIGHT) (cnt BTN_MIDDLE) Hl Hr
         (m_mask m) (m_timer m)
  else m_state m = IDLE /\ m_mask m = 0 /\ m_timer m = None /\
       cnt BTN_LEFT = b2z (hw BTN_LEFT) /\ cnt BTN_RIGHT = b2z (hw BTN_RIGHT) /\
       cnt BTN_MIDDLE = b2z (hw BTN_MIDDLE) /\ fin Hl /\ fin Hr.

(** mask facts *)
Lemma mask_zero : forall mask (hw : Z -> bool),
  (forall n, 0 <= n -> Z.testbit mask n = hw (BTN_LEFT + n)) ->
  (forall c, ~ (BTN_LEFT <= c < BTN_LEFT + 32) -> hw c = false) ->
  (mask = 0 <-> all_up hw).
Proof.
  intros mask hw HM HR. split.
  - intros -> c. destruct (Z_lt_le_dec c BTN_LEFT).
    + apply HR. unfold BTN_LEFT in *; lia.
    + specialize (HM (c - BTN_LEFT) ltac:(lia)). rewrite Z.bits_0 in HM.
      replace (BTN_LEFT + (c - BTN_LEFT)) with c in HM by lia. auto.
  - intros H. apply Z.bits_inj_0. intros n. destruct (Z_lt_le_dec n 0).
    + apply Z.testbit_neg_r; auto.
    + rewrite HM by auto. apply H.
Qed.

Definition new_mask (mask code : Z) (p : bool) : Z :=
  if p then Z.setbit mask (code - BTN_LEFT) else Z.clearbit mask (code - BTN_LEFT).
Lemma new_mask_ok : forall mask hw code t (p : bool), BTN_LEFT <= code ->
  (forall n, 0 <= n -> Z.testbit mask n = hw (BTN_LEFT + n)) ->
  forall n, 0 <= n -> Z.testbit (new_mask mask code p) n = hw_step hw (Button code t p) (BTN_LEFT + n).
Proof.
  intros mask hw code t p Hc HM n Hn. unfold new_mask, hw_step. specialize (HM n Hn).
  destruct (Z.eqb_spec (BTN_LEFT + n) code) as [E|E].
  - replace (code - BTN_LEFT) with n by lia. destruct p.
    + apply Z.setbit_eq; auto.
    + apply Z.clearbit_eq.
  - destruct p.
    + rewrite Z.setbit_neq by lia. auto.
    + rewrite Z.clearbit_neq by lia. auto.
Qed.

Inductive op_ok (hw : Z -> bool) (m : mb) : mop -> Prop :=
| ok_b : forall c t, BTN_LEFT <= c < BTN_LEFT + 32 -> op_ok hw m (Button c t (negb (hw c)))
| ok_t : forall now, m_timer m <> None -> op_ok hw m (Timeout now)
| ok_c : forall b, (b = true -> m_enabled m = false -> all_up hw) -> op_ok hw m (Config b).

Definition STEP_OK (hw : Z -> bool) (cnt : Z -> Z) Hl Hr m o : Prop :=
  let m' := fst (mstep m o) in let l := snd (mstep m o) in
  INV (hw_step hw o) (fun c => cnt c + down c l)
      (hold_step BTN_LEFT Hl (o, l)) (hold_step BTN_RIGHT Hr (o, l))
      m' /\
  (forall c, pre_ok (cnt c) (kmax c) c l) /\
  ~ In MBug l /\ other_out l = other_in [o].

Lemma other_spec : forall c, other c = true ->
  (BTN_LEFT =? c) = false /\ (BTN_RIGHT =? c) = false /\ (BTN_MIDDLE =? c) = false /\
  (c =? BTN_LEFT) = false /\ (c =? BTN_RIGHT) = false /\ (c =? BTN_MIDDLE) = false.
Proof.
  intros c H. unfold other in H.
  rewrite (Z.eqb_sym BTN_LEFT), (Z.eqb_sym BTN_RIGHT), (Z.eqb_sym BTN_MIDDLE).
  destruct (c =? BTN_LEFT), (c =? BTN_RIGHT), (c =? BTN_MIDDLE); try discriminate; repeat split; auto.
Qed.

Ltac zc := cbv [BTN_LEFT BTN_RIGHT BTN_MIDDLE kmax b2z] in *; cbn in *.

Ltac dsplit := repeat match goal with
  | H : _ /\ _ |- _ => destruct H
  | H : mid _ |- _ => destruct H as (? & ? & ?)
  end.

Lemma code_cases : forall c, c = BTN_LEFT \/ c = BTN_RIGHT \/ c = BTN_MIDDLE \/ other c = true.
Proof.
  intros c. unfold other.
  destruct (Z.eqb_spec c BTN_LEFT), (Z.eqb_spec c BTN_RIGHT), (Z.eqb_spec c BTN_MIDDLE); simpl; auto.
Qed.

Lemma new_mask_zero : forall mask (hw : Z -> bool) code t (p : bool), BTN_LEFT <= code -> p = negb (hw code) ->
  (forall n, 0 <= n -> Z.testbit mask n = hw (BTN_LEFT + n)) ->
  (forall c, ~ (BTN_LEFT <= c < BTN_LEFT + 32) -> hw_step hw (Button code t p) c = false) ->
  if new_mask mask code p =? 0
  then p = false /\ (mask =? new_mask mask code p) = false /\ all_up (hw_step hw (Button code t p))
  else exists c, hw_step hw (Button code t p) c = true.
Proof.
  intros mask hw code t p Hc Hp HM HR.
  pose proof (new_mask_ok mask hw code t p Hc HM) as HM'.
  pose proof (mask_zero _ _ HM' HR) as HZ.
  destruct (Z.eqb_spec (new_mask mask code p) 0) as [E|E].
  - assert (HU := proj1 HZ E). pose proof (HU code) as HU1. unfold hw_step in HU1.
    rewrite Z.eqb_refl in HU1. split; auto. split; auto.
    apply Z.eqb_neq. intros C. rewrite E in C. subst mask.
    specialize (HM (code - BTN_LEFT) ltac:(lia)). rewrite Z.bits_0 in HM.
    replace (BTN_LEFT + (code - BTN_LEFT)) with code in HM by lia.
    rewrite <- HM in Hp. subst p. discriminate.
  - (* a nonzero mask has a bit set within range *)
    assert (D : (exists n, 0 <= n < 32 /\ Z.testbit (new_mask mask code p) n = true) \/
                (forall n, 0 <= n < 32 -> Z.testbit (new_mask mask code p) n = false)).
    { generalize (new_mask mask code p). intros z.
      assert (G : forall k, (exists n, 0 <= n < Z.of_nat k /\ Z.testbit z n = true) \/
                            (forall n, 0 <= n < Z.of_nat k -> Z.testbit z n = false)).
      { induction k as [|k [IH|IH]].
        - right. intros; lia.
        - left. destruct IH as (n & A & B). exists n. split; auto. lia.
        - destruct (Z.testbit z (Z.of_nat k)) eqn:T.
          + left. exists (Z.of_nat k). split; auto. lia.
          + right. intros n Hn. destruct (Z.eq_dec n (Z.of_nat k)); [subst; auto|apply IH; lia]. }
      exact (G 32%nat). }
    destruct D as [(n & A & B)|D].
    + exists (BTN_LEFT + n). rewrite <- HM' by lia. auto.
    + exfalso. apply E. apply HZ. intros c. destruct (Z_lt_le_dec c BTN_LEFT) as [Hlt|Hge].
      * apply HR. unfold BTN_LEFT in *. lia.
      * destruct (Z_lt_le_dec c (BTN_LEFT + 32)).
        -- specialize (HM' (c - BTN_LEFT) ltac:(lia)).
           replace (BTN_LEFT + (c - BTN_LEFT)) with c in HM' by lia. rewrite <- HM'. apply D. lia.
        -- apply HR. unfold BTN_LEFT in *; lia.
Qed.

Lemma pre_ok_nil : forall n k c, 0 <= n <= k -> pre_ok n k c [].
Proof. intros; simpl; auto. Qed.

(** The counts are always in range, so only the outputs matter. *)
Lemma INV_cnt : forall hw cnt Hl Hr m, INV hw cnt Hl Hr m ->
  forall c, 0 <= cnt c <= kmax c.
Proof.
  intros hw cnt Hl Hr m (HR & HO & HI) c.
  destruct (code_cases c) as [->|[->|[->|Ho]]].
  4:{ rewrite HO by auto. destruct (other_spec c Ho) as (_ & _ & _ & _ & _ & E).
      unfold kmax. rewrite E. destruct (hw c); simpl; lia. }
  all: unfold kmax; cbn; destruct (m_enabled m);
    [destruct HI as [_ HI]; unfold SINV in HI; destruct (m_state m)|];
    dsplit; unfold b2z in *;
    repeat match goal with H : _ = (if ?b then _ else _) |- _ => destruct b end; try lia.
  all: match goal with H : _ = (if ?b then _ else _) + 1 |- _ => destruct b; lia end.
Qed.

Ltac eqbs := repeat match goal with
  | H : (?a =? ?b) = _ |- context [?a =? ?b] => rewrite H
  | |- context [?a =? ?a] => rewrite Z.eqb_refl
  end.

(** Goals about holds. *)
Lemma fin_press : fin (Some (0 + 1, 0 + 0)). Proof. simpl; lia. Qed.

Ltac hold_tac :=
  unfold fin, reported_once, mid in *;
  repeat match goal with
  | |- context [match ?h with Some _ => _ | None => _ end] => is_var h; destruct h as [[? ?]|]
  | H : Some _ = Some _ |- _ => inversion H; clear H; subst
  end; cbn; 
  try match goal with |- exists _, _ => eexists; split; [|f_equal; f_equal; cbn; lia] end;
  try lia; try (intuition lia); auto.

Lemma app_in_bug : forall (a b : list mout), ~ In MBug a -> ~ In MBug b -> ~ In MBug (a ++ b).
Proof. intros a b H1 H2 H. apply in_app_or in H. tauto. Qed.

Definition after_range hw (HR : forall c, ~ (BTN_LEFT <= c < BTN_LEFT + 32) -> hw c = false)
  code t p (Hc : BTN_LEFT <= code < BTN_LEFT + 32) :
  forall c, ~ (BTN_LEFT <= c < BTN_LEFT + 32) -> hw_step hw (Button code t p) c = false.
Proof. intros c H. unfold hw_step. destruct (Z.eqb_spec c code); [subst; tauto|auto]. Qed.


Lemma button_eq : forall s mask first tm want t code p e,
  BTN_LEFT <= code < BTN_LEFT + 32 -> classify code p = e ->
  mstep (mkMB s mask first tm true want) (Button code t p) =
  let '(m1, o1, rc) := handle_event (mkMB s mask first tm true want) t e in
  let mk := new_mask mask code p in
  let '(m3, o3) := if negb (mask =? mk) && (mk =? 0)
                   then let '(a, b, _) := handle_event (set_mask m1 mk) t ALL_UP in (apply_config a, b)
                   else (set_mask m1 mk, []) in
  (m3, (o1 ++ o3) ++ if (rc : bool) then [] else [MPost code t p]).
Proof.
  intros s mask first tm want t code p e Hc He.
  unfold mstep, physical_button, filter_button. rewrite He. cbn [m_enabled negb].
  replace ((code <? BTN_LEFT) || (32 <=? code - BTN_LEFT)) with false
    by (symmetry; apply orb_false_iff; split; [apply Z.ltb_ge|apply Z.leb_gt]; lia).
  fold (new_mask mask code p).
  assert (HM : forall e, m_mask (fst (fst (handle_event (mkMB s mask first tm true want) t e))) = mask)
    by (intros e0; destruct s, e0; reflexivity).
  specialize (HM e).
  destruct (handle_event (mkMB s mask first tm true want) t e) as [[m1 o1] rc].
  cbn [fst snd] in HM. rewrite HM. fold (new_mask mask code p).
  cbv zeta.
  destruct (negb (mask =? new_mask mask code p) && (new_mask mask code p =? 0)).
  - destruct (handle_event (set_mask m1 (new_mask mask code p)) t ALL_UP) as [[m3 o3] rc3].
    destruct rc; rewrite ?app_nil_r; reflexivity.
  - destruct rc; rewrite ?app_nil_r; reflexivity.
Qed.

Lemma classify_L : forall p, classify BTN_LEFT p = if p then L_DOWN else L_UP. Proof. reflexivity. Qed.
Lemma classify_R : forall p, classify BTN_RIGHT p = if p then R_DOWN else R_UP. Proof. reflexivity. Qed.
Lemma classify_M : forall p, classify BTN_MIDDLE p = OTHER. Proof. reflexivity. Qed.
Lemma classify_O : forall c p, other c = true -> classify c p = OTHER.
Proof. intros c p H. destruct (other_spec c H) as (_ & _ & _ & A & B & _). unfold classify. rewrite A, B. reflexivity. Qed.

Ltac lr := change (BTN_LEFT =? BTN_LEFT) with true in *; change (BTN_LEFT =? BTN_RIGHT) with false in *;
  change (BTN_LEFT =? BTN_MIDDLE) with false in *; change (BTN_RIGHT =? BTN_LEFT) with false in *;
  change (BTN_RIGHT =? BTN_RIGHT) with true in *; change (BTN_RIGHT =? BTN_MIDDLE) with false in *;
  change (BTN_MIDDLE =? BTN_LEFT) with false in *; change (BTN_MIDDLE =? BTN_RIGHT) with false in *;
  change (BTN_MIDDLE =? BTN_MIDDLE) with true in *.

Local Arguments Z.eqb : simpl never.
Local Arguments Z.add : simpl never.
Local Arguments Z.sub : simpl never.


Lemma other_sym : forall c d, other c = true -> d = BTN_LEFT \/ d = BTN_RIGHT \/ d = BTN_MIDDLE ->
  (c =? d) = false /\ (d =? c) = false.
Proof. intros c d H [-> | [-> | ->]]; destruct (other_spec c H) as (? & ? & ? & ? & ? & ?); auto. Qed.

Ltac evalm := cbn [negb handle_event m_state h_idle h_ldown h_rdown h_middle h_lup h_rup h_passthrough
  h_ignore_lr h_ignore_l h_ignore_r set_mask set_state andb apply_config m_mask m_first m_timer m_enabled m_want fst snd app].

Lemma INV_holds_any : forall hw cnt Hl Hr m, INV hw cnt Hl Hr m ->
  (Hl = Some (0,0) \/ fin Hl) /\ (Hr = Some (0,0) \/ fin Hr).
Proof.
  intros hw cnt Hl Hr m (_ & _ & HI).
  destruct (m_enabled m); [destruct HI as [_ HI]; destruct (m_state m); unfold SINV in HI|];
    dsplit; subst; split; auto; right; simpl; lia.
Qed.

Ltac rwhw := repeat match goal with
  | H : ?f ?c = ?b |- context [?f ?c] => is_var f; rewrite H
  end.


Ltac solve1 HO HC :=
  match goal with
  | |- ~ _ => let H := fresh in intros H;
      repeat match goal with H : _ \/ _ |- _ => destruct H end; try discriminate; contradiction
  | |- forall c, other c = true -> _ =>
      let c := fresh "c" in let Ho := fresh "Ho" in intros c Ho; specialize (HO c Ho);
      destruct (other_spec c Ho) as (? & ? & ? & ? & ? & ?);
      cbn; eqbs; rewrite ?HO; cbn; try lia;
      repeat match goal with |- context [if ?b then _ else _] => destruct b end; try lia
  | |- forall c, 0 <= _ <= _ /\ _ =>
      let c := fresh "c" in let Ho := fresh in intros c; specialize (HC c);
      destruct (code_cases c) as [->|[->|[->|Ho]]];
      [ | | | destruct (other_spec _ Ho) as (? & ? & ? & ? & ? & ?); pose proof (HO _ Ho)];
      unfold kmax, b2z in *; cbn; lr; eqbs; rwhw; cbn; repeat split; try lia;
      repeat match goal with |- context [if ?b then _ else _] => destruct b end; try lia
  | |- _ => unfold b2z in *; rwhw; cbn; hold_tac
  end.

Ltac step_solve HO HC :=
  unfold INV, hold_step, emulated; cbn [m_enabled m_state m_mask m_timer m_first hw_step is_press fst snd emulated presses fold_right
    other_in other_out flat_map filter app down delta];
  lr; cbn; eqbs; rwhw;
  repeat match goal with
  | |- context [match ?h with Some _ => _ | None => _ end] => is_var h; destruct h as [[? ?]|]
  end; cbn;
  repeat match goal with |- _ /\ _ => split end;
  try assumption; try lia; try discriminate; try reflexivity; auto;
  solve1 HO HC.


Ltac step_solve2 code HO HC Hcode :=
  unfold INV, hold_step, emulated; cbn [m_enabled m_state m_mask m_timer m_first hw_step is_press fst snd emulated presses fold_right
    other_in other_out flat_map filter app down delta];
  lr; cbn; rewrite ?Hcode; eqbs; cbn; rwhw;
  repeat match goal with
  | |- context [match ?h with Some _ => _ | None => _ end] => is_var h; destruct h as [[? ?]|]
  end; cbn;
  repeat match goal with |- _ /\ _ => split end;
  try assumption; try lia; try discriminate; try reflexivity; auto;
  match goal with
  | |- ~ _ => solve1 HO HC
  | |- forall c, other c = true -> _ =>
      let c := fresh "c" in let Ho := fresh "Ho" in intros c Ho; pose proof (HO c Ho);
      destruct (other_spec c Ho) as (? & ? & ? & ? & ? & ?);
      cbn; eqbs; cbn; rewrite (Z.eqb_sym c code); destruct (Z.eqb_spec code c); [subst c|];
      unfold b2z in *; rwhw; cbn; try lia;
      repeat match goal with H : _ = (if ?b then _ else _) |- _ => destruct b end; try lia
  | |- forall c, 0 <= _ <= _ /\ _ =>
      let c := fresh "c" in let Ho := fresh in intros c; specialize (HC c);
      destruct (code_cases c) as [->|[->|[->|Ho]]];
      [ | | | destruct (other_spec _ Ho) as (? & ? & ? & ? & ? & ?); pose proof (HO _ Ho);
              try (destruct (Z.eqb_spec code c); [subst c|])];
      unfold kmax, b2z in *; cbn; lr; eqbs; rwhw; cbn; repeat split; try lia;
      repeat match goal with |- context [if ?b then _ else _] => destruct b end; try lia
  | |- _ => unfold b2z in *; rwhw; cbn; hold_tac
  end.

Lemma step_button : forall hw cnt Hl Hr m code t,
  INV hw cnt Hl Hr m -> BTN_LEFT <= code < BTN_LEFT + 32 ->
  STEP_OK hw cnt Hl Hr m (Button code t (negb (hw code))).
Proof.
  intros hw cnt Hl Hr m code t HI Hc.
  pose proof (INV_cnt _ _ _ _ _ HI) as HC.
  destruct HI as (HR & HO & HI).
  pose proof (after_range hw HR code t (negb (hw code)) Hc) as HR'.
  destruct m as [s mask first tm en want].
  cbn [m_enabled m_state m_mask m_timer m_first] in HI.
  destruct en.
  - destruct HI as [HM HS].
    pose proof (new_mask_ok mask hw code t (negb (hw code)) (proj1 Hc) HM) as HM'.
    pose proof (new_mask_zero mask hw code t (negb (hw code)) (proj1 Hc) eq_refl HM HR') as HZ.
    unfold STEP_OK.
    destruct (code_cases code) as [->|[->|[->|Ho]]].
    + rewrite (button_eq _ _ _ _ _ _ _ _ _ Hc (classify_L _)); cbv zeta.
      remember (new_mask mask BTN_LEFT (negb (hw BTN_LEFT))) as mk eqn:Emk. clear Emk.
      destruct (Z.eqb_spec mk 0) as [Emk|Emk].
      * destruct HZ as (P & Q & U). rewrite Q. subst mk.
        pose proof (U BTN_RIGHT) as UR; pose proof (U BTN_MIDDLE) as UM; clear U.
        cbn in UR, UM; lr.
        destruct (hw BTN_LEFT) eqn:EL; [|discriminate].
        destruct s; unfold SINV in HS; dsplit; try congruence; evalm.
        all: destruct want; evalm; cbv [Bool.eqb]; evalm; step_solve HO HC.
      * clear HZ. rewrite andb_false_r.
        destruct (hw BTN_LEFT) eqn:EL;
        destruct s; unfold SINV in HS; dsplit; try discriminate; evalm; step_solve HO HC.
    + rewrite (button_eq _ _ _ _ _ _ _ _ _ Hc (classify_R _)); cbv zeta.
      remember (new_mask mask BTN_RIGHT (negb (hw BTN_RIGHT))) as mk eqn:Emk. clear Emk.
      destruct (Z.eqb_spec mk 0) as [Emk|Emk].
      * destruct HZ as (P & Q & U). rewrite Q. subst mk.
        pose proof (U BTN_LEFT) as UR; pose proof (U BTN_MIDDLE) as UM; clear U.
        cbn in UR, UM; lr.
        destruct (hw BTN_RIGHT) eqn:EL; [|discriminate].
        destruct s; unfold SINV in HS; dsplit; try congruence; evalm.
        all: destruct want; evalm; cbv [Bool.eqb]; evalm; step_solve HO HC.
      * clear HZ. rewrite andb_false_r.
        destruct (hw BTN_RIGHT) eqn:EL;
        destruct s; unfold SINV in HS; dsplit; try discriminate; evalm; step_solve HO HC.
    + rewrite (button_eq _ _ _ _ _ _ _ _ _ Hc (classify_M _)); cbv zeta.
      remember (new_mask mask BTN_MIDDLE (negb (hw BTN_MIDDLE))) as mk eqn:Emk. clear Emk.
      destruct (Z.eqb_spec mk 0) as [Emk|Emk].
      * destruct HZ as (P & Q & U). rewrite Q. subst mk.
        pose proof (U BTN_LEFT) as UR; pose proof (U BTN_RIGHT) as UM; clear U.
        cbn in UR, UM; lr.
        destruct (hw BTN_MIDDLE) eqn:EL; [|discriminate].
        destruct s; unfold SINV in HS; dsplit; try congruence; evalm.
        all: destruct want; evalm; cbv [Bool.eqb]; evalm; step_solve HO HC.
      * clear HZ. rewrite andb_false_r.
        destruct (hw BTN_MIDDLE) eqn:EL;
        destruct s; unfold SINV in HS; dsplit; try discriminate; evalm; step_solve HO HC.
    + destruct (other_spec code Ho) as (O1 & O2 & O3 & O4 & O5 & O6).
      pose proof (HO code Ho) as HOc.
      rewrite (button_eq _ _ _ _ _ _ _ _ _ Hc (classify_O _ _ Ho)); cbv zeta.
      remember (new_mask mask code (negb (hw code))) as mk eqn:Emk. clear Emk.
      destruct (Z.eqb_spec mk 0) as [Emk|Emk].
      * destruct HZ as (P & Q & U). rewrite Q. subst mk.
        pose proof (U BTN_LEFT) as UL; pose proof (U BTN_RIGHT) as UR; pose proof (U BTN_MIDDLE) as UM; clear U.
        cbn in UL, UR, UM; rewrite ?O1, ?O2, ?O3 in *.
        destruct (hw code) eqn:EL; [|discriminate].
        destruct s; unfold SINV in HS; dsplit; try congruence; evalm.
        all: destruct want; evalm; cbv [Bool.eqb]; evalm; step_solve2 code HO HC Ho.
      * clear HZ. rewrite andb_false_r.
        destruct (hw code) eqn:EL;
        destruct s; unfold SINV in HS; dsplit; try discriminate; evalm; step_solve2 code HO HC Ho.
  - dsplit. subst s mask tm. unfold STEP_OK, mstep, physical_button, filter_button. evalm.
    destruct (code_cases code) as [->|[->|[->|Ho]]].
    + destruct (hw BTN_LEFT) eqn:EL; step_solve HO HC.
    + destruct (hw BTN_RIGHT) eqn:EL; step_solve HO HC.
    + destruct (hw BTN_MIDDLE) eqn:EL; step_solve HO HC.
    + destruct (other_spec code Ho) as (O1 & O2 & O3 & O4 & O5 & O6).
      pose proof (HO code Ho) as HOc.
      destruct (hw code) eqn:EL; step_solve2 code HO HC Ho.
Qed.

Lemma step_timeout : forall hw cnt Hl Hr m t,
  INV hw cnt Hl Hr m -> m_timer m <> None ->
  STEP_OK hw cnt Hl Hr m (Timeout t).
Proof.
  intros hw cnt Hl Hr m t HI Htm.
  pose proof (INV_cnt _ _ _ _ _ HI) as HC.
  destruct HI as (HR & HO & HI).
  destruct m as [s mask first tm en want].
  cbn [m_enabled m_state m_mask m_timer m_first] in HI, Htm.
  unfold STEP_OK, mstep, timeout.
  destruct en; [|dsplit; congruence].
  destruct HI as [HM HS].
  pose proof (mask_zero _ _ HM HR) as HZ.
  destruct s; unfold SINV in HS; dsplit; try congruence; evalm;
    (assert (mask <> 0) by (intros C; apply HZ in C;
       pose proof (C BTN_LEFT); pose proof (C BTN_RIGHT); congruence); clear HZ);
    step_solve HO HC.
Qed.

Lemma step_config : forall hw cnt Hl Hr m b,
  INV hw cnt Hl Hr m -> (b = true -> m_enabled m = false -> all_up hw) ->
  STEP_OK hw cnt Hl Hr m (Config b).
Proof.
  intros hw cnt Hl Hr m b HI Hb.
  pose proof (INV_cnt _ _ _ _ _ HI) as HC.
  assert (G : forall m', INV hw cnt Hl Hr m' -> fst (mstep m (Config b)) = m' ->
    STEP_OK hw cnt Hl Hr m (Config b)).
  { intros m' (A & B & D) E. unfold STEP_OK. rewrite E. simpl snd.
    unfold INV, hold_step, emulated, hw_step. simpl.
    split; [|split; [intros c; split; auto|auto]].
    split; [auto|]. split; [intros; rewrite B by auto; lia|].
    rewrite !Z.add_0_r, Z.sub_0_r.
    assert (H1 : forall h : option (Z * Z), match h with Some (a, m0) => Some (a + 0, m0 + 0) | None => None end = h)
      by (intros [[? ?]|]; rewrite ?Z.add_0_r; auto).
    rewrite !H1. auto. }
  destruct HI as (HR & HO & HI).
  destruct m as [s mask first tm en want].
  cbn [m_enabled m_state m_mask m_timer m_first] in HI, Hb.
  eapply G; [|reflexivity]. unfold mstep, set_config, apply_config; cbn [fst m_want m_enabled m_mask m_state m_first m_timer].
  destruct (Bool.eqb b en) eqn:E.
  - unfold INV; cbn [m_enabled m_state m_mask m_timer m_first]. auto.
  - destruct (Z.eqb_spec mask 0) as [Em|Em].
    + subst mask. cbn [negb]. unfold INV; cbn [m_enabled m_state m_mask m_timer m_first].
      destruct b, en; try discriminate.
      * (* enabling with nothing pressed *)
        pose proof (Hb eq_refl eq_refl) as HU. dsplit. subst.
        split; auto. split; auto. split.
        { intros n Hn. rewrite Z.bits_0. symmetry. apply HU. }
        unfold SINV. rewrite (HU BTN_LEFT), (HU BTN_RIGHT) in *. simpl in *. auto 10.
      * (* disabling takes effect with nothing pressed *)
        destruct HI as [HM HS].
        pose proof (proj1 (mask_zero _ _ HM HR) eq_refl) as HU.
        pose proof (HU BTN_LEFT) as UL. pose proof (HU BTN_RIGHT) as UR.
        split; auto. split; auto.
        destruct s; unfold SINV in HS; dsplit; try congruence.
        rewrite UL, UR. simpl. auto 10.
    + cbn [negb]. unfold INV; cbn [m_enabled m_state m_mask m_timer m_first].
      destruct en; [auto|]. dsplit. congruence.
Qed.

