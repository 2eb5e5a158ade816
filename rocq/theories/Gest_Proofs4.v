(** * Touchpad gestures: recognition *)
Require Import Coq.ZArith.ZArith Coq.QArith.QArith Coq.QArith.Qabs Coq.QArith.Qround Coq.Lists.List Coq.Bool.Bool Coq.micromega.Lia Coq.micromega.Lqa.
Require Import Verif.Scroll_Model.
Require Verif.Es_Model.
Require Import Verif.Gest_Model Verif.Gest_Spec Verif.Gest_Proofs Verif.Gest_Proofs2 Verif.Gest_Proofs3.
Import ListNotations.
Open Scope Z_scope.

(** ** Directions *)
Lemma same_refl a : a <> 0%N -> same_directions a a = true.
Proof.
  intros H. unfold same_directions. apply orb_true_iff. left. apply orb_true_iff. left. apply orb_true_iff. left. apply negb_true_iff, N.eqb_neq. intros E. apply H.
  apply N.bits_inj_iff. intros n. assert (B : N.testbit (N.land (N.lor a (N.shiftr a 1)) a) n = false) by (rewrite E; apply N.bits_0). rewrite N.land_spec, N.lor_spec in B. rewrite N.bits_0. destruct (N.testbit a n); [cbn in B; discriminate | reflexivity].
Qed.
Lemma direction_nonzero p d : get_direction p d <> 0%N.
Proof.
  unfold get_direction. cbn zeta. destruct (_ && _).
  - repeat match goal with |- (if ?c then _ else _) <> 0%N => destruct c; [discriminate|] end. discriminate.
  - intros E. apply N.lor_eq_0_iff in E as [E _]. apply N.shiftl_eq_0_iff in E. discriminate.
Qed.
Definition opp2 (d : Q * Q) : Q * Q := (- fst d, - snd d)%Q.
Lemma floor_unique r z : (inject_Z z <= r)%Q -> (r < inject_Z (z + 1))%Q -> Qfloor r = z.
Proof.
  intros A B. pose proof (Qfloor_le r). pose proof (Qlt_floor r).
  assert (inject_Z z < inject_Z (Qfloor r + 1))%Q by lra. assert (inject_Z (Qfloor r) < inject_Z (z + 1))%Q by lra.
  rewrite <- Zlt_Qlt in *. lia.
Qed.
Lemma floor_shift r r' k : (r' == r + inject_Z k)%Q -> Qfloor r' = Qfloor r + k.
Proof.
  intros E. apply floor_unique.
  - rewrite inject_Z_plus, E. pose proof (Qfloor_le r). lra.
  - rewrite E. pose proof (Qlt_floor r) as H. replace (Qfloor r + k + 1) with (Qfloor r + 1 + k) by lia. rewrite inject_Z_plus. lra.
Qed.
Lemma opposite_bits : forall a b : nat, (a < 8)%nat -> (b < 8)%nat -> (a = b \/ a = (b + 1) mod 8)%nat ->
  same_directions (N.lor (N.shiftl 1 (N.of_nat a)) (N.shiftl 1 (N.of_nat b))) (N.lor (N.shiftl 1 (N.of_nat ((a + 4) mod 8))) (N.shiftl 1 (N.of_nat ((b + 4) mod 8)))) = false.
Proof.
  intros a b A B H. do 8 (destruct b as [|b]; [destruct H as [-> | ->]; vm_compute; reflexivity|]). lia.
Qed.
Lemma opposite_differ p d : good_oct p -> (zero2 d = false) -> same_directions (get_direction p d) (get_direction p (opp2 d)) = false.
Proof.
  intros GO NZ. unfold get_direction, opp2. cbn [fst snd]. cbn zeta. rewrite !Qabs_opp. destruct (_ && _).
  - assert (LT : forall q, Qle_bool 0 (- q) = Qle_bool q 0). { intros q. apply eq_true_iff_eq. rewrite !Qle_bool_iff. split; lra. }
    assert (GT : forall q, Qle_bool (- q) 0 = Qle_bool 0 q). { intros q. apply eq_true_iff_eq. rewrite !Qle_bool_iff. split; lra. }
    rewrite !LT, !GT. unfold zero2 in NZ.
    destruct (Qle_bool 0 (fst d)) eqn:X1, (Qle_bool (fst d) 0) eqn:X2, (Qle_bool 0 (snd d)) eqn:Y1, (Qle_bool (snd d) 0) eqn:Y2; cbn; try reflexivity; exfalso;
      repeat match goal with
      | H : Qle_bool _ _ = true |- _ => apply Qle_bool_iff in H
      | H : Qle_bool ?a ?b = false |- _ => assert (~ (a <= b)%Q) by (intros ?K; apply Qle_bool_iff in K; congruence); clear H
      end; try lra.
    assert (EX : Qeq_bool (fst d) 0 = true) by (apply Qeq_bool_iff; lra). assert (EY : Qeq_bool (snd d) 0 = true) by (apply Qeq_bool_iff; lra). rewrite EX, EY in NZ. discriminate.
  - destruct (GO (fst d) (snd d)) as (R0 & R8 & OP).
    assert (NZ' : ~ (fst d == 0 /\ snd d == 0)%Q) by (intros [X Y]; apply Qeq_bool_iff in X; apply Qeq_bool_iff in Y; unfold zero2 in NZ; rewrite X, Y in NZ; discriminate NZ). specialize (OP NZ'). clear NZ'. set (r := oct p (fst d) (snd d)) in *. set (r' := oct p (- fst d) (- snd d)) in *.
    set (u := Qfloor (r + (9 # 10))). set (v := Qfloor (r + (1 # 10))).
    assert (UV : u = v \/ u = v + 1).
    { pose proof (Qfloor_le (r + (9 # 10))) as A1. pose proof (Qlt_floor (r + (9 # 10))) as A2. pose proof (Qfloor_le (r + (1 # 10))) as B1. pose proof (Qlt_floor (r + (1 # 10))) as B2. fold u in A1, A2. fold v in B1, B2.
      clearbody u v r. pose proof (inject_Z_plus v 1) as E1. pose proof (inject_Z_plus (v + 1) 1) as E2. change (inject_Z 1) with 1%Q in E1, E2.
      assert (C1 : (inject_Z v < inject_Z (u + 1))%Q) by lra. assert (C2 : (inject_Z u < inject_Z (v + 1 + 1))%Q) by (rewrite E2; clear E1 E2; lra).
      rewrite <- Zlt_Qlt in C1, C2. lia. }
    assert (V0 : 0 <= v < 9). { pose proof (Qfloor_le (r + (1 # 10))) as B1. pose proof (Qlt_floor (r + (1 # 10))) as B2. fold v in B1, B2.
      assert (D1 : (inject_Z (-1) < inject_Z v)%Q) by (rewrite inject_Z_plus in B2; change (inject_Z 1) with 1%Q in B2; change (inject_Z (-1)) with (-1)%Q; lra). assert (D2 : (inject_Z v < inject_Z 9)%Q) by (change (inject_Z 9) with 9%Q; lra).
      rewrite <- Zlt_Qlt in D1, D2. lia. }
    assert (SH : exists k, (k = 4 \/ k = -4) /\ Qfloor (r' + (9 # 10)) = u + k /\ Qfloor (r' + (1 # 10)) = v + k).
    { destruct OP as [OP|OP]; [exists 4 | exists (-4)]; (split; [auto|]); split; apply floor_shift; rewrite OP; [change (inject_Z 4) with 4%Q | change (inject_Z 4) with 4%Q | change (inject_Z (-4)) with (-4)%Q | change (inject_Z (-4)) with (-4)%Q]; ring. }
    destruct SH as (k & K & -> & ->).
    assert (M : forall z, 0 <= z mod 8 < 8) by (intros z; apply Z.mod_pos_bound; lia).
    set (a := Z.to_nat (u mod 8)). set (b := Z.to_nat (v mod 8)).
    assert (A1 : Z.to_N (u mod 8) = N.of_nat a) by (unfold a; rewrite Z_nat_N; reflexivity). assert (B1 : Z.to_N (v mod 8) = N.of_nat b) by (unfold b; rewrite Z_nat_N; reflexivity).
    assert (K8 : forall z, (z + k) mod 8 = (z mod 8 + 4) mod 8). { intros z. destruct K as [-> | ->]; [rewrite Zplus_mod_idemp_l; reflexivity|]. rewrite Zplus_mod_idemp_l. replace (z + 4) with (z + -4 + 1 * 8) by lia. rewrite Z_mod_plus_full. reflexivity. }
    assert (A2 : Z.to_N ((u + k) mod 8) = N.of_nat ((a + 4) mod 8)). { rewrite K8, <- Z_nat_N. f_equal. unfold a. specialize (M u). rewrite Z2Nat.inj_mod by lia. rewrite Z2Nat.inj_add by lia. reflexivity. }
    assert (B2 : Z.to_N ((v + k) mod 8) = N.of_nat ((b + 4) mod 8)). { rewrite K8, <- Z_nat_N. f_equal. unfold b. specialize (M v). rewrite Z2Nat.inj_mod by lia. rewrite Z2Nat.inj_add by lia. reflexivity. }
    rewrite A1, B1, A2, B2. apply opposite_bits.
    + unfold a. specialize (M u). lia.
    + unfold b. specialize (M v). lia.
    + destruct UV as [-> | ->]; [left; reflexivity|]. right. unfold a, b. rewrite <- Zplus_mod_idemp_l. specialize (M v). rewrite Z2Nat.inj_mod by lia. rewrite Z2Nat.inj_add by lia. reflexivity.
Qed.

(** ** At rest *)
Lemma rest_inv p m : forall l, let s := after p m l in fc s = 0%nat -> gst s = G_NONE /\ started s = false.
Proof.
  induction l as [|i l IH] using rev_ind; [cbn; auto|]. cbn zeta in *. rewrite after_app. set (s := after p m l) in *. clearbody s.
  destruct i as [f h t|t|t|m' t|x]; cbn [gstep].
  - assert (G : fc (ghandle s f t) = 0%nat -> gst (ghandle s f t) = G_NONE /\ started (ghandle s f t) = false).
    { unfold ghandle. destruct (Nat.eqb (count f) (fc s)); [exact IH|]. destruct (Nat.eqb (count f) 0) eqn:Z.
      - intros _. cbn. rewrite gend_started. split; [apply gend_fc | reflexivity].
      - apply Nat.eqb_neq in Z. destruct (started s) eqn:S; cbn [negb]; [|cbn; intros; congruence]. destruct (Nat.eqb _ _); exact IH || (cbn; rewrite S; exact IH). }
    set (s1 := ghandle s f t) in *. clearbody s1. destruct h as [| | |one]; auto.
    + destruct (gend_fc s1 t true) as (A & _ & _ & _ & B). intros _. rewrite B, gend_started. auto.
    + unfold gpost. destruct (fc s1) eqn:F; [rewrite F; exact G|]. destruct one; cbn [pend fc with_count].
      * destruct (moved f); [unfold post_motion; destruct (_ && _)|]; cbn; discriminate.
      * destruct (pend s1); [|congruence]. rewrite F. destruct (chain_same p s1 f t) as (A & _). destruct n as [|[|[|[|n]]]]; try congruence.
        destruct (moved f); [unfold post_motion; destruct (_ && _)|]; cbn; congruence.
  - destruct (tmr s); [|exact IH]. destruct (_ <=? _); [|exact IH]. cbn. destruct (pend s); cbn; [exact IH | discriminate].
  - intros _. rewrite gend_started. split; [apply gend_fc | reflexivity].
  - destruct (Es_Model.smethod_eqb _ _); [exact IH|]. unfold stop_2fg. destruct (meth s); exact IH.
  - exact IH.
Qed.
Lemma at_rest_state p m l : at_rest l -> let s := after p m l in fc s = 0%nat /\ pend s = 0%nat /\ gst s = G_NONE /\ started s = false.
Proof.
  intros (l0 & f & h & t & -> & C). cbn zeta. pose proof (rest_inv p m (l0 ++ [GFrame f h t])) as R. cbn zeta in R.
  assert (F : fc (after p m (l0 ++ [GFrame f h t])) = 0%nat /\ pend (after p m (l0 ++ [GFrame f h t])) = 0%nat).
  { rewrite after_app. cbn [gstep]. assert (G : fc (ghandle (after p m l0) f t) = 0%nat /\ pend (ghandle (after p m l0) f t) = 0%nat).
    { unfold ghandle. rewrite C. destruct (Nat.eqb 0 (fc (after p m l0))) eqn:E; [apply Nat.eqb_eq in E|]; cbn; auto. }
    destruct G as [G1 G2]. destruct h as [| | |one]; auto; [|unfold gpost; rewrite G1; auto].
    destruct (gend_fc (ghandle (after p m l0) f t) t true) as (A & B & _). rewrite A, B. auto. }
  destruct F as [F1 F2]. destruct (R F1). auto.
Qed.

(** ** Active touches *)
Lemma active_from_length : forall l i, length (active_from i l) = length (filter act l).
Proof. induction l as [|t l IH]; intros i; cbn; [reflexivity|]. destruct (act t); cbn; rewrite IH; reflexivity. Qed.
Lemma active_from_in : forall l i j, In j (active_from i l) <-> exists k t, j = (i + k)%nat /\ nth_error l k = Some t /\ act t = true.
Proof.
  induction l as [|t l IH]; intros i j; cbn.
  - split; [tauto|]. intros (k & u & _ & H & _). destruct k; discriminate H.
  - assert (T : (exists k u, j = (i + k)%nat /\ nth_error (t :: l) k = Some u /\ act u = true) <-> (j = i /\ act t = true) \/ exists k u, j = (S i + k)%nat /\ nth_error l k = Some u /\ act u = true).
    { split.
      - intros (k & u & A & B & C). destruct k as [|k]; cbn in B; [left; inversion B; subst; split; [lia | exact C]|]. right. exists k, u. repeat split; auto. lia.
      - intros [[A B]|(k & u & A & B & C)]; [exists 0%nat, t; repeat split; auto; lia | exists (S k), u; repeat split; auto; lia]. }
    rewrite T. destruct (act t) eqn:A; cbn; rewrite IH; [|split; [auto | intros [[_ H]|H]; [discriminate H | exact H]]].
    split; intros [H|H]; auto. left. destruct H as [H _]. auto.
Qed.
Lemma active_from_sorted : forall l i, NoDup (active_from i l) /\ Forall (fun j => (i <= j)%nat) (active_from i l).
Proof.
  induction l as [|t l IH]; intros i; cbn; [split; constructor|]. destruct (IH (S i)) as [A B].
  assert (B' : Forall (fun j => (i <= j)%nat) (active_from (S i) l)) by (eapply Forall_impl; [|exact B]; intros; cbn in *; lia).
  destruct (act t); [|auto]. split; [|constructor; [lia | exact B']]. constructor; [|exact A]. intros H. rewrite Forall_forall in B. specialize (B i H). cbn in B. lia.
Qed.
Lemma top_bottom_in f : forall l a b, let '(x, y) := top_bottom f a b l in (x = a \/ In x l) /\ (y = b \/ In y l).
Proof.
  induction l as [|i l IH]; intros a b; cbn; [auto|]. destruct (_ <? _).
  - specialize (IH i b). destruct (top_bottom f i b l) as [x y]. destruct IH as [[H|H] K]; auto; split; intuition auto.
  - destruct (_ <=? _); [specialize (IH a i); destruct (top_bottom f a i l) as [x y] | specialize (IH a b); destruct (top_bottom f a b l) as [x y]]; intuition auto.
Qed.
Lemma top_bottom_order f : forall l a b, snd (at_ f a) <= snd (at_ f b) -> ~ In a l -> ~ In b l -> NoDup l -> (a <> b) -> let '(x, y) := top_bottom f a b l in x <> y.
Proof.
  induction l as [|i l IH]; intros a b AB NA NB ND NE; cbn; [exact NE|]. inversion ND; subst. cbn in NA, NB.
  assert (A1 : a <> i) by (intros E; apply NA; auto). assert (B1 : b <> i) by (intros E; apply NB; auto). assert (A2 : ~ In a l) by auto. assert (B2 : ~ In b l) by auto.
  destruct (snd (at_ f i) <? snd (at_ f a)) eqn:E.
  - apply Z.ltb_lt in E. apply IH; auto; lia.
  - destruct (snd (at_ f b) <=? snd (at_ f i)) eqn:E2; [|apply IH; auto]. apply Z.leb_le in E2. apply IH; auto; lia.
Qed.
Lemma top_bottom_differ f a l : l <> [] -> NoDup (a :: l) -> let '(x, y) := top_bottom f a a l in x <> y.
Proof.
  intros NE ND. destruct l as [|i l]; [congruence|]. cbn. inversion ND as [|? ? NA ND2]; subst. inversion ND2; subst. cbn in NA.
  destruct (snd (at_ f i) <? snd (at_ f a)) eqn:E.
  - apply Z.ltb_lt in E. apply top_bottom_order; auto; lia.
  - apply Z.ltb_ge in E. assert (E2 : (snd (at_ f a) <=? snd (at_ f i)) = true) by (apply Z.leb_le; lia). rewrite E2. apply top_bottom_order; auto.
Qed.
(** The two touches that are tracked *)
Definition tracked (f : gframe) (a b : nat) : Prop := (exists t, nth_error (tl f) a = Some t /\ act t = true) /\ (exists t, nth_error (tl f) b = Some t /\ act t = true) /\ a <> b.
Lemma NoDup_firstn {A} n (l : list A) : NoDup l -> NoDup (firstn n l).
Proof. intros H. revert n. induction H as [|x l N ND IH]; intros n; destruct n; cbn; constructor; auto. intros K. apply N. rewrite <- (firstn_skipn n l). apply in_or_app. auto. Qed.
Lemma In_firstn {A} n (l : list A) x : In x (firstn n l) -> In x l.
Proof. intros K. rewrite <- (firstn_skipn n l). apply in_or_app. auto. Qed.
Lemma st_none_tracks p s f t : enabled p = true -> (2 <= slots p)%nat -> (2 <= count f)%nat ->
  exists a b, tracked f a b /\ st_none p s f t = with_gst (with_dt s {| i0 := a; i1 := b; p0 := at_ f a; p1 := at_ f b; itime := t |}) G_UNKNOWN.
Proof.
  intros EN SL C. unfold st_none. rewrite EN. assert (ND : NoDup (active_touches f)) by (apply NoDup_firstn, active_from_sorted).
  assert (IN : forall j, In j (active_touches f) -> exists t, nth_error (tl f) j = Some t /\ act t = true).
  { intros j H. apply In_firstn in H. apply active_from_in in H as (k & u & -> & B & D). exists u. auto. }
  assert (LN : (2 <= length (active_touches f))%nat) by (unfold active_touches; rewrite firstn_length, active_from_length; fold (count f); lia).
  destruct (active_touches f) as [|a [|b [|c r]]]; cbn in LN; try lia.
  - exists a, b. split; [|reflexivity]. repeat split; try (apply IN; cbn; auto). intros ->. inversion ND as [|? ? H _]. apply H. left. reflexivity.
  - assert (ND2 : NoDup (a :: firstn (slots p - 1) (b :: c :: r))).
    { inversion ND as [|? ? H1 H2]; subst. constructor; [intros K; apply H1; eapply In_firstn, K | apply NoDup_firstn; exact H2]. }
    assert (NE : firstn (slots p - 1) (b :: c :: r) <> []) by (destruct (slots p - 1)%nat eqn:E; [lia | discriminate]).
    pose proof (top_bottom_differ f a _ NE ND2) as D. pose proof (top_bottom_in f (firstn (slots p - 1) (b :: c :: r)) a a) as I. destruct (top_bottom f a a _) as [x y]. apply Nat.eqb_neq in D. rewrite D. apply Nat.eqb_neq in D.
    exists x, y. split; [|reflexivity]. destruct I as [I1 I2]. repeat split; auto; apply IN; [destruct I1 as [-> | I1] | destruct I2 as [-> | I2]]; try (left; reflexivity); right; eapply In_firstn; eassumption.
Qed.
(** Putting down the fingers *)
Lemma sq_zero p a : sq (mm p (diff a a)) == 0.
Proof. unfold sq, mm, diff. cbn [fst snd]. rewrite !Z.sub_diag. change (inject_Z 0) with 0%Q. unfold Qdiv. ring. Qed.
Lemma lt_sq_spec x y : lt_sq x y = true <-> (x < y * y)%Q.
Proof. unfold lt_sq. rewrite negb_true_iff. split; intros H; [apply Qnot_le_lt; intros K; apply Qle_bool_iff in K; congruence|]. destruct (Qle_bool _ _) eqn:E; [|reflexivity]. apply Qle_bool_iff in E. lra. Qed.
Lemma lt_sq_false x y : lt_sq x y = false <-> (y * y <= x)%Q.
Proof. unfold lt_sq. rewrite negb_false_iff. apply Qle_bool_iff. Qed.
Lemma put_down p m l f t n : at_rest l -> enabled p = true -> (2 <= slots p)%nat -> (2 <= n <= 4)%nat -> (n <= slots p \/ n = 2)%nat -> count f = n ->
  exists a b, tracked f a b /\ let s := after p m (l ++ [GFrame f (GGo false) t]) in
    fc s = n /\ pend s = 0%nat /\ started s = false /\ gst s = G_UNKNOWN /\ dt s = {| i0 := a; i1 := b; p0 := at_ f a; p1 := at_ f b; itime := t |} /\ meth s = meth (after p m l).
Proof.
  intros R EN SL NR NS C. destruct (at_rest_state p m l R) as (F & P & G & S). rewrite after_app. set (s := after p m l) in *. clearbody s.
  cbn [gstep]. assert (GH : ghandle s f t = with_gst (with_count s n 0) G_NONE).
  { unfold ghandle. rewrite C, F, S. destruct n as [|n]; [lia|]. reflexivity. }
  rewrite GH. set (s1 := with_gst (with_count s n 0) G_NONE). unfold gpost. cbn [fc pend s1 with_gst with_count].
  assert (MT : match n with 0%nat => s1 | S _ => match n with 1%nat => if moved f then post_motion p s1 f t else s1 | 2%nat | 3%nat | 4%nat => post_gesture p s1 f t | _ => s1 end end = post_gesture p s1 f t) by (destruct n as [|[|[|[|[|n]]]]]; try lia; reflexivity).
  rewrite MT. clear MT. unfold post_gesture. cbn [gst s1 with_gst]. fold s1. destruct (st_none_tracks p s1 f t EN SL ltac:(lia)) as (a & b & TR & E). rewrite E. cbn [gst with_gst]. exists a, b. split; [exact TR|].
  set (s2 := with_gst _ G_UNKNOWN). assert (D : detect p s2 f t = s2).
  { unfold detect. cbn [fc s2 with_gst with_dt s1 with_count dt i0 i1 p0 p1]. rewrite EN.
    assert (X : (true && (2 <? n)%nat && (slots p <? n)%nat) = false). { apply andb_false_iff. destruct NS as [NS | ->]; [right; apply Nat.ltb_ge; exact NS | left; reflexivity]. }
    rewrite X. assert (L : forall z, lt_sq (sq (mm p (diff z z))) 1 = true) by (intros z; apply lt_sq_spec; rewrite sq_zero; lra). rewrite !L. reflexivity. }
  rewrite D. cbn. auto 10.
Qed.
