(** * Touchpad gestures: swipes, scrolling and pinches are recognised *)
Require Import Coq.ZArith.ZArith Coq.QArith.QArith Coq.QArith.Qabs Coq.QArith.Qround Coq.Lists.List Coq.Bool.Bool Coq.micromega.Lia Coq.micromega.Lqa.
Require Import Verif.Scroll_Model.
Require Verif.Es_Model.
Require Import Verif.Gest_Model Verif.Gest_Spec Verif.Gest_Proofs Verif.Gest_Proofs2 Verif.Gest_Proofs3 Verif.Gest_Proofs4.
Import ListNotations.
Open Scope Z_scope.

(** Both tracked touches have moved the same way *)
Lemma detect_together p s f t : enabled p = true -> mm p (diff (at_ f (i0 (dt s))) (p0 (dt s))) = mm p (diff (at_ f (i1 (dt s))) (p1 (dt s))) -> gst s = G_UNKNOWN -> (2 <= fc s)%nat ->
  let s' := detect p s f t in
  (s' = s \/ (fc s = 2%nat /\ s' = to_scroll p s f) \/ ((2 < fc s)%nat /\ s' = with_gst s G_SWIPE)) /\
  (((3 # 2) + (1 # 2) * inject_Z (Z.of_nat (fc s) - 2)) * ((3 # 2) + (1 # 2) * inject_Z (Z.of_nat (fc s) - 2)) <= sq (mm p (diff (at_ f (i0 (dt s))) (p0 (dt s)))) ->
   if Nat.eqb (fc s) 2 then s' = to_scroll p s f else s' = with_gst s G_SWIPE)%Q.
Proof.
  intros EN EQ GU F2. unfold detect. rewrite EN, <- EQ. set (mv := mm p (diff (at_ f (i0 (dt s))) (p0 (dt s)))).
  set (e := inject_Z (Z.of_nat (fc s) - 2)). assert (E0 : (0 <= e)%Q) by (unfold e, Qle; cbn; lia).
  cbn [andb orb negb]. cbn zeta. destruct ((2 <? fc s)%nat && (slots p <? fc s)%nat) eqn:A.
  { apply andb_prop in A as [A _]. apply Nat.ltb_lt in A. split; [right; right; auto|]. intros _. assert (N : Nat.eqb (fc s) 2 = false) by (apply Nat.eqb_neq; lia). rewrite N. reflexivity. }
  destruct (lt_sq (sq mv) 1 && lt_sq (sq mv) 1) eqn:B.
  { split; [auto|]. intros H. exfalso. apply andb_prop in B as [B _]. apply lt_sq_spec in B. assert (1 <= ((3 # 2) + (1 # 2) * e) * ((3 # 2) + (1 # 2) * e))%Q by nra. lra. }
  assert (IFS : (if snd (at_ f (i1 (dt s))) <? snd (at_ f (i0 (dt s))) then (i0 (dt s), sq mv, sq mv) else (i1 (dt s), sq mv, sq mv)) = (if snd (at_ f (i1 (dt s))) <? snd (at_ f (i0 (dt s))) then i0 (dt s) else i1 (dt s), sq mv, sq mv)) by (destruct (_ <? _); reflexivity).
  rewrite IFS. set (th := if _ <? _ then i0 (dt s) else _).
  assert (R : (if Nat.eqb (fc s) 2 then to_scroll p s f else with_gst s G_SWIPE) = to_scroll p s f /\ fc s = 2%nat \/ (if Nat.eqb (fc s) 2 then to_scroll p s f else with_gst s G_SWIPE) = with_gst s G_SWIPE /\ (2 < fc s)%nat).
  { destruct (Nat.eqb (fc s) 2) eqn:E; [apply Nat.eqb_eq in E; auto | apply Nat.eqb_neq in E; right; split; [reflexivity | lia]]. }
  destruct (_ && (itime (dt s) + 150000 <? t)) eqn:C.
  { split; [|intros _; destruct (Nat.eqb (fc s) 2); reflexivity]. destruct R as [[-> R]|[-> R]]; auto. }
  assert (NB : negb (lt_sq (sq mv) (4 + 2 * e)) = true -> lt_sq (sq mv) ((3 # 2) + (1 # 2) * e) = false).
  { intros H. apply negb_true_iff, lt_sq_false in H. apply lt_sq_false. nra. }
  rewrite orb_diag. destruct (lt_sq (sq mv) ((3 # 2) + (1 # 2) * e)) eqn:LM.
  { assert (BG : negb (lt_sq (sq mv) (4 + 2 * e)) = false) by (destruct (negb (lt_sq (sq mv) (4 + 2 * e))); [discriminate (NB eq_refl) | reflexivity]). rewrite BG. cbn [andb orb]. split; [auto|]. intros H. apply lt_sq_spec in LM. lra. }
  rewrite ?andb_false_r, ?orb_false_r. cbn [andb orb]. rewrite ?andb_false_r. cbn [andb].
  rewrite (same_refl (get_direction p mv)) by apply direction_nonzero. rewrite orb_true_r. cbn [andb].
  split; [|intros _; destruct (Nat.eqb (fc s) 2); reflexivity]. destruct R as [[R0 R]|[R0 R]]; [rewrite R; cbn; auto|].
  assert (N : Nat.eqb (fc s) 2 = false) by (apply Nat.eqb_neq; lia). rewrite N. auto.
Qed.
Lemma translated_at f f' ox oy i : translated f f' ox oy -> (i < length (tl f))%nat -> at_ f' i = (fst (at_ f i) + ox, snd (at_ f i) + oy).
Proof.
  unfold translated, at_. intros H L. destruct (nth_error (tl f) i) as [a|] eqn:A; [|apply nth_error_None in A; lia].
  revert i A L. induction H as [|u v l l' (X & Y & _) H IH]; intros i A L; [destruct i; discriminate A|]. destruct i as [|i]; cbn in *; [inversion A; subst; cbn; rewrite X, Y; reflexivity|]. apply IH; [exact A | lia].
Qed.
Lemma nth_lt {A} (l : list A) i x : nth_error l i = Some x -> (i < length l)%nat.
Proof. intros H. apply nth_error_Some. congruence. Qed.
Lemma frame_again p m l f h t f2 t2 : let s := after p m (l ++ [GFrame f h t]) in fc s = count f2 -> pend s = 0%nat -> (2 <= count f2 <= 4)%nat ->
  gstep p s (GFrame f2 (GGo false) t2) = post_gesture p (with_pend s 0) f2 t2.
Proof.
  cbn zeta. set (s := after p m _). clearbody s. intros F P C. cbn [gstep]. unfold ghandle. rewrite F, Nat.eqb_refl. unfold gpost. cbn [fc pend with_pend with_count]. rewrite F. destruct (count f2) as [|[|[|[|[|n]]]]]; try lia; reflexivity.
Qed.
Lemma diff_shift a ox oy : diff (fst a + ox, snd a + oy) a = (inject_Z ox, inject_Z oy).
Proof. unfold diff. cbn [fst snd]. do 2 f_equal; lia. Qed.
Lemma moves_mm p ox oy : sq (mm p (inject_Z ox, inject_Z oy)) = (inject_Z ox / inject_Z (rx p) * (inject_Z ox / inject_Z (rx p)) + inject_Z oy / inject_Z (ry p) * (inject_Z oy / inject_Z (ry p)))%Q.
Proof. reflexivity. Qed.
Lemma translated_count f f' ox oy : translated f f' ox oy -> count f' = count f.
Proof. unfold translated, count. intros H. induction H as [|u v l l' (_ & _ & A) H IH]; [reflexivity|]. cbn. rewrite A. destruct (act u); cbn; rewrite IH; reflexivity. Qed.
Lemma step_together p m l f t f2 t2 ox oy n : at_rest l -> enabled p = true -> (2 <= slots p)%nat -> (2 <= n <= 4)%nat -> (n <= slots p \/ n = 2)%nat -> count f = n -> translated f f2 ox oy ->
  at_least p ox oy ((3 # 2) + (1 # 2) * inject_Z (Z.of_nat n - 2)) ->
  exists s, gstep p (after p m (l ++ [GFrame f (GGo false) t])) (GFrame f2 (GGo false) t2) = (if Nat.eqb n 2 then st_scroll p s f2 t2 else st_swipe p s f2 t2) /\
    fc s = n /\ started s = false /\ gst s = (if Nat.eqb n 2 then G_SCROLL else G_SWIPE) /\ out s = out (after p m (l ++ [GFrame f (GGo false) t])) /\ meth s = meth (after p m l) /\ inv false s.
Proof.
  intros R EN SL NR NS C TR LE. destruct (put_down p m l f t n R EN SL NR NS C) as (a & b & (TA & TB & AB) & F & P & S & G & D & M).
  pose proof (translated_count _ _ _ _ TR) as C2. pose proof (frame_again p m l f (GGo false) t f2 t2) as FA. cbn zeta in FA. set (s := after p m (l ++ [GFrame f (GGo false) t])) in *. 
  rewrite FA by (congruence || lia). unfold post_gesture. cbn [gst with_pend with_count]. rewrite G. cbn [gst]. set (s0 := with_pend s 0).
  assert (G0 : gst s0 = G_UNKNOWN) by exact G. rewrite G0.
  destruct TA as (ta & TA1 & TA2). destruct TB as (tb & TB1 & TB2).
  assert (MA : diff (at_ f2 (i0 (dt s0))) (p0 (dt s0)) = (inject_Z ox, inject_Z oy)) by (cbn; rewrite D; cbn; rewrite (translated_at _ _ _ _ _ TR (nth_lt _ _ _ TA1)); apply diff_shift).
  assert (MB : diff (at_ f2 (i1 (dt s0))) (p1 (dt s0)) = (inject_Z ox, inject_Z oy)) by (cbn; rewrite D; cbn; rewrite (translated_at _ _ _ _ _ TR (nth_lt _ _ _ TB1)); apply diff_shift).
  destruct (detect_together p s0 f2 t2 EN) as [_ K]; [rewrite MA, MB; reflexivity | exact G0 | cbn; lia|].
  assert (FC0 : fc s0 = n) by exact F. rewrite FC0, MA in K. specialize (K LE).
  pose proof (inv_run false p m (l ++ [GFrame f (GGo false) t]) ltac:(discriminate)) as IN. fold s in IN.
  assert (I0 : inv false s0) by (apply inv_pend; exact IN). assert (S0 : started s0 = false) by exact S.
  destruct (inv_detect false p s0 f2 t2 S0 I0) as [ID SD].
  destruct (Nat.eqb n 2) eqn:N2; rewrite K in *.
  - exists (to_scroll p s0 f2). cbn [gst to_scroll with_gst]. rewrite scroll_gst. cbn [gst to_scroll with_gst]. rewrite scroll_gst. cbn [gst to_scroll with_gst]. (repeat (split; [assumption || reflexivity|]); exact ID).
  - exists (with_gst s0 G_SWIPE). cbn [gst with_gst]. rewrite swipe_gst. cbn [gst with_gst]. (repeat (split; [assumption || reflexivity|]); exact ID).
Qed.
Lemma swipe_recognised p m l f t f2 t2 ox oy n : at_rest l -> enabled p = true -> (n <= slots p)%nat -> (3 <= n <= 4)%nat -> count f = n -> translated f f2 ox oy ->
  at_least p ox oy ((3 # 2) + (1 # 2) * inject_Z (Z.of_nat n - 2)) -> zero2 (touches_delta p f2 true) = false ->
  exists u, events p m (l ++ [GFrame f (GGo false) t]) (GFrame f2 (GGo false) t2) = [TBegin Swipe n t2; TUpdate Swipe n t2 (acc f2 (touches_delta p f2 true)) u (Fin 0) 0].
Proof.
  intros R EN SL NR C TR LE NZ. destruct (step_together p m l f t f2 t2 ox oy n) as (s & E & F & S & G & O & _); auto; try lia.
  assert (N2 : Nat.eqb n 2 = false) by (apply Nat.eqb_neq; lia). rewrite N2 in *.
  exists (una f2 (touches_delta p f2 true)). apply events_out. rewrite E, <- O. unfold st_swipe, filtered. rewrite NZ, andb_false_r. unfold gstart. rewrite S, G. cbn. rewrite F, <- app_assoc. reflexivity.
Qed.
Lemma scroll_recognised p m l f t f2 t2 ox oy : at_rest l -> 0 < rx p -> 0 < ry p -> enabled p = true -> (2 <= slots p)%nat -> count f = 2%nat -> translated f f2 ox oy ->
  at_least p ox oy (3 # 2) -> zero2 (touches_delta p f2 true) = false -> plain (GFrame f2 (GGo false) t2) -> meth (after p m l) = Es_Model.M_2FG ->
  exists v h, events p m (l ++ [GFrame f (GGo false) t]) (GFrame f2 (GGo false) t2) = [TAxis (Axis t2 v h)] /\ is_scroll v h = true.
Proof.
  intros R RX RY EN SL C TR LE NZ PL M. destruct (step_together p m l f t f2 t2 ox oy 2) as (s & E & F & S & G & O & MS & IN); auto.
  { replace ((3 # 2) + (1 # 2) * inject_Z (Z.of_nat 2 - 2))%Q with ((3 # 2) + (1 # 2) * 0)%Q by reflexivity. unfold at_least in *. setoid_replace ((3 # 2) + (1 # 2) * 0)%Q with (3 # 2)%Q by ring. exact LE. }
  cbn [Nat.eqb] in *. unfold st_scroll in E. rewrite MS, M in E. unfold filtered in E. rewrite NZ in E.
  destruct (PL (touches_delta p f2 true)) as [PX PY].
  assert (ZU : zero2 (una f2 (touches_delta p f2 true)) = false).
  { unfold zero2 in *. destruct (Qeq_bool (fst (una f2 (touches_delta p f2 true))) 0) eqn:X, (Qeq_bool (snd (una f2 (touches_delta p f2 true))) 0) eqn:Y; cbn; auto. apply Qeq_bool_iff in X, Y. apply PX in X. apply PY in Y. apply Qeq_bool_iff in X, Y. rewrite X, Y in NZ. discriminate. }
  rewrite ZU in E. unfold gstart in E. rewrite S, G in E. cbn [sl with_started with_sl] in E.
  pose proof (fresh_moves p (touches_delta p f2 true) (una f2 (touches_delta p f2 true)) t2 RX RY PX PY ZU) as FM. cbn zeta in FM.
  destruct (constrain p slock0 _ _ t2) as [l' d]. cbn [snd] in FM. cbn [sc with_started with_sl] in E.
  pose proof (post_scroll_on (sc s) t2 (fst d) (snd d) (in_thr _ _ IN) (in_vh _ _ IN)) as PS. destruct (post_scroll (sc s) t2 (fst d) (snd d)) as [c o]. destruct PS as (_ & _ & _ & _ & _ & _ & ->). rewrite FM in E.
  destruct (notify_is_scroll c t2 (fst d) (snd d) FM) as (v & h & NE & _ & SC). exists v, h. split; [|exact SC]. apply events_out. rewrite E, <- O. cbn. rewrite <- NE. reflexivity.
Qed.
(** ** Pinch *)
Lemma only_active f a b : only f a b -> active_touches f = [a; b] /\ count f = 2%nat.
Proof.
  intros [LT H]. unfold active_touches. assert (IN : forall j, In j (active_from 0 (tl f)) <-> j = a \/ j = b).
  { intros j. rewrite <- H, active_from_in. split; [intros (k & u & -> & X); exists u; exact X | intros (u & X); exists j, u; auto]. }
  assert (E : active_from 0 (tl f) = [a; b]).
  { clear H. assert (GEN : forall l i, (forall j k, (j < length (active_from i l))%nat -> (k < j)%nat -> (nth k (active_from i l) 0 < nth j (active_from i l) 0)%nat)).
    { induction l as [|t l IH]; intros i j k; cbn; [lia|]. destruct (act t); [|apply IH]. cbn. destruct j; [lia|]. intros J K. destruct k; cbn; [|apply IH; lia].
      destruct (active_from_sorted l (S i)) as [_ B]. rewrite Forall_forall in B. assert (i0 : In (nth j (active_from (S i) l) 0%nat) (active_from (S i) l)) by (apply nth_In; lia). apply B in i0. cbn in i0. lia. }
    specialize (GEN (tl f) 0%nat). destruct (active_from_sorted (tl f) 0) as [ND _]. destruct (active_from 0 (tl f)) as [|x [|y [|z r]]] eqn:EQ.
    - exfalso. apply (proj2 (IN a)). auto.
    - exfalso. assert (X1 := proj2 (IN a) (or_introl eq_refl)). assert (X2 := proj2 (IN b) (or_intror eq_refl)). cbn in X1, X2. lia.
    - assert (X1 := proj1 (IN x) (or_introl eq_refl)). assert (X2 := proj1 (IN y) (or_intror (or_introl eq_refl))). assert (X3 := GEN 1%nat 0%nat). cbn in X3. f_equal; [|f_equal]; lia.
    - exfalso. assert (X1 := proj1 (IN x) (or_introl eq_refl)). assert (X2 := proj1 (IN y) (or_intror (or_introl eq_refl))). assert (X4 := proj1 (IN z) (or_intror (or_intror (or_introl eq_refl)))).
      assert (X3 := GEN 1%nat 0%nat). assert (X5 := GEN 2%nat 1%nat). cbn in X3, X5. lia. }
  split; [rewrite E; reflexivity|]. unfold count. rewrite <- (active_from_length (tl f) 0), E. reflexivity.
Qed.
Lemma spot_at f i x y : spot f i x y -> at_ f i = (x, y).
Proof. intros (t & A & <- & <-). unfold at_. rewrite A. reflexivity. Qed.
Lemma put_down_two p m l f t a b : at_rest l -> enabled p = true -> only f a b ->
  let s := after p m (l ++ [GFrame f (GGo false) t]) in
    fc s = 2%nat /\ pend s = 0%nat /\ started s = false /\ gst s = G_UNKNOWN /\ dt s = {| i0 := a; i1 := b; p0 := at_ f a; p1 := at_ f b; itime := t |}.
Proof.
  intros R EN ON. destruct (at_rest_state p m l R) as (F & P & G & S). cbn zeta. rewrite after_app. set (s := after p m l) in *. clearbody s. destruct (only_active f a b ON) as [AT C].
  cbn [gstep]. assert (GH : ghandle s f t = with_gst (with_count s 2 0) G_NONE) by (unfold ghandle; rewrite C, F, S; reflexivity).
  rewrite GH. set (s1 := with_gst (with_count s 2 0) G_NONE). unfold gpost. cbn [fc pend s1 with_gst with_count]. fold s1. unfold post_gesture. cbn [gst s1 with_gst]. fold s1. unfold st_none. rewrite AT, EN. cbn [gst with_gst].
  set (s2 := with_gst _ G_UNKNOWN). assert (D : detect p s2 f t = s2).
  { unfold detect. cbn [fc s2 with_gst with_dt s1 with_count dt i0 i1 p0 p1]. rewrite EN. cbn [Nat.ltb Nat.leb andb].
    assert (L : forall z, lt_sq (sq (mm p (diff z z))) 1 = true) by (intros z; apply lt_sq_spec; rewrite sq_zero; lra). rewrite !L. reflexivity. }
  rewrite D. cbn. auto 10.
Qed.

Lemma mm_opp p ox oy : mm p (inject_Z (- ox), inject_Z (- oy)) = opp2 (mm p (inject_Z ox, inject_Z oy)).
Proof.
  assert (H : forall x r, (inject_Z (- x) / r = - (inject_Z x / r))%Q).
  { intros x r. unfold Qdiv, Qmult, Qopp. cbn [Qnum Qden inject_Z]. rewrite Z.mul_opp_l. reflexivity. }
  unfold mm, opp2. cbn [fst snd]. rewrite !H. reflexivity.
Qed.
Lemma detect_apart p s f t ox oy : enabled p = true -> (2 <= slots p)%nat -> fc s = 2%nat -> good_oct p ->
  diff (at_ f (i0 (dt s))) (p0 (dt s)) = (inject_Z ox, inject_Z oy) -> diff (at_ f (i1 (dt s))) (p1 (dt s)) = (inject_Z (- ox), inject_Z (- oy)) ->
  at_least p ox oy (3 # 2) ->
  (t <= itime (dt s) + 150000 \/ (40 <= Qabs (fst (mm p (diff (at_ f (i0 (dt s))) (at_ f (i1 (dt s)))))))%Q \/ (7 <= Qabs (snd (mm p (diff (at_ f (i0 (dt s))) (at_ f (i1 (dt s)))))))%Q) ->
  detect p s f t = init_pinch p s f.
Proof.
  intros EN SL F GO MA MB LE NR. unfold detect. rewrite EN, F, MA, MB, mm_opp. set (mv := mm p (inject_Z ox, inject_Z oy)). fold (sq mv) in LE.
  assert (LE1 : ((3 # 2) * (3 # 2) <= sq mv)%Q) by exact LE.
  assert (SO : (sq (opp2 mv) == sq mv)%Q) by (unfold sq, opp2; cbn [fst snd]; ring).
  change (2 <? 2)%nat with false. cbn [andb]. cbn zeta. change (2 =? 2)%nat with true. replace (inject_Z (Z.of_nat 2 - 2)) with 0%Q by reflexivity.
  assert (A1 : lt_sq (sq mv) 1 = false) by (apply lt_sq_false; lra).
  rewrite A1. cbn [andb].
  assert (C : (negb (Qle_bool 40 (Qabs (fst (mm p (diff (at_ f (i0 (dt s))) (at_ f (i1 (dt s)))))))) && negb (Qle_bool 7 (Qabs (snd (mm p (diff (at_ f (i0 (dt s))) (at_ f (i1 (dt s))))))))) && (itime (dt s) + 150000 <? t) = false).
  { destruct NR as [NR|[NR|NR]].
    - assert (E : (itime (dt s) + 150000 <? t) = false) by (apply Z.ltb_ge; lia). rewrite E. apply andb_false_r.
    - apply Qle_bool_iff in NR. rewrite NR. reflexivity.
    - apply Qle_bool_iff in NR. rewrite NR. cbn. rewrite andb_false_r. reflexivity. }
  assert (M0 : lt_sq (sq mv) ((3 # 2) + (1 # 2) * 0) = false) by (apply lt_sq_false; lra).
  assert (M1 : lt_sq (sq (opp2 mv)) ((3 # 2) + (1 # 2) * 0) = false) by (apply lt_sq_false; rewrite SO; lra).
  assert (NZ : zero2 mv = false). { unfold zero2. destruct (Qeq_bool (fst mv) 0) eqn:X; [|reflexivity]. destruct (Qeq_bool (snd mv) 0) eqn:Y; [|reflexivity]. apply Qeq_bool_iff in X, Y. unfold sq in LE1. rewrite X, Y in LE1. exfalso. lra. }
  pose proof (opposite_differ p mv GO NZ) as OD.
  assert (SLT : (slots p <? 2)%nat = false) by (apply Nat.ltb_ge; exact SL).
  destruct (snd (at_ f (i1 (dt s))) <? snd (at_ f (i0 (dt s)))); cbn [negb orb]; rewrite C, M0, M1, OD, SLT, ?andb_false_r; cbn [orb andb]; rewrite ?andb_false_r; reflexivity.
Qed.
Lemma diff_neg x y ox oy : diff (x - ox, y - oy) (x, y) = (inject_Z (- ox), inject_Z (- oy)).
Proof. unfold diff. cbn [fst snd]. do 2 f_equal; lia. Qed.
Lemma pinch_recognised p m l f1 t1 f2 t2 f3 t3 a b xa ya xb yb ox oy xa' ya' xb' yb' :
  at_rest l -> 0 < rx p -> 0 < ry p -> enabled p = true -> (2 <= slots p)%nat -> good_oct p ->
  only f1 a b -> spot f1 a xa ya -> spot f1 b xb yb ->
  only f2 a b -> spot f2 a (xa + ox) (ya + oy) -> spot f2 b (xb - ox) (yb - oy) -> at_least p ox oy (3 # 2) ->
  (t2 <= t1 + 150000 \/ (40 * 40 <= apart2 p (xa + ox) 0 (xb - ox) 0)%Q \/ (7 * 7 <= apart2 p 0 (ya + oy) 0 (yb - oy))%Q) ->
  ~ (apart2 p (xa + ox) (ya + oy) (xb - ox) (yb - oy) == 0)%Q ->
  only f3 a b -> spot f3 a xa' ya' -> spot f3 b xb' yb' -> ~ (apart2 p xa' ya' xb' yb' == apart2 p (xa + ox) (ya + oy) (xb - ox) (yb - oy))%Q ->
  events p m (l ++ [GFrame f1 (GGo false) t1]) (GFrame f2 (GGo false) t2) = [] /\
  exists d u q ag, events p m ((l ++ [GFrame f1 (GGo false) t1]) ++ [GFrame f2 (GGo false) t2]) (GFrame f3 (GGo false) t3) = [TBegin Pinch 2 t3; TUpdate Pinch 2 t3 d u (Fin q) ag] /\
    (q * apart2 p (xa + ox) (ya + oy) (xb - ox) (yb - oy) == apart2 p xa' ya' xb' yb')%Q.
Proof.
  intros R RX RY EN SL GO O1 A1 B1 O2 A2 B2 LE NR NZ O3 A3 B3 ND.
  destruct (put_down_two p m l f1 t1 a b R EN O1) as (F & P & S & G & D). apply spot_at in A1, B1, A2, B2, A3, B3. rewrite A1, B1 in D.
  destruct (only_active f2 a b O2) as [_ C2]. destruct (only_active f3 a b O3) as [_ C3].
  pose proof (frame_again p m l f1 (GGo false) t1 f2 t2) as FA. cbn zeta in FA. set (s := after p m (l ++ [GFrame f1 (GGo false) t1])) in *.
  assert (ST2 : gstep p s (GFrame f2 (GGo false) t2) = post_gesture p (with_pend s 0) f2 t2) by (apply FA; lia). clear FA.
  set (s0 := with_pend s 0) in *. assert (G0 : gst s0 = G_UNKNOWN) by exact G. assert (D0 : dt s0 = {| i0 := a; i1 := b; p0 := (xa, ya); p1 := (xb, yb); itime := t1 |}) by exact D.
  assert (DE : detect p s0 f2 t2 = init_pinch p s0 f2).
  { apply (detect_apart p s0 f2 t2 ox oy EN SL F GO); rewrite ?D0; cbn [i0 i1 p0 p1 itime]; rewrite ?A2, ?B2.
    - unfold diff. cbn [fst snd]. do 2 f_equal; lia.
    - apply diff_neg.
    - exact LE.
    - destruct NR as [NR|[NR|NR]]; [left; exact NR | right; left | right; right]; unfold apart2 in NR; rewrite Z.sub_diag in NR; unfold mm, diff; cbn [fst snd]; change (inject_Z 0) with 0%Q in NR.
      + setoid_replace (0 / inject_Z (ry p))%Q with 0%Q in NR by (unfold Qdiv; ring). set (z := (inject_Z (xa + ox - (xb - ox)) / inject_Z (rx p))%Q) in *. revert NR. apply Qabs_case; intros; nra.
      + setoid_replace (0 / inject_Z (rx p))%Q with 0%Q in NR by (unfold Qdiv; ring). set (z := (inject_Z (ya + oy - (yb - oy)) / inject_Z (ry p))%Q) in *. revert NR. apply Qabs_case; intros; nra. }
  assert (PG : post_gesture p s0 f2 t2 = st_pinch p (init_pinch p s0 f2) f2 t2) by (unfold post_gesture; rewrite G0, G0, DE; reflexivity).
  set (D2 := apart2 p (xa + ox) (ya + oy) (xb - ox) (yb - oy)) in *.
  assert (PD2 : pinch_dist p (init_pinch p s0 f2) f2 = D2) by (unfold pinch_dist; cbn [dt init_pinch with_gst with_pn]; rewrite D0; cbn [i0 i1]; rewrite A2, B2; reflexivity).
  assert (PD2' : pinch_dist p s0 f2 = D2) by (unfold pinch_dist; rewrite D0; cbn [i0 i1]; rewrite A2, B2; reflexivity).
  set (cx := fst (center s0 f2)). set (cy := snd (center s0 f2)).
  assert (E2 : st_pinch p (init_pinch p s0 f2) f2 t2 = with_pn (init_pinch p s0 f2) {| dist := D2; pang := ang f2; pcx := cx; pcy := cy; psc := Fin 1 |}).
  { unfold st_pinch. rewrite PD2. change (center (init_pinch p s0 f2) f2) with (center s0 f2). fold cx cy.
    change (pn (init_pinch p s0 f2)) with {| dist := pinch_dist p s0 f2; pang := ang f2; pcx := cx; pcy := cy; psc := Fin 1 |}. rewrite PD2'. cbn [dist pang pcx pcy psc].
    assert (Z1 : forall q, Qeq_bool (q - q) 0 = true) by (intros q; apply Qeq_bool_iff; ring).
    assert (Z2 : zero2 (cx - cx, cy - cy)%Q = true) by (unfold zero2; cbn [fst snd]; rewrite !Z1; reflexivity).
    unfold filtered. rewrite Z2. change (zero2 (0, 0)%Q) with true.
    assert (Z3 : num_eqb (ratio D2 D2) (Fin 1) = true). { unfold ratio. destruct (Qeq_bool D2 0) eqn:E; [apply Qeq_bool_iff in E; contradiction|]. cbn. apply Qeq_bool_iff. field. exact NZ. }
    rewrite Z3. assert (Z4 : Qeq_bool (turn (ang f2 - ang f2)) 0 = true).
    { apply Qeq_bool_iff. unfold turn. assert (E : (ang f2 - ang f2 == 0)%Q) by ring. destruct (Qle_bool (ang f2 - ang f2) 180) eqn:U; cbn [negb]; [|exfalso; assert (K : (ang f2 - ang f2 <= 180)%Q) by (rewrite E; lra); apply Qle_bool_iff in K; congruence].
      destruct (Qle_bool (-180) (ang f2 - ang f2)) eqn:V; cbn [negb]; [exact E|]. exfalso. assert (K : (-180 <= ang f2 - ang f2)%Q) by (rewrite E; lra). apply Qle_bool_iff in K. congruence. }
    rewrite Z4. reflexivity. }
  assert (EV2 : gstep p s (GFrame f2 (GGo false) t2) = with_pn (init_pinch p s0 f2) {| dist := D2; pang := ang f2; pcx := cx; pcy := cy; psc := Fin 1 |}) by (rewrite ST2, PG; exact E2).
  split.
  - apply events_out. fold s. rewrite EV2. cbn. rewrite app_nil_r. reflexivity.
  - set (l2 := l ++ [GFrame f1 (GGo false) t1]) in *. pose proof (frame_again p m l2 f2 (GGo false) t2 f3 t3) as FA. cbn zeta in FA. rewrite after_app in FA. fold s in FA. rewrite EV2 in FA.
    set (s2 := with_pn (init_pinch p s0 f2) _) in *. assert (ST3 : gstep p s2 (GFrame f3 (GGo false) t3) = post_gesture p (with_pend s2 0) f3 t3).
    { apply FA; [cbn; rewrite C3; exact F | reflexivity | lia]. }
    set (s3 := with_pend s2 0) in *. assert (G3 : gst s3 = G_PINCH) by reflexivity.
    assert (PG3 : post_gesture p s3 f3 t3 = st_pinch p s3 f3 t3) by reflexivity.
    assert (PD3 : pinch_dist p s3 f3 = apart2 p xa' ya' xb' yb') by (unfold pinch_dist; cbn [dt s3 s2 with_pend with_count with_pn init_pinch with_gst]; rewrite D0; cbn [i0 i1]; rewrite A3, B3; reflexivity).
    set (D3 := apart2 p xa' ya' xb' yb') in *.
    assert (RT : ratio D3 D2 = Fin (D3 / D2)) by (unfold ratio; destruct (Qeq_bool D2 0) eqn:E; [apply Qeq_bool_iff in E; contradiction | reflexivity]).
    assert (NE : num_eqb (Fin (D3 / D2)) (Fin 1) = false).
    { cbn. destruct (Qeq_bool (D3 / D2) 1) eqn:E; [|reflexivity]. apply Qeq_bool_iff in E. exfalso. apply ND. setoid_replace D3 with (D3 / D2 * D2)%Q by (field; exact NZ). rewrite E. ring. }
    eexists _, _, (D3 / D2)%Q, _. split; [|field; exact NZ].
    assert (GS : gstart s3 t3 = with_started (with_out s3 [TBegin Pinch 2 t3]) true).
    { unfold gstart. change (started s3) with (started s). rewrite S, G3. change (fc s3) with (fc s). rewrite F. reflexivity. }
    apply events_out. rewrite after_app. fold s. rewrite EV2. fold s2. rewrite ST3, PG3. unfold st_pinch. rewrite PD3. change (dist (pn s3)) with D2. change (psc (pn s3)) with (Fin 1). rewrite RT, NE, andb_false_r. cbn [andb].
    rewrite GS. change (fc (with_started (with_out s3 [TBegin Pinch 2 t3]) true)) with (fc s). rewrite F. cbn [out with_pn with_out with_started]. rewrite <- app_assoc. reflexivity.
Qed.
