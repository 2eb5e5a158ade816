Require Import Coq.Strings.String Coq.ZArith.ZArith Coq.Lists.List Coq.Bool.Bool Coq.micromega.Lia.
Require Import Verif.Time_Model Verif.Time_Spec.
Import ListNotations.
Open Scope Z_scope.

Lemma u64_id : forall v, 0 <= v < 2 ^ 64 -> u64 v = v.
Proof. intros. apply Z.mod_small. auto. Qed.
Lemma ms1000 : ms2us 1000 = 1000000.
Proof. reflexivity. Qed.
Lemma s2us_ok : forall s, s2us s = u64 (s * 1000000).
Proof.
  intros s. unfold s2us, ms2us, u64. rewrite Z.mul_mod_idemp_l by lia. f_equal. lia.
Qed.
Lemma tv2us_ok : forall s u, tv2us (s, u) = u64 (s * 1000000 + u).
Proof.
  intros s u. unfold tv2us. cbn [fst snd]. rewrite s2us_ok. unfold u64.
  rewrite Z.mul_mod_idemp_l, Z.add_mod_idemp_l by lia. reflexivity.
Qed.
Lemma us_tv_us : forall t, 0 <= t < 2 ^ 64 -> tv2us (us2tv t) = t.
Proof.
  intros t H. unfold us2tv. rewrite ms1000, tv2us_ok. rewrite Z.mul_comm, <- Z.div_mod by lia. apply u64_id. auto.
Qed.
Lemma tv_us_tv : forall s u, 0 <= s -> 0 <= u < 1000000 -> s * 1000000 + u < 2 ^ 64 ->
  tv2us (s, u) = s * 1000000 + u /\ us2tv (tv2us (s, u)) = (s, u).
Proof.
  intros s u Hs Hu Hb. rewrite tv2us_ok, u64_id by lia. split; auto. unfold us2tv. rewrite ms1000. f_equal.
  - rewrite Z.div_add_l by lia. rewrite Z.div_small by lia. lia.
  - rewrite Z.add_comm, Z.mod_add by lia. apply Z.mod_small. lia.
Qed.
Lemma us2tv_range : forall t, 0 <= t -> 0 <= fst (us2tv t) /\ 0 <= snd (us2tv t) < 1000000.
Proof.
  intros t H. unfold us2tv. rewrite ms1000. cbn [fst snd]. split; [apply Z.div_pos; lia|apply Z.mod_pos_bound; lia].
Qed.

(** ** Human-readable times *)
Lemma human_lemma : forall us, 0 <= us < 2 ^ 64 ->
  exists u v k, to_human_time us = Some (u, v) /\ unit_us u = Some k /\ v * k <= us < (v + 1) * k /\
    (u = "us" /\ v < 5000 \/ u = "ms" /\ 5 <= v < 5000 \/ u = "s" /\ 5 <= v < 120 \/
     u = "min" /\ 2 <= v < 120 \/ u = "h" /\ 2 <= v < 48 \/ u = "d" /\ 2 <= v)%string.
Proof.
  intros us H. unfold to_human_time, conversions. cbn [human_loop]. rewrite Z.div_1_r.
  change (2 ^ 64) with 18446744073709551616 in *. change (2 ^ 32) with 4294967296.
  set (a := us) in *. pose proof (Z.div_mod a 1000 ltac:(lia)). pose proof (Z.mod_pos_bound a 1000 ltac:(lia)).
  set (b := a / 1000) in *. set (rb := a mod 1000) in *.
  pose proof (Z.div_mod b 1000 ltac:(lia)). pose proof (Z.mod_pos_bound b 1000 ltac:(lia)).
  set (c := b / 1000) in *. set (rc := b mod 1000) in *.
  pose proof (Z.div_mod c 60 ltac:(lia)). pose proof (Z.mod_pos_bound c 60 ltac:(lia)).
  set (d := c / 60) in *. set (rd := c mod 60) in *.
  pose proof (Z.div_mod d 60 ltac:(lia)). pose proof (Z.mod_pos_bound d 60 ltac:(lia)).
  set (e := d / 60) in *. set (re := d mod 60) in *.
  pose proof (Z.div_mod e 24 ltac:(lia)). pose proof (Z.mod_pos_bound e 24 ltac:(lia)).
  set (f := e / 24) in *. set (rf := e mod 24) in *.
  clearbody b rb c rc d rd e re f rf.
  destruct (Z.ltb_spec a 5000).
  { exists "us"%string, a, 1. rewrite Z.mod_small by lia. repeat (split; [reflexivity || lia|]). left. split; auto. }
  destruct (Z.ltb_spec b 5000).
  { exists "ms"%string, b, 1000. rewrite Z.mod_small by lia. repeat (split; [reflexivity || lia|]). right; left. split; auto. lia. }
  destruct (Z.ltb_spec c 120).
  { exists "s"%string, c, 1000000. rewrite Z.mod_small by lia. repeat (split; [reflexivity || lia|]). right; right; left. split; auto. lia. }
  destruct (Z.ltb_spec d 120).
  { exists "min"%string, d, (60 * 1000000). rewrite Z.mod_small by lia. repeat (split; [reflexivity || lia|]). do 3 right; left. split; auto. lia. }
  destruct (Z.ltb_spec e 48).
  { exists "h"%string, e, (60 * 60 * 1000000). rewrite Z.mod_small by lia. repeat (split; [reflexivity || lia|]). do 4 right; left. split; auto. lia. }
  destruct (Z.ltb_spec f (18446744073709551616 - 1)); [|lia].
  exists "d"%string, f, (24 * 60 * 60 * 1000000). rewrite Z.mod_small by lia. repeat (split; [reflexivity || lia|]). do 5 right. split; auto. lia.
Qed.

(** ** Rate limit *)
Section Limit.
Variables (ival b : Z).
Hypothesis Hi : 0 < ival.
Hypothesis Hb : 0 < b.
(** States the limiter reaches; [t] is the last clock reading. *)
Definition rl_ok (t : Z) (r : ratelimit) : Prop :=
  interval r = ival /\ burst r = b /\ (begin r = 0 /\ num r = 0 \/ 0 < begin r <= t /\ 1 <= num r <= b).

Lemma rl_step : forall t r u, rl_ok t r -> t <= u -> 0 < u -> u + ival < 2 ^ 64 ->
  let '(r', s) := ratelimit_test r u in rl_ok u r' /\ 0 < begin r' <= u /\ u <= begin r' + ival /\
    ((begin r' = u /\ num r' = 1 /\ s = PASS /\ (begin r = 0 \/ begin r + ival < u)) \/
     (begin r' = begin r /\ 0 < begin r /\ num r' = num r + 1 /\ num r < b /\ s = (if num r + 1 =? b then THRESHOLD else PASS)) \/
     (r' = r /\ 0 < begin r /\ num r = b /\ s = EXCEEDED)).
Proof.
  intros t r u (H1 & H2 & H3) Ht Hu Hmax. unfold ratelimit_test. rewrite H1, H2.
  replace (ival <=? 0) with false by (symmetry; apply Z.leb_gt; lia). replace (b <=? 0) with false by (symmetry; apply Z.leb_gt; lia).
  cbn [orb]. destruct (Z.leb_spec (begin r) 0).
  - cbn [orb]. unfold rl_ok. cbn. destruct H3 as [[-> _]|[H3 _]]; [|lia].
    split; [split; auto; split; auto; right; lia|]. split; [lia|]. split; [lia|]. left. auto.
  - cbn [orb]. destruct H3 as [[H3 _]|[H3 H4]]; [lia|]. rewrite u64_id by lia.
    destruct (Z.ltb_spec (begin r + ival) u).
    + unfold rl_ok. cbn. split; [split; auto; split; auto; right; lia|]. split; [lia|]. split; [lia|]. left. auto.
    + destruct (Z.ltb_spec (num r) b).
      * unfold rl_ok. cbn. split; [split; auto; split; auto; right; lia|]. split; [lia|]. split; [lia|]. right; left. auto.
      * unfold rl_ok. split; [split; auto; split; auto; right; lia|]. split; [lia|]. split; [lia|]. right; right.
        split; auto. split; auto. split; auto. lia.
Qed.
End Limit.

Lemma clock_weaken : forall t u l, clock t l -> u <= t -> clock u l.
Proof. intros t u l H L. destruct H; constructor; auto. lia. Qed.
Lemma clock_all : forall t l, clock t l -> Forall (fun u => t <= u) l.
Proof.
  intros t l H. induction H; constructor; auto. eapply Forall_impl; [|exact IHclock]. cbn; lia.
Qed.
Lemma run_times : forall r l, map fst (rl_run r l) = l.
Proof.
  intros r l. revert r. induction l as [|t l IH]; intros r; cbn; auto. destruct (ratelimit_test r t). cbn. rewrite IH. auto.
Qed.
Lemma passes_cons : forall a c t s l, passes a c ((t, s) :: l) = (if passed s && (a <=? t) && (t <=? c) then 1 else 0) + passes a c l.
Proof. intros. unfold passes. cbn [filter fst snd]. destruct (_ && _); cbn [length]; lia. Qed.
Lemma passes_nonneg : forall a c l, 0 <= passes a c l.
Proof. intros. unfold passes. lia. Qed.
Lemma passes_late : forall a c l, Forall (fun e => c < fst e) l -> passes a c l = 0.
Proof.
  intros a c l H. induction H as [|[t s] l H1 H2 IH]; [reflexivity|]. rewrite passes_cons, IH. cbn in H1.
  replace (t <=? c) with false by (symmetry; apply Z.leb_gt; lia). rewrite andb_false_r. reflexivity.
Qed.
Lemma run_after : forall r t l, clock t l -> Forall (fun e => t <= fst e) (rl_run r l).
Proof.
  intros r t l H. apply Forall_forall. intros e I. apply clock_all in H. rewrite Forall_forall in H. apply H.
  rewrite <- (run_times r l). apply in_map. auto.
Qed.

(** Inside a window [begin, begin + interval] at most burst - num more. *)
Lemma window_rest : forall ival b l, 0 < ival -> 0 < b -> Forall (fun u => u + ival < 2 ^ 64) l -> forall t r, rl_ok ival b t r -> 0 < begin r -> clock t l ->
  passes 0 (begin r + ival) (rl_run r l) <= b - num r.
Proof.
  intros ival b l Hi Hb HM. induction l as [|u l IH]; intros t r HR HB HC.
  - cbn. unfold passes; cbn. destruct HR as (_ & _ & [[H _]|[_ H]]); lia.
  - inversion HM as [|? ? HM1 HM2]; subst. inversion HC as [|? ? ? C1 C2 C3]; subst.
    pose proof (rl_step ival b Hi Hb t r u HR C1 C2 HM1) as S. cbn [rl_run]. destruct (ratelimit_test r u) as [r' s].
    destruct S as (OK' & B1 & B2 & [ (E1 & E2 & E3 & [E4|E4]) | [ (E1 & E2 & E3 & E4 & E5) | (-> & E2 & E3 & E4) ] ]).
    + lia.
    + rewrite passes_cons. replace (u <=? begin r + ival) with false by (symmetry; apply Z.leb_gt; lia). rewrite andb_false_r.
      rewrite passes_late; [destruct HR as (_ & _ & [[H _]|[_ H]]); lia|].
      eapply Forall_impl; [|apply run_after; exact C3]. cbn. lia.
    + rewrite passes_cons. specialize (IH HM2 u r' OK' ltac:(lia) C3). rewrite E1, E3 in IH.
      destruct (_ && _); lia.
    + rewrite passes_cons, E4. cbn [passed andb]. specialize (IH HM2 u r OK' E2 C3). lia.
Qed.
Definition init_ok : forall ival b, rl_ok ival b 0 (ratelimit_init ival b).
Proof. intros. repeat split; auto. Qed.


Fixpoint rl_after (r : ratelimit) (ts : list Z) : ratelimit :=
  match ts with [] => r | t :: l => rl_after (fst (ratelimit_test r t)) l end.
Lemma run_app : forall a r c, rl_run r (a ++ c) = rl_run r a ++ rl_run (rl_after r a) c.
Proof.
  induction a as [|u a IH]; intros r c; auto. cbn [app rl_run rl_after]. destruct (ratelimit_test r u) as [r1 s]. cbn [fst app]. rewrite IH. auto.
Qed.
Lemma after_app : forall a r c, rl_after r (a ++ c) = rl_after (rl_after r a) c.
Proof. induction a as [|u a IH]; intros; cbn; auto. Qed.
Lemma passes_app : forall a c l m, passes a c (l ++ m) = passes a c l + passes a c m.
Proof. intros. unfold passes. rewrite filter_app, app_length. lia. Qed.
Lemma passes_sub : forall a c a' c' l, a' <= a -> c <= c' -> passes a c l <= passes a' c' l.
Proof.
  intros a c a' c' l H1 H2. induction l as [|[t s] l IH]; [cbn; lia|]. rewrite !passes_cons.
  destruct (passed s); cbn [andb]; [|lia]. destruct (Z.leb_spec a t), (Z.leb_spec t c), (Z.leb_spec a' t), (Z.leb_spec t c'); cbn [andb]; lia.
Qed.
Lemma passes_split : forall a c w l, passes a c l <= passes a (w - 1) l + passes w c l.
Proof.
  intros a c w l. induction l as [|[t s] l IH]; [cbn; lia|]. rewrite !passes_cons.
  destruct (passed s); cbn [andb]; [|lia]. destruct (Z.leb_spec a t), (Z.leb_spec t c), (Z.leb_spec t (w - 1)), (Z.leb_spec w t); cbn [andb]; lia.
Qed.
Lemma passes_before : forall a c l, Forall (fun e => fst e < a) l -> passes a c l = 0.
Proof.
  intros a c l H. induction H as [|[t s] l H1 H2 IH]; [reflexivity|]. rewrite passes_cons, IH. cbn in H1.
  replace (a <=? t) with false by (symmetry; apply Z.leb_gt; lia). rewrite andb_false_r. reflexivity.
Qed.
Lemma passes_upto : forall a c t l, Forall (fun e => fst e <= t) l -> t <= c -> passes a c l = passes a t l.
Proof.
  intros a c t l H HC. induction H as [|[u s] l H1 H2 IH]; [reflexivity|]. rewrite !passes_cons, IH. cbn in H1.
  replace (u <=? c) with true by (symmetry; apply Z.leb_le; lia). replace (u <=? t) with true by (symmetry; apply Z.leb_le; lia). reflexivity.
Qed.
Lemma passes_one : forall a c t s, passes a c [(t, s)] = (if passed s && (a <=? t) && (t <=? c) then 1 else 0).
Proof. intros. rewrite passes_cons. cbn. lia. Qed.

Section Runs.
Variables (ival b : Z).
Hypothesis Hi : 0 < ival.
Hypothesis Hb : 0 < b.
Notation ok_times ts := (Forall (fun u => u + ival < 2 ^ 64) ts).
Notation run ts := (rl_run (ratelimit_init ival b) ts).
Notation after ts := (rl_after (ratelimit_init ival b) ts).

Definition Inv (t : Z) (r : ratelimit) (h : list (Z * rl_state)) : Prop :=
  rl_ok ival b t r /\ Forall (fun e => fst e <= t) h /\ (begin r = 0 -> h = []) /\
  (0 < begin r -> passes (begin r) t h = num r /\ t <= begin r + ival /\
     exists w, w + ival < begin r /\ passes w (begin r - 1) h <= b) /\
  (forall a, passes a (a + ival) h <= 2 * b).
Lemma Inv_step : forall t r h u, Inv t r h -> t <= u -> 0 < u -> u + ival < 2 ^ 64 ->
  let '(r', s) := ratelimit_test r u in Inv u r' (h ++ [(u, s)]) /\
    (s = EXCEEDED -> b <= passes (u - ival) u h).
Proof.
  intros t r h u (HR & HT & HZ & HW & HA) Ht Hu Hm. pose proof (rl_step ival b Hi Hb t r u HR Ht Hu Hm) as S.
  destruct (ratelimit_test r u) as [r' s]. destruct S as (OK' & B1 & B2 & S).
  assert (HT' : Forall (fun e => fst e <= u) (h ++ [(u, s)])).
  { apply Forall_app. split; [eapply Forall_impl; [|exact HT]; cbn; lia|repeat constructor; cbn; lia]. }
  assert (W' : passes (begin r') u (h ++ [(u, s)]) = num r' /\ u <= begin r' + ival /\
     exists w, w + ival < begin r' /\ passes w (begin r' - 1) (h ++ [(u, s)]) <= b).
  { destruct S as [ (E1 & E2 & E3 & E4) | [ (E1 & E2 & E3 & E4 & E5) | (-> & E2 & E3 & E4) ] ].
    - assert (HB : Forall (fun e => fst e < u) h).
      { destruct E4 as [E4|E4]; [rewrite HZ by auto; constructor|].
        destruct (Z.eq_dec (begin r) 0) as [Z0|NZ]; [rewrite HZ by auto; constructor|].
        destruct HR as (_ & _ & [[? _]|[? _]]); [congruence|]. destruct (HW ltac:(lia)) as (_ & HW2 & _).
        eapply Forall_impl; [|exact HT]. cbn. lia. }
      rewrite E1, E2. rewrite passes_app, passes_before by auto. rewrite passes_one, E3. cbn [passed andb].
      replace (u <=? u) with true by (symmetry; apply Z.leb_le; lia). cbn [andb]. split; [lia|]. split; [lia|].
      destruct (Z.eq_dec (begin r) 0) as [Z0|NZ].
      + exists (u - ival - 1). split; [lia|]. rewrite HZ by auto. cbn [app]. rewrite passes_one. cbn [passed andb].
        replace (u <=? u - 1) with false by (symmetry; apply Z.leb_gt; lia). rewrite andb_false_r. lia.
      + destruct E4 as [E4|E4]; [congruence|]. exists (begin r). split; auto. rewrite passes_app, passes_one.
        replace (u <=? u - 1) with false by (symmetry; apply Z.leb_gt; lia). rewrite andb_false_r.
        destruct HR as (_ & _ & [[? _]|[? N1]]); [congruence|]. destruct (HW ltac:(lia)) as (HW1 & HW2 & _).
        rewrite (passes_upto _ (u - 1) t) by (auto; lia). lia.
    - destruct (HW E2) as (HW1 & HW2 & w & HW3 & HW4). rewrite E1, E3. rewrite passes_app, (passes_upto _ u t) by (auto; lia). rewrite HW1.
      rewrite passes_one. replace (passed s) with true by (rewrite E5; destruct (num r + 1 =? b); auto).
      replace (begin r <=? u) with true by (symmetry; apply Z.leb_le; lia). replace (u <=? u) with true by (symmetry; apply Z.leb_le; lia).
      cbn [andb]. split; [lia|]. split; [lia|]. exists w. split; auto. rewrite passes_app, passes_one.
      replace (u <=? begin r - 1) with false by (symmetry; apply Z.leb_gt; lia). rewrite andb_false_r. lia.
    - destruct (HW E2) as (HW1 & HW2 & w & HW3 & HW4). rewrite passes_app, (passes_upto _ u t) by (auto; lia). rewrite HW1.
      rewrite passes_one, E4. cbn [passed andb]. split; [lia|]. split; [lia|]. exists w. split; auto. rewrite passes_app, passes_one. cbn [passed andb]. lia. }
  assert (NB : num r' <= b) by (destruct OK' as (_ & _ & [[? ?]|[_ ?]]); lia).
  split.
  - split; auto. split; auto. split; [lia|]. split; [intros _; exact W'|]. intros a.
    destruct W' as (W1 & W2 & w & W3 & W4).
    destruct (Z.le_gt_cases u (a + ival)) as [C|C].
    + rewrite (passes_upto _ (a + ival) u) by auto. destruct (Z.le_gt_cases a (begin r')) as [D|D].
      * pose proof (passes_split a u (begin r') (h ++ [(u, s)])) as P1.
        pose proof (passes_sub a (begin r' - 1) w (begin r' - 1) (h ++ [(u, s)]) ltac:(lia) ltac:(lia)). lia.
      * pose proof (passes_sub a u (begin r') u (h ++ [(u, s)]) ltac:(lia) ltac:(lia)). lia.
    + rewrite passes_app, passes_one. replace (u <=? a + ival) with false by (symmetry; apply Z.leb_gt; lia). rewrite andb_false_r.
      specialize (HA a). lia.
  - intros ->. destruct S as [ (_ & _ & E3 & _) | [ (_ & _ & _ & _ & E5) | (-> & E2 & E3 & E4) ] ]; [discriminate|destruct (num r + 1 =? b); discriminate|].
    destruct (HW E2) as (HW1 & HW2 & _). rewrite <- E3, <- HW1. apply passes_sub; lia.
Qed.
Lemma Inv_init : Inv 0 (ratelimit_init ival b) [].
Proof.
  split; [apply init_ok|]. split; [constructor|]. split; [auto|]. split; [cbn; lia|]. intros a. change (passes a (a + ival) []) with 0. lia.
Qed.
Lemma Inv_run : forall ts, ok_times ts -> clock 0 ts -> exists t, Inv t (after ts) (run ts) /\ (t = 0 /\ ts = [] \/ In t ts) /\
  forall c, clock 0 (ts ++ c) -> clock t c.
Proof.
  intros ts. induction ts as [|u ts IH] using rev_ind; intros HO HC.
  - exists 0. split; [apply Inv_init|]. split; auto.
  - apply Forall_app in HO. destruct HO as [HO1 HO2]. inversion HO2 as [|? ? HO3 _]; subst.
    assert (HC1 : clock 0 ts). { clear - HC. revert HC. generalize 0. induction ts as [|x ts IH]; intros z HC; [constructor|]. inversion HC; subst. constructor; auto. }
    destruct (IH HO1 HC1) as (t & I & D & E). specialize (E [u] HC). inversion E as [|? ? ? E1 E2 E3]; subst.
    pose proof (Inv_step t _ _ u I E1 E2 HO3) as S. rewrite after_app, run_app. cbn [rl_after rl_run].
    destruct (ratelimit_test _ u) as [r' s]. destruct S as [S _]. exists u. split; auto. split; [right; apply in_or_app; right; left; auto|].
    intros c. clear. intros HC. rewrite <- app_assoc in HC. cbn in HC. revert HC. generalize 0. induction ts as [|x ts IH]; intros z HC; inversion HC; subst; eauto.
Qed.
Lemma sliding_lemma : forall ts a, ok_times ts -> clock 0 ts -> passes a (a + ival) (run ts) <= 2 * b.
Proof. intros ts a HO HC. destruct (Inv_run ts HO HC) as (t & (_ & _ & _ & _ & HA) & _). apply HA. Qed.
Lemma exceeded_lemma : forall ts h t h', ok_times ts -> clock 0 ts -> run ts = h ++ (t, EXCEEDED) :: h' -> b <= passes (t - ival) t h.
Proof.
  intros ts h t h' HO HC HE.
  assert (ET : ts = map fst h ++ t :: map fst h').
  { rewrite <- (run_times (ratelimit_init ival b) ts), HE, map_app. reflexivity. }
  set (p := map fst h) in *. set (q := map fst h') in *.
  assert (EH : h = run p).
  { assert (X : run ts = run p ++ rl_run (after p) (t :: q)) by (rewrite ET at 1; apply run_app).
    rewrite HE in X. assert (L : length h = length (run p)) by (rewrite <- (map_length fst (run p)), run_times; unfold p; rewrite map_length; auto).
    clear - X L. revert L X. generalize (rl_run (after p) (t :: q)) ((t, EXCEEDED) :: h') (run p). induction h as [|x h IH]; intros m n [|y l] L X; cbn in L; try discriminate; auto.
    cbn in X. injection X as -> X. f_equal. eapply IH; eauto. }
  rewrite ET in HO, HC. apply Forall_app in HO. destruct HO as [HO1 HO2]. inversion HO2; subst x l.
  assert (HC1 : clock 0 p). { clear - HC. clearbody p. revert HC. generalize 0. induction p as [|x p IH]; intros z HC; [constructor|]. inversion HC; subst. constructor; auto. }
  destruct (Inv_run p HO1 HC1) as (u & I & _ & E). specialize (E _ HC). inversion E as [|? ? ? E1 E2 E3]; subst t0 u0 r.
  pose proof (Inv_step u _ _ t I E1 E2 H1) as S. rewrite ET, run_app in HE. cbn [rl_run] in HE. destruct (ratelimit_test (after p) t) as [r' s].
  rewrite EH in HE. apply app_inv_head in HE. injection HE as -> _. destruct S as [_ S]. rewrite EH. apply S. auto.
Qed.
Lemma after_silence_lemma : forall pre t post, ok_times (pre ++ t :: post) -> clock 0 (pre ++ t :: post) ->
  Forall (fun u => u + ival < t) pre -> passes t (t + ival) (run (pre ++ t :: post)) <= b.
Proof.
  intros pre t post HO HC HP. apply Forall_app in HO. destruct HO as [HO1 HO2]. inversion HO2; subst x l.
  assert (HC1 : clock 0 pre). { clear - HC. revert HC. generalize 0. induction pre as [|x p IH]; intros z HC; [constructor|]. inversion HC; subst. constructor; auto. }
  destruct (Inv_run pre HO1 HC1) as (u & (HR & HT & HZ & HW & _) & D & E). specialize (E _ HC). inversion E as [|? ? ? E1 E2 E3]; subst t0 u0 r.
  pose proof (rl_step ival b Hi Hb u _ t HR E1 E2 H1) as S. rewrite run_app. cbn [rl_run]. destruct (ratelimit_test (after pre) t) as [r' s].
  destruct S as (OK' & B1 & B2 & S).
  assert (NEW : begin r' = t /\ num r' = 1).
  { destruct D as [[-> ->]|D].
    - destruct S as [ (? & ? & _) | [ (? & ? & _) | (? & ? & _) ] ]; auto; cbn in *; lia.
    - rewrite Forall_forall in HP. specialize (HP u D). destruct S as [ (? & ? & _) | [ (S1 & S2 & _) | (-> & S2 & _) ] ]; auto; exfalso.
      + destruct HR as (_ & _ & [[? _]|[? _]]); lia.
      + destruct HR as (_ & _ & [[? _]|[? _]]); lia. }
  destruct NEW as [N1 N2]. rewrite passes_app.
  rewrite passes_before. 2:{ apply Forall_forall. intros e I. assert (J : In (fst e) pre) by (rewrite <- (run_times (ratelimit_init ival b) pre); apply in_map; auto).
    rewrite Forall_forall in HP. specialize (HP _ J). lia. }
  rewrite passes_cons. pose proof (window_rest ival b post Hi Hb H2 t r' OK' ltac:(lia) E3) as P. rewrite N1, N2 in P.
  pose proof (passes_sub t (t + ival) 0 (t + ival) (rl_run r' post) ltac:(lia) ltac:(lia)). destruct (_ && _); lia.
Qed.
End Runs.
