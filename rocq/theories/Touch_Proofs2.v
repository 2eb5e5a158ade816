(** Proofs about touches: frames, suspend, arbitration. *)
Require Import Coq.ZArith.ZArith Coq.Lists.List Coq.Bool.Bool Coq.micromega.Lia.
Require Import Verif.Touch_Model Verif.Touch_Spec Verif.Touch_Proofs.
Import ListNotations.
Open Scope Z_scope.

(** a touch event, not a frame, with time [t] *)
Definition tev (t : Z) (e : tout) : Prop :=
  match e with TDown s _ _ _ | TMotion s _ _ _ | TUp s _ _ | TCancel s _ _ => s = t | TFrame _ => False end.
Definition cancels (t : Z) (e : tout) : Prop := match e with TCancel s _ _ => s = t | _ => False end.

Section WithHyst.
Variable hyst : point -> point -> point.

Ltac fa := repeat (constructor; cbn; auto).

Lemma mt_down_ev : forall touch m s i t, let '(_, _, o) := mt_down touch m s i t in Forall (tev t) o.
Proof. intros. unfold mt_down. destruct touch, (sl_seat s =? -1), (first_free m =? -1); cbn; fa. Qed.
Lemma mt_motion_ev : forall touch want m s i t, let '(_, _, o) := mt_motion hyst touch want m s i t in Forall (tev t) o.
Proof.
  intros. unfold mt_motion. destruct touch, (sl_seat s =? -1); cbn; fa.
  destruct (defuzz hyst want s) as [? []]; fa.
Qed.
Lemma mt_up_ev : forall touch m s i t, let '(_, _, o) := mt_up touch m s i t in Forall (tev t) o.
Proof. intros. unfold mt_up. destruct touch, (sl_seat s =? -1); cbn; fa. Qed.
Lemma mt_cancel_ev : forall touch m s i t, let '(_, _, o) := mt_cancel touch m s i t in Forall (cancels t) o.
Proof. intros. unfold mt_cancel. destruct touch, (sl_seat s =? -1); cbn; fa. Qed.
Lemma cancels_ev : forall t o, Forall (cancels t) o -> Forall (tev t) o.
Proof. intros t o H. eapply Forall_impl; [|exact H]. intros [] ; cbn; tauto. Qed.

Lemma flush_slot_ev : forall d m s i t, let '(_, _, o, sn) := flush_slot hyst d m s i t in
  Forall (tev t) o /\ match sn with Some b => b = nonempty o | None => o = [] end.
Proof.
  intros d m s0 i t. unfold flush_slot. cbv zeta.
  set (s := mkSlot false (sl_state s0) (sl_seat s0) (sl_point s0) (sl_center s0) (sl_palm s0)).
  set (x := match sl_palm s with P_NEW => _ | _ => _ end).
  assert (H : let '(_, _, o, sn) := x in Forall (tev t) o /\ match sn with Some b => b = nonempty o | None => o = [] end).
  { subst x. destruct (sl_palm s).
    - destruct (sl_state s).
      + split; auto.
      + destruct (arbitrate d s); [split; auto|].
        pose proof (mt_down_ev (dv_touch d) m s i t) as P. destruct (mt_down _ _ _ _ _) as [[? ?] ?]; auto.
      + pose proof (mt_motion_ev (dv_touch d) (dv_hyst d) m s i t) as P.
        destruct (mt_motion _ _ _ _ _ _ _) as [[? ?] ?]; auto.
      + pose proof (mt_up_ev (dv_touch d) m s i t) as P.
        destruct (mt_up _ _ _ _ _) as [[? ?] ?]; auto.
    - pose proof (mt_cancel_ev (dv_touch d) m s i t) as P.
      destruct (sl_state s); [|split; auto| |];
        destruct (mt_cancel _ _ _ _ _) as [[? ?] ?]; (split; [apply cancels_ev|]; auto).
    - split; auto.
    - split; auto. }
  destruct x as [[[m1 s1] o1] sn]. exact H.
Qed.

Lemma nonempty_app : forall (a b : list tout), nonempty (a ++ b) = nonempty a || nonempty b.
Proof. destruct a; auto. Qed.

Lemma flush_mt_ev : forall d l m i t sent, let '(_, _, o, sent') := flush_mt hyst d m l i t sent in
  Forall (tev t) o /\ (sent' = true -> sent = true \/ o <> []) /\
  ((length (filter sl_dirty l) <= 1)%nat -> sent = false -> sent' = nonempty o) /\
  (filter sl_dirty l = [] -> o = [] /\ sent' = sent).
Proof.
  induction l as [|s l IH]; intros m i t sent; cbn [flush_mt filter].
  - repeat split; intros; subst; auto.
  - destruct (sl_dirty s); cbn [negb].
    + pose proof (flush_slot_ev d m s i t) as P. destruct (flush_slot hyst d m s i t) as [[[m1 s1] o1] sn].
      destruct P as [P1 P2].
      specialize (IH m1 (i + 1) t (match sn with Some b => b | None => sent end)).
      destruct (flush_mt _ _ _ _ _ _ _) as [[[m2 l2] o2] sent2]. destruct IH as (I1 & I2 & I3 & I4).
      split; [apply Forall_app; auto|]. split; [|split; [|discriminate]].
      * intros H. apply I2 in H. destruct H as [H|H].
        -- destruct sn; subst; auto. right. destruct o1; [discriminate|]. discriminate.
        -- right. intros E. apply app_eq_nil in E. tauto.
      * cbn [length]. intros H E. assert (F : filter sl_dirty l = []) by (destruct (filter sl_dirty l); auto; cbn in H; lia).
        destruct (I4 F) as [-> ->]. rewrite app_nil_r. destruct sn; subst; auto.
    + specialize (IH m (i + 1) t sent). destruct (flush_mt _ _ _ _ _ _ _) as [[[m2 l2] o2] sent2]. exact IH.
Qed.

Lemma cancel_slots_ev : forall touch r l m i t, let '(_, _, o) := cancel_slots touch r m l i t in Forall (cancels t) o.
Proof.
  induction l as [|s l IH]; intros m i t; cbn [cancel_slots]; [constructor|].
  set (x := if _ && _ then _ else _).
  assert (P : let '(_, _, o1) := x in Forall (cancels t) o1).
  { subst x. destruct (_ && _); [apply mt_cancel_ev|constructor]. }
  destruct x as [[m1 s1] o1]. specialize (IH m1 (i + 1) t).
  destruct (cancel_slots _ _ _ _ _ _) as [[m2 l2] o2]. apply Forall_app; auto.
Qed.

(** shape of the output of one operation *)
Definition shape (t : Z) (P : tout -> Prop) (o : list tout) : Prop :=
  exists evs fr, o = evs ++ fr /\ Forall P evs /\ (fr = [] \/ (evs <> [] /\ fr = [TFrame t])).
Definition closed (t : Z) (o : list tout) : Prop := o = [] \/ exists evs, o = evs ++ [TFrame t].

Lemma cancel_touches_ev : forall m d r t, let '(_, _, o) := cancel_touches m d r t in shape t (cancels t) o /\ closed t o.
Proof.
  intros m d r t. unfold cancel_touches.
  set (x := if match r with None => true | Some r0 => in_rect (dv_abs d) r0 end then _ else _).
  assert (X : let '(_, _, o) := x in Forall (cancels t) o).
  { subst x. destruct (match r with None => true | Some r0 => in_rect (dv_abs d) r0 end); [|constructor].
    unfold st_cancel. destruct (dv_touch d), (dv_st d =? -1); cbn; fa. }
  destruct x as [[m1 d1] o1].
  pose proof (cancel_slots_ev (dv_touch d1) r (dv_slots d1) m1 0 t) as P.
  destruct (cancel_slots _ _ _ _ _ _) as [[m2 l] o2].
  rewrite app_assoc. rewrite <- nonempty_app. split.
  - exists (o1 ++ o2). eexists. split; [reflexivity|]. split; [apply Forall_app; auto|].
    destruct (o1 ++ o2); cbn; auto. right. split; auto. discriminate.
  - destruct (o1 ++ o2) eqn:E; cbn [nonempty]; [left; auto|]. right. eauto.
Qed.

(** pending flags match the kind of device *)
Definition Kd (d : dev) : Prop :=
  if dv_mt d then dv_pdown d = false /\ dv_pmotion d = false /\ dv_pup d = false else dv_pmt d = false.

Lemma st_down_ev : forall m d t, let '(_, d', o) := st_down m d t in Forall (tev t) o /\ dv_pup d' = dv_pup d /\ dv_pmt d' = dv_pmt d /\ dv_mt d' = dv_mt d.
Proof. intros. unfold st_down. destruct (dv_touch d), (dv_st d =? -1), (first_free m =? -1); cbn; repeat split; fa. Qed.
Lemma st_motion_ev : forall m d t, let '(_, d', o) := st_motion m d t in Forall (tev t) o /\ dv_pup d' = dv_pup d /\ dv_pmt d' = dv_pmt d /\ dv_mt d' = dv_mt d.
Proof. intros. unfold st_motion. destruct (dv_st d =? -1); cbn; repeat split; fa. Qed.
Lemma st_up_ev : forall m d t, let '(_, d', o) := st_up m d t in Forall (tev t) o /\ dv_pmt d' = dv_pmt d /\ dv_mt d' = dv_mt d /\ dv_slots d' = dv_slots d.
Proof. intros. unfold st_up. destruct (dv_touch d), (dv_st d =? -1); cbn; repeat split; fa. Qed.
Lemma st_down_slots : forall m d t, let '(_, d', _) := st_down m d t in dv_slots d' = dv_slots d.
Proof. intros. unfold st_down. destruct (dv_touch d), (dv_st d =? -1), (first_free m =? -1); cbn; auto. Qed.
Lemma st_motion_slots : forall m d t, let '(_, d', _) := st_motion m d t in dv_slots d' = dv_slots d.
Proof. intros. unfold st_motion. destruct (dv_st d =? -1); cbn; auto. Qed.

Lemma handle_state_ev : forall m d t, let '(_, d', o) := handle_state hyst m d t in
  shape t (tev t) o /\ dv_mt d' = dv_mt d /\
  (dv_pdown d' = false /\ dv_pmotion d' = false /\ dv_pup d' = false /\ dv_pmt d' = false) /\
  (Kd d -> dv_mt d = false \/ (length (filter sl_dirty (dv_slots d)) <= 1)%nat -> closed t o).
Proof.
  intros m d t. unfold handle_state.
  set (x := if dv_pdown d then _ else _).
  assert (X : let '(_, d', o) := x in Forall (tev t) o /\ dv_pup d' = dv_pup d /\ dv_pmt d' = dv_pmt d /\ dv_mt d' = dv_mt d
     /\ dv_slots d' = dv_slots d /\ (dv_pdown d = false -> dv_pmotion d = false -> o = [])).
  { subst x. destruct (dv_pdown d).
    - pose proof (st_down_ev m d t). pose proof (st_down_slots m d t). destruct (st_down m d t) as [[? ?] ?]. intuition discriminate.
    - destruct (dv_pmotion d && dv_touch d) eqn:E.
      + pose proof (st_motion_ev m d t). pose proof (st_motion_slots m d t). destruct (st_motion m d t) as [[? ?] ?].
        apply andb_prop in E. destruct E as [E _]. rewrite E. intuition discriminate.
      + repeat split; auto. }
  destruct x as [[m1 d1] o1]. destruct X as (X1 & X2 & X3 & X4 & X5 & X6).
  set (y := if dv_pup d1 then _ else _).
  assert (Y : let '(_, d', o) := y in Forall (tev t) o /\ dv_pmt d' = dv_pmt d1 /\ dv_mt d' = dv_mt d1 /\ dv_slots d' = dv_slots d1
     /\ (dv_pup d1 = false -> o = [])).
  { subst y. destruct (dv_pup d1).
    - pose proof (st_up_ev m1 d1 t). destruct (st_up m1 d1 t) as [[? ?] ?]. intuition discriminate.
    - repeat split; auto. }
  destruct y as [[m2 d2] o2]. cbv zeta. destruct Y as (Y1 & Y2 & Y3 & Y4 & Y5).
  set (z := if dv_pmt d2 then _ else _).
  assert (Z : let '(_, _, o, need) := z in Forall (tev t) o /\ (need = true -> o1 ++ o2 ++ o <> []) /\
     (Kd d -> dv_mt d = false \/ (length (filter sl_dirty (dv_slots d)) <= 1)%nat -> need = nonempty (o1 ++ o2 ++ o))).
  { subst z. unfold Kd. destruct (dv_pmt d2) eqn:E.
    - pose proof (flush_mt_ev d2 (dv_slots d2) m2 0 t false) as P.
      destruct (flush_mt _ _ _ _ _ _ _) as [[[m3 l] o3] n3]. destruct P as (P1 & P2 & P3 & P4).
      split; auto. split.
      + intros H. destruct (P2 H); [discriminate|]. intros Q. apply app_eq_nil in Q. destruct Q as [_ Q].
        apply app_eq_nil in Q. tauto.
      + rewrite <- X4, <- Y3 in *. destruct (dv_mt d2); [|intros; congruence].
        intros (K1 & K2 & K3) [?|H]; [discriminate|].
        rewrite (X6 K1 K2), Y5 by congruence. apply P3; auto. rewrite Y4, X5. auto.
    - split; [constructor|]. rewrite app_nil_r. rewrite nonempty_app. split; auto.
      intros H Q. apply app_eq_nil in Q. destruct Q; subst. discriminate. }
  destruct z as [[[m3 l] o3] n3]. destruct Z as (Z1 & Z2 & Z3).
  split; [|split; [|split]].
  - exists (o1 ++ o2 ++ o3), (if n3 then [TFrame t] else []). split; [rewrite <- !app_assoc; auto|].
    split; [repeat (apply Forall_app; split); auto|]. destruct n3; auto.
  - cbn. congruence.
  - auto.
  - intros K H. specialize (Z3 K H). unfold closed.
    destruct n3; [right; exists (o1 ++ o2 ++ o3); rewrite <- !app_assoc; auto|].
    left. rewrite app_nil_r. destruct (o1 ++ o2 ++ o3); auto. discriminate.
Qed.

Lemma touch_slot_k : forall d f, Kd d -> dv_mt d = true -> Kd (touch_slot d f).
Proof. intros d f H E. unfold Kd in *. cbn. rewrite E in *. auto. Qed.

Lemma cancel_touches_k : forall m d r t, let '(_, d', _) := cancel_touches m d r t in
  dv_mt d' = dv_mt d /\ dv_pdown d' = dv_pdown d /\ dv_pmotion d' = dv_pmotion d /\ dv_pup d' = dv_pup d /\ dv_pmt d' = dv_pmt d
  /\ dv_arb d' = dv_arb d /\ dv_rect d' = dv_rect d /\ dv_inarb d' = dv_inarb d /\ dv_timer d' = dv_timer d /\ dv_touch d' = dv_touch d.
Proof.
  intros m d r t. unfold cancel_touches.
  set (x := if match r with None => true | Some r0 => in_rect (dv_abs d) r0 end then _ else _).
  assert (X : let '(_, d', _) := x in
  dv_mt d' = dv_mt d /\ dv_pdown d' = dv_pdown d /\ dv_pmotion d' = dv_pmotion d /\ dv_pup d' = dv_pup d /\ dv_pmt d' = dv_pmt d
  /\ dv_arb d' = dv_arb d /\ dv_rect d' = dv_rect d /\ dv_inarb d' = dv_inarb d /\ dv_timer d' = dv_timer d /\ dv_touch d' = dv_touch d).
  { subst x. destruct (match r with None => true | Some r0 => in_rect (dv_abs d) r0 end); [|repeat split].
    unfold st_cancel. destruct (dv_touch d) eqn:T, (dv_st d =? -1); cbn; repeat split; auto. }
  destruct x as [[m1 d1] o1].
  destruct (cancel_slots _ _ _ _ _ _) as [[m2 l] o2]. exact X.
Qed.

Lemma tstep_ev : forall m d o, Kd d -> let '(_, d', l) := tstep hyst m d o in
  Kd d' /\ dv_mt d' = dv_mt d /\ shape (top_time o) (tev (top_time o)) l /\
  ((exists t, o = Syn t) -> dv_mt d = false \/ (length (filter sl_dirty (dv_slots d)) <= 1)%nat -> closed (top_time o) l) /\
  ((forall t, o <> Syn t) -> closed (top_time o) l).
Proof.
  intros m d o K.
  assert (N : forall d', Kd d' -> dv_mt d' = dv_mt d -> Kd d' /\ dv_mt d' = dv_mt d /\ shape (top_time o) (tev (top_time o)) [] /\
  ((exists t, o = Syn t) -> dv_mt d = false \/ (length (filter sl_dirty (dv_slots d)) <= 1)%nat -> closed (top_time o) []) /\
  ((forall t, o <> Syn t) -> closed (top_time o) [])).
  { intros d' K' E. split; auto. split; auto. split; [exists [], []; auto|]. split; intros; left; auto. }
  assert (C : forall d' o' t, Kd d' -> dv_mt d' = dv_mt d -> shape t (cancels t) o' -> closed t o' -> (forall t, o <> Syn t) -> t = top_time o ->
   Kd d' /\ dv_mt d' = dv_mt d /\ shape (top_time o) (tev (top_time o)) o' /\
  ((exists t, o = Syn t) -> dv_mt d = false \/ (length (filter sl_dirty (dv_slots d)) <= 1)%nat -> closed (top_time o) o') /\
  ((forall t, o <> Syn t) -> closed (top_time o) o')).
  { intros d' o' t K' E (ev & fr & S1 & S2 & S3) Cl NS ->. split; auto. split; auto.
    split; [exists ev, fr; split; auto; split; auto; apply cancels_ev; auto|].
    split; auto. }
  destruct o as [v|v p|v|v|p|v|v|v|t|t|w r t|r|t]; unfold tstep; cbv beta zeta.
  1-5: destruct (dv_inarb d); [apply N; auto|]; destruct (dv_mt d) eqn:M; apply N; auto; apply touch_slot_k; auto.
  - destruct (dv_inarb d); [apply N; auto|]. destruct (dv_mt d) eqn:M; apply N; auto; unfold Kd in *; cbn; rewrite M in *; auto.
  - destruct (dv_inarb d); [apply N; auto|]. destruct (dv_mt d) eqn:M; apply N; auto; unfold Kd in *; cbn; rewrite M in *; auto.
  - destruct (dv_inarb d); [apply N; auto|]. destruct (dv_mt d) eqn:M; [apply N; auto|].
    unfold Kd in K. rewrite M in K.
    destruct (v =? 2); [|destruct (v =? 0)]; apply N; auto; unfold Kd; cbn; rewrite M; auto.
  - destruct (dv_inarb d); [apply N; auto|].
    pose proof (handle_state_ev m d t) as P. destruct (handle_state hyst m d t) as [[m' d'] o'].
    destruct P as (P1 & P2 & P3 & P4). split; [unfold Kd; destruct (dv_mt d'); tauto|]. split; auto.
    split; [exact P1|]. split; [intros; apply P4; auto|]. intros H. exfalso. eapply H; eauto.
  - pose proof (cancel_touches_ev m d None t) as P. pose proof (cancel_touches_k m d None t) as Q.
    destruct (cancel_touches _ _ _ _) as [[m' d'] o']. destruct P as [P1 P2].
    destruct Q as (Q1 & Q2 & Q3 & Q4 & Q5 & _).
    eapply C; eauto; [|discriminate]. unfold Kd in *. rewrite Q1, Q2, Q3, Q4, Q5. auto.
  - unfold toggle_touch. destruct (arb_eqb w (dv_arb d)); [apply N; auto|]. destruct w.
    + apply N; auto.
    + set (d0 := set_arb d (dv_inarb d) (dv_arb d) (dv_rect d) None).
      pose proof (cancel_touches_ev m d0 None t) as P. pose proof (cancel_touches_k m d0 None t) as Q.
      destruct (cancel_touches _ _ _ _) as [[m' d'] o']. destruct P as [P1 P2].
      destruct Q as (Q1 & Q2 & Q3 & Q4 & Q5 & _).
      eapply C; eauto; [|discriminate]. unfold Kd in *. cbn. rewrite Q1, Q2, Q3, Q4, Q5. auto.
    + pose proof (cancel_touches_ev m d (Some r) t) as P. pose proof (cancel_touches_k m d (Some r) t) as Q.
      destruct (cancel_touches _ _ _ _) as [[m' d'] o']. destruct P as [P1 P2].
      destruct Q as (Q1 & Q2 & Q3 & Q4 & Q5 & _).
      eapply C; eauto; [|discriminate]. unfold Kd in *. cbn. rewrite Q1, Q2, Q3, Q4, Q5. auto.
  - apply N; auto.
  - apply N; auto.
Qed.

Definition Kw (w : seat) : Prop := forall k, Kd (w_dev w k).
Lemma Kw_init : forall w, new_seat w -> Kw w.
Proof.
  intros w [_ H] k. destruct (H k) as (touch & mt & hp & hy & ab & hx & pts & cur & E & _). rewrite E.
  unfold Kd. cbn. destruct mt; auto.
Qed.
Lemma Kw_step : forall w a, Kw w -> Kw (fst (wstep hyst w a)).
Proof.
  intros w [k o] H j. unfold wstep. pose proof (tstep_ev (w_map w) (w_dev w k) o (H k)) as P.
  destruct (tstep hyst (w_map w) (w_dev w k) o) as [[m d] l]. cbn. destruct (Nat.eqb_spec j k); subst; [tauto|apply H].
Qed.
Lemma Kw_run : forall ops w, Kw w -> Kw (fst (wrun hyst w ops)).
Proof.
  induction ops as [|a ops IH]; intros w H; cbn [wrun]; auto.
  pose proof (Kw_step w a H) as P. destruct (wstep hyst w a) as [w1 o1]. cbn [fst] in P.
  specialize (IH w1 P). destruct (wrun hyst w1 ops); auto.
Qed.

Lemma frames_lemma : forall w ops k o, new_seat w ->
  let w1 := fst (wrun hyst w ops) in
  let outs := snd (wstep hyst w1 (k, o)) in
  frame_shape outs /\
  Forall (fun e => fst e = k /\ stamp e = top_time o) outs /\
  ((forall t, o <> Syn t) \/ dv_mt (w_dev w1 k) = false \/
   (length (filter sl_dirty (dv_slots (w_dev w1 k))) <= 1)%nat -> frame_closed outs).
Proof.
  intros w ops k o H w1 outs.
  pose proof (Kw_run ops w (Kw_init w H) k) as K. fold w1 in K.
  pose proof (tstep_ev (w_map w1) (w_dev w1 k) o K) as P. unfold wstep in outs.
  destruct (tstep hyst (w_map w1) (w_dev w1 k) o) as [[m d] l]. cbn [snd] in outs.
  destruct P as (_ & _ & (evs & fr & E & F & G) & C1 & C2). split; [|split].
  - exists (map (fun e => (k, e)) evs), (map (fun e => (k, e)) fr). subst outs l. rewrite map_app.
    split; auto. split.
    + apply Forall_map. eapply Forall_impl; [|exact F]. intros []; cbn; auto. contradiction.
    + destruct G as [->|[G1 ->]]; [left; auto|right]. split; [destruct evs; [congruence|discriminate]|].
      cbn. eauto.
  - subst outs l. apply Forall_map. apply Forall_app. split.
    + eapply Forall_impl; [|exact F]. intros [] ; cbn; auto. contradiction.
    + destruct G as [->|[G1 ->]]; repeat constructor.
  - intros Hyp. assert (C : closed (top_time o) l).
    { destruct Hyp as [Hyp|Hyp]; [apply C2; auto|].
      destruct o; try (apply C2; intros; discriminate). apply C1; eauto. }
    destruct C as [C|[ev C]]; subst outs; rewrite C; [left; auto|right].
    rewrite map_app. cbn. eauto.
Qed.

(** *** Suspend *)
Lemma cancel_all_slots : forall touch l m i t, let '(_, l', _) := cancel_slots touch None m l i t in
  Forall (fun s => sv touch s = -1) l'.
Proof.
  induction l as [|s l IH]; intros m i t; cbn [cancel_slots]; [constructor|].
  set (x := if _ && _ then _ else _).
  assert (P : let '(_, s1, _) := x in sv touch s1 = -1).
  { subst x. unfold mt_cancel, sv. destruct (Z.eqb_spec (sl_seat s) (-1)); destruct touch; cbn; auto. }
  destruct x as [[m1 s1] o1]. specialize (IH m1 (i + 1) t).
  destruct (cancel_slots _ _ _ _ _ _) as [[m2 l2] o2]. constructor; auto.
Qed.

Lemma cancel_touches_all : forall m d t, let '(_, d', _) := cancel_touches m d None t in forall i, aof d' i = -1.
Proof.
  intros m d t. unfold cancel_touches.
  assert (X : let '(_, d', _) := st_cancel m d t in aof d' (-1) = -1).
  { unfold st_cancel, aof. destruct (dv_touch d) eqn:T; cbn; rewrite ?T; auto.
    destruct (Z.eqb_spec (dv_st d) (-1)); cbn; rewrite T; auto. }
  destruct (st_cancel m d t) as [[m1 d1] o1].
  pose proof (cancel_all_slots (dv_touch d1) (dv_slots d1) m1 0 t) as P.
  destruct (cancel_slots _ _ _ _ _ _) as [[m2 l] o2]. intros i. unfold aof in *. cbn in *.
  destruct (i =? -1); auto. destruct (i <? 0); auto. destruct (nth_error l (Z.to_nat i)) eqn:E; auto.
  apply nth_error_In in E. rewrite Forall_forall in P. apply P. auto.
Qed.

Lemma legal_other : forall o v v', legal v o v' -> forall k, Forall (fun e => fst e = k) o ->
  forall k' i n, k' <> k -> (In (k', i, n) v <-> In (k', i, n) v').
Proof.
  intros o v v' H. induction H; intros k0 F k' i' n' Hne; try tauto; inversion F; subst; cbn in *.
  - apply IHlegal with k; auto.
  - rewrite <- (IHlegal k); auto. cbn. split; auto. intros [E|]; auto. inversion E; subst. congruence.
  - apply IHlegal with k; auto.
  - rewrite <- (IHlegal k), in_drop; auto. cbn. split; [|tauto]. intros; split; auto. congruence.
  - rewrite <- (IHlegal k), in_drop; auto. cbn. split; [|tauto]. intros; split; auto. congruence.
Qed.

Lemma suspend_lemma : forall w ops k t, new_seat w ->
  let outs := snd (wstep hyst (fst (wrun hyst w ops)) (k, Suspend t)) in
  exists v v', legal [] (snd (wrun hyst w ops)) v /\ legal v outs v' /\
    Forall (is_cancel_or_frame k t) outs /\ frame_closed outs /\
    (forall i n, ~ In (k, i, n) v') /\
    (forall k' i n, k' <> k -> (In (k', i, n) v <-> In (k', i, n) v')).
Proof.
  intros w ops k t H outs.
  pose proof (frames_lemma w ops k (Suspend t) H) as Fr. cbv zeta in Fr. fold outs in Fr.
  pose proof (wrun_sound hyst ops w [] (J_init w H)) as P.
  subst outs. destruct (wrun hyst w ops) as [w1 o1]. cbn [fst snd] in *.
  destruct P as (v & J1 & L1).
  pose proof (wstep_sound hyst w1 (k, Suspend t) v J1) as Q.
  unfold wstep in *. cbn [tstep] in *.
  pose proof (cancel_touches_all (w_map w1) (w_dev w1 k) t) as A.
  pose proof (cancel_touches_ev (w_map w1) (w_dev w1 k) None t) as E.
  destruct (cancel_touches _ _ _ _) as [[m d] l]. cbn [fst snd] in *.
  destruct Q as (v' & J2 & L2). exists v, v'.
  destruct Fr as (_ & Fr2 & Fr3).
  split; auto. split; auto. split; [|split; [|split]].
  - destruct E as [(ev & fr & -> & E1 & E2) _]. apply Forall_map, Forall_app. split.
    + eapply Forall_impl; [|exact E1]. unfold is_cancel_or_frame. intros []; cbn; try contradiction. intros ->. eauto.
    + destruct E2 as [->|[_ ->]]; constructor; auto. unfold is_cancel_or_frame. auto.
  - apply Fr3. left. discriminate.
  - intros i n I. apply (j_view _ _ _ J2) in I. unfold aw in I. cbn in I. rewrite Nat.eqb_refl, A in I. destruct I. congruence.
  - eapply legal_other; eauto. eapply Forall_impl; [|exact Fr2]. cbn. tauto.
Qed.

(** *** Arbitration *)
Definition quiet (d : dev) : Prop := forall i, aof d i = -1.

Lemma quiet_slots : forall d, quiet d -> Forall (fun s => sv (dv_touch d) s = -1) (dv_slots d).
Proof.
  intros d H. apply Forall_forall. intros s I. apply In_nth_error in I. destruct I as [n E].
  rewrite <- (aof_agrees d n s E). apply H.
Qed.

Lemma cancel_quiet_slots : forall touch r l m i t, Forall (fun s => sv touch s = -1) l ->
  let '(m', l', o) := cancel_slots touch r m l i t in o = [] /\ Forall (fun s => sv touch s = -1) l' /\ m' = m.
Proof.
  induction l as [|s l IH]; intros m i t H; cbn [cancel_slots]; [auto|]. inversion H; subst.
  set (x := if _ && _ then _ else _).
  assert (P : let '(m1, s1, o1) := x in o1 = [] /\ sv touch s1 = -1 /\ m1 = m).
  { subst x. unfold mt_cancel, sv in *.
    destruct touch; cbn; [rewrite H2; cbn; auto|]. destruct (_ && _); auto. }
  destruct x as [[m1 s1] o1]. destruct P as (-> & P2 & ->). specialize (IH m (i + 1) t H3).
  destruct (cancel_slots _ _ _ _ _ _) as [[m2 l2] o2]. destruct IH as (-> & IH & ->). auto.
Qed.

Lemma cancel_quiet : forall m d r t, quiet d ->
  let '(m', d', o) := cancel_touches m d r t in o = [] /\ quiet d'.
Proof.
  intros m d r t H. unfold cancel_touches.
  set (x := if match r with None => true | Some r0 => in_rect (dv_abs d) r0 end then _ else _).
  assert (X : let '(m1, d', o) := x in o = [] /\ quiet d').
  { subst x. destruct (match r with None => true | Some r0 => in_rect (dv_abs d) r0 end); [|auto].
    pose proof (H (-1)) as E. rewrite aof_st_val in E. unfold st_cancel.
    destruct (dv_touch d) eqn:T; cbn; auto. rewrite E. cbn. split; auto.
    intros i. rewrite aof_st, T. unfold u1. destruct (i =? -1); auto. }
  destruct x as [[m1 d1] o1]. destruct X as [-> Q].
  pose proof (cancel_quiet_slots (dv_touch d1) r (dv_slots d1) m1 0 t (quiet_slots d1 Q)) as P.
  destruct (cancel_slots _ _ _ _ _ _) as [[m2 l] o2]. destruct P as (-> & P & ->). split; auto.
  intros i. unfold aof. cbn. specialize (Q (-1)). rewrite aof_st_val in Q.
  destruct (i =? -1); auto. destruct (i <? 0); auto. destruct (nth_error l (Z.to_nat i)) eqn:E; auto.
  apply nth_error_In in E. rewrite Forall_forall in P. apply P. auto.
Qed.

(** muted: nothing is down, kernel events are ignored, and the timer, if armed,
    expires at [off] + 90 ms or later *)
Definition Muted (off : Z) (d : dev) : Prop :=
  dv_inarb d = true /\ quiet d /\
  (forall e, dv_timer d = Some e -> off + 90000 <= e) .

(** while all touches are to be ignored they are *)
Definition AI (d : dev) : Prop :=
  dv_arb d = A_IGNORE_ALL -> dv_inarb d = true /\ quiet d /\ dv_timer d = None.

Lemma quiet_arb : forall d i a r t, quiet (set_arb d i a r t) <-> quiet d.
Proof. intros. split; intros H x; apply (H x). Qed.

Lemma touch_slot_arb : forall d f, dv_inarb (touch_slot d f) = dv_inarb d /\ dv_arb (touch_slot d f) = dv_arb d /\ dv_timer (touch_slot d f) = dv_timer d.
Proof. intros; cbn; auto. Qed.

Lemma handle_state_arb : forall m d t, let '(_, d', _) := handle_state hyst m d t in
  dv_inarb d' = dv_inarb d /\ dv_arb d' = dv_arb d /\ dv_timer d' = dv_timer d /\ dv_rect d' = dv_rect d.
Proof.
  intros m d t. unfold handle_state.
  set (x := if dv_pdown d then _ else _).
  assert (X : let '(_, d', _) := x in dv_inarb d' = dv_inarb d /\ dv_arb d' = dv_arb d /\ dv_timer d' = dv_timer d /\ dv_rect d' = dv_rect d).
  { subst x. destruct (dv_pdown d).
    - unfold st_down. destruct (dv_touch d), (dv_st d =? -1), (first_free m =? -1); cbn; auto.
    - destruct (dv_pmotion d && dv_touch d); auto. unfold st_motion. destruct (dv_st d =? -1); auto. }
  destruct x as [[m1 d1] o1].
  set (y := if dv_pup d1 then _ else _).
  assert (Y : let '(_, d', _) := y in dv_inarb d' = dv_inarb d1 /\ dv_arb d' = dv_arb d1 /\ dv_timer d' = dv_timer d1 /\ dv_rect d' = dv_rect d1).
  { subst y. destruct (dv_pup d1); auto. unfold st_up. destruct (dv_touch d1), (dv_st d1 =? -1); cbn; auto. }
  destruct y as [[m2 d2] o2]. cbv zeta.
  destruct (if dv_pmt d2 then _ else _) as [[[m3 l] o3] n3]. cbn. intuition congruence.
Qed.

Lemma AI_step : forall m d o, AI d -> (forall t, o = ArbTimer t -> dv_timer d <> None) ->
  let '(_, d', _) := tstep hyst m d o in AI d'.
Proof.
  intros m d o H T.
  destruct o as [v|v p|v|v|p|v|v|v|t|t|w r t|r|t]; unfold tstep; cbv beta zeta.
  1-5: destruct (dv_inarb d) eqn:I; auto; destruct (dv_mt d); auto; intros E; cbn in E; destruct (H E); congruence.
  - destruct (dv_inarb d) eqn:I; auto; destruct (dv_mt d); auto; intros E; cbn in E; destruct (H E); congruence.
  - destruct (dv_inarb d) eqn:I; auto; destruct (dv_mt d); auto; intros E; cbn in E; destruct (H E); congruence.
  - destruct (dv_inarb d) eqn:I; auto; destruct (dv_mt d); auto;
    destruct (v =? 2); auto; destruct (v =? 0); intros E; cbn in E; destruct (H E); congruence.
  - destruct (dv_inarb d) eqn:I; auto. pose proof (handle_state_arb m d t) as P.
    destruct (handle_state hyst m d t) as [[m' d'] o']. destruct P as (P1 & P2 & P3).
    intros E. rewrite P2 in E. destruct (H E). congruence.
  - pose proof (cancel_touches_k m d None t) as P. pose proof (cancel_touches_all m d t) as Q.
    destruct (cancel_touches m d None t) as [[m' d'] o'].
    destruct P as (_ & _ & _ & _ & _ & P1 & P2 & P3 & P4 & _). intros E. rewrite P1 in E.
    destruct (H E) as (A & B & C). rewrite P3, P4. auto.
  - unfold toggle_touch. destruct (arb_eqb w (dv_arb d)); auto. destruct w.
    + intros E. discriminate.
    + set (d0 := set_arb d (dv_inarb d) (dv_arb d) (dv_rect d) None).
      pose proof (cancel_touches_k m d0 None t) as P. pose proof (cancel_touches_all m d0 t) as Q.
      destruct (cancel_touches m d0 None t) as [[m' d'] o'].
      destruct P as (_ & _ & _ & _ & _ & P1 & P2 & P3 & P4 & _). intros _. cbn. split; auto; split; auto; rewrite P4; auto.
    + destruct (cancel_touches m d (Some r) t) as [[m' d'] o']. intros E. discriminate.
  - intros E. cbn in E. destruct (H E) as (A & B & C). cbn. auto.
  - intros E. cbn in E. destruct (H E) as (A & B & C). exfalso. eapply T; eauto.
Qed.

Lemma Muted_step : forall off m d o, Muted off d -> AI d ->
  (forall t, o = ArbTimer t -> t < off + 90000 /\ exists e, dv_timer d = Some e /\ e <= t) ->
  (forall r t, o = Arbitrate A_NOT_ACTIVE r t -> off <= t) ->
  let '(_, d', l) := tstep hyst m d o in Muted off d' /\ l = [].
Proof.
  intros off m d o (I & Q & T) HA HT HN.
  destruct o as [v|v p|v|v|p|v|v|v|t|t|w r t|r|t]; unfold tstep; cbv beta zeta; rewrite ?I.
  1-9: split; auto; split; auto.
  - pose proof (cancel_quiet m d None t Q) as P. pose proof (cancel_touches_k m d None t) as R.
    destruct (cancel_touches m d None t) as [[m' d'] o']. destruct P as [-> P].
    destruct R as (_ & _ & _ & _ & _ & P1 & P2 & P3 & P4 & _).
    split; auto. split; [congruence|]. split; auto. rewrite P4. auto.
  - unfold toggle_touch. destruct (arb_eqb w (dv_arb d)); [split; auto; split; auto|]. destruct w.
    + split; auto. split; auto. split; [apply quiet_arb; auto|]. cbn. intros e E. inversion E; subst.
      specialize (HN r t eq_refl). lia.
    + set (d0 := set_arb d (dv_inarb d) (dv_arb d) (dv_rect d) None).
      assert (Q0 : quiet d0) by exact Q.
      pose proof (cancel_quiet m d0 None t Q0) as P. pose proof (cancel_touches_k m d0 None t) as R.
      destruct (cancel_touches m d0 None t) as [[m' d'] o']. destruct P as [-> P].
      destruct R as (_ & _ & _ & _ & _ & P1 & P2 & P3 & P4 & _).
      split; auto. split; auto. split; [apply quiet_arb; auto|]. cbn. rewrite P4. cbn. discriminate.
    + pose proof (cancel_quiet m d (Some r) t Q) as P. pose proof (cancel_touches_k m d (Some r) t) as R.
      destruct (cancel_touches m d (Some r) t) as [[m' d'] o']. destruct P as [-> P].
      destruct R as (_ & _ & _ & _ & _ & P1 & P2 & P3 & P4 & _).
      split; auto. split; [cbn; congruence|]. split; [apply quiet_arb; auto|]. cbn. rewrite P4. auto.
  - split; auto. split; auto.
  - exfalso. destruct (HT t eq_refl) as (A & e & B & C). specialize (T e B). lia.
Qed.

Lemma wstep_other : forall w k o j, j <> k -> w_dev (fst (wstep hyst w (k, o))) j = w_dev w j.
Proof.
  intros w k o j H. unfold wstep. destruct (tstep _ _ _ _) as [[m d] l]. cbn.
  destruct (Nat.eqb_spec j k); congruence.
Qed.

Lemma AI_run : forall ops w, timers_ok hyst w ops -> (forall k, AI (w_dev w k)) ->
  forall k, AI (w_dev (fst (wrun hyst w ops)) k).
Proof.
  induction ops as [|[j o] ops IH]; intros w HT H k; cbn [wrun]; auto.
  destruct HT as [H0 HT].
  assert (A : forall k, AI (w_dev (fst (wstep hyst w (j, o))) k)).
  { intros k'. destruct (Nat.eq_dec k' j) as [->|Hne].
    - pose proof (AI_step (w_map w) (w_dev w j) o (H j)) as P. unfold wstep.
      destruct (tstep _ _ _ _) as [[m d] l]. cbn. rewrite Nat.eqb_refl. apply P.
      intros t ->. destruct (H0 j t eq_refl) as (e & E & _). congruence.
    - rewrite wstep_other; auto. }
  destruct (wstep hyst w (j, o)) as [w1 o1]. cbn [fst] in *. specialize (IH w1 HT A k).
  destruct (wrun hyst w1 ops). exact IH.
Qed.

Lemma AI_init : forall w, new_seat w -> forall k, AI (w_dev w k).
Proof.
  intros w [_ H] k. destruct (H k) as (touch & mt & hp & hy & ab & hx & pts & cur & E & _). rewrite E.
  intros X. discriminate.
Qed.

Lemma muted_run : forall off k ops w, timers_ok hyst w ops -> AI (w_dev w k) -> Muted off (w_dev w k) ->
  (forall t, In (k, ArbTimer t) ops -> t < off + 90000) ->
  (forall r t, In (k, Arbitrate A_NOT_ACTIVE r t) ops -> off <= t) ->
  Forall (fun e => fst e <> k) (snd (wrun hyst w ops)).
Proof.
  induction ops as [|[j o] ops IH]; intros w HT HA HM H1 H2; cbn [wrun]; [constructor|].
  destruct HT as [H0 HT].
  assert (P : AI (w_dev (fst (wstep hyst w (j, o))) k) /\ Muted off (w_dev (fst (wstep hyst w (j, o))) k) /\
              Forall (fun e => fst e <> k) (snd (wstep hyst w (j, o)))).
  { destruct (Nat.eq_dec k j) as [->|Hne].
    - pose proof (AI_step (w_map w) (w_dev w j) o HA) as P.
      pose proof (Muted_step off (w_map w) (w_dev w j) o HM HA) as Q. unfold wstep.
      destruct (tstep _ _ _ _) as [[m d] l]. cbn. rewrite Nat.eqb_refl.
      destruct Q as [Q1 ->].
      + intros t ->. split; [apply H1; left; auto|]. apply (H0 j t eq_refl).
      + intros r t ->. apply (H2 r t). left; auto.
      + split; [apply P; intros t ->; destruct (H0 j t eq_refl) as (e & E & _); congruence|split; [auto|constructor]].
    - rewrite wstep_other; auto. split; auto. split; auto. unfold wstep.
      destruct (tstep _ _ _ _) as [[m d] l]. cbn. apply Forall_map, Forall_forall. cbn. auto. }
  destruct (wstep hyst w (j, o)) as [w1 o1]. cbn [fst snd] in *. destruct P as (P1 & P2 & P3).
  specialize (IH w1 HT P1 P2). destruct (wrun hyst w1 ops). cbn [snd] in *. apply Forall_app. split; auto.
  apply IH; [intros; apply H1; right; auto|intros r t I; apply (H2 r t); right; auto].
Qed.

Lemma wrun_app : forall a b w, wrun hyst w (a ++ b) =
  (fst (wrun hyst (fst (wrun hyst w a)) b), snd (wrun hyst w a) ++ snd (wrun hyst (fst (wrun hyst w a)) b)).
Proof.
  induction a as [|x a IH]; intros b w; cbn [app wrun fst snd].
  - destruct (wrun hyst w b); auto.
  - destruct (wstep hyst w x) as [w1 o1]. rewrite IH. destruct (wrun hyst w1 a) as [w2 o2]. cbn [fst snd].
    rewrite app_assoc. auto.
Qed.
Lemma timers_app : forall a b w, timers_ok hyst w (a ++ b) -> timers_ok hyst w a /\ timers_ok hyst (fst (wrun hyst w a)) b.
Proof.
  induction a as [|x a IH]; intros b w H; cbn [app timers_ok wrun] in *; [split; auto|].
  destruct H as [H0 H]. destruct (IH _ _ H) as [A B]. split; [split; auto|].
  destruct (wstep hyst w x) as [w1 o1]. cbn [fst] in *. destruct (wrun hyst w1 a); auto.
Qed.

Lemma muted_lemma : forall w ops k r t ops2 off, new_seat w ->
  timers_ok hyst w (ops ++ (k, Arbitrate A_IGNORE_ALL r t) :: ops2) ->
  (forall s, In (k, ArbTimer s) ops2 -> s < off + 90000) ->
  (forall r' s, In (k, Arbitrate A_NOT_ACTIVE r' s) ops2 -> off <= s) ->
  let w1 := fst (wrun hyst w (ops ++ [(k, Arbitrate A_IGNORE_ALL r t)])) in
  (exists v, legal [] (snd (wrun hyst w (ops ++ [(k, Arbitrate A_IGNORE_ALL r t)]))) v /\ forall i n, ~ In (k, i, n) v) /\
  Forall (fun e => fst e <> k) (snd (wrun hyst w1 ops2)).
Proof.
  intros w ops k r t ops2 off H HT H1 H2 w1.
  replace (ops ++ (k, Arbitrate A_IGNORE_ALL r t) :: ops2) with
    ((ops ++ [(k, Arbitrate A_IGNORE_ALL r t)]) ++ ops2) in HT by (rewrite <- app_assoc; auto).
  destruct (timers_app _ _ _ HT) as [HT1 HT2]. fold w1 in HT2.
  pose proof (AI_run _ _ HT1 (AI_init w H) k) as HA. fold w1 in HA.
  assert (Ar : dv_arb (w_dev w1 k) = A_IGNORE_ALL).
  { unfold w1. rewrite wrun_app. cbn [fst wrun].
    remember (fst (wrun hyst w ops)) as w0. unfold wstep, tstep, toggle_touch.
    destruct (arb_eqb A_IGNORE_ALL (dv_arb (w_dev w0 k))) eqn:E.
    - cbn. rewrite Nat.eqb_refl. destruct (dv_arb (w_dev w0 k)); auto; discriminate.
    - destruct (cancel_touches _ _ _ _) as [[m d] l]. cbn. rewrite Nat.eqb_refl. auto. }
  destruct (HA Ar) as (M1 & M2 & M3). split.
  - pose proof (wrun_sound hyst (ops ++ [(k, Arbitrate A_IGNORE_ALL r t)]) w [] (J_init w H)) as P.
    destruct (wrun hyst w (ops ++ [(k, Arbitrate A_IGNORE_ALL r t)])) as [w' o']. cbn [fst snd] in *. subst w1.
    destruct P as (v & J1 & L). exists v. split; auto. intros i n I. apply (j_view _ _ _ J1) in I.
    unfold aw in I. rewrite M2 in I. destruct I; congruence.
  - apply muted_run with (off := off); auto. split; auto. split; auto. rewrite M3. discriminate.
Qed.

(** rectangle *)
Lemma flush_mt_rect : forall d l m i t sent, dv_arb d = A_IGNORE_RECT ->
  let '(_, _, o, _) := flush_mt hyst d m l i t sent in
  forall s j n p, In (TDown s j n p) o -> in_rect p (dv_rect d) = false.
Proof.
  intros d l m i t sent A. revert m i sent. induction l as [|s l IH]; intros m i sent; cbn [flush_mt]; [contradiction|].
  destruct (sl_dirty s); cbn [negb].
  - assert (P : let '(_, _, o, _) := flush_slot hyst d m s i t in forall u j n p, In (TDown u j n p) o -> in_rect p (dv_rect d) = false).
    { unfold flush_slot. cbn [sl_palm sl_state]. destruct (sl_palm s), (sl_state s); try (cbn; contradiction).
      - set (s1 := mkSlot _ _ _ _ _ _). unfold arbitrate. rewrite A.
        change (sl_point s1) with (sl_point s).
        destruct (in_rect (sl_point s) (dv_rect d)) eqn:R; cbn; [contradiction|].
        unfold mt_down. destruct (dv_touch d); cbn; [|contradiction]. destruct (sl_seat s =? -1); cbn; [|contradiction].
        destruct (first_free m =? -1); cbn; [contradiction|]. intros u j n p [E|[]]. inversion E; subst. auto.
      - set (s1 := mkSlot _ _ _ _ _ _). unfold mt_motion. destruct (dv_touch d); cbn; [|contradiction].
        destruct (sl_seat s =? -1); cbn; [contradiction|].
        destruct (defuzz _ _ _) as [? []]; cbn; [contradiction|]. intros u j n p [E|[]]. inversion E.
      - unfold mt_up. destruct (dv_touch d); cbn; [|contradiction].
        destruct (sl_seat s =? -1); cbn; [contradiction|]. intros u j n p [E|[]]. inversion E.
      - unfold mt_cancel. destruct (dv_touch d); cbn; [|contradiction].
        destruct (sl_seat s =? -1); cbn; [contradiction|]. intros u j n p [E|[]]. inversion E.
      - unfold mt_cancel. destruct (dv_touch d); cbn; [|contradiction].
        destruct (sl_seat s =? -1); cbn; [contradiction|]. intros u j n p [E|[]]. inversion E.
      - unfold mt_cancel. destruct (dv_touch d); cbn; [|contradiction].
        destruct (sl_seat s =? -1); cbn; [contradiction|]. intros u j n p [E|[]]. inversion E. }
    destruct (flush_slot hyst d m s i t) as [[[m1 s1] o1] sn].
    specialize (IH m1 (i + 1) (match sn with Some b => b | None => sent end)).
    destruct (flush_mt _ _ _ _ _ _ _) as [[[m2 l2] o2] sent2].
    intros u j n p I. apply in_app_or in I. destruct I; eauto.
  - specialize (IH m (i + 1) sent). destruct (flush_mt _ _ _ _ _ _ _) as [[[m2 l2] o2] sent2]. exact IH.
Qed.

Lemma pen_dev : forall ops w k, dv_arb (w_dev w k) = fst (pen_after k []) -> dv_rect (w_dev w k) = snd (pen_after k []) ->
  dv_arb (w_dev (fst (wrun hyst w ops)) k) = fst (pen_after k ops) /\
  dv_rect (w_dev (fst (wrun hyst w ops)) k) = snd (pen_after k ops).
Proof.
  intros ops w k. unfold pen_after at 1 2. cbn [fold_left]. unfold pen_after.
  generalize (A_NOT_ACTIVE, mkRect 0 0 0 0). revert w.
  induction ops as [|[j o] ops IH]; intros w s E1 E2; cbn [wrun fold_left]; auto.
  assert (P : dv_arb (w_dev (fst (wstep hyst w (j, o))) k) = fst (pen_step k s (j, o)) /\
              dv_rect (w_dev (fst (wstep hyst w (j, o))) k) = snd (pen_step k s (j, o))).
  { unfold pen_step. cbn [fst snd]. destruct (Nat.eqb_spec j k) as [->|Hne]; cbn [negb].
    2:{ rewrite wstep_other; auto. }
    unfold wstep.
    assert (Q : let '(_, d', _) := tstep hyst (w_map w) (w_dev w k) o in
      dv_arb d' = fst (pen_step k s (k, o)) /\ dv_rect d' = snd (pen_step k s (k, o))).
    { unfold pen_step. cbn [fst snd]. rewrite Nat.eqb_refl. cbn [negb].
      remember (w_dev w k) as d. clear Heqd IH.
      destruct o as [v|v p|v|v|p|v|v|v|t|t|x r t|r|t]; unfold tstep; cbv beta zeta.
      1-5: destruct (dv_inarb d); auto; destruct (dv_mt d); auto.
      - destruct (dv_inarb d); auto; destruct (dv_mt d); auto.
      - destruct (dv_inarb d); auto; destruct (dv_mt d); auto.
      - destruct (dv_inarb d); auto; destruct (dv_mt d); auto. destruct (v =? 2); auto. destruct (v =? 0); auto.
      - destruct (dv_inarb d); auto. pose proof (handle_state_arb (w_map w) d t) as P.
        destruct (handle_state hyst (w_map w) d t) as [[m' d'] o']. destruct P as (_ & P1 & _ & P2). split; congruence.
      - pose proof (cancel_touches_k (w_map w) d None t) as P.
        destruct (cancel_touches _ _ _ _) as [[m' d'] o'].
        destruct P as (_ & _ & _ & _ & _ & P1 & P2 & P3 & P4 & _). split; congruence.
      - unfold toggle_touch. destruct x.
        + destruct (dv_arb d) eqn:A; cbn [arb_eqb]; cbn; auto. 
        + destruct (dv_arb d) eqn:A; cbn [arb_eqb]; auto.
          * set (d0 := set_arb _ _ _ _ _). pose proof (cancel_touches_k (w_map w) d0 None t) as P.
            destruct (cancel_touches _ _ _ _) as [[m' d'] o'].
            destruct P as (_ & _ & _ & _ & _ & P1 & P2 & P3 & P4 & _). cbn. rewrite P2. cbn. auto.
          * set (d0 := set_arb _ _ _ _ _). pose proof (cancel_touches_k (w_map w) d0 None t) as P.
            destruct (cancel_touches _ _ _ _) as [[m' d'] o'].
            destruct P as (_ & _ & _ & _ & _ & P1 & P2 & P3 & P4 & _). cbn. rewrite P2. cbn. auto.
        + rewrite <- E1. destruct (dv_arb d) eqn:A; cbn [arb_eqb]; [| |rewrite A; auto];
          destruct (cancel_touches _ _ _ _) as [[m' d'] o']; auto.
      - auto.
      - auto. }
    destruct (tstep hyst (w_map w) (w_dev w k) o) as [[m d] l]. cbn. rewrite Nat.eqb_refl.
    unfold pen_step in Q. cbn in Q. rewrite Nat.eqb_refl in Q. exact Q. }
  destruct (wstep hyst w (j, o)) as [w1 o1]. cbn [fst] in P. destruct P as [P1 P2].
  specialize (IH w1 (pen_step k s (j, o)) P1 P2). destruct (wrun hyst w1 ops). exact IH.
Qed.

Lemma rect_lemma : forall w ops k t r, new_seat w -> pen_after k ops = (A_IGNORE_RECT, r) ->
  forall s i n p, In (k, TDown s i n p) (snd (wstep hyst (fst (wrun hyst w ops)) (k, Syn t))) -> 0 <= i -> in_rect p r = false.
Proof.
  intros w ops k t r H Hp s i n p I Hi.
  destruct (pen_dev ops w k) as [A R].
  - destruct H as [_ H]. destruct (H k) as (touch & mt & hp & hy & ab & hx & pts & cur & E & _). rewrite E. auto.
  - destruct H as [_ H]. destruct (H k) as (touch & mt & hp & hy & ab & hx & pts & cur & E & _). rewrite E. auto.
  - rewrite Hp in A, R. cbn [fst snd] in A, R.
    remember (w_dev (fst (wrun hyst w ops)) k) as d. unfold wstep in I. rewrite <- Heqd in I.
    unfold tstep in I. destruct (dv_inarb d); [contradiction|].
    unfold handle_state in I.
    remember (w_map (fst (wrun hyst w ops))) as m.
    set (x := if dv_pdown d then _ else _) in I.
    assert (X : let '(_, d', o) := x in (forall i n p, In (TDown s i n p) o -> i = -1) /\ dv_arb d' = dv_arb d /\ dv_rect d' = dv_rect d).
    { subst x. destruct (dv_pdown d).
      - unfold st_down. destruct (dv_touch d), (dv_st d =? -1), (first_free m =? -1); cbn; split; try split; auto; try tauto.
        intros ? ? ? [E|[]]. inversion E; auto.
      - destruct (dv_pmotion d && dv_touch d); [|cbn; tauto]. unfold st_motion. destruct (dv_st d =? -1); cbn; split; try tauto.
        intros ? ? ? [E|[]]. inversion E. }
    destruct x as [[m1 d1] o1]. destruct X as (X1 & X2 & X3).
    set (y := if dv_pup d1 then _ else _) in I.
    assert (Y : let '(_, d', o) := y in (forall i n p, ~ In (TDown s i n p) o) /\ dv_arb d' = dv_arb d1 /\ dv_rect d' = dv_rect d1).
    { subst y. destruct (dv_pup d1); [|cbn; tauto]. unfold st_up. destruct (dv_touch d1), (dv_st d1 =? -1); cbn; split; try split; auto; try tauto.
      intros ? ? ? [E|[]]. inversion E. }
    destruct y as [[m2 d2] o2]. destruct Y as (Y1 & Y2 & Y3). cbv zeta in I.
    set (z := if dv_pmt d2 then _ else _) in I.
    assert (Z : let '(_, _, o, _) := z in forall s i n p, In (TDown s i n p) o -> in_rect p (dv_rect d2) = false).
    { subst z. destruct (dv_pmt d2); [|cbn; tauto]. apply flush_mt_rect. congruence. }
    destruct z as [[[m3 l] o3] n3]. cbn [snd] in I. apply in_map_iff in I. destruct I as (e & E & I).
    inversion E; subst e. clear E. rewrite !in_app_iff in I. destruct I as [I|[I|[I|I]]].
    + apply X1 in I. lia.
    + apply Y1 in I. contradiction.
    + apply Z in I. congruence.
    + destruct n3; [destruct I as [I|[]]; discriminate|contradiction].
Qed.
End WithHyst.
