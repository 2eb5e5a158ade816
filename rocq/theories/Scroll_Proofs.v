Require Import Coq.QArith.QArith Coq.QArith.Qabs Coq.ZArith.ZArith Coq.Lists.List Coq.Bool.Bool.
Require Import Coq.micromega.Lia Coq.micromega.Lqa Coq.Setoids.Setoid.
Require Import Verif.Scroll_Model Verif.Scroll_Spec.
Import ListNotations.
Open Scope Q_scope.

Definition dir (a : axis) (s : scr) : bool := match a with Vertical => c_v s | Horizontal => c_h s end.
Definition build (a : axis) (s : scr) : Q := match a with Vertical => c_by s | Horizontal => c_bx s end.

Lemma is0_true : forall q, is0 q = true <-> q == 0.
Proof. intros. unfold is0. apply Qeq_bool_iff. Qed.
Lemma is0_false : forall q, is0 q = false <-> ~ q == 0.
Proof. intros q. rewrite <- is0_true. destruct (is0 q); split; congruence. Qed.
Lemma is0_opp : forall q, is0 (- q) = is0 q.
Proof.
  intros. destruct (is0 q) eqn:E.
  - apply is0_true in E. apply is0_true. lra.
  - apply is0_false in E. apply is0_false. lra.
Qed.
Lemma sign_zero : forall a n i q, is0 (sign a n i q) = is0 q.
Proof. intros. destruct a; simpl; [destruct n|destruct (xorb n i)]; auto using is0_opp. Qed.
Lemma reaches_true : forall q thr, reaches q thr = true <-> thr <= Qabs q.
Proof. intros. unfold reaches. apply Qle_bool_iff. Qed.
Lemma reaches_pos : forall q thr, 0 < thr -> is0 q = true -> reaches q thr = false.
Proof.
  intros. destruct (reaches q thr) eqn:E; auto. apply reaches_true in E. apply is0_true in H0.
  rewrite H0 in E. simpl in E. change (Qabs 0) with 0 in E. lra.
Qed.

Lemma srun_app : forall a b s, srun s (a ++ b) =
  (fst (srun (fst (srun s a)) b), snd (srun s a) ++ snd (srun (fst (srun s a)) b)).
Proof.
  induction a as [|o a IH]; intros b s; simpl.
  - destruct (srun s b); auto.
  - destruct (sstep s o) as [s1 o1]. rewrite IH. destruct (srun s1 a) as [s2 o2]. simpl.
    destruct (srun s2 b). simpl. rewrite app_assoc. auto.
Qed.
Lemma values_app : forall a l1 l2, values a (l1 ++ l2) = values a l1 ++ values a l2.
Proof. intros. unfold values. apply flat_map_app. Qed.

(** What one step does on one axis. *)
Lemma post_dir : forall s t dx dy a,
  let s' := fst (post_scroll s t dx dy) in
  (dir a s = true -> dir a s' = true) /\
  (dir a s = false -> dir a s' = true ->
     c_thr s <= Qabs (build a s + motion1 a dx dy) \/ c_dlock s <= Qabs (motion1 a dx dy)) /\
  (dir a s = false -> build a s' = build a s + motion1 a dx dy) /\
  c_thr s' = c_thr s /\ c_dlock s' = c_dlock s /\ c_inv s' = c_inv s /\ c_nat s' = c_nat s.
Proof.
  intros [thr dl inv nat bx by_ v h] t dx dy a. unfold post_scroll.
  cbn [c_thr c_dlock c_inv c_nat c_bx c_by c_v c_h].
  destruct v, h; cbn [negb andb]; destruct a; cbn [dir build motion1 fst c_thr c_dlock c_inv c_nat c_bx c_by c_v c_h];
    repeat split; auto; intros; try discriminate; rewrite ?reaches_true in *; auto.
Qed.

(** Started by this very movement, if the thresholds are positive. *)
Lemma post_start : forall s t dx dy a, 0 < c_thr s -> 0 < c_dlock s ->
  (dir Vertical s = false -> dir Horizontal s = false -> Qabs (build a s) < c_thr s) ->
  let s' := fst (post_scroll s t dx dy) in
  dir a s = false -> dir a s' = true -> is0 (motion1 a dx dy) = false.
Proof.
  intros [thr dl inv nat bx by_ v h] t dx dy a H1 H2 H3 s' H4 H5.
  destruct (is0 (motion1 a dx dy)) eqn:E; auto. exfalso. subst s'. unfold post_scroll in H5.
  cbn [c_thr c_dlock c_inv c_nat c_bx c_by c_v c_h] in *.
  assert (R : reaches (motion1 a dx dy) dl = false) by (apply reaches_pos; auto).
  pose proof E as E2. apply is0_true in E.
  assert (S : dir Vertical (mkScr thr dl inv nat bx by_ v h) = false -> dir Horizontal (mkScr thr dl inv nat bx by_ v h) = false ->
    reaches (build a (mkScr thr dl inv nat bx by_ v h) + motion1 a dx dy) thr = false).
  { intros A B. specialize (H3 A B). match goal with |- ?x = false => destruct x eqn:F end; auto. apply reaches_true in F.
    assert (G : Qabs (build a (mkScr thr dl inv nat bx by_ v h) + motion1 a dx dy) == Qabs (build a (mkScr thr dl inv nat bx by_ v h))) by (apply Qabs_wd; lra).
    lra. }
  destruct v, h; destruct a; cbn [negb andb dir build motion1 fst c_thr c_dlock c_inv c_nat c_bx c_by c_v c_h] in *;
    try discriminate; try (rewrite R in H5; discriminate); try (specialize (S eq_refl eq_refl); congruence).
Qed.
Lemma post_small : forall s t dx dy a,
  let s' := fst (post_scroll s t dx dy) in
  dir Vertical s' = false -> dir Horizontal s' = false -> Qabs (build a s') < c_thr s'.
Proof.
  intros [thr dl inv nat bx by_ v h] t dx dy a. unfold post_scroll.
  cbn [c_thr c_dlock c_inv c_nat c_bx c_by c_v c_h].
  assert (L : forall q, reaches q thr = false -> Qabs q < thr).
  { intros q Hq. apply Qnot_le_lt. intros C. apply reaches_true in C. congruence. }
  destruct v, h; cbn [negb andb]; destruct a; cbn [dir build fst c_thr c_dlock c_inv c_nat c_bx c_by c_v c_h];
    intros; try discriminate; auto.
Qed.

Lemma post_out : forall s t dx dy a,
  let s' := fst (post_scroll s t dx dy) in
  values a (snd (post_scroll s t dx dy)) =
  if dir a s' && negb (is0 (motion1 a dx dy)) then [sign a (c_nat s) (c_inv s) (motion1 a dx dy)] else [].
Proof.
  intros s t dx dy a. unfold post_scroll.
  set (bb := if c_v s then _ else _). set (cc := if c_h s then c_bx s else _).
  destruct (if negb (c_h s) && negb (c_v s) then _ else _) as [v h].
  assert (Z : is0 0 = true) by reflexivity.
  assert (Q : forall q, - - q = q) by (intros [n d]; unfold Qopp; simpl; rewrite Z.opp_involutive; auto).
  unfold values, notify_axis, value, sign.
  destruct a, v, h; cbn [fst snd dir c_v c_h c_nat c_inv motion1 andb negb];
    destruct (is0 dx) eqn:Ex, (is0 dy) eqn:Ey; rewrite ?Z; cbn [andb negb flat_map app option_map fst snd c_nat c_inv]; auto;
    try (destruct (c_nat s), (c_inv s); cbn [xorb]; rewrite ?Q; reflexivity).
Qed.

Lemma stop_out : forall s t a, values a (snd (stop_scroll s t)) = if dir a s then [0] else [].
Proof. intros [thr dl inv nat bx by_ v h] t a. destruct v, h, a; reflexivity. Qed.

(** The invariant along a run. *)
Definition AINV (thr dl : Q) (inv : bool) (nat0 : bool) (a : axis) (ops : list sop) (s : scr) (l : list sout) : Prop :=
  c_thr s = thr /\ c_dlock s = dl /\ c_inv s = inv /\ c_nat s = natural_after nat0 ops /\
  (dir a s = true -> engaged thr dl (motion a ops)) /\
  (dir a s = false -> build a s == sum (motion a ops)) /\
  (in_progress (values a l) = true -> dir a s = true) /\
  (0 < thr -> 0 < dl ->
    (dir a s = in_progress (values a l)) /\
    (dir Vertical s = false -> dir Horizontal s = false -> Qabs (build a s) < thr) /\
    sequences false (values a l)).

Lemma in_progress_app1 : forall l q, in_progress (l ++ [q]) = negb (is0 q).
Proof. intros. unfold in_progress. rewrite last_last. auto. Qed.
Lemma sequences_app1 : forall l b q, sequences b l ->
  (is0 q = true -> (match l with [] => b | _ => in_progress l end) = true) -> sequences b (l ++ [q]).
Proof.
  induction l as [|x l IH]; intros b q HS HQ; simpl in *.
  - destruct (is0 q); auto.
  - destruct (is0 x) eqn:Ex.
    + destruct HS as [-> HS]. split; auto. apply IH; auto. intros Z. specialize (HQ Z).
      destruct l; auto. unfold in_progress in HQ. simpl in HQ. rewrite Ex in HQ. discriminate.
    + apply IH; auto. intros Z. specialize (HQ Z). destruct l; auto.
Qed.
Lemma since_app1 : forall a ops acc o, since_stop a acc (ops ++ [o]) =
  match o with Post _ dx dy => motion1 a dx dy :: since_stop a acc ops | Stop _ => [] | SetNatural _ => since_stop a acc ops end.
Proof.
  induction ops as [|[t dx dy|t|b] ops IH]; intros acc o; simpl; rewrite ?IH; destruct o; auto.
Qed.
Lemma motion_app1 : forall a ops o, motion a (ops ++ [o]) =
  match o with Post _ dx dy => motion1 a dx dy :: motion a ops | Stop _ => [] | SetNatural _ => motion a ops end.
Proof. intros. apply since_app1. Qed.
Lemma natural_app1 : forall n ops o, natural_after n (ops ++ [o]) =
  match o with SetNatural b => b | _ => natural_after n ops end.
Proof. intros. unfold natural_after. rewrite fold_left_app. destruct o; auto. Qed.

Lemma engaged_cons : forall thr dl m d, engaged thr dl m -> engaged thr dl (d :: m).
Proof. intros thr dl m d (l & x & e & -> & H). exists (d :: l), x, e. auto. Qed.

Lemma step_AINV : forall thr dl inv nat0 a ops s l o,
  AINV thr dl inv nat0 a ops s l ->
  AINV thr dl inv nat0 a (ops ++ [o]) (fst (sstep s o)) (l ++ snd (sstep s o)).
Proof.
  intros thr dl inv nat0 a ops s l o (H1 & H2 & H3 & H4 & H5 & H6 & H7 & H8).
  unfold AINV. rewrite motion_app1, natural_app1, values_app.
  destruct o as [t dx dy|t|b]; cbn [sstep].
  - pose proof (post_dir s t dx dy a) as D. pose proof (post_out s t dx dy a) as O.
    pose proof (post_start s t dx dy a) as S. pose proof (post_small s t dx dy) as M. cbv zeta in *.
    destruct (post_scroll s t dx dy) as [s' l']. cbn [fst snd] in *.
    destruct D as (D1 & D2 & D3 & D4 & D5 & D6 & D7).
    rewrite O. rewrite H1, H2 in *.
    assert (P : values a l ++ (if dir a s' && negb (is0 (motion1 a dx dy)) then [sign a (c_nat s) (c_inv s) (motion1 a dx dy)] else []) = values a l ++ [] /\ (dir a s' = false \/ is0 (motion1 a dx dy) = true)
      \/ dir a s' = true /\ is0 (motion1 a dx dy) = false /\ 
       values a l ++ (if dir a s' && negb (is0 (motion1 a dx dy)) then [sign a (c_nat s) (c_inv s) (motion1 a dx dy)] else []) = values a l ++ [sign a (c_nat s) (c_inv s) (motion1 a dx dy)]).
    { destruct (dir a s'), (is0 (motion1 a dx dy)); simpl; auto. }
    split; auto. split; auto. split; [congruence|]. split; [congruence|].
    split; [|split; [|split]].
    + intros E. destruct (dir a s) eqn:Es; [apply engaged_cons; auto|].
      exists [], (motion1 a dx dy), (motion a ops). split; auto.
      destruct (D2 eq_refl E) as [C|C]; [left|right; auto].
      eapply Qle_trans; [exact C|]. apply Qle_lteq; right. apply Qabs_wd.
      change (sum (motion1 a dx dy :: motion a ops)) with (motion1 a dx dy + sum (motion a ops)).
      specialize (H6 eq_refl). lra.
    + intros E. destruct (dir a s) eqn:Es; [rewrite D1 in E; auto; discriminate|].
      rewrite D3 by auto. specialize (H6 eq_refl).
      change (sum (motion1 a dx dy :: motion a ops)) with (motion1 a dx dy + sum (motion a ops)). lra.
    + destruct P as [[-> _]|(E1 & E2 & ->)]; auto.
      rewrite app_nil_r. intros E. apply D1. auto.
    + intros T1 T2. destruct (H8 T1 T2) as (G1 & G2 & G3).
      split; [|split].
      * destruct P as [[-> Q]|(E1 & E2 & ->)].
        -- rewrite app_nil_r. rewrite <- G1.
           destruct (dir a s) eqn:Es; [rewrite D1; auto|].
           destruct (dir a s') eqn:Es'; auto.
           destruct Q as [Q|Q]; [discriminate|].
           rewrite S in Q; auto; discriminate.
        -- rewrite in_progress_app1, sign_zero, E2. auto.
      * intros. rewrite <- D4. apply M; auto.
      * destruct P as [[-> Q]|(E1 & E2 & ->)]; [rewrite app_nil_r; auto|].
        apply sequences_app1; auto. rewrite sign_zero. congruence.
  - rewrite stop_out. unfold stop_scroll. cbn [fst snd c_thr c_dlock c_inv c_nat].
    split; auto. split; auto. split; auto. split; auto.
    assert (Dz : forall b0, dir b0 (mkScr (c_thr s) (c_dlock s) (c_inv s) (c_nat s) 0 0 false false) = false) by (intros []; auto).
    assert (Bz : forall b0, build b0 (mkScr (c_thr s) (c_dlock s) (c_inv s) (c_nat s) 0 0 false false) = 0) by (intros []; auto).
    rewrite Dz, Bz. split; [discriminate|]. split; [reflexivity|].
    assert (E : in_progress (values a l ++ (if dir a s then [0] else [])) = false).
    { destruct (dir a s); [rewrite in_progress_app1; auto|].
      rewrite app_nil_r. destruct (in_progress (values a l)); auto. rewrite H7; auto. }
    split; [rewrite E; discriminate|].
    intros T1 T2. destruct (H8 T1 T2) as (G1 & G2 & G3). split; auto. split; [intros; auto|].
    destruct (dir a s); [|rewrite app_nil_r; auto].
    apply sequences_app1; auto. intros _. destruct (values a l); auto.
  - cbn [fst snd]. rewrite app_nil_r.
    assert (Dz : forall b0, dir b0 (set_natural s b) = dir b0 s) by (intros []; auto).
    assert (Bz : forall b0, build b0 (set_natural s b) = build b0 s) by (intros []; auto).
    rewrite !Dz, Bz. repeat (split; [assumption || reflexivity|]). assumption.
Qed.

Lemma run_AINV : forall thr dl inv nat0 a ops,
  AINV thr dl inv nat0 a ops (fst (srun (scr_init thr dl inv nat0) ops)) (snd (srun (scr_init thr dl inv nat0) ops)).
Proof.
  intros thr dl inv nat0 a ops. induction ops as [|o ops IH] using rev_ind.
  - unfold AINV, natural_after; simpl.
    assert (D : dir a (scr_init thr dl inv nat0) = false) by (destruct a; auto).
    assert (B : build a (scr_init thr dl inv nat0) = 0) by (destruct a; auto).
    rewrite D, B. split; auto. split; auto. split; auto. split; auto.
    split; [discriminate|]. split; [reflexivity|]. split; [discriminate|]. intros. auto.
  - rewrite srun_app. cbn [fst snd]. cbn [srun].
    pose proof (step_AINV _ _ _ _ _ _ _ _ o IH) as S.
    destruct (sstep (fst (srun (scr_init thr dl inv nat0) ops)) o) as [s' l']. cbn [fst snd] in *.
    rewrite app_nil_r. exact S.
Qed.

(** ** The lemmas behind the theorems *)
Lemma sequences_lemma : forall thr dl inv nat0 ops a, 0 < thr -> 0 < dl ->
  sequences false (values a (snd (srun (scr_init thr dl inv nat0) ops))).
Proof.
  intros thr dl inv nat0 ops a H1 H2. destruct (run_AINV thr dl inv nat0 a ops) as (_ & _ & _ & _ & _ & _ & _ & H).
  apply H; auto.
Qed.

Lemma stop_lemma : forall thr dl inv nat0 ops t a,
  let before := values a (snd (srun (scr_init thr dl inv nat0) ops)) in
  let after := values a (snd (srun (scr_init thr dl inv nat0) (ops ++ [Stop t]))) in
  in_progress after = false /\ (in_progress before = true -> after = before ++ [0]).
Proof.
  intros thr dl inv nat0 ops t a before after. subst before after.
  pose proof (run_AINV thr dl inv nat0 a ops) as (_ & _ & _ & _ & _ & _ & H & _).
  rewrite srun_app. cbn [srun snd]. rewrite values_app.
  change (sstep (fst (srun (scr_init thr dl inv nat0) ops)) (Stop t)) with (stop_scroll (fst (srun (scr_init thr dl inv nat0) ops)) t).
  pose proof (stop_out (fst (srun (scr_init thr dl inv nat0) ops)) t a) as O.
  destruct (stop_scroll _ t) as [s' l']. cbn [snd] in *. rewrite app_nil_r, O.
  destruct (dir a _).
  - split; auto. rewrite in_progress_app1. auto.
  - rewrite app_nil_r. destruct (in_progress _); [specialize (H eq_refl); discriminate|]. split; auto; discriminate.
Qed.

Lemma threshold_lemma : forall thr dl inv nat0 ops t dx dy a,
  let s := fst (srun (scr_init thr dl inv nat0) ops) in
  let new := values a (snd (sstep s (Post t dx dy))) in
  new = [] \/
  (new = [sign a (natural_after nat0 ops) inv (motion1 a dx dy)] /\ ~ motion1 a dx dy == 0 /\
   engaged thr dl (motion a (ops ++ [Post t dx dy]))).
Proof.
  intros thr dl inv nat0 ops t dx dy a s new.
  pose proof (run_AINV thr dl inv nat0 a ops) as HI.
  pose proof (step_AINV _ _ _ _ _ _ _ _ (Post t dx dy) HI) as HS. fold s in HI, HS.
  destruct HI as (_ & _ & Hi & Hn & _). destruct HS as (_ & _ & _ & _ & He & _).
  subst new. cbn [sstep] in *. rewrite post_out. rewrite Hi, Hn.
  destruct (dir a (fst (post_scroll s t dx dy))); auto. destruct (is0 (motion1 a dx dy)) eqn:E; auto.
  right. apply is0_false in E. auto.
Qed.

Lemma delivered_lemma : forall thr dl inv nat0 ops t dx dy a,
  let r := srun (scr_init thr dl inv nat0) ops in
  in_progress (values a (snd r)) = true -> ~ motion1 a dx dy == 0 ->
  values a (snd (sstep (fst r) (Post t dx dy))) = [sign a (natural_after nat0 ops) inv (motion1 a dx dy)].
Proof.
  intros thr dl inv nat0 ops t dx dy a r Hp Hz.
  pose proof (run_AINV thr dl inv nat0 a ops) as (_ & _ & Hi & Hn & _ & _ & Hd & _).
  fold r in Hi, Hn, Hd. cbn [sstep]. rewrite post_out, Hi, Hn.
  destruct (post_dir (fst r) t dx dy a) as (D & _). rewrite D by auto.
  apply is0_false in Hz. rewrite Hz. auto.
Qed.

Lemma one_event_lemma : forall s o, (length (snd (sstep s o)) <= 1)%nat.
Proof.
  intros s [t dx dy|t|b]; cbn [sstep]; auto.
  - unfold post_scroll. destruct (if negb (c_h s) && negb (c_v s) then _ else _) as [v h]. cbn [snd].
    destruct (is0 _ && is0 _); simpl; lia.
  - unfold stop_scroll. destruct (c_v s || c_h s); simpl; lia.
Qed.
