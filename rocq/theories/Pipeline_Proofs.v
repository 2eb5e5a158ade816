(** The stage behind middle-button emulation: counting, button scrolling,
    deferred configuration. *)
Require Import Coq.ZArith.ZArith Coq.Lists.List Coq.Bool.Bool Coq.micromega.Lia.
Require Verif.Debounce_Model Verif.MiddleButton_Model Verif.MiddleButton_Spec Verif.MiddleButton_Proofs Verif.Scroll_Model.
Require Import Verif.Keys_Model Verif.Pipeline_Model Verif.Pipeline_Spec.
Import ListNotations.
Open Scope Z_scope.
Local Arguments Z.eqb : simpl never.
Local Arguments Z.add : simpl never.
Local Arguments Z.leb : simpl never.
Local Arguments Z.ltb : simpl never.

Lemma upd_same : forall A (f : Z -> A) c b, upd f c b c = b.
Proof. intros; unfold upd; rewrite Z.eqb_refl; auto. Qed.
Lemma upd_other : forall A (f : Z -> A) c b x, x <> c -> upd f c b x = f x.
Proof. intros; unfold upd; destruct (Z.eqb_spec x c); congruence. Qed.

(** Output that keeps the alternation relative to the client's view [v]. *)
Fixpoint gd (v : Z -> bool) (l : list pout) : Prop :=
  match l with
  | [] => True
  | PButton _ c p :: r => p = negb (v c) /\ gd (upd v c p) r
  | PBug :: _ | PAbort :: _ => False
  | _ :: r => gd v r
  end.
Fixpoint va (v : Z -> bool) (l : list pout) : Z -> bool :=
  match l with
  | [] => v
  | PButton _ c p :: r => va (upd v c p) r
  | _ :: r => va v r
  end.
Lemma va_app : forall a b v, va v (a ++ b) = va (va v a) b.
Proof. induction a as [|[] a IH]; simpl; auto. Qed.
Lemma gd_app : forall a b v, gd v (a ++ b) <-> gd v a /\ gd (va v a) b.
Proof. induction a as [|[] a IH]; simpl; intros; try tauto; rewrite IH; tauto. Qed.
Lemma upd_ext : forall A (v w : Z -> A) c p, (forall x, v x = w x) -> forall x, upd v c p x = upd w c p x.
Proof. intros A v w c p H x. unfold upd. destruct (x =? c); auto. Qed.
Lemma gd_ext : forall l v w, (forall x, v x = w x) -> gd v l -> gd w l.
Proof.
  induction l as [|[] l IH]; simpl; intros v w H; auto.
  - rewrite (H code). intros [A B]. split; auto. eapply IH; [|exact B]. apply upd_ext; auto.
  - apply IH; auto.
  - apply IH; auto.
Qed.
Lemma va_ext : forall l v w, (forall x, v x = w x) -> forall x, va v l x = va w l x.
Proof.
  induction l as [|[] l IH]; simpl; intros v w H x; auto. apply IH. apply upd_ext; auto.
Qed.
Lemma gd_axis : forall l v, gd v (map PAxis l) /\ va v (map PAxis l) = v.
Proof. induction l; simpl; auto. Qed.
Lemma last_cons : forall (l : list bool) a d, last l a = last (a :: l) d.
Proof.
  induction l as [|x l IH]; intros a d; auto.
  change (last (a :: x :: l) d) with (last (x :: l) d). rewrite <- (IH x d), <- (IH x a). auto.
Qed.
Lemma gd_alternates : forall l v c, gd v l ->
  alternates (negb (v c)) (transitions c l) /\ va v l c = last (transitions c l) (v c).
Proof.
  induction l as [|[] l IH]; simpl; intros v c H; auto; try contradiction; try (apply IH; auto).
  destruct H as [H1 H2]. destruct (IH _ c H2) as [A B].
  destruct (Z.eqb_spec code c) as [->|Hne]; simpl.
  - rewrite upd_same in *. split.
    + split; auto. rewrite H1, negb_involutive in A. rewrite negb_involutive. exact A.
    + rewrite B. apply (last_cons _ pressed).
  - rewrite upd_other in * by auto. auto.
Qed.
Lemma gd_noabort : forall l v, gd v l -> ~ In PAbort l /\ ~ In PBug l.
Proof.
  induction l as [|[] l IH]; simpl; intros v H; try tauto;
    [destruct H as [_ H]|idtac|idtac]; apply IH in H; destruct H; split; intros [A|A]; try discriminate; auto.
Qed.

Definition vw (s : ds) (c : Z) : bool := 0 <? s_cnt s c.

(** The effective and wanted configuration. *)
Definition cfg (s : ds) := (s_left s, s_method s, s_button s, s_lock s).
Definition wants (s : ds) := (s_wleft s, s_wmethod s, s_wbutton s, s_wlock s).
Definition nopend (s : ds) : Prop := wants s = cfg s.
Definition quietc (any : bool) (s : ds) : Prop := any = true \/ nopend s.

Definition lockrel (s : ds) (n : Z) : Prop :=
  match s_lockst s with
  | L_DISABLED => n = 1 -> s_state s <> B_IDLE
  | L_IDLE => n = 0
  | L_FIRSTDOWN | L_SECONDDOWN => n = 1 /\ s_state s <> B_IDLE
  | L_FIRSTUP => n = 0 /\ s_state s <> B_IDLE
  end.
Definition SREL (s : ds) (dc : Z -> Z) : Prop :=
  (forall c, s_method s && (c =? s_button s) = false -> s_cnt s c = dc c) /\
  (s_method s = true -> s_cnt s (s_button s) = 0 /\ 0 <= dc (s_button s) <= 1 /\
     lockrel s (dc (s_button s)) /\ mouse_button (s_button s)) /\
  (s_wmethod s = true -> mouse_button (s_wbutton s)) /\
  mouse_button (s_wbutton s) /\
  s_dead s = false.

Lemma SREL_ext : forall s f g, (forall x, f x = g x) -> SREL s f -> SREL s g.
Proof.
  intros s f g H (A & B & C). split; [intros c Hc; rewrite <- H; auto|]. split; auto.
  rewrite <- (H (s_button s)). auto.
Qed.

Definition bump (dc : Z -> Z) (c : Z) (p : bool) : Z -> Z :=
  fun x => dc x + (if c =? x then (if p then 1 else -1) else 0).

Lemma post_press : forall any s t c n, mouse_button c -> s_cnt s c = n -> 0 <= n <= 2 ->
  post_button any s t c true =
  (set_cnt s (upd (s_cnt s) c (n + 1)), if n =? 0 then [PButton t c true] else []).
Proof.
  intros any s t c n Hc E Hn. unfold post_button, update_key_down_count.
  unfold mouse_button, KEY_CNT in *.
  destruct (Z.leb_spec 0 c); [|lia]. destruct (Z.ltb_spec c 768); [|lia]. cbn [negb andb].
  rewrite E. rewrite Z.mod_small by lia.
  destruct (Z.eqb_spec n 0) as [->|Hz].
  - reflexivity.
  - destruct (Z.eqb_spec (n + 1) 1); [lia|]. reflexivity.
Qed.
Lemma post_release : forall any s t c n, mouse_button c -> s_cnt s c = n -> 1 <= n <= 2 ->
  post_button any s t c false =
  if n =? 1
  then (change_scroll any (change_left any (set_cnt s (upd (s_cnt s) c 0))), [PButton t c false])
  else (set_cnt s (upd (s_cnt s) c (n - 1)), []).
Proof.
  intros any s t c n Hc E Hn. unfold post_button, update_key_down_count.
  unfold mouse_button, KEY_CNT in *.
  destruct (Z.leb_spec 0 c); [|lia]. destruct (Z.ltb_spec c 768); [|lia]. cbn [negb andb].
  rewrite E. destruct (Z.leb_spec n 0); [lia|].
  destruct (Z.eqb_spec n 1) as [->|Hz].
  - reflexivity.
  - destruct (Z.eqb_spec (n - 1) 0); [lia|]. reflexivity.
Qed.

(** What committing the pending configuration does. *)
Definition commit (any : bool) (s : ds) : ds := change_scroll any (change_left any s).
Lemma commit_facts : forall any s,
  wants (commit any s) = wants s /\
  (any = true \/ nopend s -> commit any s = s) /\
  (any = false -> nopend (commit any s)) /\
  s_cnt (commit any s) = s_cnt s /\ s_mb (commit any s) = s_mb s /\ s_dead (commit any s) = s_dead s /\
  s_state (commit any s) = s_state s /\ s_scr (commit any s) = s_scr s /\ s_timer (commit any s) = s_timer s /\
  ((s_method (commit any s) = s_method s /\ s_button (commit any s) = s_button s /\ s_lockst (commit any s) = s_lockst s) \/
   (any = false /\ s_method (commit any s) = s_wmethod s /\ s_button (commit any s) = s_wbutton s /\
    s_lockst (commit any s) = (if s_wlock s then L_IDLE else L_DISABLED))).
Proof.
  intros any s. unfold commit, change_scroll, change_left, nopend, wants, cfg.
  destruct s as [mb l wl m wm b wb lk wlk lst st dt tm scr cnt dead]; cbn.
  destruct (Bool.eqb_spec wl l); cbn; destruct any; cbn;
  destruct (Bool.eqb_spec wm m); cbn;
  destruct (Z.eqb_spec wb b); cbn;
  destruct (Bool.eqb_spec wlk lk); cbn; subst; repeat split; auto;
  try (intros [?|E]; [discriminate|inversion E; congruence]);
  try discriminate;
  first [left; repeat split; reflexivity | right; repeat split; reflexivity].
Qed.

(** The invariant for a committed state, given that nothing is pressed. *)
Lemma commit_SREL : forall any s dc, SREL s dc ->
  (quietc any s \/ forall x, dc x = 0) -> SREL (commit any s) dc.
Proof.
  intros any s dc HS Hq.
  destruct (commit_facts any s) as (W & Q & N & C & M & D & St & Sc & Tm & E).
  destruct Hq as [Hq|Hz]; [rewrite (Q Hq); auto|].
  destruct HS as (A & B & Cw & Cw' & Dd).
  assert (W1 : s_wmethod (commit any s) = s_wmethod s) by (unfold wants in W; congruence).
  assert (W2 : s_wbutton (commit any s) = s_wbutton s) by (unfold wants in W; congruence).
  unfold SREL, lockrel. rewrite C, D, W1, W2, St.
  destruct E as [(E1 & E2 & E3)|(Ea & E1 & E2 & E3)]; rewrite E1, E2, E3.
  - split; [exact A|]. split; [exact B|auto].
  - assert (Hall : forall c, s_cnt s c = 0).
    { intros c. destruct (s_method s && (c =? s_button s)) eqn:F.
      - apply andb_true_iff in F. destruct F as [F1 F2]. apply Z.eqb_eq in F2. subst c. apply B; auto.
      - rewrite A; auto. }
    split; [intros; rewrite Hall, Hz; auto|]. split; [|auto].
    intros Hm. rewrite Hall, Hz. split; [auto|]. split; [lia|]. split; [|auto].
    destruct (s_wlock s); auto; discriminate.
Qed.

Lemma commit_vw : forall any s x, vw (commit any s) x = vw s x.
Proof. intros. unfold vw. destruct (commit_facts any s) as (_ & _ & _ & C & _). rewrite C. auto. Qed.

(** Post-condition of one event leaving this stage. *)
Definition stage_ok (any : bool) (s : ds) (dc' : Z -> Z) (p : bool) (r : dres) : Prop :=
  SREL (fst r) dc' /\ gd (vw s) (snd r) /\ (forall x, va (vw s) (snd r) x = vw (fst r) x) /\
  s_mb (fst r) = s_mb s /\ wants (fst r) = wants s /\
  (cfg (fst r) = cfg s \/ (p = false /\ any = false /\ nopend (fst r) /\
     exists t c, In (PButton t c false) (snd r))) /\
  (any = false -> (exists t c, In (PButton t c false) (snd r)) -> nopend (fst r)).

Lemma commit_cfg : forall any s, cfg (commit any s) = cfg s \/ (any = false /\ nopend (commit any s)).
Proof.
  intros any s. destruct (commit_facts any s) as (_ & Q & N & _). destruct any.
  - left. rewrite Q; auto.
  - right. auto.
Qed.
Lemma lockrel_cnt : forall s f n, lockrel (set_cnt s f) n <-> lockrel s n.
Proof. reflexivity. Qed.

Lemma notify_other : forall any s t c p dc,
  SREL s dc -> mouse_button c -> s_method s && (c =? s_button s) = false ->
  0 <= dc c <= 2 -> 0 <= bump dc c p c <= 2 ->
  (quietc any s \/ p = true \/ forall x, bump dc c p x = 0) ->
  stage_ok any s (bump dc c p) p (post_button any s t c p).
Proof.
  intros any s t c p dc HS Hc Hns H0 H1 Hq.
  pose proof HS as (A & B & Cw & Cw' & Dd).
  pose proof (A c Hns) as Ec.
  unfold bump in H1. rewrite Z.eqb_refl in H1.
  assert (Hnew : forall f, f c = bump dc c p c -> (forall x, x <> c -> f x = s_cnt s x) -> SREL (set_cnt s f) (bump dc c p)).
  { intros f F1 F2. unfold SREL. cbn [set_cnt s_method s_button s_cnt s_wmethod s_wbutton s_dead].
    split; [|split; [|auto]].
    - intros x Hx. destruct (Z.eqb_spec c x) as [<-|Hne]; [auto|].
      rewrite F2 by auto. unfold bump. destruct (Z.eqb_spec c x); [contradiction|]. rewrite A by auto. lia.
    - intros Hm. specialize (B Hm). rewrite Hm in Hns. cbn in Hns. apply Z.eqb_neq in Hns.
      rewrite F2 by auto. unfold bump. destruct (Z.eqb_spec c (s_button s)); [contradiction|].
      rewrite Z.add_0_r. exact B. }
  destruct p.
  - rewrite (post_press any s t c (dc c) Hc Ec) by lia.
    unfold stage_ok. cbn [fst snd].
    split; [apply Hnew; [rewrite upd_same; unfold bump; rewrite Z.eqb_refl; auto|intros; apply upd_other; auto]|].
    unfold vw. cbn [set_cnt s_cnt s_mb].
    destruct (Z.eqb_spec (dc c) 0) as [Hz|Hz]; cbn [gd va].
    + split; [split; auto; rewrite Ec, Hz; reflexivity|].
      split.
      { intros x. unfold upd. destruct (x =? c); auto. rewrite Hz. reflexivity. }
      split; auto. split; [reflexivity|]. split; [left; reflexivity|].
      intros _ (t0 & c0 & [E|[]]); discriminate.
    + split; auto. split.
      { intros x. unfold upd. destruct (Z.eqb_spec x c) as [->|]; auto. rewrite Ec.
        destruct (Z.ltb_spec 0 (dc c)), (Z.ltb_spec 0 (dc c + 1)); auto; lia. }
      split; auto. split; [reflexivity|]. split; [left; reflexivity|].
      intros _ (t0 & c0 & []).
  - rewrite (post_release any s t c (dc c) Hc Ec) by lia.
    destruct (Z.eqb_spec (dc c) 1) as [Hz|Hz].
    + fold (commit any (set_cnt s (upd (s_cnt s) c 0))).
      set (s1 := set_cnt s (upd (s_cnt s) c 0)).
      assert (HS1 : SREL s1 (bump dc c false)).
      { apply Hnew; [rewrite upd_same; unfold bump; rewrite Z.eqb_refl; lia|intros; apply upd_other; auto]. }
      assert (HS2 : SREL (commit any s1) (bump dc c false)).
      { apply commit_SREL; auto. destruct Hq as [Hq|[Hq|Hq]]; [left; exact Hq|discriminate|right; auto]. }
      destruct (commit_facts any s1) as (W & Q & N & C & M & D & _).
      unfold stage_ok. cbn [fst snd gd va].
      split; auto. split.
      { split; auto. unfold vw. rewrite Ec, Hz. reflexivity. }
      split.
      { intros x. rewrite commit_vw. unfold vw, s1. cbn [set_cnt s_cnt]. unfold upd. destruct (x =? c); auto. }
      split; [rewrite M; reflexivity|]. split; [rewrite W; reflexivity|].
      split; [|intros; auto].
      destruct (commit_cfg any s1) as [E|[E F]]; [left; rewrite E; reflexivity|right].
      split; auto. split; auto. split; auto. exists t, c. left. auto.
    + unfold stage_ok. cbn [fst snd gd va].
      split; [apply Hnew; [rewrite upd_same; unfold bump; rewrite Z.eqb_refl; lia|intros; apply upd_other; auto]|].
      split; auto. split.
      { intros x. unfold vw. cbn [set_cnt s_cnt]. unfold upd. destruct (Z.eqb_spec x c) as [->|]; auto. rewrite Ec.
        destruct (Z.ltb_spec 0 (dc c)), (Z.ltb_spec 0 (dc c - 1)); auto; lia. }
      split; auto. split; [reflexivity|]. split; [left; reflexivity|].
      intros _ (t0 & c0 & []).
Qed.


Lemma SREL_cnt : forall s dc f, SREL s dc -> (forall x, f x = s_cnt s x) -> SREL (set_cnt s f) dc.
Proof.
  intros s dc f (A & B & C) H. unfold SREL. cbn [set_cnt s_method s_button s_cnt s_wmethod s_wbutton s_dead].
  split; [intros c Hc; rewrite H; auto|]. split; auto. rewrite H. exact B.
Qed.
Lemma SREL_idle : forall s dc, SREL s dc ->
  (s_method s = true -> dc (s_button s) = 0 /\ (s_lockst s = L_IDLE \/ s_lockst s = L_DISABLED)) ->
  SREL (set_state s B_IDLE) dc.
Proof.
  intros s dc (A & B & C) H. split; [exact A|]. split; [|exact C].
  cbn [set_state s_method s_button s_cnt]. intros Hm. destruct (B Hm) as (B1 & B2 & B3 & B4).
  destruct (H Hm) as (H1 & H2). split; auto. split; auto. split; auto.
  unfold lockrel in *. cbn [set_state s_lockst s_state]. rewrite H1 in *.
  destruct H2 as [E|E]; rewrite E; auto. discriminate.
Qed.

Lemma scroll_release_ok : forall any s t dc,
  SREL s dc -> s_method s = true -> dc (s_button s) = 0 -> s_state s <> B_IDLE ->
  (s_lockst s = L_IDLE \/ s_lockst s = L_DISABLED) ->
  (quietc any s \/ forall x, dc x = 0) ->
  stage_ok any s dc false (scroll_release any s t).
Proof.
  intros any s t dc HS Hm Hz Hst Hl Hq.
  pose proof HS as (A & B & Cw & Cw' & Dd). destruct (B Hm) as (B1 & B2 & B3 & B4).
  unfold scroll_release.
  assert (HS0 : SREL (set_timer s None) dc) by exact HS.
  set (s0 := set_timer s None) in *.
  change (s_state s0) with (s_state s).
  assert (Hclick : stage_ok any s dc false
    (andthen (andthen (post_button any s0 (s_dtime s0) (s_button s0) true)
             (fun s1 => post_button any s1 t (s_button s1) false))
             (fun s1 => (set_state s1 B_IDLE, [])))).
  { rewrite (post_press any s0 _ (s_button s0) 0) by (auto; try exact B4; lia).
    change (0 =? 0) with true. cbv iota.
    set (s1 := set_cnt s0 (upd (s_cnt s0) (s_button s0) (0 + 1))).
    unfold andthen at 2. cbn [fst snd]. change (s_dead s1) with (s_dead s). rewrite Dd. cbv iota.
    rewrite (post_release any s1 t (s_button s1) 1); [|exact B4|apply upd_same|lia].
    change (1 =? 1) with true. cbv iota.
    set (s2 := set_cnt s1 (upd (s_cnt s1) (s_button s1) 0)).
    fold (commit any s2).
    assert (C2 : forall x, s_cnt s2 x = s_cnt s x).
    { intros x. unfold s2, s1, s0. cbn [set_cnt set_timer s_cnt s_button]. unfold upd.
      destruct (Z.eqb_spec x (s_button s)); auto. subst. auto. }
    assert (HS2 : SREL s2 dc).
    { unfold s2, s1. apply (SREL_cnt s0); auto. }
    assert (HS3 : SREL (commit any s2) dc).
    { apply commit_SREL; auto. }
    destruct (commit_facts any s2) as (W & Q & N & C & M & D & St & Sc & Tm & E).
    unfold andthen. cbn [fst snd]. rewrite D. change (s_dead s2) with (s_dead s). rewrite Dd.
    unfold stage_ok. cbn [fst snd app gd va].
    split.
    { apply SREL_idle; auto. intros Hm3. destruct E as [(E1 & E2 & E3)|(Ea & E1 & E2 & E3)]; rewrite E2, E3.
      - change (s_button s2) with (s_button s). change (s_lockst s2) with (s_lockst s). auto.
      - destruct Hq as [[Hq|Hq]|Hq]; [congruence| |].
        + unfold nopend, wants, cfg in Hq. change (s_wbutton s2) with (s_wbutton s).
          replace (s_wbutton s) with (s_button s) by congruence.
          split; auto. destruct (s_wlock s2); auto.
        + split; auto. destruct (s_wlock s2); auto. }
    split.
    { split; [unfold vw; change (s_button s0) with (s_button s); rewrite B1; reflexivity|].
      split; auto. change (s_button s1) with (s_button s0). rewrite upd_same. reflexivity. }
    split.
    { intros x. change (vw (set_state (commit any s2) B_IDLE) x) with (vw (commit any s2) x).
      rewrite commit_vw. unfold vw at 2. rewrite C2. change (s_button s1) with (s_button s).
      change (s_button s0) with (s_button s). unfold upd. destruct (Z.eqb_spec x (s_button s)).
      - subst. rewrite B1. reflexivity.
      - reflexivity. }
    split; [change (s_mb (commit any s2) = s_mb s); rewrite M; reflexivity|].
    split; [change (wants (commit any s2) = wants s); rewrite W; reflexivity|].
    split; [|intros; apply N; auto].
    destruct (commit_cfg any s2) as [F|[F G]]; [left; exact F|right].
    split; auto. split; auto. split; auto. eexists _, _. right. left. reflexivity. }
  assert (Hs : s_state s = B_SCROLLING -> stage_ok any s dc false
    (andthen (let '(scr, o) := Scroll_Model.stop_scroll (s_scr s0) t in (set_scr s0 scr, map PAxis o))
             (fun s1 => (set_state s1 B_IDLE, [])))).
  { intros _. destruct (Scroll_Model.stop_scroll (s_scr s0) t) as [scr o].
    unfold andthen. change (s_dead (set_scr s0 scr)) with (s_dead s). rewrite Dd. cbv iota.
    unfold stage_ok. cbn [fst snd]. rewrite app_nil_r. destruct (gd_axis o (vw s)) as [G V].
    split; [apply SREL_idle; [exact HS|auto]|]. split; auto. split; [rewrite V; reflexivity|].
    split; auto. split; [reflexivity|]. split; [left; reflexivity|].
    intros _ (t0 & c0 & H). apply in_map_iff in H. destruct H as (? & H & _). discriminate. }
  destruct (s_state s); [contradiction|exact Hclick|exact Hclick|apply Hs; auto].
Qed.

Lemma stage_quiet : forall any s s' dc' p,
  SREL s' dc' -> (forall x, s_cnt s' x = s_cnt s x) -> s_mb s' = s_mb s -> wants s' = wants s ->
  cfg s' = cfg s -> stage_ok any s dc' p (s', []).
Proof.
  intros. unfold stage_ok. cbn [fst snd gd va]. split; auto. split; auto.
  split; [intros x; unfold vw; rewrite H0; auto|]. split; auto. split; auto. split; auto.
  intros _ (? & ? & []).
Qed.

Lemma notify_scroll : forall any s t p dc,
  SREL s dc -> s_method s = true ->
  0 <= bump dc (s_button s) p (s_button s) <= 1 ->
  (quietc any s \/ p = true \/ forall x, bump dc (s_button s) p x = 0) ->
  stage_ok any s (bump dc (s_button s) p) p (scroll_button any s t p).
Proof.
  intros any s t p dc HS Hm H1 Hq.
  pose proof HS as (A & B & Cw & Cw' & Dd). destruct (B Hm) as (B1 & B2 & B3 & B4).
  assert (Hb : bump dc (s_button s) p (s_button s) = dc (s_button s) + (if p then 1 else -1)).
  { unfold bump. rewrite Z.eqb_refl. auto. }
  rewrite Hb in H1.
  assert (Hnew : forall s', s_method s' = s_method s -> s_button s' = s_button s -> s_cnt s' = s_cnt s ->
            wants s' = wants s -> s_dead s' = false -> lockrel s' (dc (s_button s) + (if p then 1 else -1)) ->
            SREL s' (bump dc (s_button s) p)).
  { intros s' E1 E2 E3 E4 E5 E6. unfold SREL. rewrite E1, E2, E3, E5, Hb.
    assert (E7 : s_wmethod s' = s_wmethod s) by (unfold wants in E4; congruence).
    assert (E8 : s_wbutton s' = s_wbutton s) by (unfold wants in E4; congruence).
    rewrite E7, E8. split; [|split; [auto|auto]].
    intros c Hc. rewrite (A c Hc). unfold bump. rewrite Hm in Hc. cbn in Hc.
    rewrite Z.eqb_sym, Hc. lia. }
  assert (Hrel : forall s', s_method s' = s_method s -> s_button s' = s_button s -> s_cnt s' = s_cnt s ->
            wants s' = wants s -> cfg s' = cfg s -> s_dead s' = false -> s_mb s' = s_mb s ->
            s_state s' <> B_IDLE -> (s_lockst s' = L_IDLE \/ s_lockst s' = L_DISABLED) ->
            p = false -> stage_ok any s (bump dc (s_button s) p) p (scroll_release any s' t)).
  { intros s' E1 E2 E3 E4 E4' E5 E6 E7 E8 ->.
    assert (HS' : SREL s' (bump dc (s_button s) false)).
    { apply Hnew; auto. unfold lockrel. destruct E8 as [-> | ->]; auto. lia. }
    assert (Q : stage_ok any s' (bump dc (s_button s) false) false (scroll_release any s' t)).
    { apply scroll_release_ok; auto.
      - congruence.
      - rewrite E2, Hb. lia.
      - destruct Hq as [[Hq|Hq]|[Hq|Hq]]; auto; try discriminate.
        + left; left; auto.
        + left; right. unfold nopend in *. congruence. }
    destruct Q as (Q1 & Q2 & Q3 & Q4 & Q5 & Q6 & Q7).
    assert (V : forall x, vw s' x = vw s x) by (intros; unfold vw; rewrite E3; auto).
    split; [auto|]. split; [eapply gd_ext; [|exact Q2]; auto|].
    split; [intros x; rewrite <- Q3; apply va_ext; auto|].
    split; [congruence|]. split; [congruence|]. split; [|auto].
    destruct Q6 as [Q6|Q6]; [left; congruence|right; auto]. }
  unfold scroll_button. unfold lockrel in B3.
  destruct (s_lockst s) eqn:L; destruct p; cbv iota; try lia.
  - apply stage_quiet; auto.
    apply Hnew; auto. unfold lockrel. cbn [s_lockst s_state]. rewrite L. discriminate.
  - apply Hrel; auto. apply B3. lia.
  - apply stage_quiet; auto. apply Hnew; auto. unfold lockrel. cbn [set_lockst s_lockst s_state]. split; [lia|discriminate].
  - destruct B3. apply stage_quiet; auto. apply Hnew; auto. unfold lockrel. cbn [set_lockst s_lockst s_state]. split; [lia|auto].
  - destruct B3. apply stage_quiet; auto. apply Hnew; auto. unfold lockrel. cbn [set_lockst s_lockst s_state]. split; [lia|auto].
  - destruct B3. apply Hrel; auto.
Qed.

Lemma notify_ok : forall any s t c p dc,
  SREL s dc -> mouse_button c -> 0 <= dc c <= 2 -> 0 <= bump dc c p c <= 2 ->
  (s_method s = true -> c = s_button s -> bump dc c p c <= 1) ->
  (quietc any s \/ p = true \/ forall x, bump dc c p x = 0) ->
  stage_ok any s (bump dc c p) p (notify_button any s t c p).
Proof.
  intros any s t c p dc HS Hc H0 H1 H2 Hq. unfold notify_button.
  destruct (s_method s && (c =? s_button s)) eqn:E.
  - apply andb_true_iff in E. destruct E as [E1 E2]. apply Z.eqb_eq in E2. subst c.
    apply notify_scroll; auto. specialize (H2 E1 eq_refl). lia.
  - apply notify_other; auto.
Qed.

Lemma stage_any : forall any s dc p r, stage_ok any s dc p r -> stage_ok any s dc false r.
Proof.
  intros any s dc p r (A & B & C & D & E & F & G). repeat (split; auto).
  destruct F as [F|(F1 & F2 & F3)]; auto.
Qed.
Lemma stage_dead : forall any s dc p r, stage_ok any s dc p r -> s_dead (fst r) = false.
Proof. intros any s dc p r ((_ & _ & _ & _ & D) & _). exact D. Qed.

Lemma stage_comp : forall any s dc1 p1 s1 o1 dc2 p2 s2 o2,
  stage_ok any s dc1 p1 (s1, o1) -> stage_ok any s1 dc2 p2 (s2, o2) ->
  stage_ok any s dc2 false (s2, o1 ++ o2).
Proof.
  intros any s dc1 p1 s1 o1 dc2 p2 s2 o2 (A & B & C & D & E & F & G) (A' & B' & C' & D' & E' & F' & G').
  cbn [fst snd] in *. unfold stage_ok. cbn [fst snd].
  split; auto. split.
  { rewrite gd_app. split; auto. eapply gd_ext; [|exact B']. intros; symmetry; auto. }
  split.
  { intros x. rewrite va_app, <- C'. apply va_ext; auto. }
  split; [congruence|]. split; [congruence|].
  assert (Q : nopend s1 -> nopend s2).
  { intros N. destruct F' as [F'|(_ & _ & F' & _)]; auto. unfold nopend in *. congruence. }
  split.
  - destruct F as [F|(F1 & F2 & F3 & t & c & F4)].
    + destruct F' as [F'|(F1' & F2' & F3' & t & c & F4')]; [left; congruence|right].
      repeat split; auto. exists t, c. apply in_or_app; auto.
    + right. repeat split; auto. exists t, c. apply in_or_app; auto.
  - intros Hany (t & c & H). apply in_app_or in H. destruct H as [H|H].
    + apply Q, G; eauto.
    + apply G'; eauto.
Qed.

Section deliver.
Import Verif.MiddleButton_Model Verif.MiddleButton_Spec Verif.MiddleButton_Proofs.

Lemma pre_ok_weaken : forall c l n k k', k <= k' -> pre_ok n k c l -> pre_ok n k' c l.
Proof. induction l; simpl; intros n k k' H [A B]; (split; [lia|eauto]). Qed.

(** Any release in [l] is its last element and leaves nothing pressed. *)
Definition last_release (dc : Z -> Z) (l : list mout) : Prop :=
  forall pre t c r, l = pre ++ MPost c t false :: r -> r = [] /\ forall x, dc x + down x l = 0.

Lemma deliver_ok : forall l any s dc,
  SREL s dc -> ~ In MBug l -> (forall c t p, In (MPost c t p) l -> mouse_button c) ->
  (forall c, pre_ok (dc c) 2 c l) ->
  (s_method s = true -> pre_ok (dc (s_button s)) 1 (s_button s) l) ->
  (quietc any s \/ last_release dc l) ->
  stage_ok any s (fun x => dc x + down x l) false (deliver any s l).
Proof.
  induction l as [|[c t p|] l IH]; intros any s dc HS Hb Hc Hp Hs Hq.
  - cbn [deliver]. apply stage_quiet; auto. eapply SREL_ext; [|exact HS].
    intros x. simpl. lia.
  - cbn [deliver].
    assert (Hbump : forall x, bump dc c p x = dc x + delta x (MPost c t p)).
    { intros x. reflexivity. }
    pose proof (Hp c) as [P1 P2].
    assert (N : stage_ok any s (bump dc c p) p (notify_button any s t c p)).
    { apply notify_ok; auto.
      - apply (Hc c t p). left; auto.
      - rewrite Hbump. destruct l; apply P2.
      - intros Hm ->. destruct (Hs Hm) as [_ P3]. rewrite Hbump. destruct l; apply P3.
      - destruct Hq as [Hq|Hq]; auto. destruct p; auto. right; right.
        destruct (Hq [] t c l eq_refl) as [-> Hz]. intros x. rewrite Hbump. specialize (Hz x). simpl in *. lia. }
    destruct (notify_button any s t c p) as [s1 o1].
    pose proof (stage_dead _ _ _ _ _ N) as D. cbn [fst] in D.
    unfold andthen. rewrite D.
    assert (R : stage_ok any s1 (fun x => bump dc c p x + down x l) false (deliver any s1 l)).
    { assert (HS1 : SREL s1 (bump dc c p)) by apply N.
      assert (HR : cfg s1 = cfg s \/ l = []).
      { destruct N as (_ & _ & _ & _ & W & F & _). cbn [fst snd] in *.
        destruct F as [F|(F1 & F2 & F3 & F4)]; auto.
        destruct Hq as [[Hq|Hq]|Hq]; [congruence| |].
        - left. unfold nopend in *. congruence.
        - subst p. right. apply (Hq [] t c l eq_refl). }
      destruct HR as [HR| ->].
      - apply IH; auto.
        + intros H. apply Hb. right; auto.
        + intros c0 t0 p0 H. apply (Hc c0 t0 p0). right; auto.
        + intros x. rewrite Hbump. apply (Hp x).
        + assert (E1 : s_method s1 = s_method s) by (unfold cfg in HR; congruence).
          assert (E2 : s_button s1 = s_button s) by (unfold cfg in HR; congruence).
          rewrite E1, E2. intros Hm. rewrite Hbump. apply (Hs Hm).
        + destruct Hq as [[Hq|Hq]|Hq]; [left; left; auto| |].
          * left; right. destruct N as (_ & _ & _ & _ & W & _). cbn [fst snd] in *.
            unfold nopend in *. congruence.
          * right. intros pre t0 c0 r E. destruct (Hq (MPost c t p :: pre) t0 c0 r) as [Q1 Q2].
            { rewrite E. reflexivity. }
            split; auto. intros x. specialize (Q2 x). simpl in Q2. rewrite Hbump. simpl. lia.
      - cbn [deliver]. apply stage_quiet; auto. eapply SREL_ext; [|exact HS1].
        intros x. simpl. lia. }
    destruct (deliver any s1 l) as [s2 o2].
    pose proof (stage_comp _ _ _ _ _ _ _ _ _ _ N R) as (Q1 & Q2). split; [|exact Q2].
    eapply SREL_ext; [|exact Q1]. intros x. cbn [fst]. rewrite Hbump. simpl. lia.
  - exfalso. apply Hb. left; auto.
Qed.

(** Facts about the emulation's output needed here. *)
Lemma out_codes : forall m o c t p, In (MPost c t p) (snd (mstep m o)) ->
  c = BTN_LEFT \/ c = BTN_RIGHT \/ c = BTN_MIDDLE \/ exists t', o = Button c t' p.
Proof.
  intros [s mask first tm en want] o c t p H.
  destruct o as [code time q|now|b].
  - cbn [mstep] in H. unfold physical_button, filter_button in H. cbn [m_enabled] in H.
    destruct en; cbn [negb] in H.
    2:{ cbn in H. destruct H as [H|[]]. inversion H; subst. eauto. }
    destruct ((code <? BTN_LEFT) || (32 <=? code - BTN_LEFT)); [cbn in H; destruct H as [H|[]]; discriminate|].
    destruct (handle_event (mkMB s mask first tm true want) time (classify code q)) as [[m1 o1] rc] eqn:E1.
    assert (H1 : forall c0 t0 p0, In (MPost c0 t0 p0) o1 -> c0 = BTN_LEFT \/ c0 = BTN_RIGHT \/ c0 = BTN_MIDDLE).
    { unfold handle_event in E1. cbn [m_state] in E1. destruct s, (classify code q); inversion E1; subst; intros c0 t0 p0 F;
        cbn in F; repeat (destruct F as [F|F]); try discriminate; try contradiction; inversion F; subst; auto. }
    match type of H with context [if ?b then _ else _] => destruct b end.
    + destruct (handle_event (set_mask m1 _) time ALL_UP) as [[m3 o3] rc3] eqn:E3 in H.
      assert (H3 : forall c0 t0 p0, In (MPost c0 t0 p0) o3 -> c0 = BTN_LEFT \/ c0 = BTN_RIGHT \/ c0 = BTN_MIDDLE).
      { unfold handle_event in E3. destruct (m_state (set_mask m1 _)); inversion E3; subst; intros c0 t0 p0 F;
        cbn in F; repeat (destruct F as [F|F]); try discriminate; try contradiction; inversion F; subst; auto. }
      cbn [snd] in H. destruct rc; repeat (apply in_app_or in H; destruct H as [H|H]);
        try (apply H1 in H; tauto); try (apply H3 in H; tauto).
      destruct H as [H|[]]. inversion H; subst. eauto.
    + cbn [snd] in H. destruct rc; repeat (apply in_app_or in H; destruct H as [H|H]);
        try (apply H1 in H; tauto).
      destruct H as [H|[]]. inversion H; subst. eauto.
  - cbn [mstep] in H. unfold timeout in H. destruct (handle_event _ now TIMEOUT) as [[m' o'] rc] eqn:E in H.
    cbn [snd] in H. unfold handle_event in E. cbn [m_state] in E.
    destruct s; inversion E; subst; cbn in H; repeat (destruct H as [H|H]); try discriminate; try contradiction; inversion H; subst; auto.
  - contradiction.
Qed.

Lemma timeout_presses : forall m now c t p, In (MPost c t p) (snd (timeout m now)) -> p = true.
Proof.
  intros [s mask first tm en want] now c t p H. unfold timeout in H.
  destruct (handle_event _ now TIMEOUT) as [[m' o'] rc] eqn:E in H.
  cbn [snd] in H. unfold handle_event in E. cbn [m_state] in E.
  destruct s; inversion E; subst; cbn in H; repeat (destruct H as [H|H]); try discriminate; try contradiction; inversion H; subst; auto.
Qed.

(** At most one middle event unless the event is the middle button's. *)
Definition mids (l : list mout) : list mout :=
  filter (fun o => match o with MPost c _ _ => c =? BTN_MIDDLE | MBug => false end) l.
Lemma mids_app : forall a b, mids (a ++ b) = mids a ++ mids b.
Proof. intros. unfold mids. apply filter_app. Qed.
Lemma handle_mids : forall m t e, (length (mids (snd (fst (handle_event m t e)))) <= 1)%nat.
Proof. intros m t e. unfold handle_event. destruct (m_state m), e; cbn;
  change (BTN_LEFT =? BTN_MIDDLE) with false; change (BTN_RIGHT =? BTN_MIDDLE) with false;
  change (BTN_MIDDLE =? BTN_MIDDLE) with true; cbn; auto. Qed.
Lemma handle_allup_mids : forall m t, mids (snd (fst (handle_event m t ALL_UP))) = [].
Proof. intros m t. unfold handle_event. destruct (m_state m); reflexivity. Qed.
Lemma step_mids : forall m o, (forall t p, o <> Button BTN_MIDDLE t p) ->
  (length (mids (snd (mstep m o))) <= 1)%nat.
Proof.
  intros m o Ho. destruct o as [code time q|now|b]; cbn [mstep].
  - assert (Hc : code <> BTN_MIDDLE) by (intros ->; apply (Ho time q); auto).
    assert (Hs : mids [MPost code time q] = []).
    { cbn [mids filter]. destruct (Z.eqb_spec code BTN_MIDDLE); [contradiction|auto]. }
    unfold physical_button, filter_button. destruct (negb (m_enabled m)); [cbn [snd app]; rewrite Hs; auto|].
    destruct ((code <? BTN_LEFT) || (32 <=? code - BTN_LEFT)); [cbn; auto|].
    pose proof (handle_mids m time (classify code q)) as L.
    destruct (handle_event m time (classify code q)) as [[m1 o1] rc]. cbn [fst snd] in L.
    match goal with |- context [if ?b then _ else (set_mask _ _, _, _)] => destruct b end.
    + pose proof (handle_allup_mids (set_mask m1 (if q then Z.setbit (m_mask m1) (code - BTN_LEFT) else Z.clearbit (m_mask m1) (code - BTN_LEFT))) time) as L3.
      destruct (handle_event (set_mask m1 _) time ALL_UP) as [[m3 o3] rc3]. cbn [fst snd] in *.
      destruct rc; rewrite !mids_app, ?Hs, L3, !app_length; cbn; lia.
    + cbn [fst snd]. destruct rc; rewrite ?mids_app, ?Hs, ?app_length; cbn; lia.
  - unfold timeout. match goal with |- context [handle_event ?m ?t ?e] => pose proof (handle_mids m t e) as L;
      destruct (handle_event m t e) as [[m1 o1] rc] end. exact L.
  - cbn. lia.
Qed.
Lemma mids_none : forall l, mids l = [] -> down BTN_MIDDLE l = 0 /\ forall n k, 0 <= n <= k -> pre_ok n k BTN_MIDDLE l.
Proof.
  induction l as [|[c t p|] l IH]; intros H; simpl in H.
  - simpl. auto.
  - destruct (c =? BTN_MIDDLE) eqn:E; [discriminate|]. destruct (IH H) as [A B].
    simpl. rewrite E. split; [lia|]. intros n k Hn. split; auto. apply B. lia.
  - destruct (IH H) as [A B]. simpl. split; [lia|]. intros n k Hn. split; auto. apply B. lia.
Qed.
Lemma mids_pre : forall l n, (length (mids l) <= 1)%nat -> 0 <= n <= 1 -> 0 <= n + down BTN_MIDDLE l <= 1 ->
  pre_ok n 1 BTN_MIDDLE l.
Proof.
  induction l as [|[c t p|] l IH]; intros n H Hn Hd; simpl in *; auto.
  - split; auto. destruct (c =? BTN_MIDDLE) eqn:E; cbn [length] in H.
    + assert (mids l = []) by (destruct (mids l); simpl in *; auto; lia).
      destruct (mids_none l H0) as [A B]. apply B. rewrite A in Hd. lia.
    + apply IH; auto; lia.
  - split; auto. apply IH; auto; lia.
Qed.

Lemma INV_allup : forall hw cnt Hl Hr m, INV hw cnt Hl Hr m -> all_up hw -> forall c, cnt c = 0.
Proof.
  intros hw cnt Hl Hr m (R & O & S) HU x.
  pose proof (HU BTN_LEFT) as U1. pose proof (HU BTN_RIGHT) as U2. pose proof (HU BTN_MIDDLE) as U3.
  destruct (code_cases x) as [->|[->|[->|Ho]]]; [| | |rewrite O by auto; rewrite (HU x); reflexivity];
  rewrite U1, U2, U3 in S;
  (destruct (m_enabled m); [destruct S as [_ S]; unfold SINV in S; destruct (m_state m)|]);
  unfold b2z in S; dsplit; try discriminate; assumption.
Qed.

(** When a button event leaves every button up, a release it causes is the
    last thing the emulation posts. *)
Lemma allup_last : forall hw cnt Hl Hr m code t,
  INV hw cnt Hl Hr m -> BTN_LEFT <= code < BTN_LEFT + 32 ->
  all_up (hw_step hw (Button code t (negb (hw code)))) ->
  last_release cnt (snd (mstep m (Button code t (negb (hw code))))).
Proof.
  intros hw cnt Hl Hr m code t HI Hc HU.
  pose proof (step_button hw cnt Hl Hr m code t HI Hc) as (HI' & _ & _ & _).
  set (o := Button code t (negb (hw code))) in *.
  assert (Hz : forall x, cnt x + down x (snd (mstep m o)) = 0).
  { exact (INV_allup _ _ _ _ _ HI' HU). }
  intros pre t0 c0 r E. split; auto.
  pose proof (HU code) as Hcode. unfold hw_step, o in Hcode. rewrite Z.eqb_refl in Hcode.
  assert (Hothers : forall x, x <> code -> hw x = false).
  { intros x Hx. specialize (HU x). unfold hw_step, o in HU. destruct (Z.eqb_spec x code); [contradiction|auto]. }
  clear HI' Hz. subst o. rewrite Hcode in *. apply negb_false_iff in Hcode. rename Hcode into Hh.
  assert (Hend : forall l : list mout, (forall pre r, l <> pre ++ MPost c0 t0 false :: r) \/
     (exists l0, l = l0 ++ [MPost c0 t0 false] /\ ~ In (MPost c0 t0 false) l0) ->
     l = pre ++ MPost c0 t0 false :: r -> r = []).
  { intros l [H|(l0 & -> & H)] E'; [exfalso; eapply H; eauto|].
    destruct r as [|y r]; auto. exfalso. apply H.
    assert (F : l0 = pre ++ MPost c0 t0 false :: removelast (y :: r)).
    { rewrite (app_removelast_last (l := y :: r) MBug) in E' by discriminate.
      rewrite app_comm_cons, app_assoc in E'. apply app_inj_tail in E'. tauto. }
    rewrite F. apply in_or_app. right. left. auto. }
  destruct m as [s mask first tm en want].
  destruct HI as (HR & HO & HI). cbn [m_enabled] in HI.
  assert (K : forall l : list mout, snd (mstep (mkMB s mask first tm en want) (Button code t false)) = l ->
     (forall x, In x (removelast l) -> exists c t, x = MPost c t true) -> r = []).
  { intros l El Hl'. rewrite El in E. destruct r as [|y r]; auto. exfalso.
    rewrite (app_removelast_last (l := y :: r) MBug) in E by discriminate.
    rewrite app_comm_cons, app_assoc in E.
    rewrite E, removelast_last in Hl'.
    destruct (Hl' (MPost c0 t0 false)) as (c1 & t1 & F); [apply in_or_app; right; left; auto|discriminate]. }
  destruct en.
  2:{ apply (K _ eq_refl). cbn. tauto. }
  destruct HI as [HM HI]. cbn [m_state m_mask m_timer] in HI.
  cbn [m_mask] in HM.
  assert (Hrange : forall c, ~ (BTN_LEFT <= c < BTN_LEFT + 32) -> hw_step hw (Button code t false) c = false).
  { intros c _. apply HU. }
  pose proof (new_mask_zero mask hw code t false (proj1 Hc) ltac:(rewrite Hh; auto) HM Hrange) as NZ.
  assert (HMz : (new_mask mask code false =? 0) = true).
  { destruct (new_mask mask code false =? 0); auto. destruct NZ as [c Hx]. rewrite HU in Hx. discriminate. }
  rewrite HMz in NZ. destruct NZ as (_ & NE & _).
  assert (HL : code = BTN_LEFT \/ code <> BTN_LEFT) by lia.
  assert (HR' : code = BTN_RIGHT \/ code <> BTN_RIGHT) by lia.
  apply (K _ eq_refl).
  rewrite (button_eq s mask first tm want t code false (classify code false) Hc eq_refl).
  destruct HL as [->|HL]; [|destruct HR' as [->|HR']].
  - rewrite classify_L. rewrite Hh in HI. rewrite (Hothers BTN_RIGHT), (Hothers BTN_MIDDLE) in HI by (unfold BTN_LEFT, BTN_RIGHT, BTN_MIDDLE; lia).
    unfold SINV in HI. destruct s; dsplit; try discriminate; cbv zeta; rewrite NE, HMz; evalm; cbn;
      intros y Hy; repeat (destruct Hy as [Hy|Hy]); try contradiction; subst; eauto.
  - rewrite classify_R. rewrite Hh in HI. rewrite (Hothers BTN_LEFT), (Hothers BTN_MIDDLE) in HI by (unfold BTN_LEFT, BTN_RIGHT, BTN_MIDDLE; lia).
    unfold SINV in HI. destruct s; dsplit; try discriminate; cbv zeta; rewrite NE, HMz; evalm; cbn;
      intros y Hy; repeat (destruct Hy as [Hy|Hy]); try contradiction; subst; eauto.
  - assert (CL : classify code false = OTHER).
    { unfold classify. destruct (Z.eqb_spec code BTN_LEFT); [contradiction|]. destruct (Z.eqb_spec code BTN_RIGHT); [contradiction|auto]. }
    rewrite CL. rewrite (Hothers BTN_LEFT), (Hothers BTN_RIGHT) in HI by auto.
    unfold SINV in HI. destruct s; dsplit; try discriminate; cbv zeta; rewrite NE, HMz; evalm; cbn;
      intros y Hy; repeat (destruct Hy as [Hy|Hy]); try contradiction; subst; eauto.
Qed.
End deliver.
