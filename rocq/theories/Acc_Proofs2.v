(** Proofs about pointer acceleration: the trackers *)
Require Import Coq.ZArith.ZArith Coq.QArith.QArith Coq.QArith.Qabs Coq.Lists.List Coq.Bool.Bool Coq.micromega.Lia Coq.micromega.Lqa.
Require Import Verif.Acc_Model Verif.Acc_Spec Verif.Acc_Proofs.
Import ListNotations.
Open Scope Q_scope.

Lemma put_length : forall l i x, length (put l i x) = length l.
Proof. induction l as [|y l IH]; intros [|i] x; cbn; auto. Qed.
Lemma put_nth : forall l i x j d, (i < length l)%nat -> nth j (put l i x) d = if Nat.eqb j i then x else nth j l d.
Proof. induction l as [|y l IH]; intros [|i] x [|j] d L; cbn in *; try lia; auto. rewrite IH by lia. reflexivity. Qed.
Record ring (n : nat) (k : trackers) : Prop := { r_len : length (ts k) = n; r_two : (2 <= n)%nat; r_cur : (curi k < n)%nat }.
Lemma feed_ring : forall m n k x y t, ring n k -> ring n (feed m k x y t).
Proof. intros m n k x y t [L T C]. constructor; [unfold feed; cbn; rewrite put_length, map_length; exact L|exact T|unfold feed; cbn; rewrite L; apply Nat.mod_upper_bound; lia]. Qed.
Lemma reset_ring : forall n k t, ring n k -> ring n (reset k t).
Proof. intros n k t [L T C]. constructor; [unfold reset; cbn; rewrite put_length, repeat_length; exact L|exact T|exact C]. Qed.
Lemma offset_cases : forall c n k, (c < n)%nat -> (k < n)%nat -> ((c + n - k) mod n)%nat = if Nat.leb k c then (c - k)%nat else (c + n - k)%nat.
Proof.
  intros c n k C K. destruct (Nat.leb_spec k c).
  - replace (c + n - k)%nat with (c - k + 1 * n)%nat by lia. rewrite Nat.mod_add by lia. apply Nat.mod_small. lia.
  - apply Nat.mod_small. lia.
Qed.
Lemma next_cases : forall c n, (c < n)%nat -> ((c + 1) mod n)%nat = if Nat.eqb (c + 1) n then 0%nat else (c + 1)%nat.
Proof. intros c n C. destruct (Nat.eqb_spec (c + 1) n) as [E|E]; [rewrite E; apply Nat.mod_same; lia|apply Nat.mod_small; lia]. Qed.
Definition shifted (k : tracker) (x y : Q) : tracker := {| d_x := d_x k + x; d_y := d_y k + y; d_t := d_t k; d_dir := d_dir k |}.
Lemma feed_offset : forall m n k x y t j, ring n k -> (j < n)%nat ->
  by_offset (feed m k x y t) j = match j with O => {| d_x := 0; d_y := 0; d_t := t; d_dir := dirf m x y |} | S i => shifted (by_offset k i) x y end.
Proof.
  intros m n k x y t j R J. pose proof (feed_ring m n k x y t R) as [L' _ C']. destruct R as [L T C]. unfold by_offset, offset_index. rewrite L', L. unfold feed in *. cbn [ts curi] in *. rewrite L in *.
  set (c := ((curi k + 1) mod n)%nat) in *. assert (CC : c = if Nat.eqb (curi k + 1) n then 0%nat else (curi k + 1)%nat) by (apply next_cases; exact C).
  rewrite put_nth by (rewrite map_length, L; exact C'). rewrite offset_cases by assumption. destruct j as [|i].
  - cbn [Nat.leb]. rewrite Nat.sub_0_r, Nat.eqb_refl. reflexivity.
  - rewrite offset_cases by lia.
    assert (E : forall i, (i < n)%nat -> nth i (map (fun k => {| d_x := d_x k + x; d_y := d_y k + y; d_t := d_t k; d_dir := d_dir k |}) (ts k)) tracker0 = shifted (nth i (ts k) tracker0) x y).
    { intros q Q0. rewrite (nth_indep _ tracker0 (shifted tracker0 x y)) by (rewrite map_length, L; exact Q0). apply (map_nth (fun k => shifted k x y)). }
    destruct (Nat.eqb_spec (curi k + 1) n) as [X|X]; rewrite CC in *.
    + cbn [Nat.leb]. replace (Nat.eqb (0 + n - S i) 0) with false by (symmetry; apply Nat.eqb_neq; lia). rewrite E by lia. destruct (Nat.leb_spec i (curi k)); [|lia]. do 2 f_equal. lia.
    + destruct (Nat.leb_spec (S i) (curi k + 1)).
      * replace (Nat.eqb (curi k + 1 - S i) (curi k + 1)) with false by (symmetry; apply Nat.eqb_neq; lia). rewrite E by lia. destruct (Nat.leb_spec i (curi k)); [|lia]. do 2 f_equal. lia.
      * replace (Nat.eqb (curi k + 1 + n - S i) (curi k + 1)) with false by (symmetry; apply Nat.eqb_neq; lia). rewrite E by lia. destruct (Nat.leb_spec i (curi k)); [lia|]. do 2 f_equal. lia.
Qed.
Lemma reset_offset : forall n k t j, ring n k -> (j < n)%nat ->
  by_offset (reset k t) j = match j with O => {| d_x := d_x (by_offset k 0); d_y := d_y (by_offset k 0); d_t := t; d_dir := UNDEFINED_DIRECTION |} | S _ => tracker0 end.
Proof.
  intros n k t j R J. pose proof (reset_ring n k t R) as [L' _ C']. destruct R as [L T C]. unfold by_offset at 1, offset_index. rewrite L'. unfold reset in *. cbn [ts curi] in *.
  assert (O : offset_index k 0 = curi k). { unfold offset_index. rewrite L, offset_cases by lia. cbn. lia. } rewrite O. rewrite put_nth by (rewrite repeat_length, L; exact C). rewrite offset_cases by assumption. destruct j as [|i].
  - cbn [Nat.leb]. rewrite Nat.sub_0_r, Nat.eqb_refl. reflexivity.
  - replace (Nat.eqb _ (curi k)) with false by (symmetry; apply Nat.eqb_neq; destruct (Nat.leb_spec (S i) (curi k)); lia). rewrite L. apply nth_repeat.
Qed.

(** ** Trackers and history *)
Definition all_moved (l : list past) : Prop := forall e, In e l -> exists x y u, e = Moved x y u.
Record tracks (n : nat) (k : trackers) (l : list past) : Prop := {
  k_ring : ring n k;
  k_last : exists e l0, l = l0 ++ [Started e];
  k_real : forall j e, (j < n)%nat -> all_moved (firstn j l) -> nth_error l j = Some e -> d_x (by_offset k j) == moved_x (firstn j l) /\ d_y (by_offset k j) == moved_y (firstn j l) /\ d_t (by_offset k j) = when e;
  k_void : forall j, (j < n)%nat -> ~ all_moved (firstn j l) -> d_dir (by_offset k j) = 0%Z }.
Lemma tracks_init : forall n, (2 <= n)%nat -> tracks n (trackers_init n) [Started 0].
Proof.
  intros n N. assert (B : forall j, by_offset (trackers_init n) j = tracker0) by (intros; unfold by_offset; apply nth_repeat). constructor.
  - constructor; [apply repeat_length|exact N|cbn; lia].
  - exists 0%Z, []. reflexivity.
  - intros [|j] e J A E; rewrite B; [injection E as <-; cbn; split; [lra|split; [lra|reflexivity]]|]. destruct j; discriminate E.
  - intros j J A. rewrite B. reflexivity.
Qed.
Lemma moved_dec : forall l, all_moved l \/ ~ all_moved l.
Proof.
  induction l as [|e l IH]; [left; intros e []|]. destruct e as [x y t|t].
  - destruct IH as [IH|IH]; [left; intros e [<-|I]; [do 3 eexists; reflexivity|auto]|right; intros A; apply IH; intros e I; apply A; right; exact I].
  - right. intros A. destruct (A _ (or_introl eq_refl)) as (x & y & u & E). discriminate E.
Qed.
Lemma tracks_feed : forall m n k l x y t, tracks n k l -> tracks n (feed m k x y t) (Moved x y t :: l).
Proof.
  intros m n k l x y t [R (e0 & l0 & K0) K1 K2]. constructor.
  - apply feed_ring, R.
  - exists e0, (Moved x y t :: l0). rewrite K0. reflexivity.
  - intros [|j] e J A E; rewrite (feed_offset m n) by assumption; [injection E as <-; cbn; split; [lra|split; [lra|reflexivity]]|]. cbn [firstn nth_error] in *. destruct (K1 j e ltac:(lia)) as (X & Y & T); [intros q Q0; apply A; right; exact Q0|exact E|].
    cbn [shifted d_x d_y d_t moved_x moved_y fold_right]. fold (moved_x (firstn j l)) (moved_y (firstn j l)). rewrite X, Y, T. split; [lra|split; [lra|reflexivity]].
  - intros [|j] J A; [exfalso; apply A; intros e []|]. rewrite (feed_offset m n) by assumption. cbn [shifted d_dir]. apply K2; [lia|]. intros B. apply A. cbn [firstn]. intros q [<-|Q0]; [do 3 eexists; reflexivity|auto].
Qed.
Lemma tracks_reset : forall n k l t, tracks n k l -> tracks n (reset k t) (Started t :: l).
Proof.
  intros n k l t [R (e0 & l0 & K0) K1 K2]. constructor.
  - apply reset_ring, R.
  - exists e0, (Started t :: l0). rewrite K0. reflexivity.
  - intros [|j] e J A E.
    + rewrite (reset_offset n) by assumption. injection E as <-. destruct l as [|e1 l1]; [destruct l0; discriminate K0|]. destruct (K1 0%nat e1) as (X & Y & T); [lia|intros q []|reflexivity|]. cbn. split; [exact X|split; [exact Y|reflexivity]].
    + destruct (A (Started t) (or_introl eq_refl)) as (x & y & u & Z0). discriminate Z0.
  - intros [|j] J A; [exfalso; apply A; intros e []|]. rewrite (reset_offset n) by assumption. reflexivity.
Qed.
Definition track1 (m : math) (k : trackers) (e : past) : trackers := match e with Moved x y t => feed m k x y t | Started t => reset k t end.

(** ** The velocity is a mean speed *)
Section Loop.
  Variables (m : math) (sm : option (Z * Z)) (n : nat) (k : trackers) (l : list past) (t : Z).
  Hypothesis (G : good_math m) (T : tracks n k l).
  Lemma velocity_elapsed : forall j e, (j < n)%nat -> all_moved (firstn j l) -> nth_error l j = Some e ->
    tracker_velocity m sm (by_offset k j) t == hyp m (moved_x (firstn j l)) (moved_y (firstn j l)) / inject_Z (elapsed sm (t - when e)).
  Proof.
    intros j e J A E. destruct (k_real _ _ _ T j e J A E) as (X & Y & W). unfold tracker_velocity, elapsed. rewrite W. cbv zeta. rewrite (g_hyp_eq m G _ _ _ _ X Y). reflexivity.
  Qed.
  Lemma loop_mean : forall c j dir initial result, (2 <= j)%nat -> (c + j = n)%nat -> (exists i, mean_speed m sm l t i result) ->
    exists i, mean_speed m sm l t i (velocity_loop m sm k t c j dir initial result).
  Proof.
    induction c as [|c IH]; intros j dir initial result J C H; [exact H|]. cbn [velocity_loop].
    destruct (t <? d_t (by_offset k j))%Z eqn:E1; [exact H|]. apply Z.ltb_ge in E1.
    replace (Nat.eqb j 1) with false by (symmetry; apply Nat.eqb_neq; lia).
    destruct (MOTION_TIMEOUT <? t - d_t (by_offset k j))%Z eqn:E2; [exact H|]. apply Z.ltb_ge in E2.
    destruct (Z.land dir (d_dir (by_offset k j)) =? 0)%Z eqn:E3; [exact H|].
    destruct (moved_dec (firstn j l)) as [A|A]; [|rewrite (k_void _ _ _ T j ltac:(lia) A), Z.land_0_r in E3; discriminate E3].
    assert (N : exists e, nth_error l j = Some e).
    { destruct (nth_error l j) as [e|] eqn:NE; [exists e; reflexivity|]. apply nth_error_None in NE. destruct (k_last _ _ _ T) as (e0 & l0 & K0). rewrite firstn_all2 in A by exact NE. destruct (A (Started e0)) as (x & y & u & Z0); [rewrite K0; apply in_or_app; right; left; reflexivity|discriminate Z0]. }
    destruct N as (e & N). destruct (k_real _ _ _ T j e ltac:(lia) A N) as (X & Y & W).
    assert (M : mean_speed m sm l t j (tracker_velocity m sm (by_offset k j) t)).
    { split; [lia|]. split; [exact A|]. exists e. split; [exact N|]. cbv zeta. rewrite W in E1, E2. split; [lia|]. left. split; [unfold MOTION_TIMEOUT in E2; lia|]. apply velocity_elapsed; auto. lia. }
    destruct (Qeq_bool initial 0 || Nat.leb j 2); [apply IH; auto; [lia|]; exists j; exact M|].
    destruct (qlt MAX_VELOCITY_DIFF _); [exact H|]. apply IH; auto; [lia|]. exists j; exact M.
  Qed.
End Loop.
(** After a motion the velocity is the mean speed over it, or over it and some before it *)
Lemma velocity_mean : forall m sm n k l x y t, good_math m -> tracks n k l -> (match l with e :: _ => when e <= t | [] => True end)%Z ->
  exists i, mean_speed m sm (Moved x y t :: l) t i (velocity m sm (feed m k x y t) t).
Proof.
  intros m sm n k l x y t G T B. pose proof (tracks_feed m n k l x y t T) as T'. set (k' := feed m k x y t) in *. set (l' := Moved x y t :: l) in *. unfold velocity. rewrite (r_len _ _ (k_ring _ _ _ T')).
  pose proof (r_two _ _ (k_ring _ _ _ T')) as N. replace (n - 1)%nat with (S (n - 2)) by lia.
  assert (A : all_moved (firstn 1 l')) by (intros e [<-|[]]; do 3 eexists; reflexivity).
  destruct (k_last _ _ _ T) as (e0 & l0 & K0). destruct l as [|e l1]; [destruct l0; discriminate K0|].
  destruct (k_real _ _ _ T' 1%nat e ltac:(lia) A eq_refl) as (X & Y & W). cbn [velocity_loop]. cbv zeta.
  replace (t <? d_t (by_offset k' 1))%Z with false by (symmetry; apply Z.ltb_ge; rewrite W; exact B). cbn [Nat.eqb]. rewrite W.
  assert (E1 : forall u, tracker_velocity m sm (by_offset k' 1) u == hyp m (moved_x (firstn 1 l')) (moved_y (firstn 1 l')) / inject_Z (elapsed sm (u - when e))).
  { intros u. unfold tracker_velocity, elapsed. rewrite W. cbv zeta. rewrite (g_hyp_eq m G _ _ _ _ X Y). reflexivity. }
  destruct (MOTION_TIMEOUT <? t - when e)%Z eqn:E2.
  - apply Z.ltb_lt in E2. exists 1%nat. split; [lia|]. split; [exact A|]. exists e. split; [reflexivity|]. cbv zeta. split; [lia|]. right. split; [exact E2|]. split; [reflexivity|]. unfold velocity_after_timeout. rewrite W, E1. replace (when e + MOTION_TIMEOUT - when e)%Z with 1000000%Z by (unfold MOTION_TIMEOUT; lia). reflexivity.
  - apply Z.ltb_ge in E2. assert (M : mean_speed m sm l' t 1 (tracker_velocity m sm (by_offset k' 1) t)).
    { split; [lia|]. split; [exact A|]. exists e. split; [reflexivity|]. cbv zeta. split; [lia|]. left. split; [unfold MOTION_TIMEOUT in E2; lia|]. apply E1. }
    destruct (Z.land _ _ =? 0)%Z; [exists 1%nat; exact M|]. cbn [Qeq_bool orb]. replace (Qeq_bool 0 0 || Nat.leb 1 2) with true by reflexivity. apply (loop_mean m sm n); auto; try lia. exists 1%nat. exact M.
Qed.
Lemma elapsed_pos : forall sm dt, (0 <= dt)%Z -> match sm with Some (_, v) => (0 < v)%Z \/ sm = Some (0, 0)%Z | None => True end -> (0 < elapsed sm dt)%Z.
Proof. intros [[th v]|] dt D S; unfold elapsed; [|lia]. destruct S as [S|S]; [destruct (dt + 1 <? th)%Z; lia|]. injection S as -> ->. destruct (Z.ltb_spec (dt + 1) 0); lia. Qed.
Lemma tracker_velocity_nonneg : forall m sm k t, good_math m -> (d_t k <= t)%Z -> match sm with Some (_, v) => (0 < v)%Z \/ sm = Some (0, 0)%Z | None => True end -> 0 <= tracker_velocity m sm k t.
Proof.
  intros m sm k t G D S. unfold tracker_velocity. pose proof (elapsed_pos sm (t - d_t k) ltac:(lia) S) as E. unfold elapsed in E. destruct (g_hyp m G (d_x k) (d_y k)) as (H & _).
  set (e := match sm with Some (th, v) => if (t - d_t k + 1 <? th)%Z then v else (t - d_t k + 1)%Z | None => (t - d_t k + 1)%Z end) in *. cbv zeta. fold e. pose proof (inv_pos e E). unfold Qdiv. apply Qmult_le_0_compat; lra.
Qed.
Lemma velocity_nonneg : forall m sm k t, good_math m -> match sm with Some (_, v) => (0 < v)%Z \/ sm = Some (0, 0)%Z | None => True end -> 0 <= velocity m sm k t.
Proof.
  intros m sm k t G S. unfold velocity. assert (H : forall c j dir initial result, 0 <= result -> 0 <= velocity_loop m sm k t c j dir initial result).
  { induction c as [|c IH]; intros j dir initial result R; [exact R|]. cbn [velocity_loop]. cbv zeta. destruct (t <? d_t (by_offset k j))%Z eqn:E1; [exact R|]. apply Z.ltb_ge in E1.
    assert (V : 0 <= tracker_velocity m sm (by_offset k j) t) by (apply tracker_velocity_nonneg; assumption).
    destruct (MOTION_TIMEOUT <? _)%Z; [destruct (Nat.eqb j 1); [|exact R]; unfold velocity_after_timeout; apply tracker_velocity_nonneg; auto; unfold MOTION_TIMEOUT; lia|].
    destruct (Z.land _ _ =? 0)%Z; [destruct (Nat.eqb j 1); assumption|]. destruct (_ || _); [apply IH; exact V|]. destruct (qlt _ _); [exact R|]. apply IH. exact V. }
  apply H. lra.
Qed.
