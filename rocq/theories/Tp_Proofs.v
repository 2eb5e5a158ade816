Require Import Coq.ZArith.ZArith Coq.Lists.List Coq.Bool.Bool Coq.micromega.Lia.
Require Import Verif.Tp_Model Verif.Tp_Spec.
Import ListNotations.
Open Scope Z_scope.

Definition b2z (b : bool) : Z := if b then 1 else 0.
Fixpoint cnt (l : list touch) : Z := match l with [] => 0 | t :: r => b2z (is_down t) + cnt r end.
Lemma cnt_nonneg : forall l, 0 <= cnt l.
Proof. induction l as [|t r IH]; cbn [cnt]; [lia|]. destruct (is_down t); cbn [b2z]; lia. Qed.
Lemma cnt_filter : forall l, cnt l = Z.of_nat (length (filter is_down l)).
Proof. induction l as [|t r IH]; auto. cbn [cnt filter]. destruct (is_down t); cbn [b2z length]; lia. Qed.
Lemma cnt_app : forall a b, cnt (a ++ b) = cnt a + cnt b.
Proof. induction a as [|t a IH]; intros b; cbn [cnt app]; [lia|]. rewrite IH. lia. Qed.
Lemma cnt_rev : forall l, cnt (rev l) = cnt l.
Proof. induction l as [|t l IH]; auto. cbn [rev]. rewrite cnt_app, IH. cbn [cnt]. lia. Qed.
Lemma cnt_down : forall l, down_count l = cnt l.
Proof. intros l. rewrite cnt_filter. reflexivity. Qed.

Fixpoint all_i (Q : nat -> touch -> Prop) (i : nat) (l : list touch) : Prop :=
  match l with [] => True | t :: r => Q i t /\ all_i Q (S i) r end.
Lemma all_i_impl : forall (Q R : nat -> touch -> Prop) l i, (forall j t, (i <= j)%nat -> Q j t -> R j t) -> all_i Q i l -> all_i R i l.
Proof. intros Q R. induction l as [|t l IH]; intros i H A; [exact I|]. destruct A as [A1 A2]. split; [apply H; auto|]. apply IH; auto. intros j u L. apply H. lia. Qed.
Lemma all_i_map : forall (Q R : nat -> touch -> Prop) g l i, (forall j t, Q j t -> R j (g t)) -> all_i Q i l -> all_i R i (map g l).
Proof. intros Q R g. induction l as [|t l IH]; intros i H A; [exact I|]. destruct A as [A1 A2]. split; auto. Qed.
Lemma all_i_conj : forall (Q R : nat -> touch -> Prop) l i, all_i Q i l -> all_i R i l -> all_i (fun j t => Q j t /\ R j t) i l.
Proof. intros Q R. induction l as [|t l IH]; intros i A B; [exact I|]. destruct A, B. split; auto. Qed.
Lemma all_i_rel : forall (Q S : nat -> touch -> Prop) (R : touch -> touch -> Prop) l l' i, Forall2 R l l' -> (forall j t t', Q j t -> R t t' -> S j t') -> all_i Q i l -> all_i S i l'.
Proof. intros Q S R l l' i F. revert i. induction F as [|x y l l' HR F IH]; intros i H A; [exact I|]. destruct A as [A1 A2]. split; eauto. Qed.
Lemma all_i_nth : forall (Q : nat -> touch -> Prop) l i j, all_i Q i l -> (j < length l)%nat -> Q (i + j)%nat (nth j l touch0).
Proof.
  intros Q. induction l as [|t l IH]; intros i j A L; [cbn in L; lia|]. destruct A as [A1 A2]. destruct j; [rewrite Nat.add_0_r; auto|].
  cbn [nth]. rewrite <- Nat.add_succ_comm. apply IH; auto. cbn in L. lia.
Qed.
Lemma all_i_intro : forall (Q : nat -> touch -> Prop) l i, (forall j, (j < length l)%nat -> Q (i + j)%nat (nth j l touch0)) -> all_i Q i l.
Proof.
  intros Q. induction l as [|t l IH]; intros i H; [exact I|]. split.
  - specialize (H O). rewrite Nat.add_0_r in H. apply H. cbn. lia.
  - apply IH. intros j L. rewrite Nat.add_succ_comm. apply (H (S j)). cbn. lia.
Qed.

Lemma acc_all_spec0 : forall (Q Q' : nat -> touch -> Prop) f l i n k c l' n' k',
  (forall j t n k, (i <= j)%nat -> Q j t -> (is_down t = true -> 1 <= n) -> 0 <= n -> let '(t', n1, k1) := f j t n k in Q' j t' /\ n1 = n + b2z (is_down t') - b2z (is_down t) /\ k1 = k) ->
  all_i Q i l -> n = c + cnt l -> 0 <= c -> acc_all i f l n k = (l', n', k') ->
  all_i Q' i l' /\ n' = c + cnt l' /\ k' = k /\ length l' = length l.
Proof.
  intros Q Q' f. induction l as [|t l IH]; intros i n k c l' n' k' H A N C E; cbn in E.
  - injection E as <- <- <-. repeat split; auto.
  - destruct A as [A1 A2]. cbn [cnt] in N. pose proof (cnt_nonneg l) as NN.
    pose proof (H i t n k (le_n _) A1) as H1. destruct (f i t n k) as [[t1 n1] k1].
    destruct H1 as (Q1 & N1 & K1). { intros D. rewrite D in N. cbn [b2z] in N. lia. } { destruct (is_down t); cbn [b2z] in N; lia. }
    destruct (acc_all (S i) f l n1 k1) as [[l2 n2] k2] eqn:E2. injection E as <- <- <-.
    destruct (IH (S i) n1 k1 (c + b2z (is_down t1)) l2 n2 k2) as (B1 & B2 & B3 & B4); auto.
    + intros j u m q L. apply H. lia.
    + lia.
    + destruct (is_down t1); cbn [b2z]; lia.
    + cbn [all_i cnt length]. repeat split; auto; try lia; congruence.
Qed.
Lemma acc_all_spec : forall (Q Q' : nat -> touch -> Prop) f l i n k c l' n' k',
  (forall j t n k, (i <= j)%nat -> Q j t -> (is_down t = true -> 1 <= n) -> let '(t', n1, k1) := f j t n k in Q' j t' /\ n1 = n + b2z (is_down t') - b2z (is_down t) /\ k1 = k) ->
  all_i Q i l -> n = c + cnt l -> 0 <= c -> acc_all i f l n k = (l', n', k') ->
  all_i Q' i l' /\ n' = c + cnt l' /\ k' = k /\ length l' = length l.
Proof. intros Q Q' f l i n k c l' n' k' H. apply acc_all_spec0. intros j t m q L A D _. apply H; auto. Qed.
Lemma acc_nth_spec : forall (Q : nat -> touch -> Prop) f l j i n k c l' n' k',
  (forall t n k, Q (i + j)%nat t -> (is_down t = true -> 1 <= n) -> let '(t', n1, k1) := f t n k in Q (i + j)%nat t' /\ n1 = n + b2z (is_down t') - b2z (is_down t) /\ k1 = k) ->
  all_i Q i l -> n = c + cnt l -> 0 <= c -> acc_nth j f l n k = (l', n', k') ->
  all_i Q i l' /\ n' = c + cnt l' /\ k' = k /\ length l' = length l.
Proof.
  intros Q f. induction l as [|t l IH]; intros j i n k c l' n' k' H A N C E; cbn in E.
  - injection E as <- <- <-. repeat split; auto.
  - destruct A as [A1 A2]. cbn [cnt] in N. pose proof (cnt_nonneg l) as NN. destruct j as [|j].
    + rewrite Nat.add_0_r in H. pose proof (H t n k A1) as H1. destruct (f t n k) as [[t1 n1] k1].
      destruct H1 as (Q1 & N1 & K1). { intros D. rewrite D in N. cbn [b2z] in N. lia. } injection E as <- <- <-. cbn [all_i cnt length]. repeat split; auto. lia.
    + destruct (acc_nth j f l n k) as [[l2 n2] k2] eqn:E2. injection E as <- <- <-.
      destruct (IH j (S i) n k (c + b2z (is_down t)) l2 n2 k2) as (B1 & B2 & B3 & B4); auto.
      * rewrite Nat.add_succ_comm. exact H.
      * lia.
      * destruct (is_down t); cbn [b2z]; lia.
      * cbn [all_i cnt length]. repeat split; auto; try lia; congruence.
Qed.
Lemma acc_nth_other : forall f l j n k l' n' k' m, acc_nth j f l n k = (l', n', k') -> m <> j -> nth m l' touch0 = nth m l touch0.
Proof.
  intros f. induction l as [|t l IH]; intros j n k l' n' k' m E D; cbn in E; [injection E as <- _ _; reflexivity|].
  destruct j as [|j].
  - destruct (f t n k) as [[t1 n1] k1]. injection E as <- _ _. destruct m; [congruence|reflexivity].
  - destruct (acc_nth j f l n k) as [[l2 n2] k2] eqn:E2. injection E as <- _ _. destruct m; [reflexivity|]. cbn. eapply IH; eauto.
Qed.
Lemma acc_nth_at : forall f l j n k l' n' k', acc_nth j f l n k = (l', n', k') -> (j < length l)%nat -> nth j l' touch0 = fst (fst (f (nth j l touch0) n k)).
Proof.
  intros f. induction l as [|t l IH]; intros j n k l' n' k' E D; [cbn in D; lia|]. cbn in E. destruct j as [|j].
  - destruct (f t n k) as [[t1 n1] k1] eqn:EF. injection E as <- _ _. cbn. rewrite EF. reflexivity.
  - destruct (acc_nth j f l n k) as [[l2 n2] k2] eqn:E2. injection E as <- _ _. cbn. eapply IH; eauto. cbn in D. lia.
Qed.
Lemma acc_all_rel : forall (R : nat -> touch -> touch -> Prop) f l i n k l' n' k', (forall j t n k, (i <= j)%nat -> R j t (fst (fst (f j t n k)))) -> acc_all i f l n k = (l', n', k') ->
  length l' = length l /\ forall j, (j < length l)%nat -> R (i + j)%nat (nth j l touch0) (nth j l' touch0).
Proof.
  intros R f. induction l as [|t l IH]; intros i n k l' n' k' H E; cbn in E.
  - injection E as <- _ _. split; auto. intros j L. cbn in L. lia.
  - pose proof (H i t n k (le_n _)) as H1. destruct (f i t n k) as [[t1 n1] k1] eqn:EF. destruct (acc_all (S i) f l n1 k1) as [[l2 n2] k2] eqn:E2. injection E as <- _ _.
    destruct (IH (S i) n1 k1 l2 n2 k2) as [B1 B2]; auto. { intros j u m q L. apply H. lia. }
    split; [cbn; lia|]. intros [|j] L; [rewrite Nat.add_0_r; exact H1|]. cbn [nth]. rewrite <- Nat.add_succ_comm. apply B2. cbn in L. lia.
Qed.

(** Between frames, within a frame. *)
Definition bt (d : bool) (t : touch) : Prop := if d then ts t = UPDATE \/ (ts t = MAYBE_END /\ dirty t = true) else ts t = NONE \/ ts t = HOVERING.
Definition mt (d : bool) (t : touch) : Prop := if d then ts t = UPDATE \/ (ts t = MAYBE_END /\ dirty t = true) else ts t = NONE \/ ts t = HOVERING \/ (ts t = BEGIN /\ dirty t = true).
Ltac tdes t := destruct t as [tts tdi the twd tpr tma tmi]; cbn [ts dirty has_ended was_down pressure major minor] in *.
Ltac tsol := unfold bt, mt, touch_follows, is_down, still_down, b2z in *; cbn in *; repeat match goal with H : _ \/ _ |- _ => destruct H end; repeat match goal with H : _ /\ _ |- _ => destruct H end; subst; cbn in *; try discriminate.
Lemma new_touch_bt : forall d t n k, bt d t -> let '(t', n', k') := new_touch t n k in bt d t' /\ n' = n + b2z (is_down t') - b2z (is_down t) /\ k' = k.
Proof. intros d t n k H. tdes t. destruct d; tsol; repeat split; auto; lia. Qed.
Lemma maybe_end_bt : forall d t n k, bt d t -> (is_down t = true -> 1 <= n) -> let '(t', n', k') := maybe_end_touch t n k in bt d t' /\ n' = n + b2z (is_down t') - b2z (is_down t) /\ k' = k.
Proof. intros d t n k H L. tdes t. destruct d; tsol; repeat split; auto; try lia. specialize (L eq_refl). rewrite (proj2 (Z.leb_le 1 n)) by lia. apply andb_true_r. Qed.
Lemma end_sequence_bt : forall d t n k, bt d t -> (is_down t = true -> 1 <= n) -> let '(t', n', k') := end_sequence t n k in bt d t' /\ n' = n + b2z (is_down t') - b2z (is_down t) /\ k' = k.
Proof. intros d t n k H L. unfold end_sequence. apply (maybe_end_bt d (set_ended t true)); [exact H|exact L]. Qed.
Lemma recover_bt : forall d t n k, bt d t -> ts t = MAYBE_END -> let '(t', n', k') := recover_ended_touch t n k in bt d t' /\ n' = n + b2z (is_down t') - b2z (is_down t) /\ k' = k.
Proof. intros d t n k H E. tdes t. destruct d; tsol; repeat split; auto; lia. Qed.
Lemma same_acc : forall (P : touch -> Prop) t n (k : bool), P t -> P t /\ n = n + b2z (is_down t) - b2z (is_down t) /\ k = k.
Proof. intros. repeat split; auto; lia. Qed.

(** The invariant between frames. [ds]: the touches that were down after the last frame. *)
Definition inv (ds : list bool) (s : tp) : Prop :=
  all_i (fun i t => bt (nth i ds false) t) 0 (touches s) /\ nfd s = cnt (touches s) /\ length (touches s) = length ds.

Lemma on_current_inv : forall ds s f, inv ds s ->
  (forall d t n k, bt d t -> (is_down t = true -> 1 <= n) -> let '(t', n', k') := f t n k in bt d t' /\ n' = n + b2z (is_down t') - b2z (is_down t) /\ k' = k) ->
  inv ds (on_current s f) /\ ok (on_current s f) = ok s /\ nactive (on_current s f) = nactive s.
Proof.
  intros ds s f (A & N & L) H. unfold on_current. destruct (acc_nth (current s) f (touches s) (nfd s) (ok s)) as [[l n] k] eqn:E.
  destruct (acc_nth_spec (fun i t => bt (nth i ds false) t) f (touches s) (current s) 0 (nfd s) (ok s) 0 l n k) as (B1 & B2 & B3 & B4); auto; try lia. { intros t m q B D. apply H; auto. }
  unfold inv, with_touches. cbn [touches nfd ok nactive]. repeat split; auto; try lia.
Qed.
Lemma update_nth_length : forall {A} (f : A -> A) l i, length (update_nth i f l) = length l.
Proof. intros A f. induction l as [|x l IH]; intros [|i]; cbn; auto. Qed.
Lemma update_nth_all : forall (Q : nat -> touch -> Prop) f l j i, (forall m t, Q m t -> Q m (f t)) -> all_i Q i l -> all_i Q i (update_nth j f l).
Proof. intros Q f. induction l as [|t l IH]; intros j i H A; [destruct j; exact I|]. destruct A as [A1 A2]. destruct j; split; auto; apply IH; auto. Qed.
Lemma update_nth_cnt : forall f l j, (forall t, is_down (f t) = is_down t) -> cnt (update_nth j f l) = cnt l.
Proof. intros f. induction l as [|t l IH]; intros [|j] H; cbn; auto; rewrite ?H, ?IH; auto. Qed.
Lemma update_nth_inv : forall ds s f, inv ds s -> (forall d t, bt d t -> bt d (f t)) -> (forall t, is_down (f t) = is_down t) ->
  inv ds (with_touches s (update_nth (current s) f (touches s)) (nfd s) (ok s)).
Proof.
  intros ds s f (A & N & L) H1 H2. split; [|split].
  - cbn. apply update_nth_all; auto.
  - cbn. rewrite update_nth_cnt; auto.
  - cbn. rewrite update_nth_length. auto.
Qed.
Lemma absolute_inv : forall ds s e, inv ds s -> inv ds (process_absolute s e).
Proof.
  intros ds s e H. assert (HA : forall a k, inv ds (with_nactive s a k)) by (intros; exact H).
  destruct e as [n|v| |v|v|v|c p|]; cbn [process_absolute]; auto; try destruct (has_mt s); auto.
  - destruct (v =? -1); eapply on_current_inv; eauto; intros d t n k B L; [apply end_sequence_bt|apply new_touch_bt]; auto.
  - apply update_nth_inv; auto. intros d t B. destruct d; tsol; auto.
  - apply update_nth_inv; auto. intros d t B. destruct d; tsol; auto.
  - apply update_nth_inv; auto. intros d t B. destruct d; tsol; auto.
  - apply update_nth_inv; auto. intros d t B. destruct d; tsol; auto.
  - apply update_nth_inv; auto. intros d t B. destruct d; tsol; auto.
  - apply update_nth_inv; auto. intros d t B. destruct d; tsol; auto.
Qed.
Lemma absolute_ok : forall ds s e, inv ds s -> match e with TrackingId v => v = -1 -> 1 <= nactive s | _ => True end ->
  ok (process_absolute s e) = ok s /\ nactive (process_absolute s e) = match e with TrackingId v => if has_mt s then if v =? -1 then nactive s - 1 else nactive s + 1 else nactive s | _ => nactive s end.
Proof.
  intros ds s e H K. assert (HA : forall a k, inv ds (with_nactive s a k)) by (intros; exact H).
  destruct e as [n|v| |v|v|v|c p|]; cbn [process_absolute]; auto; try destruct (has_mt s); auto.
  destruct (Z.eqb_spec v (-1)).
  - destruct (on_current_inv ds (with_nactive s (nactive s - 1) (ok s && (1 <=? nactive s))) end_sequence) as (_ & O & N); auto.
    { intros d t n k B L. apply end_sequence_bt; auto. } split; [|exact N]. rewrite O. cbn. rewrite (proj2 (Z.leb_le 1 (nactive s))) by auto. apply andb_true_r.
  - destruct (on_current_inv ds (with_nactive s (nactive s + 1) (ok s)) new_touch) as (_ & O & N); auto.
    intros d t n0 k B L. apply new_touch_bt; auto.
Qed.

(** The steps at the start of a frame. *)
Definition conf_same (s s' : tp) : Prop := fakes s' = fakes s /\ has_mt s' = has_mt s /\ mode s' = mode s /\ synaptics s' = synaptics s /\ alps s' = alps s /\ nactive s' = nactive s /\ slot s' = slot s.
Lemma restore_inv : forall ds s, inv ds s -> inv ds (restore_synaptics_touches s) /\ ok (restore_synaptics_touches s) = ok s /\ conf_same s (restore_synaptics_touches s) /\ num_slots (restore_synaptics_touches s) = num_slots s.
Proof.
  intros ds s H. pose proof H as (A & N & L). unfold restore_synaptics_touches.
  destruct (fake_finger_count (fakes s) <? 3); [repeat split; auto|]. destruct (_ || _); [repeat split; auto|].
  match goal with |- context [acc_all 0 ?f ?l ?n ?k] => destruct (acc_all 0 f l n k) as [[l1 n1] k1] eqn:E;
    destruct (acc_all_spec (fun i t => bt (nth i ds false) t) (fun i t => bt (nth i ds false) t) f l 0 n k 0 l1 n1 k1) as (B1 & B2 & B3 & B4); auto; try lia end.
  - intros j t n k _ B D. destruct (Nat.ltb j (num_slots s)); [|apply (same_acc (bt _)); auto]. destruct (ts t) eqn:ET; try (apply (same_acc (bt _)); auto). apply recover_bt; auto.
  - unfold inv, conf_same, with_touches. cbn [touches nfd ok nactive fakes has_mt mode synaptics alps slot num_slots]. repeat split; auto; lia.
Qed.
(** After tp_process_fake_touches the touches from [start] on are there exactly as the fake count says. *)
Definition start_of (s : tp) : nat := if has_mt s then num_slots s else O.
Definition by_count (s : tp) (nf : Z) (i : nat) (t : touch) : Prop :=
  (start_of s <= i)%nat -> if Z.of_nat i <? nf then ts t = HOVERING \/ ts t = UPDATE else ts t = NONE \/ ts t = MAYBE_END.
Lemma fake_inv : forall ds s, inv ds s -> let s' := process_fake_touches s in
  inv ds s' /\ ok s' = ok s /\ conf_same s s' /\ (num_slots s' <= num_slots s)%nat /\
  (alps s = false -> num_slots s' = num_slots s) /\
  (fake_finger_count (fakes s) <> FAKE_FINGER_OVERFLOW -> all_i (by_count s' (fake_finger_count (fakes s))) 0 (touches s')).
Proof.
  intros ds s H. cbv zeta. unfold process_fake_touches. destruct (Z.eqb_spec (fake_finger_count (fakes s)) FAKE_FINGER_OVERFLOW).
  { split; auto. split; auto. split; [repeat split|]. repeat split; auto. congruence. }
  set (nf := fake_finger_count (fakes s)) in *.
  set (s1 := if synaptics s then restore_synaptics_touches s else s).
  assert (H1 : inv ds s1 /\ ok s1 = ok s /\ conf_same s s1 /\ num_slots s1 = num_slots s).
  { unfold s1. destruct (synaptics s) eqn:ES; [apply restore_inv; auto|]. split; [exact H|]. split; [auto|]. split; [unfold conf_same; auto 10|auto]. }
  destruct H1 as (H1 & O1 & C1 & N1). clearbody s1.
  set (cnd := alps s1 && (1 <? nf) && has_mt s1 && (0 <? nactive s1) && (nactive s1 <? nf) && (nactive s1 <? Z.of_nat (num_slots s1))).
  set (s2 := if cnd then with_num_slots s1 (Z.to_nat (nactive s1)) else s1).
  assert (H2 : inv ds s2 /\ ok s2 = ok s /\ conf_same s s2 /\ (num_slots s2 <= num_slots s)%nat /\ (alps s = false -> num_slots s2 = num_slots s)).
  { destruct C1 as (c1 & c2 & c3 & c4 & c5 & c6 & c7). unfold s2. destruct cnd eqn:EC.
    - split; [exact H1|]. split; [exact O1|]. split; [repeat split; assumption|]. cbn. unfold cnd in EC. rewrite !andb_true_iff, !Z.ltb_lt in EC.
      split; [lia|]. intros F. rewrite c5, F in EC. intuition discriminate.
    - split; [exact H1|]. split; [exact O1|]. split; [repeat split; assumption|]. split; [lia|auto]. }
  destruct H2 as ((A & N & L) & O2 & C2 & N2 & N3). clearbody s2.
  match goal with |- context [acc_all 0 ?f ?l ?n ?k] => destruct (acc_all 0 f l n k) as [[l1 n1] k1] eqn:E;
    destruct (acc_all_spec (fun i t => bt (nth i ds false) t) (fun i t => bt (nth i ds false) t /\ by_count s2 nf i t) f l 0 n k 0 l1 n1 k1) as (B1 & B2 & B3 & B4); auto; try lia end.
  - intros j t m k _ B D. unfold by_count, start_of. destruct (Nat.ltb_spec j (if has_mt s2 then num_slots s2 else 0%nat)).
    + assert (X : bt (nth j ds false) t /\ ((if has_mt s2 then num_slots s2 else 0%nat) <= j)%nat -> bt (nth j ds false) t) by tauto.
      split; [|split; [lia|auto]]. split; auto. intros; lia.
    + destruct (Z.of_nat j <? nf) eqn:EJ.
      * pose proof (new_touch_bt (nth j ds false) t m k B) as P. destruct (new_touch t m k) as [[t1 m1] k1'] eqn:EN. destruct P as (P1 & P2 & P3). split; auto. split; auto. intros _.
        unfold new_touch in EN. destruct (ts t) eqn:ET; injection EN as <- _ _; cbn; auto. destruct (nth j ds false); cbn in B; rewrite ET in B; intuition discriminate.
      * pose proof (end_sequence_bt (nth j ds false) t m k B D) as P. destruct (end_sequence t m k) as [[t1 m1] k1'] eqn:EN. destruct P as (P1 & P2 & P3). split; auto. split; auto. intros _.
        unfold end_sequence, maybe_end_touch in EN. cbn in EN. destruct (ts t) eqn:ET; injection EN as <- _ _; cbn; auto. destruct (nth j ds false); cbn in B; rewrite ET in B; intuition discriminate.
  - destruct C2 as (c1 & c2 & c3 & c4 & c5 & c6 & c7). split; [|split; [cbn; congruence|split; [repeat split; assumption|split; [exact N2|split; [exact N3|]]]]].
    + split; [|split; cbn; lia]. eapply all_i_impl; [|exact B1]. cbn. tauto.
    + intros _. eapply all_i_impl; [|exact B1]. cbn. intros j t _ [_ X]. exact X.
Qed.

(** begin_until *)
Fixpoint hov (l : list touch) : Z := match l with [] => 0 | t :: r => (match ts t with HOVERING => 1 | _ => 0 end) + hov r end.
Lemma hov_nonneg : forall l, 0 <= hov l.
Proof. induction l as [|t l IH]; cbn; [lia|]. destruct (ts t); lia. Qed.
Definition begun (t t' : touch) : Prop := t' = t \/ (ts t = HOVERING /\ ts t' = BEGIN /\ dirty t' = true).
Lemma begun_refl : forall l, Forall2 begun l l.
Proof. induction l; constructor; auto. left. auto. Qed.
Lemma begin_until_spec : forall goal l n k c l' n' k', begin_until goal l n k = (l', n', k') -> n = c + cnt l -> 0 <= c ->
  Forall2 begun l l' /\ n' = c + cnt l' /\ k' = k /\ (n < goal -> n' = Z.min goal (n + hov l)) /\ (hov l = 0 -> n' = n).
Proof.
  intros goal. induction l as [|t l IH]; intros n k c l' n' k' E N C; cbn in E.
  - injection E as <- <- <-. split; [constructor|]. cbn [hov]. repeat split; auto; lia.
  - cbn [cnt] in N. cbn [hov]. pose proof (cnt_nonneg l) as NN. pose proof (hov_nonneg l) as HN.
    assert (SKIP : ts t <> HOVERING -> (let '(r', n2, k2) := begin_until goal l n k in (t :: r', n2, k2)) = (l', n', k') ->
      Forall2 begun (t :: l) l' /\ n' = c + cnt l' /\ k' = k /\ (n < goal -> n' = Z.min goal (n + (match ts t with HOVERING => 1 | _ => 0 end + hov l))) /\ (match ts t with HOVERING => 1 | _ => 0 end + hov l = 0 -> n' = n)).
    { intros D E'. destruct (begin_until goal l n k) as [[r2 n2] k2] eqn:E2. injection E' as <- <- <-.
      destruct (IH n k (c + b2z (is_down t)) r2 n2 k2) as (A & B & F & G & H); auto; [lia|destruct (is_down t); cbn [b2z]; lia|].
      split; [constructor; auto; left; auto|]. cbn [cnt]. replace (match ts t with HOVERING => 1 | _ => 0 end) with 0 by (destruct (ts t); congruence).
      repeat split; auto; try lia; intros; rewrite ?Z.add_0_l in *; auto. }
    destruct (ts t) eqn:ET; try (apply SKIP; [congruence|exact E]). clear SKIP.
    assert (D0 : is_down t = false) by (unfold is_down; rewrite ET; reflexivity). rewrite D0 in N. cbn [b2z] in N.
    unfold begin_touch in E. set (t1 := set_was_down (set_ts (set_dirty t true) BEGIN) true) in E.
    assert (K1 : k && (1 <=? n + 1) = k) by (rewrite (proj2 (Z.leb_le 1 (n + 1))) by lia; apply andb_true_r). rewrite K1 in E.
    assert (BT : begun t t1) by (right; auto).
    destruct (Z.leb_spec goal (n + 1)).
    + injection E as <- <- <-. split; [constructor; [auto|apply begun_refl]|]. cbn [cnt]. change (is_down t1) with true. cbn [b2z]. repeat split; try lia.
    + destruct (begin_until goal l (n + 1) k) as [[r2 n2] k2] eqn:E2. injection E as <- <- <-.
      destruct (IH (n + 1) k (c + 1) r2 n2 k2) as (A & B & F & G & H'); auto; try lia.
      split; [constructor; auto|]. cbn [cnt]. change (is_down t1) with true. cbn [b2z]. repeat split; auto; try lia.
Qed.
(** end_until *)
Definition ended (t t' : touch) : Prop := t' = t \/ (is_down t = true /\ ts t' = MAYBE_END /\ dirty t' = true) .
Lemma ended_refl : forall l, Forall2 ended l l.
Proof. induction l; constructor; auto. left. auto. Qed.
Lemma end_until_spec : forall skip stop goal, (forall st, skip st = true -> st <> BEGIN /\ st <> UPDATE) -> skip HOVERING = true -> skip NONE = true -> forall l n k c l' n' k',
  end_until skip stop goal l n k = (l', n', k') -> Forall (fun t => ts t <> END) l -> n = c + cnt l -> 0 <= c ->
  Forall2 ended l l' /\ n' = c + cnt l' /\ k' = k /\ (stop = false -> cnt l' = 0) /\ (stop = true -> goal < n -> c <= goal -> n' = goal).
Proof.
  intros skip stop goal HS HH H0. induction l as [|t l IH]; intros n k c l' n' k' E FE N C; cbn in E.
  - injection E as <- <- <-. cbn [cnt] in *. repeat split; auto; try constructor; lia.
  - apply Forall_cons_iff in FE. destruct FE as [FT FE]. cbn [cnt] in N. pose proof (cnt_nonneg l) as NN.
    assert (SAME : forall n2 r2 k2, is_down t = false -> end_until skip stop goal l n k = (r2, n2, k2) ->
       Forall2 ended (t :: l) (t :: r2) /\ n2 = c + cnt (t :: r2) /\ k2 = k /\ (stop = false -> cnt (t :: r2) = 0) /\ (stop = true -> goal < n -> c <= goal -> n2 = goal)).
    { intros n2 r2 k2 D E2. rewrite D in N. cbn [b2z] in N. destruct (IH n k c r2 n2 k2) as (A & B & F & G & H'); auto; try lia.
      cbn [cnt]. rewrite D. cbn [b2z]. split; [constructor; auto; left; auto|]. split; [lia|]. split; [auto|]. split; [intros ES; specialize (G ES); lia|auto]. }
    assert (DOWN : forall t1, is_down t = true -> ended t t1 -> is_down t1 = false -> (if stop && (n - 1 =? goal) then (t1 :: l, n - 1, k) else let '(r', n2, k2) := end_until skip stop goal l (n - 1) k in (t1 :: r', n2, k2)) = (l', n', k') ->
       Forall2 ended (t :: l) l' /\ n' = c + cnt l' /\ k' = k /\ (stop = false -> cnt l' = 0) /\ (stop = true -> goal < n -> c <= goal -> n' = goal)).
    { intros t1 D ET1 D1 E'. rewrite D in N. cbn [b2z] in N. destruct stop eqn:ES; cbn [andb] in E'.
      - destruct (Z.eqb_spec (n - 1) goal).
        + injection E' as <- <- <-. split; [constructor; [auto|apply ended_refl]|]. cbn [cnt]. rewrite D1. cbn [b2z]. repeat split; try lia; try discriminate.
        + destruct (end_until skip true goal l (n - 1) k) as [[r2 n2] k2] eqn:E2. injection E' as <- <- <-. destruct (IH (n - 1) k c r2 n2 k2) as (A & B & F & G & H'); auto; try lia.
          split; [constructor; auto|]. cbn [cnt]. rewrite D1. cbn [b2z]. repeat split; auto; try lia; try discriminate.
      - destruct (end_until skip false goal l (n - 1) k) as [[r2 n2] k2] eqn:E2. injection E' as <- <- <-. destruct (IH (n - 1) k c r2 n2 k2) as (A & B & F & G & H'); auto; try lia.
        split; [constructor; auto|]. cbn [cnt]. rewrite D1. cbn [b2z]. repeat split; auto; try lia; try discriminate. }
    destruct (skip (ts t)) eqn:EK.
    + destruct (end_until skip stop goal l n k) as [[r2 n2] k2] eqn:E2. injection E as <- <- <-. apply SAME; auto.
      destruct (HS _ EK). unfold is_down. destruct (ts t); congruence.
    + unfold maybe_end_touch in E. destruct (ts t) eqn:ET; try congruence.
      * assert (D : is_down t = true) by (unfold is_down; rewrite ET; auto).
        assert (KK : k && (1 <=? n) = k) by (rewrite D in N; cbn [b2z] in N; rewrite (proj2 (Z.leb_le 1 n)) by lia; apply andb_true_r). rewrite KK in E.
        apply (DOWN (set_dirty (set_ts t MAYBE_END) true)); auto. right. auto.
      * assert (D : is_down t = true) by (unfold is_down; rewrite ET; auto).
        assert (KK : k && (1 <=? n) = k) by (rewrite D in N; cbn [b2z] in N; rewrite (proj2 (Z.leb_le 1 n)) by lia; apply andb_true_r). rewrite KK in E.
        apply (DOWN (set_dirty (set_ts t MAYBE_END) true)); auto. right. auto.
      * assert (D : is_down t = false) by (unfold is_down; rewrite ET; auto). destruct (stop && (n =? goal)) eqn:ES.
        -- injection E as <- <- <-. apply andb_true_iff in ES. destruct ES as [-> ES]. apply Z.eqb_eq in ES. rewrite D in N. cbn [b2z] in N.
           split; [apply ended_refl|]. cbn [cnt]. rewrite D. cbn [b2z]. repeat split; try lia; discriminate.
        -- destruct (end_until skip stop goal l n k) as [[r2 n2] k2] eqn:E2. injection E as <- <- <-. apply SAME; auto.
Qed.
Lemma Forall2_rev' : forall {A} (R : A -> A -> Prop) l l', Forall2 R l l' -> Forall2 R (rev l) (rev l').
Proof. intros A R l l' F. induction F; cbn; [constructor|]. apply Forall2_app; auto. Qed.
Lemma end_back_spec : forall skip stop goal, (forall st, skip st = true -> st <> BEGIN /\ st <> UPDATE) -> skip HOVERING = true -> skip NONE = true -> forall l n k l' n' k',
  end_back skip stop goal l n k = (l', n', k') -> Forall (fun t => ts t <> END) l -> n = cnt l ->
  Forall2 ended l l' /\ n' = cnt l' /\ k' = k /\ (stop = false -> cnt l' = 0) /\ (stop = true -> goal < n -> 0 <= goal -> n' = goal).
Proof.
  intros skip stop goal H1 H2 H3 l n k l' n' k' E FE N. unfold end_back in E. destruct (end_until skip stop goal (rev l) n k) as [[r n1] k1] eqn:EU. injection E as <- <- <-.
  destruct (end_until_spec skip stop goal H1 H2 H3 (rev l) n k 0 r n1 k1) as (A & B & F & G & H); auto.
  - apply Forall_rev. exact FE.
  - rewrite cnt_rev. lia.
  - lia.
  - rewrite cnt_rev. split; [rewrite <- (rev_involutive l); apply Forall2_rev'; auto|]. repeat split; auto; lia.
Qed.

(** unhover *)
Definition present (t : touch) : bool := match ts t with HOVERING | BEGIN | UPDATE => true | _ => false end.
Lemma present_bound : forall B l i, all_i (fun j t => present t = true -> Z.of_nat j < B) i l -> cnt l + hov l <= Z.max 0 (B - Z.of_nat i).
Proof.
  intros B. induction l as [|t l IH]; intros i A; cbn [cnt hov]; [lia|]. destruct A as [A1 A2]. specialize (IH (S i) A2).
  unfold present, is_down in *. destruct (ts t); cbn [b2z] in *; try lia; specialize (A1 eq_refl); lia.
Qed.
Lemma cnt_zero : forall l, cnt l = 0 -> Forall (fun t => is_down t = false) l.
Proof.
  induction l as [|t l IH]; intros H; constructor; cbn [cnt] in H; pose proof (cnt_nonneg l); destruct (is_down t); cbn [b2z] in H; auto; try lia; apply IH; lia.
Qed.
Lemma all_i_firstn : forall (P : touch -> Prop) n l, Forall P (firstn n l) -> all_i (fun i t => (i < n)%nat -> P t) 0 l.
Proof.
  intros P n l H. apply all_i_intro. intros j L1 L2. rewrite Nat.add_0_l in *. rewrite Forall_forall in H. apply H.
  rewrite <- (firstn_skipn n l) at 1. rewrite app_nth1 by (rewrite firstn_length; lia). apply nth_In. rewrite firstn_length. lia.
Qed.
Lemma all_i_Forall : forall (P : touch -> Prop) l i, all_i (fun _ t => P t) i l -> Forall P l.
Proof. intros P. induction l as [|t l IH]; intros i A; constructor; destruct A; eauto. Qed.
Lemma begin_mt : forall d t n k, bt d t -> ts t = HOVERING -> 0 <= n -> let '(t', n', k') := begin_touch t n k in mt d t' /\ n' = n + b2z (is_down t') - b2z (is_down t) /\ k' = k.
Proof.
  intros d t n k H E L. unfold begin_touch. rewrite (proj2 (Z.leb_le 1 (n + 1))) by lia. rewrite andb_true_r.
  destruct d; unfold bt in H; rewrite E in H; [intuition discriminate|]. split; [right; right; auto|]. unfold is_down. rewrite E. cbn. split; [lia|auto].
Qed.
Lemma bt_mt : forall d t, bt d t -> mt d t.
Proof. intros [] t H; unfold bt, mt in *; tauto. Qed.
Lemma begun_mt : forall d t t', mt d t -> begun t t' -> mt d t'.
Proof. intros d t t' M [->|(E & E1 & E2)]; auto. destruct d; unfold mt in *; rewrite E in M; [intuition discriminate|]. right; right; auto. Qed.
Lemma ended_mt : forall d t t', mt d t -> ts t <> BEGIN -> ended t t' -> mt d t'.
Proof.
  intros d t t' M NB [->|(E & E1 & E2)]; auto. unfold is_down in E. destruct d; unfold mt in *; [right; auto|]. destruct (ts t); intuition discriminate.
Qed.
Lemma mt_not_end : forall d t, mt d t -> ts t <> END.
Proof. intros d t M E. destruct d; unfold mt in M; rewrite E in M; intuition discriminate. Qed.
Definition mid (ds : list bool) (s : tp) : Prop :=
  all_i (fun i t => mt (nth i ds false) t) 0 (touches s) /\ nfd s = cnt (touches s) /\ length (touches s) = length ds.
Lemma F2_length : forall (R : touch -> touch -> Prop) l l', Forall2 R l l' -> length l' = length l.
Proof. intros R l l' F. induction F; cbn; auto. Qed.

Lemma all_i_F2 : forall (P Q : nat -> touch -> Prop) (R : touch -> touch -> Prop) l l' i, (forall j t t', P j t -> R t t' -> Q j t') -> Forall2 R l l' -> all_i P i l -> all_i Q i l'.
Proof. intros P Q R l l' i H F. revert i. induction F as [|t t' l l' r F IH]; intros i A; [exact I|]. destruct A as [A1 A2]. split; eauto. Qed.
Lemma pressure_mid : forall ds s lo hi, inv ds s ->
  (fake_finger_count (fakes s) <> FAKE_FINGER_OVERFLOW -> all_i (by_count s (fake_finger_count (fakes s))) 0 (touches s)) ->
  let s' := unhover_pressure s lo hi in mid ds s' /\ ok s' = ok s /\ conf_same s s' /\ num_slots s' = num_slots s.
Proof.
  intros ds s lo hi (A & N & L) BC. cbv zeta. unfold unhover_pressure.
  set (nf0 := fake_finger_count (fakes s)) in *. set (nf := if nf0 =? FAKE_FINGER_OVERFLOW then 0 else nf0). set (ns := num_slots s).
  assert (SH : Z.of_nat ns < nf -> all_i (fun i t => present t = true -> Z.of_nat i < nf) 0 (touches s)).
  { intros LT. unfold nf in *. destruct (Z.eqb_spec nf0 FAKE_FINGER_OVERFLOW); [lia|]. specialize (BC n). eapply all_i_impl; [|exact BC]. cbn. intros j t _ B P.
    destruct (Nat.lt_ge_cases j ns); [lia|]. unfold by_count, start_of in B. fold ns in B. assert (X : ((if has_mt s then ns else 0) <= j)%nat) by (destruct (has_mt s); lia).
    specialize (B X). destruct (Z.ltb_spec (Z.of_nat j) nf0); [lia|]. unfold present in P. destruct B as [B|B]; rewrite B in P; discriminate. }
  match goal with |- context [acc_all 0 ?f ?l ?n ?k] => destruct (acc_all 0 f l n k) as [[l1 n1] k1] eqn:E;
    destruct (acc_all_spec0 (fun i t => bt (nth i ds false) t /\ (Z.of_nat ns < nf -> present t = true -> Z.of_nat i < nf)) (fun i t => (mt (nth i ds false) t /\ (ts t = BEGIN -> (i < ns)%nat)) /\ (Z.of_nat ns < nf -> present t = true -> Z.of_nat i < nf)) f l 0 n k 0 l1 n1 k1) as (B1 & B2 & B3 & B4); auto; try lia end.
  { intros j t m k _ [B BP] D NN.
    assert (ST : ((mt (nth j ds false) t /\ (ts t = BEGIN -> (j < ns)%nat)) /\ (Z.of_nat ns < nf -> present t = true -> Z.of_nat j < nf)) /\ m = m + b2z (is_down t) - b2z (is_down t) /\ k = k).
    { split; [|split; [lia|auto]]. split; auto. split; [apply bt_mt; auto|]. intros EB. destruct (nth j ds false); unfold bt in B; rewrite EB in B; intuition discriminate. }
    destruct (Nat.ltb_spec j ns); [|exact ST].
    assert (EN : let '(t', n1, k1) := maybe_end_touch t m k in ((mt (nth j ds false) t' /\ (ts t' = BEGIN -> (j < ns)%nat)) /\ (Z.of_nat ns < nf -> present t' = true -> Z.of_nat j < nf)) /\ n1 = m + b2z (is_down t') - b2z (is_down t) /\ k1 = k).
    { pose proof (maybe_end_bt _ t m k B D) as P. destruct (maybe_end_touch t m k) as [[t1 m1] k1']. destruct P as (P1 & P2 & P3). split; auto. split; [|intros; lia]. split; [apply bt_mt; auto|auto]. }
    case_eq (ts t); intros ET; try exact ST; try (destruct (_ && _); [exact EN|exact ST]).
    destruct (dirty t && (hi <=? pressure t)); [|exact ST]. pose proof (begin_mt _ t m k B ET NN) as P. destruct (begin_touch t m k) as [[t1 m1] k1']. destruct P as (P1 & P2 & P3). split; auto. split; [|intros; lia]. split; auto. }
  { apply all_i_conj; [exact A|]. destruct (Z.lt_ge_cases (Z.of_nat ns) nf) as [LT|GE].
    - eapply all_i_impl; [|exact (SH LT)]. cbn. auto.
    - apply all_i_intro. intros; lia. }
  assert (MID : all_i (fun i t => mt (nth i ds false) t) 0 l1) by (eapply all_i_impl; [|exact B1]; cbn; tauto).
  assert (NEND : Forall (fun t => ts t <> END) l1) by (eapply all_i_Forall with (i := 0%nat); eapply all_i_impl; [|exact MID]; cbn; intros; eapply mt_not_end; eauto).
  rewrite Z.add_0_l in B2.
  destruct ((nf <=? Z.of_nat ns) || (n1 =? 0)) eqn:EX.
  { split; [split; [exact MID|split; [exact B2|cbn; congruence]]|]. split; [exact B3|]. split; [repeat split|reflexivity]. }
  apply orb_false_iff in EX. destruct EX as [EX1 EX2]. apply Z.leb_gt in EX1.
  assert (PB : cnt l1 + hov l1 <= nf). { replace nf with (Z.max 0 (nf - Z.of_nat 0)) by lia. apply present_bound. eapply all_i_impl; [|exact B1]. cbn. tauto. }
  pose proof (hov_nonneg l1) as HN.
  set (real := real_down ns l1). assert (RN : 0 <= real) by (unfold real, real_down; lia).
  destruct (Z.ltb_spec 0 real).
  - destruct (begin_until nf l1 n1 k1) as [[l2 n2] k2] eqn:EB. destruct (begin_until_spec nf l1 n1 k1 0 l2 n2 k2 EB) as (G1 & G2 & G3 & G4 & G5); try lia.
    assert (N2 : n2 <= nf) by (destruct (Z.lt_ge_cases n1 nf); [rewrite G4 by lia; lia|rewrite G5 by lia; lia]).
    rewrite (proj2 (Z.ltb_ge nf n2)) by lia. rewrite (proj2 (Z.eqb_neq real 0)) by lia. cbn [orb].
    split; [split; [|split; [cbn; lia|cbn; rewrite (F2_length _ _ _ G1); congruence]]|]. 2:{ split; [cbn; congruence|]. split; [repeat split|reflexivity]. }
    cbn. revert MID. apply (all_i_F2 _ _ begun); auto. intros i t t' M. apply begun_mt; auto.
  - assert (R0 : real = 0) by lia. rewrite R0, Z.eqb_refl, orb_true_r.
    match goal with |- context [end_back ?a ?b ?c ?d ?e ?f] => destruct (end_back a b c d e f) as [[l3 n3] k3] eqn:EB; destruct (end_back_spec a b c) with (l := d) (n := e) (k := f) (l' := l3) (n' := n3) (k' := k3) as (G1 & G2 & G3 & G4 & G5); auto end.
    { intros []; intuition discriminate. }
    split; [split; [|split; [cbn; lia|cbn; rewrite (F2_length _ _ _ G1); congruence]]|]. 2:{ split; [cbn; congruence|]. split; [repeat split|reflexivity]. }
    assert (NB : all_i (fun i t => mt (nth i ds false) t /\ ts t <> BEGIN) 0 l1).
    { assert (CF : Forall (fun t => is_down t = false) (firstn ns l1)).
      { apply Forall_forall. intros x IN. destruct (is_down x) eqn:ED; auto. exfalso. assert (IF : In x (filter is_down (firstn ns l1))) by (apply filter_In; auto).
        unfold real, real_down in R0. destruct (filter is_down (firstn ns l1)); [destruct IF|cbn in R0; lia]. }
      eapply all_i_impl; [|exact (all_i_conj _ _ _ _ B1 (all_i_firstn _ _ _ CF))]. cbn. intros j t _ [[[M BI] _] F]. split; auto. intros EB'. specialize (F (BI EB')). unfold is_down in F. rewrite EB' in F. discriminate. }
    cbn. revert NB. apply (all_i_F2 _ _ ended); auto. intros i t t' [M NB]. apply ended_mt; auto.
Qed.
Lemma size_mid : forall ds s lo hi, inv ds s -> let s' := unhover_size s lo hi in mid ds s' /\ ok s' = ok s /\ conf_same s s' /\ num_slots s' = num_slots s.
Proof.
  intros ds s lo hi (A & N & L). cbv zeta. unfold unhover_size.
  match goal with |- context [acc_all 0 ?f ?l ?n ?k] => destruct (acc_all 0 f l n k) as [[l1 n1] k1] eqn:E;
    destruct (acc_all_spec0 (fun i t => bt (nth i ds false) t) (fun i t => mt (nth i ds false) t) f l 0 n k 0 l1 n1 k1) as (B1 & B2 & B3 & B4); auto; try lia end.
  - intros j t m k _ B D NN.
    assert (ST : mt (nth j ds false) t /\ m = m + b2z (is_down t) - b2z (is_down t) /\ k = k) by (split; [apply bt_mt; auto|split; [lia|auto]]).
    assert (EN : let '(t', n1, k1) := maybe_end_touch t m k in mt (nth j ds false) t' /\ n1 = m + b2z (is_down t') - b2z (is_down t) /\ k1 = k).
    { pose proof (maybe_end_bt _ t m k B D) as P. destruct (maybe_end_touch t m k) as [[t1 m1] k1']. destruct P as (P1 & P2 & P3). split; auto. apply bt_mt; auto. }
    destruct (_ && dirty t); [|exact ST]. case_eq (ts t); intros ET; try exact ST; try (destruct (_ || _); [exact EN|exact ST]).
    destruct (_ || _); [|exact ST]. pose proof (begin_mt _ t m k B ET NN) as P. destruct (begin_touch t m k) as [[t1 m1] k1']. exact P.
  - split; [split; [exact B1|split; cbn; lia]|]. split; [exact B3|]. split; [repeat split|reflexivity].
Qed.
Lemma inv_mid : forall ds s, inv ds s -> mid ds s.
Proof. intros ds s (A & N & L). split; [|auto]. eapply all_i_impl; [|exact A]. cbn. intros. apply bt_mt; auto. Qed.
Lemma ffc_range : forall f, 0 <= fake_finger_count f.
Proof. intros f. unfold fake_finger_count, FAKE_FINGER_OVERFLOW. repeat (destruct (_ : bool); try lia). Qed.
Lemma cnt_hov_fin : forall ds s, inv ds s -> nfd s = 0 \/ 0 < nfd s.
Proof. intros ds s (_ & N & _). pose proof (cnt_nonneg (touches s)). lia. Qed.
Lemma bt_not_begin : forall d t, bt d t -> ts t <> BEGIN /\ ts t <> END.
Proof. intros [] t B; unfold bt in B; split; intros E; rewrite E in B; intuition discriminate. Qed.
Lemma ufake_mid : forall ds s, inv ds s -> let s' := unhover_fake s in mid ds s' /\ ok s' = ok s /\ conf_same s s' /\ num_slots s' = num_slots s /\
  (fake_finger_count (fakes s) <> FAKE_FINGER_OVERFLOW -> nfd s' = if f_touch (fakes s) then Z.min (fake_finger_count (fakes s)) (nfd s + hov (touches s)) else 0).
Proof.
  intros ds s H. pose proof H as (A & N & L). cbv zeta. unfold unhover_fake.
  set (f := fakes s). set (nf := fake_finger_count f). pose proof (ffc_range f) as NF. fold nf in NF.
  pose proof (cnt_nonneg (touches s)) as CN. pose proof (hov_nonneg (touches s)) as HN.
  assert (SAME : (nf <> FAKE_FINGER_OVERFLOW -> nfd s = if f_touch f then Z.min nf (nfd s + hov (touches s)) else 0) ->
     mid ds s /\ ok s = ok s /\ conf_same s s /\ num_slots s = num_slots s /\ (nf <> FAKE_FINGER_OVERFLOW -> nfd s = if f_touch f then Z.min nf (nfd s + hov (touches s)) else 0)).
  { intros X. split; [apply inv_mid; auto|]. split; auto. split; [repeat split|]. auto. }
  destruct (negb (any_fake f) && (nfd s =? 0)) eqn:E0.
  { apply andb_true_iff in E0. destruct E0 as [E0 E1]. apply Z.eqb_eq in E1. apply SAME. intros _. unfold any_fake in E0. destruct (f_touch f); [discriminate|auto]. }
  destruct (Z.eqb_spec nf FAKE_FINGER_OVERFLOW); [apply SAME; intros; congruence|].
  destruct ((nfd s =? nf) && _) eqn:E1.
  { apply SAME. intros _. apply andb_true_iff in E1. destruct E1 as [E1 E2]. apply Z.eqb_eq in E1. destruct (f_touch f); [lia|]. rewrite andb_true_r, andb_false_r, orb_false_r in E2. apply Z.eqb_eq in E2. auto. }
  assert (NBE : Forall (fun t => ts t <> BEGIN /\ ts t <> END) (touches s)) by (eapply all_i_Forall with (i := 0%nat); eapply all_i_impl; [|exact A]; cbn; intros; eapply bt_not_begin; eauto).
  assert (NEND : Forall (fun t => ts t <> END) (touches s)) by (eapply Forall_impl; [|exact NBE]; cbn; tauto).
  destruct (f_touch f) eqn:FT; cbn [andb negb] in *.
  - destruct (Z.ltb_spec (nfd s) nf).
    + destruct (begin_until nf (touches s) (nfd s) (ok s)) as [[l2 n2] k2] eqn:EB. destruct (begin_until_spec nf _ _ _ 0 l2 n2 k2 EB) as (G1 & G2 & G3 & G4 & G5); try lia.
      rewrite orb_false_r, (proj2 (Z.ltb_ge nf n2)) by (rewrite G4 by lia; lia).
      split; [split; [|split; [cbn; lia|cbn; rewrite (F2_length _ _ _ G1); congruence]]|]. 2:{ split; [cbn; congruence|]. split; [repeat split|]. split; [reflexivity|]. intros _. cbn. auto. }
      cbn. revert A. apply (all_i_F2 _ _ begun); auto. intros i t t' M. apply begun_mt. apply bt_mt; auto.
    + rewrite orb_false_r. destruct (Z.ltb_spec nf (nfd s)).
      * match goal with |- context [end_back ?a ?b ?c ?d ?e ?f] => destruct (end_back a b c d e f) as [[l3 n3] k3] eqn:EB; destruct (end_back_spec a b c) with (l := d) (n := e) (k := f) (l' := l3) (n' := n3) (k' := k3) as (G1 & G2 & G3 & G4 & G5); auto end.
        { intros []; intuition discriminate. }
        split; [split; [|split; [cbn; lia|cbn; rewrite (F2_length _ _ _ G1); congruence]]|]. 2:{ split; [cbn; congruence|]. split; [repeat split|]. split; [reflexivity|]. intros _. cbn. rewrite G5 by auto. lia. }
        cbn. revert A. apply (all_i_F2 _ _ ended); auto. intros i t t' M. apply ended_mt; [apply bt_mt; auto|]. eapply bt_not_begin; eauto.
      * split; [split; [eapply all_i_impl; [|exact A]; cbn; intros; apply bt_mt; auto|split; [cbn; lia|exact L]]|]. split; [reflexivity|]. split; [repeat split|]. split; [reflexivity|]. intros _. cbn. lia.
  - rewrite orb_true_r.
    match goal with |- context [end_back ?a ?b ?c ?d ?e ?f] => destruct (end_back a b c d e f) as [[l3 n3] k3] eqn:EB; destruct (end_back_spec a b c) with (l := d) (n := e) (k := f) (l' := l3) (n' := n3) (k' := k3) as (G1 & G2 & G3 & G4 & G5); auto end.
    { intros []; intuition discriminate. }
    split; [split; [|split; [cbn; lia|cbn; rewrite (F2_length _ _ _ G1); congruence]]|]. 2:{ split; [cbn; congruence|]. split; [repeat split|]. split; [reflexivity|]. intros _. cbn. rewrite G2. auto. }
    cbn. revert A. apply (all_i_F2 _ _ ended); auto. intros i t t' M. apply ended_mt; [apply bt_mt; auto|]. eapply bt_not_begin; eauto.
Qed.
Lemma unhover_mid : forall ds s, inv ds s ->
  (fake_finger_count (fakes s) <> FAKE_FINGER_OVERFLOW -> all_i (by_count s (fake_finger_count (fakes s))) 0 (touches s)) ->
  let s' := unhover s in mid ds s' /\ ok s' = ok s /\ conf_same s s' /\ num_slots s' = num_slots s.
Proof.
  intros ds s H B. cbv zeta. unfold unhover. destruct (mode s).
  - apply pressure_mid; auto.
  - apply size_mid; auto.
  - destruct (ufake_mid ds s H) as (A1 & A2 & A3 & A4 & _). auto.
Qed.

(** A whole frame. *)
Definition fol (ds : list bool) (s : tp) : Prop :=
  all_i (fun i t => touch_follows (nth i ds false) t) 0 (touches s) /\ nfd s = cnt (touches s) /\ length (touches s) = length ds.
Lemma end_touch_follows : forall d t, mt d t -> touch_follows d (end_touch t) /\ is_down (end_touch t) = is_down t.
Proof. intros d t M. unfold end_touch. tdes t. destruct d; tsol; auto. Qed.
Lemma map_cnt : forall g l, (forall t, In t l -> is_down (g t) = is_down t) -> cnt (map g l) = cnt l.
Proof. intros g. induction l as [|t l IH]; intros H; cbn; auto. rewrite IH by (intros; apply H; right; auto). rewrite H by (left; auto). reflexivity. Qed.
Lemma conf_trans : forall a b c, conf_same a b -> conf_same b c -> conf_same a c.
Proof. unfold conf_same. intros a b c (a1&a2&a3&a4&a5&a6&a7) (b1&b2&b3&b4&b5&b6&b7). repeat split; congruence. Qed.
Lemma end_touch_down : forall t, is_down (end_touch t) = is_down t.
Proof. intros t. unfold end_touch, is_down. destruct (ts t) eqn:E; cbn; rewrite ?E; auto. Qed.
Lemma pre_fol : forall ds s, inv ds s -> let s' := pre_process s in fol ds s' /\ ok s' = ok s /\ conf_same s s' /\ (num_slots s' <= num_slots s)%nat /\ (alps s = false -> num_slots s' = num_slots s).
Proof.
  intros ds s H. cbv zeta. unfold pre_process. destruct (fake_inv ds s H) as (F1 & F2 & F3 & F4 & F5 & F6).
  destruct (unhover_mid ds (process_fake_touches s) F1) as (U1 & U2 & U3 & U4).
  { destruct F3 as (-> & _). exact F6. }
  destruct U1 as (M & N & L). split; [split; [|split]|].
  - cbn. eapply all_i_map; [|exact M]. cbn. intros j t X. apply end_touch_follows; auto.
  - cbn. rewrite map_cnt; auto. intros. apply end_touch_down.
  - cbn. rewrite map_length. auto.
  - cbn. split; [congruence|]. split; [|rewrite U4; auto]. eapply conf_trans; [exact F3|]. destruct U3 as (?&?&?&?&?&?&?). repeat split; auto.
Qed.
Lemma acc_all_dirty : forall f l i n k l' n' k', (forall j t n k, (i <= j)%nat -> exists d, fst (fst (f j t n k)) = set_dirty t (dirty t || d)) -> acc_all i f l n k = (l', n', k') ->
  Forall2 (fun t t' => exists d, t' = set_dirty t (dirty t || d)) l l'.
Proof.
  intros f. induction l as [|t l IH]; intros i n k l' n' k' H E; cbn in E; [injection E as <- _ _; constructor|].
  pose proof (H i t n k (le_n _)) as H1. destruct (f i t n k) as [[t1 n1] k1]. destruct (acc_all (S i) f l n1 k1) as [[l2 n2] k2] eqn:E2. injection E as <- _ _.
  constructor; auto. apply (IH (S i) n1 k1 l2 n2 k2); auto. intros. apply H. lia.
Qed.
Lemma set_dirty_self : forall t, t = set_dirty t (dirty t || false).
Proof. intros []. cbn. rewrite orb_false_r. reflexivity. Qed.
Lemma position_dirty : forall s d, exists l, position_fake_touches s d = with_touches s l (nfd s) (ok s) /\ Forall2 (fun t t' => exists d, t' = set_dirty t (dirty t || d)) (touches s) l.
Proof.
  intros s d. unfold position_fake_touches.
  assert (ID : Forall2 (fun t t' => exists d, t' = set_dirty t (dirty t || d)) (touches s) (touches s)).
  { induction (touches s); constructor; auto. exists false. apply set_dirty_self. }
  destruct (_ || _). { exists (touches s). split; [destruct s; reflexivity|auto]. }
  match goal with |- context [acc_all 0 ?f ?l ?n ?k] => destruct (acc_all 0 f l n k) as [[l1 n1] k1] eqn:E end.
  exists l1. split; auto. eapply acc_all_dirty; [|exact E]. cbn beta. intros j t n k _. destruct (Nat.ltb j _); [exists false; apply set_dirty_self|]. destruct (ts t); try (exists d; reflexivity). exists false. apply set_dirty_self.
Qed.
Lemma F2_cnt : forall (R : touch -> touch -> Prop) l l', (forall t t', R t t' -> is_down t' = is_down t) -> Forall2 R l l' -> cnt l' = cnt l.
Proof. intros R l l' H F. induction F; cbn; auto. rewrite IHF, (H _ _ H0). reflexivity. Qed.
Lemma position_fol : forall ds s d, fol ds s -> let s' := position_fake_touches s d in fol ds s' /\ ok s' = ok s /\ conf_same s s' /\ num_slots s' = num_slots s.
Proof.
  intros ds s d (A & N & L). cbv zeta. destruct (position_dirty s d) as (l & -> & F). split; [|split; [auto|split; [repeat split|auto]]]. split; [|split].
  - cbn. refine (all_i_F2 _ _ _ _ _ _ _ F A). cbn. intros j t t' T (e & ->). tdes t. destruct (nth j ds false); tsol; auto.
  - cbn. rewrite N. symmetry. eapply F2_cnt; [|exact F]. intros t t' (e & ->). reflexivity.
  - cbn. rewrite (F2_length _ _ _ F). auto.
Qed.
Lemma post_follows : forall d t, touch_follows d t -> bt (still_down t) (post_touch t) /\ is_down (post_touch t) = is_down t.
Proof.
  intros d t T. unfold post_touch. destruct (dirty t) eqn:ED.
  - destruct d; unfold touch_follows in T; [destruct T as [T|[T TD]]|destruct T as [T|[T|[T TD]]]];
      unfold bt, still_down, is_down; rewrite T; cbn; rewrite ?T; auto; destruct (has_ended t); cbn; auto.
  - destruct d; unfold touch_follows in T; [destruct T as [T|[T TD]]|destruct T as [T|[T|[T TD]]]];
      try congruence; unfold bt, still_down, is_down; rewrite T; auto.
Qed.
Lemma nth_map_def : forall {A B} (f : A -> B) l j a b, f a = b -> nth j (map f l) b = f (nth j l a).
Proof. intros A B f l j a b <-. apply map_nth. Qed.
Lemma post_inv : forall ds s, fol ds s -> inv (map still_down (touches s)) (post_process s).
Proof.
  intros ds s (A & N & L). split; [|split].
  - cbn. apply all_i_intro. intros j LT. rewrite map_length in LT. rewrite Nat.add_0_l. rewrite (nth_map_def still_down _ _ touch0) by reflexivity. rewrite (nth_map_def post_touch _ _ touch0) by reflexivity.
    apply (post_follows (nth j ds false)). pose proof (all_i_nth _ _ _ j A LT). auto.
  - cbn. rewrite N. symmetry. apply map_cnt. intros t IN. apply In_nth with (d := touch0) in IN. destruct IN as (j & LT & <-). apply (post_follows (nth j ds false)). apply (all_i_nth _ _ _ j A LT).
  - cbn. rewrite !map_length. auto.
Qed.
Lemma nth_F2 : forall (R : bool -> touch -> Prop) ds l, length l = length ds -> (forall j, (j < length l)%nat -> R (nth j ds false) (nth j l touch0)) -> Forall2 R ds l.
Proof.
  intros R. induction ds as [|d ds IH]; intros [|t l] L H; try discriminate; constructor.
  - apply (H O). cbn. lia.
  - apply IH; [cbn in L; lia|]. intros j LT. apply (H (S j)). cbn. lia.
Qed.
Lemma fol_F2 : forall ds s, fol ds s -> Forall2 touch_follows ds (touches s).
Proof.
  intros ds s (A & _ & L). apply nth_F2; auto. intros j LT. apply (all_i_nth _ _ _ j A LT).
Qed.

(** Any history. *)
Lemma frame_fol : forall ds s d, inv ds s -> let s' := frame s d in fol ds s' /\ ok s' = ok s /\ conf_same s s' /\ (num_slots s' <= num_slots s)%nat /\ (alps s = false -> num_slots s' = num_slots s).
Proof.
  intros ds s d H. cbv zeta. unfold frame. destruct (pre_fol ds s H) as (P1 & P2 & P3 & P4 & P5). destruct (position_fol ds (pre_process s) d P1) as (Q1 & Q2 & Q3 & Q4).
  split; auto. split; [congruence|]. split; [eapply conf_trans; eauto|]. rewrite Q4. auto.
Qed.
Definition cleared (s : tp) : tp := let '(l, n, k) := acc_all 0 (fun _ t n k => end_sequence t n k) (touches s) (nfd s) (ok s) in with_fakes (with_touches s l n k) no_fake.
Lemma clear_state_eq : forall s d, clear_state s d = (post_process (frame (cleared s) d), touches (frame (cleared s) d)).
Proof. intros s d. unfold clear_state, cleared. destruct (acc_all _ _ _ _ _) as [[l n] k]. reflexivity. Qed.
Lemma cleared_inv : forall ds s, inv ds s -> inv ds (cleared s) /\ ok (cleared s) = ok s /\ nactive (cleared s) = nactive s /\ has_mt (cleared s) = has_mt s /\ num_slots (cleared s) = num_slots s /\ alps (cleared s) = alps s /\ synaptics (cleared s) = synaptics s /\ mode (cleared s) = mode s /\ slot (cleared s) = slot s /\ fakes (cleared s) = no_fake /\
  all_i (fun _ t => (ts t = NONE \/ ts t = MAYBE_END) /\ has_ended t = true) 0 (touches (cleared s)).
Proof.
  intros ds s (A & N & L). unfold cleared.
  match goal with |- context [acc_all 0 ?f ?l ?n ?k] => destruct (acc_all 0 f l n k) as [[l1 n1] k1] eqn:E;
    destruct (acc_all_spec (fun i t => bt (nth i ds false) t) (fun i t => bt (nth i ds false) t /\ (ts t = NONE \/ ts t = MAYBE_END) /\ has_ended t = true) f l 0 n k 0 l1 n1 k1) as (B1 & B2 & B3 & B4); auto; try lia end.
  - intros j t m k _ B D. pose proof (end_sequence_bt _ t m k B D) as P. destruct (end_sequence t m k) as [[t1 m1] k1'] eqn:EQ. destruct P as (P1 & P2 & P3). split; auto. split; auto.
    destruct (bt_not_begin _ _ B). unfold end_sequence, maybe_end_touch in EQ. cbn [ts set_ended] in EQ. destruct (ts t) eqn:ET; try congruence; injection EQ as <- _ _; cbn; rewrite ?ET; auto.
  - unfold inv. cbn. repeat split; auto; try lia; (eapply all_i_impl; [|exact B1]; cbn; tauto).
Qed.
Lemma istep_inv : forall ds s i, inv ds s -> exists ds', inv ds' (fst (istep s i)) /\
  match snd (istep s i) with [] => ds' = ds | [f] => Forall2 touch_follows ds f /\ ds' = map still_down f /\ nfd (fst (istep s i)) = cnt f | _ => False end.
Proof.
  intros ds s i H. destruct i as [e d|d|a c]; cbn [istep].
  - destruct e as [n|v| |v|v|v|c p|]; cbn [step];
      try (exists ds; split; [apply absolute_inv; auto|reflexivity]).
    + exists ds. split; [exact H|reflexivity].
    + destruct (frame_fol ds s d H) as (F1 & _). exists (map still_down (touches (frame s d))). split; [apply (post_inv ds); auto|]. cbn [snd fst]. split; [apply fol_F2; auto|]. split; auto. destruct F1 as (_ & F & _). exact F.
  - rewrite clear_state_eq. destruct (cleared_inv ds s H) as (C1 & _). destruct (frame_fol ds (cleared s) d C1) as (F1 & _).
    exists (map still_down (touches (frame (cleared s) d))). split; [apply (post_inv ds); auto|]. cbn [snd fst]. split; [apply fol_F2; auto|]. split; auto. destruct F1 as (_ & F & _). exact F.
  - exists ds. split; [exact H|reflexivity].
Qed.
Lemma run_legal : forall l ds s, inv ds s -> legal ds (snd (run s l)).
Proof.
  induction l as [|i l IH]; intros ds s H; [exact I|]. cbn [run]. destruct (istep_inv ds s i H) as (ds' & H' & O). destruct (istep s i) as [s1 o1]. cbn [fst snd] in *.
  specialize (IH ds' s1 H'). destruct (run s1 l) as [s2 o2]. cbn [snd] in *. destruct o1 as [|f [|g o1]]; [subst; exact IH| |destruct O].
  destruct O as (O1 & O2 & _). split; auto. rewrite <- O2. exact IH.
Qed.
Lemma run_inv : forall l ds s, inv ds s -> exists ds', inv ds' (fst (run s l)).
Proof.
  induction l as [|i l IH]; intros ds s H; [exists ds; exact H|]. cbn [run]. destruct (istep_inv ds s i H) as (ds' & H' & _). destruct (istep s i) as [s1 o1]. cbn [fst snd] in *.
  destruct (IH ds' s1 H') as (ds2 & H2). destruct (run s1 l) as [s2 o2]. exists ds2. exact H2.
Qed.
Lemma run_app : forall l1 l2 s, run s (l1 ++ l2) = (fst (run (fst (run s l1)) l2), snd (run s l1) ++ snd (run (fst (run s l1)) l2)).
Proof.
  induction l1 as [|i l1 IH]; intros l2 s; [cbn; destruct (run s l2); reflexivity|]. cbn [app run]. destruct (istep s i) as [s1 o1]. rewrite IH. destruct (run s1 l1) as [s2 o2]. cbn [fst snd]. rewrite app_assoc. reflexivity.
Qed.
Lemma cnt_down2 : forall l, cnt l = down_count l.
Proof. unfold down_count. induction l as [|t l IH]; cbn [cnt filter]; auto. change (is_down t) with (still_down t). destruct (still_down t); cbn [b2z length]; lia. Qed.
Lemma init_inv : forall nt ns sl m h sy al a fi, inv (repeat false nt) (init nt ns sl m h sy al a fi).
Proof.
  intros. split; [|split].
  - cbn. apply all_i_intro. intros j L. rewrite repeat_length in L. rewrite Nat.add_0_l. replace (nth j (repeat touch0 nt) touch0) with touch0 by (symmetry; apply nth_repeat). replace (nth j (repeat false nt) false) with false by (symmetry; apply nth_repeat). left. reflexivity.
  - cbn. induction nt; cbn; auto.
  - cbn. rewrite !repeat_length. auto.
Qed.
Lemma count_frame : forall nt ns sl m h sy al a fi l d, let r := run (init nt ns sl m h sy al a fi) (l ++ [Ev Syn d]) in
  exists f, snd r = snd (run (init nt ns sl m h sy al a fi) l) ++ [f] /\ nfd (fst r) = down_count f.
Proof.
  intros. unfold r. rewrite run_app. cbn [fst snd run]. set (s := fst (run (init nt ns sl m h sy al a fi) l)).
  destruct (run_inv l _ _ (init_inv nt ns sl m h sy al a fi)) as (ds & H). fold s in H. destruct (istep_inv ds s (Ev Syn d) H) as (ds' & _ & O). cbn [istep step fst snd] in *.
  eexists. split; [reflexivity|]. rewrite <- cnt_down2. apply O.
Qed.

(** The asserts never fail. *)
Lemma count_true_nonneg : forall l, 0 <= count_true l. Proof. intros; unfold count_true; lia. Qed.
Lemma count_true_cons : forall b l, count_true (b :: l) = b2z b + count_true l.
Proof. intros [] l; unfold count_true; cbn [filter length b2z]; lia. Qed.
Lemma count_true_update : forall f l i, count_true (update_nth i f l) = count_true l + (if Nat.ltb i (length l) then b2z (f (nth i l false)) - b2z (nth i l false) else 0).
Proof.
  intros f. induction l as [|b l IH]; intros [|i]; cbn [update_nth nth length]; try (cbn; lia).
  - rewrite !count_true_cons. destruct (Nat.ltb_spec 0 (S (length l))); lia.
  - rewrite !count_true_cons, IH. destruct (Nat.ltb_spec i (length l)), (Nat.ltb_spec (S i) (S (length l))); lia.
Qed.
Lemma absolute_conf : forall s e, has_mt (process_absolute s e) = has_mt s /\ num_slots (process_absolute s e) = num_slots s /\ synaptics (process_absolute s e) = synaptics s /\ alps (process_absolute s e) = alps s /\ mode (process_absolute s e) = mode s /\ fakes (process_absolute s e) = fakes s /\
  slot (process_absolute s e) = match e with Slot n => if has_mt s then n else slot s | _ => slot s end.
Proof.
  intros s e. assert (OC : forall s f, has_mt (on_current s f) = has_mt s /\ num_slots (on_current s f) = num_slots s /\ synaptics (on_current s f) = synaptics s /\ alps (on_current s f) = alps s /\ mode (on_current s f) = mode s /\ fakes (on_current s f) = fakes s /\ slot (on_current s f) = slot s).
  { intros s0 f. unfold on_current. destruct (acc_nth _ _ _ _ _) as [[? ?] ?]. cbn. repeat split. }
  destruct e as [n|v| |v|v|v|c p|]; cbn [process_absolute]; try (destruct (has_mt s) eqn:EM); try (repeat split; fail); try (cbn; rewrite ?EM; repeat split; fail).
  destruct (v =? -1); match goal with |- context [on_current ?a ?b] => destruct (OC a b) as (A1 & A2 & A3 & A4 & A5 & A6 & A7) end; cbn in A1, A2, A3, A4, A5, A6, A7; repeat split; try congruence.
Qed.
Lemma run_ok : forall l ds s k, inv ds s -> ok s = true -> (has_mt s = true -> count_true (act k) <= nactive s) -> kernel_ok k l -> ok (fst (run s l)) = true.
Proof.
  induction l as [|i l IH]; intros ds s k H O C K; [exact O|]. cbn [run]. destruct (istep_inv ds s i H) as (ds' & H' & _).
  assert (X : ok (fst (istep s i)) = true /\ (has_mt (fst (istep s i)) = true -> count_true (act (kstep k i)) <= nactive (fst (istep s i)))).
  { destruct i as [e d|d|a c].
    - destruct K as [K _]. assert (ABS : istep s (Ev e d) = (process_absolute s e, []) -> ok (fst (istep s (Ev e d))) = true /\ (has_mt (fst (istep s (Ev e d))) = true -> count_true (act (kstep k (Ev e d))) <= nactive (fst (istep s (Ev e d))))).
      { intros ->. cbn [fst]. destruct (absolute_conf s e) as (HM & _). rewrite HM.
        destruct (has_mt s) eqn:EM.
        2:{ split; [|discriminate]. destruct e; cbn [process_absolute]; rewrite ?EM; auto. }
        assert (KP : match e with TrackingId v => v = -1 -> 1 <= nactive s | _ => True end).
        { destruct e as [n|v| |v|v|v|c p|]; auto. intros EV. specialize (K EV). specialize (C eq_refl).
          pose proof (count_true_update (fun _ => false) (act k) (cur k)) as U. rewrite K in U. pose proof (count_true_nonneg (update_nth (cur k) (fun _ => false) (act k))).
          destruct (Nat.ltb_spec (cur k) (length (act k))); cbn [b2z] in U; [lia|]. rewrite nth_overflow in K by lia. discriminate. }
        destruct (absolute_ok ds s e H KP) as (A1 & A2). split; [congruence|]. intros _. rewrite A2, EM. specialize (C eq_refl).
        destruct e as [n|v| |v|v|v|c p|]; cbn [kstep act]; auto.
        rewrite count_true_update. destruct (Z.eqb_spec v (-1)); cbn [negb b2z].
        - specialize (K e). rewrite K. cbn [b2z]. destruct (Nat.ltb_spec (cur k) (length (act k))); [lia|]. rewrite nth_overflow in K by lia. discriminate.
        - destruct (Nat.ltb _ _); destruct (nth _ _ _); cbn [b2z]; lia. }
      destruct e as [n|v| |v|v|v|c p|]; try (apply ABS; reflexivity).
      + cbn. split; auto.
      + cbn [istep step fst kstep]. destruct (frame_fol ds s d H) as (_ & F2 & (c1 & c2 & c3 & c4 & c5 & c6 & c7) & _). cbn. rewrite F2, c2, c6. auto.
    - cbn [istep kstep]. rewrite clear_state_eq. destruct (cleared_inv ds s H) as (C1 & C2 & C3 & C4 & _). destruct (frame_fol ds (cleared s) d C1) as (_ & F2 & (c1 & c2 & c3 & c4 & c5 & c6 & c7) & _).
      cbn. rewrite F2, c2, c6, C2, C3, C4. auto.
    - cbn. split; auto. intros HM. specialize (C HM). pose proof (count_true_nonneg (act k)). lia. }
  destruct (istep s i) as [s1 o1]. cbn [fst] in *. destruct X as [X1 X2]. destruct K as [_ K].
  specialize (IH ds' s1 (kstep k i) H' X1 X2 K). destruct (run s1 l) as [s2 o2]. exact IH.
Qed.

(** Touches follow the slots. *)
Definition absent (t : touch) : bool := match ts t with NONE | MAYBE_END => true | _ => false end.
Definition urel (t t' : touch) : Prop :=
  has_ended t' = has_ended t /\ (absent t = true -> ts t' = ts t) /\ (present t = true -> present t' = true \/ ts t' = MAYBE_END).
Lemma urel_refl : forall t, urel t t. Proof. intros t. repeat split; auto. Qed.
Lemma urel_trans : forall a b c, urel a b -> urel b c -> urel a c.
Proof.
  intros a b c (A1 & A2 & A3) (B1 & B2 & B3). split; [congruence|]. split.
  - intros H. specialize (A2 H). rewrite B2; [auto|]. unfold absent in *. rewrite A2. auto.
  - intros H. destruct (A3 H) as [P|M]; auto. right. rewrite B2; auto. unfold absent. rewrite M. auto.
Qed.
Lemma F2_refl : forall l, Forall2 urel l l. Proof. induction l; constructor; auto. apply urel_refl. Qed.
Lemma F2_trans : forall a b c, Forall2 urel a b -> Forall2 urel b c -> Forall2 urel a c.
Proof. intros a b c F. revert c. induction F; intros c G; inversion G; subst; constructor; eauto. eapply urel_trans; eauto. Qed.
Lemma begin_urel : forall t n k, ts t = HOVERING -> urel t (fst (fst (begin_touch t n k))).
Proof. intros t n k E. unfold urel, absent, present. rewrite E. cbn. repeat split; auto. discriminate. Qed.
Lemma mend_urel : forall t n k, ts t <> HOVERING -> urel t (fst (fst (maybe_end_touch t n k))).
Proof. intros t n k E. unfold urel, absent, present, maybe_end_touch. destruct (ts t) eqn:ET; try congruence; cbn; rewrite ?ET; repeat split; auto; discriminate. Qed.
Lemma acc_all_F2 : forall (R : touch -> touch -> Prop) f l i n k l' n' k', (forall j t n k, R t (fst (fst (f j t n k)))) -> acc_all i f l n k = (l', n', k') -> Forall2 R l l'.
Proof.
  intros R f. induction l as [|t l IH]; intros i n k l' n' k' H E; cbn in E; [injection E as <- _ _; constructor|].
  pose proof (H i t n k) as H1. destruct (f i t n k) as [[t1 n1] k1]. destruct (acc_all (S i) f l n1 k1) as [[l2 n2] k2] eqn:E2. injection E as <- _ _. constructor; [exact H1|]. eapply IH; eauto.
Qed.
Lemma begin_until_urel : forall g l n k l' n' k', begin_until g l n k = (l', n', k') -> Forall2 urel l l'.
Proof.
  intros g. induction l as [|t l IH]; intros n k l' n' k' E; cbn [begin_until] in E; [injection E as <- _ _; constructor|].
  assert (SK : (let '(r', n2, k2) := begin_until g l n k in (t :: r', n2, k2)) = (l', n', k') -> Forall2 urel (t :: l) l').
  { destruct (begin_until g l n k) as [[r2 n2] k2] eqn:E2. intros X. injection X as <- _ _. constructor; [apply urel_refl|eauto]. }
  destruct (ts t) eqn:ET; try (apply SK; exact E). pose proof (begin_urel t n k ET) as U. destruct (begin_touch t n k) as [[t1 n1] k1].
  destruct (g <=? n1); [injection E as <- _ _; constructor; [exact U|apply F2_refl]|]. destruct (begin_until g l n1 k1) as [[r2 n2] k2] eqn:E2. injection E as <- _ _. constructor; [exact U|eauto].
Qed.
Lemma end_until_urel : forall skip stop g, skip HOVERING = true -> forall l n k l' n' k', end_until skip stop g l n k = (l', n', k') -> Forall2 urel l l'.
Proof.
  intros skip stop g SH. induction l as [|t l IH]; intros n k l' n' k' E; cbn [end_until] in E; [injection E as <- _ _; constructor|].
  destruct (skip (ts t)) eqn:ES.
  { destruct (end_until skip stop g l n k) as [[r2 n2] k2] eqn:E2. injection E as <- _ _. constructor; [apply urel_refl|eauto]. }
  assert (D : ts t <> HOVERING) by congruence. pose proof (mend_urel t n k D) as U. destruct (maybe_end_touch t n k) as [[t1 n1] k1].
  destruct (stop && (n1 =? g)); [injection E as <- _ _; constructor; [exact U|apply F2_refl]|]. destruct (end_until skip stop g l n1 k1) as [[r2 n2] k2] eqn:E2. injection E as <- _ _. constructor; [exact U|eauto].
Qed.
Lemma end_back_urel : forall skip stop g, skip HOVERING = true -> forall l n k l' n' k', end_back skip stop g l n k = (l', n', k') -> Forall2 urel l l'.
Proof.
  intros skip stop g SH l n k l' n' k' E. unfold end_back in E. destruct (end_until skip stop g (rev l) n k) as [[r n1] k1] eqn:EU. injection E as <- _ _. rewrite <- (rev_involutive l). apply Forall2_rev'. eapply end_until_urel; eauto.
Qed.
Lemma unhover_urel : forall s, Forall2 urel (touches s) (touches (unhover s)).
Proof.
  intros s. unfold unhover. destruct (mode s) as [lo hi|lo hi|].
  - unfold unhover_pressure.
    match goal with |- context [acc_all 0 ?f ?l ?n ?k] => destruct (acc_all 0 f l n k) as [[l1 n1] k1] eqn:E; assert (F1 : Forall2 urel l l1) end.
    { eapply acc_all_F2; [|exact E]. cbn beta. intros j t n k. destruct (Nat.ltb j _); [|apply urel_refl].
      case_eq (ts t); intros ET; try apply urel_refl; try (destruct (_ && _); [apply mend_urel; congruence|apply urel_refl]). destruct (_ && _); [apply begin_urel; auto|apply urel_refl]. }
    match goal with |- context [if ?c || (n1 =? 0) then _ else _] => destruct (c || (n1 =? 0)) end; [exact F1|].
    match goal with |- context [if ?c then begin_until ?a ?b ?d ?e else ?x] => destruct (if c then begin_until a b d e else x) as [[l2 n2] k2] eqn:E2; assert (F2 : Forall2 urel l1 l2) end.
    { match type of E2 with (if ?c then _ else _) = _ => destruct c end; [eapply begin_until_urel; eauto|injection E2 as <- _ _; apply F2_refl]. }
    match goal with |- context [if ?c then end_back ?a ?b ?d ?e ?f ?g else ?x] => destruct (if c then end_back a b d e f g else x) as [[l3 n3] k3] eqn:E3; assert (F3 : Forall2 urel l2 l3) end.
    { match type of E3 with (if ?c then _ else _) = _ => destruct c end; [eapply end_back_urel; [|exact E3]; reflexivity|injection E3 as <- _ _; apply F2_refl]. }
    cbn. eapply F2_trans; [exact F1|]. eapply F2_trans; eauto.
  - unfold unhover_size. match goal with |- context [acc_all 0 ?f ?l ?n ?k] => destruct (acc_all 0 f l n k) as [[l1 n1] k1] eqn:E end. cbn.
    eapply acc_all_F2; [|exact E]. cbn beta. intros j t n k. destruct (_ && _); [|apply urel_refl].
    case_eq (ts t); intros ET; try apply urel_refl; try (destruct (_ || _); [apply mend_urel; congruence|apply urel_refl]). destruct (_ || _); [apply begin_urel; auto|apply urel_refl].
  - unfold unhover_fake. destruct (_ && _); [apply F2_refl|]. destruct (_ =? _); [apply F2_refl|]. destruct (_ && _); [apply F2_refl|].
    match goal with |- context [if ?c then begin_until ?a ?b ?d ?e else ?x] => destruct (if c then begin_until a b d e else x) as [[l2 n2] k2] eqn:E2; assert (F2 : Forall2 urel (touches s) l2) end.
    { match type of E2 with (if ?c then _ else _) = _ => destruct c end; [eapply begin_until_urel; eauto|injection E2 as <- _ _; apply F2_refl]. }
    match goal with |- context [if ?c then end_back ?a ?b ?d ?e ?f ?g else ?x] => destruct (if c then end_back a b d e f g else x) as [[l3 n3] k3] eqn:E3; assert (F3 : Forall2 urel l2 l3) end.
    { match type of E3 with (if ?c then _ else _) = _ => destruct c end; [eapply end_back_urel; [|exact E3]; reflexivity|injection E3 as <- _ _; apply F2_refl]. }
    cbn. eapply F2_trans; eauto.
Qed.
Lemma F2_nth : forall (R : touch -> touch -> Prop) l l' j, Forall2 R l l' -> (j < length l)%nat -> R (nth j l touch0) (nth j l' touch0).
Proof. intros R l l' j F. revert j. induction F; intros [|j] L; cbn in *; try lia; auto. apply IHF. lia. Qed.
Lemma fake_slots : forall s j, synaptics s = false -> alps s = false -> (j < start_of s)%nat -> (j < length (touches s))%nat -> nth j (touches (process_fake_touches s)) touch0 = nth j (touches s) touch0.
Proof.
  intros s j S0 A0 LT L. unfold process_fake_touches. destruct (_ =? _); auto. rewrite S0, A0. cbn [andb].
  match goal with |- context [acc_all 0 ?f ?l ?n ?k] => destruct (acc_all 0 f l n k) as [[l1 n1] k1] eqn:E;
    destruct (acc_all_rel (fun j t t' => (j < start_of s)%nat -> t' = t) f l 0 n k l1 n1 k1) as [B1 B2]; auto end.
  - intros i t n k _ LI. unfold start_of in LI. rewrite (proj2 (Nat.ltb_lt i _)) by exact LI. reflexivity.
Qed.

Definition slot_ok (strong a : bool) (t : touch) : Prop :=
  if a then (strong = true -> (ts t = HOVERING \/ ts t = UPDATE) /\ has_ended t = false)
  else (ts t = NONE \/ ts t = MAYBE_END) /\ has_ended t = true.
Definition slots_inv (strong : bool) (k : kernel) (s : tp) : Prop :=
  has_mt s = true /\ synaptics s = false /\ alps s = false /\ slot s = cur k /\ (cur k < num_slots s <= length (touches s))%nat /\ length (act k) = num_slots s /\
  forall i, (i < num_slots s)%nat -> slot_ok strong (nth i (act k) false) (nth i (touches s) touch0).
Lemma on_current_touches : forall s f, touches (on_current s f) = fst (fst (acc_nth (current s) f (touches s) (nfd s) (ok s))).
Proof. intros s f. unfold on_current. destruct (acc_nth _ _ _ _ _) as [[? ?] ?]. reflexivity. Qed.
Lemma on_current_len : forall ds s f, inv ds s -> (forall d t n k, bt d t -> (is_down t = true -> 1 <= n) -> let '(t', n', k') := f t n k in bt d t' /\ n' = n + b2z (is_down t') - b2z (is_down t) /\ k' = k) -> length (touches (on_current s f)) = length (touches s).
Proof. intros ds s f H F. destruct (on_current_inv ds s f H F) as ((_ & _ & L) & _). destruct H as (_ & _ & L'). congruence. Qed.
Lemma current_slot : forall b k s, slots_inv b k s -> current s = cur k.
Proof. intros b k s (_ & _ & _ & E & L & _). unfold current. rewrite E. lia. Qed.
Lemma nth_update : forall {A} (f : A -> A) l i j d, nth j (update_nth i f l) d = if Nat.eqb i j && Nat.ltb j (length l) then f (nth j l d) else nth j l d.
Proof.
  intros A f. induction l as [|x l IH]; intros i j d.
  - rewrite andb_false_r. destruct i, j; reflexivity.
  - destruct i, j; cbn [update_nth nth length]; auto. rewrite IH. reflexivity.
Qed.
Lemma absolute_slots : forall b ds k s e d, inv ds s -> slots_inv b k s -> match e with Slot n => (n < num_slots s)%nat | Key _ _ | Syn => False | _ => True end -> slots_inv b (kstep k (Ev e d)) (process_absolute s e).
Proof.
  intros b ds k s e d H I E. pose proof (current_slot b k s I) as CU. destruct I as (I1 & I2 & I3 & I4 & I5 & I6 & I7).
  assert (UPD : forall g, (forall t, ts (g t) = ts t /\ has_ended (g t) = has_ended t) -> slots_inv b k (with_touches s (update_nth (current s) g (touches s)) (nfd s) (ok s))).
  { intros g G. repeat split; auto; cbn; try rewrite update_nth_length; try lia. intros i LI. rewrite nth_update. specialize (I7 i LI). destruct (_ && _); auto.
    destruct (G (nth i (touches s) touch0)) as [G1 G2]. unfold slot_ok. rewrite G1, G2. exact I7. }
  destruct e as [n|v| |v|v|v|c p|]; cbn [process_absolute]; rewrite ?I1; try (apply UPD; intros []; auto; fail); try contradiction.
  - cbn. repeat (split; [cbn; auto; try lia|]). auto.
  - assert (HA : forall a k, inv ds (with_nactive s a k)) by (intros; exact H).
    destruct (absolute_conf s (TrackingId v)) as (c1 & c2 & c3 & c4 & c5 & c6 & c7). cbn [process_absolute] in c1, c2, c3, c4, c7. rewrite I1 in c1, c2, c3, c4, c7.
    destruct (Z.eqb_spec v (-1)) as [->|NV]; cbn [kstep negb Z.eqb Pos.eqb]; (split; [congruence|split; [congruence|split; [congruence|split; [cbn; congruence|]]]]); rewrite c2; cbn [cur act]; rewrite ?update_nth_length.
    + rewrite (on_current_len ds) by (auto; intros; apply end_sequence_bt; auto). split; [exact I5|]. split; [exact I6|]. intros i LI. rewrite nth_update, I6, (proj2 (Nat.ltb_lt i _) LI), andb_true_r.
      rewrite on_current_touches. cbn [touches nfd ok with_nactive]. change (current (with_nactive s (nactive s - 1) (ok s && (1 <=? nactive s)))) with (current s). rewrite CU. destruct (acc_nth _ _ _ _ _) as [[l1 n1] k1] eqn:EA. cbn [fst].
      destruct (Nat.eqb_spec (cur k) i) as [EQ|NE]; [rewrite EQ in EA|].
      * rewrite (acc_nth_at _ _ _ _ _ _ _ _ EA) by lia. destruct H as (HB & _ & _). pose proof (all_i_nth _ _ _ i HB ltac:(lia)) as BI. cbn in BI. destruct (bt_not_begin _ _ BI).
        unfold slot_ok, end_sequence, maybe_end_touch. cbn [ts set_ended]. destruct (ts (nth i (touches s) touch0)) eqn:ET; try congruence; cbn; rewrite ?ET; auto.
      * rewrite (acc_nth_other _ _ _ _ _ _ _ _ i EA) by auto. auto.
    + rewrite (proj2 (Z.eqb_neq v (-1)) NV). cbn [negb].
      rewrite (on_current_len ds) by (auto; intros; apply new_touch_bt; auto). split; [exact I5|]. split; [exact I6|]. intros i LI. rewrite nth_update, I6, (proj2 (Nat.ltb_lt i _) LI), andb_true_r.
      rewrite on_current_touches. cbn [touches nfd ok with_nactive]. change (current (with_nactive s (nactive s + 1) (ok s))) with (current s). rewrite CU. destruct (acc_nth _ _ _ _ _) as [[l1 n1] k1] eqn:EA. cbn [fst].
      destruct (Nat.eqb_spec (cur k) i) as [EQ|NE]; [rewrite EQ in EA|].
      * rewrite (acc_nth_at _ _ _ _ _ _ _ _ EA) by lia. destruct H as (HB & _ & _). pose proof (all_i_nth _ _ _ i HB ltac:(lia)) as BI. cbn in BI. destruct (bt_not_begin _ _ BI).
        cbn. intros ->. specialize (I7 i LI). unfold slot_ok in I7. unfold new_touch. destruct (ts (nth i (touches s) touch0)) eqn:ET; try congruence; cbn; auto; rewrite ET; (split; [tauto|]);
        destruct (nth i (act k) false); [destruct (I7 eq_refl); auto|destruct I7 as [[|] _]; discriminate | destruct (I7 eq_refl); auto|destruct I7 as [[|] _]; discriminate].
      * rewrite (acc_nth_other _ _ _ _ _ _ _ _ i EA) by auto. auto.
Qed.
Lemma nth_map_t : forall g l j, g touch0 = touch0 -> nth j (map g l) touch0 = g (nth j l touch0).
Proof. intros g l j H. apply nth_map_def. exact H. Qed.
Lemma frame_touch : forall ds s d j, inv ds s -> (j < length (touches s))%nat ->
  exists t1 dd, urel (nth j (touches (process_fake_touches s)) touch0) t1 /\ nth j (touches (frame s d)) touch0 = set_dirty (end_touch t1) (dirty (end_touch t1) || dd).
Proof.
  intros ds s d j H L. unfold frame. destruct (position_dirty (pre_process s) d) as (l & E & F). rewrite E. cbn [touches with_touches].
  destruct (fake_inv ds s H) as (F1 & _). pose proof (unhover_urel (process_fake_touches s)) as U. destruct F1 as (_ & _ & L1). destruct H as (_ & _ & L0).
  assert (LU : length (touches (unhover (process_fake_touches s))) = length (touches s)) by (rewrite (F2_length _ _ _ U); congruence).
  pose proof (F2_nth _ _ _ j F) as FJ. unfold pre_process in FJ. cbn [touches with_touches] in FJ. rewrite map_length, LU in FJ. destruct (FJ L) as (dd & FE). rewrite nth_map_t in FE by reflexivity.
  exists (nth j (touches (unhover (process_fake_touches s))) touch0), dd. split; auto. apply (F2_nth _ _ _ j U). rewrite L1, <- L0. exact L.
Qed.
Lemma post_slot : forall b a d t0 t1 dd, slot_ok b a t0 -> urel t0 t1 -> touch_follows d (set_dirty (end_touch t1) (dirty (end_touch t1) || dd)) -> slot_ok b a (post_touch (set_dirty (end_touch t1) (dirty (end_touch t1) || dd))).
Proof.
  intros b a d t0 t1 dd S (U1 & U2 & U3) T. destruct a; cbn in *.
  - intros B. destruct (S B) as (P & HE). rewrite HE in U1. destruct U3 as [PR|ME]. { unfold present. destruct P as [P|P]; rewrite P; auto. }
    + unfold present in PR. unfold end_touch in *. destruct (ts t1) eqn:ET; try discriminate; unfold post_touch; cbn [dirty set_dirty ts]; destruct (dirty t1 || dd) eqn:ED; cbn; rewrite ?ET; cbn; rewrite ?ET; auto.
      exfalso. destruct d; unfold touch_follows in T; cbn in T; rewrite ET, ?ED in T; intuition discriminate.
    + unfold end_touch. rewrite ME. unfold post_touch. cbn. rewrite U1. cbn. auto.
  - destruct S as (P & HE). rewrite HE in U1. assert (A0 : absent t0 = true) by (unfold absent; destruct P as [P|P]; rewrite P; auto). specialize (U2 A0).
    destruct P as [P|P]; rewrite P in U2.
    + unfold end_touch. rewrite U2. unfold post_touch. cbn. destruct (dirty t1 || dd); cbn; rewrite ?U2; cbn; auto.
    + unfold end_touch. rewrite U2. unfold post_touch. cbn. rewrite U1. cbn. auto.
Qed.
Lemma frame_slots : forall b ds k s d, inv ds s -> slots_inv b k s -> slots_inv b k (post_process (frame s d)).
Proof.
  intros b ds k s d H (I1 & I2 & I3 & I4 & I5 & I6 & I7). destruct (frame_fol ds s d H) as ((A & _ & L) & _ & (c1 & c2 & c3 & c4 & c5 & c6 & c7) & _ & NS). specialize (NS I3).
  destruct H as (HA & HN & HL).
  unfold slots_inv. cbn [post_process with_touches has_mt synaptics alps slot num_slots touches]. rewrite c2, c4, c5, c7, NS, map_length, L, <- HL.
  repeat (split; [auto; lia|]). intros i LI. rewrite nth_map_t by reflexivity.
  destruct (frame_touch ds s d i) as (t1 & dd & U & EF); [repeat split; auto|lia|]. rewrite fake_slots in U by (auto; unfold start_of; rewrite ?I1; lia).
  pose proof (all_i_nth _ _ _ i A ltac:(lia)) as T. cbn in T. rewrite EF in *. eapply post_slot; eauto.
Qed.
Lemma cleared_slots : forall ds k s, inv ds s -> slots_inv false k s -> slots_inv false k (cleared s).
Proof.
  intros ds k s H (I1 & I2 & I3 & I4 & I5 & I6 & I7). destruct (cleared_inv ds s H) as ((_ & _ & L) & C2 & C3 & C4 & C5 & C6 & C7 & C8 & C9 & C10 & C11). destruct H as (_ & _ & HL).
  unfold slots_inv. rewrite C4, C7, C6, C9, C5, L, <- HL. repeat (split; [auto; lia|]). intros i LI. pose proof (all_i_nth _ _ _ i C11 ltac:(lia)) as X. cbn in X. unfold slot_ok. destruct (nth i (act k) false); [discriminate|exact X].
Qed.
Lemma istep_slots : forall b ds k s i, inv ds s -> slots_inv b k s -> match i with Ev (Slot n) _ => (n < num_slots s)%nat | Resync _ _ => False | Clear _ => b = false | _ => True end ->
  slots_inv b (kstep k i) (fst (istep s i)) /\ num_slots (fst (istep s i)) = num_slots s.
Proof.
  intros b ds k s i H I C. destruct i as [e d|d|a c]; [|subst b|contradiction].
  - destruct e as [n|v| |v|v|v|c p|]; cbn [istep step fst];
      try (split; [eapply absolute_slots; eauto|apply absolute_conf]; fail).
    + split; [exact I|reflexivity].
    + split; [eapply frame_slots; eauto|]. destruct (frame_fol ds s d H) as (_ & _ & _ & _ & X). cbn. apply X. apply I.
  - cbn [istep]. rewrite clear_state_eq. cbn [fst kstep]. pose proof (cleared_slots ds k s H I) as CS. destruct (cleared_inv ds s H) as (C1 & _ & _ & _ & C5 & _).
    split; [eapply frame_slots; eauto|]. destruct (frame_fol ds (cleared s) d C1) as (_ & _ & _ & _ & X). cbn. rewrite <- C5. apply X. apply CS.
Qed.
Lemma run_slots : forall b l ds k s, inv ds s -> slots_inv b k s -> slots_below (num_slots s) l -> (if b then only_events l else no_resync l) -> slots_inv b (krun k l) (fst (run s l)) /\ num_slots (fst (run s l)) = num_slots s.
Proof.
  intros b. induction l as [|i l IH]; intros ds k s H I SB OE; [split; [exact I|reflexivity]|]. destruct SB as [SB1 SB2].
  assert (OE2 : (if b then only_events l else no_resync l) /\ match i with Resync _ _ => False | Clear _ => b = false | _ => True end).
  { destruct b; destruct OE as [O1 O2]; split; auto; destruct i; auto; contradiction. }
  destruct OE2 as [O2 O1].
  destruct (istep_slots b ds k s i H I) as (S1 & S2). { destruct i as [[]| |]; auto. }
  destruct (istep_inv ds s i H) as (ds' & H' & _). cbn [run krun fold_left]. destruct (istep s i) as [s1 o1]. cbn [fst] in *.
  destruct (IH ds' (kstep k i) s1 H' S1) as (R1 & R2); [rewrite S2; auto|auto|]. destruct (run s1 l) as [s2 o2]. cbn [fst] in *. split; [exact R1|congruence].
Qed.
Lemma init_slots : forall b nt ns sl h a fi, (ns <= nt)%nat -> (sl < ns)%nat -> length a = ns -> (b = true -> a = repeat false ns) ->
  slots_inv b {| act := a; cur := sl |} (init nt ns sl true h false false a fi).
Proof.
  intros b nt ns sl h a fi L1 L2 L3 AB. unfold slots_inv. cbn. rewrite repeat_length. repeat (split; [auto; lia|]). intros i LI.
  replace (nth i (repeat touch0 nt) touch0) with touch0 by (symmetry; apply nth_repeat). unfold slot_ok. destruct (nth i a false) eqn:EA; [|cbn; auto].
  intros ->. rewrite (AB eq_refl), nth_repeat in EA. discriminate.
Qed.
Lemma istep_fakes : forall ds s i, inv ds s -> fakes (fst (istep s i)) = match i with Ev (Key c p) _ => fake_finger_set (fakes s) c p | Clear _ => no_fake | _ => fakes s end /\ mode (fst (istep s i)) = mode s /\ has_mt (fst (istep s i)) = has_mt s /\ synaptics (fst (istep s i)) = synaptics s /\ alps (fst (istep s i)) = alps s /\ length (touches (fst (istep s i))) = length (touches s).
Proof.
  intros ds s i H. destruct i as [e d|d|a c].
  - destruct e as [n|v| |v|v|v|c p|]; cbn [istep step fst];
      try (match goal with |- context [process_absolute s ?e] => destruct (absolute_conf s e) as (c1 & c2 & c3 & c4 & c5 & c6 & c7); pose proof (absolute_inv ds s e H) as (_ & _ & L) end; destruct H as (_ & _ & HL); rewrite c1, c3, c4, c5, c6; repeat split; auto; congruence).
    + repeat split; auto.
    + destruct (frame_fol ds s d H) as ((_ & _ & L) & _ & (c1 & c2 & c3 & c4 & c5 & c6 & c7) & _). cbn. rewrite map_length. destruct H as (_ & _ & HL). repeat split; auto. congruence.
  - cbn [istep]. rewrite clear_state_eq. destruct (cleared_inv ds s H) as (C1 & C2 & C3 & C4 & C5 & C6 & C7 & C8 & C9 & C10 & _). destruct (frame_fol ds (cleared s) d C1) as ((_ & _ & L) & _ & (c1 & c2 & c3 & c4 & c5 & c6 & c7) & _). cbn. rewrite map_length. destruct H as (_ & _ & HL). repeat split; congruence.
  - cbn. repeat split; auto.
Qed.
Lemma run_fakes : forall l ds s, inv ds s -> let s' := fst (run s l) in fakes s' = tools l (fakes s) /\ mode s' = mode s /\ has_mt s' = has_mt s /\ synaptics s' = synaptics s /\ alps s' = alps s /\ length (touches s') = length (touches s).
Proof.
  induction l as [|i l IH]; intros ds s H; [cbn; repeat split; auto|]. cbn [run]. destruct (istep_inv ds s i H) as (ds' & H' & _). destruct (istep_fakes ds s i H) as (F1 & F2 & F3 & F4 & F5 & F6).
  destruct (istep s i) as [s1 o1]. cbn [fst] in *. destruct (IH ds' s1 H') as (R1 & R2 & R3 & R4 & R5 & R6). destruct (run s1 l) as [s2 o2]. cbn [fst] in *.
  rewrite R1, R2, R3, R4, R5, R6, F1, F2, F3, F4, F5, F6. unfold tools at 2. cbn [fold_left]. repeat split; auto.
Qed.
(** No finger that is not there. *)
Lemma nth_nil : forall {A} j (d : A), nth j [] d = d. Proof. intros A [] d; reflexivity. Qed.
Lemma frame_no_ghost : forall b ds k s d j, inv ds s -> slots_inv b k s -> still_down (nth j (touches (frame s d)) touch0) = true ->
  if Nat.ltb j (num_slots s) then nth j (act k) false = true else fake_finger_count (fakes s) <> FAKE_FINGER_OVERFLOW -> Z.of_nat j < fake_finger_count (fakes s).
Proof.
  intros b ds k s d j H I D. destruct (Nat.lt_ge_cases j (length (touches s))) as [L|L].
  2:{ destruct (frame_fol ds s d H) as ((_ & _ & L') & _). destruct H as (_ & _ & HL). rewrite nth_overflow in D by congruence || lia. discriminate. }
  destruct (frame_touch ds s d j H L) as (t1 & dd & U & EF). rewrite EF in D. destruct I as (I1 & I2 & I3 & I4 & I5 & I6 & I7).
  assert (NA : absent (nth j (touches (process_fake_touches s)) touch0) = false).
  { destruct (absent _) eqn:EA; auto. destruct U as (_ & U2 & _). specialize (U2 EA). unfold absent in EA. rewrite <- U2 in EA. unfold still_down, end_touch in D. destruct (ts t1) eqn:ET; cbn in D; rewrite ?ET in D; try discriminate. }
  destruct (Nat.ltb_spec j (num_slots s)).
  - rewrite fake_slots in NA by (auto; unfold start_of; rewrite I1; auto). specialize (I7 j H0). unfold slot_ok in I7. destruct (nth j (act k) false); auto. unfold absent in NA. destruct I7 as [[E|E] _]; rewrite E in NA; discriminate.
  - intros NO. destruct (fake_inv ds s H) as (F1 & _ & F3 & _ & F5 & F6). specialize (F6 NO). destruct F1 as (_ & _ & L1). destruct H as (_ & _ & HL).
    pose proof (all_i_nth _ _ _ j F6 ltac:(lia)) as B. cbn in B. unfold by_count in B. destruct F3 as (_ & F3 & _). unfold start_of in B. rewrite F3, I1, (F5 I3) in B. specialize (B H0).
    destruct (Z.ltb_spec (Z.of_nat j) (fake_finger_count (fakes s))); auto. unfold absent in NA. destruct B as [E|E]; rewrite E in NA; discriminate.
Qed.
(** The count with BTN_TOOL_* only. *)
Lemma pcount : forall l, cnt l + hov l = count_true (map present l).
Proof. induction l as [|t l IH]; [reflexivity|]. cbn [cnt hov map]. rewrite count_true_cons, <- IH. unfold is_down, present. destruct (ts t); cbn [b2z]; lia. Qed.
Lemma count_seq : forall B n a, count_true (map (fun j => Z.of_nat j <? B) (seq a n)) = Z.max 0 (Z.min B (Z.of_nat a + Z.of_nat n) - Z.of_nat a).
Proof.
  intros B. induction n as [|n IH]; intros a; cbn [seq map]; [cbn; lia|]. rewrite count_true_cons, IH. destruct (Z.ltb_spec (Z.of_nat a) B); cbn [b2z]; lia.
Qed.
Lemma count_true_app : forall a b, count_true (a ++ b) = count_true a + count_true b.
Proof. intros. unfold count_true. rewrite filter_app, app_length. lia. Qed.
Lemma frame_nfd : forall ds s d, inv ds s -> mode s = ByFake -> fake_finger_count (fakes s) <> FAKE_FINGER_OVERFLOW ->
  nfd (frame s d) = if f_touch (fakes s) then Z.min (fake_finger_count (fakes s)) (count_true (map present (touches (process_fake_touches s)))) else 0.
Proof.
  intros ds s d H M NO. destruct (fake_inv ds s H) as (F1 & _ & (c1 & c2 & c3 & _) & _).
  unfold frame. destruct (position_dirty (pre_process s) d) as (l & -> & _). unfold pre_process. cbn [nfd with_touches]. unfold unhover. rewrite c3, M.
  destruct (ufake_mid ds _ F1) as (_ & _ & _ & _ & U). rewrite c1 in U. rewrite (U NO). destruct F1 as (_ & N & _). rewrite <- pcount, N. reflexivity.
Qed.
Lemma present_slots : forall ds k s, inv ds s -> slots_inv true k s -> fake_finger_count (fakes s) <> FAKE_FINGER_OVERFLOW ->
  count_true (map present (touches (process_fake_touches s))) = count_true (act k) + Z.max 0 (Z.min (fake_finger_count (fakes s)) (Z.of_nat (length (touches s))) - Z.of_nat (num_slots s)).
Proof.
  intros ds k s H (I1 & I2 & I3 & I4 & I5 & I6 & I7) NO. destruct (fake_inv ds s H) as ((_ & _ & L1) & _ & (_ & F3 & _) & _ & F5 & F6). specialize (F6 NO). destruct H as (_ & _ & HL).
  set (nf := fake_finger_count (fakes s)) in *. set (ns := num_slots s) in *. set (nt := length (touches s)) in *.
  assert (E : map present (touches (process_fake_touches s)) = act k ++ map (fun j => Z.of_nat j <? nf) (seq ns (nt - ns))).
  { apply nth_ext with (d := false) (d' := false); [rewrite app_length, !map_length, seq_length; lia|]. intros j LJ. rewrite map_length in LJ. rewrite (nth_map_def present _ _ touch0) by reflexivity.
    destruct (Nat.lt_ge_cases j ns).
    - rewrite app_nth1 by lia. rewrite fake_slots by (auto; unfold start_of; rewrite ?I1; lia). specialize (I7 j H). unfold slot_ok in I7. destruct (nth j (act k) false).
      + unfold present. destruct (I7 eq_refl) as [[X|X] _]; rewrite X; reflexivity.
      + unfold present. destruct I7 as [[X|X] _]; rewrite X; reflexivity.
    - rewrite app_nth2 by lia. rewrite I6. fold ns. rewrite nth_indep with (d' := (fun j => Z.of_nat j <? nf) 0%nat) by (rewrite map_length, seq_length; lia). rewrite (map_nth (fun j => Z.of_nat j <? nf)).
      rewrite seq_nth by lia. replace (ns + (j - ns))%nat with j by lia.
      pose proof (all_i_nth _ _ _ j F6 ltac:(lia)) as B. cbn in B. unfold by_count, start_of in B. rewrite F3, I1, (F5 I3) in B. specialize (B H). unfold present. destruct (Z.of_nat j <? nf); destruct B as [X|X]; rewrite X; reflexivity. }
  rewrite E, count_true_app, count_seq. f_equal. f_equal. lia.
Qed.
Lemma present_st : forall ds s, inv ds s -> has_mt s = false -> fake_finger_count (fakes s) <> FAKE_FINGER_OVERFLOW ->
  count_true (map present (touches (process_fake_touches s))) = Z.max 0 (Z.min (fake_finger_count (fakes s)) (Z.of_nat (length (touches s)))).
Proof.
  intros ds s H M NO. destruct (fake_inv ds s H) as ((_ & _ & L1) & _ & (_ & F3 & _) & _ & F5 & F6). specialize (F6 NO). destruct H as (_ & _ & HL).
  set (nf := fake_finger_count (fakes s)) in *. set (nt := length (touches s)) in *.
  assert (E : map present (touches (process_fake_touches s)) = map (fun j => Z.of_nat j <? nf) (seq 0 nt)).
  { apply nth_ext with (d := false) (d' := false); [rewrite !map_length, seq_length; lia|]. intros j LJ. rewrite map_length in LJ. rewrite (nth_map_def present _ _ touch0) by reflexivity.
    rewrite nth_indep with (d' := (fun j => Z.of_nat j <? nf) 0%nat) by (rewrite map_length, seq_length; lia). rewrite (map_nth (fun j => Z.of_nat j <? nf)).
    rewrite seq_nth by lia. rewrite Nat.add_0_l.
    pose proof (all_i_nth _ _ _ j F6 ltac:(lia)) as B. cbn in B. unfold by_count, start_of in B. rewrite F3, M in B. specialize (B (Nat.le_0_l j)). unfold present. destruct (Z.of_nat j <? nf); destruct B as [X|X]; rewrite X; reflexivity. }
  rewrite E, count_seq. lia.
Qed.
