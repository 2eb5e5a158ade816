(** Counting references: the invariant and the counters. *)
Require Import Coq.ZArith.ZArith Coq.Lists.List Coq.Bool.Bool Coq.Arith.PeanoNat Coq.micromega.Lia.
Require Import Verif.Rc_Model Verif.Rc_Spec.
Import ListNotations.
Open Scope Z_scope.

Ltac sm := cbn [udev enabled bad next live rc knd name ident seats devs seat_of group_of tools modes groups gtools ttype tserial home all queue hand freed cx_live cx_rc
  set_udev set_enabled set_bad set_next set_live set_rc set_knd set_name set_ident set_seats set_devs set_seat_of set_group_of set_tools set_modes set_groups set_gtools
  set_ttype set_tserial set_home set_all set_queue set_hand set_freed set_cx_live set_cx_rc].
Tactic Notation "smi" hyp(H) := cbn [udev enabled bad next live rc knd name ident seats devs seat_of group_of tools modes groups gtools ttype tserial home all queue hand freed cx_live cx_rc
  set_udev set_enabled set_bad set_next set_live set_rc set_knd set_name set_ident set_seats set_devs set_seat_of set_group_of set_tools set_modes set_groups set_gtools
  set_ttype set_tserial set_home set_all set_queue set_hand set_freed set_cx_live set_cx_rc] in H.

(** ** Counting *)
Definition cnt (x : nat) (l : list nat) : Z := Z.of_nat (count_occ Nat.eq_dec l x).
Lemma cnt_nil : forall x, cnt x [] = 0. Proof. reflexivity. Qed.
Lemma cnt_app : forall x a b, cnt x (a ++ b) = cnt x a + cnt x b.
Proof. intros. unfold cnt. rewrite count_occ_app. lia. Qed.
Lemma cnt_cons : forall x y l, cnt x (y :: l) = (if Nat.eqb x y then 1 else 0) + cnt x l.
Proof.
  intros. unfold cnt. cbn [count_occ]. destruct (Nat.eq_dec y x) as [->|N]; [rewrite Nat.eqb_refl; lia|].
  replace (Nat.eqb x y) with false by (symmetry; apply Nat.eqb_neq; auto). lia.
Qed.
Lemma cnt_nonneg : forall x l, 0 <= cnt x l. Proof. intros. unfold cnt. lia. Qed.
Lemma cnt_in : forall x l, 0 < cnt x l <-> In x l.
Proof. intros. unfold cnt. rewrite (count_occ_In Nat.eq_dec). lia. Qed.
Lemma cnt_not_in : forall x l, cnt x l = 0 <-> ~ In x l.
Proof. intros. unfold cnt. rewrite (count_occ_not_In Nat.eq_dec). lia. Qed.
Lemma cnt_del : forall x y l, x <> y -> cnt x (del y l) = cnt x l.
Proof.
  intros x y l N. induction l as [|z l IH]; auto. unfold del in *. cbn [remove]. destruct (Nat.eq_dec y z) as [<-|M]; rewrite ?cnt_cons, IH; [|reflexivity].
  replace (Nat.eqb x y) with false by (symmetry; apply Nat.eqb_neq; auto). lia.
Qed.
Lemma in_del : forall x y l, In x (del y l) <-> In x l /\ x <> y.
Proof. intros. unfold del. split; [apply in_remove|intros [A B]; now apply in_in_remove]. Qed.
Lemma cnt_del_same : forall x l, cnt x (del x l) = 0.
Proof. intros. apply cnt_not_in. intros I. apply in_del in I. intuition. Qed.
Lemma del_none : forall x l, ~ In x l -> del x l = l.
Proof. intros. unfold del. now apply notin_remove. Qed.
Lemma nodup_del : forall x l, NoDup l -> NoDup (del x l).
Proof.
  intros x l H. induction H as [|y l N H IH]; [constructor|]. unfold del in *. cbn [remove]. destruct (Nat.eq_dec x y); auto. constructor; auto.
  intros I. apply in_remove in I. intuition.
Qed.
Lemma cnt_nodup : forall x l, NoDup l -> cnt x l <= 1.
Proof. intros x l H. rewrite (NoDup_count_occ Nat.eq_dec) in H. specialize (H x). unfold cnt. lia. Qed.
Lemma flat_same : forall (f g : nat -> list nat) l, (forall y, In y l -> f y = g y) -> flat_map f l = flat_map g l.
Proof. intros f g l H. induction l as [|y l IH]; cbn [flat_map]; auto. rewrite H, IH; auto; [intros; apply H; now right|now left]. Qed.
Lemma flat_upd : forall (f g : nat -> list nat) l d x, NoDup l -> In d l -> (forall y, In y l -> y <> d -> g y = f y) ->
  cnt x (flat_map g l) = cnt x (flat_map f l) - cnt x (f d) + cnt x (g d).
Proof.
  intros f g l d x N. induction N as [|y l NI N IH]; intros I H; [destruct I|]. cbn [flat_map]. rewrite !cnt_app. destruct I as [->|I].
  - rewrite (flat_same g f l); [lia|]. intros z Z. apply H; [now right|congruence].
  - rewrite IH; auto; [|intros; apply H; auto; now right]. rewrite H; [lia|now left|congruence].
Qed.
Lemma flat_del : forall (f : nat -> list nat) l d x, NoDup l -> In d l -> cnt x (flat_map f (del d l)) = cnt x (flat_map f l) - cnt x (f d).
Proof.
  intros f l d x N. induction N as [|y l NI N IH]; intros I; [destruct I|]. unfold del in *. cbn [remove flat_map]. destruct (Nat.eq_dec d y) as [->|M].
  - fold (del y l). rewrite del_none by auto. rewrite cnt_app. lia.
  - cbn [flat_map]. rewrite !cnt_app. destruct I as [->|I]; [congruence|]. rewrite IH; auto. lia.
Qed.
Lemma upd_same : forall {A} (f : nat -> A) x v, upd f x v x = v.
Proof. intros. unfold upd. now rewrite Nat.eqb_refl. Qed.
Lemma upd_other : forall {A} (f : nat -> A) x v y, y <> x -> upd f x v y = f y.
Proof. intros. unfold upd. replace (Nat.eqb y x) with false; auto. symmetry. now apply Nat.eqb_neq. Qed.

(** ** The invariant *)
Definition ev_ok (w : world) (e : event) : Prop :=
  knd w (e_dev e) = K_device /\
  (forall t, e_tool e = Some t -> knd w t = K_tool /\ (home w t = None \/ home w t = Some (e_dev e))) /\
  (forall m, e_mode e = Some m -> knd w m = K_mode /\ home w m = Some (e_dev e)).
Definition dev_ok (w : world) (d : nat) : Prop :=
  knd w (seat_of w d) = K_seat /\ (forall g, group_of w d = Some g -> knd w g = K_group) /\
  NoDup (tools w d) /\ (forall t, In t (tools w d) -> knd w t = K_tool /\ home w t = Some d) /\
  NoDup (modes w d) /\ (forall m, In m (modes w d) -> knd w m = K_mode /\ home w m = Some d).
(** [ex]: a device being destroyed *)
Record shape (w : world) (ex : option nat) : Prop := {
  sh_bad : bad w = false;
  sh_ctx : cx_live w = true;
  sh_fresh : forall x, (next w <= x)%nat -> live w x = false;
  sh_nodup : NoDup (freed w);
  sh_freed : forall x, In x (freed w) <-> (x < next w)%nat /\ live w x = false;
  sh_nseats : NoDup (seats w);
  sh_seats : forall s, In s (seats w) <-> live w s = true /\ knd w s = K_seat;
  sh_groups : forall g, In g (groups w) -> live w g = true /\ knd w g = K_group;
  sh_nall : NoDup (all w);
  sh_all : forall d, In d (all w) <-> live w d = true /\ knd w d = K_device /\ Some d <> ex;
  sh_devs : forall s, In s (seats w) -> NoDup (devs w s) /\ forall d, In d (devs w s) -> In d (all w) /\ seat_of w d = s;
  sh_rest : forall s, ~ In s (seats w) -> devs w s = [];
  sh_dev : forall d, In d (all w) -> dev_ok w d;
  sh_ngtools : NoDup (gtools w);
  sh_gtools : forall t, In t (gtools w) -> knd w t = K_tool /\ home w t = None;
  sh_events : forall e, In e (queue w ++ hand w) -> ev_ok w e }.
(** [u]: the caller's references; [tmp]: references held by running code *)
Record counts (w : world) (u : nat -> Z) (tmp : list nat) (ex : option nat) : Prop := {
  ct_u : forall x, 0 <= u x;
  ct_rc : forall x, live w x = true -> Some x <> ex -> rc w x = u x + cnt x (tmp ++ holders w) /\ 0 < rc w x;
  ct_dead : forall x, live w x = false -> u x = 0 /\ cnt x (tmp ++ holders w) = 0;
  ct_ex : forall d, ex = Some d -> live w d = true /\ knd w d = K_device /\ u d = 0 /\ cnt d (tmp ++ holders w) = 0 }.
Definition inv w u tmp ex : Prop := shape w ex /\ counts w u tmp ex.

Lemma has_live : forall w u tmp ex x, counts w u tmp ex -> In x (tmp ++ holders w) -> live w x = true.
Proof.
  intros w u tmp ex x C I. destruct (live w x) eqn:L; auto. apply (ct_dead _ _ _ _ C) in L. destruct L as [_ Z]. apply cnt_not_in in Z. contradiction.
Qed.
Lemma has_not_ex : forall w u tmp ex x, counts w u tmp ex -> In x (tmp ++ holders w) -> Some x <> ex.
Proof.
  intros w u tmp ex x C I E. destruct (ct_ex _ _ _ _ C x (eq_sym E)) as (_ & _ & _ & Z). apply cnt_not_in in Z. contradiction.
Qed.
Lemma counts_tmp : forall w u tmp tmp' ex, (forall x, cnt x tmp = cnt x tmp') -> counts w u tmp ex -> counts w u tmp' ex.
Proof.
  intros w u tmp tmp' ex E [A B C D]. assert (EE : forall x, cnt x (tmp' ++ holders w) = cnt x (tmp ++ holders w)) by (intros; rewrite !cnt_app, E; auto).
  constructor; intros; rewrite ?EE; auto.
Qed.
Lemma inv_tmp : forall w u tmp tmp' ex, (forall x, cnt x tmp = cnt x tmp') -> inv w u tmp ex -> inv w u tmp' ex.
Proof. intros w u tmp tmp' ex E [S C]. split; auto. eapply counts_tmp; eauto. Qed.

(** What the counters leave alone *)
Record same (w w' : world) : Prop := {
  sm_udev : udev w' = udev w; sm_enabled : enabled w' = enabled w; sm_next : next w' = next w; sm_knd : knd w' = knd w; sm_name : name w' = name w;
  sm_ident : ident w' = ident w; sm_devs : devs w' = devs w; sm_seat_of : seat_of w' = seat_of w; sm_group_of : group_of w' = group_of w;
  sm_ttype : ttype w' = ttype w; sm_tserial : tserial w' = tserial w; sm_home : home w' = home w; sm_queue : queue w' = queue w; sm_hand : hand w' = hand w;
  sm_cx_rc : cx_rc w' = cx_rc w }.
Lemma same_refl : forall w, same w w. Proof. constructor; reflexivity. Qed.
Lemma same_trans : forall a b c, same a b -> same b c -> same a c.
Proof. intros a b c [] []. constructor; congruence. Qed.

(** A reference is taken *)
Lemma inv_ref : forall w u tmp ex x, inv w u tmp ex -> live w x = true -> Some x <> ex -> inv (ref x w) u (x :: tmp) ex.
Proof.
  intros w u tmp ex x [SH CT] L NE. unfold ref, touch. rewrite L. split.
  - destruct SH. constructor; sm; auto.
  - destruct CT as [A B C D].
    assert (H : holders (set_rc w (upd (rc w) x (rc w x + 1))) = holders w) by reflexivity.
    constructor; sm; auto; rewrite H.
    + intros y LY NY. rewrite <- app_comm_cons, cnt_cons. destruct (B y LY NY) as [B1 B2]. destruct (Nat.eqb y x) eqn:E.
      * apply Nat.eqb_eq in E. subst. rewrite upd_same. lia.
      * apply Nat.eqb_neq in E. rewrite upd_other by auto. lia.
    + intros y LY. destruct (C y LY) as [C1 C2]. split; auto. rewrite <- app_comm_cons, cnt_cons, C2. replace (Nat.eqb y x) with false; auto.
      symmetry. apply Nat.eqb_neq. intros ->. congruence.
    + intros d E. destruct (D d E) as (D1 & D2 & D3 & D4). repeat split; auto. rewrite <- app_comm_cons, cnt_cons, D4. replace (Nat.eqb d x) with false; auto.
      symmetry. apply Nat.eqb_neq. intros ->. congruence.
Qed.
Lemma same_ref : forall w x, live w x = true -> same w (ref x w).
Proof. intros w x L. unfold ref, touch. rewrite L. constructor; reflexivity. Qed.

(** One is dropped: either it was not the last one, or nothing refers to the
    object any more *)
Lemma drop_ok : forall w u tmp ex x, inv w u (x :: tmp) ex ->
  drop x w = set_rc w (upd (rc w) x (rc w x - 1)) /\ live w x = true /\ Some x <> ex /\ 0 < rc w x /\
  (0 < rc w x - 1 -> inv (drop x w) u tmp ex) /\ (rc w x - 1 = 0 -> u x = 0 /\ cnt x (tmp ++ holders w) = 0).
Proof.
  intros w u tmp ex x [SH CT].
  assert (I : In x ((x :: tmp) ++ holders w)) by now left.
  pose proof (has_live _ _ _ _ _ CT I) as L. pose proof (has_not_ex _ _ _ _ _ CT I) as NE.
  destruct (ct_rc _ _ _ _ CT x L NE) as [R P].
  assert (E : drop x w = set_rc w (upd (rc w) x (rc w x - 1))).
  { unfold drop, touch. rewrite L. cbv zeta. apply Z.ltb_lt in P. rewrite P. reflexivity. }
  rewrite <- app_comm_cons, cnt_cons, Nat.eqb_refl in R.
  split; [exact E|]. split; [auto|]. split; [auto|]. split; [auto|]. split.
  - intros P'. rewrite E. split.
    + destruct SH. constructor; sm; auto.
    + assert (H : holders (set_rc w (upd (rc w) x (rc w x - 1))) = holders w) by reflexivity.
      destruct CT as [A B C D]. constructor; sm; auto; rewrite H.
      * intros y LY NY. destruct (B y LY NY) as [B1 B2]. rewrite <- app_comm_cons, cnt_cons in B1. destruct (Nat.eqb y x) eqn:EQ.
        { apply Nat.eqb_eq in EQ. subst. rewrite upd_same. lia. }
        apply Nat.eqb_neq in EQ. rewrite upd_other by auto. lia.
      * intros y LY. destruct (C y LY) as [C1 C2]. split; auto. rewrite <- app_comm_cons, cnt_cons in C2. pose proof (cnt_nonneg y (tmp ++ holders w)). destruct (Nat.eqb y x); lia.
      * intros d Ed. destruct (D d Ed) as (D1 & D2 & D3 & D4). repeat split; auto. rewrite <- app_comm_cons, cnt_cons in D4.
        pose proof (cnt_nonneg d (tmp ++ holders w)). destruct (Nat.eqb d x); lia.
  - intros Z. pose proof (ct_u _ _ _ _ CT x). pose proof (cnt_nonneg x (tmp ++ holders w)). lia.
Qed.
