(** Seats, device groups and tools are told apart by their names: invariant. *)
Require Import Coq.ZArith.ZArith Coq.Lists.List Coq.Bool.Bool Coq.Arith.PeanoNat Coq.micromega.Lia.
Require Import Verif.Rc_Model Verif.Rc_Spec Verif.Rc_Proofs Verif.Rc_Proofs5 Verif.Rc_Proofs6 Verif.Rc_Proofs7.
Import ListNotations.
Open Scope Z_scope.

Record U (w : world) : Prop := {
  u_live : forall x, live w x = true -> (x < next w)%nat;
  u_seat_in : forall s, live w s = true -> knd w s = K_seat -> In s (seats w);
  u_seats : forall s, In s (seats w) -> (s < next w)%nat;
  u_seat : forall s t, In s (seats w) -> In t (seats w) -> name w s = name w t -> s = t;
  u_group_in : forall g, live w g = true -> knd w g = K_group -> In g (groups w);
  u_groups : forall g, In g (groups w) -> (g < next w)%nat;
  u_group : forall g h i, In g (groups w) -> In h (groups w) -> ident w g = Some i -> ident w h = Some i -> g = h;
  u_of : forall d g, group_of w d = Some g -> (d < next w)%nat /\ (g < next w)%nat;
  u_alone : forall d e g, group_of w d = Some g -> group_of w e = Some g -> ident w g = None -> d = e;
  u_tool_in : forall t, live w t = true -> knd w t = K_tool -> home w t = None -> In t (gtools w);
  u_gtools : forall t, In t (gtools w) -> (t < next w)%nat /\ tserial w t <> 0 /\ home w t = None;
  u_tool : forall s t, In s (gtools w) -> In t (gtools w) -> ttype w s = ttype w t -> tserial w s = tserial w t -> s = t;
  u_home : forall t d, (t < next w)%nat -> knd w t = K_tool -> home w t = Some d -> tserial w t = 0 /\ (d < next w)%nat;
  u_local_in : forall t d, live w t = true -> knd w t = K_tool -> home w t = Some d -> In t (tools w d);
  u_tools : forall t d, In t (tools w d) -> (t < next w)%nat /\ knd w t = K_tool /\ home w t = Some d;
  u_local : forall s t d, In s (tools w d) -> In t (tools w d) -> ttype w s = ttype w t -> s = t }.
(** What a thing is called does not change *)
Record kept (n : nat) (w w' : world) : Prop := {
  k_next : (next w <= next w')%nat;
  k_knd : forall x, (x < n)%nat -> knd w' x = knd w x;
  k_name : forall x, (x < n)%nat -> name w' x = name w x;
  k_ident : forall x, (x < n)%nat -> ident w' x = ident w x;
  k_seat : forall x, (x < n)%nat -> seat_of w' x = seat_of w x;
  k_group : forall x, (x < n)%nat -> group_of w' x = group_of w x;
  k_type : forall x, (x < n)%nat -> ttype w' x = ttype w x;
  k_serial : forall x, (x < n)%nat -> tserial w' x = tserial w x;
  k_home : forall x, (x < n)%nat -> home w' x = home w x }.
Lemma kept_trans : forall n a b c, kept n a b -> kept n b c -> kept n a c.
Proof. intros n a b c [] []. constructor; [lia|..]; intros x X; repeat match goal with H : forall x, (x < n)%nat -> _ |- _ => specialize (H x X) end; congruence. Qed.
Definition R (n : nat) (w w' : world) : Prop :=
  (next w <= next w')%nat /\ ((n <= next w)%nat -> bad w' = false -> bad w = false /\ (U w -> U w' /\ kept n w w')).
Section N.
Variable n : nat.
Lemma R_trans : forall a b c, R n a b -> R n b c -> R n a c.
Proof.
  intros a b c [A A'] [B B']. split; [lia|]. intros N E. destruct (B' ltac:(lia) E) as [E' X]. destruct (A' N E') as [E'' Y]. split; auto.
  intros UA. destruct (Y UA) as [UB KB]. destruct (X UB) as [UC KC]. split; auto. eapply kept_trans; eauto.
Qed.
Lemma R_refl : forall w, R n w w. Proof. intros w. split; auto. intros N E. split; auto. intros H. split; auto. constructor; auto. Qed.
(** Steps that leave names and lists alone *)
Lemma R_eq : forall w w', (bad w' = false -> bad w = false) -> next w' = next w -> live w' = live w -> knd w' = knd w -> name w' = name w -> ident w' = ident w -> seats w' = seats w -> seat_of w' = seat_of w ->
  group_of w' = group_of w -> tools w' = tools w -> groups w' = groups w -> gtools w' = gtools w -> ttype w' = ttype w -> tserial w' = tserial w -> home w' = home w -> R n w w'.
Proof.
  intros w w' E0 E1 E2 E3 E4 E5 E6 E7 E8 E9 E10 E11 E12 E13 E14. split; [lia|]. intros N E. split; [auto|]. intros []. split; constructor; rewrite ?E1, ?E2, ?E3, ?E4, ?E5, ?E6, ?E7, ?E8, ?E9, ?E10, ?E11, ?E12, ?E13, ?E14; auto.
Qed.
Ltac R0 := first [apply R_refl | apply R_eq; [first [exact (fun H => H)|discriminate]|reflexivity..]].
Lemma R_each : forall (f : nat -> world -> world), (forall x w, R n w (f x w)) -> forall l w, R n w (each f l w).
Proof. intros f H. unfold each. induction l as [|x l IH]; intros w; cbn [fold_left]; [R0|]. eapply R_trans; [apply H|apply IH]. Qed.
Lemma R_touch : forall x w, R n w (touch x w). Proof. intros. unfold touch. destruct (live w x); R0. Qed.
Lemma R_ctx : forall w, R n w (ctx w). Proof. intros. unfold ctx. destruct (cx_live w); R0. Qed.
Lemma bad_touch : forall x w, bad (touch x w) = false -> live (touch x w) x = true.
Proof. intros x w. unfold touch, fault. destruct (live w x) eqn:E; sm; congruence. Qed.
Lemma R_ref : forall x w, R n w (ref x w). Proof. intros x w. eapply R_trans; [apply (R_touch x)|]. R0. Qed.
Lemma R_drop : forall x w, R n w (drop x w).
Proof. intros x w. eapply R_trans; [apply (R_touch x)|]. unfold drop. cbv zeta. destruct (0 <? rc (touch x w) x); R0. Qed.
(** Freeing, and leaving the list *)
Lemma R_less : forall x w w', bad w' = bad w -> next w' = next w -> live w' = upd (live w) x false -> knd w' = knd w -> name w' = name w -> ident w' = ident w -> seat_of w' = seat_of w ->
  group_of w' = group_of w -> ttype w' = ttype w -> tserial w' = tserial w -> home w' = home w ->
  (forall y, In y (seats w') -> In y (seats w)) -> (forall y, y <> x -> In y (seats w) -> In y (seats w')) ->
  (forall y, In y (groups w') -> In y (groups w)) -> (forall y, y <> x -> In y (groups w) -> In y (groups w')) ->
  (forall y, In y (gtools w') -> In y (gtools w)) -> (forall y, y <> x -> In y (gtools w) -> In y (gtools w')) ->
  (forall d y, In y (tools w' d) -> In y (tools w d)) -> (forall d y, y <> x -> In y (tools w d) -> In y (tools w' d)) -> R n w w'.
Proof.
  intros x w w' E0 E1 E2 E3 E4 E5 E7 E8 E12 E13 E14 S1 S2 G1 G2 T1 T2 L1 L2. split; [lia|]. intros N E. split; [congruence|]. intros [].
  assert (LV : forall y, live w' y = true -> y <> x /\ live w y = true).
  { intros y. rewrite E2. destruct (Nat.eq_dec y x) as [->|NE]; [rewrite upd_same; discriminate|rewrite upd_other by auto; auto]. }
  split; constructor; rewrite ?E1, ?E3, ?E4, ?E5, ?E7, ?E8, ?E12, ?E13, ?E14; auto.
  - intros y Y. apply LV in Y. destruct Y; auto.
  - intros y Y K. apply LV in Y. destruct Y; auto.
  - intros y Y K. apply LV in Y. destruct Y; auto.
  - intros g h i G H. apply u_group0; auto.
  - intros y Y K H. apply LV in Y. destruct Y; auto.
  - intros y z Y K H. apply LV in Y. destruct Y; auto.
  - intros y z d Y Z. apply (u_local0 y z d); auto.
Qed.
Lemma R_free : forall x w, R n w (free x w).
Proof. intros x w. eapply R_trans; [apply (R_touch x)|]. unfold free. cbv zeta. apply (R_less x); try reflexivity; auto. Qed.
Lemma free_fields : forall x w, bad (touch x w) = bad (free x w).
Proof. reflexivity. Qed.
Ltac dl := unfold fault; sm; intros; try (rewrite in_del in *); try tauto; auto; apply in_del; auto.
Lemma R_destroy_seat : forall s w, R n w (destroy_seat s w).
Proof.
  intros. unfold destroy_seat. cbv zeta. eapply R_trans; [apply R_ctx|]. set (v := ctx w). clearbody v. eapply R_trans; [apply (R_touch s)|].
  unfold free, touch. sm. destruct (live v s); apply (R_less s); try reflexivity; dl.
Qed.
Lemma R_destroy_group : forall s w, R n w (destroy_group s w).
Proof.
  intros. unfold destroy_group. cbv zeta. eapply R_trans; [apply R_ctx|]. set (v := ctx w). clearbody v. eapply R_trans; [apply (R_touch s)|].
  unfold free, touch. sm. destruct (live v s); apply (R_less s); try reflexivity; dl.
Qed.
Lemma R_owner : forall x w, R n w (owner x w).
Proof. intros. unfold owner. destruct (home w x); [apply R_touch|apply R_ctx]. Qed.
Lemma R_unref_tool : forall s w, R n w (unref_tool s w).
Proof.
  intros. unfold unref_tool. cbv zeta. eapply R_trans; [apply (R_drop s)|]. destruct (0 <? _); [R0|]. eapply R_trans; [apply (R_owner s)|].
  set (v := owner s (drop s w)). clearbody v. eapply R_trans; [apply (R_touch s)|].
  destruct (home v s) as [d|]; unfold free, touch; sm; destruct (live v s); apply (R_less s); try reflexivity; try (dl; fail);
    unfold fault; sm; intros e y I; unfold upd in *; (destruct (Nat.eqb e d) eqn:E; [apply Nat.eqb_eq in E; subst e|]); rewrite ?in_del in *; try tauto; auto.
Qed.
Lemma R_unref_seat : forall s w, R n w (unref_seat s w).
Proof. intros. unfold unref_seat. cbv zeta. eapply R_trans; [apply (R_drop s)|]. destruct (_ =? 0); [apply R_destroy_seat|R0]. Qed.
Lemma R_unref_group : forall s w, R n w (unref_group s w).
Proof. intros. unfold unref_group. cbv zeta. eapply R_trans; [apply (R_drop s)|]. destruct (_ =? 0); [apply R_destroy_group|R0]. Qed.
Lemma R_unref_mode : forall s w, R n w (unref_mode s w).
Proof.
  intros. unfold unref_mode. cbv zeta. eapply R_trans; [apply (R_drop s)|]. destruct (0 <? _); [R0|]. eapply R_trans; [apply (R_owner s)|]. eapply R_trans; [|apply R_free].
  destruct (home _ s); R0.
Qed.
Lemma R_destroy_device : forall d w, R n w (destroy_device d w).
Proof.
  intros. unfold destroy_device. cbv zeta. eapply R_trans; [apply (R_touch d)|]. eapply R_trans; [|apply R_free]. eapply R_trans; [|apply R_unref_seat].
  match goal with |- R n _ (match ?g with Some _ => _ | None => _ end) => destruct g end; [eapply R_trans; [|apply R_unref_group]|];
    (eapply R_trans; [|apply R_each, R_unref_mode]; eapply R_trans; [|apply R_each, R_unref_tool]; R0).
Qed.
Lemma R_unref_device : forall s w, R n w (unref_device s w).
Proof. intros. unfold unref_device. cbv zeta. eapply R_trans; [apply (R_drop s)|]. destruct (_ =? 0); [apply R_destroy_device|R0]. Qed.
Lemma R_unref : forall x w, R n w (unref x w).
Proof. intros. unfold unref. destruct (knd w x); [apply R_unref_seat|apply R_unref_device|apply R_unref_group|apply R_unref_tool|apply R_unref_mode]. Qed.
Lemma R_post_event : forall e w, R n w (post_event e w).
Proof. intros. unfold post_event. cbv zeta. eapply R_trans; [apply R_ctx|]. eapply R_trans; [apply (R_ref (e_dev e))|]. R0. Qed.
Lemma R_destroy_event : forall e w, R n w (destroy_event e w).
Proof.
  intros. unfold destroy_event. cbv zeta. eapply R_trans; [|apply R_unref_device].
  destruct (e_tool e), (e_mode e); repeat first [R0 | apply R_unref_tool | eapply R_trans; [|apply R_unref_mode]].
Qed.
(** Something new *)
Lemma R_new : forall w w', let x := next w in
  bad w' = bad w -> next w' = S x ->
  (forall y, y <> x -> live w' y = live w y /\ knd w' y = knd w y /\ name w' y = name w y /\ ident w' y = ident w y /\ seat_of w' y = seat_of w y /\ group_of w' y = group_of w y /\
                       ttype w' y = ttype w y /\ tserial w' y = tserial w y /\ home w' y = home w y) ->
  (U w -> group_of w' x = None) ->
  (forall s, In s (seats w') <-> In s (seats w) \/ (s = x /\ knd w' x = K_seat)) -> (knd w' x = K_seat -> forall s, In s (seats w) -> name w s <> name w' x) ->
  (forall g, In g (groups w') <-> In g (groups w) \/ (g = x /\ knd w' x = K_group)) -> (knd w' x = K_group -> forall g i, In g (groups w) -> ident w' x = Some i -> ident w g <> Some i) ->
  (forall t, In t (gtools w') <-> In t (gtools w) \/ (t = x /\ knd w' x = K_tool /\ home w' x = None)) ->
  (knd w' x = K_tool -> home w' x = None -> tserial w' x <> 0 /\ forall t, In t (gtools w) -> ttype w t = ttype w' x -> tserial w t <> tserial w' x) ->
  (U w -> forall d t, In t (tools w' d) <-> In t (tools w d) \/ (t = x /\ knd w' x = K_tool /\ home w' x = Some d)) ->
  (forall d, bad w = false -> U w -> knd w' x = K_tool -> home w' x = Some d -> tserial w' x = 0 /\ (d < x)%nat /\ forall t, In t (tools w d) -> ttype w t <> ttype w' x) ->
  R n w w'.
Proof.
  intros w w' x E0 E1 EY EG ES NS EGR NG ET NT EL NL. subst x. set (x := next w) in *. split; [lia|]. intros N E. split; [congruence|]. intros UW. specialize (EG UW). specialize (EL UW).
  assert (NL' := fun d => NL d ltac:(congruence) UW). clear NL.
  assert (DX : live w x = false). { destruct (live w x) eqn:Q; auto. apply (u_live _ UW) in Q. unfold x in Q. lia. }
  destruct UW.
  assert (LT : forall y, (y < x)%nat -> y <> x) by (intros; lia).
  assert (SX : forall s, In s (seats w) -> s <> x) by (intros s I; apply LT, u_seats0, I).
  assert (GX : forall s, In s (groups w) -> s <> x) by (intros s I; apply LT, u_groups0, I).
  assert (TX : forall s, In s (gtools w) -> s <> x) by (intros s I; apply LT, u_gtools0, I).
  assert (LX : forall s d, In s (tools w d) -> s <> x) by (intros s d I; apply LT, (u_tools0 s d I)).
  assert (OF : forall d g, group_of w' d = Some g -> group_of w d = Some g /\ (d < x)%nat /\ (g < x)%nat).
  { intros d g H. destruct (Nat.eq_dec d x) as [->|ND]; [congruence|]. destruct (EY d ND) as (_ & _ & _ & _ & _ & Q & _). rewrite Q in H. exact (conj H (u_of0 d g H)). }
  split.
  - constructor; rewrite ?E1.
    + intros y L. destruct (Nat.eq_dec y x) as [->|NY]; [lia|]. destruct (EY y NY) as (Q & _). rewrite Q in L. apply u_live0 in L. lia.
    + intros s L K. apply ES. destruct (Nat.eq_dec s x) as [->|NY]; auto. destruct (EY s NY) as (Q1 & Q2 & _). rewrite Q1 in L. rewrite Q2 in K. auto.
    + intros s I. apply ES in I. destruct I as [I|[-> _]]; [apply u_seats0 in I|]; lia.
    + intros s t I J Q. apply ES in I. apply ES in J. destruct I as [I|[-> K]], J as [J|[-> K']]; auto.
      * destruct (EY s (SX _ I)) as (_ & _ & Q3 & _), (EY t (SX _ J)) as (_ & _ & Q4 & _). apply u_seat0; auto. congruence.
      * exfalso. destruct (EY s (SX _ I)) as (_ & _ & Q3 & _). apply (NS K' s I). congruence.
      * exfalso. destruct (EY t (SX _ J)) as (_ & _ & Q3 & _). apply (NS K t J). congruence.
    + intros s L K. apply EGR. destruct (Nat.eq_dec s x) as [->|NY]; auto. destruct (EY s NY) as (Q1 & Q2 & _). rewrite Q1 in L. rewrite Q2 in K. auto.
    + intros s I. apply EGR in I. destruct I as [I|[-> _]]; [apply u_groups0 in I|]; lia.
    + intros s t i I J Q Q'. apply EGR in I. apply EGR in J. destruct I as [I|[-> K]], J as [J|[-> K']]; auto.
      * destruct (EY s (GX _ I)) as (_ & _ & _ & Q3 & _), (EY t (GX _ J)) as (_ & _ & _ & Q4 & _). apply (u_group0 s t i); auto; congruence.
      * exfalso. destruct (EY s (GX _ I)) as (_ & _ & _ & Q3 & _). apply (NG K' s i I Q'). congruence.
      * exfalso. destruct (EY t (GX _ J)) as (_ & _ & _ & Q3 & _). apply (NG K t i J Q). congruence.
    + intros d g H. apply OF in H. lia.
    + intros d e g H H' I. apply OF in H. apply OF in H'. destruct H as (H & _ & LG), H' as (H' & _). destruct (EY g (LT _ LG)) as (_ & _ & _ & Q3 & _). apply (u_alone0 d e g); auto. congruence.
    + intros t L K H. apply ET. destruct (Nat.eq_dec t x) as [->|NY]; auto. destruct (EY t NY) as (Q1 & Q2 & _ & _ & _ & _ & _ & _ & Q3). rewrite Q1 in L. rewrite Q2 in K. rewrite Q3 in H. auto.
    + intros t I. apply ET in I. destruct I as [I|(-> & K & H)].
      * destruct (EY t (TX _ I)) as (_ & _ & _ & _ & _ & _ & _ & Q2 & Q3). rewrite Q2, Q3. destruct (u_gtools0 t I) as (A & B & C). split; [lia|]. auto.
      * split; [lia|]. split; [apply NT; auto|auto].
    + intros s t I J Q Q'. apply ET in I. apply ET in J. destruct I as [I|(-> & K & H)], J as [J|(-> & K' & H')]; auto.
      * destruct (EY s (TX _ I)) as (_ & _ & _ & _ & _ & _ & A1 & A2 & _), (EY t (TX _ J)) as (_ & _ & _ & _ & _ & _ & B1 & B2 & _). apply u_tool0; auto; congruence.
      * exfalso. destruct (EY s (TX _ I)) as (_ & _ & _ & _ & _ & _ & A1 & A2 & _). destruct (NT K' H') as [_ X]. apply (X s I); congruence.
      * exfalso. destruct (EY t (TX _ J)) as (_ & _ & _ & _ & _ & _ & A1 & A2 & _). destruct (NT K H) as [_ X]. apply (X t J); congruence.
    + intros t d L K H. destruct (Nat.eq_dec t x) as [->|NY].
      * destruct (NL' d K H) as (A & B & _). split; [auto|lia].
      * destruct (EY t NY) as (_ & Q2 & _ & _ & _ & _ & _ & Q4 & Q3). rewrite Q2 in K. rewrite Q3 in H. rewrite Q4. destruct (u_home0 t d ltac:(lia) K H). split; [auto|lia].
    + intros t d L K H. apply EL. destruct (Nat.eq_dec t x) as [->|NY]; auto. destruct (EY t NY) as (Q1 & Q2 & _ & _ & _ & _ & _ & _ & Q3). rewrite Q1 in L. rewrite Q2 in K. rewrite Q3 in H. auto.
    + intros t d I. apply EL in I. destruct I as [I|(-> & K & H)].
      * destruct (EY t (LX _ _ I)) as (_ & Q2 & _ & _ & _ & _ & _ & _ & Q3). rewrite Q2, Q3. destruct (u_tools0 t d I) as (A & B & C). split; [lia|]. auto.
      * split; [lia|]. auto.
    + intros s t d I J Q. apply EL in I. apply EL in J. destruct I as [I|(-> & K & H)], J as [J|(-> & K' & H')]; auto.
      * destruct (EY s (LX _ _ I)) as (_ & _ & _ & _ & _ & _ & A1 & _), (EY t (LX _ _ J)) as (_ & _ & _ & _ & _ & _ & B1 & _). apply (u_local0 s t d); auto; congruence.
      * exfalso. destruct (EY s (LX _ _ I)) as (_ & _ & _ & _ & _ & _ & A1 & _). destruct (NL' d K' H') as (_ & _ & X). apply (X s I). congruence.
      * exfalso. destruct (EY t (LX _ _ J)) as (_ & _ & _ & _ & _ & _ & A1 & _). destruct (NL' d K H) as (_ & _ & X). apply (X t J). congruence.
  - constructor; [lia|..]; intros y Y; apply EY; lia.
Qed.
Lemma nf : forall (f : nat -> bool) l x, find f l = None -> In x l -> f x = false.
Proof. intros f l x H I. now apply (find_none f l H). Qed.
Ltac other := let y := fresh "y" in let Y := fresh "Y" in intros y Y; unfold alloc; cbv zeta; sm; rewrite ?upd_other by auto; repeat (split; [reflexivity|]); reflexivity.
Lemma no_group : forall w, U w -> group_of w (next w) = None.
Proof. intros w UW. destruct (group_of w (next w)) as [g|] eqn:E; auto. apply (u_of _ UW) in E. lia. Qed.
Lemma R_get_tool : forall d ty se w, R n w (snd (get_tool d ty se w)).
Proof.
  intros. unfold get_tool. cbv zeta. eapply R_trans; [apply (R_touch d)|]. assert (LD : bad (touch d w) = false -> live (touch d w) d = true) by apply bad_touch.
  set (v0 := touch d w) in *. clearbody v0. eapply R_trans; [apply R_ctx|].
  assert (LD' : bad (ctx v0) = false -> live (ctx v0) d = true). { unfold ctx. destruct (cx_live v0); auto. intros B. discriminate. }
  set (v := ctx v0) in *. clearbody v. clear LD.
  destruct (if se =? 0 then None else _) as [t|] eqn:F; [R0|]. destruct (find _ (tools v d)) as [t|] eqn:G; [R0|].
  destruct (se =? 0) eqn:Z; cbn [snd]; (apply R_new; [reflexivity|reflexivity|other|..]); unfold alloc; cbv zeta; sm; rewrite ?upd_same.
  - apply no_group.
  - intuition discriminate.
  - discriminate.
  - intuition discriminate.
  - discriminate.
  - intuition discriminate.
  - discriminate.
  - intros _ e t. unfold upd. destruct (Nat.eqb e d) eqn:E.
    + apply Nat.eqb_eq in E. subst e. cbn [In]. intuition.
    + apply Nat.eqb_neq in E. split; auto. intros [H|(_ & _ & H)]; auto. congruence.
  - intros e B UV _ H. injection H as <-. apply Z.eqb_eq in Z. split; [auto|]. split; [apply (u_live _ UV); auto|]. intros t I H. apply (nf _ _ _ G) in I. cbn beta in I. apply Z.eqb_neq in I. auto.
  - apply no_group.
  - intuition discriminate.
  - discriminate.
  - intuition discriminate.
  - discriminate.
  - cbn [In]. intuition.
  - intros _ _. apply Z.eqb_neq in Z. split; auto. intros t I H H'. apply (nf _ _ _ F) in I. cbn beta in I. rewrite H, H', !Z.eqb_refl in I. discriminate.
  - intuition discriminate.
  - discriminate.
Qed.
Lemma R_do_post : forall d p w, R n w (do_post d p w).
Proof.
  intros d [|ty se|i] w; cbn [do_post].
  - apply R_post_event.
  - pose proof (R_get_tool d ty se w) as G. destruct (get_tool d ty se w) as [t v]. eapply R_trans; [exact G|]. eapply R_trans; [apply (R_ref t)|apply R_post_event].
  - destruct (nth_error (modes w d) i) as [m|]; [|R0]. eapply R_trans; [apply (R_ref m)|apply R_post_event].
Qed.
Lemma R_do_posts : forall d ps w, R n w (do_posts d ps w).
Proof. intros d. unfold do_posts. induction ps as [|p ps IH]; intros w; cbn [fold_left]; [R0|]. eapply R_trans; [apply R_do_post|apply IH]. Qed.
Lemma R_remove_device : forall ps d w, R n w (remove_device ps d w).
Proof.
  intros. unfold remove_device. cbv zeta. eapply R_trans; [apply (R_touch d)|]. eapply R_trans; [apply (R_do_posts d ps)|]. eapply R_trans; [|apply R_unref_device].
  eapply R_trans; [|apply R_post_event]. eapply R_trans; [apply R_touch|R0].
Qed.
Lemma R_group_of : forall d g w, (n <= d)%nat -> (d < next w)%nat -> (g < next w)%nat -> (ident w g = None -> forall e, group_of w e = Some g -> e = d) -> R n w (set_group_of w (upd (group_of w) d (Some g))).
Proof.
  intros d g w ND DL GL AL. split; [auto|]. intros N B. split; [exact B|]. intros []. split; constructor; sm; auto.
  - intros e h. unfold upd. destruct (Nat.eqb e d) eqn:E; [|apply u_of0]. apply Nat.eqb_eq in E. subst e. intros H. injection H as <-. auto.
  - intros e f h. unfold upd. destruct (Nat.eqb e d) eqn:E, (Nat.eqb f d) eqn:E'; rewrite ?Nat.eqb_eq in *; intros H H' I; subst; auto.
    + injection H as <-. symmetry. auto.
    + injection H' as <-. auto.
    + eauto.
  - intros y Y. apply upd_other. lia.
Qed.
Lemma R_set_group : forall d i w, (n <= d)%nat -> (d < next w)%nat -> R n w (set_group d i w).
Proof.
  intros d i w ND DL. unfold set_group. cbv zeta. eapply R_trans; [apply R_ctx|]. assert (DL' : (d < next (ctx w))%nat) by (unfold ctx; destruct (cx_live w); exact DL).
  set (v := ctx w) in *. clearbody v. destruct (find_group i v) as [g|] eqn:F.
  - eapply R_trans; [|apply R_ref]. unfold find_group in F. destruct i as [i|]; [|discriminate]. apply find_some in F. destruct F as [I E].
    split; [auto|]. intros N B. split; [exact B|]. intros UV. pose proof (u_groups _ UV g I) as LG. apply (R_group_of d g v); auto.
    intros Q. rewrite Q in E. discriminate.
  - eapply R_trans; [|apply R_unref_group]. eapply R_trans; [|apply R_ref]. set (x := next v).
    match goal with |- R n _ (set_group_of ?W _) => assert (RN : R n v W); [|assert (NX : next W = S (next v)) by reflexivity; assert (GV : group_of W = group_of v) by reflexivity; set (v' := W) in *] end.
    { apply R_new; [reflexivity|reflexivity|other|..]; unfold alloc; cbv zeta; sm; rewrite ?upd_same.
      - apply no_group.
      - intuition discriminate.
      - discriminate.
      - unfold x. cbn [In]. intuition.
      - intros _ g j I E H. subst i. unfold find_group in F. apply (nf _ _ _ F) in I. cbn beta in I. rewrite H, Z.eqb_refl in I. discriminate.
      - intuition discriminate.
      - discriminate.
      - intuition discriminate.
      - discriminate. }
    clearbody v'. split; [destruct RN; sm; lia|]. intros N B. destruct RN as [L RN]. destruct (RN N B) as [B' RU]. split; auto. intros UV. destruct (RU UV) as [UV' KV].
    destruct (R_group_of d x v') as [_ X]; [auto|lia|unfold x; lia| |]. { intros _ e H. rewrite GV in H. apply (u_of _ UV) in H. unfold x in H. lia. }
    destruct (X ltac:(lia) B) as [_ Y]. destruct (Y UV') as [UY KY]. split; auto. eapply kept_trans; eauto.
Qed.
Lemma R_make_modes : forall k d w, R n w (make_modes k d w).
Proof.
  induction k as [|k IH]; intros; cbn [make_modes]; [R0|]. cbv zeta. eapply R_trans; [|apply IH].
  apply R_new; [reflexivity|reflexivity|other|..]; unfold alloc; cbv zeta; sm; rewrite ?upd_same.
  - apply no_group.
  - intuition discriminate.
  - discriminate.
  - intuition discriminate.
  - discriminate.
  - intuition discriminate.
  - discriminate.
  - intuition discriminate.
  - discriminate.
Qed.
Lemma R_dev : forall w v s, let x := next w in
  bad v = bad w -> next v = S x -> live v = upd (live w) x true -> knd v = upd (knd w) x K_device -> name v = name w -> ident v = ident w -> seat_of v = upd (seat_of w) x s ->
  group_of v = upd (group_of w) x None -> ttype v = ttype w -> tserial v = tserial w -> home v = home w -> seats v = seats w -> groups v = groups w -> gtools v = gtools w ->
  tools v = upd (tools w) x [] -> R n w v.
Proof.
  intros w v s x E0 E1 E2 E3 E4 E5 E6 E7 E8 E9 E10 E11 E12 E13 E14. apply R_new; fold x; rewrite ?E0, ?E1, ?E2, ?E3, ?E4, ?E5, ?E6, ?E7, ?E8, ?E9, ?E10, ?E11, ?E12, ?E13, ?E14, ?upd_same; auto;
    try discriminate; try (intuition discriminate).
  - intros y Y. rewrite !upd_other by auto. repeat (split; [reflexivity|]). reflexivity.
  - intros UW d t. unfold upd. destruct (Nat.eqb d x) eqn:E; [|intuition discriminate]. apply Nat.eqb_eq in E. subst d. split; [intros []|].
    intros [I|(_ & X & _)]; [|discriminate]. destruct (u_tools _ UW _ _ I) as (A & B & C). destruct (u_home _ UW _ _ A B C). unfold x in *. lia.
Qed.
Lemma R_set_devs : forall w f, R n w (set_devs w f). Proof. intros. R0. Qed.
Lemma R_blank : forall s w, R n w (blank s w).
Proof. intros s w. apply (R_dev w _ s); reflexivity. Qed.
Definition entered (s d : nat) (v : world) : world := post_event (mkE d None None) (set_devs v (upd (devs v) s (devs v s ++ [d]))).
Lemma create_blank : forall s a w, create_device s a w =
  match a_fate a with
  | Fails_early => w
  | Fails_late => destroy_device (next w) (make_modes (a_modes a) (next w) (ref s (blank s w)))
  | Works => entered s (next w) (set_group (next w) (a_group a) (make_modes (a_modes a) (next w) (ref s (blank s w))))
  end.
Proof. intros. unfold create_device. destruct (a_fate a); reflexivity. Qed.
Lemma R_entered : forall s d w, R n w (entered s d w).
Proof. intros. unfold entered. eapply R_trans; [|apply R_post_event]. apply R_set_devs. Qed.
Lemma next_blank : forall s w, next (blank s w) = S (next w). Proof. reflexivity. Qed.
Opaque blank entered.
Lemma R_late : forall s a w v, (n <= next w)%nat -> R n w v -> R n w (destroy_device (next w) (make_modes (a_modes a) (next w) (ref s v))).
Proof. intros s a w v N RN.
  eapply R_trans; [|apply R_destroy_device]. eapply R_trans; [|apply R_make_modes]. eapply R_trans; [|apply R_ref]. exact RN.
Qed.
Lemma R_works : forall s a w v, (n <= next w)%nat -> next v = S (next w) -> R n w v -> R n w (entered s (next w) (set_group (next w) (a_group a) (make_modes (a_modes a) (next w) (ref s v)))).
Proof. intros s a w v N NX RN.
  eapply R_trans; [|apply R_entered].
    eapply R_trans; [exact RN|]. eapply R_trans; [apply (R_ref s)|]. assert (N2 : next (ref s v) = next v) by (unfold ref, touch; destruct (live v s); reflexivity).
    set (v2 := ref s v) in *. clearbody v2. pose proof (R_make_modes (a_modes a) (next w) v2) as RM. set (v3 := make_modes (a_modes a) (next w) v2) in *. clearbody v3. apply (R_trans _ v3); [exact RM|].
    destruct RM as [L _]. apply R_set_group; [exact N|lia].
Qed.
Lemma R_create_device : forall s a w, (n <= next w)%nat -> R n w (create_device s a w).
Proof.
  intros s a w N. rewrite create_blank. pose proof (R_blank s w) as RN. pose proof (next_blank s w) as NX. destruct (a_fate a); [R0|apply R_late; auto|apply R_works; auto].
Qed.
Lemma R_add_device : forall a w, (n <= next w)%nat -> R n w (add_device a w).
Proof.
  intros a w N. unfold add_device. cbv zeta. eapply R_trans; [apply R_ctx|]. assert (N' : (n <= next (ctx w))%nat) by (unfold ctx; destruct (cx_live w); exact N).
  set (v := ctx w) in *. clearbody v. destruct (find_seat (a_seat a) v) as [s|] eqn:F.
  - pose proof (R_ref s v) as RR. eapply R_trans; [exact RR|]. eapply R_trans; [|apply R_unref_seat]. apply R_create_device. destruct RR. lia.
  - assert (RN : R n v (new_seat (a_seat a) v)).
    { apply R_new; [reflexivity|reflexivity|unfold new_seat; other|..]; unfold new_seat, alloc; cbv zeta; sm; rewrite ?upd_same.
      - apply no_group.
      - cbn [In]. intuition.
      - intros _ s I E. apply (nf _ _ _ F) in I. cbn beta in I. rewrite E, Z.eqb_refl in I. discriminate.
      - intuition discriminate.
      - discriminate.
      - intuition discriminate.
      - discriminate.
      - intuition discriminate.
      - discriminate. }
    eapply R_trans; [exact RN|]. destruct RN as [L _]. set (v' := new_seat (a_seat a) v) in *. clearbody v'.
    eapply R_trans; [|apply R_unref_seat]. assert (RR : R n v' (if udev v' then v' else ref (next v) v')) by (destruct (udev v'); [R0|apply R_ref]).
    eapply R_trans; [exact RR|]. destruct RR. apply R_create_device. lia.
Qed.
Lemma R_disable : forall ps w, R n w (disable ps w).
Proof.
  intros. unfold disable. apply R_each. intros s v. eapply R_trans; [apply (R_ref s)|]. eapply R_trans; [|apply R_unref_seat]. apply R_each. intros d v'. apply R_remove_device.
Qed.
Lemma R_suspend : forall ps w, R n w (suspend ps w).
Proof.
  intros. unfold suspend. cbv zeta. eapply R_trans; [apply R_ctx|]. set (v := ctx w). clearbody v. destruct (udev v); [destruct (enabled v)|].
  - eapply R_trans; [|apply R_disable]. R0.
  - R0.
  - apply R_disable.
Qed.
Lemma R_le : forall w v, (n <= next w)%nat -> R n w v -> (n <= next v)%nat. Proof. intros w v N [L _]. lia. Qed.
Lemma R_enable_path : forall ps l w, (n <= next w)%nat -> R n w (enable_path ps l w).
Proof.
  induction l as [|a l IH]; intros w N; cbn [enable_path]; [R0|]. cbv zeta. pose proof (R_add_device a w N) as RA. pose proof (R_le _ _ N RA) as N'. eapply R_trans; [exact RA|].
  destruct (a_fate a); [apply R_disable|apply R_disable|apply IH; exact N'].
Qed.
Lemma R_adds : forall l w, (n <= next w)%nat -> R n w (fold_left (fun w a => add_device a w) l w).
Proof.
  induction l as [|a l IH]; intros w N; cbn [fold_left]; [R0|]. pose proof (R_add_device a w N) as RA. pose proof (R_le _ _ N RA) as N'. eapply R_trans; [exact RA|apply IH; exact N'].
Qed.
Lemma R_set_enabled : forall w b, R n w (set_enabled w b). Proof. intros. R0. Qed.
Lemma R_resume : forall ps l w, (n <= next w)%nat -> R n w (resume ps l w).
Proof.
  intros ps l w N. unfold resume. cbv zeta. pose proof (R_ctx w) as RC. pose proof (R_le _ _ N RC) as N'. eapply R_trans; [exact RC|]. set (v := ctx w) in *. clearbody v. destruct (udev v); [destruct (enabled v)|].
  - R0.
  - eapply R_trans; [apply (R_set_enabled v true)|]. apply R_adds. exact N'.
  - apply R_enable_path. exact N'.
Qed.
Lemma R_unplug : forall ps d w, R n w (unplug ps d w).
Proof.
  intros. unfold unplug. cbv zeta. eapply R_trans; [apply (R_touch d)|]. eapply R_trans; [apply R_ctx|]. set (v := ctx (touch d w)). clearbody v.
  destruct (udev v).
  - destruct (existsb _ _); [apply R_remove_device|R0].
  - eapply R_trans; [apply (R_ref (seat_of v d))|]. eapply R_trans; [|apply R_unref_seat]. destruct (existsb _ _); [apply R_remove_device|R0].
Qed.
Lemma R_drain : forall k w, R n w (drain k w).
Proof. induction k as [|k IH]; intros; cbn [drain]; [R0|]. destruct (queue w) as [|e r]; [R0|]. eapply R_trans; [|apply IH]. eapply R_trans; [|apply R_destroy_event]. R0. Qed.
Lemma R_unref_context : forall ps w, R n w (unref_context ps w).
Proof.
  intros. unfold unref_context. cbv zeta. eapply R_trans; [apply R_ctx|]. set (v := ctx w). clearbody v.
  match goal with |- R n _ (if 0 <? cx_rc (set_cx_rc ?W ?n) then _ else _) => apply (R_trans _ (set_cx_rc W n)); [destruct (0 <? cx_rc v); R0|]; set (v' := set_cx_rc W n) end. clearbody v'.
  destruct (0 <? cx_rc v'); [R0|].
  match goal with |- R n _ (set_cx_live ?W _) => apply (R_trans _ W); [|R0] end.
  eapply R_trans; [|apply R_each, R_unref_tool]. eapply R_trans; [|apply R_each, R_destroy_group].
  eapply R_trans; [|apply R_each; intros s x; eapply R_trans; [|apply R_destroy_seat]; apply R_each, R_destroy_device].
  eapply R_trans; [|apply R_drain]. apply R_suspend.
Qed.
Lemma R_step : forall o w, (n <= next w)%nat -> R n w (step o w).
Proof.
  intros [a|ps d|d p|ps|ps l| |i|x|x| |ps] w N; cbn [step].
  - apply R_add_device. exact N.
  - apply R_unplug.
  - apply R_do_post.
  - apply R_suspend.
  - apply R_resume. exact N.
  - unfold get_event. cbv zeta. eapply R_trans; [apply R_ctx|]. destruct (queue _); R0.
  - destruct (nth_error (hand w) i); [|R0]. eapply R_trans; [|apply R_destroy_event]. R0.
  - apply R_ref.
  - apply R_unref.
  - cbv zeta. eapply R_trans; [apply R_ctx|]. R0.
  - apply R_unref_context.
Qed.
End N.
Lemma U_init : forall b, U (init b).
Proof. intros b. constructor; cbn; try discriminate; try tauto; intros; lia. Qed.
Lemma R_run : forall b l m, bad (run b (l ++ m)) = false -> U (run b l) /\ U (run b (l ++ m)) /\ kept (next (run b l)) (run b l) (run b (l ++ m)).
Proof.
  assert (G : forall b l m, R (next (run b l)) (run b l) (run b (l ++ m))).
  { intros b l m. induction m as [|o m IH] using rev_ind; [rewrite app_nil_r; apply R_refl|].
    rewrite app_assoc, run_app. eapply R_trans; [exact IH|]. apply R_step. destruct IH. lia. }
  assert (I : forall b l, bad (run b l) = false -> U (run b l)).
  { intros b l B. destruct (G b [] l) as [_ X]. cbn [app] in X. destruct (X ltac:(lia) B) as [_ Y]. apply Y. apply U_init. }
  intros b l m B. destruct (G b l m) as [_ X]. destruct (X ltac:(lia) B) as [B' Y]. split; [auto|]. apply Y. auto.
Qed.

