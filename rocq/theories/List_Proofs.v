Require Import Coq.ZArith.ZArith Coq.Lists.List Coq.Bool.Bool Coq.micromega.Lia.
Require Import Verif.List_Model Verif.List_Spec.
Import ListNotations.
Open Scope Z_scope.

Lemma chain_iff : forall m p, chain m p <-> forall p1 a b p2, p = p1 ++ a :: b :: p2 -> link m a b.
Proof.
  intros m p. induction p as [|x p IH].
  - split; [|constructor]. intros _ p1 a b p2 H. destruct p1; discriminate.
  - destruct p as [|y p].
    + split; [|constructor]. intros _ [|z [|w p1]] a b p2 H; discriminate.
    + cbn [chain]. split.
      * intros [H1 H2] [|z p1] a b p2 H; [injection H as <- <- _; auto|]. injection H as <- H. rewrite IH in H2. eapply H2; eauto.
      * intros H. split; [apply (H [] x y p); auto|]. apply IH. intros p1 a b p2 E. apply (H (x :: p1) a b p2). rewrite E. reflexivity.
Qed.
Lemma chain_app : forall m p a q, chain m (p ++ a :: q) <-> chain m (p ++ [a]) /\ chain m (a :: q).
Proof.
  intros m p a q. induction p as [|x p IH]; cbn [app].
  - split; [split; [exact I|auto]|tauto].
  - destruct p as [|y p]; cbn [app] in *.
    + cbn [chain]. destruct q; cbn; tauto.
    + cbn [chain]. cbn [chain] in IH. rewrite IH. tauto.
Qed.
(** A chain depends on [next] of all but its last and [prev] of all but its
    first node. *)
Lemma chain_frame : forall m m' p, (forall x, In x (removelast p) -> next (m' x) = next (m x)) ->
  (forall x, In x (tl p) -> prev (m' x) = prev (m x)) -> chain m p -> chain m' p.
Proof.
  intros m m' p. induction p as [|x p IH]; intros HN HP HC; [exact I|]. destruct p as [|y p]; [exact I|].
  destruct HC as [[H1 H2] HC]. split.
  - split.
    + rewrite HN; auto. left; auto.
    + rewrite HP; auto. left; auto.
  - apply IH; auto.
    + intros z I. apply HN. right. exact I.
    + intros z I. apply HP. right. exact I.
Qed.
Lemma store_same : forall m a n, store m a n a = n.
Proof. intros. unfold store. rewrite Z.eqb_refl. auto. Qed.
Lemma store_other : forall m a n x, x <> a -> store m a n x = m x.
Proof. intros. unfold store. destruct (Z.eqb_spec x a); congruence. Qed.

(** Splicing [e] in between [a] and [b], and out again. *)
Definition spliced (m m' : mem) (a e b : Z) : Prop :=
  next (m' a) = e /\ prev (m' e) = a /\ next (m' e) = b /\ prev (m' b) = e /\
  (forall x, x <> a -> x <> e -> next (m' x) = next (m x)) /\ (forall x, x <> b -> x <> e -> prev (m' x) = prev (m x)).
Lemma splice_in : forall m m' p a b q e, spliced m m' a e b -> chain m (p ++ a :: b :: q) ->
  ~ In a p -> ~ In a (removelast (b :: q)) -> ~ In b q -> ~ In b (tl (p ++ [a])) -> ~ In e (p ++ a :: b :: q) ->
  chain m' (p ++ a :: e :: b :: q).
Proof.
  intros m m' p a b q e (N1 & P1 & N2 & P2 & FN & FP) HC A1 A2 B1 B2 HE.
  apply chain_app in HC. destruct HC as [HC1 [HL HC2]].
  apply chain_app. split.
  - eapply chain_frame; [| |exact HC1].
    + intros x I. rewrite removelast_last in I. apply FN; [congruence|]. intros ->. apply HE. apply in_or_app; auto.
    + intros x I. apply FP; [congruence|]. intros ->. apply HE.
      assert (In e (p ++ [a])) by (destruct p; cbn in *; auto). apply in_app_or in H. apply in_or_app. destruct H as [H|[H|[]]]; [auto|right; left; auto].
  - split; [split; auto|]. split; [split; auto|]. eapply chain_frame; [| |exact HC2].
    + intros x I. apply FN; [congruence|]. intros ->. apply HE. apply in_or_app. right. right.
      clear - I. revert b I. induction q as [|y q IH]; intros b I; [destruct I|]. destruct I as [->|I]; [left; auto|right; apply IH; auto].
    + intros x I. apply FP; [cbn in I; congruence|]. intros ->. apply HE. apply in_or_app. right; right; right; auto.
Qed.
Definition unspliced (m m' : mem) (a e b : Z) : Prop :=
  next (m' a) = b /\ prev (m' b) = a /\
  (forall x, x <> a -> x <> e -> next (m' x) = next (m x)) /\ (forall x, x <> b -> x <> e -> prev (m' x) = prev (m x)).
Lemma splice_out : forall m m' p a b q e, unspliced m m' a e b -> chain m (p ++ a :: e :: b :: q) ->
  ~ In a p -> ~ In a (removelast (b :: q)) -> ~ In b q -> ~ In b (tl (p ++ [a])) -> ~ In e (p ++ a :: b :: q) ->
  chain m' (p ++ a :: b :: q).
Proof.
  intros m m' p a b q e (N1 & P1 & FN & FP) HC A1 A2 B1 B2 HE.
  apply chain_app in HC. destruct HC as [HC1 [_ [_ HC2]]].
  apply chain_app. split.
  - eapply chain_frame; [| |exact HC1].
    + intros x I. rewrite removelast_last in I. apply FN; [congruence|]. intros ->. apply HE. apply in_or_app; auto.
    + intros x I. apply FP; [congruence|]. intros ->. apply HE.
      assert (In e (p ++ [a])) by (destruct p; cbn in *; auto). apply in_app_or in H. apply in_or_app. destruct H as [H|[H|[]]]; [auto|right; left; auto].
  - split; [split; auto|]. eapply chain_frame; [| |exact HC2].
    + intros x I. apply FN; [congruence|]. intros ->. apply HE. apply in_or_app. right. right.
      clear - I. revert b I. induction q as [|y q IH]; intros b I; [destruct I|]. destruct I as [->|I]; [left; auto|right; apply IH; auto].
    + intros x I. apply FP; [cbn in I; congruence|]. intros ->. apply HE. apply in_or_app. right; right; right; auto.
Qed.

Lemma NoDup_app_one : forall (l : list Z) h, ~ In h l -> NoDup l -> NoDup (l ++ [h]).
Proof.
  induction l as [|a l IH]; intros h NI ND; cbn; [repeat constructor; auto|]. inversion ND; subst. constructor.
  - intros HI. apply in_app_or in HI. destruct HI as [HI|[HI|[]]]; [auto|]. subst. apply NI; left; auto.
  - apply IH; auto. intros HI. apply NI; right; auto.
Qed.
(** In the cycle h :: l ++ [h], cut at the element after [l1]. *)
Lemma cycle_cut : forall (h : Z) l p a b q, NoDup (h :: l) -> h :: l ++ [h] = p ++ a :: b :: q ->
  ~ In a p /\ ~ In a (removelast (b :: q)) /\ ~ In b q /\ ~ In b (tl (p ++ [a])).
Proof.
  intros h l p a b q ND E.
  assert (E1 : h :: l = p ++ a :: removelast (b :: q)).
  { assert (R : removelast (h :: l ++ [h]) = h :: l) by (change (h :: l ++ [h]) with ((h :: l) ++ [h]); apply removelast_last).
    rewrite <- R, E. rewrite removelast_app by discriminate. reflexivity. }
  assert (E2 : l ++ [h] = tl (p ++ [a]) ++ b :: q).
  { destruct p as [|x p]; cbn in *; injection E as <- E; rewrite E; auto. rewrite <- app_assoc. reflexivity. }
  assert (ND2 : NoDup (l ++ [h])).
  { inversion ND; subst. apply NoDup_app_one; auto. }
  rewrite E1 in ND. rewrite E2 in ND2. apply NoDup_remove_2 in ND, ND2.
  split; [|split; [|split]]; intros HI; [apply ND|apply ND|apply ND2|apply ND2]; apply in_or_app; auto.
Qed.

Lemma cycle_mem : forall (h : Z) l x, In x (h :: l ++ [h]) <-> In x (h :: l).
Proof. intros. cbn. rewrite in_app_iff. cbn. tauto. Qed.

Lemma linked_true : forall m x, linked m x = true <-> next (m x) <> 0 /\ prev (m x) <> 0.
Proof. intros. unfold linked. rewrite andb_true_iff, !negb_true_iff, !Z.eqb_neq. tauto. Qed.
Lemma free_unused : forall m e, free_node m e -> unused m e = true.
Proof.
  intros m e [H0 [[H1 H2]|[H1 H2]]]; unfold unused, list_empty, linked; rewrite H1, H2; [reflexivity|].
  assert (E : e =? 0 = false) by (apply Z.eqb_neq; auto). rewrite E, Z.eqb_refl. reflexivity.
Qed.
(** Inside a list every node has both neighbours. *)
Lemma head_out : forall m h l, is_list m h l -> link m h (hd h l) /\ link m (last l h) h.
Proof.
  intros m h l (_ & _ & HC). rewrite chain_iff in HC. split.
  - destruct l as [|x l]; [apply (HC [] h h []); auto|apply (HC [] h x (l ++ [h])); auto].
  - destruct l as [|x l'] using rev_ind; [apply (HC [] h h []); auto|]. rewrite last_last.
    apply (HC (h :: l') x h []). rewrite <- app_assoc. reflexivity.
Qed.
Lemma hd_in : forall (l : list Z) h, In (hd h l) (h :: l).
Proof. destruct l; cbn; auto. Qed.
Lemma last_in : forall (l : list Z) h, In (last l h) (h :: l).
Proof. intros. destruct l as [|x l] using rev_ind; [left; auto|]. rewrite last_last. right. apply in_or_app. right; left; auto. Qed.
Lemma in_cut : forall m h l1 e l2, is_list m h (l1 ++ e :: l2) -> link m (last l1 h) e /\ link m e (hd h l2).
Proof.
  intros m h l1 e l2 (_ & _ & HC). rewrite chain_iff in HC. split.
  - destruct l1 as [|x l1'] using rev_ind; [apply (HC [] h e (l2 ++ [h])); auto|]. rewrite last_last.
    apply (HC (h :: l1') x e (l2 ++ [h])). rewrite <- ?app_assoc; cbn; rewrite <- ?app_assoc; reflexivity.
  - destruct l2 as [|y l2].
    + apply (HC (h :: l1) e h []). rewrite <- app_assoc. reflexivity.
    + apply (HC (h :: l1) e y (l2 ++ [h])). rewrite <- app_assoc. reflexivity.
Qed.
Lemma list_linked : forall m h l x, is_list m h l -> In x (h :: l) -> linked m x = true.
Proof.
  intros m h l x HL HI. apply linked_true. assert (NZ : ~ In 0 (h :: l)) by apply HL.
  destruct HI as [<-|HI].
  - destruct (head_out m h l HL) as [[H1 _] [_ H2]]. rewrite H1, H2. split; intros E; apply NZ; rewrite <- E; [apply hd_in|apply last_in].
  - apply in_split in HI. destruct HI as (l1 & l2 & ->). destruct (in_cut m h l1 x l2 HL) as [[_ H2] [H1 _]]. rewrite H1, H2.
    split; intros E; apply NZ; rewrite <- E.
    + destruct l2; [left; auto|]. right. apply in_or_app. right; right; left; auto.
    + pose proof (last_in l1 h) as [F|F]; [left; auto|right; apply in_or_app; auto].
Qed.
(** An element of a list is not free. *)
Lemma list_not_free : forall m h l x, is_list m h l -> In x l -> unused m x = false.
Proof.
  intros m h l x HL HI. pose proof (list_linked m h l x HL (or_intror HI)) as HK.
  unfold unused, list_empty. rewrite HK. apply linked_true in HK. destruct HK as [K1 K2].
  apply Z.eqb_neq in K1. rewrite K1. cbn. apply Z.eqb_neq. intros E.
  apply in_split in HI. destruct HI as (l1 & l2 & ->). destruct (in_cut m h l1 x l2 HL) as [_ [H1 _]]. rewrite H1 in E.
  destruct HL as (ND & _). apply NoDup_cons_iff in ND. destruct ND as [NI ND']. destruct l2 as [|y l2].
  - cbn in E. apply NI. apply in_or_app. right. left; auto.
  - cbn in E. apply NoDup_remove_2 in ND'. apply ND'. apply in_or_app. right. left; auto.
Qed.
Ltac mem_simp := unfold set_next, set_prev, store; repeat (cbn [next prev]; match goal with
  | |- context [if ?a =? ?b then _ else _] => destruct (Z.eqb_spec a b); subst; try congruence end); cbn [next prev]; try congruence; auto.
Lemma insert_spliced : forall m l e m', e <> 0 -> e <> l -> next (m l) <> e -> list_insert m l e = Some m' -> spliced m m' l e (next (m l)).
Proof.
  intros m l e m' N0 NE NN H. unfold list_insert in H. destruct (linked m l && unused m e); [|discriminate]. injection H as <-.
  unfold spliced. remember (next (m l)) as b eqn:Eb.
  assert (Q : forall x, set_prev (set_next (set_next (set_prev m e l) e b) l e) b e x
     = if x =? e then {| prev := l; next := b |} else {| prev := if x =? b then e else prev (m x); next := if x =? l then e else next (m x) |}).
  { intros x. unfold set_next, set_prev, store. rewrite !Z.eqb_refl.
    repeat (match goal with |- context [?u =? ?v] => destruct (Z.eqb_spec u v); subst; try congruence end); cbn [next prev]; auto; try congruence; match goal with |- ?f ?y = _ => destruct (f y); auto end. }
  replace (next ((set_prev m e l) l)) with b by (subst b; unfold set_prev, store; destruct (Z.eqb_spec l e); [congruence|reflexivity]).
  replace (next (set_next (set_next (set_prev m e l) e b) l e e)) with b.
  2: { unfold set_next, store. destruct (Z.eqb_spec e l); [congruence|]. rewrite Z.eqb_refl. reflexivity. }
  rewrite !Q. rewrite !Z.eqb_refl. destruct (Z.eqb_spec l e); [congruence|]. destruct (Z.eqb_spec b e); [congruence|]. cbn [next prev].
  repeat split; auto; intros x X1 X2; rewrite Q; apply Z.eqb_neq in X1, X2; rewrite X1, X2; reflexivity.
Qed.
Lemma append_spliced : forall m l e m', e <> 0 -> e <> l -> prev (m l) <> e -> list_append m l e = Some m' -> spliced m m' (prev (m l)) e l.
Proof.
  intros m l e m' N0 NE NN H. unfold list_append in H. destruct (linked m l && unused m e); [|discriminate]. injection H as <-.
  unfold spliced. remember (prev (m l)) as b eqn:Eb.
  assert (Q : forall x, set_next (set_prev (set_prev (set_next m e l) e b) l e) b e x
     = if x =? e then {| prev := b; next := l |} else {| prev := if x =? l then e else prev (m x); next := if x =? b then e else next (m x) |}).
  { intros x. unfold set_next, set_prev, store. rewrite !Z.eqb_refl.
    repeat (match goal with |- context [?u =? ?v] => destruct (Z.eqb_spec u v); subst; try congruence end); cbn [next prev]; auto; try congruence; match goal with |- ?f ?y = _ => destruct (f y); auto end. }
  replace (prev ((set_next m e l) l)) with b by (subst b; unfold set_next, store; destruct (Z.eqb_spec l e); [congruence|reflexivity]).
  replace (prev (set_prev (set_prev (set_next m e l) e b) l e e)) with b.
  2: { unfold set_prev, store. destruct (Z.eqb_spec e l); [congruence|]. rewrite Z.eqb_refl. reflexivity. }
  rewrite !Q. rewrite !Z.eqb_refl. destruct (Z.eqb_spec l e); [congruence|]. destruct (Z.eqb_spec b e); [congruence|]. cbn [next prev].
  repeat split; auto; intros x X1 X2; rewrite Q; apply Z.eqb_neq in X1, X2; rewrite X1, X2; reflexivity.
Qed.
Lemma remove_unspliced : forall m e m', prev (m e) <> e -> next (m e) <> e -> list_remove m e = Some m' ->
  unspliced m m' (prev (m e)) e (next (m e)) /\ next (m' e) = 0 /\ prev (m' e) = 0.
Proof.
  intros m e m' N1 N2 H. unfold list_remove in H. destruct (linked m e); [|discriminate]. injection H as <-.
  remember (prev (m e)) as a eqn:Ea. remember (next (m e)) as b eqn:Eb.
  assert (R : set_next m a b e = m e) by (unfold set_next; apply store_other; auto).
  rewrite R, <- Ea, <- Eb.
  assert (Q : forall x, set_prev (set_next (set_prev (set_next m a b) b a) e 0) e 0 x
     = if x =? e then {| prev := 0; next := 0 |} else {| prev := if x =? b then a else prev (m x); next := if x =? a then b else next (m x) |}).
  { intros x. unfold set_next, set_prev, store. rewrite !Z.eqb_refl.
    repeat (match goal with |- context [?u =? ?v] => destruct (Z.eqb_spec u v); subst; try congruence end); cbn [next prev]; auto; try congruence; match goal with |- ?f ?y = _ => destruct (f y); auto end. }
  unfold unspliced. rewrite !Q, !Z.eqb_refl. destruct (Z.eqb_spec a e); [congruence|]. destruct (Z.eqb_spec b e); [congruence|]. cbn [next prev].
  repeat split; auto; intros x X1 X2; rewrite Q; apply Z.eqb_neq in X1, X2; rewrite X1, X2; reflexivity.
Qed.

Lemma init_spec : forall m h, h <> 0 -> is_list (list_init m h) h [] /\ same_outside [h] m (list_init m h).
Proof.
  intros m h H. split.
  - split; [repeat constructor; auto|]. split; [intros [E|[]]; auto|]. cbn. unfold link, list_init, set_next, set_prev.
    rewrite !store_same. cbn. auto.
  - intros x HX. unfold list_init, set_next, set_prev. rewrite !store_other; auto; intros ->; apply HX; left; auto.
Qed.
Lemma empty_spec : forall m h l, is_list m h l -> list_empty m h = Some (match l with [] => true | _ => false end).
Proof.
  intros m h l HL. unfold list_empty. rewrite (list_linked m h l h HL (or_introl eq_refl)).
  destruct (head_out m h l HL) as [[H1 _] _]. rewrite H1. f_equal. destruct l as [|x l]; cbn; [apply Z.eqb_refl|].
  apply Z.eqb_neq. destruct HL as (ND & _). inversion ND; subst. intros ->. apply H2. left; auto.
Qed.
Lemma spliced_frame : forall m m' a e b (s : list Z), spliced m m' a e b -> In a s -> In b s -> same_outside (e :: s) m m'.
Proof.
  intros m m' a e b s (_ & _ & _ & _ & FN & FP) Ia Ib x HX.
  assert (x <> a) by (intros ->; apply HX; right; auto). assert (x <> b) by (intros ->; apply HX; right; auto).
  assert (x <> e) by (intros ->; apply HX; left; auto).
  pose proof (FN x H H1). pose proof (FP x H0 H1). destruct (m x), (m' x); cbn in *; congruence.
Qed.
Lemma insert_spec : forall m h l e, is_list m h l -> free_node m e -> ~ In e (h :: l) ->
  exists m', list_insert m h e = Some m' /\ is_list m' h (e :: l) /\ same_outside (e :: h :: l) m m'.
Proof.
  intros m h l e HL HF NI. pose proof (free_unused m e HF) as HU. pose proof (list_linked m h l h HL (or_introl eq_refl)) as HK.
  assert (EX : exists m', list_insert m h e = Some m') by (unfold list_insert; rewrite HK, HU; eexists; reflexivity).
  destruct EX as [m' E]. exists m'. split; [exact E|].
  destruct (head_out m h l HL) as [[H1 _] _].
  assert (S : spliced m m' h e (hd h l)).
  { rewrite <- H1. apply insert_spliced; auto; [apply HF|intros W; apply NI; left; auto|rewrite H1; intros W; apply NI; rewrite <- W; apply hd_in]. }
  split; [|eapply spliced_frame; [exact S|left; auto|apply hd_in]].
  destruct HL as (ND & NZ & HC). split; [|split].
  - inversion ND; subst. constructor; [intros [->|HI]; [apply NI; left; auto|auto]|]. constructor; [intros HI; apply NI; right; auto|auto].
  - intros [E0|[E0|HI]]; [apply NZ; left; auto|destruct HF; congruence|apply NZ; right; auto].
  - assert (EQ : exists q, h :: l ++ [h] = [] ++ h :: hd h l :: q /\ l ++ [h] = hd h l :: q).
    { destruct l; eexists; split; reflexivity. }
    destruct EQ as (q & EQ & EQ2). destruct (cycle_cut h l [] h (hd h l) q ND EQ) as (A & B & C & D).
    cbn [app]. rewrite EQ2. apply (splice_in m m' [] h (hd h l) q e S); auto.
    + rewrite <- EQ. exact HC.
    + rewrite <- EQ. rewrite cycle_mem. exact NI.
Qed.
Lemma append_spec : forall m h l e, is_list m h l -> free_node m e -> ~ In e (h :: l) ->
  exists m', list_append m h e = Some m' /\ is_list m' h (l ++ [e]) /\ same_outside (e :: h :: l) m m'.
Proof.
  intros m h l e HL HF NI. pose proof (free_unused m e HF) as HU. pose proof (list_linked m h l h HL (or_introl eq_refl)) as HK.
  assert (EX : exists m', list_append m h e = Some m') by (unfold list_append; rewrite HK, HU; eexists; reflexivity).
  destruct EX as [m' E]. exists m'. split; [exact E|].
  destruct (head_out m h l HL) as [_ [_ H1]].
  assert (S : spliced m m' (last l h) e h).
  { rewrite <- H1. apply append_spliced; auto; [apply HF|intros W; apply NI; left; auto|rewrite H1; intros W; apply NI; rewrite <- W; apply last_in]. }
  split; [|eapply spliced_frame; [exact S|apply last_in|left; auto]].
  destruct HL as (ND & NZ & HC). split; [|split].
  - inversion ND; subst. constructor.
    + intros HI. apply in_app_or in HI. destruct HI as [HI|[HI|[]]]; [auto|subst; apply NI; left; auto].
    + apply NoDup_app_one; auto. intros HI; apply NI; right; auto.
  - intros [E0|HI]; [apply NZ; left; auto|]. apply in_app_or in HI. destruct HI as [HI|[HI|[]]]; [apply NZ; right; auto|destruct HF; congruence].
  - assert (EQ : exists p, h :: l ++ [h] = p ++ last l h :: h :: [] /\ h :: l = p ++ [last l h]).
    { destruct l as [|x l'] using rev_ind; [exists []; auto|]. exists (h :: l'). rewrite last_last. cbn. rewrite <- app_assoc. auto. }
    destruct EQ as (p & EQ & EQ2). destruct (cycle_cut h l p (last l h) h [] ND EQ) as (A & B & C & D).
    change (h :: (l ++ [e]) ++ [h]) with ((h :: l ++ [e]) ++ [h]). change (h :: l ++ [e]) with ((h :: l) ++ [e]). rewrite EQ2, <- !app_assoc. cbn [app].
    apply (splice_in m m' p (last l h) h [] e S); auto.
    + rewrite <- EQ. exact HC.
    + rewrite <- EQ. rewrite cycle_mem. exact NI.
Qed.
Lemma remove_spec : forall m h l1 e l2, is_list m h (l1 ++ e :: l2) ->
  exists m', list_remove m e = Some m' /\ is_list m' h (l1 ++ l2) /\ next (m' e) = 0 /\ prev (m' e) = 0 /\
             same_outside (h :: l1 ++ e :: l2) m m'.
Proof.
  intros m h l1 e l2 HL. assert (HIe : In e (h :: l1 ++ e :: l2)) by (right; apply in_or_app; right; left; auto).
  pose proof (list_linked m h _ e HL HIe) as HK.
  assert (EX : exists m', list_remove m e = Some m') by (unfold list_remove; rewrite HK; eexists; reflexivity).
  destruct EX as [m' E]. exists m'. split; [exact E|].
  destruct (in_cut m h l1 e l2 HL) as [[_ H2] [H1 _]].
  destruct HL as (ND & NZ & HC).
  assert (NE : ~ In e (h :: l1 ++ l2)).
  { change (h :: l1 ++ e :: l2) with ((h :: l1) ++ e :: l2) in ND. apply NoDup_remove_2 in ND. exact ND. }
  assert (Ia : In (last l1 h) (h :: l1 ++ l2)) by (destruct (last_in l1 h) as [F|F]; [left; auto|right; apply in_or_app; auto]).
  assert (Ib : In (hd h l2) (h :: l1 ++ l2)) by (destruct (hd_in l2 h) as [F|F]; [left; auto|right; apply in_or_app; auto]).
  assert (N1 : prev (m e) <> e) by (rewrite H2; intros F; apply NE; rewrite <- F at 1; auto).
  assert (N2 : next (m e) <> e) by (rewrite H1; intros F; apply NE; rewrite <- F at 1; auto).
  destruct (remove_unspliced m e m' N1 N2 E) as [S [Z1 Z2]]. rewrite H1, H2 in S.
  assert (ND' : NoDup (h :: l1 ++ l2)).
  { change (h :: l1 ++ e :: l2) with ((h :: l1) ++ e :: l2) in ND. apply NoDup_remove_1 in ND. exact ND. }
  split; [split; [exact ND'|split]|split; [exact Z1|split; [exact Z2|]]].
  - intros [F|F]; apply NZ; [left; auto|right]. apply in_app_or in F. apply in_or_app. destruct F; [auto|right; right; auto].
  - assert (EQ : exists p q, h :: l1 = p ++ [last l1 h] /\ l2 ++ [h] = hd h l2 :: q).
    { assert (exists p, h :: l1 = p ++ [last l1 h]) as [p P].
      { destruct l1 as [|x l'] using rev_ind; [exists []; auto|]. exists (h :: l'). rewrite last_last. auto. }
      exists p. destruct l2; eexists; split; [exact P|reflexivity|exact P|reflexivity]. }
    destruct EQ as (p & q & EQ1 & EQ2).
    assert (EQ : h :: (l1 ++ l2) ++ [h] = p ++ last l1 h :: hd h l2 :: q).
    { rewrite <- app_assoc, EQ2. change (h :: l1 ++ hd h l2 :: q) with ((h :: l1) ++ hd h l2 :: q). rewrite EQ1, <- app_assoc. reflexivity. }
    rewrite EQ. destruct (cycle_cut h (l1 ++ l2) p _ _ q ND' EQ) as (A & B & C & D).
    apply (splice_out m m' p _ _ q e S); auto.
    + assert (EQ3 : h :: (l1 ++ e :: l2) ++ [h] = p ++ last l1 h :: e :: hd h l2 :: q); [|rewrite <- EQ3; exact HC].
      rewrite <- app_assoc. cbn [app]. rewrite EQ2. change (h :: l1 ++ e :: hd h l2 :: q) with ((h :: l1) ++ e :: hd h l2 :: q). rewrite EQ1, <- app_assoc. reflexivity.
    + rewrite <- EQ, cycle_mem. exact NE.
  - intros x HX. destruct S as (_ & _ & FN & FP).
    assert (SUB : forall y, In y (h :: l1 ++ l2) -> In y (h :: l1 ++ e :: l2)).
    { intros y [F|F]; [left; auto|right]. apply in_app_or in F. apply in_or_app. destruct F; [auto|right; right; auto]. }
    assert (X1 : x <> last l1 h) by (intros ->; apply HX; auto). assert (X2 : x <> hd h l2) by (intros ->; apply HX; auto).
    assert (X3 : x <> e) by (intros ->; apply HX; auto).
    pose proof (FN x X1 X3). pose proof (FP x X2 X3). destruct (m x), (m' x); cbn in *; congruence.
Qed.
(** Another list sharing no node is untouched. *)
Lemma other_list : forall m m' s h l, same_outside s m m' -> (forall x, In x (h :: l) -> ~ In x s) -> is_list m h l -> is_list m' h l.
Proof.
  intros m m' s h l HS HD (ND & NZ & HC). split; [auto|]. split; [auto|]. eapply chain_frame; [| |exact HC].
  - intros x HI. rewrite HS; auto. apply HD. change (h :: l ++ [h]) with ((h :: l) ++ [h]) in HI. rewrite removelast_last in HI. exact HI.
  - intros x HI. rewrite HS; auto. apply HD. rewrite <- cycle_mem. right. exact HI.
Qed.
Lemma misuse : forall m h l g k x, is_list m h l -> In x l ->
  list_insert m g x = None /\ list_append m g x = None /\
  (next (m k) = 0 -> list_remove m k = None /\ list_empty m k = None /\ list_insert m k x = None).
Proof.
  intros m h l g k x HL HI. pose proof (list_not_free m h l x HL HI) as HU. unfold list_insert, list_append, list_remove, list_empty.
  rewrite HU, !andb_false_r. split; [auto|]. split; [auto|]. intros HK. unfold linked. rewrite HK. cbn. auto.
Qed.
Lemma for_each_from : forall m h l2 l1 fuel, is_list m h (l1 ++ l2) -> (length l2 < fuel)%nat ->
  for_each fuel m h (hd h l2) = Some l2.
Proof.
  intros m h l2. induction l2 as [|x l2 IH]; intros l1 fuel HL HF; destruct fuel as [|f]; try lia; cbn [hd for_each].
  - rewrite Z.eqb_refl. auto.
  - assert (NE : x <> h).
    { destruct HL as (ND & _). inversion ND; subst. intros ->. apply H1. apply in_or_app. right; left; auto. }
    apply Z.eqb_neq in NE. rewrite NE. destruct (in_cut m h l1 x l2 HL) as [_ [H1 _]]. rewrite H1.
    rewrite (IH (l1 ++ [x]) f); auto; [rewrite <- app_assoc; exact HL|cbn in HF; lia].
Qed.
Lemma for_each_spec : forall m h l fuel, is_list m h l -> (length l < fuel)%nat -> list_for_each fuel m h = Some l.
Proof.
  intros m h l fuel HL HF. unfold list_for_each. destruct (head_out m h l HL) as [[H1 _] _]. rewrite H1. apply (for_each_from m h l []); auto.
Qed.
Lemma for_each_safe_from : forall del h l2 l1 m fuel, is_list m h (l1 ++ l2) -> (length l2 < fuel)%nat ->
  exists m', for_each_safe fuel del m h (hd h l2) (next (m (hd h l2))) = Some (l2, m') /\
    is_list m' h (l1 ++ filter (fun x => negb (del x)) l2) /\ same_outside (h :: l1 ++ l2) m m' /\
    (forall x, In x l2 -> del x = true -> next (m' x) = 0 /\ prev (m' x) = 0).
Proof.
  intros del h l2. induction l2 as [|x l2 IH]; intros l1 m fuel HL HF; destruct fuel as [|f]; try (cbn in HF; lia); cbn [hd for_each_safe].
  - rewrite Z.eqb_refl. exists m. split; [auto|]. split; [exact HL|]. split; [intros y _; auto|intros y []].
  - assert (ND : NoDup (h :: l1 ++ x :: l2)) by apply HL.
    assert (NE : x <> h) by (inversion ND; subst; intros ->; apply H1; apply in_or_app; right; left; auto).
    apply Z.eqb_neq in NE. rewrite NE. destruct (in_cut m h l1 x l2 HL) as [_ [H1 _]]. rewrite H1. cbn [length] in HF.
    cbn [filter]. destruct (del x) eqn:ED; cbn [negb].
    + destruct (remove_spec m h l1 x l2 HL) as (m1 & E1 & HL1 & Z1 & Z2 & F1). rewrite E1.
      destruct (IH l1 m1 f HL1 ltac:(lia)) as (m2 & E2 & HL2 & F2 & D2). rewrite E2. exists m2. split; [auto|]. split; [auto|].
      assert (NX : ~ In x (h :: l1 ++ l2)).
      { change (h :: l1 ++ x :: l2) with ((h :: l1) ++ x :: l2) in ND. apply NoDup_remove_2 in ND. exact ND. }
      split.
      * intros y HY. rewrite F2; [apply F1; auto|]. intros [F|F]; apply HY; [left; auto|right]. apply in_app_or in F. apply in_or_app. destruct F; [auto|right; right; auto].
      * intros y [<-|HY] HD; [rewrite F2; auto|apply D2; auto].
    + assert (HL' : is_list m h ((l1 ++ [x]) ++ l2)) by (rewrite <- app_assoc; exact HL).
      destruct (IH (l1 ++ [x]) m f HL' ltac:(lia)) as (m2 & E2 & HL2 & F2 & D2). rewrite E2. exists m2.
      rewrite <- app_assoc in HL2, F2. split; [auto|]. split; [exact HL2|]. split; [exact F2|].
      intros y [<-|HY] HD; [congruence|apply D2; auto].
Qed.
Lemma for_each_safe_spec : forall del m h l fuel, is_list m h l -> (length l < fuel)%nat ->
  exists m', list_for_each_safe fuel del m h = Some (l, m') /\ is_list m' h (filter (fun x => negb (del x)) l) /\
    same_outside (h :: l) m m' /\ (forall x, In x l -> del x = true -> next (m' x) = 0 /\ prev (m' x) = 0).
Proof.
  intros del m h l fuel HL HF. unfold list_for_each_safe. destruct (head_out m h l HL) as [[H1 _] _]. rewrite H1.
  destruct (for_each_safe_from del h l [] m fuel HL HF) as (m' & A & B & C & D). exists m'. auto.
Qed.
