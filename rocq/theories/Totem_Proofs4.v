(** * The totem: proofs, the start *)
Require Import Coq.ZArith.ZArith Coq.QArith.QArith Coq.Lists.List Coq.Bool.Bool Coq.micromega.Lia.
Require Import Verif.Totem_Model Verif.Totem_Spec Verif.Totem_Proofs Verif.Totem_Proofs2 Verif.Totem_Proofs3.
Import ListNotations.
Open Scope Z_scope.

Definition pl (v : kern) : place := {| val := v; on := negb (Z.eqb (k_id v) (-1)); was := negb (Z.eqb (k_id v) (-1)); fresh := false |}.
Lemma start_slots_ok : forall c ks n n2 l o, start_slots c n ks = (n2, l, o) ->
  Forall2 (rel c) (map pl ks) l /\ (n <= n2)%nat /\ NoDup (tools l) /\ (forall t, In t (tools l) -> (n <= t < n2)%nat) /\
  (forall t, fold_left (live1 t) o Out = L t l) /\ (forall t z, (t < n)%nat \/ (n2 <= t)%nat -> fold_left (live1 t) o z = z) /\ (forall z, fold_left press1 o z = z) /\ (forall d z, fold_left (told1 d) o z = z) /\
  Forall2 (fun p s => on p = true -> says_what c (val p) (ax s)) (map pl ks) l.
Proof.
  intros c. induction ks as [|k ks IH]; intros n n2 l o H.
  - injection H; intros; subst. cbn. repeat split; auto; try constructor; contradiction.
  - cbn [start_slots] in H. destruct (start_slot c n k) as [[n1 s] o1] eqn:H1. destruct (start_slots c n1 ks) as [[n3 l3] o2] eqn:H2. injection H; intros; subst n3 l o. clear H.
    destruct (IH _ _ _ _ H2) as [A1 [A2 [A3 [A4 [A5 [A6 [A7 [A8 A9]]]]]]]]. unfold start_slot in H1. cbn [map]. unfold pl at 1 3. destruct (Z.eqb (k_id k) (-1)) eqn:E.
    + injection H1; intros; subst n1 s o1. cbn [negb]. refine (conj _ (conj A2 (conj A3 (conj A4 (conj _ (conj A6 (conj A7 (conj A8 _)))))))).
      * constructor; [| exact A1]. unfold rel. cbn. repeat split; discriminate.
      * exact A5.
      * constructor; [cbn; discriminate | exact A9].
    + destruct (fetch c _) as [[[up a] d] s2] eqn:F. destruct (fetch_all _ _ _ _ _ _ F) as [B1 [B2 [B3 [B4 [B5 B6]]]]]. cbn in B3, B4. injection H1; intros; subst n1 s o1. cbn [negb].
      assert (X : forall t, In t (tools l3) -> t <> n) by (intros t T; apply A4 in T; lia).
      refine (conj _ (conj _ (conj _ (conj _ (conj _ (conj _ (conj _ (conj _ _)))))))).
      * constructor; [| exact A1]. unfold rel. cbn. refine (conj B3 (conj eq_refl _)). intros _. refine (conj _ (conj _ eq_refl)); [eauto |]. unfold AX. cbn. rewrite B2, B3. destruct B1 as [C1 [C2 [C3 [C4 C5]]]]. auto.
      * lia.
      * rewrite tools_cons. unfold tl_. cbn [tool set_chg set_st]. rewrite B4. cbn. constructor; [| exact A3]. intro T. apply A4 in T. lia.
      * intro t. rewrite tools_cons. unfold tl_. cbn [tool set_chg set_st]. rewrite B4. cbn. intros [T|T]; [lia | apply A4 in T; lia].
      * intro t. rewrite L_cons. unfold isdn. cbn [tool set_chg set_st st dn]. rewrite B4. cbn. destruct (Nat.eqb n t) eqn:T.
        -- apply Nat.eqb_eq in T. subst t. rewrite ?Nat.eqb_refl. cbn. apply A6. lia.
        -- cbn. apply A5.
      * intros t z T. cbn. assert (Y : Nat.eqb n t = false) by (apply Nat.eqb_neq; lia). rewrite Y. apply A6. lia.
      * intro z. cbn. destruct z; apply A7.
      * intros u z. cbn. apply A8.
      * constructor; [| exact A9]. intros _. cbn. rewrite B2. exact B1.
Qed.
Lemma start_inv : forall c ks k d, inv c (at_start ks k) d (fst (start c ks k d)) (snd (start c ks k d)).
Proof.
  intros c ks k d. unfold start. destruct (start_slots c 0 ks) as [[n l] o] eqn:H. destruct (start_slots_ok _ _ _ _ _ _ H) as [A1 [A2 [A3 [A4 [A5 [A6 [A7 [A8 A9]]]]]]]].
  destruct (set_touch c _ _) as [w o2] eqn:H2. cbn [fst snd]. destruct (set_touch_ok _ _ _ _ _ H2) as [S1 [S2 [S3 [S4 [S5 [S6 [S7 [S8 [S9 [S10 S11]]]]]]]]]]; [intro X; apply negb_false_iff in X; exact X |]. cbn [cur kcur slots touch g arb] in *.
  split; rewrite ?S3, ?S5; cbn [bnow bprev next]; try assumption; try reflexivity.
  - intros t T. apply A4 in T. lia.
  - intro t. rewrite lives_app, S6. apply A5.
  - rewrite pressed_app, S7. unfold pressed. rewrite A7. reflexivity.
  - intros u D. rewrite told_app. unfold told. rewrite A8. destruct d as [v|].
    + destruct D as [D|D]; [apply S10; exact D |]. rewrite S11 in D by discriminate. apply negb_false_iff in D. destruct (Nat.eq_dec v u) as [->|NE]; [rewrite (S9 u) by reflexivity; rewrite D; reflexivity | apply S10; congruence].
    + destruct (S8 eq_refl) as [_ ->]. reflexivity.
Qed.
Lemma all_inv : forall c ks k d l, behaves (at_start ks k) l -> inv c (history ks k l) (partner d l) (fst (run c (fst (start c ks k d)) l)) (events c ks k d l).
Proof. intros. apply run_inv; [apply start_inv | assumption]. Qed.
Lemma run_app : forall c a b w, run c w (a ++ b) = let '(w1, o1) := run c w a in let '(w2, o2) := run c w1 b in (w2, o1 ++ o2).
Proof. intros c. induction a as [|e a IH]; intros b w; cbn; [destruct (run c w b); reflexivity |]. destruct (step c w e) as [w1 o1]. rewrite IH. destruct (run c w1 a) as [w2 o2]. destruct (run c w2 b) as [w3 o3]. rewrite app_assoc. reflexivity. Qed.
Lemma behaves_app : forall a b W, behaves W (a ++ b) -> behaves W a /\ behaves (fold_left happens a W) b.
Proof. induction a as [|e a IH]; intros b W H; [split; [exact I | exact H] |]. destruct H as [H1 H2]. apply IH in H2. destruct H2. repeat split; assumption. Qed.
