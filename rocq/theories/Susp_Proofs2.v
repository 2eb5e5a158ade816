Require Import Coq.ZArith.ZArith Coq.Lists.List Coq.Bool.Bool Coq.micromega.Lia.
Require Import Verif.Susp_Model Verif.Susp_Spec Verif.Susp_Proofs.
Import ListNotations.

(** [Lp], [Tp]: enabled lid and tablet mode switches; [Ton]: those in tablet mode; [cl]: closed; [U], [C]: a usable mouse, any mouse *)
Definition Inv (c : pad) (Lp Tp Ton : nat -> Prop) (cl : list nat) (U C : Prop) (s : state) : Prop :=
  (forall i, lid_of s = Some i <-> internal c = true /\ Lp i) /\ (r_lid s = true <-> exists i, lid_of s = Some i /\ In i cl) /\
  (forall i, tm_of s = Some i <-> internal c = true /\ no_tm c = false /\ Tp i) /\ (r_tm s = true <-> exists i, tm_of s = Some i /\ Ton i) /\
  r_send s = Z.eqb (mode s) 1 /\ (mode s = 2%Z -> U -> r_mouse s = true) /\ (r_mouse s = true -> mode s = 2%Z /\ C).
Lemma inv_congr : forall c Lp Tp Ton cl (U C : Prop) Lp' Tp' Ton' cl' (U' C' : Prop) s, Inv c Lp Tp Ton cl U C s ->
  (forall i, Lp i <-> Lp' i) -> (forall i, Tp i <-> Tp' i) -> (forall i, Tp i -> (Ton i <-> Ton' i)) -> (forall i, Lp i -> (In i cl <-> In i cl')) -> (U' -> U) -> (C -> C') -> Inv c Lp' Tp' Ton' cl' U' C' s.
Proof.
  intros c Lp Tp Ton cl U C Lp' Tp' Ton' cl' U' C' s [A [B [D [E [F [G H]]]]]] HL HT HTo Hc HU HC. refine (conj _ (conj _ (conj _ (conj _ (conj F (conj _ _)))))).
  - intro i. rewrite A, HL. reflexivity.
  - rewrite B. split; intros [i [X Y]]; exists i; split; auto; apply Hc; auto; apply A; exact X.
  - intro i. rewrite D, HT. reflexivity.
  - rewrite E. split; intros [i [X Y]]; exists i; split; auto; apply HTo; auto; apply D; exact X.
  - auto.
  - intro X. destruct (H X). auto.
Qed.
Lemma inv_core : forall c Lp Tp Ton cl U C s, Inv c Lp Tp Ton cl U C (core s) <-> Inv c Lp Tp Ton cl U C s.
Proof. intros. unfold Inv, core. cbn. reflexivity. Qed.
Lemma inv_others : forall c Lp Tp Ton cl U C s l, Inv c Lp Tp Ton cl U C (with_others s l) <-> Inv c Lp Tp Ton cl U C s.
Proof. intros. unfold Inv. cbn. reflexivity. Qed.
Lemma core_in : forall c Lp Tp Ton cl U C s, Inv c Lp Tp Ton cl U C (core s) -> Inv c Lp Tp Ton cl U C s.
Proof. intros. apply inv_core. assumption. Qed.
Lemma core_out : forall c Lp Tp Ton cl U C s, Inv c Lp Tp Ton cl U C s -> Inv c Lp Tp Ton cl U C (core s).
Proof. intros. apply inv_core. assumption. Qed.
Lemma others_in : forall c Lp Tp Ton cl U C s l, Inv c Lp Tp Ton cl U C s -> Inv c Lp Tp Ton cl U C (with_others s l).
Proof. intros. apply inv_others. assumption. Qed.
Lemma none_of : forall (x : option nat), (forall i, x <> Some i) -> x = None.
Proof. intros [i|] H; [exfalso; apply (H i); reflexivity | reflexivity]. Qed.
Lemma inv_added : forall c Lp Tp Ton cl U C s d, Inv c Lp Tp Ton cl U C s -> (lidsw d = true -> forall i, ~ Lp i) -> (tmsw d = true -> forall i, ~ Tp i) -> ~ In (did d) cl -> (Ton (did d) <-> tmstate d = true) ->
  Inv c (fun i => Lp i \/ (i = did d /\ lidsw d = true)) (fun i => Tp i \/ (i = did d /\ tmsw d = true)) Ton cl (U \/ mouse d = true) (C \/ mouse d = true) (c_added c s d).
Proof.
  intros c Lp Tp Ton cl U C s d IV NL NT NC TS. unfold c_added. cbn zeta.
  assert (I1 : Inv c (fun i => Lp i \/ (i = did d /\ lidsw d = true)) Tp Ton cl U C (pair_lid c s d)).
  { destruct IV as [A [B [D [E [F [G H]]]]]]. unfold pair_lid. destruct (lidsw d) eqn:LS; cbn [negb orb].
    - case_eq (internal c); intro IN; cbn [negb].
      + assert (LN : lid_of s = None) by (apply none_of; intros i X; apply A in X; apply (NL eq_refl i); apply X). rewrite LN. refine (conj _ (conj _ (conj D (conj E (conj F (conj G H)))))); cbn.
        * intro i. split; [intro X; injection X as <-; auto |]. intros [_ [X|[-> _]]]; [destruct (NL eq_refl i X) | reflexivity].
        * rewrite B, LN. split; intros [i [X Y]]; [discriminate | injection X as <-; contradiction].
      + refine (conj _ (conj B (conj D (conj E (conj F (conj G H)))))). intro i. rewrite A, IN. split; intros [X _]; discriminate.
    - refine (conj _ (conj B (conj D (conj E (conj F (conj G H)))))). intro i. rewrite A. split; intros [X Y]; split; auto; destruct Y as [Y|[_ Y]]; [exact Y | discriminate]. }
  set (s1 := pair_lid c s d) in *. clearbody s1.
  set (s2 := if negb (tmsw d) then s1 else _). assert (I2 : Inv c (fun i => Lp i \/ (i = did d /\ lidsw d = true)) (fun i => Tp i \/ (i = did d /\ tmsw d = true)) Ton cl U C s2).
  { destruct I1 as [A [B [D [E [F [G H]]]]]]. unfold s2. destruct (tmsw d) eqn:TW; cbn [negb].
    - destruct (negb (internal c) || no_tm c) eqn:IN.
      + assert (X : (match tm_of s1 with Some _ => s1 | None => s1 end) = s1) by (destruct (tm_of s1); reflexivity). rewrite X. refine (conj A (conj B (conj _ (conj E (conj F (conj G H)))))).
        intro i. rewrite D. apply orb_true_iff in IN. destruct IN as [IN|IN]; [apply negb_true_iff in IN |]; rewrite IN; split; intros [Y [Z _]]; discriminate.
      + apply orb_false_iff in IN. destruct IN as [IN NM]. apply negb_false_iff in IN.
        assert (TN : tm_of s1 = None) by (apply none_of; intros i X; apply D in X; apply (NT eq_refl i); apply X). rewrite TN.
        assert (RT : r_tm s1 = false) by (destruct (r_tm s1) eqn:R; auto; destruct (proj1 E eq_refl) as [i [X _]]; rewrite TN in X; discriminate).
        assert (D' : forall i, Some (did d) = Some i <-> internal c = true /\ no_tm c = false /\ (Tp i \/ i = did d /\ true = true)).
        { intro i. split; [intro X; injection X as <-; auto |]. intros [_ [_ [X|[-> _]]]]; [destruct (NT eq_refl i X) | reflexivity]. }
        cbn zeta. destruct (tmstate d) eqn:TD; refine (conj A (conj B (conj D' (conj _ (conj F (conj G H)))))); cbn.
        * split; [intros _; exists (did d); split; [reflexivity | apply TS; reflexivity] | reflexivity].
        * rewrite RT. split; [discriminate |]. intros [i [X Y]]. injection X as <-. apply TS in Y. discriminate.
    - refine (conj A (conj B (conj _ (conj E (conj F (conj G H)))))). intro i. rewrite D. split; intros [X [Y Z]]; repeat split; auto; destruct Z as [Z|[_ Z]]; [exact Z | discriminate]. }
  clearbody s2. destruct I2 as [A [B [D [E [F [G H]]]]]]. destruct (Z.eqb (mode s2) 2) eqn:M; cbn [andb].
  - apply Z.eqb_eq in M. destruct (mouse d) eqn:MD.
    + refine (conj A (conj B (conj D (conj E (conj F (conj _ _)))))); cbn; auto.
    + refine (conj A (conj B (conj D (conj E (conj F (conj _ _)))))); [intros X [Y|Y]; [auto | discriminate] | intro X; split; [apply H; exact X | left; apply H; exact X]].
  - refine (conj A (conj B (conj D (conj E (conj F (conj _ _)))))); [intros X; rewrite X in M; discriminate | intro X; destruct (H X) as [Y _]; rewrite Y in M; discriminate].
Qed.
Lemma is_dev_eq : forall x d, is_dev x d = true <-> x = Some (did d).
Proof. intros [i|] d; cbn; [rewrite Nat.eqb_eq; split; [intros -> | intro X; injection X]; auto | split; discriminate]. Qed.
Lemma inv_removed : forall c Lp Tp Ton cl U C s d (U' C' : Prop), Inv c Lp Tp Ton cl U C s -> (existsb (fun e => negb (Nat.eqb (did e) (did d)) && mouse e) (others s) = true <-> C') -> (U' -> U) -> (U' -> C') ->
  Inv c (fun i => Lp i /\ i <> did d) (fun i => Tp i /\ i <> did d) Ton (remove Nat.eq_dec (did d) cl) U' C' (c_removed s d).
Proof.
  intros c Lp Tp Ton cl U C s d U' C' IV EX HU HC. unfold c_removed. cbn zeta.
  set (s1 := if is_dev (lid_of s) d then _ else _).
  assert (O1 : others s1 = others s) by (unfold s1; destruct (is_dev (lid_of s) d); reflexivity).
  assert (I1 : Inv c (fun i => Lp i /\ i <> did d) Tp Ton (remove Nat.eq_dec (did d) cl) U C s1).
  { destruct IV as [A [B [D [E [F [G H]]]]]]. unfold s1. destruct (is_dev (lid_of s) d) eqn:X.
    - apply is_dev_eq in X. refine (conj _ (conj _ (conj D (conj E (conj F (conj G H)))))); cbn.
      + intro i. split; [discriminate |]. intros [Y [Z W]]. exfalso. apply W. assert (K : lid_of s = Some i) by (apply A; auto). rewrite X in K. injection K as ->. reflexivity.
      + split; [discriminate | intros [i [Y _]]; discriminate].
    - assert (ND : forall i, lid_of s = Some i -> i <> did d) by (intros i Y ->; apply is_dev_eq in Y; congruence).
      refine (conj _ (conj _ (conj D (conj E (conj F (conj G H)))))).
      + intro i. rewrite A. split; intros [Y Z]; split; auto; [split; [exact Z | apply ND; apply A; auto] | apply Z].
      + rewrite B. split; intros [i [Y Z]]; exists i; split; auto; [apply in_in_remove; auto | apply (in_remove Nat.eq_dec cl i (did d)); exact Z]. }
  clearbody s1. set (s2 := if is_dev (tm_of s1) d then _ else _). assert (O2 : others s2 = others s1) by (unfold s2; destruct (is_dev (tm_of s1) d); reflexivity).
  assert (I2 : Inv c (fun i => Lp i /\ i <> did d) (fun i => Tp i /\ i <> did d) Ton (remove Nat.eq_dec (did d) cl) U C s2).
  { destruct I1 as [A [B [D [E [F [G H]]]]]]. unfold s2. destruct (is_dev (tm_of s1) d) eqn:X.
    - apply is_dev_eq in X. refine (conj A (conj B (conj _ (conj _ (conj F (conj G H)))))); cbn.
      + intro i. split; [discriminate |]. intros [Y [Y' [Z W]]]. exfalso. apply W. assert (K : tm_of s1 = Some i) by (apply D; auto). rewrite X in K. injection K as ->. reflexivity.
      + split; [discriminate | intros [i [Y _]]; discriminate].
    - assert (ND : forall i, tm_of s1 = Some i -> i <> did d) by (intros i Y ->; apply is_dev_eq in Y; congruence).
      refine (conj A (conj B (conj _ (conj E (conj F (conj G H)))))). intro i. rewrite D. split; intros [Y [Y' Z]]; (refine (conj Y (conj Y' _))); [split; [exact Z | apply ND; apply D; auto] | apply Z]. }
  clearbody s2. rewrite O2, O1. destruct I2 as [A [B [D [E [F [G H]]]]]].
  destruct (existsb _ (others s)) eqn:XB.
  - rewrite andb_false_r. refine (conj A (conj B (conj D (conj E (conj F (conj _ _)))))); auto. intro X. split; [apply H; exact X | apply EX; reflexivity].
  - destruct (Z.eqb (mode s2) 2) eqn:M; cbn [andb negb].
    + refine (conj A (conj B (conj D (conj E (conj F (conj _ _)))))); cbn; [intros _ X; apply HC in X; apply EX in X; discriminate | discriminate].
    + refine (conj A (conj B (conj D (conj E (conj F (conj _ _)))))); [auto | intro X; destruct (H X) as [Y _]; rewrite Y in M; discriminate].
Qed.
Lemma removed_others : forall s d, others (c_removed s d) = others s.
Proof. intros s d. unfold c_removed. cbn zeta. destruct (_ && _), (is_dev (lid_of s) d); destruct (is_dev (tm_of _) d); reflexivity. Qed.
Lemma added_others : forall c s d, others (c_added c s d) = others s.
Proof.
  intros c s d. assert (P : others (pair_lid c s d) = others s) by (unfold pair_lid; destruct (_ || _); [reflexivity | destruct (lid_of s); reflexivity]). unfold c_added. cbn zeta.
  set (s2 := if negb (tmsw d) then _ else _). assert (Q : others s2 = others s) by (unfold s2; destruct (negb (tmsw d)); [exact P |]; destruct (tm_of _); [exact P |]; destruct (_ || _); [exact P |]; destruct (tmstate d); exact P).
  destruct (_ && _); exact Q.
Qed.
Lemma removed_mode : forall s d, mode (c_removed s d) = mode s.
Proof. intros s d. unfold c_removed. cbn zeta. destruct (_ && _), (is_dev (lid_of s) d); destruct (is_dev (tm_of _) d); reflexivity. Qed.
Lemma added_mode : forall c s d, mode (c_added c s d) = mode s.
Proof.
  intros c s d. assert (P : mode (pair_lid c s d) = mode s) by (unfold pair_lid; destruct (_ || _); [reflexivity | destruct (lid_of s); reflexivity]). unfold c_added. cbn zeta.
  set (s2 := if negb (tmsw d) then _ else _). assert (Q : mode s2 = mode s) by (unfold s2; destruct (negb (tmsw d)); [exact P |]; destruct (tm_of _); [exact P |]; destruct (_ || _); [exact P |]; destruct (tmstate d); exact P).
  destruct (_ && _); exact Q.
Qed.
