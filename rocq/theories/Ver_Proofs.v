Require Import Coq.ZArith.ZArith Coq.Lists.List Coq.Bool.Bool Coq.micromega.Lia.
Require Import Verif.Ver_Model Verif.Ver_Spec.
Import ListNotations.
Open Scope Z_scope.

(** The same comparison as a machine over the common prefix. *)
Inductive st := SN | SI | SZ | SF.
Definition nxt (s : st) (c : Z) : st :=
  if isdigit c then match s with SN => if c =? 48 then SZ else SI | SI => SI | SZ => if c =? 48 then SZ else SF | SF => SF end else SN.
Fixpoint run (s : list Z) : Z := match s with c :: r => if isdigit c then 1 + run r else 0 | [] => 0 end.
Definition key (t : st) (s : list Z) : Z * Z :=
  let c := hd 0 s in
  match t with
  | SN => (if isdigit c && negb (c =? 48) then run s else 0, c)
  | SI => (run s, c)
  | SZ => (if isdigit c then 0 else 1, c)
  | SF => (0, c)
  end.
Definition kcmp (a b : Z * Z) : comparison := match fst a ?= fst b with Eq => snd a ?= snd b | o => o end.
Fixpoint vcmp (t : st) (l r : list Z) : comparison :=
  match l, r with
  | [], [] => Eq
  | c :: l', d :: r' => if c =? d then vcmp (nxt t c) l' r' else kcmp (key t l) (key t r)
  | _, _ => kcmp (key t l) (key t r)
  end.

Lemma run_nonneg : forall s, 0 <= run s.
Proof. induction s; cbn [run]; [lia|destruct (isdigit a); lia]. Qed.
Lemma add_cmp : forall k a b, (k + a ?= k + b) = (a ?= b).
Proof. intros. destruct (Z.compare_spec a b); [rewrite H; apply Z.compare_refl|apply Z.compare_lt_iff; lia|apply Z.compare_gt_iff; lia]. Qed.
Lemma runs_cmp : forall l r, bytes l -> bytes r -> runs l r = match run l ?= run r with Eq => 0 | Lt => -1 | Gt => 1 end.
Proof.
  induction l as [|c l IH]; intros r HL HR.
  - cbn [runs run]. destruct r as [|d r]; cbn [hd run]; [reflexivity|]. pose proof (run_nonneg r). destruct (isdigit d).
    + replace (0 ?= 1 + run r) with Lt by (symmetry; apply Z.compare_lt_iff; lia). auto.
    + reflexivity.
  - cbn [runs run]. pose proof (run_nonneg l). destruct (isdigit c).
    + destruct r as [|d r]; cbn [hd tl run].
      * replace (1 + run l ?= 0) with Gt by (symmetry; apply Z.compare_gt_iff; lia). reflexivity.
      * pose proof (run_nonneg r). destruct (isdigit d); cbn [negb].
        -- rewrite IH; [|inversion HL; auto|inversion HR; auto]. rewrite add_cmp. reflexivity.
        -- replace (1 + run l ?= 0) with Gt by (symmetry; apply Z.compare_gt_iff; lia). reflexivity.
    + destruct r as [|d r]; cbn [hd run]; [reflexivity|]. pose proof (run_nonneg r). destruct (isdigit d); [|reflexivity].
      replace (0 ?= 1 + run r) with Lt by (symmetry; apply Z.compare_lt_iff; lia). auto.
Qed.
Lemma runs_nodigit : forall s, isdigit (hd 0 s) = false -> run s = 0.
Proof. destruct s; cbn; auto. intros ->. auto. Qed.
(** What the function returns once the prefix loop stopped. *)
Definition leaf (l r : list Z) (dl dr : Z) (z past : bool) : Z :=
  if negb (dl =? 48) && negb (dr =? 48) then let k := runs l r in if k =? 0 then hd 0 l - hd 0 r else k
  else if z && past && (isdigit (hd 0 l) || isdigit (hd 0 r)) then (hd 0 l - 48) mod 256 - (hd 0 r - 48) mod 256
  else hd 0 l - hd 0 r.
Lemma sub_cmp : forall a b, (a - b ?= 0) = (a ?= b).
Proof. intros. destruct (Z.compare_spec a b); [rewrite H, Z.sub_diag; auto|apply Z.compare_lt_iff; lia|apply Z.compare_gt_iff; lia]. Qed.
Lemma hd_range : forall s, bytes s -> 0 <= hd 0 s <= 255.
Proof. intros s H. destruct s; cbn; [lia|]. inversion H; lia. Qed.
Lemma isdigit_iff : forall c, isdigit c = true <-> 48 <= c <= 57.
Proof. intros. unfold isdigit. rewrite andb_true_iff, !Z.leb_le. tauto. Qed.
Lemma isdigit_niff : forall c, isdigit c = false <-> ~ (48 <= c <= 57).
Proof. intros. rewrite <- isdigit_iff. destruct (isdigit c); intuition congruence. Qed.
Lemma mod_hi : forall c, 0 <= c <= 255 -> ~ 48 <= c <= 57 -> 10 <= (c - 48) mod 256.
Proof.
  intros c H1 H2. destruct (Z_lt_le_dec c 48).
  - rewrite <- (Z.mod_add _ 1) by lia. rewrite Z.mod_small; lia.
  - rewrite Z.mod_small; lia.
Qed.
Lemma mod_lo : forall c, 48 <= c <= 57 -> (c - 48) mod 256 = c - 48.
Proof. intros. apply Z.mod_small. lia. Qed.
Lemma runs_leaf : forall l r, bytes l -> bytes r ->
  ((let k := runs l r in if k =? 0 then hd 0 l - hd 0 r else k) ?= 0) = kcmp (run l, hd 0 l) (run r, hd 0 r).
Proof.
  intros l r HL HR. cbv zeta. rewrite runs_cmp by auto. unfold kcmp. cbn [fst snd]. destruct (run l ?= run r); cbn; auto. apply sub_cmp.
Qed.
Lemma leaf_N : forall l r, bytes l -> bytes r -> hd 0 l <> hd 0 r -> (leaf l r (hd 0 l) (hd 0 r) true false ?= 0) = kcmp (key SN l) (key SN r).
Proof.
  intros l r HL HR NE. unfold leaf, key. cbv zeta. cbn [andb].
  destruct (Z.eqb_spec (hd 0 l) 48) as [E1|E1]; destruct (Z.eqb_spec (hd 0 r) 48) as [E2|E2]; cbn [negb andb].
  - lia.
  - rewrite sub_cmp, E1, andb_true_r. cbn [isdigit]. unfold kcmp; cbn [fst snd]. change (isdigit 48 && false) with false. cbn iota.
    destruct (isdigit (hd 0 r)) eqn:D; [|reflexivity]. destruct r as [|d r]; [cbn in D; discriminate|]. cbn [run hd] in *. rewrite D. pose proof (run_nonneg r).
    apply isdigit_iff in D. replace (0 ?= 1 + run r) with Lt by (symmetry; apply Z.compare_lt_iff; lia). apply Z.compare_lt_iff. lia.
  - rewrite sub_cmp, E2, andb_true_r. unfold kcmp; cbn [fst snd]. change (isdigit 48 && false) with false. cbn iota.
    destruct (isdigit (hd 0 l)) eqn:D; [|reflexivity]. destruct l as [|d l]; [cbn in D; discriminate|]. cbn [run hd] in *. rewrite D. pose proof (run_nonneg l).
    apply isdigit_iff in D. replace (1 + run l ?= 0) with Gt by (symmetry; apply Z.compare_gt_iff; lia). apply Z.compare_gt_iff. lia.
  - rewrite !andb_true_r. rewrite runs_leaf by auto.
    assert (K : forall s, (if isdigit (hd 0 s) then run s else 0) = run s).
    { intros s. destruct (isdigit (hd 0 s)) eqn:D; [auto|symmetry; apply runs_nodigit; auto]. }
    rewrite !K. reflexivity.
Qed.
Lemma leaf_I : forall l r d z p, bytes l -> bytes r -> d <> 48 -> (leaf l r d d z p ?= 0) = kcmp (key SI l) (key SI r).
Proof. intros l r d z p HL HR ND. unfold leaf. apply Z.eqb_neq in ND. rewrite ND. cbn [negb andb]. apply runs_leaf; auto. Qed.
Lemma leaf_Z : forall l r, bytes l -> bytes r -> (leaf l r 48 48 true true ?= 0) = kcmp (key SZ l) (key SZ r).
Proof.
  intros l r HL HR. unfold leaf, key, kcmp. cbn [negb andb Z.eqb Pos.eqb fst snd]. cbv zeta. pose proof (hd_range l HL). pose proof (hd_range r HR).
  destruct (isdigit (hd 0 l)) eqn:D1; destruct (isdigit (hd 0 r)) eqn:D2; cbn [orb fst snd]; rewrite sub_cmp.
  - apply isdigit_iff in D1, D2. rewrite !mod_lo by auto. cbn. rewrite <- (add_cmp (-48) (hd 0 l) (hd 0 r)). f_equal; lia.
  - apply isdigit_iff in D1. apply isdigit_niff in D2. pose proof (mod_hi _ H0 D2). rewrite mod_lo by auto. cbn. apply Z.compare_lt_iff. lia.
  - apply isdigit_niff in D1. apply isdigit_iff in D2. pose proof (mod_hi _ H D1). rewrite (mod_lo (hd 0 r)) by auto. cbn. apply Z.compare_gt_iff. lia.
  - reflexivity.
Qed.
Lemma leaf_F : forall l r p, (leaf l r 48 48 false p ?= 0) = kcmp (key SF l) (key SF r).
Proof. intros. unfold leaf, key, kcmp. cbn. apply sub_cmp. Qed.

(** [prefix] from a state of the machine. *)
Definition rep (t : st) (p : list Z) (dp : nat) (z : bool) : Prop :=
  match t with
  | SN => dp = length p /\ z = true
  | SI => (dp < length p)%nat /\ nth dp p 0 <> 48
  | SZ => (dp < length p)%nat /\ nth dp p 0 = 48 /\ z = true
  | SF => (dp < length p)%nat /\ nth dp p 0 = 48 /\ z = false
  end.
Lemma rep_next : forall t p dp z c, rep t p dp z ->
  rep (nxt t c) (p ++ [c]) (if isdigit c then dp else S (length p)) (if isdigit c then if c =? 48 then z else false else true).
Proof.
  intros t p dp z c H. unfold nxt. destruct (isdigit c) eqn:D.
  2: { unfold rep. rewrite app_length. cbn. split; [lia|auto]. }
  destruct t; unfold rep in *; destruct (Z.eqb_spec c 48) as [->|N]; rewrite app_length; cbn [length].
  - destruct H as [-> ->]. rewrite app_nth2, Nat.sub_diag by lia. cbn. split; [lia|auto].
  - destruct H as [-> ->]. rewrite app_nth2, Nat.sub_diag by lia. cbn. split; [lia|auto].
  - destruct H as [H1 H2]. rewrite app_nth1 by lia. split; [lia|auto].
  - destruct H as [H1 H2]. rewrite app_nth1 by lia. split; [lia|auto].
  - destruct H as (H1 & H2 & H3). rewrite app_nth1 by lia. split; [lia|auto].
  - destruct H as (H1 & H2 & H3). rewrite app_nth1 by lia. split; [lia|auto].
  - destruct H as (H1 & H2 & H3). rewrite app_nth1 by lia. split; [lia|auto].
  - destruct H as (H1 & H2 & H3). rewrite app_nth1 by lia. split; [lia|auto].
Qed.
Lemma nth_hd : forall (l : list Z), nth 0 l 0 = hd 0 l.
Proof. destruct l; auto. Qed.
Definition finish (l r : list Z) (o : option (nat * nat * bool)) : Z :=
  match o with
  | None => 0
  | Some (i, dp, z) =>
      if negb (at_ l dp =? 48) && negb (at_ r dp =? 48) then
        let k := runs (skipn i l) (skipn i r) in
        if k =? 0 then at_ l i - at_ r i else k
      else if z && (dp <? i)%nat && (isdigit (at_ l i) || isdigit (at_ r i)) then
        (at_ l i - 48) mod 256 - (at_ r i - 48) mod 256
      else at_ l i - at_ r i
  end.
Lemma finish_leaf : forall t p l r dp z, rep t p dp z -> bytes l -> bytes r -> hd 0 l <> hd 0 r ->
  (finish (p ++ l) (p ++ r) (Some (length p, dp, z)) ?= 0) = kcmp (key t l) (key t r).
Proof.
  intros t p l r dp z HR HL HR' NE. unfold finish.
  assert (A1 : forall s, at_ (p ++ s) (length p) = hd 0 s) by (intros; unfold at_; rewrite app_nth2, Nat.sub_diag by lia; apply nth_hd).
  assert (A2 : forall s, skipn (length p) (p ++ s) = s) by (intros; rewrite skipn_app, skipn_all, Nat.sub_diag; reflexivity).
  rewrite !A1, !A2. destruct t; unfold rep in HR.
  - destruct HR as [-> ->]. rewrite !A1, Nat.ltb_irrefl. apply leaf_N; auto.
  - destruct HR as [H1 H2]. unfold at_. rewrite !app_nth1 by auto. apply leaf_I; auto.
  - destruct HR as (H1 & H2 & ->). unfold at_. rewrite !app_nth1, H2 by auto. apply Nat.ltb_lt in H1. rewrite H1. apply leaf_Z; auto.
  - destruct HR as (H1 & H2 & ->). unfold at_. rewrite !app_nth1, H2 by auto. apply (leaf_F l r (dp <? length p)%nat); auto.
Qed.
Lemma prefix_vcmp : forall l r t p dp z, rep t p dp z -> bytes l -> bytes r ->
  (finish (p ++ l) (p ++ r) (prefix l r (length p) dp z) ?= 0) = vcmp t l r.
Proof.
  induction l as [|c l IH]; intros [|d r] t p dp z HR HL HR'.
  - reflexivity.
  - cbn [prefix vcmp]. apply finish_leaf; auto. inversion HR'; subst. cbn. lia.
  - cbn [prefix vcmp]. apply finish_leaf; auto. inversion HL; subst. cbn. lia.
  - cbn [prefix vcmp]. destruct (Z.eqb_spec c d) as [<-|N]; [|apply finish_leaf; auto].
    pose proof (rep_next t p dp z c HR) as HN. inversion HL; inversion HR'; subst.
    replace (p ++ c :: l) with ((p ++ [c]) ++ l) by (rewrite <- app_assoc; reflexivity).
    replace (p ++ c :: r) with ((p ++ [c]) ++ r) by (rewrite <- app_assoc; reflexivity).
    replace (S (length p)) with (length (p ++ [c])) by (rewrite app_length; cbn; lia).
    destruct (isdigit c); cbn [negb]; rewrite <- (IH r (nxt t c) (p ++ [c]) _ _ HN) by auto; [reflexivity|].
    replace (S (length p)) with (length (p ++ [c])) by (rewrite app_length; cbn; lia). reflexivity.
Qed.
Lemma ver_vcmp : forall l r, bytes l -> bytes r -> (strverscmp l r ?= 0) = vcmp SN l r.
Proof. intros l r HL HR. apply (prefix_vcmp l r SN [] 0 true); auto. split; auto. Qed.

Lemma kcmp_refl : forall a, kcmp a a = Eq.
Proof. intros. unfold kcmp. rewrite !Z.compare_refl. auto. Qed.
Lemma kcmp_eq : forall a b, kcmp a b = Eq -> a = b.
Proof.
  intros [a1 a2] [b1 b2]. unfold kcmp. cbn. destruct (a1 ?= b1) eqn:E; try discriminate. intros H. apply Z.compare_eq in E, H. congruence.
Qed.
Lemma kcmp_anti : forall a b, kcmp b a = CompOpp (kcmp a b).
Proof.
  intros [a1 a2] [b1 b2]. unfold kcmp. cbn. rewrite (Z.compare_antisym a1 b1). destruct (a1 ?= b1) eqn:E; cbn; auto. apply Z.compare_antisym.
Qed.
Lemma kcmp_trans : forall a b c, kcmp a b = Lt -> kcmp b c = Lt -> kcmp a c = Lt.
Proof.
  intros [a1 a2] [b1 b2] [c1 c2]. unfold kcmp. cbn.
  destruct (Z.compare_spec a1 b1), (Z.compare_spec b1 c1), (Z.compare_spec a1 c1); try discriminate; try lia; auto; rewrite !Z.compare_lt_iff; lia.
Qed.
Lemma key_byte : forall t s, snd (key t s) = hd 0 s.
Proof. destruct t; reflexivity. Qed.
Lemma kcmp_ne : forall t l r, hd 0 l <> hd 0 r -> kcmp (key t l) (key t r) <> Eq.
Proof. intros t l r N E. apply kcmp_eq in E. apply N. rewrite <- !(key_byte t), E. auto. Qed.
Lemma vcmp_refl : forall l t, vcmp t l l = Eq.
Proof. induction l; intros; cbn; auto. rewrite Z.eqb_refl. auto. Qed.
Lemma vcmp_eq : forall l r t, bytes l -> bytes r -> vcmp t l r = Eq -> l = r.
Proof.
  induction l as [|c l IH]; intros [|d r] t HL HR H; auto.
  - exfalso. revert H. apply kcmp_ne. inversion HR; cbn; lia.
  - exfalso. revert H. apply kcmp_ne. inversion HL; cbn; lia.
  - cbn [vcmp] in H. destruct (Z.eqb_spec c d) as [<-|N]; [f_equal; inversion HL; inversion HR; eapply IH; eauto|].
    exfalso. revert H. apply kcmp_ne. auto.
Qed.
Lemma vcmp_anti : forall l r t, vcmp t r l = CompOpp (vcmp t l r).
Proof.
  induction l as [|c l IH]; intros [|d r] t; cbn [vcmp]; auto using kcmp_anti.
  rewrite (Z.eqb_sym d c). destruct (Z.eqb_spec c d) as [<-|N]; [apply IH|apply kcmp_anti].
Qed.
(** The comparison refines the one by keys. *)
Lemma vcmp_run : forall l r, bytes l -> bytes r -> run l < run r -> vcmp SI l r = Lt.
Proof.
  induction l as [|c l IH]; intros [|d r] HL HR H; cbn [vcmp].
  - cbn in H. lia.
  - unfold kcmp, key. cbn [fst]. replace (run [] ?= run (d :: r)) with Lt by (symmetry; apply Z.compare_lt_iff; auto). auto.
  - unfold kcmp, key. cbn [fst]. replace (run (c :: l) ?= run []) with Lt by (symmetry; apply Z.compare_lt_iff; auto). auto.
  - destruct (Z.eqb_spec c d) as [<-|N].
    + cbn [run] in H. unfold nxt. destruct (isdigit c); [|lia]. inversion HL; inversion HR; apply IH; auto. lia.
    + unfold kcmp, key. cbn [fst]. replace (run (c :: l) ?= run (d :: r)) with Lt by (symmetry; apply Z.compare_lt_iff; auto). auto.
Qed.
Lemma vcmp_key : forall l r t, bytes l -> bytes r -> kcmp (key t l) (key t r) = Lt -> vcmp t l r = Lt.
Proof.
  intros [|c l] [|d r] t HL HR H; cbn [vcmp]; auto.
  - rewrite kcmp_refl in H. discriminate.
  - destruct (Z.eqb_spec c d) as [<-|N]; auto. revert H. unfold key, kcmp. cbn [hd]. inversion HL; inversion HR; subst.
    destruct t; cbn [fst snd]; rewrite ?Z.compare_refl.
    + unfold nxt. destruct (isdigit c) eqn:D; cbn [andb]; [|rewrite ?Z.compare_refl; discriminate]. destruct (c =? 48); cbn [negb]; [rewrite Z.compare_refl; discriminate|].
      cbn [run]. rewrite D. destruct (Z.compare_spec (1 + run l) (1 + run r)); try discriminate. intros _. apply vcmp_run; auto. lia.
    + cbn [run]. unfold nxt. destruct (isdigit c) eqn:D; [|rewrite ?Z.compare_refl; discriminate].
      destruct (Z.compare_spec (1 + run l) (1 + run r)); try discriminate. intros _. apply vcmp_run; auto. lia.
    + destruct (isdigit c); rewrite ?Z.compare_refl; discriminate.
    + cbn. rewrite ?Z.compare_refl. discriminate.
Qed.
Lemma vcmp_ne : forall l r t, hd 0 l <> hd 0 r -> vcmp t l r = kcmp (key t l) (key t r).
Proof. intros [|c l] [|d r] t N; cbn [vcmp]; auto. cbn in N; congruence. destruct (Z.eqb_spec c d); auto. cbn in N. congruence. Qed.
Lemma vcmp_le_key : forall l r t, bytes l -> bytes r -> vcmp t l r = Lt -> kcmp (key t l) (key t r) <> Gt.
Proof.
  intros l r t HL HR H E. rewrite kcmp_anti in E. assert (E2 : kcmp (key t r) (key t l) = Lt) by (destruct (kcmp (key t r) (key t l)); auto; discriminate).
  apply vcmp_key in E2; auto. rewrite vcmp_anti, H in E2. discriminate.
Qed.
Lemma vcmp_trans : forall a b c t, bytes a -> bytes b -> bytes c -> vcmp t a b = Lt -> vcmp t b c = Lt -> vcmp t a c = Lt.
Proof.
  induction a as [|x a IH]; intros b c t HA HB HC H1 H2.
  - destruct c as [|z c].
    + rewrite vcmp_anti in H1. destruct b; cbn [vcmp] in *; [discriminate|]. rewrite H2 in H1. discriminate.
    + destruct b as [|y b]; [exact H2|].
      pose proof (vcmp_le_key _ _ _ HB HC H2) as K2.
      assert (K1 : kcmp (key t []) (key t (y :: b)) = Lt) by exact H1.
      cbn [vcmp]. destruct (kcmp (key t (y :: b)) (key t (z :: c))) eqn:E; [apply kcmp_eq in E; rewrite <- E; auto|eapply kcmp_trans; eauto|congruence].
  - pose proof (vcmp_le_key _ _ _ HA HB H1) as K1. pose proof (vcmp_le_key _ _ _ HB HC H2) as K2.
    assert (K : hd 0 (x :: a) <> hd 0 b \/ hd 0 b <> hd 0 c -> kcmp (key t (x :: a)) (key t c) = Lt).
    { intros [N|N].
      - rewrite vcmp_ne in H1 by auto. destruct (kcmp (key t b) (key t c)) eqn:E; [apply kcmp_eq in E; rewrite <- E; auto|eapply kcmp_trans; eauto|congruence].
      - rewrite vcmp_ne in H2 by auto. destruct (kcmp (key t (x :: a)) (key t b)) eqn:E; [apply kcmp_eq in E; rewrite E; auto|eapply kcmp_trans; eauto|congruence]. }
    destruct b as [|y b]; [apply vcmp_key; auto; apply K; left; inversion HA; cbn; lia|].
    destruct (Z.eq_dec x y) as [<-|N]; [|apply vcmp_key; auto; apply K; left; auto].
    destruct c as [|z c]; [apply vcmp_key; auto; apply K; right; inversion HB; cbn; lia|].
    destruct (Z.eq_dec x z) as [<-|N]; [|apply vcmp_key; auto; apply K; right; auto].
    cbn [vcmp] in *. rewrite Z.eqb_refl in *. inversion HA; inversion HB; inversion HC; subst. apply (IH b c (nxt t x)); auto.
Qed.

(** Numbers. *)
Lemma digit_is : forall c, digit c <-> isdigit c = true.
Proof. intros. unfold digit. symmetry. apply isdigit_iff. Qed.
Lemma run_app : forall d s, Forall digit d -> no_digit_first s -> run (d ++ s) = Z.of_nat (length d).
Proof.
  induction d as [|c d IH]; intros s HD HS; cbn [app run length].
  - apply runs_nodigit. destruct s; cbn; auto. cbn in HS. rewrite digit_is in HS. destruct (isdigit z); auto. congruence.
  - inversion HD; subst. rewrite digit_is in H1. rewrite H1, IH by auto. lia.
Qed.
Lemma value_acc : forall d v, fold_left (fun v c => 10 * v + (c - 48)) d v = v * 10 ^ Z.of_nat (length d) + value d.
Proof.
  intros d. unfold value. induction d as [|c d IH]; intros v; [cbn; lia|]. cbn [fold_left length]. rewrite IH, (IH (10 * 0 + (c - 48))).
  rewrite Nat2Z.inj_succ, Z.pow_succ_r by lia. ring.
Qed.
Lemma value_cons : forall c d, value (c :: d) = (c - 48) * 10 ^ Z.of_nat (length d) + value d.
Proof. intros. unfold value at 1. cbn [fold_left]. rewrite value_acc. ring. Qed.
Lemma value_bound : forall d, Forall digit d -> 0 <= value d < 10 ^ Z.of_nat (length d).
Proof.
  induction d as [|c d IH]; intros HD; [cbn; lia|]. inversion HD; subst. rewrite value_cons. specialize (IH H2). destruct H1.
  cbn [length]. rewrite Nat2Z.inj_succ, Z.pow_succ_r by lia. nia.
Qed.
Lemma number_big : forall d, number d -> d = [] \/ 10 ^ (Z.of_nat (length d) - 1) <= value d.
Proof.
  intros [|c d] [HD HN]; [left; auto|right]. inversion HD; subst. rewrite value_cons. pose proof (value_bound d H2). destruct H1. cbn in HN.
  cbn [length]. replace (Z.of_nat (S (length d)) - 1) with (Z.of_nat (length d)) by lia. nia.
Qed.
Lemma vcmp_same_length : forall d1 d2 t1 t2, length d1 = length d2 -> Forall digit d1 -> Forall digit d2 -> no_digit_first t1 -> no_digit_first t2 ->
  value d1 < value d2 -> vcmp SI (d1 ++ t1) (d2 ++ t2) = Lt.
Proof.
  induction d1 as [|c d1 IH]; intros [|e d2] t1 t2 HLEN H1 H2 N1 N2 HV; try discriminate.
  inversion H1; inversion H2; subst. injection HLEN as HLEN. cbn [app vcmp]. rewrite !value_cons, HLEN in HV.
  destruct (Z.eqb_spec c e) as [<-|N].
  - unfold nxt. apply digit_is in H3. rewrite H3. apply IH; auto. lia.
  - unfold kcmp, key. cbn [fst snd hd]. change (c :: d1 ++ t1) with ((c :: d1) ++ t1). change (e :: d2 ++ t2) with ((e :: d2) ++ t2).
    rewrite !run_app by auto. cbn [length]. rewrite HLEN, Z.compare_refl. apply Z.compare_lt_iff.
    pose proof (value_bound d1 H4). pose proof (value_bound d2 H8). rewrite HLEN in H. nia.
Qed.
(** The state after a prefix. *)
Definition after (p : list Z) : st := fold_left nxt p SN.
Lemma vcmp_prefix : forall p t a b, vcmp t (p ++ a) (p ++ b) = vcmp (fold_left nxt p t) a b.
Proof. induction p as [|c p IH]; intros; cbn; auto. rewrite Z.eqb_refl. apply IH. Qed.
Lemma after_nodigit : forall p, no_digit_first (rev p) -> after p = SN.
Proof.
  intros p H. unfold after. destruct p as [|c p'] using rev_ind; [auto|]. rewrite rev_app_distr in H. cbn in H. rewrite fold_left_app. cbn. unfold nxt.
  rewrite digit_is in H. destruct (isdigit c); auto. congruence.
Qed.
Lemma vcmp_number : forall d1 d2 t1 t2, bytes (d1 ++ t1) -> bytes (d2 ++ t2) -> number d1 -> number d2 -> d1 <> [] -> no_digit_first t1 -> no_digit_first t2 ->
  value d1 < value d2 -> vcmp SN (d1 ++ t1) (d2 ++ t2) = Lt.
Proof.
  intros d1 d2 t1 t2 B1 B2 [F1 Z1] [F2 Z2] NE N1 N2 HV.
  destruct d1 as [|c d1]; [congruence|]. destruct d2 as [|e d2]; [pose proof (value_bound _ F1); change (value []) with 0 in HV; lia|].
  cbn in Z1, Z2. inversion F1; inversion F2; subst.
  assert (D : forall x, digit x -> x <> 48 -> isdigit x && negb (x =? 48) = true).
  { intros x D1 D2. apply digit_is in D1. apply Z.eqb_neq in D2. rewrite D1, D2. auto. }
  destruct (Z.eq_dec (Z.of_nat (length d1)) (Z.of_nat (length d2))) as [E|E].
  - assert (E' : length d1 = length d2) by lia. cbn [app vcmp]. rewrite !value_cons, E' in HV. destruct (Z.eqb_spec c e) as [<-|N].
    + unfold nxt. pose proof H1 as H1'. apply digit_is in H1. rewrite H1. apply Z.eqb_neq in Z1. rewrite Z1. apply vcmp_same_length; auto. lia.
    + unfold kcmp, key. cbn [hd]. rewrite !D by auto. cbn [fst snd].
      change (c :: d1 ++ t1) with ((c :: d1) ++ t1). change (e :: d2 ++ t2) with ((e :: d2) ++ t2). rewrite !run_app by auto. cbn [length]. rewrite E', Z.compare_refl.
      apply Z.compare_lt_iff. pose proof (value_bound d1 H2). pose proof (value_bound d2 H6). rewrite E' in H. nia.
  - assert (L : Z.of_nat (length d1) < Z.of_nat (length d2)).
    { destruct (Z_lt_le_dec (Z.of_nat (length d1)) (Z.of_nat (length d2))); [auto|]. exfalso.
      destruct (number_big (c :: d1)) as [Q|Q]; [split; auto|discriminate|]. pose proof (value_bound _ F2) as Q2. cbn [length] in *.
      assert (10 ^ Z.of_nat (S (length d2)) <= 10 ^ (Z.of_nat (S (length d1)) - 1)) by (apply Z.pow_le_mono_r; lia). lia. }
    apply vcmp_key; auto. unfold kcmp, key. cbn [app hd]. rewrite !D by auto. cbn [fst snd].
    change (c :: d1 ++ t1) with ((c :: d1) ++ t1). change (e :: d2 ++ t2) with ((e :: d2) ++ t2). rewrite !run_app by auto. cbn [length].
    replace (Z.of_nat (S (length d1)) ?= Z.of_nat (S (length d2))) with Lt by (symmetry; apply Z.compare_lt_iff; lia). auto.
Qed.

Lemma zero_lemma : forall l r, bytes l -> bytes r -> (strverscmp l r = 0 <-> l = r).
Proof.
  intros l r HL HR. rewrite <- Z.compare_eq_iff, ver_vcmp by auto. split; [apply vcmp_eq; auto|intros ->; apply vcmp_refl].
Qed.
Lemma anti_lemma : forall l r, bytes l -> bytes r -> (strverscmp l r < 0 <-> 0 < strverscmp r l).
Proof.
  intros l r HL HR. rewrite <- Z.compare_lt_iff, <- Z.compare_gt_iff, !ver_vcmp, (vcmp_anti l r) by auto.
  destruct (vcmp SN l r); cbn; intuition discriminate.
Qed.
Lemma trans_lemma : forall a b c, bytes a -> bytes b -> bytes c -> strverscmp a b < 0 -> strverscmp b c < 0 -> strverscmp a c < 0.
Proof.
  intros a b c HA HB HC. rewrite <- !Z.compare_lt_iff, !ver_vcmp by auto. apply vcmp_trans; auto.
Qed.
Lemma numeric_lemma : forall p d1 d2 t1 t2, bytes (p ++ d1 ++ t1) -> bytes (p ++ d2 ++ t2) -> no_digit_first (rev p) ->
  number d1 -> number d2 -> d1 <> [] -> no_digit_first t1 -> no_digit_first t2 -> value d1 < value d2 ->
  strverscmp (p ++ d1 ++ t1) (p ++ d2 ++ t2) < 0.
Proof.
  intros p d1 d2 t1 t2 B1 B2 HP N1 N2 NE T1 T2 HV. rewrite <- Z.compare_lt_iff, ver_vcmp, vcmp_prefix by auto.
  change (fold_left nxt p SN) with (after p). rewrite after_nodigit by auto.
  apply vcmp_number; auto; [apply Forall_app in B1; apply B1|apply Forall_app in B2; apply B2].
Qed.
(** Without digits it is the byte order. *)
Lemma plain_lemma : forall p c d t1 t2, bytes (p ++ c :: t1) -> bytes (p ++ d :: t2) -> no_digit_first (rev p) -> ~ digit c -> ~ digit d -> c < d ->
  strverscmp (p ++ c :: t1) (p ++ d :: t2) < 0 /\ strverscmp p (p ++ d :: t2) < 0.
Proof.
  intros p c d t1 t2 B1 B2 HP NC ND HCD. rewrite digit_is in NC, ND. apply not_true_is_false in NC, ND.
  assert (BP : bytes p) by (apply Forall_app in B1; apply B1). assert (D1 : 1 <= d <= 255) by (apply Forall_app in B2; destruct B2 as [_ B2]; inversion B2; auto).
  rewrite <- !Z.compare_lt_iff, !ver_vcmp by auto. replace (vcmp SN p (p ++ d :: t2)) with (vcmp SN (p ++ []) (p ++ d :: t2)) by (rewrite app_nil_r; auto). rewrite !vcmp_prefix.
  change (fold_left nxt p SN) with (after p). rewrite after_nodigit by auto. split; cbn [vcmp].
  - destruct (Z.eqb_spec c d); [lia|]. unfold kcmp, key. cbn [hd]. rewrite NC, ND. cbn. apply Z.compare_lt_iff. auto.
  - unfold kcmp, key. cbn [hd]. rewrite ND. cbn [fst snd andb isdigit]. change (isdigit 0 && negb (0 =? 48)) with false. rewrite Z.compare_refl. apply Z.compare_lt_iff. lia.
Qed.
