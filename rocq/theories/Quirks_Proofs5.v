(** Load order, matching and lookup. *)
Require Import Coq.Strings.Ascii Coq.Strings.String Coq.ZArith.ZArith Coq.QArith.QArith Coq.Lists.List Coq.Bool.Bool Coq.micromega.Lia Coq.Arith.PeanoNat Coq.Sorting.Sorted Coq.btauto.Btauto.
Require Import Verif.Str_Model Verif.Str_Spec Verif.Str_Proofs Verif.Str_Proofs2 Verif.Parse_Model Verif.Ver_Model Verif.Ver_Spec Verif.Ver_Proofs Verif.Quirks_Model Verif.Quirks_Spec.
Require Import Verif.Quirks_Proofs Verif.Quirks_Proofs2 Verif.Quirks_Proofs3 Verif.Quirks_Proofs4.
Import ListNotations.
Open Scope Z_scope.

(** ** The order of the files *)
Definition proper (e : str * file) : Prop := ~ In NUL (fst e).
Lemma proper_bytes : forall e, proper e -> bytes (map code (fst e)).
Proof.
  intros [n f] H. unfold proper in H. cbn [fst] in *. apply Forall_forall. intros z I. apply in_map_iff in I. destruct I as (c & <- & I).
  assert (G : implb (negb (Ascii.eqb c NUL)) ((1 <=? code c) && (code c <=? 255)) = true) by (revert c I; intros c _; revert c; refine (by_ascii _ _); vm_compute; reflexivity).
  assert (Ascii.eqb c NUL = false) as E by (apply Ascii.eqb_neq; intros ->; contradiction). rewrite E in G. cbn in G. lia.
Qed.
Lemma code_inj : forall a b, map code a = map code b -> a = b.
Proof.
  induction a as [|x a IH]; intros [|y b] H; cbn in H; try discriminate; auto. injection H as E H. f_equal; auto.
  unfold code in E. apply N2Z.inj in E. rewrite <- (ascii_N_embedding x), E. apply ascii_N_embedding.
Qed.
Lemma before_irrefl : forall e, proper e -> ~ before e e.
Proof.
  intros e P B. unfold before, name_cmp in B. pose proof (proper_bytes e P) as Q. destruct (zero_lemma _ _ Q Q) as [_ Z]. rewrite Z in B by auto. lia.
Qed.
Lemma before_asym : forall a b, proper a -> proper b -> before a b -> ~ before b a.
Proof.
  intros a b PA PB H K. unfold before, name_cmp in *. apply (anti_lemma _ _ (proper_bytes _ PA) (proper_bytes _ PB)) in H. lia.
Qed.
Lemma before_trans : forall a b c, proper a -> proper b -> proper c -> before a b -> before b c -> before a c.
Proof. intros a b c PA PB PC. unfold before, name_cmp. apply trans_lemma; now apply proper_bytes. Qed.
Lemma sorted_unique : forall l l', StronglySorted before l -> StronglySorted before l' -> (forall x, In x l -> proper x) ->
  (forall x, In x l <-> In x l') -> l = l'.
Proof.
  induction l as [|a l IH]; intros l' SA SB P E.
  - destruct l' as [|b l']; auto. exfalso. apply (proj2 (E b)). now left.
  - destruct l' as [|b l']; [exfalso; apply (proj1 (E a)); now left|].
    inversion SA as [|? ? SA' FA]; subst. inversion SB as [|? ? SB' FB]; subst. rewrite Forall_forall in FA, FB.
    assert (PB : proper b) by (apply P, E; now left). assert (PA : proper a) by (apply P; now left).
    assert (a = b).
    { destruct (proj1 (E a) (or_introl eq_refl)) as [X|X]; auto. destruct (proj2 (E b) (or_introl eq_refl)) as [Y|Y]; auto.
      exfalso. apply (before_asym a b); auto. }
    subst b. f_equal. apply IH; auto; [intros x I; apply P; now right|].
    intros x. split; intros I.
    + destruct (proj1 (E x) (or_intror I)) as [<-|K]; auto. exfalso. apply (before_irrefl a PA). auto.
    + destruct (proj2 (E x) (or_intror I)) as [<-|K]; auto. exfalso. apply (before_irrefl a PA). auto.
Qed.
Lemma insert_In : forall e l x, In x (insert e l) <-> x = e \/ In x l.
Proof.
  intros e l x. induction l as [|y l IH]; cbn [insert].
  - cbn. intuition.
  - destruct (0 <? name_cmp (fst e) (fst y)); cbn [In]; [rewrite IH|]; intuition.
Qed.
Lemma insert_sorted : forall e l, StronglySorted before l -> proper e -> (forall x, In x l -> proper x /\ fst x <> fst e) -> StronglySorted before (insert e l).
Proof.
  intros e l H P. induction H as [|y l H IH F]; intros D; cbn [insert].
  - constructor; constructor.
  - destruct (D y (or_introl eq_refl)) as [PY NY]. rewrite Forall_forall in F.
    destruct (0 <? name_cmp (fst e) (fst y)) eqn:C.
    + apply Z.ltb_lt in C. constructor; [apply IH; intros x I; apply D; now right|]. apply Forall_forall. intros x I. apply insert_In in I.
      destruct I as [->|I]; auto. unfold before, name_cmp in *. apply (anti_lemma _ _ (proper_bytes _ PY) (proper_bytes _ P)). exact C.
    + apply Z.ltb_ge in C.
      assert (B : before e y).
      { unfold before. unfold name_cmp in *. pose proof (zero_lemma _ _ (proper_bytes _ P) (proper_bytes _ PY)) as Z.
        destruct (Z.eq_dec (strverscmp (map code (fst e)) (map code (fst y))) 0) as [E|N]; [|lia]. apply Z in E. apply code_inj in E. congruence. }
      constructor; [constructor; auto; now apply Forall_forall|]. apply Forall_forall. intros x [<-|I]; auto.
      apply (before_trans e y x); auto. apply D. now right.
Qed.
Lemma scandir_order : forall dir, NoDup (map fst dir) -> Forall proper dir -> load_order dir (scandir dir).
Proof.
  intros dir ND P. unfold scandir, load_order.
  assert (G : forall l, NoDup (map fst l) -> Forall proper l -> StronglySorted before (fold_right insert [] l) /\ forall x, In x (fold_right insert [] l) <-> In x l).
  { induction l as [|e l IH]; intros N F; cbn [fold_right]; [split; [constructor|tauto]|]. inversion N; subst. inversion F; subst. destruct IH as [S1 M1]; auto.
    split.
    - apply insert_sorted; auto. intros x I. apply M1 in I. split; [rewrite Forall_forall in *; auto|]. intros E. apply H1. rewrite <- E. now apply in_map.
    - intros x. rewrite insert_In, M1. cbn. intuition. }
  destruct (G (filter (fun e => strendswith (fst e) (S ".quirks")) dir)) as [S1 M1].
  { clear P G. induction dir as [|e dir IH]; cbn [filter]; [constructor|]. inversion ND; subst. destruct (strendswith _ _); auto. cbn [map]. constructor; auto.
    intros I. apply H1. apply in_map_iff in I. destruct I as (x & E & I). apply filter_In in I. rewrite <- E. apply in_map. apply I. }
  { rewrite Forall_forall in *. intros x I. apply filter_In in I. apply P, I. }
  split; auto. intros n f. rewrite M1, filter_In. cbn [fst]. rewrite ends_lemma. split; intros [A B]; (split; [auto|]).
  - destruct B as [_ B]. exact B.
  - split; [discriminate|exact B].
Qed.
Lemma load_order_fun : forall dir fs, NoDup (map fst dir) -> Forall proper dir -> load_order dir fs -> scandir dir = fs.
Proof.
  intros dir fs ND P [SO M]. destruct (scandir_order dir ND P) as [SO' M']. apply sorted_unique; auto.
  - intros [n f] I. apply M' in I. rewrite Forall_forall in P. apply P. apply I.
  - intros [n f]. now rewrite M, M'.
Qed.

(** ** Matching *)
Section E.
Variable fnmatch : str -> str -> bool.
Definition check (m : match_) (c : criterion) : bool :=
  match c with
  | Name p => match m_name m with Some n => fnmatch p n | None => false end
  | Bus b => match m_bus m with Some x => if bus_eq_dec b x then true else false | None => false end
  | Vendor n => match m_vid m with Some x => n =? x | None => false end
  | Product n => match m_pid m with Some x => n =? x | None => false end
  | Version n => match m_version m with Some x => n =? x | None => false end
  | Dmi p => match m_dmi m with Some n => fnmatch p n | None => false end
  | Type_ t => match m_type m with Some x => negb (Z.land (type_bit t) x =? 0) | None => false end
  | DeviceTree p => match m_dt m with Some n => fnmatch p n | None => false end
  end.
Lemma full_add : forall m0 m c, slot m0 (which c) = false -> full_match fnmatch (add_crit m0 c) m = full_match fnmatch m0 m && check m c.
Proof.
  intros [a b v p d t dt w] mm c H. unfold full_match, flag_loop.
  assert (EQ : forall x, Bool.eqb true x = x) by (intros []; reflexivity).
  destruct c; cbn [which slot m_name m_bus m_vid m_pid m_dmi m_type m_dt m_version] in H;
    match type of H with is_set ?x = false => destruct x; [discriminate|] end;
    cbn [add_crit set_name set_bus set_vid set_pid set_dmi set_type set_dt set_version m_name m_bus m_vid m_pid m_dmi m_type m_dt m_version forallb];
    match goal with |- context[check mm ?c] =>
      match goal with |- context[@agree ?A ?B ?f (Some ?w) ?h] =>
        let E := fresh in assert (E : @agree A B f (Some w) h = (true, check mm c)) by reflexivity; rewrite E; generalize (check mm c); intro
      end end;
    cbn [agree fst snd]; rewrite EQ; change (Bool.eqb false false) with true;
    repeat match goal with |- context[Bool.eqb ?x ?y] => generalize (Bool.eqb x y); intro end; btauto.
Qed.
Lemma full_crits : forall cs m, NoDup (map which cs) -> full_match fnmatch (crits cs) m = forallb (check m) cs.
Proof.
  intros cs m. induction cs as [|c cs IH] using rev_ind; intros N.
  - reflexivity.
  - rewrite map_app in N. cbn in N. apply nodup_snoc_inv in N. destruct N as [N I]. rewrite crits_snoc, full_add; [|now apply slot_crits; [apply which_lt|]].
    rewrite IH by auto. rewrite forallb_app. cbn. now rewrite andb_true_r.
Qed.
End E.
