(** * The life of devices: the path backend *)
Require Import Coq.ZArith.ZArith Coq.Lists.List Coq.Bool.Bool Coq.Arith.PeanoNat Coq.micromega.Lia.
Require Import Coq.Sorting.Permutation Verif.Life_Model Verif.Life_Spec Verif.Life_Proofs Verif.Life_Proofs2 Verif.Life_Proofs3 Verif.Life_Proofs4.
Import ListNotations.
Open Scope Z_scope.

Definition pu (p : pathdev) : nat * Z := (p_ud p, p_sys p).
Definition du (d : dev) : nat * Z := (ud d, sys d).
Record pinv (w : ctx) (off : bool) : Prop := {
  p_nd : NoDup (map p_ud (paths w));
  p_lt : forall p, In p (paths w) -> (p_ud p < nud w)%nat;
  p_off : off = true -> devs w = [];
  p_on : off = false -> Permutation (map pu (paths w)) (map du (devs w))
}.
Lemma pinv_same : forall w w2 b, paths w2 = paths w -> nud w2 = nud w -> map du (devs w2) = map du (devs w) -> pinv w b -> pinv w2 b.
Proof.
  intros w w2 b P N D [A B C E]. split; rewrite ?P, ?N; auto; intro X.
  - specialize (C X). rewrite C in D. destruct (devs w2); [reflexivity | discriminate].
  - rewrite D. auto.
Qed.
Lemma msrc_path : forall l, msrc (state true l) = false.
Proof.
  intro l. pose proof (suspended_asleep true l (fun _ => {| c_other := []; c_off := []; c_own := [] |}) (or_introl eq_refl)) as [_ [_ S]]. rewrite state_app, run1 in S. cbn [step] in S. rewrite udev_up in S. unfold path_disable in S. pose proof (remove_all_fr (map id (devs (state true l))) (state true l) (fun _ => {| c_other := []; c_off := []; c_own := [] |})) as A. unfold fr in A. injection A; intros. congruence.
Qed.
Lemma create_devs : forall w s p se wls u n how c w2 o ok, create w s p se wls u n how c = (w2, o, ok) -> ok = works how /\ if ok then exists d, devs w2 = devs w ++ [d] /\ sys d = s /\ ud d = u else devs w2 = devs w.
Proof. intros w s p se wls u n how c w2 o ok H. unfold create in H. destruct how; inj H; (split; [reflexivity |]); try reflexivity. eexists. split; [reflexivity | split; reflexivity]. Qed.
Lemma returned_app : forall a b, returned (a ++ [Ret b]) = Some b.
Proof. intros. unfold returned. rewrite fold_left_app. reflexivity. Qed.
Lemma path_enable_devs : forall l w how hc c w2 o, path_enable w l how hc c = (w2, o) -> paths w2 = paths w /\ nud w2 = nud w /\
  exists o1, if forallb (fun p => works (how (p_ud p))) l then o = o1 ++ [Ret true] /\ map du (devs w2) = map du (devs w) ++ map pu l else o = o1 ++ [Ret false] /\ devs w2 = [].
Proof.
  induction l as [|p l IH]; intros w how hc c w2 o H; [inj H; refine (conj eq_refl (conj eq_refl (ex_intro _ [] (conj eq_refl _)))); cbn; rewrite app_nil_r; reflexivity |]. cbn [path_enable] in H. destruct (path_enable1 _ _ _ _ _) as [[w1 o1] ok] eqn:E. pose proof (create_fr _ _ _ _ _ _ _ _ _ _ _ _ E) as FR. unfold fr in FR. injection FR; intros F1 F2 _ _ _ _. apply create_devs in E. destruct E as [E1 E2]. cbn [forallb]. rewrite <- E1. destruct ok; cbn [andb].
  - destruct (path_enable w1 l how hc c) as [w3 o3] eqn:H2. inj H. destruct (IH _ _ _ _ _ _ H2) as [A [B [o4 D]]]. refine (conj _ (conj _ _)); try congruence. exists (o1 ++ o4). destruct E2 as [d [D1 [D2 D3]]]. destruct (forallb _ l); destruct D as [D4 D5]; rewrite D4, app_assoc; (split; [reflexivity |]); [| exact D5]. rewrite D5, D1, map_app, <- app_assoc. cbn. unfold du at 2, pu at 2. congruence.
  - unfold path_disable in H. pose proof (remove_all_fr (map id (devs w1)) w1 c) as A. pose proof (remove_all_all w1 c) as B. destruct (remove_all w1 _ c) as [w3 o3]. inj H. cbn [fst] in *. unfold fr in A. injection A; intros. refine (conj _ (conj _ _)); try congruence. exists (o1 ++ o3). rewrite app_assoc. auto.
Qed.
Lemma drop_in : forall u l p, In p (drop_path u l) -> In p l.
Proof. induction l as [|q l IH]; intros p H; [exact H |]. cbn in H. destruct (Nat.eqb _ _); [right; exact H |]. destruct H as [H|H]; [left; exact H | right; apply IH; exact H]. Qed.
Lemma drop_filter : forall u l, NoDup (map p_ud l) -> drop_path u l = filter (fun p => negb (Nat.eqb (p_ud p) u)) l.
Proof.
  intros u l N. induction l as [|q l IH]; [reflexivity |]. cbn in *. inversion N; subst. destruct (Nat.eqb_spec (p_ud q) u) as [E|E]; cbn; [| f_equal; apply IH; assumption]. subst u. assert (X : filter (fun p => negb (Nat.eqb (p_ud p) (p_ud q))) l = l); [| rewrite X; reflexivity]. clear - H1. induction l as [|r l IH]; [reflexivity |]. cbn. cbn in H1. destruct (Nat.eqb_spec (p_ud r) (p_ud q)) as [E|E]; [exfalso; apply H1; left; congruence |]. cbn. f_equal. apply IH. intro X. apply H1. right. exact X.
Qed.
Lemma filter_nodup : forall (A B : Type) (f : A -> B) g l, NoDup (map f l) -> NoDup (map f (filter g l)).
Proof. intros A B f g l N. induction l as [|x l IH]; [constructor |]. cbn in *. inversion N; subst. destruct (g x); cbn; [constructor; [| apply IH; assumption] | apply IH; assumption]. intro X. apply H1. apply in_map_iff in X. destruct X as [y [Y1 Y2]]. apply filter_In in Y2. apply in_map_iff. exists y. tauto. Qed.
Lemma perm_filter : forall (A : Type) (f : A -> bool) l l2, Permutation l l2 -> Permutation (filter f l) (filter f l2).
Proof. intros A f l l2 P. induction P; cbn; [constructor | destruct (f x); auto | destruct (f x), (f y); auto; try reflexivity; apply perm_swap | etransitivity; eassumption]. Qed.
(** The numbers of udev devices are distinct among the devices too *)
Lemma ud_nodup : forall w, pinv w false -> NoDup (map ud (devs w)).
Proof.
  intros w [A B C E]. specialize (E eq_refl). replace (map ud (devs w)) with (map fst (map du (devs w))) by (rewrite map_map; reflexivity). eapply Permutation_NoDup; [apply Permutation_map; exact E |]. rewrite map_map. exact A.
Qed.
Lemma ud_same : forall (l : list dev) d e, NoDup (map ud l) -> In d l -> In e l -> ud d = ud e -> d = e.
Proof. induction l as [|a l IH]; intros d e N D E X; [destruct D |]. cbn in N. inversion N; subst. destruct D as [D|D], E as [E|E]; subst; auto; exfalso; apply H1; [rewrite X | rewrite <- X]; apply in_map; assumption. Qed.
Lemma drop_perm : forall ps ds d, NoDup (map p_ud ps) -> NoDup (map ud ds) -> NoDup (map id ds) -> In d ds -> Permutation (map pu ps) (map du ds) ->
  Permutation (map pu (drop_path (ud d) ps)) (map du (filter (fun e => negb (Nat.eqb (id e) (id d))) ds)).
Proof.
  intros ps ds d A B C D P. rewrite drop_filter by exact A. apply (perm_filter _ (fun x => negb (Nat.eqb (fst x) (ud d)))) in P. rewrite <- !map_filter in P. cbn in P. etransitivity; [exact P |]. apply Permutation_refl' . f_equal. apply filter_ext_in. intros e E. f_equal. apply eq_true_iff_eq. rewrite !Nat.eqb_eq. split; intro X.
  - f_equal. eapply ud_same; eassumption.
  - f_equal. clear - C D E X. induction ds as [|a l IH]; [destruct D |]. cbn in C. inversion C; subst. destruct D as [D|D], E as [E|E]; subst; auto; exfalso; apply H1; [rewrite <- X | rewrite X]; apply in_map; assumption.
Qed.
Lemma ids_nodup : forall w, inv w -> NoDup (map id (devs w)).
Proof. intros w I. pose proof (i_nd _ I) as N. rewrite map_app in N. revert N. generalize (map id (devs w)). induction l as [|x l IH]; intro N; [constructor |]. cbn in N. inversion N; subst. constructor; [intro X; apply H1; apply in_or_app; left; exact X | apply IH; assumption]. Qed.
Lemma path_remove_pinv : forall w i c d, inv w -> pinv w false -> In d (devs w) -> id d = i -> pinv (fst (path_remove w i c)) false /\ ~ In (ud d) (map p_ud (paths (fst (path_remove w i c)))) /\ nud (fst (path_remove w i c)) = nud w.
Proof.
  intros w i c d I P D ID. unfold path_remove. assert (H : handle w i = Some d).
  { unfold handle. destruct (find _ _) as [e|] eqn:FD; [apply find_id in FD; f_equal; apply (nodup_same w); [exact I | tauto | apply in_or_app; left; exact D | destruct FD; congruence] |]. exfalso. apply (find_none _ _ FD d) in D as X || pose proof (find_none _ _ FD d (in_or_app _ _ _ (or_introl D))) as X. cbn in X. rewrite ID, Nat.eqb_refl in X. discriminate. }
  rewrite H. set (w1 := set_paths w (drop_path (ud d) (paths w))). pose proof (remove_fr w1 i c) as A. pose proof (remove_devs w1 i c) as B. destruct (remove w1 i c) as [w2 o2]. cbn [fst] in *. unfold fr in A. injection A; intros A1 A2 _ _ _ _. cbn [paths nud w1 set_paths] in A1, A2. cbn [devs w1 set_paths] in B.
  pose proof P as [P1 P2 P3 P4]. specialize (P4 eq_refl). refine (conj _ (conj _ A1)).
  - split; rewrite ?A1, ?A2.
    + rewrite drop_filter by exact P1. apply filter_nodup. exact P1.
    + intros p X. apply P2. eapply drop_in. exact X.
    + discriminate.
    + intros _. rewrite B. subst i. apply drop_perm; [exact P1 | apply ud_nodup; exact P | apply ids_nodup; exact I | exact D | exact P4].
  - rewrite A2, drop_filter by exact P1. intro X. apply in_map_iff in X. destruct X as [p [X1 X2]]. apply filter_In in X2. destruct X2 as [_ X2]. rewrite X1, Nat.eqb_refl in X2. discriminate.
Qed.
Lemma path_create_pinv : forall w p name how c w2 o, path_create w p name how c = (w2, o) -> pinv w false -> ~ In (p_ud p) (map p_ud (paths w)) -> (p_ud p < nud w)%nat -> pinv w2 false.
Proof.
  intros w p name how c w2 o H [A B C E] NI LT. unfold path_create in H. destruct (path_enable1 _ _ _ _ _) as [[w1 o1] ok] eqn:X. pose proof (create_fr _ _ _ _ _ _ _ _ _ _ _ _ X) as FR. unfold fr in FR. injection FR; intros F1 F2 _ _ _ _. cbn [paths nud set_paths] in F1, F2. apply create_devs in X. destruct X as [X1 X2]. cbn [devs set_paths] in X2. specialize (E eq_refl). destruct ok; inj H.
  - destruct X2 as [d [D1 [D2 D3]]]. split; rewrite ?F1, ?F2.
    + cbn. constructor; assumption.
    + intros q [Q|Q]; [subst; exact LT | apply B; exact Q].
    + discriminate.
    + intros _. rewrite D1, map_app. cbn. replace (du d) with (pu p) by (unfold du, pu; congruence). etransitivity; [apply Permutation_cons_append |]. apply Permutation_app_tail. exact E.
  - split; cbn; rewrite ?F1; auto; [discriminate |]. intros _. rewrite X2. exact E.
Qed.
Lemma serve_path : forall l w w2 o, serve w l = (w2, o) -> inv w -> msrc w = false -> map du (devs w2) = map du (devs w) /\ inv w2.
Proof.
  induction l as [|x l IH]; intros w w2 o H I M; [inj H; auto |]. cbn in H. rewrite M in H.
  destruct (match x with Source s c ok => read w s c ok | Monitor e c => (w, []) | Timer i c => match find (fun d => Nat.eqb (id d) i) (devs w) with Some d => (w, among (d :: others w d) (c_own c)) | None => (w, []) end end) as [w1 o1] eqn:H1.
  destruct (serve w1 l) as [w3 o3] eqn:H2. inj H. assert (G : map du (devs w1) = map du (devs w) /\ inv w1 /\ msrc w1 = false).
  { destruct x as [s c ok|e c|i c].
    - pose proof (read_fr _ _ _ _ _ _ H1) as FR. unfold fr in FR. injection FR; intros. pose proof (g_inv _ _ _ (read_ok _ _ _ _ _ _ H1 I)) as I1. refine (conj _ (conj I1 _)); [| congruence]. unfold read in H1. destruct (find _ (devs w)) as [d|] eqn:FD; [| inj H1; reflexivity]. apply find_some in FD. destruct ok; inj H1; [reflexivity |]. cbn [devs set_devs]. apply map_upd with (d := d); auto. tauto.
    - inj H1. auto.
    - destruct (find _ (devs w)); inj H1; auto. }
  destruct G as [G1 [G2 G3]]. destruct (IH _ _ _ H2 G2 G3). split; [congruence | assumption].
Qed.
(** What a tidy caller may do *)
Definition may (w : ctx) (off : bool) (x : call) : Prop :=
  match x with Resume _ _ _ _ _ => off = true | PathAdd _ => off = false | PathRemove i _ | SetSeat i _ _ _ _ => off = false /\ L w i = During | _ => True end.
Definition next (off : bool) (x : call) (o : list out) : bool :=
  match x with Suspend _ => true | Resume _ _ _ _ _ => match returned o with Some true => false | _ => true end | _ => off end.
Lemma step_pinv : forall x w b, upath w = true -> msrc w = false -> inv w -> pinv w b -> may w b x -> pinv (fst (step w x)) (next b x (snd (step w x))).
Proof.
  intros x w b U M I P Y. assert (PR : forall i, L w i = During -> exists d, In d (devs w) /\ id d = i) by (intros i X; unfold L in X; destruct (has (devs w) i) eqn:H; [apply has_in; exact H | destruct (Nat.ltb _ _); discriminate]).
  destruct x as [s m l|c|m l how hc c|k|i c|i name how hc c|i c|i bk c|l]; cbn [step may next] in *; rewrite ?U.
  - exact P.
  - unfold path_disable. pose proof (remove_all_fr (map id (devs w)) w c) as A. pose proof (remove_all_all w c) as B. unfold fr in A. injection A; intros A1 A2 _ _ _ _. destruct P as [P1 P2 P3 P4]. split; rewrite ?A1, ?A2; auto. discriminate.
  - subst b. destruct (path_enable w (paths w) how hc c) as [w2 o2] eqn:E. apply path_enable_devs in E. destruct E as [E1 [E2 [o1 E3]]]. destruct P as [P1 P2 P3 P4]. cbn [fst snd]. destruct (forallb _ _); destruct E3 as [E3 E4]; subst o2; rewrite returned_app; split; rewrite ?E1, ?E2; auto; try discriminate. intros _. rewrite E4, (P3 eq_refl). reflexivity.
  - subst b. destruct (path_create _ _ _ _ _) as [w2 o2] eqn:E. eapply path_create_pinv; [exact E | | |].
    + destruct P as [P1 P2 P3 P4]. split; cbn; auto. intros p X. specialize (P2 p X). lia.
    + cbn. intro X. apply in_map_iff in X. destruct X as [p [X1 X2]]. apply (p_lt _ _ P) in X2. lia.
    + cbn. lia.
  - destruct Y as [Y1 Y2]. subst b. destruct (PR i Y2) as [d [D1 D2]]. apply (path_remove_pinv w i c d I P D1 D2).
  - destruct Y as [Y1 Y2]. subst b. destruct (PR i Y2) as [d [D1 D2]]. assert (H : handle w i = Some d).
    { unfold handle. destruct (find _ _) as [e|] eqn:FD; [apply find_id in FD; f_equal; apply (nodup_same w); [exact I | tauto | apply in_or_app; left; exact D1 | destruct FD; congruence] |]. exfalso. pose proof (find_none _ _ FD d (in_or_app _ _ _ (or_introl D1))) as X. cbn in X. rewrite D2, Nat.eqb_refl in X. discriminate. }
    rewrite H. destruct (path_remove_pinv w i c d I P D1 D2) as [Q1 [Q2 Q3]]. destruct (path_remove w i c) as [w1 o1]. cbn [fst] in *. destruct (path_create w1 _ _ _ _) as [w2 o2] eqn:E. eapply path_create_pinv; [exact E | exact Q1 | exact Q2 |]. cbn. rewrite Q3. pose proof (p_on _ _ P eq_refl) as PE. apply (in_map du) in D1. eapply Permutation_in in D1; [| symmetry; exact PE]. apply in_map_iff in D1. destruct D1 as [p [X1 X2]]. unfold pu, du in X1. injection X1; intros _ X3. rewrite <- X3. exact (p_lt _ _ P p X2).
  - destruct (find _ _) as [d|] eqn:FD; [| exact P]. apply find_id in FD. apply (pinv_same w); try reflexivity; [| exact P]. cbn. apply map_upd with (d := d); auto. tauto.
  - destruct (handle w i) as [d|] eqn:HD; [| exact P]. destruct (resume_dev w d bk c) as [[w1 d1] o1] eqn:R. pose proof (resume_fr _ _ _ _ _ _ _ R) as [R1 [R2 R3]]. pose proof (resume_same _ _ _ _ _ _ _ R) as [S1 [S2 [S3 [S4 [S5 S6]]]]]. unfold fr in R1. injection R1; intros. apply (pinv_same w); cbn; auto. rewrite R2. apply handle_in in HD. destruct HD as [[HD|HD] _].
    + apply map_upd with (d := d); auto. unfold du. congruence.
    + rewrite upd_none; [reflexivity |]. rewrite S1. apply not_true_iff_false. intro X. apply has_in in X. destruct X as [e [E1 E2]]. pose proof (not_gone w e I E1) as Z. rewrite E2 in Z. apply not_true_iff_false in Z. apply Z. apply has_in. eauto.
  - destruct (serve w _) as [w2 o2] eqn:S. pose proof (serve_fr (filter (reported w) l) w) as A. rewrite S in A. unfold fr in A. injection A; intros. apply (pinv_same w); auto. eapply serve_path; eassumption.
Qed.
Lemma tidy_pinv : forall l before b, tidy before l b -> pinv (state true before) b -> pinv (state true (before ++ l)) false.
Proof.
  induction l as [|x l IH]; intros before b T P; [cbn in T; subst b; rewrite app_nil_r; exact P |]. replace (before ++ x :: l) with ((before ++ [x]) ++ l) by (rewrite <- app_assoc; reflexivity).
  pose proof (step_pinv x (state true before) b (udev_up true before) (msrc_path before) (g_inv _ _ _ (state_good true before)) P) as S. rewrite <- run1, <- state_app in S.
  assert (X : may (state true before) b x /\ tidy (before ++ [x]) l (next b x (snd (step (state true before) x)))).
  { destruct x; cbn [tidy may next] in *; rewrite <- ?lives_state; try (split; [exact Logic.I | exact T]; fail); try tauto. }
  destruct X as [X1 X2]. specialize (S X1). rewrite run1 in S. eapply IH; [exact X2 | exact S].
Qed.
Lemma pinv_init : pinv (state true []) false.
Proof. split; cbn; [constructor | intros p [] | reflexivity | reflexivity]. Qed.
(** What is gone can still be named *)
Lemma remove_gone : forall w i c d, inv w -> (In d (devs w) /\ id d = i \/ In d (gone w)) -> exists e, In e (gone (fst (remove w i c))) /\ id e = id d /\ ud e = ud d.
Proof.
  intros w i c d I H. unfold remove. destruct (find _ _) as [x|] eqn:FD.
  - apply find_id in FD. destruct FD as [X1 X2]. destruct (suspend_dev w x (c i)) as [x2 o2] eqn:S. unfold suspend_dev in S. inj S. cbn. destruct H as [[H1 H2]|H]; [| exists d; auto]. assert (d = x) by (apply (nodup_same w); [exact I | apply in_or_app; auto | apply in_or_app; auto | congruence]). subst x. eexists. split; [left; reflexivity | auto].
  - destruct H as [[H1 H2]|H]; [| exists d; auto]. pose proof (find_none _ _ FD d H1) as X. cbn in X. rewrite H2, Nat.eqb_refl in X. discriminate.
Qed.
Lemma remove_all_gone : forall l w c d, inv w -> (In d (devs w) /\ In (id d) l \/ In d (gone w)) -> exists e, In e (gone (fst (remove_all w l c))) /\ id e = id d /\ ud e = ud d.
Proof.
  induction l as [|i l IH]; intros w c d I H; [destruct H as [[_ []]|H]; exists d; auto |]. cbn. destruct (remove w i c) as [w1 o1] eqn:R. pose proof (g_inv _ _ _ (remove_ok _ _ _ _ _ R I)) as I1. assert (W1 : fst (remove w i c) = w1) by (rewrite R; reflexivity).
  assert (X : exists d1, (In d1 (devs w1) /\ In (id d1) l \/ In d1 (gone w1)) /\ id d1 = id d /\ ud d1 = ud d).
  { destruct (Nat.eq_dec (id d) i) as [E|E].
    - assert (H2 : In d (devs w) /\ id d = i \/ In d (gone w)) by (destruct H; tauto). destruct (remove_gone w i c d I H2) as [e [E1 [E2 E3]]]. rewrite W1 in E1. exists e. auto.
    - destruct H as [[H1 H2]|H].
      + exists d. split; [| auto]. left. split; [| destruct H2; [congruence | assumption]]. rewrite <- W1, remove_devs. apply filter_In. split; [exact H1 |]. apply negb_true_iff. apply Nat.eqb_neq. exact E.
      + destruct (remove_gone w i c d I (or_intror H)) as [e [E1 [E2 E3]]]. rewrite W1 in E1. exists e. auto. }
  destruct X as [d1 [X1 [X2 X3]]]. destruct (IH w1 c d1 I1 X1) as [e [E1 [E2 E3]]]. destruct (remove_all w1 l c). cbn in *. exists e. split; [exact E1 | split; congruence].
Qed.
Lemma filter_perm_nodup : forall ps ds d i, NoDup (map p_ud ps) -> NoDup (map ud ds) -> NoDup (map id ds) -> (forall e, In e ds -> id e = i <-> ud e = ud d) -> Permutation (map pu ps) (map du ds) ->
  Permutation (map pu (drop_path (ud d) ps)) (map du (filter (fun e => negb (Nat.eqb (id e) i)) ds)).
Proof.
  intros ps ds d i A B C D P. rewrite drop_filter by exact A. apply (perm_filter _ (fun x => negb (Nat.eqb (fst x) (ud d)))) in P. rewrite <- !map_filter in P. cbn in P. etransitivity; [exact P |]. apply Permutation_refl'. f_equal. apply filter_ext_in. intros e E. f_equal. apply eq_true_iff_eq. rewrite !Nat.eqb_eq. symmetry. apply D. exact E.
Qed.
Lemma remove_many : forall is_ w0 w cr, upath w = true -> inv w0 -> NoDup (map ud (devs w0)) -> inv w -> devs w = [] ->
  (forall d, In d (devs w0) -> exists e, In e (gone w) /\ id e = id d /\ ud e = ud d) -> (forall i, In i is_ -> has (devs w0) i = true) ->
  forall ds, (forall d, In d ds -> In d (devs w0)) -> NoDup (map id ds) -> NoDup (map ud ds) -> NoDup (map p_ud (paths w)) -> Permutation (map pu (paths w)) (map du ds) ->
  let w2 := fst (run w (map (fun i => PathRemove i cr) is_)) in
  devs w2 = [] /\ upath w2 = true /\ NoDup (map p_ud (paths w2)) /\ Permutation (map pu (paths w2)) (map du (filter (fun d => negb (existsb (Nat.eqb (id d)) is_)) ds)).
Proof.
  induction is_ as [|i r IH]; intros w0 w cr U I0 N0 I D0 G IN ds S N1 N2 N3 P w2.
  - unfold w2. cbn. refine (conj D0 (conj U (conj N3 _))). etransitivity; [exact P |]. apply Permutation_refl'. f_equal. clear. induction ds as [|d ds IH]; cbn; congruence.
  - unfold w2. clear w2. cbn [map run step]. rewrite U. assert (X : exists d, In d (devs w0) /\ id d = i) by (apply has_in; apply IN; left; reflexivity). destruct X as [d [X1 X2]]. destruct (G d X1) as [e [E1 [E2 E3]]].
    assert (H : handle w i = Some e). { unfold handle. destruct (find _ _) as [x|] eqn:FD; [apply find_id in FD; f_equal; apply (nodup_same w); [exact I | tauto | apply in_or_app; right; exact E1 | destruct FD; congruence] |]. exfalso. pose proof (find_none _ _ FD e (in_or_app _ _ _ (or_intror E1))) as X. cbn in X. rewrite E2, X2, Nat.eqb_refl in X. discriminate. }
    unfold path_remove. rewrite H. unfold remove. cbn [devs set_paths]. rewrite D0. cbn [find].
    specialize (IH w0 (set_paths w (drop_path (ud e) (paths w))) cr U I0 N0). assert (I1 : inv (set_paths w (drop_path (ud e) (paths w)))) by (apply (same_good w); [exact I | repeat split]). specialize (IH I1 D0 G (fun j J => IN j (or_intror J)) (filter (fun x => negb (Nat.eqb (id x) i)) ds)).
    assert (F : filter (fun d0 => negb (existsb (Nat.eqb (id d0)) (i :: r))) ds = filter (fun d0 => negb (existsb (Nat.eqb (id d0)) r)) (filter (fun x => negb (Nat.eqb (id x) i)) ds)). { rewrite filter_filter. apply filter_ext. intro a. cbn. rewrite negb_orb. reflexivity. }
    rewrite F. destruct (run (set_paths w (drop_path (ud e) (paths w))) (map (fun i0 => PathRemove i0 cr) r)) as [w3 o3]. cbn [fst] in *. apply IH.
    + intros x X. apply filter_In in X. apply S. tauto.
    + apply filter_nodup. exact N1.
    + apply filter_nodup. exact N2.
    + cbn. rewrite drop_filter by exact N3. apply filter_nodup. exact N3.
    + cbn. apply filter_perm_nodup; [exact N3 | exact N2 | exact N1 | | exact P]. intros x X. apply S in X. split; intro Y.
      * rewrite E3. f_equal. apply (nodup_same w0); [exact I0 | apply in_or_app; auto | apply in_or_app; auto | congruence].
      * rewrite <- X2. f_equal. eapply ud_same; [exact N0 | exact X | exact X1 | congruence].
Qed.
