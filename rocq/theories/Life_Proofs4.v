(** * The life of devices: the udev backend *)
Require Import Coq.ZArith.ZArith Coq.Lists.List Coq.Bool.Bool Coq.Arith.PeanoNat Coq.micromega.Lia.
Require Import Coq.Sorting.Permutation Verif.Life_Model Verif.Life_Spec Verif.Life_Proofs Verif.Life_Proofs2 Verif.Life_Proofs3.
Import ListNotations.
Open Scope Z_scope.

(** ** What is watched *)
Definition tracks (w : ctx) (z : option Z * bool) : Prop := (seat_id w, mon w) = z /\ msrc w = mon w /\ (seat_id w = None -> mon w = false).
Lemma fr_tracks : forall w w2 z, fr w2 = fr w -> tracks w z -> tracks w2 z.
Proof. intros w w2 z E [A [B C]]. unfold fr in E. injection E; intros E1 E2 E3 E4 E5 E6. unfold tracks. rewrite E3, E4, E5. auto. Qed.
Lemma enable_tracks : forall w m l, seat_id w <> None -> m <> M_FILTER -> tracks w (seat_id w, mon w) -> tracks (fst (udev_enable w m l)) (seat_id w, match m with M_OK => true | _ => mon w end).
Proof.
  intros w m l S N [A [B C]]. unfold udev_enable. destruct (mon w) eqn:M.
  - cbn. unfold tracks. rewrite M, B. destruct m; repeat split; auto.
  - destruct (seat_id w) as [s|] eqn:SS; [| congruence]. destruct m; try congruence; try (cbn; unfold tracks; rewrite M, SS, B; repeat split; auto; fail). destruct (add_devices _ l) as [w1 o1] eqn:D. apply add_devices_fr in D. cbn [fst]. apply (fr_tracks (set_mon w true true)); [exact D |]. unfold tracks. cbn. rewrite SS. repeat split; congruence.
Qed.
Lemma step_tracks : forall x w z, upath w = false -> filter_works x = true -> tracks w z -> tracks (fst (step w x)) (watch1 z x).
Proof.
  intros x w z U FW T. pose proof T as [A [B C]]. subst z. destruct x as [s m l|c|m l how hc c|k|i c|i name how hc c|i c|i b c|l]; cbn [step watch1 fst snd]; rewrite ?U.
  - destruct (seat_id w) eqn:S; [exact T |]. pose proof (enable_tracks (set_seat w s) m l ltac:(discriminate)) as E. assert (NF : m <> M_FILTER) by (intro; subst m; discriminate). specialize (E NF). cbn [seat_id mon set_seat] in E. rewrite (C eq_refl) in E. apply E. unfold tracks. cbn. rewrite B, (C eq_refl). repeat split. 
  - unfold udev_disable. destruct (mon w) eqn:M; [| unfold tracks; cbn; rewrite M, B; repeat split]. rewrite B. apply (fr_tracks (set_mon w false false)); [apply remove_all_fr |]. unfold tracks. cbn. repeat split.
  - destruct (seat_id w) eqn:S.
    + assert (NF : m <> M_FILTER) by (intro; subst m; discriminate). pose proof (enable_tracks w m l ltac:(congruence) NF) as E. rewrite S in E. specialize (E T). destruct m; exact E.
    + unfold udev_enable. rewrite S. destruct (mon w) eqn:M; [exact T | exact T].
  - exact T.
  - exact T.
  - destruct (handle w i) as [d|]; [| exact T]. destruct (device_removed w (sys d) c) as [w1 o1] eqn:H1. unfold device_removed in H1. pose proof (remove_all_fr (firsts (sys d) [] (devs w)) w c) as X. rewrite H1 in X. destruct (device_added w1 _ _) as [w2 o2] eqn:H2. apply added_fr in H2. apply (fr_tracks w); [cbn in *; congruence | exact T].
  - destruct (find _ _); [| exact T]. destruct (suspend_dev _ _ _). exact T.
  - destruct (handle w i) as [d|]; [| exact T]. destruct (resume_dev w d b c) as [[w1 d1] o1] eqn:R. apply resume_fr in R. destruct R as [R _]. apply (fr_tracks w); [exact R | exact T].
  - apply (fr_tracks w); [apply serve_fr | exact T].
Qed.
Lemma udev_up : forall p l, upath (state p l) = p.
Proof. intros. unfold state. rewrite run_upath. reflexivity. Qed.
Lemma watch_state : forall l, forallb filter_works l = true -> tracks (state false l) (watch l).
Proof.
  induction l as [|x l IH] using rev_ind; intro H; [repeat split |]. rewrite forallb_app in H. apply andb_true_iff in H. destruct H as [H1 H2]. cbn in H2. rewrite andb_true_r in H2. unfold watch. rewrite fold_left_app, state_app, run1. cbn [fold_left]. apply step_tracks; [apply udev_up | exact H2 | apply IH; exact H1].
Qed.

(** ** One device for a place *)
Definition sp3 (d : dev) : Z * Z * Z := (sys d, seat d, phys d).
Definition sp (d : dev) : Z * Z := (sys d, seat d).
Lemma map_upd : forall (A : Type) (f : dev -> A) w d d2, inv w -> In d (devs w) -> id d2 = id d -> f d2 = f d -> map f (upd d2 (devs w)) = map f (devs w).
Proof.
  intros A f w d d2 I D E1 E2. unfold upd. rewrite map_map. apply map_ext_in. intros e H. destruct (Nat.eqb_spec (id e) (id d2)) as [X|X]; [| reflexivity]. replace e with d; [exact E2 |]. apply (nodup_same w); [exact I | apply in_or_app; left; exact D | apply in_or_app; left; exact H | congruence].
Qed.
Definition uniq (w : ctx) : Prop := (forall d, In d (devs w) -> seat_id w = Some (phys d)) /\ NoDup (map sp (devs w)).
Lemma uniq_map : forall w w2, seat_id w2 = seat_id w -> map sp3 (devs w2) = map sp3 (devs w) -> uniq w -> uniq w2.
Proof.
  intros w w2 S M [A B]. split.
  - intros d D. apply (in_map sp3) in D. rewrite M in D. apply in_map_iff in D. destruct D as [e [E1 E2]]. rewrite S, (A e E2). unfold sp3 in E1. injection E1; intros; congruence.
  - replace (map sp (devs w2)) with (map fst (map sp3 (devs w2))) by (rewrite map_map; reflexivity). rewrite M, map_map. exact B.
Qed.
Lemma uniq_filter : forall w w2 f, seat_id w2 = seat_id w -> devs w2 = filter f (devs w) -> uniq w -> uniq w2.
Proof.
  intros w w2 f S D [A B]. rewrite <- S in A. unfold uniq. rewrite D. split.
  - intros d X. apply filter_In in X. apply A. tauto.
  - clear - B. induction (devs w) as [|e l IH]; [constructor |]. cbn in *. inversion B; subst. destruct (f e); cbn; [constructor; [| apply IH; assumption] | apply IH; assumption]. intro X. apply H1. apply in_map_iff in X. destruct X as [y [Y1 Y2]]. apply filter_In in Y2. apply in_map_iff. exists y. tauto.
Qed.
Lemma remove_all_seat : forall l w c, seat_id (fst (remove_all w l c)) = seat_id w.
Proof. intros. pose proof (remove_all_fr l w c) as A. unfold fr in A. injection A; auto. Qed.
Lemma uniq_remove_all : forall l w c, uniq w -> uniq (fst (remove_all w l c)).
Proof. intros l w c. apply (uniq_filter w _ (fun e => negb (existsb (Nat.eqb (id e)) l))); [apply remove_all_seat | apply remove_all_devs]. Qed.
Definition works (m : made) : bool := match m with WORKS => true | _ => false end.
Definition new_dev (w : ctx) (k : cand) (se : Z) (d : dev) : Prop := id d = nid w /\ sys d = k_sys k /\ phys d = k_phys k /\ seat d = se.
Lemma added_devs : forall w k name w2 o, device_added w k name = (w2, o) ->
  let se := match name with Some n => n | None => k_wl k end in
  if match seat_id w with Some s => Z.eqb (k_phys k) s && negb (duplicate w (k_sys k) se) && works (k_how k) | None => false end
  then exists d, devs w2 = devs w ++ [d] /\ new_dev w k se d
  else devs w2 = devs w.
Proof.
  intros w k name w2 o H se. unfold device_added in H. destruct (seat_id w) as [s|]; [| inj H; reflexivity]. destruct (Z.eqb (k_phys k) s); [| inj H; reflexivity]. cbn [negb] in H. fold se in H. destruct (duplicate w (k_sys k) se) eqn:D; [inj H; reflexivity |]. cbn [negb andb].
  destruct (create _ _ _ _ _ _ _ _ _) as [[w1 o1] ok] eqn:C. inj H. unfold create in C. destruct (k_how k); cbn [works]; inj C; try reflexivity. eexists. split; [reflexivity | repeat split].
Qed.
Lemma duplicate_place : forall w s se, duplicate w s se = existsb (is_place (s, se)) (map sp (devs w)).
Proof. intros w s se. unfold duplicate. induction (devs w) as [|d l IH]; [reflexivity |]. cbn. rewrite IH. unfold is_place. cbn. rewrite (Z.eqb_sym s), (Z.eqb_sym se). reflexivity. Qed.
Lemma is_place_eq : forall p q, is_place p q = true <-> p = q.
Proof. intros [a b] [c d]. unfold is_place. cbn. rewrite andb_true_iff, !Z.eqb_eq. split; [intros [A B]; congruence | intro E; injection E; auto]. Qed.
Lemma NoDup_snoc : forall (A : Type) (l : list A) x, NoDup l -> ~ In x l -> NoDup (l ++ [x]).
Proof. intros A l x N H. eapply Permutation_NoDup; [apply Permutation_cons_append |]. constructor; assumption. Qed.
Lemma uniq_added : forall w k name w2 o, device_added w k name = (w2, o) -> uniq w -> uniq w2.
Proof.
  intros w k name w2 o H [A B]. pose proof (added_fr _ _ _ _ _ H) as F0. assert (S : seat_id w2 = seat_id w) by (unfold fr in F0; injection F0; auto). pose proof (added_devs _ _ _ _ _ H) as D. cbn zeta in D. destruct (seat_id w) as [s|] eqn:SS.
  - destruct (Z.eqb_spec (k_phys k) s) as [P|P]; cbn [andb] in D; [| unfold uniq; rewrite D, S; auto]. destruct (duplicate _ _ _) eqn:DU; cbn [negb andb] in D; [unfold uniq; rewrite D, S; auto |]. destruct (works _); [| unfold uniq; rewrite D, S; auto]. destruct D as [d [D1 [D2 [D3 [D4 D5]]]]]. unfold uniq. rewrite D1, S. split.
    + intros e E. apply in_app_iff in E. destruct E as [E|[E|[]]]; [apply A; exact E | subst e; congruence].
    + rewrite map_app. cbn [map]. apply NoDup_snoc; [exact B |]. intro X. rewrite duplicate_place in DU. apply not_true_iff_false in DU. apply DU. apply existsb_exists. eexists. split; [exact X |]. apply is_place_eq. unfold sp. congruence.
  - unfold uniq. rewrite D, S. auto.
Qed.
Lemma uniq_add_devices : forall l w w2 o, add_devices w l = (w2, o) -> uniq w -> uniq w2.
Proof.
  induction l as [|k l IH]; intros w w2 o H U; [inj H; exact U |]. cbn in H. destruct (if k_ready k then device_added w k None else (w, [])) as [w1 o1] eqn:H1. destruct (add_devices w1 l) as [w3 o3] eqn:H2. inj H. eapply IH; [exact H2 |]. destruct (k_ready k); [eapply uniq_added; eassumption | inj H1; exact U].
Qed.
Lemma uniq_enable : forall w m l, uniq w -> uniq (fst (udev_enable w m l)).
Proof. intros w m l U. unfold udev_enable. destruct (mon w); [exact U |]. destruct (seat_id w) eqn:S; [| exact U]. destruct m; try exact U. destruct (add_devices _ l) as [w1 o1] eqn:A. eapply uniq_add_devices; [exact A | exact U]. Qed.
Lemma serve_uniq : forall l w w2 o, serve w l = (w2, o) -> inv w -> uniq w -> uniq w2.
Proof.
  induction l as [|x l IH]; intros w w2 o H I U; [inj H; exact U |]. cbn in H.
  destruct (match x with Source s c ok => read w s c ok | Monitor e c => if msrc w then udev_handler w e c else (w, []) | Timer i c => match find (fun d => Nat.eqb (id d) i) (devs w) with Some d => (w, among (d :: others w d) (c_own c)) | None => (w, []) end end) as [w1 o1] eqn:H1.
  destruct (serve w1 l) as [w3 o3] eqn:H2. inj H. assert (G : inv w1 /\ uniq w1).
  { destruct x as [s c ok|e c|i c].
    - split; [eapply g_inv, read_ok; eassumption |]. unfold read in H1. destruct (find _ (devs w)) as [d|] eqn:FD; [| inj H1; exact U]. apply find_some in FD. destruct ok; inj H1; [exact U |]. apply (uniq_map w); [reflexivity | | exact U]. cbn [devs set_devs]. apply map_upd with (d := d); auto. tauto.
    - destruct (msrc w); [| inj H1; auto]. destruct e; cbn in H1.
      + split; [eapply g_inv, added_ok; eassumption | eapply uniq_added; eassumption].
      + split; [eapply g_inv, remove_all_ok; eassumption |]. unfold device_removed in H1. pose proof (uniq_remove_all (firsts s [] (devs w)) w c U) as X. rewrite H1 in X. exact X.
    - destruct (find _ (devs w)); inj H1; auto. }
  destruct G. eapply IH; eassumption.
Qed.
Lemma step_uniq : forall x w, upath w = false -> inv w -> uniq w -> uniq (fst (step w x)).
Proof.
  intros x w UP I U. destruct x as [s m l|c|m l how hc c|k|i c|i name how hc c|i c|i b c|l]; cbn [step]; rewrite ?UP.
  - destruct (seat_id w) eqn:S; [exact U |]. apply uniq_enable. destruct U as [A B]. split; [| exact B]. intros d D. cbn in D. apply A in D. congruence.
  - unfold udev_disable. destruct (mon w); [| exact U]. destruct (msrc w); [| exact U]. apply uniq_remove_all. exact U.
  - apply uniq_enable. exact U.
  - exact U.
  - exact U.
  - destruct (handle w i) as [d|]; [| exact U]. destruct (device_removed w (sys d) c) as [w1 o1] eqn:H1. unfold device_removed in H1. pose proof (uniq_remove_all (firsts (sys d) [] (devs w)) w c U) as X. rewrite H1 in X. destruct (device_added w1 _ _) as [w2 o2] eqn:H2. eapply uniq_added; [exact H2 | exact X].
  - destruct (find _ _) as [d|] eqn:FD; [| exact U]. apply find_id in FD. apply (uniq_map w); [reflexivity | | exact U]. cbn. apply map_upd with (d := d); auto. tauto.
  - destruct (handle w i) as [d|] eqn:HD; [| exact U]. destruct (resume_dev w d b c) as [[w1 d1] o1] eqn:R. pose proof (resume_fr _ _ _ _ _ _ _ R) as [R1 [R2 R3]]. pose proof (resume_same _ _ _ _ _ _ _ R) as [S1 [S2 [S3 [S4 [S5 S6]]]]]. apply (uniq_map w); [unfold fr in R1; injection R1; auto | | exact U]. cbn [fst devs set_devs]. rewrite R2. apply handle_in in HD. destruct HD as [[HD|HD] _].
    + apply map_upd with (d := d); auto. unfold sp3. congruence.
    + rewrite upd_none; [reflexivity |]. rewrite S1. apply not_true_iff_false. intro X. apply has_in in X. destruct X as [e [E1 E2]]. pose proof (not_gone w e I E1) as Y. rewrite E2 in Y. apply not_true_iff_false in Y. apply Y. apply has_in. eauto.
  - destruct (serve w _) as [w2 o2] eqn:S. eapply serve_uniq; eassumption.
Qed.
Lemma uniq_state : forall l, uniq (state false l).
Proof. induction l as [|x l IH] using rev_ind; [split; [intros d [] | constructor] |]. rewrite state_app, run1. apply step_uniq; [apply udev_up | exact (g_inv _ _ _ (state_good false l)) | exact IH]. Qed.
Lemma known_place : forall p l, map place (known (outs p l)) = map sp (devs (state p l)).
Proof. intros. rewrite known_state, map_map. reflexivity. Qed.

(** ** Unplugging *)
Lemma firsts_all : forall s seat0 l seen, (forall d, In d (seen ++ l) -> phys d = seat0) -> (forall d, In d seen -> sys d = s) -> NoDup (map sp (seen ++ l)) -> firsts s seen l = map id (filter (fun d => Z.eqb (sys d) s) l).
Proof.
  intros s seat0. induction l as [|d l IH]; intros seen P S N; [reflexivity |]. cbn. destruct (Z.eqb_spec (sys d) s) as [E|E].
  - assert (X : existsb (same_seat d) seen = false). { apply not_true_iff_false. intro X. apply existsb_exists in X. destruct X as [e [E1 E2]]. unfold same_seat in E2. apply andb_true_iff in E2. destruct E2 as [_ E2]. apply Z.eqb_eq in E2. rewrite map_app in N. cbn in N. apply NoDup_remove_2 in N. apply N. apply in_or_app. left. apply in_map_iff. exists e. split; [| exact E1]. unfold sp. rewrite (S e E1). congruence. }
    rewrite X. cbn. f_equal. apply IH.
    + intros e H. apply P. cbn in H. destruct H as [H|H]; [subst; apply in_or_app; right; left; reflexivity |]. apply in_app_iff in H. apply in_or_app. destruct H; [left; assumption | right; right; assumption].
    + intros e [H|H]; [subst; reflexivity | auto].
    + eapply Permutation_NoDup; [| exact N]. apply Permutation_map. cbn. symmetry. apply Permutation_middle.
  - apply IH; [intros e H; apply P; apply in_app_iff in H; apply in_or_app; destruct H; [left; assumption | right; right; assumption] | exact S |]. rewrite map_app in *. cbn in N. apply NoDup_remove_1 in N. exact N.
Qed.
Lemma removed_devs : forall w s c, inv w -> uniq w -> devs (fst (device_removed w s c)) = filter (fun d => negb (Z.eqb (sys d) s)) (devs w).
Proof.
  intros w s c I [A B]. unfold device_removed. rewrite remove_all_devs.
  destruct (devs w) as [|d0 r] eqn:DV; [reflexivity |]. rewrite <- DV in *. assert (P : seat_id w = Some (phys d0)) by (apply A; rewrite DV; left; reflexivity).
  rewrite (firsts_all s (phys d0)); [| intros d D; cbn in D; apply A in D; congruence | intros d [] | exact B].
  apply filter_ext_in. intros d D. f_equal. apply eq_true_iff_eq. rewrite existsb_exists. split.
  - intros [i [X1 X2]]. apply Nat.eqb_eq in X2. subst i. apply in_map_iff in X1. destruct X1 as [e [E1 E2]]. apply filter_In in E2. destruct E2 as [E2 E3]. replace d with e; [exact E3 |]. apply (nodup_same w); [exact I | apply in_or_app; left; exact E2 | apply in_or_app; left; exact D | exact E1].
  - intro X. exists (id d). split; [| apply Nat.eqb_refl]. apply in_map. apply filter_In. auto.
Qed.
Lemma map_filter : forall (A B : Type) (f : A -> B) g l, map f (filter (fun x => g (f x)) l) = filter g (map f l).
Proof. intros. induction l as [|x l IH]; [reflexivity |]. cbn. destruct (g (f x)); cbn; congruence. Qed.

(** ** Adding all that are there *)
Lemma add_devices_places : forall l w w2 o s, add_devices w l = (w2, o) -> seat_id w = Some s -> map sp (devs w2) = fold_left take1 (filter (usable s) l) (map sp (devs w)).
Proof.
  induction l as [|k l IH]; intros w w2 o s H S; [inj H; reflexivity |]. cbn in H. destruct (if k_ready k then device_added w k None else (w, [])) as [w1 o1] eqn:H1. destruct (add_devices w1 l) as [w3 o3] eqn:H2. inj H.
  assert (S1 : seat_id w1 = Some s). { destruct (k_ready k); [| inj H1; exact S]. apply added_fr in H1. unfold fr in H1. injection H1; intros; congruence. }
  rewrite (IH _ _ _ s H2 S1). cbn [filter]. unfold usable at 2. destruct (k_ready k); cbn [andb].
  - pose proof (added_devs _ _ _ _ _ H1) as D. cbn zeta in D. rewrite S in D. rewrite duplicate_place in D. unfold works in D. destruct (Z.eqb (k_phys k) s); cbn [andb] in *; [| rewrite D; reflexivity]. destruct (k_how k); rewrite ?andb_false_r, ?andb_true_r in D; try (rewrite D; reflexivity). cbn [fold_left]. unfold take1 at 3. destruct (existsb _ _); cbn [negb] in D; [rewrite D; reflexivity |]. destruct D as [d [D1 [D2 [D3 [D4 D5]]]]]. rewrite D1, map_app. cbn [map]. replace (sp d) with (k_sys k, k_wl k) by (unfold sp; congruence). reflexivity.
  - inj H1. reflexivity.
Qed.

(** ** Nothing crashes unless the monitor or epoll fails *)
Definition sane (w : ctx) : Prop := (mon w = msrc w) /\ (forall d, In d (devs w) -> mt d <> MFREED).
Lemma crash_among : forall l c, ~ In Crash (among l c).
Proof. intros l c H. unfold among in H. apply in_map_iff in H. destruct H as [x [X _]]. discriminate. Qed.
Lemma crash_create : forall w s p se wls u n how c w2 o ok, create w s p se wls u n how c = (w2, o, ok) -> sane w -> ~ In Crash o /\ sane w2.
Proof.
  intros w s p se wls u n how c w2 o ok H [A B]. unfold create in H. destruct how; inj H; try (split; [intros []; fail | split; assumption]); try (split; [intros [X|[X|[]]]; discriminate | split; assumption]).
  split.
  - intros [X|X]; [discriminate |]. apply in_app_iff in X. destruct X as [X|[X|X]]; [exact (crash_among _ _ X) | discriminate | exact (crash_among _ _ X)].
  - split; [exact A |]. cbn. intros d D. apply in_app_iff in D. destruct D as [D|[D|[]]]; [exact (B d D) | subst d; cbn; destruct n; discriminate].
Qed.
Lemma crash_suspend : forall w d c d2 o, suspend_dev w d c = (d2, o) -> mt d <> MFREED -> ~ In Crash o /\ mt d2 <> MFREED.
Proof.
  intros w d c d2 o H M. unfold suspend_dev in H. inj H. split; [| discriminate]. intro X. rewrite !in_app_iff in X. destruct X as [X|[X|[X|X]]].
  - destruct (off d); [exact X | exact (crash_among _ _ X)].
  - exact (crash_among _ _ X).
  - destruct (mt d); [exact X | exact X | congruence].
  - destruct (fd d); [destruct X as [X|[]]; discriminate | exact X].
Qed.
Lemma crash_remove : forall w i c, sane w -> ~ In Crash (snd (remove w i c)) /\ sane (fst (remove w i c)).
Proof.
  intros w i c [A B]. unfold remove. destruct (find _ _) as [d|] eqn:FD; [| split; [intros [] | split; assumption]]. apply find_id in FD. destruct (suspend_dev w d (c i)) as [d2 o2] eqn:S. apply crash_suspend in S; [| apply B; tauto]. destruct S as [S1 S2]. cbn. split.
  - rewrite !in_app_iff. intros [X|[X|[X|[]]]]; [exact (crash_among _ _ X) | exact (S1 X) | discriminate].
  - split; [exact A |]. cbn. intros e E. apply filter_In in E. apply B. tauto.
Qed.
Lemma crash_remove_all : forall l w c, sane w -> ~ In Crash (snd (remove_all w l c)) /\ sane (fst (remove_all w l c)).
Proof.
  induction l as [|i l IH]; intros w c S; [split; [intros [] | exact S] |]. cbn. pose proof (crash_remove w i c S) as [A B]. destruct (remove w i c) as [w1 o1]. cbn in A, B. specialize (IH w1 c B). destruct (remove_all w1 l c) as [w2 o2]. cbn in *. destruct IH. split; [rewrite in_app_iff; tauto | assumption].
Qed.
Lemma crash_added : forall w k name w2 o, device_added w k name = (w2, o) -> sane w -> ~ In Crash o /\ sane w2.
Proof.
  intros w k name w2 o H S. unfold device_added in H. destruct (seat_id w); [| inj H; split; [intros [] | exact S]]. destruct (negb _); [inj H; split; [intros [] | exact S] |]. destruct (duplicate _ _ _); [inj H; split; [intros [] | exact S] |].
  destruct (create _ _ _ _ _ _ _ _ _) as [[w1 o1] ok] eqn:C. inj H. eapply crash_create; eassumption.
Qed.
Lemma crash_add_devices : forall l w w2 o, add_devices w l = (w2, o) -> sane w -> ~ In Crash o /\ sane w2.
Proof.
  induction l as [|k l IH]; intros w w2 o H S; [inj H; split; [intros [] | exact S] |]. cbn in H. destruct (if k_ready k then device_added w k None else (w, [])) as [w1 o1] eqn:H1. destruct (add_devices w1 l) as [w3 o3] eqn:H2. inj H.
  assert (G : ~ In Crash o1 /\ sane w1) by (destruct (k_ready k); [eapply crash_added; eassumption | inj H1; split; [intros [] | exact S]]). destruct G as [G1 G2]. destruct (IH _ _ _ H2 G2). split; [rewrite in_app_iff; tauto | assumption].
Qed.
Lemma crash_serve : forall l w, sane w -> ~ In Crash (snd (serve w l)) /\ sane (fst (serve w l)).
Proof.
  induction l as [|x l IH]; intros w S; [split; [intros [] | exact S] |]. cbn.
  destruct (match x with Source s c ok => read w s c ok | Monitor e c => if msrc w then udev_handler w e c else (w, []) | Timer i c => match find (fun d => Nat.eqb (id d) i) (devs w) with Some d => (w, among (d :: others w d) (c_own c)) | None => (w, []) end end) as [w1 o1] eqn:H1.
  assert (G : ~ In Crash o1 /\ sane w1).
  { destruct x as [s c ok|e c|i c].
    - unfold read in H1. destruct (find _ (devs w)) as [d|] eqn:FD; inj H1; [| split; [intros [] | exact S]]. apply find_some in FD. split; [apply crash_among |]. destruct ok; [exact S |]. destruct S as [A B]. split; [exact A |]. cbn. intros e E. apply in_upd in E. destruct E as [[E _]|[E _]]; [subst e; cbn; apply B; tauto | apply B; exact E].
    - destruct (msrc w); [| inj H1; split; [intros [] | exact S]]. destruct e; cbn in H1; [eapply crash_added; eassumption |]. unfold device_removed in H1. pose proof (crash_remove_all (firsts s [] (devs w)) w c S) as X. rewrite H1 in X. exact X.
    - destruct (find _ (devs w)); inj H1; split; try exact S; [apply crash_among | intros []]. }
  destruct G as [G1 G2]. destruct (IH w1 G2). destruct (serve w1 l). cbn in *. split; [rewrite in_app_iff; tauto | assumption].
Qed.
Lemma sane_mon : forall w b, sane w -> sane (set_mon w b b).
Proof. intros w b [A B]. split; [reflexivity | exact B]. Qed.
Lemma no_ret : forall b, ~ In Crash [Ret b].
Proof. intros b [X|[]]. discriminate. Qed.
Lemma crash_enable : forall w m l, m <> M_FILTER -> sane w -> ~ In Crash (snd (udev_enable w m l)) /\ sane (fst (udev_enable w m l)).
Proof.
  intros w m l N S. unfold udev_enable. destruct (mon w); [split; [apply no_ret | exact S] |]. destruct (seat_id w); [| split; [apply no_ret | exact S]]. destruct m; try congruence; try (split; [apply no_ret | exact S]). destruct (add_devices _ l) as [w1 o1] eqn:A. apply crash_add_devices in A; [| apply sane_mon; exact S]. cbn. rewrite in_app_iff. destruct A as [A1 A2]. split; [| exact A2]. intros [X|X]; [exact (A1 X) | exact (no_ret _ X)].
Qed.
Lemma crash_path_enable : forall l w how hc c, sane w -> ~ In Crash (snd (path_enable w l how hc c)) /\ sane (fst (path_enable w l how hc c)).
Proof.
  induction l as [|p l IH]; intros w how hc c S; [split; [apply no_ret | exact S] |]. cbn. destruct (path_enable1 _ _ _ _ _) as [[w1 o1] ok] eqn:E. apply crash_create in E; [| exact S]. destruct E as [E1 E2]. destruct ok.
  - specialize (IH w1 how hc c E2). destruct (path_enable w1 l how hc c). cbn in *. rewrite in_app_iff. tauto.
  - pose proof (crash_remove_all (map id (devs w1)) w1 c E2) as X. unfold path_disable. destruct (remove_all w1 _ c). cbn in *. rewrite !in_app_iff. destruct X. split; [intros [Y|[Y|Y]]; [auto | auto | exact (no_ret _ Y)] | assumption].
Qed.
Lemma crash_path_create : forall w p name how c w2 o, path_create w p name how c = (w2, o) -> sane w -> ~ In Crash o /\ sane w2.
Proof.
  intros w p name how c w2 o H S. unfold path_create in H. destruct (path_enable1 _ _ _ _ _) as [[w1 o1] ok] eqn:E. apply crash_create in E; [| exact S]. destruct E as [E1 E2]. destruct ok; inj H; (split; [rewrite in_app_iff; intros [Y|Y]; [auto | exact (no_ret _ Y)] | exact E2]).
Qed.
Lemma crash_step : forall x w, filter_works x = true -> epoll_works x = true -> inv w -> sane w -> ~ In Crash (snd (step w x)) /\ sane (fst (step w x)).
Proof.
  intros x w FW EW I S. destruct x as [s m l|c|m l how hc c|k|i c|i name how hc c|i c|i b c|l]; cbn [step].
  - destruct (upath w); [split; [apply no_ret | exact S] |]. destruct (seat_id w); [split; [apply no_ret | exact S] |]. apply crash_enable; [intro; subst m; discriminate | exact S].
  - destruct (upath w); [apply crash_remove_all; exact S |]. unfold udev_disable. pose proof S as [A B]. rewrite A. destruct (msrc w); [apply crash_remove_all, sane_mon; exact S | split; [intros [] | exact S]].
  - destruct (upath w); [apply crash_path_enable; exact S | apply crash_enable; [intro; subst m; discriminate | exact S]].
  - destruct (upath w); [| split; [apply no_ret | exact S]]. destruct (path_create _ _ _ _ _) as [w1 o1] eqn:H. eapply crash_path_create; [exact H | exact S].
  - destruct (upath w); [| split; [intros [] | exact S]]. unfold path_remove. destruct (handle w i); [| split; [intros [] | exact S]]. apply crash_remove. exact S.
  - destruct (handle w i) as [d|]; [| split; [intros [] | exact S]]. destruct (upath w).
    + assert (X : ~ In Crash (snd (path_remove w i c)) /\ sane (fst (path_remove w i c))) by (unfold path_remove; destruct (handle w i); [apply crash_remove; exact S | split; [intros [] | exact S]]). destruct (path_remove w i c) as [w1 o1]. cbn in X. destruct X as [X1 X2]. destruct (path_create w1 _ _ _ _) as [w2 o2] eqn:H. apply crash_path_create in H; [| exact X2]. cbn. rewrite in_app_iff. tauto.
    + pose proof (crash_remove_all (firsts (sys d) [] (devs w)) w c S) as [X1 X2]. unfold device_removed. destruct (remove_all w _ c) as [w1 o1]. cbn in X1, X2. destruct (device_added w1 _ _) as [w2 o2] eqn:H. apply crash_added in H; [| exact X2]. cbn. rewrite !in_app_iff. destruct H. split; [| assumption]. intros [Y|[Y|Y]]; [auto | auto | exact (no_ret _ Y)].
  - destruct (find _ _) as [d|] eqn:FD; [| split; [intros [] | exact S]]. apply find_id in FD. destruct S as [A B]. destruct (suspend_dev w d c) as [d2 o2] eqn:H. apply crash_suspend in H; [| apply B; tauto]. destruct H as [H1 H2]. split; [exact H1 |]. split; [exact A |]. cbn. intros e E. apply in_upd in E. destruct E as [[E _]|[E _]]; [subst e; exact H2 | apply B; exact E].
  - destruct (handle w i) as [d|] eqn:HD; [| split; [intros [] | exact S]]. destruct S as [A B]. destruct (resume_dev w d b c) as [[w1 d1] o1] eqn:R. pose proof (resume_fr _ _ _ _ _ _ _ R) as [R1 [R2 R3]]. cbn.
    assert (X : ~ In Crash o1 /\ (d1 = d \/ mt d1 <> MFREED)).
    { assert (ON : forall f l0, ~ In Crash ([Open f] ++ (if off d then among l0 (c_other c) else []))) by (intros f l0 [Y|Y]; [discriminate | destruct (off d); [exact (crash_among _ _ Y) | exact Y]]).
      unfold resume_dev in R. destruct (fd d); [inj R; split; [intros [] | auto] |]. destruct (removed d); [inj R; split; [intros [] | auto] |]. destruct b; try discriminate; [inj R; split; [intros [] | auto] | inj R; split; [intros [] | auto] | inj R; split; [intros [Y|[Y|[]]]; discriminate | auto] | |].
      - destruct (need d); inj R; split; [intros [Y|[]]; discriminate | right; discriminate | apply ON | right; discriminate].
      - inj R. split; [apply ON |]. right. cbn. destruct (need d); discriminate. }
    destruct X as [X1 X2]. split; [exact X1 |]. split; [cbn; unfold fr in R1; injection R1; intros; congruence |]. cbn. rewrite R2. intros e E. apply in_upd in E. destruct E as [[E [e0 [E1 E2]]]|[E _]]; [| apply B; exact E]. subst e. destruct X2 as [X2|X2]; [| exact X2]. subst d1. apply handle_in in HD. intro Y.
    (* a device that is gone is not among those that are there *)
    revert Y. destruct HD as [[HD|HD] _]; [apply B; exact HD |]. exfalso.
    pose proof (not_gone w e0 I E1) as Y. apply not_true_iff_false in Y. apply Y. apply has_in. exists d. auto.
  - apply crash_serve. exact S.
Qed.
