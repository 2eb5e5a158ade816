(** * The life of devices: what the calls leave as it is *)
Require Import Coq.ZArith.ZArith Coq.Lists.List Coq.Bool.Bool Coq.Arith.PeanoNat Coq.micromega.Lia.
Require Import Coq.Sorting.Permutation Verif.Life_Model Verif.Life_Spec Verif.Life_Proofs Verif.Life_Proofs2.
Import ListNotations.
Open Scope Z_scope.

Definition fr (w : ctx) := (upath w, seat_id w, mon w, msrc w, paths w, nud w).
Lemma create_fr : forall w s p se wls u n how c w2 o ok, create w s p se wls u n how c = (w2, o, ok) -> fr w2 = fr w.
Proof. intros w s p se wls u n how c w2 o ok H. unfold create in H. destruct how; inj H; unfold fr; cbn; rewrite ?Nat.add_0_r; reflexivity. Qed.
Lemma remove_fr : forall w i c, fr (fst (remove w i c)) = fr w.
Proof. intros w i c. unfold remove. destruct (find _ _); [| reflexivity]. destruct (suspend_dev _ _ _). reflexivity. Qed.
Lemma remove_devs : forall w i c, devs (fst (remove w i c)) = filter (fun e => negb (Nat.eqb (id e) i)) (devs w).
Proof.
  intros w i c. unfold remove. destruct (find _ _) as [d|] eqn:FD; [destruct (suspend_dev _ _ _); reflexivity |]. cbn. symmetry. rewrite <- (filter_ext_in (fun _ => true)).
  - generalize (devs w). induction l as [|e l IH]; cbn; congruence.
  - intros e E. symmetry. apply negb_true_iff. exact (find_none _ _ FD e E).
Qed.
Lemma remove_all_fr : forall l w c, fr (fst (remove_all w l c)) = fr w.
Proof. induction l as [|i l IH]; intros w c; [reflexivity |]. cbn. destruct (remove w i c) as [w1 o1] eqn:H1. pose proof (remove_fr w i c) as A. rewrite H1 in A. specialize (IH w1 c). destruct (remove_all w1 l c). cbn in *. congruence. Qed.
Lemma filter_filter : forall (A : Type) (f g : A -> bool) l, filter f (filter g l) = filter (fun x => g x && f x) l.
Proof. intros A f g l. induction l as [|x l IH]; [reflexivity |]. cbn. destruct (g x); cbn; [destruct (f x); congruence | exact IH]. Qed.
Lemma remove_all_devs : forall l w c, devs (fst (remove_all w l c)) = filter (fun e => negb (existsb (Nat.eqb (id e)) l)) (devs w).
Proof.
  induction l as [|i l IH]; intros w c; cbn.
  - generalize (devs w). induction l as [|e l IH]; cbn; congruence.
  - destruct (remove w i c) as [w1 o1] eqn:H1. pose proof (remove_devs w i c) as A. rewrite H1 in A. specialize (IH w1 c). destruct (remove_all w1 l c). cbn in *. rewrite IH, A, filter_filter. apply filter_ext. intro e. rewrite negb_orb. reflexivity.
Qed.
Lemma remove_all_all : forall w c, devs (fst (remove_all w (map id (devs w)) c)) = [].
Proof.
  intros w c. rewrite remove_all_devs. assert (X : forall e, In e (devs w) -> existsb (Nat.eqb (id e)) (map id (devs w)) = true) by (intros e E; apply existsb_exists; exists (id e); split; [apply in_map; exact E | apply Nat.eqb_refl]). revert X. generalize (map id (devs w)). intros ids. induction (devs w) as [|e l IH]; intro X; [reflexivity |]. cbn. rewrite (X e (or_introl eq_refl)). cbn. apply IH. intros; apply X; right; assumption.
Qed.
Lemma added_fr : forall w k name w2 o, device_added w k name = (w2, o) -> fr w2 = fr w.
Proof.
  intros w k name w2 o H. unfold device_added in H. destruct (seat_id w); [| inj H; reflexivity]. destruct (negb _); [inj H; reflexivity |]. destruct (duplicate _ _ _); [inj H; reflexivity |].
  destruct (create _ _ _ _ _ _ _ _ _) as [[w1 o1] ok] eqn:C. inj H. eapply create_fr. eassumption.
Qed.
Lemma add_devices_fr : forall l w w2 o, add_devices w l = (w2, o) -> fr w2 = fr w.
Proof.
  induction l as [|k l IH]; intros w w2 o H; [inj H; reflexivity |]. cbn in H. destruct (if k_ready k then device_added w k None else (w, [])) as [w1 o1] eqn:H1. destruct (add_devices w1 l) as [w3 o3] eqn:H2. inj H.
  rewrite (IH _ _ _ H2). destruct (k_ready k); [eapply added_fr; eassumption | inj H1; reflexivity].
Qed.
Lemma read_fr : forall w s c ok w2 o, read w s c ok = (w2, o) -> fr w2 = fr w.
Proof. intros w s c ok w2 o H. unfold read in H. destruct (find _ _); inj H; [destruct ok; reflexivity | reflexivity]. Qed.
Lemma serve_fr : forall l w, fr (fst (serve w l)) = fr w.
Proof.
  induction l as [|x l IH]; intro w; [reflexivity |]. cbn.
  destruct (match x with Source s c ok => read w s c ok | Monitor e c => if msrc w then udev_handler w e c else (w, []) | Timer i c => match find (fun d => Nat.eqb (id d) i) (devs w) with Some d => (w, among (d :: others w d) (c_own c)) | None => (w, []) end end) as [w1 o1] eqn:H1.
  specialize (IH w1). destruct (serve w1 l) as [w2 o2]. cbn in *. rewrite IH. destruct x as [s c ok|e c|i c].
  - eapply read_fr. eassumption.
  - destruct (msrc w); [| inj H1; reflexivity]. destruct e; cbn in H1; [eapply added_fr; eassumption |]. unfold device_removed in H1. pose proof (remove_all_fr (firsts s [] (devs w)) w c) as A. rewrite H1 in A. exact A.
  - destruct (find _ _); inj H1; reflexivity.
Qed.
Lemma resume_fr : forall w d b c w2 d2 o, resume_dev w d b c = (w2, d2, o) -> fr w2 = fr w /\ devs w2 = devs w /\ gone w2 = gone w.
Proof. intros w d b c w2 d2 o H. unfold resume_dev in H. destruct (fd d); [inj H; auto |]. destruct (removed d); [inj H; auto |]. destruct b; try (inj H; unfold fr; cbn; rewrite ?Nat.add_0_r; auto; fail). destruct (need d); inj H; unfold fr; cbn; rewrite ?Nat.add_0_r; auto. Qed.
Lemma resume_same : forall w d b c w2 d2 o, resume_dev w d b c = (w2, d2, o) -> id d2 = id d /\ sys d2 = sys d /\ phys d2 = phys d /\ seat d2 = seat d /\ ud d2 = ud d /\ removed d2 = removed d.
Proof. intros w d b c w2 d2 o H. unfold resume_dev in H. destruct (fd d); [inj H; repeat split |]. destruct (removed d) eqn:R; [inj H; repeat split; exact R |]. destruct (need d); destruct b; injection H; intros; subst d2; repeat split; cbn; auto. Qed.

(** ** A context without devices and monitor does nothing *)
Lemma nothing_serve : forall l w, devs w = [] -> msrc w = false -> serve w l = (w, []).
Proof.
  induction l as [|x l IH]; intros w D M; [reflexivity |]. cbn. destruct x as [s c ok|e c|i c]; unfold read; rewrite ?D, ?M; cbn; rewrite IH by assumption; reflexivity.
Qed.
Definition asleep (w : ctx) : Prop := devs w = [] /\ mon w = false /\ msrc w = false.
Lemma asleep_step : forall x w, inv w -> asleep w -> adds_none x = true -> snd (step w x) = [] /\ asleep (fst (step w x)).
Proof.
  intros x w I [D [M S]] A. destruct x as [s m l|c|m l how hc c|k|i c|i name how hc c|i c|i b c|l]; try discriminate; cbn [step].
  - unfold path_disable, udev_disable. rewrite D, M. cbn. destruct (upath w); repeat split; assumption.
  - destruct (upath w); [| repeat split; assumption]. unfold path_remove. destruct (handle w i); [| repeat split; assumption]. unfold remove. cbn [devs set_paths]. rewrite D. cbn. repeat split; assumption.
  - rewrite D. cbn. repeat split; assumption.
  - destruct (handle w i) as [d|] eqn:HD; [| repeat split; assumption]. apply handle_in in HD. rewrite D in HD. destruct HD as [[[]|G] _]. destruct (i_gone _ I d G) as [_ R]. unfold resume_dev. rewrite R. destruct (fd d); cbn; rewrite D; repeat split; assumption.
  - rewrite nothing_serve by assumption. repeat split; assumption.
Qed.
Lemma asleep_run : forall l w, inv w -> asleep w -> forallb adds_none l = true -> snd (run w l) = [] /\ asleep (fst (run w l)).
Proof.
  induction l as [|x l IH]; intros w I S A; [auto |]. cbn in A. apply andb_true_iff in A. destruct A as [A1 A2]. cbn. pose proof (asleep_step x w I S A1) as [B C]. destruct (step w x) as [w1 o1] eqn:H1. pose proof (step_ok _ _ _ _ H1 I) as G. cbn in B, C. destruct (IH w1 (g_inv _ _ _ G) C A2) as [E K]. destruct (run w1 l) as [w2 o2]. cbn in *. subst. auto.
Qed.

(** ** Without a monitor's source there are no devices (udev) *)
Definition quietly (w : ctx) : Prop := (msrc w = false -> devs w = []) /\ (mon w = false -> msrc w = false).
Lemma step_upath : forall x w, upath (fst (step w x)) = upath w.
Proof.
  intros x w. destruct x as [s m l|c|m l how hc c|k|i c|i name how hc c|i c|i b c|l]; cbn [step].
  - destruct (upath w) eqn:U; [exact U |]. destruct (seat_id w); [exact U |]. unfold udev_enable. cbn [mon seat_id set_seat]. destruct (mon w); [exact U |]. destruct m; try exact U. destruct (add_devices _ l) as [w1 o1] eqn:A. apply add_devices_fr in A. cbn. unfold fr in A. injection A; intros. cbn in *. congruence.
  - destruct (upath w) eqn:U; unfold path_disable, udev_disable.
    + pose proof (remove_all_fr (map id (devs w)) w c) as A. unfold fr in A. injection A; intros. congruence.
    + destruct (mon w); [| exact U]. destruct (msrc w); [| exact U]. pose proof (remove_all_fr (map id (devs w)) (set_mon w false false) c) as A. unfold fr in A. injection A; intros. cbn in *. congruence.
  - destruct (upath w) eqn:U.
    + rewrite <- U. clear U. generalize (paths w). intro l0. revert w. induction l0 as [|p l0 IH]; intro w; [reflexivity |]. cbn. destruct (path_enable1 _ _ _ _ _) as [[w1 o1] ok] eqn:E. apply create_fr in E. assert (X : upath w1 = upath w) by (unfold fr in E; injection E; auto). destruct ok.
      * specialize (IH w1). destruct (path_enable w1 l0 how hc c). cbn in *. congruence.
      * pose proof (remove_all_fr (map id (devs w1)) w1 c) as A. unfold path_disable. destruct (remove_all w1 _ c). cbn in *. unfold fr in A. injection A; intros. congruence.
    + unfold udev_enable. destruct (mon w); [exact U |]. destruct (seat_id w); [| exact U]. destruct m; try exact U. destruct (add_devices _ l) as [w1 o1] eqn:A. apply add_devices_fr in A. cbn. unfold fr in A. injection A; intros. cbn in *. congruence.
  - destruct (upath w) eqn:U; [| exact U]. unfold path_create. destruct (path_enable1 _ _ _ _ _) as [[w1 o1] ok] eqn:E. apply create_fr in E. unfold fr in E. injection E; intros. destruct ok; cbn in *; congruence.
  - destruct (upath w) eqn:U; [| exact U]. unfold path_remove. destruct (handle w i) as [d|]; [| exact U]. pose proof (remove_fr (set_paths w (drop_path (ud d) (paths w))) i c) as A. unfold fr in A. injection A; intros. cbn in *. congruence.
  - destruct (handle w i) as [d|]; [| reflexivity]. destruct (upath w) eqn:U.
    + destruct (path_remove w i c) as [w1 o1] eqn:H1. assert (X : upath w1 = true). { unfold path_remove in H1. destruct (handle w i) as [d'|]; [| inj H1; exact U]. pose proof (remove_fr (set_paths w (drop_path (ud d') (paths w))) i c) as A. rewrite H1 in A. unfold fr in A. injection A; intros. cbn in *. congruence. }
      unfold path_create. destruct (path_enable1 _ _ _ _ _) as [[w2 o2] ok] eqn:E. apply create_fr in E. unfold fr in E. injection E; intros. destruct ok; cbn in *; congruence.
    + destruct (device_removed w (sys d) c) as [w1 o1] eqn:H1. unfold device_removed in H1. pose proof (remove_all_fr (firsts (sys d) [] (devs w)) w c) as A. rewrite H1 in A. destruct (device_added w1 _ _) as [w2 o2] eqn:H2. apply added_fr in H2. cbn in *. unfold fr in *. injection A; intros. injection H2; intros. congruence.
  - destruct (find _ _); [| reflexivity]. destruct (suspend_dev _ _ _). reflexivity.
  - destruct (handle w i) as [d|]; [| reflexivity]. destruct (resume_dev w d b c) as [[w1 d1] o1] eqn:R. apply resume_fr in R. destruct R as [R _]. unfold fr in R. injection R; intros. cbn. congruence.
  - pose proof (serve_fr (filter (reported w) l) w) as A. unfold fr in A. injection A; auto.
Qed.
Lemma run_upath : forall l w, upath (fst (run w l)) = upath w.
Proof. induction l as [|x l IH]; intro w; [reflexivity |]. cbn. pose proof (step_upath x w) as A. destruct (step w x) as [w1 o1]. specialize (IH w1). destruct (run w1 l). cbn in *. congruence. Qed.
Lemma enable_quiet : forall w m l, quietly w -> quietly (fst (udev_enable w m l)).
Proof.
  intros w m l [Q1 Q2]. unfold udev_enable. destruct (mon w) eqn:M; [split; cbn; [exact Q1 | congruence] |]. destruct (seat_id w); [| split; cbn; auto]. destruct m; try (split; cbn; auto; fail).
  destruct (add_devices _ l) as [w1 o1] eqn:A. apply add_devices_fr in A. unfold fr in A. injection A; intros. cbn in *. split; cbn; congruence.
Qed.
Lemma step_quiet : forall x w, inv w -> upath w = false -> quietly w -> (match x with SetSeat i _ _ _ _ => L w i = During | _ => True end) -> quietly (fst (step w x)).
Proof.
  intros x w I U Q P. pose proof Q as [Q1 Q2]. destruct x as [s m l|c|m l how hc c|k|i c|i name how hc c|i c|i b c|l]; cbn [step]; rewrite ?U.
  - destruct (seat_id w); [exact Q |]. apply enable_quiet. exact Q.
  - unfold udev_disable. destruct (mon w) eqn:M; [| exact Q]. destruct (msrc w) eqn:S.
    + pose proof (remove_all_fr (map id (devs w)) (set_mon w false false) c) as A. pose proof (remove_all_all (set_mon w false false) c) as B. cbn [devs set_mon] in B. split; intro; [exact B |]. unfold fr in A. injection A; intros. cbn in *. congruence.
    + split; cbn; auto.
  - apply enable_quiet. exact Q.
  - exact Q.
  - exact Q.
  - destruct (handle w i) as [d|]; [| exact Q]. assert (S : msrc w = true). { destruct (msrc w); [reflexivity |]. unfold L in P. rewrite (Q1 eq_refl) in P. unfold has in P; cbn [existsb] in P; destruct (Nat.ltb i (nid w)); discriminate. }
    destruct (device_removed w (sys d) c) as [w1 o1] eqn:H1. unfold device_removed in H1. pose proof (remove_all_fr (firsts (sys d) [] (devs w)) w c) as A. rewrite H1 in A. destruct (device_added w1 _ _) as [w2 o2] eqn:H2. apply added_fr in H2. unfold fr in *. injection A; intros. injection H2; intros. cbn in *. split; intro Y; [congruence | assert (Y2 : mon w = false) by congruence; specialize (Q2 Y2); congruence].
  - destruct (find _ _) as [d|] eqn:FD; [| exact Q]. destruct (suspend_dev _ _ _). split; cbn; [intro S; rewrite (Q1 S); reflexivity | exact Q2].
  - destruct (handle w i) as [d|]; [| exact Q]. destruct (resume_dev w d b c) as [[w1 d1] o1] eqn:R. apply resume_fr in R. destruct R as [R [R2 R3]]. unfold fr in R. injection R; intros. cbn. split; cbn; [intro; rewrite R2, Q1 by congruence; reflexivity | intro; rewrite H1; apply Q2; congruence].
  - pose proof (serve_fr (filter (reported w) l) w) as A. unfold fr in A. injection A; intros. split; intro X; [| rewrite H1; apply Q2; congruence]. rewrite H1 in X. rewrite nothing_serve; [cbn; apply Q1; exact X | apply Q1; exact X | exact X].
Qed.
Lemma proper_app : forall p a b before, proper p before (a ++ b) <-> proper p before a /\ proper p (before ++ a) b.
Proof. intros p. induction a as [|x a IH]; intros b before; cbn; [rewrite app_nil_r; tauto |]. rewrite IH, <- app_assoc. cbn. tauto. Qed.
Lemma proper_quiet : forall l, proper false [] l -> quietly (state false l) /\ upath (state false l) = false.
Proof.
  intro l. induction l as [|x l IH] using rev_ind; intro P; [split; [split; reflexivity | reflexivity] |]. apply proper_app in P. destruct P as [P1 P2]. destruct (IH P1) as [Q U]. cbn in P2. destruct P2 as [P2 _]. rewrite state_app, run1. split; [| rewrite step_upath; exact U]. apply step_quiet; [exact (g_inv _ _ _ (state_good false l)) | exact U | exact Q |]. destruct x; auto. rewrite <- lives_state. exact P2.
Qed.
Lemma suspended_asleep : forall p l c, p = true \/ proper p [] l -> asleep (state p (l ++ [Suspend c])).
Proof.
  intros p l c H. rewrite state_app, run1. cbn [step]. destruct p.
  - assert (U : upath (state true l) = true) by (unfold state; rewrite run_upath; reflexivity). rewrite U. unfold path_disable. split; [apply remove_all_all |]. pose proof (remove_all_fr (map id (devs (state true l))) (state true l) c) as A. unfold fr in A. injection A; intros.
    assert (M : mon (state true l) = false /\ msrc (state true l) = false).
    { clear. induction l as [|x l IH] using rev_ind; [split; reflexivity |]. destruct IH as [M S]. rewrite state_app, run1. assert (U : upath (state true l) = true) by (unfold state; rewrite run_upath; reflexivity). revert M S U. generalize (state true l). intros w M S U.
      assert (FRA : forall w2, fr w2 = fr w -> mon w2 = false /\ msrc w2 = false) by (intros w2 E; unfold fr in E; injection E; intros; split; congruence).
      assert (FRP : forall l0 n w2, fr w2 = (upath w, seat_id w, mon w, msrc w, l0, n) -> mon w2 = false /\ msrc w2 = false) by (intros l0 n w2 E; unfold fr in E; injection E; intros; split; congruence).
      destruct x as [s m l0|c|m l0 how hc c|k|i c|i name how hc c|i c|i b c|l0]; cbn [step]; rewrite ?U.
      - auto.
      - apply FRA. apply remove_all_fr.
      - apply FRA. clear. generalize (paths w) as l0. intro l0. revert w. induction l0 as [|p l0 IH]; intro w; [reflexivity |]. cbn. destruct (path_enable1 _ _ _ _ _) as [[w1 o1] ok] eqn:E. apply create_fr in E. destruct ok.
        + specialize (IH w1). destruct (path_enable w1 l0 how hc c). cbn in *. congruence.
        + pose proof (remove_all_fr (map id (devs w1)) w1 c) as A. unfold path_disable. destruct (remove_all w1 _ c). cbn in *. congruence.
      - unfold path_create. destruct (path_enable1 _ _ _ _ _) as [[w1 o1] ok] eqn:E. apply create_fr in E. unfold fr in E. injection E; intros. destruct ok; cbn in *; split; congruence.
      - unfold path_remove. destruct (handle w i) as [d|]; [| auto]. pose proof (remove_fr (set_paths w (drop_path (ud d) (paths w))) i c) as A. unfold fr in A. injection A; intros. cbn in *. split; congruence.
      - destruct (handle w i) as [d|]; [| auto]. destruct (path_remove w i c) as [w1 o1] eqn:H1. assert (X : mon w1 = false /\ msrc w1 = false). { unfold path_remove in H1. destruct (handle w i) as [d'|]; [| inj H1; auto]. pose proof (remove_fr (set_paths w (drop_path (ud d') (paths w))) i c) as A. rewrite H1 in A. unfold fr in A. injection A; intros. cbn in *. split; congruence. }
        unfold path_create. destruct (path_enable1 _ _ _ _ _) as [[w2 o2] ok] eqn:E. apply create_fr in E. unfold fr in E. injection E; intros. destruct X. destruct ok; cbn in *; split; congruence.
      - destruct (find _ _); [| auto]. destruct (suspend_dev _ _ _). auto.
      - destruct (handle w i) as [d|]; [| auto]. destruct (resume_dev w d b c) as [[w1 d1] o1] eqn:R. apply resume_fr in R. destruct R as [R _]. unfold fr in R. injection R; intros. cbn. split; congruence.
      - apply FRA. apply serve_fr. }
    destruct M. split; congruence.
  - destruct H as [H|H]; [discriminate |]. destruct (proper_quiet l H) as [[Q1 Q2] U]. rewrite U. unfold udev_disable. destruct (mon (state false l)) eqn:M.
    + destruct (msrc (state false l)) eqn:S; [| split; [exact (Q1 eq_refl) | split; reflexivity]]. pose proof (remove_all_fr (map id (devs (state false l))) (set_mon (state false l) false false) c) as A. pose proof (remove_all_all (set_mon (state false l) false false) c) as B. cbn [devs set_mon] in B. split; [exact B |]. unfold fr in A. injection A; intros. cbn in *. split; congruence.
    + specialize (Q2 eq_refl). split; [exact (Q1 Q2) | split; [exact M | exact Q2]].
Qed.
