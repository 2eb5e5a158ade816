(** * The life of devices: every call *)
Require Import Coq.ZArith.ZArith Coq.Lists.List Coq.Bool.Bool Coq.Arith.PeanoNat Coq.micromega.Lia.
Require Import Coq.Sorting.Permutation Verif.Life_Model Verif.Life_Spec Verif.Life_Proofs.
Import ListNotations.
Open Scope Z_scope.

Ltac quiet := let x := fresh in let X := fresh in intros x X; cbn in X; repeat (destruct X as [X|X]; [subst x; exact Logic.I |]); destruct X.
Ltac inj H := injection H; intros; subst; clear H.
Lemma ret_ok : forall w b, inv w -> good w [Ret b] w.
Proof. intros. apply good_same; [assumption | repeat split | quiet]. Qed.
Lemma added_ok : forall w k name w2 o, device_added w k name = (w2, o) -> inv w -> good w o w2.
Proof.
  intros w k name w2 o H I. unfold device_added in H. destruct (seat_id w); [| inj H; apply good_refl; exact I]. destruct (negb _); [inj H; apply good_refl; exact I |]. destruct (duplicate _ _ _); [inj H; apply good_refl; exact I |].
  destruct (create _ _ _ _ _ _ _ _ _) as [[w1 o1] ok] eqn:C. inj H. eapply create_ok; eassumption.
Qed.
Lemma add_devices_ok : forall l w w2 o, add_devices w l = (w2, o) -> inv w -> good w o w2.
Proof.
  induction l as [|k l IH]; intros w w2 o H I; [inj H; apply good_refl; exact I |]. cbn in H. destruct (if k_ready k then device_added w k None else (w, [])) as [w1 o1] eqn:H1. destruct (add_devices w1 l) as [w3 o3] eqn:H2. inj H.
  assert (G : good w o1 w1) by (destruct (k_ready k); [eapply added_ok; eassumption | inj H1; apply good_refl; exact I]). eapply good_trans; [exact G | eapply IH; [exact H2 | exact (g_inv _ _ _ G)]].
Qed.
Lemma same_good : forall w w2, inv w -> same w w2 -> inv w2.
Proof. intros w w2 I S. exact (g_inv _ _ _ (good_same w w2 [] I S ltac:(intros x X; destruct X))). Qed.
(** A step before which only bookkeeping changed *)
Lemma pre_same : forall w w1 o w2, inv w -> same w w1 -> good w1 o w2 -> good w o w2.
Proof. intros w w1 o w2 I S G. apply (good_trans w [] w1 o w2); [apply good_same; [exact I | exact S | intros x X; destruct X] | exact G]. Qed.
Lemma post_same : forall w o w1 w2, good w o w1 -> same w1 w2 -> good w o w2.
Proof. intros w o w1 w2 G S. rewrite <- (app_nil_r o). eapply good_trans; [exact G |]. apply good_same; [exact (g_inv _ _ _ G) | exact S | intros x X; destruct X]. Qed.
Lemma post_ret : forall w o w1 b, good w o w1 -> good w (o ++ [Ret b]) w1.
Proof. intros. eapply good_trans; [eassumption |]. apply ret_ok. eapply g_inv. eassumption. Qed.
Lemma udev_enable_ok : forall w m l w2 o, udev_enable w m l = (w2, o) -> inv w -> good w o w2.
Proof.
  intros w m l w2 o H I. unfold udev_enable in H. destruct (mon w); [inj H; apply ret_ok; exact I |]. destruct (seat_id w); [| inj H; apply ret_ok; exact I].
  destruct m; try (inj H; apply ret_ok; exact I).
  - inj H. apply good_same; [exact I | repeat split | quiet].
  - destruct (add_devices _ l) as [w1 o1] eqn:A. inj H. apply post_ret. apply (pre_same w (set_mon w true true)); [exact I | repeat split |]. eapply add_devices_ok; [exact A |]. apply (same_good w); [exact I | repeat split].
Qed.
Lemma udev_disable_ok : forall w c w2 o, udev_disable w c = (w2, o) -> inv w -> good w o w2.
Proof.
  intros w c w2 o H I. unfold udev_disable in H. destruct (mon w); [| inj H; apply good_refl; exact I]. destruct (msrc w).
  - apply (pre_same w (set_mon w false false)); [exact I | repeat split |]. eapply remove_all_ok; [exact H |]. apply (same_good w); [exact I | repeat split].
  - inj H. apply good_same; [exact I | repeat split | quiet].
Qed.
Lemma path_enable_ok : forall l w how hc c w2 o, path_enable w l how hc c = (w2, o) -> inv w -> good w o w2.
Proof.
  induction l as [|p l IH]; intros w how hc c w2 o H I; [inj H; apply ret_ok; exact I |]. cbn in H. destruct (path_enable1 _ _ _ _ _) as [[w1 o1] ok] eqn:E. pose proof (create_ok _ _ _ _ _ _ _ _ _ _ _ _ E I) as G. destruct ok.
  - destruct (path_enable w1 l how hc c) as [w3 o3] eqn:H2. inj H. eapply good_trans; [exact G | eapply IH; [exact H2 | exact (g_inv _ _ _ G)]].
  - destruct (path_disable w1 c) as [w3 o3] eqn:H2. inj H. eapply good_trans; [exact G |]. apply post_ret. eapply remove_all_ok; [exact H2 | exact (g_inv _ _ _ G)].
Qed.
Lemma path_create_ok : forall w p name how c w2 o, path_create w p name how c = (w2, o) -> inv w -> good w o w2.
Proof.
  intros w p name how c w2 o H I. unfold path_create in H. destruct (path_enable1 _ _ _ _ _) as [[w1 o1] ok] eqn:E. assert (J : inv (set_paths w (p :: paths w))) by (apply (same_good w); [exact I | repeat split]). pose proof (create_ok _ _ _ _ _ _ _ _ _ _ _ _ E J) as G.
  apply (pre_same w (set_paths w (p :: paths w))); [exact I | repeat split |]. destruct ok; inj H; apply post_ret; [exact G |]. eapply post_same; [exact G | repeat split].
Qed.
Lemma path_remove_ok : forall w i c w2 o, path_remove w i c = (w2, o) -> inv w -> good w o w2.
Proof.
  intros w i c w2 o H I. unfold path_remove in H. destruct (handle w i) as [d|]; [| inj H; apply good_refl; exact I]. apply (pre_same w (set_paths w (drop_path (ud d) (paths w)))); [exact I | repeat split |]. eapply remove_ok; [exact H |]. apply (same_good w); [exact I | repeat split].
Qed.
Lemma serve_ok : forall l w w2 o, serve w l = (w2, o) -> inv w -> good w o w2.
Proof.
  induction l as [|x l IH]; intros w w2 o H I; [inj H; apply good_refl; exact I |]. cbn in H.
  destruct (match x with Source s c ok => read w s c ok | Monitor e c => if msrc w then udev_handler w e c else (w, []) | Timer i c => match find (fun d => Nat.eqb (id d) i) (devs w) with Some d => (w, among (d :: others w d) (c_own c)) | None => (w, []) end end) as [w1 o1] eqn:H1.
  destruct (serve w1 l) as [w3 o3] eqn:H2. inj H. assert (G : good w o1 w1).
  { destruct x as [s c ok|e c|i c].
    - eapply read_ok; eassumption.
    - destruct (msrc w); [| inj H1; apply good_refl; exact I]. destruct e; cbn in H1; [eapply added_ok; eassumption | eapply remove_all_ok; eassumption].
    - destruct (find _ (devs w)) as [d|] eqn:FD; [| inj H1; apply good_refl; exact I]. inj H1. apply find_id in FD. apply good_among; [exact I |]. intros e E. eapply here_or_others; [exact (proj1 FD) | exact E]. }
  eapply good_trans; [exact G | eapply IH; [exact H2 | exact (g_inv _ _ _ G)]].
Qed.
Lemma handle_in : forall w i d, handle w i = Some d -> (In d (devs w) \/ In d (gone w)) /\ id d = i.
Proof. intros w i d H. unfold handle in H. apply find_id in H. rewrite in_app_iff in H. exact H. Qed.
Lemma upd_self : forall w d l, inv w -> (forall e, In e l -> In e (devs w ++ gone w)) -> In d (devs w ++ gone w) -> upd d l = l.
Proof. intros w d l I S D. unfold upd. rewrite <- (map_id l) at 2. apply map_ext_in. intros e E. destruct (Nat.eqb_spec (id e) (id d)) as [X|X]; [| reflexivity]. apply (nodup_same w); auto. Qed.
Lemma set_self : forall w, set_devs w (devs w) (gone w) = w.
Proof. destruct w; reflexivity. Qed.
Lemma enable_ok : forall w d b c w2 d2 o, resume_dev w d b c = (w2, d2, o) -> inv w -> In d (devs w ++ gone w) -> good w o (set_devs w2 (upd d2 (devs w2)) (upd d2 (gone w2))).
Proof.
  intros w d b c w2 d2 o H I D.
  assert (ID : forall w3, same w w3 -> good w [] (set_devs w3 (upd d (devs w3)) (upd d (gone w3)))).
  { intros w3 [A [B [C E]]]. rewrite A, B. rewrite (upd_self w d (devs w) I), (upd_self w d (gone w) I); try exact D; try (intros; apply in_or_app; auto). apply good_same; [exact I | repeat split; cbn; assumption | intros x X; destruct X]. }
  unfold resume_dev in H. destruct (fd d) eqn:FD; [inj H; apply ID; repeat split |]. destruct (removed d) eqn:RD; [inj H; apply ID; repeat split |].
  assert (DV : In d (devs w)). { apply in_app_iff in D. destruct D as [D|D]; [exact D |]. apply (i_gone _ I) in D. destruct D. congruence. }
  assert (NG : forall d3, id d3 = id d -> upd d3 (gone w) = gone w) by (intros d3 E; apply upd_none; rewrite E; apply not_gone; assumption).
  assert (OT : forall c0, good w (among (others w d) c0) w) by (intro; apply good_among; [exact I | intros e E; eapply others_in; exact E]).
  assert (NEW : forall d3 s u, kn d3 = kn d -> removed d3 = false -> fd d3 = Some (nfd w) -> forall c0 (b0 : bool), good w ([Open (nfd w)] ++ if b0 then among (others w d) c0 else []) (set_devs (more w 0 1 s u) (upd d3 (devs (more w 0 1 s u))) (upd d3 (gone (more w 0 1 s u))))).
  { intros d3 s u K R N c0 b0. cbn [devs gone more]. assert (ID3 : id d3 = id d) by (unfold kn in K; injection K; auto). rewrite (NG d3 ID3). eapply good_trans; [exact (upd_open w d d3 s u I DV K R FD N) |]. destruct b0; [| apply good_refl; apply (g_inv _ _ _ (upd_open w d d3 s u I DV K R FD N))].
    apply good_among; [apply (g_inv _ _ _ (upd_open w d d3 s u I DV K R FD N)) |]. intros e E. cbn [devs set_devs]. rewrite upd_has. eapply others_in. exact E. }
  assert (NEW0 : forall d3 s u, kn d3 = kn d -> removed d3 = false -> fd d3 = Some (nfd w) -> good w [Open (nfd w)] (set_devs (more w 0 1 s u) (upd d3 (devs (more w 0 1 s u))) (upd d3 (gone (more w 0 1 s u))))).
  { intros d3 s u K R N. exact (NEW d3 s u K R N [] false). }
  destruct b.
  - inj H. apply ID. repeat split.
  - inj H. apply ID. repeat split.
  - inj H. cbn [devs gone more]. rewrite (upd_self w d2 (devs w) I), (upd_self w d2 (gone w) I); try (apply in_or_app; left; exact DV); try (intros; apply in_or_app; auto).
    change (set_devs (more w 0 1 0 0) (devs w) (gone w)) with (more w 0 1 0 0). apply (create_ok w 0 0 0 0 0 false NO_EPOLL c (more w 0 1 0 0) _ false); [reflexivity | exact I].
  - destruct (need d); inj H; [apply NEW0 | apply NEW]; auto.
  - inj H. apply NEW0; auto.
  - inj H. apply NEW; auto.
Qed.
Lemma step_ok : forall x w w2 o, step w x = (w2, o) -> inv w -> good w o w2.
Proof.
  intros x w w2 o H I. destruct x as [s m l|c|m l how hc c|k|i c|i name how hc c|i c|i b c|l]; cbn [step] in H.
  - destruct (upath w); [inj H; apply ret_ok; exact I |]. destruct (seat_id w); [inj H; apply ret_ok; exact I |]. apply (pre_same w (set_seat w s)); [exact I | repeat split |]. eapply udev_enable_ok; [exact H |]. apply (same_good w); [exact I | repeat split].
  - destruct (upath w); [eapply remove_all_ok; eassumption | eapply udev_disable_ok; eassumption].
  - destruct (upath w); [eapply path_enable_ok; eassumption | eapply udev_enable_ok; eassumption].
  - destruct (upath w); [| inj H; apply ret_ok; exact I]. assert (S : same w (more w 0 0 0 1)) by (repeat split; cbn; apply Nat.add_0_r). apply (pre_same w (more w 0 0 0 1)); [exact I | exact S |]. eapply path_create_ok; [exact H |]. apply (same_good w); [exact I | exact S].
  - destruct (upath w); [eapply path_remove_ok; eassumption | inj H; apply good_refl; exact I].
  - destruct (handle w i) as [d|]; [| inj H; apply good_refl; exact I]. destruct (upath w).
    + destruct (path_remove w i c) as [w1 o1] eqn:H1. destruct (path_create w1 _ _ _ _) as [w3 o3] eqn:H2. inj H. pose proof (path_remove_ok _ _ _ _ _ H1 I) as G. eapply good_trans; [exact G |]. eapply path_create_ok; [exact H2 | exact (g_inv _ _ _ G)].
    + destruct (device_removed w (sys d) c) as [w1 o1] eqn:H1. destruct (device_added w1 _ _) as [w3 o3] eqn:H2. inj H. pose proof (remove_all_ok _ _ _ _ _ H1 I) as G. eapply good_trans; [exact G |]. apply post_ret. eapply added_ok; [exact H2 | exact (g_inv _ _ _ G)].
  - destruct (find _ (devs w)) as [d|] eqn:FD; [| inj H; apply good_refl; exact I]. apply find_id in FD. destruct FD as [D ID]. destruct (suspend_dev w d c) as [d2 o2] eqn:S. inj H. destruct (suspend_outs _ _ _ _ _ S I D) as [o3 [O [G [K2 [R2 N2]]]]]. rewrite O. eapply good_trans; [exact G |]. rewrite (i_here _ I d D) in R2. apply upd_close; assumption.
  - destruct (handle w i) as [d|] eqn:HD; [| inj H; apply good_refl; exact I]. apply handle_in in HD. destruct (resume_dev w d b c) as [[w1 d1] o1] eqn:R. inj H. eapply enable_ok; [exact R | exact I | apply in_or_app; tauto].
  - eapply serve_ok; eassumption.
Qed.
Lemma run_ok : forall l w w2 o, run w l = (w2, o) -> inv w -> good w o w2.
Proof.
  induction l as [|x l IH]; intros w w2 o H I; [inj H; apply good_refl; exact I |]. cbn in H. destruct (step w x) as [w1 o1] eqn:H1. destruct (run w1 l) as [w3 o3] eqn:H2. inj H. pose proof (step_ok _ _ _ _ H1 I) as G. eapply good_trans; [exact G | eapply IH; [exact H2 | exact (g_inv _ _ _ G)]].
Qed.
Lemma inv_init : forall p, inv (init p).
Proof. intro p. split; cbn; try contradiction. constructor. Qed.
Definition state (p : bool) (l : list call) : ctx := fst (run (init p) l).
Lemma state_good : forall p l, good (init p) (outs p l) (state p l).
Proof. intros p l. unfold outs, state. destruct (run (init p) l) as [w o] eqn:R. eapply run_ok; [exact R | apply inv_init]. Qed.
Lemma lives_state : forall p l d, lives d (outs p l) = L (state p l) d.
Proof. intros p l d. exact (g_L _ _ _ (state_good p l) d). Qed.
Lemma file_state : forall p l f, file f (outs p l) = F (state p l) f.
Proof. intros p l f. exact (g_F _ _ _ (state_good p l) f). Qed.
Lemma known_state : forall p l, known (outs p l) = map kn (devs (state p l)).
Proof. intros p l. exact (g_K _ _ _ (state_good p l)). Qed.
Lemma run_app : forall a b w, run w (a ++ b) = let '(w1, o1) := run w a in let '(w2, o2) := run w1 b in (w2, o1 ++ o2).
Proof. induction a as [|x a IH]; intros b w; cbn; [destruct (run w b); reflexivity |]. destruct (step w x) as [w1 o1]. rewrite IH. destruct (run w1 a) as [w2 o2]. destruct (run w2 b) as [w3 o3]. rewrite app_assoc. reflexivity. Qed.
Lemma state_app : forall p a b, state p (a ++ b) = fst (run (state p a) b).
Proof. intros p a b. unfold state. rewrite run_app. destruct (run (init p) a) as [w o]. cbn. destruct (run w b); reflexivity. Qed.
Lemma outs_app : forall p a b, outs p (a ++ b) = outs p a ++ snd (run (state p a) b).
Proof. intros p a b. unfold outs, state. rewrite run_app. destruct (run (init p) a) as [w o]. cbn. destruct (run w b); reflexivity. Qed.
Lemma run1 : forall w x, run w [x] = step w x.
Proof. intros w x. cbn. destruct (step w x) as [w1 o1]. rewrite app_nil_r. reflexivity. Qed.
