(** What is freed stays freed; checking histories. *)
Require Import Coq.ZArith.ZArith Coq.Lists.List Coq.Bool.Bool Coq.Arith.PeanoNat Coq.micromega.Lia.
Require Import Verif.Rc_Model Verif.Rc_Spec Verif.Rc_Proofs Verif.Rc_Proofs6.
Import ListNotations.
Open Scope Z_scope.

Definition grows (w w' : world) : Prop := incl (freed w) (freed w') /\ udev w' = udev w.
Lemma gr_refl : forall w, grows w w. Proof. intros w; split; auto. intros x; auto. Qed.
Lemma gr_eq : forall w w', freed w' = freed w -> udev w' = udev w -> grows w w'. Proof. intros w w' E U. split; auto. intros x X. now rewrite E. Qed.
Ltac gr0 := first [apply gr_refl | apply gr_eq; reflexivity].
Lemma gr_trans : forall a b c, grows a b -> grows b c -> grows a c. Proof. intros a b c [A A'] [B B']. split; [|congruence]. intros x X. apply B, A, X. Qed.
Lemma gr_each : forall (f : nat -> world -> world), (forall x w, grows w (f x w)) -> forall l w, grows w (each f l w).
Proof. intros f H. unfold each. induction l as [|x l IH]; intros w; cbn [fold_left]; [gr0|]. eapply gr_trans; [apply H|apply IH]. Qed.
Lemma gr_touch : forall x w, grows w (touch x w). Proof. intros. unfold touch. destruct (live w x); gr0. Qed.
Lemma gr_ctx : forall w, grows w (ctx w). Proof. intros. unfold ctx. destruct (cx_live w); gr0. Qed.
Lemma gr_free : forall x w, grows w (free x w).
Proof. intros x w. eapply gr_trans; [apply (gr_touch x)|]. unfold free. cbv zeta. split; [|reflexivity]. intros y Y. sm. now right. Qed.
Lemma gr_ref : forall x w, grows w (ref x w). Proof. intros x w. eapply gr_trans; [apply (gr_touch x)|]. gr0. Qed.
Lemma gr_drop : forall x w, grows w (drop x w).
Proof. intros x w. eapply gr_trans; [apply (gr_touch x)|]. unfold drop. cbv zeta. destruct (0 <? rc (touch x w) x); gr0. Qed.
Lemma gr_destroy_seat : forall s w, grows w (destroy_seat s w).
Proof. intros. unfold destroy_seat. cbv zeta. eapply gr_trans; [apply gr_ctx|]. eapply gr_trans; [|apply gr_free]. gr0. Qed.
Lemma gr_unref_seat : forall s w, grows w (unref_seat s w).
Proof. intros. unfold unref_seat. cbv zeta. eapply gr_trans; [apply (gr_drop s)|]. destruct (_ =? 0); [apply gr_destroy_seat|gr0]. Qed.
Lemma gr_destroy_group : forall s w, grows w (destroy_group s w).
Proof. intros. unfold destroy_group. cbv zeta. eapply gr_trans; [apply gr_ctx|]. eapply gr_trans; [|apply gr_free]. gr0. Qed.
Lemma gr_unref_group : forall s w, grows w (unref_group s w).
Proof. intros. unfold unref_group. cbv zeta. eapply gr_trans; [apply (gr_drop s)|]. destruct (_ =? 0); [apply gr_destroy_group|gr0]. Qed.
Lemma gr_owner : forall x w, grows w (owner x w).
Proof. intros. unfold owner. destruct (home w x); [apply gr_touch|apply gr_ctx]. Qed.
Lemma gr_unref_tool : forall s w, grows w (unref_tool s w).
Proof.
  intros. unfold unref_tool. cbv zeta. eapply gr_trans; [apply (gr_drop s)|]. destruct (0 <? _); [gr0|]. eapply gr_trans; [apply (gr_owner s)|]. eapply gr_trans; [|apply gr_free].
  destruct (home _ s); gr0.
Qed.
Lemma gr_unref_mode : forall s w, grows w (unref_mode s w).
Proof.
  intros. unfold unref_mode. cbv zeta. eapply gr_trans; [apply (gr_drop s)|]. destruct (0 <? _); [gr0|]. eapply gr_trans; [apply (gr_owner s)|]. eapply gr_trans; [|apply gr_free].
  destruct (home _ s); gr0.
Qed.
Lemma gr_destroy_device : forall d w, grows w (destroy_device d w).
Proof.
  intros. unfold destroy_device. cbv zeta. eapply gr_trans; [apply (gr_touch d)|]. eapply gr_trans; [|apply gr_free]. eapply gr_trans; [|apply gr_unref_seat].
  match goal with |- grows _ (match ?g with Some _ => _ | None => _ end) => destruct g end; [eapply gr_trans; [|apply gr_unref_group]|];
    (eapply gr_trans; [|apply gr_each, gr_unref_mode]; eapply gr_trans; [|apply gr_each, gr_unref_tool]; gr0).
Qed.
Lemma gr_unref_device : forall s w, grows w (unref_device s w).
Proof. intros. unfold unref_device. cbv zeta. eapply gr_trans; [apply (gr_drop s)|]. destruct (_ =? 0); [apply gr_destroy_device|gr0]. Qed.
Lemma gr_unref : forall x w, grows w (unref x w).
Proof. intros. unfold unref. destruct (knd w x); [apply gr_unref_seat|apply gr_unref_device|apply gr_unref_group|apply gr_unref_tool|apply gr_unref_mode]. Qed.
Lemma gr_post_event : forall e w, grows w (post_event e w).
Proof. intros. unfold post_event. cbv zeta. eapply gr_trans; [apply gr_ctx|]. eapply gr_trans; [apply (gr_ref (e_dev e))|]. gr0. Qed.
Lemma gr_destroy_event : forall e w, grows w (destroy_event e w).
Proof.
  intros. unfold destroy_event. cbv zeta. eapply gr_trans; [|apply gr_unref_device].
  destruct (e_tool e), (e_mode e); repeat first [gr0 | apply gr_unref_tool | eapply gr_trans; [|apply gr_unref_mode]].
Qed.
Lemma gr_get_tool : forall d ty se w, grows w (snd (get_tool d ty se w)).
Proof.
  intros. unfold get_tool. cbv zeta. eapply gr_trans; [apply (gr_touch d)|]. eapply gr_trans; [apply gr_ctx|]. set (v := ctx (touch d w)). clearbody v.
  destruct (if se =? 0 then None else _); [gr0|]. destruct (find _ _); [gr0|]. destruct (se =? 0); gr0.
Qed.
Lemma gr_do_post : forall d p w, grows w (do_post d p w).
Proof.
  intros d [|ty se|i] w; cbn [do_post].
  - apply gr_post_event.
  - pose proof (gr_get_tool d ty se w) as G. destruct (get_tool d ty se w) as [t v]. eapply gr_trans; [exact G|]. eapply gr_trans; [apply (gr_ref t)|apply gr_post_event].
  - destruct (nth_error (modes w d) i) as [m|]; [|gr0]. eapply gr_trans; [apply (gr_ref m)|apply gr_post_event].
Qed.
Lemma gr_do_posts : forall d ps w, grows w (do_posts d ps w).
Proof. intros d. unfold do_posts. induction ps as [|p ps IH]; intros w; cbn [fold_left]; [gr0|]. eapply gr_trans; [apply gr_do_post|apply IH]. Qed.
Lemma gr_remove_device : forall ps d w, grows w (remove_device ps d w).
Proof.
  intros. unfold remove_device. cbv zeta. eapply gr_trans; [apply (gr_touch d)|]. eapply gr_trans; [apply (gr_do_posts d ps)|]. eapply gr_trans; [|apply gr_unref_device].
  eapply gr_trans; [|apply gr_post_event]. eapply gr_trans; [apply gr_touch|gr0].
Qed.
Lemma gr_set_group : forall d i w, grows w (set_group d i w).
Proof.
  intros. unfold set_group. cbv zeta. eapply gr_trans; [apply gr_ctx|]. set (v := ctx w). clearbody v. destruct (find_group i v); [eapply gr_trans; [|apply gr_ref]; gr0|].
  eapply gr_trans; [|apply gr_unref_group]. eapply gr_trans; [|apply gr_ref]. gr0.
Qed.
Lemma gr_make_modes : forall n d w, grows w (make_modes n d w).
Proof. induction n as [|n IH]; intros; cbn [make_modes]; [gr0|]. cbv zeta. eapply gr_trans; [|apply IH]. gr0. Qed.
Lemma gr_create_device : forall s a w, grows w (create_device s a w).
Proof.
  intros. unfold create_device. destruct (a_fate a); cbv zeta; [gr0| |].
  - eapply gr_trans; [|apply gr_destroy_device]. eapply gr_trans; [|apply gr_make_modes]. eapply gr_trans; [|apply gr_ref]. gr0.
  - eapply gr_trans; [|apply gr_post_event].
    match goal with |- grows _ (set_devs ?W _) => apply (gr_trans _ W); [|gr0] end.
    eapply gr_trans; [|apply gr_set_group]. eapply gr_trans; [|apply gr_make_modes]. eapply gr_trans; [|apply gr_ref]. gr0.
Qed.
Lemma gr_add_device : forall a w, grows w (add_device a w).
Proof.
  intros. unfold add_device. cbv zeta. eapply gr_trans; [apply gr_ctx|]. set (v := ctx w). clearbody v. destruct (find_seat (a_seat a) v) as [s|].
  - eapply gr_trans; [apply (gr_ref s)|]. eapply gr_trans; [apply (gr_create_device s a)|apply gr_unref_seat].
  - apply (gr_trans _ (new_seat (a_seat a) v)); [gr0|]. set (v' := new_seat (a_seat a) v). clearbody v'.
    eapply gr_trans; [|apply gr_unref_seat]. eapply gr_trans; [|apply gr_create_device]. destruct (udev v'); [gr0|apply gr_ref].
Qed.
Lemma gr_disable : forall ps w, grows w (disable ps w).
Proof.
  intros. unfold disable. apply gr_each. intros s v. eapply gr_trans; [apply (gr_ref s)|]. eapply gr_trans; [|apply gr_unref_seat]. apply gr_each. intros d v'. apply gr_remove_device.
Qed.
Lemma gr_suspend : forall ps w, grows w (suspend ps w).
Proof.
  intros. unfold suspend. cbv zeta. eapply gr_trans; [apply gr_ctx|]. set (v := ctx w). clearbody v. destruct (udev v); [destruct (enabled v)|].
  - eapply gr_trans; [|apply gr_disable]. gr0.
  - gr0.
  - apply gr_disable.
Qed.
Lemma gr_enable_path : forall ps l w, grows w (enable_path ps l w).
Proof.
  induction l as [|a l IH]; intros; cbn [enable_path]; [gr0|]. cbv zeta. eapply gr_trans; [apply (gr_add_device a)|].
  destruct (a_fate a); [apply gr_disable|apply gr_disable|apply IH].
Qed.
Lemma gr_adds : forall l w, grows w (fold_left (fun w a => add_device a w) l w).
Proof. induction l as [|a l IH]; intros; cbn [fold_left]; [gr0|]. eapply gr_trans; [apply gr_add_device|apply IH]. Qed.
Lemma gr_resume : forall ps l w, grows w (resume ps l w).
Proof.
  intros. unfold resume. cbv zeta. eapply gr_trans; [apply gr_ctx|]. set (v := ctx w). clearbody v. destruct (udev v); [destruct (enabled v)|].
  - gr0.
  - eapply gr_trans; [|apply gr_adds]. gr0.
  - apply gr_enable_path.
Qed.
Lemma gr_unplug : forall ps d w, grows w (unplug ps d w).
Proof.
  intros. unfold unplug. cbv zeta. eapply gr_trans; [apply (gr_touch d)|]. eapply gr_trans; [apply gr_ctx|]. set (v := ctx (touch d w)). clearbody v.
  destruct (udev v).
  - destruct (existsb _ _); [apply gr_remove_device|gr0].
  - eapply gr_trans; [apply (gr_ref (seat_of v d))|]. eapply gr_trans; [|apply gr_unref_seat]. destruct (existsb _ _); [apply gr_remove_device|gr0].
Qed.
Lemma gr_drain : forall n w, grows w (drain n w).
Proof. induction n as [|n IH]; intros; cbn [drain]; [gr0|]. destruct (queue w) as [|e r]; [gr0|]. eapply gr_trans; [|apply IH]. eapply gr_trans; [|apply gr_destroy_event]. gr0. Qed.
Lemma gr_unref_context : forall ps w, grows w (unref_context ps w).
Proof.
  intros. unfold unref_context. cbv zeta. eapply gr_trans; [apply gr_ctx|]. set (v := ctx w). clearbody v.
  match goal with |- grows _ (if 0 <? cx_rc (set_cx_rc ?W ?n) then _ else _) => apply (gr_trans _ (set_cx_rc W n)); [destruct (0 <? cx_rc v); gr0|]; set (v' := set_cx_rc W n) end. clearbody v'.
  destruct (0 <? cx_rc v'); [gr0|].
  match goal with |- grows _ (set_cx_live ?W _) => apply (gr_trans _ W); [|gr0] end.
  eapply gr_trans; [|apply gr_each, gr_unref_tool]. eapply gr_trans; [|apply gr_each, gr_destroy_group].
  eapply gr_trans; [|apply gr_each; intros s x; eapply gr_trans; [|apply gr_destroy_seat]; apply gr_each, gr_destroy_device].
  eapply gr_trans; [|apply gr_drain]. apply gr_suspend.
Qed.
Lemma gr_step : forall o w, grows w (step o w).
Proof.
  intros [a|ps d|d p|ps|ps l| |i|x|x| |ps] w; cbn [step].
  - apply gr_add_device.
  - apply gr_unplug.
  - apply gr_do_post.
  - apply gr_suspend.
  - apply gr_resume.
  - unfold get_event. cbv zeta. eapply gr_trans; [apply gr_ctx|]. destruct (queue _); gr0.
  - destruct (nth_error (hand w) i); [|gr0]. eapply gr_trans; [|apply gr_destroy_event]. gr0.
  - apply gr_ref.
  - apply gr_unref.
  - cbv zeta. eapply gr_trans; [apply gr_ctx|]. gr0.
  - apply gr_unref_context.
Qed.
Lemma gr_run : forall b l m, grows (run b l) (run b (l ++ m)).
Proof.
  intros b l m. induction m as [|o m IH] using rev_ind; [rewrite app_nil_r; gr0|]. rewrite app_assoc, run_app. eapply gr_trans; [exact IH|apply gr_step].
Qed.

(** ** Checking histories *)
Definition mem (x : nat) (l : list nat) : bool := existsb (Nat.eqb x) l.
Lemma mem_in : forall x l, mem x l = true -> In x l.
Proof. intros x l H. apply existsb_exists in H. destruct H as (y & I & E). apply Nat.eqb_eq in E. now subst. Qed.
Definition is_kind (k j : kind) : bool :=
  match k, j with K_seat, K_seat | K_device, K_device | K_group, K_group | K_tool, K_tool | K_mode, K_mode => true | _, _ => false end.
Lemma is_kind_eq : forall k j, is_kind k j = true -> k = j. Proof. intros [] []; auto; discriminate. Qed.
Definition usable1 (w : world) (u : nat -> Z) (x : nat) : bool := (0 <? u x) || mem x (flat_map of_event (hand w)) || mem x (flat_map (devs w) (seats w)).
Definition usable2 (w : world) (u : nat -> Z) (x : nat) : bool :=
  usable1 w u x ||
  existsb (fun d => usable1 w u d && is_kind (knd w d) K_device && (Nat.eqb (seat_of w d) x || mem x (opt (group_of w d)) || mem x (modes w d))) (seq 0 (next w)).
Lemma usable1_sound : forall w u x, usable1 w u x = true -> usable w u x.
Proof.
  intros w u x H. unfold usable1 in H. apply orb_true_iff in H. destruct H as [H|H]; [apply orb_true_iff in H; destruct H as [H|H]|].
  - apply us_held. now apply Z.ltb_lt.
  - apply mem_in, in_flat_map in H. destruct H as (e & A & B). eapply us_event; eauto.
  - apply mem_in, in_flat_map in H. destruct H as (e & A & B). eapply us_added; eauto.
Qed.
Lemma usable2_sound : forall w u x, usable2 w u x = true -> usable w u x.
Proof.
  intros w u x H. unfold usable2 in H. apply orb_true_iff in H. destruct H as [H|H]; [now apply usable1_sound|]. apply existsb_exists in H. destruct H as (d & _ & H).
  apply andb_true_iff in H. destruct H as [H C]. apply andb_true_iff in H. destruct H as [A B]. apply usable1_sound in A. apply is_kind_eq in B.
  apply orb_true_iff in C. destruct C as [C|C]; [apply orb_true_iff in C; destruct C as [C|C]|].
  - apply Nat.eqb_eq in C. subst x. now apply us_seat.
  - apply mem_in in C. destruct (group_of w d) as [g|] eqn:G; [|destruct C]. destruct C as [->|[]]. eapply us_group; eauto.
  - apply mem_in in C. eapply us_mode; eauto.
Qed.
Definition added_b (w : world) (d : nat) : bool := mem d (flat_map (devs w) (seats w)).
Lemma added_sound : forall w d, added_b w d = true -> added w d.
Proof. intros w d H. apply mem_in, in_flat_map in H. exact H. Qed.
Definition free_of (p : list op) : bool := forallb (fun o => match o with Ref y | Unref y => held p y =? 0 | _ => true end) p.
Lemma free_of_sound : forall p x, free_of p = true -> held p x = 0.
Proof.
  intros p x H. unfold free_of in H. rewrite forallb_forall in H.
  destruct (existsb (fun o => match o with Ref y | Unref y => Nat.eqb y x | _ => false end) p) eqn:E.
  - apply existsb_exists in E. destruct E as (o & I & E). specialize (H o I). destruct o; try discriminate; apply Nat.eqb_eq in E; subst; now apply Z.eqb_eq.
  - clear H. induction p as [|o p IH] using rev_ind; [reflexivity|]. rewrite existsb_app in E. apply orb_false_iff in E. destruct E as [E1 E2]. rewrite held_app, (IH E1).
    cbn [existsb] in E2. rewrite orb_false_r in E2. destruct o; cbn [held1]; auto; now rewrite E2.
Qed.
Definition legal_b (w : world) (p : list op) (o : op) : bool :=
  let u := held p in
  (0 <? ctx_held p) &&
  match o with
  | Add _ => negb (udev w) || enabled w
  | Remove _ d => if udev w then added_b w d else usable2 w u d && is_kind (knd w d) K_device
  | Send d _ => added_b w d
  | Ref x => usable2 w u x
  | Unref x => (0 <? u x) && match home w x with Some d => live w d | None => true end
  | Ctx_unref _ => negb (ctx_held p =? 1) || (match hand w with [] => true | _ => false end && free_of p)
  | _ => true
  end.
Lemma legal_b_sound : forall w p o, legal_b w p o = true -> legal w (held p) (ctx_held p) o.
Proof.
  intros w p o H. unfold legal_b in H. apply andb_true_iff in H. destruct H as [A B]. apply Z.ltb_lt in A. split; auto. destruct o; auto.
  - intros U. rewrite U in B. exact B.
  - destruct (udev w); [now apply added_sound|]. apply andb_true_iff in B. destruct B as [B C]. split; [now apply usable2_sound|now apply is_kind_eq].
  - now apply added_sound.
  - now apply usable2_sound.
  - apply andb_true_iff in B. destruct B as [B C]. split; [now apply Z.ltb_lt|]. intros d _ E. now rewrite E in C.
  - intros E. rewrite E in B. cbn in B. apply andb_true_iff in B. destruct B as [B C]. split; [destruct (hand w); auto; discriminate|]. intros x. now apply free_of_sound.
Qed.
(** Each operation of [l] passes [c], after those before it *)
Fixpoint check (c : world -> list op -> op -> bool) (w : world) (p : list op) (l : list op) : bool :=
  match l with [] => true | o :: r => c w p o && check c (step o w) (p ++ [o]) r end.
Lemma check_sound : forall c b l p, check c (run b p) p l = true -> forall q o r, l = q ++ o :: r -> c (run b (p ++ q)) (p ++ q) o = true.
Proof.
  intros c b l p H q. revert l p H. induction q as [|a q IH]; intros l p H o r E; subst l; cbn [app check] in H; apply andb_true_iff in H; destruct H as [H1 H2].
  - now rewrite app_nil_r.
  - replace (p ++ a :: q) with ((p ++ [a]) ++ q) by (rewrite <- app_assoc; reflexivity). rewrite <- run_app in H2. exact (IH _ _ H2 o r eq_refl).
Qed.
Lemma check_legal : forall b l, check legal_b (init b) [] l = true -> legal_history b l.
Proof. intros b l H q o r E. apply legal_b_sound. exact (check_sound legal_b b l [] H q o r E). Qed.
Definition any_time_b (w : world) (p : list op) (o : op) : bool := match o with Unref x => (0 <? ctx_held p) && (0 <? held p x) | _ => legal_b w p o end.
Definition suspended_b (w : world) (p : list op) (o : op) : bool := match o with Add _ => 0 <? ctx_held p | _ => legal_b w p o end.
Definition any_order_b (w : world) (p : list op) (o : op) : bool := match o with Ctx_unref _ => 0 <? ctx_held p | Unref x => 0 <? held p x | _ => legal_b w p o end.
Lemma check_any_time : forall b l, check any_time_b (init b) [] l = true -> history_of legal_any_time b l.
Proof.
  intros b l H q o r E. pose proof (check_sound any_time_b b l [] H q o r E) as C. cbn [app] in C. destruct o; try (now apply legal_b_sound).
  cbn in *. apply andb_true_iff in C. destruct C as [C D]. apply Z.ltb_lt in C, D. auto.
Qed.
Lemma check_suspended : forall b l, check suspended_b (init b) [] l = true -> history_of legal_suspended b l.
Proof.
  intros b l H q o r E. pose proof (check_sound suspended_b b l [] H q o r E) as C. cbn [app] in C. destruct o; try (now apply legal_b_sound). cbn in *. now apply Z.ltb_lt.
Qed.
Lemma check_any_order : forall b l, check any_order_b (init b) [] l = true -> history_of legal_any_order b l.
Proof.
  intros b l H q o r E. pose proof (check_sound any_order_b b l [] H q o r E) as C. cbn [app] in C. destruct o; try (now apply legal_b_sound); cbn in *; now apply Z.ltb_lt.
Qed.
