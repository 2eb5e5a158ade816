(** Every step keeps the invariant; the end of the context. *)
Require Import Coq.ZArith.ZArith Coq.Lists.List Coq.Bool.Bool Coq.Arith.PeanoNat Coq.micromega.Lia.
Require Import Verif.Rc_Model Verif.Rc_Spec Verif.Rc_Proofs Verif.Rc_Proofs2 Verif.Rc_Proofs3 Verif.Rc_Proofs4 Verif.Rc_Proofs5.
Import ListNotations.
Open Scope Z_scope.

Lemma inv_move : forall w u u' tmp tmp', inv w u tmp None -> (forall y, 0 <= u' y) -> (forall y, u' y + cnt y tmp' = u y + cnt y tmp) -> inv w u' tmp' None.
Proof.
  intros w u u' tmp tmp' [SH [A B C D]] P E. split; auto. constructor; auto.
  - intros x L N. destruct (B x L N) as [B1 B2]. specialize (E x). rewrite cnt_app in *. split; auto. lia.
  - intros x L. destruct (C x L) as [C1 C2]. specialize (E x). specialize (P x). rewrite cnt_app in *. pose proof (cnt_nonneg x tmp). pose proof (cnt_nonneg x tmp'). pose proof (cnt_nonneg x (holders w)). lia.
  - discriminate.
Qed.
Lemma usable_live : forall w u x, inv w u [] None -> usable w u x -> live w x = true.
Proof.
  intros w u x IV U. assert (HL : forall y, In y (holders w) -> live w y = true) by (intros; apply (has_live _ _ _ _ _ (proj2 IV)); auto).
  assert (DV : forall d y, live w d = true -> knd w d = K_device -> In y (of_device w d) -> live w y = true).
  { intros d y L K I. apply HL. apply (in_dv w d); auto. apply (sh_all _ _ (proj1 IV)). repeat split; auto. discriminate. }
  induction U as [x H|e x I J|s d I J|d U IH K|d g U IH K G|d m U IH K M].
  - destruct (live w x) eqn:L; auto. apply (ct_dead _ _ _ _ (proj2 IV)) in L. lia.
  - apply HL. apply (in_ev w e); auto. apply in_or_app. auto.
  - apply HL. eapply in_ls; eauto.
  - apply (DV d); auto. now left.
  - apply (DV d); auto. right. apply in_or_app. left. rewrite G. now left.
  - apply (DV d); auto. right. apply in_or_app. right. apply in_or_app. now right.
Qed.

Definition ok (w : world) (u : nat -> Z) (c : Z) : Prop :=
  inv w u [] None /\ cx_rc w = c /\ 0 < c /\ (udev w = true -> enabled w = false -> forall s, devs w s = []).
Lemma ok_fr : forall w w' u u' c, inv w' u' [] None -> (udev w' = udev w /\ enabled w' = enabled w /\ cx_rc w' = cx_rc w) -> ok w u c -> (udev w = true -> enabled w = false -> (forall s, devs w s = []) -> forall s, devs w' s = []) -> ok w' u' c.
Proof. intros w w' u u' c IV (A & B & D) (_ & E & F & G) H. unfold ok. rewrite A, B, D. split; [exact IV|]. auto. Qed.
Lemma fr3 : forall w w', fr w w' -> udev w' = udev w /\ enabled w' = enabled w /\ cx_rc w' = cx_rc w.
Proof. intros w w' []. auto. Qed.

Lemma suspend_ok : forall ps w u, inv w u [] None -> (udev w = true -> enabled w = false -> forall s, devs w s = []) ->
  inv (suspend ps w) u [] None /\ udev (suspend ps w) = udev w /\ hand (suspend ps w) = hand w /\ cx_rc (suspend ps w) = cx_rc w /\ forall s, devs (suspend ps w) s = [].
Proof.
  intros ps w u IV H. unfold suspend. rewrite (ctx_ok _ _ (proj1 IV)). destruct (udev w) eqn:U; [destruct (enabled w) eqn:E|].
  - assert (I1 : inv (set_enabled w false) u [] None).
    { destruct IV as [SH CT]. split; [destruct SH; constructor; sm; auto|]. assert (HH : holders (set_enabled w false) = holders w) by reflexivity. destruct CT as [A B C D]. constructor; rewrite ?HH; auto. }
    destruct (disable_ok ps _ _ _ I1) as (A & [B1 B2 B3 B4] & C). split; [exact A|split; [rewrite B1; exact U|split; [exact B3|split; [exact B4|exact C]]]].
  - split; [exact IV|auto].
  - destruct (disable_ok ps _ _ _ IV) as (A & [B1 B2 B3 B4] & C). split; [exact A|split; [congruence|auto]].
Qed.
Lemma adds_ok : forall l w u, inv w u [] None -> inv (fold_left (fun w a => add_device a w) l w) u [] None /\ fr w (fold_left (fun w a => add_device a w) l w).
Proof.
  induction l as [|a l IH]; intros w u IV; cbn [fold_left]; [split; auto; apply fr_refl|]. destruct (add_device_ok w u [] a IV) as [A B]. destruct (IH _ _ A) as [C D].
  split; auto. eapply fr_trans; eauto.
Qed.
Lemma enable_path_ok : forall ps l w u, inv w u [] None -> inv (enable_path ps l w) u [] None /\ fr w (enable_path ps l w).
Proof.
  intros ps. induction l as [|a l IH]; intros w u IV; cbn [enable_path]; [split; auto; apply fr_refl|]. cbv zeta. destruct (add_device_ok w u [] a IV) as [A B].
  assert (X : inv (disable ps (add_device a w)) u [] None /\ fr w (disable ps (add_device a w))).
  { destruct (disable_ok ps _ _ _ A) as (C & D & _). split; auto. eapply fr_trans; eauto. }
  destruct (a_fate a); auto. destruct (IH _ _ A) as [C D]. split; auto. eapply fr_trans; eauto.
Qed.
Lemma unplug_ok : forall ps d w u, inv w u [] None -> live w d = true -> knd w d = K_device -> inv (unplug ps d w) u [] None /\ fr w (unplug ps d w).
Proof.
  intros ps d w u IV L K. unfold unplug. assert (ET : touch d w = w) by (unfold touch; now rewrite L). rewrite ET, (ctx_ok _ _ (proj1 IV)). cbv zeta.
  assert (IA : In d (all w)) by (apply (sh_all _ _ (proj1 IV)); repeat split; auto; discriminate).
  destruct (sh_dev _ _ (proj1 IV) d IA) as (KS & _). set (s := seat_of w d) in *.
  assert (LS : live w s = true) by (apply (has_live _ _ _ _ _ (proj2 IV)); apply in_or_app; right; apply (in_dv w d); auto; now left).
  assert (G : forall w tmp, inv w u tmp None -> live w s = true -> knd w s = K_seat ->
    let w' := if existsb (Nat.eqb d) (devs w s) then remove_device ps d w else w in inv w' u tmp None /\ fr w w' /\ knd w' s = K_seat).
  { intros v tmp I LV KV. destruct (existsb (Nat.eqb d) (devs v s)) eqn:E; cbv zeta; [|split; auto; split; [apply fr_refl|auto]].
    apply existsb_exists in E. destruct E as (x & X & Y). apply Nat.eqb_eq in Y. subst x.
    destruct (remove_device_ok v u tmp ps s d I) as [A B]; auto. { apply (sh_seats _ _ (proj1 I)); auto. }
    split; auto. split; [destruct B; constructor; auto|]. rewrite (kp_knd _ _ B); auto. cbn. eapply below; eauto. exact (proj1 I). }
  destruct (udev w).
  - destruct (G w [] IV LS KS) as (A & B & _). auto.
  - pose proof (inv_ref _ _ _ _ _ IV LS ltac:(discriminate)) as I1. pose proof (same_ref w s LS) as S1. pose proof (keeps_ref w s LS) as K1.
    destruct (G (ref s w) [s] I1) as (A & B & C). { apply (kp_live _ _ K1). auto. } { rewrite (sm_knd _ _ S1). auto. }
    destruct (unref_seat_ok _ _ _ _ _ A C) as (D & E & _). split; auto. eapply fr_trans; [apply fr_same; exact S1|]. eapply fr_trans; [exact B|now apply fr_same].
Qed.
Lemma drop_nth_cnt : forall (f : event -> list nat) l i e x, nth_error l i = Some e -> cnt x (flat_map f l) = cnt x (f e) + cnt x (flat_map f (drop_nth i l)).
Proof.
  intros f. induction l as [|a l IH]; intros [|i] e x H; try discriminate; cbn in H; cbn [drop_nth flat_map].
  - inversion H. subst. rewrite cnt_app. lia.
  - rewrite !cnt_app, (IH _ _ _ H). lia.
Qed.
Lemma drop_nth_in : forall {A} (l : list A) i x, In x (drop_nth i l) -> In x l.
Proof. intros A. induction l as [|a l IH]; intros [|i] x H; cbn in *; auto. destruct H; auto. right. eauto. Qed.
Lemma unref_ok : forall w u tmp x, inv w u (x :: tmp) None -> (forall d, knd w x = K_tool \/ knd w x = K_mode -> home w x = Some d -> live w d = true) ->
  inv (unref x w) u tmp None /\ same w (unref x w).
Proof.
  intros w u tmp x IV H. unfold unref. destruct (knd w x) eqn:K.
  - destruct (unref_seat_ok _ _ _ _ _ IV K) as (A & B & _). auto.
  - apply unref_device_ok; auto.
  - destruct (unref_group_ok _ _ _ _ _ IV K) as (A & B & _). auto.
  - destruct (unref_tool_ok _ _ _ _ _ IV K) as (A & B & _); auto.
  - destruct (unref_mode_ok _ _ _ _ _ IV K) as (A & B & _); auto.
Qed.
Definition held1 (o : op) (x : nat) (n : Z) : Z :=
  match o with Ref y => if Nat.eqb y x then n + 1 else n | Unref y => if Nat.eqb y x then n - 1 else n | _ => n end.
Definition ctx1 (o : op) (n : Z) : Z := match o with Ctx_ref => n + 1 | Ctx_unref _ => n - 1 | _ => n end.
Lemma held_app : forall l o x, held (l ++ [o]) x = held1 o x (held l x).
Proof. intros. unfold held. rewrite fold_left_app. reflexivity. Qed.
Lemma ctx_held_app : forall l o, ctx_held (l ++ [o]) = ctx1 o (ctx_held l).
Proof. intros. unfold ctx_held. rewrite fold_left_app. reflexivity. Qed.

Lemma step_ok : forall w u c o, ok w u c -> legal w u c o -> 0 < ctx1 o c -> ok (step o w) (fun x => held1 o x (u x)) (ctx1 o c).
Proof.
  intros w u c o OK [_ LG] PC. pose proof OK as (IV & EC & PO & ID). destruct o as [a|ps d|d p|ps|ps l| |i|x|x| |ps]; cbn [step held1 ctx1] in *.
  - destruct (add_device_ok w u [] a IV) as [A B]. apply (ok_fr w _ u); auto; [now apply fr3|]. intros U E _. rewrite LG in E by auto. discriminate.
  - assert (LD : live w d = true /\ knd w d = K_device /\ (udev w = true -> added w d)).
    { destruct (udev w) eqn:U.
      - pose proof LG as AD. destruct LG as (s & I & J). destruct (sh_devs _ _ (proj1 IV) s I) as [_ H]. destruct (H d J) as [H1 _]. apply (sh_all _ _ (proj1 IV)) in H1. split; [tauto|]. split; [tauto|auto].
      - destruct LG as [G1 G2]. split; [eapply usable_live; eauto|]. split; auto. discriminate. }
    destruct LD as (L & K & AD). destruct (unplug_ok ps d w u IV L K) as [A B]. apply (ok_fr w _ u); auto; [now apply fr3|].
    intros U E H. destruct (AD U) as (s & I & J). rewrite H in J. destruct J.
  - destruct LG as (s & I & J). destruct (sh_devs _ _ (proj1 IV) s I) as [_ H]. destruct (H d J) as [H1 _].
    destruct (do_post_ok w u [] d p IV H1) as [A B]. apply (ok_fr w _ u); auto; [now apply fr3, fr_keeps|]. intros U E HH t. rewrite (kp_devs _ _ B). auto.
  - destruct (suspend_ok ps w u IV ID) as (A & B & C & D & E). unfold ok. rewrite D. split; [exact A|]. auto.
  - unfold resume. rewrite (ctx_ok _ _ (proj1 IV)). destruct (udev w) eqn:U; [destruct (enabled w) eqn:E; [exact OK|]|].
    + assert (I1 : inv (set_enabled w true) u [] None).
      { destruct IV as [SH CT]. split; [destruct SH; constructor; sm; auto|]. assert (HH : holders (set_enabled w true) = holders w) by reflexivity. destruct CT as [A B C D]. constructor; rewrite ?HH; auto. }
      destruct (adds_ok l _ _ I1) as (A & [B1 B2 B3 B4]). cbv zeta. unfold ok. rewrite B1, B2, B4. sm. split; [exact A|]. split; auto. split; auto. discriminate.
    + destruct (enable_path_ok ps l w u IV) as (A & B). apply (ok_fr w _ u); auto; [now apply fr3|]. congruence.
  - unfold get_event. rewrite (ctx_ok _ _ (proj1 IV)). destruct (queue w) as [|e r] eqn:Q; [exact OK|]. set (w' := set_hand (set_queue w r) (hand w ++ [e])).
    apply (ok_fr w _ u); auto.
    destruct IV as [SH CT]. split.
    * destruct SH. constructor; unfold w'; sm; auto. intros f I. apply (ev_ok_ext w); auto. apply sh_events. rewrite Q. apply in_app_or in I. destruct I as [I|I].
      { apply in_or_app. left. now right. } apply in_app_or in I. destruct I as [I|[<-|[]]]; apply in_or_app; [now right|left; now left].
    * apply (counts_move w _ u []); auto. intros x. unfold holders. change (of_device w') with (of_device w). unfold w'. sm. rewrite Q. rewrite !flat_map_app. cbn [flat_map app].
      repeat rewrite ?cnt_app, ?cnt_nil. lia.
  - destruct (nth_error (hand w) i) as [e|] eqn:N; [|exact OK]. set (w' := set_hand w (drop_nth i (hand w))).
    assert (EV : ev_ok w e) by (apply (sh_events _ _ (proj1 IV)); apply in_or_app; right; eapply nth_error_In; eauto).
    assert (I1 : inv w' u (of_event e ++ []) None).
    { destruct IV as [SH CT]. split.
      - destruct SH. constructor; unfold w'; sm; auto. intros f I. apply (ev_ok_ext w); auto. apply sh_events. apply in_app_or in I. apply in_or_app. destruct I as [I|I]; [auto|].
        right. eapply drop_nth_in; eauto.
      - apply (counts_move w _ u []); auto. intros x. unfold holders. change (of_device w') with (of_device w). unfold w'. sm. rewrite app_nil_r. rewrite !flat_map_app.
        repeat rewrite ?cnt_app, ?cnt_nil. rewrite (drop_nth_cnt of_event (hand w) i e x N). lia. }
    destruct (destroy_event_ok w' u [] e I1) as [A B]. { apply (ev_ok_ext w); auto. }
    apply (ok_fr w _ u); auto; [apply (fr3 w'); now apply fr_same|]. intros U E H s. rewrite (sm_devs _ _ B). apply H.
  - pose proof (usable_live _ _ _ IV LG) as L. pose proof (inv_ref _ _ _ _ _ IV L ltac:(discriminate)) as I1.
    apply (ok_fr w _ u); auto; [|apply fr3, fr_same; now apply same_ref|intros U E H s; rewrite (sm_devs _ _ (same_ref w x L)); apply H].
    eapply inv_move; [exact I1| |].
    + intros y. pose proof (ct_u _ _ _ _ (proj2 IV) y). destruct (Nat.eqb x y); lia.
    + intros y. rewrite !cnt_cons, cnt_nil, (Nat.eqb_sym y x). destruct (Nat.eqb x y); lia.
  - destruct LG as [G1 G2].
    assert (I1 : inv w (fun y => if Nat.eqb x y then u y - 1 else u y) [x] None).
    { eapply inv_move; [exact IV| |].
      - intros y. pose proof (ct_u _ _ _ _ (proj2 IV) y). destruct (Nat.eqb x y) eqn:E; [apply Nat.eqb_eq in E; subst; lia|lia].
      - intros y. rewrite !cnt_cons, cnt_nil, (Nat.eqb_sym y x). destruct (Nat.eqb x y); lia. }
    destruct (unref_ok _ _ _ _ I1 G2) as [A B]. apply (ok_fr w _ u); auto; [now apply fr3, fr_same|]. intros U E H s. rewrite (sm_devs _ _ B). apply H.
  - rewrite (ctx_ok _ _ (proj1 IV)). cbv zeta. unfold ok. sm. split; [|rewrite EC; auto].
    destruct IV as [SH CT]. split; [destruct SH; constructor; sm; auto|]. assert (HH : holders (set_cx_rc w (cx_rc w + 1)) = holders w) by reflexivity. destruct CT as [A B C D]. constructor; rewrite ?HH; auto.
  - unfold unref_context. rewrite (ctx_ok _ _ (proj1 IV)). cbv zeta. rewrite EC. replace (0 <? c) with true by (symmetry; now apply Z.ltb_lt). rewrite EC. sm.
    replace (0 <? c - 1) with true by (symmetry; now apply Z.ltb_lt). unfold ok. sm. split; [|auto].
    destruct IV as [SH CT]. split; [destruct SH; constructor; sm; auto|]. assert (HH : holders (set_cx_rc w (c - 1)) = holders w) by reflexivity. destruct CT as [A B C D]. constructor; rewrite ?HH; auto.
Qed.

(** ** The end *)
Record over (w : world) (l : list nat) : Prop := {
  ov_bad : bad w = false; ov_ctx : cx_live w = true; ov_nodup : NoDup (freed w); ov_freed : forall x, In x (freed w) <-> (x < next w)%nat /\ live w x = false;
  ov_fresh : forall x, (next w <= x)%nat -> live w x = false; ov_live : forall x, live w x = true <-> In x l; ov_l : NoDup l }.
Lemma over_free : forall w x l, over w (x :: l) -> over (free x w) l.
Proof.
  intros w x l OV. pose proof OV as [A B C D E F G]. assert (L : live w x = true) by (apply F; now left). inversion G; subst.
  unfold free, touch. rewrite L. constructor; sm; auto.
  - constructor; auto. rewrite D. intros [_ X]. congruence.
  - apply freed_step; auto. destruct (Nat.lt_ge_cases x (next w)) as [|Y]; auto. apply E in Y. congruence.
  - intros y Y. destruct (Nat.eq_dec y x) as [->|N]; [apply upd_same|rewrite upd_other; auto].
  - intros y. destruct (Nat.eq_dec y x) as [->|N]; [rewrite upd_same; split; [discriminate|contradiction]|]. rewrite upd_other by auto. rewrite F. cbn [In]. intuition congruence.
Qed.
Lemma over_seats : forall l r w, over w (l ++ r) -> (forall s, devs w s = []) ->
  let w' := each (fun s w => destroy_seat s (each destroy_device (devs w s) w)) l w in
  over w' r /\ gtools w' = gtools w /\ rc w' = rc w /\ home w' = home w /\ groups w' = groups w.
Proof.
  induction l as [|s l IH]; intros r w OV DV; unfold each in *; cbn [fold_left]; cbv zeta; [auto|]. rewrite DV. cbn [fold_left].
  assert (O1 : over (destroy_seat s w) (l ++ r)).
  { unfold destroy_seat, ctx. rewrite (ov_ctx _ _ OV). apply over_free. destruct OV. constructor; sm; auto. }
  assert (EQ : destroy_seat s w = free s (set_seats w (del s (seats w)))) by (unfold destroy_seat, ctx; rewrite (ov_ctx _ _ OV); reflexivity).
  assert (L : live w s = true) by (apply (ov_live _ _ OV); now left).
  assert (E2 : devs (destroy_seat s w) = devs w /\ gtools (destroy_seat s w) = gtools w /\ rc (destroy_seat s w) = rc w /\ home (destroy_seat s w) = home w /\ groups (destroy_seat s w) = groups w).
  { rewrite EQ. unfold free, touch. sm. rewrite L. sm. auto. }
  destruct E2 as (E2 & E3 & E4 & E5 & E6). destruct (IH r _ O1) as (A & B & C & D & E). { intros x. rewrite E2. auto. } cbv zeta in *. rewrite B, C, D, E. auto.
Qed.
Lemma over_tools : forall l w, over w l -> (forall t, In t l -> rc w t = 1 /\ home w t = None) -> over (each unref_tool l w) [].
Proof.
  induction l as [|t l IH]; intros w OV H; unfold each in *; cbn [fold_left]; [auto|].
  destruct (H t (or_introl eq_refl)) as [R HO]. assert (L : live w t = true) by (apply (ov_live _ _ OV); now left). pose proof (ov_l _ _ OV) as ND. inversion ND; subst.
  assert (E : unref_tool t w = free t (set_gtools (set_rc w (upd (rc w) t (rc w t - 1))) (del t (gtools w)))).
  { unfold unref_tool, drop, touch. rewrite L. cbv zeta. replace (0 <? rc w t) with true by (rewrite R; reflexivity). sm. rewrite upd_same.
    replace (0 <? rc w t - 1) with false by (rewrite R; reflexivity). unfold owner. sm. rewrite HO. unfold ctx. sm. rewrite (ov_ctx _ _ OV). sm. rewrite HO. reflexivity. }
  apply IH.
  - rewrite E. apply over_free. destruct OV. constructor; sm; auto.
  - intros x X. rewrite E. unfold free, touch. sm. rewrite L. sm. rewrite upd_other by congruence. apply H. now right.
Qed.
Lemma drain_ok : forall n w u, inv w u [] None -> n = length (queue w) -> inv (drain n w) u [] None /\ queue (drain n w) = [] /\ hand (drain n w) = hand w /\ devs (drain n w) = devs w /\ udev (drain n w) = udev w.
Proof.
  induction n as [|n IH]; intros w u IV E; cbn [drain]. { destruct (queue w); [auto|discriminate]. }
  destruct (queue w) as [|e r] eqn:Q; [discriminate|]. set (w' := set_queue w r).
  assert (EV : ev_ok w e) by (apply (sh_events _ _ (proj1 IV)); rewrite Q; now left).
  assert (I1 : inv w' u (of_event e ++ []) None).
  { destruct IV as [SH CT]. split.
    - destruct SH. constructor; unfold w'; sm; auto. intros f I. apply (ev_ok_ext w); auto. apply sh_events. rewrite Q. now right.
    - apply (counts_move w _ u []); auto. intros x. unfold holders. change (of_device w') with (of_device w). unfold w'. sm. rewrite app_nil_r, Q. rewrite !flat_map_app. cbn [flat_map].
      repeat rewrite ?cnt_app, ?cnt_nil. lia. }
  destruct (destroy_event_ok w' u [] e I1) as [A B]. { apply (ev_ok_ext w); auto. }
  destruct (IH _ u A) as (C & D & F & G & H). { rewrite (sm_queue _ _ B). cbn in *. lia. }
  split; auto. split; auto. rewrite F, G, H, (sm_hand _ _ B), (sm_devs _ _ B), (sm_udev _ _ B). auto.
Qed.
Definition ended (w : world) : Prop :=
  bad w = false /\ cx_live w = false /\ NoDup (freed w) /\ (forall x, In x (freed w) <-> (x < next w)%nat) /\ forall x, live w x = false.
Lemma flat_nil : forall (f : nat -> list nat) l, (forall y, f y = []) -> flat_map f l = [].
Proof. intros f l H. induction l as [|y l IH]; cbn [flat_map]; auto. now rewrite H, IH. Qed.
Lemma end_ok : forall w u c ps, ok w u c -> legal w u c (Ctx_unref ps) -> c = 1 -> ended (unref_context ps w).
Proof.
  intros w u c ps (IV & EC & PO & ID) [_ LG] C1. destruct (LG C1) as [EH EU]. subst c. unfold unref_context. rewrite (ctx_ok _ _ (proj1 IV)). cbv zeta.
  replace (0 <? cx_rc w) with true by (rewrite C1; reflexivity). sm. replace (0 <? cx_rc w - 1) with false by (rewrite C1; reflexivity).
  set (w0 := set_cx_rc w (cx_rc w - 1)).
  assert (I0 : inv w0 u [] None).
  { destruct IV as [SH CT]. split; [destruct SH; constructor; unfold w0; sm; auto|]. assert (HH : holders w0 = holders w) by reflexivity. destruct CT as [A B C D]. constructor; rewrite ?HH; auto. }
  destruct (suspend_ok ps w0 u I0 ID) as (I1 & U1 & H1 & _ & D1). set (w1 := suspend ps w0) in *.
  destruct (drain_ok _ w1 u I1 eq_refl) as (I2 & Q2 & H2 & D2 & U2). set (w2 := drain (length (queue w1)) w1) in *.
  assert (D2' : forall s, devs w2 s = []) by (intros; rewrite D2; auto).
  assert (EH2 : hand w2 = []) by (rewrite H2, H1; exact EH). pose proof (proj1 I2) as SH2.
  assert (HO : holders w2 = flat_map (of_device w2) (all w2) ++ gtools w2 ++ (if udev w2 then [] else seats w2)).
  { unfold holders. rewrite Q2, EH2. cbn [flat_map app]. rewrite (flat_nil (devs w2)) by auto. reflexivity. }
  assert (LH : forall x, live w2 x = true -> In x (holders w2) /\ rc w2 x = cnt x (holders w2)).
  { intros x L. destruct (ct_rc _ _ _ _ (proj2 I2) x L ltac:(discriminate)) as [R P]. rewrite EU in R. cbn [app] in R. split; [apply cnt_in; lia|lia]. }
  assert (AL : all w2 = []).
  { destruct (all w2) as [|d r] eqn:E; auto. exfalso. assert (IA : In d (all w2)) by (rewrite E; now left). destruct (proj1 (sh_all _ _ SH2 d) IA) as (L & K & _).
    destruct (LH d L) as [I _]. rewrite HO in I. apply in_app_or in I. destruct I as [I|I].
    - apply in_flat_map in I. destruct I as (a & A & B). rewrite <- E in A. destruct (sh_dev _ _ SH2 a A) as (X1 & X2 & _ & X4 & _ & X6). unfold of_device in B. destruct B as [B|B]; [congruence|].
      apply in_app_or in B. destruct B as [B|B]. { destruct (group_of w2 a) as [g|]; [|destruct B]. destruct B as [->|[]]. rewrite X2 in K; [discriminate|auto]. }
      apply in_app_or in B. destruct B as [B|B]; [destruct (X4 d B)|destruct (X6 d B)]; congruence.
    - apply in_app_or in I. destruct I as [I|I]; [destruct (sh_gtools _ _ SH2 d I); congruence|]. destruct (udev w2); [destruct I|]. apply (sh_seats _ _ SH2) in I. destruct I. congruence. }
  rewrite AL in HO. cbn [flat_map app] in HO.
  assert (GR : groups w2 = []).
  { destruct (groups w2) as [|g r] eqn:E; auto. exfalso. destruct (sh_groups _ _ SH2 g) as [L K]; [rewrite E; now left|].
    destruct (LH g L) as [I _]. rewrite HO in I. apply in_app_or in I. destruct I as [I|I]; [destruct (sh_gtools _ _ SH2 g I); congruence|]. destruct (udev w2); [destruct I|]. apply (sh_seats _ _ SH2) in I. destruct I. congruence. }
  assert (SE : (if udev w2 then [] else seats w2) = seats w2).
  { destruct (udev w2) eqn:U; auto. destruct (seats w2) as [|s r] eqn:E; auto. exfalso. destruct (proj1 (sh_seats _ _ SH2 s)) as [L K]; [rewrite E; now left|].
    destruct (LH s L) as [I _]. rewrite HO, app_nil_r in I. destruct (sh_gtools _ _ SH2 s I). congruence. }
  rewrite SE in HO.
  assert (DISJ : forall t, In t (gtools w2) -> ~ In t (seats w2)).
  { intros t I J. apply (sh_gtools _ _ SH2) in I. apply (sh_seats _ _ SH2) in J. destruct I, J. congruence. }
  assert (OV : over w2 (seats w2 ++ gtools w2)).
  { pose proof SH2 as SH3. destruct SH3. constructor; auto.
    - intros x. split.
      + intros L. destruct (LH x L) as [I _]. rewrite HO in I. apply in_app_or in I. apply in_or_app. tauto.
      + intros I. apply (has_live _ _ _ _ _ (proj2 I2)). cbn [app]. rewrite HO. apply in_app_or in I. apply in_or_app. tauto.
    - assert (N1 : NoDup (seats w2)) by auto. assert (N2 : NoDup (gtools w2)) by auto. clear - N1 N2 DISJ. induction (seats w2) as [|s l IH]; [auto|]. cbn [app]. inversion N1; subst. constructor.
      + intros I. apply in_app_or in I. destruct I as [I|I]; [auto|]. apply (DISJ s I). now left.
      + apply IH; auto. intros t I J. apply (DISJ t I). now right. }
  destruct (over_seats _ _ _ OV D2') as (O3 & G3 & R3 & H3 & GR3). cbv zeta in *.
  set (w3 := each (fun s w4 => destroy_seat s (each destroy_device (devs w4 s) w4)) (seats w2) w2) in *.
  rewrite GR3, GR. unfold each at 2. cbn [fold_left]. rewrite G3.
  assert (O4 : over (each unref_tool (gtools w2) w3) []).
  { apply over_tools; auto. intros t T. rewrite R3, H3. destruct (sh_gtools _ _ SH2 t T) as [KT HT]. split; auto.
    assert (L : live w2 t = true) by (apply (ov_live _ _ OV); apply in_or_app; auto). destruct (LH t L) as [_ R]. rewrite HO, cnt_app in R.
    pose proof (DISJ t T) as NS. apply cnt_not_in in NS. rewrite NS in R. pose proof (cnt_nodup t _ (sh_ngtools _ _ SH2)). assert (0 < cnt t (gtools w2)) by now apply cnt_in. lia. }
  set (w5 := each unref_tool (gtools w2) w3) in *. destruct O4 as [A B C D E F G]. unfold ended. sm.
  assert (DEAD : forall x, live w5 x = false). { intros x. destruct (live w5 x) eqn:L; auto. apply F in L. destruct L. }
  split; [auto|]. split; [auto|]. split; [auto|]. split; [|auto]. intros x. pose proof (D x) as DX. split; [intros I; apply DX in I; exact (proj1 I)|intros I; apply DX; auto].
Qed.

(** ** Histories *)
Lemma legal_prefix : forall b l m, legal_history b (l ++ m) -> legal_history b l.
Proof. intros b l m H p o r E. apply (H p o (r ++ m)). rewrite E, <- app_assoc. reflexivity. Qed.
Lemma legal_last : forall b l o, legal_history b (l ++ [o]) -> legal (run b l) (held l) (ctx_held l) o.
Proof. intros b l o H. apply (H l o []). reflexivity. Qed.
Lemma run_app : forall b l o, run b (l ++ [o]) = step o (run b l).
Proof. intros. unfold run. rewrite fold_left_app. reflexivity. Qed.
Lemma init_ok : forall b, ok (init b) (fun _ => 0) 1.
Proof.
  intros b. unfold ok, init. sm. split; [|repeat split; auto; lia]. split.
  - constructor; sm; auto; try (intros; contradiction); try (now constructor); try (intros; split; [contradiction|intros [? ?]; discriminate]).
  - constructor; sm; auto; try lia; try discriminate. intros x _. split; auto. unfold holders. cbn. destruct b; reflexivity.
Qed.
Lemma ok_ext : forall w u u' c, ok w u c -> (forall x, u' x = u x) -> ok w u' c.
Proof.
  intros w u u' c (A & B & C & D) E. unfold ok. split; [|auto]. eapply inv_move; [exact A| |].
  - intros y. rewrite E. apply (ct_u _ _ _ _ (proj2 A)).
  - intros y. rewrite E. reflexivity.
Qed.
Lemma history_ok : forall b l, legal_history b l ->
  (0 < ctx_held l -> ok (run b l) (held l) (ctx_held l)) /\ (ctx_held l <= 0 -> ended (run b l)).
Proof.
  intros b l. induction l as [|o l IH] using rev_ind; intros H.
  - split; [intros _; apply init_ok|cbn; lia].
  - pose proof (legal_last _ _ _ H) as LG. destruct (IH (legal_prefix _ _ _ H)) as [IH1 _]. specialize (IH1 (proj1 LG)). rewrite ctx_held_app, run_app. split.
    + intros P. eapply ok_ext; [apply (step_ok _ _ _ _ IH1 LG P)|]. intros x. apply held_app.
    + intros P. pose proof (proj1 LG). destruct o; cbn [ctx1] in P; try lia. apply (end_ok _ _ _ _ IH1 LG). lia.
Qed.
