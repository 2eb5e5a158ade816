(** Invariants behind Tpb_Props *)
Require Import Coq.ZArith.ZArith Coq.Lists.List Coq.Bool.Bool Coq.micromega.Lia.
Require Verif.Tp_Model.
Require Import Verif.Tap_Model Verif.Tpb_Model Verif.Tpb_Spec.
Import ListNotations.
Open Scope Z_scope.

Definition b2z (b : bool) : Z := if b then 1 else 0.
Lemma button_eqb_spec : forall a b, button_eqb a b = true <-> a = b.
Proof. intros [] []; cbn; split; congruence. Qed.
Lemma button_eqb_refl : forall a, button_eqb a a = true.
Proof. intros []; reflexivity. Qed.
Lemma button_eqb_sym : forall a b, button_eqb a b = button_eqb b a.
Proof. intros [] []; reflexivity. Qed.

(** ** Streams *)
Lemma seen_app : forall b l r, seen b (l ++ r) = seen b l ++ seen b r.
Proof.
  intros b l r. induction l as [|x l IH]; cbn [seen app]; [reflexivity|]. destruct x; rewrite ?IH; [|reflexivity|reflexivity].
  destruct (button_eqb b b0); reflexivity.
Qed.
Lemma last_cons : forall (A : Type) (l : list A) x d, last (x :: l) d = last l x.
Proof. intros A. induction l as [|y l IH]; intros x d; [reflexivity|]. change (last (x :: y :: l) d) with (last (y :: l) d). rewrite (IH y d), (IH y x). reflexivity. Qed.
Lemma alternate_snoc : forall l d v, alternate d (l ++ [v]) <-> alternate d l /\ v = negb (down_after d l).
Proof.
  induction l as [|x l IH]; intros d v; unfold down_after in *; cbn [app alternate].
  - cbn [last]. tauto.
  - rewrite IH, last_cons. tauto.
Qed.
Lemma down_after_snoc : forall l d v, down_after d (l ++ [v]) = v.
Proof. intros. unfold down_after. apply last_last. Qed.
Lemma tapped_app : forall b l r, tapped b (l ++ r) = tapped b l ++ tapped b r.
Proof.
  intros b l r. induction l as [|x l IH]; cbn [tapped app]; [reflexivity|]. destruct x; rewrite ?IH; try reflexivity.
  destruct (button_eqb b b0); reflexivity.
Qed.
Lemma handed_app : forall b l r a, handed b (l ++ r) a = removelast (handed b l a) ++ handed b r (last (handed b l a) []).
Proof.
  intros b l. induction l as [|x l IH]; intros r a; cbn [handed app]; [reflexivity|].
  destruct x; [apply IH|apply IH|]. rewrite IH.
  assert (E : handed b l [] <> []) by (generalize ([] : list bool) as c; clear; induction l as [|x l IH]; intros c; cbn [handed]; [discriminate|]; destruct x; [apply IH|apply IH|discriminate]).
  remember (handed b l []) as h eqn:EH. destruct h as [|y h]; [contradiction E; reflexivity|]. reflexivity.
Qed.
Lemma handed_ne : forall b l a, handed b l a <> [].
Proof. intros b l. induction l as [|x l IH]; intros c; cbn [handed]; [discriminate|]. destruct x; [apply IH|apply IH|discriminate]. Qed.

(** ** Counting *)
Definition hset (h : button -> bool) (b : button) (v : bool) : button -> bool := fun x => if button_eqb x b then v else h x.
Definition K (s : dev) (h1 h2 : button -> bool) : Prop :=
  ok s = true /\ (forall b, get_count (kc s) b = b2z (h1 b) + b2z (h2 b)) /\ (forall b, alternate false (seen b (out s)))
  /\ (forall b, client_holds b (out s) = h1 b || h2 b).
Lemma K_sym : forall s h1 h2, K s h1 h2 -> K s h2 h1.
Proof. intros s h1 h2 (A & B & C & D). split; [exact A|]. split; [intros b; rewrite B; lia|]. split; [exact C|]. intros b. rewrite D. apply orb_comm. Qed.
Lemma K_ext : forall s h1 h2 g1 g2, K s h1 h2 -> (forall b, h1 b = g1 b) -> (forall b, h2 b = g2 b) -> K s g1 g2.
Proof. intros s h1 h2 g1 g2 (A & B & C & D) E F. split; [exact A|]. split; [intros b; rewrite <- E, <- F; apply B|]. split; [exact C|]. intros b. rewrite <- E, <- F. apply D. Qed.
Lemma K_same : forall s s' h1 h2, K s h1 h2 -> ok s' = ok s -> kc s' = kc s -> out s' = out s -> K s' h1 h2.
Proof. intros s s' h1 h2 (A & B & C & D) E F G. unfold K. rewrite E, F, G. auto. Qed.
Lemma get_set_count : forall c x y v, get_count (set_count c x v) y = if button_eqb y x then v else get_count c y.
Proof. intros c [] [] v; reflexivity. Qed.

(** What [notify_button] leaves alone *)
Lemma change_left_handed_same : forall s,
  let s' := change_left_handed s in
  tbs s' = tbs s /\ ar s' = ar s /\ phys s' = phys s /\ old s' = old s /\ qp s' = qp s /\ qr s' = qr s /\ active s' = active s /\ active_top s' = active_top s
  /\ pending s' = pending s /\ method s' = method s /\ mid s' = mid s /\ want_mid s' = want_mid s /\ want_lh s' = want_lh s /\ trackpoint s' = trackpoint s
  /\ susp s' = susp s /\ kc s' = kc s /\ ok s' = ok s /\ out s' = out s.
Proof. intros s. unfold change_left_handed. destruct (Bool.eqb (want_lh s) (lh s)); [cbn; repeat split|]. destruct (pl (phys s) || pr (phys s)); cbn; repeat split. Qed.
Lemma notify_same : forall s b v,
  let s' := notify_button s b v in
  tbs s' = tbs s /\ ar s' = ar s /\ phys s' = phys s /\ old s' = old s /\ qp s' = qp s /\ qr s' = qr s /\ active s' = active s /\ active_top s' = active_top s
  /\ pending s' = pending s /\ method s' = method s /\ mid s' = mid s /\ want_mid s' = want_mid s /\ want_lh s' = want_lh s /\ trackpoint s' = trackpoint s
  /\ susp s' = susp s.
Proof.
  intros s b v. unfold notify_button. destruct v; [cbn; repeat split|]. destruct (get_count (kc s) b <=? 0); [cbn; repeat split|].
  destruct (get_count (kc s) b - 1 =? 0); [|cbn; repeat split].
  set (s0 := with_out _ _ _ _). pose proof (change_left_handed_same s0) as H. cbn zeta in *.
  destruct H as (A1 & A2 & A3 & A4 & A5 & A6 & A7 & A8 & A9 & A10 & A11 & A12 & A13 & A14 & A15 & _). repeat split; assumption.
Qed.

Lemma holds_snoc : forall b x v o, client_holds b (o ++ [ToClient x v]) = if button_eqb b x then v else client_holds b o.
Proof.
  intros b x v o. unfold client_holds. rewrite seen_app. cbn [seen]. destruct (button_eqb b x); [apply down_after_snoc|]. rewrite app_nil_r. reflexivity.
Qed.
Lemma alternate_seen_snoc : forall b x v o, alternate false (seen b o) -> client_holds x o = negb v -> alternate false (seen b (o ++ [ToClient x v])).
Proof.
  intros b x v o A H. rewrite seen_app. cbn [seen]. destruct (button_eqb b x) eqn:E; [|rewrite app_nil_r; exact A].
  apply button_eqb_spec in E. subst x. apply alternate_snoc. split; [exact A|]. unfold client_holds in H. rewrite H. destruct v; reflexivity.
Qed.

Lemma K_press : forall s h1 h2 b, K s h1 h2 -> h1 b = false -> K (notify_button s b true) (hset h1 b true) h2.
Proof.
  intros s h1 h2 b (A & B & C & D) H. unfold notify_button. rewrite (B b), H. cbn [b2z].
  unfold K. cbn [with_out ok kc out]. split; [exact A|]. split; [|split].
  - intros x. rewrite get_set_count. unfold hset. destruct (button_eqb x b) eqn:E; [|apply B]. apply button_eqb_spec in E. subst x. cbn [b2z]. lia.
  - intros x. destruct (h2 b) eqn:E; cbn [b2z]; [rewrite app_nil_r; apply C|]. apply alternate_seen_snoc; [apply C|]. rewrite D, H, E. reflexivity.
  - intros x. unfold hset. destruct (h2 b) eqn:E; cbn [b2z].
    + cbn [Z.add Z.eqb Pos.add Pos.eqb]. rewrite app_nil_r, D. destruct (button_eqb x b) eqn:F; [|reflexivity]. apply button_eqb_spec in F. subst x. rewrite H, E. reflexivity.
    + cbn [Z.add Z.eqb Pos.add Pos.eqb]. rewrite holds_snoc. destruct (button_eqb x b) eqn:F; [reflexivity|apply D].
Qed.
Lemma K_release : forall s h1 h2 b, K s h1 h2 -> h1 b = true -> K (notify_button s b false) (hset h1 b false) h2.
Proof.
  intros s h1 h2 b (A & B & C & D) H. unfold notify_button. rewrite (B b), H. cbn [b2z].
  replace (1 + b2z (h2 b) <=? 0) with false by (symmetry; apply Z.leb_gt; destruct (h2 b); cbn; lia).
  replace (1 + b2z (h2 b) - 1) with (b2z (h2 b)) by lia.
  assert (X : forall x, get_count (set_count (kc s) b (b2z (h2 b))) x = b2z (hset h1 b false x) + b2z (h2 x)).
  { intros x. rewrite get_set_count. unfold hset. destruct (button_eqb x b) eqn:F; [|apply B]. apply button_eqb_spec in F. subst x. cbn [b2z]. lia. }
  destruct (h2 b) eqn:E; cbn [b2z Z.eqb].
  - unfold K. cbn [with_out ok kc out]. rewrite app_nil_r. split; [exact A|]. split; [exact X|]. split; [exact C|].
    intros x. rewrite D. unfold hset. destruct (button_eqb x b) eqn:F; [|reflexivity]. apply button_eqb_spec in F. subst x. rewrite H, E. reflexivity.
  - set (s0 := with_out _ _ _ _). pose proof (change_left_handed_same s0) as G. cbn zeta in G.
    destruct G as (_ & _ & _ & _ & _ & _ & _ & _ & _ & _ & _ & _ & _ & _ & _ & G1 & G2 & G3).
    eapply K_same; [|exact G2|exact G1|exact G3]. unfold s0, K. cbn [with_out ok kc out].
    split; [exact A|]. split; [exact X|]. split.
    + intros x. apply alternate_seen_snoc; [apply C|]. rewrite D, H. reflexivity.
    + intros x. rewrite holds_snoc. unfold hset. destruct (button_eqb x b) eqn:F; [|apply D]. apply button_eqb_spec in F. subst x. symmetry. exact E.
Qed.

(** ** Clickpads *)
Definition is_active (s : dev) (b : button) : bool := match active s with Some a => button_eqb b a | None => false end.
Definition own (s : dev) (b : button) : bool := is_active s b && negb (trackpoint s && (active_top s || susp s)).
Definition tpown (s : dev) (b : button) : bool := is_active s b && (trackpoint s && active_top s).
Definition T (s : dev) : Prop := forall b, Forall (alternate false) (handed b (out s) []) /\ down_after false (last (handed b (out s) []) []) = tpown s b.
Definition Core (s : dev) (th : button -> bool) : Prop := K s (own s) th /\ T s.
Lemma Core_same : forall s s' th, Core s th -> active s' = active s -> active_top s' = active_top s -> trackpoint s' = trackpoint s -> susp s' = susp s ->
  ok s' = ok s -> kc s' = kc s -> out s' = out s -> Core s' th.
Proof.
  intros s s' th [A B] E1 E2 E3 E4 E5 E6 E7. split.
  - eapply K_same; [|exact E5|exact E6|exact E7]. eapply K_ext; [exact A| |reflexivity]. intros b. unfold own, is_active. rewrite E1, E2, E3, E4. reflexivity.
  - intros b. unfold tpown, is_active. rewrite E1, E2, E3, E7. apply B.
Qed.
Lemma handed_client : forall b o x v, handed b (o ++ [ToClient x v]) [] = handed b o [].
Proof. intros. rewrite handed_app. cbn [handed]. symmetry. apply app_removelast_last. apply handed_ne. Qed.
Lemma handed_notify : forall s b x v, handed b (out (notify_button s x v)) [] = handed b (out s) [].
Proof.
  intros s b x v. unfold notify_button. destruct v.
  - cbn [with_out out]. destruct (_ =? 1); [apply handed_client|rewrite app_nil_r; reflexivity].
  - destruct (_ <=? 0); [cbn [with_out out]; rewrite app_nil_r; reflexivity|]. destruct (_ =? 0); [|cbn [with_out out]; rewrite app_nil_r; reflexivity].
    set (s0 := with_out _ _ _ _). pose proof (change_left_handed_same s0) as G. cbn zeta in G. destruct G as (_ & _ & _ & _ & _ & _ & _ & _ & _ & _ & _ & _ & _ & _ & _ & _ & _ & ->).
    unfold s0. cbn [with_out out]. apply handed_client.
Qed.
Lemma T_notify : forall s x v, T s -> T (notify_button s x v).
Proof.
  intros s x v H b. rewrite handed_notify. pose proof (notify_same s x v) as G. cbn zeta in G. destruct G as (_ & _ & _ & _ & _ & _ & G1 & G2 & _ & _ & _ & _ & _ & G3 & _).
  unfold tpown, is_active. rewrite G1, G2, G3. apply H.
Qed.
(** Handing an event to the trackpoint *)
Lemma handed_snoc : forall b o x v, handed b (o ++ [ToTrackpoint x v]) [] =
  removelast (handed b o []) ++ [if button_eqb b x then last (handed b o []) [] ++ [v] else last (handed b o []) []].
Proof. intros. rewrite handed_app. reflexivity. Qed.
Lemma Forall_removelast : forall (A : Type) (P : A -> Prop) l, Forall P l -> Forall P (removelast l).
Proof. intros A P l H. induction H as [|x l Hx H IH]; [constructor|]. destruct l; [constructor|]. change (Forall P (x :: removelast (a :: l))). constructor; assumption. Qed.
Lemma Forall_last : forall (A : Type) (P : A -> Prop) l d, Forall P l -> l <> [] -> P (last l d).
Proof. intros A P l d H N. induction H as [|x l Hx H IH]; [contradiction N; reflexivity|]. destruct l; [exact Hx|]. change (P (last (a :: l) d)). apply IH. discriminate. Qed.
Lemma T_hand : forall o x v (h : button -> bool),
  (forall b, Forall (alternate false) (handed b o []) /\ down_after false (last (handed b o []) []) = h b) -> h x = negb v ->
  forall b, Forall (alternate false) (handed b (o ++ [ToTrackpoint x v]) []) /\ down_after false (last (handed b (o ++ [ToTrackpoint x v]) []) []) = hset h x v b.
Proof.
  intros o x v h H N b. destruct (H b) as [A B]. rewrite handed_snoc, last_last. unfold hset. destruct (button_eqb b x) eqn:E.
  - apply button_eqb_spec in E. subst x. rewrite down_after_snoc. split; [|reflexivity]. apply Forall_app. split; [apply Forall_removelast; exact A|]. constructor; [|constructor].
    apply alternate_snoc. split; [apply Forall_last; [exact A|apply handed_ne]|]. rewrite B, N. destruct v; reflexivity.
  - split; [|exact B]. rewrite <- app_removelast_last by apply handed_ne. exact A.
Qed.
Lemma K_hand : forall s h1 h2 x v, K s h1 h2 -> K (with_out s (kc s) (ok s) [ToTrackpoint x v]) h1 h2.
Proof.
  intros s h1 h2 x v (A & B & C & D). unfold K. cbn [with_out ok kc out]. split; [exact A|]. split; [exact B|]. unfold client_holds.
  split; intros b; rewrite seen_app; cbn [seen]; rewrite app_nil_r; [apply C|apply D].
Qed.

Definition only_left (b : bits) : Prop := pr b = false /\ pm b = false.
Definition clicky (p : pad) : Prop := kind p = Clickpad \/ kind p = OneButton.
Definition Inv (s : dev) (th : button -> bool) : Prop :=
  Core s th /\ only_left (phys s) /\ only_left (old s) /\ (pl (old s) = false -> active s = None) /\ (pending s = true -> active s = None).
Lemma only_left_any : forall b, only_left b -> any_bit b = pl b.
Proof. intros b [A B]. unfold any_bit. rewrite A, B, !orb_false_r. reflexivity. Qed.
Lemma only_left_eqb : forall a b, only_left a -> only_left b -> bits_eqb a b = Bool.eqb (pl a) (pl b).
Proof. intros a b [A B] [C D]. unfold bits_eqb. rewrite A, B, C, D. cbn. rewrite !andb_true_r. reflexivity. Qed.

(** What posting leaves alone *)
Lemma notify_clickpad_same : forall p s l b top v, let s' := fst (notify_clickpad p s l b top v) in
  tbs s' = tbs s /\ ar s' = ar s /\ phys s' = phys s /\ old s' = old s /\ qp s' = qp s /\ qr s' = qr s
  /\ pending s' = pending s /\ method s' = method s /\ mid s' = mid s /\ want_mid s' = want_mid s /\ want_lh s' = want_lh s /\ trackpoint s' = trackpoint s
  /\ susp s' = susp s /\ active_top s' = active_top s.
Proof.
  intros p s l b top v. unfold notify_clickpad. destruct (trackpoint s && top); [cbn; repeat split|]. destruct (trackpoint s && susp s); [cbn; repeat split|].
  assert (G : forall s x y, let s' := notify_button s x y in tbs s' = tbs s /\ ar s' = ar s /\ phys s' = phys s /\ old s' = old s /\ qp s' = qp s /\ qr s' = qr s
    /\ pending s' = pending s /\ method s' = method s /\ mid s' = mid s /\ want_mid s' = want_mid s /\ want_lh s' = want_lh s /\ trackpoint s' = trackpoint s
    /\ susp s' = susp s /\ active_top s' = active_top s) by (intros s0 x y; pose proof (notify_same s0 x y) as H; cbn zeta in *; tauto).
  pose proof (G s b true) as G1. pose proof (G s b false) as G2. pose proof (fun b0 => G (with_active s (Some b0) (active_top s) (pending s)) b0 true) as G3.
  cbn zeta in *. cbn [with_active tbs ar phys old qp qr pending method mid want_mid want_lh trackpoint susp active_top] in G3. clear G. revert G1 G2 G3.
  destruct (method s) eqn:E; intros G1 G2 G3; destruct v; try exact G1; try exact G2. destruct (clickfinger_button p l); [exact (G3 b0)|]. cbn. rewrite E. repeat split.
Qed.
Lemma post_clickpad_same : forall p s l, let s' := fst (post_clickpad p s l) in
  tbs s' = tbs s /\ ar s' = ar s /\ phys s' = phys s /\ old s' = old s /\ qp s' = qp s /\ qr s' = qr s
  /\ method s' = method s /\ mid s' = mid s /\ want_mid s' = want_mid s /\ want_lh s' = want_lh s /\ trackpoint s' = trackpoint s
  /\ susp s' = susp s.
Proof.
  intros p s l. unfold post_clickpad. destruct (_ && _); [cbn; repeat split|]. destruct (any_bit (phys s)).
  - destruct (area_button s) as [[[b top] want]|]; [|cbn; repeat split].
    match goal with |- context [notify_clickpad p ?x l ?y top true] => pose proof (notify_clickpad_same p x l y top true) as H end. cbn zeta in H. cbn [with_active tbs ar phys old qp qr method mid want_mid want_lh trackpoint susp] in H. cbn zeta. tauto.
  - destruct (active s) as [b|]; [|cbn; repeat split].
    match goal with |- context [notify_clickpad p ?x l ?y ?z false] => pose proof (notify_clickpad_same p x l y z false) as H end. cbn zeta in H. cbn [with_active tbs ar phys old qp qr method mid want_mid want_lh trackpoint susp] in H. cbn zeta. tauto.
Qed.

Lemma post_clickpad_inv : forall p s l th, Inv s th ->
  let s' := fst (post_clickpad p s l) in
  Core s' th /\ (pl (phys s) = false -> active s' = None) /\ (pending s' = true -> active s' = None).
Proof.
  intros p s l th ((HK & HT) & O1 & O2 & I1 & I2). cbn zeta. unfold post_clickpad. rewrite (only_left_eqb _ _ O1 O2), (only_left_any _ O1).
  destruct (negb (pending s) && Bool.eqb (pl (phys s)) (pl (old s))) eqn:E.
  { apply andb_true_iff in E. destruct E as [_ E]. apply eqb_prop in E. cbn [fst]. split; [split; assumption|]. split; [rewrite E; exact I1|exact I2]. }
  destruct (pl (phys s)) eqn:P.
  - assert (N : active s = None).
    { apply andb_false_iff in E. destruct E as [E|E]; [apply I2; destruct (pending s); [reflexivity|discriminate]|]. apply I1. destruct (pl (old s)); [discriminate|reflexivity]. }
    assert (Z1 : forall b, own s b = false) by (intros b; unfold own, is_active; rewrite N; reflexivity).
    assert (Z2 : forall b, tpown s b = false) by (intros b; unfold tpown, is_active; rewrite N; reflexivity).
    destruct (area_button s) as [[[b0 top] want]|].
    2:{ cbn [fst]. split; [|split; [discriminate|cbn [with_active pending active]; intros _; exact N]]. eapply Core_same; [split; [exact HK|exact HT]|..]; reflexivity. }
    set (b := if want then to_left_handed s b0 else b0). unfold notify_clickpad. cbn [with_active trackpoint susp method active_top pending kc ok].
    destruct (trackpoint s) eqn:TP; cbn [andb].
    + destruct top.
      * cbn [fst with_out active pending]. split; [|split; discriminate]. split.
        -- eapply K_ext; [apply (K_hand (with_active s (Some b) true false)); eapply K_same; [exact HK|reflexivity|reflexivity|reflexivity]| |reflexivity].
           intros x. rewrite Z1. unfold own. cbn [with_out with_active trackpoint active_top susp]. rewrite TP. cbn. rewrite andb_false_r. reflexivity.
        -- intros x. cbn [with_out with_active out]. pose proof (T_hand (out s) b true (tpown s) HT (Z2 b) x) as [A B]. split; [exact A|]. rewrite B.
           unfold tpown at 2. unfold is_active. cbn [with_out with_active trackpoint active_top active]. rewrite TP. unfold hset. destruct (button_eqb x b); [reflexivity|apply Z2].
      * destruct (susp s) eqn:SU.
        -- cbn [fst with_active active pending]. split; [|split; discriminate]. split.
           ++ eapply K_same; [|reflexivity|reflexivity|reflexivity]. eapply K_ext; [exact HK| |reflexivity]. intros x. rewrite Z1. unfold own. cbn [with_active trackpoint active_top susp]. rewrite TP, SU. cbn. rewrite andb_false_r. reflexivity.
           ++ intros x. destruct (HT x) as [A B]. split; [exact A|]. cbn [with_active out]. rewrite B, Z2. unfold tpown. cbn [with_active trackpoint active_top]. rewrite TP. cbn. rewrite andb_false_r. reflexivity.
        -- assert (G : forall y : button, Core (notify_button (with_active s (Some y) false false) y true) th).
           { intros y. split; [|apply T_notify; intros x; destruct (HT x) as [A B]; split; [exact A|]; cbn [with_active out]; rewrite B, Z2; unfold tpown; cbn [with_active trackpoint active_top]; rewrite andb_false_r, andb_false_r; reflexivity].
             eapply K_ext; [apply K_press; [eapply K_same; [exact HK|reflexivity|reflexivity|reflexivity]|apply Z1]| |reflexivity].
             intros x. pose proof (notify_same (with_active s (Some y) false false) y true) as G. cbn zeta in G. destruct G as (_ & _ & _ & _ & _ & _ & G1 & G2 & _ & _ & _ & _ & _ & G3 & G4).
             unfold own, is_active, hset. rewrite G1, G2, G3, G4. cbn [with_active active trackpoint active_top susp]. rewrite TP, SU. cbn. rewrite andb_true_r. destruct (button_eqb x y); [reflexivity|]. specialize (Z1 x). unfold own, is_active in Z1. rewrite N in Z1 |- *. reflexivity. }
           assert (G' : forall y, pending (notify_button (with_active s (Some y) false false) y true) = false) by (intros y; pose proof (notify_same (with_active s (Some y) false false) y true) as G0; cbn zeta in G0; destruct G0 as (_ & _ & _ & _ & _ & _ & _ & _ & -> & _); reflexivity).
           destruct (method s); [cbn [fst]; split; [apply G|split; [discriminate|rewrite G'; discriminate]]|cbn [fst]; split; [apply G|split; [discriminate|rewrite G'; discriminate]]|].
           destruct (clickfinger_button p l) as [y|].
           ++ cbn [fst]. split; [exact (G y)|]. split; [discriminate|]. intros X. change (pending (notify_button (with_active s (Some y) false false) y true) = true) in X. rewrite (G' y) in X. discriminate X.
           ++ cbn [fst with_active active pending]. split; [|split; [reflexivity|reflexivity]]. split.
              ** eapply K_same; [|reflexivity|reflexivity|reflexivity]. eapply K_ext; [exact HK| |reflexivity]. intros x. rewrite Z1. reflexivity.
              ** intros x. destruct (HT x) as [A B]. split; [exact A|]. cbn [with_active out]. rewrite B, Z2. reflexivity.
    + assert (G : forall y : button, Core (notify_button (with_active s (Some y) top false) y true) th).
      { intros y. split; [|apply T_notify; intros x; destruct (HT x) as [A B]; split; [exact A|]; cbn [with_active out]; rewrite B, Z2; unfold tpown; cbn [with_active trackpoint active_top]; rewrite TP, andb_false_r; reflexivity].
        eapply K_ext; [apply K_press; [eapply K_same; [exact HK|reflexivity|reflexivity|reflexivity]|apply Z1]| |reflexivity].
        intros x. pose proof (notify_same (with_active s (Some y) top false) y true) as G. cbn zeta in G. destruct G as (_ & _ & _ & _ & _ & _ & G1 & G2 & _ & _ & _ & _ & _ & G3 & G4).
        unfold own, is_active, hset. rewrite G1, G2, G3, G4. cbn [with_active active trackpoint active_top susp]. rewrite TP. cbn. rewrite andb_true_r. destruct (button_eqb x y); [reflexivity|]. specialize (Z1 x). unfold own, is_active in Z1. rewrite N in Z1 |- *. reflexivity. }
      assert (G' : forall y, pending (notify_button (with_active s (Some y) top false) y true) = false) by (intros y; pose proof (notify_same (with_active s (Some y) top false) y true) as G0; cbn zeta in G0; destruct G0 as (_ & _ & _ & _ & _ & _ & _ & _ & -> & _); reflexivity).
      destruct (method s); [cbn [fst]; split; [apply G|split; [discriminate|rewrite G'; discriminate]]|cbn [fst]; split; [apply G|split; [discriminate|rewrite G'; discriminate]]|].
      destruct (clickfinger_button p l) as [y|].
      * cbn [fst]. split; [exact (G y)|]. split; [discriminate|]. intros X. change (pending (notify_button (with_active s (Some y) top false) y true) = true) in X. rewrite (G' y) in X. discriminate X.
      * cbn [fst with_active active pending]. split; [|split; [reflexivity|reflexivity]]. split.
        -- eapply K_same; [|reflexivity|reflexivity|reflexivity]. eapply K_ext; [exact HK| |reflexivity]. intros x. rewrite Z1. reflexivity.
        -- intros x. destruct (HT x) as [A B]. split; [exact A|]. cbn [with_active out]. rewrite B, Z2. reflexivity.
  - destruct (active s) as [b|] eqn:AC.
    2:{ cbn [fst with_active active pending]. split; [|split; [reflexivity|reflexivity]]. split.
        - eapply K_same; [|reflexivity|reflexivity|reflexivity]. eapply K_ext; [exact HK| |reflexivity]. intros x. unfold own, is_active. cbn [with_active active]. rewrite AC. reflexivity.
        - intros x. destruct (HT x) as [A B]. split; [exact A|]. cbn [with_active out]. rewrite B. unfold tpown, is_active. cbn [with_active active]. rewrite AC. reflexivity. }
    assert (W : forall x, is_active s x = button_eqb x b) by (intros x; unfold is_active; rewrite AC; reflexivity).
    unfold notify_clickpad. cbn [with_active trackpoint susp method active_top pending kc ok].
    destruct (trackpoint s) eqn:TP; cbn [andb].
    + destruct (active_top s) eqn:AT.
      * cbn [fst with_out active pending with_active]. split; [|split; [reflexivity|reflexivity]]. split.
        -- eapply K_ext; [apply (K_hand (with_active s None false false)); eapply K_same; [exact HK|reflexivity|reflexivity|reflexivity]| |reflexivity].
           intros x. unfold own. rewrite W, TP, AT. cbn. rewrite andb_false_r. reflexivity.
        -- intros x. cbn [with_out with_active out]. assert (Y : tpown s b = negb false) by (unfold tpown; rewrite W, button_eqb_refl, TP, AT; reflexivity).
           pose proof (T_hand (out s) b false (tpown s) HT Y x) as [A B]. split; [exact A|]. rewrite B. unfold hset, tpown. rewrite W, TP, AT. cbn. destruct (button_eqb x b); reflexivity.
      * destruct (susp s) eqn:SU.
        -- cbn [fst with_active active pending]. split; [|split; [reflexivity|reflexivity]]. split.
           ++ eapply K_same; [|reflexivity|reflexivity|reflexivity]. eapply K_ext; [exact HK| |reflexivity]. intros x. unfold own. rewrite TP, SU, AT. cbn. rewrite andb_false_r. reflexivity.
           ++ intros x. destruct (HT x) as [A B]. split; [exact A|]. cbn [with_active out]. rewrite B. unfold tpown. rewrite TP, AT. cbn. rewrite andb_false_r. reflexivity.
        -- assert (G : Core (notify_button (with_active s None false false) b false) th).
           { split; [|apply T_notify; intros x; destruct (HT x) as [A B]; split; [exact A|]; cbn [with_active out]; rewrite B; unfold tpown; rewrite AT, andb_false_r; cbn; rewrite andb_false_r; reflexivity].
             eapply K_ext; [apply K_release; [eapply K_same; [exact HK|reflexivity|reflexivity|reflexivity]|]| |reflexivity].
             - unfold own. rewrite W, button_eqb_refl, TP, AT, SU. reflexivity.
             - intros x. pose proof (notify_same (with_active s None false false) b false) as G. cbn zeta in G. destruct G as (_ & _ & _ & _ & _ & _ & G1 & G2 & _ & _ & _ & _ & _ & G3 & G4).
               unfold own, is_active, hset. rewrite G1, AC. cbn [with_active active]. destruct (button_eqb x b); reflexivity. }
           assert (G' : active (notify_button (with_active s None false false) b false) = None) by (pose proof (notify_same (with_active s None false false) b false) as G0; cbn zeta in G0; destruct G0 as (_ & _ & _ & _ & _ & _ & -> & _); reflexivity).
           destruct (method s); cbn [fst]; (split; [exact G|split; intros _; exact G']).
    + assert (G : Core (notify_button (with_active s None false false) b false) th).
      { split; [|apply T_notify; intros x; destruct (HT x) as [A B]; split; [exact A|]; cbn [with_active out]; rewrite B; unfold tpown; rewrite TP, andb_false_r; reflexivity].
        eapply K_ext; [apply K_release; [eapply K_same; [exact HK|reflexivity|reflexivity|reflexivity]|]| |reflexivity].
        - unfold own. rewrite W, button_eqb_refl, TP. reflexivity.
        - intros x. pose proof (notify_same (with_active s None false false) b false) as G. cbn zeta in G. destruct G as (_ & _ & _ & _ & _ & _ & G1 & G2 & _ & _ & _ & _ & _ & G3 & G4).
          unfold own, is_active, hset. rewrite G1, AC. cbn [with_active active]. rewrite TP. destruct (button_eqb x b); reflexivity. }
      assert (G' : active (notify_button (with_active s None false false) b false) = None) by (pose proof (notify_same (with_active s None false false) b false) as G0; cbn zeta in G0; destruct G0 as (_ & _ & _ & _ & _ & _ & -> & _); reflexivity).
      destruct (method s); cbn [fst]; (split; [exact G|split; intros _; exact G']).
Qed.

(** *** Whole steps *)
Lemma apply_middle_same : forall p s, let s' := apply_middle p s in
  tbs s' = tbs s /\ phys s' = phys s /\ old s' = old s /\ qp s' = qp s /\ qr s' = qr s /\ active s' = active s /\ active_top s' = active_top s /\ pending s' = pending s
  /\ method s' = method s /\ want_mid s' = want_mid s /\ lh s' = lh s /\ want_lh s' = want_lh s /\ trackpoint s' = trackpoint s
  /\ susp s' = susp s /\ kc s' = kc s /\ ok s' = ok s /\ out s' = out s.
Proof.
  intros p s. unfold apply_middle. destruct (kind p); [|cbn; repeat split|cbn; repeat split]. destruct (_ || _); [cbn; repeat split|]. cbn [with_mid method].
  destruct (method s) eqn:E; cbn; rewrite E; repeat split.
Qed.
Lemma Inv_same : forall s s' th, Inv s th -> active s' = active s -> active_top s' = active_top s -> trackpoint s' = trackpoint s -> susp s' = susp s ->
  ok s' = ok s -> kc s' = kc s -> out s' = out s -> phys s' = phys s -> old s' = old s -> pending s' = pending s -> Inv s' th.
Proof.
  intros s s' th (C & O1 & O2 & I1 & I2) E1 E2 E3 E4 E5 E6 E7 E8 E9 E10. split; [eapply Core_same; eassumption|]. rewrite E8, E9, E1, E10. auto.
Qed.
Lemma post_events_clicky : forall p s l, clicky p -> post_button_events p s l = post_clickpad p s l.
Proof. intros p s l [H|H]; unfold post_button_events; rewrite H; reflexivity. Qed.
Lemma frame_inv : forall p s l t th, clicky p -> Inv s th -> Inv (fst (frame p s l t)) th.
Proof.
  intros p s l t th C H. unfold frame. set (s1 := with_tbs s _). assert (H1 : Inv s1 th) by (eapply Inv_same; [exact H|..]; reflexivity).
  rewrite (post_events_clicky p s1 l C). pose proof (post_clickpad_inv p s1 l th H1) as P. pose proof (post_clickpad_same p s1 l) as S. cbn zeta in P, S.
  destruct (post_clickpad p s1 l) as [s2 posted]. cbn [fst] in *. destruct P as (P1 & P2 & P3). destruct S as (_ & _ & S1 & S2 & _).
  pose proof (apply_middle_same p (with_old s2 (phys s2))) as A. cbn zeta in A. destruct A as (_ & A1 & A2 & _ & _ & A3 & A4 & A5 & _ & _ & _ & _ & A6 & A7 & A8 & A9 & A10).
  assert (H2 : Inv (with_old s2 (phys s2)) th).
  { destruct H1 as (_ & O1 & O2 & _). split; [eapply Core_same; [exact P1|..]; reflexivity|]. cbn [with_old phys old active pending]. rewrite S1. auto. }
  eapply Inv_same; [exact H2|..]; assumption.
Qed.
Lemma frame_same : forall p s l t, let s' := fst (frame p s l t) in
  phys s' = phys s /\ old s' = phys s /\ qp s' = false /\ qr s' = false /\ trackpoint s' = trackpoint s /\ susp s' = susp s /\ method s' = method s /\ want_mid s' = want_mid s /\ want_lh s' = want_lh s.
Proof.
  intros p s l t. unfold frame. set (s1 := with_tbs s _).
  assert (S : let s' := fst (post_button_events p s1 l) in phys s' = phys s /\ trackpoint s' = trackpoint s /\ susp s' = susp s /\ method s' = method s /\ want_mid s' = want_mid s /\ want_lh s' = want_lh s).
  { unfold post_button_events. destruct (kind p).
    - pose proof (post_clickpad_same p s1 l) as S. cbn zeta in *. destruct S as (_ & _ & S1 & _ & _ & _ & S2 & _ & S3 & S4 & S5 & S6). repeat split; assumption.
    - pose proof (post_clickpad_same p s1 l) as S. cbn zeta in *. destruct S as (_ & _ & S1 & _ & _ & _ & S2 & _ & S3 & S4 & S5 & S6). repeat split; assumption.
    - cbn [fst]. unfold post_physical. cbn [fold_left].
      assert (Q : forall c o s0 b, let s' := post_one c o s0 b in phys s' = phys s0 /\ trackpoint s' = trackpoint s0 /\ susp s' = susp s0 /\ method s' = method s0 /\ want_mid s' = want_mid s0 /\ want_lh s' = want_lh s0).
      { intros c o s0 b. unfold post_one. destruct (xorb _ _); [|cbn; repeat split]. pose proof (notify_same s0 (to_left_handed s0 b) (get_bit c b)) as N. cbn zeta in *. tauto. }
      cbn zeta in *. pose proof (Q (phys s1) (old s1) s1 LEFT) as Q1. pose proof (Q (phys s1) (old s1) (post_one (phys s1) (old s1) s1 LEFT) RIGHT) as Q2.
      pose proof (Q (phys s1) (old s1) (post_one (phys s1) (old s1) (post_one (phys s1) (old s1) s1 LEFT) RIGHT) MIDDLE) as Q3.
      destruct Q1 as (a1 & a2 & a3 & a4 & a5 & a6), Q2 as (b1 & b2 & b3 & b4 & b5 & b6), Q3 as (c1 & c2 & c3 & c4 & c5 & c6).
      rewrite c1, c2, c3, c4, c5, c6, b1, b2, b3, b4, b5, b6, a1, a2, a3, a4, a5, a6. cbn. repeat split. }
  cbn zeta in *. destruct (post_button_events p s1 l) as [s2 posted]. cbn [fst] in *. destruct S as (S1 & S2 & S3 & S4 & S5 & S6).
  pose proof (apply_middle_same p (with_old s2 (phys s2))) as A. cbn zeta in A. destruct A as (_ & A1 & A2 & A11 & A12 & A3 & A4 & A5 & A13 & A14 & A15 & A16 & A6 & A7 & A8 & A9 & A10).
  rewrite A1, A2, A6, A7, A11, A12, A13, A14, A16. cbn [with_old phys old trackpoint susp method want_mid qp qr want_lh]. rewrite S1, S2, S3, S4, S5, S6. repeat split.
Qed.
Lemma clear_inv : forall p s l t th, clicky p -> Inv s th -> Inv (clear p s l t) th.
Proof.
  intros p s l t th C H. unfold clear. apply frame_inv; [exact C|]. unfold release_all_buttons. destruct (any_bit (phys s)); [|exact H].
  destruct H as (A & O1 & O2 & I1 & I2). split; [eapply Core_same; [exact A|..]; reflexivity|]. split; [split; reflexivity|]. auto.
Qed.
Lemma clear_phys : forall p s l t, phys (clear p s l t) = no_bits /\ old (clear p s l t) = no_bits /\ trackpoint (clear p s l t) = trackpoint s /\ susp (clear p s l t) = susp s.
Proof.
  intros p s l t. unfold clear. pose proof (frame_same p (release_all_buttons s) l t) as F. cbn zeta in F. destruct F as (F1 & F2 & _ & _ & F3 & F4 & _).
  rewrite F1, F2, F3, F4. unfold release_all_buttons. destruct (any_bit (phys s)) eqn:E; [repeat split|].
  unfold any_bit in E. apply orb_false_iff in E. destruct E as [E E3]. apply orb_false_iff in E. destruct E as [E1 E2].
  assert (X : phys s = no_bits) by (destruct (phys s); cbn in *; subst; reflexivity). rewrite X. repeat split.
Qed.
Lemma clear_inactive : forall p s l t th, clicky p -> Inv s th -> active (clear p s l t) = None.
Proof. intros p s l t th C H. destruct (clear_inv p s l t th C H) as (_ & _ & _ & I & _). apply I. destruct (clear_phys p s l t) as (_ & -> & _). reflexivity. Qed.
Lemma Inv_inactive : forall s s' th, Inv s th -> active s = None -> active s' = None -> ok s' = ok s -> kc s' = kc s -> out s' = out s -> phys s' = phys s -> old s' = old s -> Inv s' th.
Proof.
  intros s s' th ((A & B) & O1 & O2 & I1 & I2) N N' E1 E2 E3 E4 E5. split; [split|].
  - eapply K_same; [|exact E1|exact E2|exact E3]. eapply K_ext; [exact A| |reflexivity]. intros b. unfold own, is_active. rewrite N, N'. reflexivity.
  - intros b. rewrite E3. destruct (B b) as [B1 B2]. split; [exact B1|]. rewrite B2. unfold tpown, is_active. rewrite N, N'. reflexivity.
  - rewrite E4, E5, N'. auto.
Qed.

Definition th_after (th : button -> bool) (i : binput) : button -> bool :=
  match i with TapEvent b v => hset th b v | _ => th end.
Definition input_ok (p : pad) (s : dev) (th : button -> bool) (i : binput) : Prop :=
  match i with
  | Button b _ => kind p = Clickpad \/ b = LEFT
  | TrackpointAdded | TrackpointRemoved => susp s = false
  | TapEvent b v => v = negb (th b)
  | Remove _ _ => trackpoint s = false
  | _ => True
  end.
Lemma step_inv : forall p s th i, clicky p -> Inv s th -> (closed p s = true -> active s = None) -> input_ok p s th i -> Inv (bstep p s i) (th_after th i).
Proof.
  intros p s th i C H CL L. destruct i as [b v|l t|i t|l t|l t|l t|l t| | |m|b|b|b v]; cbn [bstep th_after] in *.
  - destruct (closed p s); [exact H|]. destruct H as (A & O1 & O2 & I1 & I2).
    assert (X : Inv (with_phys s (set_bit (phys s) LEFT v) (qp s || v) (qr s || negb v)) th).
    { split; [eapply Core_same; [exact A|..]; reflexivity|]. split; [exact O1|]. auto. }
    unfold process_button. cbn in L. destruct L as [L|L]; [|subst b; destruct (kind p); exact X].
    rewrite L. destruct b; [exact X|repeat (split; auto)|repeat (split; auto)]; exact A || apply O1 || apply O2.
  - destruct (closed p s); [exact H|]. apply frame_inv; assumption.
  - destruct (nth_error (tbs s) i) as [b|]; [|exact H]. destruct (tmr b) as [e|]; [|exact H]. destruct (e <=? t); [|exact H]. eapply Inv_same; [exact H|..]; reflexivity.
  - apply clear_inv; assumption.
  - pose proof (clear_inv p s l t th C H) as X. pose proof (clear_inactive p s l t th C H) as N. destruct (has_top p).
    + eapply Inv_inactive; [exact X|exact N|..]; try reflexivity. exact N.
    + unfold device_suspend. apply clear_inv; [exact C|]. eapply Inv_inactive; [exact X|exact N|..]; try reflexivity. exact N.
  - destruct (has_top p) eqn:HT.
    + pose proof (clear_inv p s l t th C H) as X. pose proof (clear_inactive p s l t th C H) as N. eapply Inv_inactive; [exact X|exact N|..]; try reflexivity. exact N.
    + destruct (susp s) eqn:SU.
      * assert (N : active s = None) by (apply CL; unfold closed; rewrite SU, HT; reflexivity). eapply Inv_inactive; [exact H|exact N|..]; try reflexivity. exact N.
      * eapply Inv_same; [exact H|..]; try reflexivity. symmetry. exact SU.
  - unfold device_suspend. apply clear_inv; [exact C|]. cbn in L. destruct H as ((A & B) & O1 & O2 & I1 & I2). split; [split|auto].
    + eapply K_same; [|reflexivity|reflexivity|reflexivity]. eapply K_ext; [exact A| |reflexivity]. intros b. unfold own. cbn [with_susp trackpoint]. rewrite L. reflexivity.
    + exact B.
  - cbn in L. destruct (trackpoint s) eqn:TP; [exact H|]. destruct H as ((A & B) & O1 & O2 & I1 & I2). split; [split|auto].
    + eapply K_same; [|reflexivity|reflexivity|reflexivity]. eapply K_ext; [exact A| |reflexivity]. intros b. unfold own, is_active. cbn [with_tp with_active trackpoint active active_top susp]. rewrite TP, L. reflexivity.
    + intros b. destruct (B b) as [B1 B2]. split; [exact B1|]. cbn [with_tp with_active out]. rewrite B2. unfold tpown. cbn [with_tp with_active trackpoint active_top]. rewrite TP. cbn. rewrite !andb_false_r. reflexivity.
  - cbn in L. destruct (trackpoint s) eqn:TP; [|exact H]. destruct H as ((A & B) & O1 & O2 & I1 & I2).
    set (s1 := if match active s with Some _ => active_top s | None => false end then with_active s None false (pending s) else s).
    assert (E : phys s1 = phys s /\ old s1 = old s /\ pending s1 = pending s /\ kc s1 = kc s /\ ok s1 = ok s /\ out s1 = out s /\ (active s = None -> active s1 = None)
                /\ forall b, is_active s1 b = own s b).
    { unfold s1, own, is_active. rewrite TP, L. destruct (active s) as [a|] eqn:AC; [|rewrite AC; repeat split; intros _; exact AC]. destruct (active_top s) eqn:AT; cbn; rewrite ?AC, ?andb_false_r; repeat split; intros; rewrite ?andb_true_r, ?andb_false_r; try reflexivity; discriminate. }
    destruct E as (E1 & E2 & E3 & E4 & E5 & E6 & E7 & E8). split; [split|].
    + destruct A as (A1 & A2 & A3 & A4). unfold K. cbn [with_out with_tp ok kc out]. rewrite E4, E5, E6. split; [exact A1|].
      assert (X : forall b, own (with_out (with_tp s1 false) (kc s) (ok s) [Gone]) b = own s b) by (intros b; unfold own at 1; cbn [with_out with_tp trackpoint]; cbn [andb negb]; rewrite andb_true_r; exact (E8 b)).
      unfold client_holds in *. split; [intros b; rewrite X; apply A2|]. split; intros b; rewrite seen_app; cbn [seen]; rewrite app_nil_r; [apply A3|rewrite X; apply A4].
    + intros b. cbn [with_out with_tp out]. rewrite E6, handed_app. cbn [handed]. destruct (B b) as [B1 B2]. split.
      * apply Forall_app. split; [apply Forall_removelast; exact B1|]. constructor; [apply Forall_last; [exact B1|apply handed_ne]|]. constructor; [exact I|constructor].
      * replace (last (removelast (handed b (out s) []) ++ [last (handed b (out s) []) []; []]) []) with ([] : list bool);
          [|symmetry; change [last (handed b (out s) []) []; []] with ([last (handed b (out s) []) []] ++ [[]]); rewrite app_assoc; apply last_last].
        unfold tpown. cbn [with_out with_tp trackpoint]. cbn. rewrite andb_false_r. reflexivity.
    + cbn [with_out with_tp phys old active pending]. rewrite E1, E2, E3. split; [exact O1|]. split; [exact O2|]. split; auto.
  - destruct m; (eapply Inv_same; [exact H|..]; reflexivity).
  - destruct (kind p); [|exact H|exact H]. pose proof (apply_middle_same p (with_mid s (mid s) b)) as A. cbn zeta in A. destruct A as (_ & A1 & A2 & _ & _ & A3 & A4 & A5 & _ & _ & _ & _ & A6 & A7 & A8 & A9 & A10).
    eapply Inv_same; [exact H|..]; assumption.
  - destruct (kind p); [|exact H|]; (pose proof (change_left_handed_same (with_lh s (lh s) b)) as A; cbn zeta in A; destruct A as (_ & _ & A1 & A2 & _ & _ & A3 & A4 & A5 & _ & _ & _ & _ & A6 & A7 & A8 & A9 & A10); eapply Inv_same; [exact H|..]; assumption).
  - cbn in L. pose proof (notify_same s b v) as G. cbn zeta in G. destruct G as (_ & _ & g1 & g2 & _ & _ & g3 & g4 & g5 & _ & _ & _ & _ & g6 & g7).
    destruct H as ((A & B) & O1 & O2 & I1 & I2). split; [split; [|apply T_notify; exact B]|rewrite g1, g2, g3, g5; auto].
    apply K_sym. eapply K_ext; [|reflexivity|intros x; unfold own, is_active; rewrite g3, g4, g6, g7; reflexivity].
    destruct v; [apply K_press|apply K_release]; try (apply K_sym; exact A); destruct (th b); [discriminate|reflexivity|reflexivity|discriminate].
Qed.
Lemma step_closed : forall p s th i, clicky p -> Inv s th -> (closed p s = true -> active s = None) -> input_ok p s th i -> closed p (bstep p s i) = true -> active (bstep p s i) = None.
Proof.
  intros p s th i C H CL L. unfold closed in *. destruct i as [b v|l t|i t|l t|l t|l t|l t| | |m|b|b|b v]; cbn [bstep] in *.
  - destruct (closed p s); [exact CL|]. unfold process_button. destruct (kind p), b; exact CL.
  - unfold closed. destruct (susp s && negb (has_top p)) eqn:E; [rewrite E; exact CL|].
    pose proof (frame_same p s l t) as F. cbn zeta in F. destruct F as (_ & _ & _ & _ & _ & -> & _). rewrite E. discriminate.
  - destruct (nth_error (tbs s) i) as [b|]; [|exact CL]. destruct (tmr b) as [e|]; [|exact CL]. destruct (e <=? t); exact CL.
  - intros _. eapply clear_inactive; eassumption.
  - intros X. pose proof (clear_inv p s l t th C H) as Y. pose proof (clear_inactive p s l t th C H) as N. destruct (has_top p); [rewrite andb_false_r in X; discriminate X|].
    unfold device_suspend. apply (clear_inactive p _ [] t th C). eapply Inv_inactive; [exact Y|exact N|..]; try reflexivity. exact N.
  - destruct (has_top p); cbn; discriminate.
  - intros _. unfold device_suspend. pose proof (step_inv p s th (Remove l t) C H CL L) as Y. destruct Y as (_ & _ & _ & Y & _). apply Y. unfold device_suspend. cbn [bstep]. unfold device_suspend. destruct (clear_phys p (with_susp s true) l t) as (_ & -> & _). reflexivity.
  - cbn in L. destruct (trackpoint s); [exact CL|]. cbn [with_tp with_active susp]. rewrite L. discriminate.
  - cbn in L. destruct (trackpoint s); [|exact CL]. cbn [with_out with_tp susp]. destruct (match active s with Some _ => active_top s | None => false end); cbn [with_active susp]; rewrite L; discriminate.
  - destruct m; exact CL.
  - destruct (kind p); [|exact CL|exact CL]. pose proof (apply_middle_same p (with_mid s (mid s) b)) as A. cbn zeta in A. destruct A as (_ & A1 & A2 & _ & _ & A3 & A4 & A5 & _ & _ & _ & _ & A6 & A7 & A8 & A9 & A10).
    rewrite A3, A7. exact CL.
  - destruct (kind p); [|exact CL|]; (pose proof (change_left_handed_same (with_lh s (lh s) b)) as A; cbn zeta in A; destruct A as (_ & _ & A1 & A2 & _ & _ & A3 & A4 & A5 & _ & _ & _ & _ & A6 & A7 & A8 & A9 & A10); rewrite A3, A7; exact CL).
  - pose proof (notify_same s b v) as G. cbn zeta in G. destruct G as (_ & _ & g1 & g2 & _ & _ & g3 & g4 & g5 & _ & _ & _ & _ & g6 & g7). rewrite g3, g7. exact CL.
Qed.

(** *** Whole runs *)
Definition good (p : pad) (s : dev) (th : button -> bool) : Prop := Inv s th /\ (closed p s = true -> active s = None).
Fixpoint inputs_ok (p : pad) (s : dev) (th : button -> bool) (l : list binput) : Prop :=
  match l with [] => True | i :: l => input_ok p s th i /\ inputs_ok p (bstep p s i) (th_after th i) l end.
Lemma run_good : forall p l s th, clicky p -> good p s th -> inputs_ok p s th l -> exists th', good p (brun p s l) th' /\ th' = fold_left th_after l th.
Proof.
  intros p l. induction l as [|i l IH]; intros s th C G L; [exists th; auto|]. destruct L as [L1 L2]. cbn [brun fold_left]. apply (IH (bstep p s i) (th_after th i) C); [|exact L2].
  destruct G as [G1 G2]. split; [apply step_inv; assumption|eapply step_closed; eassumption].
Qed.
Lemma th_after_tapped : forall l th b, fold_left th_after l th b = down_after (th b) (tapped b l).
Proof.
  induction l as [|i l IH]; intros th b; [reflexivity|]. cbn [fold_left]. rewrite IH. destruct i; try reflexivity. cbn [th_after tapped]. unfold hset. destruct (button_eqb b b0); [|reflexivity].
  unfold down_after. rewrite last_cons. reflexivity.
Qed.
Lemma bstep_susp : forall p s i, susp (bstep p s i) = match i with Suspend _ _ | Remove _ _ => true | Resume _ _ => false | _ => susp s end.
Proof.
  intros p s i. destruct i as [b v|l t|i t|l t|l t|l t|l t| | |m|b|b|b v]; cbn [bstep].
  - destruct (closed p s); [reflexivity|]. unfold process_button. destruct (kind p), b; reflexivity.
  - destruct (closed p s); [reflexivity|]. apply (frame_same p s l t).
  - destruct (nth_error (tbs s) i) as [b|]; [|reflexivity]. destruct (tmr b) as [e|]; [|reflexivity]. destruct (e <=? t); reflexivity.
  - apply (clear_phys p s l t).
  - destruct (has_top p); [reflexivity|]. apply (clear_phys p (with_susp (clear p s l t) true) [] t).
  - destruct (has_top p); reflexivity.
  - apply (clear_phys p (with_susp s true) l t).
  - destruct (trackpoint s); reflexivity.
  - destruct (trackpoint s); [|reflexivity]. cbn [with_out with_tp susp]. destruct (match active s with Some _ => active_top s | None => false end); reflexivity.
  - destruct m; reflexivity.
  - destruct (kind p); [|reflexivity|reflexivity]. apply (apply_middle_same p (with_mid s (mid s) b)).
  - destruct (kind p); [|reflexivity|]; apply (change_left_handed_same (with_lh s (lh s) b)).
  - apply (notify_same s b v).
Qed.
Lemma bstep_phys : forall p s i, phys (bstep p s i) = hw p (susp s) (phys s) [i].
Proof.
  intros p s i. destruct i as [b v|l t|i t|l t|l t|l t|l t| | |m|b|b|b v]; cbn [bstep hw].
  - unfold closed. destruct (susp s && negb (has_top p)); [reflexivity|]. unfold process_button. destruct (kind p), b; reflexivity.
  - destruct (closed p s); [reflexivity|]. apply (frame_same p s l t).
  - destruct (nth_error (tbs s) i) as [b|]; [|reflexivity]. destruct (tmr b) as [e|]; [|reflexivity]. destruct (e <=? t); reflexivity.
  - apply (clear_phys p s l t).
  - destruct (has_top p); [apply (clear_phys p s l t)|]. apply (clear_phys p (with_susp (clear p s l t) true) [] t).
  - destruct (has_top p); [|reflexivity]. apply (clear_phys p s l t).
  - apply (clear_phys p (with_susp s true) l t).
  - destruct (trackpoint s); reflexivity.
  - destruct (trackpoint s); [|reflexivity]. cbn [with_out with_tp phys]. destruct (match active s with Some _ => active_top s | None => false end); reflexivity.
  - destruct m; reflexivity.
  - destruct (kind p); [|reflexivity|reflexivity]. apply (apply_middle_same p (with_mid s (mid s) b)).
  - destruct (kind p); [|reflexivity|]; apply (change_left_handed_same (with_lh s (lh s) b)).
  - apply (notify_same s b v).
Qed.
Lemma hw_cons : forall p su d i l, hw p su d (i :: l) = hw p (match i with Suspend _ _ | Remove _ _ => true | Resume _ _ => false | _ => su end) (hw p su d [i]) l.
Proof. intros. destruct i; reflexivity. Qed.
Lemma run_phys : forall p l s, phys (brun p s l) = hw p (susp s) (phys s) l.
Proof. intros p l. induction l as [|i l IH]; intros s; [reflexivity|]. rewrite hw_cons, <- bstep_phys. cbn [brun fold_left]. change (fold_left (bstep p) l (bstep p s i)) with (brun p (bstep p s i) l). rewrite IH, bstep_susp. reflexivity. Qed.
Lemma brun_app : forall p a b s, brun p s (a ++ b) = brun p (brun p s a) b.
Proof. intros. unfold brun. apply fold_left_app. Qed.

Lemma inputs_ok_intro : forall p l s th,
  (kind p = OneButton -> one_button l) -> clicky p -> (forall b, alternate (th b) (tapped b l)) -> trackpoints_ok (susp s) l -> never_removed l -> inputs_ok p s th l.
Proof.
  intros p l. induction l as [|i l IH]; intros s th O C A T R; [exact I|]. cbn [inputs_ok]. split.
  - destruct i as [b v|l0 t|i t|l0 t|l0 t|l0 t|l0 t| | |m|b|b|b v]; cbn [input_ok]; try exact I.
    + destruct C as [C|C]; [left; exact C|right; apply (O C)].
    + exact (False_ind _ R).
    + apply T.
    + apply T.
    + specialize (A b). cbn [tapped] in A. rewrite button_eqb_refl in A. apply A.
  - apply IH.
    + intros K. specialize (O K). destruct i; try exact O. apply O.
    + exact C.
    + intros b. specialize (A b). destruct i as [b0 v|l0 t|i t|l0 t|l0 t|l0 t|l0 t| | |m|b0|b0|b0 v]; try exact A. cbn [tapped th_after] in *. unfold hset. destruct (button_eqb b b0); [apply A|exact A].
    + rewrite bstep_susp. destruct i; try exact T; try apply T. exact (False_ind _ R).
    + destruct i; try exact R. exact (False_ind _ R).
Qed.
Lemma init_good : forall p n m, good p (binit p n m) (fun _ => false).
Proof.
  intros p n m. unfold binit.
  assert (E : forall s a, good p s (fun _ => false) -> good p (with_ar s a) (fun _ => false)) by (intros s a [G1 G2]; split; [eapply Inv_same; [exact G1|..]; reflexivity|exact G2]).
  apply E. unfold switch_click_method. cbn [method].
  assert (G : forall a m, good p {| tbs := repeat tb0 n; ar := a; phys := no_bits; old := no_bits; qp := false; qr := false; active := None; active_top := false; pending := false; method := m;
       mid := false; want_mid := false; lh := false; want_lh := false; trackpoint := false; susp := false; kc := {| cl := 0; cr := 0; cm := 0 |}; ok := true; out := [] |} (fun _ => false)).
  { intros a m0. split; [|discriminate]. split; [split|].
    - split; [reflexivity|]. split; [intros []; reflexivity|]. split; [intros b; exact I|intros b; reflexivity].
    - intros b. cbn. split; [constructor; [exact I|constructor]|reflexivity].
    - split; [split; reflexivity|]. split; [split; reflexivity|]. split; [reflexivity|discriminate]. }
  destruct m; apply E; apply G.
Qed.
