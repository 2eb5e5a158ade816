(** * Proofs about devices and their capabilities (C55) *)
Require Import Coq.ZArith.ZArith Coq.QArith.QArith Coq.Strings.String Coq.Lists.List Coq.Logic.FinFun Coq.Bool.Bool Coq.micromega.Lia.
Require Import Verif.Dev_Model Verif.Dev_Spec.
Import ListNotations.
Open Scope Z_scope.

Lemma flag_iff : forall u n, flag u n = true <-> u n = Some "1"%string.
Proof. intros u n. unfold flag. destruct (u n) as [v|]; [| split; discriminate]. rewrite String.eqb_eq. split; congruence. Qed.
Definition says1 (u : udev) (t : tag) : Prop := exists n, In (n, t) matches /\ u n = Some "1"%string.
Lemma tags_of_iff : forall u t, tags_of u t = true <-> says1 u t.
Proof.
  intros u t. unfold tags_of, says1. rewrite existsb_exists. split.
  - intros [[n t2] [I H]]. cbn [fst snd] in H. apply andb_true_iff in H. destruct H as [H F]. unfold tag_eqb in H. destruct (tag_eq t2 t) as [->|]; [| discriminate]. exists n. split; [exact I | apply flag_iff; exact F].
  - intros [n [I F]]. exists (n, t). cbn [fst snd]. split; [exact I |]. unfold tag_eqb. destruct (tag_eq t t) as [_|N]; [| elim N; reflexivity]. apply flag_iff. exact F.
Qed.
Lemma get_tags_iff : forall u p t, get_tags u p t = true <-> exists n, In (n, t) matches /\ says u p n.
Proof.
  intros u p t. unfold get_tags. rewrite orb_true_iff. rewrite tags_of_iff. split.
  - intros [[n [I H]]|H]; [exists n; split; [exact I | left; exact H] |]. destruct p as [v|]; [| discriminate]. apply tags_of_iff in H. destruct H as [n [I H]]. exists n. split; [exact I | right; exists v; auto].
  - intros [n [I [H|[v [-> H]]]]]; [left; exists n; auto | right; apply tags_of_iff; exists n; auto].
Qed.
Ltac tg := intros; rewrite get_tags_iff; split; [intros [n [I H]]; cbn in I; repeat (destruct I as [I|I]; [inversion I; subst; try exact H; tauto |]); destruct I | intros H; eexists; split; [| exact H]; cbn; tauto].
Lemma t_input : forall u p, get_tags u p T_INPUT = true <-> says u p "ID_INPUT". Proof. tg. Qed.
Lemma t_mouse : forall u p, get_tags u p T_MOUSE = true <-> says u p "ID_INPUT_MOUSE". Proof. tg. Qed.
Lemma t_touchpad : forall u p, get_tags u p T_TOUCHPAD = true <-> says u p "ID_INPUT_TOUCHPAD". Proof. tg. Qed.
Lemma t_touchscreen : forall u p, get_tags u p T_TOUCHSCREEN = true <-> says u p "ID_INPUT_TOUCHSCREEN". Proof. tg. Qed.
Lemma t_tablet : forall u p, get_tags u p T_TABLET = true <-> says u p "ID_INPUT_TABLET". Proof. tg. Qed.
Lemma t_pad : forall u p, get_tags u p T_TABLET_PAD = true <-> says u p "ID_INPUT_TABLET_PAD". Proof. tg. Qed.
Lemma t_joystick : forall u p, get_tags u p T_JOYSTICK = true <-> says u p "ID_INPUT_JOYSTICK". Proof. tg. Qed.
Lemma t_accel : forall u p, get_tags u p T_ACCELEROMETER = true <-> says u p "ID_INPUT_ACCELEROMETER". Proof. tg. Qed.
Lemma t_stick : forall u p, get_tags u p T_POINTINGSTICK = true <-> says u p "ID_INPUT_POINTINGSTICK". Proof. tg. Qed.
Lemma t_ball : forall u p, get_tags u p T_TRACKBALL = true <-> says u p "ID_INPUT_TRACKBALL". Proof. tg. Qed.
Lemma t_switch : forall u p, get_tags u p T_SWITCH = true <-> says u p "ID_INPUT_SWITCH". Proof. tg. Qed.
Lemma t_keyboard : forall u p, get_tags u p T_KEYBOARD = true <-> keys u p.
Proof.
  intros u p. rewrite get_tags_iff. unfold keys. split.
  - intros [n [I H]]. cbn in I. repeat (destruct I as [I|I]; [inversion I; subst; tauto |]). destruct I.
  - intros [H|H]; eexists; (split; [| exact H]); cbn; tauto.
Qed.
Lemma has_iff : forall c n, has_abs c n = true <-> axis c n.
Proof. intros c n. unfold has_abs, axis. destruct (abs c n); split; congruence. Qed.
Lemma fake_iff : forall c, fake_mt c = true <-> false_slots c.
Proof. intros c. unfold fake_mt, false_slots. rewrite andb_true_iff, has_iff, Z.eqb_eq. tauto. Qed.

(** ** What the steps leave alone *)
Definition same (c d : codes) : Prop := rel d = rel c /\ key d = key c /\ sw d = sw c /\ slots d = slots c /\ semi d = semi c /\ abs d ABS_MT_SLOT = abs c ABS_MT_SLOT.
Lemma same_refl : forall c, same c c.
Proof. intros c. repeat split. Qed.
Lemma same_trans : forall a b c, same a b -> same b c -> same a c.
Proof. unfold same. intros a b c H K. intuition congruence. Qed.
Lemma same_set : forall c n a, n <> ABS_MT_SLOT -> same c (set_abs c n a).
Proof. intros c n a N. unfold same, set_abs. cbn [abs rel key sw slots semi]. repeat split. destruct (Z.eqb_spec ABS_MT_SLOT n); [congruence | reflexivity]. Qed.
Lemma same_res : forall c n r, n <> ABS_MT_SLOT -> same c (set_res c n r).
Proof. intros c n r N. unfold set_res. destruct (abs c n); [apply same_set; exact N | apply same_refl]. Qed.
Lemma same_accel : forall c, same c (disable_accelerometer c).
Proof. intros c. unfold disable_accelerometer. eapply same_trans; [| apply same_set; discriminate]. eapply same_trans; [| apply same_set; discriminate]. apply same_set. discriminate. Qed.
Lemma same_fix : forall q c x y, x <> ABS_MT_SLOT -> y <> ABS_MT_SLOT -> same c (fst (fix_res q c x y)).
Proof.
  intros q c x y X Y. unfold fix_res. destruct (abs c x) as [a|]; [| apply same_refl]. destruct (abs c y) as [b|]; [| apply same_refl].
  destruct (negb (ares a =? 0) || negb (ares b =? 0)); [apply same_refl |].
  destruct (match q_res q with Some (a0, b0) => (Zpos a0, Zpos b0) | None => _ end) as [xr yr]. cbn [fst].
  eapply same_trans; [| apply same_res; exact Y]. apply same_res. exact X.
Qed.
Lemma same_android : forall c, same c (fix_android c).
Proof. intros c. unfold fix_android. destruct (has_abs c ABS_X || has_abs c ABS_Y); [apply same_refl |]. destruct (_ || fake_mt c); [apply same_refl |]. eapply same_trans; [| apply same_set; discriminate]. apply same_set. discriminate. Qed.
Lemma same_extract : forall q c, same c (fst (fst (extract q c))).
Proof.
  intros q c. unfold extract. destruct (_ || _); [apply same_refl |].
  pose proof (same_fix q c ABS_X ABS_Y ltac:(discriminate) ltac:(discriminate)) as A. destruct (fix_res q c ABS_X ABS_Y) as [c1 f1]. cbn [fst] in A.
  destruct (_ || _); [exact A |].
  pose proof (same_fix q c1 ABS_MT_POSITION_X ABS_MT_POSITION_Y ltac:(discriminate) ltac:(discriminate)) as B. destruct (fix_res q c1 ABS_MT_POSITION_X ABS_MT_POSITION_Y) as [c2 f2]. cbn [fst] in *. eapply same_trans; eassumption.
Qed.
Lemma same_fake : forall c d, same c d -> fake_mt d = fake_mt c.
Proof. intros c d (_ & _ & _ & S & _ & A). unfold fake_mt, has_abs. rewrite S, A. reflexivity. Qed.

(** ** What is rejected *)
Definition fine (n : Z) (a : absinfo) : Prop := amin a <> amax a \/ (amin a = 0 /\ 40 < n < 47).
Definition skipped (n : Z) : Prop := n = ABS_MISC \/ n = ABS_MT_SLOT \/ n = ABS_MT_TOOL_TYPE.
(** only axes without a range are lost, and only those between 41 and 46 *)
Definition thinned (c d : codes) : Prop := forall n, abs d n = abs c n \/ (40 < n < 47 /\ abs d n = None).
Lemma check_all_ok : forall l c d, NoDup l -> check_all c l = Some d -> same c d /\ thinned c d /\ forall n a, In n l -> ~ skipped n -> abs c n = Some a -> fine n a.
Proof.
  induction l as [|m l IH]; intros c d ND H; cbn [check_all] in H.
  - inversion H; subst. split; [apply same_refl |]. split; [intros n; left; reflexivity | intros n a []].
  - inversion ND as [|? ? NI ND']; subst.
    destruct (Z.eqb m ABS_MISC || Z.eqb m ABS_MT_SLOT || Z.eqb m ABS_MT_TOOL_TYPE) eqn:S.
    + destruct (IH _ _ ND' H) as (A & B & C). split; [exact A |]. split; [exact B |]. intros n a [<-|I] NS E; [| eapply C; eassumption].
      elim NS. unfold skipped. rewrite !orb_true_iff, !Z.eqb_eq in S. tauto.
    + rewrite !orb_false_iff, !Z.eqb_neq in S. destruct S as [[S1 S2] S3].
      unfold check_min_max in H. destruct (abs c m) as [a|] eqn:E.
      * destruct (Z.eqb_spec (amin a) (amax a)) as [Q|Q].
        -- destruct (Z.eqb (amin a) 0 && Z.leb ABS_MISC m && Z.ltb m ABS_MT_SLOT) eqn:G; [| discriminate].
           rewrite !andb_true_iff, Z.eqb_eq, Z.leb_le, Z.ltb_lt in G. destruct G as [[G1 G2] G3]. unfold ABS_MISC, ABS_MT_SLOT in *.
           destruct (IH _ _ ND' H) as (A & B & C). split; [eapply same_trans; [apply (same_set c m None); unfold ABS_MT_SLOT; lia | exact A] |]. split.
           ++ intros n. specialize (B n). cbn [abs set_abs] in B. destruct (Z.eqb_spec n m) as [W|N]; [right; split; [lia | destruct B as [B|[_ B]]; exact B] | exact B].
           ++ intros n b [<-|I] NS F; [rewrite E in F; inversion F; subst; right; lia |]. apply C; [exact I | exact NS |]. cbn [abs set_abs]. destruct (Z.eqb_spec n m) as [W|N]; [rewrite W in I; contradiction | exact F].
        -- destruct (IH _ _ ND' H) as (A & B & C). split; [exact A |]. split; [exact B |]. intros n b [<-|I] NS F; [rewrite E in F; inversion F; subst; left; exact Q | eapply C; eassumption].
      * destruct (IH _ _ ND' H) as (A & B & C). split; [exact A |]. split; [exact B |]. intros n b [<-|I] NS F; [congruence | eapply C; eassumption].
Qed.
Lemma check_all_some : forall l c, (forall n a, In n l -> ~ skipped n -> abs c n = Some a -> fine n a) -> exists d, check_all c l = Some d.
Proof.
  induction l as [|m l IH]; intros c H; cbn [check_all]; [eauto |].
  destruct (Z.eqb m ABS_MISC || Z.eqb m ABS_MT_SLOT || Z.eqb m ABS_MT_TOOL_TYPE) eqn:S; [apply IH; intros; eapply H; [right; eassumption | assumption | assumption] |].
  rewrite !orb_false_iff, !Z.eqb_neq in S. destruct S as [[S1 S2] S3].
  assert (~ skipped m) as NS by (unfold skipped; tauto).
  unfold check_min_max. destruct (abs c m) as [a|] eqn:E; [| apply IH; intros; eapply H; [right; eassumption | assumption | assumption]].
  destruct (Z.eqb_spec (amin a) (amax a)) as [Q|Q]; [| apply IH; intros; eapply H; [right; eassumption | assumption | assumption]].
  destruct (H m a (or_introl eq_refl) NS E) as [F|[F1 F2]]; [contradiction |].
  replace (Z.eqb (amin a) 0 && Z.leb ABS_MISC m && Z.ltb m ABS_MT_SLOT) with true by (symmetry; rewrite !andb_true_iff, Z.eqb_eq, Z.leb_le, Z.ltb_lt; unfold ABS_MISC, ABS_MT_SLOT; lia).
  apply IH. intros n b I N F. cbn [abs set_abs] in F. destruct (Z.eqb_spec n m); [discriminate | eapply H; [right; eassumption | assumption | assumption]].
Qed.
Lemma abs_codes_in : forall n, In n abs_codes <-> 0 <= n < 64.
Proof.
  intros n. unfold abs_codes. rewrite in_map_iff. split.
  - intros [k [<- K]]. apply in_seq in K. lia.
  - intros H. exists (Z.to_nat n). split; [lia | apply in_seq; lia].
Qed.
Lemma abs_codes_nodup : NoDup abs_codes.
Proof. unfold abs_codes. apply Injective_map_NoDup; [intros a b H; lia | apply seq_NoDup]. Qed.
Definition sane1 (c : codes) : Prop :=
  has_abs c ABS_X = has_abs c ABS_Y /\ rel c REL_X = rel c REL_Y /\ (fake_mt c = false -> has_abs c ABS_MT_POSITION_X = has_abs c ABS_MT_POSITION_Y) /\
  one_res c ABS_X ABS_Y = false /\ (fake_mt c = false -> one_res c ABS_MT_POSITION_X ABS_MT_POSITION_Y = false) /\
  forall n a, 0 <= n < 64 -> ~ skipped n -> abs c n = Some a -> fine n a.
Lemma reject_ok : forall c d, reject c = Some d -> sane1 c /\ same c d /\ thinned c d.
Proof.
  intros c d H. unfold reject in H.
  destruct (xorb (has_abs c ABS_X) (has_abs c ABS_Y)) eqn:A; [discriminate |].
  destruct (xorb (rel c REL_X) (rel c REL_Y)) eqn:B; [discriminate |].
  destruct (negb (fake_mt c) && xorb (has_abs c ABS_MT_POSITION_X) (has_abs c ABS_MT_POSITION_Y)) eqn:C; [discriminate |].
  destruct (has_abs c ABS_X && one_res c ABS_X ABS_Y) eqn:D; [discriminate |].
  destruct (negb (fake_mt c) && has_abs c ABS_MT_POSITION_X && one_res c ABS_MT_POSITION_X ABS_MT_POSITION_Y) eqn:E; [discriminate |].
  destruct (check_all_ok _ _ _ abs_codes_nodup H) as (S & T & F).
  apply xorb_eq in A. apply xorb_eq in B.
  refine (conj (conj A (conj B (conj _ (conj _ (conj _ _))))) (conj S T)).
  - intros K. rewrite K in C. apply xorb_eq in C. exact C.
  - unfold has_abs, one_res in *. destruct (abs c ABS_X); [exact D | reflexivity].
  - intros K. rewrite K in E. unfold has_abs, one_res in *. destruct (abs c ABS_MT_POSITION_X); [exact E | reflexivity].
  - intros n a I N G. apply F; [apply abs_codes_in; exact I | exact N | exact G].
Qed.
Lemma reject_some : forall c, sane1 c -> exists d, reject c = Some d.
Proof.
  intros c (A & B & C & D & E & F). unfold reject. rewrite A, xorb_nilpotent, B, xorb_nilpotent, D, andb_false_r.
  destruct (fake_mt c) eqn:K; cbn [negb andb].
  - apply check_all_some. intros n a I. apply F. apply abs_codes_in. exact I.
  - rewrite (C eq_refl), xorb_nilpotent, (E eq_refl), andb_false_r. apply check_all_some. intros n a I. apply F. apply abs_codes_in. exact I.
Qed.
(** the codes once the axes of an accelerometer are dropped *)
Definition drop (u : udev) (p : option udev) (c : codes) : codes := if get_tags u p T_ACCELEROMETER then disable_accelerometer c else c.
Lemma drop_same : forall u p c, same c (drop u p c).
Proof. intros u p c. unfold drop. destruct (get_tags u p T_ACCELEROMETER); [apply same_accel | apply same_refl]. Qed.
Lemma drop_abs : forall u p c n a, abs (drop u p c) n = Some a <-> kept u p c n a.
Proof.
  intros u p c n a. unfold drop, kept. rewrite <- t_accel. destruct (get_tags u p T_ACCELEROMETER).
  - unfold disable_accelerometer. cbn [abs set_abs]. unfold ABS_X, ABS_Y, ABS_Z.
    destruct (Z.eqb_spec n 2); [split; [discriminate | intros [_ K]; elim K; split; [reflexivity | lia]] |].
    destruct (Z.eqb_spec n 1); [split; [discriminate | intros [_ K]; elim K; split; [reflexivity | lia]] |].
    destruct (Z.eqb_spec n 0); [split; [discriminate | intros [_ K]; elim K; split; [reflexivity | lia]] |].
    split; [intros H; split; [exact H | lia] | tauto].
  - split; [intros H; split; [exact H | intros [K _]; discriminate] | tauto].
Qed.
Lemma drop_has : forall u p c n, has_abs (drop u p c) n = true <-> there u p c n.
Proof. intros u p c n. unfold has_abs, there. split; [destruct (abs (drop u p c) n) as [a|] eqn:E; [exists a; apply drop_abs; exact E | discriminate] | intros [a K]; apply drop_abs in K; rewrite K; reflexivity]. Qed.
Lemma drop_axis : forall u p c n, 2 < n -> abs (drop u p c) n = abs c n.
Proof.
  intros u p c n N. unfold drop. destruct (get_tags u p T_ACCELEROMETER); [| reflexivity]. unfold disable_accelerometer. cbn [abs set_abs]. unfold ABS_X, ABS_Y, ABS_Z.
  destruct (Z.eqb_spec n 2); [lia |]. destruct (Z.eqb_spec n 1); [lia |]. destruct (Z.eqb_spec n 0); [lia |]. reflexivity.
Qed.
Lemma pair_iff : forall u p c x y, paired u p c x y <-> has_abs (drop u p c) x = has_abs (drop u p c) y /\ one_res (drop u p c) x y = false.
Proof.
  intros u p c x y. unfold paired. rewrite <- !drop_has. set (e := drop u p c) in *.
  assert (forall n a, kept u p c n a <-> abs e n = Some a) as K by (intros; symmetry; apply drop_abs).
  split.
  - intros [A B]. split; [destruct (has_abs e x), (has_abs e y); try reflexivity; intuition congruence |].
    unfold one_res. destruct (abs e x) as [a|] eqn:X; [| reflexivity]. destruct (abs e y) as [b|] eqn:Y; [| reflexivity].
    specialize (B a b (proj2 (K _ _) X) (proj2 (K _ _) Y)). destruct (Z.eqb_spec (ares a) 0), (Z.eqb_spec (ares b) 0); tauto.
  - intros [A B]. split; [rewrite A; tauto |]. intros a b P Q. apply K in P. apply K in Q. unfold one_res in B. rewrite P, Q in B.
    destruct (Z.eqb_spec (ares a) 0), (Z.eqb_spec (ares b) 0); try discriminate; tauto.
Qed.
Lemma sane_iff : forall u p c, sane u p c <-> sane1 (drop u p c).
Proof.
  intros u p c. unfold sane, sane1. rewrite !pair_iff.
  assert (rel (drop u p c) = rel c) as -> by (apply (drop_same u p c)).
  rewrite <- (fake_iff c), <- (same_fake c (drop u p c) (drop_same u p c)).
  assert ((rel c REL_X = true <-> rel c REL_Y = true) <-> rel c REL_X = rel c REL_Y) as -> by (destruct (rel c REL_X), (rel c REL_Y); intuition congruence).
  assert (forall n a, kept u p c n a <-> abs (drop u p c) n = Some a) as K by (intros; symmetry; apply drop_abs).
  split.
  - intros ([A1 A2] & B & C & D). refine (conj A1 (conj B (conj _ (conj A2 (conj _ _))))).
    + intros F. apply C. congruence.
    + intros F. apply C. congruence.
    + intros n a I N G. apply (D n a I); [unfold skipped in N; tauto | unfold skipped in N; tauto | unfold skipped in N; tauto | apply K; exact G].
  - intros (A1 & B & C1 & A2 & C2 & D). refine (conj (conj A1 A2) (conj B (conj _ _))).
    + intros F. apply not_true_is_false in F. auto.
    + intros n a I N1 N2 N3 G. apply K in G. apply (D n a I); [unfold skipped; tauto | exact G].
Qed.

(** ** The shape of a configured device *)
(** whether the device is a touchscreen after all *)
Definition scr (u : udev) (p : option udev) (c : codes) : bool := get_tags u p T_TOUCHSCREEN && negb (fake_mt c && has_abs c ABS_X && negb (get_tags u p T_ACCELEROMETER)).
Lemma scr_iff : forall u p c, scr u p c = true <-> screen u p c.
Proof.
  intros u p c. unfold scr, screen. rewrite andb_true_iff, t_touchscreen, negb_true_iff, <- not_true_iff_false, !andb_true_iff, fake_iff, has_iff, negb_true_iff, <- not_true_iff_false, t_accel. tauto.
Qed.
Definition ts2 (u : udev) (p : option udev) (c : codes) (t : tag) : bool := if tag_eq t T_TOUCHSCREEN then scr u p c else get_tags u p t.
(** the codes and the rest after the axes were looked at *)
Definition c3_of (c2 : codes) : codes := if fake_mt c2 then c2 else fix_android c2.
Definition looked (q : quirks) (c3 : codes) : codes * bool * (Z * Z) := if has_abs c3 ABS_X then extract q c3 else (c3, false, (0, 0)).
Definition pick (o : oracle) (q : quirks) (ts : tag -> bool) (r : codes * bool * (Z * Z)) : device :=
  let '(c4, f, dims) := r in
  if q_totem q then if totem_ok c4 f then made TOTEM [TABLET_TOOL] c4 f else failed [TABLET_TOOL] c4 f else
  if ts T_TABLET_PAD then if o_leds o then made PAD [TABLET_PAD] c4 f else failed [TABLET_PAD] c4 f else
  if ts T_TABLET && negb (ts T_TOUCHPAD) && negb (ts T_TOUCHSCREEN) then if tablet_ok c4 f && o_tablet o then made TABLET [TABLET_TOOL] c4 f else failed [TABLET_TOOL] c4 f else
  if ts T_TOUCHPAD then if tp_sane c4 && o_touchpad o then made TOUCHPAD (POINTER :: if tp_gestures q c4 then [GESTURE] else []) (tp_codes q c4 f dims) false else failed [] c4 f else
  configure_fallback o q ts c4 f.
Definition tagged (u : udev) (p : option udev) : bool :=
  get_tags u p T_INPUT && negb (forallb (fun t => tag_eqb t T_INPUT || negb (get_tags u p t)) all_tags) && negb (only T_ACCELEROMETER (get_tags u p)) && negb (only T_JOYSTICK (get_tags u p)).
Lemma pick_ext : forall o q t1 t2 r, (forall t, t1 t = t2 t) -> pick o q t1 r = pick o q t2 r.
Proof. intros o q t1 t2 [[c f] dims] H. unfold pick, configure_fallback. rewrite !H. reflexivity. Qed.
Lemma thinned_has : forall c d n, thinned c d -> ~ 40 < n < 47 -> abs d n = abs c n.
Proof. intros c d n T N. destruct (T n) as [H|[H _]]; [exact H | contradiction]. Qed.
Lemma looked_same : forall q c, same c (fst (fst (looked q c))).
Proof. intros q c. unfold looked. destruct (has_abs c ABS_X); [apply same_extract | apply same_refl]. Qed.
Lemma c3_same : forall c, same c (c3_of c).
Proof. intros c. unfold c3_of. destruct (fake_mt c); [apply same_refl | apply same_android]. Qed.
Lemma configure_eq : forall o q u p c,
  configure o q u p c = if tagged u p then match reject (drop u p c) with None => failed [] (drop u p c) false | Some c2 => pick o q (ts2 u p c) (looked q (c3_of c2)) end else failed [] (dc (configure o q u p c)) false.
Proof.
  intros o q u p c. unfold configure, tagged. fold (drop u p c).
  destruct (get_tags u p T_INPUT); cbn [negb orb andb]; [| reflexivity].
  destruct (forallb (fun t => tag_eqb t T_INPUT || negb (get_tags u p t)) all_tags); cbn [negb orb andb]; [reflexivity |].
  destruct (only T_ACCELEROMETER (get_tags u p)); cbn [negb orb andb]; [reflexivity |].
  destruct (only T_JOYSTICK (get_tags u p)); cbn [negb orb andb]; [reflexivity |].
  destruct (reject (drop u p c)) as [c2|] eqn:R; [| reflexivity].
  destruct (reject_ok _ _ R) as (_ & S & T). fold (c3_of c2). fold (looked q (c3_of c2)).
  pose proof (looked_same q (c3_of c2)) as L.
  assert (fake_mt (fst (fst (looked q (c3_of c2)))) = fake_mt c) as F by (rewrite (same_fake _ _ L), (same_fake _ _ (c3_same c2)), (same_fake _ _ S), (same_fake _ _ (drop_same u p c)); reflexivity).
  assert (fake_mt c = true -> has_abs (c3_of c2) ABS_X = has_abs c ABS_X && negb (get_tags u p T_ACCELEROMETER)) as X.
  { intros K. unfold c3_of. rewrite (same_fake _ _ S), (same_fake _ _ (drop_same u p c)), K. unfold has_abs. rewrite (thinned_has _ _ _ T) by (unfold ABS_X; lia).
    unfold drop. destruct (get_tags u p T_ACCELEROMETER); cbn [negb]; [rewrite andb_false_r; reflexivity | rewrite andb_true_r; reflexivity]. }
  destruct (looked q (c3_of c2)) as [[c4 f] dims]. cbn [fst] in F.
  match goal with |- (if q_totem q then _ else if ?ts T_TABLET_PAD then _ else _) = _ => change (pick o q ts (c4, f, dims) = pick o q (ts2 u p c) (c4, f, dims)); apply pick_ext end.
  intros t. unfold ts2, scr. rewrite F. destruct (fake_mt c) eqn:K.
  - rewrite (X eq_refl). rewrite andb_true_r. cbn [andb]. destruct (has_abs c ABS_X && negb (get_tags u p T_ACCELEROMETER)); cbn [negb].
    + rewrite andb_false_r. destruct (tag_eq t T_TOUCHSCREEN); reflexivity.
    + rewrite andb_true_r. destruct (tag_eq t T_TOUCHSCREEN) as [->|]; reflexivity.
  - rewrite andb_false_r. cbn [andb negb]. rewrite andb_true_r. destruct (tag_eq t T_TOUCHSCREEN) as [->|]; reflexivity.
Qed.
Lemma ignored_iff : forall u, ignored u = true <-> told_to_ignore u.
Proof.
  intros u. unfold ignored, told_to_ignore. destruct (u "LIBINPUT_IGNORE_DEVICE"%string) as [v|]; [| split; [discriminate | intros [v [H _]]; discriminate]].
  rewrite negb_true_iff, String.eqb_neq. split; [intros H; exists v; auto | intros [w [E H]]; inversion E; subst; exact H].
Qed.
(** Everything about an added device *)
Lemma created : forall o q u p c d, create o q u p c = Some d ->
  ~ told_to_ignore u /\ says u p "ID_INPUT" /\ sane u p c /\ tagged u p = true /\ caps d <> [] /\ dk d <> None /\
  exists c2, reject (drop u p c) = Some c2 /\ d = pick o q (ts2 u p c) (looked q (c3_of c2)) /\ same c (fst (fst (looked q (c3_of c2)))).
Proof.
  intros o q u p c d H. unfold create in H. destruct (ignored u) eqn:I; [discriminate |].
  assert (configure o q u p c = d /\ caps d <> [] /\ dk d <> None) as (E & C & K).
  { destruct (dk (configure o q u p c)) eqn:A; [| discriminate]. destruct (caps (configure o q u p c)) eqn:B; [discriminate |]. inversion H; subst. rewrite A, B. repeat split; discriminate. }
  split; [rewrite <- ignored_iff; congruence |]. rewrite configure_eq in E. destruct (tagged u p) eqn:T; [| subst d; elim K; reflexivity].
  destruct (reject (drop u p c)) as [c2|] eqn:R; [| subst d; elim K; reflexivity].
  destruct (reject_ok _ _ R) as (S1 & S2 & _).
  refine (conj _ (conj _ (conj eq_refl (conj C (conj K _))))).
  - unfold tagged in T. rewrite !andb_true_iff in T. apply t_input. tauto.
  - apply sane_iff. exact S1.
  - exists c2. split; [reflexivity |]. split; [symmetry; exact E |].
    eapply same_trans; [apply (drop_same u p c) |]. eapply same_trans; [exact S2 |]. eapply same_trans; [apply c3_same | apply looked_same].
Qed.
