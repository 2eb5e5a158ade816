(** * Which devices are added, what they are, and what they send (C55) *)
Require Import Coq.ZArith.ZArith Coq.QArith.QArith Coq.Strings.String Coq.Lists.List Coq.Bool.Bool Coq.micromega.Lia.
Require Import Verif.Dev_Model Verif.Dev_Spec Verif.Dev_Proofs Verif.Dev_Proofs2.
Import ListNotations.
Open Scope Z_scope.

(** ** Concrete devices *)
Definition props (l : list (string * string)) : udev := fun n => match find (fun m => String.eqb (fst m) n) l with Some m => Some (snd m) | None => None end.
Definition axes (l : list (Z * (Z * Z * Z))) (n : Z) : option absinfo :=
  match find (fun m => Z.eqb (fst m) n) l with Some (_, (a, b, r)) => Some {| amin := a; amax := b; ares := r |} | None => None end.
Definition mem (l : list Z) (n : Z) : bool := existsb (Z.eqb n) l.
Definition all_ok : oracle := {| o_leds := true; o_mtdev := true; o_tablet := true; o_touchpad := true; o_accel := true |}.
Definition no_quirks : quirks := {| q_totem := false; q_unreliable := false; q_dm4 := false; q_res := None; q_size := None |}.
Definition mouse_c : codes := {| abs := axes []; rel := mem [REL_X; REL_Y; REL_WHEEL]; key := mem [272; 273]; sw := mem []; slots := -1; semi := false |}.
Definition mouse_u : udev := props [("ID_INPUT", "1"); ("ID_INPUT_MOUSE", "1")]%string.
Definition touchpad_c : codes :=
  {| abs := axes [(ABS_X, (0, 4000, 40)); (ABS_Y, (0, 2000, 40)); (ABS_MT_SLOT, (0, 4, 0)); (ABS_MT_POSITION_X, (0, 4000, 40)); (ABS_MT_POSITION_Y, (0, 2000, 40))];
     rel := mem []; key := mem [BTN_TOUCH; BTN_TOOL_FINGER; 272]; sw := mem []; slots := 5; semi := false |}.
Definition touchpad_u : udev := props [("ID_INPUT", "1"); ("ID_INPUT_TOUCHPAD", "1")]%string.
Definition screen_a_c : codes :=
  {| abs := axes [(ABS_MT_POSITION_X, (0, 4000, 10)); (ABS_MT_POSITION_Y, (0, 2000, 10))]; rel := mem []; key := mem []; sw := mem []; slots := -1; semi := false |}.
Definition screen_u : udev := props [("ID_INPUT", "1"); ("ID_INPUT_TOUCHSCREEN", "1")]%string.
Definition switch_c : codes := {| abs := axes []; rel := mem []; key := mem []; sw := mem [SW_LID; SW_TABLET_MODE]; slots := -1; semi := false |}.
Definition switch_u : udev := props [("ID_INPUT", "1"); ("ID_INPUT_SWITCH", "1")]%string.
Definition pen_c : codes := {| abs := axes [(ABS_X, (0, 20000, 100)); (ABS_Y, (0, 10000, 100))]; rel := mem []; key := mem [BTN_STYLUS]; sw := mem []; slots := -1; semi := false |}.
Definition pen_u : udev := props [("ID_INPUT", "1"); ("ID_INPUT_TABLET", "1")]%string.

(** ** Which devices are added *)
(** An added device was not told to be ignored, is said to be an input device of some kind, and its axes are sensible *)
Theorem C55_added_only : forall o q u p c d, create o q u p c = Some d ->
  ~ told_to_ignore u /\ says u p "ID_INPUT" /\ (exists n, In n kinds /\ n <> "ID_INPUT_ACCELEROMETER"%string /\ says u p n) /\ sane u p c.
Proof.
  intros o q u p c d H. destruct (created _ _ _ _ _ _ H) as (A & B & C & T & _). refine (conj A (conj B (conj _ C))).
  unfold tagged in T. rewrite !andb_true_iff, !negb_true_iff in T. destruct T as [[[T1 T2] T3] T4].
  destruct (existsb (fun t => get_tags u p t) [T_KEYBOARD; T_MOUSE; T_TOUCHPAD; T_TOUCHSCREEN; T_TABLET; T_TABLET_PAD; T_JOYSTICK; T_POINTINGSTICK; T_TRACKBALL; T_SWITCH]) eqn:E.
  - apply existsb_exists in E. destruct E as [t [I G]]. apply get_tags_iff in G. destruct G as [n [J G]]. exists n.
    assert (In n kinds /\ n <> "ID_INPUT_ACCELEROMETER"%string) as [K1 K2]; [| exact (conj K1 (conj K2 G))].
    assert (t <> T_INPUT /\ t <> T_ACCELEROMETER) as [N1 N2] by (cbn in I; split; intros ->; repeat (destruct I as [I|I]; [discriminate I |]); exact I). clear I.
    cbn in J. repeat match type of J with _ \/ _ => destruct J as [J|J] | False => destruct J end; inversion J; subst; try congruence; (split; [unfold kinds; repeat (first [left; reflexivity | right]) | discriminate]).
  - exfalso. cbn [existsb] in E. rewrite !orb_false_iff in E. decompose [and] E.
    destruct (get_tags u p T_ACCELEROMETER) eqn:X.
    + assert (only T_ACCELEROMETER (get_tags u p) = true) as W; [| congruence]. unfold only, all_tags. cbn [forallb].
      repeat match goal with G : get_tags u p ?t = _ |- _ => rewrite G; clear G end. reflexivity.
    + assert (forallb (fun t => tag_eqb t T_INPUT || negb (get_tags u p t)) all_tags = true) as W; [| congruence]. unfold all_tags. cbn [forallb].
      repeat match goal with G : get_tags u p ?t = _ |- _ => rewrite G; clear G end. reflexivity.
Qed.
(** A joystick that is nothing else is not added *)
Theorem C55_no_joysticks : forall o q u p c, (forall n, In n kinds -> says u p n -> n = "ID_INPUT_JOYSTICK"%string) -> create o q u p c = None.
Proof.
  intros o q u p c H. destruct (create o q u p c) as [d|] eqn:E; [exfalso | reflexivity].
  destruct (created _ _ _ _ _ _ E) as (_ & _ & _ & T & _). unfold tagged in T. rewrite !andb_true_iff, !negb_true_iff in T. destruct T as [[[T1 T2] T3] T4].
  assert (forall n, In n kinds -> n <> "ID_INPUT_JOYSTICK"%string -> ~ says u p n) as N by (intros n I J S; apply J, H; assumption).
  assert (forall t, In t all_tags -> t <> T_INPUT -> t <> T_JOYSTICK -> get_tags u p t = false) as G.
  { intros t _ N1 N2. apply not_true_is_false. rewrite get_tags_iff. intros [n [I S]]. cbn in I.
    repeat (destruct I as [I|I]; [inversion I; subst; first [congruence | revert S; apply N; [cbn; tauto | discriminate]] |]). destruct I. }
  destruct (get_tags u p T_JOYSTICK) eqn:X.
  - assert (only T_JOYSTICK (get_tags u p) = true) as W; [| congruence]. unfold only, all_tags. cbn [forallb].
    rewrite T1, X, !G by (try discriminate; cbn; tauto). reflexivity.
  - assert (forallb (fun t => tag_eqb t T_INPUT || negb (get_tags u p t)) all_tags = true) as W; [| congruence]. unfold all_tags. cbn [forallb].
    rewrite T1, X, !G by (try discriminate; cbn; tauto). reflexivity.
Qed.
Lemma create_of : forall o q u p c c2, ~ told_to_ignore u -> tagged u p = true -> reject (drop u p c) = Some c2 ->
  let d := pick o q (ts2 u p c) (looked q (c3_of c2)) in caps d <> [] -> dk d <> None -> create o q u p c = Some d.
Proof.
  intros o q u p c c2 I T R d C K. unfold create. destruct (ignored u) eqn:G; [apply ignored_iff in G; contradiction |].
  rewrite configure_eq, T, R. fold d. destruct (dk d); [| elim K; reflexivity]. destruct (caps d); [elim C; reflexivity | reflexivity].
Qed.
Lemma tagged_of : forall u p t, get_tags u p T_INPUT = true -> get_tags u p t = true -> t <> T_INPUT -> t <> T_ACCELEROMETER -> t <> T_JOYSTICK -> tagged u p = true.
Proof.
  intros u p t I G N1 N2 N3. unfold tagged. rewrite I. cbn [andb]. rewrite !andb_true_iff, !negb_true_iff. unfold only, all_tags. cbn [forallb].
  destruct t; try congruence; rewrite G; cbn; rewrite ?andb_false_r; repeat split; reflexivity.
Qed.
(** Mice, keyboards, touchscreens and switches: added if there is anything they can do *)
Theorem C55_plain_added : forall o q u p c x, o_accel o = true -> o_mtdev o = true ->
  is_plain q u p c -> deserves q u p c x -> ~ told_to_ignore u -> says u p "ID_INPUT" -> sane u p c -> exists d, create o q u p c = Some d.
Proof.
  intros o q u p c x OA OM P D I T S.
  destruct (reject_some (drop u p c)) as [c2 R]; [apply sane_iff; exact S |]. destruct (reject_ok _ _ R) as (_ & S2 & _).
  assert (same c (fst (fst (looked q (c3_of c2))))) as SM by (eapply same_trans; [apply (drop_same u p c) |]; eapply same_trans; [exact S2 |]; eapply same_trans; [apply c3_same | apply looked_same]).
  eexists. apply (create_of o q u p c c2 I).
  - apply t_input in T. unfold deserves, is_totem, is_pad, is_pen, is_touchpad in D. unfold is_plain in P.
    destruct x; cbn in D; try (exfalso; intuition congruence).
    + destruct D as [D|[_ [D|[D|[D _]]]]]; [tauto | apply t_mouse in D | apply t_stick in D | apply t_keyboard in D]; apply (tagged_of u p _ T D); discriminate.
    + destruct D as [_ D]. apply t_keyboard in D. apply (tagged_of u p _ T D); discriminate.
    + destruct D as [_ [D _]]. apply t_touchscreen in D. apply (tagged_of u p _ T D); discriminate.
    + destruct D as [_ [D _]]. apply t_switch in D. apply (tagged_of u p _ T D); discriminate.
  - exact R.
  - destruct (looked q (c3_of c2)) as [[c4 f] dims]. cbn [fst] in SM. rewrite pick_fam, (proj2 (fam_plain q u p c) P). intros E.
    assert (In x (caps (configure_fallback o q (ts2 u p c) c4 f))) as W; [| rewrite E in W; destruct W].
    apply fallback_caps. pose proof (same_wheel _ _ SM) as SW. destruct SM as (_ & _ & Q & _). pose proof (t_mouse u p) as L1. pose proof (t_stick u p) as L2. pose proof (t_switch u p) as L3. pose proof (t_keyboard u p) as L4. pose proof (scr_iff u p c) as L5.
    unfold plain_caps. change (ts2 u p c T_MOUSE) with (get_tags u p T_MOUSE). change (ts2 u p c T_POINTINGSTICK) with (get_tags u p T_POINTINGSTICK). change (ts2 u p c T_KEYBOARD) with (get_tags u p T_KEYBOARD). change (ts2 u p c T_SWITCH) with (get_tags u p T_SWITCH). change (ts2 u p c T_TOUCHSCREEN) with (scr u p c).
    rewrite Q. unfold deserves, is_totem, is_pad, is_pen, is_touchpad, is_plain in *. destruct P as (P1 & P2 & P3 & P4). destruct x; try tauto. destruct D as [D|D]; [congruence | tauto].
  - destruct (looked q (c3_of c2)) as [[c4 f] dims]. rewrite pick_fam, (proj2 (fam_plain q u p c) P). apply fallback_made; assumption.
Qed.
Lemma has_abs_res : forall c n r m, has_abs (set_res c n r) m = has_abs c m.
Proof. intros c n r m. unfold set_res, has_abs. destruct (abs c n) eqn:E; [| reflexivity]. cbn [abs set_abs]. destruct (Z.eqb_spec m n) as [->|]; [rewrite E |]; reflexivity. Qed.
Lemma has_abs_fix : forall q c x y m, has_abs (fst (fix_res q c x y)) m = has_abs c m.
Proof.
  intros q c x y m. unfold fix_res. destruct (abs c x) as [a|]; [| reflexivity]. destruct (abs c y) as [b|]; [| reflexivity]. destruct (_ || _); [reflexivity |].
  destruct (match q_res q with Some (a0, b0) => (Zpos a0, Zpos b0) | None => _ end) as [xr yr]. cbn [fst]. rewrite !has_abs_res. reflexivity.
Qed.
Lemma has_abs_looked : forall q c m, has_abs (fst (fst (looked q c))) m = has_abs c m.
Proof.
  intros q c m. unfold looked. destruct (has_abs c ABS_X); [| reflexivity]. unfold extract. destruct (_ || _); [reflexivity |].
  pose proof (has_abs_fix q c ABS_X ABS_Y m) as H1. destruct (fix_res q c ABS_X ABS_Y) as [c1 f1]. cbn [fst] in H1. destruct (_ || _); [exact H1 |].
  pose proof (has_abs_fix q c1 ABS_MT_POSITION_X ABS_MT_POSITION_Y m) as H2. destruct (fix_res q c1 ABS_MT_POSITION_X ABS_MT_POSITION_Y) as [c3 f3]. cbn [fst] in *. congruence.
Qed.
Lemma has_abs_c3 : forall c m, 2 < m -> has_abs (c3_of c) m = has_abs c m.
Proof.
  intros c m M. unfold c3_of. destruct (fake_mt c); [reflexivity |]. unfold fix_android. destruct (_ || has_abs c ABS_Y); [reflexivity |]. destruct (_ || fake_mt c); [reflexivity |].
  unfold has_abs, set_abs. cbn [abs]. unfold ABS_X, ABS_Y. destruct (Z.eqb_spec m 1); [lia |]. destruct (Z.eqb_spec m 0); [lia |]. reflexivity.
Qed.
Lemma place_iff : forall u p c c2, reject (drop u p c) = Some c2 -> (has_abs (c3_of c2) ABS_X = true <-> has_place u p c).
Proof.
  intros u p c c2 R. destruct (reject_ok _ _ R) as (SN & S & T). unfold has_place. rewrite <- drop_has, <- fake_iff, <- !has_iff.
  assert (forall n, ~ 40 < n < 47 -> has_abs c2 n = has_abs (drop u p c) n) as E by (intros n N; unfold has_abs; rewrite (thinned_has _ _ _ T N); reflexivity).
  assert (has_abs c ABS_MT_POSITION_X = has_abs (drop u p c) ABS_MT_POSITION_X) as -> by (unfold has_abs; rewrite drop_axis by reflexivity; reflexivity).
  assert (has_abs c ABS_MT_POSITION_Y = has_abs (drop u p c) ABS_MT_POSITION_Y) as -> by (unfold has_abs; rewrite drop_axis by reflexivity; reflexivity).
  rewrite <- (same_fake c (drop u p c) (drop_same u p c)), <- (same_fake _ _ S).
  rewrite <- !E by (unfold ABS_X, ABS_MT_POSITION_X, ABS_MT_POSITION_Y; lia). destruct SN as (XY & _). rewrite <- !E in XY by (unfold ABS_X, ABS_Y; lia).
  unfold c3_of. destruct (fake_mt c2) eqn:F; [intuition congruence |]. unfold fix_android. rewrite <- XY, F, orb_diag.
  destruct (has_abs c2 ABS_X) eqn:X; [tauto |]. rewrite orb_false_r. destruct (has_abs c2 ABS_MT_POSITION_X) eqn:MX; cbn [negb orb]; [| intuition congruence].
  destruct (has_abs c2 ABS_MT_POSITION_Y) eqn:MY; cbn [negb]; [| intuition congruence].
  split; [intros _; right; repeat split; congruence |]. intros _. unfold has_abs, set_abs in *. cbn [abs]. change (ABS_X =? ABS_Y) with false. cbn iota. rewrite Z.eqb_refl. exact MX.
Qed.
(** A touchpad is added if and only if it has a place, a touch and a finger *)
Theorem C55_touchpad_added : forall o q u p c, o_touchpad o = true -> is_touchpad q u p ->
  ((exists d, create o q u p c = Some d) <->
   ~ told_to_ignore u /\ says u p "ID_INPUT" /\ sane u p c /\ has_place u p c /\ key c BTN_TOUCH = true /\ key c BTN_TOOL_FINGER = true).
Proof.
  intros o q u p c O P. pose proof (proj2 (fam_touchpad q u p c) P) as F. split.
  - intros [d H]. destruct (created _ _ _ _ _ _ H) as (A & B & C & _). destruct (added _ _ _ _ _ _ H) as (c4 & f & dims & S & _ & _ & [c2 [R L]] & M). rewrite F in M. destruct M as [_ M].
    unfold tp_sane in M. rewrite !andb_true_iff in M. destruct M as [[M1 M2] M3]. assert (c4 = fst (fst (looked q (c3_of c2)))) as E by (rewrite L; reflexivity).
    rewrite E, has_abs_looked in M1. apply (place_iff u p c c2 R) in M1. destruct S as (_ & K & _). rewrite K in M2, M3. auto 10.
  - intros (A & B & C & D & K1 & K2). destruct (reject_some (drop u p c)) as [c2 R]; [apply sane_iff; exact C |]. destruct (reject_ok _ _ R) as (_ & S2 & _).
    assert (same c (fst (fst (looked q (c3_of c2))))) as SM by (eapply same_trans; [apply (drop_same u p c) |]; eapply same_trans; [exact S2 |]; eapply same_trans; [apply c3_same | apply looked_same]).
    pose proof (proj2 (place_iff u p c c2 R) D) as X. pose proof (has_abs_looked q (c3_of c2) ABS_X) as HX. rewrite X in HX.
    assert (tagged u p = true) as TG by (destruct P as (_ & _ & P); apply t_touchpad in P; apply t_input in B; apply (tagged_of u p _ B P); discriminate).
    eexists. apply (create_of o q u p c c2 A TG R); destruct (looked q (c3_of c2)) as [[c4 f] dims]; cbn [fst] in *; rewrite pick_fam, F; unfold tp_sane; destruct SM as (_ & K & _); rewrite HX, K, K1, K2, O; cbn [andb]; discriminate.
Qed.

(** ** What they are *)
(** The capabilities of a device are those it deserves, no more and no fewer *)
Theorem C55_capabilities : forall o q u p c d, create o q u p c = Some d -> forall x, has_cap d x = true <-> deserves q u p c x.
Proof. intros o q u p c d H x. rewrite has_cap_iff. eapply caps_deserved. exact H. Qed.
(** Every device has one; tablets and pads have no other; touchpads are pointers, with or without gestures *)
Theorem C55_exclusive : forall o q u p c d, create o q u p c = Some d ->
  (exists x, has_cap d x = true) /\
  (forall x y, has_cap d x = true -> has_cap d y = true -> x = TABLET_TOOL \/ x = TABLET_PAD -> y = x) /\
  (has_cap d GESTURE = true -> forall y, has_cap d y = true <-> y = GESTURE \/ y = POINTER).
Proof.
  intros o q u p c d H. pose proof (created _ _ _ _ _ _ H) as (_ & _ & _ & _ & NE & _). destruct (added _ _ _ _ _ _ H) as (c4 & f & dims & S & _ & _ & _ & M).
  split; [destruct (caps d) as [|x l] eqn:E; [congruence | exists x; apply has_cap_iff; rewrite E; left; reflexivity] |].
  split.
  - intros x y X Y C. apply has_cap_iff in X. apply has_cap_iff in Y. destruct (fam q u p c).
    + subst d. apply fallback_caps in X. destruct C as [-> | ->]; destruct X.
    + destruct M as [-> _]. cbn [caps made] in X. destruct (tp_gestures q c4); cbn in X; destruct C as [-> | ->]; intuition discriminate.
    + destruct M as [-> _]. cbn in X, Y. intuition congruence.
    + subst d. cbn in X, Y. intuition congruence.
    + destruct M as [-> _]. cbn in X, Y. intuition congruence.
  - intros G y. rewrite has_cap_iff. apply has_cap_iff in G. destruct (fam q u p c).
    + subst d. apply fallback_caps in G. destruct G.
    + destruct M as [-> _]. cbn [caps made] in *. destruct (tp_gestures q c4); cbn in *; [intuition congruence | intuition discriminate].
    + destruct M as [-> _]. cbn in G. intuition discriminate.
    + subst d. cbn in G. intuition discriminate.
    + destruct M as [-> _]. cbn in G. intuition discriminate.
Qed.

(** ** What they send *)
(** Whatever the code of a device asks to send, the caller sees only events of capabilities the device has; and nothing of those is lost *)
Theorem C55_events : forall o q u p c d asked, create o q u p c = Some d ->
  (forall e, In e (sends d asked) -> has_cap d (family e) = true /\ In e asked) /\
  (forall e k, dk d = Some k -> calls k e = true -> has_cap d (family e) = true -> In e asked -> In e (sends d asked)).
Proof.
  intros o q u p c d asked H. destruct (added _ _ _ _ _ _ H) as (c4 & f & dims & S & K & _ & _ & M). unfold sends. rewrite K. split.
  - intros e I. apply filter_In in I. destruct I as [I P]. apply filter_In in I. destruct I as [I C]. split; [| exact I].
    unfold posts in P. destruct (fam q u p c); destruct e; cbn in C; try discriminate C; try exact P; match type of M with _ /\ _ => destruct M as [-> _] | _ => rewrite M end; reflexivity.
  - intros e k K2 C P I. inversion K2; subst k. apply filter_In. split; [apply filter_In; auto |]. unfold posts. destruct e; cbn in *; try exact P; reflexivity.
Qed.

(** ** What they answer *)
Lemma keys_kept : forall o q u p c d, create o q u p c = Some d -> key (dc d) = key c.
Proof.
  intros o q u p c d H. destruct (added _ _ _ _ _ _ H) as (c4 & f & dims & S & _ & _ & _ & M). assert (key c4 = key c) as E by (apply S). rewrite <- E.
  destruct (fam q u p c); try (destruct M as [-> _]; reflexivity); try (subst d; reflexivity).
  - subst d. pose proof (fallback_codes o q (ts2 u p c) c4 f) as F. apply F.
  - destruct M as [-> _]. cbn [dc made]. assert (forall c0 n r, key (set_res c0 n r) = key c0) as SR by (intros; unfold set_res; destruct (abs c0 n); reflexivity).
    unfold tp_codes. assert (key (tp_resolution c4 f dims) = key c4) as <- by (unfold tp_resolution; destruct f; [rewrite !SR |]; reflexivity). destruct (tp_slots q (tp_resolution c4 f dims)); reflexivity.
Qed.
(** Asked for buttons, keys, switches or touches a device without the capability answers -1; else whether the kernel has the code *)
Theorem C55_queries : forall o q u p c d n, create o q u p c = Some d ->
  (has_button d n = -1 <-> has_cap d POINTER = false) /\ (has_cap d POINTER = true -> has_button d n = if key c n then 1 else 0) /\
  (has_key d n = -1 <-> has_cap d KEYBOARD = false) /\ (has_cap d KEYBOARD = true -> has_key d n = if key c n then 1 else 0).
Proof.
  intros o q u p c d n H. unfold has_button, has_key. rewrite (keys_kept _ _ _ _ _ _ H).
  destruct (has_cap d POINTER), (has_cap d KEYBOARD), (key c n); cbn; intuition discriminate.
Qed.
(** A switch device has a switch.  It answers what the kernel says, but a tablet mode switch that is not reliable is not there *)
Theorem C55_switches : forall o q u p c d lid, create o q u p c = Some d ->
  (has_switch d lid = -1 <-> has_cap d SWITCH = false) /\
  (has_cap d SWITCH = true -> (has_switch d true = 1 \/ has_switch d false = 1) /\
     has_switch d true = (if sw c SW_LID then 1 else 0) /\ has_switch d false = (if sw c SW_TABLET_MODE && negb (q_unreliable q) then 1 else 0)).
Proof.
  intros o q u p c d lid H. split; [unfold has_switch; destruct (has_cap d SWITCH); [| tauto]; destruct (sw (dc d) (if lid then SW_LID else SW_TABLET_MODE)); cbn; intuition discriminate |].
  intros S. pose proof (proj1 (C55_capabilities _ _ _ _ _ _ H SWITCH) S) as D. cbn in D. destruct D as (P & T & L).
  destruct (added _ _ _ _ _ _ H) as (c4 & f & dims & SM & _ & _ & _ & M). rewrite (proj2 (fam_plain q u p c) P) in M.
  pose proof (fallback_codes o q (ts2 u p c) c4 f) as F. cbv zeta in F. rewrite <- M in F. destruct F as (_ & _ & _ & _ & F & _).
  assert (sw c4 = sw c) as E by (apply SM). apply t_switch in T. change (ts2 u p c T_SWITCH) with (get_tags u p T_SWITCH) in F. rewrite T, E in F.
  unfold has_switch. rewrite S. pose proof (F SW_LID) as F1. pose proof (F SW_TABLET_MODE) as F2. cbn [Z.eqb SW_LID SW_TABLET_MODE Pos.eqb andb] in F1, F2. rewrite F1, F2.
  change (sw c 0) with (sw c SW_LID) in *. change (sw c 1) with (sw c SW_TABLET_MODE) in *.
  destruct (sw c SW_LID), (sw c SW_TABLET_MODE), (q_unreliable q); cbn in *; intuition congruence.
Qed.
(** A touchscreen counts its touches: as many as the kernel has slots, 0 (not known) if it reports fingers without slots, else 1; and it still does after it was disabled and enabled again *)
Theorem C55_touch_count : forall o q u p c d, create o q u p c = Some d -> has_cap d TOUCH = true ->
  (slots c <> -1 -> touch_count d = slots c) /\ (slots c = -1 -> protocol_a c -> touch_count d = 0) /\ (slots c = -1 -> ~ protocol_a c -> touch_count d = 1) /\
  touch_count (resume (suspend d)) = touch_count d.
Proof.
  intros o q u p c d H T. pose proof (proj1 (C55_capabilities _ _ _ _ _ _ H TOUCH) T) as [P _].
  destruct (added _ _ _ _ _ _ H) as (c4 & f & dims & SM & K & _ & [c2 [R L]] & M). rewrite (proj2 (fam_plain q u p c) P) in M.
  pose proof (fallback_codes o q (ts2 u p c) c4 f) as F. cbv zeta in F. rewrite <- M in F. destruct F as (_ & _ & SL & AB & _ & _ & F). destruct (F ltac:(rewrite K; discriminate)) as [_ MD].
  assert (slots c4 = slots c) as E by (apply SM). rewrite E in SL.
  destruct (reject_ok _ _ R) as (_ & _ & TH).
  assert (forall n, 2 < n -> ~ 40 < n < 47 -> has_abs c4 n = has_abs c n) as HA.
  { intros n N1 N2. replace c4 with (fst (fst (looked q (c3_of c2)))) by (rewrite L; reflexivity). rewrite has_abs_looked, has_abs_c3 by exact N1. unfold has_abs. rewrite (thinned_has _ _ _ TH N2), drop_axis by exact N1. reflexivity. }
  assert (need_mtdev c4 = true <-> protocol_a c) as NM.
  { unfold need_mtdev, protocol_a. rewrite !HA by (unfold ABS_MT_POSITION_X, ABS_MT_POSITION_Y, ABS_MT_SLOT; lia). rewrite !andb_true_iff, negb_true_iff, <- not_true_iff_false, !has_iff. tauto. }
  assert (opens_mtdev c4 = need_mtdev c4) as OM by (unfold opens_mtdev, fake_mt, need_mtdev; destruct (has_abs c4 ABS_MT_SLOT); cbn; rewrite ?andb_false_r; reflexivity).
  assert (need_mtdev (dc d) = need_mtdev c4) as ND by (unfold need_mtdev, has_abs; rewrite AB; reflexivity).
  rewrite OM in MD. unfold touch_count. change (has_cap (resume (suspend d)) TOUCH) with (has_cap d TOUCH). rewrite T. cbn [dc mtdev resume suspend orb]. rewrite ND, MD, SL.
  destruct (Z.eqb_spec (slots c) (-1)) as [Q|Q]; destruct (need_mtdev c4); repeat split; intros; try congruence; try reflexivity; try (exfalso; tauto); exfalso; intuition congruence.
Qed.
(** ... but not while it is disabled: then a touchscreen that reports fingers without slots claims to have one touch *)
Theorem C55_touch_count_refuted : ~ forall o q u p c d, create o q u p c = Some d -> touch_count (suspend d) = touch_count d.
Proof. intros H. specialize (H all_ok no_quirks screen_u None screen_a_c _ eq_refl). vm_compute in H. discriminate. Qed.

(** ** How big they are *)
(** If the kernel gives the resolution of every pair of axes it has, the size is the range divided by the resolution *)
Theorem C55_size : forall o q u p c d a b, create o q u p c = Some d -> kept u p c ABS_X a -> kept u p c ABS_Y b -> ares a <> 0 ->
  (false_slots c \/ forall m, abs c ABS_MT_POSITION_X = Some m -> ares m <> 0) ->
  get_size (dc d) (fake d) = Some ((inject_Z (amax a - amin a) / inject_Z (ares a))%Q, (inject_Z (amax b - amin b) / inject_Z (ares b))%Q).
Proof.
  intros o q u p c d a b H KA KB RA RM. destruct (created _ _ _ _ _ _ H) as (_ & _ & SN & _). pose proof SN as ((_ & SR) & _). specialize (SR a b KA KB). assert (ares b <> 0) as RB by tauto. clear SR.
  destruct (added _ _ _ _ _ _ H) as (c4 & f & dims & SM & K & _ & [c2 [R L]] & M). destruct (reject_ok _ _ R) as (SN1 & S2 & TH).
  apply drop_abs in KA. apply drop_abs in KB.
  assert (abs c2 ABS_X = Some a) as A2 by (rewrite (thinned_has _ _ _ TH) by (unfold ABS_X; lia); exact KA).
  assert (abs c2 ABS_Y = Some b) as B2 by (rewrite (thinned_has _ _ _ TH) by (unfold ABS_Y; lia); exact KB).
  assert (has_abs c2 ABS_X = true) as HX by (unfold has_abs; rewrite A2; reflexivity). assert (has_abs c2 ABS_Y = true) as HY by (unfold has_abs; rewrite B2; reflexivity).
  assert (c3_of c2 = c2) as C3 by (unfold c3_of, fix_android; rewrite HX; destruct (fake_mt c2); reflexivity).
  assert (c4 = c2 /\ f = false) as [-> ->].
  { rewrite C3 in L. unfold looked in L. rewrite HX in L. unfold extract in L. rewrite HX, HY in L. cbn [negb orb] in L. unfold fix_res at 1 in L. rewrite A2, B2 in L.
    replace (ares a =? 0) with false in L by (symmetry; apply Z.eqb_neq; exact RA). cbn [negb orb] in L.
    destruct (fake_mt c2) eqn:FM; cbn [orb] in L; [inversion L; auto |]. unfold has_abs in L. destruct (abs c2 ABS_MT_POSITION_X) as [m|] eqn:MX; cbn [negb orb] in L; [| inversion L; auto].
    destruct (abs c2 ABS_MT_POSITION_Y) as [n|] eqn:MY; cbn [negb] in L; [| inversion L; auto].
    unfold fix_res in L. rewrite MX, MY in L. assert (ares m <> 0) as RN.
    { destruct RM as [RM|RM]; [apply fake_iff in RM; rewrite (same_fake _ _ S2), (same_fake _ _ (drop_same u p c)) in FM; congruence |]. apply RM.
      rewrite (thinned_has _ _ _ TH), drop_axis in MX by (unfold ABS_MT_POSITION_X; lia). exact MX. }
    replace (ares m =? 0) with false in L by (symmetry; apply Z.eqb_neq; exact RN). cbn [negb orb] in L. inversion L; auto. }
  assert (get_size c2 false = Some ((inject_Z (amax a - amin a) / inject_Z (ares a))%Q, (inject_Z (amax b - amin b) / inject_Z (ares b))%Q)) as G.
  { unfold get_size. rewrite A2, B2. replace (ares a =? 0) with false by (symmetry; apply Z.eqb_neq; exact RA). replace (ares b =? 0) with false by (symmetry; apply Z.eqb_neq; exact RB). reflexivity. }
  destruct (fam q u p c); try (destruct M as [-> _]; exact G); try (subst d; exact G).
  - pose proof (fallback_codes o q (ts2 u p c) c2 false) as F. cbv zeta in F. rewrite <- M in F. destruct F as (_ & _ & _ & AB & _ & FK & _). rewrite FK. unfold get_size in *. rewrite AB. exact G.
  - destruct M as [-> _]. cbn [dc fake made]. unfold tp_codes, tp_resolution. destruct (tp_slots q c2); exact G.
Qed.
(** ... but a touchpad whose kernel gives the resolution of x and y, and not that of its fingers' x and y, is taken for one of 69 x 50 mm *)
Theorem C55_size_refuted : ~ forall o q u p c d a b, create o q u p c = Some d -> kept u p c ABS_X a -> kept u p c ABS_Y b -> ares a <> 0 ->
  exists w h, get_size (dc d) (fake d) = Some (w, h) /\ (w == inject_Z (amax a - amin a) / inject_Z (ares a))%Q.
Proof.
  intros H. set (c := {| abs := axes [(ABS_X, (0, 4000, 40)); (ABS_Y, (0, 2000, 40)); (ABS_MT_SLOT, (0, 4, 0)); (ABS_MT_POSITION_X, (0, 4000, 0)); (ABS_MT_POSITION_Y, (0, 2000, 0))];
     rel := mem []; key := mem [BTN_TOUCH; BTN_TOOL_FINGER; 272]; sw := mem []; slots := 5; semi := false |}).
  destruct (H all_ok no_quirks touchpad_u None c _ {| amin := 0; amax := 4000; ares := 40 |} {| amin := 0; amax := 2000; ares := 40 |} eq_refl) as (w & h & E & W).
  - split; [reflexivity |]. intros [[X|[v [X _]]] _]; [vm_compute in X; discriminate | discriminate].
  - split; [reflexivity |]. intros [[X|[v [X _]]] _]; [vm_compute in X; discriminate | discriminate].
  - discriminate.
  - vm_compute in E. inversion E; subst. vm_compute in W. discriminate.
Qed.
(** Every tablet has a size, and a pen or a stylus button unless it is a totem *)
Theorem C55_tablet_size : forall o q u p c d, create o q u p c = Some d -> has_cap d TABLET_TOOL = true ->
  get_size (dc d) (fake d) <> None /\ (q_totem q = false -> key c BTN_TOOL_PEN = true \/ key c BTN_STYLUS = true).
Proof.
  intros o q u p c d H T. pose proof (proj1 (C55_capabilities _ _ _ _ _ _ H TABLET_TOOL) T) as D. cbn in D.
  destruct (added _ _ _ _ _ _ H) as (c4 & f & dims & SM & K & _ & _ & M). assert (key c4 = key c) as E by (apply SM).
  destruct D as [D|D].
  - rewrite (proj2 (fam_totem q u p c) D) in M. destruct M as [-> M]. cbn [dc fake made]. unfold totem_ok in M. rewrite !andb_true_iff in M. split; [destruct (get_size c4 f); [discriminate | intuition discriminate] | unfold is_totem in D; congruence].
  - rewrite (proj2 (fam_pen q u p c) D) in M. destruct M as [-> M]. cbn [dc fake made]. unfold tablet_ok in M. rewrite !andb_true_iff, orb_true_iff, E in M. split; [destruct (get_size c4 f); [discriminate | intuition discriminate] | tauto].
Qed.
(** What udev says of the parent is not overridden by the device: a device that says it is not a touchpad is one *)
Theorem C55_own_word_refuted : ~ forall o q u p c d, create o q u p c = Some d -> u "ID_INPUT_TOUCHPAD"%string = Some "0"%string -> dk d <> Some TOUCHPAD.
Proof.
  intros H. refine (H all_ok no_quirks (props [("ID_INPUT", "1"); ("ID_INPUT_TOUCHPAD", "0")]%string) (Some touchpad_u) touchpad_c _ eq_refl eq_refl _). reflexivity.
Qed.

(** ** The hypotheses are met *)
Example mouse_added : exists d, create all_ok no_quirks mouse_u None mouse_c = Some d /\ caps d = [POINTER] /\ has_button d 272 = 1 /\ has_button d 274 = 0 /\ has_key d 30 = -1.
Proof. eexists. split; [reflexivity |]. repeat split. Qed.
Example touchpad_added : exists d, create all_ok no_quirks touchpad_u None touchpad_c = Some d /\ caps d = [POINTER; GESTURE] /\ sends d [POINTER_MOTION; TOUCH_DOWN; GESTURE_PINCH_BEGIN] = [POINTER_MOTION; GESTURE_PINCH_BEGIN].
Proof. eexists. split; [reflexivity |]. repeat split. Qed.
Example pen_added : exists d, create all_ok no_quirks pen_u None pen_c = Some d /\ caps d = [TABLET_TOOL].
Proof. eexists. split; [reflexivity |]. repeat split. Qed.
Example switch_added : exists d, create all_ok {| q_totem := false; q_unreliable := true; q_dm4 := false; q_res := None; q_size := None |} switch_u None switch_c = Some d /\ has_switch d true = 1 /\ has_switch d false = 0.
Proof. eexists. split; [reflexivity |]. repeat split. Qed.
Example screen_added : exists d, create all_ok no_quirks screen_u None screen_a_c = Some d /\ has_cap d TOUCH = true /\ protocol_a screen_a_c /\ touch_count d = 0.
Proof. eexists. split; [reflexivity |]. repeat split; discriminate || (intros H; apply H; reflexivity). Qed.
Example mouse_plain : is_plain no_quirks mouse_u None mouse_c /\ deserves no_quirks mouse_u None mouse_c POINTER /\ ~ told_to_ignore mouse_u.
Proof.
  assert (forall n, says mouse_u None n <-> mouse_u n = Some "1"%string) as S by (intros n; unfold says; split; [intros [H|[v [H _]]]; [exact H | discriminate] | auto]).
  assert (is_plain no_quirks mouse_u None mouse_c) as P by (unfold is_plain; rewrite !S; repeat split; try discriminate).
  refine (conj P (conj _ _)); [right; split; [exact P | left; apply S; reflexivity] | intros [v [H _]]; discriminate].
Qed.

Print Assumptions C55_added_only.
Print Assumptions C55_no_joysticks.
Print Assumptions C55_plain_added.
Print Assumptions C55_touchpad_added.
Print Assumptions C55_capabilities.
Print Assumptions C55_exclusive.
Print Assumptions C55_events.
Print Assumptions C55_queries.
Print Assumptions C55_switches.
Print Assumptions C55_touch_count.
Print Assumptions C55_touch_count_refuted.
Print Assumptions C55_size.
Print Assumptions C55_size_refuted.
Print Assumptions C55_tablet_size.
Print Assumptions C55_own_word_refuted.
