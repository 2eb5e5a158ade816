(** * Proofs about devices and their capabilities, continued (C55) *)
Require Import Coq.ZArith.ZArith Coq.QArith.QArith Coq.Strings.String Coq.Lists.List Coq.Bool.Bool Coq.micromega.Lia.
Require Import Verif.Dev_Model Verif.Dev_Spec Verif.Dev_Proofs.
Import ListNotations.
Open Scope Z_scope.

Lemma has_cap_iff : forall d x, has_cap d x = true <-> In x (caps d).
Proof.
  intros d x. unfold has_cap. rewrite existsb_exists. split; [intros [y [I H]]; destruct (cap_eq x y) as [->|]; [exact I | discriminate] | intros I; exists x; split; [exact I |]; destruct (cap_eq x x) as [|N]; [reflexivity | elim N; reflexivity]].
Qed.
(** The capabilities by tag *)
Definition plain_caps (q : quirks) (ts : tag -> bool) (c : codes) (x : cap) : Prop :=
  match x with
  | POINTER => ts T_MOUSE = true \/ ts T_POINTINGSTICK = true \/ (ts T_KEYBOARD = true /\ wheel c)
  | KEYBOARD => ts T_KEYBOARD = true
  | TOUCH => ts T_TOUCHSCREEN = true
  | SWITCH => ts T_SWITCH = true /\ (sw c SW_LID = true \/ sw c SW_TABLET_MODE = true /\ q_unreliable q = false)
  | _ => False
  end.
Lemma fallback_caps : forall o q ts c f x, In x (caps (configure_fallback o q ts c f)) <-> plain_caps q ts c x.
Proof.
  intros o q ts c f x. unfold configure_fallback.
  set (p1 := if ts T_MOUSE || ts T_POINTINGSTICK then [POINTER] else []).
  set (p2 := if ts T_KEYBOARD then KEYBOARD :: (if rel c REL_WHEEL || rel c REL_HWHEEL then [POINTER] else []) else []).
  set (p3 := if ts T_TOUCHSCREEN then [TOUCH] else []).
  set (p4 := if ts T_SWITCH && sw c SW_LID then [SWITCH] else []).
  destruct (if ts T_SWITCH && sw c SW_TABLET_MODE then if q_unreliable q then (disable_sw c SW_TABLET_MODE, []) else (c, [SWITCH]) else (c, [])) as [c1 p5] eqn:E5.
  match goal with |- In x (caps ?D) <-> _ => assert (caps D = p1 ++ p2 ++ p3 ++ p4 ++ p5) as -> end.
  { match goal with |- caps (if ?b then _ else _) = _ => destruct b end; [reflexivity |]. destruct (opens_mtdev c1); [destruct (o_mtdev o) |]; reflexivity. }
  assert (p5 = if ts T_SWITCH && sw c SW_TABLET_MODE && negb (q_unreliable q) then [SWITCH] else []) as -> by (destruct (ts T_SWITCH && sw c SW_TABLET_MODE); [destruct (q_unreliable q) |]; inversion E5; reflexivity).
  unfold p1, p2, p3, p4, plain_caps, wheel. clear.
  destruct (ts T_MOUSE), (ts T_POINTINGSTICK), (ts T_KEYBOARD), (ts T_TOUCHSCREEN), (rel c REL_WHEEL), (rel c REL_HWHEEL); destruct (ts T_SWITCH), (sw c SW_LID), (sw c SW_TABLET_MODE), (q_unreliable q); destruct x; cbn [app orb andb negb In]; intuition congruence.
Qed.
Lemma fallback_codes : forall o q ts c f, let d := configure_fallback o q ts c f in
  rel (dc d) = rel c /\ key (dc d) = key c /\ slots (dc d) = slots c /\ abs (dc d) = abs c /\
  (forall n, sw (dc d) n = if Z.eqb n SW_TABLET_MODE && ts T_SWITCH && q_unreliable q then false else sw c n) /\ fake d = f /\
  (dk d <> None -> dk d = Some FALLBACK /\ mtdev d = opens_mtdev c).
Proof.
  intros o q ts c f. unfold configure_fallback.
  destruct (if ts T_SWITCH && sw c SW_TABLET_MODE then if q_unreliable q then (disable_sw c SW_TABLET_MODE, []) else (c, [SWITCH]) else (c, [])) as [c1 p5] eqn:E5.
  assert (rel c1 = rel c /\ key c1 = key c /\ slots c1 = slots c /\ abs c1 = abs c /\ (forall n, sw c1 n = if Z.eqb n SW_TABLET_MODE && ts T_SWITCH && q_unreliable q then false else sw c n)) as (A & B & C & D & E).
  { destruct (ts T_SWITCH) eqn:T1; cbn [andb] in E5.
    - destruct (sw c SW_TABLET_MODE) eqn:T2; [destruct (q_unreliable q) eqn:T3; inversion E5; subst; cbn [rel key slots abs sw disable_sw] |inversion E5; subst]; repeat split; intros n; rewrite ?andb_true_r, ?andb_false_r; try reflexivity.
      destruct (Z.eqb_spec n SW_TABLET_MODE) as [W|W]; [| reflexivity]. subst n. cbn [andb]. destruct (q_unreliable q); [exact T2 | reflexivity].
    - inversion E5; subst. repeat split. intros n. rewrite andb_false_r. reflexivity. }
  assert (opens_mtdev c1 = opens_mtdev c) as M by (unfold opens_mtdev, need_mtdev, fake_mt, has_abs; rewrite C, D; reflexivity).
  cbv zeta. match goal with |- context [if ?b && rel c1 REL_X && rel c1 REL_Y && negb (o_accel o) then _ else _] => destruct (b && rel c1 REL_X && rel c1 REL_Y && negb (o_accel o)) end.
  - cbn [dc dk fake mtdev failed]. repeat split; try assumption; congruence.
  - destruct (opens_mtdev c1) eqn:O; [destruct (o_mtdev o) |]; cbn [dc dk fake mtdev failed made]; repeat split; try assumption; try congruence.
Qed.
Lemma fallback_made : forall o q ts c f, o_accel o = true -> o_mtdev o = true -> dk (configure_fallback o q ts c f) <> None.
Proof.
  intros o q ts c f A M. unfold configure_fallback. destruct (if ts T_SWITCH && sw c SW_TABLET_MODE then _ else _) as [c1 p5]. rewrite A, M. cbn [negb]. rewrite andb_false_r. destruct (opens_mtdev c1); discriminate.
Qed.
Lemma same_wheel : forall c d, same c d -> (wheel d <-> wheel c).
Proof. intros c d (R & _). unfold wheel. rewrite R. tauto. Qed.
(** the five families *)
Definition fam (q : quirks) (u : udev) (p : option udev) (c : codes) : kind :=
  if q_totem q then TOTEM else if get_tags u p T_TABLET_PAD then PAD else
  if get_tags u p T_TABLET && negb (get_tags u p T_TOUCHPAD) && negb (scr u p c) then TABLET else if get_tags u p T_TOUCHPAD then TOUCHPAD else FALLBACK.
Lemma b_iff : forall b (P : Prop), (b = true <-> P) -> (b = false <-> ~ P).
Proof. intros [] P H; split; intros K; try discriminate; try (intros L; apply H in L; discriminate); try reflexivity. elim K. apply H. reflexivity. Qed.
Ltac tagq := rewrite ?t_pad, ?t_tablet, ?t_touchpad, ?scr_iff.
Lemma fam_totem : forall q u p c, fam q u p c = TOTEM <-> is_totem q.
Proof. intros. unfold fam, is_totem. destruct (q_totem q); [tauto |]. split; [| discriminate]. destruct (get_tags u p T_TABLET_PAD); [discriminate |]. destruct (_ && _); [discriminate |]. destruct (get_tags u p T_TOUCHPAD); discriminate. Qed.
Lemma fam_pad : forall q u p c, fam q u p c = PAD <-> is_pad q u p.
Proof. intros. unfold fam, is_pad. rewrite <- t_pad. destruct (q_totem q); [split; [discriminate | intros [H _]; discriminate] |]. destruct (get_tags u p T_TABLET_PAD); [tauto |]. split; [| intros [_ H]; discriminate]. destruct (_ && _); [discriminate |]. destruct (get_tags u p T_TOUCHPAD); discriminate. Qed.
Lemma fam_pen : forall q u p c, fam q u p c = TABLET <-> is_pen q u p c.
Proof. intros. unfold fam, is_pen. rewrite <- t_pad, <- t_tablet, <- t_touchpad, <- scr_iff. destruct (q_totem q), (get_tags u p T_TABLET_PAD), (get_tags u p T_TABLET), (get_tags u p T_TOUCHPAD), (scr u p c); cbn; intuition congruence. Qed.
Lemma fam_touchpad : forall q u p c, fam q u p c = TOUCHPAD <-> is_touchpad q u p.
Proof. intros. unfold fam, is_touchpad. rewrite <- t_pad, <- t_touchpad. destruct (q_totem q), (get_tags u p T_TABLET_PAD), (get_tags u p T_TABLET), (get_tags u p T_TOUCHPAD), (scr u p c); cbn; intuition congruence. Qed.
Lemma fam_plain : forall q u p c, fam q u p c = FALLBACK <-> is_plain q u p c.
Proof. intros. unfold fam, is_plain. rewrite <- t_pad, <- t_tablet, <- t_touchpad, <- scr_iff. destruct (q_totem q), (get_tags u p T_TABLET_PAD), (get_tags u p T_TABLET), (get_tags u p T_TOUCHPAD), (scr u p c); cbn; intuition congruence. Qed.
Lemma pick_fam : forall o q u p c c4 f dims, pick o q (ts2 u p c) (c4, f, dims) =
  match fam q u p c with
  | TOTEM => if totem_ok c4 f then made TOTEM [TABLET_TOOL] c4 f else failed [TABLET_TOOL] c4 f
  | PAD => if o_leds o then made PAD [TABLET_PAD] c4 f else failed [TABLET_PAD] c4 f
  | TABLET => if tablet_ok c4 f && o_tablet o then made TABLET [TABLET_TOOL] c4 f else failed [TABLET_TOOL] c4 f
  | TOUCHPAD => if tp_sane c4 && o_touchpad o then made TOUCHPAD (POINTER :: if tp_gestures q c4 then [GESTURE] else []) (tp_codes q c4 f dims) false else failed [] c4 f
  | FALLBACK => configure_fallback o q (ts2 u p c) c4 f
  end.
Proof.
  intros. unfold pick, fam. change (ts2 u p c T_TABLET_PAD) with (get_tags u p T_TABLET_PAD). change (ts2 u p c T_TABLET) with (get_tags u p T_TABLET). change (ts2 u p c T_TOUCHPAD) with (get_tags u p T_TOUCHPAD). change (ts2 u p c T_TOUCHSCREEN) with (scr u p c).
  destruct (q_totem q); [reflexivity |]. destruct (get_tags u p T_TABLET_PAD); [reflexivity |]. destruct (get_tags u p T_TABLET && negb (get_tags u p T_TOUCHPAD) && negb (scr u p c)); [reflexivity |]. destruct (get_tags u p T_TOUCHPAD); reflexivity.
Qed.
(** What an added device is like, by family *)
Lemma added : forall o q u p c d, create o q u p c = Some d -> exists c4 f dims, same c c4 /\ dk d = Some (fam q u p c) /\ d = pick o q (ts2 u p c) (c4, f, dims) /\
  (exists c2, reject (drop u p c) = Some c2 /\ looked q (c3_of c2) = (c4, f, dims)) /\
  match fam q u p c with
  | TOTEM => d = made TOTEM [TABLET_TOOL] c4 f /\ totem_ok c4 f = true
  | PAD => d = made PAD [TABLET_PAD] c4 f
  | TABLET => d = made TABLET [TABLET_TOOL] c4 f /\ tablet_ok c4 f = true
  | TOUCHPAD => d = made TOUCHPAD (POINTER :: if tp_gestures q c4 then [GESTURE] else []) (tp_codes q c4 f dims) false /\ tp_sane c4 = true
  | FALLBACK => d = configure_fallback o q (ts2 u p c) c4 f
  end.
Proof.
  intros o q u p c d H. destruct (created _ _ _ _ _ _ H) as (_ & _ & _ & _ & _ & K & c2 & R & E & S).
  destruct (looked q (c3_of c2)) as [[c4 f] dims] eqn:L. cbn [fst] in S. exists c4, f, dims. split; [exact S |].
  assert (exists c0, reject (drop u p c) = Some c0 /\ looked q (c3_of c0) = (c4, f, dims)) as W by (exists c2; auto).
  pose proof E as E2. rewrite pick_fam in E2.
  destruct (fam q u p c).
  - refine (conj _ (conj E (conj W E2))). pose proof (fallback_codes o q (ts2 u p c) c4 f) as F. cbv zeta in F. rewrite <- E2 in F. apply F. exact K.
  - destruct (tp_sane c4 && o_touchpad o) eqn:T; [| rewrite E2 in K; elim K; reflexivity]. apply andb_true_iff in T. refine (conj _ (conj E (conj W (conj E2 (proj1 T))))). rewrite E2. reflexivity.
  - destruct (tablet_ok c4 f && o_tablet o) eqn:T; [| rewrite E2 in K; elim K; reflexivity]. apply andb_true_iff in T. refine (conj _ (conj E (conj W (conj E2 (proj1 T))))). rewrite E2. reflexivity.
  - destruct (o_leds o); [| rewrite E2 in K; elim K; reflexivity]. refine (conj _ (conj E (conj W E2))). rewrite E2. reflexivity.
  - destruct (totem_ok c4 f) eqn:T; [| rewrite E2 in K; elim K; reflexivity]. refine (conj _ (conj E (conj W (conj E2 eq_refl)))). rewrite E2. reflexivity.
Qed.
Lemma gestures_iff : forall q c, tp_gestures q c = true <-> semi c = false /\ q_dm4 q = false /\ exists a, abs c ABS_MT_SLOT = Some a /\ 1 <= amax a.
Proof.
  intros q c. unfold tp_gestures, tp_slots. destruct (abs c ABS_MT_SLOT) as [a|].
  - destruct (semi c), (q_dm4 q); cbn [negb orb andb]; rewrite ?Z.ltb_lt; split; try discriminate; try (intros (?&?&?); discriminate).
    + intros L. split; [reflexivity |]. split; [reflexivity |]. exists a. split; [reflexivity | lia].
    + intros (_ & _ & b & B & L). inversion B; subst. lia.
  - split; [rewrite andb_false_r; discriminate | intros (_ & _ & b & B & _); discriminate].
Qed.
Lemma caps_deserved : forall o q u p c d, create o q u p c = Some d -> forall x, In x (caps d) <-> deserves q u p c x.
Proof.
  intros o q u p c d H x. destruct (added _ _ _ _ _ _ H) as (c4 & f & dims & S & _ & _ & _ & M).
  assert (forall k, fam q u p c = k -> (is_totem q <-> k = TOTEM) /\ (is_pad q u p <-> k = PAD) /\ (is_pen q u p c <-> k = TABLET) /\ (is_touchpad q u p <-> k = TOUCHPAD) /\ (is_plain q u p c <-> k = FALLBACK)) as W.
  { intros k E. rewrite <- (fam_totem q u p c), <- (fam_pad q u p c), <- fam_pen, <- (fam_touchpad q u p c), <- fam_plain. rewrite E. tauto. }
  destruct (W _ eq_refl) as (W1 & W2 & W3 & W4 & W5). clear W. unfold deserves. revert W1 W2 W3 W4 W5.
  generalize (is_totem q) (is_pad q u p) (is_pen q u p c) (is_touchpad q u p) (is_plain q u p c). intros P1 P2 P3 P4 P5 W1 W2 W3 W4 W5.
  destruct (fam q u p c) eqn:K;
  repeat match goal with W : ?P <-> ?a = ?a |- _ => assert P by (apply W; reflexivity); clear W | W : ?P <-> ?a = ?b |- _ => assert (~ P) by (rewrite W; discriminate); clear W end.
  - subst d. rewrite fallback_caps. pose proof (same_wheel _ _ S) as SW. destruct S as (R & _ & Q & _).
    pose proof (t_mouse u p) as L1. pose proof (t_stick u p) as L2. pose proof (t_switch u p) as L3. pose proof (t_keyboard u p) as L4. pose proof (scr_iff u p c) as L5.
    unfold plain_caps. change (ts2 u p c T_MOUSE) with (get_tags u p T_MOUSE). change (ts2 u p c T_POINTINGSTICK) with (get_tags u p T_POINTINGSTICK). change (ts2 u p c T_KEYBOARD) with (get_tags u p T_KEYBOARD). change (ts2 u p c T_SWITCH) with (get_tags u p T_SWITCH). change (ts2 u p c T_TOUCHSCREEN) with (scr u p c).
    rewrite Q. destruct x; tauto.
  - destruct M as [-> _]. cbn [caps made]. assert (tp_gestures q c4 = true <-> semi c = false /\ q_dm4 q = false /\ exists a, abs c ABS_MT_SLOT = Some a /\ 1 <= amax a) as G.
    { rewrite gestures_iff. destruct S as (_ & _ & _ & _ & S & A). rewrite S, A. tauto. }
    destruct (tp_gestures q c4); destruct x; cbn [In]; intuition (try congruence; try discriminate).
  - destruct M as [-> _]. cbn [caps made In]. destruct x; intuition (try congruence; try discriminate).
  - subst d. cbn [caps made In]. destruct x; intuition (try congruence; try discriminate).
  - destruct M as [-> _]. cbn [caps made In]. destruct x; intuition (try congruence; try discriminate).
Qed.
