(** C23: every option of a device is what the caller last set. *)
Require Import Coq.ZArith.ZArith Coq.Lists.List Coq.Bool.Bool Lia.
Require Import Verif.Cfg_Model Verif.Cfg_Spec Verif.Cfg_Proofs.
Import ListNotations.
Open Scope Z_scope.

(** a laptop's multitouch clickpad, and a mouse with three buttons and no wheel *)
Definition pad0 : hw := {| kind_ := Touchpad; btn := fun c => c =? 272; mouse := false; keyboard := false; wheel := false; hwheel := false;
  relx := false; rely := false; trackpoint := false; trackball := false; reversible := false;
  clickpad := true; has_mt := true; onebutton := false; click_quirk := false; apple := false; alps := false; dm4 := false;
  ntouches := 5; internal := true; external := false; below := false |}.
Definition mouse0 : hw := {| kind_ := Fallback; btn := fun c => (272 <=? c) && (c <=? 274); mouse := true; keyboard := false; wheel := false; hwheel := false;
  relx := true; rely := true; trackpoint := false; trackball := true; reversible := false;
  clickpad := false; has_mt := false; onebutton := false; click_quirk := false; apple := false; alps := false; dm4 := false;
  ntouches := 0; internal := false; external := false; below := false |}.

(** C23.  Setting an option returns the documented status, on every kind of
    device, for every value, after every history. *)
Theorem C23_status : forall h l o v, unsigned (l ++ [Set_ o v]) ->
  (o = ScrollLock -> v = 0 -> on_button (offers h)) ->
  documented (offers h) o v (fst (set h o v (run h l))).
Proof.
  intros h l o v Hu Hl. apply unsigned_snoc in Hu. destruct Hu as [Hu Hv].
  apply set_status; [intros ->; eauto | apply run_ok, Hu | exact Hl].
Qed.
Print Assumptions C23_status.

(** ... and the documentation leaves no choice *)
Theorem C23_status_unique : forall f o v r r', documented f o v r -> documented f o v r' -> r = r'.
Proof. exact documented_unique. Qed.
Print Assumptions C23_status_unique.

(** C23.  The getter returns the value last set successfully, the default
    before that, whatever else was set, pressed, touched or refused in
    between.  The scroll button lock is different, see below. *)
Theorem C23_history : forall h o l, unsigned l -> o <> ScrollLock ->
  last_set (offers h) o (get_default h o (run h l)) l (get h o (run h l)).
Proof. exact history. Qed.
Print Assumptions C23_history.
Example history_case : let l := [Set_ Tap 1; Set_ SendEvents 3; Set_ Tap 7; Busy true true true true; Set_ TapMap 1; Set_ ScrollMethod 2; Set_ Click 2; Settle] in
  unsigned l /\ map (fun o => get pad0 o (run pad0 l)) [Tap; TapMap; SendEvents; ScrollMethod; Click; Drag; Dwt; LeftHanded] = [1; 1; 1; 2; 2; 1; 1; 0].
Proof. split; [intros v [H | [H | [H | [H | [H | [H | [H | [H | []]]]]]]]]; discriminate | reflexivity]. Qed.

(** C23.  A refused value changes nothing: neither a getter nor what is in
    effect now or later. *)
Theorem C23_refused : forall h l o v, fst (set h o v (run h l)) <> SUCCESS -> run h (l ++ [Set_ o v]) = run h l.
Proof. intros h l o v H. rewrite run_snoc. apply set_refused, H. Qed.
Print Assumptions C23_refused.
Example refused_case : fst (set pad0 Tap 2 (run pad0 [])) = INVALID /\ fst (set mouse0 Tap 1 (run mouse0 [])) = UNSUPPORTED /\
  fst (set mouse0 ScrollButton 280 (run mouse0 [])) = INVALID /\ fst (set mouse0 ScrollMethod 1 (run mouse0 [])) = UNSUPPORTED.
Proof. repeat split. Qed.

(** C23.  A fresh device has the default values, and the defaults never change. *)
Theorem C23_initial : forall h o l, unsigned l -> get h o (run h []) = get_default h o (run h []) /\
  get_default h o (run h l) = get_default h o (run h []).
Proof. intros h o l Hu. split; [apply init_default | apply (default_const h o _ (run_ok h l Hu))]. Qed.
Print Assumptions C23_initial.
Example initial_case : map (fun o => get_default pad0 o (run pad0 [])) [Tap; Drag; Click; ScrollMethod; Dwt; MiddleEmulation] = [0; 1; 1; 1; 1; 0] /\
  map (fun o => get_default mouse0 o (run mouse0 [])) [ScrollMethod; ScrollButton; LeftHanded; MiddleEmulation] = [4; 274; 0; 0].
Proof. split; reflexivity. Qed.

(** C23.  Setting an option to its default succeeds if the device has the
    option, and the getter then returns the default; for the click method
    only if the default is one of the device's methods. *)
Theorem C23_restore : forall h o l, unsigned l -> has (offers h) o ->
  (o = Click -> within (get_default h Click (run h l)) (clicks (offers h))) ->
  (o = ScrollLock -> b_scroll (run h l) = false) ->
  let d := get_default h o (run h l) in
  fst (set h o d (run h l)) = SUCCESS /\ get h o (snd (set h o d (run h l))) = d.
Proof.
  intros h o l Hu Hh Hc Hk d. pose proof (run_ok h l Hu) as C.
  assert (S : fst (set h o d (run h l)) = SUCCESS).
  { subst d. destruct o; cbn [has offers fingers natural left clicks middle scrolls dwt rotation] in Hh; cbn [get_default set].
    - apply Z.eqb_neq in Hh. rewrite Hh. unfold tap_default. destruct (negb (btn h BTN_LEFT)); reflexivity.
    - apply Z.eqb_neq in Hh. rewrite Hh. reflexivity.
    - apply Z.eqb_neq in Hh. rewrite Hh. reflexivity.
    - apply Z.eqb_neq in Hh. rewrite Hh. reflexivity.
    - rewrite Z.land_0_r. cbn [negb Z.eqb]. unfold sendevents_set. change (Z.land 0 1) with 0. change (Z.land 0 2) with 0. change (0 =? 0) with true. cbn [negb andb orb].
      destruct (kind_ h); destruct (0 =? c_send (run h l)); reflexivity.
    - rewrite Hh. reflexivity.
    - rewrite Hh. reflexivity.
    - specialize (Hc eq_refl). cbn [get_default offers clicks] in Hc. apply (land_within _ _ (clicks_pos h)) in Hc.
      rewrite Hc. unfold get_click_methods in Hh. destruct (hooks_tap h) eqn:T; [| congruence].
      assert (V : ((click_default h =? 0) || (click_default h =? 1) || (click_default h =? 2))%bool = true)
        by (unfold click_default; destruct (click_quirk h || onebutton h)%bool, (clickpad h), (apple h); reflexivity).
      rewrite V. reflexivity.
    - rewrite Hh. cbn [negb]. destruct (b2z (c_middef (run h l)) =? 0) eqn:E; [reflexivity |].
      destruct (c_middef (run h l)); [reflexivity | discriminate].
    - unfold get_scroll_methods in *. destruct (hooks_tap h) eqn:T.
      + unfold tp_method_default, tp_methods. destruct (dm4 h), (2 <=? ntouches h); reflexivity.
      + destruct (hooks_btnscroll h); [| congruence]. unfold method_default. destruct (trackpoint h), (negb (wheel h) && negb (hwheel h) && btn h BTN_MIDDLE)%bool; reflexivity.
    - apply no_btnscroll_spec in Hh. rewrite Hh. destruct (button_default_ok h) as [E | E]; rewrite E; [reflexivity |].
      rewrite andb_false_r. reflexivity.
    - apply no_btnscroll_spec in Hh. rewrite Hh. reflexivity.
    - rewrite Hh. reflexivity.
    - rewrite Hh. reflexivity. }
  split; [exact S |].
  assert (D : o = ScrollLock \/ o <> ScrollLock) by (destruct o; (left; reflexivity) || (right; discriminate)).
  destruct D as [-> | D].
  - subst d. specialize (Hk eq_refl). cbn [has] in Hh. apply no_btnscroll_spec in Hh. cbn [set get_default get] in *. rewrite Hh in *. cbn [is01 Z.eqb orb negb fst snd].
    unfold change_scroll. cbn [c_wmethod c_method c_wbutton c_button c_wlock c_lock b_scroll set_c_wlock].
    rewrite Hk. pose proof (ok_lock h _ C) as L.
    destruct ((c_wmethod (run h l) =? c_method (run h l)) && (c_wbutton (run h l) =? c_button (run h l)) && Bool.eqb false (c_lock (run h l)))%bool eqn:E.
    + cbn [set_c_wlock c_lockst]. rewrite L. bb. apply eqb_prop in H0. rewrite <- H0. reflexivity.
    + reflexivity.
  - assert (V : o = Rotation -> 0 <= d) by (intros ->; subst d; cbn; lia).
    pose proof (set_shown h o d (run h l) V C D S) as W. revert W. subst d.
    destruct o; cbn [shown]; try tauto; cbn [get_default]; try (intros [[_ W] | [W _]]; [exact W | congruence]).
    intros [[W _] | [_ W]]; [discriminate | exact W].
Qed.
Print Assumptions C23_restore.
Example restore_case : let l := [Set_ Click 2; Set_ Tap 1; Set_ ScrollMethod 0; Set_ Dwt 0] in
  get pad0 Click (run pad0 l) = 2 /\ fst (set pad0 Click 1 (run pad0 l)) = SUCCESS /\
  within (get_default pad0 Click (run pad0 l)) (clicks (offers pad0)).
Proof. repeat split. apply land_within; [discriminate | reflexivity]. Qed.

(** C23, what is in effect: once the buttons are up and the touchpad is idle,
    what the device does is what the getter says. *)
Theorem C23_effect : forall h l o, unsigned l -> idle (run h l) -> let c := run h (l ++ [Settle]) in
  in_effect h o c = get h o c.
Proof.
  intros h l o Hu (I1 & I2 & I3 & I4) c. subst c. rewrite run_snoc. pose proof (run_ok h l Hu) as C. set (c := run h l) in *. clearbody c.
  pose proof (ok_lock h c C) as K. cbn [step].
  assert (E1 : c_left (change_left c) = c_wleft c).
  { unfold change_left. rewrite I1. destruct (Bool.eqb (c_wleft c) (c_left c)) eqn:E; [apply eqb_prop in E; auto | reflexivity]. }
  destruct (change_left_wanted c) as [x Ex]. rewrite Ex in *. set (c1 := set_c_left c x) in *.
  assert (E2 : let r := change_scroll c1 in c_method r = c_wmethod c /\ c_button r = c_wbutton c /\ c_lock r = c_wlock c).
  { unfold change_scroll. change (b_scroll c1) with (b_scroll c). rewrite I2.
    destruct (_ && _)%bool eqn:E; [| cbn; auto]. cbn. bb. apply eqb_prop in H0. auto. }
  destruct (change_scroll_wanted c1 K) as (a & b & k & Ec). rewrite Ec in *. set (c2 := set_c_lockst (set_c_lock (set_c_button (set_c_method c1 a) b) k) k) in *.
  assert (E3 : c_mid (apply_mid c2) = c_wmid c).
  { unfold apply_mid. change (b_mid c2) with (b_mid c). rewrite I3. destruct (Bool.eqb (c_wmid c2) (c_mid c2)) eqn:E; [apply eqb_prop in E; auto | reflexivity]. }
  destruct (apply_mid_wanted c2) as [y Ey]. rewrite Ey in *. set (c3 := set_c_mid c2 y) in *.
  assert (E4 : c_map (update_map c3) = c_wmap c).
  { unfold update_map. change (b_tap c3) with (b_tap c). rewrite I4. destruct (negb (c_map c3 =? c_wmap c3)) eqn:E; [reflexivity |]. bb. exact E. }
  destruct (update_map_wanted c3) as [z Ez]. rewrite Ez in *.
  cbn in E1, E2, E3, E4. destruct E2 as (E2 & E2' & E2''). subst x a b y z.
  destruct o; cbn [in_effect get]; try reflexivity; rewrite ?no_btnscroll_eq; unfold hooks_tap, hooks_btnscroll;
    cbn [offers fingers left middle set_c_map set_c_mid c3 c2 c1 set_c_lockst set_c_lock set_c_button set_c_method set_c_left c_map c_wmap c_left c_wleft c_mid c_wmid c_method c_wmethod c_button c_wbutton c_lock c_lockst];
    try (destruct (hooks_left h); reflexivity); try (destruct (hooks_mid h); reflexivity).
  - destruct (kind_ h); try reflexivity. destruct (mouse h && (relx h || rely h))%bool; reflexivity.
  - destruct (match kind_ h with Fallback => (mouse h && (relx h || rely h))%bool | _ => false end); reflexivity.
  - destruct (match kind_ h with Fallback => (mouse h && (relx h || rely h))%bool | _ => false end); [| reflexivity]. destruct k; reflexivity.
Qed.
Print Assumptions C23_effect.
Example effect_case : let l := [Busy true true false false; Set_ LeftHanded 1; Set_ ScrollButton 273; Settle] in
  let l' := l ++ [Busy false false false false] in
  in_effect mouse0 LeftHanded (run mouse0 l) = 0 /\ get mouse0 LeftHanded (run mouse0 l) = 1 /\ idle (run mouse0 l') /\
  in_effect mouse0 LeftHanded (run mouse0 (l' ++ [Settle])) = 1 /\ in_effect mouse0 ScrollButton (run mouse0 (l' ++ [Settle])) = 273.
Proof. repeat split. Qed.

(** C23, the scroll button lock: once the buttons are up, the getter returns
    the value last set successfully. *)
Theorem C23_lock : forall h l, unsigned l -> on_button (offers h) -> b_scroll (run h l) = false ->
  last_set (offers h) ScrollLock 0 l (get h ScrollLock (run h (l ++ [Settle]))).
Proof.
  intros h l Hu Hb Hi.
  assert (W : forall l, unsigned l -> last_set (offers h) ScrollLock 0 l (b2z (c_wlock (run h l)))).
  { clear l Hu Hi. intros l. induction l as [| x l IH] using rev_ind; intros Hu; [constructor |].
    apply unsigned_snoc in Hu. destruct Hu as [Hu Hx]. specialize (IH Hu). pose proof (run_ok h l Hu) as C. pose proof (ok_lock h _ C) as K. rewrite run_snoc.
    assert (N : no_btnscroll h = false) by (apply no_btnscroll_spec; exact Hb).
    destruct x as [o v | b1 b2 b3 b4 |].
    - assert (D : o = ScrollLock \/ o <> ScrollLock) by (destruct o; (left; reflexivity) || (right; discriminate)).
      destruct D as [-> | D].
      + pose proof (set_status h ScrollLock v (run h l) ltac:(discriminate) C (fun _ _ => Hb)) as S.
        cbn [step]. destruct (fst (set h ScrollLock v (run h l))) eqn:E.
        * apply ls_set; [exact S |]. cbn [shown]. cbn [documented] in S. rewrite in01 in S.
          assert (V : v = 0 \/ v = 1) by (decompose [or and] S; tauto || congruence).
          cbn [set]. rewrite N. unfold is01. destruct V as [-> | ->]; cbn [Z.eqb orb negb snd];
            match goal with |- context [change_scroll ?x] => destruct (change_scroll_wanted x K) as (? & ? & ? & ->) end; reflexivity.
        * rewrite set_refused by congruence. eapply ls_refused; eauto. discriminate.
        * rewrite set_refused by congruence. eapply ls_refused; eauto. discriminate.
      + apply ls_other; [congruence |]. cbn [step].
        assert (Q : c_wlock (snd (set h o v (run h l))) = c_wlock (run h l)).
        { destruct o; cbn [set]; try (unfold sendevents_set; destruct (kind_ h));
            repeat match goal with
            | |- context [snd (match ?b with true => _ | false => _ end)] => destruct b; cbn [fst snd]
            | |- context [if v =? c_tpmethod ?c then _ else _] => destruct (v =? c_tpmethod c)
            end; try reflexivity; wanted; try reflexivity; congruence. }
        rewrite Q. exact IH.
    - apply ls_other; [congruence |]. exact IH.
    - apply ls_other; [congruence |]. cbn [step].
      destruct (change_left_wanted (run h l)) as [x ->]. destruct (change_scroll_wanted (set_c_left (run h l) x) K) as (a & b & k & ->). wanted. exact IH. }
  specialize (W l Hu). pose proof (ok_lock h _ (run_ok h l Hu)) as K.
  replace (get h ScrollLock (run h (l ++ [Settle]))) with (b2z (c_wlock (run h l))); [exact W |].
  rewrite run_snoc. set (c := run h l) in *. clearbody c. cbn [get step].
  apply no_btnscroll_spec in Hb. rewrite Hb.
  destruct (change_left_wanted c) as [x ->]. set (c1 := set_c_left c x).
  assert (E2 : c_lockst (change_scroll c1) = c_wlock c).
  { unfold change_scroll. change (b_scroll c1) with (b_scroll c). rewrite Hi.
    destruct (_ && _)%bool eqn:E; [| reflexivity]. cbn. bb. apply eqb_prop in H0. cbn in H0. rewrite H0. exact K. }
  destruct (apply_mid_wanted (change_scroll c1)) as [y ->]. destruct (update_map_wanted (set_c_mid (change_scroll c1) y)) as [z ->].
  change (c_lockst (set_c_map (set_c_mid (change_scroll c1) y) z)) with (c_lockst (change_scroll c1)). rewrite E2. destruct (c_wlock c); reflexivity.
Qed.
Print Assumptions C23_lock.
Example lock_case : on_button (offers mouse0) /\ get mouse0 ScrollLock (run mouse0 [Set_ ScrollLock 1; Settle]) = 1.
Proof. split; reflexivity. Qed.

(** C23.  A change never takes effect in the middle: while a button is down, a
    tool is near or fingers tap, whatever the caller sets, what is in effect stays. *)
Theorem C23_waits : forall h l o v, unsigned (l ++ [Set_ o v]) -> let c := run h l in let c' := run h (l ++ [Set_ o v]) in
  (b_left c = true -> in_effect h LeftHanded c' = in_effect h LeftHanded c) /\
  (b_mid c = true -> in_effect h MiddleEmulation c' = in_effect h MiddleEmulation c) /\
  (b_tap c = true -> in_effect h TapMap c' = in_effect h TapMap c) /\
  (hooks_btnscroll h = true -> b_scroll c = true -> forall s, In s [ScrollMethod; ScrollButton; ScrollLock] -> in_effect h s c' = in_effect h s c).
Proof.
  intros h l o v Hu c c'. subst c'. rewrite run_snoc. fold c. apply unsigned_snoc in Hu. destruct Hu as [Hu _].
  pose proof (run_ok h l Hu) as C. fold c in C. clearbody c. pose proof (ok_lock h c C) as K. cbn [step].
  assert (Q : (b_left c = true -> c_left (snd (set h o v c)) = c_left c) /\ (b_mid c = true -> c_mid (snd (set h o v c)) = c_mid c) /\
    (b_tap c = true -> c_map (snd (set h o v c)) = c_map c) /\
    (b_scroll c = true -> c_method (snd (set h o v c)) = c_method c /\ c_button (snd (set h o v c)) = c_button c /\ c_lock (snd (set h o v c)) = c_lock c)).
  { destruct o; cbn [set]; try (unfold sendevents_set; destruct (kind_ h));
      repeat match goal with
      | |- context [snd (match ?b with true => _ | false => _ end)] => destruct b; cbn [fst snd]
      | |- context [if v =? c_tpmethod ?c then _ else _] => destruct (v =? c_tpmethod c)
      end;
      (refine (conj _ (conj _ (conj _ _))); intros E; [| | | refine (conj _ (conj _ _))]); try reflexivity;
      unfold change_left, apply_mid, update_map, change_scroll;
      cbn [b_left b_mid b_tap b_scroll set_c_wleft set_c_wmid set_c_wmap set_c_wmethod set_c_wbutton set_c_wlock]; rewrite ?E;
      repeat match goal with |- context [match ?b with true => _ | false => _ end] => destruct b end; reflexivity. }
  destruct Q as (Q1 & Q2 & Q3 & Q4). refine (conj _ (conj _ (conj _ _))).
  - intros B. cbn [in_effect]. rewrite Q1 by exact B. reflexivity.
  - intros B. cbn [in_effect]. rewrite Q2 by exact B. reflexivity.
  - intros B. cbn [in_effect]. rewrite Q3 by exact B. reflexivity.
  - intros Hb B s Hs. destruct (Q4 B) as (R1 & R2 & R3).
    destruct Hs as [<- | [<- | [<- | []]]]; cbn [in_effect]; rewrite Hb, ?R1, ?R2, ?R3; reflexivity.
Qed.
Print Assumptions C23_waits.
Example waits_case : b_left (run mouse0 [Busy true true true false]) = true /\ hooks_btnscroll mouse0 = true /\
  in_effect mouse0 LeftHanded (run mouse0 [Busy true true true false; Set_ LeftHanded 1]) = 0.
Proof. repeat split. Qed.

(** What the devices offer: tapping with up to three fingers on touchpads
    only, two-finger scrolling where two touches can be told, edge scrolling
    on every touchpad and button scrolling on mice only. *)
Theorem C23_offers : forall h, 1 <= ntouches h -> let f := offers h in
  (fingers f <> 0 <-> kind_ h = Touchpad) /\ 0 <= fingers f <= 3 /\
  (Z.testbit (scrolls f) 0 = true <-> kind_ h = Touchpad /\ 2 <= ntouches h /\ dm4 h = false) /\
  (Z.testbit (scrolls f) 1 = true <-> kind_ h = Touchpad) /\
  (on_button f <-> kind_ h = Fallback /\ mouse h = true /\ (relx h = true \/ rely h = true)) /\
  (Z.testbit (clicks f) 0 = true <-> kind_ h = Touchpad /\ clickpad h = true) /\
  (Z.testbit (clicks f) 1 = true <-> kind_ h = Touchpad /\ ((clickpad h = true /\ has_mt h = true) \/ onebutton h = true)) /\
  (Z.testbit (modes f) 0 = true) /\ (Z.testbit (modes f) 1 = true <-> kind_ h = Touchpad /\ internal h = true).
Proof.
  intros h N. unfold on_button. cbn [offers fingers scrolls clicks modes].
  unfold get_finger_count, get_scroll_methods, get_click_methods, get_send_modes, hooks_tap, hooks_btnscroll, tap_count, tp_methods, click_methods, send_modes.
  destruct (kind_ h) eqn:Ek.
  1,3,4,5: destruct (mouse h) eqn:E1, (relx h) eqn:E2, (rely h) eqn:E3; cbn -[Z.le]; repeat split; try discriminate; try lia; try tauto; intuition discriminate.
  destruct (2 <=? ntouches h) eqn:E1, (dm4 h) eqn:E2, (clickpad h) eqn:E3, (has_mt h) eqn:E4, (onebutton h) eqn:E5, (internal h) eqn:E6; bb;
    cbn -[Z.le Z.min]; repeat split; try discriminate; try lia; try tauto; intuition (discriminate || lia).
Qed.
Print Assumptions C23_offers.

(** What is not as documented.  The scroll button lock: the getter does not
    return the value just set successfully while a button is down. *)
Theorem C23_lock_refuted : exists h l, fst (set h ScrollLock 1 (run h l)) = SUCCESS /\ get h ScrollLock (run h (l ++ [Set_ ScrollLock 1])) = 0.
Proof. exists mouse0, [Busy true true true false]. split; reflexivity. Qed.
Print Assumptions C23_lock_refuted.
(** "Disabling the scroll button lock on device that does not support button
    scrolling always succeeds": it fails. *)
Theorem C23_lock_disable_refuted : exists h, documented (offers h) ScrollLock 0 SUCCESS /\ forall l, fst (set h ScrollLock 0 (run h l)) = UNSUPPORTED.
Proof. exists pad0. split; [left; repeat split; discriminate | reflexivity]. Qed.
Print Assumptions C23_lock_disable_refuted.
(** The default click method of a touchpad that has buttons and a model quirk
    is one it does not support: once changed it cannot be restored. *)
Theorem C23_click_default_refuted : exists h, let d := get_default h Click (init h) in
  get h Click (init h) = d /\ fst (set h Click 0 (init h)) = SUCCESS /\
  get h Click (snd (set h Click 0 (init h))) <> d /\ forall l, fst (set h Click d (run h l)) = UNSUPPORTED.
Proof.
  exists {| kind_ := Touchpad; btn := fun c => (c =? 272) || (c =? 273); mouse := false; keyboard := false; wheel := false; hwheel := false;
  relx := false; rely := false; trackpoint := false; trackball := false; reversible := false;
  clickpad := false; has_mt := true; onebutton := false; click_quirk := true; apple := false; alps := false; dm4 := false;
  ntouches := 5; internal := true; external := false; below := false |}.
  cbv zeta. split; [reflexivity |]. split; [reflexivity |]. split; [discriminate | reflexivity].
Qed.
Print Assumptions C23_click_default_refuted.
