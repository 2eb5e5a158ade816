(** Which button: refinement to [view_run] *)
Require Import Coq.ZArith.ZArith Coq.Lists.List Coq.Bool.Bool Coq.micromega.Lia.
Require Verif.Tp_Model.
Require Import Verif.Tap_Model Verif.Tpb_Model Verif.Tpb_Spec Verif.Tpb_Proofs.
Import ListNotations.
Open Scope Z_scope.

(** ** Fingers without top buttons *)
Definition bot (r : region) : Prop := r = BOTTOM_R \/ r = BOTTOM_M \/ r = BOTTOM_L.
Definition plain_tb (b : tb) : Prop :=
  tmr b = None /\ ((bs b = B_NONE /\ cur b = None) \/ (bs b = B_AREA /\ cur b = Some MAIN) \/ (bs b = B_BOTTOM /\ exists r, cur b = Some r /\ bot r)).
Lemma upd_length : forall l i b, length (upd i b l) = length l.
Proof. induction l as [|x l IH]; intros i b; [reflexivity|]. destruct i; cbn; [reflexivity|]. rewrite IH. reflexivity. Qed.
Lemma nth_upd : forall l i j b, (i < length l)%nat -> nth j (upd i b l) tb0 = if Nat.eqb j i then b else nth j l tb0.
Proof.
  induction l as [|x l IH]; intros i j b H; [cbn in H; lia|]. destruct i, j; cbn; try reflexivity. apply IH. cbn in H. lia.
Qed.
Lemma map_upd : forall (B : Type) (g : tb -> B) l i b, g b = g (nth i l tb0) -> map g (upd i b l) = map g l.
Proof. intros B g. induction l as [|x l IH]; intros i b H; [reflexivity|]. destruct i; cbn in *; [rewrite H; reflexivity|]. rewrite (IH _ _ H). reflexivity. Qed.
Lemma release_other_same : forall t b, let b' := release_other t b in bs b' = bs b /\ cur b' = cur b /\ tmr b' = tmr b /\ ix b' = ix b /\ iy b' = iy b /\ it b' = it b.
Proof. intros t b. unfold release_other. destruct (bs b) eqn:E; try (cbn; repeat split; exact E || reflexivity). destruct (_ || _); cbn; repeat split; exact E || reflexivity. Qed.
(** What other fingers do not touch *)
Definition core (b : tb) : bstate * option region * option Z := (bs b, cur b, tmr b).
Lemma core_release : forall t l, map core (map (release_other t) l) = map core l.
Proof. intros t l. rewrite map_map. apply map_ext. intros b. destruct (release_other_same t b) as (A & B & C & _). unfold core. rewrite A, B, C. reflexivity. Qed.
Fixpoint updc {A : Type} (i : nat) (c : A) (l : list A) {struct l} : list A := match l, i with [], _ => [] | _ :: l, O => c :: l | x :: l, S i => x :: updc i c l end.
Lemma core_upd : forall l i b, map core (upd i b l) = updc i (core b) (map core l).
Proof. induction l as [|x l IH]; intros i b; [reflexivity|]. destruct i; cbn; [reflexivity|]. rewrite IH. reflexivity. Qed.
Lemma core_handle : forall l i e t, map core (handle_event l i e t) = updc i (core (fst (event1 (nth i l tb0) e t))) (map core l).
Proof. intros l i e t. unfold handle_event. destruct (event1 (nth i l tb0) e t) as [b o]. cbn [fst]. destruct o; rewrite ?core_release, core_upd; reflexivity. Qed.
Definition ev_core (c : bstate * option region * option Z) (e : bevent) (t : Z) : bstate * option region * option Z :=
  core (fst (event1 {| bs := fst (fst c); cur := snd (fst c); tmr := snd c; ix := 0; iy := 0; it := 0; has_moved := false |} e t)).
Lemma core_event1 : forall b e t, core (fst (event1 b e t)) = ev_core (core b) e t.
Proof.
  intros [s c m x y z h] e t. unfold ev_core, core, event1. cbn [bs cur tmr fst snd].
  destruct s, e as [[]| | | |]; cbn; try reflexivity; destruct (is_cur c _); reflexivity.
Qed.
Lemma nth_core : forall l i, nth i (map core l) (core tb0) = core (nth i l tb0).
Proof. intros. apply map_nth. Qed.
Lemma updc_same : forall (A : Type) (l : list A) i d, updc i (nth i l d) l = l.
Proof. intros A. induction l as [|x l IH]; intros i d; [reflexivity|]. destruct i; cbn; [reflexivity|]. rewrite IH. reflexivity. Qed.
Lemma updc_updc : forall (A : Type) (l : list A) i a b, updc i b (updc i a l) = updc i b l.
Proof. intros A. induction l as [|x l IH]; intros i a b; [reflexivity|]. destruct i; cbn; [reflexivity|]. rewrite IH. reflexivity. Qed.
Lemma nth_updc : forall (A : Type) (l : list A) i a d, (i < length l)%nat -> nth i (updc i a l) d = a.
Proof. intros A. induction l as [|x l IH]; intros i a d H; [cbn in H; lia|]. destruct i; cbn; [reflexivity|]. apply IH. cbn in H. lia. Qed.
Lemma updc_length : forall (A : Type) (l : list A) i a, length (updc i a l) = length l.
Proof. intros A. induction l as [|x l IH]; intros i a; [reflexivity|]. destruct i; cbn; [reflexivity|]. rewrite IH. reflexivity. Qed.
Lemma core_check : forall p l i x y, map core (check_movement p l i x y) = map core l.
Proof.
  intros p l i x y. unfold check_movement. destruct (bs (nth i l tb0)) eqn:E; try reflexivity. destruct (_ && _); [|reflexivity]. rewrite core_release, core_upd.
  replace (core (set_moved (nth i l tb0))) with (nth i (map core l) (core tb0)) by (rewrite nth_core; reflexivity). apply updc_same.
Qed.
(** One finger in one frame *)
Definition touch_core (a : areas) (qr qp : bool) (t : Z) (c : bstate * option region * option Z) (f : ft) : bstate * option region * option Z :=
  match f_state f with
  | Tp_Model.NONE | Tp_Model.HOVERING => c
  | st =>
    let c := match st with Tp_Model.END => ev_core c B_UP t | _ => if f_dirty f then ev_core c (In_ (region_at a (f_x f) (f_y f))) t else c end in
    let c := if qr then ev_core c B_RELEASE t else c in
    if qp then ev_core c B_PRESS t else c
  end.
Lemma core_touch : forall p a qr qp t l i f, (i < length l)%nat -> map core (touch_frame p a qr qp t l i f) = updc i (touch_core a qr qp t (core (nth i l tb0)) f) (map core l).
Proof.
  intros p a qr qp t l i f H. unfold touch_frame, touch_core.
  assert (Q : forall l' c, map core l' = updc i c (map core l) -> forall (q : bool) e, map core (if q then handle_event l' i e t else l') = updc i (if q then ev_core c e t else c) (map core l)).
  { intros l' c E q e. destruct q; [|exact E]. rewrite core_handle, core_event1, <- nth_core, E, nth_updc by (rewrite map_length; exact H). apply updc_updc. }
  assert (B : forall (l0 : list tb) e, map core l0 = map core l -> map core (handle_event l0 i e t) = updc i (ev_core (core (nth i l tb0)) e t) (map core l)).
  { intros l0 e E. rewrite core_handle, core_event1, <- nth_core, E, nth_core. reflexivity. }
  assert (N : map core l = updc i (core (nth i l tb0)) (map core l)) by (rewrite <- nth_core; symmetry; apply updc_same).
  assert (D : forall l0, map core l0 = map core l ->
    map core (if f_dirty f then let l := if in_bottom a (f_y f) then check_movement p l0 i (f_x f) (f_y f) else l0 in handle_event l i (In_ (region_at a (f_x f) (f_y f))) t else l0)
    = updc i (if f_dirty f then ev_core (core (nth i l tb0)) (In_ (region_at a (f_x f) (f_y f))) t else core (nth i l tb0)) (map core l)).
  { intros l0 E. destruct (f_dirty f); [|rewrite E; exact N]. cbv zeta. apply B. destruct (in_bottom a (f_y f)); [rewrite core_check|]; exact E. }
  destruct (f_state f); try exact N; apply Q; apply Q; try (apply D; reflexivity); try (apply B; reflexivity).
  apply D. rewrite core_upd. symmetry. exact N.
Qed.
Lemma touch_length : forall p a qr qp t l i f, length (touch_frame p a qr qp t l i f) = length l.
Proof.
  intros p a qr qp t l i f.
  assert (H : forall l e t, length (handle_event l i e t) = length l) by (intros; unfold handle_event; destruct (event1 _ _ _) as [b o]; destruct o; rewrite ?map_length, upd_length; reflexivity).
  assert (C : forall l x y, length (check_movement p l i x y) = length l) by (intros; unfold check_movement; destruct (bs _); try reflexivity; destruct (_ && _); rewrite ?map_length, ?upd_length; reflexivity).
  unfold touch_frame. destruct (f_state f); try reflexivity; destruct qr, qp; rewrite ?H; try reflexivity; destruct (f_dirty f); cbv zeta; rewrite ?H; try reflexivity; destruct (in_bottom a (f_y f)); rewrite ?C, ?upd_length; try reflexivity.
Qed.
Fixpoint touch_cores (a : areas) (qr qp : bool) (t : Z) (cs : list (bstate * option region * option Z)) (l : list ft) : list (bstate * option region * option Z) :=
  match cs, l with c :: cs, f :: l => touch_core a qr qp t c f :: touch_cores a qr qp t cs l | _, _ => cs end.
Lemma touches_core : forall p a qr qp t fs l i, (i + length fs <= length l)%nat ->
  map core (touches_frame p a qr qp t l i fs) = firstn i (map core l) ++ touch_cores a qr qp t (skipn i (map core l)) fs.
Proof.
  intros p a qr qp t. induction fs as [|f fs IH]; intros l i H; cbn [touches_frame].
  - destruct (skipn i (map core l)) eqn:E; cbn [touch_cores]; rewrite <- E, firstn_skipn; reflexivity.
  - cbn in H. rewrite IH by (rewrite touch_length; lia). rewrite core_touch by lia.
    assert (L : (i < length (map core l))%nat) by (rewrite map_length; lia). rewrite <- nth_core. revert L. generalize (map core l) as cs. generalize (core tb0) as d. clear.
    intros d cs. revert i. induction cs as [|c cs IH]; intros i L; [cbn in L; lia|]. destruct i.
    + cbn. reflexivity.
    + cbn in L. cbn [updc nth firstn skipn app]. rewrite <- IH by lia. reflexivity.
Qed.

(** ** With no top buttons, [cur] is [follow] *)
Definition okc (c : bstate * option region * option Z) : Prop :=
  c = (B_NONE, None, None) \/ c = (B_AREA, Some MAIN, None) \/ exists r, bot r /\ c = (B_BOTTOM, Some r, None).
Lemma region_no_top : forall a x y, t_bot a = INT_MIN -> INT_MIN < y -> region_at a x y = MAIN \/ bot (region_at a x y).
Proof.
  intros a x y T Y. unfold region_at, bot. destruct (in_bottom a y); [destruct (b_right a <? x); [auto|]; destruct (b_mid a <? x); auto|].
  unfold in_top. rewrite T. replace (y <=? INT_MIN) with false by (symmetry; apply Z.leb_gt; exact Y). left. reflexivity.
Qed.
Lemma touch_core_follow : forall a qr qp t c f, okc c -> t_bot a = INT_MIN -> INT_MIN < f_y f ->
  okc (touch_core a qr qp t c f) /\ snd (fst (touch_core a qr qp t c f)) = follow a (snd (fst c)) f.
Proof.
  intros a qr qp t c f O T Y. unfold touch_core, follow. pose proof (region_no_top a (f_x f) (f_y f) T Y) as R.
  assert (Q : forall c (b : bool) e, okc c -> e = B_RELEASE \/ e = B_PRESS -> okc (if b then ev_core c e t else c) /\ snd (fst (if b then ev_core c e t else c)) = snd (fst c)).
  { intros c0 b e O0 E. destruct b; [|auto]. assert (X : ev_core c0 e t = c0) by (destruct O0 as [-> |[-> |(r & _ & ->)]], E as [-> | ->]; reflexivity). rewrite X. auto. }
  assert (D : okc (if f_dirty f then ev_core c (In_ (region_at a (f_x f) (f_y f))) t else c) /\
    snd (fst (if f_dirty f then ev_core c (In_ (region_at a (f_x f) (f_y f))) t else c)) = if f_dirty f then match snd (fst c) with Some MAIN => Some MAIN | _ => Some (region_at a (f_x f) (f_y f)) end else snd (fst c)).
  { destruct (f_dirty f); [|auto]. remember (region_at a (f_x f) (f_y f)) as r eqn:ER. clear ER. destruct O as [-> |[-> |(r0 & B0 & ->)]].
    - destruct R as [-> |[-> |[-> | ->]]]; cbn; split; try reflexivity; unfold okc, bot; eauto 8.
    - destruct R as [-> |[-> |[-> | ->]]]; cbn; split; try reflexivity; unfold okc; auto.
    - destruct R as [-> |[-> |[-> | ->]]], B0 as [-> |[-> | ->]]; cbn; split; try reflexivity; unfold okc, bot; eauto 8. }
  assert (U : okc (ev_core c B_UP t) /\ snd (fst (ev_core c B_UP t)) = None) by (destruct O as [-> |[-> |(r0 & B0 & ->)]]; cbn; split; try reflexivity; left; reflexivity).
  assert (W : forall c0 x, okc c0 /\ snd (fst c0) = x -> okc (if qp then ev_core (if qr then ev_core c0 B_RELEASE t else c0) B_PRESS t else (if qr then ev_core c0 B_RELEASE t else c0)) /\
    snd (fst (if qp then ev_core (if qr then ev_core c0 B_RELEASE t else c0) B_PRESS t else (if qr then ev_core c0 B_RELEASE t else c0))) = x).
  { intros c0 x [W1 W2]. destruct (Q c0 qr B_RELEASE W1 (or_introl eq_refl)) as [Q1 Q2]. destruct (Q _ qp B_PRESS Q1 (or_intror eq_refl)) as [Q3 Q4]. split; [exact Q3|]. rewrite Q4, Q2. exact W2. }
  destruct (f_state f); cbv zeta; auto.
Qed.
Lemma touch_cores_follow : forall a qr qp t l cs, Forall okc cs -> t_bot a = INT_MIN -> Forall (fun f => INT_MIN < f_y f) l ->
  Forall okc (touch_cores a qr qp t cs l) /\ map (fun c => snd (fst c)) (touch_cores a qr qp t cs l) = follow_all a (map (fun c => snd (fst c)) cs) l.
Proof.
  intros a qr qp t l. induction l as [|f l IH]; intros cs O T Y; [destruct cs; cbn; auto|]. destruct cs as [|c cs]; [cbn; auto|]. inversion O; subst. inversion Y; subst.
  destruct (IH cs H2 T H4) as [A B]. destruct (touch_core_follow a qr qp t c f H1 T H3) as [C D]. cbn [touch_cores map follow_all]. rewrite B, D. split; [constructor; assumption|reflexivity].
Qed.
Lemma map_cur : forall l, map cur l = map (fun c => snd (fst c)) (map core l).
Proof. intros l. rewrite map_map. reflexivity. Qed.

(** ** The whole pad *)
Record sim (p : pad) (n : nat) (a : areas) (m : click_method) (em h : bool) (s : dev) (v : view) : Prop := {
  s_len : length (tbs s) = n; s_ar : ar s = a; s_cores : Forall okc (map core (tbs s)); s_cur : map cur (tbs s) = v_areas v;
  s_meth : method s = m; s_mid : mid s = em; s_wmid : want_mid s = em; s_lh : lh s = h; s_wlh : want_lh s = h; s_tp : trackpoint s = false; s_susp : susp s = false;
  s_phys : pl (phys s) = v_hw v; s_only : only_left (phys s); s_oldo : only_left (old s); s_act : active s = v_held v; s_top : active_top s = false;
  s_old : pl (old s) = true -> (v_held v = None <-> pending s = true); s_up : pl (old s) = false -> v_held v = None /\ pending s = false;
  s_kc : forall b, get_count (kc s) b = match v_held v with Some x => b2z (button_eqb b x) | None => 0 end;
  s_out : out s = map to_client (v_out v) }.
Lemma has_area_app : forall s r l, has_area s (r :: l) = somewhere (map cur (tbs s)) r || has_area s l.
Proof.
  intros s r l. unfold has_area, somewhere. induction (tbs s) as [|b bs IH]; [reflexivity|]. cbn [existsb map]. cbn [existsb] in IH. rewrite IH.
  generalize (is_cur (cur b) r) as u, (existsb (fun x => is_cur (cur b) x) l) as w, (existsb (fun c => is_cur c r) (map cur bs)) as x. intros u w x.
  match goal with |- context [existsb ?f bs] => generalize (existsb f bs) as z end. intros z. destruct u, w, x, z; reflexivity.
Qed.
Lemma has_area_nil : forall s, has_area s [] = false.
Proof. intros s. unfold has_area. induction (tbs s) as [|b bs IH]; [reflexivity|]. exact IH. Qed.
Lemma okc_no_top : forall s r, Forall okc (map core (tbs s)) -> r = TOP_L \/ r = TOP_M \/ r = TOP_R -> somewhere (map cur (tbs s)) r = false.
Proof.
  intros s r H R. unfold somewhere. rewrite map_cur. induction H as [|c cs O H IH]; [reflexivity|]. cbn [map existsb]. rewrite IH, orb_false_r.
  destruct O as [-> |[-> |(x & B & ->)]], R as [-> |[-> | ->]]; try reflexivity; destruct B as [-> |[-> | ->]]; reflexivity.
Qed.
Lemma area_button_choose : forall s m, Forall okc (map core (tbs s)) -> method s = m -> m <> M_FINGER ->
  match area_button s with
  | None => choose (mid s) (lh s) (map cur (tbs s)) = None
  | Some (b, top, want) => top = false /\ choose (mid s) (lh s) (map cur (tbs s)) = Some (if want then to_left_handed s b else b)
  end.
Proof.
  intros s m H M N. unfold area_button. rewrite !has_area_app, !has_area_nil, (okc_no_top s TOP_L H), (okc_no_top s TOP_M H), (okc_no_top s TOP_R H) by auto. rewrite M.
  replace (match m with M_FINGER => false | _ => true end) with true by (destruct m; [reflexivity|reflexivity|contradiction N; reflexivity]).
  rewrite !orb_false_r, andb_true_r. unfold choose, to_left_handed, swap. cbn [negb orb].
  destruct (somewhere (map cur (tbs s)) MAIN), (somewhere (map cur (tbs s)) BOTTOM_L), (somewhere (map cur (tbs s)) BOTTOM_M), (somewhere (map cur (tbs s)) BOTTOM_R), (mid s), (lh s); cbn; auto.
Qed.
Lemma only_left_split : forall b, only_left b -> b = {| pl := pl b; pr := false; pm := false |}.
Proof. intros [] [A B]. cbn in *. subst. reflexivity. Qed.
Lemma notify_press : forall s b, get_count (kc s) b = 0 -> notify_button s b true = with_out s (set_count (kc s) b 1) (ok s) [ToClient b true].
Proof. intros s b H. unfold notify_button. rewrite H. reflexivity. Qed.
Lemma notify_release : forall s b, get_count (kc s) b = 1 -> want_lh s = lh s -> notify_button s b false = with_out s (set_count (kc s) b 0) (ok s) [ToClient b false].
Proof. intros s b H W. unfold notify_button. rewrite H. cbn. unfold change_left_handed. cbn [with_out want_lh lh]. rewrite W, eqb_reflx. reflexivity. Qed.

Lemma notify_clickpad_plain : forall p s l b top v, trackpoint s = false -> (v = true -> method s <> M_FINGER) -> notify_clickpad p s l b top v = (notify_button s b v, true).
Proof. intros p s l b top v T M. unfold notify_clickpad. rewrite T. cbn [andb]. destruct (method s), v; try reflexivity. contradiction (M eq_refl). reflexivity. Qed.
Lemma sim_apply : forall p n a m em h s v, sim p n a m em h s v -> apply_middle p s = s.
Proof. intros p n a m em h s v S. destruct S. unfold apply_middle. destruct (kind p); try reflexivity. rewrite s_mid0, s_wmid0, eqb_reflx, orb_true_r. reflexivity. Qed.
Lemma sim_frame : forall p n a m em h s v l t, clicky p -> m <> M_FINGER -> t_bot a = INT_MIN -> length l = n -> Forall (fun f => INT_MIN < f_y f) l ->
  sim p n a m em h s v -> sim p n a m em h (fst (frame p s l t)) (view_step a em h v (BFrame l t)).
Proof.
  intros p n a m em h s v l t C M TB LN Y S. unfold frame. set (s1 := with_tbs s _).
  assert (X : sim p n a m em h s1 {| v_hw := v_hw v; v_held := v_held v; v_areas := follow_all a (v_areas v) l; v_out := v_out v |}).
  { destruct S. assert (TC : map core (tbs s1) = touch_cores a (qr s) (qp s) t (map core (tbs s)) l) by (unfold s1; cbn [with_tbs tbs]; rewrite touches_core by lia; rewrite s_ar0; reflexivity).
    destruct (touch_cores_follow a (qr s) (qp s) t l (map core (tbs s)) s_cores0 TB Y) as [F1 F2].
    constructor; try assumption; try reflexivity.
    - rewrite <- (map_length core), TC, <- s_len0, <- (map_length core (tbs s)). clear. revert l. induction (map core (tbs s)) as [|c cs IH]; intros l; [destruct l; reflexivity|]. destruct l; [reflexivity|]. cbn. rewrite IH. reflexivity.
    - rewrite TC. exact F1.
    - rewrite map_cur, TC, F2, <- map_cur, s_cur0. reflexivity. }
  rewrite (post_events_clicky p s1 l C). clearbody s1. clear S.
  assert (OK : sim p n a m em h (with_old (fst (post_clickpad p s1 l)) (phys (fst (post_clickpad p s1 l)))) (view_step a em h v (BFrame l t))).
  { destruct X. cbn [v_hw v_held v_areas v_out] in *. unfold post_clickpad. rewrite (only_left_eqb _ _ s_only0 s_oldo0), (only_left_any _ s_only0), s_phys0. cbn [view_step].
    pose proof (area_button_choose s1 m s_cores0 s_meth0 M) as AB. rewrite s_cur0, s_mid0, s_lh0 in AB.
    destruct (v_hw v) eqn:HW.
    - destruct (v_held v) as [b|] eqn:HE.
      + (* held: nothing *)
        assert (P : pending s1 = false /\ pl (old s1) = true).
        { destruct (pl (old s1)) eqn:O; [|destruct (s_up0 eq_refl) as [Q _]; discriminate Q]. split; [|reflexivity]. destruct (pending s1) eqn:PE; [|reflexivity]. destruct (s_old0 eq_refl) as [_ Q]. discriminate (Q eq_refl). }
        destruct P as [P1 P2]. rewrite P1, P2. cbn [negb andb Bool.eqb fst with_old phys]. constructor; cbn [with_old tbs ar method mid want_mid lh want_lh trackpoint susp phys old active active_top pending kc out v_hw v_held v_areas v_out]; auto; rewrite s_phys0; first [discriminate|intros _; split; intros Q0; congruence].
      + assert (G : negb (pending s1) && Bool.eqb true (pl (old s1)) = false).
        { destruct (pl (old s1)) eqn:O; [|rewrite andb_false_r; reflexivity]. destruct (s_old0 eq_refl) as [Q _]. rewrite (Q eq_refl). reflexivity. }
        rewrite G. destruct (area_button s1) as [[[b top] want]|].
        * destruct AB as [-> AB]. rewrite AB. set (c := if want then to_left_handed s1 b else b) in *. rewrite notify_clickpad_plain; [|exact s_tp0|intros _; cbn [with_active method]; rewrite s_meth0; exact M].
          rewrite notify_press by (cbn [with_active kc]; apply s_kc0). constructor; cbn; auto; try (rewrite s_phys0; first [discriminate|intros _; split; intros Q0; congruence]).
          -- intros x. rewrite get_set_count. destruct (button_eqb x c); [reflexivity|apply s_kc0].
          -- rewrite map_app, s_out0. reflexivity.
        * rewrite AB. constructor; cbn; auto; try (rewrite s_phys0; first [discriminate|intros _; split; intros Q0; congruence]).
          -- rewrite app_nil_r. exact s_out0.
    - destruct (v_held v) as [b|] eqn:HE.
      + assert (P : pl (old s1) = true) by (destruct (pl (old s1)) eqn:O; [reflexivity|destruct (s_up0 eq_refl) as [Q _]; discriminate Q]). rewrite P. cbn [Bool.eqb]. rewrite andb_false_r.
        rewrite s_act0, s_top0. rewrite notify_clickpad_plain; [|exact s_tp0|discriminate].
        rewrite notify_release; [|cbn [with_active kc]; rewrite s_kc0, button_eqb_refl; reflexivity|cbn; rewrite s_wlh0, s_lh0; reflexivity]. constructor; cbn; auto; try (rewrite s_phys0; first [discriminate|intros _; split; intros Q0; congruence]).
        * intros x. rewrite get_set_count, s_kc0. destruct (button_eqb x b); reflexivity.
        * rewrite map_app, s_out0. reflexivity.
      + destruct (negb (pending s1) && Bool.eqb false (pl (old s1))) eqn:G.
        * apply andb_true_iff in G. destruct G as [G1 G2]. constructor; cbn; auto; try (rewrite s_phys0; first [discriminate|intros _; split; intros Q0; congruence]).
          -- intros _. split; [reflexivity|]. destruct (pending s1); [discriminate|reflexivity].
        * rewrite s_act0. constructor; cbn; auto; try (rewrite s_phys0; first [discriminate|intros _; split; intros Q0; congruence]). }
  destruct (post_clickpad p s1 l) as [s2 q]. cbn [fst] in *. rewrite (sim_apply _ _ _ _ _ _ _ _ OK). exact OK.
Qed.
Lemma sim_step : forall p n a m em h s v i, clicky p -> m <> M_FINGER -> t_bot a = INT_MIN -> (kind p = OneButton -> one_button [i]) -> plain n [i] ->
  match i with BFrame l _ => Forall (fun f => INT_MIN < f_y f) l | _ => True end ->
  sim p n a m em h s v -> sim p n a m em h (bstep p s i) (view_step a em h v i).
Proof.
  intros p n a m em h s v i C M TB OB PL Y S. assert (CL : closed p s = false) by (unfold closed; rewrite (s_susp _ _ _ _ _ _ _ _ S); reflexivity).
  destruct i as [b d|l t|i t|l t|l t|l t|l t| | |m0|b|b|b d]; cbn [bstep plain] in *; try contradiction.
  - rewrite CL. assert (X : sim p n a m em h (with_phys s (set_bit (phys s) LEFT d) (qp s || d) (qr s || negb d)) (view_step a em h v (Button LEFT d))).
    { destruct S. constructor; auto. }
    unfold process_button. destruct b; [destruct (kind p); exact X| |]; destruct C as [C|C]; rewrite C; try exact S; destruct (OB C) as [E _]; discriminate E.
  - rewrite CL. apply sim_frame; auto. apply PL.
  - destruct (nth_error (tbs s) i) as [b|] eqn:E; [|exact S]. assert (Q : tmr b = None).
    { pose proof (s_cores _ _ _ _ _ _ _ _ S) as F. rewrite Forall_map in F. rewrite Forall_forall in F. specialize (F b (nth_error_In _ _ E)). unfold core in F. destruct F as [F|[F|(r & _ & F)]]; congruence. }
    rewrite Q. exact S.
Qed.
Lemma sim_run : forall p n a m em h l s v, clicky p -> m <> M_FINGER -> t_bot a = INT_MIN -> (kind p = OneButton -> one_button l) -> plain n l -> y_ok l ->
  sim p n a m em h s v -> sim p n a m em h (brun p s l) (view_run a em h v l).
Proof.
  intros p n a m em h l. induction l as [|i l IH]; intros s v C M TB OB PL Y S; [exact S|]. cbn [brun view_run fold_left]. apply IH; auto.
  - intros K. specialize (OB K). destruct i; try exact OB. apply OB.
  - destruct i; cbn in PL; try contradiction; try exact PL. apply PL.
  - destruct i; try exact Y. apply Y.
  - apply sim_step; auto.
    + intros K. specialize (OB K). destruct i; try exact I. split; [apply OB|exact I].
    + destruct i; cbn in PL |- *; try contradiction; try exact I. split; [apply PL|exact I].
    + destruct i; try exact I. apply Y.
Qed.

(** ** Clickfinger *)
Lemma within_near : forall p a b, within_distance p a b = true <-> near p a b.
Proof.
  intros p a b. unfold within_distance, near. set (x := Z.abs (f_x a - f_x b)). set (y := Z.abs (f_y a - f_y b)).
  destruct (40 * resx p <? x) eqn:A; cbn [orb]; [apply Z.ltb_lt in A; split; [discriminate|lia]|]. apply Z.ltb_ge in A.
  destruct (30 * resy p <? y) eqn:B; [apply Z.ltb_lt in B; split; [discriminate|lia]|]. apply Z.ltb_ge in B.
  destruct (y <=? 20 * resy p) eqn:C; [apply Z.leb_le in C; split; [auto|reflexivity]|]. apply Z.leb_gt in C.
  destruct (Z.quot (maxy p - miny p) (resy p) <? 50) eqn:D; [apply Z.ltb_lt in D; split; [auto|reflexivity]|]. apply Z.ltb_ge in D.
  set (th := maxy p - 20 * resy p). destruct (Z.ltb_spec th (f_y a)) as [E|E], (Z.ltb_spec th (f_y b)) as [F|F]; cbn [Bool.eqb]; split; intros H; try reflexivity; try discriminate H.
  - split; [exact A|]. split; [exact B|]. right. right. split; intros _; assumption.
  - destruct H as (_ & _ & [H|[H|[H _]]]); [lia|lia|]. specialize (H E). lia.
  - destruct H as (_ & _ & [H|[H|[_ H]]]); [lia|lia|]. specialize (H F). lia.
  - split; [exact A|]. split; [exact B|]. right. right. split; intros; lia.
Qed.
Lemma clickfinger_spec : forall p l, finger_button p l (clickfinger_button p l).
Proof.
  intros p l. unfold finger_button, clickfinger_button. destruct (filter counts_as_finger l) as [|a [|b [|c [|d r]]]]; try reflexivity.
  pose proof (within_near p a b) as W. destruct (within_distance p a b); split; intros H; try reflexivity; [contradiction H; apply W; reflexivity|apply W in H; discriminate H].
Qed.
Record fsim (s : dev) (v : fview) : Prop := {
  z_meth : method s = M_FINGER; z_tp : trackpoint s = false; z_susp : susp s = false; z_phys : pl (phys s) = w_hw v; z_only : only_left (phys s); z_oldo : only_left (old s);
  z_old : pl (old s) = w_prev v; z_act : active s = w_held v; z_pend : pending s = false; z_up : w_prev v = false -> w_held v = None;
  z_kc : forall b, get_count (kc s) b = match w_held v with Some x => b2z (button_eqb b x) | None => 0 end; z_out : out s = map to_client (w_out v) }.
Lemma fsim_same : forall s s' v, fsim s v -> method s' = method s -> trackpoint s' = trackpoint s -> susp s' = susp s -> phys s' = phys s -> old s' = old s -> active s' = active s ->
  pending s' = pending s -> kc s' = kc s -> out s' = out s -> fsim s' v.
Proof. intros s s' v S E1 E2 E3 E4 E5 E6 E7 E8 E9. destruct S. constructor; rewrite ?E1, ?E2, ?E3, ?E4, ?E5, ?E6, ?E7, ?E8, ?E9; assumption. Qed.
Lemma notify_release' : forall s b, get_count (kc s) b = 1 -> kc (notify_button s b false) = set_count (kc s) b 0 /\ out (notify_button s b false) = out s ++ [ToClient b false].
Proof.
  intros s b H. unfold notify_button. rewrite H. cbn [Z.leb Z.compare Z.sub Z.opp Z.add Z.pos_sub Z.eqb]. set (s0 := with_out _ _ _ _). pose proof (change_left_handed_same s0) as G. cbn zeta in G.
  destruct G as (_ & _ & _ & _ & _ & _ & _ & _ & _ & _ & _ & _ & _ & _ & _ & -> & _ & ->). split; reflexivity.
Qed.
Lemma fsim_frame : forall p s v l t, clicky p -> fsim s v -> exists v', fview_step p v (BFrame l t) v' /\ fsim (fst (frame p s l t)) v'.
Proof.
  intros p s v l t C S. unfold frame. set (s1 := with_tbs s _). assert (S1 : fsim s1 v) by (eapply fsim_same; [exact S|..]; reflexivity). clearbody s1. clear S.
  rewrite (post_events_clicky p s1 l C). cbn [fview_step].
  assert (G : exists v', (match w_hw v, w_prev v with
      | true, true => v' = v
      | true, false => exists r, finger_button p l r /\ v' = {| w_hw := true; w_prev := true; w_held := r; w_out := w_out v ++ match r with Some b => [(b, true)] | None => [] end |}
      | false, _ => v' = {| w_hw := false; w_prev := false; w_held := None; w_out := w_out v ++ match w_held v with Some b => [(b, false)] | None => [] end |} end) /\
      fsim (with_old (fst (post_clickpad p s1 l)) (phys (fst (post_clickpad p s1 l)))) v').
  { destruct S1. unfold post_clickpad. rewrite (only_left_eqb _ _ z_only0 z_oldo0), (only_left_any _ z_only0), z_phys0, z_old0, z_pend0. cbn [negb andb].
    destruct (w_hw v) eqn:HW, (w_prev v) eqn:PV; cbn [Bool.eqb].
    - exists v. split; [reflexivity|]. cbn [fst]. constructor; cbn [with_old method trackpoint susp phys old active pending kc out]; auto; congruence.
    - specialize (z_up0 eq_refl). assert (A : exists b top want, area_button s1 = Some (b, top, want)).
      { unfold area_button. rewrite z_meth0, andb_false_r. repeat match goal with |- context [if ?c then _ else _] => destruct c end; eauto. }
      destruct A as (b & top & want & ->). unfold notify_clickpad. cbn [with_active trackpoint susp method active_top pending]. rewrite z_tp0, z_meth0. cbn [andb].
      eexists. split; [exists (clickfinger_button p l); split; [apply clickfinger_spec|reflexivity]|]. destruct (clickfinger_button p l) as [c|].
      + cbn [fst]. rewrite notify_press by (cbn [with_active kc]; rewrite z_kc0, z_up0; reflexivity). constructor; cbn; auto; try congruence.
        * intros x. rewrite get_set_count. destruct (button_eqb x c); [reflexivity|]. rewrite z_kc0, z_up0. reflexivity.
        * rewrite map_app, z_out0. reflexivity.
      + cbn [fst]. constructor; cbn; auto; try congruence.
        * intros x. rewrite z_kc0, z_up0. reflexivity.
        * rewrite app_nil_r. exact z_out0.
    - eexists. split; [reflexivity|]. rewrite z_act0. destruct (w_held v) as [b|] eqn:HE.
      + rewrite notify_clickpad_plain; [|exact z_tp0|discriminate]. cbn [fst]. destruct (notify_release' (with_active s1 None false false) b) as [K1 K2]; [cbn [with_active kc]; rewrite z_kc0, button_eqb_refl; reflexivity|].
        pose proof (notify_same (with_active s1 None false false) b false) as N. cbn zeta in N. destruct N as (_ & _ & n1 & n2 & _ & _ & n3 & _ & n4 & n5 & _ & _ & _ & n6 & n7).
        constructor; cbn [with_old method trackpoint susp phys old active pending kc out w_hw w_prev w_held w_out]; rewrite ?n1, ?n2, ?n3, ?n4, ?n5, ?n6, ?n7, ?K1, ?K2; cbn [with_active method trackpoint susp phys old active pending kc out]; auto.
        * intros x. rewrite get_set_count, z_kc0. destruct (button_eqb x b); reflexivity.
        * rewrite map_app, z_out0. reflexivity.
      + cbn [fst]. constructor; cbn; auto. rewrite app_nil_r. exact z_out0.
    - eexists. split; [reflexivity|]. cbn [fst]. rewrite (z_up0 eq_refl) in *. constructor; cbn; auto. rewrite app_nil_r. exact z_out0. }
  destruct G as (v' & G1 & G2). exists v'. split; [exact G1|]. destruct (post_clickpad p s1 l) as [s2 q]. cbn [fst] in *.
  pose proof (apply_middle_same p (with_old s2 (phys s2))) as A. cbn zeta in A. destruct A as (_ & A1 & A2 & _ & _ & A3 & A4 & A5 & A6 & _ & _ & _ & A7 & A8 & A9 & A10 & A11).
  eapply fsim_same; [exact G2|..]; assumption.
Qed.
Lemma fsim_run : forall p l s v n, clicky p -> (kind p = OneButton -> one_button l) -> plain n l -> length (tbs s) = n -> fsim s v -> exists v', fview_run p v l v' /\ fsim (brun p s l) v'.
Proof.
  intros p l. induction l as [|i l IH]; intros s v n C OB PL LN S; [exists v; split; [reflexivity|exact S]|].
  assert (G : exists u, fview_step p v i u /\ fsim (bstep p s i) u).
  { assert (CL : closed p s = false) by (unfold closed; rewrite (z_susp _ _ S); reflexivity).
    destruct i as [b d|f t|i t|f t|f t|f t|f t| | |m0|b|b|b d]; cbn [bstep plain] in *; try contradiction; rewrite ?CL.
    - assert (X : b = LEFT \/ kind p = Clickpad) by (destruct C as [C|C]; [auto|left; apply (OB C)]). unfold process_button. destruct b.
      + exists {| w_hw := d; w_prev := w_prev v; w_held := w_held v; w_out := w_out v |}. split; [reflexivity|]. destruct S. destruct (kind p); constructor; auto.
      + destruct X as [X|X]; [discriminate X|]. rewrite X. exists v. split; [reflexivity|exact S].
      + destruct X as [X|X]; [discriminate X|]. rewrite X. exists v. split; [reflexivity|exact S].
    - apply fsim_frame; assumption.
    - exists v. split; [reflexivity|]. destruct (nth_error (tbs s) i) as [b|]; [|exact S]. destruct (tmr b) as [e|]; [|exact S]. destruct (e <=? t); [|exact S]. eapply fsim_same; [exact S|..]; reflexivity. }
  destruct G as (u & G1 & G2). destruct (IH (bstep p s i) u (length (tbs (bstep p s i))) C) as (v' & V1 & V2); auto.
  - intros K. specialize (OB K). destruct i; try exact OB. apply OB.
  - assert (L : length (tbs (bstep p s i)) = n).
    { assert (LF : forall fs l0 j t q r, length (touches_frame p (ar s) q r t l0 j fs) = length l0) by (induction fs as [|f fs IHf]; intros; [reflexivity|]; cbn [touches_frame]; rewrite IHf, touch_length; reflexivity).
      destruct i as [b d|f t|j t|f t|f t|f t|f t| | |m0|b|b|b d]; cbn [bstep plain] in *; try contradiction.
      - destruct (closed p s); [exact LN|]. unfold process_button. destruct (kind p), b; exact LN.
      - destruct (closed p s); [exact LN|]. unfold frame. set (s1 := with_tbs s _). assert (L1 : length (tbs s1) = n) by (unfold s1; cbn [with_tbs tbs]; rewrite LF; exact LN). clearbody s1.
        rewrite (post_events_clicky p s1 f C). pose proof (post_clickpad_same p s1 f) as P. cbn zeta in P. destruct P as (P & _). destruct (post_clickpad p s1 f) as [s2 q]. cbn [fst] in *.
        pose proof (apply_middle_same p (with_old s2 (phys s2))) as A. cbn zeta in A. destruct A as (A & _). rewrite A. cbn [with_old tbs]. rewrite P. exact L1.
      - destruct (nth_error (tbs s) j) as [b|]; [|exact LN]. destruct (tmr b) as [e|]; [|exact LN]. destruct (e <=? t); [|exact LN]. cbn [with_tbs tbs]. unfold handle_event. destruct (event1 _ _ _) as [b' o]. destruct o; rewrite ?map_length, !upd_length; exact LN. }
    rewrite L. destruct i; cbn in PL; try contradiction; try exact PL. apply PL.
  - exists v'. split; [exists u; split; assumption|exact V2].
Qed.
