(** * Touchpad buttons: physical buttons, areas in millimetres, pointer motion, top buttons, and what does not hold *)
Require Import Coq.ZArith.ZArith Coq.Lists.List Coq.Bool.Bool Coq.micromega.Lia.
Require Verif.Tp_Model.
Require Import Verif.Tap_Model Verif.Tpb_Model Verif.Tpb_Spec Verif.Tpb_Proofs Verif.Tpb_Proofs2 Verif.Tpb_Proofs3 Verif.Tpb_Proofs4.
Import ListNotations.
Open Scope Z_scope.

(** C31.  On a touchpad with physical buttons every frame reports exactly the buttons that changed; no assertion fails. *)
Theorem C31_physical_buttons : forall p n m h l, kind p = Physical -> never_suspended l ->
  let s := brun p (brun p (binit p n m) [SetLeft h]) l in
  ok s = true /\ out s = map to_client (p_out (pview_run h {| p_hw := no_bits; p_sent := no_bits; p_out := [] |} l)).
Proof.
  intros p n m h l P N s. assert (X : psim h s (pview_run h {| p_hw := no_bits; p_sent := no_bits; p_out := [] |} l)).
  { apply psim_run; [exact P|exact N|]. cbn [brun fold_left bstep]. rewrite P. destruct m, h; constructor; try reflexivity; intros []; reflexivity. }
  split; [apply (q_ok _ _ _ X)|apply (q_out _ _ _ X)].
Qed.
Print Assumptions C31_physical_buttons.

(** ** The areas in millimetres *)
(** C31.  The button areas: the bottom 10 mm or 15 % of the touchpad, whichever is less; its left 37.5 % are the left button, its right 37.5 % the right button;
    on touchpads with a visible marker the middle button is 10 mm wide; with middle button emulation there are two halves.  All up to one unit. *)
Theorem C31_bottom_areas : forall p n m em x y, 0 < resx p -> 0 < resy p -> minx p <= maxx p -> miny p <= maxy p -> INT_MIN < miny p -> maxy p <= INT_MAX -> maxx p <= INT_MAX ->
  kind p = Clickpad -> has_top p = false -> m = M_AREAS -> minx p <= x <= maxx p -> miny p <= y <= maxy p ->
  let a := ar (brun p (binit p n m) [SetMiddle em]) in let r := region_at a x y in
  let w := maxx p - minx p in let h := maxy p - miny p in
  let lim := Z.min (1000 * resy p) (15 * h) (* hundredths of a unit *) in
  (100 * (maxy p - y) <= lim - 100 -> r <> MAIN) /\ (100 * (maxy p - y) >= lim + 100 -> r = MAIN) /\ ~ is_top r /\
  (r <> MAIN ->
     (em = true -> r <> BOTTOM_M /\ (2 * (x - minx p) <= w - 2 -> r = BOTTOM_L) /\ (2 * (x - minx p) >= w + 2 -> r = BOTTOM_R)) /\
     (em = false -> marker p = false -> (1000 * (x - minx p) <= 375 * w - 1000 -> r = BOTTOM_L) /\ (375 * w + 1000 <= 1000 * (x - minx p) <= 625 * w - 1000 -> r = BOTTOM_M) /\ (625 * w + 1000 <= 1000 * (x - minx p) -> r = BOTTOM_R)) /\
     (em = false -> marker p = true -> (2 * (x - minx p) <= w - 10 * resx p - 2 -> r = BOTTOM_L) /\ (w - 10 * resx p + 2 <= 2 * (x - minx p) <= w + 10 * resx p - 2 -> r = BOTTOM_M) /\ (w + 10 * resx p + 2 <= 2 * (x - minx p) -> r = BOTTOM_R))).
Proof.
  intros p n m em x y RX RY WX WY IM MY MX K T M X Y. subst m. cbn zeta.
  set (w := maxx p - minx p). set (h := maxy p - miny p).
  set (a := ar (brun p (binit p n M_AREAS) [SetMiddle em])).
  assert (A : exists a0, a = init_softbuttons p a0 em /\ t_bot a0 = INT_MIN).
  { exists {| b_top := 0; b_right := 0; b_mid := 0; t_bot := INT_MIN; t_right := 0; t_left := 0 |}. split; [|reflexivity]. unfold a. unfold brun, fold_left, bstep. rewrite K. unfold apply_middle. rewrite K. unfold binit, init_top_softbuttons. rewrite T. destruct em; reflexivity. }
  destruct A as (a0 & A & TB). clearbody a. subst a.
  assert (TT : in_top (init_softbuttons p a0 em) y = false) by (unfold in_top, init_softbuttons; destruct em; cbn; rewrite TB; apply Z.leb_gt; lia).
  set (top := if 1000 * resy p <? 15 * h then maxy p - 10 * resy p else Z.quot (85 * h + 100 * miny p) 100).
  assert (BT : b_top (init_softbuttons p a0 em) = top) by (unfold init_softbuttons; destruct em; reflexivity).
  assert (TL : Z.min (1000 * resy p) (15 * h) - 100 < 100 * (maxy p - top) < Z.min (1000 * resy p) (15 * h) + 100).
  { unfold top. pose proof (quot_bounds (85 * h + 100 * miny p) 100 ltac:(lia)) as Q. destruct (Z.ltb_spec (1000 * resy p) (15 * h)) as [L|L]; [rewrite Z.min_l by lia; lia|rewrite Z.min_r by lia]. unfold h in *. lia. }
  clearbody top. unfold region_at. rewrite TT. unfold in_bottom. rewrite BT.
  pose proof (quot_bounds (w + 2 * minx p) 2 ltac:(lia)) as Q1. pose proof (quot_bounds (w + 2 * minx p - 10 * resx p) 2 ltac:(lia)) as Q2. pose proof (quot_bounds (w + 2 * minx p + 10 * resx p) 2 ltac:(lia)) as Q3.
  pose proof (quot_bounds (3 * w + 8 * minx p) 8 ltac:(lia)) as Q4. pose proof (quot_bounds (5 * w + 8 * minx p) 8 ltac:(lia)) as Q5.
  assert (NT : ~ is_top (if top <=? y then if b_right (init_softbuttons p a0 em) <? x then BOTTOM_R else if b_mid (init_softbuttons p a0 em) <? x then BOTTOM_M else BOTTOM_L else MAIN)).
  { intros Q. destruct (top <=? y); [destruct (_ <? x); [|destruct (_ <? x)]|]; destruct Q as [Q|[Q|Q]]; discriminate Q. }
  destruct (Z.leb_spec top y) as [L|L].
  - split; [intros _; destruct (_ <? x); [|destruct (_ <? x)]; discriminate|]. split; [intros H; exfalso; lia|]. split; [exact NT|]. intros _. unfold init_softbuttons. fold w h. split; [|split].
    + intros ->. cbn [b_right b_mid]. replace (INT_MAX <? x) with false by (symmetry; apply Z.ltb_ge; lia). destruct (Z.ltb_spec (Z.quot (w + 2 * minx p) 2) x); (split; [discriminate|]); split; intros; try reflexivity; exfalso; lia.
    + intros -> ->. cbn [b_right b_mid]. destruct (Z.ltb_spec (Z.quot (5 * w + 8 * minx p) 8) x); [|destruct (Z.ltb_spec (Z.quot (3 * w + 8 * minx p) 8) x)]; split; [|split| |split| |split]; intros; try reflexivity; exfalso; lia.
    + intros -> ->. cbn [b_right b_mid]. destruct (Z.ltb_spec (Z.quot (w + 2 * minx p + 10 * resx p) 2) x); [|destruct (Z.ltb_spec (Z.quot (w + 2 * minx p - 10 * resx p) 2) x)]; split; [|split| |split| |split]; intros; try reflexivity; exfalso; lia.
  - split; [intros H; exfalso; lia|]. split; [reflexivity|]. split; [exact NT|]. intros H. contradiction H. reflexivity.
Qed.
Print Assumptions C31_bottom_areas.
(** A touchpad of 100 mm by 70 mm, 40 units per mm *)
Definition pad1 : pad := {| minx := 0; maxx := 4000; resx := 40; miny := 0; maxy := 2800; resy := 40; marker := false; has_top := false; kind := Clickpad |}.
Example bottom_areas_example : map (fun xy => region_at (ar (brun pad1 (binit pad1 2 M_AREAS) [SetMiddle false])) (fst xy) (snd xy)) [(100, 2700); (2000, 2700); (3000, 2700); (3000, 2000)] = [BOTTOM_L; BOTTOM_M; BOTTOM_R; MAIN].
Proof. reflexivity. Qed.

(** C31.  Top buttons: the top 10 mm, 30 mm while the touchpad is suspended; left 40 %, middle 20 %, right 40 %. *)
Theorem C31_top_areas : forall p n m l t x y, 0 < resy p -> minx p <= maxx p -> has_top p = true -> kind p = Clickpad -> m = M_FINGER -> y < INT_MAX ->
  forall (suspended : bool), let s := brun p (binit p n m) (if suspended then [Suspend l t] else []) in
  let r := region_at (ar s) x y in let w := maxx p - minx p in
  (y - miny p > (if suspended then 30 else 10) * resy p -> r = MAIN) /\
  (y - miny p <= (if suspended then 30 else 10) * resy p ->
     (10 * (x - minx p) <= 4 * w - 10 -> r = TOP_L) /\ (4 * w + 10 <= 10 * (x - minx p) <= 6 * w - 10 -> r = TOP_M) /\ (6 * w + 10 <= 10 * (x - minx p) -> r = TOP_R)).
Proof.
  intros p n m l t x y RY WX T K M Y su s r w. subst m.
  assert (A : exists a0, ar s = init_top_softbuttons p a0 (if su then 3 else 1) /\ b_top a0 = INT_MAX).
  { unfold s. destruct su; cbn [brun fold_left].
    - cbn [bstep]. rewrite T. cbn [with_ar with_susp ar]. eexists. split; [reflexivity|]. unfold clear. match goal with |- b_top (ar (fst (frame p ?z l t))) = _ => rewrite (proj1 (frame_ar p z l t eq_refl)) end.
      unfold release_all_buttons, binit. cbn. unfold init_top_softbuttons. rewrite T. reflexivity.
    - eexists. split; [reflexivity|reflexivity]. }
  destruct A as (a0 & A & B). unfold r. rewrite A. unfold region_at, in_bottom, in_top, init_top_softbuttons. rewrite T. cbn [b_top b_right b_mid t_bot t_right t_left]. rewrite B. replace (INT_MAX <=? y) with false by (symmetry; apply Z.leb_gt; exact Y).
  fold w. pose proof (quot_bounds (3 * w + 5 * minx p) 5 ltac:(lia)) as Q1. pose proof (quot_bounds (2 * w + 5 * minx p) 5 ltac:(lia)) as Q2.
  destruct (Z.leb_spec y (10 * (if su then 3 else 1) * resy p + miny p)) as [L|L].
  - split; [intros H; exfalso; destruct su; lia|]. intros _. destruct (Z.ltb_spec (Z.quot (3 * w + 5 * minx p) 5) x); [split; [intros; exfalso; lia|split; [intros; exfalso; lia|reflexivity]]|].
    destruct (Z.leb_spec (Z.quot (2 * w + 5 * minx p) 5) x), (Z.leb_spec x (Z.quot (3 * w + 5 * minx p) 5)); cbn [andb]; split; [|split| |split| |split| |split]; intros; try reflexivity; exfalso; lia.
  - split; [reflexivity|]. intros H. exfalso. destruct su; lia.
Qed.
Print Assumptions C31_top_areas.

(** ** Which fingers move the pointer *)
(** C31.  A finger put down in the bottom area does not move the pointer until it leaves the area or is more than 5 mm from where it was put down; then it does. *)
Fixpoint strays (p : pad) (a : areas) (x0 y0 : Z) (l : list binput) : Prop :=
  match l with
  | [] => False
  | BFrame [f] _ :: l => (f_dirty f = true /\ (in_bottom a (f_y f) = false \/ beyond_5mm p x0 y0 (f_x f) (f_y f))) \/ strays p a x0 y0 l
  | _ :: l => strays p a x0 y0 l
  end.
Definition moves_pointer (s : dev) : bool := match tbs s with [b] => touch_active b | _ => false end.
Theorem C31_resting_finger : forall p s f t l e, idle s -> f_state f = Tp_Model.BEGIN -> f_dirty f = true -> in_bottom (ar s) (f_y f) = true -> only on_pad e l ->
  (moves_pointer (brun p s (BFrame [f] t :: l)) = true <-> strays p (ar s) (f_x f) (f_y f) l).
Proof.
  intros p s f t l e I S D IB O. destruct (idle_one s I) as (b & ON & B). cbn [brun fold_left]. pose proof (one_frame p (ar s) s b f t ON) as O1.
  assert (R : rests (f_x f) (f_y f) (alone p (ar s) t b f)).
  { unfold alone, touch_frame. rewrite S, D, IB. cbv zeta. cbn [nth upd]. unfold check_movement. cbn [nth bs]. rewrite B. destruct (proj2 (region_bottom (ar s) (f_x f) (f_y f)) IB) as (r & -> & [-> | [-> | ->]]); repeat split; reflexivity. }
  assert (H : holds (rests (f_x f) (f_y f)) (ar s) (bstep p s (BFrame [f] t))) by (eexists; split; [exact O1|exact R]).
  set (s1 := bstep p s (BFrame [f] t)) in *. clearbody s1. set (a := ar s) in *. clearbody a. clear R O1 ON I B s. revert s1 H. set (x0 := f_x f). set (y0 := f_y f).
  assert (RO : forall l s, only on_pad e l -> holds roams a s -> moves_pointer (brun p s l) = true).
  { intros l0 s OL H. assert (X : holds roams a (brun p s l0)).
    { revert OL H. apply only_keeps.
      - intros c g u G [B|[B M]]; [rewrite alone_step by (auto; congruence); destruct (f_dirty g); [|left; exact B]; unfold event1; rewrite B; left; exact B|].
        pose proof (alone_rests p a u c g G B) as A. cbn zeta in A. destruct (f_dirty g); [|rewrite A; right; auto]. destruct (in_bottom a (f_y g)); [|left; exact A]. right. rewrite M in A. cbn in A. tauto.
      - intros c u _ H. destruct (tmr c); [|exact H]. destruct (_ <=? u); [|exact H]. unfold handle_event, event1. cbn [nth bs]. destruct H as [B|[B M]]; rewrite B; cbn; [left; reflexivity|right; auto]. }
    destruct X as (c & OC & C). unfold moves_pointer. rewrite (o_tbs _ _ _ OC). unfold touch_active. destruct C as [C|[C M]]; rewrite C; [reflexivity|exact M]. }
  induction O as [|g u l G O IH|u l L O IH]; intros s (c & OC & C1 & C2 & C3 & C4).
  - cbn. unfold moves_pointer. rewrite (o_tbs _ _ _ OC). unfold touch_active. rewrite C1, C4. split; [discriminate|intros []].
  - cbn [brun fold_left strays]. pose proof (one_frame p a s c g u OC) as N. pose proof (alone_rests p a u c g G C1) as A. cbn zeta in A. destruct (f_dirty g) eqn:DG.
    + destruct (in_bottom a (f_y g)) eqn:BG.
      * destruct A as (A1 & A2 & A3 & A4). rewrite C4 in A4. cbn [orb] in A4. pose proof (far_beyond p c (f_x g) (f_y g)) as FB. rewrite C2, C3 in FB. destruct (far p c (f_x g) (f_y g)).
        -- split; [intros _; left; split; [reflexivity|right; apply FB; reflexivity]|]. intros _. apply RO; [exact O|]. eexists. split; [exact N|right; auto].
        -- rewrite IH; [|eexists; split; [exact N|]; repeat split; congruence]. split; [auto|]. intros [[_ [H|H]]|H]; [discriminate H| |exact H]. apply FB in H. discriminate H.
      * split; [intros _; left; auto|]. intros _. apply RO; [exact O|]. eexists. split; [exact N|left; exact A].
    + rewrite A in N. rewrite IH; [|eexists; split; [exact N|]; repeat split; assumption]. split; [auto|intros [[H _]|H]; [discriminate H|exact H]].
  - cbn [brun fold_left strays]. apply IH. eexists. split; [apply one_timer; exact OC|]. destruct (tmr c); [|repeat split; assumption]. destruct (_ <=? u); [|repeat split; assumption]. unfold handle_event, event1. cbn [nth bs]. rewrite C1. cbn. repeat split; assumption.
Qed.
Print Assumptions C31_resting_finger.
Lemma init_idle : forall p m, idle (binit p 1 m).
Proof. intros p m. constructor; destruct m; cbn; eauto; try (split; reflexivity). all: exists tb0; split; reflexivity. Qed.
Definition fing (st : Tp_Model.tstate) (x y : Z) : ft := {| f_state := st; f_dirty := true; f_x := x; f_y := y; f_thumb := false; f_palm := false |}.
Example resting_finger_example : moves_pointer (brun pad1 (binit pad1 1 M_AREAS) [BFrame [fing Tp_Model.BEGIN 100 2700] 0; BFrame [fing Tp_Model.UPDATE 200 2700] 10]) = false
  /\ moves_pointer (brun pad1 (binit pad1 1 M_AREAS) [BFrame [fing Tp_Model.BEGIN 100 2700] 0; BFrame [fing Tp_Model.UPDATE 200 2700] 10; BFrame [fing Tp_Model.UPDATE 301 2700] 20]) = true
  /\ only on_pad 50 [BFrame [fing Tp_Model.UPDATE 200 2700] 10; BFrame [fing Tp_Model.UPDATE 301 2700] 20].
Proof. split; [reflexivity|]. split; [reflexivity|]. repeat constructor. Qed.

(** C31.  With several fingers in the bottom area: one starts moving the pointer only if it is 5 mm from where it was put down itself, or another finger that was put down
    within 80 ms of it leaves the area or is 5 mm away; and it does start when another such finger leaves. *)
Theorem C31_resting_fingers : forall p s l t i f, length l = length (tbs s) -> nth_error l i = Some f -> f_state f = Tp_Model.UPDATE \/ f_state f = Tp_Model.MAYBE_END ->
  closed p s = false ->
  let s' := bstep p s (BFrame l t) in let b := nth i (tbs s) tb0 in let b' := nth i (tbs s') tb0 in
  bs b = B_BOTTOM -> bs b' = B_BOTTOM ->
  (touch_active b' = true -> touch_active b = true \/ (f_dirty f = true /\ beyond_5mm p (ix b) (iy b) (f_x f) (f_y f))
     \/ exists k g, nth_error l k = Some g /\ k <> i /\ bs (nth k (tbs s) tb0) = B_BOTTOM /\ f_dirty g = true
          /\ (in_bottom (ar s) (f_y g) = false \/ beyond_5mm p (ix (nth k (tbs s) tb0)) (iy (nth k (tbs s) tb0)) (f_x g) (f_y g))
          /\ Z.abs ((if match f_state g with Tp_Model.BEGIN => true | _ => false end then t else it (nth k (tbs s) tb0)) - it b) <= 80000) /\
  (touch_active b = true \/ (f_dirty f = true /\ beyond_5mm p (ix b) (iy b) (f_x f) (f_y f)) -> touch_active b' = true) /\
  (forall k g, nth_error l k = Some g -> k <> i -> bs (nth k (tbs s) tb0) = B_BOTTOM -> f_state g = Tp_Model.UPDATE -> f_dirty g = true -> in_bottom (ar s) (f_y g) = false ->
     Z.abs (it (nth k (tbs s) tb0) - it b) <= 80000 -> touch_active b' = true).
Proof.
  intros p s l t i f LE N ST CL s' b b' B B'. assert (E : b' = nth i (touches_frame p (ar s) (qr s) (qp s) t (tbs s) 0 l) tb0) by (unfold b', s'; cbn [bstep]; rewrite CL, frame_tbs; reflexivity).
  unfold touch_active. rewrite B, B'. rewrite E in *. destruct (frame_moves p (ar s) (qr s) (qp s) t (tbs s) l i f LE N ST B B') as (F1 & F2 & F3). fold b in F1, F2, F3. split; [|split].
  - intros H. apply F1 in H. destruct H as [H|[[H1 H2]|(k & g & G1 & G2 & (T1 & T2 & T3 & T4) & G4)]]; [left; exact H|right; left; split; [exact H1|apply far_beyond; exact H2]|right; right]. cbn [Nat.add] in *. exists k, g. split; [exact G1|]. split; [exact G2|]. split; [exact T1|]. split; [exact T3|]. split; [|exact G4]. destruct T4 as [T4|[T4 _]]; [left; exact T4|right; apply far_beyond; exact T4].
  - intros [H|[H1 H2]]; apply F2; [left; exact H|right; split; [exact H1|apply far_beyond; exact H2]].
  - exact F3.
Qed.
Print Assumptions C31_resting_fingers.
Example resting_fingers_example :
  map touch_active (tbs (brun pad1 (binit pad1 2 M_AREAS) [BFrame [fing Tp_Model.BEGIN 100 2700; fing Tp_Model.BEGIN 900 2700] 0; BFrame [fing Tp_Model.UPDATE 100 2300; fing Tp_Model.UPDATE 900 2690] 10])) = [true; true]
  /\ map touch_active (tbs (brun pad1 (binit pad1 2 M_AREAS) [BFrame [fing Tp_Model.BEGIN 100 2700; fing Tp_Model.NONE 900 2700] 0; BFrame [fing Tp_Model.UPDATE 100 2700; fing Tp_Model.BEGIN 900 2700] 90000; BFrame [fing Tp_Model.UPDATE 100 2300; fing Tp_Model.UPDATE 900 2690] 100000])) = [true; false].
Proof. split; reflexivity. Qed.

(** ** Top buttons *)
(** C31.  A finger that leaves the top buttons within 100 ms, without a click, counts as an ordinary finger for good. *)
Theorem C31_top_left_early : forall p s f t r w g u l e, idle s -> down_in (ar s) r f -> is_top r -> only (stays_in (ar s) r) (t + 100000) w -> outside_top (ar s) g -> only on_pad e l ->
  area_of (brun p s (BFrame [f] t :: w)) = Some r /\ area_of (brun p s (BFrame [f] t :: w ++ BFrame [g] u :: l)) = Some MAIN.
Proof.
  intros p s f t r w g u l e I D T W O L. cbn [brun fold_left]. pose proof (begin_waits p s f t r I D T) as H. pose proof (waits_stay p (ar s) r _ w _ T W H) as H1. change (fold_left (bstep p)) with (fun l s => brun p s l). cbn beta.
  split; [apply (area_holds _ _ _ _ H1); intros b B; apply B|]. rewrite brun_app. cbn [brun fold_left]. change (fold_left (bstep p)) with (fun l s => brun p s l). cbn beta.
  apply (area_holds _ _ _ _ (main_stays p (ar s) e l _ L (waits_leave p (ar s) r _ _ g u O H1))). intros b B. apply B.
Qed.
Print Assumptions C31_top_left_early.
(** C31.  After 100 ms in the top button the finger stays with that button for 300 ms after leaving it, and for good if it returns in time; after that it counts for no area. *)
Theorem C31_top_left_late : forall p s f t r w t1 w1 e1 g u w2 x y l e2 e3 e4, idle s -> down_in (ar s) r f -> is_top r -> only (stays_in (ar s) r) (t + 100000) w -> t + 100000 <= t1 -> only (stays_in (ar s) r) e1 w1 ->
  outside_top (ar s) g -> only (outside_top (ar s)) (u + 300000) w2 ->
  let before := BFrame [f] t :: w ++ BTimer 0 t1 :: w1 in let after := before ++ BFrame [g] u :: w2 in
  area_of (brun p s before) = Some r /\ area_of (brun p s after) = Some r /\
  (on_pad x -> f_dirty x = true -> region_at (ar s) (f_x x) (f_y x) = r -> only (stays_in (ar s) r) e2 l -> area_of (brun p s (after ++ BFrame [x] y :: l)) = Some r) /\
  (u + 300000 <= e3 -> only on_pad e4 l -> area_of (brun p s (after ++ BTimer 0 e3 :: l)) = None).
Proof.
  intros p s f t r w t1 w1 e1 g u w2 x y l e2 e3 e4 I D T W L1 W1 G W2 before after.
  assert (H1 : holds (kept r) (ar s) (brun p s before)).
  { unfold before. change (BFrame [f] t :: w ++ BTimer 0 t1 :: w1) with ([BFrame [f] t] ++ w ++ [BTimer 0 t1] ++ w1). rewrite !brun_app. apply (kept_stays p (ar s) r e1 w1 _ T W1). apply (waits_timeout p (ar s) r (t + 100000)); [exact L1|]. apply waits_stay; [exact T|exact W|]. apply begin_waits; assumption. }
  assert (H2 : holds (leaving r (u + 300000)) (ar s) (brun p s after)).
  { unfold after. change (BFrame [g] u :: w2) with ([BFrame [g] u] ++ w2). rewrite !brun_app. apply leaving_stays; [exact W2|]. apply kept_leave; assumption. }
  split; [apply (area_holds _ _ _ _ H1); intros b B; apply B|]. split; [apply (area_holds _ _ _ _ H2); intros b B; apply B|]. split.
  - intros X DX RX LX. change (BFrame [x] y :: l) with ([BFrame [x] y] ++ l). rewrite !brun_app. assert (H3 : holds (kept r) (ar s) (brun p (brun p s after) [BFrame [x] y])) by (apply (leaving_back p (ar s) r (u + 300000)); auto).
    apply (area_holds _ _ _ _ (kept_stays p (ar s) r e2 l _ T LX H3)). intros b B; apply B.
  - intros L3 LX. change (BTimer 0 e3 :: l) with ([BTimer 0 e3] ++ l). rewrite !brun_app. assert (H3 : holds ignored (ar s) (brun p (brun p s after) [BTimer 0 e3])) by (apply (leaving_timeout p (ar s) r (u + 300000)); auto).
    apply (area_holds _ _ _ _ (ignored_stays p (ar s) e4 l _ LX H3)). intros b B; apply B.
Qed.
Print Assumptions C31_top_left_late.
(** Frames without a click *)
Record calm (s0 s : dev) : Prop := { c_tp : trackpoint s = trackpoint s0; c_out : out s = out s0; c_phys : phys s = no_bits; c_old : old s = no_bits; c_active : active s = None; c_pend : pending s = false; c_susp : susp s = false }.
Lemma calm_run : forall p s0 e F l s, clicky p -> only F e l -> calm s0 s -> calm s0 (brun p s l).
Proof.
  intros p s0 e F l s C O. revert s. induction O as [|f t l Ff O IH|t l L O IH]; intros s Q; [exact Q| |]; cbn [brun fold_left]; apply IH; destruct Q as [Q1 Q2 Q3 Q4 Q5 Q6 Q7].
  - cbn [bstep]. replace (closed p s) with false by (unfold closed; rewrite Q7; reflexivity). unfold frame. set (s1 := with_tbs s _).
    assert (E : post_button_events p s1 [f] = (s1, false)) by (rewrite (post_events_clicky p s1 [f] C); unfold post_clickpad; cbn [with_tbs s1 pending phys old]; rewrite Q6, Q3, Q4; reflexivity).
    rewrite E. cbn [fst]. pose proof (apply_middle_same p (with_old s1 (phys s1))) as A. cbn zeta in A. destruct A as (_ & A1 & A2 & _ & _ & A3 & A4 & A5 & _ & _ & _ & _ & A6 & A7 & A8 & A9 & A10).
    constructor; rewrite ?A1, ?A2, ?A3, ?A4, ?A5, ?A6, ?A7, ?A10; assumption.
  - cbn [bstep]. destruct (nth_error (tbs s) 0) as [x|]; [|constructor; assumption]. destruct (tmr x) as [z|]; [|constructor; assumption]. destruct (z <=? t); constructor; assumption.
Qed.
(** C31.  A click with the finger in a top button goes to the paired trackpoint, whatever the handedness, and so does its release; nothing goes to the touchpad's own client events. *)
Theorem C31_top_click : forall p s f t r b w u v g, clicky p -> idle s -> trackpoint s = true -> down_in (ar s) r f -> top_button r = Some b -> only (stays_in (ar s) r) (t + 100000) w -> stays_in (ar s) r g ->
  out (brun p s (BFrame [f] t :: w ++ [Button LEFT true; BFrame [g] u])) = out s ++ [ToTrackpoint b true] /\
  out (brun p s (BFrame [f] t :: w ++ [Button LEFT true; BFrame [g] u; Button LEFT false; BFrame [g] v])) = out s ++ [ToTrackpoint b true; ToTrackpoint b false].
Proof.
  intros p s f t r b w u v g C I TP D TB W G.
  assert (T : is_top r) by (unfold is_top; destruct r; try discriminate TB; tauto).
  pose proof (waits_stay p (ar s) r _ w _ T W (begin_waits p s f t r I D T)) as H.
  assert (Q : calm s (brun p s (BFrame [f] t :: w))).
  { apply (calm_run p s (t + 100000) (fun _ => True) (BFrame [f] t :: w) s C); [constructor; [exact Logic.I|]; clear - W; induction W; constructor; auto|]. destruct I. constructor; auto. }
  change (brun p (bstep p s (BFrame [f] t)) w) with (brun p s (BFrame [f] t :: w)) in H.
  change (BFrame [f] t :: w ++ [Button LEFT true; BFrame [g] u]) with ((BFrame [f] t :: w) ++ [Button LEFT true; BFrame [g] u]). change (BFrame [f] t :: w ++ [Button LEFT true; BFrame [g] u; Button LEFT false; BFrame [g] v]) with ((BFrame [f] t :: w) ++ [Button LEFT true; BFrame [g] u] ++ [Button LEFT false; BFrame [g] v]). rewrite !brun_app.
  set (s1 := brun p s (BFrame [f] t :: w)) in *. clearbody s1. destruct H as (c & [O1 O2 O3 O4 O5 O6] & B1 & B2 & B3). destruct Q as [Q1 Q2 Q3 Q4 Q5 Q6 Q7].
  assert (P : let s2 := brun p s1 [Button LEFT true; BFrame [g] u] in out s2 = out s ++ [ToTrackpoint b true] /\ active s2 = Some b /\ active_top s2 = true /\ trackpoint s2 = true /\ phys s2 = {| pl := true; pr := false; pm := false |} /\ old s2 = phys s2 /\ susp s2 = false).
  { cbn [brun fold_left bstep]. assert (CL : closed p s1 = false) by (unfold closed; rewrite O4; reflexivity). rewrite CL.
    assert (PB : process_button p s1 LEFT true = with_phys s1 {| pl := true; pr := false; pm := false |} true false) by (unfold process_button; rewrite O2, O3, Q3; destruct (kind p); reflexivity). rewrite PB.
    replace (closed p (with_phys s1 _ true false)) with false by (symmetry; exact CL). unfold frame. set (s3 := with_tbs (with_phys s1 {| pl := true; pr := false; pm := false |} true false) _).
    assert (T3 : exists x, tbs s3 = [x] /\ cur x = Some r).
    { unfold s3. cbn [with_tbs tbs with_phys ar qr qp]. rewrite O1, O6. cbn [touches_frame]. destruct G as [GS GD]. unfold touch_frame.
      assert (E : forall st, (match st with Tp_Model.END => handle_event [c] 0 B_UP u | _ => if f_dirty g then let l := if in_bottom (ar s) (f_y g) then check_movement p [c] 0 (f_x g) (f_y g) else [c] in handle_event l 0 (In_ (region_at (ar s) (f_x g) (f_y g))) u else [c] end) = [c] \/ st = Tp_Model.END).
      { assert (X : (if f_dirty g then let l := if in_bottom (ar s) (f_y g) then check_movement p [c] 0 (f_x g) (f_y g) else [c] in handle_event l 0 (In_ (region_at (ar s) (f_x g) (f_y g))) u else [c]) = [c]).
        { destruct (f_dirty g); [|reflexivity]. rewrite (GD eq_refl). unfold check_movement. cbn [nth]. rewrite B1. destruct (in_bottom (ar s) (f_y g)); unfold handle_event, event1; cbn [nth]; rewrite B1; destruct T as [-> | [-> | ->]]; cbn; rewrite B2; reflexivity. }
        intros []; try (left; exact X). right; reflexivity. }
      destruct GS as [-> | ->]; cbv zeta; [destruct (E Tp_Model.UPDATE) as [X|X]|destruct (E Tp_Model.MAYBE_END) as [X|X]]; try discriminate X; cbv zeta in X; rewrite X; unfold handle_event, event1; cbn [nth]; rewrite B1; cbn [top_new_event fst upd];
        eexists; (split; [reflexivity|]); exact B2. }
    destruct T3 as (x & T3 & CX). rewrite (post_events_clicky p s3 [g] C).
    assert (AB : area_button s3 = Some (b, true, false)).
    { unfold area_button, has_area. rewrite T3. cbn [existsb]. rewrite CX. destruct r; try discriminate TB; injection TB as <-; cbn; rewrite !andb_false_r; reflexivity. }
    assert (PC : post_clickpad p s3 [g] = (with_out (with_active s3 (Some b) true false) (kc s3) (ok s3) [ToTrackpoint b true], true)).
    { unfold post_clickpad. replace (negb (pending s3) && bits_eqb (phys s3) (old s3)) with false by (unfold s3; cbn; rewrite Q4; cbn; rewrite andb_false_r; reflexivity). replace (any_bit (phys s3)) with true by reflexivity. rewrite AB. unfold notify_clickpad.
      cbn [with_active trackpoint]. replace (trackpoint s3) with true by (symmetry; exact (eq_trans Q1 TP)). reflexivity. }
    rewrite PC. cbn [fst]. match goal with |- context[apply_middle p ?z] => pose proof (apply_middle_same p z) as A end. cbn zeta in A. destruct A as (_ & A1 & A2 & _ & _ & A3 & A4 & A5 & _ & _ & _ & _ & A6 & A7 & A8 & A9 & A10).
    rewrite A1, A2, A3, A4, A6, A7, A10. cbn. rewrite Q2. repeat split; try assumption. exact (eq_trans Q1 TP). }
  destruct P as (P1 & P2 & P3 & P4 & P5 & P6 & P7). split; [exact P1|]. set (s2 := brun p s1 [Button LEFT true; BFrame [g] u]) in *. clearbody s2.
  change [ToTrackpoint b true; ToTrackpoint b false] with ([ToTrackpoint b true] ++ [ToTrackpoint b false]). rewrite app_assoc, <- P1.
  cbn [brun fold_left bstep]. assert (CL : closed p s2 = false) by (unfold closed; rewrite P7; reflexivity). rewrite CL.
  assert (PB : process_button p s2 LEFT false = with_phys s2 no_bits (qp s2 || false) (qr s2 || true)) by (unfold process_button; rewrite P5; destruct (kind p); reflexivity). rewrite PB.
  replace (closed p (with_phys s2 _ _ _)) with false by (symmetry; exact CL). unfold frame. set (s3 := with_tbs (with_phys s2 no_bits (qp s2 || false) (qr s2 || true)) _). rewrite (post_events_clicky p s3 [g] C).
  assert (PC : post_clickpad p s3 [g] = (with_out (with_active s3 None false false) (kc s3) (ok s3) [ToTrackpoint b false], true)).
  { unfold post_clickpad. replace (negb (pending s3) && bits_eqb (phys s3) (old s3)) with false by (unfold s3; cbn; rewrite P6, P5; cbn; rewrite andb_false_r; reflexivity). replace (any_bit (phys s3)) with false by reflexivity.
    replace (active s3) with (Some b) by (symmetry; exact P2). replace (active_top s3) with true by (symmetry; exact P3). unfold notify_clickpad. cbn [with_active trackpoint]. replace (trackpoint s3) with true by (symmetry; exact P4). reflexivity. }
  rewrite PC. cbn [fst]. match goal with |- context[apply_middle p ?z] => pose proof (apply_middle_same p z) as A end. cbn zeta in A. destruct A as (_ & _ & _ & _ & _ & _ & _ & _ & _ & _ & _ & _ & _ & _ & _ & _ & ->). reflexivity.
Qed.
Print Assumptions C31_top_click.
Definition pad2 : pad := {| minx := 0; maxx := 4000; resx := 40; miny := 0; maxy := 2800; resy := 40; marker := false; has_top := true; kind := Clickpad |}.
Example top_example : let s := brun pad2 (binit pad2 1 M_AREAS) [TrackpointAdded] in
  idle s /\ down_in (ar s) TOP_R (fing Tp_Model.BEGIN 3900 100) /\ stays_in (ar s) TOP_R (fing Tp_Model.UPDATE 3890 120) /\ outside_top (ar s) (fing Tp_Model.UPDATE 3890 1200)
  /\ only (stays_in (ar s) TOP_R) 100000 [BFrame [fing Tp_Model.UPDATE 3890 110] 10; BTimer 0 50]
  /\ out (brun pad2 s [BFrame [fing Tp_Model.BEGIN 3900 100] 0; Button LEFT true; BFrame [fing Tp_Model.UPDATE 3890 120] 20; Button LEFT false; BFrame [fing Tp_Model.UPDATE 3890 120] 30]) = [ToTrackpoint RIGHT true; ToTrackpoint RIGHT false].
Proof.
  cbn zeta. split; [constructor; cbn; auto; exists tb0; split; reflexivity|]. split; [repeat split|]. split; [split; [left; reflexivity|reflexivity]|].
  split; [split; [reflexivity|]; split; [reflexivity|]; intros [H|[H|H]]; discriminate H|]. split; [constructor; [split; [left; reflexivity|reflexivity]|]; constructor; [reflexivity|constructor]|]. vm_compute. reflexivity.
Qed.

(** ** What does not hold *)
(** Physical buttons: left-handed mode turned on while left and right are held, then both come up in one frame: after the left button's release the swap takes place (the test is on
    the hardware state, not on what was sent), so the right button's release is sent as another LEFT release and the assertion on the button count fails. *)
Definition pad3 : pad := {| minx := 0; maxx := 4000; resx := 40; miny := 0; maxy := 2800; resy := 40; marker := false; has_top := false; kind := Physical |}.
Theorem C31_left_handed_both_buttons_refuted : exists l, ok (brun pad3 (binit pad3 2 M_NONE) l) = false.
Proof. exists [Button LEFT true; Button RIGHT true; BFrame [] 0; SetLeft true; Button LEFT false; Button RIGHT false; BFrame [] 10]. vm_compute. reflexivity. Qed.
(** A clickpad with a paired trackpoint that is removed, or suspended with the context, while a click is held: the release is lost, and the next press after resuming, too. *)
Theorem C31_click_lost_on_suspend_refuted : exists l, out (brun pad1 (binit pad1 1 M_AREAS) l) = [ToClient LEFT true] /\ phys (brun pad1 (binit pad1 1 M_AREAS) l) = no_bits
  /\ out (brun pad1 (binit pad1 1 M_AREAS) (l ++ [Resume [] 60; BFrame [fing Tp_Model.BEGIN 2000 1000] 70; Button LEFT true; BFrame [fing Tp_Model.UPDATE 2000 1000] 80])) = [ToClient LEFT true].
Proof.
  exists [TrackpointAdded; BFrame [fing Tp_Model.BEGIN 2000 1000] 0; Button LEFT true; BFrame [fing Tp_Model.UPDATE 2000 1000] 10; Remove [fing Tp_Model.END 2000 1000] 50].
  split; [vm_compute; reflexivity|]. split; vm_compute; reflexivity.
Qed.
(** A clickpad with top buttons, suspended by configuration with a trackpoint paired: a press outside the top buttons is dropped; if the trackpoint goes away before the button comes
    up, the release is sent and the assertion on the button count fails. *)
Theorem C31_trackpoint_removed_while_suspended_refuted : exists l, ok (brun pad2 (binit pad2 1 M_AREAS) l) = false.
Proof. exists [TrackpointAdded; Suspend [] 0; BFrame [fing Tp_Model.BEGIN 2000 2000] 10; Button LEFT true; BFrame [fing Tp_Model.UPDATE 2000 2000] 20; TrackpointRemoved; Button LEFT false; BFrame [fing Tp_Model.UPDATE 2000 2000] 30]. vm_compute. reflexivity. Qed.
(** The same clickpad without a trackpoint sends ordinary clicks although it is suspended. *)
Theorem C31_suspended_is_silent_refuted : exists l l', l = Suspend [] 0 :: l' /\ ~ In (Resume [] 0) l' /\ out (brun pad2 (binit pad2 1 M_AREAS) l) = [ToClient LEFT true].
Proof. exists (Suspend [] 0 :: [BFrame [fing Tp_Model.BEGIN 2000 2000] 10; Button LEFT true; BFrame [fing Tp_Model.UPDATE 2000 2000] 20]). eexists. split; [reflexivity|]. split; [intros [H|[H|[H|[]]]]; discriminate H|]. vm_compute. reflexivity. Qed.

(** ** The theorems' hypotheses are met: a click with two fingers down, a tap in between, settings changed, a trackpoint, a suspend *)
Definition busy : list binput :=
  [TrackpointAdded; BFrame [fing Tp_Model.BEGIN 3900 2700; fing Tp_Model.NONE 0 0] 0; Button LEFT true; BFrame [fing Tp_Model.UPDATE 3900 2700; fing Tp_Model.NONE 0 0] 10; SetLeft true; SetMethod M_FINGER;
   BFrame [fing Tp_Model.UPDATE 3900 2700; fing Tp_Model.BEGIN 1000 1000] 20; Button LEFT false; BFrame [fing Tp_Model.UPDATE 3900 2700; fing Tp_Model.UPDATE 1000 1000] 30;
   TapEvent LEFT true; TapEvent LEFT false; Suspend [] 40; Resume [] 50; SetMethod M_AREAS].
Example presses_alternate_example : clicky pad1 /\ taps_ok busy /\ trackpoints_ok false busy /\ never_removed busy
  /\ out (brun pad1 (binit pad1 2 M_AREAS) busy) = [ToClient RIGHT true; ToClient RIGHT false; ToClient LEFT true; ToClient LEFT false].
Proof. split; [left; reflexivity|]. split; [intros []; vm_compute; auto|]. split; [vm_compute; auto|]. split; [vm_compute; auto|]. vm_compute. reflexivity. Qed.
Example areas_example : plain 2 [BFrame [fing Tp_Model.BEGIN 3900 2700; fing Tp_Model.BEGIN 100 2700] 0; Button LEFT true; BFrame [fing Tp_Model.UPDATE 3900 2700; fing Tp_Model.UPDATE 100 2700] 10]
  /\ out (brun pad1 (brun pad1 (binit pad1 2 M_AREAS) [SetMiddle true; SetLeft false]) [BFrame [fing Tp_Model.BEGIN 3900 2700; fing Tp_Model.BEGIN 100 2700] 0; Button LEFT true; BFrame [fing Tp_Model.UPDATE 3900 2700; fing Tp_Model.UPDATE 100 2700] 10]) = [ToClient MIDDLE true].
Proof. split; [vm_compute; auto|]. vm_compute. reflexivity. Qed.
Example fingers_example : out (brun pad1 (binit pad1 2 M_FINGER) [BFrame [fing Tp_Model.BEGIN 2900 1700; fing Tp_Model.BEGIN 2100 1700] 0; Button LEFT true; BFrame [fing Tp_Model.UPDATE 2900 1700; fing Tp_Model.UPDATE 2100 1700] 10; Button LEFT false; BFrame [] 20]) = [ToClient RIGHT true; ToClient RIGHT false].
Proof. vm_compute. reflexivity. Qed.
Example physical_example : out (brun pad3 (brun pad3 (binit pad3 2 M_NONE) [SetLeft true]) [Button LEFT true; Button MIDDLE true; BFrame [] 0; Button LEFT false; BFrame [] 10; Clear [] 20]) = [ToClient RIGHT true; ToClient MIDDLE true; ToClient RIGHT false; ToClient MIDDLE false].
Proof. vm_compute. reflexivity. Qed.
