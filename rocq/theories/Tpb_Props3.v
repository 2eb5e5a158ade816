(** * Touchpad buttons: clicks with any fingers down, also in the top buttons; pointer motion from the top buttons *)
Require Import Coq.ZArith.ZArith Coq.Lists.List Coq.Bool.Bool Coq.micromega.Lia.
Require Verif.Tp_Model.
Require Import Verif.Tap_Model Verif.Tpb_Model Verif.Tpb_Spec Verif.Tpb_Proofs Verif.Tpb_Proofs2 Verif.Tpb_Proofs3 Verif.Tpb_Proofs4 Verif.Tpb_Props2.
Import ListNotations.
Open Scope Z_scope.

(** ** The button of a click *)
(** With a finger in one of the top buttons the click is one of the trackpoint's buttons: middle for the middle button or for left and right together, whatever the middle button
    emulation setting and the handedness; a finger in a bottom area counts for the same side.  Otherwise as in [choose]. *)
Definition top_click (cs : list (option region)) : bool := somewhere cs TOP_L || somewhere cs TOP_M || somewhere cs TOP_R.
Definition click_of (emulate h : bool) (cs : list (option region)) : option (button * bool (* of the trackpoint *)) :=
  let l := somewhere cs BOTTOM_L || somewhere cs TOP_L in let m := somewhere cs BOTTOM_M || somewhere cs TOP_M in let r := somewhere cs BOTTOM_R || somewhere cs TOP_R in
  if top_click cs then Some (if (l && r) || m then MIDDLE else if r then RIGHT else LEFT, true)
  else option_map (fun b => (b, false)) (choose emulate h cs).
Definition sent_for (paired suspended : bool) (c : option (button * bool)) : list outev :=
  match c with
  | None => []
  | Some (b, top) => if paired then if top then [ToTrackpoint b true] else if suspended then [] else [ToClient b true] else [ToClient b true]
  end.
Definition nothing_held (s : dev) : Prop := phys s = no_bits /\ old s = no_bits /\ pending s = false /\ kc s = {| cl := 0; cr := 0; cm := 0 |}.
Lemma has_area_some : forall s r, has_area s r = existsb (fun x => somewhere (map cur (tbs s)) x) r.
Proof.
  intros s r. unfold has_area, somewhere. induction (tbs s) as [|b l IH]; [cbn; induction r; auto|]. cbn [existsb map]. rewrite IH. clear IH. induction r as [|x r IH]; [reflexivity|]. cbn [existsb]. rewrite <- IH.
  destruct (is_cur (cur b) x), (existsb (fun c => is_cur c x) (map cur l)), (existsb (is_cur (cur b)) r), (existsb _ r); reflexivity.
Qed.
Lemma area_click : forall s, method s <> M_FINGER ->
  match area_button s with
  | None => click_of (mid s) (lh s) (map cur (tbs s)) = None
  | Some (b, top, want) => click_of (mid s) (lh s) (map cur (tbs s)) = Some ((if want then to_left_handed s b else b), top)
  end.
Proof.
  intros s M. unfold area_button. rewrite !has_area_some. cbn [existsb]. unfold click_of, choose, top_click, to_left_handed. set (cs := map cur (tbs s)).
  replace (match method s with M_FINGER => false | _ => true end) with true by (destruct (method s); auto; contradiction).
  destruct (somewhere cs MAIN), (somewhere cs BOTTOM_L), (somewhere cs BOTTOM_M), (somewhere cs BOTTOM_R), (somewhere cs TOP_L), (somewhere cs TOP_M), (somewhere cs TOP_R), (mid s), (lh s); reflexivity.
Qed.
Lemma press_frame : forall p s l t, clicky p -> method s <> M_FINGER -> closed p s = false -> nothing_held s ->
  let s3 := with_tbs (with_phys s {| pl := true; pr := false; pm := false |} true (qr s)) (touches_frame p (ar s) (qr s) true t (tbs s) 0 l) in
  brun p s [Button LEFT true; BFrame l t] = apply_middle p (with_old (fst (post_clickpad p s3 l)) (phys (fst (post_clickpad p s3 l)))).
Proof.
  intros p s l t C M CL (P1 & P2 & P3 & P4). cbn [brun fold_left bstep]. rewrite CL.
  assert (PB : process_button p s LEFT true = with_phys s {| pl := true; pr := false; pm := false |} true (qr s)) by (unfold process_button; rewrite P1; destruct (kind p), (qp s), (qr s); reflexivity). rewrite PB.
  replace (closed p (with_phys s _ true (qr s))) with false by (symmetry; exact CL). unfold frame. cbn [tbs with_phys ar qr qp]. rewrite (post_events_clicky p _ l C). destruct (post_clickpad p _ l) as [s4 o] eqn:E. reflexivity.
Qed.
(** C31.  Whatever fingers are down, wherever they were put down: a click with no button held sends the button for the areas the fingers count for. *)
Theorem C31_click_any_fingers : forall p s l t, clicky p -> method s <> M_FINGER -> closed p s = false -> nothing_held s ->
  let s' := brun p s [Button LEFT true; BFrame l t] in
  out s' = out s ++ sent_for (trackpoint s) (susp s) (click_of (mid s) (lh s) (map cur (tbs s'))).
Proof.
  intros p s l t C M CL N. cbn zeta. rewrite (press_frame p s l t C M CL N). destruct N as (P1 & P2 & P3 & P4). set (s3 := with_tbs _ _).
  match goal with |- context[apply_middle p ?z] => pose proof (apply_middle_same p z) as A end. cbn zeta in A. destruct A as (A0 & A1 & A2 & _ & _ & A3 & A4 & A5 & _ & _ & _ & _ & A6 & A7 & A8 & A9 & A10). rewrite A10, A0.
  pose proof (area_click s3 M) as AC. unfold post_clickpad. replace (negb (pending s3) && bits_eqb (phys s3) (old s3)) with false by (unfold s3; cbn; rewrite P2, P3; reflexivity). replace (any_bit (phys s3)) with true by reflexivity.
  destruct (area_button s3) as [[[b top] want]|].
  - unfold notify_clickpad. cbn [with_active trackpoint susp method lh]. set (b' := if want then to_left_handed s3 b else b) in *.
    assert (K : forall b0 t0 p0, notify_button (with_active s3 b0 t0 p0) b' true = with_out (with_active s3 b0 t0 p0) (set_count (kc s3) b' 1) (ok s3) [ToClient b' true]).
    { intros. unfold notify_button. replace (get_count (kc (with_active s3 b0 t0 p0)) b') with 0 by (cbn; rewrite P4; destruct b'; reflexivity). reflexivity. }
    replace (method s3) with (method s) by reflexivity. replace (trackpoint s3) with (trackpoint s) by reflexivity. replace (susp s3) with (susp s) by reflexivity.
    change (mid s3) with (mid s) in AC. change (lh s3) with (lh s) in AC.
    destruct (trackpoint s); cbn [andb]; [destruct top|].
    + cbn [fst with_old with_out out tbs with_active]. rewrite AC. reflexivity.
    + destruct (susp s); cbn [andb].
      * cbn [fst with_old with_out out tbs with_active]. rewrite AC. cbn. rewrite app_nil_r. reflexivity.
      * destruct (method s) eqn:ME; try contradiction; rewrite K; cbn [fst with_old with_out out tbs with_active]; rewrite AC; reflexivity.
    + destruct (method s) eqn:ME; try contradiction; rewrite K; cbn [fst with_old with_out out tbs with_active]; rewrite AC; reflexivity.
  - cbn [fst with_old with_out out tbs with_active]. change (mid s3) with (mid s) in AC. change (lh s3) with (lh s) in AC. rewrite AC. cbn. rewrite app_nil_r. reflexivity.
Qed.
Print Assumptions C31_click_any_fingers.
Example click_any_example : let s := brun pad2 (binit pad2 2 M_AREAS) [BFrame [fing Tp_Model.BEGIN 3900 100; fing Tp_Model.BEGIN 100 100] 0] in
  clicky pad2 /\ method s <> M_FINGER /\ closed pad2 s = false /\ nothing_held s
  /\ click_of (mid s) (lh s) (map cur (tbs (brun pad2 s [Button LEFT true; BFrame [fing Tp_Model.UPDATE 3900 110; fing Tp_Model.UPDATE 100 110] 20]))) = Some (MIDDLE, true)
  /\ out (brun pad2 s [Button LEFT true; BFrame [fing Tp_Model.UPDATE 3900 110; fing Tp_Model.UPDATE 100 110] 20]) = [ToClient MIDDLE true].
Proof. split; [left; reflexivity|]. split; [discriminate|]. split; [reflexivity|]. split; [repeat split; reflexivity|]. split; vm_compute; reflexivity. Qed.

(** ** A finger that left the top buttons long ago *)
Record quiet (s0 s : dev) : Prop := { u_calm : calm s0 s; u_kc : kc s = kc s0; u_method : method s = method s0; u_lh : lh s = lh s0 }.
Lemma quiet_run : forall p s0 e F l s, clicky p -> only F e l -> quiet s0 s -> quiet s0 (brun p s l).
Proof.
  intros p s0 e F l s C O. revert s. induction O as [|f t l Ff O IH|t l L O IH]; intros s Q; [exact Q| |]; cbn [brun fold_left]; apply IH; destruct Q as [U1 U2 U3 U4].
  - constructor; [change (bstep p s (BFrame [f] t)) with (brun p s [BFrame [f] t]); apply (calm_run p s0 0 (fun _ => True)); auto; constructor; [exact I|constructor]| | |];
    destruct U1 as [Q1 Q2 Q3 Q4 Q5 Q6 Q7]; cbn [bstep]; (replace (closed p s) with false by (unfold closed; rewrite Q7; reflexivity)); unfold frame; set (s1 := with_tbs s _);
    (assert (E : post_button_events p s1 [f] = (s1, false)) by (rewrite (post_events_clicky p s1 [f] C); unfold post_clickpad; cbn [with_tbs s1 pending phys old]; rewrite Q6, Q3, Q4; reflexivity));
    rewrite E; cbn [fst]; pose proof (apply_middle_same p (with_old s1 (phys s1))) as A; cbn zeta in A; decompose [and] A; match goal with H : ?f (apply_middle _ _) = _ |- ?f _ = _ => rewrite H; assumption end.
  - cbn [bstep]. destruct (nth_error (tbs s) 0) as [x|]; [|constructor; assumption]. destruct (tmr x) as [z|]; [|constructor; assumption]. destruct (z <=? t); constructor; try assumption. destruct U1; constructor; assumption.
Qed.
(** C31.  A finger that left the top buttons more than 300 ms ago still clicks, as an ordinary finger: the left button, whatever the handedness. *)
Theorem C31_top_left_click : forall p s f t r w t1 w1 e1 g u w2 e3 l e4 x y, clicky p -> idle s -> method s <> M_FINGER -> nothing_held s ->
  down_in (ar s) r f -> is_top r -> only (stays_in (ar s) r) (t + 100000) w -> t + 100000 <= t1 -> only (stays_in (ar s) r) e1 w1 ->
  outside_top (ar s) g -> only (outside_top (ar s)) (u + 300000) w2 -> u + 300000 <= e3 -> only on_pad e4 l -> on_pad x ->
  let before := BFrame [f] t :: w ++ BTimer 0 t1 :: w1 ++ BFrame [g] u :: w2 ++ BTimer 0 e3 :: l in
  out (brun p s (before ++ [Button LEFT true; BFrame [x] y])) = out s ++ [ToClient LEFT true].
Proof.
  intros p s f t r w t1 w1 e1 g u w2 e3 l e4 x y C I M N D T W L1 W1 G W2 L3 L X before.
  assert (H : holds ignored (ar s) (brun p s before)).
  { unfold before. change (BFrame [f] t :: w ++ BTimer 0 t1 :: w1 ++ BFrame [g] u :: w2 ++ BTimer 0 e3 :: l) with ([BFrame [f] t] ++ w ++ [BTimer 0 t1] ++ w1 ++ [BFrame [g] u] ++ w2 ++ [BTimer 0 e3] ++ l). rewrite !brun_app.
    apply (ignored_stays p (ar s) e4 l _ L). apply (leaving_timeout p (ar s) r (u + 300000)); [exact L3|]. apply leaving_stays; [exact W2|]. apply kept_leave; [exact G|].
    apply (kept_stays p (ar s) r e1 w1 _ T W1). apply (waits_timeout p (ar s) r (t + 100000)); [exact L1|]. apply waits_stay; [exact T|exact W|]. apply begin_waits; assumption. }
  assert (Q : quiet s (brun p s before)).
  { destruct N as (N1 & N2 & N3 & N4). assert (Q0 : quiet s s) by (destruct I; constructor; auto; constructor; auto). unfold before.
    change (BFrame [f] t :: w ++ BTimer 0 t1 :: w1 ++ BFrame [g] u :: w2 ++ BTimer 0 e3 :: l) with ([BFrame [f] t] ++ w ++ [BTimer 0 t1] ++ w1 ++ [BFrame [g] u] ++ w2 ++ [BTimer 0 e3] ++ l). rewrite !brun_app.
    assert (F1 : forall f t s1, quiet s s1 -> quiet s (brun p s1 [BFrame [f] t])) by (intros; apply (quiet_run p s 0 (fun _ => True)); auto; constructor; [exact Logic.I|constructor]).
    assert (F2 : forall t s1, quiet s s1 -> quiet s (brun p s1 [BTimer 0 t])) by (intros v ?; apply (quiet_run p s (v + 1) (fun _ => True)); auto; constructor; [lia|constructor]).
    apply (quiet_run p s e4 on_pad); auto. apply F2. apply (quiet_run p s (u + 300000) (outside_top (ar s))); auto. apply F1. apply (quiet_run p s e1 (stays_in (ar s) r)); auto. apply F2. apply (quiet_run p s (t + 100000) (stays_in (ar s) r)); auto. }
  rewrite brun_app. set (s1 := brun p s before) in *. clearbody s1. destruct N as (N1 & N2 & N3 & N4). destruct Q as [[Q1 Q2 Q3 Q4 Q5 Q6 Q7] U1 U2 U3].
  assert (M1 : method s1 <> M_FINGER) by congruence. assert (CL : closed p s1 = false) by (unfold closed; rewrite Q7; reflexivity).
  assert (N' : nothing_held s1) by (repeat split; auto; congruence).
  rewrite (C31_click_any_fingers p s1 [x] y C M1 CL N'). rewrite Q2. f_equal. rewrite (press_frame p s1 [x] y C M1 CL N'). destruct H as (b & [O1 O2 O3 O4 O5 O6] & B1 & B2 & B3).
  match goal with |- context[apply_middle p ?z] => pose proof (apply_middle_same p z) as A end. cbn zeta in A. destruct A as (A0 & _). rewrite A0. clear A0. cbn [with_old tbs].
  set (s3 := with_tbs _ _).
  assert (PT : tbs (fst (post_clickpad p s3 [x])) = tbs s3).
  { unfold post_clickpad, notify_clickpad, notify_button, change_left_handed. repeat match goal with |- context[if ?c then _ else _] => destruct c | |- context[match area_button ?c with _ => _ end] => destruct (area_button c) as [[[? ?] ?]|] | |- context[match method ?c with _ => _ end] => destruct (method c) | |- context[match active ?c with _ => _ end] => destruct (active c) | |- context[match clickfinger_button ?a ?c with _ => _ end] => destruct (clickfinger_button a c) end; reflexivity. }
  rewrite PT. assert (T3 : exists c, tbs s3 = [c] /\ cur c = Some MAIN).
  { unfold s3. cbn [with_tbs tbs]. rewrite O1, O6. cbn [touches_frame]. unfold touch_frame. rewrite O3.
    assert (E : forall k, bs k = B_IGNORE -> (if f_dirty x then let l0 := if in_bottom (ar s) (f_y x) then check_movement p [k] 0 (f_x x) (f_y x) else [k] in handle_event l0 0 (In_ (region_at (ar s) (f_x x) (f_y x))) y else [k]) = [k]).
    { intros k K. destruct (f_dirty x); [|reflexivity]. unfold check_movement. cbn [nth]. rewrite K. destruct (in_bottom (ar s) (f_y x)); unfold handle_event, event1; cbn [nth]; rewrite K; cbn; reflexivity. }
    specialize (E b B1). cbv zeta in E. destruct X as [-> | ->]; cbv zeta; rewrite E; unfold handle_event, event1; cbn [nth]; rewrite B1; cbn; eexists; (split; [reflexivity|reflexivity]). }
  destruct T3 as (c & -> & CC). cbn [map]. rewrite CC. rewrite Q7. unfold click_of, choose, top_click, somewhere. cbn. rewrite !andb_false_r. destruct (trackpoint s1); reflexivity.
Qed.
Print Assumptions C31_top_left_click.
Example top_left_click_example : let s := binit pad2 1 M_AREAS in let l := [BFrame [fing Tp_Model.BEGIN 3900 100] 0; BTimer 0 100000; BFrame [fing Tp_Model.UPDATE 3900 1000] 200000; BTimer 0 500000] in
  idle s /\ nothing_held s /\ method s <> M_FINGER /\ down_in (ar s) TOP_R (fing Tp_Model.BEGIN 3900 100) /\ outside_top (ar s) (fing Tp_Model.UPDATE 3900 1000)
  /\ out (brun pad2 s (l ++ [Button LEFT true; BFrame [fing Tp_Model.UPDATE 3900 1000] 600000])) = [ToClient LEFT true].
Proof.
  cbn zeta. split; [apply init_idle|]. split; [repeat split; reflexivity|]. split; [discriminate|]. split; [repeat split|]. split; [split; [reflexivity|]; split; [reflexivity|]; intros [H|[H|H]]; discriminate H|]. vm_compute. reflexivity.
Qed.

(** ** Pointer motion *)
(** C31.  A finger put down in the top buttons moves the pointer when, and only when, it counts for the main area (C31_top_left_early, C31_top_left_late say when). *)
Theorem C31_top_moves_pointer : forall p s f t r l e, idle s -> down_in (ar s) r f -> is_top r -> only on_pad e l ->
  let s' := brun p s (BFrame [f] t :: l) in moves_pointer s' = true <-> area_of s' = Some MAIN.
Proof.
  intros p s f t r l e I D T O s'. set (inv := fun b : tb => (bs b = B_AREA /\ cur b = Some MAIN) \/ (match bs b with B_TOP_NEW | B_TOP | B_TOP_TO_IGNORE | B_IGNORE => True | _ => False end /\ has_moved b = false /\ cur b <> Some MAIN)).
  assert (H : holds inv (ar s) s').
  { unfold s'. cbn [brun fold_left]. change (fold_left (bstep p) l (bstep p s (BFrame [f] t))) with (brun p (bstep p s (BFrame [f] t)) l).
    assert (H0 : holds inv (ar s) (bstep p s (BFrame [f] t))).
    { destruct (idle_one s I) as (b & ON & B). eexists. split; [apply one_frame; exact ON|]. right. destruct (alone_begin p (ar s) t b f r B D T) as (E1 & E2 & E3). rewrite E1, E2. split; [exact Logic.I|]. split; [|destruct T as [-> | [-> | ->]]; discriminate].
      destruct D as (S & DD & R). unfold alone, touch_frame. rewrite S, DD. cbv zeta. cbn [nth upd]. unfold check_movement. cbn [nth bs]. rewrite B.
      replace (if in_bottom (ar s) (f_y f) then _ else _) with [{| bs := B_NONE; cur := cur b; tmr := tmr b; ix := f_x f; iy := f_y f; it := t; has_moved := false |}] by (destruct (in_bottom (ar s) (f_y f)); reflexivity).
      rewrite R. destruct T as [-> | [-> | ->]]; reflexivity. }
    revert O H0. apply only_keeps.
    - intros b g v G J. assert (NB : bs b <> B_BOTTOM) by (destruct J as [[J _]|[J _]]; destruct (bs b); congruence || contradiction). rewrite alone_step by auto. destruct (f_dirty g); [|exact J]. unfold event1.
      destruct J as [[J1 J2]|(J1 & J2 & J3)]; [rewrite J1; cbn; left; auto|]. unfold inv. destruct (bs b) eqn:B; try contradiction; cbn [fst]; destruct (region_at (ar s) (f_x g) (f_y g)); cbn;
        try destruct (is_cur (cur b) _); cbn; rewrite ?B; try (left; split; reflexivity); right; (split; [exact Logic.I|]); (split; [exact J2|]); (assumption || discriminate).
    - intros b v L J. destruct (tmr b) as [z|]; [|exact J]. destruct (z <=? v); [|exact J]. unfold handle_event, event1. cbn [nth bs].
      destruct J as [[J1 J2]|(J1 & J2 & J3)]; [rewrite J1; cbn; left; auto|]. unfold inv. destruct (bs b) eqn:B; try contradiction; cbn; right; (split; [exact Logic.I|]); (split; [exact J2|]); (assumption || discriminate). }
  destruct H as (b & ON & J). unfold moves_pointer, area_of. rewrite (o_tbs _ _ _ ON). unfold touch_active. destruct J as [[J1 J2]|(J1 & J2 & J3)]; [rewrite J1, J2; tauto|]. rewrite J2. destruct (bs b); try contradiction; split; intros X; (discriminate X || contradiction).
Qed.
Print Assumptions C31_top_moves_pointer.
Example top_moves_example : moves_pointer (brun pad2 (binit pad2 1 M_AREAS) [BFrame [fing Tp_Model.BEGIN 3900 100] 0; BTimer 0 100000; BFrame [fing Tp_Model.UPDATE 3900 1000] 200000]) = false
  /\ moves_pointer (brun pad2 (binit pad2 1 M_AREAS) [BFrame [fing Tp_Model.BEGIN 3900 100] 0; BFrame [fing Tp_Model.UPDATE 3900 1000] 20000]) = true
  /\ idle (binit pad2 1 M_AREAS) /\ down_in (ar (binit pad2 1 M_AREAS)) TOP_R (fing Tp_Model.BEGIN 3900 100).
Proof. split; [vm_compute; reflexivity|]. split; [vm_compute; reflexivity|]. split; [apply init_idle|repeat split]. Qed.
