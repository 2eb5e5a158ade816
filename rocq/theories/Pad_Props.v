(** * Tablet pads: C35 *)
Require Import Coq.ZArith.ZArith Coq.QArith.QArith Coq.Lists.List Coq.Bool.Bool Coq.micromega.Lia Coq.micromega.Lqa.
Require Import Verif.Pad_Model Verif.Pad_Spec Verif.Pad_Proofs Verif.Pad_Proofs2 Verif.Pad_Proofs3 Verif.Pad_Proofs4 Verif.Pad_Proofs5 Verif.Pad_Proofs6 Verif.Pad_Proofs7.
Import ListNotations.
Open Scope Z_scope.
Local Opaque codes.

Lemma start : forall d e0 p0, create d e0 = Some p0 -> pad_ok p0 /\ keys_ok (bmap p0) /\ (forall c, 1 <= c < 768 -> bits p0 c = snd (0, fun _ : Z => false) c) /\ mode p0 = fst (0, fun _ : Z => false) /\ (forall x, view (bmap p0) (prev p0) x = false) /\ same_frame p0 {| f_mode := 0; f_moved := fun _ => false; f_misc := false |}.
Proof.
  intros d e0 p0 C. destruct (create_ok d e0 p0 C) as [K KO]. apply create_groups in C. destruct C as (A & B & C & D & E & F & G & H & I0 & J & L & M). split; [exact K|]. split; [exact KO|]. split; [intros c _; rewrite F; reflexivity|]. split; [exact E|]. split; [intros x; unfold view; rewrite G; destruct x; auto; induction codes; auto|]. split; [unfold ax_ok; rewrite I0; cbn; rewrite !H; reflexivity|]. cbn. auto.
Qed.

(** ** Buttons *)
(** Presses and releases of each button and of each key alternate, a press first, whatever the device sends and however the pad is configured *)
Theorem C35_buttons_alternate : forall lg d e0 p0 l p o, create d e0 = Some p0 -> prun lg d p0 l = Some (p, o) -> paired (fun _ => false) (fun _ => false) o.
Proof.
  intros lg d e0 p0 l p o C R. destruct (start d e0 p0 C) as (K & KO & B & M & V & F). destruct (run_spec _ _ _ _ _ _ _ K B M R) as (_ & _ & _ & _ & _ & _ & P & _).
  eapply paired_m; [| |exact P]; intros n; symmetry; apply V.
Qed.
(** At the end of a frame, and after a suspend, the buttons and keys the client has seen pressed are those that are down on the device *)
Theorem C35_buttons_follow : forall lg d e0 p0 l i p o, create d e0 = Some p0 -> prun lg d p0 (l ++ [i]) = Some (p, o) -> (exists e t, i = Syn e t \/ i = Suspend e t) ->
  (forall n, button_down o n = true <-> exists c, 1 <= c < 768 /\ bmap p0 c = Button n /\ physical (l ++ [i]) c = true) /\
  (forall n, key_down o n = true <-> exists c, 1 <= c < 768 /\ bmap p0 c = Key n /\ physical (l ++ [i]) c = true).
Proof.
  intros lg d e0 p0 l i p o C R HI. destruct (start d e0 p0 C) as (K & KO & B & M & V & F). destruct (run_spec _ _ _ _ _ _ _ K B M R) as (_ & BM & _ & _ & PB & _ & _ & A).
  assert (PP : forall c, 1 <= c < 768 -> prev p c = physical (l ++ [i]) c).
  { intros c CC. fold (physical (l ++ [i])) in PB. rewrite <- (PB c CC). apply prun_app in R. destruct R as (q & o1 & o2 & R1 & R2 & _). cbn [prun] in R2. destruct (pstep lg d q i) as [[q2 r]|] eqn:S; [|discriminate]. injection R2 as <- <-. destruct (run_spec _ _ _ _ _ _ _ K B M R1) as (KQ & _). destruct (step_spec _ _ _ _ _ _ KQ S) as (_ & _ & _ & _ & _ & _ & _ & _ & X).
    destruct HI as (e & t & [-> | ->]); apply X. }
  destruct (k_map p0 K) as (MI & M0 & _).
  assert (W : forall x, x <> Unmapped -> (view (bmap p0) (prev p) x = true <-> exists c, 1 <= c < 768 /\ bmap p0 c = x /\ physical (l ++ [i]) c = true)).
  { intros x X. split.
    - intros H. unfold view in H. assert (E : existsb (fun c => prev p c && meqb (bmap p0 c) x) codes = true) by (destruct x; [congruence|exact H|exact H]). apply existsb_exists in E. destruct E as (c & C1 & C2). apply andb_true_iff in C2. destruct C2 as [C2 C3]. destruct (meqb_spec (bmap p0 c) x) as [E|]; [|discriminate]. apply in_codes in C1. assert (c <> 0) by (intros ->; congruence). exists c. rewrite <- PP by lia. split; [lia|auto].
    - intros (c & C1 & C2 & C3). rewrite (view_one (bmap p0) (prev p) c x MI); auto; [rewrite PP; auto|apply in_codes; lia]. }
  split; intros n; rewrite <- W by discriminate; rewrite <- A; [unfold button_down; rewrite <- down_m|unfold key_down; rewrite <- keydown_m]; rewrite V; reflexivity.
Qed.
(** Buttons are numbered from 0 in libwacom's order or, without libwacom, in the order of the kernel's codes *)
Definition kernel_order : list Z := [256; 257; 258; 259; 260; 261; 262; 263; 264; 265; 294; 295; 304; 305; 306; 307; 308; 309; 272; 273; 274; 275; 276; 277; 278].
Definition order (d : device) : list Z := match by_usbid d with Some cs => filter (fun c => negb (c =? 0)) cs | None => filter (has_key d) kernel_order end.
Theorem C35_button_numbers : forall d e0 p0, create d e0 = Some p0 -> NoDup (order d) -> (vendor_wacom d = true -> forall c, In c [576; 632; 579] -> ~ In c (order d)) ->
  nbuttons p0 = Z.of_nat (length (order d)) /\ nbuttons p0 <= 32 /\ forall c n, bmap p0 c = Button n <-> 0 <= n /\ nth_error (order d) (Z.to_nat n) = Some c.
Proof.
  intros d e0 p0 C ND V. apply create_groups in C. destruct C as (A & B & C & _). rewrite A, B in *. destruct (numbering d ND V) as [X Y]. split; [exact X|]. split; [exact C|exact Y].
Qed.
(** Whatever libwacom says, no two of the device's buttons have one number, and the numbers are below the number of buttons *)
Theorem C35_button_numbers_distinct : forall d e0 p0, create d e0 = Some p0 -> (forall c c' n, bmap p0 c = Button n -> bmap p0 c' = Button n -> c = c') /\ forall c n, bmap p0 c = Button n -> 0 <= n < nbuttons p0.
Proof. intros d e0 p0 C. destruct (create_ok d e0 p0 C) as [K _]. destruct (k_map p0 K) as ((A & _) & _ & _ & B). auto. Qed.

(** ** Events *)
(** Every event is of a button, ring or strip the pad has, names the mode group it belongs to, and its mode is one of the group's *)
Theorem C35_events : forall lg d e0 p0 l p o, create d e0 = Some p0 -> prun lg d p0 l = Some (p, o) -> Forall (event_ok d (nbuttons p0) (groups p0)) o.
Proof. intros lg d e0 p0 l p o C R. destruct (start d e0 p0 C) as (K & KO & _). apply (run_events _ _ _ _ _ _ K KO R). Qed.
(** Rings report [0, 360) degrees or -1, strips [0, 1] or -1 *)
Theorem C35_positions : forall lg d e0 p0 l p o, good_log lg -> good_axes d -> create d e0 = Some p0 -> Forall (values_ok d) l -> prun lg d p0 l = Some (p, o) -> Forall position_ok o.
Proof. intros lg d e0 p0 l p o L G C V R. destruct (start d e0 p0 C) as (K & KO & _). apply (run_events _ _ _ _ _ _ K KO R); assumption. Qed.
(** A frame reports exactly the rings and strips that moved, in order: -1 if the finger was lifted, else the position for the value *)
Theorem C35_axes_reported : forall lg d e0 p0 l p o e t p' o', good_log lg -> good_axes d -> create d e0 = Some p0 -> prun lg d p0 l = Some (p, o) -> pstep lg d p (Syn e t) = Some (p', o') -> values_ok d (Syn e t) ->
  Forall2 (fun a r => exists q, r = (is_ring a, axis_number a, Some q) /\ if f_misc (frame_of l) && (misc e =? 0) then (q == -1)%Q else position_of lg d (lh p) a (value e a) q)
    (filter (f_moved (frame_of l)) axes4) (reports o').
Proof.
  intros lg d e0 p0 l p o e t p' o' L G C R S V. destruct (start d e0 p0 C) as (K & KO & _ & _ & _ & F). destruct (run_frame _ _ _ _ _ _ _ K F R) as (F0 & F1 & F2 & F3). fold (frame_of l) in *. cbn [pstep] in S. destruct (flush_reports _ _ _ _ _ _ _ F0 S) as (X & _). rewrite X. clear X.
  induction axes4 as [|a as' IH]; [constructor|]. cbn [filter flat_map]. rewrite <- F1. destruct (changed p a); [|exact IH]. constructor; [|exact IH]. unfold report_of. rewrite F2. destruct (f_misc (frame_of l) && (misc e =? 0)); [exists (-1)%Q; split; [reflexivity|reflexivity]|].
  specialize (V a). unfold position_of. destruct (is_ring a) eqn:RI.
  - destruct (ring_value d (lh p) a (value e a) RI G V) as (q & k & Q1 & Q2 & Q3). exists q. rewrite Q1. split; [reflexivity|]. split; [exact Q2|]. exists k. exact Q3.
  - destruct (strip_value lg d (lh p) a (value e a) L G RI V) as (q & Q1 & Q2 & Q3 & Q4). exists q. rewrite Q1. split; [reflexivity|]. destruct (Z.eqb_spec (value e a) 0); auto.
Qed.
(** All events of a frame carry its time *)
Theorem C35_frame_time : forall lg d e0 p0 l p o e t p' o', create d e0 = Some p0 -> prun lg d p0 l = Some (p, o) -> pstep lg d p (Syn e t) = Some (p', o') -> Forall (fun x => time_of x = t) o'.
Proof.
  intros lg d e0 p0 l p o e t p' o' C R S. destruct (start d e0 p0 C) as (K & KO & B & M & _). destruct (run_spec _ _ _ _ _ _ _ K B M R) as (KP & BM & _). assert (KO' : keys_ok (bmap p)) by (rewrite BM; exact KO). destruct (step_events _ _ _ _ _ _ KP KO' S) as (_ & X & _). eapply Forall_impl; [|exact X]. cbn. intros. congruence.
Qed.

(** ** Modes *)
(** Mode groups: at least one, numbered from 0; get_mode_group finds each and no other *)
Theorem C35_groups : forall d e0 p0, create d e0 = Some p0 -> 1 <= num_mode_groups p0 /\
  (forall i, 0 <= i < num_mode_groups p0 -> exists g, get_mode_group p0 i = Some g /\ gix g = i /\ 0 <= cur g < num_modes g) /\ (forall i, num_mode_groups p0 <= i -> get_mode_group p0 i = None) /\
  (forall g, In g (groups p0) -> 0 <= gix g < num_mode_groups p0).
Proof.
  intros d e0 p0 C. destruct (create_ok d e0 p0 C) as [K _]. destruct (k_groups p0 K) as [ND FO]. rewrite Forall_forall in FO. assert (X : exists n, (0 < n)%nat /\ map gix (groups p0) = rev (map (fun k => 0 + Z.of_nat k) (seq 0 n))).
  { apply create_groups in C. destruct C as (_ & _ & _ & D & _). rewrite D. destruct (leds_from_libwacom d e0) as [gs|] eqn:LE; [|exists 1%nat; split; [lia|reflexivity]]. apply leds_spec in LE. destruct LE as (w & _ & A & B & _). eauto. }
  destruct X as (n & N & X). assert (L : length (groups p0) = n). { rewrite <- (map_length gix), X, rev_length, map_length, seq_length. reflexivity. } unfold num_mode_groups. rewrite L. split; [lia|]. split; [|split].
  - intros i I0. unfold get_mode_group, num_mode_groups. rewrite L. destruct (Z.leb_spec (Z.of_nat n) i); [lia|]. assert (Q : In i (map gix (groups p0))) by (rewrite X; apply in_index; lia). apply in_map_iff in Q. destruct Q as (g & G1 & G2). unfold get_group. destruct (find _ (groups p0)) as [y|] eqn:FI.
    + apply find_some in FI. destruct FI as [Y1 Y2]. apply Z.eqb_eq in Y2. exists y. split; [reflexivity|]. split; [exact Y2|]. apply FO, Y1.
    + apply (find_none _ _ FI) in G2. rewrite G1, Z.eqb_refl in G2. discriminate.
  - intros i I0. unfold get_mode_group, num_mode_groups. rewrite L. destruct (Z.leb_spec (Z.of_nat n) i); [reflexivity|lia].
  - intros g G. apply (in_map gix) in G. rewrite X in G. apply in_index in G. exact G.
Qed.
(** Each button belongs to exactly one group; a toggle button is a button of its group *)
Theorem C35_one_group : forall d e0 p0, consistent d -> create d e0 = Some p0 ->
  (forall n, 0 <= n < nbuttons p0 -> exists g, In g (groups p0) /\ has_button (nbuttons p0) g n = true /\ forall g', In g' (groups p0) -> has_button (nbuttons p0) g' n = true -> g' = g) /\
  (forall g n, In g (groups p0) -> 0 <= n -> is_toggle (nbuttons p0) g n = true -> has_button (nbuttons p0) g n = true).
Proof.
  intros d e0 p0 CO C. destruct (create_covers d e0 p0 CO C) as [CV _]. destruct (create_ok d e0 p0 C) as [K _]. destruct (k_groups p0 K) as [ND _]. apply create_groups in C. destruct C as (A & B & _ & D & _). destruct (leds_from_libwacom d e0) as [gs|] eqn:LE.
  - apply leds_spec in LE. destruct LE as (w & W & W0 & X & Y & M & BU & LD). rewrite <- D in *. split.
    + intros n N. destruct (CV n N) as (g & G & H). exists g. split; [exact G|]. split; [exact H|]. intros g' G' H'. unfold has_button in H, H'. destruct (nbuttons p0 <=? n); [discriminate|]. destruct (M g n G ltac:(lia)) as [M1 _]. destruct (M g' n G' ltac:(lia)) as [M2 _]. rewrite M1 in H. rewrite M2 in H'. apply owned_yes in H, H'. destruct H as (b & B1 & _ & B2 & _), H' as (b' & B1' & _ & B2' & _). apply (same_gix (groups p0)); auto. congruence.
    + intros g n G N T. unfold is_toggle, has_button in *. destruct (nbuttons p0 <=? n); [discriminate|]. destruct (M g n G N) as [M1 M2]. rewrite M2 in T. rewrite M1. apply owned_yes in T. destruct T as (b & T1 & T2 & T3 & _). unfold owned. destruct (Z.leb_spec 0 n); [|lia]. rewrite Z.sub_0_r, T1, T3, Z.eqb_refl. reflexivity.
  - rewrite D in *. split.
    + intros n N. destruct (CV n N) as (g & G & H). exists g. split; [exact G|]. split; [exact H|]. intros g' G' _. destruct G as [<-|[]], G' as [<-|[]]. reflexivity.
    + intros g n G N T. destruct G as [<-|[]]. unfold is_toggle in T. cbn [fallback_group tmask] in T. rewrite Z.bits_0 in T. destruct (nbuttons p0 <=? n); discriminate.
Qed.
(** With mode LEDs a button is of the group libwacom gives it or, if it gives none, of the group of a toggle button at the same side of the pad; the toggle buttons are libwacom's *)
Theorem C35_groups_as_described : forall d e0 p0 gs, create d e0 = Some p0 -> leds_from_libwacom d e0 = Some gs -> exists w, by_path d = Some w /\ groups p0 = gs /\ num_mode_groups p0 = Z.of_nat (length (w_leds w)) /\
  forall n b g, 0 <= n < nbuttons p0 -> nth_error (w_buttons w) (Z.to_nat n) = Some b -> In g gs ->
    (has_button (nbuttons p0) g n = true -> if w_group b =? -1 then exists k b', nth_error (w_buttons w) k = Some b' /\ k <> Z.to_nat n /\ w_switch b' = true /\ w_dir b' = w_dir b /\ gix g = w_group b' else gix g = w_group b) /\
    (w_group b <> -1 -> gix g = w_group b -> has_button (nbuttons p0) g n = true) /\
    (is_toggle (nbuttons p0) g n = true <-> has_button (nbuttons p0) g n = true /\ w_switch b = true).
Proof.
  intros d e0 p0 gs C LE. apply create_groups in C. destruct C as (A & B & _ & D & _). rewrite LE in D. apply leds_spec in LE. destruct LE as (w & W & W0 & X & Y & M & BU & LD). exists w. split; [exact W|]. split; [exact D|]. split; [unfold num_mode_groups; rewrite D, <- (map_length gix gs), X, rev_length, map_length, seq_length; reflexivity|].
  intros n b g N NB G. unfold has_button, is_toggle. destruct (Z.leb_spec (nbuttons p0) n); [lia|]. destruct (M g n G ltac:(lia)) as [M1 M2]. rewrite M1, M2. unfold owned. destruct (Z.leb_spec 0 n); [|lia]. rewrite Z.sub_0_r, NB. cbn [andb]. split; [|split].
  - intros E. apply andb_true_iff in E. destruct E as [E _]. apply Z.eqb_eq in E. unfold group_for in E. destruct (w_group b =? -1) eqn:WG; [|auto].
    assert (FB : forall bs j, 0 <= j -> find_button_group n j (w_dir b) bs <> -1 -> exists k b', nth_error bs k = Some b' /\ j + Z.of_nat k <> n /\ w_switch b' = true /\ w_dir b' = w_dir b /\ find_button_group n j (w_dir b) bs = w_group b').
    { induction bs as [|x bs IH]; intros j J H1; [cbn in H1; congruence|]. cbn [find_button_group] in *. destruct (negb (j =? n) && w_switch x && (w_dir x =? w_dir b)) eqn:T.
      - apply andb_true_iff in T. destruct T as [T T3]. apply andb_true_iff in T. destruct T as [T1 T2]. apply negb_true_iff, Z.eqb_neq in T1. apply Z.eqb_eq in T3. exists 0%nat, x. repeat (split; auto). lia.
      - destruct (IH (j + 1)) as (k & b' & K1 & K2 & K3 & K4 & K5); [lia|exact H1|]. exists (S k), b'. repeat (split; auto). lia. }
    assert (NM : find_button_group n 0 (w_dir b) (w_buttons w) <> -1). { rewrite E. apply (in_map gix) in G. rewrite X in G. apply in_index in G. lia. }
    destruct (FB (w_buttons w) 0 ltac:(lia) NM) as (k & b' & K1 & K2 & K3 & K4 & K5). exists k, b'. repeat (split; auto); [lia|congruence].
  - intros WG E. unfold group_for. destruct (Z.eqb_spec (w_group b) (-1)); [contradiction|]. rewrite E, Z.eqb_refl. reflexivity.
  - rewrite andb_true_r. apply andb_true_iff.
Qed.
(** The groups never change but for their mode *)
Theorem C35_groups_fixed : forall lg d e0 p0 l p o, create d e0 = Some p0 -> prun lg d p0 l = Some (p, o) -> map shape (groups p) = map shape (groups p0) /\ nbuttons p = nbuttons p0 /\ bmap p = bmap p0.
Proof. intros lg d e0 p0 l p o C R. destruct (start d e0 p0 C) as (K & KO & B & M & _). destruct (run_spec _ _ _ _ _ _ _ K B M R) as (_ & X1 & X2 & X3 & _). auto. Qed.
(** The events tell the modes: a press of a group's toggle button carries the group's new mode, every other event the mode the client knows already; the mode changes by nothing else *)
Theorem C35_modes_told : forall lg d e0 p0 l p o tog cm, create d e0 = Some p0 -> prun lg d p0 l = Some (p, o) -> (forall g, In g (groups p0) -> cm (gix g) = cur g /\ forall n, tog (gix g) n = is_toggle (nbuttons p0) g n) ->
  told tog cm o /\ forall g, In g (groups p) -> cur g = told_mode tog cm o (gix g).
Proof.
  intros lg d e0 p0 l p o tog cm C R H. destruct (start d e0 p0 C) as (K & KO & _). destruct (run_events _ _ _ _ _ _ K KO R) as (_ & X & _). destruct (X tog cm) as [Y1 Y2]; [intros g G; apply H, G|intros g G; apply H, G|]. split; [exact Y1|]. intros g G. symmetry. apply Y2, G.
Qed.
(** The new mode is the group's first lit LED *)
Theorem C35_toggle_mode : forall lg d e0 p0 l p o e t p' o' n md g y m, create d e0 = Some p0 -> prun lg d p0 l = Some (p, o) -> pstep lg d p (Syn e t) = Some (p', o') -> In (PButton t n true md g) o' ->
  In y (groups p0) -> gix y = g -> is_toggle (nbuttons p0) y n = true -> get_mode e g (leds y) = Some m -> md = m /\ is_lit e g (leds y) md.
Proof.
  intros lg d e0 p0 l p o e t p' o' n md g y m C R S I0 Y1 Y2 Y3 Y4. destruct (start d e0 p0 C) as (K & KO & B & M & _). destruct (run_spec _ _ _ _ _ _ _ K B M R) as (KP & BM & NB & SH & _). assert (KO' : keys_ok (bmap p)) by (rewrite BM; exact KO).
  destruct (step_events _ _ _ _ _ _ KP KO' S) as (_ & _ & _ & _ & X). destruct (X _ _ _ _ I0) as (z & e1 & Z1 & Z2 & Z3 & Z4). injection Z3 as <-. apply (in_map shape) in Z1. rewrite SH in Z1. apply in_map_iff in Z1. destruct Z1 as (z0 & E & Z5). assert (EG : gix z0 = gix z) by (injection E; auto). assert (EL : leds z0 = leds z) by (injection E; auto).
  destruct (k_groups p0 K) as [ND _]. assert (z0 = y) by (apply (same_gix (groups p0)); auto; congruence). subst z0. assert (Q : md = m). { apply Z4; [rewrite NB, <- (toggle_shape _ y z n E); exact Y3|congruence]. } split; [exact Q|]. rewrite Q. apply get_mode_lit, Y4.
Qed.

(** ** No assert fails: the pad's data fit together and the kernel only sends axes it has announced *)
Theorem C35_no_crash : forall lg d e0 p0 l, consistent d -> create d e0 = Some p0 -> Forall (axes_ok d) l -> prun lg d p0 l <> None.
Proof.
  intros lg d e0 p0 l CO C AO. destruct (start d e0 p0 C) as (K & KO & B & M & V & F). destruct (run_safe lg d l p0 K) as [r E]; [|apply (create_covers d e0 p0 CO C)|exact AO|congruence]. destruct F as (_ & F1 & _). intros a X. rewrite F1 in X. discriminate.
Qed.

(** ** Configuration *)
(** A suspend, or disabling the pad, releases every button the client has seen pressed *)
Theorem C35_suspend_releases : forall lg d e0 p0 l e t p o, create d e0 = Some p0 -> prun lg d p0 (l ++ [Suspend e t]) = Some (p, o) -> forall n, button_down o n = false /\ key_down o n = false.
Proof.
  intros lg d e0 p0 l e t p o C R n. destruct (C35_buttons_follow lg d e0 p0 l (Suspend e t) p o C R) as [A B]; [exists e, t; auto|]. assert (Z0 : forall c, physical (l ++ [Suspend e t]) c = false) by (intros c; unfold physical; rewrite fold_left_app; reflexivity).
  split; apply not_true_is_false; intros H; [apply A in H|apply B in H]; destruct H as (c & _ & _ & H); rewrite Z0 in H; discriminate.
Qed.
(** The left-handed setting is what was set last; it takes effect, on rings and strips, only when no button is down *)
Theorem C35_left_handed : forall lg d e0 p0 l p o i p' o', create d e0 = Some p0 -> prun lg d p0 l = Some (p, o) -> pstep lg d p i = Some (p', o') ->
  get_left_handed p' = (match i with SetLeftHanded b => if reversible d then b else get_left_handed p | _ => get_left_handed p end) /\
  (lh p' <> lh p -> lh p' = get_left_handed p' /\ forall c, 1 <= c < 768 -> physical (l ++ [i]) c = false).
Proof.
  intros lg d e0 p0 l p o i p' o' C R S. destruct (start d e0 p0 C) as (K & KO & B & M & _). destruct (run_spec _ _ _ _ _ _ _ K B M R) as (KP & _). destruct (step_left _ _ _ _ _ _ KP S) as [X Y]. split; [exact X|]. intros N. destruct Y as [Y|[Y Z0]]; [contradiction|]. split; [exact Y|]. intros c CC.
  assert (R2 : prun lg d p0 (l ++ [i]) = Some (p', o ++ o')). { clear -R S. revert p0 o R. induction l as [|x l IH]; intros p0 o R; cbn [prun app] in *; [injection R as <- <-; rewrite S, app_nil_r; reflexivity|]. destruct (pstep lg d p0 x) as [[q r]|]; [|discriminate]. destruct (prun lg d q l) as [[q2 r2]|] eqn:E; [|discriminate]. injection R as <- <-. rewrite (IH _ _ E), app_assoc. reflexivity. }
  destruct (run_spec _ _ _ _ _ _ _ K B M R2) as (_ & _ & _ & _ & PB & _). unfold physical. rewrite <- (PB c CC). unfold any_down in Z0. destruct (bits p' c) eqn:BC; [|reflexivity]. exfalso. assert (existsb (bits p') codes = true) by (apply existsb_exists; exists c; split; [apply in_codes; lia|exact BC]). congruence.
Qed.
(** Modes of the send-events setting: enabled and disabled; others are refused and change nothing; what is set is kept *)
Theorem C23_pad_sendevents : forall lg d e0 p0 l p o m e t, create d e0 = Some p0 -> prun lg d p0 l = Some (p, o) ->
  match set_mode lg d p m e t with
  | Some (SUCCESS, p', _) => (m = 0 \/ m = 1) /\ mode p' = m
  | Some (UNSUPPORTED, p', o') => m <> 0 /\ m <> 1 /\ p' = p /\ o' = []
  | None => ~ consistent d \/ exists i, In i l /\ ~ axes_ok d i
  end.
Proof.
  intros lg d e0 p0 l p o m e t C R. assert (Z0 := C35_no_crash lg d e0 p0 (l ++ [SetMode m e t])). destruct (set_mode lg d p m e t) as [[[s p'] o']|] eqn:S.
  - unfold set_mode in S. destruct (Z.eqb_spec (Z.land get_modes m) m) as [L|L]; cbn [negb] in S.
    + assert (LM := land1 m L). destruct (Z.eqb_spec m (mode p)); [injection S as <- <- <-; auto|]. destruct (Z.eqb_spec m 0); [injection S as <- <- <-; auto|]. destruct (suspend lg d p e t) as [[q r]|]; [|discriminate]. injection S as <- <- <-. auto.
    + injection S as <- <- <-. split; [intros ->; apply L; reflexivity|]. split; [intros ->; apply L; reflexivity|auto].
  - assert (PN : prun lg d p0 (l ++ [SetMode m e t]) = None). { clear -R S. revert p0 o R. induction l as [|x l IH]; intros p0 o R; cbn [prun app] in *; [injection R as <- <-; cbn [pstep]; rewrite S; reflexivity|]. destruct (pstep lg d p0 x) as [[q r]|]; [|reflexivity]. destruct (prun lg d q l) as [[q2 r2]|] eqn:E; [|discriminate]. injection R as <- <-. rewrite (IH _ _ E). reflexivity. }
    assert (D : Forall (axes_ok d) l \/ exists i, In i l /\ ~ axes_ok d i). { clear. induction l as [|i l [IH|(j & J1 & J2)]]; [left; constructor| |right; exists j; split; [right; exact J1|exact J2]]. destruct i as [a| | |c v|e t|e t|m e t|b]; try (left; constructor; [exact I|exact IH]). destruct (has_abs d a) eqn:HA; [left; constructor; assumption|right; exists (Abs a); split; [left; reflexivity|cbn; congruence]]. }
    destruct D as [D|D]; [|right; exact D]. left. intros CO. apply (Z0 CO C); [|exact PN]. apply Forall_app. split; [exact D|constructor; [exact I|constructor]].
Qed.

(** ** Examples: an Intuos Pro's pad with a ring of three modes; a toggle, two more buttons, the first without a group *)
Definition lg2 (n : Z) : Q := inject_Z (Z.log2 n).
Example lg2_good : good_log lg2.
Proof.
  constructor; unfold lg2.
  - reflexivity.
  - intros n N. change 0%Q with (inject_Z 0). rewrite <- Zlt_Qlt. apply Z.log2_pos. exact N.
  - intros a b H. rewrite <- Zle_Qle. apply Z.log2_le_mono. lia.
Qed.
Definition w1 : wacom := {| w_leds := [L_RING]; w_ring_modes := 3; w_ring2_modes := 0; w_strip_modes := 0;
  w_buttons := [ {| w_group := -1; w_switch := false; w_dir := 1 |}; {| w_group := 0; w_switch := true; w_dir := 1 |}; {| w_group := 0; w_switch := false; w_dir := 2 |} ] |}.
Definition d1 : device := {| has_key := fun c => existsb (Z.eqb c) [256; 257; 258; 576]; has_abs := fun a => match a with RING1 | STRIP1 => true | _ => false end; vendor_wacom := true; amin := fun _ => 0; amax := fun a => if is_ring a then 71 else 4096;
  by_usbid := Some [256; 0; 257; 258]; by_path := Some w1; reversible := true; syspath := true; opens := fun _ _ => true |}.
(** The LED that is lit, the ring's position *)
Definition e1 (m : nat) (v : Z) (mi : Z) : env := {| value := fun _ => v; misc := mi; bright := fun _ k => Some (if Nat.eqb k m then 127 else 0) |}.
Definition p1 : pad := match create d1 (e1 1 0 0) with Some p => p | None => {| ax_upd := false; pressed_upd := false; released_upd := false; changed := fun _ => false; bits := fun _ => false; prev := fun _ => false; bmap := fun _ => Unmapped; nbuttons := 0; misc_term := false; mode := 0; groups := []; lh := false; lh_want := false |} end.
Example p1_created : create d1 (e1 1 0 0) = Some p1. Proof. reflexivity. Qed.
Example d1_axes : good_axes d1. Proof. intros []; cbn; lia. Qed.
Example d1_groups : groups p1 = [{| gix := 0; num_modes := 3; leds := 3; cur := 1; bmask := 7; rmask := 1; smask := 0; tmask := 2 |}]. Proof. reflexivity. Qed.
(** d1 has a strip no LED speaks for; without it libwacom's data fit *)
Definition d2 : device := {| has_key := has_key d1; has_abs := fun a => match a with RING1 => true | _ => false end; vendor_wacom := true; amin := amin d1; amax := amax d1;
  by_usbid := by_usbid d1; by_path := by_path d1; reversible := true; syspath := true; opens := opens d1 |}.
Example d2_consistent : consistent d2.
Proof. split; [discriminate|]. split; [discriminate|]. cbn [by_path d2 d1]. split; [vm_compute; discriminate|]. split; [intros _; left; reflexivity|]. repeat split; discriminate. Qed.
(** A press of the toggle while the ring is turned, a release; a key; the finger lifted *)
Definition l1 : list pinput := [KeyEv 257 1; KeyEv 576 1; Abs RING1; AbsMisc; Syn (e1 2 36 15) 10; KeyEv 257 0; Syn (e1 2 36 15) 20; Abs RING1; AbsMisc; Syn (e1 2 0 0) 30].
Example run1 : match prun lg2 d1 p1 l1 with Some (p, o) => o | None => [] end =
  [PRing 10 0 (Some (25920 # 288)%Q) 1 0; PButton 10 1 true 2 0; PKey 10 576 true; PButton 20 1 false 2 0; PRing 30 0 (Some (-1)%Q) 2 0].
Proof. vm_compute. reflexivity. Qed.
Example run1_values : Forall (values_ok d1) l1.
Proof. repeat constructor; intros []; cbn; lia. Qed.
Example told1 : told (fun g n => (g =? 0) && (n =? 1)) (fun _ => 1) [PRing 10 0 (Some (25920 # 288)%Q) 1 0; PButton 10 1 true 2 0; PKey 10 576 true; PButton 20 1 false 2 0; PRing 30 0 (Some (-1)%Q) 2 0].
Proof. cbn. auto. Qed.
Example order1 : order d1 = [256; 257; 258]. Proof. reflexivity. Qed.

(** ** What does not hold *)
(** Disabling the pad does not stop its events: its dispatch keeps the device open and never asks for the mode *)
Theorem C35_disabled_silent_refuted : ~ (forall lg d e0 p0 l p o e t p' o', consistent d -> create d e0 = Some p0 -> prun lg d p0 l = Some (p, o) -> mode p = 1 -> pstep lg d p (Syn e t) = Some (p', o') -> o' = []).
Proof.
  intros H. assert (C : create d2 (e1 1 0 0) = Some (match create d2 (e1 1 0 0) with Some p => p | None => p1 end)) by reflexivity.
  set (q := match create d2 (e1 1 0 0) with Some p => p | None => p1 end) in *.
  assert (R : exists p o, prun lg2 d2 q [SetMode 1 (e1 1 0 0) 5; KeyEv 256 1] = Some (p, o) /\ mode p = 1 /\ exists p' o', pstep lg2 d2 p (Syn (e1 1 0 0) 10) = Some (p', o') /\ o' <> []).
  { eexists. eexists. split; [vm_compute; reflexivity|]. split; [reflexivity|]. eexists. eexists. split; [vm_compute; reflexivity|]. discriminate. }
  destruct R as (p & o & R1 & R2 & p' & o' & R3 & R4). exact (R4 (H lg2 d2 (e1 1 0 0) q _ p o (e1 1 0 0) 10 p' o' d2_consistent C R1 R2 R3)).
Qed.
(** A finger lifted off a ring is not always reported: the kernel sends the ring's value 0 and ABS_MISC 0, and drops the value's event if the ring was at 0 *)
Theorem C35_lift_reported_refuted : ~ (forall lg d e0 p0 l p o e t p' o', consistent d -> create d e0 = Some p0 -> prun lg d p0 (l ++ [AbsMisc]) = Some (p, o) -> misc e = 0 -> pstep lg d p (Syn e t) = Some (p', o') -> reports o' <> []).
Proof.
  intros H. assert (C : create d2 (e1 1 0 0) = Some (match create d2 (e1 1 0 0) with Some p => p | None => p1 end)) by reflexivity.
  set (q := match create d2 (e1 1 0 0) with Some p => p | None => p1 end) in *.
  assert (R : exists p o, prun lg2 d2 q ([Abs RING1; AbsMisc; Syn (e1 1 0 15) 5] ++ [AbsMisc]) = Some (p, o) /\ exists p' o', pstep lg2 d2 p (Syn (e1 1 0 0) 10) = Some (p', o') /\ reports o' = []).
  { eexists. eexists. split; [vm_compute; reflexivity|]. eexists. eexists. split; [vm_compute; reflexivity|]. reflexivity. }
  destruct R as (p & o & R1 & p' & o' & R3 & R4). exact (H lg2 d2 (e1 1 0 0) q _ p o (e1 1 0 0) 10 p' o' d2_consistent C R1 eq_refl R3 R4).
Qed.
(** An axis the device has can fail an assert: a second ring without a first is not counted, and no mode group has it *)
Theorem C35_any_device_refuted : ~ (forall lg d e0 p0 l, create d e0 = Some p0 -> Forall (axes_ok d) l -> prun lg d p0 l <> None).
Proof.
  intros H. set (d := {| has_key := has_key d1; has_abs := fun a => match a with RING2 => true | _ => false end; vendor_wacom := true; amin := amin d1; amax := amax d1; by_usbid := None; by_path := None; reversible := true; syspath := true; opens := opens d1 |}).
  assert (C : create d (e1 1 0 0) = Some (match create d (e1 1 0 0) with Some p => p | None => p1 end)) by reflexivity. apply (H lg2 d (e1 1 0 0) _ [Abs RING2; Syn (e1 1 0 0) 10] C); [repeat constructor|]. vm_compute. reflexivity.
Qed.
(** Nor if libwacom knows the mode LEDs of the pad but describes fewer buttons than the kernel has *)
Theorem C35_any_description_refuted : ~ (forall lg d e0 p0 l, (has_abs d RING2 = true -> has_abs d RING1 = true) -> (has_abs d STRIP2 = true -> has_abs d STRIP1 = true) -> create d e0 = Some p0 -> Forall (axes_ok d) l -> prun lg d p0 l <> None).
Proof.
  intros H. set (d := {| has_key := fun c => existsb (Z.eqb c) [256; 257; 258; 259]; has_abs := fun a => match a with RING1 => true | _ => false end; vendor_wacom := true; amin := amin d1; amax := amax d1; by_usbid := None; by_path := Some w1; reversible := true; syspath := true; opens := opens d1 |}).
  assert (C : create d (e1 1 0 0) = Some (match create d (e1 1 0 0) with Some p => p | None => p1 end)) by reflexivity. refine (H lg2 d (e1 1 0 0) _ [KeyEv 259 1; Syn (e1 1 0 0) 10] _ _ C _ _); try discriminate; [repeat constructor|]. vm_compute. reflexivity.
Qed.

Print Assumptions C35_buttons_alternate.
Print Assumptions C35_buttons_follow.
Print Assumptions C35_positions.
Print Assumptions C35_axes_reported.
Print Assumptions C35_modes_told.
Print Assumptions C35_no_crash.
Print Assumptions C35_disabled_silent_refuted.
