(** Proofs about tablet pads: setting up the mode groups and the button numbers *)
Require Import Coq.ZArith.ZArith Coq.QArith.QArith Coq.Lists.List Coq.Bool.Bool Coq.micromega.Lia Coq.micromega.Lqa.
Require Import Verif.Pad_Model Verif.Pad_Spec Verif.Pad_Proofs Verif.Pad_Proofs2 Verif.Pad_Proofs3 Verif.Pad_Proofs4 Verif.Pad_Proofs5.
Import ListNotations.
Open Scope Z_scope.
Local Opaque codes.

(** ** Mode groups *)
Definition fresh (g : group) : Prop := group_ok g /\ bmask g = 0 /\ rmask g = 0 /\ smask g = 0 /\ tmask g = 0.
Lemma map_shift : forall n i, map (fun k => i + Z.of_nat k) (seq 0 (S n)) = i :: map (fun k => i + 1 + Z.of_nat k) (seq 0 n).
Proof. intros n i. cbn [seq map]. f_equal; [lia|]. rewrite <- seq_shift, map_map. apply map_ext. intros. lia. Qed.
Lemma led_groups_spec : forall d w e ls i gs gs', led_groups d w e i ls gs = Some gs' ->
  exists new, gs' = new ++ gs /\ map gix new = rev (map (fun k => i + Z.of_nat k) (seq 0 (length ls))) /\ Forall fresh new.
Proof.
  intros d w e. induction ls as [|l ls IH]; intros i gs gs' H; cbn [led_groups] in H.
  - injection H as <-. exists []. repeat split; constructor.
  - destruct (led_modes w l) as [n|]; [|discriminate]. unfold group_new in H. destruct (forallb (opens d i) (seq 0 n)); [|discriminate]. destruct (get_mode e i n) as [m|] eqn:M; [|discriminate]. apply IH in H. destruct H as (new & -> & A & B).
    eexists (new ++ [_]). split; [rewrite <- app_assoc; reflexivity|]. split.
    + rewrite map_app, A. cbn [length]. rewrite map_shift. reflexivity.
    + apply Forall_app. split; [exact B|]. constructor; [|constructor]. unfold get_mode in M. apply lit_range in M. split; [split; cbn; [lia|auto]|repeat split; reflexivity].
Qed.
Lemma get_group_spec : forall gs i g, get_group gs i = Some g -> In g gs /\ gix g = i.
Proof. intros gs i g H. apply find_some in H. destruct H as [A B]. apply Z.eqb_eq in B. auto. Qed.
Lemma put_gix : forall gs g, map gix (put gs g) = map gix gs.
Proof. intros gs g. unfold put. rewrite map_map. apply map_ext. intros x. destruct (Z.eqb_spec (gix x) (gix g)); auto. Qed.
(** Button [n] is in [bs], which start at number [i], and is of group [gi] *)
Definition owned (all : list wbutton) (i : Z) (bs : list wbutton) (gi n : Z) (f : wbutton -> bool) : bool :=
  (i <=? n) && match nth_error bs (Z.to_nat (n - i)) with Some b => (group_for all n b =? gi) && f b | None => false end.
Lemma owned_cons : forall all i b bs gi n f, owned all i (b :: bs) gi n f = (if n =? i then (group_for all i b =? gi) && f b else owned all (i + 1) bs gi n f).
Proof.
  intros. unfold owned. destruct (Z.eqb_spec n i) as [->|N].
  - rewrite Z.leb_refl, Z.sub_diag. reflexivity.
  - destruct (Z.leb_spec i n), (Z.leb_spec (i + 1) n); try lia; try reflexivity. cbn [andb]. replace (Z.to_nat (n - i)) with (S (Z.to_nat (n - (i + 1)))) by lia. reflexivity.
Qed.
Definition kept (g g' : group) : Prop := gix g' = gix g /\ num_modes g' = num_modes g /\ leds g' = leds g /\ cur g' = cur g /\ rmask g' = rmask g /\ smask g' = smask g.
Lemma setbit_bit : forall a i n, 0 <= i -> 0 <= n -> Z.testbit (Z.setbit a i) n = (n =? i) || Z.testbit a n.
Proof. intros a i n I N. rewrite Z.setbit_eqb by lia. rewrite (Z.eqb_sym i n). reflexivity. Qed.
Lemma mode_buttons_spec : forall all bs i gs gs', NoDup (map gix gs) -> 0 <= i -> mode_buttons all i bs gs = Some gs' ->
  map gix gs' = map gix gs /\
  (forall g', In g' gs' -> exists g, In g gs /\ kept g g' /\ forall n, 0 <= n -> Z.testbit (bmask g') n = Z.testbit (bmask g) n || owned all i bs (gix g) n (fun _ => true) /\ Z.testbit (tmask g') n = Z.testbit (tmask g) n || owned all i bs (gix g) n w_switch) /\
  (forall k b, nth_error bs k = Some b -> exists g, In g gs /\ gix g = group_for all (i + Z.of_nat k) b).
Proof.
  intros all. induction bs as [|b bs IH]; intros i gs gs' ND I0 H; cbn [mode_buttons] in H.
  - injection H as <-. split; [reflexivity|]. split; [|intros [|k] b X; discriminate]. intros g G. exists g. split; [exact G|]. split; [repeat split|]. intros n N. unfold owned. destruct (Z.to_nat (n - i)); cbn; rewrite andb_false_r, !orb_false_r; auto.
  - destruct (group_for all i b =? -1); [discriminate|]. destruct (get_group gs (group_for all i b)) as [g|] eqn:GG; [|discriminate]. apply get_group_spec in GG. destruct GG as [GI GX]. set (g1 := add_button g i (w_switch b)) in *. assert (X1 : gix g1 = gix g) by reflexivity.
    apply IH in H; [|rewrite put_gix; exact ND|lia]. rewrite put_gix in H. destruct H as (A & B & C). split; [exact A|]. split.
    + intros g' G'. destruct (B g' G') as (g2 & G2 & K & M). apply put_in in G2. destruct G2 as [->|[G2 N2]].
      * exists g. split; [exact GI|]. split; [exact K|]. intros n N. destruct (M n N) as [M1 M2]. rewrite !owned_cons. unfold g1 in M1, M2 at 1. cbn [add_button bmask tmask gix] in M1, M2. rewrite <- GX. rewrite Z.eqb_refl. cbn [andb]. rewrite M1, M2, setbit_bit by lia. split.
        -- destruct (Z.eqb_spec n i) as [->|]; [|reflexivity]. cbn [orb]. rewrite orb_true_r. reflexivity.
        -- unfold g1. cbn [gix add_button]. destruct (w_switch b) eqn:SW.
           ++ rewrite setbit_bit by lia. destruct (n =? i); [rewrite orb_true_r; reflexivity|reflexivity].
           ++ destruct (Z.eqb_spec n i) as [->|]; [|reflexivity]. f_equal. unfold owned. destruct (Z.leb_spec (i + 1) i); [lia|reflexivity].
      * exists g2. split; [exact G2|]. split; [exact K|]. intros n N. destruct (M n N) as [M1 M2]. rewrite !owned_cons. destruct (Z.eqb_spec (group_for all i b) (gix g2)) as [E|E]; [exfalso; apply N2; congruence|]. cbn [andb]. rewrite M1, M2.
        destruct (Z.eqb_spec n i) as [->|]; [|auto]. unfold owned. destruct (Z.leb_spec (i + 1) i); [lia|auto].
    + intros [|k] b0 N; cbn in N.
      * injection N as <-. rewrite Z.add_0_r. exists g. auto.
      * destruct (C k b0 N) as (g2 & G2 & E2). replace (i + Z.of_nat (S k)) with (i + 1 + Z.of_nat k) by lia. apply put_in in G2. destruct G2 as [->|[G2 _]]; [exists g; split; [exact GI|congruence]|exists g2; auto].
Qed.
Lemma nth_rev_seq : forall n, NoDup (rev (map (fun k => 0 + Z.of_nat k) (seq 0 n))).
Proof. intros n. apply NoDup_rev. apply FinFun.Injective_map_NoDup; [intros a b; lia|apply seq_NoDup]. Qed.
Lemma in_index : forall n i, In i (rev (map (fun k => 0 + Z.of_nat k) (seq 0 n))) <-> 0 <= i < Z.of_nat n.
Proof. intros n i. rewrite <- in_rev, in_map_iff. split; [intros (k & <- & H); apply in_seq in H; lia|intros H; exists (Z.to_nat i); split; [lia|apply in_seq; lia]]. Qed.
(** The groups when libwacom describes the pad *)
Lemma leds_spec : forall d e gs, leds_from_libwacom d e = Some gs -> exists w, by_path d = Some w /\ (0 < length (w_leds w))%nat /\
  map gix gs = rev (map (fun k => 0 + Z.of_nat k) (seq 0 (length (w_leds w)))) /\ Forall group_ok gs /\
  (forall g n, In g gs -> 0 <= n -> Z.testbit (bmask g) n = owned (w_buttons w) 0 (w_buttons w) (gix g) n (fun _ => true) /\ Z.testbit (tmask g) n = owned (w_buttons w) 0 (w_buttons w) (gix g) n w_switch) /\
  (forall k b, nth_error (w_buttons w) k = Some b -> exists g, In g gs /\ gix g = group_for (w_buttons w) (Z.of_nat k) b) /\
  (forall g l, In g gs -> nth_error (w_leds w) (Z.to_nat (gix g)) = Some l -> (Z.testbit (rmask g) 0 = true <-> l = L_RING) /\ (Z.testbit (rmask g) 1 = true <-> l = L_RING2) /\ (Z.testbit (smask g) 0 = true <-> l = L_STRIP) /\ (Z.testbit (smask g) 1 = true <-> l = L_STRIP2)).
Proof.
  intros d e gs H. unfold leds_from_libwacom in H. destruct (by_path d) as [w|]; [|discriminate]. destruct (Nat.eqb_spec (length (w_leds w)) 0); cbn [orb] in H; [discriminate|]. destruct (negb (syspath d)); [discriminate|]. destruct (led_groups d w e 0 (w_leds w) []) as [g0|] eqn:L; [|discriminate]. destruct (mode_buttons (w_buttons w) 0 (w_buttons w) g0) as [g1|] eqn:M; [|discriminate]. injection H as <-.
  apply led_groups_spec in L. destruct L as (new & -> & A & B). rewrite app_nil_r in M. assert (ND : NoDup (map gix new)) by (rewrite A; apply nth_rev_seq). destruct (mode_buttons_spec _ _ _ _ _ ND (Z.le_refl 0) M) as (C & D & E). rewrite Forall_forall in B.
  assert (GX : map gix (mode_leds (w_leds w) g1) = map gix g1). { unfold mode_leds. rewrite map_map. apply map_ext. intros x. destruct (nth_error _ _); reflexivity. }
  assert (IN : forall g, In g (mode_leds (w_leds w) g1) -> exists g', In g' g1 /\ gix g = gix g' /\ bmask g = bmask g' /\ tmask g = tmask g' /\ (group_ok g' -> group_ok g) /\ g = match nth_error (w_leds w) (Z.to_nat (gix g')) with Some l => mark l g' | None => g' end).
  { intros g G. unfold mode_leds in G. apply in_map_iff in G. destruct G as (g' & <- & G'). exists g'. split; [exact G'|]. destruct (nth_error _ _); repeat (split; auto). }
  assert (OK : forall g', In g' g1 -> group_ok g' /\ rmask g' = 0 /\ smask g' = 0).
  { intros g' G'. destruct (D g' G') as (g & G & (K1 & K2 & K3 & K4 & K5 & K6) & _). destruct (B g G) as ([O1 O2] & F1 & F2 & F3 & F4). unfold group_ok. rewrite K2, K3, K4, K5, K6. auto. }
  exists w. split; [reflexivity|]. split; [lia|]. split; [congruence|]. split; [|split; [|split]].
  - apply Forall_forall. intros g G. destruct (IN g G) as (g' & G' & _ & _ & _ & O & _). apply O, OK, G'.
  - intros g n0 G N. destruct (IN g G) as (g' & G' & X1 & X2 & X3 & _). destruct (D g' G') as (g2 & G2 & (K1 & _) & S). destruct (S n0 N) as [S1 S2]. destruct (B g2 G2) as (_ & F1 & F2 & F3 & F4). rewrite F1, Z.bits_0 in S1. rewrite F4, Z.bits_0 in S2. rewrite X1, X2, X3, S1, S2, K1. auto.
  - intros k b N. destruct (E k b N) as (g & G & X). apply (in_map gix) in G. rewrite <- C, <- GX in G. apply in_map_iff in G. destruct G as (y & Y1 & Y2). exists y. split; [exact Y2|]. rewrite Y1, X. reflexivity.
  - intros g l G N. destruct (IN g G) as (g' & G' & X1 & _ & _ & _ & ->). rewrite X1 in N. rewrite N. destruct (OK g' G') as (_ & R & S). unfold mark. cbn [rmask smask]. rewrite R, S. destruct l; cbn; repeat split; congruence.
Qed.
Lemma create_groups : forall d e p, create d e = Some p -> bmap p = fst (init_buttons d) /\ nbuttons p = snd (init_buttons d) /\ nbuttons p <= 32 /\ groups p = (match leds_from_libwacom d e with Some gs => gs | None => [fallback_group] end) /\ mode p = 0 /\ bits p = (fun _ => false) /\ prev p = (fun _ => false) /\ (forall a, changed p a = false) /\ ax_upd p = false /\ misc_term p = false /\ lh p = false /\ lh_want p = false.
Proof. intros d e p H. unfold create in H. destruct (init_buttons d) as [m n]. destruct (Z.ltb_spec 32 n); [discriminate|]. injection H as <-. cbn. repeat (split; auto). Qed.
Lemma keys_after : forall d cs m, (forall c k, m c = Key k -> In k [576; 632; 579]) -> incl cs [576; 632; 579] -> forall c k, fold_left (fun m c => if has_key d c then upd m c (Key c) else m) cs m c = Key k -> In k [576; 632; 579].
Proof.
  intros d. induction cs as [|x cs IH]; intros m K I0 c k; [apply K|]. cbn [fold_left]. apply IH; [|intros y Y; apply I0; right; exact Y]. intros c0 k0. destruct (has_key d x); [|apply K]. unfold upd. destruct (c0 =? x); [intros X; injection X as <-; apply I0; left; reflexivity|apply K].
Qed.
Lemma create_ok : forall d e p, create d e = Some p -> pad_ok p /\ keys_ok (bmap p).
Proof.
  intros d e p H. apply create_groups in H. destruct H as (A & B & C & D & E & F & G & H & I0 & J & K & L). split.
  - constructor; rewrite ?F, ?G; auto; try discriminate.
    + rewrite A, B. apply init_buttons_good.
    + rewrite D. destruct (leds_from_libwacom d e) as [gs|] eqn:LE.
      * apply leds_spec in LE. destruct LE as (w & _ & _ & X & Y & _). split; [rewrite X; apply nth_rev_seq|exact Y].
      * split; [cbn; constructor; [intros []|constructor]|]. constructor; [|constructor]. split; cbn; [lia|auto].
  - intros c k X. rewrite A in X. unfold init_buttons in X. pose proof (libwacom_good) as LG. pose proof (kernel_good d) as KG.
    assert (Q : forall x k, fst (match by_usbid d with Some cs => buttons_from_libwacom cs | None => buttons_from_kernel d end) x <> Key k).
    { destruct (by_usbid d) as [cs|]; [apply LG; [apply map_none|discriminate]|]. apply KG; [apply map_none|discriminate|]. intros z Z0. vm_compute in Z0. intuition lia. }
    destruct (match by_usbid d with Some cs => buttons_from_libwacom cs | None => buttons_from_kernel d end) as [m n]. cbn [fst] in X, Q. unfold init_keys in X. destruct (vendor_wacom d); [|destruct (Q _ _ X)]. apply keys_after in X; [cbn in X; intuition|intros c0 k0 Y; destruct (Q _ _ Y)|apply incl_refl].
Qed.
(** Each button is of one group; so is each ring and strip if the LEDs are different *)
Lemma owned_yes : forall all bs gi n f, owned all 0 bs gi n f = true -> exists b, nth_error bs (Z.to_nat n) = Some b /\ 0 <= n /\ group_for all n b = gi /\ f b = true.
Proof. intros all bs gi n f H. unfold owned in H. apply andb_true_iff in H. destruct H as [A B]. apply Z.leb_le in A. rewrite Z.sub_0_r in B. destruct (nth_error bs (Z.to_nat n)) as [b|] eqn:N; [|discriminate]. apply andb_true_iff in B. destruct B as [B C]. apply Z.eqb_eq in B. exists b. auto. Qed.
Lemma create_covers : forall d e p, consistent d -> create d e = Some p -> covers d (nbuttons p) (groups p).
Proof.
  intros d e p (R2 & S2 & CO) H. apply create_groups in H. destruct H as (A & B & C & D & _). rewrite D. destruct (leds_from_libwacom d e) as [gs|] eqn:LE.
  - apply leds_spec in LE. destruct LE as (w & W & W0 & X & Y & M & BU & LD). rewrite W in CO. destruct CO as (CB & C1 & C2 & C3 & C4). split.
    + intros n N. rewrite B in N. destruct (nth_error (w_buttons w) (Z.to_nat n)) as [b|] eqn:NB; [|apply nth_error_None in NB; lia]. destruct (BU _ _ NB) as (g & G & E). exists g. split; [exact G|]. unfold has_button. destruct (Z.leb_spec (nbuttons p) n); [rewrite B in *; lia|]. destruct (M g n G) as [M1 _]; [lia|]. rewrite M1. unfold owned. destruct (Z.leb_spec 0 n); [|lia]. rewrite Z.sub_0_r, NB, E, Z2Nat.id, Z.eqb_refl by lia. reflexivity.
    + assert (IDX : forall l, In l (w_leds w) -> exists g, In g gs /\ nth_error (w_leds w) (Z.to_nat (gix g)) = Some l).
      { intros l L. apply In_nth_error in L. destruct L as [k L]. assert (K : In (Z.of_nat k) (map gix gs)). { rewrite X. apply in_index. assert (k < length (w_leds w))%nat by (apply nth_error_Some; congruence). lia. } apply in_map_iff in K. destruct K as (g & G1 & G2). exists g. split; [exact G2|]. rewrite G1, Nat2Z.id. exact L. }
      intros a HA. assert (HN : is_ring a = true -> axis_number a < num_rings d) by (intros; unfold num_rings; destruct a; try discriminate; cbn; [rewrite HA; destruct (has_abs d RING2); lia|rewrite (R2 HA), HA; lia]).
      assert (HS : is_ring a = false -> axis_number a < num_strips d) by (intros; unfold num_strips; destruct a; try discriminate; cbn; [rewrite HA; destruct (has_abs d STRIP2); lia|rewrite (S2 HA), HA; lia]).
      unfold has_ring, has_strip. destruct a; cbn [is_ring axis_number] in *; [destruct (IDX _ (C1 HA)) as (g & G & N)|destruct (IDX _ (C2 HA)) as (g & G & N)|destruct (IDX _ (C3 HA)) as (g & G & N)|destruct (IDX _ (C4 HA)) as (g & G & N)]; exists g; (split; [exact G|]); destruct (LD g _ G N) as (L1 & L2 & L3 & L4).
      * specialize (HN eq_refl). destruct (Z.leb_spec (num_rings d) 0); [lia|]. apply L1; reflexivity.
      * specialize (HN eq_refl). destruct (Z.leb_spec (num_rings d) 1); [lia|]. apply L2; reflexivity.
      * specialize (HS eq_refl). destruct (Z.leb_spec (num_strips d) 0); [lia|]. apply L3; reflexivity.
      * specialize (HS eq_refl). destruct (Z.leb_spec (num_strips d) 1); [lia|]. apply L4; reflexivity.
  - split.
    + intros n N. exists fallback_group. split; [left; reflexivity|]. unfold has_button. destruct (Z.leb_spec (nbuttons p) n); [lia|]. cbn [fallback_group bmask]. apply Z.bits_m1. lia.
    + intros a HA. exists fallback_group. split; [left; reflexivity|]. unfold has_ring, has_strip, num_rings, num_strips. destruct a; cbn [is_ring axis_number fallback_group rmask smask].
      * rewrite HA. destruct (has_abs d RING2); reflexivity.
      * rewrite (R2 HA), HA. reflexivity.
      * rewrite HA. destruct (has_abs d STRIP2); reflexivity.
      * rewrite (S2 HA), HA. reflexivity.
Qed.
(** ** Numbers of buttons *)
Lemma number_map : forall cs, NoDup cs -> let r := fold_left (fun a c => (upd (fst a) c (Button (snd a)), snd a + 1)) cs (fun _ => Unmapped, 0) in
  snd r = Z.of_nat (length cs) /\ (forall c n, fst r c = Button n <-> 0 <= n /\ nth_error cs (Z.to_nat n) = Some c) /\ forall c k, fst r c <> Key k.
Proof.
  induction cs as [|c cs IH] using rev_ind; intros ND.
  - cbn. split; [reflexivity|]. split; [|discriminate]. intros c n. split; [discriminate|]. intros [_ X]. destruct (Z.to_nat n); discriminate.
  - assert (ND' := NoDup_remove cs [] c ND). rewrite app_nil_r in ND'. destruct ND' as [N1 N2]. destruct (IH N1) as (A & B & C). cbn zeta. rewrite fold_left_app. cbn [fold_left fst snd]. rewrite A, app_length. cbn [length]. split; [lia|]. split.
    + intros c0 n. unfold upd. destruct (Z.eqb_spec c0 c) as [->|NE].
      * split.
        -- intros X. injection X as <-. split; [lia|]. rewrite Nat2Z.id, nth_error_app2, Nat.sub_diag by lia. reflexivity.
        -- intros [X Y]. destruct (Nat.lt_ge_cases (Z.to_nat n) (length cs)) as [L|L]; [rewrite nth_error_app1 in Y by exact L; apply nth_error_In in Y; contradiction|]. assert (Z.to_nat n < length (cs ++ [c]))%nat by (apply nth_error_Some; congruence). rewrite app_length in H. cbn in H. f_equal. lia.
      * rewrite B. split; intros [X Y]; (split; [exact X|]).
        -- rewrite nth_error_app1; [exact Y|]. apply nth_error_Some. congruence.
        -- destruct (Nat.lt_ge_cases (Z.to_nat n) (length cs)) as [L|L]; [rewrite nth_error_app1 in Y by exact L; exact Y|]. exfalso. rewrite nth_error_app2 in Y by exact L. destruct (Z.to_nat n - length cs)%nat as [|k]; cbn in Y; [congruence|destruct k; discriminate].
    + intros c0 k. unfold upd. destruct (c0 =? c); [discriminate|apply C].
Qed.
Lemma fold_filter : forall (A : Type) (f : A -> Z -> A) (t : Z -> bool) cs a, fold_left (fun a c => if t c then f a c else a) cs a = fold_left f (filter t cs) a.
Proof. intros A f t. induction cs as [|c cs IH]; intros a; [reflexivity|]. cbn. destruct (t c); cbn; apply IH. Qed.
Lemma fold_filter_n : forall (A : Type) (f : A -> Z -> A) (t : Z -> bool) cs a, fold_left (fun a c => if t c then a else f a c) cs a = fold_left f (filter (fun c => negb (t c)) cs) a.
Proof. intros A f t. induction cs as [|c cs IH]; intros a; [reflexivity|]. cbn. destruct (t c); cbn; apply IH. Qed.
Lemma keys_button : forall d cs m c n, (forall x, In x cs -> has_key d x = true -> forall k, m x <> Button k) -> (fold_left (fun m c => if has_key d c then upd m c (Key c) else m) cs m c = Button n <-> m c = Button n).
Proof.
  intros d. induction cs as [|x cs IH]; intros m c n K; [reflexivity|]. cbn [fold_left]. rewrite IH.
  - destruct (has_key d x) eqn:HK; [|reflexivity]. unfold upd. destruct (Z.eqb_spec c x) as [->|]; [|reflexivity]. split; [discriminate|]. intros X. destruct (K x (or_introl eq_refl) HK n X).
  - intros y Y HY k. destruct (has_key d x) eqn:HK; [|apply K; [right; exact Y|exact HY]]. unfold upd. destruct (y =? x); [discriminate|apply K; [right; exact Y|exact HY]].
Qed.
(** The order of the codes: libwacom's, or the kernel's buttons *)
Definition button_codes (d : device) : list Z := match by_usbid d with Some cs => filter (fun c => negb (c =? 0)) cs | None => filter (has_key d) (range 256 10 ++ range 294 2 ++ range 304 6 ++ range 272 7) end.
Lemma numbering : forall d, NoDup (button_codes d) -> (vendor_wacom d = true -> forall c, In c [576; 632; 579] -> ~ In c (button_codes d)) ->
  snd (init_buttons d) = Z.of_nat (length (button_codes d)) /\ forall c n, fst (init_buttons d) c = Button n <-> 0 <= n /\ nth_error (button_codes d) (Z.to_nat n) = Some c.
Proof.
  intros d ND V. unfold init_buttons. assert (E : (match by_usbid d with Some cs => buttons_from_libwacom cs | None => buttons_from_kernel d end) = fold_left (fun a c => (upd (fst a) c (Button (snd a)), snd a + 1)) (button_codes d) (fun _ => Unmapped, 0)).
  { unfold button_codes. destruct (by_usbid d) as [cs|]; [unfold buttons_from_libwacom; apply (fold_filter_n _ (fun a c => (upd (fst a) c (Button (snd a)), snd a + 1)) (fun c => c =? 0))|unfold buttons_from_kernel; apply (fold_filter _ (fun a c => (upd (fst a) c (Button (snd a)), snd a + 1)) (has_key d))]. }
  rewrite E. destruct (number_map (button_codes d) ND) as (A & B & C). destruct (fold_left _ (button_codes d) _) as [m n0]. cbn [fst snd] in *. split; [exact A|]. intros c n. unfold init_keys. destruct (vendor_wacom d); [|apply B]. rewrite keys_button; [apply B|]. intros x X HK k MX. apply B in MX. destruct MX as [_ MX]. apply nth_error_In in MX. exact (V eq_refl x X MX).
Qed.
