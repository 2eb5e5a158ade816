(** What the udev properties say of a device, and looking quirks up. *)
Require Import Coq.Strings.Ascii Coq.Strings.String Coq.ZArith.ZArith Coq.QArith.QArith Coq.Lists.List Coq.Bool.Bool Coq.micromega.Lia Coq.Arith.PeanoNat Coq.Sorting.Sorted.
Require Import Verif.Str_Model Verif.Str_Spec Verif.Str_Proofs Verif.Str_Proofs2 Verif.Parse_Model Verif.Parse_Spec Verif.Parse_Proofs Verif.Quirks_Model Verif.Quirks_Spec.
Require Import Verif.Quirks_Proofs Verif.Quirks_Proofs2 Verif.Quirks_Proofs3 Verif.Quirks_Proofs4 Verif.Quirks_Proofs5.
Import ListNotations.
Open Scope Z_scope.

Lemma udev_ok : forall d k v, udev_prop d (S k) = Some v <-> has_prop d k v.
Proof.
  intros d k v. split.
  - induction d as [|l d IH]; cbn [udev_prop]; [discriminate|]. destruct (get_prop l (S k)) as [x|] eqn:E; intros H.
    + injection H as ->. now constructor.
    + now constructor 2; auto.
  - induction 1; cbn [udev_prop]; [now rewrite H|now rewrite H].
Qed.
Lemma udev_none : forall d k, udev_prop d (S k) = None <-> lacks d k.
Proof.
  intros d k. unfold lacks. destruct (udev_prop d (S k)) as [v|] eqn:E; split; intros H; try congruence.
  - exfalso. apply (H v). now apply udev_ok.
  - intros v K. apply udev_ok in K. congruence.
Qed.

(** Hexadecimal words *)
Definition slash_or_end (r : str) : Prop := match r with [] => True | c :: _ => c = "/"%char end.
Lemma digits16_stop : forall s a n r, dig 16 s a n -> slash_or_end r -> digits 16 (s ++ r) a = (n, r).
Proof.
  intros s a n r H HR. induction H; cbn.
  - destruct r as [|c r]; cbn; auto. cbn in HR. subst. reflexivity.
  - rewrite H. auto.
Qed.
Lemma word_scan : forall s n r, word16 s n -> slash_or_end r -> scan_x (s ++ r) = Some (n, r).
Proof.
  intros s n r [NM LE] HR. destruct (numeral_dig 16 s n base16 NM) as [NE D].
  assert (0 <= n) by (eapply numeral_nonneg; [|exact NM]; lia).
  pose proof (digits16_stop _ _ _ _ D HR) as E. destruct s as [|c t]; [congruence|]. destruct (dig_inv _ _ _ _ _ D) as (x & Hx & D').
  destruct (digit_not_space_sign 16 c base16) as (F1 & F2 & F3); [congruence|].
  unfold scan_x. cbn [app skip]. rewrite F1. cbn [sign]. rewrite F2, F3.
  assert (M : magnitude_x (c :: t ++ r) = Some (n, r)).
  { unfold magnitude_x, magnitude. cbn [app] in E. rewrite E, Hx.
    assert (NX : forall y z, t ++ r = y :: z -> ((code y =? 120) || (code y =? 88)) = false).
    { intros y z Y. destruct t as [|t0 t].
      - cbn in Y. subst r. cbn in HR. subst y. reflexivity.
      - injection Y as -> _. destruct (dig_inv _ _ _ _ _ D') as (x' & Hx' & _). destruct ((code y =? 120) || (code y =? 88)) eqn:Q; auto.
        apply x_no_digit in Q. congruence. }
    destruct (t ++ r) as [|y [|z u]] eqn:TR; auto; rewrite (NX y _ eq_refl), !andb_false_r; auto. }
  rewrite M. unfold ULONG_MAX. replace (18446744073709551615 <? n) with false by (symmetry; apply Z.ltb_ge; lia).
  rewrite to_int_id by (unfold fits_int; lia). reflexivity.
Qed.
Lemma word_unsigned : forall s n, word16 s n -> unsigned n = n.
Proof.
  intros s n [NM LE]. assert (0 <= n) by (eapply numeral_nonneg; [|exact NM]; lia). unfold unsigned. apply Z.mod_small. lia.
Qed.
Lemma product_scan : forall sb sv sp sw b v p w, word16 sb b -> word16 sv v -> word16 sp p -> word16 sw w ->
  scan_product (sb ++ S "/" ++ sv ++ S "/" ++ sp ++ S "/" ++ sw) = Some (b, v, p, w).
Proof.
  intros sb sv sp sw b v p w B V P W. unfold scan_product.
  change (S "/" ++ sv ++ S "/" ++ sp ++ S "/" ++ sw) with ("/"%char :: sv ++ "/"%char :: sp ++ "/"%char :: sw).
  rewrite (word_scan sb b) by (auto; reflexivity). cbn [scan_c]. change (("/" =? "/")%char) with true. cbv iota.
  rewrite (word_scan sv v) by (auto; reflexivity). cbn [scan_c]. change (("/" =? "/")%char) with true. cbv iota.
  rewrite (word_scan sp p) by (auto; reflexivity). cbn [scan_c]. change (("/" =? "/")%char) with true. cbv iota.
  pose proof (word_scan sw w [] W I) as E. rewrite app_nil_r in E. rewrite E.
  now rewrite (word_unsigned sb b B), (word_unsigned sv v V), (word_unsigned sp p P), (word_unsigned sw w W).
Qed.

(** The types *)
Definition bits8 (b1 b2 b3 b4 b5 b6 b7 b8 : bool) : Z :=
  fold_left (fun t (e : bool * Z) => if fst e then Z.lor t (snd e) else t)
    [(b1, UDEV_MOUSE); (b2, UDEV_POINTINGSTICK); (b3, UDEV_TOUCHPAD); (b4, UDEV_TABLET); (b5, UDEV_TABLET_PAD); (b6, UDEV_JOYSTICK);
     (b7, UDEV_KEYBOARD); (b8, UDEV_KEYBOARD)] 0.
Definition has_type (b1 b2 b3 b4 b5 b6 b7 b8 : bool) (t : devtype) : bool :=
  match t with Mouse => b1 | Pointingstick => b2 | Touchpad => b3 | Tablet => b4 | TabletPad => b5 | Joystick => b6 | Keyboard => b7 || b8 end.
Lemma bits8_ok : forall b1 b2 b3 b4 b5 b6 b7 b8 t,
  negb (Z.land (type_bit t) (bits8 b1 b2 b3 b4 b5 b6 b7 b8) =? 0) = has_type b1 b2 b3 b4 b5 b6 b7 b8 t.
Proof. intros [] [] [] [] [] [] [] [] []; reflexivity. Qed.
Definition here (d : device) (k : string) : bool := is_set (udev_prop d (S k)).
Lemma here_ok : forall d k, here d k = true <-> exists v, has_prop d k v.
Proof.
  intros d k. unfold here. destruct (udev_prop d (S k)) as [v|] eqn:E; cbn; split; intros H; try congruence.
  - exists v. now apply udev_ok.
  - destruct H as [v H]. apply udev_ok in H. congruence.
Qed.
Lemma type_fields : forall d m t, match m_type (match_fill_udev_type m d) with Some x => negb (Z.land (type_bit t) x =? 0) | None => false end =
  has_type (here d "ID_INPUT_MOUSE") (here d "ID_INPUT_POINTINGSTICK") (here d "ID_INPUT_TOUCHPAD") (here d "ID_INPUT_TABLET")
    (here d "ID_INPUT_TABLET_PAD") (here d "ID_INPUT_JOYSTICK") (here d "ID_INPUT_KEYBOARD") (here d "ID_INPUT_KEY") t.
Proof. intros d m t. rewrite <- bits8_ok. reflexivity. Qed.

Section E.
Variable fnmatch : str -> str -> bool.

Lemma bus_code_ok : forall b x, bus_code b = Some x <-> bus_number x = b.
Proof.
  intros b x. unfold bus_code. split.
  - repeat match goal with |- context[b =? ?n] => destruct (b =? n) eqn:?E; [apply Z.eqb_eq in E; intros H; injection H as <-; now subst|clear E] end. discriminate.
  - intros <-. destruct x; reflexivity.
Qed.
Lemma check_meets : forall d dmi dt f c, describes d dmi dt f -> (check fnmatch (match_new d dmi dt) c = true <-> meets fnmatch f c).
Proof.
  intros d dmi dt f c (NM & ID & TY & DM & DT).
  set (m0 := match_fill_name no_match d). set (m1 := match_fill_bus_vid_pid m0 d). set (m2 := match_fill_dmi_dt m1 dmi dt).
  assert (N : m_name (match_new d dmi dt) = f_name f).
  { assert (E : m_name (match_new d dmi dt) = m_name m0).
    { unfold match_new, match_fill_dmi_dt, match_fill_bus_vid_pid. fold m0.
      destruct (udev_prop d (S "PRODUCT")) as [s|]; [destruct (scan_product s) as [[[[? ?] ?] ?]|]; [destruct (bus_code _)|]|]; destruct dmi, dt; reflexivity. }
    rewrite E. unfold m0, match_fill_name. destruct (f_name f) as [n|].
    - destruct NM as [NE HP]. apply udev_ok in HP. rewrite HP. cbn [app S list_ascii_of_string]. change (("""" =? """")%char) with true. cbv iota.
      cbn [set_name m_name]. rewrite app_length. cbn [length].
      assert (Nat.ltb 1 (length n + 1) = true) as -> by (apply Nat.ltb_lt; destruct n; [congruence|cbn; lia]).
      rewrite last_last. change (("""" =? """")%char) with true. cbn [andb]. now rewrite removelast_last.
    - apply udev_none in NM. now rewrite NM. }
  assert (D : m_dmi (match_new d dmi dt) = dmi /\ m_dt (match_new d dmi dt) = dt).
  { assert (Z0 : m_dmi m1 = None /\ m_dt m1 = None).
    { unfold m1, match_fill_bus_vid_pid, m0, match_fill_name.
      destruct (udev_prop d (S "NAME")), (udev_prop d (S "PRODUCT")) as [sx|]; try (destruct (scan_product sx) as [[[[? ?] ?] ?]|]; [destruct (bus_code _)|]); auto. }
    unfold match_new. fold m0. fold m1. destruct Z0 as [A B]. destruct dmi, dt; cbn; auto. }
  assert (I : m_vid (match_new d dmi dt) = m_vid m1 /\ m_pid (match_new d dmi dt) = m_pid m1 /\ m_version (match_new d dmi dt) = m_version m1 /\ m_bus (match_new d dmi dt) = m_bus m1).
  { unfold match_new. fold m0. fold m1. destruct dmi, dt; auto. }
  destruct I as (I1 & I2 & I3 & I4).
  assert (Z0 : m_vid m0 = None /\ m_pid m0 = None /\ m_version m0 = None /\ m_bus m0 = None).
  { unfold m0, match_fill_name. destruct (udev_prop d (S "NAME")); auto. }
  destruct Z0 as (Z1 & Z2 & Z3 & Z4).
  assert (IDS : match f_ids f with
                | None => m_vid m1 = None /\ m_pid m1 = None /\ m_version m1 = None /\ m_bus m1 = None
                | Some (b, v, p, w) => m_vid m1 = Some v /\ m_pid m1 = Some p /\ m_version m1 = Some w /\ m_bus m1 = bus_code b
                end).
  { unfold m1, match_fill_bus_vid_pid. destruct (f_ids f) as [[[[b v] p] w]|].
    - destruct ID as (sb & sv & sp & sw & HP & B & V & P & W). apply udev_ok in HP. rewrite HP, (product_scan sb sv sp sw b v p w B V P W).
      destruct (bus_code b); repeat split; auto.
    - apply udev_none in ID. rewrite ID. auto. }
  destruct D as [D1 D2].
  destruct c; cbn [check meets].
  - rewrite N. destruct (f_name f) as [n|]; split; intros H; try discriminate.
    + exists n. auto.
    + destruct H as (x & E & ?). congruence.
    + destruct H as (x & E & ?). congruence.
  - rewrite I4. destruct (f_ids f) as [[[[b' v] p] w]|].
    + destruct IDS as (_ & _ & _ & ->). destruct (bus_code b') as [x|] eqn:BC; split; intros H; try discriminate.
      * destruct (bus_eq_dec b x) as [->|]; [|discriminate]. apply bus_code_ok in BC. subst b'. now exists v, p, w.
      * destruct H as (v' & p' & w' & E). injection E as -> _ _ _. apply bus_code_ok in BC. destruct (bus_eq_dec b x) as [|C]; auto.
        exfalso. apply C. destruct b, x; try discriminate; auto.
      * destruct H as (v' & p' & w' & E). injection E as -> _ _ _. exfalso. assert (bus_code (bus_number b) = Some b) by (apply bus_code_ok; auto). congruence.
    + destruct IDS as (_ & _ & _ & ->). split; [discriminate|]. intros (? & ? & ? & ?). discriminate.
  - rewrite I1. destruct (f_ids f) as [[[[b' v] p] w]|]; destruct IDS as (-> & _); (split; intros H; [|destruct H as (? & ? & ? & E)]); try discriminate.
    + apply Z.eqb_eq in H. subst. now exists b', p, w.
    + injection E as -> -> -> ->. apply Z.eqb_refl.
  - rewrite I2. destruct (f_ids f) as [[[[b' v] p] w]|]; destruct IDS as (_ & -> & _); (split; intros H; [|destruct H as (? & ? & ? & E)]); try discriminate.
    + apply Z.eqb_eq in H. subst. now exists b', v, w.
    + injection E as -> -> -> ->. apply Z.eqb_refl.
  - rewrite I3. destruct (f_ids f) as [[[[b' v] p] w]|]; destruct IDS as (_ & _ & -> & _); (split; intros H; [|destruct H as (? & ? & ? & E)]); try discriminate.
    + apply Z.eqb_eq in H. subst. now exists b', v, p.
    + injection E as -> -> -> ->. apply Z.eqb_refl.
  - rewrite D1, DM. destruct dmi as [n|]; split; intros H; try discriminate.
    + exists n. auto.
    + destruct H as (x & E & ?). congruence.
    + destruct H as (x & E & ?). congruence.
  - unfold match_new. rewrite type_fields, TY. split.
    + intros H. assert (G : exists k, here d k = true /\ In (k, t) [("ID_INPUT_MOUSE", Mouse); ("ID_INPUT_POINTINGSTICK", Pointingstick); ("ID_INPUT_TOUCHPAD", Touchpad);
                ("ID_INPUT_TABLET", Tablet); ("ID_INPUT_TABLET_PAD", TabletPad); ("ID_INPUT_JOYSTICK", Joystick);
                ("ID_INPUT_KEYBOARD", Keyboard); ("ID_INPUT_KEY", Keyboard)]%string).
      { destruct t; cbn [has_type] in H; [..|apply orb_true_iff in H; destruct H as [H|H]];
          (eexists; split; [exact H|cbn; tauto]). }
      destruct G as (k & HK & IN). apply here_ok in HK. destruct HK as [v HK]. exists k, v. auto.
    + intros (k & v & HP & IN). assert (HK : here d k = true) by (apply here_ok; eauto).
      repeat (destruct IN as [X|IN]; [injection X as <- <-; cbn [has_type]; rewrite HK; auto using orb_true_r|]). destruct IN.
  - rewrite D2, DT. destruct dt as [n|]; split; intros H; try discriminate.
    + exists n. auto.
    + destruct H as (x & E & ?). congruence.
    + destruct H as (x & E & ?). congruence.
Qed.
Lemma applies_dec : forall d dmi dt f r, describes d dmi dt f -> NoDup (map which (criteria r)) ->
  (full_match fnmatch (crits (criteria r)) (match_new d dmi dt) = true <-> applies fnmatch f r).
Proof.
  intros d dmi dt f r DE ND. rewrite full_crits by auto. rewrite forallb_forall. unfold applies. rewrite Forall_forall.
  split; intros H c I; specialize (H c I); eapply check_meets; eauto.
Qed.

(** ** Collecting the settings *)
Lemma fetch_settings : forall d dmi dt f secs rules l acc accq, describes d dmi dt f -> Forall2 denotes secs rules ->
  Forall (fun r => NoDup (map which (criteria r))) rules -> all_settings fnmatch f rules l -> props_ok acc accq ->
  props_ok (fold_left (quirk_match_section fnmatch (match_new d dmi dt)) secs acc) (accq ++ l).
Proof.
  intros d dmi dt f secs rules l acc accq DE DN ND. revert l acc accq. induction DN as [|s r secs rules [EM PO] DN IH]; intros l acc accq AS PA.
  - inversion AS; subst. now rewrite app_nil_r.
  - inversion ND as [|? ? N1 N2]; subst. cbn [fold_left]. unfold quirk_match_section at 2. rewrite EM.
    inversion AS as [|? ? l' Y A|? ? l' Y A]; subst.
    + apply (applies_dec d dmi dt f r DE N1) in Y. rewrite Y. rewrite app_assoc. apply IH; auto. now apply Forall2_app.
    + destruct (full_match _ _ _) eqn:F; [exfalso; apply Y; now apply (applies_dec d dmi dt f r DE N1)|]. apply IH; auto.
Qed.
Lemma all_settings_ex : forall d dmi dt f rules, describes d dmi dt f -> Forall (fun r => NoDup (map which (criteria r))) rules ->
  exists l, all_settings fnmatch f rules l.
Proof.
  intros d dmi dt f rules DE H. induction H as [|r rules N H (l & IH)]; [exists []; constructor|].
  destruct (full_match fnmatch (crits (criteria r)) (match_new d dmi dt)) eqn:F.
  - exists (settings r ++ l). apply as_yes; auto. now apply (applies_dec d dmi dt f r DE N).
  - exists l. apply as_no; auto. intro A. apply (applies_dec d dmi dt f r DE N) in A. congruence.
Qed.
End E.

(** ** Looking a quirk up *)
Lemma names_nodup : NoDup (model_names ++ attr_names).
Proof. assert (E : nodup string_dec (model_names ++ attr_names) = model_names ++ attr_names) by (vm_compute; reflexivity). rewrite <- E. apply NoDup_nodup. Qed.
Definition index (q : Z) : nat := if q <? LAST_MODEL then Z.to_nat (q - FIRST_MODEL) else Z.to_nat (q - FIRST_ATTR + 24).
Lemma name_index : forall q k, quirk_get_name q = Some (S k) -> nth_error (model_names ++ attr_names) (index q) = Some k /\ FIRST_MODEL <= q /\ (LAST_MODEL <= q -> FIRST_ATTR <= q).
Proof.
  intros q k H. unfold quirk_get_name in H. unfold index. destruct (q <? FIRST_MODEL) eqn:A; [discriminate|]. apply Z.ltb_ge in A.
  destruct (q <? LAST_MODEL) eqn:B.
  - apply Z.ltb_lt in B. destruct (nth_error model_names _) as [n|] eqn:E; [|discriminate]. cbn [option_map] in H. injection H as H. apply S_inj in H. subst n.
    split; [|lia]. rewrite nth_error_app1; auto. apply nth_error_Some. congruence.
  - destruct (q <? FIRST_ATTR) eqn:C; [discriminate|]. apply Z.ltb_ge in B, C. destruct (nth_error attr_names _) as [n|] eqn:E; [|discriminate].
    cbn [option_map] in H. injection H as H. apply S_inj in H. subst n. split; [|lia].
    rewrite nth_error_app2; [|change (length model_names) with 24%nat; lia]. change (length model_names) with 24%nat.
    replace (Z.to_nat (q - FIRST_ATTR + 24) - 24)%nat with (Z.to_nat (q - FIRST_ATTR)) by lia. exact E.
Qed.
Lemma name_inj : forall a b k, quirk_get_name a = Some (S k) -> quirk_get_name b = Some (S k) -> a = b.
Proof.
  intros a b k A B. apply name_index in A, B. destruct A as (EA & A1 & A2), B as (EB & B1 & B2).
  assert (E : index a = index b).
  { pose proof names_nodup as N. rewrite NoDup_nth_error in N. apply N; [|congruence]. apply nth_error_Some. congruence. }
  unfold index, FIRST_MODEL, LAST_MODEL, FIRST_ATTR in *.
  assert (LA : forall q : Z, nth_error (model_names ++ attr_names) (index q) <> None -> (index q < 43)%nat).
  { intros q N. apply nth_error_Some in N. exact N. }
  destruct (a <? 124) eqn:LTA, (b <? 124) eqn:LTB; rewrite ?Z.ltb_lt, ?Z.ltb_ge in *; lia.
Qed.
Lemma find_app_some : forall (l : list (Z * value)) i r, find (fun p => fst p =? i) (l ++ r) =
  match find (fun p => fst p =? i) l with Some x => Some x | None => find (fun p => fst p =? i) r end.
Proof. induction l as [|p l IH]; intros i r; cbn; auto. destruct (fst p =? i); auto. Qed.
Lemma not_named : forall ps l i k, props_ok ps l -> quirk_get_name i = Some (S k) -> ~ In k (map fst l) -> find (fun p => fst p =? i) (rev ps) = None.
Proof.
  intros ps l i k PO N H. destruct (find _ (rev ps)) as [[j v]|] eqn:F; auto. exfalso. apply find_some in F. destruct F as [I E]. cbn in E. apply Z.eqb_eq in E. subst j.
  apply in_rev in I. clear -PO N H I. induction PO as [|p q ps l [A B] PO IH]; [destruct I|]. destruct I as [->|I].
  - apply H. cbn in *. left. rewrite N in A. injection A as A. now apply S_inj in A.
  - apply IH; auto. intro K. apply H. now right.
Qed.
Lemma last_found : forall ps l i k v, props_ok ps l -> quirk_get_name i = Some (S k) -> last_setting l k v -> quirk_find_prop ps i = Some v.
Proof.
  intros ps l i k v PO N (a & b & -> & NB). unfold quirk_find_prop. apply Forall2_app_inv_r in PO. destruct PO as (pa & pb & PA & PB & ->).
  inversion PB as [|p q pb' b' [A B] PB']; subst. cbn [fst snd] in A, B. rewrite rev_app_distr. cbn [rev]. rewrite <- app_assoc. rewrite find_app_some.
  rewrite (not_named pb' b i k PB' N NB). cbn [app find]. assert (EI : fst p = i) by (eapply name_inj; [exact A|exact N]). rewrite EI, Z.eqb_refl. cbn [option_map]. now rewrite B.
Qed.
