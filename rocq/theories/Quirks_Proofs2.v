(** Entries of quirk files. *)
Require Import Coq.Strings.Ascii Coq.Strings.String Coq.ZArith.ZArith Coq.QArith.QArith Coq.Lists.List Coq.Bool.Bool Coq.micromega.Lia.
Require Import Verif.Str_Model Verif.Str_Spec Verif.Str_Proofs Verif.Str_Proofs2 Verif.Parse_Model Verif.Quirks_Model Verif.Quirks_Spec Verif.Quirks_Proofs.
Import ListNotations.
Open Scope Z_scope.

(** ** Hexadecimal numbers *)
Definition is_upper_hex (c : ascii) : bool := in_set alphabet_upper c.
Lemma upper_char : forall c, implb (in_set (S "0123456789xABCDEF") c && is_set (digit 16 c)) (is_upper_hex c) = true.
Proof. apply by_ascii. vm_compute. reflexivity. Qed.
Lemma upper_digit : forall c, implb (is_upper_hex c) (in_set (S "0123456789xABCDEF") c && is_set (digit 16 c)) = true.
Proof. apply by_ascii. vm_compute. reflexivity. Qed.
Lemma dig_digit : forall base s a n, dig base s a n -> Forall (fun c => is_set (digit base c) = true) s.
Proof. induction 1; constructor; auto. now rewrite H. Qed.
Lemma base16 : base_ok 16. Proof. right. right. reflexivity. Qed.

Lemma hex_sound : forall v n, parse_hex v = Some n -> hex v n.
Proof.
  intros v n H. unfold parse_hex in H.
  destruct (strneq v (S "0x") 2) eqn:P; cbn [negb] in H; [|discriminate].
  destruct (safe_atou_base 16 v) as [k|] eqn:A; [|discriminate].
  destruct (forallb (in_set (S "0123456789xABCDEF")) v) eqn:F; cbn [negb] in H; [|discriminate].
  destruct (k <=? 65535) eqn:L; [|discriminate]. injection H as ->. apply Z.leb_le in L.
  unfold strneq in P. apply streq_ok in P.
  assert (V : exists ds, v = S "0x" ++ ds).
  { destruct v as [|a [|b v]]; try discriminate. cbn in P. injection P as -> ->. now exists v. }
  destruct V as [ds ->]. apply atou_lemma in A; [|apply base16]. destruct A as (m & I & R & E).
  destruct I as (ws & sg & kk & pre & ds' & m' & EQ & BW & SG & PR & NM & EM).
  assert (ws = []) as ->.
  { destruct ws as [|w ws]; auto. inversion BW as [|? ? B]; subst. injection EQ as <- _. exfalso. apply isspace_ok in B. discriminate. }
  assert (sg = [] /\ kk = 1) as [-> ->].
  { destruct SG as [X|[X|[X|[]]]]; injection X as <- <-; auto; discriminate. }
  cbn [app] in EQ. destruct (numeral_dig 16 ds' m' base16 NM) as [N0 D].
  assert (pre = S "0x" /\ ds' = ds) as [-> ->].
  { destruct PR as [<-|[<-|[<-|[]]]].
    - cbn [app] in EQ. subst ds'. apply dig_digit in D. inversion D as [|? ? _ D2]; subst. inversion D2 as [|? ? X]; subst. discriminate.
    - injection EQ as ->. auto.
    - discriminate. }
  rewrite Z.mul_1_l in EM. subst m. exists ds, m'. split; [reflexivity|]. split.
  - apply dig_digit in D. rewrite Forall_forall in *. intros c I. specialize (D c I). rewrite forallb_forall in F.
    specialize (F c ltac:(apply in_or_app; auto)). pose proof (upper_char c) as U. rewrite F, D in U. cbn in U. now apply in_set_ok.
  - assert (0 <= m') by (eapply numeral_nonneg; [|exact NM]; lia). repeat split; auto; lia.
Qed.
Lemma hex_complete : forall v n, hex v n -> parse_hex v = Some n.
Proof.
  intros v n (ds & m & -> & F & NM & R & -> & L). unfold parse_hex.
  assert (0 <= m) by (eapply numeral_nonneg; [|exact NM]; lia).
  assert (strneq (S "0x" ++ ds) (S "0x") 2 = true) as -> by (apply streq_ok; reflexivity). cbn [negb].
  assert (safe_atou_base 16 (S "0x" ++ ds) = Some (m mod 2^32)) as ->.
  { apply atou_lemma; [apply base16|]. exists m. split; [|split; [lia|reflexivity]].
    exists [], [], 1, (S "0x"), ds, m. repeat split; auto; [left; reflexivity|right; left; reflexivity|lia]. }
  assert (forallb (in_set (S "0123456789xABCDEF")) (S "0x" ++ ds) = true) as ->.
  { apply forallb_forall. intros c I. apply in_app_or in I. destruct I as [[<-|[<-|[]]]|I]; try reflexivity.
    rewrite Forall_forall in F. specialize (F c I). pose proof (upper_digit c) as U. unfold is_upper_hex in U. apply in_set_ok in F. rewrite F in U.
    cbn [implb] in U. now apply andb_true_iff in U as [-> _]. }
  cbn [negb]. apply Z.leb_le in L. now rewrite L.
Qed.

(** ** Criteria *)
Definition type_bit (t : devtype) : Z :=
  match t with
  | Mouse => UDEV_MOUSE | Pointingstick => UDEV_POINTINGSTICK | Touchpad => UDEV_TOUCHPAD | Tablet => UDEV_TABLET
  | TabletPad => UDEV_TABLET_PAD | Joystick => UDEV_JOYSTICK | Keyboard => UDEV_KEYBOARD
  end.
Definition add_crit (m : match_) (c : criterion) : match_ :=
  match c with
  | Name p => set_name m (Some p) | Bus b => set_bus m (Some b) | Vendor n => set_vid m (Some n) | Product n => set_pid m (Some n)
  | Version n => set_version m (Some n) | Dmi p => set_dmi m (Some p) | Type_ t => set_type m (Some (type_bit t))
  | DeviceTree p => set_dt m (Some p)
  end.
Definition slot (m : match_) (n : nat) : bool :=
  match n with
  | 0 => is_set (m_name m) | 1 => is_set (m_bus m) | 2 => is_set (m_vid m) | 3 => is_set (m_pid m)
  | 4 => is_set (m_version m) | 5 => is_set (m_dmi m) | 6 => is_set (m_type m) | _ => is_set (m_dt m)
  end%nat.

Lemma assoc_ok : forall {A} (l : list (string * A)) k x, assoc l k = Some x -> exists n, k = S n /\ In (n, x) l.
Proof.
  induction l as [|[n y] l IH]; intros k x H; cbn in H; [discriminate|]. destruct (streq k (S n)) eqn:E.
  - injection H as ->. apply streq_ok in E. exists n. split; auto. now left.
  - destruct (IH k x H) as (n' & ? & ?). exists n'. split; auto. now right.
Qed.
Lemma match_complete : forall s k v c, match_text k v c -> slot (s_match s) (which c) = false ->
  parse_match s (S k) v = Some (matched s (add_crit (s_match s) c)).
Proof.
  intros s k v c H SL. unfold parse_match.
  destruct H; cbn [which slot] in SL; cbn [streq list_eq_dec].
  - change (streq (S "MatchName") (S "MatchName")) with true. now rewrite SL.
  - change (streq (S "MatchBus") (S "MatchName")) with false. change (streq (S "MatchBus") (S "MatchBus")) with true. cbv iota. rewrite SL.
    assert (assoc bus_words (S w) = Some b) as ->; [|reflexivity]. repeat (destruct H as [X|H]; [injection X as <- <-; reflexivity|]). destruct H.
  - change (streq (S "MatchVendor") (S "MatchName")) with false. change (streq (S "MatchVendor") (S "MatchBus")) with false.
    change (streq (S "MatchVendor") (S "MatchVendor")) with true. cbv iota. rewrite SL. now rewrite (hex_complete _ _ H).
  - change (streq (S "MatchProduct") (S "MatchName")) with false. change (streq (S "MatchProduct") (S "MatchBus")) with false.
    change (streq (S "MatchProduct") (S "MatchVendor")) with false. change (streq (S "MatchProduct") (S "MatchProduct")) with true.
    cbv iota. rewrite SL. now rewrite (hex_complete _ _ H).
  - change (streq (S "MatchVersion") (S "MatchName")) with false. change (streq (S "MatchVersion") (S "MatchBus")) with false.
    change (streq (S "MatchVersion") (S "MatchVendor")) with false. change (streq (S "MatchVersion") (S "MatchProduct")) with false.
    change (streq (S "MatchVersion") (S "MatchVersion")) with true. cbv iota. rewrite SL. now rewrite (hex_complete _ _ H).
  - change (streq (S "MatchDMIModalias") (S "MatchName")) with false. change (streq (S "MatchDMIModalias") (S "MatchBus")) with false.
    change (streq (S "MatchDMIModalias") (S "MatchVendor")) with false. change (streq (S "MatchDMIModalias") (S "MatchProduct")) with false.
    change (streq (S "MatchDMIModalias") (S "MatchVersion")) with false. change (streq (S "MatchDMIModalias") (S "MatchDMIModalias")) with true.
    cbv iota. rewrite SL. assert (strneq (S "dmi:" ++ v) (S "dmi:") 4 = true) as -> by (apply streq_ok; reflexivity). reflexivity.
  - change (streq (S "MatchUdevType") (S "MatchName")) with false. change (streq (S "MatchUdevType") (S "MatchBus")) with false.
    change (streq (S "MatchUdevType") (S "MatchVendor")) with false. change (streq (S "MatchUdevType") (S "MatchProduct")) with false.
    change (streq (S "MatchUdevType") (S "MatchVersion")) with false. change (streq (S "MatchUdevType") (S "MatchDMIModalias")) with false.
    change (streq (S "MatchUdevType") (S "MatchUdevType")) with true. cbv iota. rewrite SL.
    assert (assoc type_words (S w) = Some (type_bit t)) as ->; [|reflexivity]. repeat (destruct H as [X|H]; [injection X as <- <-; reflexivity|]). destruct H.
  - change (streq (S "MatchDeviceTree") (S "MatchName")) with false. change (streq (S "MatchDeviceTree") (S "MatchBus")) with false.
    change (streq (S "MatchDeviceTree") (S "MatchVendor")) with false. change (streq (S "MatchDeviceTree") (S "MatchProduct")) with false.
    change (streq (S "MatchDeviceTree") (S "MatchVersion")) with false. change (streq (S "MatchDeviceTree") (S "MatchDMIModalias")) with false.
    change (streq (S "MatchDeviceTree") (S "MatchUdevType")) with false. change (streq (S "MatchDeviceTree") (S "MatchDeviceTree")) with true.
    cbv iota. now rewrite SL.
Qed.
Lemma match_sound : forall s k v s', parse_match s (S k) v = Some s' ->
  exists c, match_text k v c /\ slot (s_match s) (which c) = false /\ s' = matched s (add_crit (s_match s) c).
Proof.
  intros s k v s' H. unfold parse_match in H.
  destruct (streq (S k) (S "MatchName")) eqn:E1.
  { apply streq_ok, S_inj in E1. subst k. destruct (is_set _) eqn:Q in H; [discriminate|]. injection H as <-.
    exists (Name v). repeat split; auto. constructor. }
  destruct (streq (S k) (S "MatchBus")) eqn:E2.
  { apply streq_ok, S_inj in E2. subst k. destruct (is_set _) eqn:Q in H; [discriminate|].
    destruct (assoc bus_words v) as [b|] eqn:A; [|discriminate]. injection H as <-. destruct (assoc_ok _ _ _ A) as (n & -> & I).
    exists (Bus b). repeat split; auto. constructor. exact I. }
  destruct (streq (S k) (S "MatchVendor")) eqn:E3.
  { apply streq_ok, S_inj in E3. subst k. destruct (is_set _) eqn:Q in H; [discriminate|].
    destruct (parse_hex v) as [n|] eqn:A; [|discriminate]. injection H as <-.
    exists (Vendor n). repeat split; auto. constructor. now apply hex_sound. }
  destruct (streq (S k) (S "MatchProduct")) eqn:E4.
  { apply streq_ok, S_inj in E4. subst k. destruct (is_set _) eqn:Q in H; [discriminate|].
    destruct (parse_hex v) as [n|] eqn:A; [|discriminate]. injection H as <-.
    exists (Product n). repeat split; auto. constructor. now apply hex_sound. }
  destruct (streq (S k) (S "MatchVersion")) eqn:E5.
  { apply streq_ok, S_inj in E5. subst k. destruct (is_set _) eqn:Q in H; [discriminate|].
    destruct (parse_hex v) as [n|] eqn:A; [|discriminate]. injection H as <-.
    exists (Version n). repeat split; auto. constructor. now apply hex_sound. }
  destruct (streq (S k) (S "MatchDMIModalias")) eqn:E6.
  { apply streq_ok, S_inj in E6. subst k. destruct (is_set _) eqn:Q in H; [discriminate|].
    destruct (strneq v (S "dmi:") 4) eqn:A; [|discriminate]. injection H as <-.
    exists (Dmi v). repeat split; auto. unfold strneq in A. apply streq_ok in A.
    rewrite <- (firstn_skipn 4 v), A. change (firstn 4 (S "dmi:")) with (S "dmi:"). constructor. }
  destruct (streq (S k) (S "MatchUdevType")) eqn:E7.
  { apply streq_ok, S_inj in E7. subst k. destruct (is_set _) eqn:Q in H; [discriminate|].
    destruct (assoc type_words v) as [t|] eqn:A; [|discriminate]. injection H as <-. destruct (assoc_ok _ _ _ A) as (n & -> & I).
    assert (X : exists d, type_bit d = t /\ In (n, d) [("mouse", Mouse); ("pointingstick", Pointingstick); ("touchpad", Touchpad); ("tablet", Tablet);
      ("tablet-pad", TabletPad); ("joystick", Joystick); ("keyboard", Keyboard)]%string).
    { repeat (destruct I as [X|I]; [injection X as <- <-|]); [exists Touchpad|exists Mouse|exists Pointingstick|exists Keyboard|exists Joystick|exists Tablet|exists TabletPad|destruct I];
        (split; [reflexivity|cbn; tauto]). }
    destruct X as (d & <- & I'). exists (Type_ d). repeat split; auto. now constructor. }
  destruct (streq (S k) (S "MatchDeviceTree")) eqn:E8; [|discriminate].
  apply streq_ok, S_inj in E8. subst k. destruct (is_set _) eqn:Q in H; [discriminate|]. injection H as <-.
  exists (DeviceTree v). repeat split; auto. constructor.
Qed.
