(** Property C57: what the properties of a device mean, and that bad ones do no
    harm. *)
Require Import Coq.Strings.Ascii Coq.Strings.String Coq.ZArith.ZArith Coq.QArith.QArith Coq.QArith.Qabs Coq.Lists.List Coq.Bool.Bool Coq.micromega.Lia.
Require Import Verif.Str_Model Verif.Str_Spec Verif.Str_Proofs Verif.Str_Proofs2 Verif.Parse_Model Verif.Parse_Spec Verif.Parse_Proofs Verif.Parse_Proofs2.
Require Import Verif.Hw_Model Verif.Hw_Spec Verif.Hw_Proofs.
Import ListNotations.
Open Scope Z_scope.

(** The angle of a click of the wheel: the number of clicks goes before the
    angle, what is not valid does not count, without any it is 15 degrees, and
    a horizontal wheel of which nothing is known is like the vertical one.  It
    does not depend on the memory the result is written to. *)
Theorem C57_wheel : forall p garbage x y, ordinary p ->
  read_wheel_click_props p garbage = (x, y) ->
  (turn p "MOUSE_WHEEL_CLICK_COUNT" "MOUSE_WHEEL_CLICK_ANGLE" y \/
   no_turn p "MOUSE_WHEEL_CLICK_COUNT" "MOUSE_WHEEL_CLICK_ANGLE" /\ y = (15 # 1)%Q) /\
  (turn p "MOUSE_WHEEL_CLICK_COUNT_HORIZONTAL" "MOUSE_WHEEL_CLICK_ANGLE_HORIZONTAL" x \/
   no_turn p "MOUSE_WHEEL_CLICK_COUNT_HORIZONTAL" "MOUSE_WHEEL_CLICK_ANGLE_HORIZONTAL" /\ x = y).
Proof.
  intros p g x y O H. unfold read_wheel_click_props in H.
  destruct (read_click p "MOUSE_WHEEL_CLICK_COUNT" "MOUSE_WHEEL_CLICK_ANGLE" g) as [vok vy] eqn:V.
  destruct (read_click p "MOUSE_WHEEL_CLICK_COUNT_HORIZONTAL" "MOUSE_WHEEL_CLICK_ANGLE_HORIZONTAL" g)
    as [hok hx] eqn:Hz.
  injection H as E1 E2. subst vy.
  split.
  - destruct (click_spec _ _ _ _ _ _ O V) as [[_ T]|(_ & A & N)]; auto.
  - destruct (click_spec _ _ _ _ _ _ O Hz) as [[K T]|(K & A & N)]; rewrite K in E1; subst x; auto.
Qed.
Print Assumptions C57_wheel.

Definition example_props (n : string) : option str :=
  if String.eqb n "MOUSE_WHEEL_CLICK_COUNT" then Some (S "24")
  else if String.eqb n "MOUSE_WHEEL_CLICK_ANGLE" then Some (S "20")
  else if String.eqb n "MOUSE_WHEEL_CLICK_COUNT_HORIZONTAL" then Some (S "no")
  else if String.eqb n "MOUSE_DPI" then Some (S "400@125 *1000@125")
  else None.
Example C57_wheel_example :
  ordinary example_props /\
  exists x y, read_wheel_click_props example_props (7 # 1) = (x, y) /\
  (x == 15 # 1)%Q /\ (y == 15 # 1)%Q.
Proof.
  split.
  - intros n s P I. unfold example_props in P.
    assert (R : forall t, safe_atoi t <> Some INT_MIN -> ~ integer 10 t INT_MIN).
    { intros t N J. apply N. apply (atoi_lemma 10 t INT_MIN base10). split; auto.
      unfold INT_MIN, INT_MAX. lia. }
    repeat match type of P with
    | (if ?b then _ else _) = _ =>
        destruct b; [injection P as <-; revert I; apply R; vm_compute; discriminate|]
    end. discriminate.
  - do 2 eexists. split; [reflexivity|]. split; vm_compute; reflexivity.
Qed.

(** So the wheel always turns, and by a full turn at most. *)
Theorem C57_wheel_range : forall p garbage x y, ordinary p ->
  read_wheel_click_props p garbage = (x, y) ->
  (0 < Qabs x <= 360 # 1)%Q /\ (0 < Qabs y <= 360 # 1)%Q.
Proof.
  intros p g x y O H. destruct (C57_wheel p g x y O H) as [V Hz].
  assert (Y : (0 < Qabs y <= 360 # 1)%Q).
  { destruct V as [T|[_ ->]]; [exact (turn_range _ _ _ _ T)|split; vm_compute; congruence]. }
  split; [|exact Y].
  destruct Hz as [T|[_ ->]]; [exact (turn_range _ _ _ _ T)|exact Y].
Qed.
Print Assumptions C57_wheel_range.

(** Except with the smallest integer, which passes the check of the range. *)
Theorem C57_wheel_range_refuted : exists p, forall g,
  (snd (read_wheel_click_props p g) < - (360 # 1))%Q.
Proof.
  exists (fun n => if String.eqb n "MOUSE_WHEEL_CLICK_ANGLE" then Some (S "-2147483648") else None).
  intro g. vm_compute. reflexivity.
Qed.
Print Assumptions C57_wheel_range_refuted.

(** The resolution of a mouse is positive, whatever the property is; that of a
    trackpoint is always 1000 dpi, and so is that of a mouse without the
    property; a well-formed property is obeyed. *)
Theorem C57_dpi : forall stick p,
  0 < read_dpi_prop stick p <= 2147483647 /\
  (stick = true -> read_dpi_prop stick p = 1000) /\
  (p "MOUSE_DPI"%string = None -> read_dpi_prop stick p = 1000) /\
  (forall s l v, stick = false -> p "MOUSE_DPI"%string = Some s -> dpi_text s l -> chosen l v -> v <> 0 ->
     read_dpi_prop stick p = v).
Proof.
  intros stick p. unfold read_dpi_prop, DEFAULT_MOUSE_DPI. repeat split.
  - destruct stick; [lia|]. destruct (p "MOUSE_DPI"%string) as [s|]; [|lia].
    destruct (dpi_range_lemma s) as (v & E & P & F). rewrite E.
    destruct (Z.eqb_spec v 0); lia.
  - destruct stick; [lia|]. destruct (p "MOUSE_DPI"%string) as [s|]; [|lia].
    destruct (dpi_range_lemma s) as (v & E & P & F). rewrite E.
    unfold fits_int in F. destruct (Z.eqb_spec v 0); lia.
  - intros ->. reflexivity.
  - intros ->. destruct stick; reflexivity.
  - intros s l v -> P T C N. rewrite P, (dpi_wellformed_lemma s l v T C).
    destruct (Z.eqb_spec v 0); congruence.
Qed.
Print Assumptions C57_dpi.

Example C57_dpi_example :
  read_dpi_prop false example_props = 1000 /\
  read_dpi_prop false (fun _ => Some (S "400")) = 400 /\
  read_dpi_prop true (fun _ => Some (S "400")) = 1000 /\
  read_dpi_prop false (fun _ => Some (S "fast")) = 1000.
Proof. vm_compute. auto. Qed.

(** The multiplier of a trackpoint is positive; a positive one from a quirk is
    used, for trackpoints only. *)
Theorem C57_multiplier : forall stick q,
  (0 < trackpoint_multiplier stick q)%Q /\
  (stick = false \/ q = None -> trackpoint_multiplier stick q = 1%Q) /\
  (forall m, stick = true -> q = Some m -> (0 < m)%Q -> trackpoint_multiplier stick q = m).
Proof.
  intros stick q. unfold trackpoint_multiplier. repeat split.
  - destruct stick; cbn [negb]; [|reflexivity].
    destruct (Qle_bool (match q with Some m => m | None => 1 # 1 end) 0) eqn:E; [reflexivity|].
    apply Qnot_le_lt. intro L. apply Qle_bool_iff in L. congruence.
  - intros [->| ->]; [reflexivity|]. destruct stick; reflexivity.
  - intros m -> -> P. cbn [negb].
    destruct (Qle_bool m 0) eqn:E; [|reflexivity].
    apply Qle_bool_iff in E. exfalso. exact (Qlt_not_le _ _ P E).
Qed.
Print Assumptions C57_multiplier.

Example C57_multiplier_example :
  trackpoint_multiplier true (Some (3 # 2)) = (3 # 2)%Q /\
  trackpoint_multiplier true (Some (- (3 # 2))%Q) = 1%Q.
Proof. split; reflexivity. Qed.

(** The fuzz of a touchpad's or touchscreen's x and y: what the property asks
    for if the kernel filters nothing itself, and none if it does, so that no
    coordinate is filtered twice. *)
Theorem C57_fuzz : forall prop kernel f, asks_fuzz prop f ->
  single_fuzz true prop kernel = (if kernel =? 0 then f else 0) /\
  single_fuzz false prop kernel = kernel.
Proof. intros prop k f A. split; [exact (fuzz_spec prop k f A)|reflexivity]. Qed.
Print Assumptions C57_fuzz.

Example C57_fuzz_example :
  asks_fuzz (Some (S "8")) 8 /\ single_fuzz true (Some (S "8")) 0 = 8 /\ single_fuzz true (Some (S "8")) 4 = 0.
Proof.
  split; [|split; reflexivity].
  left. exists (S "8"). split; [reflexivity|]. split; [|lia].
  apply (atoi_lemma 10 (S "8") 8 base10). vm_compute. reflexivity.
Qed.

(** The same of the coordinates of many touches if the kernel filters
    nothing. *)
Theorem C57_fuzz_mt : forall prop f, asks_fuzz prop f -> mt_fuzz prop 0 = f.
Proof.
  intros prop f A. unfold mt_fuzz. rewrite (fuzz_spec prop 0 f A). cbn.
  destruct (Z.eqb_spec f 0); congruence.
Qed.
Print Assumptions C57_fuzz_mt.

(** But if it does, its fuzz stays, and is applied again: whatever the property
    says. *)
Theorem C57_fuzz_mt_refuted : forall prop f kernel, asks_fuzz prop f -> kernel <> 0 ->
  mt_fuzz prop kernel = kernel /\ single_fuzz true prop kernel = 0.
Proof.
  intros prop f k A N. unfold mt_fuzz. rewrite (fuzz_spec prop k f A).
  split.
  - destruct (Z.eqb_spec k 0); [congruence|reflexivity].
  - unfold single_fuzz. rewrite (fuzz_spec prop k f A). destruct (Z.eqb_spec k 0); congruence.
Qed.
Print Assumptions C57_fuzz_mt_refuted.

Example C57_fuzz_mt_example : asks_fuzz None 0 /\ mt_fuzz None 4 = 4.
Proof. split; [right; split; [reflexivity|discriminate]|reflexivity]. Qed.

(** A touchpad is built in or external, never both and never neither; hwdb
    decides, and where it is silent the bus, the vendor and the model do. *)
Theorem C57_touchpad : forall prop bus vendor apple wacom,
  let t := tag_touchpad prop bus vendor apple wacom no_tags in
  external_touchpad t = negb (internal_touchpad t) /\
  (internal_touchpad t = true <->
   said prop "internal" \/ unsaid prop /\ guessed_internal bus vendor apple wacom).
Proof.
  intros prop bus vendor apple wacom.
  assert (G : forall w, unsaid prop ->
    w = (let t1 := if bus =? BUS_USB then if apple then touchpad_is true no_tags else no_tags
                   else if bus =? BUS_BLUETOOTH then touchpad_is false no_tags
                   else touchpad_is true no_tags in
         let t2 := if vendor =? VENDOR_ID_LOGITECH then touchpad_is false t1 else t1 in
         let t3 := if wacom then touchpad_is false t2 else t2 in
         if negb (external_touchpad t3 || internal_touchpad t3) then touchpad_is false t3 else t3) ->
    external_touchpad w = negb (internal_touchpad w) /\
    (internal_touchpad w = true <->
     said prop "internal" \/ unsaid prop /\ guessed_internal bus vendor apple wacom)).
  { intros w U ->. unfold guessed_internal, BUS_USB, BUS_BLUETOOTH, VENDOR_ID_LOGITECH.
    assert (NS : ~ said prop "internal") by (destruct U; assumption).
    destruct (Z.eqb_spec bus 3), (Z.eqb_spec bus 5), (Z.eqb_spec vendor 1133), apple, wacom;
      cbn; (split; [reflexivity|]); (split; [intro; try discriminate|]);
      try (intros [?|(? & ? & ? & ? & ?)]; [contradiction|]);
      try reflexivity; try congruence; try lia;
      try (right; split; [assumption|]; repeat split; auto; lia);
      try (match goal with X : _ -> false = true |- _ => specialize (X ltac:(assumption)); discriminate end). }
  unfold tag_touchpad. destruct prop as [v|].
  - destruct (String.eqb_spec v "internal") as [->|N1].
    + cbn. split; [reflexivity|]. split; [left; reflexivity|reflexivity].
    + destruct (String.eqb_spec v "external") as [->|N2].
      * cbn. split; [reflexivity|]. split; [discriminate|].
        intros [E|[[_ U] _]]; [discriminate|contradiction U; reflexivity].
      * apply G; [split; congruence|reflexivity].
  - apply G; [split; discriminate|reflexivity].
Qed.
Print Assumptions C57_touchpad.

Example C57_touchpad_example :
  internal_touchpad (tag_touchpad None 24 2 false false no_tags) = true /\
  internal_touchpad (tag_touchpad None 3 1133 false false no_tags) = false /\
  internal_touchpad (tag_touchpad (Some "internal"%string) 5 1133 false false no_tags) = true.
Proof. repeat split. Qed.

(** A keyboard is one with the row of keys from Q to P; it is built in or
    external only if a quirk says so, and never both. *)
Theorem C57_keyboard : forall has q,
  let t := tag_keyboard has q no_tags in
  (keyboard t = true <-> forall c, 16 <= c <= 25 -> has c = true) /\
  (internal_keyboard t = true <-> keyboard t = true /\ q = Some "internal"%string) /\
  (external_keyboard t = true <-> keyboard t = true /\ q = Some "external"%string).
Proof.
  intros has q.
  assert (R : forallb has row = true <-> forall c, 16 <= c <= 25 -> has c = true).
  { rewrite forallb_forall. split.
    - intros F c C. apply F. unfold row.
      assert (c = 16 \/ c = 17 \/ c = 18 \/ c = 19 \/ c = 20 \/ c = 21 \/ c = 22 \/ c = 23 \/ c = 24 \/ c = 25)
        as K by lia. cbn. intuition.
    - intros F c I. apply F. unfold row in I. cbn in I. intuition lia. }
  unfold tag_keyboard. destruct (forallb has row) eqn:F; cbn [negb].
  - assert (A : forall c, 16 <= c <= 25 -> has c = true) by (apply R; reflexivity).
    destruct q as [v|].
    + destruct (String.eqb_spec v "internal") as [->|N1].
      * cbn. repeat split; auto; try discriminate. intros [_ E]. discriminate.
      * destruct (String.eqb_spec v "external") as [->|N2].
        -- cbn. repeat split; auto; try discriminate. intros [_ E]. discriminate.
        -- cbn. repeat split; auto; try discriminate; intros [_ E]; congruence.
    + cbn. repeat split; auto; try discriminate; intros [_ E]; discriminate.
  - cbn. repeat split; try discriminate; try (intros [E _]; discriminate).
    intro A. apply R in A. discriminate.
Qed.
Print Assumptions C57_keyboard.

Example C57_keyboard_example :
  internal_keyboard (tag_keyboard (fun c => c <? 100) (Some "internal"%string) no_tags) = true /\
  keyboard (tag_keyboard (fun c => c <? 25) None no_tags) = false.
Proof. split; reflexivity. Qed.

(** A mouse is external if it is on USB or Bluetooth, or a pointing stick that
    a quirk calls external. *)
Theorem C57_mouse : forall bus stick q,
  let t := tag_pointer bus stick q no_tags in
  (trackpoint t = stick) /\
  (external_mouse t = true <->
   bus = 3 \/ bus = 5 \/ (stick = true /\ q = Some "external"%string)).
Proof.
  intros bus stick q. unfold tag_pointer, tag_external_mouse, BUS_USB, BUS_BLUETOOTH.
  assert (X : forall e, tag_trackpoint stick q
     (Build_tags e false false false false false false) =
     Build_tags (e || (stick && match q with Some v => String.eqb v "external" | None => false end))
                stick false false false false false).
  { intro e. unfold tag_trackpoint. destruct stick; cbn; [reflexivity|].
    rewrite orb_false_r. reflexivity. }
  assert (Q1 : match q with Some v => String.eqb v "external" | None => false end = true <->
               q = Some "external"%string).
  { destruct q as [v|]; [|split; discriminate].
    rewrite String.eqb_eq. split; [intros ->; reflexivity|intro E; injection E; auto]. }
  destruct (Z.eqb_spec bus 3) as [B3|B3]; cbn [orb].
  - cbn. rewrite X. cbn. split; [reflexivity|]. split; auto.
  - destruct (Z.eqb_spec bus 5) as [B5|B5]; cbn [no_tags].
    + cbn. rewrite X. cbn. split; [reflexivity|]. split; auto.
    + unfold no_tags. rewrite X. cbn. split; [reflexivity|].
      rewrite andb_true_iff, Q1. intuition congruence.
Qed.
Print Assumptions C57_mouse.

(** So the word "internal" for a pointing stick has no effect on USB: it counts
    as an external mouse all the same (and can switch the touchpad off). *)
Theorem C57_stick_refuted : exists bus,
  let t := tag_pointer bus true (Some "internal"%string) no_tags in
  trackpoint t = true /\ external_mouse t = true.
Proof. exists 3. split; reflexivity. Qed.
Print Assumptions C57_stick_refuted.

Example C57_mouse_example :
  external_mouse (tag_pointer 17 true (Some "internal"%string) no_tags) = false /\
  external_mouse (tag_pointer 17 true (Some "external"%string) no_tags) = true.
Proof. split; reflexivity. Qed.
