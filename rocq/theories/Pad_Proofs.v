(** Proofs about tablet pads *)
Require Import Coq.ZArith.ZArith Coq.QArith.QArith Coq.Lists.List Coq.Bool.Bool Coq.micromega.Lia Coq.micromega.Lqa.
Require Import Verif.Pad_Model Verif.Pad_Spec.
Import ListNotations.
Open Scope Z_scope.

(** ** Setting up: the button map *)
Definition map_inj (m : Z -> mapping) : Prop := (forall c c' n, m c = Button n -> m c' = Button n -> c = c') /\ (forall c c' n, m c = Key n -> m c' = Key n -> c = c').
Definition map_good (m : Z -> mapping) (n : Z) : Prop := map_inj m /\ m 0 = Unmapped /\ 0 <= n /\ forall c k, m c = Button k -> 0 <= k < n.
Lemma map_none : map_good (fun _ => Unmapped) 0.
Proof. split; [split; intros; discriminate|]. split; [reflexivity|]. split; [lia|intros; discriminate]. Qed.
Lemma map_add : forall m n c, c <> 0 -> map_good m n -> map_good (upd m c (Button n)) (n + 1).
Proof.
  intros m n c C ((A1 & A2) & B & N & D). unfold upd. split; [split|split; [|split]].
  - intros x y k. destruct (Z.eqb_spec x c), (Z.eqb_spec y c); intros X Y; try congruence.
    + injection X as <-. apply D in Y. lia.
    + injection Y as <-. apply D in X. lia.
    + eapply A1; eassumption.
  - intros x y k. destruct (Z.eqb_spec x c), (Z.eqb_spec y c); intros X Y; try discriminate. eapply A2; eassumption.
  - destruct (Z.eqb_spec 0 c); [congruence|exact B].
  - lia.
  - intros x k. destruct (Z.eqb_spec x c); intros X; [injection X as <-; lia|apply D in X; lia].
Qed.
Lemma map_key : forall m n c, c <> 0 -> (forall x, m x = Key c -> x = c) -> map_good m n -> map_good (upd m c (Key c)) n.
Proof.
  intros m n c C O ((A1 & A2) & B & N & D). unfold upd. split; [split|split; [|split]]; auto.
  - intros x y k. destruct (Z.eqb_spec x c), (Z.eqb_spec y c); intros X Y; try discriminate. eapply A1; eassumption.
  - intros x y k. destruct (Z.eqb_spec x c), (Z.eqb_spec y c); intros X Y; try congruence.
    + injection X as <-. symmetry. rewrite e. symmetry. apply O in Y. congruence.
    + injection Y as <-. apply O in X. congruence.
    + eapply A2; eassumption.
  - destruct (Z.eqb_spec 0 c); [congruence|exact B].
  - intros x k. destruct (Z.eqb_spec x c); intros X; [discriminate|apply D in X; lia].
Qed.
Lemma libwacom_good : forall cs a, map_good (fst a) (snd a) -> (forall x k, fst a x <> Key k) ->
  let r := fold_left (fun a c => if c =? 0 then a else (upd (fst a) c (Button (snd a)), snd a + 1)) cs a in map_good (fst r) (snd r) /\ forall x k, fst r x <> Key k.
Proof.
  induction cs as [|c cs IH]; intros a G K; [split; assumption|]. cbn [fold_left]. destruct (Z.eqb_spec c 0); [apply IH; assumption|]. apply IH; cbn [fst snd].
  - apply map_add; assumption.
  - intros x k. unfold upd. destruct (x =? c); [discriminate|apply K].
Qed.
Lemma kernel_good : forall d cs a, map_good (fst a) (snd a) -> (forall x k, fst a x <> Key k) -> (forall c, In c cs -> c <> 0) ->
  let r := fold_left (fun a c => if has_key d c then (upd (fst a) c (Button (snd a)), snd a + 1) else a) cs a in map_good (fst r) (snd r) /\ forall x k, fst r x <> Key k.
Proof.
  intros d. induction cs as [|c cs IH]; intros a G K N; [split; assumption|]. cbn [fold_left]. destruct (has_key d c); apply IH; auto; try (intros; apply N; right; assumption); cbn [fst snd].
  - apply map_add; [apply N; left; reflexivity|assumption].
  - intros x k. unfold upd. destruct (x =? c); [discriminate|apply K].
Qed.
Lemma keys_good : forall d cs m n, map_good m n -> (forall x k, m x = Key k -> x = k) -> (forall c, In c cs -> c <> 0) ->
  let r := fold_left (fun m c => if has_key d c then upd m c (Key c) else m) cs m in map_good r n.
Proof.
  intros d. induction cs as [|c cs IH]; intros m n G K N; [assumption|]. cbn [fold_left]. destruct (has_key d c); apply IH; auto; try (intros; apply N; right; assumption).
  - apply map_key; auto. apply N. left. reflexivity.
  - intros x k. unfold upd. destruct (Z.eqb_spec x c); intros X; [congruence|apply K; assumption].
Qed.
Lemma init_buttons_good : forall d, map_good (fst (init_buttons d)) (snd (init_buttons d)).
Proof.
  intros d. unfold init_buttons. assert (B : map_good (fst (match by_usbid d with Some cs => buttons_from_libwacom cs | None => buttons_from_kernel d end)) (snd (match by_usbid d with Some cs => buttons_from_libwacom cs | None => buttons_from_kernel d end))
    /\ forall x k, fst (match by_usbid d with Some cs => buttons_from_libwacom cs | None => buttons_from_kernel d end) x <> Key k).
  { destruct (by_usbid d).
    - apply libwacom_good; [apply map_none|discriminate].
    - apply kernel_good; [apply map_none|discriminate|]. intros c H. vm_compute in H. intuition lia. }
  destruct (match by_usbid d with Some cs => buttons_from_libwacom cs | None => buttons_from_kernel d end) as [m n]. cbn [fst snd] in *. unfold init_keys. destruct (vendor_wacom d); [|apply B].
  apply keys_good; [apply B| |]; [intros x k X; exfalso; apply (proj2 B) in X; exact X|]. intros c [<-|[<-|[<-|[]]]]; discriminate.
Qed.

(** ** Modes *)
Lemma lit_range : forall br n m k, lit br m n = Some k -> Z.of_nat m <= k < Z.of_nat (m + n).
Proof. intros br. induction n as [|n IH]; intros m k; cbn; [discriminate|]. destruct (br m) as [b|]; [|discriminate]. destruct (b =? 0); [|intros X; injection X as <-; lia]. intros X. apply IH in X. lia. Qed.
Lemma lit_spec : forall br n m k, lit br m n = Some k -> exists j, k = Z.of_nat (m + j) /\ (j < n)%nat /\ (forall i, (i < j)%nat -> br (m + i)%nat = Some 0) /\ exists b, br (m + j)%nat = Some b /\ b <> 0.
Proof.
  intros br. induction n as [|n IH]; intros m k; cbn; [discriminate|]. destruct (br m) as [b|] eqn:B; [|discriminate]. destruct (Z.eqb_spec b 0).
  - intros X. apply IH in X. destruct X as (j & -> & J & A & C). exists (S j). replace (m + S j)%nat with (S m + j)%nat by lia. repeat split; auto; [lia|]. intros [|i] I; [rewrite Nat.add_0_r; congruence|]. replace (m + S i)%nat with (S m + i)%nat by lia. apply A. lia.
  - intros X. injection X as <-. exists 0%nat. rewrite Nat.add_0_r. repeat split; auto; [lia|intros; lia|]. exists b. auto.
Qed.
Lemma get_mode_lit : forall e g n m, get_mode e g n = Some m -> is_lit e g n m.
Proof. intros e g n m X. apply lit_spec in X. destruct X as (j & A & B & C & D). exists j. auto. Qed.
(** The groups: modes in range, as many LEDs as modes or none *)
Definition group_ok (g : group) : Prop := 0 <= cur g < num_modes g /\ (leds g = 0%nat \/ Z.of_nat (leds g) = num_modes g).
Definition groups_ok (gs : list group) : Prop := NoDup (map gix gs) /\ Forall group_ok gs.
Lemma update_shape : forall e nb g b, shape (update_mode e nb g b) = shape g.
Proof. intros. unfold update_mode. destruct (is_toggle nb g b); [|reflexivity]. destruct (get_mode e (gix g) (leds g)); reflexivity. Qed.
Lemma update_gix : forall e nb g b, gix (update_mode e nb g b) = gix g.
Proof. intros. unfold update_mode. destruct (is_toggle nb g b); [|reflexivity]. destruct (get_mode e (gix g) (leds g)); reflexivity. Qed.
Lemma update_ok : forall e nb g b, group_ok g -> group_ok (update_mode e nb g b).
Proof.
  intros e nb g b [A B]. unfold update_mode. destruct (is_toggle nb g b); [|split; assumption]. destruct (get_mode e (gix g) (leds g)) as [m|] eqn:M; [|split; assumption].
  unfold get_mode in M. apply lit_range in M. split; cbn; [|exact B]. destruct B as [B|B]; [rewrite B in M; cbn in M; lia|lia].
Qed.
Lemma put_shape : forall gs g, NoDup (map gix gs) -> (forall x, In x gs -> gix x = gix g -> shape x = shape g) -> map shape (put gs g) = map shape gs.
Proof.
  intros gs g ND S. unfold put. rewrite map_map. apply map_ext_in. intros x I. destruct (Z.eqb_spec (gix x) (gix g)); [|reflexivity]. symmetry. apply S; assumption.
Qed.
Lemma shape_gix : forall gs gs', map shape gs = map shape gs' -> map gix gs = map gix gs'.
Proof. intros gs gs' H. rewrite <- (map_map shape (fun x => fst (fst (fst x)))), H, map_map. reflexivity. Qed.
Lemma same_gix : forall gs x y, NoDup (map gix gs) -> In x gs -> In y gs -> gix x = gix y -> x = y.
Proof.
  induction gs as [|g gs IH]; intros x y ND X Y E; [destruct X|]. cbn in ND. inversion ND as [|? ? N ND']; subst. destruct X as [->|X], Y as [->|Y]; auto.
  - exfalso. apply N. rewrite E. apply in_map, Y.
  - exfalso. apply N. rewrite <- E. apply in_map, X.
Qed.
Lemma put_in : forall gs g x, In x (put gs g) -> x = g \/ (In x gs /\ gix x <> gix g).
Proof. intros gs g x H. unfold put in H. apply in_map_iff in H. destruct H as (y & <- & Y). destruct (Z.eqb_spec (gix y) (gix g)); auto. Qed.
Lemma put_has : forall gs g x, In x gs -> gix x = gix g -> In g (put gs g).
Proof. intros gs g x X E. unfold put. apply in_map_iff. exists x. split; [rewrite E, Z.eqb_refl; reflexivity|exact X]. Qed.

(** What notify_mask does to groups and sends *)
Definition key_of (m : Z -> mapping) (mask : Z -> bool) (down : bool) (c : Z) : list (mapping * bool) :=
  if mask c then match m c with Unmapped => [] | x => [(x, down)] end else [].
Definition ev_key (e : pev) : list (mapping * bool) := match e with PButton _ n d _ _ => [(Button n, d)] | PKey _ k d => [(Key k, d)] | _ => [] end.
(** The change of mode [e] tells: a press of a toggle button of the group *)
Definition toggles (nb : Z) (e : env) (l : list pev) (g : group) (m : Z) : Prop :=
  exists t n, In (PButton t n true m (gix g)) l /\ is_toggle nb g n = true /\ is_lit e (gix g) (leds g) m.
Lemma toggle_shape : forall nb g g' b, shape g = shape g' -> is_toggle nb g b = is_toggle nb g' b.
Proof. intros nb g g' b S. unfold is_toggle. assert (E : tmask g = tmask g') by (injection S; auto). rewrite E. reflexivity. Qed.
Lemma button_shape : forall nb g g' b, shape g = shape g' -> has_button nb g b = has_button nb g' b.
Proof. intros nb g g' b S. unfold has_button. assert (E : bmask g = bmask g') by (injection S; auto). rewrite E. reflexivity. Qed.
Lemma notify_mask_spec : forall nb m e t down mask cs gs gs' l, groups_ok gs -> notify_mask nb m e t down mask cs gs = Some (gs', l) ->
  groups_ok gs' /\ map shape gs' = map shape gs /\ flat_map ev_key l = flat_map (key_of m mask down) cs /\ Forall (mode_ok gs) l /\
  (forall g, In g gs -> exists g', In g' gs' /\ shape g' = shape g /\ (cur g' = cur g \/ down = true /\ toggles nb e l g (cur g'))) /\
  (forall x, In x l -> match x with PButton u n d md g => u = t /\ d = down /\ exists y, In y gs /\ gix y = g /\ has_button nb y n = true /\
      (is_toggle nb y n = true -> down = true -> forall k, get_mode e g (leds y) = Some k -> md = k) | PKey u _ d => u = t /\ d = down | _ => False end).
Proof.
  intros nb m e t down mask. induction cs as [|c cs IH]; intros gs gs' l OK H.
  - cbn in H. injection H as <- <-. repeat split; try apply OK; auto. + intros g G. exists g. auto. + intros x [].
  - cbn in H. destruct (mask c) eqn:MC.
    2: { destruct (IH _ _ _ OK H) as (A & B & C & D). split; [exact A|]. split; [exact B|]. split; [|exact D]. cbn. unfold key_of at 1. rewrite MC. exact C. }
    destruct (m c) as [|n|k] eqn:M.
    + destruct (IH _ _ _ OK H) as (A & B & C & D). split; [exact A|]. split; [exact B|]. split; [|exact D]. cbn. unfold key_of at 1. rewrite MC, M. exact C.
    + destruct (find _ gs) as [g|] eqn:F; [|discriminate]. apply find_some in F. destruct F as [FI FB]. set (g1 := if down then update_mode e nb g n else g) in *.
      destruct (notify_mask nb m e t down mask cs (put gs g1)) as [[gs2 l2]|] eqn:N; [|discriminate]. injection H as <- <-.
      assert (S1 : shape g1 = shape g) by (unfold g1; destruct down; [apply update_shape|reflexivity]). assert (X1 : gix g1 = gix g) by (injection S1; auto).
      destruct OK as [ND FO]. rewrite Forall_forall in FO. assert (O1 : group_ok g1) by (unfold g1; destruct down; [apply update_ok|]; apply FO, FI).
      assert (SG : forall x, In x gs -> gix x = gix g1 -> x = g) by (intros x X E; apply (same_gix gs); auto; congruence).
      assert (SH : map shape (put gs g1) = map shape gs) by (apply put_shape; [exact ND|intros x X E; rewrite (SG x X E); symmetry; exact S1]).
      assert (OK2 : groups_ok (put gs g1)). { split; [rewrite (shape_gix _ _ SH); exact ND|]. apply Forall_forall. intros x X. apply put_in in X. destruct X as [->|[X _]]; auto. }
      destruct (IH _ _ _ OK2 N) as (A & B & C & D & E & F). split; [exact A|]. split; [congruence|]. split; [|split; [|split]].
      * cbn. unfold key_of at 1. rewrite MC, M. cbn. rewrite C. reflexivity.
      * constructor.
        -- cbn. exists g. split; [exact FI|]. split; [auto|]. injection S1. intros. destruct O1 as [O1 _]. congruence.
        -- eapply Forall_impl; [|exact D]. assert (Q : forall g0 m0, (exists x, In x (put gs g1) /\ gix x = g0 /\ 0 <= m0 < num_modes x) -> exists x, In x gs /\ gix x = g0 /\ 0 <= m0 < num_modes x).
           { intros g0 m0 (x & X & Y & Z0). apply put_in in X. destruct X as [->|[X _]]; [|exists x; auto]. exists g. split; [exact FI|]. injection S1. intros. split; congruence. }
           intros [u n0 d0 md g0|u k d0|u n0 po md g0|u n0 po md g0]; cbn; auto.
      * intros x X. destruct (Z.eq_dec (gix x) (gix g1)) as [Y|Y].
        -- pose proof (SG x X Y) as XG. subst x. destruct (E g1 (put_has gs g1 g FI (eq_sym X1))) as (g' & G1 & G2 & G3). exists g'. split; [exact G1|]. split; [congruence|].
           destruct G3 as [G3|(G3 & T & n0 & I0 & T2 & T3)].
           ++ rewrite G3. unfold g1. destruct down; [|left; reflexivity]. unfold update_mode. destruct (is_toggle nb g n) eqn:TG; [|left; reflexivity]. destruct (get_mode e (gix g) (leds g)) as [mm|] eqn:GM; [|left; reflexivity].
              right. split; [reflexivity|]. exists t, n. split; [|split; [exact TG|apply get_mode_lit, GM]]. left. reflexivity.
           ++ right. split; [exact G3|]. exists T, n0. rewrite <- X1. split; [right; exact I0|]. split; [rewrite <- (toggle_shape _ g1 g); auto|]. injection S1. intros. congruence.
        -- assert (XP : In x (put gs g1)). { unfold put. apply in_map_iff. exists x. split; [|exact X]. destruct (Z.eqb_spec (gix x) (gix g1)); congruence. }
           destruct (E x XP) as (g' & G1 & G2 & G3). exists g'. split; [exact G1|]. split; [exact G2|]. destruct G3 as [G3|(G3 & T & n0 & I0 & T2 & T3)]; [left; exact G3|]. right. split; [exact G3|]. exists T, n0. split; [right; exact I0|auto].
      * intros x [<-|X].
        -- split; [reflexivity|]. split; [reflexivity|]. exists g. split; [exact FI|]. split; [auto|]. split; [exact FB|]. intros TG DN k GM. subst down. rewrite X1 in GM. unfold g1, update_mode. rewrite TG, GM. reflexivity.
        -- specialize (F x X). destruct x as [u n0 d0 md g0|u k d0|u n0 po md g0|u n0 po md g0]; auto. destruct F as (F1 & F2 & y & Y1 & Y2 & Y3 & Y4). split; [exact F1|]. split; [exact F2|].
           apply put_in in Y1. destruct Y1 as [->|[Y1 _]]; [|exists y; auto]. exists g. split; [exact FI|]. split; [congruence|]. split; [rewrite <- (button_shape nb g1 g) by exact S1; exact Y3|]. assert (LE : leds g1 = leds g) by (injection S1; auto). intros TG DN k0 GM. apply Y4; [rewrite (toggle_shape nb g1 g); auto|exact DN|congruence].
    + destruct (notify_mask nb m e t down mask cs gs) as [[gs2 l2]|] eqn:N; [|discriminate]. injection H as <- <-. destruct (IH _ _ _ OK N) as (A & B & C & D & E & F). split; [exact A|]. split; [exact B|]. split; [|split; [|split]].
      * cbn. unfold key_of at 1. rewrite MC, M. cbn. rewrite C. reflexivity.
      * constructor; [exact I|exact D].
      * intros g G. destruct (E g G) as (g' & G1 & G2 & G3). exists g'. split; [exact G1|]. split; [exact G2|]. destruct G3 as [G3|(G3 & T & n0 & I0 & T2 & T3)]; [left; exact G3|]. right. split; [exact G3|]. exists T, n0. split; [right; exact I0|auto].
      * intros x [<-|X]; [split; reflexivity|apply F, X].
Qed.
