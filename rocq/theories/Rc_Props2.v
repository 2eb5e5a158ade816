(** C43: which seat, device group and tool a device or event has. *)
Require Import Coq.ZArith.ZArith Coq.Lists.List Coq.Bool.Bool Coq.Arith.PeanoNat Coq.micromega.Lia.
Require Import Verif.Rc_Model Verif.Rc_Spec Verif.Rc_Proofs Verif.Rc_Proofs4 Verif.Rc_Proofs5 Verif.Rc_Proofs6 Verif.Rc_Proofs7 Verif.Rc_Proofs8 Verif.Rc_Props.
Import ListNotations.
Open Scope Z_scope.

(** ** Names never change *)
(** While anything exists, the seat and the group of a device, the names of a
    seat, the identifier of a group and the type and serial number of a tool
    stay what they are. *)
Theorem C43_stable : forall b l m x, legal_history b (l ++ m) -> (x < next (run b l))%nat ->
  let w := run b l in let w' := run b (l ++ m) in
  knd w' x = knd w x /\ seat_of w' x = seat_of w x /\ group_of w' x = group_of w x /\ name w' x = name w x /\ ident w' x = ident w x /\ ttype w' x = ttype w x /\ tserial w' x = tserial w x.
Proof.
  intros b l m x H X. destruct (R_run b l m (C25_safe _ _ H)) as (_ & _ & []). cbv zeta. repeat (split; [auto|]). auto.
Qed.

(** ** Seats *)
Lemma device_parts : forall b l d, legal_history b l -> 0 < ctx_held l -> live (run b l) d = true -> knd (run b l) d = K_device ->
  (live (run b l) (seat_of (run b l) d) = true /\ knd (run b l) (seat_of (run b l) d) = K_seat) /\
  forall g, group_of (run b l) d = Some g -> live (run b l) g = true /\ knd (run b l) g = K_group.
Proof.
  intros b l d H P L K. destruct (proj1 (history_ok b l H) P) as (IV & _). set (w := run b l) in *.
  assert (A : In d (all w)) by (apply (dev_all w (held l)); auto). destruct (sh_dev _ _ (proj1 IV) d A) as (X1 & X2 & _).
  split; [split; auto|intros g G; split; auto]; apply (has_live _ _ _ _ _ (proj2 IV)); cbn [app]; apply (in_dv w d); auto.
  - now left.
  - right. apply in_or_app. left. rewrite G. now left.
Qed.
(** Two devices are on the same seat object exactly if their seats have the
    same names. *)
Theorem C43_seat : forall b l d e, legal_history b l -> 0 < ctx_held l -> let w := run b l in
  live w d = true -> knd w d = K_device -> live w e = true -> knd w e = K_device ->
  (seat_of w d = seat_of w e <-> name w (seat_of w d) = name w (seat_of w e)).
Proof.
  intros b l d e H P w L K L' K'. destruct (R_run b l []) as (UW & _); [rewrite app_nil_r; now apply C25_safe|].
  destruct (device_parts b l d H P L K) as [[A B] _], (device_parts b l e H P L' K') as [[A' B'] _]. fold w in UW, A, B, A', B'.
  split; [congruence|]. intros E. apply (u_seat _ UW); auto; apply (u_seat_in _ UW); auto.
Qed.
(** ** Groups *)
(** Two devices are in the same group exactly if the same identifier was given
    for both. *)
Theorem C43_group : forall b l d e g h, legal_history b l -> 0 < ctx_held l -> let w := run b l in
  live w d = true -> knd w d = K_device -> live w e = true -> knd w e = K_device -> d <> e -> group_of w d = Some g -> group_of w e = Some h ->
  (g = h <-> exists i, ident w g = Some i /\ ident w h = Some i).
Proof.
  intros b l d e g h H P w L K L' K' NE G G'. destruct (R_run b l []) as (UW & _); [rewrite app_nil_r; now apply C25_safe|].
  destruct (device_parts b l d H P L K) as [_ A], (device_parts b l e H P L' K') as [_ A']. fold w in UW, A, A'. destruct (A g G), (A' h G').
  split.
  - intros <-. destruct (ident w g) as [i|] eqn:E; [eauto|]. exfalso. apply NE. apply (u_alone _ UW d e g); auto.
  - intros (i & E & E'). apply (u_group _ UW g h i); auto; apply (u_group_in _ UW); auto.
Qed.

Lemma touch_fields : forall x w, queue (touch x w) = queue w /\ name (touch x w) = name w /\ seat_of (touch x w) = seat_of w /\ group_of (touch x w) = group_of w /\ ident (touch x w) = ident w /\ groups (touch x w) = groups w /\
  next (touch x w) = next w /\ seats (touch x w) = seats w /\ ttype (touch x w) = ttype w /\ tserial (touch x w) = tserial w /\ tools (touch x w) = tools w.
Proof. intros. unfold touch. destruct (live w x); repeat (split; [reflexivity|]); reflexivity. Qed.
Lemma ctx_fields : forall w, queue (ctx w) = queue w /\ name (ctx w) = name w /\ seat_of (ctx w) = seat_of w /\ group_of (ctx w) = group_of w /\ ident (ctx w) = ident w /\ groups (ctx w) = groups w /\
  next (ctx w) = next w /\ seats (ctx w) = seats w /\ ttype (ctx w) = ttype w /\ tserial (ctx w) = tserial w /\ tools (ctx w) = tools w.
Proof. intros. unfold ctx. destruct (cx_live w); repeat (split; [reflexivity|]); reflexivity. Qed.
Record same_names (w w' : world) : Prop := {
  n_queue : queue w' = queue w; n_name : name w' = name w; n_seat : seat_of w' = seat_of w; n_group : group_of w' = group_of w; n_ident : ident w' = ident w }.
Lemma sn_refl : forall w, same_names w w. Proof. constructor; auto. Qed.
Lemma sn_trans : forall a b c, same_names a b -> same_names b c -> same_names a c.
Proof. intros a b c [] []. constructor; congruence. Qed.
Lemma sn_ref : forall x w, same_names w (ref x w).
Proof. intros. destruct (touch_fields x w) as (A & B & C & D & E & _). unfold ref. constructor; cbv zeta; sm; auto. Qed.
Lemma sn_drop : forall x w, same_names w (drop x w).
Proof. intros. destruct (touch_fields x w) as (A & B & C & D & E & _). unfold drop. cbv zeta. destruct (0 <? rc (touch x w) x); constructor; unfold fault; sm; auto. Qed.
Lemma sn_free : forall x w, same_names w (free x w).
Proof. intros. destruct (touch_fields x w) as (A & B & C & D & E & _). unfold free. constructor; cbv zeta; sm; auto. Qed.
Lemma sn_ctx : forall w, same_names w (ctx w).
Proof. intros. destruct (ctx_fields w) as (A & B & C & D & E & _). constructor; auto. Qed.
Lemma sn_unref_seat : forall s w, same_names w (unref_seat s w).
Proof.
  intros. unfold unref_seat. cbv zeta. eapply sn_trans; [apply (sn_drop s)|]. destruct (_ =? 0); [|apply sn_refl]. unfold destroy_seat. cbv zeta.
  eapply sn_trans; [apply sn_ctx|]. eapply sn_trans; [|apply sn_free]. constructor; reflexivity.
Qed.
Lemma sn_unref_group : forall s w, same_names w (unref_group s w).
Proof.
  intros. unfold unref_group. cbv zeta. eapply sn_trans; [apply (sn_drop s)|]. destruct (_ =? 0); [|apply sn_refl]. unfold destroy_group. cbv zeta.
  eapply sn_trans; [apply sn_ctx|]. eapply sn_trans; [|apply sn_free]. constructor; reflexivity.
Qed.
Lemma sn_make_modes : forall k d w, same_names w (make_modes k d w).
Proof. induction k as [|k IH]; intros; cbn [make_modes]; [apply sn_refl|]. cbv zeta. eapply sn_trans; [|apply IH]. constructor; reflexivity. Qed.
Lemma set_group_facts : forall d i w, let w' := set_group d i w in
  queue w' = queue w /\ name w' = name w /\ seat_of w' = seat_of w /\ exists g, group_of w' d = Some g /\ ident w' g = i.
Proof.
  intros d i w w'. subst w'. unfold set_group. cbv zeta. destruct (sn_ctx w) as [A B C D E]. set (v := ctx w) in *. clearbody v. rewrite <- A, <- B, <- C.
  destruct (find_group i v) as [g|] eqn:F.
  - destruct (sn_ref g (set_group_of v (upd (group_of v) d (Some g)))) as [A' B' C' D' E']. rewrite A', B', C', D', E'. sm. repeat (split; [reflexivity|]). exists g. split; [apply upd_same|].
    unfold find_group in F. destruct i as [i|]; [|discriminate]. apply find_some in F. destruct F as [_ F]. destruct (ident v g) as [j|]; [|discriminate]. apply Z.eqb_eq in F. now subst.
  - match goal with |- queue (unref_group ?g ?W) = _ /\ _ => destruct (sn_unref_group g W) as [A' B' C' D' E']; rewrite A', B', C', D', E' end.
    match goal with |- queue (ref ?g ?W) = _ /\ _ => destruct (sn_ref g W) as [A2 B2 C2 D2 E2]; rewrite A2, B2, C2, D2, E2 end.
    unfold alloc. cbv zeta. sm. repeat (split; [reflexivity|]). exists (next v). split; apply upd_same.
Qed.
Transparent blank entered.
Lemma blank_names : forall s w, queue (blank s w) = queue w /\ name (blank s w) = name w /\ seat_of (blank s w) (next w) = s.
Proof. intros. split; [reflexivity|]. split; [reflexivity|]. unfold blank, alloc. cbv zeta. sm. apply upd_same. Qed.
Lemma entered_facts : forall s d w, queue (entered s d w) = queue w ++ [mkE d None None] /\ name (entered s d w) = name w /\ seat_of (entered s d w) = seat_of w /\ group_of (entered s d w) = group_of w /\ ident (entered s d w) = ident w.
Proof.
  intros. unfold entered, post_event. cbv zeta. set (v := set_devs w _). destruct (sn_ctx v) as [A B C D E], (sn_ref (e_dev (mkE d None None)) (ctx v)) as [A2 B2 C2 D2 E2]. sm.
  rewrite A2, B2, C2, D2, E2, A, B, C, D, E. repeat (split; [reflexivity|]). reflexivity.
Qed.
Opaque blank entered.
Lemma create_facts : forall s a w, a_fate a = Works -> let w' := create_device s a w in
  queue w' = queue w ++ [mkE (next w) None None] /\ name w' = name w /\ seat_of w' (next w) = s /\ exists g, group_of w' (next w) = Some g /\ ident w' g = a_group a.
Proof.
  intros s a w F w'. subst w'. rewrite create_blank, F. destruct (blank_names s w) as (A & B & C). set (v := blank s w) in *. clearbody v.
  destruct (sn_ref s v) as [A1 B1 C1 D1 E1]. set (v1 := ref s v) in *. clearbody v1.
  destruct (sn_make_modes (a_modes a) (next w) v1) as [A2 B2 C2 D2 E2]. set (v2 := make_modes (a_modes a) (next w) v1) in *. clearbody v2.
  destruct (set_group_facts (next w) (a_group a) v2) as (A3 & B3 & C3 & g & D3 & E3). set (v3 := set_group (next w) (a_group a) v2) in *. clearbody v3.
  destruct (entered_facts s (next w) v3) as (A4 & B4 & C4 & D4 & E4). rewrite A4, B4, C4, D4, E4.
  split; [congruence|]. split; [congruence|]. split; [congruence|]. eauto.
Qed.
Lemma add_facts : forall a w, a_fate a = Works -> exists d g, let w' := add_device a w in
  queue w' = queue w ++ [mkE d None None] /\ (next w <= d)%nat /\ name w' (seat_of w' d) = a_seat a /\ group_of w' d = Some g /\ ident w' g = a_group a.
Proof.
  intros a w F. unfold add_device. cbv zeta. destruct (ctx_fields w) as (A & _ & _ & _ & _ & _ & NX & _). set (v := ctx w) in *. clearbody v. destruct (find_seat (a_seat a) v) as [s|] eqn:FS.
  - destruct (sn_ref s v) as [A1 B1 C1 D1 E1]. assert (N1 : next (ref s v) = next v) by (unfold ref; cbv zeta; sm; apply touch_fields). set (v1 := ref s v) in *. clearbody v1.
    destruct (create_facts s a v1 F) as (A2 & B2 & C2 & g & D2 & E2). exists (next v1), g.
    destruct (sn_unref_seat s (create_device s a v1)) as [A3 B3 C3 D3 E3]. rewrite A3, B3, C3, D3, E3.
    split; [congruence|]. split; [lia|]. split; [|auto]. rewrite C2, B2, B1. unfold find_seat in FS. apply find_some in FS. now apply Z.eqb_eq.
  - assert (NS : queue (new_seat (a_seat a) v) = queue v /\ name (new_seat (a_seat a) v) (next v) = a_seat a /\ next (new_seat (a_seat a) v) = S (next v)).
    { split; [reflexivity|]. split; [|reflexivity]. unfold new_seat, alloc. cbv zeta. sm. apply upd_same. }
    set (v0 := new_seat (a_seat a) v) in *. clearbody v0. destruct NS as (Q0 & N0 & X0).
    assert (S1 : same_names v0 (if udev v0 then v0 else ref (next v) v0) /\ next (if udev v0 then v0 else ref (next v) v0) = next v0).
    { destruct (udev v0); [split; [apply sn_refl|reflexivity]|]. split; [apply sn_ref|]. unfold ref; cbv zeta; sm; apply touch_fields. }
    set (v1 := if udev v0 then v0 else ref (next v) v0) in *. clearbody v1. destruct S1 as [[A1 B1 C1 D1 E1] X1].
    destruct (create_facts (next v) a v1 F) as (A2 & B2 & C2 & g & D2 & E2). exists (next v1), g.
    destruct (sn_unref_seat (next v) (create_device (next v) a v1)) as [A3 B3 C3 D3 E3]. rewrite A3, B3, C3, D3, E3.
    split; [congruence|]. split; [lia|]. split; [|auto]. rewrite C2, B2, B1. exact N0.
Qed.
(** A device that is added is announced, on the seat and in the group asked for. *)
Theorem C43_added : forall b l a, legal_history b (l ++ [Add a]) -> a_fate a = Works ->
  let w := run b l in let w' := run b (l ++ [Add a]) in
  exists d g, queue w' = queue w ++ [mkE d None None] /\ (next w <= d)%nat /\ live w' d = true /\ knd w' d = K_device /\
    name w' (seat_of w' d) = a_seat a /\ group_of w' d = Some g /\ ident w' g = a_group a.
Proof.
  intros b l a H F w w'. assert (W : w' = add_device a w) by (unfold w'; rewrite run_app; reflexivity).
  destruct (add_facts a w F) as (d & g & A & B & C & D & E). rewrite <- W in *. exists d, g.
  assert (P : 0 < ctx_held (l ++ [Add a])). { rewrite ctx_held_app. apply (legal_last _ _ _ H). }
  destruct (proj1 (history_ok b _ H) P) as (IV & _). fold w' in IV.
  assert (I : In (mkE d None None) (queue w' ++ hand w')) by (rewrite A; apply in_or_app; left; apply in_or_app; right; now left).
  split; [exact A|]. split; [exact B|]. split; [|split; [apply (sh_events _ _ (proj1 IV) _ I)|auto]].
  apply (has_live _ _ _ _ _ (proj2 IV)). cbn [app]. apply (in_ev w' (mkE d None None)); auto. now left.
Qed.

(** ** Tools *)
(** A tool with a serial number is one object, whichever tablets it is used on:
    two that exist with the same type and serial number are the same. *)
Theorem C43_tool : forall b l s t, legal_history b l -> let w := run b l in
  live w s = true -> knd w s = K_tool -> live w t = true -> knd w t = K_tool ->
  ttype w s = ttype w t -> tserial w s = tserial w t -> tserial w s <> 0 -> s = t.
Proof.
  intros b l s t H w L K L' K' ET ES NZ. destruct (R_run b l []) as (UW & _); [rewrite app_nil_r; now apply C25_safe|]. fold w in UW.
  assert (G : forall x, live w x = true -> knd w x = K_tool -> tserial w x <> 0 -> In x (gtools w)).
  { intros x X X' N. destruct (home w x) as [d|] eqn:E; [|apply (u_tool_in _ UW); auto]. destruct (u_home _ UW x d (u_live _ UW x X) X' E). congruence. }
  apply (u_tool _ UW); auto; apply G; congruence.
Qed.
(** Without a serial number, there is one object for each type and tablet. *)
Theorem C43_tool_local : forall b l e f s t, legal_history b l -> 0 < ctx_held l -> let w := run b l in
  In e (queue w ++ hand w) -> In f (queue w ++ hand w) -> e_tool e = Some s -> e_tool f = Some t -> tserial w s = 0 -> tserial w t = 0 -> ttype w s = ttype w t ->
  (s = t <-> e_dev e = e_dev f).
Proof.
  intros b l e f s t H P w I J E F ZS ZT ET. destruct (R_run b l []) as (UW & _); [rewrite app_nil_r; now apply C25_safe|]. fold w in UW.
  destruct (proj1 (history_ok b l H) P) as (IV & _). fold w in IV. destruct IV as [SH CT].
  assert (G : forall e s, In e (queue w ++ hand w) -> e_tool e = Some s -> tserial w s = 0 -> home w s = Some (e_dev e) /\ In s (tools w (e_dev e))).
  { clear - SH CT UW. intros e s I E Z. destruct (sh_events _ _ SH e I) as (_ & A & _). destruct (A s E) as [K HM].
    assert (L : live w s = true). { apply (has_live _ _ _ _ _ CT). cbn [app]. apply (in_ev w e); auto. right. apply in_or_app. left. rewrite E. now left. }
    destruct HM as [HM|HM]; [|split; auto; apply (u_local_in _ UW); auto]. exfalso. apply (u_tool_in _ UW) in HM; auto. apply (u_gtools _ UW) in HM. tauto. }
  destruct (G e s I E ZS) as [A B], (G f t J F ZT) as [A' B']. split.
  - intros <-. congruence.
  - intros D. rewrite <- D in B'. apply (u_local _ UW s t (e_dev e)); auto.
Qed.
Lemma get_tool_facts : forall d ty se w, let (t, w') := get_tool d ty se w in
  queue w' = queue w /\ ttype w' t = ty /\ (tserial w' t = se \/ (In t (tools w d) /\ tserial w' t = tserial w t)).
Proof.
  intros. unfold get_tool. cbv zeta. destruct (touch_fields d w) as (A & _ & _ & _ & _ & _ & _ & _ & B & C & D). set (v0 := touch d w) in *. clearbody v0.
  destruct (ctx_fields v0) as (A' & _ & _ & _ & _ & _ & _ & _ & B' & C' & D'). set (v := ctx v0) in *. clearbody v.
  destruct (if se =? 0 then None else _) as [t|] eqn:F.
  - destruct (se =? 0); [discriminate|]. apply find_some in F. destruct F as [_ F]. apply andb_prop in F. destruct F as [F G]. apply Z.eqb_eq in F, G. split; [congruence|]. auto.
  - destruct (find _ (tools v d)) as [t|] eqn:G.
    + apply find_some in G. destruct G as [G G']. apply Z.eqb_eq in G'. split; [congruence|]. split; auto. right. split; congruence.
    + destruct (se =? 0) eqn:Z; unfold alloc; cbv zeta; sm; rewrite !upd_same; (split; [congruence|]); auto.
Qed.
Lemma post_facts : forall e w, queue (post_event e w) = queue w ++ [e] /\ ttype (post_event e w) = ttype w /\ tserial (post_event e w) = tserial w.
Proof.
  intros. unfold post_event. cbv zeta. destruct (ctx_fields w) as (A & _ & _ & _ & _ & _ & _ & _ & B & C & _). set (v := ctx w) in *. clearbody v. unfold ref. cbv zeta. sm.
  destruct (touch_fields (e_dev e) v) as (A' & _ & _ & _ & _ & _ & _ & _ & B' & C' & _). rewrite A', B', C', A, B, C. auto.
Qed.
Lemma ref_facts : forall x w, queue (ref x w) = queue w /\ ttype (ref x w) = ttype w /\ tserial (ref x w) = tserial w.
Proof. intros. unfold ref. cbv zeta. sm. destruct (touch_fields x w) as (A & _ & _ & _ & _ & _ & _ & _ & B & C & _). auto. Qed.
(** The tool of an event is of the type the tablet reported, with the serial
    number it reported -- but where a tablet has reported a tool of that type
    without serial number before, it may be that tool still. *)
Theorem C43_tool_sent : forall b l d ty se, legal_history b (l ++ [Send d (P_tool ty se)]) ->
  let w := run b l in let w' := run b (l ++ [Send d (P_tool ty se)]) in
  exists t, queue w' = queue w ++ [mkE d (Some t) None] /\ ttype w' t = ty /\
    (tserial w' t = se \/ (tserial w' t = 0 /\ In t (tools w d))).
Proof.
  intros b l d ty se H w w'. assert (W : w' = do_post d (P_tool ty se) w) by (unfold w'; rewrite run_app; reflexivity). destruct (R_run b l _ (C25_safe _ _ H)) as (UW & _). fold w in UW.
  cbn [do_post] in W. pose proof (get_tool_facts d ty se w) as G. destruct (get_tool d ty se w) as [t v]. destruct G as (A & B & C). exists t.
  destruct (post_facts (mkE d (Some t) None) (ref t v)) as (A1 & B1 & C1). destruct (ref_facts t v) as (A2 & B2 & C2). rewrite <- W in *. rewrite A1, B1, C1, A2, B2, C2.
  split; [congruence|]. split; auto. destruct C as [C|[I C]]; auto. right. split; auto. destruct (u_tools _ UW t d I) as (P1 & P2 & P3). destruct (u_home _ UW t d P1 P2 P3). congruence.
Qed.

(** ** A case that meets the hypotheses *)
(** Two tablets: a pen with a serial number on both, another pen, an eraser and
    one of each without serial number, a pen whose serial number comes late. *)
Definition two_tablets : list op :=
  [Add (mkSpec 7 (Some 3) 0 Works); Add (mkSpec 7 None 0 Works); Add (mkSpec 8 (Some 3) 0 Works); Add (mkSpec 7 None 0 Works);
   Send 1 (P_tool 1 55); Send 3 (P_tool 1 55); Send 3 (P_tool 1 56); Send 3 (P_tool 2 55); Send 1 (P_tool 2 0); Send 3 (P_tool 3 0); Send 1 (P_tool 3 0); Send 1 (P_tool 2 99)].
Example two_tablets_legal : legal_history false two_tablets.
Proof. apply check_legal. vm_compute. reflexivity. Qed.
Example two_tablets_names : let w := run false two_tablets in
  map (fun e => seat_of w (e_dev e)) (firstn 4 (queue w)) = [0; 0; 5; 0]%nat /\ map (fun e => group_of w (e_dev e)) (firstn 4 (queue w)) = [Some 2; Some 4; Some 2; Some 8]%nat /\
  map e_tool (skipn 4 (queue w)) = [Some 9; Some 9; Some 10; Some 11; Some 12; Some 13; Some 14; Some 12]%nat /\ map (tserial w) [9; 10; 11; 12]%nat = [55; 56; 55; 0].
Proof. vm_compute. auto. Qed.

Print Assumptions C43_stable.
Print Assumptions C43_seat.
Print Assumptions C43_group.
Print Assumptions C43_added.
Print Assumptions C43_tool.
Print Assumptions C43_tool_local.
Print Assumptions C43_tool_sent.
