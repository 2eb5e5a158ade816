(** C25: reference counting. *)
Require Import Coq.ZArith.ZArith Coq.Lists.List Coq.Bool.Bool Coq.Arith.PeanoNat Coq.micromega.Lia.
Require Import Verif.Rc_Model Verif.Rc_Spec Verif.Rc_Proofs Verif.Rc_Proofs4 Verif.Rc_Proofs6 Verif.Rc_Proofs7.
Import ListNotations.
Open Scope Z_scope.

(** Nothing is used after it was freed, nothing is freed twice, no assertion on
    a counter fails. *)
Theorem C25_safe : forall b l, legal_history b l -> bad (run b l) = false.
Proof.
  intros b l H. destruct (history_ok b l H) as [A B]. destruct (Z.lt_ge_cases 0 (ctx_held l)) as [P|P].
  - destruct (A P) as (IV & _). apply (sh_bad _ _ (proj1 IV)).
  - destruct (B P) as (X & _). exact X.
Qed.
(** Each thing made is freed once, and then stays freed. *)
Theorem C25_once : forall b l m x, legal_history b (l ++ m) ->
  NoDup (freed (run b l)) /\
  (In x (freed (run b l)) <-> (x < next (run b l))%nat /\ live (run b l) x = false) /\
  (In x (freed (run b l)) -> In x (freed (run b (l ++ m))) /\ live (run b (l ++ m)) x = false).
Proof.
  assert (G : forall b l, legal_history b l -> NoDup (freed (run b l)) /\ forall x, In x (freed (run b l)) <-> (x < next (run b l))%nat /\ live (run b l) x = false).
  { intros b l H. destruct (history_ok b l H) as [A B]. destruct (Z.lt_ge_cases 0 (ctx_held l)) as [P|P].
    - destruct (A P) as (IV & _). split; [apply (sh_nodup _ _ (proj1 IV))|apply (sh_freed _ _ (proj1 IV))].
    - destruct (B P) as (_ & _ & X & Y & Z). split; auto. intros x. rewrite Y, Z. tauto. }
  intros b l m x H. destruct (G b l (legal_prefix _ _ _ H)) as [A B]. split; auto. split; auto. intros I. pose proof (proj1 (gr_run b l m) x I) as J. split; auto.
  apply (G b _ H) in J. tauto.
Qed.
(** The counter of a thing is the number of references to it... *)
Theorem C25_count : forall b l x, legal_history b l -> 0 < ctx_held l -> live (run b l) x = true ->
  rc (run b l) x = held l x + Z.of_nat (count_occ Nat.eq_dec (holders (run b l)) x).
Proof.
  intros b l x H P L. destruct (proj1 (history_ok b l H) P) as (IV & _). destruct (ct_rc _ _ _ _ (proj2 IV) x L ltac:(discriminate)) as [R _]. exact R.
Qed.
(** ... and it exists exactly while there are any, that is: *)
Lemma alive : forall b l x, legal_history b l -> 0 < ctx_held l -> (live (run b l) x = true <-> 0 < held l x \/ In x (holders (run b l))).
Proof.
  intros b l x H P. destruct (proj1 (history_ok b l H) P) as (IV & _). split.
  - intros L. destruct (ct_rc _ _ _ _ (proj2 IV) x L ltac:(discriminate)) as [R Q]. cbn [app] in R. rewrite <- cnt_in. lia.
  - intros [U|I]; [apply (usable_live _ _ _ IV); now constructor|]. apply (has_live _ _ _ _ _ (proj2 IV)). auto.
Qed.
(** a device, while the caller holds it, an event that was not destroyed is from
    it, or it is added; *)
Theorem C25_device : forall b l d, legal_history b l -> 0 < ctx_held l -> knd (run b l) d = K_device ->
  (live (run b l) d = true <-> 0 < held l d \/ (exists e, In e (queue (run b l) ++ hand (run b l)) /\ e_dev e = d) \/ added (run b l) d).
Proof.
  intros b l d H P K. rewrite (alive b l d H P). destruct (proj1 (history_ok b l H) P) as (IV & _). pose proof (proj1 IV) as SH. set (w := run b l) in *. split.
  - intros [U|I]; auto. right. unfold holders in I. apply in_app_or in I. destruct I as [I|I].
    { apply in_flat_map in I. destruct I as (e & E & I). left. exists e. split; auto. destruct (sh_events _ _ SH e E) as (X & Y & Z). unfold of_event in I. destruct I as [I|I]; auto.
      apply in_app_or in I. destruct I as [I|I].
      - destruct (e_tool e) as [t|]; [|destruct I]. destruct I as [->|[]]. destruct (Y d eq_refl). congruence.
      - destruct (e_mode e) as [t|]; [|destruct I]. destruct I as [->|[]]. destruct (Z d eq_refl). congruence. }
    apply in_app_or in I. destruct I as [I|I].
    { apply in_flat_map in I. destruct I as (s & E & I). right. exists s. auto. }
    apply in_app_or in I. destruct I as [I|I].
    { apply in_flat_map in I. destruct I as (a & A & B). destruct (sh_dev _ _ SH a A) as (X1 & X2 & _ & X4 & _ & X6). unfold of_device in B. destruct B as [B|B]; [congruence|].
      apply in_app_or in B. destruct B as [B|B]. { destruct (group_of w a) as [g|]; [|destruct B]. destruct B as [->|[]]. rewrite X2 in K; [discriminate|auto]. }
      apply in_app_or in B. destruct B as [B|B]; [destruct (X4 d B)|destruct (X6 d B)]; congruence. }
    apply in_app_or in I. destruct I as [I|I]; [destruct (sh_gtools _ _ SH d I); congruence|]. destruct (udev w); [destruct I|]. apply (sh_seats _ _ SH) in I. destruct I. congruence.
  - intros [U|[(e & E & F)|(s & S & D)]]; auto; right.
    + apply (in_ev w e); auto. now left.
    + eapply in_ls; eauto.
Qed.
Lemma dev_all : forall w u d, inv w u [] None -> (In d (all w) <-> live w d = true /\ knd w d = K_device).
Proof. intros w u d IV. rewrite (sh_all _ _ (proj1 IV) d). intuition. discriminate. Qed.
(** Whatever the library refers to is one of these *)
Lemma split_holders : forall w u x, inv w u [] None -> In x (holders w) ->
  (exists e, In e (queue w ++ hand w) /\ ((e_dev e = x /\ knd w x = K_device) \/ (e_tool e = Some x /\ knd w x = K_tool) \/ (e_mode e = Some x /\ knd w x = K_mode))) \/
  knd w x = K_device \/
  (exists d, live w d = true /\ knd w d = K_device /\
     ((seat_of w d = x /\ knd w x = K_seat) \/ (group_of w d = Some x /\ knd w x = K_group) \/ (In x (tools w d) /\ knd w x = K_tool) \/ (In x (modes w d) /\ knd w x = K_mode))) \/
  (In x (gtools w) /\ knd w x = K_tool) \/ knd w x = K_seat.
Proof.
  intros w u x IV I. pose proof (proj1 IV) as SH. unfold holders in I. apply in_app_or in I. destruct I as [I|I].
  { left. apply in_flat_map in I. destruct I as (e & E & I). exists e. split; auto. destruct (sh_events _ _ SH e E) as (X & Y & Z). unfold of_event in I. destruct I as [I|I]; [left; split; congruence|].
    apply in_app_or in I. destruct I as [I|I].
    - destruct (e_tool e) as [t|]; [|destruct I]. destruct I as [->|[]]. destruct (Y x eq_refl). auto.
    - destruct (e_mode e) as [t|]; [|destruct I]. destruct I as [->|[]]. destruct (Z x eq_refl). auto. }
  right. apply in_app_or in I. destruct I as [I|I].
  { left. apply in_flat_map in I. destruct I as (t & E & I). destruct (sh_devs _ _ SH t E) as [_ X]. destruct (X x I) as [Y _]. apply (sh_all _ _ SH) in Y. tauto. }
  right. apply in_app_or in I. destruct I as [I|I].
  { left. apply in_flat_map in I. destruct I as (a & A & B). destruct (sh_dev _ _ SH a A) as (X1 & X2 & _ & X4 & _ & X6). apply (dev_all w u) in A; auto. exists a. split; [tauto|]. split; [tauto|].
    unfold of_device in B. destruct B as [B|B]; [left; split; congruence|].
    apply in_app_or in B. destruct B as [B|B]. { destruct (group_of w a) as [g|]; [|destruct B]. destruct B as [->|[]]. auto. }
    apply in_app_or in B. destruct B as [B|B]; [destruct (X4 x B)|destruct (X6 x B)]; auto. }
  right. apply in_app_or in I. destruct I as [I|I]; [left; destruct (sh_gtools _ _ SH x I); auto|]. right. destruct (udev w); [destruct I|]. apply (sh_seats _ _ SH) in I. tauto.
Qed.
(** a seat, while the caller holds it or a device on it exists -- in the path
    backend, as long as the context; *)
Theorem C25_seat : forall b l s, legal_history b l -> 0 < ctx_held l -> knd (run b l) s = K_seat -> b = true ->
  (live (run b l) s = true <-> 0 < held l s \/ exists d, live (run b l) d = true /\ knd (run b l) d = K_device /\ seat_of (run b l) d = s).
Proof.
  intros b l s H P K EB. rewrite (alive b l s H P). destruct (proj1 (history_ok b l H) P) as (IV & _). pose proof (proj1 IV) as SH.
  assert (UD : udev (run b l) = b) by exact (proj2 (gr_run b [] l)).
  set (w := run b l) in *. split.
  - intros [U|I]; auto. right. unfold holders in I. rewrite UD, EB, app_nil_r in I. apply in_app_or in I. destruct I as [I|I].
    { apply in_flat_map in I. destruct I as (e & E & I). destruct (sh_events _ _ SH e E) as (X & Y & Z). unfold of_event in I. destruct I as [I|I]; [congruence|].
      apply in_app_or in I. destruct I as [I|I].
      - destruct (e_tool e) as [t|]; [|destruct I]. destruct I as [->|[]]. destruct (Y s eq_refl). congruence.
      - destruct (e_mode e) as [t|]; [|destruct I]. destruct I as [->|[]]. destruct (Z s eq_refl). congruence. }
    apply in_app_or in I. destruct I as [I|I].
    { apply in_flat_map in I. destruct I as (t & E & I). destruct (sh_devs _ _ SH t E) as [_ X]. destruct (X s I) as [Y _]. apply (sh_all _ _ SH) in Y. destruct Y as (_ & Y & _). congruence. }
    apply in_app_or in I. destruct I as [I|I].
    { apply in_flat_map in I. destruct I as (a & A & B). destruct (sh_dev _ _ SH a A) as (X1 & X2 & _ & X4 & _ & X6). apply (dev_all w (held l)) in A; auto. unfold of_device in B. destruct B as [B|B]; [exists a; tauto|].
      apply in_app_or in B. destruct B as [B|B]. { destruct (group_of w a) as [g|]; [|destruct B]. destruct B as [->|[]]. rewrite X2 in K; [discriminate|auto]. }
      apply in_app_or in B. destruct B as [B|B]; [destruct (X4 s B)|destruct (X6 s B)]; congruence. }
    destruct (sh_gtools _ _ SH s I). congruence.
  - intros [U|(d & L & D & S)]; auto; right. apply (in_dv w d); [apply (dev_all w (held l)); auto|]. rewrite <- S. now left.
Qed.
(** a device group, while the caller holds it or a device in it exists; *)
Theorem C25_group : forall b l g, legal_history b l -> 0 < ctx_held l -> knd (run b l) g = K_group ->
  (live (run b l) g = true <-> 0 < held l g \/ exists d, live (run b l) d = true /\ knd (run b l) d = K_device /\ group_of (run b l) d = Some g).
Proof.
  intros b l g H P K. rewrite (alive b l g H P). destruct (proj1 (history_ok b l H) P) as (IV & _). pose proof (proj1 IV) as SH. set (w := run b l) in *. split.
  - intros [U|I]; auto. right. destruct (split_holders w (held l) g IV I) as [(e & E & [A|[A|A]])|[A|[(d & L & D & [A|[A|[A|A]]])|[A|A]]]]; try congruence; try (destruct A; congruence).
    exists d. tauto.
  - intros [U|(d & L & D & G)]; auto; right. apply (in_dv w d); [apply (dev_all w (held l)); auto|]. right. apply in_or_app. left. rewrite G. now left.
Qed.
(** a tablet tool, while the caller holds it, an event has it, its tablet
    exists or -- with a serial number -- as long as the context; *)
Theorem C25_tool : forall b l t, legal_history b l -> 0 < ctx_held l -> knd (run b l) t = K_tool ->
  (live (run b l) t = true <->
   0 < held l t \/ (exists e, In e (queue (run b l) ++ hand (run b l)) /\ e_tool e = Some t) \/
   (exists d, live (run b l) d = true /\ knd (run b l) d = K_device /\ In t (tools (run b l) d)) \/ In t (gtools (run b l))).
Proof.
  intros b l t H P K. rewrite (alive b l t H P). destruct (proj1 (history_ok b l H) P) as (IV & _). pose proof (proj1 IV) as SH. set (w := run b l) in *. split.
  - intros [U|I]; auto. right. destruct (split_holders w (held l) t IV I) as [(e & E & [A|[A|A]])|[A|[(d & L & D & [A|[A|[A|A]]])|[A|A]]]]; try congruence; try (destruct A; congruence).
    + left. exists e. tauto.
    + right. left. exists d. tauto.
    + right. right. tauto.
  - intros [U|[(e & E & A)|[(d & L & D & A)|A]]]; auto; right.
    + apply (in_ev w e); auto. right. apply in_or_app. left. rewrite A. now left.
    + apply (in_dv w d); [apply (dev_all w (held l)); auto|]. right. apply in_or_app. right. apply in_or_app. now left.
    + now apply in_gt.
Qed.
(** a mode group, while the caller holds it, an event has it or its pad exists. *)
Theorem C25_mode : forall b l m, legal_history b l -> 0 < ctx_held l -> knd (run b l) m = K_mode ->
  (live (run b l) m = true <->
   0 < held l m \/ (exists e, In e (queue (run b l) ++ hand (run b l)) /\ e_mode e = Some m) \/
   (exists d, live (run b l) d = true /\ knd (run b l) d = K_device /\ In m (modes (run b l) d))).
Proof.
  intros b l t H P K. rewrite (alive b l t H P). destruct (proj1 (history_ok b l H) P) as (IV & _). pose proof (proj1 IV) as SH. set (w := run b l) in *. split.
  - intros [U|I]; auto. right. destruct (split_holders w (held l) t IV I) as [(e & E & [A|[A|A]])|[A|[(d & L & D & [A|[A|[A|A]]])|[A|A]]]]; try congruence; try (destruct A; congruence).
    + left. exists e. tauto.
    + right. exists d. tauto.
  - intros [U|[(e & E & A)|(d & L & D & A)]]; auto; right.
    + apply (in_ev w e); auto. right. apply in_or_app. right. rewrite A. now left.
    + apply (in_dv w d); [apply (dev_all w (held l)); auto|]. right. apply in_or_app. right. apply in_or_app. now right.
Qed.
(** What the caller has a pointer to exists: what it holds, what its events
    refer to, added devices, and their seats, groups and mode groups. *)
Theorem C25_usable : forall b l x, legal_history b l -> 0 < ctx_held l -> usable (run b l) (held l) x -> live (run b l) x = true.
Proof. intros b l x H P U. destruct (proj1 (history_ok b l H) P) as (IV & _). eapply usable_live; eauto. Qed.
(** Dropping the last reference on the context frees all there is. *)
Theorem C25_end : forall b l ps x, legal_history b (l ++ [Ctx_unref ps]) -> ctx_held l = 1 ->
  cx_live (run b (l ++ [Ctx_unref ps])) = false /\ live (run b (l ++ [Ctx_unref ps])) x = false /\
  (In x (freed (run b (l ++ [Ctx_unref ps]))) <-> (x < next (run b (l ++ [Ctx_unref ps])))%nat).
Proof.
  intros b l ps x H E. destruct (proj2 (history_ok b _ H)) as (A & B & C & D & F). { rewrite ctx_held_app, E. cbn. lia. } auto.
Qed.
(** Before that the context is there, whoever else drops theirs. *)
Theorem C25_context : forall b l, legal_history b l -> (cx_live (run b l) = true <-> 0 < ctx_held l).
Proof.
  intros b l H. destruct (history_ok b l H) as [A B]. split.
  - intros L. destruct (Z.lt_ge_cases 0 (ctx_held l)) as [|P]; auto. destruct (B P) as (_ & X & _). congruence.
  - intros P. destruct (A P) as (IV & _). apply (sh_ctx _ _ (proj1 IV)).
Qed.


(** ** A case that meets the hypotheses *)
(** A tablet and a pad come; the caller keeps the tablet's seat and the tool of
    an event; the tablet goes, the events are taken and destroyed; the context
    is suspended, resumed and, at last, dropped. *)
Definition tablet : spec := mkSpec 7 (Some 3) 0 Works.
Definition pad : spec := mkSpec 7 (Some 3) 2 Works.
Definition nothing (d : nat) : list post := [].
(* objects: 0 seat, 1 tablet, 2 device group, 3 pad, 4 and 5 mode groups, 6 tool *)
Definition life : list op :=
  [Resume nothing []; Add tablet; Add pad; Send 1 (P_tool 5 0); Send 1 (P_tool 5 99); Send 3 (P_mode 1); Get; Get; Get; Get; Get;
   Ref 0; Ref 6; Destroy 4; Destroy 2; Unref 6; Ctx_ref; Remove [P_tool 5 99] 1; Destroy 0; Get; Destroy 0; Get; Destroy 1; Destroy 1; Destroy 0;
   Suspend nothing; Resume nothing [pad]; Unref 0; Ctx_unref nothing; Ctx_unref nothing].
Example life_legal : forall b, legal_history b life.
Proof. intros b. apply check_legal. destruct b; vm_compute; reflexivity. Qed.
(** Counts halfway; the tablet and its tool are freed when the last event is
    destroyed; all ten things are at the end. *)
Example life_counts : forall b, let w := run b (firstn 17 life) in
  freed w = [] /\ map (rc w) (seq 0 7) = [if b then 3 else 4; 3; 2; 2; 1; 1; 2] /\ ctx_held (firstn 17 life) = 2.
Proof. intros []; vm_compute; auto. Qed.
Example life_removed : forall b, freed (run b (firstn 24 life)) = [] /\ freed (run b (firstn 25 life)) = [1; 6]%nat.
Proof. intros []; vm_compute; auto. Qed.
Example life_over : forall b, let w := run b life in next w = 10%nat /\ length (freed w) = 10%nat /\ bad w = false /\ cx_live w = false.
Proof. intros []; vm_compute; auto. Qed.

(** ** What does not hold *)
(** A tool without serial number, or a mode group, held longer than its tablet
    or pad exists: dropping it writes to the freed tablet or pad. *)
Theorem C25_tool_refuted : exists l t, history_of legal_any_time false l /\ knd (run false l) t = K_tool /\ bad (run false l) = true.
Proof.
  exists [Add (mkSpec 7 None 1 Works); Send 1 (P_tool 5 0); Get; Get; Ref 4; Destroy 1; Destroy 0; Remove [] 1; Get; Destroy 0; Unref 4], 4%nat.
  split; [apply check_any_time|]; vm_compute; auto.
Qed.
Theorem C25_mode_refuted : exists l m, history_of legal_any_time false l /\ knd (run false l) m = K_mode /\ bad (run false l) = true.
Proof.
  exists [Add (mkSpec 7 None 1 Works); Ref 2; Remove [] 1; Get; Get; Destroy 1; Destroy 0; Unref 2], 2%nat.
  split; [apply check_any_time|]; vm_compute; auto.
Qed.
(** A device moved to another seat while the udev context is suspended: when the
    context is dropped, the seat is freed twice. *)
Theorem C25_suspended_refuted : exists l, history_of legal_suspended true l /\ bad (run true l) = true.
Proof.
  exists [Resume nothing [pad]; Get; Ref 1; Suspend nothing; Add (mkSpec 8 None 0 Works); Unref 1; Destroy 0; Ctx_unref nothing].
  split; [apply check_suspended|]; vm_compute; reflexivity.
Qed.
(** A device held longer than the context (libinput.h documents this one). *)
Theorem C25_order_refuted : exists l, history_of legal_any_order false l /\ bad (run false l) = true.
Proof.
  exists [Add pad; Ref 1; Ctx_unref nothing; Unref 1]. split; [apply check_any_order|]; vm_compute; reflexivity.
Qed.

Print Assumptions C25_safe.
Print Assumptions C25_once.
Print Assumptions C25_count.
Print Assumptions C25_device.
Print Assumptions C25_seat.
Print Assumptions C25_group.
Print Assumptions C25_tool.
Print Assumptions C25_mode.
Print Assumptions C25_usable.
Print Assumptions C25_end.
Print Assumptions C25_context.
Print Assumptions C25_tool_refuted.
Print Assumptions C25_mode_refuted.
Print Assumptions C25_suspended_refuted.
Print Assumptions C25_order_refuted.
