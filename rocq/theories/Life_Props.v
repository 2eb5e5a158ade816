(** * The life of devices (C54) *)
Require Import Coq.ZArith.ZArith Coq.Lists.List Coq.Bool.Bool Coq.Arith.PeanoNat Coq.micromega.Lia.
Require Import Coq.Sorting.Permutation Verif.Life_Model Verif.Life_Spec Verif.Life_Proofs Verif.Life_Proofs2 Verif.Life_Proofs3 Verif.Life_Proofs4.
Import ListNotations.
Open Scope Z_scope.

(** Histories for the examples: a keyboard and a touchpad of seat 0, and a device of another seat *)
Definition mute : chat := {| c_other := []; c_off := []; c_own := [] |}.
Definition loud : chat := {| c_other := [0; 1; 2; 3]%nat; c_off := [0; 1; 2; 3]%nat; c_own := [0; 1; 2; 3]%nat |}.
Definition kbd : cand := {| k_sys := 10; k_phys := 0; k_wl := 100; k_ready := true; k_need := false; k_how := WORKS; k_chat := loud |}.
Definition pad : cand := {| k_sys := 11; k_phys := 0; k_wl := 100; k_ready := true; k_need := true; k_how := WORKS; k_chat := loud |}.
Definition other : cand := {| k_sys := 12; k_phys := 1; k_wl := 100; k_ready := true; k_need := false; k_how := WORKS; k_chat := loud |}.
Definition broken : cand := {| k_sys := 13; k_phys := 0; k_wl := 100; k_ready := true; k_need := false; k_how := NO_EPOLL; k_chat := loud |}.
Definition start : list call := [Assign 0 M_OK [kbd; other; broken; kbd; pad]].

(** ** C54_life: every device is added once, before its first event, and removed at most once, after its last *)
Theorem C54_life : forall p l d, lives d (outs p l) <> Wrong.
Proof. intros p l d. rewrite lives_state. unfold L. destruct (has _ _); [discriminate |]. destruct (Nat.ltb _ _); discriminate. Qed.
Example C54_life_ex : outs false (start ++ [Dispatch [Source 0 loud true; Monitor (Unplug 10) (fun _ => loud); Source 0 loud true; Source 1 loud true]]) =
  [Open 0; Added 0 10 100; Ev 0; Open 1; Close 1; Open 2; Ev 0; Added 1 11 100; Ev 0; Ev 1; Ret true; Ev 0; Ev 1; Ev 1; Ev 1; Ev 0; Ev 1; Close 0; Removed 0; Ev 1].
Proof. reflexivity. Qed.
Print Assumptions C54_life.

(** ** C54_files: every file that open_restricted gave is closed at most once, and there are no more open files than devices *)
Theorem C54_files : forall p l, (forall f, file f (outs p l) <> Wrong) /\ forall fs, NoDup fs -> (forall f, In f fs -> file f (outs p l) = During) -> (length fs <= length (known (outs p l)))%nat.
Proof.
  intros p l. split.
  - intro f. rewrite file_state. unfold F. destruct (holds _ _); [discriminate |]. destruct (Nat.ltb _ _); discriminate.
  - intros fs N H. rewrite known_state, map_length. rewrite <- (map_length fd).
    rewrite <- (map_length (@Some nat) fs). apply NoDup_incl_length.
    + apply FinFun.Injective_map_NoDup; [intros a b E; injection E; auto | exact N].
    + intros x X. apply in_map_iff in X. destruct X as [f [E1 E2]]. subst x. specialize (H f E2). rewrite file_state in H. unfold F in H. destruct (holds (devs (state p l)) f) eqn:HO; [| destruct (Nat.ltb _ _); discriminate]. apply holds_in in HO. destruct HO as [d [D1 D2]]. rewrite <- D2. apply in_map. exact D1.
Qed.
Example C54_files_ex : file 0 (outs false start) = During /\ file 1 (outs false start) = After /\ file 2 (outs false start) = During /\ length (known (outs false start)) = 2%nat.
Proof. repeat split. Qed.
Print Assumptions C54_files.

(** ** C54_suspend: after libinput_suspend every device was removed and every file closed, and until the next call that adds devices nothing at all is seen *)
Theorem C54_suspend : forall p l c l2, p = true \/ proper p [] l -> forallb adds_none l2 = true ->
  known (outs p (l ++ [Suspend c])) = [] /\ (forall f, file f (outs p (l ++ [Suspend c])) <> During) /\ outs p (l ++ [Suspend c] ++ l2) = outs p (l ++ [Suspend c]).
Proof.
  intros p l c l2 H A. pose proof (suspended_asleep p l c H) as S. pose proof S as [S1 _]. refine (conj _ (conj _ _)).
  - rewrite known_state, S1. reflexivity.
  - intro f. rewrite file_state. unfold F. rewrite S1. cbn [holds existsb]. destruct (Nat.ltb _ _); discriminate.
  - rewrite app_assoc, outs_app. destruct (asleep_run l2 _ (g_inv _ _ _ (state_good p (l ++ [Suspend c]))) S A) as [X _]. rewrite X, app_nil_r. reflexivity.
Qed.
Example C54_suspend_ex : proper false [] start /\ length (outs false (start ++ [Suspend (fun _ => loud)])) = 20%nat /\ outs false (start ++ [Suspend (fun _ => loud)] ++ [Dispatch [Source 0 loud true; Monitor (Plug kbd) (fun _ => mute); Timer 0 loud]; Enable 0 B_OK loud; Suspend (fun _ => loud)]) = outs false (start ++ [Suspend (fun _ => loud)]).
Proof. refine (conj _ (conj _ _)); [vm_compute; tauto | vm_compute; reflexivity | vm_compute; reflexivity]. Qed.
Print Assumptions C54_suspend.

(** ** C54_plug, C54_unplug: while the seat is watched, a device that is plugged in appears if it is of the seat, works and is not there yet, and nothing else does; one that is unplugged disappears, and nothing else does; while it is not watched nothing changes *)
Theorem C54_plug : forall l k c, forallb filter_works l = true ->
  let before := known (outs false l) in let after := known (outs false (l ++ [Dispatch [Monitor (Plug k) c]])) in
  match watch l with
  | (Some s, true) =>
      if Z.eqb (k_phys k) s && match k_how k with WORKS => true | _ => false end && negb (existsb (is_place (k_sys k, k_wl k)) (map place before))
      then exists n, after = before ++ [(n, k_sys k, k_wl k)] /\ lives n (outs false l) = Before
      else after = before
  | _ => after = before
  end.
Proof.
  intros l k c H before after. pose proof (watch_state l H) as [T1 [T2 T3]]. unfold before, after. rewrite known_place, !known_state, state_app, run1. cbn [step filter reported]. rewrite <- T1. set (w := state false l) in *. destruct (msrc w) eqn:M; rewrite <- T2; [| destruct (seat_id w); reflexivity].
  cbn [serve]. rewrite M. cbn [udev_handler]. destruct (device_added w k None) as [w1 o1] eqn:D. cbn [fst]. apply added_devs in D. cbn zeta in D. rewrite duplicate_place in D. destruct (seat_id w) as [s|]; [| rewrite D; reflexivity].
  assert (E : forall (a b d : bool), a && b && d = a && d && b) by (intros [] [] []; reflexivity). rewrite E. fold (works (k_how k)). destruct (_ && _ && _).
  - destruct D as [d [D1 [D2 [D3 [D4 D5]]]]]. exists (nid w). rewrite D1, map_app. cbn [map]. unfold kn at 2. rewrite D2, D3, D5. split; [reflexivity |]. rewrite lives_state. fold w. unfold L. assert (X : has (devs w) (nid w) = false). { apply not_true_iff_false. intro X. apply has_in in X. destruct X as [e [E1 E2]]. pose proof (i_lt _ (g_inv _ _ _ (state_good false l)) e) as Y. fold w in Y. assert (In e (devs w ++ gone w)) by (apply in_or_app; left; exact E1). apply Y in H0. lia. } rewrite X, Nat.ltb_irrefl. reflexivity.
  - rewrite D. reflexivity.
Qed.
Example C54_plug_ex : watch (start ++ [Dispatch [Monitor (Unplug 10) (fun _ => mute)]]) = (Some 0, true) /\ known (outs false (start ++ [Dispatch [Monitor (Unplug 10) (fun _ => mute)]] ++ [Dispatch [Monitor (Plug kbd) (fun _ => mute)]])) = [(1%nat, 11, 100); (2%nat, 10, 100)].
Proof. repeat split. Qed.
Print Assumptions C54_plug.
Theorem C54_unplug : forall l s c, forallb filter_works l = true ->
  known (outs false (l ++ [Dispatch [Monitor (Unplug s) c]])) = match watch l with (Some _, true) => filter (fun x => negb (Z.eqb (syspath x) s)) (known (outs false l)) | _ => known (outs false l) end.
Proof.
  intros l s c H. pose proof (watch_state l H) as [T1 [T2 T3]]. rewrite !known_state, state_app, run1. cbn [step filter reported]. rewrite <- T1. set (w := state false l) in *. destruct (msrc w) eqn:M; rewrite <- T2; [| destruct (seat_id w); reflexivity].
  cbn [serve]. rewrite M. cbn [udev_handler]. pose proof (removed_devs w s c (g_inv _ _ _ (state_good false l)) (uniq_state l)) as R. destruct (device_removed w s c) as [w1 o1]. cbn [fst] in *. destruct (seat_id w); [| specialize (T3 eq_refl); congruence]. rewrite R. apply (map_filter _ _ kn (fun x => negb (Z.eqb (syspath x) s))).
Qed.
Example C54_unplug_ex : known (outs false (start ++ [Dispatch [Monitor (Unplug 10) (fun _ => mute)]])) = [(1%nat, 11, 100)] /\ known (outs false (start ++ [Suspend (fun _ => mute)] ++ [Dispatch [Monitor (Plug kbd) (fun _ => mute)]])) = [].
Proof. repeat split. Qed.
Print Assumptions C54_unplug.

(** ** C54_all: assigning a seat and resuming it add every device of the seat that works, once for each syspath and seat name, and no other *)
Theorem C54_all : forall l x s cands, forallb filter_works l = true -> proper false [] l ->
  (x = Assign s M_OK cands /\ watch l = (None, false) \/ (exists how hc c, x = Resume M_OK cands how hc c) /\ watch l = (Some s, false)) ->
  map place (known (outs false (l ++ [x]))) = fold_left take1 (filter (usable s) cands) [] /\ returned (outs false (l ++ [x])) = Some true.
Proof.
  intros l x s cands H P X. pose proof (watch_state l H) as [T1 [T2 T3]]. destruct (proper_quiet l P) as [[Q1 Q2] U]. rewrite known_place, state_app, outs_app, run1. set (w := state false l) in *.
  assert (M : mon w = false) by (destruct X as [[_ X]|[_ X]]; rewrite X in T1; injection T1; auto). specialize (Q2 M). specialize (Q1 Q2).
  assert (E : forall w0, seat_id w0 = Some s -> mon w0 = false -> devs w0 = [] -> map sp (devs (fst (udev_enable w0 M_OK cands))) = fold_left take1 (filter (usable s) cands) [] /\ exists o, snd (udev_enable w0 M_OK cands) = o ++ [Ret true]).
  { intros w0 S0 M0 D0. unfold udev_enable. rewrite M0, S0. destruct (add_devices _ cands) as [w1 o1] eqn:A. cbn [fst snd]. split; [| eauto]. rewrite (add_devices_places _ _ _ _ s A S0). cbn [devs set_mon]. rewrite D0. reflexivity. }
  assert (R : forall a o, returned (a ++ o ++ [Ret true]) = Some true) by (intros; unfold returned; rewrite !fold_left_app; reflexivity).
  destruct X as [[X1 X2]|[[how [hc [c X1]]] X2]]; subst x; cbn [step]; rewrite U; rewrite X2 in T1; injection T1; intros E1 E2.
  - rewrite E2. destruct (E (set_seat w s) eq_refl E1 Q1) as [Y [o Z]]. rewrite Z. split; [exact Y | apply R].
  - destruct (E w E2 E1 Q1) as [Y [o Z]]. rewrite Z. split; [exact Y | apply R].
Qed.
Example C54_all_ex : map place (known (outs false start)) = [(10, 100); (11, 100)] /\ map place (known (outs false (start ++ [Suspend (fun _ => mute)] ++ [Resume M_OK [pad; other] (fun _ => WORKS) (fun _ => mute) (fun _ => mute)]))) = [(11, 100)].
Proof. repeat split. Qed.
Print Assumptions C54_all.

(** ** C54_one: with udev there is at most one device for a syspath and seat name, but with the same syspath there can be two *)
Theorem C54_one : forall l, NoDup (map place (known (outs false l))).
Proof. intro l. rewrite known_place. exact (proj2 (uniq_state l)). Qed.
Print Assumptions C54_one.
Theorem C54_one_refuted : ~ forall l, proper false [] l -> forallb filter_works l = true -> NoDup (map syspath (known (outs false l))).
Proof.
  intro H. specialize (H (start ++ [SetSeat 0 200 WORKS mute (fun _ => mute); Dispatch [Monitor (Plug kbd) (fun _ => mute)]])).
  assert (P : proper false [] (start ++ [SetSeat 0 200 WORKS mute (fun _ => mute); Dispatch [Monitor (Plug kbd) (fun _ => mute)]])) by (vm_compute; tauto). specialize (H P eq_refl). vm_compute in H. inversion H as [|? ? _ N]. inversion N as [|? ? X _]. apply X. left. reflexivity.
Qed.
Print Assumptions C54_one_refuted.

(** ** C54_no_crash: no NULL pointer is followed and nothing is freed twice, unless udev_monitor_filter_add_match_subsystem_devtype fails or epoll_ctl does when a device is resumed *)
Theorem C54_no_crash : forall p l, forallb filter_works l = true -> forallb epoll_works l = true -> ~ In Crash (outs p l).
Proof.
  intros p l F0 E0. assert (X : ~ In Crash (outs p l) /\ sane (state p l)); [| tauto]. induction l as [|x l IH] using rev_ind; [split; [intros [] | split; [reflexivity | intros d []]] |].
  rewrite forallb_app in F0, E0. apply andb_true_iff in F0. apply andb_true_iff in E0. destruct F0 as [F1 F2], E0 as [E1 E2]. cbn in F2, E2. rewrite andb_true_r in F2, E2. destruct (IH F1 E1) as [I1 I2]. rewrite outs_app, state_app, run1. destruct (crash_step x _ F2 E2 (g_inv _ _ _ (state_good p l)) I2) as [C1 C2]. split; [rewrite in_app_iff; tauto | exact C2].
Qed.
Print Assumptions C54_no_crash.
(** After a failed filter libinput_resume reports success though nothing is watched, and libinput_suspend crashes *)
Theorem C54_filter_refuted : exists l, proper false [] l /\
  returned (outs false (l ++ [Resume M_OK [kbd] (fun _ => WORKS) (fun _ => mute) (fun _ => mute)])) = Some true /\
  (forall k c, known (outs false (l ++ [Resume M_OK [kbd] (fun _ => WORKS) (fun _ => mute) (fun _ => mute)] ++ [Dispatch [Monitor (Plug k) c]])) = []) /\
  In Crash (outs false (l ++ [Suspend (fun _ => mute)])).
Proof. exists [Assign 0 M_FILTER [kbd]]. vm_compute. tauto. Qed.
Print Assumptions C54_filter_refuted.
(** When epoll_ctl fails in evdev_device_resume, mtdev is freed and stays set: the next suspension frees it again *)
Theorem C54_epoll_refuted : exists l, proper false [] l /\ In Crash (outs false (l ++ [Disable 1 mute])).
Proof. exists (start ++ [Disable 1 mute; Enable 1 B_EPOLL mute]). vm_compute. tauto. Qed.
Print Assumptions C54_epoll_refuted.
(** When mtdev cannot be opened in evdev_device_resume the file stays open without a source: from then on enabling the device does nothing, and it is not read again *)
Theorem C54_enable_refuted : exists l, proper false [] l /\ forallb filter_works l = true /\ forallb epoll_works l = true /\ file 3 (outs false l) = During /\
  (forall c, outs false (l ++ [Enable 1 B_OK c]) = outs false l) /\
  (forall c s c2 ok, In (Ev 1) (snd (step (state false (l ++ [Enable 1 B_OK c])) (Dispatch [Source s c2 ok]))) -> s = 0%nat).
Proof.
  exists (start ++ [Disable 1 mute; Enable 1 B_MTDEV mute]). refine (conj _ (conj eq_refl (conj eq_refl (conj eq_refl (conj _ _))))); [vm_compute; tauto | reflexivity |].
  intros c s c2 ok H. destruct s as [|s]; [reflexivity |]. vm_compute in H. destruct H.
Qed.
Print Assumptions C54_enable_refuted.
(** A device whose file cannot be read any more stays: it is not removed, its file stays open, and it is never read again *)
Theorem C54_dead_refuted : exists l, proper true [] l /\ map place (known (outs true l)) = [(10, 100)] /\ file 0 (outs true l) = During /\ forall s c ok, outs true (l ++ [Dispatch [Source s c ok]]) = outs true l.
Proof. exists [PathAdd kbd; Dispatch [Source 0 mute false]]. refine (conj _ (conj eq_refl (conj eq_refl _))); [vm_compute; tauto |]. intros. reflexivity. Qed.
Print Assumptions C54_dead_refuted.
(** A caller that changes the seat of a device that is gone brings it into a context that is suspended *)
Theorem C54_suspended_refuted : ~ forall p l c x, known (outs p (l ++ [Suspend c] ++ [SetSeat 0 200 x mute (fun _ => mute)])) = [].
Proof. intro H. specialize (H false start (fun _ => mute) WORKS). vm_compute in H. discriminate. Qed.
Print Assumptions C54_suspended_refuted.
