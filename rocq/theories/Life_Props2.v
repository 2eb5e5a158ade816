(** * The life of devices: suspending and resuming devices that were added by path (C54) *)
Require Import Coq.ZArith.ZArith Coq.Lists.List Coq.Bool.Bool Coq.Arith.PeanoNat Coq.micromega.Lia.
Require Import Coq.Sorting.Permutation Verif.Life_Model Verif.Life_Spec Verif.Life_Proofs Verif.Life_Proofs2 Verif.Life_Proofs3 Verif.Life_Proofs4 Verif.Life_Proofs5 Verif.Life_Props.
Import ListNotations.
Open Scope Z_scope.

Definition mutes : nat -> chat := fun _ => mute.
(** ** C54_restored: resuming brings back the devices that were there at the suspension, but for those removed meanwhile *)
Theorem C54_restored : forall l c is_ cr m cands how hc c2, tidy [] l false -> (forall u, how u = WORKS) -> (forall i, In i is_ -> lives i (outs true l) = During) ->
  let l2 := l ++ [Suspend c] ++ map (fun i => PathRemove i cr) is_ ++ [Resume m cands how hc c2] in
  Permutation (map syspath (known (outs true l2))) (map syspath (filter (fun x => negb (existsb (Nat.eqb (fst (fst x))) is_)) (known (outs true l)))) /\ returned (outs true l2) = Some true.
Proof.
  intros l c is_ cr m cands how hc c2 T HW IS l2. pose proof (tidy_pinv l [] false T pinv_init) as P. cbn [app] in P. pose proof (g_inv _ _ _ (state_good true l)) as I.
  assert (W2 : state true l2 = fst (step (fst (run (state true (l ++ [Suspend c])) (map (fun i => PathRemove i cr) is_))) (Resume m cands how hc c2)) /\ exists o, outs true l2 = o ++ snd (step (fst (run (state true (l ++ [Suspend c])) (map (fun i => PathRemove i cr) is_))) (Resume m cands how hc c2))).
  { unfold l2. rewrite app_assoc. rewrite app_assoc. rewrite state_app, outs_app, run1, state_app. split; [reflexivity | eauto]. }
  destruct W2 as [W2 [o W3]]. rewrite !known_state, W2, W3. clear W2 W3 l2.
  pose proof (suspended_asleep true l c (or_introl eq_refl)) as [A1 _]. pose proof (g_inv _ _ _ (state_good true (l ++ [Suspend c]))) as I1. pose proof (udev_up true (l ++ [Suspend c])) as U1.
  assert (G : forall d, In d (devs (state true l)) -> exists e, In e (gone (state true (l ++ [Suspend c]))) /\ id e = id d /\ ud e = ud d).
  { intros d D. rewrite state_app, run1. cbn [step]. rewrite udev_up. apply remove_all_gone; [exact I | left; split; [exact D | apply in_map; exact D]]. }
  assert (PA : paths (state true (l ++ [Suspend c])) = paths (state true l)). { rewrite state_app, run1. cbn [step]. rewrite udev_up. pose proof (remove_all_fr (map id (devs (state true l))) (state true l) c) as X. unfold fr in X. injection X; auto. }
  assert (IN : forall i, In i is_ -> has (devs (state true l)) i = true). { intros i X. specialize (IS i X). rewrite lives_state in IS. unfold L in IS. destruct (has _ i); [reflexivity |]. destruct (Nat.ltb _ _); discriminate. }
  set (w1 := state true (l ++ [Suspend c])) in *. assert (N3 : NoDup (map p_ud (paths w1))) by (rewrite PA; exact (p_nd _ _ P)). assert (PE : Permutation (map pu (paths w1)) (map du (devs (state true l)))) by (rewrite PA; exact (p_on _ _ P eq_refl)).
  pose proof (remove_many is_ (state true l) w1 cr U1 I (ud_nodup _ P) I1 A1 G IN (devs (state true l)) (fun d X => X) (ids_nodup _ I) (ud_nodup _ P) N3 PE) as R. cbn zeta in R. destruct R as [R1 [R2 [R3 R4]]].
  set (w2 := fst (run w1 (map (fun i => PathRemove i cr) is_))) in *. cbn [step]. rewrite R2. destruct (path_enable w2 (paths w2) how hc c2) as [w3 o3] eqn:E. apply path_enable_devs in E. destruct E as [_ [_ [o1 E]]]. assert (AW : forallb (fun p => works (how (p_ud p))) (paths w2) = true) by (apply forallb_forall; intros p _; rewrite HW; reflexivity). rewrite AW in E. destruct E as [E1 E2]. cbn [fst snd]. split.
  - rewrite R1 in E2. cbn [map app] in E2. rewrite <- (map_filter _ _ kn (fun x => negb (existsb (Nat.eqb (fst (fst x))) is_))). rewrite !map_map. cbn. change (fun x : dev => sys x) with (fun x => snd (du x)). rewrite <- !(map_map du snd). rewrite E2. apply Permutation_map. exact R4.
  - rewrite E1, app_assoc. apply returned_app.
Qed.
Definition added2 : list call := [PathAdd kbd; PathAdd broken; PathAdd pad; SetSeat 0 200 WORKS loud mutes; PathAdd other].
Example C54_restored_ex : tidy [] added2 false /\ map place (known (outs true added2)) = [(11, 100); (10, 200); (12, 100)] /\
  map place (known (outs true (added2 ++ [Suspend mutes] ++ map (fun i => PathRemove i mutes) [1%nat] ++ [Resume M_OK [] (fun _ => WORKS) mutes mutes]))) = [(12, 100); (10, 100)].
Proof. vm_compute. repeat split. Qed.
Print Assumptions C54_restored.

(** ** C54_all_or_nothing: when resuming fails, no device is left and every file is closed *)
Theorem C54_all_or_nothing : forall l m cands how hc c, let l2 := l ++ [Resume m cands how hc c] in
  returned (snd (step (state true l) (Resume m cands how hc c))) = Some false -> known (outs true l2) = [] /\ forall f, file f (outs true l2) <> During.
Proof.
  intros l m cands how hc c l2 H. assert (D : devs (state true l2) = []).
  { unfold l2. rewrite state_app, run1. cbn [step] in *. rewrite udev_up in *. destruct (path_enable _ _ how hc c) as [w2 o2] eqn:E. apply path_enable_devs in E. destruct E as [_ [_ [o1 E]]]. cbn [snd fst] in *. destruct (forallb _ _); destruct E as [E1 E2]; [subst o2; rewrite returned_app in H; discriminate | exact E2]. }
  split; [rewrite known_state, D; reflexivity |]. intro f. rewrite file_state. unfold F. rewrite D. cbn [holds existsb]. destruct (Nat.ltb _ _); discriminate.
Qed.
Example C54_all_or_nothing_ex : returned (snd (step (state true (added2 ++ [Suspend mutes])) (Resume M_OK [] (fun u => match u with 2%nat => OPEN_FAILS | _ => WORKS end) mutes mutes))) = Some false.
Proof. vm_compute. reflexivity. Qed.
Print Assumptions C54_all_or_nothing.

(** ** Without care a path has two devices: after a second libinput_resume, and after libinput_path_add_device while suspended, which opens the device at once, and libinput_resume *)
Theorem C54_twice_refuted : forall x, x = Resume M_OK [] (fun _ => WORKS) mutes mutes -> map syspath (known (outs true ([PathAdd kbd; Suspend mutes] ++ [x; x]))) = [10; 10] /\ map syspath (known (outs true ([Suspend mutes; PathAdd kbd] ++ [x]))) = [10; 10].
Proof. intros x E. subst x. vm_compute. auto. Qed.
Print Assumptions C54_twice_refuted.
(** Removing a device that went with an earlier suspension forgets the path of the one that came back: it stays, and is not brought back any more *)
Theorem C54_old_handle_refuted : forall r, r = Resume M_OK [] (fun _ => WORKS) mutes mutes ->
  map syspath (known (outs true ([PathAdd kbd; Suspend mutes; r] ++ [PathRemove 0 mutes]))) = [10] /\ known (outs true ([PathAdd kbd; Suspend mutes; r] ++ [PathRemove 0 mutes; Suspend mutes; r])) = [].
Proof. intros r E. subst r. vm_compute. auto. Qed.
Print Assumptions C54_old_handle_refuted.
(** The seat that a caller gave a device is lost with a suspension *)
Theorem C54_seat_refuted : ~ forall p l c m cands how hc c2, proper p [] l -> (forall u, how u = WORKS) -> (p = true -> tidy [] l false) -> (p = false -> m = M_OK /\ forall x, In x (map syspath (known (outs false l))) -> In x (map k_sys cands)) ->
  Permutation (map place (known (outs p (l ++ [Suspend c] ++ [Resume m cands how hc c2])))) (map place (known (outs p l))).
Proof.
  intro H. specialize (H true [PathAdd kbd; SetSeat 0 200 WORKS mute mutes] mutes M_OK [] (fun _ => WORKS) mutes mutes). assert (P : proper true [] [PathAdd kbd; SetSeat 0 200 WORKS mute mutes]) by (vm_compute; tauto). specialize (H P (fun _ => eq_refl)). assert (T : true = true -> tidy [] [PathAdd kbd; SetSeat 0 200 WORKS mute mutes] false) by (vm_compute; tauto). specialize (H T ltac:(discriminate)). vm_compute in H. apply Permutation_length_1 in H. discriminate.
Qed.
Print Assumptions C54_seat_refuted.
