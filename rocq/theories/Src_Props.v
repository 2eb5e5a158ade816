(** C58: what libinput_dispatch calls, and what it never touches. *)
From Coq Require Import ZArith List Bool Arith Lia.
Import ListNotations.
From Verif Require Import Src_Model Src_Spec Src_Proofs.

(** Whatever happened before and whatever the functions do that are called, the
    library reads no source that is freed. *)
Theorem C58_memory : forall l s t a,
  history init l s t -> possible s a -> act s a <> Bad_memory.
Proof.
  intros l s t a H P. pose proof (inv_history _ _ _ _ H _ inv_init) as I. cbn in I.
  destruct a as [[fd ok|i]|[ready|] does]; cbn; try discriminate.
  - unfold remove_source. destruct (heap s i); [|discriminate]. destruct (_ =? _)%Z; discriminate.
  - destruct P as [_ [P _]].
    assert (X : loop s ready does <> Bad_memory).
    { apply loop_no_bad. intros i K. apply P in K. apply (i_epoll _ _ I) in K.
      destruct K as [fd [K _]]. congruence. }
    destruct (loop s ready does) as [[? ?]| |]; congruence.
Qed.
Print Assumptions C58_memory.

(** A source that is removed is never called again, even if its file was already
    reported, and it is removed and freed once; only what was added is removed
    and only what was removed is freed. *)
Theorem C58_removed : forall l s t i,
  history init l s t ->
  ~ before (Removed i) (Called i) t /\
  ~ before (Freed i) (Called i) t /\
  ~ before (Freed i) (Removed i) t /\
  ~ before (Removed i) (Removed i) t /\
  ~ before (Freed i) (Freed i) t /\
  (In (Removed i) t -> In (Added i) t) /\
  (In (Freed i) t -> In (Removed i) t).
Proof.
  intros l s t i H. pose proof (inv_history _ _ _ _ H _ inv_init) as I. cbn in I.
  assert (R : forall b, before (Removed i) b t -> b <> Called i /\ b <> Removed i).
  { intros b [t1 [t2 [t3 E]]]. apply (i_once_r _ _ I) in E. rewrite !in_app_iff in E. cbn in E. tauto. }
  assert (F : forall b, before (Freed i) b t -> b <> Called i /\ b <> Removed i /\ b <> Freed i).
  { intros b [t1 [t2 [t3 E]]]. apply (i_once_f _ _ I) in E. rewrite !in_app_iff in E. cbn in E. tauto. }
  repeat split; intros X; try (apply R in X; tauto); try (apply F in X; tauto).
  - apply (i_rem _ _ I) in X. apply (i_seen _ _ I). tauto.
  - apply (i_freed _ _ I) in X. apply (i_rem _ _ I). tauto.
Qed.
Print Assumptions C58_removed.

(** One libinput_dispatch calls only what epoll reports, in that order, each at
    most once; what is reported and not called was removed by a function called
    before; and a source added meanwhile waits for the next time. *)
Theorem C58_called : forall l s t ready does s' t',
  history init l s t -> possible s (Dispatch (Some ready) does) ->
  act s (Dispatch (Some ready) does) = Ok (s', t') ->
  sublist (calls t') ready /\ NoDup (calls t') /\
  (forall i, In i ready -> In (Called i) t' \/ In (Removed i) t') /\
  (forall i, In (Added i) t' -> ~ In (Called i) t').
Proof.
  intros l s t ready does s' t' H P E. pose proof (inv_history _ _ _ _ H _ inv_init) as I. cbn in I.
  destruct P as [ND [Inc _]]. pose proof E as E0. cbn in E.
  destruct (loop s ready does) as [[s1 t1]| |] eqn:L; try discriminate.
  injection E as Es <-.
  assert (S : sublist (calls (t1 ++ map Freed (destroy s1))) ready).
  { rewrite calls_app, calls_freed, app_nil_r. eapply calls_loop; eassumption. }
  split; [assumption|]. split; [eapply sublist_nodup; eassumption|]. split.
  - intros i K. pose proof (Inc _ K) as Q. apply (i_epoll _ _ I) in Q. destruct Q as [fd [Q N]].
    rewrite !in_app_iff. destruct (loop_called _ _ _ _ _ L _ _ K Q N); auto.
    apply (i_next _ _ I). congruence.
  - intros i A C. apply in_calls in C. eapply sublist_in in C; [|eassumption].
    apply Inc in C. apply (i_epoll _ _ I) in C. destruct C as [fd [C _]].
    assert (Lt : i < next s) by (apply (i_next _ _ I); congruence).
    (* a new source has a new identity *)
    assert (G : forall l0 s0 s2 t2, do_ops s0 l0 = Ok (s2, t2) ->
                next s0 <= next s2 /\ forall j, In (Added j) t2 -> next s0 <= j).
    { induction l0 as [|o r IH]; intros s0 s2 t2 D; cbn in D.
      - injection D as <- <-. cbn. split; [lia|tauto].
      - destruct (do_op s0 o) as [[sa ta]| |] eqn:A1; try discriminate.
        destruct (do_ops sa r) as [[sb tb]| |] eqn:B1; try discriminate. injection D as <- <-.
        destruct (IH _ _ _ B1) as [IHa IHb].
        assert (G1 : next s0 <= next sa /\ forall j, In (Added j) ta -> next s0 <= j).
        { destruct o as [f ok|j]; cbn in A1.
          - unfold add_fd in A1. destruct (ok && _); injection A1 as <- <-; cbn.
            + split; [lia|]. intros j [X|[]]. injection X as <-. lia.
            + split; [lia|tauto].
          - unfold remove_source in A1. destruct (heap s0 j) as [f|]; [|discriminate].
            destruct (f =? -1)%Z; [discriminate|]. injection A1 as <- <-. cbn.
            split; [lia|]. intros k [X|[]]; discriminate. }
        destruct G1 as [Ga Gb]. split; [lia|]. intros j. rewrite in_app_iff.
        intros [X|X]; [auto|]. apply IHb in X. lia. }
    assert (GL : forall rd s0 s2 t2, loop s0 rd does = Ok (s2, t2) ->
                next s0 <= next s2 /\ forall j, In (Added j) t2 -> next s0 <= j).
    { induction rd as [|x r IH]; intros s0 s2 t2 D; cbn in D.
      - injection D as <- <-. cbn. split; [lia|tauto].
      - destruct (heap s0 x) as [f|]; [|discriminate]. destruct (f =? -1)%Z; [eauto|].
        destruct (do_ops s0 (does x)) as [[sa ta]| |] eqn:A1; try discriminate.
        destruct (loop sa r does) as [[sb tb]| |] eqn:B1; try discriminate. injection D as <- <-.
        destruct (G _ _ _ _ A1) as [Ga Gb]. destruct (IH _ _ _ B1) as [Ha Hb].
        split; [lia|]. intros j [X|X]; [discriminate|]. apply in_app_iff in X.
        destruct X as [X|X]; [auto|]. apply Hb in X. lia. }
    rewrite in_app_iff in A. destruct A as [A|A].
    + apply (GL _ _ _ _ L) in A. lia.
    + revert A. apply not_in_freed. discriminate.
Qed.
Print Assumptions C58_called.

(** Nothing leaks: after each libinput_dispatch that does not fail everything
    removed so far is freed, and what was added and not removed is in the set. *)
Theorem C58_freed : forall l s t ready does s' t' i,
  history init l s t -> possible s (Dispatch (Some ready) does) ->
  act s (Dispatch (Some ready) does) = Ok (s', t') ->
  (In (Removed i) (t ++ t') -> In (Freed i) (t ++ t')) /\
  (In i (epoll s') <-> In (Added i) (t ++ t') /\ ~ In (Removed i) (t ++ t')).
Proof.
  intros l s t ready does s' t' i H P E. pose proof (inv_history _ _ _ _ H _ inv_init) as I. cbn [app] in I.
  pose proof (inv_act _ _ _ _ _ I E) as J.
  assert (D : destroy s' = []).
  { cbn in E. destruct (loop s ready does) as [[s1 t1]| |]; try discriminate.
    injection E as <- _. reflexivity. }
  assert (N : heap s' i <> Some (-1)%Z).
  { rewrite <- (i_destroy _ _ J), D. tauto. }
  split.
  - rewrite (i_rem _ _ J), (i_freed _ _ J). tauto.
  - rewrite (i_epoll _ _ J), (i_seen _ _ J), (i_rem _ _ J). split.
    + intros [fd [X Y]]. split; [apply (i_next _ _ J); congruence|].
      intros [_ [Z|Z]]; congruence.
    + intros [X Y]. destruct (heap s' i) as [fd|] eqn:Q; [|tauto].
      exists fd. split; [reflexivity|]. congruence.
Qed.
Print Assumptions C58_freed.

(** Three sources; the first one's function removes the second, which is
    reported too, and adds another. *)
Example C58_example :
  exists s t,
    history init
      [Do (Add 5 true); Do (Add 6 true); Do (Add 7 true);
       Dispatch (Some [0; 1; 2]) (fun i => match i with 0 => [Remove 1; Add 8 true] | _ => [] end)] s t /\
    t = [Added 0; Added 1; Added 2; Called 0; Removed 1; Added 3; Called 2; Freed 1] /\
    epoll s = [0; 2; 3].
Proof.
  do 2 eexists. split; [|split].
  - do 3 (eapply h_cons; [exact Logic.I|cbn; unfold add_fd; cbn; reflexivity|]).
    eapply h_cons; [|unfold act, dispatch; vm_compute; reflexivity|apply h_nil].
    cbn. repeat split; [|intros x X; exact X|lia].
    repeat constructor; cbn; lia.
  - reflexivity.
  - reflexivity.
Qed.
