(** C60: when a touchpad's own clock tells of lost time, and what is done. *)
From Coq Require Import ZArith List Bool Lia.
Import ListNotations.
From Verif Require Import Msc_Model Msc_Spec Msc_Proofs.
Open Scope Z_scope.

(** The history is repaired and the acceleration restarted exactly at a jump;
    at every other timestamp nothing changes. *)
Theorem C60_when : forall l n now ts,
  (forall k, In k l -> stamp_ok k) -> stamp_ok n ->
  (restart (process (state_after l) n now ts) <> None <-> exists f, jump l n f) /\
  (restart (process (state_after l) n now ts) = None -> touches (process (state_after l) n now ts) = ts).
Proof.
  intros l n now ts K N. split; [split|].
  - intros R. pose proof (state_inv l K) as I. unfold process in R.
    destruct (n =? 0); [cbn in R; congruence|].
    destruct (st (state_after l)); try (cbn in R; congruence).
    destruct I as [b [f [m [E [F [M G]]]]]]. rewrite G, double in R by assumption.
    destruct (2 * f <? n) eqn:L; [|cbn in R; congruence]. apply Z.ltb_lt in L.
    exists f, b, m. auto.
  - intros [f [b [m [-> [F [M L]]]]]]. rewrite state_delay by assumption. unfold process. cbn [st interval].
    replace (n =? 0) with false by (symmetry; apply Z.eqb_neq; lia).
    rewrite double by assumption.
    replace (2 * f <? n) with true by (symmetry; now apply Z.ltb_lt). discriminate.
  - unfold process. destruct (n =? 0); [reflexivity|].
    destruct (st (state_after l)); try reflexivity. destruct (_ <? n); [discriminate|reflexivity].
Qed.
Print Assumptions C60_when.

(** At most one repair until the hardware's clock starts at zero again. *)
Theorem C60_once : forall l1 n1 f l2 n2 now ts,
  jump l1 n1 f -> (forall k, In k l2 -> k <> 0) -> n2 <> 0 ->
  restart (process (state_after (l1 ++ n1 :: l2)) n2 now ts) = None.
Proof.
  intros l1 n1 f l2 n2 now ts J Z2 N2.
  assert (S : st (state_after (l1 ++ n1 :: l2)) = IGNORE).
  { revert Z2. induction l2 as [|k l IH] using rev_ind; intros Z2.
    - rewrite state_snoc. destruct J as [b [m [-> [F [M L]]]]]. rewrite state_delay by assumption.
      unfold process. cbn [st interval].
      replace (n1 =? 0) with false by (symmetry; apply Z.eqb_neq; lia).
      rewrite double by assumption.
      replace (2 * f <? n1) with true by (symmetry; now apply Z.ltb_lt). reflexivity.
    - replace (l1 ++ n1 :: l ++ [k]) with ((l1 ++ n1 :: l) ++ [k]) by (rewrite <- app_assoc; reflexivity).
      rewrite state_snoc. unfold process.
      replace (k =? 0) with false by (symmetry; apply Z.eqb_neq, Z2, in_app_iff; cbn; auto).
      rewrite IH by (intros j H; apply Z2, in_app_iff; auto). cbn [after].
      apply IH. intros j H. apply Z2, in_app_iff. auto. }
  unfold process. rewrite S. destruct (n2 =? 0); reflexivity.
Qed.
Print Assumptions C60_once.

(** At a jump, each touch that moves keeps its points, and the time between the
    newest and now becomes what the hardware says beyond one interval, the time
    between any two others one interval; so all times are before now and differ.
    Other touches stay as they are, and the acceleration restarts at the newest
    point.  The event comes late enough after the start of the clock. *)
Theorem C60_repair : forall l n f now ts,
  jump l n f -> stamp_ok n -> n + 100000 <= now < 2 ^ 64 ->
  (forall t, In t ts -> (length (history t) <= 4)%nat) ->
  let e := process (state_after l) n now ts in
  restart e = Some (now - (n - f)) /\
  length (touches e) = length ts /\
  forall i t, nth_error ts i = Some t ->
    exists t', nth_error (touches e) i = Some t' /\ updating t' = updating t /\
      (updating t = false -> t' = t) /\
      (updating t = true ->
        length (history t') = length (history t) /\
        forall k p, nth_error (history t) k = Some p ->
          exists p', nth_error (history t') k = Some p' /\ x p' = x p /\ y p' = y p /\
            time p' = now - (n - f) - Z.of_nat k * f /\ 0 <= time p' < now - f).
Proof.
  intros l n f now ts [b [m [-> [F [M L]]]]] N W H e.
  assert (E : e = {| after := {| st := IGNORE; interval := f |};
                     touches := map (fix_last now (n - f) f) ts; restart := Some (now - (n - f)) |}).
  { unfold e. rewrite state_delay by assumption. unfold process. cbn [st interval].
    replace (n =? 0) with false by (symmetry; apply Z.eqb_neq; lia).
    rewrite double by assumption.
    replace (2 * f <? n) with true by (symmetry; now apply Z.ltb_lt).
    unfold stamp_ok in N.
    replace ((n - f) mod U32) with (n - f) by (unfold U32; rewrite Z.mod_small; lia).
    replace ((now - (n - f)) mod U64) with (now - (n - f)) by (unfold U64; rewrite Z.mod_small; lia).
    reflexivity. }
  rewrite E. cbn [restart touches]. split; [reflexivity|]. split; [apply map_length|].
  intros i t T. exists (fix_last now (n - f) f t).
  split; [now apply map_nth_error|].
  unfold fix_last. destruct (updating t) eqn:U; cbn [updating history].
  2:{ repeat split; try assumption; try congruence; discriminate. }
  split; [reflexivity|]. split; [discriminate|]. intros _. split; [apply fix_length|].
  intros k p P. rewrite (fix_nth _ _ _ _ _ _ _ P). eexists. split; [reflexivity|]. cbn [x y time].
  split; [reflexivity|]. split; [reflexivity|].
  assert (Q : (k < 4)%nat).
  { apply nth_error_In in T. apply H in T. assert (k < length (history t))%nat by (apply nth_error_Some; congruence). lia. }
  rewrite Z.add_0_l. unfold stamp_ok in N.
  assert (B : 0 <= f * Z.of_nat k <= 60000) by nia.
  rewrite (Z.mod_small (f * Z.of_nat k)) by (unfold U32; lia).
  rewrite Z.mod_small by (unfold U64; lia). lia.
Qed.
Print Assumptions C60_repair.

Example C60_example :
  jump [5; 0; 7300] 123456 7300 /\
  restart (process (state_after [5; 0; 7300]) 123456 9000000
             [{| updating := true; history := [{| time := 8998000; x := 3; y := 4 |}; {| time := 8996000; x := 1; y := 2 |}] |}])
    = Some 8883844 /\
  touches (process (state_after [5; 0; 7300]) 123456 9000000
             [{| updating := true; history := [{| time := 8998000; x := 3; y := 4 |}; {| time := 8996000; x := 1; y := 2 |}] |}])
    = [{| updating := true; history := [{| time := 8883844; x := 3; y := 4 |}; {| time := 8876544; x := 1; y := 2 |}] |}].
Proof.
  split; [|split; reflexivity].
  exists [5], []. split; [reflexivity|]. split; [lia|]. split; [intros m []|lia].
Qed.

(** No time was lost and yet there is a jump: with a steady clock of any
    interval the fourth event of a stroke is taken for one, as the clock counts
    from the start and is compared with one interval all the same. *)
Theorem C60_steady_refuted : forall f now ts, 0 < f <= 20000 ->
  restart (process (state_after [0; f; 2 * f]) (3 * f) now ts) <> None.
Proof.
  intros f now ts F. apply C60_when.
  - intros k [<-|[<-|[<-|[]]]]; unfold stamp_ok; lia.
  - unfold stamp_ok; lia.
  - exists f, [], [2 * f]. split; [reflexivity|]. split; [assumption|]. split; [|lia].
    intros m [<-|[]]. lia.
Qed.
Print Assumptions C60_steady_refuted.
