(** C22: time conversion and rate limiting. *)
Require Import Coq.Strings.String Coq.ZArith.ZArith Coq.Lists.List Coq.Bool.Bool Coq.micromega.Lia.
Require Import Verif.Time_Model Verif.Time_Spec Verif.Time_Proofs.
Import ListNotations.
Open Scope Z_scope.

(** Every time survives the way through a timeval. *)
Theorem time_roundtrip : forall t, 0 <= t < 2 ^ 64 -> tv2us (us2tv t) = t.
Proof. exact us_tv_us. Qed.
Print Assumptions time_roundtrip.
(** And a proper timeval the way through microseconds. *)
Theorem timeval_roundtrip : forall s u, 0 <= s -> 0 <= u < 1000000 -> s * 1000000 + u < 2 ^ 64 ->
  tv2us (s, u) = s * 1000000 + u /\ us2tv (tv2us (s, u)) = (s, u).
Proof. exact tv_us_tv. Qed.
Print Assumptions timeval_roundtrip.
Theorem timeval_normal : forall t, 0 <= t -> 0 <= fst (us2tv t) /\ 0 <= snd (us2tv t) < 1000000.
Proof. exact us2tv_range. Qed.
Print Assumptions timeval_normal.
Example time_ex : us2tv 1234567 = (1, 234567) /\ tv2us (1, 234567) = 1234567 /\ us2ms 1234567 = 1234.
Proof. vm_compute. auto. Qed.

(** The millisecond stamp of an event wraps after 2^32 ms but counts whole
    milliseconds. *)
Theorem time_ms : forall t d, 0 <= t -> 0 <= d -> (us2ms (t + 1000 * d) - us2ms t) mod 2 ^ 32 = d mod 2 ^ 32.
Proof.
  intros t d Ht Hd. unfold us2ms. replace (t + 1000 * d) with (t + d * 1000) by lia. rewrite Z.div_add by lia.
  rewrite <- Zminus_mod. f_equal. lia.
Qed.
Print Assumptions time_ms.

(** A human-readable time is total, rounds down and uses a sensible unit. *)
Theorem human_time : forall us, 0 <= us < 2 ^ 64 ->
  exists u v k, to_human_time us = Some (u, v) /\ unit_us u = Some k /\ v * k <= us < (v + 1) * k /\
    (u = "us" /\ v < 5000 \/ u = "ms" /\ 5 <= v < 5000 \/ u = "s" /\ 5 <= v < 120 \/
     u = "min" /\ 2 <= v < 120 \/ u = "h" /\ 2 <= v < 48 \/ u = "d" /\ 2 <= v)%string.
Proof. exact human_lemma. Qed.
Print Assumptions human_time.
Example human_ex : to_human_time 7200000000 = Some ("h"%string, 2) /\ to_human_time 4999 = Some ("us"%string, 4999) /\
  to_human_time 5000 = Some ("ms"%string, 5).
Proof. vm_compute. auto. Qed.

(** ** The rate limiter, on any non-decreasing clock *)
(** A period that begins after at least one interval without calls lets at most
    [burst] calls through. *)
Theorem ratelimit_burst : forall ival b, 0 < ival -> 0 < b -> forall pre t post,
  Forall (fun u => u + ival < 2 ^ 64) (pre ++ t :: post) -> clock 0 (pre ++ t :: post) ->
  Forall (fun u => u + ival < t) pre ->
  passes t (t + ival) (rl_run (ratelimit_init ival b) (pre ++ t :: post)) <= b.
Proof. exact after_silence_lemma. Qed.
Print Assumptions ratelimit_burst.
(** Any period of one interval lets at most twice the burst through. *)
Theorem ratelimit_any_interval : forall ival b, 0 < ival -> 0 < b -> forall ts a,
  Forall (fun u => u + ival < 2 ^ 64) ts -> clock 0 ts ->
  passes a (a + ival) (rl_run (ratelimit_init ival b) ts) <= 2 * b.
Proof. exact sliding_lemma. Qed.
Print Assumptions ratelimit_any_interval.
(** A refused call had [burst] calls let through in the interval before it; in
    particular a call more than an interval after the last one let through is
    let through. *)
Theorem ratelimit_refusal : forall ival b, 0 < ival -> 0 < b -> forall ts h t h',
  Forall (fun u => u + ival < 2 ^ 64) ts -> clock 0 ts ->
  rl_run (ratelimit_init ival b) ts = h ++ (t, EXCEEDED) :: h' -> b <= passes (t - ival) t h.
Proof. exact exceeded_lemma. Qed.
Print Assumptions ratelimit_refusal.
Example ratelimit_ex : rl_run (ratelimit_init 100 2) [10; 20; 30; 110; 111; 112; 113] =
  [(10, PASS); (20, THRESHOLD); (30, EXCEEDED); (110, EXCEEDED); (111, PASS); (112, THRESHOLD); (113, EXCEEDED)] /\
  clock 0 [10; 20; 30; 110; 111; 112; 113] /\ Forall (fun u => u + 100 < 2 ^ 64) [10; 20; 30; 110; 111; 112; 113].
Proof. split; [reflexivity|]. split; repeat (constructor; try lia). Qed.
(** With an interval or burst of 0 nothing is limited. *)
Theorem ratelimit_off : forall ival b, ival <= 0 \/ b <= 0 -> forall ts, Forall (fun e => snd e = PASS) (rl_run (ratelimit_init ival b) ts).
Proof.
  intros ival b H ts. induction ts as [|t ts IH]; [constructor|]. cbn [rl_run]. unfold ratelimit_test. cbn [interval burst ratelimit_init].
  replace ((ival <=? 0) || (b <=? 0)) with true; [constructor; auto|]. symmetry. apply orb_true_iff.
  destruct H; [left|right]; apply Z.leb_le; auto.
Qed.
Print Assumptions ratelimit_off.
(** C22 read as "at most burst in every period of that length" is false: the
    periods are anchored at the first call. *)
Theorem ratelimit_sliding_refuted : exists ival b ts a, 0 < ival /\ 0 < b /\ clock 0 ts /\
  passes a (a + ival) (rl_run (ratelimit_init ival b) ts) > b.
Proof.
  exists 100, 2, [10; 109; 111; 112], 50. split; [lia|]. split; [lia|]. split; [repeat (constructor; try lia)|]. vm_compute. reflexivity.
Qed.
Print Assumptions ratelimit_sliding_refuted.
