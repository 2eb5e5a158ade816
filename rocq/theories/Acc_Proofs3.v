(** Proofs about pointer acceleration: devices *)
Require Import Coq.ZArith.ZArith Coq.QArith.QArith Coq.QArith.Qabs Coq.Lists.List Coq.Bool.Bool Coq.micromega.Lia Coq.micromega.Lqa.
Require Import Verif.Acc_Model Verif.Acc_Spec Verif.Acc_Proofs Verif.Acc_Proofs2.
Import ListNotations.
Open Scope Q_scope.

Definition kind_for (c : dev_class) (p : acc_profile) : kind :=
  match c, p with
  | (DMouse _ _ | DTrackpoint _ _ _), P_FLAT => Flat | DTouchpad _ _ _ _, P_FLAT => TouchpadFlat
  | DMouse d _, _ => if (d <? 1000)%Z then LowDpi else Mouse
  | DTrackpoint _ _ _, _ => Trackpoint | DTouchpad _ true _ _, _ => X230 | DTouchpad _ false _ _, _ => Touchpad | DTablet _ _, _ => Tablet
  end.
Definition class_dpi (c : dev_class) : Z := match c with DMouse d _ | DTrackpoint d _ _ | DTouchpad d _ _ _ => d | DTablet _ _ => 1 end.
Definition class_mult (c : dev_class) (p : acc_profile) : Q := match c, p with DTrackpoint _ mu _, P_FLAT => 1 | DTrackpoint _ mu _, _ => mu | _, _ => 1 end.
Definition class_res (c : dev_class) : Z * Z := match c with DTablet a b => (a, b) | _ => (1, 1)%Z end.
Definition class_n (c : dev_class) : nat := match c with DMouse _ a | DTrackpoint _ _ a | DTouchpad _ _ _ a => if a then 16%nat else 2%nat | DTablet _ _ => 2%nat end.
Definition class_sm (c : dev_class) (p : acc_profile) : option (Z * Z) := match p with P_FLAT => None | _ => smoothing c end.
(** The device after a history with settings [s], [p] and past [h] *)
Record adev_ok (m : math) (c : dev_class) (s : Q) (p : acc_profile) (h : list past) (d : adev) : Prop := {
  a_cls : cls d = c; a_kind : fk (flt d) = kind_for c p; a_dpi : dpi (flt d) = class_dpi c; a_mult : mult (flt d) = class_mult c p; a_res : res (flt d) = class_res c; a_sm : sm (flt d) = class_sm c p;
  a_set : set_for m (flt d) s; a_speed : speed (flt d) = match c with DTablet _ _ => 0 | _ => s end; a_last : 0 <= lastv (flt d);
  a_prof : p <> P_NONE /\ (match c with DTablet _ _ => p = P_ADAPTIVE | _ => True end);
  a_hist : p = P_ADAPTIVE -> match c with DTablet _ _ => True | _ => tracks (class_n c) (tr (flt d)) h end }.
Lemma qmax_thr : forall s, qmax (2 # 10000) ((4 # 10000) - (25 # 100000) * s) == if qlt ((4 # 10000) - (25 # 100000) * s) (2 # 10000) then 2 # 10000 else (4 # 10000) - (25 # 100000) * s.
Proof. intros. unfold qmax. qcases; lra. Qed.
Lemma set_speed_for : forall m f s, -1 <= s <= 1 ->
  match fk f with Mouse | X230 => (0 < dpi f)%Z | LowDpi => (0 < dpi f < 1000)%Z | Touchpad => thr f = 130 /\ (0 < dpi f)%Z | Trackpoint => 0 < mult f | _ => True end ->
  set_for m (filter_set_speed m f s) s.
Proof.
  intros m f s R H. split; [exact R|]. unfold filter_set_speed. cbn [fk dpi thr acc inc fac mult]. destruct (fk f); cbn; try (split; [|exact I]); auto.
  - rewrite qmax_thr. destruct (qlt _ _); repeat split; try lra; exact H.
  - rewrite qmax_thr. destruct (qlt _ _); repeat split; try lra; apply H.
  - rewrite qmax_thr. destruct (qlt _ _); repeat split; try lra; exact H.
  - destruct H as [H1 H2]. auto.
Qed.
Lemma init_facts : forall c p, good_class c -> p <> P_NONE -> (match c with DTablet _ _ => p = P_ADAPTIVE | _ => True end) ->
  let f := init_accel c p in fk f = kind_for c p /\ dpi f = class_dpi c /\ mult f = class_mult c p /\ res f = class_res c /\ sm f = class_sm c p /\ speed f = 0 /\ lastv f = 0 /\ tr f = trackers_init (class_n c) /\
  match fk f with Mouse | X230 => (0 < dpi f)%Z | LowDpi => (0 < dpi f < 1000)%Z | Touchpad => thr f = 130 /\ (0 < dpi f)%Z | Trackpoint => 0 < mult f | _ => True end.
Proof.
  intros [d a|d mu a|d x b a|rx ry] [| |] G N T; try contradiction; try discriminate T; cbn -[Z.ltb]; try destruct (Z.ltb_spec d 1000); try destruct x; cbn in *; repeat split; auto; try tauto; try lia.
Qed.
Lemma adev_ok_create : forall m c p s, good_class c -> p <> P_NONE -> (match c with DTablet _ _ => p = P_ADAPTIVE | _ => True end) -> -1 <= s <= 1 -> (match c with DTablet _ _ => s = 0 | _ => True end) ->
  adev_ok m c s p [Started 0] {| cls := c; flt := filter_set_speed m (init_accel c p) s |}.
Proof.
  intros m c p s G N T R TS. destruct (init_facts c p G N T) as (F1 & F2 & F3 & F4 & F5 & F6 & F7 & F8 & F9). constructor; cbn [cls flt filter_set_speed fk dpi mult res sm speed lastv tr]; auto.
  - apply set_speed_for; assumption.
  - rewrite F1. destruct c as [d a|d mu a|d x b a|rx ry]; cbn; [destruct p; [contradiction|reflexivity|destruct (d <? 1000)%Z; reflexivity]|destruct p; reflexivity|destruct p, x; reflexivity|exact F6].
  - rewrite F7. lra.
  - intros _. destruct c; auto; rewrite F8; apply tracks_init; cbn; repeat match goal with |- context[if ?b then _ else _] => destruct b end; lia.
Qed.
Lemma sm_good : forall c p, match class_sm c p with Some (_, v) => (0 < v)%Z \/ class_sm c p = Some (0, 0)%Z | None => True end.
Proof. intros [d a|d mu a|d x b a|rx ry] [| |]; cbn; try destruct x; try destruct b; cbn; auto; left; lia. Qed.
Lemma dispatch_with : forall m f mt x y t, exists v k, snd (dispatch m f mt x y t) = with_tr f v k /\
  match fk f with Flat | TouchpadFlat | Tablet => v = lastv f /\ k = tr f
  | Mouse | X230 => k = feed m (tr f) (normalize f x) (normalize f y) t /\ v = velocity m (sm f) k t
  | LowDpi | Touchpad => k = feed m (tr f) x y t /\ v = velocity m (sm f) k t
  | Trackpoint => k = feed m (tr f) (x * mult f) (y * mult f) t /\ v = lastv f end.
Proof. intros m f mt x y t. unfold dispatch, factor. destruct f as [K D MU RE SM S TH AC IN FA LA TR]. cbn [fk]. destruct K; cbn [fk tr sm lastv with_tr snd]; try (do 2 eexists; split; [reflexivity|split; reflexivity]). destruct mt; do 2 eexists; (split; [reflexivity|split; reflexivity]). Qed.
Lemma adev_ok_step : forall m c s p h d i, good_math m -> good_class c -> adev_ok m c s p h d ->
  adev_ok m c (setting1 s i) (fst (history1 c (p, h) i)) (snd (history1 c (p, h) i)) (fst (astep m d i)).
Proof.
  intros m c s p h d i GM GC OK. pose proof OK as [A1 A2 A3 A4 A5 A6 A7 A8 A9 (A10 & A11) A12]. destruct i as [mt x y t|x y t|t|v|q]; cbn [setting1 history1].
  - assert (Q : chosen1 c p (Motion mt x y t) = p) by (destruct c; auto). rewrite Q. cbn [fst snd astep]. destruct (dispatch m (flt d) mt x y t) as [o f] eqn:E. cbn [fst].
    destruct (dispatch_with m (flt d) mt x y t) as (v & k & W & V). rewrite E in W. cbn [snd] in W. subst f. constructor; cbn [cls flt fk dpi mult res sm speed lastv tr with_tr]; auto.
    + assert (VN : forall k0 u, 0 <= velocity m (sm (flt d)) k0 u) by (intros; apply velocity_nonneg; [exact GM|rewrite A6; apply sm_good]). destruct (fk (flt d)); destruct V as [V1 V2]; try (rewrite V2; (apply VN || exact A9)); rewrite V1; exact A9.
    + intros ->. specialize (A12 eq_refl). destruct c as [dd a|dd mu a|dd xx b a|rx ry]; auto.
      * rewrite A2 in V. unfold units. cbn [kind_for] in V. destruct (Z.ltb_spec dd 1000); destruct V as [-> _]; unfold normalize; rewrite ?A3; apply tracks_feed; assumption.
      * rewrite A2 in V. destruct V as [-> _]. rewrite A4. apply tracks_feed; assumption.
      * rewrite A2 in V. unfold units. destruct xx; destruct V as [-> _]; unfold normalize; rewrite ?A3; apply tracks_feed; assumption.
  - assert (Q : chosen1 c p (Constant x y t) = p) by (destruct c; auto). rewrite Q. cbn. exact OK.
  - assert (Q : chosen1 c p (Restart t) = p) by (destruct c; auto). rewrite Q. cbn [fst snd astep]. unfold restart.
    assert (K : forall f, fk f = fk (flt d) -> adev_ok m c s p (match p with P_ADAPTIVE => Started t :: h | _ => h end) {| cls := cls d; flt := with_tr (flt d) (lastv (flt d)) (reset (tr (flt d)) t) |}).
    { intros _ _. constructor; cbn [cls flt fk dpi mult res sm speed lastv tr with_tr]; auto. intros ->. specialize (A12 eq_refl). destruct c; auto; apply tracks_reset; assumption. }
    destruct (fk (flt d)) eqn:FK; try (apply (K (flt d)); exact FK).
    + replace {| cls := cls d; flt := flt d |} with d by (destruct d; reflexivity). destruct p; try contradiction; [exact OK|]. try rewrite FK in A2; symmetry in A2. destruct c as [dd a|dd mu a|dd xx b a|rx ry]; cbn in A2; try discriminate A2; [destruct (dd <? 1000)%Z; discriminate A2|destruct xx; discriminate A2].
    + replace {| cls := cls d; flt := flt d |} with d by (destruct d; reflexivity). destruct p; try contradiction; [exact OK|]. try rewrite FK in A2; symmetry in A2. destruct c as [dd a|dd mu a|dd xx b a|rx ry]; cbn in A2; try discriminate A2; [destruct (dd <? 1000)%Z; discriminate A2|destruct xx; discriminate A2].
    + replace {| cls := cls d; flt := flt d |} with d by (destruct d; reflexivity). try rewrite FK in A2; symmetry in A2. destruct c as [dd a|dd mu a|dd xx b a|rx ry]; [destruct p; cbn in A2; try discriminate A2; destruct (dd <? 1000)%Z; discriminate A2|destruct p; discriminate A2|destruct p, xx; discriminate A2|]. destruct OK; constructor; auto.
  - assert (Q : chosen1 c p (SetSpeed v) = p) by (destruct c; auto). rewrite Q. cbn [fst snd astep]. unfold set_speed. destruct v as [v|]; [|exact OK]. unfold in_range. destruct (Qle_bool (-1) v && Qle_bool v 1) eqn:R; [|exact OK]. apply andb_true_iff in R. destruct R as [R1 R2]. apply Qle_bool_iff in R1, R2.
    constructor; cbn [snd cls flt filter_set_speed fk dpi mult res sm speed lastv tr]; auto.
    + apply set_speed_for; [split; assumption|]. destruct A7 as (_ & B & B'). destruct (fk (flt d)); try tauto; try (destruct B as (_ & _ & _ & B); (exact B || split; assumption)).
    + rewrite A2, A8. destruct c as [dd a|dd mu a|dd xx b a|rx ry]; [destruct p; [contradiction|reflexivity|cbn; destruct (dd <? 1000)%Z; reflexivity]|destruct p; reflexivity|destruct p, xx; reflexivity|reflexivity].
  - cbn [fst snd astep]. unfold set_profile, profile_supported, is_tablet. rewrite A1.
    destruct c as [dd a|dd mu a|dd xx b a|rx ry].
    4: { assert (p = P_ADAPTIVE) by exact A11. subst p. destruct q; exact OK. }
    all: assert (FT : filter_type (flt d) = p) by (unfold filter_type; rewrite A2; destruct p; try contradiction; cbn; try reflexivity; try (destruct (dd <? 1000)%Z; reflexivity); try (destruct xx; reflexivity)).
    all: rewrite FT, A8; destruct q; cbn [negb andb chosen1]; [destruct p; [contradiction|exact OK|exact OK]| |].
    all: destruct p; try contradiction; cbn [profile_eqb snd fst]; try exact OK; apply adev_ok_create; auto; try discriminate; apply A7.
Qed.
Lemma history_app : forall c l i, fold_left (history1 c) (l ++ [i]) (P_ADAPTIVE, [Started 0]) = history1 c (fold_left (history1 c) l (P_ADAPTIVE, [Started 0])) i.
Proof. intros. rewrite fold_left_app. reflexivity. Qed.
Lemma history_chosen : forall c l, fst (fold_left (history1 c) l (P_ADAPTIVE, [Started 0])) = chosen c l.
Proof.
  intros c l. unfold chosen. set (h := [Started 0]). clearbody h. set (p := P_ADAPTIVE). clearbody p. revert p h. induction l as [|i l IH]; intros p h; [reflexivity|]. cbn [fold_left]. destruct (history1 c (p, h) i) as [p' h'] eqn:E. rewrite IH. f_equal.
  unfold history1 in E. destruct i; injection E as <- <-; reflexivity.
Qed.
Lemma adev_ok_run : forall m c l, good_math m -> good_class c -> adev_ok m c (setting l) (chosen c l) (history c l) (arun m (adev_init m c) l).
Proof.
  intros m c l GM GC. induction l as [|i l IH] using rev_ind.
  - apply adev_ok_create; auto; try discriminate; [destruct c; auto|split; discriminate|destruct c; auto].
  - unfold setting, history, arun. rewrite !fold_left_app, <- history_chosen, history_app. cbn [fold_left]. unfold setting, history, arun in IH. rewrite <- history_chosen in IH. destruct (fold_left (history1 c) l (P_ADAPTIVE, [Started 0])) as [p h]. cbn [fst snd] in IH. apply adev_ok_step; assumption.
Qed.
