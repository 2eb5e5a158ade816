(** Proofs about taps with several fingers. *)
Require Import Coq.ZArith.ZArith Coq.Lists.List Coq.Bool.Bool Coq.micromega.Lia.
Require Verif.Tp_Model Verif.Tp_Spec.
Require Import Verif.Tap_Model Verif.Tap_Spec Verif.Tap_Proofs Verif.Tap_Proofs2.
Import ListNotations.
Open Scope Z_scope.

Notation isb := (is_state Tp_Model.BEGIN).
Notation ise := (is_state Tp_Model.END).
Fixpoint cleared (l : list finger) (ms : list tmark) : list tmark :=
  match l, ms with f :: l, m :: ms => (if isb f then unmarked else m) :: cleared l ms | _, _ => ms end.
Lemma clear_app : forall p m ms, clear_mark (length p) (p ++ m :: ms) = p ++ unmarked :: ms.
Proof. induction p; intros; cbn; [reflexivity|]. f_equal. apply IHp. Qed.
Lemma with_marks_id : forall s, with_marks s (marks s) = s.
Proof. destruct s; reflexivity. Qed.
Lemma run_beginning : forall l p ms s, marks s = p ++ ms -> length ms = length l -> run s (beginning (length p) l) = with_marks s (p ++ cleared l ms).
Proof.
  induction l as [|f l IH]; intros p ms s M L; destruct ms as [|m ms]; cbn in L; try discriminate L.
  - cbn. rewrite <- M. symmetry. apply with_marks_id.
  - cbn [beginning cleared]. replace (S (length p)) with (length (p ++ [if isb f then unmarked else m])) by (rewrite app_length; cbn; lia).
    destruct (isb f); cbn [app].
    + cbn [run fold_left step]. rewrite M, clear_app. change (fold_left step ?a ?b) with (run b a). rewrite (IH (p ++ [unmarked]) ms); [|cbn [marks with_marks]; rewrite <- app_assoc; reflexivity|lia].
      rewrite <- app_assoc. reflexivity.
    + rewrite (IH (p ++ [m]) ms); [|rewrite M, <- app_assoc; reflexivity|lia]. rewrite <- app_assoc. reflexivity.
Qed.

Definition b2z (b : bool) : Z := if b then 1 else 0.
Lemma how_many_cons : forall w was, how_many (w :: was) = b2z w + how_many was.
Proof. intros. unfold how_many. cbn [filter]. destruct w; cbn [length b2z]; lia. Qed.
Lemma how_many_nonneg : forall was, 0 <= how_many was. Proof. intros. unfold how_many. lia. Qed.

(** *** Fingers arriving *)
Definition dst (c : Z) : tap_state := if c =? 0 then IDLE else if c =? 1 then TOUCH else if c =? 2 then TOUCH_2 else if c =? 3 then TOUCH_3 else DEAD.
Record dn (o : list bev) (m : tap_map) (dr : bool) (c tb : Z) (s : tap) : Prop := {
  d_st : st s = dst c; d_nf : nf s = c; d_sp : 1 <= c <= 3 -> sp s = tb; d_out : out s = o; d_map : map_ s = m; d_want : want_map s = m; d_drag : drag s = dr; d_en : tap_enabled s = true; d_off : off s = false }.
Lemma dn_touch : forall o m dr c tb s t, dn o m dr c tb s -> 0 <= c -> dn o m dr (c + 1) t (handle_event (with_nf s (nf s + 1)) EV_TOUCH t).
Proof.
  intros o m dr c tb s t [A1 A2 A3 A4 A5 A6 A7 A8 A9] C. pose proof (handle_kept (with_nf s (nf s + 1)) EV_TOUCH t) as (K1 & K2 & K3 & K4 & K5 & K6 & K7 & K8 & K9). cbn in K1, K2, K3, K4, K5, K6, K7, K8, K9.
  pose proof (handle_nf (with_nf s (nf s + 1)) EV_TOUCH t) as N. cbn iota in N. cbn [nf with_nf] in N.
  assert (X : st (handle_event (with_nf s (nf s + 1)) EV_TOUCH t) = dst (c + 1) /\ (1 <= c + 1 <= 3 -> sp (handle_event (with_nf s (nf s + 1)) EV_TOUCH t) = t) /\ out (handle_event (with_nf s (nf s + 1)) EV_TOUCH t) = o).
  { clear - A1 A4 C. assert (E : c = 0 \/ c = 1 \/ c = 2 \/ c = 3 \/ 4 <= c) by lia. destruct s. cbn in A1, A4. subst.
    destruct E as [->|[->|[->|[->|E]]]]; try (unfg; cbn; repeat split; intros; lia).
    assert (D : dst c = DEAD) by (unfold dst; destruct (Z.eqb_spec c 0), (Z.eqb_spec c 1), (Z.eqb_spec c 2), (Z.eqb_spec c 3); try lia; reflexivity).
    assert (D2 : dst (c + 1) = DEAD) by (unfold dst; destruct (Z.eqb_spec (c + 1) 0), (Z.eqb_spec (c + 1) 1), (Z.eqb_spec (c + 1) 2), (Z.eqb_spec (c + 1) 3); try lia; reflexivity).
    rewrite D, D2. unfg. repeat split; intros; lia. }
  destruct X as (X1 & X2 & X3). constructor; auto; try congruence. unfold tap_enabled in *. congruence.
Qed.
Lemma calm_touch : forall s f m t w, follows w f -> clean f = true -> isb f = false -> ise f = false -> (w = true -> m = unmarked) -> touch_in_frame s f m t = (s, m).
Proof.
  intros s f m t w F C B E M. unfold touch_in_frame, clean, is_state in *. destruct (fdirty f); [|reflexivity]. cbn [negb].
  apply negb_true_iff in C. repeat (apply orb_false_iff in C; destruct C as [C ?]).
  destruct w; cbn [follows] in F.
  - rewrite (M eq_refl). cbn [is_thumb is_palm]. destruct F as [F|(F & _)]; rewrite F in *; [|discriminate E]. rewrite C, H, H1. rewrite !andb_false_r. reflexivity.
  - destruct F as [F|[F|(F & _)]]; rewrite F in *; try discriminate B; try reflexivity. destruct (is_thumb m); [reflexivity|]. destruct (is_palm m); reflexivity.
Qed.
Definition marked_ok (w : bool) (m : tmark) : Prop := w = true -> m = unmarked.
Definition beg_ok (f : finger) (m : tmark) : Prop := isb f = true -> m = unmarked.
Lemma dn_touches : forall l was ms s t o mp dr c tb s' ms', Forall2 follows was l -> Forall2 marked_ok was ms -> Forall2 beg_ok l ms -> forallb clean l = true -> existsb ise l = false ->
  dn o mp dr c tb s -> 0 <= c -> touches_in_frame s l ms t = (s', ms') ->
  dn o mp dr (c + (how_many (map is_down l) - how_many was)) (if existsb isb l then t else tb) s' /\ ms' = ms.
Proof.
  induction l as [|f l IH]; intros was ms s t o mp dr c tb s' ms' F M B CL NE D C E.
  - inversion F; subst. cbn in E. injection E as <- <-. cbn. rewrite Z.add_0_r. auto.
  - inversion F as [|w ? was' ? F1 F2]; subst. inversion M as [|? m ? ms0 M1 M2]; subst. inversion B as [|? ? ? ? B1 B2]; subst.
    cbn [forallb existsb] in *. apply andb_true_iff in CL. destruct CL as [CL1 CL2]. apply orb_false_iff in NE. destruct NE as [NE1 NE2].
    cbn [touches_in_frame] in E. cbn [map]. rewrite !how_many_cons.
    destruct (isb f) eqn:BF.
    + assert (FS : fs f = Tp_Model.BEGIN) by (unfold is_state in BF; destruct (fs f); try discriminate BF; reflexivity).
      assert (W : w = false) by (destruct w; [|reflexivity]; cbn in F1; rewrite FS in F1; destruct F1 as [F1|(F1 & _)]; discriminate F1). subst w.
      assert (DF : fdirty f = true) by (cbn in F1; rewrite FS in F1; destruct F1 as [F1|[F1|(_ & F1)]]; try discriminate F1; exact F1).
      assert (E1 : touch_in_frame s f m t = (handle_event (with_nf s (nf s + 1)) EV_TOUCH t, m)).
      { unfold touch_in_frame. rewrite DF, FS, (B1 BF). cbn [negb is_thumb is_palm]. unfold clean in CL1. apply negb_true_iff in CL1. repeat (apply orb_false_iff in CL1; destruct CL1 as [CL1 ?]). rewrite CL1, H2, H0. reflexivity. }
      rewrite E1 in E. destruct (touches_in_frame (handle_event (with_nf s (nf s + 1)) EV_TOUCH t) l ms0 t) as [s2 ms2] eqn:E2. injection E as <- <-.
      destruct (IH was' ms0 _ t o mp dr (c + 1) t s2 ms2 F2 M2 B2 CL2 NE2 (dn_touch _ _ _ _ _ _ _ D C) ltac:(lia) E2) as [X ->]. split; [|reflexivity].
      cbn [orb]. unfold is_down at 1. rewrite FS. cbn [b2z]. replace (c + (1 + how_many (map is_down l) - (0 + how_many was'))) with (c + 1 + (how_many (map is_down l) - how_many was')) by lia.
      destruct (existsb isb l); exact X.
    + rewrite (calm_touch s f m t w F1 CL1 BF NE1 M1) in E. destruct (touches_in_frame s l ms0 t) as [s2 ms2] eqn:E2. injection E as <- <-.
      destruct (IH was' ms0 _ t o mp dr c tb s2 ms2 F2 M2 B2 CL2 NE2 D C E2) as [X ->]. split; [|reflexivity]. cbn [orb].
      assert (WD : is_down f = w). { unfold is_down, is_state in *. destruct w; cbn in F1; [destruct F1 as [F1|(F1 & _)]|destruct F1 as [F1|[F1|(F1 & _)]]]; rewrite F1 in *; try discriminate BF; try discriminate NE1; reflexivity. }
      rewrite WD. replace (b2z w + how_many (map is_down l) - (b2z w + how_many was')) with (how_many (map is_down l) - how_many was') by lia. exact X.
Qed.
Lemma cleared_facts : forall l was ms, Forall2 follows was l -> Forall2 marked_ok was ms -> Forall2 marked_ok was (cleared l ms) /\ Forall2 beg_ok l (cleared l ms) /\ (existsb ise l = false -> Forall2 marked_ok (map is_down l) (cleared l ms)) /\ length (cleared l ms) = length ms.
Proof.
  induction l as [|f l IH]; intros was ms F M.
  - inversion F; subst. inversion M; subst. repeat split; constructor.
  - inversion F as [|w ? was' ? F1 F2]; subst. inversion M as [|? m ? ms0 M1 M2]; subst. destruct (IH _ _ F2 M2) as (A & B & C & D). cbn [cleared map existsb length].
    assert (X : marked_ok w (if isb f then unmarked else m)) by (intros W; destruct (isb f); [reflexivity|apply M1, W]).
    split; [constructor; assumption|]. split; [constructor; [intros Q; rewrite Q; reflexivity|assumption]|]. split; [|congruence].
    intros E. apply orb_false_iff in E. destruct E as [E1 E2]. constructor; [|apply C, E2]. intros Q. destruct (isb f) eqn:BF; [reflexivity|].
    apply M1. unfold is_down, is_state in *. destruct w; [reflexivity|]. cbn in F1. destruct F1 as [F1|[F1|(F1 & _)]]; rewrite F1 in *; discriminate.
Qed.
Lemma Forall2_length' : forall {A B} (R : A -> B -> Prop) l l', Forall2 R l l' -> length l = length l'.
Proof. intros A B R l l' H; induction H; cbn; congruence. Qed.

(** A frame, with the begins before it *)
Lemma shown_eq : forall s l t was, Forall2 follows was l -> Forall2 marked_ok was (marks s) -> off s = false -> tap_enabled s = true ->
  exists b, run s (shown (l, t)) = let '(s2, ms2) := touches_in_frame (with_marks s (cleared l (marks s))) l (cleared l (marks s)) t in update_map (check (with_marks s2 ms2) b).
Proof.
  intros s l t was F M O E. unfold shown. cbn [fst snd]. rewrite run_app. pose proof (run_beginning l [] (marks s) s eq_refl) as RB. cbn [length app] in RB. rewrite RB by (rewrite <- (Forall2_length' _ _ _ M); apply (Forall2_length' _ _ _ F)).
  cbn [run fold_left step]. unfold handle_state. cbn [off with_marks]. rewrite O. unfold tap_enabled in *. cbn [enabled suspended with_marks]. rewrite E. cbn [orb negb]. rewrite andb_false_r. cbn [marks with_marks].
  destruct (touches_in_frame (with_marks s (cleared l (marks s))) l (cleared l (marks s)) t) as [s2 ms2]. eexists. reflexivity.
Qed.
Lemma dn_marks : forall o m dr c tb s ms, dn o m dr c tb s -> dn o m dr c tb (with_marks s ms).
Proof. intros o m dr c tb s ms []. constructor; auto. Qed.
Lemma dn_end : forall o m dr c tb s ms b, dn o m dr c tb s -> dn o m dr c tb (update_map (check (with_marks s ms) b)) /\ marks (update_map (check (with_marks s ms) b)) = ms.
Proof. intros o m dr c tb s ms b []. split; [|unfold update_map; destruct (is_idle _); reflexivity]. unfold update_map. destruct (is_idle _); constructor; auto. Qed.
Lemma dn_frames : forall l was s o mp dr c tb, dn o mp dr c tb s -> c = how_many was -> Forall2 marked_ok was (marks s) -> calm Tp_Model.END was l ->
  let s' := run s (frames l) in dn o mp dr (how_many (downs was l)) (last_with Tp_Model.BEGIN tb l) s' /\ Forall2 marked_ok (downs was l) (marks s').
Proof.
  induction l as [|[f t] l IH]; intros was s o mp dr c tb D C M CA s'.
  - subst c. split; assumption.
  - cbn [calm downs last_with] in *. destruct CA as (F & CL & NE & CA). unfold s', frames. cbn [map concat]. rewrite run_app. fold (frames l).
    destruct (shown_eq s f t was F M (d_off _ _ _ _ _ _ D) (d_en _ _ _ _ _ _ D)) as (b & E). rewrite E.
    destruct (cleared_facts f was (marks s) F M) as (X1 & X2 & X3 & X4).
    destruct (touches_in_frame (with_marks s (cleared f (marks s))) f (cleared f (marks s)) t) as [s2 ms2] eqn:E2.
    destruct (dn_touches f was (cleared f (marks s)) _ t o mp dr c tb s2 ms2 F X1 X2 CL NE (dn_marks _ _ _ _ _ _ _ D) ltac:(subst c; apply how_many_nonneg) E2) as [Y ->].
    destruct (dn_end _ _ _ _ _ _ (cleared f (marks s)) b Y) as [Y1 Y2].
    apply (IH (map is_down f) _ o mp dr _ _ Y1); [lia| |exact CA]. rewrite Y2. apply X3, NE.
Qed.

(** *** Fingers leaving *)
Definition kf (k : Z) : nfg := if k =? 1 then F1 else if k =? 2 then F2 else F3.
Definition ust (k c : Z) : tap_state :=
  if 4 <=? k then DEAD else if c =? k then dst k else if k =? 2 then TOUCH_2_RELEASE else if c =? 2 then TOUCH_3_RELEASE else TOUCH_3_RELEASE_2.
Definition ev_press (m : tap_map) (k t : Z) : bev := {| at_time := t; but := button_of m (kf k); down := true |}.
Definition ev_release (m : tap_map) (k t : Z) : bev := {| at_time := t; but := button_of m (kf k); down := false |}.
Record up (o : list bev) (m : tap_map) (dr : bool) (k tb te tl c : Z) (s : tap) : Prop := {
  u_nf : nf s = c; u_map : map_ s = m; u_want : want_map s = m; u_drag : drag s = dr; u_en : tap_enabled s = true; u_off : off s = false;
  u_st : 0 < c -> st s = ust k c /\ out s = o; u_sp : 0 < c -> k <= 3 -> sp s = tb; u_sr : 0 < c < k -> k <= 3 -> sr s = te;
  u_fin : c = 0 -> if 4 <=? k then st s = IDLE /\ out s = o
                   else if dr then st s = TAPPED (kf k) /\ out s = o ++ [ev_press m k tb] /\ sr s = te /\ timer s = Some (tl + 160000 + k * 20000)
                   else st s = IDLE /\ out s = o ++ [ev_press m k tb; ev_release m k te] }.
Lemma up_release : forall o m dr k tb te tl c s t b, up o m dr k tb te tl c s -> 1 <= c <= k -> up o m dr k tb (if c =? k then t else te) t (c - 1) (handle_event (with_nf (check s b) (nf s - 1)) EV_RELEASE t).
Proof.
  intros o m dr k tb te tl c s t b [A1 A2 A3 A4 A5 A6 A7 A8 A9 A10] C. pose proof (handle_kept (with_nf (check s b) (nf s - 1)) EV_RELEASE t) as (K1 & K2 & K3 & K4 & K5 & K6 & K7 & K8 & K9). cbn in K1, K2, K3, K4, K5, K6, K7, K8, K9.
  pose proof (handle_nf (with_nf (check s b) (nf s - 1)) EV_RELEASE t) as N. cbn iota in N. cbn [nf with_nf check] in N.
  destruct (A7 ltac:(lia)) as [A7a A7b]. specialize (A8 ltac:(lia)). clear A7 A10.
  constructor; try congruence; try (unfold tap_enabled in *; congruence).
  all: clear N K1 K2 K3 K4 K5 K6 K7 K8 K9 A5 A6 A3; destruct s; cbn in A1, A2, A4, A7a, A7b, A8, A9; subst.
  - intros C2. assert (E : (k = 2 /\ c = 2) \/ (k = 3 /\ c = 3) \/ (k = 3 /\ c = 2) \/ 4 <= k) by lia.
    destruct E as [(-> & ->)|[(-> & ->)|[(-> & ->)|E]]]; try (split; reflexivity).
    unfold ust. apply Z.leb_le in E. rewrite E. apply Z.leb_le in E. unfg. replace (c - 1 =? 0) with false by (symmetry; apply Z.eqb_neq; lia). split; reflexivity.
  - intros C2 K. assert (E : (k = 2 /\ c = 2) \/ (k = 3 /\ c = 3) \/ (k = 3 /\ c = 2)) by lia. specialize (A8 K). subst.
    destruct E as [(-> & ->)|[(-> & ->)|(-> & ->)]]; reflexivity.
  - intros C2 K. assert (E : (k = 2 /\ c = 2) \/ (k = 3 /\ c = 3) \/ (k = 3 /\ c = 2)) by lia.
    destruct E as [(-> & ->)|[(-> & ->)|(-> & ->)]]; try reflexivity. specialize (A9 ltac:(lia) ltac:(lia)). subst. reflexivity.
  - intros C2. assert (c = 1) by lia. subst c. clear C2. assert (E : k = 1 \/ k = 2 \/ k = 3 \/ 4 <= k) by lia.
    destruct E as [->|[->|[->|E]]].
    + specialize (A8 ltac:(lia)). subst. cbn [Z.leb Z.compare Pos.compare Pos.compare_cont Z.eqb Pos.eqb]. destruct dr; unfg; cbn; rewrite <- ?app_assoc; repeat split.
    + specialize (A8 ltac:(lia)). specialize (A9 ltac:(lia) ltac:(lia)). subst. destruct dr; unfg; cbn; rewrite <- ?app_assoc; repeat split.
    + specialize (A8 ltac:(lia)). specialize (A9 ltac:(lia) ltac:(lia)). subst. destruct dr; unfg; cbn; rewrite <- ?app_assoc; repeat split.
    + pose proof E as E2. apply Z.leb_le in E2. unfold ust. rewrite E2. unfg. split; reflexivity.
Qed.
Lemma up_touches : forall l was ms s t o mp dr k tb te tl K s' ms', Forall2 follows was l -> Forall2 marked_ok was ms -> forallb clean l = true -> existsb isb l = false ->
  up o mp dr k tb te tl (K + how_many was) s -> 0 <= K -> K + how_many was <= k -> touches_in_frame s l ms t = (s', ms') ->
  up o mp dr k tb (if (K + how_many was =? k) && existsb ise l then t else te) (if existsb ise l then t else tl) (K + how_many (map is_down l)) s' /\ Forall2 marked_ok (map is_down l) ms'.
Proof.
  induction l as [|f l IH]; intros was ms s t o mp dr k tb te tl K s' ms' F M CL NB U K0 KK E.
  - inversion F; subst. cbn in E. injection E as <- <-. cbn. rewrite andb_false_r. split; [exact U|]. inversion M. constructor.
  - inversion F as [|w ? was' ? F1 F2]; subst. inversion M as [|? m ? ms0 M1 M2]; subst.
    cbn [forallb existsb] in *. apply andb_true_iff in CL. destruct CL as [CL1 CL2]. apply orb_false_iff in NB. destruct NB as [NB1 NB2].
    cbn [touches_in_frame] in E. cbn [map]. rewrite !how_many_cons in *. pose proof (how_many_nonneg was') as HN.
    destruct (ise f) eqn:EF.
    + assert (FS : fs f = Tp_Model.END) by (unfold is_state in EF; destruct (fs f); try discriminate EF; reflexivity).
      assert (W : w = true) by (destruct w; [reflexivity|]; cbn in F1; rewrite FS in F1; destruct F1 as [F1|[F1|(F1 & _)]]; discriminate F1). subst w.
      assert (DF : fdirty f = true /\ fwas_down f = true) by (cbn in F1; rewrite FS in F1; destruct F1 as [F1|(_ & F1)]; try discriminate F1; exact F1). destruct DF as [DF WD].
      assert (E1 : touch_in_frame s f m t = (handle_event (with_nf (check s (1 <=? nf s)) (nf s - 1)) EV_RELEASE t, m)).
      { unfold touch_in_frame. rewrite DF, FS, (M1 eq_refl), WD. cbn [negb is_thumb is_palm]. unfold clean in CL1. apply negb_true_iff in CL1. repeat (apply orb_false_iff in CL1; destruct CL1 as [CL1 ?]). rewrite CL1. reflexivity. }
      rewrite E1 in E. destruct (touches_in_frame (handle_event (with_nf (check s (1 <=? nf s)) (nf s - 1)) EV_RELEASE t) l ms0 t) as [s2 ms2] eqn:E2. injection E as <- <-.
      cbn [b2z] in *. pose proof (up_release _ _ _ _ _ _ _ _ _ t (1 <=? nf s) U ltac:(lia)) as U1.
      replace (K + (1 + how_many was') - 1) with (K + how_many was') in U1 by lia.
      destruct (IH was' ms0 _ t o mp dr k tb _ t K s2 ms2 F2 M2 CL2 NB2 U1 K0 ltac:(lia) E2) as [X X2].
      assert (DF2 : is_down f = false) by (unfold is_down; rewrite FS; reflexivity). rewrite DF2. cbn [b2z orb]. replace (K + (0 + how_many (map is_down l))) with (K + how_many (map is_down l)) by lia.
      split; [|constructor; [intros Q; discriminate Q|exact X2]]. rewrite andb_true_r. replace (K + how_many was' =? k) with false in X by (symmetry; apply Z.eqb_neq; lia). cbn [andb] in X. destruct (existsb ise l); exact X.
    + rewrite (calm_touch s f m t w F1 CL1 NB1 EF M1) in E. destruct (touches_in_frame s l ms0 t) as [s2 ms2] eqn:E2. injection E as <- <-.
      assert (WD : is_down f = w). { unfold is_down, is_state in *. destruct w; cbn in F1; [destruct F1 as [F1|(F1 & _)]|destruct F1 as [F1|[F1|(F1 & _)]]]; rewrite F1 in *; try discriminate NB1; try discriminate EF; reflexivity. }
      rewrite WD. cbn [orb]. destruct (IH was' ms0 s t o mp dr k tb te tl (K + b2z w) s2 ms2 F2 M2 CL2 NB2) as [X X2]; [replace (K + b2z w + how_many was') with (K + (b2z w + how_many was')) by lia; exact U|destruct w; cbn; lia|lia|exact E2|].
      replace (K + (b2z w + how_many was')) with (K + b2z w + how_many was') by lia. replace (K + (b2z w + how_many (map is_down l))) with (K + b2z w + how_many (map is_down l)) by lia.
      split; [exact X|]. constructor; [exact M1|exact X2].
Qed.
Lemma up_marks : forall o m dr k tb te tl c s ms, up o m dr k tb te tl c s -> up o m dr k tb te tl c (with_marks s ms).
Proof. intros o m dr k tb te tl c s ms []. constructor; auto. Qed.
Lemma up_end : forall o m dr k tb te tl c s ms b, up o m dr k tb te tl c s -> up o m dr k tb te tl c (update_map (check (with_marks s ms) b)) /\ marks (update_map (check (with_marks s ms) b)) = ms.
Proof. intros o m dr k tb te tl c s ms b []. split; [|unfold update_map; destruct (is_idle _); reflexivity]. unfold update_map. destruct (is_idle _); constructor; auto. Qed.
Lemma how_many_le : forall l was, Forall2 follows was l -> existsb isb l = false -> how_many (map is_down l) <= how_many was.
Proof.
  induction l as [|f l IH]; intros was F NB; inversion F as [|w ? was' ? F1 F2]; subst; cbn [map]; [cbn; lia|]. cbn [existsb] in NB. apply orb_false_iff in NB. destruct NB as [NB1 NB2]. rewrite !how_many_cons. specialize (IH _ F2 NB2).
  assert (b2z (is_down f) <= b2z w); [|lia]. clear - F1 NB1. unfold is_down, is_state in *. destruct w; cbn in F1; [destruct F1 as [F1|(F1 & _)]|destruct F1 as [F1|[F1|(F1 & _)]]]; rewrite F1 in *; cbn; try lia; discriminate NB1.
Qed.
Lemma up_frames : forall l was s o mp dr k tb te tl c, up o mp dr k tb te tl c s -> c = how_many was -> c <= k -> Forall2 marked_ok was (marks s) -> calm Tp_Model.BEGIN was l ->
  let s' := run s (frames l) in up o mp dr k tb (if c =? k then first_with Tp_Model.END te l else te) (last_with Tp_Model.END tl l) (how_many (downs was l)) s' /\ how_many (downs was l) <= c.
Proof.
  induction l as [|[f t] l IH]; intros was s o mp dr k tb te tl c U C CK M CA s'.
  - subst c. cbn [first_with last_with downs]. split; [|lia]. destruct (how_many was =? k); exact U.
  - cbn [calm downs last_with first_with] in *. destruct CA as (F & CL & NB & CA). unfold s', frames. cbn [map concat]. rewrite run_app. fold (frames l).
    destruct (shown_eq s f t was F M (u_off _ _ _ _ _ _ _ _ _ U) (u_en _ _ _ _ _ _ _ _ _ U)) as (b & E). rewrite E.
    destruct (cleared_facts f was (marks s) F M) as (X1 & X2 & X3 & X4).
    destruct (touches_in_frame (with_marks s (cleared f (marks s))) f (cleared f (marks s)) t) as [s2 ms2] eqn:E2.
    assert (U0 : up o mp dr k tb te tl (0 + how_many was) (with_marks s (cleared f (marks s)))) by (apply up_marks; subst c; exact U).
    destruct (up_touches f was (cleared f (marks s)) _ t o mp dr k tb te tl 0 s2 ms2 F X1 CL NB U0 ltac:(lia) ltac:(lia) E2) as [Y Z].
    rewrite !Z.add_0_l in Y. destruct (up_end _ _ _ _ _ _ _ _ _ ms2 b Y) as [Y1 Y2].
    pose proof (how_many_le f was F NB) as LE.
    destruct (IH (map is_down f) _ o mp dr k tb _ _ _ Y1 eq_refl ltac:(lia) ltac:(rewrite Y2; exact Z) CA) as [V1 V2]. split; [|lia]. subst c.
    destruct (how_many was =? k) eqn:EQ; cbn [andb] in V1.
    + apply Z.eqb_eq in EQ. destruct (existsb ise f) eqn:EE.
      * destruct (how_many (map is_down f) =? k) eqn:EQ2; [|exact V1]. (* an END lowers the count *)
        exfalso. apply Z.eqb_eq in EQ2. clear - F NB EE EQ EQ2. assert (how_many (map is_down f) < how_many was); [|lia]. clear EQ EQ2 k. revert was F. induction f as [|x f IH]; intros was F; [discriminate EE|].
        inversion F as [|w ? was' ? F1 F2]; subst. cbn [existsb map] in *. apply orb_false_iff in NB. destruct NB as [NB1 NB2]. rewrite !how_many_cons. pose proof (how_many_le f was' F2 NB2).
        destruct (ise x) eqn:EX.
        -- assert (Q : is_down x = false /\ w = true); [|destruct Q as [Q ->]; rewrite Q; cbn [b2z]; lia]. clear - EX F1.
           unfold is_down, is_state in *. destruct w; cbn in F1; [destruct F1 as [F1|(F1 & _)]|destruct F1 as [F1|[F1|(F1 & _)]]]; rewrite F1 in *; try discriminate EX; split; reflexivity.
        -- cbn [orb] in EE. specialize (IH NB2 EE was' F2). assert (b2z (is_down x) <= b2z w); [|lia]. clear - F1 NB1 EX. unfold is_down, is_state in *. destruct w; cbn in F1; [destruct F1 as [F1|(F1 & _)]|destruct F1 as [F1|[F1|(F1 & _)]]]; rewrite F1 in *; cbn; try lia; discriminate NB1.
      * destruct (how_many (map is_down f) =? k) eqn:EQ2; [exact V1|]. exfalso. apply Z.eqb_neq in EQ2. clear - F NB EE EQ EQ2. assert (how_many (map is_down f) = how_many was); [|lia]. clear EQ EQ2 k. revert was F. induction f as [|x f IH]; intros was F; inversion F as [|w ? was' ? F1 F2]; subst; [reflexivity|].
        cbn [existsb map] in *. apply orb_false_iff in NB. destruct NB as [NB1 NB2]. apply orb_false_iff in EE. destruct EE as [EE1 EE2]. rewrite !how_many_cons, (IH NB2 EE2 was' F2). f_equal. f_equal.
        unfold is_down, is_state in *. destruct w; cbn in F1; [destruct F1 as [F1|(F1 & _)]|destruct F1 as [F1|[F1|(F1 & _)]]]; rewrite F1 in *; try discriminate NB1; try discriminate EE1; reflexivity.
    + replace (how_many (map is_down f) =? k) with false in V1 by (symmetry; apply Z.eqb_neq; apply Z.eqb_neq in EQ; lia). exact V1.
Qed.

Lemma tap_spec : forall n s arrive leave o k, length (marks s) = n -> st s = IDLE -> nf s = 0 -> out s = o -> map_ s = want_map s -> tap_enabled s = true -> off s = false ->
  calm Tp_Model.END (repeat false n) arrive -> calm Tp_Model.BEGIN (downs (repeat false n) arrive) leave ->
  how_many (downs (repeat false n) arrive) = k -> 1 <= k -> how_many (downs (downs (repeat false n) arrive) leave) = 0 ->
  up o (map_ s) (drag s) k (last_with Tp_Model.BEGIN 0 arrive) (first_with Tp_Model.END 0 leave) (last_with Tp_Model.END 0 leave) 0 (run s (frames arrive ++ frames leave)).
Proof.
  intros n s arrive leave o k L I N O MP EN OF CA CL K K1 Z.
  assert (D0 : dn o (map_ s) (drag s) 0 0 s) by (constructor; auto; lia).
  assert (H0 : how_many (repeat false n) = 0) by (unfold how_many; clear; induction n; cbn; auto).
  assert (M0 : Forall2 marked_ok (repeat false n) (marks s)). { rewrite <- L. clear. induction (marks s); cbn; constructor; auto. intros Q; discriminate Q. }
  destruct (dn_frames arrive (repeat false n) s o (map_ s) (drag s) 0 0 D0 ltac:(congruence) M0 CA) as [D1 M1]. cbv zeta in D1, M1. rewrite K in D1. rewrite run_app. set (s1 := run s (frames arrive)) in *. clearbody s1.
  assert (U1 : up o (map_ s) (drag s) k (last_with Tp_Model.BEGIN 0 arrive) 0 0 k s1).
  { destruct D1 as [A1 A2 A3 A4 A5 A6 A7 A8 A9]. constructor; auto; try lia.
    intros _. split; [|exact A4]. rewrite A1. unfold ust. destruct (4 <=? k) eqn:K4; [|rewrite Z.eqb_refl; reflexivity]. apply Z.leb_le in K4. unfold dst. destruct (Z.eqb_spec k 0), (Z.eqb_spec k 1), (Z.eqb_spec k 2), (Z.eqb_spec k 3); try lia; reflexivity. }
  destruct (up_frames leave (downs (repeat false n) arrive) s1 o _ _ k _ 0 0 k U1 ltac:(congruence) ltac:(lia) M1 CL) as [U2 _]. cbv zeta in U2. rewrite Z.eqb_refl, Z in U2. exact U2.
Qed.
