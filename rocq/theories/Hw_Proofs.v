(** Proofs for C57. *)
Require Import Coq.Strings.Ascii Coq.Strings.String Coq.ZArith.ZArith Coq.QArith.QArith Coq.Lists.List Coq.Bool.Bool Coq.micromega.Lia.
Require Import Coq.QArith.Qabs Coq.QArith.Qreduction Coq.micromega.Lqa.
Require Import Verif.Str_Model Verif.Str_Spec Verif.Str_Proofs Verif.Str_Proofs2 Verif.Parse_Model Verif.Parse_Spec Verif.Parse_Proofs.
Require Import Verif.Hw_Model Verif.Hw_Spec.
Import ListNotations.
Open Scope Z_scope.

Lemma wheel_integer : forall s, parse_wheel s <> 0 -> integer 10 s (parse_wheel s).
Proof.
  intros s H. unfold parse_wheel in *. destruct (safe_atoi s) as [v|] eqn:E; [|congruence].
  destruct (360 <? c_abs v); [congruence|].
  apply (atoi_lemma 10 s v base10) in E. tauto.
Qed.

Lemma wheel_valid : forall p name s, ordinary p -> p name = Some s ->
  parse_wheel s <> 0 -> valid p name (parse_wheel s).
Proof.
  intros p name s O P H. pose proof (wheel_integer s H) as I.
  assert (M : parse_wheel s <> INT_MIN) by (intro E; rewrite E in I; exact (O _ _ P I)).
  destruct (proj1 (wheel_lemma s (parse_wheel s) H M) eq_refl) as [J R].
  exists s. auto.
Qed.

Lemma wheel_invalid : forall p name s, p name = Some s -> parse_wheel s = 0 -> invalid p name.
Proof.
  intros p name s P H v (s' & P' & I & N & R). rewrite P in P'. injection P' as <-.
  assert (M : v <> INT_MIN) by (unfold INT_MIN; lia).
  pose proof (proj2 (wheel_lemma s v N M) (conj I R)) as E. congruence.
Qed.

Lemma absent_invalid : forall p name, p name = None -> invalid p name.
Proof. intros p name P v (s & P' & _). congruence. Qed.

(** One axis of the wheel. *)
Lemma click_spec : forall p count angle g ok a, ordinary p ->
  read_click p count angle g = (ok, a) ->
  (ok = true /\ turn p count angle a) \/ (ok = false /\ a = DEFAULT_WHEEL_CLICK_ANGLE /\ no_turn p count angle).
Proof.
  intros p count angle g ok a O H. unfold read_click, read_click_count, read_click_angle in H.
  assert (A : invalid p count ->
    (match p angle with
     | None => (false, DEFAULT_WHEEL_CLICK_ANGLE)
     | Some s => if parse_wheel s =? 0 then (false, DEFAULT_WHEEL_CLICK_ANGLE)
                 else (true, inject_Z (parse_wheel s))
     end) = (ok, a) ->
    (ok = true /\ turn p count angle a) \/
    (ok = false /\ a = DEFAULT_WHEEL_CLICK_ANGLE /\ no_turn p count angle)).
  { intros IC E. destruct (p angle) as [s|] eqn:P.
    - destruct (Z.eqb_spec (parse_wheel s) 0) as [W|W]; injection E as <- <-.
      + right. repeat split; auto. exact (wheel_invalid _ _ _ P W).
      + left. split; auto. right. split; auto. exists (parse_wheel s).
        split; [exact (wheel_valid _ _ _ O P W)|reflexivity].
    - injection E as <- <-. right. repeat split; auto. exact (absent_invalid _ _ P). }
  destruct (p count) as [s|] eqn:P.
  - destruct (Z.eqb_spec (parse_wheel s) 0) as [W|W].
    + apply A; [exact (wheel_invalid _ _ _ P W)|exact H].
    + injection H as <- <-. left. split; auto. left. exists (parse_wheel s).
      split; [exact (wheel_valid _ _ _ O P W)|reflexivity].
  - apply A; [exact (absent_invalid _ _ P)|exact H].
Qed.

Lemma angle_range : forall v, v <> 0 -> -360 <= v <= 360 ->
  (0 < Qabs (inject_Z v) <= 360 # 1)%Q.
Proof.
  intros v N R. unfold Qabs, inject_Z, Qlt, Qle; cbn. lia.
Qed.

Lemma count_range : forall v, v <> 0 -> -360 <= v <= 360 ->
  (0 < Qabs ((360 # 1) / inject_Z v) <= 360 # 1)%Q.
Proof.
  intros v N R. destruct v as [|q|q]; [lia| |];
    unfold Qdiv, Qinv, Qmult, Qabs, inject_Z, Qlt, Qle; cbn; lia.
Qed.

Lemma turn_range : forall p c a x, turn p c a x -> (0 < Qabs x <= 360 # 1)%Q.
Proof.
  intros p c a x [(n & (s & _ & _ & N & R) & E)|(_ & n & (s & _ & _ & N & R) & E)]; rewrite E.
  - apply count_range; auto.
  - apply angle_range; auto.
Qed.

(** The fuzz. *)
Lemma fuzz_spec : forall prop k f, asks_fuzz prop f ->
  read_fuzz_prop prop (Some k) = if k =? 0 then f else 0.
Proof.
  intros prop k f A. unfold read_fuzz_prop.
  destruct prop as [s|].
  - destruct A as [(s' & E & I & R)|[F N]].
    + injection E as <-.
      assert (S0 : safe_atoi s = Some f)
        by (apply (atoi_lemma 10 s f base10); split; auto; unfold INT_MIN, INT_MAX; lia).
      rewrite S0. destruct (Z.ltb_spec f 0); [lia|]. reflexivity.
    + subst f. destruct (safe_atoi s) as [v|] eqn:E; [|destruct (k =? 0); reflexivity].
      apply (atoi_lemma 10 s v base10) in E. destruct E as [I R].
      unfold INT_MIN, INT_MAX in R.
      destruct (Z.ltb_spec v 0); [destruct (k =? 0); reflexivity|].
      exfalso. apply (N s v eq_refl I). lia.
  - destruct A as [(s' & E & _)|[F _]]; [discriminate|]. subst f. reflexivity.
Qed.
