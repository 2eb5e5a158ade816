(** C36: reading a quirks file through a buffer of 512 bytes. *)
Require Import Coq.Strings.Ascii Coq.Strings.String Coq.ZArith.ZArith Coq.QArith.QArith Coq.Lists.List Coq.Bool.Bool Coq.Arith.PeanoNat Coq.micromega.Lia.
Require Import Verif.Str_Model Verif.Quirks_Model.
Import ListNotations.
Open Scope nat_scope.

(** What fgets(3) with a buffer of 512 bytes does: a piece leaves room for the
    NUL, ends at the first newline, and stops short of one only when the
    buffer or the file is full. *)
Definition piece (s : str) (last : bool) : Prop :=
  1 <= length s <= 511 /\ ~ In LF (removelast s) /\ (exists r, s = r ++ [LF]) \/
  length s = 511 /\ ~ In LF s \/
  last = true /\ 1 <= length s <= 511 /\ ~ In LF s.
Fixpoint pieces (l : list str) : Prop :=
  match l with [] => True | [s] => piece s true | s :: r => piece s false /\ pieces r end.
Lemma pieces_cons : forall s r, piece s false -> pieces r -> pieces (s :: r).
Proof. intros s [|a r] P Q; cbn [pieces]; auto. unfold piece in *. intuition discriminate. Qed.
Lemma fgets_pieces : forall text cur room, length cur + room = 511 -> 1 <= room -> ~ In LF cur ->
  pieces (fgets_all room cur text) /\ concat (fgets_all room cur text) = rev cur ++ text.
Proof.
  induction text as [|c t IH]; intros cur room E R N; cbn [fgets_all].
  - destruct cur as [|a cur]; [split; cbn; auto|]. split; [|cbn [concat]; reflexivity]. cbn [pieces]. unfold piece. right. right. split; auto.
    rewrite rev_length, <- in_rev. split; [|exact N]. cbn [length] in *. lia.
  - destruct (Ascii.eqb c LF) eqn:C.
    + apply Ascii.eqb_eq in C. subst c. destruct (IH [] (BUFSIZE - 1)) as [A B]; [reflexivity|unfold BUFSIZE; lia|auto|]. split.
      * apply pieces_cons; auto. left. cbn [rev]. rewrite app_length, rev_length, removelast_last, <- in_rev. cbn [length]. split; [lia|]. split; [exact N|]. now exists (rev cur).
      * cbn [concat]. rewrite B. cbn [rev app]. now rewrite <- app_assoc.
    + assert (NC : ~ In LF (c :: cur)). { intros [X|X]; [|auto]. subst c. now rewrite Ascii.eqb_refl in C. }
      destruct room as [|[|room]]; [lia| |].
      * destruct (IH [] (BUFSIZE - 1)) as [A B]; [reflexivity|unfold BUFSIZE; lia|auto|]. split.
        -- apply pieces_cons; auto. right. left. rewrite rev_length, <- in_rev. split; [cbn [length]; lia|exact NC].
        -- cbn [concat]. rewrite B. cbn [rev app]. now rewrite <- app_assoc.
      * destruct (IH (c :: cur) (Datatypes.S room)) as [A B]; [cbn [length]; lia|lia|exact NC|]. split; auto. rewrite B. cbn [rev]. now rewrite <- app_assoc.
Qed.
(** The pieces of a file, in order and nothing left out: none is longer than
    the buffer, so a line of 511 or more characters is seen as several lines. *)
Theorem C36_buffer : forall text, let l := fgets_all (BUFSIZE - 1) [] text in pieces l /\ concat l = text /\ Forall (fun s => length s < 512) l.
Proof.
  intros text l. destruct (fgets_pieces text [] (BUFSIZE - 1)) as [A B]; [reflexivity|unfold BUFSIZE; lia|auto|]. split; [exact A|]. split; [exact B|].
  unfold l. clear B. revert A. generalize (fgets_all (BUFSIZE - 1) [] text). induction l0 as [|s r IH]; intros P; constructor.
  - destruct r; cbn [pieces] in P; [|destruct P as [P _]]; unfold piece in P; lia.
  - apply IH. destruct r; [exact I|]. cbn [pieces] in P. apply P.
Qed.
(** No other way of reading meets that. *)
Lemma piece_short : forall s b, piece s b -> s <> [].
Proof. intros s b P ->. unfold piece in P. cbn in P. lia. Qed.
Lemma piece_prefix : forall s t a b x y, piece s a -> piece t b -> s ++ x = t ++ y -> (a = true -> x = []) -> (b = true -> y = []) -> s = t.
Proof.
  assert (G : forall s t a b x y, piece s a -> piece t b -> s ++ x = t ++ y -> (a = true -> x = []) -> length s <= length t -> s = t).
  { intros s t a b x y P Q E NX L. assert (T : exists z, t = s ++ z).
    { exists (skipn (length s) t). rewrite <- (firstn_skipn (length s) t) at 1. f_equal. assert (F : firstn (length s) (s ++ x) = firstn (length s) (t ++ y)) by (now rewrite E).
      rewrite !firstn_app, Nat.sub_diag, firstn_all, firstn_O, app_nil_r in F. replace (length s - length t) with 0 in F by lia. rewrite firstn_O, app_nil_r in F. auto. }
    destruct T as [z ->]. destruct z as [|c z]; [now rewrite app_nil_r|]. exfalso. destruct P as [(P1 & P2 & r & ->)|[(P1 & P2)|(P1 & P2 & P3)]].
    - assert (I : In LF (removelast ((r ++ [LF]) ++ c :: z))). { rewrite removelast_app by discriminate. apply in_or_app. left. apply in_or_app. right. now left. }
      assert (J : In LF ((r ++ [LF]) ++ c :: z)) by (apply in_or_app; left; apply in_or_app; right; now left).
      destruct Q as [(_ & Q & _)|[(_ & Q)|(_ & _ & Q)]]; auto.
    - destruct Q as [(Q & _)|[(Q & _)|(_ & Q & _)]]; rewrite app_length in Q; cbn [length] in Q; lia.
    - specialize (NX P1). subst x. rewrite app_nil_r, <- app_assoc in E. apply (f_equal (@length ascii)) in E. rewrite app_length in E. cbn [app length] in E. lia. }
  intros s t a b x y P Q E NX NY. destruct (Nat.le_ge_cases (length s) (length t)); [eapply G; eauto|symmetry; eapply G; eauto].
Qed.
Theorem C36_buffer_unique : forall text l, pieces l -> concat l = text -> l = fgets_all (BUFSIZE - 1) [] text.
Proof.
  assert (U : forall l m, pieces l -> pieces m -> concat l = concat m -> l = m).
  { induction l as [|s r IH]; intros [|t q] P Q E; auto.
    - exfalso. cbn [concat] in E. destruct q; cbn [pieces] in Q; [|destruct Q as [Q _]]; apply piece_short in Q; auto; destruct t; auto; discriminate.
    - exfalso. cbn [concat] in E. destruct r; cbn [pieces] in P; [|destruct P as [P _]]; apply piece_short in P; auto; destruct s; auto; discriminate.
    - cbn [concat] in E.
      assert (A : exists a, piece s a /\ (a = true -> concat r = []) /\ pieces r).
      { destruct r; cbn [pieces] in P; [exists true|exists false; destruct P]; repeat (split; auto); discriminate. }
      assert (B : exists a, piece t a /\ (a = true -> concat q = []) /\ pieces q).
      { destruct q; cbn [pieces] in Q; [exists true|exists false; destruct Q]; repeat (split; auto); discriminate. }
      destruct A as (a & A1 & A2 & A3), B as (b & B1 & B2 & B3). assert (s = t) by (eapply piece_prefix; eauto). subst t. f_equal. apply app_inv_head in E. auto. }
  intros text l P <-. destruct (C36_buffer (concat l)) as (A & B & _). apply U; auto.
Qed.
(** A comment of 600 characters: its end is read as a line of its own. *)
Example buffer_case : map (@length ascii) (fgets_all (BUFSIZE - 1) [] (repeat "#"%char 600 ++ [LF; "x"%char])) = [511; 90; 1].
Proof. vm_compute. reflexivity. Qed.

Print Assumptions C36_buffer.
Print Assumptions C36_buffer_unique.
