(** * Proofs about tablet tools: the rounds of tablet_flush; events only in proximity *)
Require Import Coq.ZArith.ZArith Coq.QArith.QArith Coq.Lists.List Coq.Bool.Bool Coq.micromega.Lia.
From Verif Require Import Tab_Model Tab_Spec Tab_Proofs.
Import ListNotations.
Open Scope Z_scope.

(** What tablet_update_tool_state leaves alone *)
Definition kept (s s' : tab) : Prop := axes_upd s' = axes_upd s /\ pressed_upd s' = pressed_upd s /\ btn_down s' = btn_down s /\ released_upd s' = released_upd s /\ tool_upd s' = tool_upd s /\ contact s' = contact s /\ econt s' = econt s /\ lcont s' = lcont s /\ oor s' = oor s /\ changed s' = changed s /\ ax s' = ax s /\ smooth_pt s' = smooth_pt s /\ hidx s' = hidx s /\ hcount s' = hcount s /\ samples s' = samples s /\ cur_val s' = cur_val s /\ prev_val s' = prev_val s /\ absv s' = absv s /\ locals s' = locals s /\ globals s' = globals s /\ next_tid s' = next_tid s /\ btn s' = btn s /\ pbtn s' = pbtn s /\ cid s' = cid s /\ cserial s' = cserial s /\ touch_dev s' = touch_dev s /\ arb s' = arb s /\ rot_dev s' = rot_dev s /\ rot_lh s' = rot_lh s /\ rotate s' = rotate s /\ want_rotate s' = want_rotate s /\ lh s' = lh s /\ lh_want s' = lh_want s /\ last_time s' = last_time s /\ in_progress s' = in_progress s /\ hang s' = hang s.
(** The tools after a pen was made up *)
Definition injected (s : tab) : Z :=
  let f := forced s && negb (tool_upd s && (tstate s =? 0)) in
  if axes_upd s && (tstate s =? 0) && (if f then true else ctype s =? 0) then bit PEN else tstate s.
Definition two_tools (x : Z) : bool := negb (Z.land x (x - 1) =? 0).
Definition uts_t2 (s : tab) : Z := if two_tools (injected s) then 0 else injected s.
Definition uts_ty (s : tab) : Z := ffs (Z.lxor (uts_t2 s) (ptstate s)) - 1.
Definition uts_on (s : tab) : bool := negb (Z.land (uts_t2 s) (bit (uts_ty s)) =? 0).
Definition uts_new (s : tab) : Z := if two_tools (injected s) then Z.lxor (injected s) (ptstate s) else 0.
Record uts (s s' : tab) (tw : bool) : Prop := {
  u_kept : kept s s';
  u_case : (injected s = ptstate s /\ tw = false /\ tstate s' = injected s /\ ptstate s' = ptstate s /\ ctype s' = ctype s /\ entering s' = entering s /\ outp s' = outp s
            /\ leaving s' = leaving s /\ timer s' = timer s)
    \/ (injected s <> ptstate s /\ ptstate s' = uts_t2 s /\ tstate s' = (if negb (uts_new s =? 0) then uts_new s else uts_t2 s) /\ tw = negb (uts_new s =? 0)
        /\ (if uts_on s then ctype s' = uts_ty s /\ entering s' = true /\ outp s' = false /\ leaving s' = leaving s
            else ctype s' = ctype s /\ entering s' = entering s /\ outp s' = outp s /\ leaving s' = leaving s || negb (outp s))) }.
Lemma uts_spec : forall s t s' tw, update_tool_state s t = (s', tw) -> uts s s' tw.
Proof.
  intros s t s' tw H. unfold update_tool_state in H.
  set (s1 := if forced s && tool_upd s && (tstate s =? 0) then _ else s) in H.
  set (s2 := if axes_upd s1 then _ else s1) in H.
  assert (H2 : kept s s2 /\ tstate s2 = injected s /\ ptstate s2 = ptstate s /\ ctype s2 = ctype s /\ entering s2 = entering s /\ outp s2 = outp s /\ leaving s2 = leaving s /\ timer s2 = timer s).
  { assert (H1 : kept s s1 /\ tstate s1 = tstate s /\ ptstate s1 = ptstate s /\ ctype s1 = ctype s /\ entering s1 = entering s /\ outp s1 = outp s /\ leaving s1 = leaving s /\ timer s1 = timer s
      /\ forced s1 = forced s && negb (tool_upd s && (tstate s =? 0))).
    { unfold s1. destruct (forced s) eqn:Ef, (tool_upd s) eqn:Et, (tstate s =? 0) eqn:Ez; cbn [andb negb]; unfold kept; fields; rewrite ?Ef; repeat split; reflexivity. }
    destruct H1 as (K & T & P & C & E & O & L & TM & F). unfold s2, injected. clearbody s1. unfold kept in K. decompose [and] K.
    replace (axes_upd s1) with (axes_upd s) by congruence. rewrite <- F, T. destruct (axes_upd s) eqn:Ea; cbn [andb].
    - destruct (forced s1) eqn:Ef1.
      + replace (tool_upd s1) with (tool_upd s) by congruence. destruct (tstate s =? 0) eqn:Ez; cbn [andb].
        * rewrite andb_true_r. destruct (tool_upd s) eqn:Etu.
          { exfalso. cbn in F. rewrite andb_false_r in F. discriminate. }
          cbn [negb]. unfold kept. fields. repeat split; congruence.
        * rewrite andb_false_r. unfold kept. fields. repeat split; congruence.
      + rewrite C. destruct (tstate s =? 0) eqn:Ez, (ctype s =? 0) eqn:Ec; cbn [andb]; unfold kept; fields; repeat split; congruence.
    - unfold kept. repeat split; congruence. }
  clearbody s2. clear s1. destruct H2 as (K & T & P & C & E & O & L & TM).
  rewrite T, P in H. destruct (injected s =? ptstate s) eqn:EQ.
  { injection H as <- <-. apply Z.eqb_eq in EQ. constructor; [exact K|]. left. repeat split; congruence. }
  apply Z.eqb_neq in EQ. fold (two_tools (injected s)) in H. fold (uts_new s) in H.
  set (s3 := if two_tools (injected s) then set_tstate s2 0 else s2) in H.
  assert (H3 : kept s s3 /\ tstate s3 = uts_t2 s /\ ptstate s3 = ptstate s /\ ctype s3 = ctype s /\ entering s3 = entering s /\ outp s3 = outp s /\ leaving s3 = leaving s).
  { unfold s3, uts_t2. destruct (two_tools (injected s)); unfold kept in *; fields; decompose [and] K; repeat split; congruence. }
  clearbody s3. clear K T P C E O L TM s2. destruct H3 as (K & T & P & C & E & O & L).
  rewrite T, P in H. fold (uts_ty s) in H.
  set (s4 := if uts_ty s <? 0 then set_crash s3 true else s3) in H.
  assert (H4 : kept s s4 /\ tstate s4 = uts_t2 s /\ ptstate s4 = ptstate s /\ ctype s4 = ctype s /\ entering s4 = entering s /\ outp s4 = outp s /\ leaving s4 = leaving s).
  { unfold s4. destruct (uts_ty s <? 0); unfold kept in *; fields; decompose [and] K; repeat split; congruence. }
  clearbody s4. clear K T P C E O L s3. destruct H4 as (K & T & P & C & E & O & L).
  rewrite T in H. fold (uts_on s) in H.
  set (s5 := update_tool s4 (uts_ty s) (uts_on s)) in H.
  assert (H5 : kept s s5 /\ tstate s5 = uts_t2 s /\ (if uts_on s then ctype s5 = uts_ty s /\ entering s5 = true /\ outp s5 = false /\ leaving s5 = leaving s
            else ctype s5 = ctype s /\ entering s5 = entering s /\ outp s5 = outp s /\ leaving s5 = leaving s || negb (outp s))).
  { unfold s5, update_tool. destruct (uts_on s).
    - unfold kept in *. fields. decompose [and] K. repeat split; congruence.
    - rewrite O. destruct (outp s) eqn:Eo; cbn [negb]; unfold kept in *; fields; decompose [and] K; rewrite ?orb_true_r, ?orb_false_r; repeat split; congruence. }
  clearbody s5. clear K T P C E O L s4. destruct H5 as (K & T & U).
  set (s6 := if uts_ty s =? PEN then _ else s5) in H.
  assert (H6 : kept s s6 /\ tstate s6 = uts_t2 s /\ ctype s6 = ctype s5 /\ entering s6 = entering s5 /\ outp s6 = outp s5 /\ leaving s6 = leaving s5).
  { unfold s6, set_prox_timer. destruct (uts_ty s =? PEN); [destruct (uts_on s)|].
    - destruct (need_force s5); unfold kept in *; fields; decompose [and] K; repeat split; congruence.
    - destruct (negb (in_progress s5)); unfold kept in *; fields; decompose [and] K; repeat split; congruence.
    - unfold kept in *; decompose [and] K; repeat split; congruence. }
  clearbody s6. destruct H6 as (K6 & T6 & C6 & E6 & O6 & L6). rewrite <- C6, <- E6, <- O6, <- L6 in U. clear K T C6 E6 O6 L6 s5.
  destruct (negb (uts_new s =? 0)) eqn:EN; injection H as <- <-; (constructor; [unfold kept in *; fields; decompose [and] K6; repeat split; congruence |
    right; fields; rewrite EN; repeat split; try congruence; exact U]).
Qed.
