(** * C52: a touchpad without a margin has no hysteresis *)
Require Import Coq.ZArith.ZArith Coq.QArith.QArith Coq.Lists.List Coq.Bool.Bool Coq.micromega.Lia Coq.micromega.Lqa.
Require Import Verif.Jit_Model Verif.Jit_Spec Verif.Jit_Proofs Verif.Jit_Proofs2 Verif.Jit_Proofs3 Verif.Jit_Proofs4 Verif.Jit_Props.
Import ListNotations.
Open Scope Z_scope.

(** With a margin of 0 in either direction, hysteresis on or off, the place that is used is the one the finger is at *)
Theorem C52_no_margin : forall c i l f s t t1 u, stays i (l ++ [f]) -> l <> [] -> (exists t, finger i s t) -> hyst (run c s (l ++ [f])) = hyst s -> mx c = 0 \/ my c = 0 -> alps c = false -> finger i (run c s l) t -> of i f u -> finger i (run c s (l ++ [f])) t1 ->
  pt t1 = said (pt t) u.
Proof.
  intros c i l f s t t1 u S N T HE M AL F U F1. destruct (last_frame c i l f s S N T HE) as [t' [t1' [u' [G0 [G1 [U' [K [K1 C]]]]]]]]. rewrite (finger_fun _ _ _ _ G1 F1), (finger_fun _ _ _ _ G0 F), (of_fun _ _ _ _ U' U) in *. clear t1' t' u' G0 G1 U'.
  destruct (stays_snoc i l f S N) as [_ [u' [U' [_ [_ DD]]]]]. rewrite (of_fun _ _ _ _ U' U) in *. clear u' U'.
  destruct C as [[_ C]|[_ C]]; [exact (C AL) |]. destruct C as [_ [_ [_ C]]]. destruct (u_dirty u) eqn:D.
  - destruct C as [tj [_ [P _]]]. rewrite P. destruct (hyst s); [| reflexivity]. unfold hysteresis. destruct M as [-> | ->]; [reflexivity |]. rewrite orb_true_r. reflexivity.
  - destruct C as [P _]. assert (SP : said (pt t) u = pt t). { unfold said. destruct (u_x u) eqn:X; [exfalso; assert (false = true) by (apply DD; right; left; congruence); discriminate |]. destruct (u_y u) eqn:X2; [exfalso; assert (false = true) by (apply DD; right; right; congruence); discriminate |]. destruct (pt t); reflexivity. } rewrite SP, P. reflexivity.
Qed.
Print Assumptions C52_no_margin.
Definition cfg_nm : cfg := {| rx := 40; ry := 20; mx := 0; my := 0; nojump := false; testdev := false; alps := false; t450 := false; clickpad := true |}.
Example C52_no_margin_ex : stays 0 drag_ /\ hyst (run cfg_nm (pad0 true) drag_) = true /\ motions cfg_nm 0 (pad0 true) drag_ = [(0, 0); (0, 0); (100, 0); (100, 0); (-15, 0); (-35, 0)].
Proof. split; [stays_ | split; reflexivity]. Qed.
