(** * Palms by the kernel's word: specification *)
Require Import Coq.ZArith.ZArith Coq.Lists.List.
Require Import Verif.Palm_Model Verif.Palm_Spec.
Import ListNotations.
Open Scope Z_scope.

(** Neither too much pressure nor too big; whatever the kernel calls it *)
Definition light (c : config) (v : seen) : Prop := (use_pressure c = true -> pressure v <= pressure_threshold c) /\ (use_size c = true -> major v <= size_threshold c /\ minor v <= size_threshold c).
Definition all_light (c : config) (i : nat) (l : list input) : Prop := forall f g u t v, In (Frame f g u t) l -> nth_error f i = Some v -> light c v.
(** A finger, or what the kernel calls a palm, comes down outside the edges *)
Definition lands_light (c : config) (v : seen) : Prop := st v = BEGIN /\ fresh v = true /\ dirty v = true /\ outside_edges c v /\ light c v.
(** The kernel says palm, and the touchpad listens to it *)
Definition called_palm (c : config) (v : seen) : Prop := use_mt_tool c = true /\ toolpalm v = true.
