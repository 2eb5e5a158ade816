(** * What is claimed about tablet tools: the client's view of a trace, and the hardware's protocol, from the kernel events alone *)
Require Import Coq.ZArith.ZArith Coq.QArith.QArith Coq.Lists.List Coq.Bool.Bool.
From Verif Require Import Tab_Model.
Import ListNotations.
Open Scope Z_scope.

(** ** The client: the tool in proximity, whether the tip is down, which buttons are held *)
Definition proximity (l : list tev) : option tool :=
  fold_left (fun p e => match e with EProx _ o true _ _ => Some o | EProx _ _ false _ _ => None | _ => p end) l None.
Definition tip (l : list tev) : bool := fold_left (fun b e => match e with ETip _ _ x _ _ => x | _ => b end) l false.
Definition held (l : list tev) (c : Z) : bool := fold_left (fun b e => match e with EButton _ _ _ _ x p => if x =? c then p else b | _ => b end) l false.
(** The tool of a tool event, and what the event says of the tip *)
Definition tool_of (e : tev) : option tool :=
  match e with EProx _ o _ _ _ | ETip _ o _ _ _ | EAxis _ o _ _ _ | EButton _ o _ _ _ _ => Some o | _ => None end.
Definition is_enter (e : tev) : bool := match e with EProx _ _ true _ _ => true | _ => false end.
Definition says_tip (e : tev) : option bool := match e with EAxis _ _ b _ _ | EButton _ _ b _ _ _ => Some b | _ => None end.

(** ** The hardware, seen frame by frame *)
Definition mice (d : device) : bool := mouse_enabled d || lens_enabled d.
(** Tools down; the tool named by BTN_TOOL_ events since the last SYN_REPORT; whether there were kernel events since; the distance; the buttons *)
Record hw := { h_down : Z -> bool; h_named : option Z; h_mid : bool; h_dist : Z; h_btn : Z -> bool }.
Definition hw0 (w : world) : hw := {| h_down := w_down w; h_named := None; h_mid := false; h_dist := w_values w DISTANCE; h_btn := fun _ => false |}.
Definition hw_step (d : device) (h : hw) (i : input) : hw :=
  match i with
  | ITool ty down =>
    if tool_enabled d ty then {| h_down := upd (h_down h) ty down; h_named := Some ty; h_mid := true; h_dist := h_dist h; h_btn := h_btn h |} else h
  | IAbs a v => {| h_down := h_down h; h_named := h_named h; h_mid := true; h_dist := match a with DISTANCE => v | _ => h_dist h end; h_btn := h_btn h |}
  | IButton c x => {| h_down := h_down h; h_named := h_named h; h_mid := true; h_dist := h_dist h; h_btn := upd (h_btn h) c x |}
  | IMisc _ | IWheel _ | ITouch _ | ISerial _ => {| h_down := h_down h; h_named := h_named h; h_mid := true; h_dist := h_dist h; h_btn := h_btn h |}
  | ISyn _ => {| h_down := h_down h; h_named := None; h_mid := false; h_dist := h_dist h; h_btn := h_btn h |}
  | IResync v => {| h_down := h_down h; h_named := h_named h; h_mid := h_mid h; h_dist := v DISTANCE; h_btn := h_btn h |}
  | _ => h
  end.
Definition hardware (d : device) (w : world) (l : list input) : hw := fold_left (hw_step d) l (hw0 w).
(** The kernel's rules: a frame changes one tool at most, and nothing else happens within a frame.  On tablets with a mouse or lens moreover:
    a tool only arrives once the others have left, and the distance is 0 while there is none *)
Definition rules (d : device) (h : hw) (i : input) : Prop :=
  match i with
  | ITool ty down => tool_enabled d ty = true ->
    (h_named h = None \/ h_named h = Some ty) /\ (mice d = true -> down = true -> forall ty', tool_enabled d ty' = true -> h_down h ty' = true -> ty' = ty)
  | ITimer _ | ISuspend _ => h_mid h = false /\ (mice d = true -> (forall ty, tool_enabled d ty = true -> h_down h ty = false) -> h_dist h = 0)
  | ISyn _ => mice d = true -> (forall ty, tool_enabled d ty = true -> h_down h ty = false) -> h_dist h = 0
  | _ => True
  end.
Definition orderly (d : device) (w : world) (l : list input) : Prop :=
  (mice d = true -> forall ty ty', tool_enabled d ty = true -> tool_enabled d ty' = true -> w_down w ty = true -> w_down w ty' = true -> ty = ty') /\
  forall pre i post, l = (pre ++ i :: post)%list -> rules d (hardware d w pre) i.
