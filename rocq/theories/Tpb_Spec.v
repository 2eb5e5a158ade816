(** What the touchpad's buttons should do, in terms of fingers, clicks and the events a client sees. *)
Require Import Coq.ZArith.ZArith Coq.Lists.List Coq.Bool.Bool.
Require Verif.Tp_Model.
Require Import Verif.Tap_Model Verif.Tpb_Model.
Import ListNotations.
Open Scope Z_scope.

(** ** What is seen *)
Definition button_eqb (a b : button) : bool := match a, b with LEFT, LEFT | RIGHT, RIGHT | MIDDLE, MIDDLE => true | _, _ => false end.
(** The presses (true) and releases (false) of button [b] the client sees on the touchpad *)
Fixpoint seen (b : button) (l : list outev) : list bool :=
  match l with
  | [] => []
  | ToClient b' v :: l => if button_eqb b b' then v :: seen b l else seen b l
  | _ :: l => seen b l
  end.
(** The presses and releases a trackpoint is handed, one after the other if trackpoints come and go *)
Fixpoint handed (b : button) (l : list outev) (acc : list bool) : list (list bool) :=
  match l with
  | [] => [acc]
  | ToTrackpoint b' v :: l => handed b l (if button_eqb b b' then acc ++ [v] else acc)
  | ToClient _ _ :: l => handed b l acc
  | Gone :: l => acc :: handed b l []
  end.
(** Presses and releases alternate; [d]: the button is down *)
Fixpoint alternate (d : bool) (l : list bool) : Prop := match l with [] => True | v :: l => v = negb d /\ alternate v l end.
Definition down_after (d : bool) (l : list bool) : bool := last l d.
(** The client sees button [b] down *)
Definition client_holds (b : button) (l : list outev) : bool := down_after false (seen b l).

(** ** What happens *)
(** The events of tapping *)
Fixpoint tapped (b : button) (l : list binput) : list bool :=
  match l with
  | [] => []
  | TapEvent b' v :: l => if button_eqb b b' then v :: tapped b l else tapped b l
  | _ :: l => tapped b l
  end.
(** Tapping presses and releases in turn (taps_alternate in Tap_Props). *)
Definition taps_ok (l : list binput) : Prop := forall b, alternate false (tapped b l).
Definition tap_holds (b : button) (l : list binput) : bool := down_after false (tapped b l).
(** Trackpoints do not come or go while the touchpad is suspended; [s]: it is *)
Fixpoint trackpoints_ok (s : bool) (l : list binput) : Prop :=
  match l with
  | [] => True
  | Suspend _ _ :: l => trackpoints_ok true l
  | Resume _ _ :: l => trackpoints_ok false l
  | (TrackpointAdded | TrackpointRemoved) :: l => s = false /\ trackpoints_ok s l
  | _ :: l => trackpoints_ok s l
  end.
Fixpoint never_removed (l : list binput) : Prop := match l with [] => True | Remove _ _ :: _ => False | _ :: l => never_removed l end.
(** One-button touchpads have one button. *)
Fixpoint one_button (l : list binput) : Prop := match l with [] => True | Button b _ :: l => b = LEFT /\ one_button l | _ :: l => one_button l end.
(** The buttons as the kernel last reported them, [d] before that; nothing is down after the touchpad's state was cleared.
    On clickpads only the left button counts.  [su]: suspended; a closed touchpad is not read. *)
Fixpoint hw (p : pad) (su : bool) (d : bits) (l : list binput) : bits :=
  match l with
  | [] => d
  | Button b v :: l => hw p su (if su && negb (has_top p) then d else match kind p, b with Clickpad, (RIGHT | MIDDLE) => d | _, _ => set_bit d b v end) l
  | Suspend _ _ :: l => hw p true no_bits l
  | Resume _ _ :: l => hw p false (if has_top p then no_bits else d) l
  | Clear _ _ :: l => hw p su no_bits l
  | Remove _ _ :: l => hw p true no_bits l
  | _ :: l => hw p su d l
  end.

(** ** Which button *)
(** The area a finger counts for, [c] before the frame: the one it came down in; from the main area it never gets into another;
    from a bottom area it follows the finger to other bottom areas, and to the main area for good.  (Touchpads without top buttons.) *)
Definition follow (a : areas) (c : option region) (f : ft) : option region :=
  match f_state f with
  | Tp_Model.NONE | Tp_Model.HOVERING => c
  | Tp_Model.END => None
  | _ => if f_dirty f then match c with Some MAIN => Some MAIN | _ => Some (region_at a (f_x f) (f_y f)) end else c
  end.
Fixpoint follow_all (a : areas) (cs : list (option region)) (l : list ft) : list (option region) :=
  match cs, l with c :: cs, f :: l => follow a c f :: follow_all a cs l | _, _ => cs end.
Definition somewhere (cs : list (option region)) (r : region) : bool := existsb (fun c => is_cur c r) cs.
(** The button for these fingers: middle if one is in the middle area, or, with emulation on, if there is one in the left and one in the right area;
    else right if there is one in the right area; else left.  Left-handed mode swaps the buttons of the areas, not that of the main area.
    No finger in any area: none yet. *)
Definition swap (h : bool) (b : button) : button := if h then match b with LEFT => RIGHT | RIGHT => LEFT | MIDDLE => MIDDLE end else b.
Definition choose (emulate h : bool) (cs : list (option region)) : option button :=
  if emulate && somewhere cs BOTTOM_L && somewhere cs BOTTOM_R then Some MIDDLE
  else if somewhere cs BOTTOM_M then Some MIDDLE
  else if somewhere cs BOTTOM_R then Some (swap h RIGHT)
  else if somewhere cs BOTTOM_L then Some (swap h LEFT)
  else if somewhere cs MAIN then Some LEFT
  else None.
(** Fingers that count for clickfinger, and the button for them *)
Definition near (p : pad) (a b : ft) : Prop :=
  Z.abs (f_x a - f_x b) <= 40 * resx p /\ Z.abs (f_y a - f_y b) <= 30 * resy p
  /\ (Z.abs (f_y a - f_y b) <= 20 * resy p                                     (* close *)
      \/ Z.quot (maxy p - miny p) (resy p) < 50                                   (* or a small touchpad *)
      \/ (maxy p - 20 * resy p < f_y a <-> maxy p - 20 * resy p < f_y b)).      (* or both or neither in the bottom 20 mm *)
Definition finger_button (p : pad) (l : list ft) (r : option button) : Prop :=
  match filter counts_as_finger l with
  | [a; b] => (near p a b -> r = Some RIGHT) /\ (~ near p a b -> r = Some LEFT)
  | [_; _; _] => r = Some MIDDLE
  | [] | [_] => r = Some LEFT
  | _ => r = None
  end.
(** A clickpad with button areas as seen by the client: a click is reported in the first frame with the button down and a finger in some area,
    it is released in the first frame with the button up. *)
Record view := { v_hw : bool; v_held : option button; v_areas : list (option region); v_out : list (button * bool) }.
Definition view_step (a : areas) (emulate h : bool) (v : view) (i : binput) : view :=
  match i with
  | Button LEFT d => {| v_hw := d; v_held := v_held v; v_areas := v_areas v; v_out := v_out v |}
  | BFrame l _ =>
      let cs := follow_all a (v_areas v) l in
      match v_hw v, v_held v with
      | true, Some b => {| v_hw := true; v_held := Some b; v_areas := cs; v_out := v_out v |}
      | true, None => {| v_hw := true; v_held := choose emulate h cs; v_areas := cs;
                         v_out := v_out v ++ match choose emulate h cs with Some b => [(b, true)] | None => [] end |}
      | false, Some b => {| v_hw := false; v_held := None; v_areas := cs; v_out := v_out v ++ [(b, false)] |}
      | false, None => {| v_hw := false; v_held := None; v_areas := cs; v_out := v_out v |}
      end
  | _ => v
  end.
Definition view_run (a : areas) (emulate h : bool) (v : view) (l : list binput) : view := fold_left (view_step a emulate h) l v.
Definition view0 (n : nat) : view := {| v_hw := false; v_held := None; v_areas := repeat None n; v_out := [] |}.
(** Button events, frames and time *)
Fixpoint plain (n : nat) (l : list binput) : Prop :=
  match l with
  | [] => True
  | (Button _ _ | BTimer _ _) :: l => plain n l
  | BFrame f _ :: l => length f = n /\ plain n l
  | _ :: _ => False
  end.
Definition to_client (e : button * bool) : outev := ToClient (fst e) (snd e).

(** The coordinates the kernel reports are above INT_MIN. *)
Fixpoint y_ok (l : list binput) : Prop := match l with [] => True | BFrame f _ :: l => Forall (fun f => INT_MIN < f_y f) f /\ y_ok l | _ :: l => y_ok l end.
(** A clickpad with clickfinger: the number of fingers in the first frame with the button down chooses the button. *)
Record fview := { w_hw : bool; w_prev : bool; w_held : option button; w_out : list (button * bool) }.
Definition fview_step (p : pad) (v : fview) (i : binput) (v' : fview) : Prop :=
  match i with
  | Button LEFT d => v' = {| w_hw := d; w_prev := w_prev v; w_held := w_held v; w_out := w_out v |}
  | BFrame l _ =>
      match w_hw v, w_prev v with
      | true, true => v' = v
      | true, false => exists r, finger_button p l r /\
          v' = {| w_hw := true; w_prev := true; w_held := r; w_out := w_out v ++ match r with Some b => [(b, true)] | None => [] end |}
      | false, _ => v' = {| w_hw := false; w_prev := false; w_held := None; w_out := w_out v ++ match w_held v with Some b => [(b, false)] | None => [] end |}
      end
  | _ => v' = v
  end.
Fixpoint fview_run (p : pad) (v : fview) (l : list binput) (v' : fview) : Prop :=
  match l with [] => v' = v | i :: l => exists u, fview_step p v i u /\ fview_run p u l v' end.
Definition fview0 : fview := {| w_hw := false; w_prev := false; w_held := None; w_out := [] |}.
(** More than 5 mm from (x0, y0) *)
Definition beyond_5mm (p : pad) (x0 y0 x y : Z) : Prop :=
  (x - x0) * (x - x0) * (resy p * resy p) + (y - y0) * (y - y0) * (resx p * resx p) > 25 * (resx p * resx p) * (resy p * resy p).
Definition is_top (r : region) : Prop := r = TOP_R \/ r = TOP_M \/ r = TOP_L.
(** ** Touchpads with physical buttons: each frame reports the buttons that changed since the last, left and right swapped in left-handed mode *)
Record pview := { p_hw : bits; p_sent : bits; p_out : list (button * bool) }.
Definition changed (h : bool) (now was : bits) (b : button) : list (button * bool) :=
  if Bool.eqb (get_bit now b) (get_bit was b) then [] else [(swap h b, get_bit now b)].
Definition pview_frame (h : bool) (v : pview) : pview :=
  {| p_hw := p_hw v; p_sent := p_hw v; p_out := p_out v ++ changed h (p_hw v) (p_sent v) LEFT ++ changed h (p_hw v) (p_sent v) RIGHT ++ changed h (p_hw v) (p_sent v) MIDDLE |}.
Definition pview_step (h : bool) (v : pview) (i : binput) : pview :=
  match i with
  | Button b d => {| p_hw := set_bit (p_hw v) b d; p_sent := p_sent v; p_out := p_out v |}
  | BFrame _ _ => pview_frame h v
  | Clear _ _ => pview_frame h {| p_hw := no_bits; p_sent := p_sent v; p_out := p_out v |}
  | _ => v
  end.
Definition pview_run (h : bool) (v : pview) (l : list binput) : pview := fold_left (pview_step h) l v.
Fixpoint never_suspended (l : list binput) : Prop :=
  match l with
  | [] => True
  | (Button _ _ | BFrame _ _ | BTimer _ _ | Clear _ _ | SetMethod _ | SetMiddle _ | TrackpointAdded) :: l => never_suspended l
  | _ => False
  end.
(** ** Top buttons and the finger's area *)
(** No finger on the touchpad, no click *)
Record idle (s : dev) : Prop := {
  i_tbs : exists b, tbs s = [b] /\ bs b = B_NONE; i_q : qp s = false /\ qr s = false; i_susp : susp s = false; i_mid : mid s = want_mid s; i_phys : phys s = no_bits; i_old : old s = no_bits;
  i_active : active s = None; i_pend : pending s = false }.
(** The finger's area: what a click would count as; None: nothing in particular yet *)
Definition area_of (s : dev) : option region := match tbs s with [b] => cur b | _ => None end.
Definition down_in (a : areas) (r : region) (f : ft) : Prop := f_state f = Tp_Model.BEGIN /\ f_dirty f = true /\ region_at a (f_x f) (f_y f) = r.
Definition stays_in (a : areas) (r : region) (f : ft) : Prop := (f_state f = Tp_Model.UPDATE \/ f_state f = Tp_Model.MAYBE_END) /\ (f_dirty f = true -> region_at a (f_x f) (f_y f) = r).
Definition outside_top (a : areas) (f : ft) : Prop := f_state f = Tp_Model.UPDATE /\ f_dirty f = true /\ ~ is_top (region_at a (f_x f) (f_y f)).
Definition on_pad (f : ft) : Prop := f_state f = Tp_Model.UPDATE \/ f_state f = Tp_Model.MAYBE_END.
(** Frames in which the finger satisfies [P], and timers before [e] *)
Inductive only (P : ft -> Prop) (e : Z) : list binput -> Prop :=
| only_nil : only P e []
| only_frame f t l : P f -> only P e l -> only P e (BFrame [f] t :: l)
| only_timer t l : t < e -> only P e l -> only P e (BTimer 0 t :: l).
Definition top_button (r : region) : option button := match r with TOP_L => Some LEFT | TOP_M => Some MIDDLE | TOP_R => Some RIGHT | _ => None end.
