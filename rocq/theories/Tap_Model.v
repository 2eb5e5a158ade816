(** * Tap-to-click on touchpads

    Model of /repo/src/evdev-mt-touchpad-tap.c: the state machine, the handling of a frame's touches, the timer,
    and the configuration.  The touches of a frame come from the dispatch (Tp_Model); whether a touch is a palm or a
    thumb and whether it moved more than 1.3 mm are inputs here, chosen freely in every frame.
    struct tp_touch's own tap.state is written but nothing outside of it depends on it; it is left out. *)
Require Import Coq.ZArith.ZArith Coq.Lists.List Coq.Bool.Bool.
Require Verif.Tp_Model.
Import ListNotations.
Open Scope Z_scope.

(** Number of fingers of a tap *)
Inductive nfg := F1 | F2 | F3.
Definition zfg (n : nfg) : Z := match n with F1 => 1 | F2 => 2 | F3 => 3 end.
(** enum tp_tap_state, /repo/src/evdev-mt-touchpad.h:105-136; the 1FGTAP_, 2FGTAP_ and 3FGTAP_ variants take the number of fingers *)
Inductive tap_state :=
| IDLE | HOLD | TOUCH | TAPPED (n : nfg) | TOUCH_2 | TOUCH_2_HOLD | TOUCH_2_RELEASE | TOUCH_3 | TOUCH_3_HOLD | TOUCH_3_RELEASE | TOUCH_3_RELEASE_2
| DRAGGING (n : nfg) | DRAGGING_WAIT (n : nfg) | DRAGGING_OR_DOUBLETAP (n : nfg) | DRAGGING_OR_TAP (n : nfg) | DRAGGING_2 (n : nfg) | DEAD.
(** enum tap_event, /repo/src/evdev-mt-touchpad-tap.c:38-47 *)
Inductive tap_event := EV_TOUCH | EV_MOTION | EV_RELEASE | EV_BUTTON | EV_TIMEOUT | EV_THUMB | EV_PALM | EV_PALM_UP.
Inductive button := LEFT | RIGHT | MIDDLE.
Inductive tap_map := LRM | LMR.
(** A button event as the client gets it *)
Record bev := { at_time : Z; but : button; down : bool }.
(** Per touch: tap.is_thumb and tap.is_palm *)
Record tmark := { is_thumb : bool; is_palm : bool }.
(** The part of struct tp_dispatch used here.  [out]: the button events sent so far.  [ok]: no assert has failed; [bug]: log_tap_bug was called.
    [off]: device->is_suspended; frames do not reach the tap code then. *)
Record tap := {
  st : tap_state; sp : Z (* saved_press_time *); sr : Z (* saved_release_time *); timer : option Z;
  drag : bool; draglock : bool; map_ : tap_map; want_map : tap_map;
  p1 : bool; p2 : bool; p3 : bool (* buttons_pressed *); nf : Z (* tap.nfingers_down *);
  enabled : bool; suspended : bool; off : bool; clickpad : bool; marks : list tmark;
  ok : bool; bug : bool; out : list bev }.

Definition goto (s : tap) (x : tap_state) : tap :=
  {| st := x; sp := sp s; sr := sr s; timer := timer s; drag := drag s; draglock := draglock s; map_ := map_ s; want_map := want_map s; p1 := p1 s; p2 := p2 s; p3 := p3 s; nf := nf s;
     enabled := enabled s; suspended := suspended s; off := off s; clickpad := clickpad s; marks := marks s; ok := ok s; bug := bug s; out := out s |}.
Definition save_press (s : tap) (t : Z) : tap :=
  {| st := st s; sp := t; sr := sr s; timer := timer s; drag := drag s; draglock := draglock s; map_ := map_ s; want_map := want_map s; p1 := p1 s; p2 := p2 s; p3 := p3 s; nf := nf s;
     enabled := enabled s; suspended := suspended s; off := off s; clickpad := clickpad s; marks := marks s; ok := ok s; bug := bug s; out := out s |}.
Definition save_release (s : tap) (t : Z) : tap :=
  {| st := st s; sp := sp s; sr := t; timer := timer s; drag := drag s; draglock := draglock s; map_ := map_ s; want_map := want_map s; p1 := p1 s; p2 := p2 s; p3 := p3 s; nf := nf s;
     enabled := enabled s; suspended := suspended s; off := off s; clickpad := clickpad s; marks := marks s; ok := ok s; bug := bug s; out := out s |}.
Definition with_timer (s : tap) (t : option Z) : tap :=
  {| st := st s; sp := sp s; sr := sr s; timer := t; drag := drag s; draglock := draglock s; map_ := map_ s; want_map := want_map s; p1 := p1 s; p2 := p2 s; p3 := p3 s; nf := nf s;
     enabled := enabled s; suspended := suspended s; off := off s; clickpad := clickpad s; marks := marks s; ok := ok s; bug := bug s; out := out s |}.
Definition with_nf (s : tap) (n : Z) : tap :=
  {| st := st s; sp := sp s; sr := sr s; timer := timer s; drag := drag s; draglock := draglock s; map_ := map_ s; want_map := want_map s; p1 := p1 s; p2 := p2 s; p3 := p3 s; nf := n;
     enabled := enabled s; suspended := suspended s; off := off s; clickpad := clickpad s; marks := marks s; ok := ok s; bug := bug s; out := out s |}.
Definition with_marks (s : tap) (m : list tmark) : tap :=
  {| st := st s; sp := sp s; sr := sr s; timer := timer s; drag := drag s; draglock := draglock s; map_ := map_ s; want_map := want_map s; p1 := p1 s; p2 := p2 s; p3 := p3 s; nf := nf s;
     enabled := enabled s; suspended := suspended s; off := off s; clickpad := clickpad s; marks := m; ok := ok s; bug := bug s; out := out s |}.
Definition with_off (s : tap) (b : bool) : tap :=
  {| st := st s; sp := sp s; sr := sr s; timer := timer s; drag := drag s; draglock := draglock s; map_ := map_ s; want_map := want_map s; p1 := p1 s; p2 := p2 s; p3 := p3 s; nf := nf s;
     enabled := enabled s; suspended := suspended s; off := b; clickpad := clickpad s; marks := marks s; ok := ok s; bug := bug s; out := out s |}.
Definition check (s : tap) (b : bool) : tap :=
  {| st := st s; sp := sp s; sr := sr s; timer := timer s; drag := drag s; draglock := draglock s; map_ := map_ s; want_map := want_map s; p1 := p1 s; p2 := p2 s; p3 := p3 s; nf := nf s;
     enabled := enabled s; suspended := suspended s; off := off s; clickpad := clickpad s; marks := marks s; ok := ok s && b; bug := bug s; out := out s |}.
Definition log_bug (s : tap) : tap :=
  {| st := st s; sp := sp s; sr := sr s; timer := timer s; drag := drag s; draglock := draglock s; map_ := map_ s; want_map := want_map s; p1 := p1 s; p2 := p2 s; p3 := p3 s; nf := nf s;
     enabled := enabled s; suspended := suspended s; off := off s; clickpad := clickpad s; marks := marks s; ok := ok s; bug := true; out := out s |}.

(** tp_tap_notify, /repo/src/evdev-mt-touchpad-tap.c:122-150 *)
Definition button_of (m : tap_map) (n : nfg) : button :=
  match n, m with F1, _ => LEFT | F2, LRM => RIGHT | F2, LMR => MIDDLE | F3, LRM => MIDDLE | F3, LMR => RIGHT end.
Definition notify (s : tap) (t : Z) (n : nfg) (pressed : bool) : tap :=
  {| st := st s; sp := sp s; sr := sr s; timer := timer s; drag := drag s; draglock := draglock s; map_ := map_ s; want_map := want_map s;
     p1 := match n with F1 => pressed | _ => p1 s end; p2 := match n with F2 => pressed | _ => p2 s end; p3 := match n with F3 => pressed | _ => p3 s end; nf := nf s;
     enabled := enabled s; suspended := suspended s; off := off s; clickpad := clickpad s; marks := marks s; ok := ok s; bug := bug s;
     out := out s ++ [{| at_time := t; but := button_of (map_ s) n; down := pressed |}] |}.
(** tp_tap_set_timer, tp_tap_set_drag_timer, tp_tap_set_draglock_timer, /repo/src/evdev-mt-touchpad-tap.c:152-156,
    /repo/src/evdev-mt-touchpad-tap.c:158-166, /repo/src/evdev-mt-touchpad-tap.c:168-173 *)
Definition set_timer (s : tap) (t : Z) : tap := with_timer s (Some (t + 180000)).
Definition set_drag_timer (s : tap) (t : Z) (n : nfg) : tap := with_timer s (Some (t + 160000 + zfg n * 20000)).
Definition set_draglock_timer (s : tap) (t : Z) : tap := with_timer s (Some (t + 300000)).
Definition clear_timer (s : tap) : tap := with_timer s None.
Definition move_to_dead (s : tap) : tap := clear_timer (goto s DEAD).
(** Press and release of a tap that is over, as in the TOUCH_3_RELEASE states *)
Definition click (s : tap) (n : nfg) : tap := notify (notify s (sp s) n true) (sr s) n false.

(** The handlers return the new state and whether the touch became a thumb. *)
(** /repo/src/evdev-mt-touchpad-tap.c:189-219 *)
Definition idle_event (s : tap) (e : tap_event) (t : Z) : tap :=
  match e with
  | EV_TOUCH => set_timer (save_press (goto s TOUCH) t) t
  | EV_MOTION | EV_THUMB => log_bug s
  | EV_BUTTON => goto s DEAD
  | EV_RELEASE | EV_TIMEOUT | EV_PALM | EV_PALM_UP => s
  end.
(** /repo/src/evdev-mt-touchpad-tap.c:221-274 *)
Definition touch_event (s : tap) (e : tap_event) (t : Z) : tap :=
  match e with
  | EV_TOUCH => set_timer (save_press (goto s TOUCH_2) t) t
  | EV_RELEASE =>
      let s := notify s (sp s) F1 true in
      if drag s then set_drag_timer (save_release (goto s (TAPPED F1)) t) t F1
      else goto (notify s t F1 false) IDLE
  | EV_MOTION => move_to_dead s
  | EV_TIMEOUT => clear_timer (goto s HOLD)
  | EV_BUTTON => goto s DEAD
  | EV_THUMB => clear_timer (with_nf (goto s IDLE) (nf s - 1))
  | EV_PALM => clear_timer (goto s IDLE)
  | EV_PALM_UP => s
  end.
(** /repo/src/evdev-mt-touchpad-tap.c:276-311 *)
Definition hold_event (s : tap) (e : tap_event) (t : Z) : tap :=
  match e with
  | EV_TOUCH => set_timer (save_press (goto s TOUCH_2) t) t
  | EV_RELEASE => goto s IDLE
  | EV_MOTION => move_to_dead s
  | EV_BUTTON => goto s DEAD
  | EV_THUMB => with_nf (goto s IDLE) (nf s - 1)
  | EV_PALM => goto s IDLE
  | EV_TIMEOUT | EV_PALM_UP => s
  end.
(** /repo/src/evdev-mt-touchpad-tap.c:313-359 *)
Definition tapped_event (s : tap) (e : tap_event) (t : Z) (n : nfg) : tap :=
  match e with
  | EV_MOTION | EV_RELEASE | EV_THUMB | EV_PALM => log_bug s
  | EV_TOUCH => set_timer (save_press (goto s (DRAGGING_OR_DOUBLETAP n)) t) t
  | EV_TIMEOUT => notify (goto s IDLE) (sr s) n false
  | EV_BUTTON => notify (goto s DEAD) (sr s) n false
  | EV_PALM_UP => s
  end.
(** /repo/src/evdev-mt-touchpad-tap.c:361-395 *)
Definition touch2_event (s : tap) (e : tap_event) (t : Z) : tap :=
  match e with
  | EV_TOUCH => set_timer (save_press (goto s TOUCH_3) t) t
  | EV_RELEASE => set_timer (save_release (goto s TOUCH_2_RELEASE) t) t
  | EV_MOTION => move_to_dead s
  | EV_TIMEOUT => goto s TOUCH_2_HOLD
  | EV_BUTTON => goto s DEAD
  | EV_PALM => goto s TOUCH
  | EV_THUMB | EV_PALM_UP => s
  end.
(** /repo/src/evdev-mt-touchpad-tap.c:397-429 *)
Definition touch2_hold_event (s : tap) (e : tap_event) (t : Z) : tap :=
  match e with
  | EV_TOUCH => set_timer (save_press (goto s TOUCH_3) t) t
  | EV_RELEASE => goto s HOLD
  | EV_MOTION => move_to_dead s
  | EV_TIMEOUT => goto s TOUCH_2_HOLD
  | EV_BUTTON => goto s DEAD
  | EV_PALM => goto s HOLD
  | EV_THUMB | EV_PALM_UP => s
  end.
(** /repo/src/evdev-mt-touchpad-tap.c:431-497 *)
Definition touch2_release_event (s : tap) (e : tap_event) (t : Z) : tap :=
  match e with
  | EV_TOUCH => clear_timer (goto s TOUCH_2_HOLD)
  | EV_RELEASE =>
      let s := notify s (sp s) F2 true in
      if drag s then set_drag_timer (goto s (TAPPED F2)) t F2 else goto (notify s (sr s) F2 false) IDLE
  | EV_MOTION => move_to_dead s
  | EV_TIMEOUT => goto s HOLD
  | EV_BUTTON => goto s DEAD
  | EV_PALM =>
      let s := notify s (sp s) F1 true in
      if drag s then goto s (TAPPED F1) else goto (notify s (sr s) F1 false) IDLE
  | EV_THUMB | EV_PALM_UP => s
  end.
(** /repo/src/evdev-mt-touchpad-tap.c:499-533 *)
Definition touch3_event (s : tap) (e : tap_event) (t : Z) : tap :=
  match e with
  | EV_TOUCH => clear_timer (goto s DEAD)
  | EV_MOTION => move_to_dead s
  | EV_TIMEOUT => clear_timer (goto s TOUCH_3_HOLD)
  | EV_RELEASE => set_timer (save_release (goto s TOUCH_3_RELEASE) t) t
  | EV_BUTTON => goto s DEAD
  | EV_PALM => goto s TOUCH_2
  | EV_THUMB | EV_PALM_UP => s
  end.
(** /repo/src/evdev-mt-touchpad-tap.c:535-565 *)
Definition touch3_hold_event (s : tap) (e : tap_event) (t : Z) : tap :=
  match e with
  | EV_TOUCH => set_timer (goto s DEAD) t
  | EV_RELEASE => goto s TOUCH_2_HOLD
  | EV_MOTION => move_to_dead s
  | EV_BUTTON => goto s DEAD
  | EV_PALM => goto s TOUCH_2_HOLD
  | EV_TIMEOUT | EV_THUMB | EV_PALM_UP => s
  end.
(** /repo/src/evdev-mt-touchpad-tap.c:567-632 *)
Definition touch3_release_event (s : tap) (e : tap_event) (t : Z) : tap :=
  match e with
  | EV_TOUCH => set_timer (save_press (goto (click s F3) TOUCH_3) t) t
  | EV_RELEASE => set_timer (goto s TOUCH_3_RELEASE_2) t
  | EV_MOTION => move_to_dead (click s F3)
  | EV_TIMEOUT => goto (click s F3) TOUCH_2_HOLD
  | EV_BUTTON => goto (click s F3) DEAD
  | EV_PALM => goto s TOUCH_2_RELEASE
  | EV_THUMB | EV_PALM_UP => s
  end.
(** /repo/src/evdev-mt-touchpad-tap.c:634-729 *)
Definition touch3_release2_event (s : tap) (e : tap_event) (t : Z) : tap :=
  match e with
  | EV_TOUCH => set_timer (save_press (goto (click s F3) TOUCH_2) t) t
  | EV_RELEASE =>
      let s := notify s (sp s) F3 true in
      if drag s then set_drag_timer (goto s (TAPPED F3)) t F3 else goto (notify s (sr s) F3 false) IDLE
  | EV_MOTION => move_to_dead (click s F3)
  | EV_TIMEOUT => goto (click s F3) HOLD
  | EV_BUTTON => goto (click s F3) DEAD
  | EV_PALM =>
      let s := notify s (sp s) F2 true in
      if drag s then goto s (TAPPED F2) else goto (notify s (sr s) F2 false) IDLE
  | EV_THUMB | EV_PALM_UP => s
  end.
(** /repo/src/evdev-mt-touchpad-tap.c:731-794 *)
Definition dragging_or_doubletap_event (s : tap) (e : tap_event) (t : Z) (n : nfg) : tap :=
  match e with
  | EV_TOUCH => set_timer (save_press (goto (notify s (sr s) n false) TOUCH_2) t) t
  | EV_RELEASE => set_timer (save_release (notify (notify (goto s (TAPPED F1)) (sr s) n false) (sp s) F1 true) t) t
  | EV_MOTION | EV_TIMEOUT => goto s (DRAGGING n)
  | EV_BUTTON => notify (goto s DEAD) (sr s) n false
  | EV_PALM => goto s (TAPPED n)
  | EV_THUMB | EV_PALM_UP => s
  end.
(** /repo/src/evdev-mt-touchpad-tap.c:796-855 *)
Definition dragging_event (s : tap) (e : tap_event) (t : Z) (n : nfg) : tap :=
  match e with
  | EV_TOUCH => goto s (DRAGGING_2 n)
  | EV_RELEASE => if draglock s then set_draglock_timer (goto s (DRAGGING_WAIT n)) t else goto (notify s t n false) IDLE
  | EV_BUTTON => notify (goto s DEAD) t n false
  | EV_PALM => goto (notify s (sr s) n false) IDLE
  | EV_MOTION | EV_TIMEOUT | EV_THUMB | EV_PALM_UP => s
  end.
(** /repo/src/evdev-mt-touchpad-tap.c:857-901 *)
Definition dragging_wait_event (s : tap) (e : tap_event) (t : Z) (n : nfg) : tap :=
  match e with
  | EV_TOUCH => set_timer (goto s (DRAGGING_OR_TAP n)) t
  | EV_RELEASE | EV_MOTION | EV_THUMB | EV_PALM => log_bug s
  | EV_TIMEOUT => notify (goto s IDLE) t n false
  | EV_BUTTON => notify (goto s DEAD) t n false
  | EV_PALM_UP => s
  end.
(** /repo/src/evdev-mt-touchpad-tap.c:903-960 *)
Definition dragging_tap_event (s : tap) (e : tap_event) (t : Z) (n : nfg) : tap :=
  match e with
  | EV_TOUCH => move_to_dead (clear_timer (notify s t n false))
  | EV_RELEASE => notify (goto s IDLE) t n false
  | EV_MOTION | EV_TIMEOUT => goto s (DRAGGING n)
  | EV_BUTTON => notify (goto s DEAD) t n false
  | EV_PALM => goto s (DRAGGING_WAIT n)
  | EV_THUMB | EV_PALM_UP => s
  end.
(** /repo/src/evdev-mt-touchpad-tap.c:962-1013 *)
Definition dragging2_event (s : tap) (e : tap_event) (t : Z) (n : nfg) : tap :=
  match e with
  | EV_RELEASE => goto s (DRAGGING n)
  | EV_TOUCH => notify (goto s DEAD) t n false
  | EV_BUTTON => notify (goto s DEAD) t n false
  | EV_PALM => goto s (DRAGGING n)
  | EV_MOTION | EV_TIMEOUT | EV_THUMB | EV_PALM_UP => s
  end.
(** /repo/src/evdev-mt-touchpad-tap.c:1015-1040 *)
Definition dead_event (s : tap) (e : tap_event) : tap :=
  match e with
  | EV_RELEASE | EV_PALM | EV_PALM_UP => if nf s =? 0 then goto s IDLE else s
  | EV_TOUCH | EV_MOTION | EV_TIMEOUT | EV_BUTTON | EV_THUMB => s
  end.
(** tp_tap_handle_event, /repo/src/evdev-mt-touchpad-tap.c:1042-1156 *)
Definition handle_event (s : tap) (e : tap_event) (t : Z) : tap :=
  let s' := match st s with
            | IDLE => idle_event s e t | TOUCH => touch_event s e t | HOLD => hold_event s e t | TAPPED n => tapped_event s e t n
            | TOUCH_2 => touch2_event s e t | TOUCH_2_HOLD => touch2_hold_event s e t | TOUCH_2_RELEASE => touch2_release_event s e t
            | TOUCH_3 => touch3_event s e t | TOUCH_3_HOLD => touch3_hold_event s e t | TOUCH_3_RELEASE => touch3_release_event s e t
            | TOUCH_3_RELEASE_2 => touch3_release2_event s e t
            | DRAGGING_OR_DOUBLETAP n => dragging_or_doubletap_event s e t n | DRAGGING n => dragging_event s e t n
            | DRAGGING_WAIT n => dragging_wait_event s e t n | DRAGGING_OR_TAP n => dragging_tap_event s e t n
            | DRAGGING_2 n => dragging2_event s e t n | DEAD => dead_event s e
            end in
  match st s' with IDLE | DEAD => clear_timer s' | _ => s' end.
(** The touch becomes a thumb for good in tp_tap_touch_handle_event and tp_tap_hold_handle_event only. *)
Definition becomes_thumb (s : tap) : bool := match st s with TOUCH | HOLD => true | _ => false end.

(** ** Frames: tp_tap_handle_state, /repo/src/evdev-mt-touchpad-tap.c:1195-1326 *)
(** A touch in a frame.  [palm]: palm.state != PALM_NONE; [thumb_tap]: tp_thumb_ignored_for_tap; [thumb]: tp_thumb_ignored;
    [palm_tap]: tp_palm_tap_is_palm; [moved]: tp_tap_exceeds_motion_threshold. *)
Record finger := { fs : Tp_Model.tstate; fdirty : bool; fwas_down : bool; palm : bool; thumb_tap : bool; thumb : bool; palm_tap : bool; moved : bool }.
Definition tap_enabled (s : tap) : bool := enabled s && negb (suspended s).
Definition is_idle (s : tap) : bool := match st s with IDLE => true | _ => false end.
Definition mark_thumb (m : tmark) : tmark := {| is_thumb := true; is_palm := is_palm m |}.
Definition mark_palm (m : tmark) : tmark := {| is_thumb := is_thumb m; is_palm := true |}.
Definition touch_in_frame (s : tap) (f : finger) (m : tmark) (t : Z) : tap * tmark :=
  if negb (fdirty f) then (s, m)
  else match fs f with
  | Tp_Model.NONE => (s, m)
  | _ =>
    if is_thumb m then (s, m)
    else if is_palm m then ((match fs f with Tp_Model.END => handle_event s EV_PALM_UP t | _ => s end), m)
    else match fs f with
    | Tp_Model.HOVERING => (s, m)
    | _ =>
      if palm f then
        let m := mark_palm m in
        match fs f with
        | Tp_Model.BEGIN => (s, m)
        | _ => let s := handle_event s EV_PALM t in (with_nf (check s (0 <? nf s)) (nf s - 1), m)
        end
      else match fs f with
      | Tp_Model.BEGIN =>
          if thumb_tap f then (s, mark_thumb m)
          else let s := handle_event (with_nf s (nf s + 1)) EV_TOUCH t in
               ((if palm_tap f then handle_event s EV_MOTION t else s), m)
      | Tp_Model.END => ((if fwas_down f then handle_event (with_nf (check s (1 <=? nf s)) (nf s - 1)) EV_RELEASE t else s), m)
      | _ =>
          if negb (is_idle s) && thumb f then (handle_event s EV_THUMB t, if becomes_thumb s then mark_thumb m else m)
          else if negb (is_idle s) && moved f then (handle_event s EV_MOTION t, m)
          else (s, m)
      end
    end
  end.
(** The loop over the touches. *)
Fixpoint touches_in_frame (s : tap) (l : list finger) (ms : list tmark) (t : Z) : tap * list tmark :=
  match l, ms with
  | f :: l, m :: ms => let '(s1, m1) := touch_in_frame s f m t in let '(s2, ms2) := touches_in_frame s1 l ms t in (s2, m1 :: ms2)
  | _, _ => (s, ms)
  end.
Definition is_down (f : finger) : bool := match fs f with Tp_Model.BEGIN | Tp_Model.UPDATE => true | _ => false end.
Definition fingers_down (l : list finger) : Z := Z.of_nat (length (filter is_down l)).
(** tp_tap_update_map, /repo/src/evdev-mt-touchpad-tap.c:1328-1336 *)
Definition update_map (s : tap) : tap :=
  if is_idle s then
    {| st := st s; sp := sp s; sr := sr s; timer := timer s; drag := drag s; draglock := draglock s; map_ := want_map s; want_map := want_map s; p1 := p1 s; p2 := p2 s; p3 := p3 s; nf := nf s;
       enabled := enabled s; suspended := suspended s; off := off s; clickpad := clickpad s; marks := marks s; ok := ok s; bug := bug s; out := out s |}
  else s.
(** A frame as the tap code sees it: tp_post_events skips it while the device is suspended, /repo/src/evdev-mt-touchpad.c:1855-1881;
    tp_tap_post_process_state always runs.  [click]: TOUCHPAD_EVENT_BUTTON_PRESS is queued. *)
Definition handle_state (s : tap) (l : list finger) (click : bool) (t : Z) : tap :=
  let s := if off s || negb (tap_enabled s) then s
           else
             let s := if clickpad s && click then handle_event s EV_BUTTON t else s in
             let '(s, ms) := touches_in_frame s l (marks s) t in
             let s := with_marks s ms in
             check s ((nf s <=? fingers_down l) && (negb (fingers_down l =? 0) || (nf s =? 0))) in
  update_map s.
(** Whether the pointer is held back while a tap may be going on: the switch at the end of tp_tap_handle_state *)
Definition filter_motion (s : tap) : bool :=
  tap_enabled s && match st s with TOUCH | TAPPED _ | DRAGGING_OR_DOUBLETAP _ | DRAGGING_OR_TAP _ | TOUCH_2 | TOUCH_3 => true | _ => false end.

(** tp_tap_handle_timeout, /repo/src/evdev-mt-touchpad-tap.c:1344-1359; the timer fires once, when its time has come *)
Definition timeout (s : tap) (t : Z) : tap :=
  match timer s with
  | Some e => if e <=? t then handle_event (clear_timer s) EV_TIMEOUT t else s
  | None => s
  end.
(** tp_release_all_taps, /repo/src/evdev-mt-touchpad-tap.c:1596-1621.  The marks of touches in state TOUCH_NONE are not touched there;
    they are cleared before they are next looked at, so marking all makes no difference. *)
Definition release_all (s : tap) (t : Z) : tap :=
  let s := if p1 s then notify s t F1 false else s in
  let s := if p2 s then notify s t F2 false else s in
  let s := if p3 s then notify s t F3 false else s in
  with_nf (goto (with_marks s (List.map mark_palm (marks s))) IDLE) 0.
(** tp_tap_enabled_update, /repo/src/evdev-mt-touchpad-tap.c:1361-1389 *)
Definition enabled_update (s : tap) (susp en : bool) (t : Z) : tap :=
  let was := tap_enabled s in
  let s := {| st := st s; sp := sp s; sr := sr s; timer := timer s; drag := drag s; draglock := draglock s; map_ := map_ s; want_map := want_map s; p1 := p1 s; p2 := p2 s; p3 := p3 s; nf := nf s;
              enabled := en; suspended := susp; off := off s; clickpad := clickpad s; marks := marks s; ok := ok s; bug := bug s; out := out s |} in
  if Bool.eqb (tap_enabled s) was then s
  else if tap_enabled s then with_nf (goto (with_marks s (List.map mark_palm (marks s))) IDLE) 0
  else release_all s t.

Fixpoint clear_mark (n : nat) (ms : list tmark) {struct ms} : list tmark :=
  match ms, n with
  | [], _ => []
  | _ :: ms, O => {| is_thumb := false; is_palm := false |} :: ms
  | m :: ms, S n => m :: clear_mark n ms
  end.

Inductive input :=
| Begin (n : nat)                   (* tp_begin_touch, /repo/src/evdev-mt-touchpad.c:349-363, clears both marks; the frame comes later *)
| Frame (l : list finger) (click : bool) (t : Z)
| Timer (t : Z)
| SetEnabled (b : bool) (t : Z)     (* tp_tap_config_set_enabled *)
| SetMap (m : tap_map)              (* tp_tap_config_set_map *)
| SetDrag (b : bool)                (* tp_tap_config_set_drag_enabled *)
| SetDragLock (b : bool)            (* tp_tap_config_set_draglock_enabled *)
| Suspend (t : Z) | Resume (t : Z)  (* tp_tap_suspend and tp_tap_resume: typing, trackpoint use *)
| ReleaseAll (t : Z)                (* the part of tp_clear_state that concerns taps; the frame that follows is a Frame *)
| Off (t : Z)                       (* evdev_notify_suspended_device with the tp_clear_state right before (tp_suspend) or after it (evdev_device_suspend) *)
| On.                               (* evdev_notify_resumed_device *)
Definition step (s : tap) (i : input) : tap :=
  match i with
  | Begin n => with_marks s (clear_mark n (marks s))
  | Frame l c t => handle_state s l c t
  | Timer t => timeout s t
  | SetEnabled b t => enabled_update s (suspended s) b t
  | SetMap m =>
      update_map {| st := st s; sp := sp s; sr := sr s; timer := timer s; drag := drag s; draglock := draglock s; map_ := map_ s; want_map := m; p1 := p1 s; p2 := p2 s; p3 := p3 s; nf := nf s;
                    enabled := enabled s; suspended := suspended s; off := off s; clickpad := clickpad s; marks := marks s; ok := ok s; bug := bug s; out := out s |}
  | SetDrag b =>
      {| st := st s; sp := sp s; sr := sr s; timer := timer s; drag := b; draglock := draglock s; map_ := map_ s; want_map := want_map s; p1 := p1 s; p2 := p2 s; p3 := p3 s; nf := nf s;
         enabled := enabled s; suspended := suspended s; off := off s; clickpad := clickpad s; marks := marks s; ok := ok s; bug := bug s; out := out s |}
  | SetDragLock b =>
      {| st := st s; sp := sp s; sr := sr s; timer := timer s; drag := drag s; draglock := b; map_ := map_ s; want_map := want_map s; p1 := p1 s; p2 := p2 s; p3 := p3 s; nf := nf s;
         enabled := enabled s; suspended := suspended s; off := off s; clickpad := clickpad s; marks := marks s; ok := ok s; bug := bug s; out := out s |}
  | Suspend t => enabled_update s true (enabled s) t
  | Resume t => enabled_update s false (enabled s) t
  | ReleaseAll t => release_all s t
  | Off t => with_off (release_all s t) true
  | On => with_off s false
  end.
Definition run (s : tap) (l : list input) : tap := fold_left step l s.
(** tp_init_tap, /repo/src/evdev-mt-touchpad-tap.c:1553-1588; zalloc leaves the rest at zero *)
Definition init (ntouches : nat) (pad en : bool) : tap :=
  {| st := IDLE; sp := 0; sr := 0; timer := None; drag := true; draglock := false; map_ := LRM; want_map := LRM; p1 := false; p2 := false; p3 := false; nf := 0;
     enabled := en; suspended := false; off := false; clickpad := pad; marks := repeat {| is_thumb := false; is_palm := false |} ntouches; ok := true; bug := false; out := [] |}.
