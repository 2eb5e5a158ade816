(** The path of a mouse button from the kernel to the client: key masks,
    debouncing, left-handed mapping, middle-button emulation, scrolling by
    button (with lock), press counting, deferred configuration, suspend.
    Composes Debounce_Model, MiddleButton_Model, Scroll_Model and
    Keys_Model.update_key_down_count.

    Simplifications: the device has every button the kernel reports
    (libevdev_has_event_code is true for a code that is down); rotation is
    off, and pointer acceleration is not applied to the motion events here
    (see the filter models); normalize_delta is the identity (1000 dpi).  A
    failed assert() is the output [PAbort]; the process is then dead. *)
Require Import Coq.ZArith.ZArith Coq.Lists.List Coq.Bool.Bool Coq.QArith.QArith.
Require Verif.Debounce_Model Verif.MiddleButton_Model Verif.Scroll_Model.
Require Import Verif.Keys_Model.
Import ListNotations.
Open Scope Z_scope.


Definition BTN_LEFT : Z := 272.
Definition BTN_RIGHT : Z := 273.
Definition BTN_MIDDLE : Z := 274.

(** enum evdev_button_scroll_state, /repo/src/evdev.h:122-127 *)
Inductive bsst := B_IDLE | B_DOWN | B_READY | B_SCROLLING.
(** enum evdev_button_scroll_lock_state, /repo/src/evdev.h:129-135 *)
Inductive lockst := L_DISABLED | L_IDLE | L_FIRSTDOWN | L_FIRSTUP | L_SECONDDOWN.

(** The state behind the debouncer: the parts of struct evdev_device used by
    the functions below, /repo/src/evdev.h:162-272 *)
Record ds := mkDS {
  s_mb : MiddleButton_Model.mb;
  s_left : bool; s_wleft : bool;      (** left_handed.enabled, want_enabled *)
  s_method : bool; s_wmethod : bool;  (** scroll method is "on button down" *)
  s_button : Z; s_wbutton : Z;        (** scroll.button, want_button *)
  s_lock : bool; s_wlock : bool;      (** lock_enabled, want_lock_enabled *)
  s_lockst : lockst; s_state : bsst;
  s_dtime : Z; s_timer : option Z;    (** button_down_time, scroll.timer *)
  s_scr : Scroll_Model.scr;
  s_cnt : Z -> Z;                     (** key_count *)
  s_dead : bool                       (** an assert has failed *)
}.

Inductive pout :=
| PButton (time code : Z) (pressed : bool)
| PAxis (ev : Scroll_Model.sout)
| PMotion (time dx dy : Z)
| PBug
| PAbort.

Definition dres := (ds * list pout)%type.

(** Sequencing; nothing happens after a failed assert. *)
Definition andthen (r : dres) (f : ds -> dres) : dres :=
  let '(s1, o1) := r in
  if s_dead s1 then (s1, o1) else let '(s2, o2) := f s1 in (s2, o1 ++ o2).
Definition abort (s : ds) : dres :=
  (mkDS (s_mb s) (s_left s) (s_wleft s) (s_method s) (s_wmethod s) (s_button s) (s_wbutton s)
        (s_lock s) (s_wlock s) (s_lockst s) (s_state s) (s_dtime s) (s_timer s) (s_scr s) (s_cnt s) true,
   [PAbort]).

Definition set_mb (s : ds) (m : MiddleButton_Model.mb) : ds :=
  mkDS m (s_left s) (s_wleft s) (s_method s) (s_wmethod s) (s_button s) (s_wbutton s)
       (s_lock s) (s_wlock s) (s_lockst s) (s_state s) (s_dtime s) (s_timer s) (s_scr s) (s_cnt s) (s_dead s).
Definition set_cnt (s : ds) (cnt : Z -> Z) : ds :=
  mkDS (s_mb s) (s_left s) (s_wleft s) (s_method s) (s_wmethod s) (s_button s) (s_wbutton s)
       (s_lock s) (s_wlock s) (s_lockst s) (s_state s) (s_dtime s) (s_timer s) (s_scr s) cnt (s_dead s).
Definition set_lockst (s : ds) (l : lockst) : ds :=
  mkDS (s_mb s) (s_left s) (s_wleft s) (s_method s) (s_wmethod s) (s_button s) (s_wbutton s)
       (s_lock s) (s_wlock s) l (s_state s) (s_dtime s) (s_timer s) (s_scr s) (s_cnt s) (s_dead s).
Definition set_state (s : ds) (b : bsst) : ds :=
  mkDS (s_mb s) (s_left s) (s_wleft s) (s_method s) (s_wmethod s) (s_button s) (s_wbutton s)
       (s_lock s) (s_wlock s) (s_lockst s) b (s_dtime s) (s_timer s) (s_scr s) (s_cnt s) (s_dead s).
Definition set_timer (s : ds) (t : option Z) : ds :=
  mkDS (s_mb s) (s_left s) (s_wleft s) (s_method s) (s_wmethod s) (s_button s) (s_wbutton s)
       (s_lock s) (s_wlock s) (s_lockst s) (s_state s) (s_dtime s) t (s_scr s) (s_cnt s) (s_dead s).
Definition set_scr (s : ds) (c : Scroll_Model.scr) : ds :=
  mkDS (s_mb s) (s_left s) (s_wleft s) (s_method s) (s_wmethod s) (s_button s) (s_wbutton s)
       (s_lock s) (s_wlock s) (s_lockst s) (s_state s) (s_dtime s) (s_timer s) c (s_cnt s) (s_dead s).
Definition set_left (s : ds) (l w : bool) : ds :=
  mkDS (s_mb s) l w (s_method s) (s_wmethod s) (s_button s) (s_wbutton s)
       (s_lock s) (s_wlock s) (s_lockst s) (s_state s) (s_dtime s) (s_timer s) (s_scr s) (s_cnt s) (s_dead s).
Definition set_want (s : ds) (wm : bool) (wb : Z) (wl : bool) : ds :=
  mkDS (s_mb s) (s_left s) (s_wleft s) (s_method s) wm (s_button s) wb
       (s_lock s) wl (s_lockst s) (s_state s) (s_dtime s) (s_timer s) (s_scr s) (s_cnt s) (s_dead s).

(** fallback_any_button_down, /repo/src/evdev-fallback.c:872-884 *)
Definition mouse_buttons : list Z := map Z.of_nat (seq 272 16).
Definition any_button_down (hw : Z -> bool) : bool := existsb hw mouse_buttons.

(** fallback_change_to_left_handed, /repo/src/evdev-fallback.c:1492-1504;
    [any] is fallback_any_button_down *)
Definition change_left (any : bool) (s : ds) : ds :=
  if Bool.eqb (s_wleft s) (s_left s) then s
  else if any then s
  else set_left s (s_wleft s) (s_wleft s).

(** fallback_change_scroll_method, /repo/src/evdev-fallback.c:1506-1523,
    and evdev_set_button_scroll_lock_enabled, /repo/src/evdev.c:777-785 *)
Definition change_scroll (any : bool) (s : ds) : ds :=
  if Bool.eqb (s_wmethod s) (s_method s) && (s_wbutton s =? s_button s) && Bool.eqb (s_wlock s) (s_lock s) then s
  else if any then s
  else mkDS (s_mb s) (s_left s) (s_wleft s) (s_wmethod s) (s_wmethod s) (s_wbutton s) (s_wbutton s)
            (s_wlock s) (s_wlock s) (if s_wlock s then L_IDLE else L_DISABLED)
            (s_state s) (s_dtime s) (s_timer s) (s_scr s) (s_cnt s) (s_dead s).

(** evdev_pointer_post_button, /repo/src/evdev.c:165-188 *)
Definition post_button (any : bool) (s : ds) (t c : Z) (p : bool) : dres :=
  match update_key_down_count (s_cnt s) c p with
  | None => abort s
  | Some (cnt, n) =>
      let s1 := set_cnt s cnt in
      if (p && (n =? 1)) || (negb p && (n =? 0)) then
        (if p then s1 else change_scroll any (change_left any s1), [PButton t c p])
      else (s1, [])
  end.

(** evdev_button_scroll_button, the part after the lock,
    /repo/src/evdev.c:230-283; the flag TIMER_FLAG_ALLOW_NEGATIVE only
    silences a log message *)
Definition scroll_press (s : ds) (t : Z) : dres :=
  (mkDS (s_mb s) (s_left s) (s_wleft s) (s_method s) (s_wmethod s) (s_button s) (s_wbutton s)
        (s_lock s) (s_wlock s) (s_lockst s) B_DOWN t (Some (t + 200000)) (s_scr s) (s_cnt s) (s_dead s), []).
Definition scroll_release (any : bool) (s : ds) (t : Z) : dres :=
  let s0 := set_timer s None in
  andthen
    (match s_state s0 with
     | B_IDLE => (s0, [PBug])
     | B_DOWN | B_READY =>
         andthen (post_button any s0 (s_dtime s0) (s_button s0) true)
           (fun s1 => post_button any s1 t (s_button s1) false)
     | B_SCROLLING =>
         let '(scr, o) := Scroll_Model.stop_scroll (s_scr s0) t in (set_scr s0 scr, map PAxis o)
     end)
    (fun s1 => (set_state s1 B_IDLE, [])).

(** evdev_button_scroll_button, /repo/src/evdev.c:198-284 *)
Definition scroll_button (any : bool) (s : ds) (t : Z) (p : bool) : dres :=
  let handle s := if p then scroll_press s t else scroll_release any s t in
  match s_lockst s with
  | L_DISABLED => handle s
  | L_IDLE => if p then handle (set_lockst s L_FIRSTDOWN) else abort s
  | L_FIRSTDOWN => if p then abort s else (set_lockst s L_FIRSTUP, [])
  | L_FIRSTUP => if p then (set_lockst s L_SECONDDOWN, []) else abort s
  | L_SECONDDOWN => if p then abort s else handle (set_lockst s L_IDLE)
  end.

(** evdev_pointer_notify_button, /repo/src/evdev.c:286-299 *)
Definition notify_button (any : bool) (s : ds) (t c : Z) (p : bool) : dres :=
  if s_method s && (c =? s_button s) then scroll_button any s t p else post_button any s t c p.

(** Deliver what middle-button emulation posts. *)
Fixpoint deliver (any : bool) (s : ds) (l : list MiddleButton_Model.mout) : dres :=
  match l with
  | [] => (s, [])
  | MiddleButton_Model.MBug :: r => andthen (s, [PBug]) (fun s => deliver any s r)
  | MiddleButton_Model.MPost c t p :: r => andthen (notify_button any s t c p) (fun s => deliver any s r)
  end.

(** evdev_pointer_notify_physical_button, /repo/src/evdev.c:147-163 *)
Definition physical_button (any : bool) (s : ds) (t c : Z) (p : bool) : dres :=
  let '(m, l) := MiddleButton_Model.physical_button (s_mb s) t c p in deliver any (set_mb s m) l.

(** evdev_to_left_handed, /repo/src/evdev.h:654-665 *)
Definition to_left_handed (left : bool) (c : Z) : Z :=
  if left then (if c =? BTN_LEFT then BTN_RIGHT else if c =? BTN_RIGHT then BTN_LEFT else c) else c.

(** Deliver what the debouncer notifies: debounce_notify_button,
    /repo/src/evdev-debounce.c:169-180 *)
Fixpoint from_debounce (any : bool) (s : ds) (l : list Debounce_Model.dout) : dres :=
  match l with
  | [] => (s, [])
  | Debounce_Model.LogBug :: r => andthen (s, [PBug]) (fun s => from_debounce any s r)
  | Debounce_Model.Notify c t p :: r =>
      andthen (physical_button any s t (to_left_handed (s_left s) c) p)
        (fun s => from_debounce any s r)
  end.

(** post_trackpoint_scroll, /repo/src/evdev-fallback.c:105-133, and
    fallback_flush_relative_motion, /repo/src/evdev-fallback.c:175-215 *)
Definition relative_motion (s : ds) (t dx dy : Z) : dres :=
  let scroll s := let '(scr, o) := Scroll_Model.post_scroll (s_scr s) t (inject_Z dx) (inject_Z dy) in
                  (set_scr s scr, map PAxis o) in
  let motion := (s, if (dx =? 0) && (dy =? 0) then [] else [PMotion t dx dy]) in
  if s_method s then
    match s_state s with
    | B_IDLE => motion
    | B_DOWN => (s, [])
    | B_READY => scroll (set_state s B_SCROLLING)
    | B_SCROLLING => scroll s
    end
  else motion.

(** The whole: struct fallback_dispatch and struct evdev_device *)
Record ps := mkPS {
  p_hw : Z -> bool;            (** hw_key_mask *)
  p_last : Z -> bool;          (** last_hw_key_mask *)
  p_key : bool;                (** pending_event & EVDEV_KEY *)
  p_rel : option (Z * Z);      (** rel, if pending_event & EVDEV_RELATIVE_MOTION *)
  p_deb : Debounce_Model.deb;
  p_ds : ds
}.

Definition ps_init (quirk left middle method : bool) (button : Z) (lock : bool) (scr : Scroll_Model.scr) : ps :=
  mkPS (fun _ => false) (fun _ => false) false None (Debounce_Model.deb_init quirk)
       (mkDS (MiddleButton_Model.mb_init middle) left left method method button button lock lock
             (if lock then L_IDLE else L_DISABLED) B_IDLE 0 None scr (fun _ => 0) false).

(** fallback_process_key, /repo/src/evdev-fallback.c:540-595, for buttons *)
Definition process_key (p : ps) (c v : Z) : ps :=
  if v =? 2 then p
  else if negb (is_button c) then p
  else if (negb (v =? 0) && p_hw p c) || ((v =? 0) && negb (p_hw p c)) then p
  else mkPS (upd (p_hw p) c (negb (v =? 0))) (p_last p) true (p_rel p) (p_deb p) (p_ds p).

(** The scan of fallback_debounce_handle_state, /repo/src/evdev-debounce.c:481-492
    (the limit of 16 is in Debounce_Model.handle_frame); codes outside
    0..KEY_MAX do not exist *)
Definition changed (p : ps) : list (Z * bool) :=
  map (fun c => (c, p_hw p c))
      (filter (fun c => is_button c && negb (Bool.eqb (p_hw p c) (p_last p c))) all_codes).

(** fallback_handle_state, /repo/src/evdev-fallback.c:976-1040, relative
    motion and buttons *)
Definition handle_state (p : ps) (t : Z) : ps * list pout :=
  let '(s1, o1) := match p_rel p with
                   | Some (dx, dy) => relative_motion (p_ds p) t dx dy
                   | None => (p_ds p, [])
                   end in
  if p_key p then
    let ch := changed p in
    let '(d, (s2, o2)) :=
      match ch with
      | [] => (p_deb p, (s1, []))
      | _ => let '(d, l) := Debounce_Model.handle_frame (p_deb p) ch t in
             (d, from_debounce (any_button_down (p_hw p)) s1 l)
      end in
    (mkPS (p_hw p) (p_hw p) false None d s2, o1 ++ o2)
  else (mkPS (p_hw p) (p_last p) false None (p_deb p) s1, o1).

(** release_pressed_keys, /repo/src/evdev-fallback.c:1101-1149, for buttons *)
Fixpoint release_buttons (any : bool) (s : ds) (t : Z) (codes : list Z) : dres :=
  match codes with
  | [] => (s, [])
  | c :: cs =>
      if (s_cnt s c =? 0) || negb (is_button c) then release_buttons any s t cs
      else
        andthen (s, if 1 <? s_cnt s c then [PBug] else []) (fun s =>
        andthen (notify_button any s t (to_left_handed (s_left s) c) false) (fun s =>
        if negb (s_cnt s c =? 0) then (s, [PBug]) else release_buttons any s t cs))
  end.

(** fallback_return_to_neutral_state, /repo/src/evdev-fallback.c:1151-1165
    (note the second memset: last_hw_key_mask is not cleared) *)
Definition neutral (p : ps) (t : Z) : ps * list pout :=
  let '(s, o) := release_buttons (any_button_down (p_hw p)) (p_ds p) t all_codes in
  (mkPS (fun _ => false) (p_last p) (p_key p) (p_rel p) (p_deb p) s, o).

Inductive pop :=
| Key (code value : Z)              (** EV_KEY *)
| Rel (dx dy : Z)                   (** EV_REL *)
| Syn (t : Z)                       (** EV_SYN: end of frame *)
| DebounceTimer (now : Z) | DebounceTimerShort (now : Z)
| MiddleTimer (now : Z) | ScrollTimer (now : Z)
| SetLeft (b : bool) | SetMiddle (b : bool)
| SetMethod (b : bool) | SetButton (c : Z) | SetLock (b : bool)
| Suspend (now : Z)
| Remove (now : Z).

Definition with_ds (p : ps) (r : dres) : ps * list pout :=
  (mkPS (p_hw p) (p_last p) (p_key p) (p_rel p) (p_deb p) (fst r), snd r).
Definition with_deb (p : ps) (r : Debounce_Model.deb * list Debounce_Model.dout) : ps * list pout :=
  let '(d, l) := r in
  let '(s, o) := from_debounce (any_button_down (p_hw p)) (p_ds p) l in
  (mkPS (p_hw p) (p_last p) (p_key p) (p_rel p) d s, o).

Definition pstep (p : ps) (o : pop) : ps * list pout :=
  let s := p_ds p in
  let any := any_button_down (p_hw p) in
  if s_dead s then (p, [])
  else match o with
  | Key c v => (process_key p c v, [])
  | Rel dx dy => (mkPS (p_hw p) (p_last p) (p_key p)
                    (Some (match p_rel p with Some (x, y) => (x + dx, y + dy) | None => (dx, dy) end))
                    (p_deb p) (p_ds p), [])
  | Syn t => handle_state p t
  | DebounceTimer now => with_deb p (Debounce_Model.dstep (p_deb p) (Debounce_Model.FireLong now))
  | DebounceTimerShort now => with_deb p (Debounce_Model.dstep (p_deb p) (Debounce_Model.FireShort now))
  | MiddleTimer now =>
      let '(m, l) := MiddleButton_Model.timeout (s_mb s) now in with_ds p (deliver any (set_mb s m) l)
  (* evdev_button_scroll_timeout, /repo/src/evdev.c:190-196 *)
  | ScrollTimer now => with_ds p (set_state (set_timer s None) B_READY, [])
  (* evdev_left_handed_set, evdev_middlebutton_set, evdev_scroll_set_method,
     _set_button, _set_button_lock: /repo/src/evdev.c:607-617, 655-665, 695-705, 737-757 *)
  | SetLeft b => with_ds p (change_left any (set_left s (s_left s) b), [])
  | SetMiddle b => with_ds p (set_mb s (MiddleButton_Model.set_config (s_mb s) b), [])
  | SetMethod b => with_ds p (change_scroll any (set_want s b (s_wbutton s) (s_wlock s)), [])
  | SetButton c => with_ds p (change_scroll any (set_want s (s_wmethod s) c (s_wlock s)), [])
  | SetLock b => with_ds p (change_scroll any (set_want s (s_wmethod s) (s_wbutton s) b), [])
  (* evdev_device_suspend, /repo/src/evdev.c:2764-2789 *)
  | Suspend now => neutral p now
  (* evdev_device_remove, /repo/src/evdev.c:2857-2889: the scroll and middle
     button timers are cancelled, the device is suspended, then
     fallback_interface_remove cancels the debounce timers *)
  | Remove now =>
      let m := s_mb s in
      let m' := MiddleButton_Model.mkMB (MiddleButton_Model.m_state m) (MiddleButton_Model.m_mask m) (MiddleButton_Model.m_first m) None (MiddleButton_Model.m_enabled m) (MiddleButton_Model.m_want m) in
      let '(p1, o) := neutral (fst (with_ds p (set_timer (set_mb s m') None, []))) now in
      (mkPS (p_hw p1) (p_last p1) (p_key p1) (p_rel p1)
            (Debounce_Model.cancel_timer_short (Debounce_Model.cancel_timer (p_deb p1))) (p_ds p1), o)
  end.

Fixpoint prun (p : ps) (ops : list pop) : ps * list pout :=
  match ops with
  | [] => (p, [])
  | o :: os => let '(p1, o1) := pstep p o in
               let '(p2, o2) := prun p1 os in (p2, o1 ++ o2)
  end.
