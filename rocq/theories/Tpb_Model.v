(** * Buttons of touchpads: software button areas, clickfinger, physical buttons

    Model of /repo/src/evdev-mt-touchpad-buttons.c, of the parts of /repo/src/evdev-mt-touchpad.c that drive it, and of the key counters
    every button event goes through.  Doubles are exact rationals.  Not modelled here: the middle button emulation of non-clickpads
    (MiddleButton_Model), and that a click stops edge scrolling (tp_edge_scroll_stop_events). *)
Require Import Coq.ZArith.ZArith Coq.Lists.List Coq.Bool.Bool.
Require Verif.Tp_Model.
Require Import Verif.Tap_Model.
Import ListNotations.
Open Scope Z_scope.

(** enum button_event and enum button_state, /repo/src/evdev-mt-touchpad.h:81-104 *)
Inductive region := BOTTOM_R | BOTTOM_M | BOTTOM_L | TOP_R | TOP_M | TOP_L | MAIN.
Inductive bevent := In_ (r : region) | B_UP | B_PRESS | B_RELEASE | B_TIMEOUT.
Inductive bstate := B_NONE | B_AREA | B_BOTTOM | B_TOP | B_TOP_NEW | B_TOP_TO_IGNORE | B_IGNORE.
Definition region_eqb (a b : region) : bool :=
  match a, b with BOTTOM_R, BOTTOM_R | BOTTOM_M, BOTTOM_M | BOTTOM_L, BOTTOM_L | TOP_R, TOP_R | TOP_M, TOP_M | TOP_L, TOP_L | MAIN, MAIN => true | _, _ => false end.
Definition is_cur (c : option region) (r : region) : bool := match c with Some x => region_eqb x r | None => false end.
(** struct tp_touch's button member; [cur] = None: 0.  It only ever takes the value of an In_ event. *)
Record tb := { bs : bstate; cur : option region; tmr : option Z; ix : Z; iy : Z; it : Z; has_moved : bool }.
Definition tb0 : tb := {| bs := B_NONE; cur := None; tmr := None; ix := 0; iy := 0; it := 0; has_moved := false |}.
Definition set_moved (b : tb) : tb := {| bs := bs b; cur := cur b; tmr := tmr b; ix := ix b; iy := iy b; it := it b; has_moved := true |}.
Definition set_cur (b : tb) (c : option region) : tb := {| bs := bs b; cur := c; tmr := tmr b; ix := ix b; iy := iy b; it := it b; has_moved := has_moved b |}.

(** The touchpad: axis ranges and resolution (units per mm), QUIRK_MODEL_TOUCHPAD_VISIBLE_MARKER, INPUT_PROP_TOPBUTTONPAD,
    and what tp_post_button_events tells apart: clickpads, the one-button Apple touchpad, and others *)
Inductive pad_kind := Clickpad | OneButton | Physical.
Record pad := { minx : Z; maxx : Z; resx : Z; miny : Z; maxy : Z; resy : Z; marker : bool; has_top : bool; kind : pad_kind }.
Definition INT_MAX : Z := 2147483647.
Definition INT_MIN : Z := -2147483648.
(** bottom_area and top_area of struct tp_dispatch *)
Record areas := { b_top : Z; b_right : Z; b_mid : Z; t_bot : Z; t_right : Z; t_left : Z }.
(** tp_init_softbuttons, /repo/src/evdev-mt-touchpad-buttons.c:641-699; evdev_device_mm_to_units truncates, /repo/src/evdev.h:908-930 *)
Definition init_softbuttons (p : pad) (a : areas) (want_middle : bool) : areas :=
  let w := maxx p - minx p in let h := maxy p - miny p in
  let top := if 1000 * resy p <? 15 * h then maxy p - 10 * resy p else Z.quot (85 * h + 100 * miny p) 100 in
  if want_middle then {| b_top := top; b_right := Z.quot (w + 2 * minx p) 2; b_mid := INT_MAX; t_bot := t_bot a; t_right := t_right a; t_left := t_left a |}
  else {| b_top := top;
          b_mid := if marker p then Z.quot (w + 2 * minx p - 10 * resx p) 2 else Z.quot (3 * w + 8 * minx p) 8;
          b_right := if marker p then Z.quot (w + 2 * minx p + 10 * resx p) 2 else Z.quot (5 * w + 8 * minx p) 8;
          t_bot := t_bot a; t_right := t_right a; t_left := t_left a |}.
(** tp_init_top_softbuttons, /repo/src/evdev-mt-touchpad-buttons.c:701-731; [mult] is 1 or 3 *)
Definition init_top_softbuttons (p : pad) (a : areas) (mult : Z) : areas :=
  let w := maxx p - minx p in
  if has_top p then {| b_top := b_top a; b_right := b_right a; b_mid := b_mid a;
                       t_bot := 10 * mult * resy p + miny p; t_right := Z.quot (3 * w + 5 * minx p) 5; t_left := Z.quot (2 * w + 5 * minx p) 5 |}
  else {| b_top := b_top a; b_right := b_right a; b_mid := b_mid a; t_bot := INT_MIN; t_right := t_right a; t_left := t_left a |}.
(** is_inside_*, /repo/src/evdev-mt-touchpad-buttons.c:80-143, as tp_button_handle_state uses them *)
Definition in_bottom (a : areas) (y : Z) : bool := b_top a <=? y.
Definition in_top (a : areas) (y : Z) : bool := y <=? t_bot a.
Definition region_at (a : areas) (x y : Z) : region :=
  if in_bottom a y then if b_right a <? x then BOTTOM_R else if b_mid a <? x then BOTTOM_M else BOTTOM_L
  else if in_top a y then if t_right a <? x then TOP_R else if (t_left a <=? x) && (x <=? t_right a) then TOP_M else TOP_L
  else MAIN.

(** ** One finger's state machine *)
(** tp_button_set_state, /repo/src/evdev-mt-touchpad-buttons.c:167-202 *)
Definition event_region (e : bevent) : option region := match e with In_ r => Some r | _ => None end.
Definition set_state (b : tb) (n : bstate) (e : bevent) (t : Z) : tb :=
  {| bs := n;
     cur := match n with B_NONE | B_IGNORE => None | B_AREA => Some MAIN | B_BOTTOM | B_TOP_NEW => event_region e | B_TOP | B_TOP_TO_IGNORE => cur b end;
     tmr := match n with B_TOP_NEW => Some (t + 100000) | B_TOP_TO_IGNORE => Some (t + 300000) | _ => None end;
     ix := ix b; iy := iy b; it := it b; has_moved := has_moved b |}.
(** tp_button_release_other_bottom_touches, /repo/src/evdev-mt-touchpad-buttons.c:263-286 *)
Definition release_other (start : Z) (b : tb) : tb :=
  match bs b with
  | B_BOTTOM => if has_moved b || (80000 <? (if it b <? start then start - it b else it b - start)) then b else set_moved b
  | _ => b
  end.
(** The handlers, /repo/src/evdev-mt-touchpad-buttons.c:203-469; true: tp_button_release_other_bottom_touches is called, too *)
Definition none_event (b : tb) (e : bevent) (t : Z) : tb :=
  match e with
  | In_ (BOTTOM_R | BOTTOM_M | BOTTOM_L) => set_state b B_BOTTOM e t
  | In_ (TOP_R | TOP_M | TOP_L) => set_state b B_TOP_NEW e t
  | In_ MAIN => set_state b B_AREA e t
  | B_UP => set_state b B_NONE e t
  | B_PRESS | B_RELEASE | B_TIMEOUT => b
  end.
Definition area_event (b : tb) (e : bevent) (t : Z) : tb := match e with B_UP => set_state b B_NONE e t | _ => b end.
Definition bottom_event (b : tb) (e : bevent) (t : Z) : tb * bool :=
  match e with
  | In_ ((BOTTOM_R | BOTTOM_M | BOTTOM_L) as r) => ((if is_cur (cur b) r then b else set_state b B_BOTTOM e t), false)
  | In_ _ => (set_state b B_AREA e t, true)
  | B_UP => (set_state b B_NONE e t, false)
  | B_PRESS | B_RELEASE | B_TIMEOUT => (b, false)
  end.
Definition top_event (b : tb) (e : bevent) (t : Z) : tb :=
  match e with
  | In_ (BOTTOM_R | BOTTOM_M | BOTTOM_L | MAIN) => set_state b B_TOP_TO_IGNORE e t
  | In_ ((TOP_R | TOP_M | TOP_L) as r) => if is_cur (cur b) r then b else set_state b B_TOP_NEW e t
  | B_UP => set_state b B_NONE e t
  | B_PRESS | B_RELEASE | B_TIMEOUT => b
  end.
Definition top_new_event (b : tb) (e : bevent) (t : Z) : tb :=
  match e with
  | In_ (BOTTOM_R | BOTTOM_M | BOTTOM_L | MAIN) => set_state b B_AREA e t
  | In_ ((TOP_R | TOP_M | TOP_L) as r) => if is_cur (cur b) r then b else set_state b B_TOP_NEW e t
  | B_UP => set_state b B_NONE e t
  | B_PRESS | B_TIMEOUT => set_state b B_TOP e t
  | B_RELEASE => b
  end.
Definition top_to_ignore_event (b : tb) (e : bevent) (t : Z) : tb :=
  match e with
  | In_ ((TOP_R | TOP_M | TOP_L) as r) => if is_cur (cur b) r then set_state b B_TOP e t else set_state b B_TOP_NEW e t
  | In_ _ => b
  | B_UP => set_state b B_NONE e t
  | B_PRESS | B_RELEASE => b
  | B_TIMEOUT => set_state b B_IGNORE e t
  end.
Definition ignore_event (b : tb) (e : bevent) (t : Z) : tb :=
  match e with B_UP => set_state b B_NONE e t | B_PRESS => set_cur b (Some MAIN) | _ => b end.
(** tp_button_handle_event, /repo/src/evdev-mt-touchpad-buttons.c:471-510 *)
Definition event1 (b : tb) (e : bevent) (t : Z) : tb * bool :=
  match bs b with
  | B_NONE => (none_event b e t, false) | B_AREA => (area_event b e t, false) | B_BOTTOM => bottom_event b e t
  | B_TOP => (top_event b e t, false) | B_TOP_NEW => (top_new_event b e t, false)
  | B_TOP_TO_IGNORE => (top_to_ignore_event b e t, false) | B_IGNORE => (ignore_event b e t, false)
  end.
Fixpoint upd (i : nat) (b : tb) (l : list tb) {struct l} : list tb :=
  match l, i with [], _ => [] | _ :: l, O => b :: l | x :: l, S i => x :: upd i b l end.
Definition handle_event (l : list tb) (i : nat) (e : bevent) (t : Z) : list tb :=
  let '(b, others) := event1 (nth i l tb0) e t in
  let l := upd i b l in
  if others then map (release_other (it b)) l else l.
(** tp_button_check_for_movement, /repo/src/evdev-mt-touchpad-buttons.c:512-546: more than 5 mm, squared to stay exact *)
Definition far (p : pad) (b : tb) (x y : Z) : bool :=
  let dx := x - ix b in let dy := y - iy b in
  25 * (resx p * resx p) * (resy p * resy p) <? dx * dx * (resy p * resy p) + dy * dy * (resx p * resx p).
Definition check_movement (p : pad) (l : list tb) (i : nat) (x y : Z) : list tb :=
  let b := nth i l tb0 in
  match bs b with
  | B_BOTTOM => if negb (has_moved b) && far p b x y then map (release_other (it b)) (upd i (set_moved b) l) else l
  | _ => l
  end.

(** ** A frame *)
(** A touch as the dispatch left it: state, dirty, position; [f_thumb]: tp_thumb_ignored, [f_palm]: palm.state != PALM_NONE *)
Record ft := { f_state : Tp_Model.tstate; f_dirty : bool; f_x : Z; f_y : Z; f_thumb : bool; f_palm : bool }.
(** tp_button_handle_state, /repo/src/evdev-mt-touchpad-buttons.c:548-597; [qr], [qp]: a release, a press is queued *)
Definition touch_frame (p : pad) (a : areas) (qr qp : bool) (t : Z) (l : list tb) (i : nat) (f : ft) : list tb :=
  match f_state f with
  | Tp_Model.NONE | Tp_Model.HOVERING => l
  | st =>
    let b := nth i l tb0 in
    let l := match st with
             | Tp_Model.BEGIN => upd i {| bs := bs b; cur := cur b; tmr := tmr b; ix := f_x f; iy := f_y f; it := t; has_moved := false |} l
             | _ => l
             end in
    let l := match st with
             | Tp_Model.END => handle_event l i B_UP t
             | _ => if f_dirty f then
                      let l := if in_bottom a (f_y f) then check_movement p l i (f_x f) (f_y f) else l in
                      handle_event l i (In_ (region_at a (f_x f) (f_y f))) t
                    else l
             end in
    let l := if qr then handle_event l i B_RELEASE t else l in
    if qp then handle_event l i B_PRESS t else l
  end.
Fixpoint touches_frame (p : pad) (a : areas) (qr qp : bool) (t : Z) (l : list tb) (i : nat) (fs : list ft) : list tb :=
  match fs with [] => l | f :: fs => touches_frame p a qr qp t (touch_frame p a qr qp t l i f) (S i) fs end.

(** ** The dispatch *)
Inductive click_method := M_NONE | M_AREAS | M_FINGER.
Record bits := { pl : bool; pr : bool; pm : bool }.
Definition no_bits : bits := {| pl := false; pr := false; pm := false |}.
Definition any_bit (b : bits) : bool := pl b || pr b || pm b.
Definition bits_eqb (a b : bits) : bool := Bool.eqb (pl a) (pl b) && Bool.eqb (pr a) (pr b) && Bool.eqb (pm a) (pm b).
Definition get_bit (b : bits) (x : button) : bool := match x with LEFT => pl b | RIGHT => pr b | MIDDLE => pm b end.
Definition set_bit (b : bits) (x : button) (v : bool) : bits :=
  match x with LEFT => {| pl := v; pr := pr b; pm := pm b |} | RIGHT => {| pl := pl b; pr := v; pm := pm b |} | MIDDLE => {| pl := pl b; pr := pr b; pm := v |} end.
(** key_count of the three buttons *)
Record counts := { cl : Z; cr : Z; cm : Z }.
Definition get_count (c : counts) (x : button) : Z := match x with LEFT => cl c | RIGHT => cr c | MIDDLE => cm c end.
Definition set_count (c : counts) (x : button) (v : Z) : counts :=
  match x with LEFT => {| cl := v; cr := cr c; cm := cm c |} | RIGHT => {| cl := cl c; cr := v; cm := cm c |} | MIDDLE => {| cl := cl c; cr := cr c; cm := v |} end.
(** Where events go.  [ToTrackpoint]: handed to the trackpoint's dispatch, EV_KEY and SYN_REPORT; [Gone]: the trackpoint was removed (not an event) *)
Inductive outev := ToClient (b : button) (p : bool) | ToTrackpoint (b : button) (p : bool) | Gone.
Record dev := {
  tbs : list tb; ar : areas; phys : bits (* buttons.state *); old : bits (* old_state *); qp : bool; qr : bool (* queued *);
  active : option button; active_top : bool; pending : bool (* click_pending *); method : click_method;
  mid : bool; want_mid : bool (* middlebutton.enabled, want_enabled *); lh : bool; want_lh : bool (* left_handed *);
  trackpoint : bool; susp : bool (* is_suspended *); kc : counts; ok : bool; out : list outev }.
Definition with_tbs (s : dev) (l : list tb) : dev :=
  {| tbs := l; ar := ar s; phys := phys s; old := old s; qp := qp s; qr := qr s; active := active s; active_top := active_top s; pending := pending s; method := method s;
     mid := mid s; want_mid := want_mid s; lh := lh s; want_lh := want_lh s; trackpoint := trackpoint s; susp := susp s; kc := kc s; ok := ok s; out := out s |}.
Definition with_ar (s : dev) (a : areas) : dev :=
  {| tbs := tbs s; ar := a; phys := phys s; old := old s; qp := qp s; qr := qr s; active := active s; active_top := active_top s; pending := pending s; method := method s;
     mid := mid s; want_mid := want_mid s; lh := lh s; want_lh := want_lh s; trackpoint := trackpoint s; susp := susp s; kc := kc s; ok := ok s; out := out s |}.
Definition with_phys (s : dev) (b : bits) (p r : bool) : dev :=
  {| tbs := tbs s; ar := ar s; phys := b; old := old s; qp := p; qr := r; active := active s; active_top := active_top s; pending := pending s; method := method s;
     mid := mid s; want_mid := want_mid s; lh := lh s; want_lh := want_lh s; trackpoint := trackpoint s; susp := susp s; kc := kc s; ok := ok s; out := out s |}.
Definition with_active (s : dev) (a : option button) (top pend : bool) : dev :=
  {| tbs := tbs s; ar := ar s; phys := phys s; old := old s; qp := qp s; qr := qr s; active := a; active_top := top; pending := pend; method := method s;
     mid := mid s; want_mid := want_mid s; lh := lh s; want_lh := want_lh s; trackpoint := trackpoint s; susp := susp s; kc := kc s; ok := ok s; out := out s |}.
Definition with_method (s : dev) (m : click_method) : dev :=
  {| tbs := tbs s; ar := ar s; phys := phys s; old := old s; qp := qp s; qr := qr s; active := active s; active_top := active_top s; pending := pending s; method := m;
     mid := mid s; want_mid := want_mid s; lh := lh s; want_lh := want_lh s; trackpoint := trackpoint s; susp := susp s; kc := kc s; ok := ok s; out := out s |}.
Definition with_mid (s : dev) (m w : bool) : dev :=
  {| tbs := tbs s; ar := ar s; phys := phys s; old := old s; qp := qp s; qr := qr s; active := active s; active_top := active_top s; pending := pending s; method := method s;
     mid := m; want_mid := w; lh := lh s; want_lh := want_lh s; trackpoint := trackpoint s; susp := susp s; kc := kc s; ok := ok s; out := out s |}.
Definition with_lh (s : dev) (l w : bool) : dev :=
  {| tbs := tbs s; ar := ar s; phys := phys s; old := old s; qp := qp s; qr := qr s; active := active s; active_top := active_top s; pending := pending s; method := method s;
     mid := mid s; want_mid := want_mid s; lh := l; want_lh := w; trackpoint := trackpoint s; susp := susp s; kc := kc s; ok := ok s; out := out s |}.
Definition with_tp (s : dev) (t : bool) : dev :=
  {| tbs := tbs s; ar := ar s; phys := phys s; old := old s; qp := qp s; qr := qr s; active := active s; active_top := active_top s; pending := pending s; method := method s;
     mid := mid s; want_mid := want_mid s; lh := lh s; want_lh := want_lh s; trackpoint := t; susp := susp s; kc := kc s; ok := ok s; out := out s |}.
Definition with_susp (s : dev) (b : bool) : dev :=
  {| tbs := tbs s; ar := ar s; phys := phys s; old := old s; qp := qp s; qr := qr s; active := active s; active_top := active_top s; pending := pending s; method := method s;
     mid := mid s; want_mid := want_mid s; lh := lh s; want_lh := want_lh s; trackpoint := trackpoint s; susp := b; kc := kc s; ok := ok s; out := out s |}.
Definition with_old (s : dev) (b : bits) : dev :=
  {| tbs := tbs s; ar := ar s; phys := phys s; old := b; qp := false; qr := false; active := active s; active_top := active_top s; pending := pending s; method := method s;
     mid := mid s; want_mid := want_mid s; lh := lh s; want_lh := want_lh s; trackpoint := trackpoint s; susp := susp s; kc := kc s; ok := ok s; out := out s |}.
Definition with_out (s : dev) (c : counts) (k : bool) (o : list outev) : dev :=
  {| tbs := tbs s; ar := ar s; phys := phys s; old := old s; qp := qp s; qr := qr s; active := active s; active_top := active_top s; pending := pending s; method := method s;
     mid := mid s; want_mid := want_mid s; lh := lh s; want_lh := want_lh s; trackpoint := trackpoint s; susp := susp s; kc := c; ok := k; out := out s ++ o |}.

(** tp_change_to_left_handed, /repo/src/evdev-mt-touchpad.c:3773-3789 (rotation is not part of this model) *)
Definition change_left_handed (s : dev) : dev :=
  if Bool.eqb (want_lh s) (lh s) then s else if pl (phys s) || pr (phys s) then s else with_lh s (want_lh s) (want_lh s).
(** evdev_pointer_notify_button, evdev_pointer_post_button, evdev_update_key_down_count, /repo/src/evdev.c:286-299,
    /repo/src/evdev.c:165-188, /repo/src/evdev.c:112-134; touchpads have no button scrolling.  [ok] becomes false when the assert fails;
    the counter is left alone then. *)
Definition notify_button (s : dev) (b : button) (p : bool) : dev :=
  let n := get_count (kc s) b in
  if p then with_out s (set_count (kc s) b (n + 1)) (ok s) (if n + 1 =? 1 then [ToClient b true] else [])
  else if n <=? 0 then with_out s (kc s) false []
  else let s := with_out s (set_count (kc s) b (n - 1)) (ok s) (if n - 1 =? 0 then [ToClient b false] else []) in
       if n - 1 =? 0 then change_left_handed s else s.
(** evdev_to_left_handed, /repo/src/evdev.h:653-665 *)
Definition to_left_handed (s : dev) (b : button) : button :=
  if lh s then match b with LEFT => RIGHT | RIGHT => LEFT | MIDDLE => MIDDLE end else b.

(** tp_process_button, /repo/src/evdev-mt-touchpad-buttons.c:607-629 *)
Definition process_button (p : pad) (s : dev) (b : button) (v : bool) : dev :=
  match kind p, b with
  | Clickpad, (RIGHT | MIDDLE) => s
  | _, _ => with_phys s (set_bit (phys s) b v) (qp s || v) (qr s || negb v)
  end.
(** tp_release_all_buttons, /repo/src/evdev-mt-touchpad-buttons.c:631-639 *)
Definition release_all_buttons (s : dev) : dev := if any_bit (phys s) then with_phys s no_bits (qp s) true else s.

(** tp_post_physical_buttons, /repo/src/evdev-mt-touchpad-buttons.c:1032-1065: BTN_LEFT, BTN_RIGHT, BTN_MIDDLE in this order *)
Definition post_one (cur_ old_ : bits) (s : dev) (b : button) : dev :=
  if xorb (get_bit cur_ b) (get_bit old_ b) then notify_button s (to_left_handed s b) (get_bit cur_ b) else s.
Definition post_physical (s : dev) : dev := fold_left (post_one (phys s) (old s)) [LEFT; RIGHT; MIDDLE] s.

(** tp_clickfinger_within_distance, /repo/src/evdev-mt-touchpad-buttons.c:1067-1120, without its check for thumbs: they are not counted *)
Definition within_distance (p : pad) (a b : ft) : bool :=
  let x := Z.abs (f_x a - f_x b) in let y := Z.abs (f_y a - f_y b) in
  if (40 * resx p <? x) || (30 * resy p <? y) then false
  else if y <=? 20 * resy p then true
  else if Z.quot (maxy p - miny p) (resy p) <? 50 then true
  else let th := maxy p - 20 * resy p in Bool.eqb (th <? f_y a) (th <? f_y b).
(** tp_clickfinger_set_button, /repo/src/evdev-mt-touchpad-buttons.c:1122-1171 *)
Definition counts_as_finger (f : ft) : bool :=
  match f_state f with Tp_Model.BEGIN | Tp_Model.UPDATE => true | _ => false end && negb (f_thumb f) && negb (f_palm f).
Definition clickfinger_button (p : pad) (l : list ft) : option button :=
  match filter counts_as_finger l with
  | [] | [_] => Some LEFT
  | [a; b] => Some (if within_distance p a b then RIGHT else LEFT)
  | [_; _; _] => Some MIDDLE
  | _ => None
  end.
(** tp_notify_clickpadbutton, /repo/src/evdev-mt-touchpad-buttons.c:1173-1224; the result: whether a button event was sent *)
Definition notify_clickpad (p : pad) (s : dev) (l : list ft) (b : button) (top v : bool) : dev * bool :=
  if trackpoint s && top then (with_out s (kc s) (ok s) [ToTrackpoint b v], true)
  else if trackpoint s && susp s then (s, false)
  else match method s, v with
       | M_FINGER, true =>
           let b := clickfinger_button p l in
           let s := with_active s b (active_top s) (pending s) in
           match b with Some b => (notify_button s b true, true) | None => (s, false) end
       | _, _ => (notify_button s b v, true)
       end.
(** tp_post_clickpadbutton_buttons, /repo/src/evdev-mt-touchpad-buttons.c:1226-1320 *)
Definition has_area (s : dev) (r : list region) : bool := existsb (fun b => existsb (fun x => is_cur (cur b) x) r) (tbs s).
Definition area_button (s : dev) : option (button * bool * bool) (* button, is_top, want_left_handed; None: no touch in any area *) :=
  let left := has_area s [BOTTOM_L; TOP_L] in let middle := has_area s [BOTTOM_M; TOP_M] in let right := has_area s [BOTTOM_R; TOP_R] in
  let top := has_area s [TOP_L; TOP_M; TOP_R] in
  if negb (has_area s [MAIN; BOTTOM_L; BOTTOM_M; BOTTOM_R; TOP_L; TOP_M; TOP_R]) && match method s with M_FINGER => false | _ => true end then None
  else Some (if (mid s || top) && left && right then (MIDDLE, top, negb top)
             else if middle then (MIDDLE, top, negb top) else if right then (RIGHT, top, negb top) else if left then (LEFT, top, negb top)
             else (LEFT, top, false)).
Definition post_clickpad (p : pad) (s : dev) (l : list ft) : dev * bool :=
  if negb (pending s) && bits_eqb (phys s) (old s) then (s, false)
  else if any_bit (phys s) then
    match area_button s with
    | None => (with_active s (active s) (active_top s) true, false)
    | Some (b, top, want) =>
        let b := if want then to_left_handed s b else b in
        notify_clickpad p (with_active s (Some b) top false) l b top true
    end
  else
    let b := active s in let top := active_top s in
    let s := with_active s None false false in
    match b with Some b => notify_clickpad p s l b top false | None => (s, false) end.
(** tp_post_button_events, /repo/src/evdev-mt-touchpad-buttons.c:1322-1329 *)
Definition post_button_events (p : pad) (s : dev) (l : list ft) : dev * bool :=
  match kind p with Clickpad | OneButton => post_clickpad p s l | Physical => (post_physical s, false) end.

(** tp_clickpad_middlebutton_apply_config, /repo/src/evdev-mt-touchpad-buttons.c:830-847 *)
Definition apply_middle (p : pad) (s : dev) : dev :=
  match kind p with
  | Clickpad =>
      if any_bit (phys s) || Bool.eqb (want_mid s) (mid s) then s
      else let s := with_mid s (want_mid s) (want_mid s) in
           match method s with M_AREAS => with_ar s (init_softbuttons p (ar s) (want_mid s)) | _ => s end
  | _ => s
  end.
(** tp_handle_state as far as buttons go: tp_process_state, tp_post_events and tp_post_process_state,
    /repo/src/evdev-mt-touchpad.c:1709-1820, /repo/src/evdev-mt-touchpad.c:1855-1881, /repo/src/evdev-mt-touchpad.c:1822-1853, /repo/src/evdev-mt-touchpad.c:1901-1912 *)
Definition frame (p : pad) (s : dev) (l : list ft) (t : Z) : dev * bool :=
  let s := with_tbs s (touches_frame p (ar s) (qr s) (qp s) t (tbs s) 0 l) in
  let '(s, posted) := post_button_events p s l in
  (apply_middle p (with_old s (phys s)), posted).
(** tp_switch_click_method, /repo/src/evdev-mt-touchpad-buttons.c:752-775 *)
Definition switch_click_method (p : pad) (s : dev) : dev :=
  match method s with
  | M_AREAS => with_ar s (init_softbuttons p (ar s) (want_mid s))
  | M_FINGER | M_NONE => let a := ar s in with_ar s {| b_top := INT_MAX; b_right := b_right a; b_mid := b_mid a; t_bot := t_bot a; t_right := t_right a; t_left := t_left a |}
  end.

(** What happens.  [l]: the touches of the frame tp_clear_state runs. *)
Inductive binput :=
| Button (b : button) (v : bool)     (* EV_KEY *)
| BFrame (l : list ft) (t : Z)       (* SYN_REPORT *)
| BTimer (i : nat) (t : Z)           (* time has come to [t]; the timer of touch [i] *)
| Clear (l : list ft) (t : Z)        (* tp_clear_state, /repo/src/evdev-mt-touchpad.c:2027-2057 *)
| Suspend (l : list ft) (t : Z)      (* tp_suspend for the first reason, /repo/src/evdev-mt-touchpad.c:2059-2086: lid, tablet mode, external mouse, configuration *)
| Resume (l : list ft) (t : Z)       (* tp_resume for the last reason, /repo/src/evdev-mt-touchpad.c:2153-2173 *)
| Remove (l : list ft) (t : Z)       (* evdev_device_remove, which calls evdev_device_suspend, /repo/src/evdev.c:2764-2789; also libinput_suspend *)
| TrackpointAdded                    (* tp_pair_trackpoint, /repo/src/evdev-mt-touchpad.c:2392-2417 *)
| TrackpointRemoved                  (* tp_interface_device_removed, /repo/src/evdev-mt-touchpad.c:2610-2677; also when the trackpoint is suspended *)
| SetMethod (m : click_method)       (* tp_button_config_click_set_method, /repo/src/evdev-mt-touchpad-buttons.c:777-788 *)
| SetMiddle (b : bool)               (* tp_clickpad_middlebutton_set, /repo/src/evdev-mt-touchpad-buttons.c:855-875 *)
| SetLeft (b : bool)                 (* evdev_left_handed_set, /repo/src/evdev.c:607-617 *)
| TapEvent (b : button) (v : bool).  (* tp_tap_notify: taps are buttons of the same device *)
Definition clear (p : pad) (s : dev) (l : list ft) (t : Z) : dev := fst (frame p (release_all_buttons s) l t).
(** evdev_device_suspend, /repo/src/evdev.c:2764-2789: is_suspended is set first, then tp_interface_suspend calls tp_clear_state *)
Definition device_suspend (p : pad) (s : dev) (l : list ft) (t : Z) : dev := clear p (with_susp s true) l t.
(** A suspended touchpad without top buttons is closed: nothing is read from it *)
Definition closed (p : pad) (s : dev) : bool := susp s && negb (has_top p).
Definition bstep (p : pad) (s : dev) (i : binput) : dev :=
  match i with
  | Button b v => if closed p s then s else process_button p s b v
  | BFrame l t => if closed p s then s else fst (frame p s l t)
  | BTimer i t =>
      match nth_error (tbs s) i with
      | Some b => match tmr b with
                  | Some e => if e <=? t then with_tbs s (handle_event (upd i {| bs := bs b; cur := cur b; tmr := None; ix := ix b; iy := iy b; it := it b; has_moved := has_moved b |} (tbs s)) i B_TIMEOUT t) else s
                  | None => s
                  end
      | None => s
      end
  | Clear l t => clear p s l t
  | Suspend l t =>
      if has_top p then let s := with_susp (clear p s l t) true in with_ar s (init_top_softbuttons p (ar s) 3)
      else device_suspend p (clear p s l t) [] t
  | Resume l t =>
      if has_top p then let s := clear p s l t in with_susp (with_ar s (init_top_softbuttons p (ar s) 1)) false
      else with_susp s false
  | Remove l t => device_suspend p s l t
  | TrackpointAdded => if trackpoint s then s else with_tp (with_active s (active s) false (pending s)) true
  | TrackpointRemoved =>
      if trackpoint s then
        let s := if match active s with Some _ => active_top s | None => false end then with_active s None false (pending s) else s in
        with_out (with_tp s false) (kc s) (ok s) [Gone]
      else s
  | SetMethod m => switch_click_method p (with_method s m)
  | SetMiddle b => match kind p with Clickpad => apply_middle p (with_mid s (mid s) b) | _ => s end
  | SetLeft b => match kind p with OneButton => s | _ => change_left_handed (with_lh s (lh s) b) end
  | TapEvent b v => notify_button s b v
  end.
Definition brun (p : pad) (s : dev) (l : list binput) : dev := fold_left (bstep p) l s.
(** tp_init_buttons, /repo/src/evdev-mt-touchpad-buttons.c:970-1019, with the default method [m] of tp_click_get_default_method *)
Definition binit (p : pad) (n : nat) (m : click_method) : dev :=
  let a0 := {| b_top := 0; b_right := 0; b_mid := 0; t_bot := 0; t_right := 0; t_left := 0 |} in
  let s := switch_click_method p
    {| tbs := repeat tb0 n; ar := a0; phys := no_bits; old := no_bits; qp := false; qr := false; active := None; active_top := false; pending := false; method := m;
       mid := false; want_mid := false; lh := false; want_lh := false; trackpoint := false; susp := false; kc := {| cl := 0; cr := 0; cm := 0 |}; ok := true; out := [] |} in
  with_ar s (init_top_softbuttons p (ar s) 1).
(** tp_button_touch_active, /repo/src/evdev-mt-touchpad-buttons.c:1331-1336: whether the finger moves the pointer *)
Definition touch_active (b : tb) : bool := match bs b with B_AREA => true | _ => has_moved b end.
