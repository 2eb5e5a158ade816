(** Lid and tablet-mode switches of the fallback dispatcher.
    Simplified: one switch device with capability SWITCH; keyboards are numbers;
    a keyboard's event goes to its listeners first and is posted afterwards,
    post_device_event, /repo/src/libinput.c:2221-2246. *)
Require Import Coq.ZArith.ZArith Coq.Lists.List Coq.Bool.Bool.
Import ListNotations.
Open Scope Z_scope.

Inductive reliability := UNKNOWN | RELIABLE | WRITE_OPEN.
Inductive switch := LID | TABLET_MODE.
Inductive out := Toggle (s : switch) (on : bool) | Key (k : Z) | Other (k : Z) | WriteOpen.
(** dispatch->lid and dispatch->tablet_mode.sw, /repo/src/evdev-fallback.h:104-116, /repo/src/evdev-fallback.h:134-146; a
    keyboard is paired with its number and whether its listener is added *)
Record st := { tag_lid : bool; rel : reliability; closed : bool; client : bool; tm : Z; kbds : list (Z * bool) }.
Definition set_closed (s : st) (b : bool) : st :=
  {| tag_lid := tag_lid s; rel := rel s; closed := b; client := client s; tm := tm s; kbds := kbds s |}.
Definition set_client (s : st) (b : bool) : st :=
  {| tag_lid := tag_lid s; rel := rel s; closed := closed s; client := b; tm := tm s; kbds := kbds s |}.
Definition set_tm (s : st) (v : Z) : st :=
  {| tag_lid := tag_lid s; rel := rel s; closed := closed s; client := client s; tm := v; kbds := kbds s |}.
Definition set_kbds (s : st) (l : list (Z * bool)) : st :=
  {| tag_lid := tag_lid s; rel := rel s; closed := closed s; client := client s; tm := tm s; kbds := l |}.
(** fallback_dispatch_init_switch, /repo/src/evdev-fallback.c:1661-1682; [tmv] is 0
    without a tablet-mode switch *)
Definition init (lid : bool) (r : reliability) (tmv : Z) : st :=
  {| tag_lid := lid; rel := r; closed := false; client := false; tm := tmv; kbds := [] |}.

(** fallback_lid_notify_toggle, /repo/src/evdev-fallback.c:50-62 *)
Definition lid_notify_toggle (s : st) : st * list out :=
  if xorb (closed s) (client s) then (set_client s (closed s), [Toggle LID (closed s)]) else (s, []).
(** fallback_lid_keyboard_event, /repo/src/evdev-fallback.c:699-737, for a key event; the
    result of write() is ignored *)
Definition lid_keyboard_event (s : st) (is_key : bool) : st * list out :=
  if negb (closed s) then (s, [])
  else if negb is_key then (s, [])
  else
    let w := match rel s with WRITE_OPEN => [WriteOpen] | _ => [] end in
    let '(s', o) := lid_notify_toggle (set_closed s false) in (s', w ++ o).
(** fallback_lid_toggle_keyboard_listeners, /repo/src/evdev-fallback.c:759-773 *)
Definition toggle_listeners (s : st) (b : bool) : st := set_kbds s (map (fun kb => (fst kb, b)) (kbds s)).
(** fallback_process_switch, /repo/src/evdev-fallback.c:775-813 *)
Definition process_lid (s : st) (v : Z) : st * list out :=
  let is_closed := negb (v =? 0) in
  let s1 := toggle_listeners s is_closed in
  if Bool.eqb (closed s1) is_closed then (s1, []) else lid_notify_toggle (set_closed s1 is_closed).
Definition process_tablet_mode (s : st) (v : Z) : st * list out :=
  if tm s =? v then (s, []) else (set_tm s v, [Toggle TABLET_MODE (negb (v =? 0))]).
(** fallback_interface_sync_initial_state, /repo/src/evdev-fallback.c:1195-1229;
    [hw]: libevdev's value of SW_LID *)
Definition sync_initial_state (s : st) (hw : Z) : st * list out :=
  let '(s1, o1) :=
    if tag_lid s then
      let s' := set_client (set_closed s (negb (hw =? 0))) false in
      if closed s' && (match rel s' with RELIABLE => true | _ => false end) then lid_notify_toggle s' else (s', [])
    else (s, []) in
  (s1, o1 ++ if negb (tm s1 =? 0) then [Toggle TABLET_MODE true] else []).
(** fallback_lid_pair_keyboard, /repo/src/evdev-fallback.c:1303-1343, for an internal keyboard.
    The count of keyboards only breaks off the count. *)
Definition pair_keyboard (s : st) (k : Z) : st :=
  if negb (tag_lid s) then s else set_kbds s ((k, closed s) :: kbds s).
(** fallback_interface_device_removed, /repo/src/evdev-fallback.c:1448-1475, the first loop *)
Definition unpair_keyboard (s : st) (k : Z) : st := set_kbds s (filter (fun kb => negb (fst kb =? k)) (kbds s)).

(** A keyboard posts an event: each of its listeners runs, then the event is
    posted. *)
Fixpoint listeners (n : nat) (s : st) (is_key : bool) : st * list out :=
  match n with
  | O => (s, [])
  | S m => let '(s1, o1) := lid_keyboard_event s is_key in let '(s2, o2) := listeners m s1 is_key in (s2, o1 ++ o2)
  end.
Definition keyboard_post (s : st) (k : Z) (is_key : bool) : st * list out :=
  let n := length (filter (fun kb => (fst kb =? k) && snd kb) (kbds s)) in
  let '(s', o) := listeners n s is_key in (s', o ++ [if is_key then Key k else Other k]).

Inductive ev := ELid (v : Z) | ETm (v : Z) | EKey (k : Z) | EOther (k : Z) | EPair (k : Z) | EUnpair (k : Z).
Definition step (s : st) (e : ev) : st * list out :=
  match e with
  | ELid v => process_lid s v
  | ETm v => process_tablet_mode s v
  | EKey k => keyboard_post s k true
  | EOther k => keyboard_post s k false
  | EPair k => (pair_keyboard s k, [])
  | EUnpair k => (unpair_keyboard s k, [])
  end.
Fixpoint run (s : st) (l : list ev) : st * list out :=
  match l with
  | [] => (s, [])
  | e :: r => let '(s1, o1) := step s e in let '(s2, o2) := run s1 r in (s2, o1 ++ o2)
  end.
(** A switch device's life: keyboards present before it are paired, evdev_notify_added_device,
    /repo/src/evdev.c:1962-1991; then its state is synchronised; then anything. *)
Definition life (lid : bool) (r : reliability) (tmv hw : Z) (before : list Z) (l : list ev) : st * list out :=
  let s0 := fold_left pair_keyboard before (init lid r tmv) in
  let '(s1, o1) := sync_initial_state s0 hw in
  let '(s2, o2) := run s1 l in (s2, o1 ++ o2).

(** ** A keyboard that follows the tablet-mode switch.
    [t_hw]: the switch itself; [t_on]: its state as its dispatcher knows it; [t_run]: the switch
    device is not suspended; [paired]: the keyboard listens to it; [k_mode]: the keyboard's
    send-events mode is ENABLED; [k_open]: its file descriptor is open.
    Opening the device succeeds. *)
Record tk := { t_hw : bool; t_on : bool; t_run : bool; paired : bool; k_mode : bool; k_open : bool }.
Inductive tev := TToggle (on : bool) | KMode (enabled : bool) | TMode (enabled : bool).
Definition k_set (w : tk) (o : bool) : tk := {| t_hw := t_hw w; t_on := t_on w; t_run := t_run w; paired := paired w; k_mode := k_mode w; k_open := o |}.
(** fallback_pair_tablet_mode, /repo/src/evdev-fallback.c:1392-1438 *)
Definition pair_tablet_mode (w : tk) : tk :=
  if paired w then w
  else let w1 := {| t_hw := t_hw w; t_on := t_on w; t_run := t_run w; paired := true; k_mode := k_mode w; k_open := k_open w |} in
       if t_on w1 then k_set w1 false else w1.
(** fallback_tablet_mode_switch_event, /repo/src/evdev-fallback.c:1363-1390 *)
Definition tablet_mode_switch_event (w : tk) (on : bool) : tk :=
  if on then k_set w false else if k_mode w then k_set w true else w.
Definition tstep (w : tk) (e : tev) : tk :=
  match e with
  | TToggle on => (* fallback_process_switch; nothing arrives from a suspended device *)
      let w := {| t_hw := on; t_on := t_on w; t_run := t_run w; paired := paired w; k_mode := k_mode w; k_open := k_open w |} in
      if negb (t_run w) then w
      else if Bool.eqb (t_on w) on then w
      else let w1 := {| t_hw := on; t_on := on; t_run := t_run w; paired := paired w; k_mode := k_mode w; k_open := k_open w |} in
           if paired w1 then tablet_mode_switch_event w1 on else w1
  | KMode en => (* evdev_sendevents_set_mode of the keyboard, /repo/src/evdev.c:558-582 *)
      if Bool.eqb (k_mode w) en then w
      else {| t_hw := t_hw w; t_on := t_on w; t_run := t_run w; paired := paired w; k_mode := en; k_open := en |}
  | TMode en => (* the same for the switch device, with device_suspended and device_resumed of the keyboard *)
      if Bool.eqb (t_run w) en then w
      else let w1 := {| t_hw := t_hw w; t_on := t_on w; t_run := en; paired := if en then paired w else false; k_mode := k_mode w; k_open := k_open w |} in
           if en then pair_tablet_mode w1 else w1
  end.
(** The keyboard is added while the switch is there, or the other way round. *)
Definition tinit (on : bool) : tk := pair_tablet_mode {| t_hw := on; t_on := on; t_run := true; paired := false; k_mode := true; k_open := true |}.
Definition trun (w : tk) (l : list tev) : tk := fold_left tstep l w.
