(** * The life of devices: path-seat.c, udev-seat.c, evdev_device_create to _remove in evdev.c, libinput_dispatch
    What a device's own code sends is left open: wherever that code is called, an input says which devices send an event ([chat]).
    Simplifications: malloc does not fail; the devices of all seats are one list, in the order they came (removing all goes through it in that order, the code goes seat by seat); the timers of a device that was removed are silent: evdev_device_remove and the remove functions of the dispatch cancel them (a tablet's is not cancelled; it finds the tool out of proximity and sends nothing for the tablet, but see the findings in DESIGN.md). *)
Require Import Coq.ZArith.ZArith Coq.Lists.List Coq.Bool.Bool Coq.Arith.PeanoNat.
Import ListNotations.
Open Scope Z_scope.

(** device->mtdev; MFREED: freed and not cleared *)
Inductive mtd := MNONE | MOPEN | MFREED.
(** struct evdev_device, the parts that matter here; devices, files, sources and udev devices are numbered as they come.  [sys]: syspath; [phys], [seat]: ID_SEAT and the logical seat; [ud]: device->udev_device; [need]: evdev_need_mtdev; [off]: is_suspended; [removed]: was_removed *)
Record dev := Dev { id : nat; sys : Z; phys : Z; seat : Z; wl : Z; ud : nat; need : bool; fd : option nat; src : option nat; mt : mtd; off : bool; removed : bool }.
(** struct path_device: a udev device, with its syspath, ID_SEAT, WL_SEAT, and whether it needs mtdev *)
Record pathdev := { p_ud : nat; p_sys : Z; p_phys : Z; p_wl : Z; p_need : bool }.
(** struct udev_input, struct path_input, struct libinput; [gone]: devices that were removed and that a caller may still hold; [mon], [msrc]: udev_monitor and udev_monitor_source are set *)
Record ctx := { upath : bool (* the path backend *); seat_id : option Z; mon : bool; msrc : bool; paths : list pathdev; devs : list dev; gone : list dev; nid : nat; nfd : nat; nsrc : nat; nud : nat }.
Definition init (p : bool) : ctx := {| upath := p; seat_id := None; mon := false; msrc := false; paths := []; devs := []; gone := []; nid := 0; nfd := 0; nsrc := 0; nud := 0 |}.
Definition set_devs (w : ctx) (l g : list dev) : ctx := {| upath := upath w; seat_id := seat_id w; mon := mon w; msrc := msrc w; paths := paths w; devs := l; gone := g; nid := nid w; nfd := nfd w; nsrc := nsrc w; nud := nud w |}.
Definition set_mon (w : ctx) (m s : bool) : ctx := {| upath := upath w; seat_id := seat_id w; mon := m; msrc := s; paths := paths w; devs := devs w; gone := gone w; nid := nid w; nfd := nfd w; nsrc := nsrc w; nud := nud w |}.
Definition set_paths (w : ctx) (l : list pathdev) : ctx := {| upath := upath w; seat_id := seat_id w; mon := mon w; msrc := msrc w; paths := l; devs := devs w; gone := gone w; nid := nid w; nfd := nfd w; nsrc := nsrc w; nud := nud w |}.
Definition set_seat (w : ctx) (s : Z) : ctx := {| upath := upath w; seat_id := Some s; mon := mon w; msrc := msrc w; paths := paths w; devs := devs w; gone := gone w; nid := nid w; nfd := nfd w; nsrc := nsrc w; nud := nud w |}.
Definition more (w : ctx) (i f s u : nat) : ctx := {| upath := upath w; seat_id := seat_id w; mon := mon w; msrc := msrc w; paths := paths w; devs := devs w; gone := gone w; nid := nid w + i; nfd := nfd w + f; nsrc := nsrc w + s; nud := nud w + u |}.

(** What a caller sees: the events, the calls of open_restricted and close_restricted, what the call returned (0 or not); a device comes with its syspath and logical seat; [Crash]: a NULL pointer is followed or something is freed twice *)
Inductive out := Added (d : nat) (s se : Z) | Removed (d : nat) | Ev (d : nat) | Open (f : nat) | Close (f : nat) | Ret (ok : bool) | Crash.
(** Who sends an event while the code of devices runs: [c_other] where other devices hear that one comes, goes, or is resumed, [c_off] where they hear that one is suspended, [c_own] where the device itself is suspended, added or read *)
Record chat := { c_other : list nat; c_off : list nat; c_own : list nat }.
Definition among (l : list dev) (c : list nat) : list out := map Ev (filter (fun i => existsb (fun d => Nat.eqb (id d) i) l) c).
Definition same_seat (d e : dev) : bool := Z.eqb (phys d) (phys e) && Z.eqb (seat d) (seat e).
Definition others (w : ctx) (d : dev) : list dev := filter (fun e => same_seat d e && negb (Nat.eqb (id e) (id d))) (devs w).

(** ** A device comes *)
(** How far evdev_device_create gets, /repo/src/evdev.c:2205-2314; after OPEN_FAILS the file is open and has to be closed *)
Inductive made := NO_NODE | IGNORED | OPEN_FAILS | OTHER_DEVICE | NO_EVDEV | UNHANDLED | NO_EPOLL | WORKS.
(** evdev_device_create, /repo/src/evdev.c:2205-2314, evdev_notify_added_device, /repo/src/evdev.c:1962-1991.  A new device's own device_added sends nothing: it has had no input *)
Definition create (w : ctx) (s p se wls : Z) (u : nat) (n : bool) (how : made) (c : chat) : ctx * list out * bool :=
  match how with
  | NO_NODE | IGNORED | OPEN_FAILS => (w, [], false)
  | OTHER_DEVICE | NO_EVDEV | UNHANDLED | NO_EPOLL => (more w 0 1 0 0, [Open (nfd w); Close (nfd w)], false)
  | WORKS =>
      let d := {| id := nid w; sys := s; phys := p; seat := se; wl := wls; ud := u; need := n; fd := Some (nfd w); src := Some (nsrc w); mt := if n then MOPEN else MNONE; off := false; removed := false |} in
      let w2 := set_devs (more w 1 1 1 0) (devs w ++ [d]) (gone w) in
      (w2, [Open (nfd w)] ++ among (others w2 d) (c_other c) ++ [Added (id d) s se] ++ among (d :: others w2 d) (c_own c), true)
  end.

(** ** A device is suspended and resumed *)
Definition upd (d : dev) (l : list dev) : list dev := map (fun e => if Nat.eqb (id e) (id d) then d else e) l.
(** evdev_device_suspend, /repo/src/evdev.c:2764-2789, evdev_notify_suspended_device, /repo/src/evdev.c:2724-2742 *)
Definition suspend_dev (w : ctx) (d : dev) (c : chat) : dev * list out :=
  ({| id := id d; sys := sys d; phys := phys d; seat := seat d; wl := wl d; ud := ud d; need := need d; fd := None; src := None; mt := MNONE; off := true; removed := removed d |},
   (if off d then [] else among (others w d) (c_off c)) ++ among (d :: others w d) (c_own c) ++ (match mt d with MFREED => [Crash] | _ => [] end) ++ (match fd d with Some f => [Close f] | None => [] end)).
(** How far evdev_device_resume gets *)
Inductive back := B_NO_NODE | B_OPEN | B_OTHER | B_MTDEV | B_EPOLL | B_OK.
(** evdev_device_resume, /repo/src/evdev.c:2791-2855, evdev_notify_resumed_device, /repo/src/evdev.c:2744-2762.  mtdev_close_delete(NULL) does nothing *)
Definition resume_dev (w : ctx) (d : dev) (b : back) (c : chat) : ctx * dev * list out :=
  let new f s m o := {| id := id d; sys := sys d; phys := phys d; seat := seat d; wl := wl d; ud := ud d; need := need d; fd := f; src := s; mt := m; off := o; removed := removed d |} in
  match fd d with
  | Some _ => (w, d, [])
  | None =>
      if removed d then (w, d, [])
      else match b with
      | B_NO_NODE | B_OPEN => (w, d, [])
      | B_OTHER => (more w 0 1 0 0, d, [Open (nfd w); Close (nfd w)])
      | B_MTDEV => if need d then (more w 0 1 0 0, new (Some (nfd w)) None MNONE (off d), [Open (nfd w)])
                   else (more w 0 1 1 0, new (Some (nfd w)) (Some (nsrc w)) MNONE false, [Open (nfd w)] ++ if off d then among (others w d) (c_other c) else [])
      | B_EPOLL => (more w 0 1 0 0, new (Some (nfd w)) None (if need d then MFREED else MNONE) (off d), [Open (nfd w)])
      | B_OK => (more w 0 1 1 0, new (Some (nfd w)) (Some (nsrc w)) (if need d then MOPEN else MNONE) false, [Open (nfd w)] ++ if off d then among (others w d) (c_other c) else [])
      end
  end.

(** ** A device goes *)
Definition mark (d : dev) : dev := {| id := id d; sys := sys d; phys := phys d; seat := seat d; wl := wl d; ud := ud d; need := need d; fd := fd d; src := src d; mt := mt d; off := off d; removed := true |}.
(** evdev_device_remove, /repo/src/evdev.c:2857-2889 *)
Definition remove (w : ctx) (i : nat) (c : nat -> chat) : ctx * list out :=
  match find (fun d => Nat.eqb (id d) i) (devs w) with
  | None => (w, [])
  | Some d =>
      let '(d2, o) := suspend_dev w d (c i) in
      (set_devs w (filter (fun e => negb (Nat.eqb (id e) i)) (devs w)) (mark d2 :: gone w), among (others w d) (c_other (c i)) ++ o ++ [Removed i])
  end.
Fixpoint remove_all (w : ctx) (l : list nat) (c : nat -> chat) : ctx * list out :=
  match l with [] => (w, []) | i :: r => let '(w1, o1) := remove w i c in let '(w2, o2) := remove_all w1 r c in (w2, o1 ++ o2) end.

(** ** The udev backend *)
(** What udev says of a device *)
Record cand := { k_sys : Z; k_phys : Z; k_wl : Z; k_ready : bool; k_need : bool; k_how : made; k_chat : chat }.
(** filter_duplicates, /repo/src/udev-seat.c:46-74: only the devices of the logical seat *)
Definition duplicate (w : ctx) (s se : Z) : bool := existsb (fun d => Z.eqb (sys d) s && Z.eqb (seat d) se) (devs w).
(** device_added, /repo/src/udev-seat.c:76-147; [name]: the seat asked for *)
Definition device_added (w : ctx) (k : cand) (name : option Z) : ctx * list out :=
  match seat_id w with
  | None => (w, [])
  | Some s =>
      if negb (Z.eqb (k_phys k) s) then (w, [])
      else
        let se := match name with Some n => n | None => k_wl k end in
        if duplicate w (k_sys k) se then (w, [])
        else let '(w2, o, _) := create w (k_sys k) (k_phys k) se (k_wl k) 0 (k_need k) (k_how k) (k_chat k) in (w2, o)
  end.
(** The first device of each seat with a syspath *)
Fixpoint firsts (s : Z) (seen : list dev) (l : list dev) : list nat :=
  match l with
  | [] => []
  | d :: r => if Z.eqb (sys d) s then (if existsb (same_seat d) seen then firsts s seen r else id d :: firsts s (d :: seen) r) else firsts s seen r
  end.
(** device_removed, /repo/src/udev-seat.c:149-167 *)
Definition device_removed (w : ctx) (s : Z) (c : nat -> chat) : ctx * list out := remove_all w (firsts s [] (devs w)) c.
(** udev_input_add_devices, /repo/src/udev-seat.c:169-213: the devices that udev has set up *)
Fixpoint add_devices (w : ctx) (l : list cand) : ctx * list out :=
  match l with
  | [] => (w, [])
  | k :: r => let '(w1, o1) := if k_ready k then device_added w k None else (w, []) in let '(w2, o2) := add_devices w1 r in (w2, o1 ++ o2)
  end.
(** How far setting up the monitor gets *)
Inductive monitor := M_NEW | M_FILTER | M_RECEIVE | M_EPOLL | M_OK.
(** udev_input_enable, /repo/src/udev-seat.c:275-322 *)
Definition udev_enable (w : ctx) (m : monitor) (l : list cand) : ctx * list out :=
  match mon w, seat_id w with
  | false, Some _ =>
      match m with
      | M_NEW | M_RECEIVE | M_EPOLL => (w, [Ret false])
      | M_FILTER => (set_mon w true false, [Ret false])
      | M_OK => let '(w2, o) := add_devices (set_mon w true true) l in (w2, o ++ [Ret true])
      end
  | _, _ => (w, [Ret true])
  end.
(** udev_input_disable, /repo/src/udev-seat.c:259-273: libinput_remove_source follows the pointer *)
Definition udev_disable (w : ctx) (c : nat -> chat) : ctx * list out :=
  if mon w then
    if msrc w then remove_all (set_mon w false false) (map id (devs w)) c else (set_mon w false false, [Crash])
  else (w, []).

(** ** The path backend *)
(** path_device_enable, /repo/src/path-seat.c:173-214 *)
Definition path_enable1 (w : ctx) (p : pathdev) (name : option Z) (how : made) (c : chat) : ctx * list out * bool :=
  create w (p_sys p) (p_phys p) (match name with Some n => n | None => p_wl p end) (p_wl p) (p_ud p) (p_need p) how c.
(** path_input_disable, /repo/src/path-seat.c:67-81 *)
Definition path_disable (w : ctx) (c : nat -> chat) : ctx * list out := remove_all w (map id (devs w)) c.
(** path_input_enable, /repo/src/path-seat.c:216-230 *)
Fixpoint path_enable (w : ctx) (l : list pathdev) (how : nat -> made) (hc c : nat -> chat) : ctx * list out :=
  match l with
  | [] => (w, [Ret true])
  | p :: r =>
      let '(w1, o1, ok) := path_enable1 w p None (how (p_ud p)) (hc (p_ud p)) in
      if ok then let '(w2, o2) := path_enable w1 r how hc c in (w2, o1 ++ o2)
      else let '(w2, o2) := path_disable w1 c in (w2, o1 ++ o2 ++ [Ret false])
  end.
(** path_create_device, /repo/src/path-seat.c:252-273: a device that does not work is taken off the list again *)
Definition path_create (w : ctx) (p : pathdev) (name : option Z) (how : made) (c : chat) : ctx * list out :=
  let '(w2, o, ok) := path_enable1 (set_paths w (p :: paths w)) p name how c in
  if ok then (w2, o ++ [Ret true]) else (set_paths w2 (paths w), o ++ [Ret false]).
Fixpoint drop_path (u : nat) (l : list pathdev) : list pathdev := match l with [] => [] | p :: r => if Nat.eqb (p_ud p) u then r else p :: drop_path u r end.
(** libinput_path_remove_device, /repo/src/path-seat.c:403-428, path_disable_device, /repo/src/path-seat.c:50-65; the caller may hold a device that is gone *)
Definition handle (w : ctx) (i : nat) : option dev := find (fun d => Nat.eqb (id d) i) (devs w ++ gone w).
Definition path_remove (w : ctx) (i : nat) (c : nat -> chat) : ctx * list out :=
  match handle w i with None => (w, []) | Some d => remove (set_paths w (drop_path (ud d) (paths w))) i c end.

(** ** Calls *)
(** What is ready in libinput_dispatch: a source (the file then gives events and ends well or with an error), the monitor, or a device's timers *)
Inductive uevent := Plug (k : cand) | Unplug (s : Z).
Inductive work := Source (s : nat) (c : chat) (ok : bool) | Monitor (e : uevent) (c : nat -> chat) | Timer (i : nat) (c : chat).
Inductive call :=
| Assign (s : Z) (m : monitor) (l : list cand)
| Suspend (c : nat -> chat)
| Resume (m : monitor) (l : list cand) (how : nat -> made) (hc c : nat -> chat)
| PathAdd (k : cand)
| PathRemove (i : nat) (c : nat -> chat)
| SetSeat (i : nat) (name : Z) (how : made) (hc : chat) (c : nat -> chat)
| Disable (i : nat) (c : chat) (* LIBINPUT_CONFIG_SEND_EVENTS_DISABLED, or a switch *)
| Enable (i : nat) (b : back) (c : chat)
| Dispatch (l : list work).
(** evdev_device_dispatch, /repo/src/evdev.c:1048-1090: on an error the source is removed, and nothing else *)
Definition read (w : ctx) (s : nat) (c : chat) (ok : bool) : ctx * list out :=
  match find (fun d => match src d with Some t => Nat.eqb t s | None => false end) (devs w) with
  | None => (w, [])
  | Some d =>
      (if ok then w else set_devs w (upd {| id := id d; sys := sys d; phys := phys d; seat := seat d; wl := wl d; ud := ud d; need := need d; fd := fd d; src := None; mt := mt d; off := off d; removed := removed d |} (devs w)) (gone w),
       among (d :: others w d) (c_own c))
  end.
(** evdev_udev_handler, /repo/src/udev-seat.c:215-241 *)
Definition udev_handler (w : ctx) (e : uevent) (c : nat -> chat) : ctx * list out :=
  match e with Plug k => device_added w k None | Unplug s => device_removed w s c end.
Definition has_src (w : ctx) (s : nat) : bool := existsb (fun d => match src d with Some t => Nat.eqb t s | None => false end) (devs w).
(** What epoll_wait can report *)
Definition reported (w : ctx) (x : work) : bool := match x with Source s _ _ => has_src w s | Monitor _ _ => msrc w | Timer _ _ => true end.
(** libinput_dispatch, /repo/src/libinput.c:2101-2132: a source that was removed on the way has no file and is passed over.  Simplification: any number of sources, the code takes 32 at a time *)
Fixpoint serve (w : ctx) (l : list work) : ctx * list out :=
  match l with
  | [] => (w, [])
  | x :: r =>
      let '(w1, o1) :=
        match x with
        | Source s c ok => read w s c ok
        | Monitor e c => if msrc w then udev_handler w e c else (w, [])
        | Timer i c => match find (fun d => Nat.eqb (id d) i) (devs w) with Some d => (w, among (d :: others w d) (c_own c)) | None => (w, []) end
        end in
      let '(w2, o2) := serve w1 r in (w2, o1 ++ o2)
  end.
(** libinput_udev_assign_seat, /repo/src/udev-seat.c:427-462, libinput_suspend, libinput_resume, /repo/src/libinput.c:3017-3027, libinput_path_add_device, /repo/src/path-seat.c:358-401, libinput_path_remove_device, libinput_device_set_seat_logical_name, /repo/src/libinput.c:3089-3100, with udev_device_change_seat, /repo/src/udev-seat.c:372-388, and path_device_change_seat, /repo/src/path-seat.c:275-293; evdev_sendevents_set_mode, /repo/src/evdev.c:558-582, fallback_tablet_mode_switch_event, /repo/src/evdev-fallback.c:1342-1364.  Simplification: a device that is gone is not disabled *)
Definition step (w : ctx) (x : call) : ctx * list out :=
  match x with
  | Assign s m l => if upath w then (w, [Ret false]) else match seat_id w with Some _ => (w, [Ret false]) | None => udev_enable (set_seat w s) m l end
  | Suspend c => if upath w then path_disable w c else udev_disable w c
  | Resume m l how hc c => if upath w then path_enable w (paths w) how hc c else udev_enable w m l
  | PathAdd k =>
      if upath w then path_create (more w 0 0 0 1) {| p_ud := nud w; p_sys := k_sys k; p_phys := k_phys k; p_wl := k_wl k; p_need := k_need k |} None (k_how k) (k_chat k)
      else (w, [Ret false])
  | PathRemove i c => if upath w then path_remove w i c else (w, [])
  | SetSeat i name how hc c =>
      match handle w i with
      | None => (w, [])
      | Some d =>
          if upath w then
            let '(w1, o1) := path_remove w i c in
            let '(w2, o2) := path_create w1 {| p_ud := ud d; p_sys := sys d; p_phys := phys d; p_wl := wl d; p_need := need d |} (Some name) how hc in (w2, o1 ++ o2)
          else
            let '(w1, o1) := device_removed w (sys d) c in
            let '(w2, o2) := device_added w1 {| k_sys := sys d; k_phys := phys d; k_wl := wl d; k_ready := true; k_need := need d; k_how := how; k_chat := hc |} (Some name) in (w2, o1 ++ o2 ++ [Ret true])
      end
  | Disable i c =>
      match find (fun d => Nat.eqb (id d) i) (devs w) with
      | None => (w, [])
      | Some d => let '(d2, o) := suspend_dev w d c in (set_devs w (upd d2 (devs w)) (gone w), o)
      end
  | Enable i b c =>
      match handle w i with
      | None => (w, [])
      | Some d => let '(w2, d2, o) := resume_dev w d b c in (set_devs w2 (upd d2 (devs w2)) (upd d2 (gone w2)), o)
      end
  | Dispatch l => serve w (filter (reported w) l)
  end.
Fixpoint run (w : ctx) (l : list call) : ctx * list out :=
  match l with [] => (w, []) | x :: r => let '(w1, o1) := step w x in let '(w2, o2) := run w1 r in (w2, o1 ++ o2) end.
