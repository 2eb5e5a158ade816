(** Reference counting: libinput.c, evdev.c, path-seat.c, udev-seat.c, and the
    tools and mode groups of evdev-tablet.c and evdev-tablet-pad-leds.c.

    Memory is a set of numbered objects; a number is never used again.  Using
    an object after it was freed, and a failed assert(), set [bad].  The
    contents of objects are left out but for the references among them and the
    names they are looked up by.  malloc does not fail. *)
Require Import Coq.ZArith.ZArith Coq.Lists.List Coq.Bool.Bool Coq.Arith.PeanoNat.
Import ListNotations.
Open Scope Z_scope.

Inductive kind := K_seat | K_device | K_group | K_tool | K_mode.
(** struct libinput_event: the device, the tool of a tablet event, the mode
    group of a pad event, /repo/src/libinput-private.h:409-412,
    /repo/src/libinput.c:202-236 *)
Record event := mkE { e_dev : nat; e_tool : option nat; e_mode : option nat }.

(** The heap, the context, and the events the caller has taken from the queue
    ([hand]).  [all]: the devices not yet destroyed; [freed]: what was freed,
    latest first.  Both are only there to speak about. *)
Record world := mkW {
  udev : bool; (* which backend: udev or path *)
  enabled : bool; (* udev_monitor is set *)
  bad : bool;
  next : nat; (* the next number *)
  live : nat -> bool;
  rc : nat -> Z;
  knd : nat -> kind;
  name : nat -> Z; (* a seat's names *)
  ident : nat -> option Z; (* a device group's identifier *)
  seats : list nat; (* libinput->seat_list *)
  devs : nat -> list nat; (* a seat's devices_list *)
  seat_of : nat -> nat;
  group_of : nat -> option nat;
  tools : nat -> list nat; (* a tablet's tool_list *)
  modes : nat -> list nat; (* a pad's mode_group_list *)
  groups : list nat; (* libinput->device_group_list *)
  gtools : list nat; (* libinput->tool_list *)
  ttype : nat -> Z;
  tserial : nat -> Z;
  home : nat -> option nat; (* whose list a tool or mode group is in; None: gtools *)
  all : list nat;
  queue : list event; (* libinput->events: C01 shows the ring buffer is a queue *)
  hand : list event;
  freed : list nat;
  cx_live : bool;
  cx_rc : Z }.
Definition set_udev (w : world) (v : bool) : world := mkW v (enabled w) (bad w) (next w) (live w) (rc w) (knd w) (name w) (ident w) (seats w) (devs w) (seat_of w) (group_of w) (tools w) (modes w) (groups w) (gtools w) (ttype w) (tserial w) (home w) (all w) (queue w) (hand w) (freed w) (cx_live w) (cx_rc w).
Definition set_enabled (w : world) (v : bool) : world := mkW (udev w) v (bad w) (next w) (live w) (rc w) (knd w) (name w) (ident w) (seats w) (devs w) (seat_of w) (group_of w) (tools w) (modes w) (groups w) (gtools w) (ttype w) (tserial w) (home w) (all w) (queue w) (hand w) (freed w) (cx_live w) (cx_rc w).
Definition set_bad (w : world) (v : bool) : world := mkW (udev w) (enabled w) v (next w) (live w) (rc w) (knd w) (name w) (ident w) (seats w) (devs w) (seat_of w) (group_of w) (tools w) (modes w) (groups w) (gtools w) (ttype w) (tserial w) (home w) (all w) (queue w) (hand w) (freed w) (cx_live w) (cx_rc w).
Definition set_next (w : world) (v : nat) : world := mkW (udev w) (enabled w) (bad w) v (live w) (rc w) (knd w) (name w) (ident w) (seats w) (devs w) (seat_of w) (group_of w) (tools w) (modes w) (groups w) (gtools w) (ttype w) (tserial w) (home w) (all w) (queue w) (hand w) (freed w) (cx_live w) (cx_rc w).
Definition set_live (w : world) (v : nat -> bool) : world := mkW (udev w) (enabled w) (bad w) (next w) v (rc w) (knd w) (name w) (ident w) (seats w) (devs w) (seat_of w) (group_of w) (tools w) (modes w) (groups w) (gtools w) (ttype w) (tserial w) (home w) (all w) (queue w) (hand w) (freed w) (cx_live w) (cx_rc w).
Definition set_rc (w : world) (v : nat -> Z) : world := mkW (udev w) (enabled w) (bad w) (next w) (live w) v (knd w) (name w) (ident w) (seats w) (devs w) (seat_of w) (group_of w) (tools w) (modes w) (groups w) (gtools w) (ttype w) (tserial w) (home w) (all w) (queue w) (hand w) (freed w) (cx_live w) (cx_rc w).
Definition set_knd (w : world) (v : nat -> kind) : world := mkW (udev w) (enabled w) (bad w) (next w) (live w) (rc w) v (name w) (ident w) (seats w) (devs w) (seat_of w) (group_of w) (tools w) (modes w) (groups w) (gtools w) (ttype w) (tserial w) (home w) (all w) (queue w) (hand w) (freed w) (cx_live w) (cx_rc w).
Definition set_name (w : world) (v : nat -> Z) : world := mkW (udev w) (enabled w) (bad w) (next w) (live w) (rc w) (knd w) v (ident w) (seats w) (devs w) (seat_of w) (group_of w) (tools w) (modes w) (groups w) (gtools w) (ttype w) (tserial w) (home w) (all w) (queue w) (hand w) (freed w) (cx_live w) (cx_rc w).
Definition set_ident (w : world) (v : nat -> option Z) : world := mkW (udev w) (enabled w) (bad w) (next w) (live w) (rc w) (knd w) (name w) v (seats w) (devs w) (seat_of w) (group_of w) (tools w) (modes w) (groups w) (gtools w) (ttype w) (tserial w) (home w) (all w) (queue w) (hand w) (freed w) (cx_live w) (cx_rc w).
Definition set_seats (w : world) (v : list nat) : world := mkW (udev w) (enabled w) (bad w) (next w) (live w) (rc w) (knd w) (name w) (ident w) v (devs w) (seat_of w) (group_of w) (tools w) (modes w) (groups w) (gtools w) (ttype w) (tserial w) (home w) (all w) (queue w) (hand w) (freed w) (cx_live w) (cx_rc w).
Definition set_devs (w : world) (v : nat -> list nat) : world := mkW (udev w) (enabled w) (bad w) (next w) (live w) (rc w) (knd w) (name w) (ident w) (seats w) v (seat_of w) (group_of w) (tools w) (modes w) (groups w) (gtools w) (ttype w) (tserial w) (home w) (all w) (queue w) (hand w) (freed w) (cx_live w) (cx_rc w).
Definition set_seat_of (w : world) (v : nat -> nat) : world := mkW (udev w) (enabled w) (bad w) (next w) (live w) (rc w) (knd w) (name w) (ident w) (seats w) (devs w) v (group_of w) (tools w) (modes w) (groups w) (gtools w) (ttype w) (tserial w) (home w) (all w) (queue w) (hand w) (freed w) (cx_live w) (cx_rc w).
Definition set_group_of (w : world) (v : nat -> option nat) : world := mkW (udev w) (enabled w) (bad w) (next w) (live w) (rc w) (knd w) (name w) (ident w) (seats w) (devs w) (seat_of w) v (tools w) (modes w) (groups w) (gtools w) (ttype w) (tserial w) (home w) (all w) (queue w) (hand w) (freed w) (cx_live w) (cx_rc w).
Definition set_tools (w : world) (v : nat -> list nat) : world := mkW (udev w) (enabled w) (bad w) (next w) (live w) (rc w) (knd w) (name w) (ident w) (seats w) (devs w) (seat_of w) (group_of w) v (modes w) (groups w) (gtools w) (ttype w) (tserial w) (home w) (all w) (queue w) (hand w) (freed w) (cx_live w) (cx_rc w).
Definition set_modes (w : world) (v : nat -> list nat) : world := mkW (udev w) (enabled w) (bad w) (next w) (live w) (rc w) (knd w) (name w) (ident w) (seats w) (devs w) (seat_of w) (group_of w) (tools w) v (groups w) (gtools w) (ttype w) (tserial w) (home w) (all w) (queue w) (hand w) (freed w) (cx_live w) (cx_rc w).
Definition set_groups (w : world) (v : list nat) : world := mkW (udev w) (enabled w) (bad w) (next w) (live w) (rc w) (knd w) (name w) (ident w) (seats w) (devs w) (seat_of w) (group_of w) (tools w) (modes w) v (gtools w) (ttype w) (tserial w) (home w) (all w) (queue w) (hand w) (freed w) (cx_live w) (cx_rc w).
Definition set_gtools (w : world) (v : list nat) : world := mkW (udev w) (enabled w) (bad w) (next w) (live w) (rc w) (knd w) (name w) (ident w) (seats w) (devs w) (seat_of w) (group_of w) (tools w) (modes w) (groups w) v (ttype w) (tserial w) (home w) (all w) (queue w) (hand w) (freed w) (cx_live w) (cx_rc w).
Definition set_ttype (w : world) (v : nat -> Z) : world := mkW (udev w) (enabled w) (bad w) (next w) (live w) (rc w) (knd w) (name w) (ident w) (seats w) (devs w) (seat_of w) (group_of w) (tools w) (modes w) (groups w) (gtools w) v (tserial w) (home w) (all w) (queue w) (hand w) (freed w) (cx_live w) (cx_rc w).
Definition set_tserial (w : world) (v : nat -> Z) : world := mkW (udev w) (enabled w) (bad w) (next w) (live w) (rc w) (knd w) (name w) (ident w) (seats w) (devs w) (seat_of w) (group_of w) (tools w) (modes w) (groups w) (gtools w) (ttype w) v (home w) (all w) (queue w) (hand w) (freed w) (cx_live w) (cx_rc w).
Definition set_home (w : world) (v : nat -> option nat) : world := mkW (udev w) (enabled w) (bad w) (next w) (live w) (rc w) (knd w) (name w) (ident w) (seats w) (devs w) (seat_of w) (group_of w) (tools w) (modes w) (groups w) (gtools w) (ttype w) (tserial w) v (all w) (queue w) (hand w) (freed w) (cx_live w) (cx_rc w).
Definition set_all (w : world) (v : list nat) : world := mkW (udev w) (enabled w) (bad w) (next w) (live w) (rc w) (knd w) (name w) (ident w) (seats w) (devs w) (seat_of w) (group_of w) (tools w) (modes w) (groups w) (gtools w) (ttype w) (tserial w) (home w) v (queue w) (hand w) (freed w) (cx_live w) (cx_rc w).
Definition set_queue (w : world) (v : list event) : world := mkW (udev w) (enabled w) (bad w) (next w) (live w) (rc w) (knd w) (name w) (ident w) (seats w) (devs w) (seat_of w) (group_of w) (tools w) (modes w) (groups w) (gtools w) (ttype w) (tserial w) (home w) (all w) v (hand w) (freed w) (cx_live w) (cx_rc w).
Definition set_hand (w : world) (v : list event) : world := mkW (udev w) (enabled w) (bad w) (next w) (live w) (rc w) (knd w) (name w) (ident w) (seats w) (devs w) (seat_of w) (group_of w) (tools w) (modes w) (groups w) (gtools w) (ttype w) (tserial w) (home w) (all w) (queue w) v (freed w) (cx_live w) (cx_rc w).
Definition set_freed (w : world) (v : list nat) : world := mkW (udev w) (enabled w) (bad w) (next w) (live w) (rc w) (knd w) (name w) (ident w) (seats w) (devs w) (seat_of w) (group_of w) (tools w) (modes w) (groups w) (gtools w) (ttype w) (tserial w) (home w) (all w) (queue w) (hand w) v (cx_live w) (cx_rc w).
Definition set_cx_live (w : world) (v : bool) : world := mkW (udev w) (enabled w) (bad w) (next w) (live w) (rc w) (knd w) (name w) (ident w) (seats w) (devs w) (seat_of w) (group_of w) (tools w) (modes w) (groups w) (gtools w) (ttype w) (tserial w) (home w) (all w) (queue w) (hand w) (freed w) v (cx_rc w).
Definition set_cx_rc (w : world) (v : Z) : world := mkW (udev w) (enabled w) (bad w) (next w) (live w) (rc w) (knd w) (name w) (ident w) (seats w) (devs w) (seat_of w) (group_of w) (tools w) (modes w) (groups w) (gtools w) (ttype w) (tserial w) (home w) (all w) (queue w) (hand w) (freed w) (cx_live w) v.
Definition upd {A} (f : nat -> A) (x : nat) (v : A) : nat -> A := fun y => if Nat.eqb y x then v else f y.
Definition del (x : nat) (l : list nat) : list nat := remove Nat.eq_dec x l.

(** ** Memory *)
Definition fault (w : world) : world := set_bad w true.
Definition touch (x : nat) (w : world) : world := if live w x then w else fault w.
Definition ctx (w : world) : world := if cx_live w then w else fault w.
(** zalloc, with the reference count set to 1 *)
Definition alloc (k : kind) (w : world) : world :=
  let x := next w in
  let w := set_next w (S x) in
  let w := set_live w (upd (live w) x true) in
  let w := set_rc w (upd (rc w) x 1) in
  set_knd w (upd (knd w) x k).
Definition free (x : nat) (w : world) : world :=
  let w := touch x w in
  let w := set_live w (upd (live w) x false) in
  set_freed w (x :: freed w).

(** ** The counters *)
(** libinput_device_ref, libinput_seat_ref, libinput_device_group_ref,
    libinput_tablet_tool_ref, libinput_tablet_pad_mode_group_ref,
    /repo/src/libinput.c:2068-2073 and so on *)
Definition ref (x : nat) (w : world) : world :=
  let w := touch x w in set_rc w (upd (rc w) x (rc w x + 1)).
(** The assert and the decrement all the unref functions start with *)
Definition drop (x : nat) (w : world) : world :=
  let w := touch x w in
  let w := if 0 <? rc w x then w else fault w in
  set_rc w (upd (rc w) x (rc w x - 1)).
(** libinput_seat_destroy, /repo/src/libinput.c:2007-2014; the link is in a
    list of the context *)
Definition destroy_seat (s : nat) (w : world) : world :=
  let w := ctx w in
  let w := set_seats w (del s (seats w)) in
  free s w.
(** libinput_seat_unref, /repo/src/libinput.c:2016-2027 *)
Definition unref_seat (s : nat) (w : world) : world :=
  let w := drop s w in
  if rc w s =? 0 then destroy_seat s w else w.
(** libinput_device_group_destroy, /repo/src/libinput.c:3605-3611 *)
Definition destroy_group (g : nat) (w : world) : world :=
  let w := ctx w in
  let w := set_groups w (del g (groups w)) in
  free g w.
(** libinput_device_group_unref, /repo/src/libinput.c:3613-3624 *)
Definition unref_group (g : nat) (w : world) : world :=
  let w := drop g w in
  if rc w g =? 0 then destroy_group g w else w.
(** list_remove of a tool's or mode group's link: the list may be part of a
    tablet's or pad's memory.  (That the neighbours in the list might both be
    other leftover tools is not looked at.) *)
Definition owner (x : nat) (w : world) : world :=
  match home w x with None => ctx w | Some d => touch d w end.
(** libinput_tablet_tool_unref, /repo/src/libinput.c:1659-1671 *)
Definition unref_tool (t : nat) (w : world) : world :=
  let w := drop t w in
  if 0 <? rc w t then w
  else
    let w := owner t w in
    let w := match home w t with
             | None => set_gtools w (del t (gtools w))
             | Some d => set_tools w (upd (tools w) d (del t (tools w d)))
             end in
    free t w.
(** libinput_tablet_pad_mode_group_unref,
    /repo/src/libinput.c:3268-3281 *)
Definition unref_mode (m : nat) (w : world) : world :=
  let w := drop m w in
  if 0 <? rc w m then w
  else
    let w := owner m w in
    let w := match home w m with
             | None => w
             | Some d => set_modes w (upd (modes w) d (del m (modes w d)))
             end in
    free m w.
Definition each (f : nat -> world -> world) (l : list nat) (w : world) : world := fold_left (fun w x => f x w) l w.
(** evdev_device_destroy, /repo/src/evdev.c:2891-2911, with tablet_destroy
    and pad_destroy_leds, /repo/src/evdev-tablet.c:2097-2114,
    /repo/src/evdev-tablet-pad-leds.c:577-584 *)
Definition destroy_device (d : nat) (w : world) : world :=
  let w := touch d w in
  let w := set_all w (del d (all w)) in
  let w := each unref_tool (tools w d) w in
  let w := each unref_mode (modes w d) w in
  let w := match group_of w d with Some g => unref_group g w | None => w end in
  let w := unref_seat (seat_of w d) w in
  free d w.
(** libinput_device_unref, /repo/src/libinput.c:2082-2093 *)
Definition unref_device (d : nat) (w : world) : world :=
  let w := drop d w in
  if rc w d =? 0 then destroy_device d w else w.
(** The unref function for what the object is *)
Definition unref (x : nat) (w : world) : world :=
  match knd w x with
  | K_seat => unref_seat x w
  | K_device => unref_device x w
  | K_group => unref_group x w
  | K_tool => unref_tool x w
  | K_mode => unref_mode x w
  end.

(** ** Events *)
(** libinput_post_event, /repo/src/libinput.c:2923-2974 *)
Definition post_event (e : event) (w : world) : world :=
  let w := ctx w in
  let w := ref (e_dev e) w in
  set_queue w (queue w ++ [e]).
(** libinput_event_destroy, /repo/src/libinput.c:1928-1957 *)
Definition destroy_event (e : event) (w : world) : world :=
  let w := match e_tool e with Some t => unref_tool t w | None => w end in
  let w := match e_mode e with Some m => unref_mode m w | None => w end in
  unref_device (e_dev e) w.
(** tablet_get_tool, /repo/src/evdev-tablet.c:1116-1182: the tool and the world with it *)
Definition get_tool (d : nat) (ty serial : Z) (w : world) : nat * world :=
  let w := ctx (touch d w) in
  let global := if serial =? 0 then None
                else find (fun t => (ttype w t =? ty) && (tserial w t =? serial)) (gtools w) in
  match global with
  | Some t => (t, w)
  | None =>
      match find (fun t => ttype w t =? ty) (tools w d) with
      | Some t => (t, w)
      | None =>
          let t := next w in
          let w := alloc K_tool w in
          let w := set_ttype w (upd (ttype w) t ty) in
          let w := set_tserial w (upd (tserial w) t serial) in
          if serial =? 0 then (t, set_home (set_tools w (upd (tools w) d (t :: tools w d))) (upd (home w) t (Some d)))
          else (t, set_home (set_gtools w (t :: gtools w)) (upd (home w) t None))
      end
  end.
(** What a device sends: an event without or with a tool
    (tablet_notify_axis etc., /repo/src/libinput.c:2577-2605), or with a mode
    group (tablet_pad_notify_button etc., /repo/src/libinput.c:2700-2726) *)
Inductive post := P_plain | P_tool (ty serial : Z) | P_mode (i : nat).
Definition do_post (d : nat) (p : post) (w : world) : world :=
  match p with
  | P_plain => post_event (mkE d None None) w
  | P_tool ty serial =>
      let (t, w) := get_tool d ty serial w in
      post_event (mkE d (Some t) None) (ref t w)
  | P_mode i =>
      match nth_error (modes w d) i with
      | Some m => post_event (mkE d None (Some m)) (ref m w)
      | None => w
      end
  end.
Definition do_posts (d : nat) (ps : list post) (w : world) : world := fold_left (fun w p => do_post d p w) ps w.

(** ** Devices come and go *)
(** evdev_device_remove, /repo/src/evdev.c:2857-2889; [ps]: what suspending the
    device sends *)
Definition remove_device (ps : list post) (d : nat) (w : world) : world :=
  let w := do_posts d ps (touch d w) in
  let s := seat_of w d in
  let w := touch s w in
  let w := set_devs w (upd (devs w) s (del d (devs w s))) in
  let w := post_event (mkE d None None) w in
  unref_device d w.
(** What udev says of a device, and how far evdev_device_create gets: failing
    before or after it has allocated the device *)
Inductive fate := Fails_early | Fails_late | Works.
Record spec := mkSpec { a_seat : Z; a_group : option Z; a_modes : nat; a_fate : fate }.
(** libinput_device_group_find_group, /repo/src/libinput.c:3581-3595 *)
Definition find_group (i : option Z) (w : world) : option nat :=
  match i with
  | None => None
  | Some i => find (fun g => match ident w g with Some j => j =? i | None => false end) (groups w)
  end.
(** evdev_set_device_group, /repo/src/evdev.c:2016-2040 *)
Definition set_group (d : nat) (i : option Z) (w : world) : world :=
  let w := ctx w in
  match find_group i w with
  | Some g => ref g (set_group_of w (upd (group_of w) d (Some g)))
  | None =>
      let g := next w in
      let w := alloc K_group w in
      let w := set_ident w (upd (ident w) g i) in
      let w := set_groups w (g :: groups w) in
      let w := ref g (set_group_of w (upd (group_of w) d (Some g))) in
      unref_group g w
  end.
(** pad_init_leds, /repo/src/evdev-tablet-pad-leds.c:552-575: the mode groups *)
Fixpoint make_modes (n : nat) (d : nat) (w : world) : world :=
  match n with
  | O => w
  | S n =>
      let m := next w in
      let w := alloc K_mode w in
      let w := set_home w (upd (home w) m (Some d)) in
      let w := set_modes w (upd (modes w) d (m :: modes w d)) in
      make_modes n d w
  end.
(** evdev_device_create, /repo/src/evdev.c:2205-2314 *)
Definition create_device (s : nat) (a : spec) (w : world) : world :=
  match a_fate a with
  | Fails_early => w
  | f =>
      let d := next w in
      let w := alloc K_device w in
      let w := set_all w (d :: all w) in
      let w := set_seat_of w (upd (seat_of w) d s) in
      let w := set_group_of w (upd (group_of w) d None) in
      let w := set_tools w (upd (tools w) d []) in
      let w := set_modes w (upd (modes w) d []) in
      let w := ref s w in
      let w := make_modes (a_modes a) d w in
      match f with
      | Works =>
          let w := set_group d (a_group a) w in
          let w := set_devs w (upd (devs w) s (devs w s ++ [d])) in
          post_event (mkE d None None) w
      | _ => destroy_device d w
      end
  end.
(** path_seat_get_named, /repo/src/path-seat.c:105-119, udev_seat_get_named,
    /repo/src/udev-seat.c:359-370 *)
Definition find_seat (n : Z) (w : world) : option nat := find (fun s => name w s =? n) (seats w).
(** libinput_seat_init, /repo/src/libinput.c:1984-1998 *)
Definition new_seat (n : Z) (w : world) : world :=
  let s := next w in
  let w := alloc K_seat w in
  let w := set_name w (upd (name w) s n) in
  let w := set_devs w (upd (devs w) s []) in
  set_seats w (s :: seats w).
(** path_device_enable, /repo/src/path-seat.c:173-214: a new seat keeps the
    reference it was made with; device_added, /repo/src/udev-seat.c:76-147: it
    does not.  (A device that is there already, filter_duplicates, is left
    out: nothing happens.) *)
Definition add_device (a : spec) (w : world) : world :=
  let w := ctx w in
  match find_seat (a_seat a) w with
  | Some s => unref_seat s (create_device s a (ref s w))
  | None =>
      let s := next w in
      let w := new_seat (a_seat a) w in
      let w := if udev w then w else ref s w in
      unref_seat s (create_device s a w)
  end.
(** path_input_disable, /repo/src/path-seat.c:67-81,
    udev_input_remove_devices, /repo/src/udev-seat.c:243-257 *)
Definition disable (ps : nat -> list post) (w : world) : world :=
  each (fun s w =>
    let w := ref s w in
    let w := each (fun d => remove_device (ps d) d) (devs w s) w in
    unref_seat s w) (seats w) w.
(** libinput_suspend: path_input_disable, or udev_input_disable,
    /repo/src/udev-seat.c:259-273 *)
Definition suspend (ps : nat -> list post) (w : world) : world :=
  let w := ctx w in
  if udev w then if enabled w then disable ps (set_enabled w false) else w
  else disable ps w.
(** libinput_resume: path_input_enable, /repo/src/path-seat.c:216-230, or
    udev_input_enable, /repo/src/udev-seat.c:275-322; [l]: the devices found *)
Fixpoint enable_path (ps : nat -> list post) (l : list spec) (w : world) : world :=
  match l with
  | [] => w
  | a :: r =>
      let w := add_device a w in
      match a_fate a with Works => enable_path ps r w | _ => disable ps w end
  end.
Definition resume (ps : nat -> list post) (l : list spec) (w : world) : world :=
  let w := ctx w in
  if udev w then if enabled w then w else fold_left (fun w a => add_device a w) l (set_enabled w true)
  else enable_path ps l w.
(** libinput_path_remove_device, /repo/src/path-seat.c:403-428, or
    device_removed, /repo/src/udev-seat.c:149-167, which finds the device in
    its seat *)
Definition unplug (ps : list post) (d : nat) (w : world) : world :=
  let w := ctx (touch d w) in
  let s := seat_of w d in
  let gone w := if existsb (Nat.eqb d) (devs w s) then remove_device ps d w else w in
  if udev w then gone w else unref_seat s (gone (ref s w)).

(** ** The context *)
(** libinput_get_event, /repo/src/libinput.c:2976-2990 *)
Definition get_event (w : world) : world :=
  let w := ctx w in
  match queue w with [] => w | e :: r => set_hand (set_queue w r) (hand w ++ [e]) end.
Fixpoint drain (n : nat) (w : world) : world :=
  match n with
  | O => w
  | S n => match queue w with [] => w | e :: r => drain n (destroy_event e (set_queue w r)) end
  end.
(** libinput_unref, /repo/src/libinput.c:1861-1913 *)
Definition unref_context (ps : nat -> list post) (w : world) : world :=
  let w := ctx w in
  let w := if 0 <? cx_rc w then w else fault w in
  let w := set_cx_rc w (cx_rc w - 1) in
  if 0 <? cx_rc w then w
  else
    let w := suspend ps w in
    let w := drain (length (queue w)) w in
    let w := each (fun s w => destroy_seat s (each destroy_device (devs w s) w)) (seats w) w in
    let w := each destroy_group (groups w) w in
    let w := each unref_tool (gtools w) w in
    set_cx_live w false.

(** ** What can happen *)
Inductive op :=
| Add (a : spec) | Remove (ps : list post) (d : nat) | Send (d : nat) (p : post)
| Suspend (ps : nat -> list post) | Resume (ps : nat -> list post) (l : list spec)
| Get | Destroy (i : nat) (* the i-th event taken *)
| Ref (x : nat) | Unref (x : nat) | Ctx_ref | Ctx_unref (ps : nat -> list post).
Fixpoint drop_nth {A} (i : nat) (l : list A) : list A :=
  match l, i with [], _ => [] | _ :: r, O => r | x :: r, S i => x :: drop_nth i r end.
Definition step (o : op) (w : world) : world :=
  match o with
  | Add a => add_device a w
  | Remove ps d => unplug ps d w
  | Send d p => do_post d p w
  | Suspend ps => suspend ps w
  | Resume ps l => resume ps l w
  | Get => get_event w
  | Destroy i => match nth_error (hand w) i with Some e => destroy_event e (set_hand w (drop_nth i (hand w))) | None => w end
  | Ref x => ref x w
  | Unref x => unref x w
  | Ctx_ref => let w := ctx w in set_cx_rc w (cx_rc w + 1)
  | Ctx_unref ps => unref_context ps w
  end.
(** libinput_init, /repo/src/libinput.c:1763-1796 *)
Definition init (u : bool) : world :=
  mkW u false false 0 (fun _ => false) (fun _ => 0) (fun _ => K_seat) (fun _ => 0) (fun _ => None) [] (fun _ => []) (fun _ => 0%nat) (fun _ => None)
    (fun _ => []) (fun _ => []) [] [] (fun _ => 0) (fun _ => 0) (fun _ => None) [] [] [] [] true 1.
Definition run (u : bool) (l : list op) : world := fold_left (fun w o => step o w) l (init u).
