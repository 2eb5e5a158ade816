(** * Tablet pads: buttons, rings, strips and mode groups

    Model of /repo/src/evdev-tablet-pad.c, /repo/src/evdev-tablet-pad-leds.c and of the pad functions of /repo/src/libinput.c.
    What libwacom, libevdev, the LED files in sysfs and the clock say is input.  Doubles are exact rationals, [None] is NaN, an infinity or
    the result of an int overflow; log2 is a parameter.  Reference counts of mode groups and log messages are left out. *)
Require Import Coq.ZArith.ZArith Coq.QArith.QArith Coq.Lists.List Coq.Bool.Bool.
Import ListNotations.
Open Scope Z_scope.

Inductive axis := RING1 | RING2 | STRIP1 | STRIP2.      (* ABS_WHEEL, ABS_THROTTLE, ABS_RX, ABS_RY; enum pad_axes *)
Definition axis_eqb (a b : axis) : bool := match a, b with RING1, RING1 | RING2, RING2 | STRIP1, STRIP1 | STRIP2, STRIP2 => true | _, _ => false end.
(** key_or_button_map_t, /repo/src/evdev-tablet-pad.h:50-60 *)
Inductive mapping := Unmapped | Button (n : Z) | Key (k : Z).
(** WacomStatusLEDs *)
Inductive led := L_UNAVAILABLE | L_RING | L_RING2 | L_STRIP | L_STRIP2.
(** A button of libwacom's: LED group or -1, WACOM_BUTTON_MODESWITCH, the position flags *)
Record wbutton := { w_group : Z; w_switch : bool; w_dir : Z }.
Record wacom := { w_leds : list led; w_ring_modes : nat; w_ring2_modes : nat; w_strip_modes : nat; w_buttons : list wbutton }.
(** The device: the kernel's description; libwacom's answers for the USB id (the evdev codes of the buttons, 0 for none) and for the device node;
    whether it is reversible; whether the sysfs path is known and which brightness files can be opened (group, mode) *)
Record device := { has_key : Z -> bool; has_abs : axis -> bool; vendor_wacom : bool; amin : axis -> Z; amax : axis -> Z;
  by_usbid : option (list Z); by_path : option wacom; reversible : bool; syspath : bool; opens : Z -> nat -> bool }.
(** struct libinput_tablet_pad_mode_group and struct pad_led_group; [leds] is the length of led_list, whose entries are the modes in ascending order.
    Groups are told apart by their index: pad_init_led_groups gives each another one *)
Record group := { gix : Z; num_modes : Z; leds : nat; cur : Z; bmask : Z; rmask : Z; smask : Z; tmask : Z }.
(** struct pad_dispatch, with left_handed of the device *)
Record pad := { ax_upd : bool; pressed_upd : bool; released_upd : bool; changed : axis -> bool; bits : Z -> bool; prev : Z -> bool;
  bmap : Z -> mapping; nbuttons : Z; misc_term : bool; mode : Z; groups : list group; lh : bool; lh_want : bool }.
(** What libevdev and sysfs say at the time of a call: the axes' values, ABS_MISC, the brightness of an LED (None: it cannot be read) *)
Record env := { value : axis -> Z; misc : Z; bright : Z -> nat -> option Z }.
Inductive pev :=
| PButton (t n : Z) (down : bool) (md g : Z)
| PKey (t k : Z) (down : bool)
| PRing (t n : Z) (pos : option Q) (md g : Z)
| PStrip (t n : Z) (pos : option Q) (md g : Z).

Definition KEY_CNT : nat := 768.
Definition codes : list Z := map Z.of_nat (seq 0 KEY_CNT).
Definition upd {A} (f : Z -> A) (k : Z) (v : A) : Z -> A := fun x => if x =? k then v else f x.

(** ** Numbers of things *)
(** /repo/src/evdev-tablet-pad.c:773-790, /repo/src/evdev-tablet-pad.c:792-809 *)
Definition num_rings (d : device) : Z := if has_abs d RING1 then if has_abs d RING2 then 2 else 1 else 0.
Definition num_strips (d : device) : Z := if has_abs d STRIP1 then if has_abs d STRIP2 then 2 else 1 else 0.
(** /repo/src/libinput.c:3216-3225 and the following three; the shift by 31 is undefined in C, done as compiled *)
Definition has_button (nb : Z) (g : group) (b : Z) : bool := if nb <=? b then false else Z.testbit (bmask g) b.
Definition has_ring (d : device) (g : group) (r : Z) : bool := if num_rings d <=? r then false else Z.testbit (rmask g) r.
Definition has_strip (d : device) (g : group) (r : Z) : bool := if num_strips d <=? r then false else Z.testbit (smask g) r.
Definition is_toggle (nb : Z) (g : group) (b : Z) : bool := if nb <=? b then false else Z.testbit (tmask g) b.

(** ** Modes *)
(** /repo/src/evdev-tablet-pad-leds.c:73-100 *)
Fixpoint lit (br : nat -> option Z) (m n : nat) : option Z :=
  match n with
  | O => None
  | S n => match br m with None => None | Some b => if b =? 0 then lit br (S m) n else Some (Z.of_nat m) end
  end.
Definition get_mode (e : env) (g : Z) (n : nat) : option Z := lit (bright e g) 0 n.
Definition set_cur (g : group) (m : Z) : group :=
  {| gix := gix g; num_modes := num_modes g; leds := leds g; cur := m; bmask := bmask g; rmask := rmask g; smask := smask g; tmask := tmask g |}.
(** /repo/src/evdev-tablet-pad-leds.c:586-603, for a press *)
Definition update_mode (e : env) (nb : Z) (g : group) (b : Z) : group :=
  if is_toggle nb g b then match get_mode e (gix g) (leds g) with Some m => set_cur g m | None => g end else g.
Definition put (gs : list group) (g : group) : list group := map (fun x => if gix x =? gix g then g else x) gs.

(** ** Rings and strips *)
Definition in_int (z : Z) : bool := (-2147483648 <=? z) && (z <=? 2147483647).
Definition trunc (q : Q) : Z := Z.quot (Qnum q) (QDen q).
(** fmod(x, 360) *)
Definition fmod360 (x : Q) : Q := (x - 360 * inject_Z (trunc (x / 360)))%Q.
Definition qlt0 (q : Q) : bool := Qnum q <? 0.
(** /repo/src/evdev-tablet-pad.c:147-161, /repo/src/evdev-tablet-pad.c:177-194 *)
Definition handle_ring (d : device) (left : bool) (a : axis) (v : Z) : option Q :=
  let r := amax d a - amin d a + 1 in
  if in_int (r - 1) && in_int r && in_int (v - amin d a) && negb (r =? 0) then
    let x := (inject_Z (v - amin d a) / inject_Z r - (1 # 4))%Q in
    let deg := ((if qlt0 x then x + 1 else x) * 360)%Q in
    Some (if left then fmod360 (deg + 180)%Q else deg)
  else None.
(** /repo/src/evdev-tablet-pad.c:163-175, /repo/src/evdev-tablet-pad.c:196-216; [lg] is log2 *)
Definition handle_strip (lg : Z -> Q) (d : device) (left : bool) (a : axis) (v : Z) : option Q :=
  if v =? 0 then Some 0%Q
  else if (v <? 0) || (amax d a <=? 1) then None
  else let pos := ((lg v - 0) / (lg (amax d a) - 0))%Q in Some (if left then (1 - pos)%Q else pos).
(** /repo/src/evdev-tablet-pad.c:250-324, for one axis.  None: an assert fails *)
Definition is_ring (a : axis) : bool := match a with RING1 | RING2 => true | _ => false end.
Definition axis_number (a : axis) : Z := match a with RING1 | STRIP1 => 0 | _ => 1 end.
Definition notify_axis (lg : Z -> Q) (d : device) (p : pad) (e : env) (t : Z) (a : axis) : option (list pev) :=
  if changed p a then
    if has_abs d a then
      let up := misc_term p && (misc e =? 0) in
      if is_ring a then
        match find (fun g => has_ring d g (axis_number a)) (groups p) with
        | Some g => Some [PRing t (axis_number a) (if up then Some (-1)%Q else handle_ring d (lh p) a (value e a)) (cur g) (gix g)]
        | None => None
        end
      else
        match find (fun g => has_strip d g (axis_number a)) (groups p) with
        | Some g => Some [PStrip t (axis_number a) (if up then Some (-1)%Q else handle_strip lg d (lh p) a (value e a)) (cur g) (gix g)]
        | None => None
        end
    else None
  else Some [].
Definition app_opt {A} (a b : option (list A)) : option (list A) := match a, b with Some x, Some y => Some (x ++ y) | _, _ => None end.
Definition notify_axes (lg : Z -> Q) (d : device) (p : pad) (e : env) (t : Z) : option (list pev) :=
  app_opt (notify_axis lg d p e t RING1) (app_opt (notify_axis lg d p e t RING2) (app_opt (notify_axis lg d p e t STRIP1) (notify_axis lg d p e t STRIP2))).

(** ** Buttons *)
(** /repo/src/evdev-tablet-pad.c:358-411; only the groups change *)
Fixpoint notify_mask (nb : Z) (m : Z -> mapping) (e : env) (t : Z) (down : bool) (mask : Z -> bool) (cs : list Z) (gs : list group) : option (list group * list pev) :=
  match cs with
  | [] => Some (gs, [])
  | c :: cs =>
      if mask c then
        match m c with
        | Unmapped => notify_mask nb m e t down mask cs gs
        | Button n =>
            match find (fun g => has_button nb g n) gs with
            | None => None
            | Some g =>
                let g := if down then update_mode e nb g n else g in
                match notify_mask nb m e t down mask cs (put gs g) with
                | Some (gs, l) => Some (gs, PButton t n down (cur g) (gix g) :: l)
                | None => None
                end
            end
        | Key k => match notify_mask nb m e t down mask cs gs with Some (gs, l) => Some (gs, PKey t k down :: l) | None => None end
        end
      else notify_mask nb m e t down mask cs gs
  end.
(** /repo/src/evdev-tablet-pad.c:429-441 *)
Definition any_down (p : pad) : bool := existsb (bits p) codes.
Definition change_left_handed (p : pad) : pad :=
  {| ax_upd := ax_upd p; pressed_upd := pressed_upd p; released_upd := released_upd p; changed := changed p; bits := bits p; prev := prev p; bmap := bmap p; nbuttons := nbuttons p;
     misc_term := misc_term p; mode := mode p; groups := groups p; lh := if any_down p then lh p else lh_want p; lh_want := lh_want p |}.
Definition with_groups (p : pad) (gs : list group) : pad :=
  {| ax_upd := ax_upd p; pressed_upd := pressed_upd p; released_upd := released_upd p; changed := changed p; bits := bits p; prev := prev p; bmap := bmap p; nbuttons := nbuttons p;
     misc_term := misc_term p; mode := mode p; groups := gs; lh := lh p; lh_want := lh_want p |}.
(** /repo/src/evdev-tablet-pad.c:443-475 *)
Definition flush_axes (lg : Z -> Q) (d : device) (p : pad) (e : env) (t : Z) : option (pad * list pev) :=
  if ax_upd p then
    match notify_axes lg d p e t with
    | Some l => Some ({| ax_upd := false; pressed_upd := pressed_upd p; released_upd := released_upd p; changed := fun _ => false; bits := bits p; prev := prev p; bmap := bmap p; nbuttons := nbuttons p;
                         misc_term := false; mode := mode p; groups := groups p; lh := lh p; lh_want := lh_want p |}, l)
    | None => None
    end
  else Some (p, []).
Definition flush_released (p : pad) (e : env) (t : Z) : option (pad * list pev) :=
  if released_upd p then
    match notify_mask (nbuttons p) (bmap p) e t false (fun c => prev p c && negb (bits p c)) codes (groups p) with
    | Some (gs, l) => Some (change_left_handed {| ax_upd := ax_upd p; pressed_upd := pressed_upd p; released_upd := false; changed := changed p; bits := bits p; prev := prev p; bmap := bmap p;
                         nbuttons := nbuttons p; misc_term := misc_term p; mode := mode p; groups := gs; lh := lh p; lh_want := lh_want p |}, l)
    | None => None
    end
  else Some (p, []).
Definition flush_pressed (p : pad) (e : env) (t : Z) : option (pad * list pev) :=
  if pressed_upd p then
    match notify_mask (nbuttons p) (bmap p) e t true (fun c => bits p c && negb (prev p c)) codes (groups p) with
    | Some (gs, l) => Some ({| ax_upd := ax_upd p; pressed_upd := false; released_upd := released_upd p; changed := changed p; bits := bits p; prev := prev p; bmap := bmap p;
                         nbuttons := nbuttons p; misc_term := misc_term p; mode := mode p; groups := gs; lh := lh p; lh_want := lh_want p |}, l)
    | None => None
    end
  else Some (p, []).
Definition save_prev (p : pad) : pad :=
  {| ax_upd := ax_upd p; pressed_upd := pressed_upd p; released_upd := released_upd p; changed := changed p; bits := bits p; prev := bits p; bmap := bmap p; nbuttons := nbuttons p;
     misc_term := misc_term p; mode := mode p; groups := groups p; lh := lh p; lh_want := lh_want p |}.
Definition flush (lg : Z -> Q) (d : device) (p : pad) (e : env) (t : Z) : option (pad * list pev) :=
  match flush_axes lg d p e t with None => None | Some (p, l1) =>
  match flush_released p e t with None => None | Some (p, l2) =>
  match flush_pressed p e t with None => None | Some (p, l3) => Some (save_prev p, l1 ++ l2 ++ l3) end end end.

(** ** Events *)
(** /repo/src/evdev-tablet-pad.c:99-145 *)
Definition process_abs (p : pad) (a : axis) : pad :=
  {| ax_upd := true; pressed_upd := pressed_upd p; released_upd := released_upd p; changed := fun x => axis_eqb x a || changed p x; bits := bits p; prev := prev p; bmap := bmap p;
     nbuttons := nbuttons p; misc_term := misc_term p; mode := mode p; groups := groups p; lh := lh p; lh_want := lh_want p |}.
Definition process_misc (p : pad) : pad :=
  {| ax_upd := ax_upd p; pressed_upd := pressed_upd p; released_upd := released_upd p; changed := changed p; bits := bits p; prev := prev p; bmap := bmap p;
     nbuttons := nbuttons p; misc_term := true; mode := mode p; groups := groups p; lh := lh p; lh_want := lh_want p |}.
(** /repo/src/evdev-tablet-pad.c:83-97 *)
Definition set_down (p : pad) (c : Z) (down : bool) : pad :=
  {| ax_upd := ax_upd p; pressed_upd := if down then true else pressed_upd p; released_upd := if down then released_upd p else true; changed := changed p; bits := upd (bits p) c down; prev := prev p;
     bmap := bmap p; nbuttons := nbuttons p; misc_term := misc_term p; mode := mode p; groups := groups p; lh := lh p; lh_want := lh_want p |}.
(** /repo/src/evdev-tablet-pad.c:326-340 *)
Definition process_key (p : pad) (c v : Z) : pad := if v =? 2 then p else set_down p c (negb (v =? 0)).
(** /repo/src/evdev-tablet-pad.c:508-522 *)
Definition suspend (lg : Z -> Q) (d : device) (p : pad) (e : env) (t : Z) : option (pad * list pev) :=
  flush lg d (fold_left (fun p c => if bits p c then set_down p c false else p) (tl codes) p) e t.
(** libinput_device_config_send_events_set_mode and /repo/src/evdev-tablet-pad.c:691-714; 0 is enabled, 1 disabled *)
Inductive status := SUCCESS | UNSUPPORTED.
Definition with_mode (p : pad) (m : Z) : pad :=
  {| ax_upd := ax_upd p; pressed_upd := pressed_upd p; released_upd := released_upd p; changed := changed p; bits := bits p; prev := prev p; bmap := bmap p;
     nbuttons := nbuttons p; misc_term := misc_term p; mode := m; groups := groups p; lh := lh p; lh_want := lh_want p |}.
Definition get_modes : Z := 1.
Definition set_mode (lg : Z -> Q) (d : device) (p : pad) (m : Z) (e : env) (t : Z) : option (status * pad * list pev) :=
  if negb (Z.land get_modes m =? m) then Some (UNSUPPORTED, p, [])
  else if m =? mode p then Some (SUCCESS, p, [])
  else if m =? 0 then Some (SUCCESS, with_mode p m, [])
  else match suspend lg d p e t with Some (p, l) => Some (SUCCESS, with_mode p m, l) | None => None end.
(** libinput_device_config_left_handed_set, /repo/src/evdev.c:607-617, /repo/src/evdev-tablet-pad.c:660-666 *)
Definition set_left_handed (d : device) (p : pad) (b : bool) : status * pad :=
  if reversible d then
    let p := {| ax_upd := ax_upd p; pressed_upd := pressed_upd p; released_upd := released_upd p; changed := changed p; bits := bits p; prev := prev p; bmap := bmap p;
     nbuttons := nbuttons p; misc_term := misc_term p; mode := mode p; groups := groups p; lh := lh p; lh_want := b |} in
    (SUCCESS, if Bool.eqb (lh p) (lh_want p) then p else change_left_handed p)
  else (UNSUPPORTED, p).
(** evdev_left_handed_get *)
Definition get_left_handed (p : pad) : bool := lh_want p.
Inductive pinput :=
| Abs (a : axis) | AbsMisc | Other                      (* EV_ABS of these axes, of ABS_MISC; any event that is ignored *)
| KeyEv (c v : Z) | Syn (e : env) (t : Z)
| Suspend (e : env) (t : Z)                             (* evdev_device_suspend; [t] is libinput_now *)
| SetMode (m : Z) (e : env) (t : Z) | SetLeftHanded (b : bool).
(** /repo/src/evdev-tablet-pad.c:477-506.  None: an assert fails *)
Definition pstep (lg : Z -> Q) (d : device) (p : pad) (i : pinput) : option (pad * list pev) :=
  match i with
  | Abs a => Some (process_abs p a, [])
  | AbsMisc => Some (process_misc p, [])
  | Other => Some (p, [])
  | KeyEv c v => Some (process_key p c v, [])
  | Syn e t => flush lg d p e t
  | Suspend e t => suspend lg d p e t
  | SetMode m e t => match set_mode lg d p m e t with Some (_, p, l) => Some (p, l) | None => None end
  | SetLeftHanded b => Some (snd (set_left_handed d p b), [])
  end.
Fixpoint prun (lg : Z -> Q) (d : device) (p : pad) (l : list pinput) : option (pad * list pev) :=
  match l with
  | [] => Some (p, [])
  | i :: l => match pstep lg d p i with
              | None => None
              | Some (p, o) => match prun lg d p l with None => None | Some (p, o') => Some (p, o ++ o') end
              end
  end.

(** ** Setting up *)
(** /repo/src/evdev-tablet-pad.c:548-592; codes are below KEY_CNT *)
Definition buttons_from_libwacom (cs : list Z) : (Z -> mapping) * Z :=
  fold_left (fun a c => if c =? 0 then a else (upd (fst a) c (Button (snd a)), snd a + 1)) cs (fun _ => Unmapped, 0).
(** /repo/src/evdev-tablet-pad.c:594-623: BTN_0 to BTN_9, BTN_BASE and BTN_BASE2, BTN_A to BTN_Z, BTN_LEFT to BTN_TASK less the last *)
Definition range (a : Z) (n : nat) : list Z := map (fun i => a + Z.of_nat i) (seq 0 n).
Definition buttons_from_kernel (d : device) : (Z -> mapping) * Z :=
  fold_left (fun a c => if has_key d c then (upd (fst a) c (Button (snd a)), snd a + 1) else a)
    (range 256 10 ++ range 294 2 ++ range 304 6 ++ range 272 7) (fun _ => Unmapped, 0).
(** /repo/src/evdev-tablet-pad.c:625-643: KEY_BUTTONCONFIG, KEY_ONSCREEN_KEYBOARD, KEY_CONTROLPANEL *)
Definition init_keys (d : device) (m : Z -> mapping) : Z -> mapping :=
  if vendor_wacom d then fold_left (fun m c => if has_key d c then upd m c (Key c) else m) [576; 632; 579] m else m.
(** /repo/src/evdev-tablet-pad.c:645-658 *)
Definition init_buttons (d : device) : (Z -> mapping) * Z :=
  let '(m, n) := match by_usbid d with Some cs => buttons_from_libwacom cs | None => buttons_from_kernel d end in (init_keys d m, n).
(** /repo/src/evdev-tablet-pad-leds.c:193-235 *)
Definition group_new (d : device) (e : env) (i : Z) (n : nat) : option group :=
  if forallb (opens d i) (seq 0 n) then
    match get_mode e i n with
    | Some m => Some {| gix := i; num_modes := Z.of_nat n; leds := n; cur := m; bmask := 0; rmask := 0; smask := 0; tmask := 0 |}
    | None => None
    end
  else None.
Definition led_modes (w : wacom) (l : led) : option nat :=
  match l with L_UNAVAILABLE => None | L_RING => Some (w_ring_modes w) | L_RING2 => Some (w_ring2_modes w) | L_STRIP | L_STRIP2 => Some (w_strip_modes w) end.
(** /repo/src/evdev-tablet-pad-leds.c:273-333; list_insert puts at the head *)
Fixpoint led_groups (d : device) (w : wacom) (e : env) (i : Z) (ls : list led) (gs : list group) : option (list group) :=
  match ls with
  | [] => Some gs
  | l :: ls => match led_modes w l with
               | None => None
               | Some n => match group_new d e i n with None => None | Some g => led_groups d w e (i + 1) ls (g :: gs) end
               end
  end.
(** /repo/src/evdev-tablet-pad-leds.c:352-374; [j] counts the buttons in the list *)
Fixpoint find_button_group (i j : Z) (dir : Z) (bs : list wbutton) : Z :=
  match bs with
  | [] => -1
  | b :: bs => if negb (j =? i) && w_switch b && (w_dir b =? dir) then w_group b else find_button_group i (j + 1) dir bs
  end.
Definition get_group (gs : list group) (i : Z) : option group := find (fun g => gix g =? i) gs.
Definition add_button (g : group) (i : Z) (toggle : bool) : group :=
  {| gix := gix g; num_modes := num_modes g; leds := leds g; cur := cur g; bmask := Z.setbit (bmask g) i; rmask := rmask g; smask := smask g;
     tmask := if toggle then Z.setbit (tmask g) i else tmask g |}.
(** /repo/src/evdev-tablet-pad-leds.c:376-431 *)
Definition group_for (all : list wbutton) (i : Z) (b : wbutton) : Z := if w_group b =? -1 then find_button_group i 0 (w_dir b) all else w_group b.
Fixpoint mode_buttons (all : list wbutton) (i : Z) (bs : list wbutton) (gs : list group) : option (list group) :=
  match bs with
  | [] => Some gs
  | b :: bs =>
      let gi := group_for all i b in
      if gi =? -1 then None
      else match get_group gs gi with
           | None => None
           | Some g => mode_buttons all (i + 1) bs (put gs (add_button g i (w_switch b)))
           end
  end.
(** /repo/src/evdev-tablet-pad-leds.c:433-458, /repo/src/evdev-tablet-pad-leds.c:460-485: LED i is of group i *)
Definition mark (l : led) (g : group) : group :=
  {| gix := gix g; num_modes := num_modes g; leds := leds g; cur := cur g; bmask := bmask g; tmask := tmask g;
     rmask := match l with L_RING => Z.setbit (rmask g) 0 | L_RING2 => Z.setbit (rmask g) 1 | _ => rmask g end;
     smask := match l with L_STRIP => Z.setbit (smask g) 0 | L_STRIP2 => Z.setbit (smask g) 1 | _ => smask g end |}.
Definition mode_leds (ls : list led) (gs : list group) : list group := map (fun g => match nth_error ls (Z.to_nat (gix g)) with Some l => mark l g | None => g end) gs.
(** /repo/src/evdev-tablet-pad-leds.c:487-527 *)
Definition leds_from_libwacom (d : device) (e : env) : option (list group) :=
  match by_path d with
  | None => None
  | Some w =>
      if (length (w_leds w) =? 0)%nat || negb (syspath d) then None
      else match led_groups d w e 0 (w_leds w) [] with
           | None => None
           | Some gs => match mode_buttons (w_buttons w) 0 (w_buttons w) gs with None => None | Some gs => Some (mode_leds (w_leds w) gs) end
           end
  end.
(** /repo/src/evdev-tablet-pad-leds.c:530-550 *)
Definition fallback_group : group := {| gix := 0; num_modes := 1; leds := 0; cur := 0; bmask := -1; rmask := -1; smask := -1; tmask := 0 |}.
(** /repo/src/evdev-tablet-pad.c:668-683, /repo/src/evdev-tablet-pad-leds.c:552-575, /repo/src/evdev-tablet-pad.c:731-751.  None: the device is not added *)
Definition create (d : device) (e : env) : option pad :=
  let '(m, n) := init_buttons d in
  if 32 <? n then None
  else Some {| ax_upd := false; pressed_upd := false; released_upd := false; changed := fun _ => false; bits := fun _ => false; prev := fun _ => false; bmap := m; nbuttons := n;
               misc_term := false; mode := 0; groups := match leds_from_libwacom d e with Some gs => gs | None => [fallback_group] end; lh := false; lh_want := false |}.
(** /repo/src/evdev-tablet-pad-leds.c:605-619, /repo/src/evdev-tablet-pad-leds.c:621-635 *)
Definition num_mode_groups (p : pad) : Z := Z.of_nat (length (groups p)).
Definition get_mode_group (p : pad) (i : Z) : option group := if num_mode_groups p <=? i then None else get_group (groups p) i.
