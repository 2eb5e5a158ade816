(** Key events of a keyboard: evdev-fallback.c, evdev.c, libinput.c.
    Bit masks and counter arrays are functions from event codes.  A failed
    assert() is the output [KAbort]; the process is then dead. *)
Require Import Coq.ZArith.ZArith Coq.Lists.List Coq.Bool.Bool.
Import ListNotations.
Open Scope Z_scope.

Definition KEY_CNT : Z := 768.
(** All event codes, ascending: [for (code = 0; code < KEY_CNT; code++)]. *)
Definition all_codes : list Z := map Z.of_nat (seq 0 768).

(** enum key_type, /repo/src/evdev-fallback.h:167-171 *)
Inductive key_type := TNone | TKey | TButton.

(** get_key_type, /repo/src/evdev-fallback.h:173-206, with the values of
    include/linux/linux/input-event-codes.h *)
Definition get_key_type (code : Z) : key_type :=
  if existsb (Z.eqb code)
       [320; 321; 322; 323; 324; (* BTN_TOOL_PEN RUBBER BRUSH PENCIL AIRBRUSH 0x140.. *)
        325; 326; 327; 328;      (* BTN_TOOL_FINGER MOUSE LENS QUINTTAP ..0x148 *)
        330;                     (* BTN_TOUCH 0x14a *)
        333; 334; 335]           (* BTN_TOOL_DOUBLETAP TRIPLETAP QUADTAP 0x14d.. *)
  then TNone
  else if (1 <=? code) && (code <=? 248) then TKey        (* KEY_ESC..KEY_MICMUTE *)
  else if (256 <=? code) && (code <=? 337) then TButton   (* BTN_MISC..BTN_GEAR_UP *)
  else if (352 <=? code) && (code <=? 542) then TKey      (* KEY_OK..KEY_LIGHTS_TOGGLE *)
  else if (544 <=? code) && (code <=? 547) then TButton   (* BTN_DPAD_UP..RIGHT *)
  else if (560 <=? code) && (code <? 704) then TKey       (* KEY_ALS_TOGGLE..<BTN_TRIGGER_HAPPY *)
  else if (704 <=? code) && (code <=? 743) then TButton   (* BTN_TRIGGER_HAPPY..40 *)
  else TNone.
Definition is_key (code : Z) : bool := match get_key_type code with TKey => true | _ => false end.
Definition is_button (code : Z) : bool := match get_key_type code with TButton => true | _ => false end.

Definition upd {A : Type} (f : Z -> A) (c : Z) (v : A) : Z -> A := fun x => if x =? c then v else f x.

(** evdev_update_key_down_count, /repo/src/evdev.c:112-134;
    key_count is uint8_t, [None] is a failed assert *)
Definition update_key_down_count (cnt : Z -> Z) (code : Z) (pressed : bool) : option ((Z -> Z) * Z) :=
  if negb ((0 <=? code) && (code <? KEY_CNT)) then None
  else if pressed then
    let n := (cnt code + 1) mod 256 in Some (upd cnt code n, n)
  else if cnt code <=? 0 then None
  else let n := cnt code - 1 in Some (upd cnt code n, n).

(** hw_key_mask and key_count, for the keys *)
Record kb := mkKB { k_hw : Z -> bool; k_cnt : Z -> Z; k_dead : bool }.
Definition kb_init : kb := mkKB (fun _ => false) (fun _ => 0) false.

Inductive kout := KKey (time code : Z) (pressed : bool) | KBug | KAbort.

(** fallback_keyboard_notify_key, /repo/src/evdev-fallback.c:34-48 *)
Definition notify_key (k : kb) (t code : Z) (pressed : bool) : kb * list kout :=
  match update_key_down_count (k_cnt k) code pressed with
  | None => (mkKB (k_hw k) (k_cnt k) true, [KAbort])
  | Some (cnt, n) =>
      (mkKB (k_hw k) cnt (k_dead k),
       if (pressed && (n =? 1)) || (negb pressed && (n =? 0)) then [KKey t code pressed] else [])
  end.

(** fallback_process_key, /repo/src/evdev-fallback.c:540-595, for keys *)
Definition process_key (k : kb) (t code value : Z) : kb * list kout :=
  if value =? 2 then (k, [])
  else match get_key_type code with
  | TKey =>
      if (negb (value =? 0) && k_hw k code) || ((value =? 0) && negb (k_hw k code)) then (k, [])
      else notify_key (mkKB (upd (k_hw k) code (negb (value =? 0))) (k_cnt k) (k_dead k))
                      t code (negb (value =? 0))
  | _ => (k, [])
  end.

(** release_pressed_keys, /repo/src/evdev-fallback.c:1101-1149, for keys *)
Fixpoint release_keys (k : kb) (t : Z) (codes : list Z) : kb * list kout :=
  match codes with
  | [] => (k, [])
  | c :: cs =>
      if k_cnt k c =? 0 then release_keys k t cs
      else if negb (is_key c) then release_keys k t cs
      else
        let bug := if 1 <? k_cnt k c then [KBug] else [] in
        let '(k1, o1) := notify_key k t c false in
        if k_dead k1 then (k1, bug ++ o1)
        else if negb (k_cnt k1 c =? 0) then (k1, bug ++ o1 ++ [KBug])
        else let '(k2, o2) := release_keys k1 t cs in (k2, bug ++ o1 ++ o2)
  end.

(** fallback_return_to_neutral_state, /repo/src/evdev-fallback.c:1151-1165,
    for keys; libinput_now() does not fail *)
Definition suspend_keys (k : kb) (t : Z) : kb * list kout :=
  let '(k1, o) := release_keys k t all_codes in
  (mkKB (if k_dead k1 then k_hw k1 else fun _ => false) (k_cnt k1) (k_dead k1), o).

Inductive kop := EvKey (time code value : Z) | Suspend (time : Z).
Definition kstep (k : kb) (o : kop) : kb * list kout :=
  if k_dead k then (k, [])
  else match o with EvKey t c v => process_key k t c v | Suspend t => suspend_keys k t end.
Fixpoint krun (k : kb) (ops : list kop) : kb * list kout :=
  match ops with
  | [] => (k, [])
  | o :: os => let '(k1, o1) := kstep k o in
               let '(k2, o2) := krun k1 os in (k2, o1 ++ o2)
  end.

(** ** Seat-wide counts: update_seat_key_count and update_seat_button_count,
    /repo/src/libinput.c:2160-2200.  Both use the same array of uint32_t. *)
Definition seat_count (cnt : Z -> Z) (code : Z) (pressed : bool) : (Z -> Z) * Z :=
  if pressed then let n := (cnt code + 1) mod 2 ^ 32 in (upd cnt code n, n)
  else if cnt code =? 0 then (cnt, 0)
  else let n := cnt code - 1 in (upd cnt code n, n).

(** The counts reported with a sequence of key and button events of all the
    devices of a seat. *)
Fixpoint seat_run (cnt : Z -> Z) (evs : list (Z * bool)) : (Z -> Z) * list Z :=
  match evs with
  | [] => (cnt, [])
  | (c, p) :: r => let '(cnt1, n) := seat_count cnt c p in
                   let '(cnt2, ns) := seat_run cnt1 r in (cnt2, n :: ns)
  end.
