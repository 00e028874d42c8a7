(** What mouse reports should do. *)
From Verif Require Import Base UnicodeSpec InputMap InputMapSpec DefaultInputMap ConsoleInput ConsoleInputSpec.

(** xterm's button code: bit 6 the wheel, bit 5 motion, the low two bits the button (3:
    none, a release in the encodings that do not say which). *)
Definition is_wheel (r : mouse) : bool := has (mr_flags r) 64.
Definition button_of (r : mouse) : Z := mr_flags r mod 4.
(** Windows's bits: left 1, right 2, middle 4 *)
Definition button_bit (b : Z) : Z := if b =? 0 then 1 else if b =? 1 then 4 else 2.

(** The report is a button going down that was not down. *)
Definition new_press (c : ci) (r : mouse) : bool :=
  negb (is_wheel r) && negb (button_of r =? 3) && negb (mr_release r) && negb (has (c_buttons c) (button_bit (button_of r))).

(** A press: button bit, cell, and what the clock said while it was handled. *)
Definition presslog := list (Z * Z * Z * list Z).
(** The histories of the mouse state, with the presses so far, newest first.  Anything
    else that happens leaves buttons, double-click state and clock alone. *)
Inductive mouse_history : ci -> presslog -> Prop :=
| mh_init e clock : mouse_history (init_ci e clock) []
| mh_tok e t c c' l : mouse_history c l -> @applyTok unit e t c = Ok c' ->
    mouse_history c' (match t with
                      | TMouse r => if new_press c r then (button_bit (button_of r), mr_x r, mr_y r, [hd 0 (c_clock c); hd 0 (tl (c_clock c))]) :: l else l
                      | _ => l end)
| mh_other c c' l : mouse_history c l -> (c_buttons c', c_dc c', c_clock c') = (c_buttons c, c_dc c, c_clock c) -> mouse_history c' l.

(** The window rectangle is one a console can have. *)
Definition rect_ok (c : ci) : Prop :=
  -32768 <= c_left c <= c_right c /\ c_right c <= 32767 /\ c_right c - c_left c < 32767 /\
  -32768 <= c_top c <= c_bottom c /\ c_bottom c <= 32767 /\ c_bottom c - c_top c < 32767.

(** The buttons held after a report. *)
Definition buttons_after (r : mouse) (held : Z) : Z :=
  if is_wheel r then held else if button_of r =? 3 then 0
  else if mr_release r then Z.ldiff held (button_bit (button_of r)) else Z.lor held (button_bit (button_of r)).
(** The wheel's delta in the upper word of the record's button state: 120 up, -120 down *)
Definition wheel_delta (r : mouse) : Z := if is_wheel r then (if button_of r =? 0 then 120 else 2 ^ 16 - 120) * 2 ^ 16 else 0.
(** Reports for the console: the program asked for mouse input, quick-edit is off, and
    the wheel moved up or down (codes 66 and 67, sideways, are not passed on). *)
Definition reports (c : ci) (r : mouse) : bool := c_mouse c && negb (c_quick c) && negb (is_wheel r && (2 <=? button_of r)).
(** The point of the window nearest to the cell named. *)
Definition nearest (v lo hi : Z) : Z := lo + Z.max 0 (Z.min v (hi - lo)).
Definition mouse_keys (r : mouse) : Z :=
  (if has (mr_flags r) 4 then SHIFT_PRESSED else 0) + (if has (mr_flags r) 8 then LEFT_ALT_PRESSED else 0) + (if has (mr_flags r) 16 then LEFT_CTRL_PRESSED else 0).
