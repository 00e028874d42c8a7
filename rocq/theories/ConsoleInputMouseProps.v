(** C13: mouse reports. *)
From Verif Require Import Base Text Unicode UnicodeSpec InputMap InputMapSpec DefaultInputMap DefaultInputMapSpec DefaultInputMapProofs
  ConsoleInput ConsoleInputSpec ConsoleInputKeysSpec ConsoleInputMouseSpec ConsoleInputProofs ConsoleInputProps ConsoleInputMouse.

(** Any report in any of the three encodings, written at a sequence boundary in any
    reachable state with a valid window: it is consumed whole; the held buttons change as
    the report says; and, if mouse input is wanted, exactly one record results, inside
    the window at the point nearest to the reported cell, with the buttons then held (and
    the wheel's delta), the modifier keys, and the right kind. *)
Theorem C13_report (E : Type) e now s r c : env_ok e -> reachable c -> c_queue c = [] -> rect_ok c -> mouse_seq s r -> zlen s <= 2 ^ 31 - 64 ->
  exists c', @writeInput E e now s c = Ok c' /\ c_queue c' = [] /\ c_buttons c' = buttons_after r (c_buttons c) /\
    (reports c r = false -> received (c_log c') = received (c_log c)) /\
    (reports c r = true -> exists f,
       let x := nearest (mr_x r) (c_left c) (c_right c) in let y := nearest (mr_y r) (c_top c) (c_bottom c) in
       received (c_log c') = received (c_log c) ++ [ORec (MouseRec x y (Z.lor (wheel_delta r) (c_buttons c')) (mouse_keys r) f)] /\
       c_left c <= x <= c_right c /\ c_top c <= y <= c_bottom c /\
       (is_wheel r = true -> f = MOUSE_WHEELED) /\
       (is_wheel r = false -> has f MOUSE_WHEELED = false /\ has f MOUSE_MOVED = has (mr_flags r) 32)).
Proof. exact (@mouse_arrives E e now s r c). Qed.
Print Assumptions C13_report.

(** Every state of the object has a history of presses ... *)
Theorem C13_history c : reachable c -> exists l, mouse_history c l.
Proof. exact (reachable_history c). Qed.
Print Assumptions C13_history.
(** ... and, whatever that history, a record marked as a double click comes from a
    button going down, when the press before it was of the same button in the same cell,
    less than the system's double-click time earlier. *)
Theorem C13_double_click e r c c' l x y b k f : mouse_history c l -> @applyTok unit e (TMouse r) c = Ok c' ->
  told c' = told c ++ [ORec (MouseRec x y b k f)] -> has f DOUBLE_CLICK = true ->
  new_press c r = true /\
  exists ts t0 l', l = (button_bit (button_of r), mr_x r, mr_y r, ts) :: l' /\ In t0 ts /\ (hd 0 (c_clock c) - t0) mod 2 ^ 32 < e_dcTime e.
Proof. exact (@double_click e r c c' l x y b k f). Qed.
Print Assumptions C13_double_click.

(** An 80x25 window at line 100 of the buffer, mouse input on: press, release and press
    again at column 3, row 2, then outside the window, then the wheel. *)
Definition ex_mouse_env : env := mkEnv 0x10 (e_vkscan ex_env) (e_mapvk ex_env) 500 (e_digit ex_env) (e_root ex_env).
Definition ex_mouse_ci : ci := set_rect 0 100 79 124 (init_ci ex_mouse_env [1000; 1400; 2000]).
Example C13_example : env_ok ex_mouse_env /\ reachable ex_mouse_ci /\ rect_ok ex_mouse_ci /\ c_queue ex_mouse_ci = [] /\ c_mouse ex_mouse_ci = true /\
  mouse_seq (27 :: str "[<0;4;3M") (mkMouse false 0 3 2) /\
  match @writeInput unit ex_mouse_env 0 ((27 :: str "[<0;4;3M") ++ (27 :: str "[<0;4;3m") ++ (27 :: str "[<0;4;3M") ++ (27 :: str "[<32;400;3M") ++ (27 :: str "[<65;1;1M")) ex_mouse_ci with
  | Ok c => received (c_log c) = map ORec
     [MouseRec 3 102 1 0 0; MouseRec 3 102 0 0 0; MouseRec 3 102 1 0 2; MouseRec 79 102 1 0 1; MouseRec 0 100 0xff880001 0 4]
  | _ => False end.
Proof.
  assert (EO : env_ok ex_mouse_env) by exact ex_env_ok.
  split; [exact EO|]. split; [|split; [unfold rect_ok; cbn; lia|split; [reflexivity|split; [reflexivity|split]]]].
  - eapply (reach_step ex_mouse_env (OpRect 0 100 79 124)); [exact EO| |apply reach_init; exact EO|reflexivity]. split; [constructor|cbn; lia].
  - assert (D : forall b, 48 <= b <= 57 -> digits [b]) by (intros b Hb; split; [cbn; lia|repeat constructor; lia]).
    exact (ms_sgr [48] [52] 4 [51] 3 77 (D 48 ltac:(lia)) (sn_pos [52] (D 52 ltac:(lia))) (sn_pos [51] (D 51 ltac:(lia))) (or_introl eq_refl)).
  - vm_compute. reflexivity.
Qed.
(** Coordinates are kept in 16 bits, so a report from beyond column 32768 is not placed
    at the window's right edge: column 65537 counts as column 1. *)
Theorem C13_wrap_refuted : exists s r c c' x y b k f, env_ok ex_mouse_env /\ reachable c /\ rect_ok c /\ c_queue c = [] /\ mouse_seq s r /\
  s = 27 :: str "[<0;65537;1M" /\ @writeInput unit ex_mouse_env 0 s c = Ok c' /\
  received (c_log c') = [ORec (MouseRec x y b k f)] /\ nearest (65537 - 1) (c_left c) (c_right c) = 79 /\ x = 0.
Proof.
  exists (27 :: str "[<0;65537;1M"), (mkMouse false 0 0 0), ex_mouse_ci. destruct C13_example as (E1 & E2 & E3 & E4 & _).
  destruct (@writeInput unit ex_mouse_env 0 (27 :: str "[<0;65537;1M") ex_mouse_ci) as [c'| | | |] eqn:W; try (vm_compute in W; discriminate).
  assert (R : match @writeInput unit ex_mouse_env 0 (27 :: str "[<0;65537;1M") ex_mouse_ci with Ok c => received (c_log c) = [ORec (MouseRec 0 100 1 0 0)] | _ => False end) by (vm_compute; reflexivity).
  rewrite W in R. exists c', 0, 100, 1, 0, 0. do 4 (split; [assumption|]). split; [|split; [reflexivity|split; [reflexivity|split; [exact R|split; reflexivity]]]].
  assert (D : digits [48] /\ digits [54; 53; 53; 51; 55] /\ digits [49]) by (unfold digits; repeat split; try (cbn; lia); repeat constructor; lia).
  destruct D as (D1 & D2 & D3).
  exact (ms_sgr [48] [54; 53; 53; 51; 55] 65537 [49] 1 77 D1 (sn_pos _ D2) (sn_pos _ D3) (or_introl eq_refl)).
Qed.
Print Assumptions C13_wrap_refuted.
