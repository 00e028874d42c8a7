(** C10, C11, C13, C14, C41, C43: Ctrl+C, Alt characters, the query, double clicks and
    the mouse mode. *)
From Verif Require Import Base Text Unicode UnicodeSpec InputMap InputMapSpec DefaultInputMap DefaultInputMapSpec DefaultInputMapProofs
  ConsoleInput ConsoleInputSpec ConsoleInputKeysSpec ConsoleInputMouseSpec ConsoleInputProofs ConsoleInputMore ConsoleInputProps ConsoleInputKeysProps ConsoleInputMouseProps.

(** C10.  Ctrl+C typed while the console is in processed input mode interrupts the
    programs, and nothing else. *)
Theorem C10_ctrl_c (E : Type) e now c : env_ok e -> reachable c -> c_queue c = [] -> has (e_mode e) ENABLE_PROCESSED_INPUT = true ->
  exists c', @writeInput E e now [3] c = Ok c' /\ c_queue c' = [] /\ received (c_log c') = received (c_log c) ++ [OCtrlC].
Proof. exact (ctrl_c e now c). Qed.
Print Assumptions C10_ctrl_c.
Example C10_ctrl_c_example : has (e_mode ex_env) ENABLE_PROCESSED_INPUT = true /\ reachable ex_ci /\ c_queue ex_ci = [].
Proof. split; [reflexivity|split; [exact ex_reachable|reflexivity]]. Qed.

(** C11.  ESC and a character other than [[], [O] and the control characters is at once
    taken for the character typed with Alt. *)
Theorem C11_alt (E : Type) e now cp c : env_ok e -> reachable c -> c_queue c = [] -> scalar cp -> 32 <= cp -> ~ In cp [79; 91; 127] ->
  exists c' c1, @writeInput E e now (27 :: utf8_form cp) c = Ok c' /\ c_queue c' = [] /\ @applyTok E e (TChar cp true) c = Ok c1 /\ received (c_log c') = told c1.
Proof. exact (alt_char e now cp c). Qed.
Print Assumptions C11_alt.
(** Alt+A on a layout where it takes Shift *)
Example C11_alt_example :
  match @writeInput unit ex_layout 0 (27 :: utf8_form 65) ex_ci with
  | Ok c => received (c_log c) = map ORec
      [KeyRec true 18 18 0 2; KeyRec true 16 16 0 18; KeyRec true 65 65 65 18; KeyRec false 65 65 0 18; KeyRec false 16 16 0 2; KeyRec false 18 18 0 0]
  | _ => False end.
Proof. vm_compute. reflexivity. Qed.

(** C43.  In VT input mode a character is read as itself, with ESC in front if Alt is
    held. *)
Theorem C43_char (E : Type) e cp alt c : scalar cp -> 32 <= cp -> c_esc c = true -> plain_layout e ->
  exists c' rs, @applyTok E e (TChar cp alt) c = Ok c' /\ told c' = told c ++ map ORec rs /\ vt_read rs = (if alt then [27] else []) ++ utf16_form cp.
Proof. exact (vt_char e cp alt c). Qed.
Print Assumptions C43_char.
Example C43_char_example : plain_layout ex_vt /\ c_esc (init_ci ex_vt []) = true /\
  match @writeInput unit ex_vt 0 (27 :: utf8_form 233) (init_ci ex_vt []) with
  | Ok c => received (c_log c) = map ORec [KeyRec true 18 18 0 2; KeyRec true 0 0 27 0; KeyRec true 0 0 233 0; KeyRec false 0 0 0 2; KeyRec false 18 18 0 0]
  | _ => False end.
Proof. split; [intros c _ H; exfalso; apply H; reflexivity|]. split; vm_compute; reflexivity. Qed.

(** C14.  Whenever a write leaves input held back, a query is outstanding; it is sent then
    if none was before; and if nothing is held back none is sent. *)
Theorem C14_asked (E : Type) e now data c : env_ok e -> reachable c -> InputMapSpec.bytes data -> zlen data <= 2 ^ 31 - 64 -> data <> [] ->
  exists c', @writeInput E e now data c = Ok c' /\
    (c_queue c' <> [] -> c_dsrSent c' = true /\ (c_dsrSent c = false -> queries (c_log c') = queries (c_log c) + 1)) /\
    (c_queue c' = [] -> queries (c_log c') = queries (c_log c)) /\ queries (c_log c') <= queries (c_log c) + 1.
Proof. exact (asked e now data c). Qed.
Print Assumptions C14_asked.
(** After a lone ESC the terminal is asked; after ESC [ A it is not. *)
Example C14_asked_example :
  (match @writeInput unit ex_env 0 [27] ex_ci with Ok c => c_queue c = [27] /\ queries (c_log c) = 1 | _ => False end) /\
  (match @writeInput unit ex_env 0 [27; 91; 65] ex_ci with Ok c => c_queue c = [] /\ queries (c_log c) = 0 | _ => False end).
Proof. vm_compute. split; split; reflexivity. Qed.

(** C13.  A press that was not itself the second of a double click, the release (a named
    one of the same button, or one that names no button) and another press of that button
    in the same cell, each clock reading of the first press less than the double-click
    time before that of the second: the second is reported as a double click. *)
Theorem C13_double_click_seen e r r' r2 c c1 c2 c3 x y b k f :
  new_press c r = true -> @applyTok unit e (TMouse r) c = Ok c1 -> told c1 = told c ++ [ORec (MouseRec x y b k f)] -> has f DOUBLE_CLICK = false ->
  is_wheel r' = false -> button_of r' = 3 \/ (mr_release r' = true /\ button_of r' = button_of r) -> @applyTok unit e (TMouse r') c1 = Ok c2 ->
  new_press c2 r2 = true -> button_of r2 = button_of r -> mr_x r2 = mr_x r -> mr_y r2 = mr_y r ->
  (forall t, In t (firstn 2 (c_clock c)) -> (hd 0 (c_clock c2) - t) mod 2 ^ 32 < e_dcTime e) -> (2 <= length (c_clock c))%nat ->
  @applyTok unit e (TMouse r2) c2 = Ok c3 ->
  exists x' y' b' k' f', told c3 = told c2 ++ [ORec (MouseRec x' y' b' k' f')] /\ has f' DOUBLE_CLICK = true.
Proof. exact (double_click_seen e r r' r2 c c1 c2 c3 x y b k f). Qed.
Print Assumptions C13_double_click_seen.
(** The press, the release and the press of C13_example *)
Example C13_double_click_seen_example :
  let r := mkMouse false 0 3 2 in let r' := mkMouse true 0 3 2 in
  let c := set_rect 0 100 79 124 (init_ci ex_mouse_env [1000; 1400; 1450]) in
  new_press c r = true /\ is_wheel r' = false /\ mr_release r' = true /\
  match @applyTok unit ex_mouse_env (TMouse r) c with
  | Ok c1 => told c1 = told c ++ [ORec (MouseRec 3 102 1 0 0)] /\
      match @applyTok unit ex_mouse_env (TMouse r') c1 with
      | Ok c2 => new_press c2 r = true /\ c_clock c2 = [1400; 1450] /\
          forallb (fun t => (hd 0 (c_clock c2) - t) mod 2 ^ 32 <? e_dcTime ex_mouse_env) (firstn 2 (c_clock c)) = true
      | _ => False end
  | _ => False end.
Proof. vm_compute. repeat split; reflexivity. Qed.

(** C13.  The press after a double click is not reported as another one. *)
Theorem C13_triple_click e r r' r2 c c1 c2 c3 x y b k f x2 y2 b2 k2 f2 :
  @applyTok unit e (TMouse r) c = Ok c1 -> told c1 = told c ++ [ORec (MouseRec x y b k f)] -> has f DOUBLE_CLICK = true ->
  new_press c1 r' = false -> @applyTok unit e (TMouse r') c1 = Ok c2 ->
  @applyTok unit e (TMouse r2) c2 = Ok c3 -> told c3 = told c2 ++ [ORec (MouseRec x2 y2 b2 k2 f2)] -> has f2 DOUBLE_CLICK = false.
Proof. exact (triple_click e r r' r2 c c1 c2 c3 x y b k f x2 y2 b2 k2 f2). Qed.
Print Assumptions C13_triple_click.
(** Three clicks in 300 ms: the second is a double click, the third is not. *)
Example C13_triple_click_example :
  let p := 27 :: str "[<0;4;3M" in let u := 27 :: str "[<0;4;3m" in
  match @writeInput unit ex_mouse_env 0 (p ++ u ++ p ++ u ++ p) (set_rect 0 100 79 124 (init_ci ex_mouse_env [1000; 1100; 1200; 1300])) with
  | Ok c => received (c_log c) = map ORec [MouseRec 3 102 1 0 0; MouseRec 3 102 0 0 0; MouseRec 3 102 1 0 2; MouseRec 3 102 0 0 0; MouseRec 3 102 1 0 0]
  | _ => False end.
Proof. vm_compute. reflexivity. Qed.

(** C41, C43.  The console's mode word is followed: at every poll mouse input is bit 4 of
    it, quick edit bit 6, extended flags bit 7 and VT input bit 9, and nothing else
    changes them. *)
Theorem C43_mode (E : Type) e o c c' : env_ok e -> op_ok o -> reachable c -> @run_op E e o c = Ok c' ->
  match o with
  | OpPoll _ => c_esc c' = Z.testbit (e_mode e) 9 /\ c_mouse c' = Z.testbit (e_mode e) 4 /\ c_quick c' = Z.testbit (e_mode e) 6 /\ c_ext c' = Z.testbit (e_mode e) 7
  | _ => c_esc c' = c_esc c /\ c_mouse c' = c_mouse c /\ c_quick c' = c_quick c /\ c_ext c' = c_ext c
  end.
Proof. exact (modes_followed e o c c'). Qed.
Print Assumptions C43_mode.
Example C43_mode_example :
  match @run_op unit ex_vt (OpPoll 5) ex_ci with Ok c => c_esc ex_ci = false /\ c_esc c = true | _ => False end.
Proof. vm_compute. split; reflexivity. Qed.

(** C41.  Whether terminal mouse reports are wanted, after reading the console's mode
    word (bit 4 mouse input, bit 6 quick edit, bit 7 extended flags valid): never in mode
    none, always in mode force, and in mode auto while the program has asked for mouse
    input and switched quick edit off. *)
Theorem C41_wanted e c mouseMode :
  let on := Z.testbit (e_mode e) in
  shouldActivateTerminalMouse mouseMode (updateInputFlags e c) =
    if mouseMode =? 1 then on 4 && negb (on 6) && on 7 else mouseMode =? 2.
Proof.
  assert (H : forall k, 0 <= k -> has (e_mode e) (2 ^ k) = Z.testbit (e_mode e) k) by (intros; now apply ConsoleInputKeys.has_testbit).
  cbv zeta. unfold shouldActivateTerminalMouse, updateInputFlags. cbn [set_modes c_mouse c_quick c_ext].
  change ENABLE_MOUSE_INPUT with (2 ^ 4). change ENABLE_QUICK_EDIT_MODE with (2 ^ 6). change ENABLE_EXTENDED_FLAGS with (2 ^ 7).
  rewrite !H by lia. reflexivity.
Qed.
Print Assumptions C41_wanted.
(** The mode the agent sets at the start: quick edit on in mode auto, off in the others
    (where mouse input either is not wanted or always is), insert mode and extended flags
    on, the rest as it was; so no mouse reports are asked for in mode auto until the
    program switches quick edit off. *)
Theorem C41_start mouseMode mode k : 0 <= k ->
  Z.testbit (initialMode mouseMode mode) k =
    if (k =? 5) || (k =? 7) then true else if k =? 6 then mouseMode =? 1 else Z.testbit mode k.
Proof.
  intros Hk. unfold initialMode. change WINPTY_MOUSE_MODE_AUTO with 1.
  change ENABLE_QUICK_EDIT_MODE with (2 ^ 6). change ENABLE_EXTENDED_FLAGS with (2 ^ 7). change 0x20 with (2 ^ 5).
  destruct (mouseMode =? 1); rewrite ?Z.lor_spec, ?Z.ldiff_spec, ?Z.lor_spec, !Z.pow2_bits_eqb by lia;
    destruct (Z.eqb_spec 7 k), (Z.eqb_spec 5 k), (Z.eqb_spec 6 k), (Z.eqb_spec k 5), (Z.eqb_spec k 7), (Z.eqb_spec k 6); try lia; destruct (Z.testbit mode k); reflexivity.
Qed.
Print Assumptions C41_start.
(** A program that enables mouse input and extended flags without quick edit gets it;
    bash's mode word, without extended flags, does not. *)
Example C41_wanted_example : let m x := mkEnv x (e_vkscan ex_env) (e_mapvk ex_env) 500 (e_digit ex_env) droot in
  shouldActivateTerminalMouse 1 (updateInputFlags (m 0x90) ex_ci) = true /\ shouldActivateTerminalMouse 1 (updateInputFlags (m 0x10) ex_ci) = false /\
  shouldActivateTerminalMouse 1 (updateInputFlags (m (initialMode 1 0x1B7)) ex_ci) = false.
Proof. vm_compute. repeat split; reflexivity. Qed.
