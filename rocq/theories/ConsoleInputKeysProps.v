(** C08, C11, C12, C43: what keys and text make the console receive. *)
From Verif Require Import Base Text Unicode UnicodeSpec InputMap InputMapSpec DefaultInputMap DefaultInputMapSpec DefaultInputMapProofs
  ConsoleInput ConsoleInputSpec ConsoleInputKeysSpec ConsoleInputProofs ConsoleInputProps ConsoleInputKeys.

(** ** C11 *)
(** Any text without control characters, written whole at a sequence boundary in any
    reachable state: only key records result, and their characters are, for each
    character of the text in turn, its UTF-16 units going down and then going up.  In VT
    input mode the layout must not produce text characters with the keys (cursor,
    function, Backspace, Tab) that mode re-encodes. *)
Theorem C11_text (E : Type) e now cps c : env_ok e -> reachable c -> c_queue c = [] -> (c_esc c = true -> plain_layout e) ->
  Forall (fun cp => scalar cp /\ 32 <= cp /\ cp <> 127) cps -> zlen (flat_map utf8_form cps) <= 2 ^ 31 - 64 ->
  exists c' rs, @writeInput E e now (flat_map utf8_form cps) c = Ok c' /\ c_queue c' = [] /\
    received (c_log c') = received (c_log c) ++ map ORec rs /\ Forall is_keyrec rs /\
    chars rs = flat_map (fun cp => map (pair true) (utf16_form cp) ++ map (pair false) (utf16_form cp)) cps.
Proof. exact (@text_arrives E e now cps c). Qed.
Print Assumptions C11_text.
(** A layout on which capital letters are typed with Shift *)
Definition ex_layout : env :=
  mkEnv 0x1F7 (fun c => if (65 <=? c) && (c <=? 90) then 256 + c else if (97 <=? c) && (c <=? 122) then c - 32 else -1) (fun v => v) 500 (fun _ => false) droot.
Example C11_example : plain_layout ex_layout /\
  match @writeInput unit ex_layout 0 (flat_map utf8_form [65; 233; 0x1F600]) ex_ci with
  | Ok c => received (c_log c) = map ORec
      [KeyRec true 16 16 0 16; KeyRec true 65 65 65 16; KeyRec false 65 65 65 16; KeyRec false 16 16 0 0;
       KeyRec true 0 0 233 0; KeyRec false 0 0 233 0;
       KeyRec true 0 0 0xD83D 0; KeyRec true 0 0 0xDE00 0; KeyRec false 0 0 0xD83D 0; KeyRec false 0 0 0xDE00 0]
  | _ => False end.
Proof.
  split; [|vm_compute; reflexivity]. intros c Hc. cbn [e_vkscan ex_layout].
  assert (S : forall x, 65 <= x <= 90 -> forall y, Z.land y 255 = x -> escapeCode (Z.land y 255) = EscNone /\ Z.land y 255 <> VK_BACK /\ Z.land y 255 <> VK_TAB).
  { intros x Hx y ->. unfold VK_BACK, VK_TAB. split; [|lia]. unfold escapeCode.
    repeat match goal with |- (if ?a =? ?b then _ else _) = _ => let v := eval compute in b in change b with v; replace (a =? v) with false by lia; cbv iota end. reflexivity. }
  destruct ((65 <=? c) && (c <=? 90)) eqn:H1; [|destruct ((97 <=? c) && (c <=? 122)) eqn:H2; [|intros H; exfalso; now apply H]]; intros _.
  - apply (S c); [lia|]. change 255 with (Z.ones 8). rewrite Z.land_ones by lia. change (2 ^ 8) with 256. replace (256 + c) with (c + 1 * 256) by lia. rewrite Z.mod_add by lia. apply Z.mod_small. lia.
  - apply (S (c - 32)); [lia|]. change 255 with (Z.ones 8). rewrite Z.land_ones by lia. apply Z.mod_small. lia.
Qed.

(** ** C08, C12 *)
(** A documented key sequence, except the three shadowed ones, written at a sequence
    boundary, is the key's complete stroke: the modifier keys go down in turn, the key
    goes down and up, the modifiers come up in reverse order, each record shows the
    modifiers then down, and none is down at the end. *)
Theorem C12_key (E : Type) e now s k c : env_ok e -> reachable c -> c_queue c = [] -> c_esc c = false ->
  means_key s k -> ~ shadowed (has (e_mode e) ENABLE_PROCESSED_INPUT) s ->
  let ks := keyState k in
  let dn := if has ks LEFT_CTRL_PRESSED && has ks LEFT_ALT_PRESSED then 0 else unicodeChar k in
  let up := if has ks LEFT_ALT_PRESSED then 0 else unicodeChar k in
  let rs := keystroke e (virtualKey k) dn up ks in
  exists c', @writeInput E e now s c = Ok c' /\ c_queue c' = [] /\ received (c_log c') = received (c_log c) ++ map ORec rs /\ follow 0 rs = Some 0.
Proof. exact (@key_stroke E e now s k c). Qed.
Print Assumptions C12_key.
(** Ctrl+Shift+Left *)
Example C12_key_example : keystroke ex_env 0x25 0 0 (256 + 16 + 8) =
  [KeyRec true 0x11 0x11 0 8; KeyRec true 0x10 0x10 0 24; KeyRec true 0x25 0x25 0 280; KeyRec false 0x25 0x25 0 280;
   KeyRec false 0x10 0x10 0 8; KeyRec false 0x11 0x11 0 0] /\
  means_key (27 :: str "[1;6D") (mkKey 0x25 0 (256 + 16 + 8)) /\ c_esc ex_ci = false /\ c_queue ex_ci = [].
Proof.
  split; [vm_compute; reflexivity|]. split; [|split; reflexivity]. exists KLeft, (mkMods true false true). split; [|reflexivity].
  apply nth_error_In with (n := 59%nat). vm_compute. reflexivity.
Qed.
(** [follow] notices a modifier left down, or a wrong control state. *)
Example C12_follow_example :
  follow 0 [KeyRec true 0x11 0x11 0 8; KeyRec true 0x25 0x25 0 264; KeyRec false 0x25 0x25 0 264] = Some 8 /\
  follow 0 [KeyRec true 0x11 0x11 0 8; KeyRec true 0x25 0x25 0 256] = None.
Proof. vm_compute. auto. Qed.
(** Characters, with and without Alt (and whatever Shift, Ctrl, AltGr the layout asks for). *)
Theorem C12_char (E : Type) e cp alt c : scalar cp -> c_esc c = false ->
  let rs := keystroke e (layout_key e cp) (if alt && has (layout_mods e cp) LEFT_CTRL_PRESSED then 0 else cp) (if alt then 0 else cp)
              (layout_mods e cp + (if alt then LEFT_ALT_PRESSED else 0)) in
  exists c', @applyTok E e (TChar cp alt) c = Ok c' /\ told c' = told c ++ map ORec rs /\
  (no_modifier (layout_key e cp) -> follow 0 rs = Some 0).
Proof. exact (char_stroke e cp alt c). Qed.
Print Assumptions C12_char.
(** In VT input mode: window messages, or the same nesting of modifiers around the
    re-encoded characters. *)
Theorem C12_vt (E : Type) e t c : c_esc c = true ->
  (exists s k, t = TKey k /\ means_key s k) \/ (exists cp alt, t = TChar cp alt /\ scalar cp) ->
  exists c' out, @applyTok E e t c = Ok c' /\ told c' = told c ++ out /\ vt_shape e out.
Proof. exact (@vt_stroke E e t c). Qed.
Print Assumptions C12_vt.

(** At a sequence boundary a documented sequence is taken for its key, whatever the
    console mode. *)
Theorem C08_delivered (E : Type) e now s k c : env_ok e -> reachable c -> c_queue c = [] -> means_key s k ->
  ~ shadowed (has (e_mode e) ENABLE_PROCESSED_INPUT) s ->
  exists c' c1, @writeInput E e now s c = Ok c' /\ c_queue c' = [] /\ @applyTok E e (TKey k) c = Ok c1 /\ received (c_log c') = told c1.
Proof. exact (@delivered E e now s k c). Qed.
Print Assumptions C08_delivered.

(** ** C43 *)
Definition ex_vt : env := mkEnv 0x3F7 (fun _ => -1) (fun v => v) 500 (fun _ => false) droot.
(** Cursor, function, editing keys, Tab, Backspace and Ctrl+C: unmodified cursor keys,
    Home and End are sent as window messages for that key; every other documented key
    becomes characters that are themselves a documented sequence of the same key with the
    same modifiers. *)
Theorem C43_reencoded (E : Type) e n m s c : env_ok e -> In (s, n, m) documented -> plain_key n = false -> c_esc c = true ->
  (exists c', m = no_mods /\ message_key (vk_of n) /\
     @applyTok E e (TKey (press n m)) c = Ok c' /\ told c' = told c ++ messages e (vk_of n)) \/
  (exists c' rs, @applyTok E e (TKey (press n m)) c = Ok c' /\ told c' = told c ++ map ORec rs /\ means_key (vt_read rs) (press n m)).
Proof. exact (@reencoded E e n m s c). Qed.
Print Assumptions C43_reencoded.
(** rxvt's Shift+F5 becomes xterm's *)
Example C43_example : c_esc (init_ci ex_vt []) = true /\
  match @writeInput unit ex_vt 0 (27 :: str "[28~") (init_ci ex_vt []) with
  | Ok c => received (c_log c) = map ORec ([KeyRec true 16 16 0 16] ++ map (fun x => KeyRec true 0 0 x 0) (27 :: str "[15;2~") ++ [KeyRec false 0x74 0x74 0 16; KeyRec false 16 16 0 0])
  | _ => False end.
Proof. vm_compute. auto. Qed.
(** Enter and the keypad operators become the character they type, after ESC if Alt is
    held. *)
Theorem C43_plain (E : Type) e n m s c : In (s, n, m) documented -> plain_key n = true -> c_esc c = true ->
  exists c' rs, @applyTok E e (TKey (press n m)) c = Ok c' /\ told c' = told c ++ map ORec rs /\
    vt_read rs = if char_of n m =? 0 then [] else (if m_alt m then [27] else []) ++ [char_of n m].
Proof. exact (@reencoded_plain E e n m s c). Qed.
Print Assumptions C43_plain.
(** So a keypad operator with Ctrl is lost: nothing at all can be read. *)
Theorem C43_ctrl_keypad_refuted : exists s m c rs, In (s, KMultiply, m) documented /\
  @writeInput unit ex_vt 0 s (init_ci ex_vt []) = Ok c /\ received (c_log c) = map ORec rs /\ vt_read rs = [].
Proof.
  exists (27 :: str "O5j"), with_ctrl. destruct (@writeInput unit ex_vt 0 (27 :: str "O5j") (init_ci ex_vt [])) as [c| | | |] eqn:H; try (vm_compute in H; discriminate).
  exists c. vm_compute in H. injection H as <-.
  eexists [_; _; _]. split; [|split; [reflexivity|split; [reflexivity|reflexivity]]].
  apply nth_error_In with (n := 378%nat). vm_compute. reflexivity.
Qed.
Print Assumptions C43_ctrl_keypad_refuted.
