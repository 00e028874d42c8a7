(** Model of agent/ConsoleInput.cc, ConsoleInput.h and ConsoleInputReencoding.cc: the
    decoding of terminal input into console input records.  A [char] is a byte 0..255;
    where the code uses its signed value, [schar] gives it.  Tracing is left out: it has
    no effect on anything observable here (hasDebugFlag and trace are modelled in C39). *)
From Verif Require Import Base Text Unicode InputMap DefaultInputMap.

(** The KEY_EVENT_RECORD and MOUSE_EVENT_RECORD fields the code sets; repeat count 1. *)
Inductive irec :=
| KeyRec (down : bool) (vk scan ch ks : Z)
| MouseRec (x y buttons ctrl flags : Z).

(** Calls into Windows that deliver input, in order; [EvDsr] is DsrSender::sendDsr. *)
Inductive ev :=
| EvWrite (rs : list irec)                 (* WriteConsoleInputW *)
| EvCtrlC                                  (* GenerateConsoleCtrlEvent(CTRL_C_EVENT, 0) *)
| EvKeyMsg (down : bool) (vk lparam : Z)   (* SendMessage(hwnd, WM_KEYDOWN/WM_KEYUP, ..) *)
| EvDsr.

(** What Windows and the C library answer. *)
Record env := mkEnv {
  e_mode : Z;               (* GetConsoleMode(conin); 0 if it fails (ConsoleInput.cc:844-852) *)
  e_vkscan : Z -> Z;        (* VkKeyScanW: a short *)
  e_mapvk : Z -> Z;         (* MapVirtualKeyW(vk, MAPVK_VK_TO_VSC) *)
  e_dcTime : Z;             (* GetDoubleClickTime() *)
  e_digit : Z -> bool;      (* isdigit of a negative char: outside its domain *)
  e_root : node             (* m_inputMap, filled in by the constructor *)
}.

(** DoubleClickDetection, ConsoleInput.h:98-103 *)
Record dclick := mkDc { dc_button : Z; dc_x : Z; dc_y : Z; dc_tick : Z; dc_released : bool }.
Definition dc0 := mkDc 0 0 0 0 false.

(** ConsoleInput's members, ConsoleInput.h:86-109.  [c_records] is the local vector of
    doWrite, [c_log] what Windows has been told, [c_clock] the coming answers of
    GetTickCount in scanMouseInput. *)
Record ci := mkCi {
  c_queue : list Z; c_dsrSent : bool; c_lastWrite : Z;
  c_buttons : Z; c_dc : dclick;
  c_ext : bool; c_mouse : bool; c_quick : bool; c_esc : bool;
  c_left : Z; c_top : Z; c_right : Z; c_bottom : Z;
  c_records : list irec; c_log : list ev; c_clock : list Z }.

Definition set_queue q c := mkCi q (c_dsrSent c) (c_lastWrite c) (c_buttons c) (c_dc c) (c_ext c) (c_mouse c) (c_quick c) (c_esc c) (c_left c) (c_top c) (c_right c) (c_bottom c) (c_records c) (c_log c) (c_clock c).
Definition set_dsr b c := mkCi (c_queue c) b (c_lastWrite c) (c_buttons c) (c_dc c) (c_ext c) (c_mouse c) (c_quick c) (c_esc c) (c_left c) (c_top c) (c_right c) (c_bottom c) (c_records c) (c_log c) (c_clock c).
Definition set_last t c := mkCi (c_queue c) (c_dsrSent c) t (c_buttons c) (c_dc c) (c_ext c) (c_mouse c) (c_quick c) (c_esc c) (c_left c) (c_top c) (c_right c) (c_bottom c) (c_records c) (c_log c) (c_clock c).
Definition set_mstate b d k c := mkCi (c_queue c) (c_dsrSent c) (c_lastWrite c) b d (c_ext c) (c_mouse c) (c_quick c) (c_esc c) (c_left c) (c_top c) (c_right c) (c_bottom c) (c_records c) (c_log c) k.
Definition set_out rs l c := mkCi (c_queue c) (c_dsrSent c) (c_lastWrite c) (c_buttons c) (c_dc c) (c_ext c) (c_mouse c) (c_quick c) (c_esc c) (c_left c) (c_top c) (c_right c) (c_bottom c) rs l (c_clock c).
Definition set_modes ee mi qe ei c := mkCi (c_queue c) (c_dsrSent c) (c_lastWrite c) (c_buttons c) (c_dc c) ee mi qe ei (c_left c) (c_top c) (c_right c) (c_bottom c) (c_records c) (c_log c) (c_clock c).

Definition set_rect l t r b c := mkCi (c_queue c) (c_dsrSent c) (c_lastWrite c) (c_buttons c) (c_dc c) (c_ext c) (c_mouse c) (c_quick c) (c_esc c) l t r b (c_records c) (c_log c) (c_clock c).

Definition push (r : irec) (c : ci) : ci := set_out (c_records c ++ [r]) (c_log c) c.
Definition emit (e : ev) (c : ci) : ci := set_out (c_records c) (c_log c ++ [e]) c.

(** flushInputRecords, ConsoleInput.cc:349-359 *)
Definition flushInputRecords (c : ci) : ci :=
  match c_records c with
  | [] => c
  | rs => set_out [] (c_log c ++ [EvWrite rs]) c
  end.

(** appendInputRecord, ConsoleInput.cc:826-842; wVirtualScanCode is a WORD *)
Definition appendInputRecord (e : env) (c : ci) (down : bool) (vk ch ks : Z) : ci :=
  push (KeyRec down vk (u16 (e_mapvk e vk)) ch ks) c.

(** appendCPInputRecords, ConsoleInput.cc:748-824 *)
Definition appendCPInputRecords (e : env) (c : ci) (down : bool) (vk codePoint ks : Z) : ci :=
  match encodeUtf16 codePoint with
  | [a] => appendInputRecord e c down vk a ks
  | [a; b] => appendInputRecord e (appendInputRecord e c down vk a ks) down vk b ks
  | _ => c
  end.

(** outch, ConsoleInputReencoding.cc:27-29 *)
Definition outch (e : env) (c : ci) (ch : Z) : ci := appendInputRecord e c true 0 ch 0.
Fixpoint outs (e : env) (c : ci) (s : list Z) : ci := match s with [] => c | x :: t => outs e (outch e c x) t end.

(** The first switch of reencodeEscapedKeyPress, ConsoleInputReencoding.cc:45-69 *)
Inductive escKey := EscNone | EscNumeric (s : list Z) | EscLetter (ch : Z).
Definition escapeCode (vk : Z) : escKey :=
  if vk =? VK_UP then EscLetter (ch "A") else if vk =? VK_DOWN then EscLetter (ch "B")
  else if vk =? VK_RIGHT then EscLetter (ch "C") else if vk =? VK_LEFT then EscLetter (ch "D")
  else if vk =? VK_CLEAR then EscLetter (ch "E")
  else if vk =? VK_F1 then EscNumeric (str "11") else if vk =? VK_F2 then EscNumeric (str "12")
  else if vk =? VK_F3 then EscNumeric (str "13") else if vk =? VK_F4 then EscNumeric (str "14")
  else if vk =? VK_F5 then EscNumeric (str "15") else if vk =? VK_F6 then EscNumeric (str "17")
  else if vk =? VK_F7 then EscNumeric (str "18") else if vk =? VK_F8 then EscNumeric (str "19")
  else if vk =? VK_F9 then EscNumeric (str "20") else if vk =? VK_F10 then EscNumeric (str "21")
  else if vk =? VK_F11 then EscNumeric (str "23") else if vk =? VK_F12 then EscNumeric (str "24")
  else if vk =? VK_HOME then EscLetter (ch "H") else if vk =? VK_INSERT then EscNumeric (str "2")
  else if vk =? VK_DELETE then EscNumeric (str "3") else if vk =? VK_END then EscLetter (ch "F")
  else if vk =? VK_PRIOR then EscNumeric (str "5") else if vk =? VK_NEXT then EscNumeric (str "6")
  else EscNone.

(** reencodeEscapedKeyPress, ConsoleInputReencoding.cc:33-121 *)
Definition reencodeEscapedKeyPress (e : env) (c : ci) (vk codePoint ks : Z) : ci :=
  let flags := Z.lor (Z.lor (if has ks SHIFT_PRESSED then 1 else 0) (if has ks LEFT_ALT_PRESSED then 2 else 0))
                     (if has ks LEFT_CTRL_PRESSED then 4 else 0) in
  let mods := if flags =? 0 then [] else [ch ";"; 49 + flags] in
  let plain (c : ci) :=
    if codePoint =? 0 then c
    else let c := if has ks LEFT_ALT_PRESSED then outch e c 27 else c in
         appendCPInputRecords e c true 0 codePoint 0 in
  match escapeCode vk with
  | EscNumeric s => outs e c ([27; ch "["] ++ s ++ mods ++ [ch "~"])
  | EscLetter l => outs e c ([27; ch "["] ++ (if flags =? 0 then [] else [ch "1"]) ++ mods ++ [l])
  | EscNone =>
      if vk =? VK_BACK then
        let c := if has ks LEFT_ALT_PRESSED then outch e c 27 else c in outch e c 127
      else if vk =? VK_TAB then
        if has ks SHIFT_PRESSED then outs e c [27; ch "["; ch "Z"] else plain c
      else plain c
  end.

(** sendKeyMessage, ConsoleInput.cc:370-378; MapVirtualKey answers a UINT *)
Definition sendKeyMessage (e : env) (c : ci) (down : bool) (vk : Z) : ci :=
  let sc := u32 (e_mapvk e vk) in
  let sc := if 255 <? sc then 0 else sc in
  emit (EvKeyMsg down vk (Z.lor (Z.lor (Z.shiftl sc 16) 1) (if down then 0 else 0xc0000000))) c.

Definition ctrl_step (e : env) (c : ci) (on down : bool) (vk ks : Z) : ci :=
  if on then appendInputRecord e c down vk 0 ks else c.
(** appendKeyPress, ConsoleInput.cc:660-746.  stepKeyState is a uint16_t. *)
Definition appendKeyPress (e : env) (c : ci) (vk winDn winUp winKs vtCp vtKs : Z) : ci :=
  let ctrl := has winKs LEFT_CTRL_PRESSED in
  let leftAlt := has winKs LEFT_ALT_PRESSED in
  let rightAlt := has winKs RIGHT_ALT_PRESSED in
  let shift := has winKs SHIFT_PRESSED in
  let enhanced := has winKs ENHANCED_KEY in
  if c_esc c && existsb (Z.eqb vk) [VK_UP; VK_DOWN; VK_LEFT; VK_RIGHT; VK_HOME; VK_END]
     && negb ctrl && negb leftAlt && negb rightAlt && negb shift then
    let c := flushInputRecords c in
    let c := sendKeyMessage e c true vk in
    sendKeyMessage e c false vk
  else
    let bit (on : bool) (b s : Z) := if on then Z.lor s b else s in
    let unbit (on : bool) (b s : Z) := if on then Z.ldiff s b else s in
    let s1 := bit ctrl LEFT_CTRL_PRESSED 0 in
    let c := ctrl_step e c ctrl true VK_CONTROL s1 in
    let s2 := bit leftAlt LEFT_ALT_PRESSED s1 in
    let c := ctrl_step e c leftAlt true VK_MENU s2 in
    let s3 := bit rightAlt RIGHT_ALT_PRESSED s2 in
    let c := ctrl_step e c rightAlt true VK_MENU (Z.lor s3 ENHANCED_KEY) in
    let s4 := bit shift SHIFT_PRESSED s3 in
    let c := ctrl_step e c shift true VK_SHIFT s4 in
    let s5 := bit enhanced ENHANCED_KEY s4 in
    let c := if c_esc c then reencodeEscapedKeyPress e c vk vtCp vtKs
             else appendCPInputRecords e c true vk winDn s5 in
    let c := appendCPInputRecords e c false vk winUp s5 in
    let s6 := unbit enhanced ENHANCED_KEY s5 in
    let s7 := unbit shift SHIFT_PRESSED s6 in
    let c := ctrl_step e c shift false VK_SHIFT s7 in
    let s8 := unbit rightAlt RIGHT_ALT_PRESSED s7 in
    let c := ctrl_step e c rightAlt false VK_MENU (Z.lor s8 ENHANCED_KEY) in
    let s9 := unbit leftAlt LEFT_ALT_PRESSED s8 in
    let c := ctrl_step e c leftAlt false VK_MENU s9 in
    let s10 := unbit ctrl LEFT_CTRL_PRESSED s9 in
    ctrl_step e c ctrl false VK_CONTROL s10.

(** appendUtf8Char, ConsoleInput.cc:601-658, for the decoded code point *)
Definition appendCodePoint (e : env) (c : ci) (codePoint : Z) (alt : bool) : ci :=
  let charScan := if 0xFFFF <? codePoint then -1 else e_vkscan e codePoint in
  let known := negb (charScan =? -1) in
  let vk := if known then Z.land charScan 0xFF else 0 in
  let ks := Z.lor (Z.lor (if known && has charScan 0x100 then SHIFT_PRESSED else 0)
                         (if known && has charScan 0x200 then LEFT_CTRL_PRESSED else 0))
                  (if known && has charScan 0x400 then RIGHT_ALT_PRESSED else 0) in
  let zero := known && alt && has ks LEFT_CTRL_PRESSED in
  let dn := if zero then 0 else codePoint in
  let up := if zero || alt then 0 else codePoint in
  let winKs := if alt then Z.lor ks LEFT_ALT_PRESSED else ks in
  let vtKs := if alt then LEFT_ALT_PRESSED else 0 in
  appendKeyPress e c vk dn up winKs codePoint vtKs.
Definition appendUtf8Char {E} (e : env) (c : ci) (buf : list Z) (alt : bool) : res E ci :=
  let! codePoint := decodeUtf8 buf in
  if codePoint =? kInvalid then Ok c else Ok (appendCodePoint e c codePoint alt).

(** ** Matching escape sequences, ConsoleInput.cc:69-187.
    The state of a matcher is the input from pch on; [Got] leaves pch at a character.
    CHECK failing is [Fail] (return 0), ADVANCE reaching the end is [More] (return -1). *)
Inductive pr (A : Type) := Fail | More | PUB | Got (a : A) (l : list Z).
Arguments Fail {A}. Arguments More {A}. Arguments PUB {A}. Arguments Got {A} a l.
Definition pbind {A B} (m : pr A) (k : A -> list Z -> pr B) : pr B :=
  match m with Fail => Fail | More => More | PUB => PUB | Got a l => k a l end.

Definition schar (c : Z) : Z := if c <? 128 then c else c - 256.
Definition cdigit (e : env) (c : Z) : bool := if c <? 128 then (48 <=? c) && (c <=? 57) else e_digit e c.

(** ADVANCE, ConsoleInput.cc:74-78 *)
Definition advance (l : list Z) : pr unit :=
  match l with [] => PUB | [_] => More | _ :: t => Got tt t end.
(** CHECK(p of *pch), ConsoleInput.cc:69-72 *)
Definition pcheck (p : Z -> bool) (l : list Z) : pr unit :=
  match l with [] => PUB | c :: _ => if p c then Got tt l else Fail end.
Definition checkAdv (x : Z) (l : list Z) : pr unit := pbind (pcheck (Z.eqb x) l) (fun _ l => advance l).

(** The do/while of SCAN_INT, ConsoleInput.cc:85-89; [k] is pch - begin.
    int32_t overflow would be undefined. *)
Fixpoint scan_digits (e : env) (maxLen k out : Z) (l : list Z) : pr Z :=
  match l with
  | [] => PUB
  | c :: t =>
      if k + 1 <? maxLen then
        let out := out * 10 + schar c - 48 in
        if in_s 32 out then
          match t with
          | [] => More
          | d :: _ => if cdigit e d then scan_digits e maxLen (k + 1) out t else Got out t
          end
        else PUB
      else Fail
  end.
(** SCAN_INT, ConsoleInput.cc:80-90 *)
Definition scan_int (e : env) (maxLen : Z) (l : list Z) : pr Z :=
  pbind (pcheck (cdigit e) l) (fun _ l => scan_digits e maxLen 0 0 l).
(** SCAN_SIGNED_INT, ConsoleInput.cc:92-103 *)
Definition scan_signed (e : env) (maxLen : Z) (l : list Z) : pr Z :=
  match l with
  | [] => PUB
  | c :: _ =>
      if c =? ch "-" then pbind (advance l) (fun _ l => pbind (scan_int e maxLen l) (fun n l => Got (- n) l))
      else scan_int e maxLen l
  end.

(** matchDsr, ConsoleInput.cc:110-122 *)
Definition matchDsr (e : env) (l : list Z) : pr unit :=
  pbind (checkAdv 27 l) (fun _ l => pbind (checkAdv (ch "[") l) (fun _ l =>
  pbind (scan_int e 8 l) (fun _ l => pbind (checkAdv (ch ";") l) (fun _ l =>
  pbind (scan_int e 8 l) (fun _ l => pcheck (Z.eqb (ch "R")) l))))).

(** MouseRecord, ConsoleInput.cc:50-56; coord is a COORD of SHORTs *)
Record mouse := mkMouse { mr_release : bool; mr_flags : Z; mr_x : Z; mr_y : Z }.

Definition cur (l : list Z) : pr Z := match l with [] => PUB | c :: _ => Got c l end.
(** matchMouseDefault, ConsoleInput.cc:124-138 *)
Definition matchMouseDefault (l : list Z) : pr mouse :=
  pbind (checkAdv 27 l) (fun _ l => pbind (checkAdv (ch "[") l) (fun _ l =>
  pbind (checkAdv (ch "M") l) (fun _ l =>
  pbind (cur l) (fun f l => pbind (advance l) (fun _ l =>
  pbind (cur l) (fun x l => pbind (advance l) (fun _ l =>
  pbind (cur l) (fun y l =>
    Got (mkMouse false (Z.land (schar f - 32) 0xFF) (Z.land (schar x - 33) 0xFF) (Z.land (schar y - 33) 0xFF)) l)))))))).

(** matchMouse1006, ConsoleInput.cc:140-156 *)
Definition matchMouse1006 (e : env) (l : list Z) : pr mouse :=
  pbind (checkAdv 27 l) (fun _ l => pbind (checkAdv (ch "[") l) (fun _ l =>
  pbind (checkAdv (ch "<") l) (fun _ l =>
  pbind (scan_int e 8 l) (fun f l => pbind (checkAdv (ch ";") l) (fun _ l =>
  pbind (scan_signed e 8 l) (fun x l => pbind (checkAdv (ch ";") l) (fun _ l =>
  pbind (scan_signed e 8 l) (fun y l =>
  pbind (pcheck (fun c => (c =? ch "M") || (c =? ch "m")) l) (fun _ l =>
  pbind (cur l) (fun c l => Got (mkMouse (c =? ch "m") f (s16 (x - 1)) (s16 (y - 1))) l)))))))))).

(** matchMouse1015, ConsoleInput.cc:158-173 *)
Definition matchMouse1015 (e : env) (l : list Z) : pr mouse :=
  pbind (checkAdv 27 l) (fun _ l => pbind (checkAdv (ch "[") l) (fun _ l =>
  pbind (scan_int e 8 l) (fun f l => pbind (checkAdv (ch ";") l) (fun _ l =>
  pbind (scan_signed e 8 l) (fun x l => pbind (checkAdv (ch ";") l) (fun _ l =>
  pbind (scan_signed e 8 l) (fun y l =>
  pbind (pcheck (Z.eqb (ch "M")) l) (fun _ l => Got (mkMouse false (f - 32) (s16 (x - 1)) (s16 (y - 1))) l)))))))).

(** matchMouseRecord, ConsoleInput.cc:179-187.  A matcher that gives up leaves fields
    of [out] set, but each later one sets all of them before it succeeds. *)
Definition orElse {A} (m n : pr A) : pr A := match m with Fail => n | _ => m end.
Definition matchMouseRecord (e : env) (l : list Z) : pr mouse :=
  orElse (matchMouse1006 e l) (orElse (matchMouse1015 e l) (matchMouseDefault l)).

(** pch - input + 1 *)
Definition mlen (input l : list Z) : Z := zlen input - zlen l + 1.

(** <wincon.h> *)
Definition FROM_LEFT_1ST_BUTTON_PRESSED := 1.
Definition RIGHTMOST_BUTTON_PRESSED := 2.
Definition FROM_LEFT_2ND_BUTTON_PRESSED := 4.
Definition MOUSE_MOVED := 1.
Definition DOUBLE_CLICK := 2.
Definition MOUSE_WHEELED := 4.

(** GetTickCount() *)
Definition tick (c : ci) : Z * ci := (hd 0 (c_clock c), set_mstate (c_buttons c) (c_dc c) (tl (c_clock c)) c).

(** SmallRect::width, height, SmallRect.h:103-104: SHORT *)
Definition rect_width (c : ci) : Z := s16 (c_right c - c_left c + 1).
Definition rect_height (c : ci) : Z := s16 (c_bottom c - c_top c + 1).

(** scanMouseInput after the match, ConsoleInput.cc:505-598 *)
Definition mouseEvent {E} (e : env) (c : ci) (r : mouse) : res E ci :=
  let button := Z.land (mr_flags r) 3 in
  let x := s16 (c_left c + Z.max 0 (Z.min (mr_x r) (rect_width c - 1))) in
  let y := s16 (c_top c + Z.max 0 (Z.min (mr_y r) (rect_height c - 1))) in
  let ks := Z.lor (Z.lor (if has (mr_flags r) 4 then SHIFT_PRESSED else 0)
                         (if has (mr_flags r) 8 then LEFT_ALT_PRESSED else 0))
                  (if has (mr_flags r) 16 then LEFT_CTRL_PRESSED else 0) in
  let finish (c : ci) (bs fl : Z) : ci :=
    let r := MouseRec x y (Z.lor bs (c_buttons c)) ks fl in
    if c_mouse c && negb (c_quick c) then push r c else c in
  if has (mr_flags r) 0x40 then
    if button =? 0 then Ok (finish c 0x00780000 MOUSE_WHEELED)
    else if button =? 1 then Ok (finish c 0xff880000 MOUSE_WHEELED)
    else Ok c
  else
    let fl := if has (mr_flags r) 0x20 then MOUSE_MOVED else 0 in
    let dc := c_dc c in
    if button =? 3 then
      Ok (finish (set_mstate 0 (mkDc (dc_button dc) (dc_x dc) (dc_y dc) (dc_tick dc) true) (c_clock c) c) 0 fl)
    else
      let flag := if button =? 0 then FROM_LEFT_1ST_BUTTON_PRESSED
                  else if button =? 1 then FROM_LEFT_2ND_BUTTON_PRESSED
                  else if button =? 2 then RIGHTMOST_BUTTON_PRESSED else 0 in
      let! _ := assert_ (negb (flag =? 0)) in
      if mr_release r then
        let dc' := if flag =? dc_button dc then mkDc (dc_button dc) (dc_x dc) (dc_y dc) (dc_tick dc) true else dc0 in
        Ok (finish (set_mstate (Z.ldiff (c_buttons c) flag) dc' (c_clock c) c) 0 fl)
      else if Z.land (c_buttons c) flag =? 0 then
        let c := set_mstate (Z.lor (c_buttons c) flag) dc (c_clock c) c in
        if (dc_button dc =? flag) && (dc_x dc =? mr_x r) && (dc_y dc =? mr_y r) then
          let (t, c) := tick c in
          if u32 (t - dc_tick dc) <? e_dcTime e then
            Ok (finish (set_mstate (c_buttons c) dc0 (c_clock c) c) 0 (Z.lor fl DOUBLE_CLICK))
          else
            let (t, c) := tick c in
            Ok (finish (set_mstate (c_buttons c) (mkDc flag (mr_x r) (mr_y r) t (dc_released dc)) (c_clock c) c) 0 fl)
        else
          let (t, c) := tick c in
          Ok (finish (set_mstate (c_buttons c) (mkDc flag (mr_x r) (mr_y r) t (dc_released dc)) (c_clock c) c) 0 fl)
      else Ok (finish c 0 fl).

(** scanMouseInput, ConsoleInput.cc:488-599: the length, 0 or -1 *)
Definition scanMouseInput {E} (e : env) (c : ci) (input : list Z) : res E (Z * ci) :=
  match matchMouseRecord e input with
  | PUB => UB
  | Fail => Ok (0, c)
  | More => Ok (-1, c)
  | Got r l => let! c := mouseEvent e c r in Ok (mlen input l, c)
  end.

Definition ENABLE_PROCESSED_INPUT := 1.

(** The key press of a table match, ConsoleInput.cc:435-447 *)
Definition appendMatch (e : env) (c : ci) (k : Key) : ci :=
  let dn := if has (keyState k) LEFT_CTRL_PRESSED && has (keyState k) LEFT_ALT_PRESSED then 0 else unicodeChar k in
  let up := if has (keyState k) LEFT_ALT_PRESSED then 0 else dn in
  appendKeyPress e c (virtualKey k) dn up (keyState k) (unicodeChar k) (keyState k).

(** The UTF-8 cases at the end of scanInput, ConsoleInput.cc:457-485 *)
Definition scanText {E} (e : env) (c : ci) (input : list Z) (inputSize : Z) : res E (Z * ci) :=
  let! b0 := ld input 0 in
  let len := utf8CharLength b0 in
  if len =? 0 then Ok (1, c)
  else if inputSize <? len then Ok (-1, c)
  else let! c := appendUtf8Char e c input false in Ok (len, c).
Definition scanAltText {E} (e : env) (c : ci) (input : list Z) (inputSize : Z) : res E (Z * ci) :=
  let! b0 := ld input 0 in
  if (b0 =? 27) && (2 <=? inputSize) then
    let! b1 := ld input 1 in
    if b1 =? 27 then scanText e c input inputSize
    else
      let len := utf8CharLength b1 in
      if 0 <? len then
        if inputSize <? 1 + len then Ok (-1, c)
        else let! c := appendUtf8Char e c (zskipn 1 input) true in Ok (1 + len, c)
      else scanText e c input inputSize
  else scanText e c input inputSize.

(** The table lookup in the middle, ConsoleInput.cc:425-448 *)
Definition scanTable {E} (e : env) (c : ci) (input : list Z) (inputSize : Z) (isEof : bool) : res E (Z * ci) :=
  let! (matchLen, k, incomplete) := lookupKey (e_root e) input in
  if negb isEof && incomplete then Ok (-1, c)
  else if 0 <? matchLen then Ok (matchLen, appendMatch e c k)
  else scanAltText e c input inputSize.

(** scanInput, ConsoleInput.cc:380-486.  inputSize is the int conversion of the number
    of bytes left in the queue (doWrite, line 340); the callees walk the bytes
    themselves. *)
Definition scanInput {E} (e : env) (c : ci) (input : list Z) (isEof : bool) : res E (Z * ci) :=
  let inputSize := s32 (zlen input) in
  let! _ := assert_ (1 <=? inputSize) in
  let! b0 := ld input 0 in
  if (b0 =? 3) && has (e_mode e) ENABLE_PROCESSED_INPUT then
    Ok (1, emit EvCtrlC (flushInputRecords c))
  else if b0 =? 27 then
    match matchDsr e input with
    | PUB => UB
    | Got _ l => Ok (mlen input l, set_dsr false c)
    | m =>
        if match m with More => negb isEof | _ => false end then Ok (-1, c)
        else
          let! (mouseLen, c) := scanMouseInput e c input in
          if (0 <? mouseLen) || (negb isEof && (mouseLen =? -1)) then Ok (mouseLen, c)
          else scanTable e c input inputSize isEof
    end
  else scanTable e c input inputSize isEof.

(** The loop of doWrite, ConsoleInput.cc:338-345; the queue is not changed by it *)
Fixpoint write_loop {E} (fuel : nat) (e : env) (c : ci) (idx : Z) (isEof : bool) : res E (Z * ci) :=
  if idx <? zlen (c_queue c) then
    match fuel with
    | O => OutOfFuel
    | S k =>
        let! (n, c) := scanInput e c (zskipn idx (c_queue c)) isEof in
        if n =? -1 then Ok (idx, c) else write_loop k e c (idx + n) isEof
    end
  else Ok (idx, c).
(** doWrite, ConsoleInput.cc:334-347; the local vector [records] starts empty *)
Definition doWrite {E} (e : env) (c : ci) (isEof : bool) : res E ci :=
  let c := set_out [] (c_log c) c in
  let! (idx, c) := write_loop (S (length (c_queue c))) e c 0 isEof in
  Ok (flushInputRecords (set_queue (zskipn idx (c_queue c)) c)).

(** writeInput, ConsoleInput.cc:237-280; [now] is its GetTickCount *)
Definition writeInput {E} (e : env) (now : Z) (input : list Z) (c : ci) : res E ci :=
  if zlen input =? 0 then Ok c
  else
    let! c := doWrite e (set_queue (c_queue c ++ input) c) false in
    let c := match c_queue c with
             | [] => c
             | _ => if c_dsrSent c then c else set_dsr true (emit EvDsr c)
             end in
    Ok (set_last now c).

Definition kIncompleteEscapeTimeoutMs := 1000.
(** flushIncompleteEscapeCode, ConsoleInput.cc:282-289 *)
Definition flushIncompleteEscapeCode {E} (e : env) (now : Z) (c : ci) : res E ci :=
  match c_queue c with
  | [] => Ok c
  | _ => if kIncompleteEscapeTimeoutMs <? u32 (now - c_lastWrite c)
         then let! c := doWrite e c true in Ok (set_queue [] c)
         else Ok c
  end.

Definition ENABLE_MOUSE_INPUT := 0x10.
Definition ENABLE_QUICK_EDIT_MODE := 0x40.
Definition ENABLE_EXTENDED_FLAGS := 0x80.
(** updateInputFlags, ConsoleInput.cc:291-313 *)
Definition updateInputFlags (e : env) (c : ci) : ci :=
  set_modes (has (e_mode e) ENABLE_EXTENDED_FLAGS) (has (e_mode e) ENABLE_MOUSE_INPUT)
            (has (e_mode e) ENABLE_QUICK_EDIT_MODE) (has (e_mode e) 0x200) c.

(** shouldActivateTerminalMouse, ConsoleInput.cc:315-332 *)
Definition WINPTY_MOUSE_MODE_AUTO := 1.
Definition WINPTY_MOUSE_MODE_FORCE := 2.
Definition shouldActivateTerminalMouse (mouseMode : Z) (c : ci) : bool :=
  if mouseMode =? WINPTY_MOUSE_MODE_AUTO then c_mouse c && negb (c_quick c) && c_ext c
  else mouseMode =? WINPTY_MOUSE_MODE_FORCE.

(** The state after construction, ConsoleInput.cc:195-235 and ConsoleInput.h:86-109; the
    constructor's SetConsoleMode call is an effect on the console only. *)
Definition init_ci (e : env) (clock : list Z) : ci :=
  updateInputFlags e (mkCi [] false 0 0 dc0 false false false false 0 0 0 0 [] [] clock).
(** The constructor's SetConsoleMode value, ConsoleInput.cc:217-230 *)
Definition initialMode (mouseMode mode : Z) : Z :=
  let mode := Z.lor (Z.lor mode ENABLE_EXTENDED_FLAGS) 0x20 in
  if mouseMode =? WINPTY_MOUSE_MODE_AUTO then Z.lor mode ENABLE_QUICK_EDIT_MODE
  else Z.ldiff mode ENABLE_QUICK_EDIT_MODE.
