(** Model of src/agent/DebugShowInput.cc (the agent's --show-input mode), of the texts
    of keys (src/agent/InputMap.cc:36-139) and of the options of the mode
    (src/agent/main.cc:77-92). *)
From Verif Require Import Base Text Strings.

(** StringBuilder << of an integer type of [n] bytes, StringBuilder.h:201-208 *)
Definition put_dec (n v : Z) : res unit (list Z) :=
  let! s := gdecOfInt n (uninit (n * 3 + 2)) v in Ok (vs_str s).
(** hexOfInt, StringBuilder.h:155-158 *)
Definition put_hex (n v : Z) : res unit (list Z) :=
  let! s := ghexOfInt false n (uninit (n * 2 + 1)) v in Ok (vs_str s).
(** The C library's %#x of an unsigned int: no prefix for zero.  Its digits are those of
    hexOfInt. *)
Definition c_hex (v : Z) : res unit (list Z) :=
  let! h := put_hex 4 v in Ok (if v =? 0 then h else str "0x" ++ h).

(** Flag tables, DebugShowInput.cc:35-65, with the values of the Windows headers *)
Definition kButtonStates : list (Z * list Z) :=
  [(0x1, str "1"); (0x4, str "2"); (0x8, str "3"); (0x10, str "4"); (0x2, str "R")].
Definition kControlKeyStates : list (Z * list Z) :=
  [(0x80, str "CapsLock"); (0x100, str "Enhanced"); (0x2, str "LAlt"); (0x8, str "LCtrl"); (0x20, str "NumLock");
   (0x1, str "RAlt"); (0x4, str "RCtrl"); (0x40, str "ScrollLock"); (0x10, str "Shift")].
Definition kMouseEventFlags : list (Z * list Z) :=
  [(0x2, str "Double"); (0x8, str "HWheel"); (0x1, str "Move"); (0x4, str "Wheel")].

(** The separator before an item, DebugShowInput.cc:76-80 and 87-91; 0 is none. *)
Definition sep_before (wrote : bool) (pre sep : Z) : list Z :=
  if negb wrote && negb (pre =? 0) then [pre] else if wrote && negb (sep =? 0) then [sep] else [].
(** The table loop of writeFlags, DebugShowInput.cc:73-85.  [Z.ldiff r v] is r & ~v. *)
Fixpoint flag_loop (table : list (Z * list Z)) (flags pre sep : Z) (out : list Z) (wrote : bool) (remaining : Z)
    : list Z * bool * Z :=
  match table with
  | [] => (out, wrote, remaining)
  | (v, text) :: r =>
      if Z.land v flags =? v then
        flag_loop r flags pre sep (out ++ sep_before wrote pre sep ++ text) true (Z.ldiff remaining v)
      else flag_loop r flags pre sep out wrote remaining
  end.
(** writeFlags, DebugShowInput.cc:67-98 *)
Definition writeFlags (flags : Z) (remainderName : list Z) (table : list (Z * list Z)) (pre sep post : Z) : res unit (list Z) :=
  let '(out, wrote, remaining) := flag_loop table flags pre sep [] false flags in
  let! h := put_hex 4 remaining in
  let (out, wrote) :=
    if negb (remaining =? 0) then
      (out ++ sep_before wrote pre sep ++ remainderName ++ str "(0x" ++ h ++ [41], true)
    else (out, wrote) in
  Ok (if wrote && negb (post =? 0) then out ++ [post] else out).

(** controlKeyStatePrefix, DebugShowInput.cc:110-115 *)
Definition controlKeyStatePrefix (s : Z) : res unit (list Z) := writeFlags s (str "keyState") kControlKeyStates 0 45 45.

(** getVirtualKeyString, InputMap.cc:36-111, with the values of the Windows headers *)
Definition vk_names : list (Z * list Z) :=
  [(0x02, str "RBUTTON"); (0x78, str "F9"); (0x03, str "CANCEL"); (0x79, str "F10"); (0x04, str "MBUTTON"); (0x7A, str "F11");
   (0x05, str "XBUTTON1"); (0x7B, str "F12"); (0x06, str "XBUTTON2"); (0x7C, str "F13"); (0x08, str "BACK"); (0x7D, str "F14");
   (0x09, str "TAB"); (0x7E, str "F15"); (0x0C, str "CLEAR"); (0x7F, str "F16"); (0x0D, str "RETURN"); (0x80, str "F17");
   (0x10, str "SHIFT"); (0x81, str "F18"); (0x11, str "CONTROL"); (0x82, str "F19"); (0x12, str "MENU"); (0x83, str "F20");
   (0x13, str "PAUSE"); (0x84, str "F21"); (0x14, str "CAPITAL"); (0x85, str "F22"); (0x15, str "HANGUL"); (0x86, str "F23");
   (0x17, str "JUNJA"); (0x87, str "F24"); (0x18, str "FINAL"); (0x90, str "NUMLOCK"); (0x19, str "KANJI"); (0x91, str "SCROLL");
   (0x1B, str "ESCAPE"); (0xA0, str "LSHIFT"); (0x1C, str "CONVERT"); (0xA1, str "RSHIFT"); (0x1D, str "NONCONVERT");
   (0xA2, str "LCONTROL"); (0x1E, str "ACCEPT"); (0xA3, str "RCONTROL"); (0x1F, str "MODECHANGE"); (0xA4, str "LMENU");
   (0x20, str "SPACE"); (0xA5, str "RMENU"); (0x21, str "PRIOR"); (0xA6, str "BROWSER_BACK"); (0x22, str "NEXT");
   (0xA7, str "BROWSER_FORWARD"); (0x23, str "END"); (0xA8, str "BROWSER_REFRESH"); (0x24, str "HOME"); (0xA9, str "BROWSER_STOP");
   (0x25, str "LEFT"); (0xAA, str "BROWSER_SEARCH"); (0x26, str "UP"); (0xAB, str "BROWSER_FAVORITES"); (0x27, str "RIGHT");
   (0xAC, str "BROWSER_HOME"); (0x28, str "DOWN"); (0xAD, str "VOLUME_MUTE"); (0x29, str "SELECT"); (0xAE, str "VOLUME_DOWN");
   (0x2A, str "PRINT"); (0xAF, str "VOLUME_UP"); (0x2B, str "EXECUTE"); (0xB0, str "MEDIA_NEXT_TRACK"); (0x2C, str "SNAPSHOT");
   (0xB1, str "MEDIA_PREV_TRACK"); (0x2D, str "INSERT"); (0xB2, str "MEDIA_STOP"); (0x2E, str "DELETE");
   (0xB3, str "MEDIA_PLAY_PAUSE"); (0x2F, str "HELP"); (0xB4, str "LAUNCH_MAIL"); (0x5B, str "LWIN");
   (0xB5, str "LAUNCH_MEDIA_SELECT"); (0x5C, str "RWIN"); (0xB6, str "LAUNCH_APP1"); (0x5D, str "APPS"); (0xB7, str "LAUNCH_APP2");
   (0x5F, str "SLEEP"); (0xBA, str "OEM_1"); (0x60, str "NUMPAD0"); (0xBB, str "OEM_PLUS"); (0x61, str "NUMPAD1");
   (0xBC, str "OEM_COMMA"); (0x62, str "NUMPAD2"); (0xBD, str "OEM_MINUS"); (0x63, str "NUMPAD3"); (0xBE, str "OEM_PERIOD");
   (0x64, str "NUMPAD4"); (0xBF, str "OEM_2"); (0x65, str "NUMPAD5"); (0xC0, str "OEM_3"); (0x66, str "NUMPAD6"); (0xDB, str "OEM_4");
   (0x67, str "NUMPAD7"); (0xDC, str "OEM_5"); (0x68, str "NUMPAD8"); (0xDD, str "OEM_6"); (0x69, str "NUMPAD9"); (0xDE, str "OEM_7");
   (0x6A, str "MULTIPLY"); (0xDF, str "OEM_8"); (0x6B, str "ADD"); (0xE2, str "OEM_102"); (0x6C, str "SEPARATOR");
   (0xE5, str "PROCESSKEY"); (0x6D, str "SUBTRACT"); (0xE7, str "PACKET"); (0x6E, str "DECIMAL"); (0xF6, str "ATTN");
   (0x6F, str "DIVIDE"); (0xF7, str "CRSEL"); (0x70, str "F1"); (0xF8, str "EXSEL"); (0x71, str "F2"); (0xF9, str "EREOF");
   (0x72, str "F3"); (0xFA, str "PLAY"); (0x73, str "F4"); (0xFB, str "ZOOM"); (0x74, str "F5"); (0xFC, str "NONAME");
   (0x75, str "F6"); (0xFD, str "PA1"); (0x76, str "F7"); (0xFE, str "OEM_CLEAR"); (0x77, str "F8")].
Fixpoint vk_find (t : list (Z * list Z)) (vk : Z) : option (list Z) :=
  match t with [] => None | (v, n) :: r => if v =? vk then Some n else vk_find r vk end.
Definition getVirtualKeyString (vk : Z) : option (list Z) := vk_find vk_names vk.

(** The key's own part of Key::toString, InputMap.cc:119-128 *)
Definition vkText (vk : Z) : res unit (list Z) :=
  match getVirtualKeyString vk with
  | Some n => Ok n
  | None => if ((65 <=? vk) && (vk <=? 90)) || ((48 <=? vk) && (vk <=? 57)) then Ok [vk] else c_hex vk
  end.
(** The character's part, InputMap.cc:129-136.  Both texts are far shorter than the
    buffer of 256. *)
Definition chText (ch : Z) : res unit (list Z) :=
  if (32 <=? ch) && (ch <=? 126) then Ok (str " ch='" ++ [ch; 39])
  else let! h := c_hex ch in Ok (str " ch=" ++ h).
(** InputMap::Key::toString, InputMap.cc:115-139 *)
Definition keyToString (vk ch state : Z) : res unit (list Z) :=
  let! p := controlKeyStatePrefix state in
  let! k := vkText vk in
  let! c := chText ch in
  Ok (p ++ k ++ c).

(** mouseEventToString, DebugShowInput.cc:117-131 *)
Definition mouseEventToString (x y button state flags : Z) : res unit (list Z) :=
  let buttons := Z.land button 0xFFFF in
  let wheel := s16 (Z.shiftr button 16) in
  let! px := put_dec 2 x in
  let! py := put_dec 2 y in
  let! k := writeFlags state (str "keyState") kControlKeyStates 32 32 0 in
  let! f := writeFlags flags (str "flags") kMouseEventFlags 32 32 0 in
  let! b := writeFlags buttons (str "buttons") kButtonStates 32 32 0 in
  let! w := put_dec 2 wheel in
  Ok (str "pos=" ++ px ++ [44] ++ py ++ k ++ f ++ b ++ (if wheel =? 0 then [] else str " wheel=" ++ w)).

(** INPUT_RECORD *)
Inductive irec :=
| IKey (down : bool) (rpt vk scan ch state : Z)
| IMouse (x y button state flags : Z)
| IResize (x y : Z)
| IMenu (id : Z)
| IFocus (gained : bool)
| IOther.

(** One record's text, DebugShowInput.cc:188-231 *)
Definition recordText (r : irec) : res unit (list Z) :=
  match r with
  | IKey down rpt vk scan ch state =>
      let! n := put_dec 2 rpt in
      let! c := put_hex 2 scan in
      let! k := keyToString vk ch (u16 state) in
      Ok (str "key: " ++ (if down then str "dn" else str "up") ++ str " rpt=" ++ n ++
          str " scn=" ++ (if scan =? 0 then [] else str "0x") ++ c ++ [32] ++ k ++ [10])
  | IMouse x y button state flags =>
      let! m := mouseEventToString x y button state flags in Ok (str "mouse: " ++ m ++ [10])
  | IResize x y =>
      let! px := put_dec 2 x in
      let! py := put_dec 2 y in
      Ok (str "buffer-resized: dwSize=(" ++ px ++ [44] ++ py ++ [41; 10])
  | IMenu id => let! h := put_hex 4 id in Ok (str "menu-event: commandId=0x" ++ h ++ [10])
  | IFocus g => Ok (str "focus: " ++ (if g then str "gained" else str "lost") ++ [10])
  | IOther => Ok []
  end.
(** Ctrl-D, DebugShowInput.cc:202-215 *)
Definition isCtrlD (r : irec) : bool :=
  match r with
  | IKey _ _ vk scan ch state =>
      (negb (Z.land state 0xC =? 0) && (vk =? 68)) || ((vk =? 0) && (scan =? 0) && (ch =? 4))
  | _ => false
  end.
(** The inner loop, DebugShowInput.cc:185-231: the text and whether the end was asked for *)
Fixpoint batchText (rs : list irec) (out : list Z) : res unit (list Z * bool) :=
  match rs with
  | [] => Ok (out, false)
  | r :: rest =>
      let! t := recordText r in
      if isCtrlD r then Ok (out ++ t, true) else batchText rest (out ++ t)
  end.

(** What the mode does: changes of the console's mode, text on stdout, an error and exit *)
Inductive sev := SMode (m : Z) | SPrint (t : list Z) | SError.

(** The outer loop, DebugShowInput.cc:180-236; each batch is what one ReadConsoleInputW
    returns (an empty one, or the end of the list, is its failure). *)
Fixpoint readLoop (batches : list (list irec)) : res unit (list sev) :=
  match batches with
  | [] => Ok []
  | [] :: _ => Ok []
  | rs :: rest =>
      let! (t, finished) := batchText rs [] in
      if finished : bool then Ok [SPrint t]
      else let! l := readLoop rest in Ok (SPrint t :: l)
  end.

(** debugShowInput, DebugShowInput.cc:133-239.  [mode] is the answer of GetConsoleMode,
    [ok] that of the first SetConsoleMode.  Console modes are 32-bit values;
    [Z.ldiff a b] is a & ~b. *)
Definition debugShowInput (enableMouse escapeInput : bool) (mode : option Z) (ok : bool) (batches : list (list irec))
    : res unit (list sev) :=
  match mode with
  | None => Ok [SError]
  | Some orig =>
      let restore := if enableMouse && (Z.land orig 0x80 =? 0) then Z.lor (Z.lor (Z.lor orig 0x80) 0x40) 0x20 else orig in
      let new := Z.ldiff (Z.ldiff (Z.ldiff restore 0x1) 0x2) 0x4 in
      let new := Z.lor new 0x8 in
      let new := if enableMouse then Z.ldiff (Z.lor new 0x10) 0x40 else Z.ldiff new 0x10 in
      let new := if escapeInput then Z.lor new 0x200 else new in
      if negb ok then Ok [SError]
      else let! l := readLoop batches in
           Ok (SMode new :: SPrint ([10] ++ str "Press any keys -- Ctrl-D exits" ++ [10; 10]) :: l ++ [SMode restore])
  end.

(** The options of --show-input, main.cc:77-91; None is the message about an unknown one. *)
Fixpoint showInputOptions (args : list (list Z)) (mouse escape : bool) : option (bool * bool) :=
  match args with
  | [] => Some (mouse, escape)
  | a :: r =>
      if list_eqb a (str "--with-mouse") then showInputOptions r true escape
      else if list_eqb a (str "--escape-input") then showInputOptions r mouse true
      else None
  end.
