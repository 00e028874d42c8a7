(** What someone reading the output of --show-input relies on. *)
From Verif Require Import Base Text StringsSpec ShowInput.

(** The ranges of the fields of a record *)
Definition record_ok (r : irec) : Prop :=
  match r with
  | IKey _ rpt vk scan ch state =>
      0 <= rpt < 2 ^ 16 /\ 0 <= vk < 2 ^ 16 /\ 0 <= scan < 2 ^ 16 /\ 0 <= ch < 2 ^ 16 /\ 0 <= state < 2 ^ 32
  | IMouse x y b s f =>
      - 2 ^ 15 <= x < 2 ^ 15 /\ - 2 ^ 15 <= y < 2 ^ 15 /\ 0 <= b < 2 ^ 32 /\ 0 <= s < 2 ^ 32 /\ 0 <= f < 2 ^ 32
  | IResize x y => - 2 ^ 15 <= x < 2 ^ 15 /\ - 2 ^ 15 <= y < 2 ^ 15
  | IMenu id => 0 <= id < 2 ^ 32
  | IFocus _ | IOther => True
  end.

(** The same event, as far as it is shown: of a key's state only the lower half is, and
    the virtual key 0 looks like that of the digit 0. *)
Definition same_event (a b : irec) : Prop :=
  match a, b with
  | IKey d n vk sc ch st, IKey d' n' vk' sc' ch' st' =>
      d = d' /\ n = n' /\ (vk = vk' \/ (vk = 0 /\ vk' = 48) \/ (vk = 48 /\ vk' = 0)) /\ sc = sc' /\ ch = ch' /\
      st mod 2 ^ 16 = st' mod 2 ^ 16
  | IKey _ _ _ _ _ _, _ | _, IKey _ _ _ _ _ _ => False
  | _, _ => a = b
  end.

(** Ctrl and D, with either Ctrl key; or the record of a lone control character *)
Definition ends_it (r : irec) : Prop :=
  match r with
  | IKey _ _ vk scan ch state =>
      (vk = 68 /\ (Z.testbit state 2 = true \/ Z.testbit state 3 = true)) \/ (vk = 0 /\ scan = 0 /\ ch = 4)
  | _ => False
  end.
(** [shown all seen]: [seen] are the records of [all] up to the one that ends it, without
    those of unknown types. *)
Inductive shown : list irec -> list irec -> Prop :=
| shown_nil : shown [] []
| shown_end r rest : ends_it r -> shown (r :: rest) [r]
| shown_other rest seen : shown rest seen -> shown (IOther :: rest) seen
| shown_more r rest seen : r <> IOther -> ~ ends_it r -> shown rest seen -> shown (r :: rest) (r :: seen).

(** What was printed, after the greeting *)
Definition printed (l : list sev) : list Z := concat (map (fun e => match e with SPrint t => t | _ => [] end) l).

(** The names of the bits of a key's state and of a mouse record, in the order shown *)
Definition state_names : list (Z * list Z) :=
  [(7, str "CapsLock"); (8, str "Enhanced"); (1, str "LAlt"); (3, str "LCtrl"); (5, str "NumLock");
   (0, str "RAlt"); (2, str "RCtrl"); (6, str "ScrollLock"); (4, str "Shift")].
Definition mouse_names : list (Z * list Z) := [(1, str "Double"); (3, str "HWheel"); (0, str "Move"); (2, str "Wheel")].
Definition button_names : list (Z * list Z) := [(0, str "1"); (2, str "2"); (3, str "3"); (4, str "4"); (1, str "R")].
Definition set_names (names : list (Z * list Z)) (v : Z) : list (list Z) :=
  map snd (filter (fun n => Z.testbit v (fst n)) names).
(** [other]: the bits of [v] without a name *)
Definition other_bits (names : list (Z * list Z)) (v r : Z) : Prop :=
  forall i, 0 <= i -> Z.testbit r i = Z.testbit v i && negb (existsb (Z.eqb i) (map fst names)).

(** [words names label v ws]: the words for the bits of [v], and one for those without a
    name, if any is set *)
Definition words (names : list (Z * list Z)) (label : list Z) (v : Z) (ws : list (list Z)) : Prop :=
  exists r rest, 0 <= r /\ other_bits names v r /\ ws = set_names names v ++ rest /\
    ((r = 0 /\ rest = []) \/ (r <> 0 /\ exists h, canonical 16 h r /\ rest = [label ++ str "(0x" ++ h ++ str ")"])).

(** The names of the keys, in the order of their codes in the Windows headers: runs of
    consecutive codes.  Letters and digits have their own. *)
Definition key_runs : list (Z * list (list Z)) :=
  [(0x02, [str "RBUTTON"; str "CANCEL"; str "MBUTTON"; str "XBUTTON1"; str "XBUTTON2"]);
   (0x08, [str "BACK"; str "TAB"]);
   (0x0C, [str "CLEAR"; str "RETURN"]);
   (0x10, [str "SHIFT"; str "CONTROL"; str "MENU"; str "PAUSE"; str "CAPITAL"; str "HANGUL"]);
   (0x17, [str "JUNJA"; str "FINAL"; str "KANJI"]);
   (0x1B, [str "ESCAPE"; str "CONVERT"; str "NONCONVERT"; str "ACCEPT"; str "MODECHANGE"; str "SPACE"; str "PRIOR"; str "NEXT";
                 str "END"; str "HOME"; str "LEFT"; str "UP";
                   str "RIGHT"; str "DOWN"; str "SELECT"; str "PRINT"; str "EXECUTE"; str "SNAPSHOT"; str "INSERT";
                 str "DELETE"; str "HELP";
                   str "0"; str "1"; str "2"; str "3"; str "4"; str "5"; str "6"; str "7"; str "8"; str "9"]);
   (0x41, map (fun c => [c]) (str "ABCDEFGHIJKLMNOPQRSTUVWXYZ") ++ [str "LWIN"; str "RWIN"; str "APPS"]);
   (0x5F, [str "SLEEP"; str "NUMPAD0"; str "NUMPAD1"; str "NUMPAD2"; str "NUMPAD3"; str "NUMPAD4"; str "NUMPAD5";
                 str "NUMPAD6"; str "NUMPAD7"; str "NUMPAD8"; str "NUMPAD9";
                   str "MULTIPLY"; str "ADD"; str "SEPARATOR"; str "SUBTRACT"; str "DECIMAL"; str "DIVIDE"; str "F1"; str "F2";
                 str "F3"; str "F4"; str "F5"; str "F6"; str "F7"; str "F8"; str "F9";
                   str "F10"; str "F11"; str "F12"; str "F13"; str "F14"; str "F15"; str "F16"; str "F17"; str "F18";
                 str "F19"; str "F20"; str "F21"; str "F22"; str "F23"; str "F24"]);
   (0x90, [str "NUMLOCK"; str "SCROLL"]);
   (0xA0, [str "LSHIFT"; str "RSHIFT"; str "LCONTROL"; str "RCONTROL"; str "LMENU"; str "RMENU"; str "BROWSER_BACK";
                 str "BROWSER_FORWARD"; str "BROWSER_REFRESH";
                   str "BROWSER_STOP"; str "BROWSER_SEARCH"; str "BROWSER_FAVORITES"; str "BROWSER_HOME"; str "VOLUME_MUTE";
                 str "VOLUME_DOWN"; str "VOLUME_UP";
                   str "MEDIA_NEXT_TRACK"; str "MEDIA_PREV_TRACK"; str "MEDIA_STOP"; str "MEDIA_PLAY_PAUSE"; str "LAUNCH_MAIL";
                 str "LAUNCH_MEDIA_SELECT";
                   str "LAUNCH_APP1"; str "LAUNCH_APP2"]);
   (0xBA, [str "OEM_1"; str "OEM_PLUS"; str "OEM_COMMA"; str "OEM_MINUS"; str "OEM_PERIOD"; str "OEM_2"; str "OEM_3"]);
   (0xDB, [str "OEM_4"; str "OEM_5"; str "OEM_6"; str "OEM_7"; str "OEM_8"]);
   (0xE2, [str "OEM_102"]);
   (0xE5, [str "PROCESSKEY"]);
   (0xE7, [str "PACKET"]);
   (0xF6, [str "ATTN"; str "CRSEL"; str "EXSEL"; str "EREOF"; str "PLAY"; str "ZOOM"; str "NONAME"; str "PA1"; str "OEM_CLEAR"])].
(** A number in hexadecimal: 0 alone, others behind 0x *)
Definition hex_text (v : Z) (s : list Z) : Prop := exists h, canonical 16 h v /\ s = (if v =? 0 then [] else str "0x") ++ h.
(** The text of a key: its name if it has one, else its number *)
Definition key_text (vk : Z) (s : list Z) : Prop :=
  (exists first names, In (first, names) key_runs /\ first <= vk /\ znth names (vk - first) = Some s) \/
  ((forall first names, In (first, names) key_runs -> vk < first \/ first + zlen names <= vk) /\ hex_text vk s).
(** The text of a character: itself between quotes if printable, else its number *)
Definition char_text (ch : Z) (s : list Z) : Prop :=
  32 <= ch <= 126 /\ s = str "ch='" ++ [ch] ++ str "'" \/ ~ (32 <= ch <= 126) /\ exists h, hex_text ch h /\ s = str "ch=" ++ h.
