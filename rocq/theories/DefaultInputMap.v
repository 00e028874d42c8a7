(** Model of agent/DefaultInputMap.cc: the built-in table of key encodings.
    The 32-byte buffer with a write pointer p is modelled by its contents up to p; a
    write at or past its end is undefined.  What the code does to the map is the list
    of [InputMap::set] calls it makes, in order. *)
From Verif Require Import Base Text Strings InputMap.

(** <winuser.h>, <wincon.h> *)
Definition VK_BACK := 0x08.     Definition VK_TAB := 0x09.      Definition VK_CLEAR := 0x0C.
Definition VK_RETURN := 0x0D.   Definition VK_SHIFT := 0x10.    Definition VK_CONTROL := 0x11.
Definition VK_MENU := 0x12.     Definition VK_ESCAPE := 0x1B.   Definition VK_PRIOR := 0x21.
Definition VK_NEXT := 0x22.     Definition VK_END := 0x23.      Definition VK_HOME := 0x24.
Definition VK_LEFT := 0x25.     Definition VK_UP := 0x26.       Definition VK_RIGHT := 0x27.
Definition VK_DOWN := 0x28.     Definition VK_INSERT := 0x2D.   Definition VK_DELETE := 0x2E.
Definition VK_MULTIPLY := 0x6A. Definition VK_ADD := 0x6B.      Definition VK_SUBTRACT := 0x6D.
Definition VK_DIVIDE := 0x6F.   Definition VK_F1 := 0x70.       Definition VK_F2 := 0x71.
Definition VK_F3 := 0x72.       Definition VK_F4 := 0x73.       Definition VK_F5 := 0x74.
Definition VK_F6 := 0x75.       Definition VK_F7 := 0x76.       Definition VK_F8 := 0x77.
Definition VK_F9 := 0x78.       Definition VK_F10 := 0x79.      Definition VK_F11 := 0x7A.
Definition VK_F12 := 0x7B.
Definition RIGHT_ALT_PRESSED := 0x1.  Definition LEFT_ALT_PRESSED := 0x2.
Definition RIGHT_CTRL_PRESSED := 0x4. Definition LEFT_CTRL_PRESSED := 0x8.
Definition SHIFT_PRESSED := 0x10.     Definition ENHANCED_KEY := 0x100.

(** DefaultInputMap.cc:37-43 *)
Record EscapeEncoding := mkEnc { alt_prefix_allowed : bool; prefix : Z; eid : Z; modifiers : Z; ekey : Key }.
Definition enc a p i m vk u ks := mkEnc a p i m (mkKey vk u ks).
Definition ch (s : String.string) : Z := hd 0 (str s).
Arguments ch s%string_scope.

(** DefaultInputMap.cc:53-64 *)
Definition kBare := 0x01.
Definition kSemiMod := 0x02.
Definition kBareMod := 0x04.
Definition kSuffixCtrl := 0x08.
Definition kSuffixShift := 0x10.
Definition kSuffixBoth := kSuffixCtrl + kSuffixShift.

(** DefaultInputMap.cc:66-174 *)
Definition escapeLetterEncodings : list EscapeEncoding := [
    enc true (ch "[") (ch "A") (kBare + kBareMod + kSemiMod) VK_UP 0 0;
    enc true (ch "[") (ch "B") (kBare + kBareMod + kSemiMod) VK_DOWN 0 0;
    enc true (ch "[") (ch "C") (kBare + kBareMod + kSemiMod) VK_RIGHT 0 0;
    enc true (ch "[") (ch "D") (kBare + kBareMod + kSemiMod) VK_LEFT 0 0;
    enc true (ch "O") (ch "A") (kBare) VK_UP 0 0;
    enc true (ch "O") (ch "B") (kBare) VK_DOWN 0 0;
    enc true (ch "O") (ch "C") (kBare) VK_RIGHT 0 0;
    enc true (ch "O") (ch "D") (kBare) VK_LEFT 0 0;
    enc true (ch "[") (ch "a") (kBare) VK_UP 0 SHIFT_PRESSED;
    enc true (ch "[") (ch "b") (kBare) VK_DOWN 0 SHIFT_PRESSED;
    enc true (ch "[") (ch "c") (kBare) VK_RIGHT 0 SHIFT_PRESSED;
    enc true (ch "[") (ch "d") (kBare) VK_LEFT 0 SHIFT_PRESSED;
    enc true (ch "O") (ch "a") (kBare) VK_UP 0 LEFT_CTRL_PRESSED;
    enc true (ch "O") (ch "b") (kBare) VK_DOWN 0 LEFT_CTRL_PRESSED;
    enc true (ch "O") (ch "c") (kBare) VK_RIGHT 0 LEFT_CTRL_PRESSED;
    enc true (ch "O") (ch "d") (kBare) VK_LEFT 0 LEFT_CTRL_PRESSED;
    enc true (ch "[") (ch "E") (kBare + kSemiMod) VK_CLEAR 0 0;
    enc true (ch "[") (ch "G") (kBare + kSemiMod) VK_CLEAR 0 0;
    enc true (ch "O") (ch "G") (kBare) VK_CLEAR 0 0;
    enc true (ch "[") (ch "H") (kBare + kBareMod + kSemiMod) VK_HOME 0 0;
    enc true (ch "[") (ch "F") (kBare + kBareMod + kSemiMod) VK_END 0 0;
    enc true (ch "O") (ch "H") (kBare) VK_HOME 0 0;
    enc true (ch "O") (ch "F") (kBare) VK_END 0 0;
    enc true (ch "[") (ch "P") (kSemiMod) VK_F1 0 0;
    enc true (ch "[") (ch "Q") (kSemiMod) VK_F2 0 0;
    enc true (ch "[") (ch "R") (kSemiMod) VK_F3 0 0;
    enc true (ch "[") (ch "S") (kSemiMod) VK_F4 0 0;
    enc false (ch "O") (ch "P") (kBare + kBareMod + kSemiMod) VK_F1 0 0;
    enc false (ch "O") (ch "Q") (kBare + kBareMod + kSemiMod) VK_F2 0 0;
    enc false (ch "O") (ch "R") (kBare + kBareMod + kSemiMod) VK_F3 0 0;
    enc false (ch "O") (ch "S") (kBare + kBareMod + kSemiMod) VK_F4 0 0;
    enc true (ch "O") (ch "M") (kBare + kBareMod) VK_RETURN 13 0;
    enc true (ch "O") (ch "j") (kBare + kBareMod) VK_MULTIPLY (ch "*") 0;
    enc true (ch "O") (ch "k") (kBare + kBareMod) VK_ADD (ch "+") 0;
    enc true (ch "O") (ch "m") (kBare + kBareMod) VK_SUBTRACT (ch "-") 0;
    enc true (ch "O") (ch "n") (kBare + kBareMod) VK_DELETE 0 0;
    enc true (ch "O") (ch "o") (kBare + kBareMod) VK_DIVIDE (ch "/") 0;
    enc true (ch "O") (ch "p") (kBare + kBareMod) VK_INSERT 0 0;
    enc true (ch "O") (ch "q") (kBare + kBareMod) VK_END 0 0;
    enc true (ch "O") (ch "r") (kBare + kBareMod) VK_DOWN 0 0;
    enc true (ch "O") (ch "s") (kBare + kBareMod) VK_NEXT 0 0;
    enc true (ch "O") (ch "t") (kBare + kBareMod) VK_LEFT 0 0;
    enc true (ch "O") (ch "u") (kBare + kBareMod) VK_CLEAR 0 0;
    enc true (ch "O") (ch "v") (kBare + kBareMod) VK_RIGHT 0 0;
    enc true (ch "O") (ch "w") (kBare + kBareMod) VK_HOME 0 0;
    enc true (ch "O") (ch "x") (kBare + kBareMod) VK_UP 0 0;
    enc true (ch "O") (ch "y") (kBare + kBareMod) VK_PRIOR 0 0;
    enc true (ch "[") (ch "M") (kBare + kSemiMod) VK_RETURN 13 0;
    enc true (ch "[") (ch "j") (kBare + kSemiMod) VK_MULTIPLY (ch "*") 0;
    enc true (ch "[") (ch "k") (kBare + kSemiMod) VK_ADD (ch "+") 0;
    enc true (ch "[") (ch "m") (kBare + kSemiMod) VK_SUBTRACT (ch "-") 0;
    enc true (ch "[") (ch "n") (kBare + kSemiMod) VK_DELETE 0 0;
    enc true (ch "[") (ch "o") (kBare + kSemiMod) VK_DIVIDE (ch "/") 0;
    enc true (ch "[") (ch "p") (kBare + kSemiMod) VK_INSERT 0 0;
    enc true (ch "[") (ch "q") (kBare + kSemiMod) VK_END 0 0;
    enc true (ch "[") (ch "r") (kBare + kSemiMod) VK_DOWN 0 0;
    enc true (ch "[") (ch "s") (kBare + kSemiMod) VK_NEXT 0 0;
    enc true (ch "[") (ch "t") (kBare + kSemiMod) VK_LEFT 0 0;
    enc true (ch "[") (ch "u") (kBare + kSemiMod) VK_CLEAR 0 0;
    enc true (ch "[") (ch "v") (kBare + kSemiMod) VK_RIGHT 0 0;
    enc true (ch "[") (ch "w") (kBare + kSemiMod) VK_HOME 0 0;
    enc true (ch "[") (ch "x") (kBare + kSemiMod) VK_UP 0 0;
    enc true (ch "[") (ch "y") (kBare + kSemiMod) VK_PRIOR 0 0;
    enc false (ch "[") (ch "Z") (kBare) VK_TAB 9 SHIFT_PRESSED].

(** DefaultInputMap.cc:176-205 *)
Definition escapeNumericEncodings : list EscapeEncoding := [
    enc true (ch "[") 1 (kBare + kSemiMod + kSuffixBoth) VK_HOME 0 0;
    enc true (ch "[") 2 (kBare + kSemiMod + kSuffixBoth) VK_INSERT 0 0;
    enc true (ch "[") 3 (kBare + kSemiMod + kSuffixBoth) VK_DELETE 0 0;
    enc true (ch "[") 4 (kBare + kSemiMod + kSuffixBoth) VK_END 0 0;
    enc true (ch "[") 5 (kBare + kSemiMod + kSuffixBoth) VK_PRIOR 0 0;
    enc true (ch "[") 6 (kBare + kSemiMod + kSuffixBoth) VK_NEXT 0 0;
    enc true (ch "[") 7 (kBare + kSemiMod + kSuffixBoth) VK_HOME 0 0;
    enc true (ch "[") 8 (kBare + kSemiMod + kSuffixBoth) VK_END 0 0;
    enc true (ch "[") 11 (kBare + kSemiMod + kSuffixBoth) VK_F1 0 0;
    enc true (ch "[") 12 (kBare + kSemiMod + kSuffixBoth) VK_F2 0 0;
    enc true (ch "[") 13 (kBare + kSemiMod + kSuffixBoth) VK_F3 0 0;
    enc true (ch "[") 14 (kBare + kSemiMod + kSuffixBoth) VK_F4 0 0;
    enc true (ch "[") 15 (kBare + kSemiMod + kSuffixBoth) VK_F5 0 0;
    enc true (ch "[") 17 (kBare + kSemiMod + kSuffixBoth) VK_F6 0 0;
    enc true (ch "[") 18 (kBare + kSemiMod + kSuffixBoth) VK_F7 0 0;
    enc true (ch "[") 19 (kBare + kSemiMod + kSuffixBoth) VK_F8 0 0;
    enc true (ch "[") 20 (kBare + kSemiMod + kSuffixBoth) VK_F9 0 0;
    enc true (ch "[") 21 (kBare + kSemiMod + kSuffixBoth) VK_F10 0 0;
    enc true (ch "[") 23 (kBare + kSemiMod + kSuffixBoth) VK_F11 0 0;
    enc true (ch "[") 24 (kBare + kSemiMod + kSuffixBoth) VK_F12 0 0;
    enc true (ch "[") 25 (kBare + kSemiMod + kSuffixBoth) VK_F3 0 SHIFT_PRESSED;
    enc true (ch "[") 26 (kBare + kSemiMod + kSuffixBoth) VK_F4 0 SHIFT_PRESSED;
    enc true (ch "[") 28 (kBare + kSemiMod + kSuffixBoth) VK_F5 0 SHIFT_PRESSED;
    enc true (ch "[") 29 (kBare + kSemiMod + kSuffixBoth) VK_F6 0 SHIFT_PRESSED;
    enc true (ch "[") 31 (kBare + kSemiMod + kSuffixBoth) VK_F7 0 SHIFT_PRESSED;
    enc true (ch "[") 32 (kBare + kSemiMod + kSuffixBoth) VK_F8 0 SHIFT_PRESSED;
    enc true (ch "[") 33 (kBare + kSemiMod + kSuffixBoth) VK_F9 0 SHIFT_PRESSED;
    enc true (ch "[") 34 (kBare + kSemiMod + kSuffixBoth) VK_F10 0 SHIFT_PRESSED].

Definition has (flags f : Z) : bool := negb (Z.land flags f =? 0).

(** useEnhancedForVirtualKey, DefaultInputMap.cc:211-227 *)
Definition useEnhancedForVirtualKey (vk : Z) : bool :=
  existsb (Z.eqb vk) [VK_UP; VK_DOWN; VK_LEFT; VK_RIGHT; VK_INSERT; VK_DELETE; VK_HOME; VK_END; VK_PRIOR; VK_NEXT].

(** DefaultInputMap.cc:235-254 *)
Definition simpleEncodings : list (list Z * Key) := [
    ([0x7F],       mkKey VK_BACK 8 0);
    ([27; 0x7F],   mkKey VK_BACK 8 LEFT_ALT_PRESSED);
    ([3],          mkKey (ch "C") 3 LEFT_CTRL_PRESSED);
    (27 :: str "[[A", mkKey VK_F1 0 0);
    (27 :: str "[[B", mkKey VK_F2 0 0);
    (27 :: str "[[C", mkKey VK_F3 0 0);
    (27 :: str "[[D", mkKey VK_F4 0 0);
    (27 :: str "[[E", mkKey VK_F5 0 0);
    (27 :: 27 :: str "[[A", mkKey VK_F1 0 LEFT_ALT_PRESSED);
    (27 :: 27 :: str "[[B", mkKey VK_F2 0 LEFT_ALT_PRESSED);
    (27 :: 27 :: str "[[C", mkKey VK_F3 0 LEFT_ALT_PRESSED);
    (27 :: 27 :: str "[[D", mkKey VK_F4 0 LEFT_ALT_PRESSED);
    (27 :: 27 :: str "[[E", mkKey VK_F5 0 LEFT_ALT_PRESSED)].

Definition addEnhanced (k : Key) : Key :=
  if useEnhancedForVirtualKey (virtualKey k)
  then mkKey (virtualKey k) (unicodeChar k) (Z.lor (keyState k) ENHANCED_KEY) else k.

(** addSimpleEntries, DefaultInputMap.cc:229-265: its set calls *)
Definition addSimpleEntries : list (list Z * Key) := map (fun '(s, k) => (s, addEnhanced k)) simpleEncodings.

Definition bufsize := 32.
(** ASSERT(p <= ctx.bufferEnd - n) *)
Definition room {E} (p : list Z) (n : Z) : res E unit := assert_ (zlen p <=? bufsize - n).
(** *p++ = c *)
Definition put {E} (p : list Z) (c : Z) : res E (list Z) := if zlen p <? bufsize then Ok (p ++ [c]) else UB.

(** setEncoding, DefaultInputMap.cc:274-295 *)
Definition setEncoding (e : EscapeEncoding) (buf : list Z) (extraKeyState : Z) : list (list Z * Key) :=
  let k := ekey e in
  let ks := Z.lor (keyState k) extraKeyState in
  let u := if has ks LEFT_CTRL_PRESSED then
             if existsb (Z.eqb (virtualKey k)) [VK_ADD; VK_DIVIDE; VK_MULTIPLY; VK_SUBTRACT] then 0
             else if virtualKey k =? VK_RETURN then 10 else unicodeChar k
           else unicodeChar k in
  [(buf, addEnhanced (mkKey (virtualKey k) u ks))].

(** keyStateForMod, DefaultInputMap.cc:297-303 *)
Definition keyStateForMod (mod_ : Z) : Z :=
  Z.lor (Z.lor (if has (mod_ - 1) 1 then SHIFT_PRESSED else 0) (if has (mod_ - 1) 2 then LEFT_ALT_PRESSED else 0))
        (if has (mod_ - 1) 4 then LEFT_CTRL_PRESSED else 0).

(** expandNumericEncodingSuffix, DefaultInputMap.cc:305-328 *)
Definition expandNumericEncodingSuffix {E} (e : EscapeEncoding) (p : list Z) (ks : Z) : res E (list (list Z * Key)) :=
  let! _ := room p 1 in
  let! q := put p (ch "~") in
  let r1 := setEncoding e q ks in
  let! r2 := if has (modifiers e) kSuffixShift
             then let! q := put p (ch "$") in Ok (setEncoding e q (Z.lor ks SHIFT_PRESSED)) else Ok [] in
  let! r3 := if has (modifiers e) kSuffixCtrl
             then let! q := put p (ch "^") in Ok (setEncoding e q (Z.lor ks LEFT_CTRL_PRESSED)) else Ok [] in
  let! r4 := if has (modifiers e) (Z.lor kSuffixCtrl kSuffixShift)
             then let! q := put p (ch "@") in Ok (setEncoding e q (Z.lor (Z.lor ks SHIFT_PRESSED) LEFT_CTRL_PRESSED)) else Ok [] in
  Ok (r1 ++ r2 ++ r3 ++ r4).

(** appendId, DefaultInputMap.cc:333-338; decOfInt of a char has a 5-element array *)
Fixpoint puts {E} (p s : list Z) : res E (list Z) :=
  match s with [] => Ok p | c :: t => let! p := put p c in puts p t end.
Definition appendId {E} (e : EscapeEncoding) (p : list Z) : res E (list Z) :=
  let! vs := gdecOfInt 1 (uninit 5) (eid e) in
  let! _ := room p (vs_size vs) in
  puts p (vs_str vs).

(** The loops over the modifiers 2..8, DefaultInputMap.cc:356-362 and 365-381 *)
Fixpoint for_mods {E} (mods : list Z) (f : Z -> res E (list (list Z * Key))) : res E (list (list Z * Key)) :=
  match mods with
  | [] => Ok []
  | m :: t => let! r := f m in let! r' := for_mods t f in Ok (r ++ r')
  end.
Definition mods2to8 := [2; 3; 4; 5; 6; 7; 8].

(** expandEncodingAfterAltPrefix, DefaultInputMap.cc:330-383 *)
Definition expandEncodingAfterAltPrefix {E} (is_numeric : bool) (e : EscapeEncoding) (p : list Z) (ks : Z) : res E (list (list Z * Key)) :=
  let! _ := room p 2 in
  let! p := put p 27 in
  let! p := put p (prefix e) in
  let! r1 :=
    if has (modifiers e) kBare then
      if is_numeric then let! q := appendId e p in expandNumericEncodingSuffix e q ks
      else let! _ := room p 1 in let! q := put p (eid e) in Ok (setEncoding e q ks)
    else Ok [] in
  let! r2 :=
    if has (modifiers e) kBareMod then
      let! _ := assert_ (negb is_numeric) in
      for_mods mods2to8 (fun m =>
        let! _ := room p 2 in
        let! q := put p (48 + m) in
        let! q := put q (eid e) in
        Ok (setEncoding e q (Z.lor ks (keyStateForMod m))))
    else Ok [] in
  let! r3 :=
    if has (modifiers e) kSemiMod then
      for_mods mods2to8 (fun m =>
        if is_numeric then
          let! q := appendId e p in
          let! _ := room q 2 in
          let! q := put q (ch ";") in
          let! q := put q (48 + m) in
          expandNumericEncodingSuffix e q (Z.lor ks (keyStateForMod m))
        else
          let! _ := room p 4 in
          let! q := put p (ch "1") in
          let! q := put q (ch ";") in
          let! q := put q (48 + m) in
          let! q := put q (eid e) in
          Ok (setEncoding e q (Z.lor ks (keyStateForMod m))))
    else Ok [] in
  Ok (r1 ++ r2 ++ r3).

(** expandEncoding, DefaultInputMap.cc:385-402 *)
Definition expandEncoding {E} (is_numeric : bool) (e : EscapeEncoding) : res E (list (list Z * Key)) :=
  let! r1 := if alt_prefix_allowed e then
               let! _ := room [] 1 in
               let! p := put [] 27 in
               expandEncodingAfterAltPrefix is_numeric e p LEFT_ALT_PRESSED
             else Ok [] in
  let! r2 := expandEncodingAfterAltPrefix is_numeric e [] 0 in
  Ok (r1 ++ r2).

(** addEscapes, DefaultInputMap.cc:404-414 *)
Fixpoint addEscapes {E} (is_numeric : bool) (encodings : list EscapeEncoding) : res E (list (list Z * Key)) :=
  match encodings with
  | [] => Ok []
  | e :: t => let! r := expandEncoding is_numeric e in let! r' := addEscapes is_numeric t in Ok (r ++ r')
  end.

(** addDefaultEntriesToInputMap, DefaultInputMap.cc:418-422 *)
Definition default_calls {E} : res E (list (list Z * Key)) :=
  let! a := addEscapes false escapeLetterEncodings in
  let! b := addEscapes true escapeNumericEncodings in
  Ok (a ++ b ++ addSimpleEntries).
Definition addDefaultEntriesToInputMap {E} (root : node) : res E node :=
  let! calls := default_calls in set_all root calls.
