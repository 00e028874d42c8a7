(** src/agent/Terminal.cc and Terminal.h: the agent's output to the terminal. *)
From Verif Require Import Base Text Unicode ConsoleLine.

(** outUInt, Terminal.cc:74-84, and printf's %u: the decimal digits of an unsigned int.
    The loop's 32-byte buffer holds any of them (at most ten digits), so it is not
    modelled. *)
Fixpoint udec_loop (fuel : nat) (n : Z) : list Z :=
  match fuel with
  | O => []
  | S f => if n / 10 =? 0 then [48 + n mod 10] else udec_loop f (n / 10) ++ [48 + n mod 10]
  end.
Definition udec (n : Z) : list Z := udec_loop 20 n.
(** printf's %d *)
Definition sdec (n : Z) : list Z := if n <? 0 then 45 :: udec (- n) else udec n.

(** CSI, Terminal.cc:35 *)
Definition CSI : list Z := [27; 91].
Definition csi (s : list Z) : list Z := CSI ++ s.

(** Terminal.cc:39-64, and wincon.h *)
Definition LVB_LEADING := 0x100.
Definition LVB_TRAILING := 0x200.
Definition LVB_REVERSE := 0x4000.
Definition LVB_UNDERSCORE := 0x8000.
Definition FG_BLUE := 1. Definition FG_GREEN := 2. Definition FG_RED := 4. Definition FG_INTENSITY := 8.
Definition BG_BLUE := 16. Definition BG_GREEN := 32. Definition BG_RED := 64. Definition BG_INTENSITY := 128.
Definition COLOR_ATTRIBUTE_MASK := 0xC0FF.
Definition FLAG_RED := 1. Definition FLAG_GREEN := 2. Definition FLAG_BLUE := 4. Definition FLAG_BRIGHT := 8.
Definition BLACK := 0. Definition DKGRAY := 8. Definition LTGRAY := 7. Definition WHITE := 15.
Definition tb (x b : Z) : bool := negb (Z.land x b =? 0).

(** outputSetColorSgrParams, Terminal.cc:86-103 *)
Definition outputSetColorSgrParams (isFore : bool) (color : Z) : list Z :=
  let sgrBase := if isFore then 30 else 40 in
  59 ::
  (if tb color FLAG_BRIGHT then
     let colorBase := Z.ldiff color FLAG_BRIGHT in
     udec (sgrBase + colorBase) ++ [59] ++ udec (sgrBase + (90 - 30) + colorBase)
   else udec (sgrBase + color)).

(** outputSetColor, Terminal.cc:105-212 *)
Definition outputSetColor (color : Z) : list Z :=
  let pick (m f : Z) := if tb color m then f else 0 in
  let fore := Z.lor (Z.lor (Z.lor (pick FG_RED FLAG_RED) (pick FG_GREEN FLAG_GREEN)) (pick FG_BLUE FLAG_BLUE)) (pick FG_INTENSITY FLAG_BRIGHT) in
  let back := Z.lor (Z.lor (Z.lor (pick BG_RED FLAG_RED) (pick BG_GREEN FLAG_GREEN)) (pick BG_BLUE FLAG_BLUE)) (pick BG_INTENSITY FLAG_BRIGHT) in
  let '(fore, back) := if tb color LVB_REVERSE then (back, fore) else (fore, back) in
  csi (str "0") ++
  (if back =? BLACK then
     if fore =? LTGRAY then []
     else if fore =? WHITE then str ";1"
     else if fore =? DKGRAY then str ";37;90"
     else outputSetColorSgrParams true fore
   else if back =? WHITE then
     str ";7" ++ (if (fore =? LTGRAY) || (fore =? BLACK) then [] else outputSetColorSgrParams false fore)
   else outputSetColorSgrParams true fore ++ outputSetColorSgrParams false back) ++
  (if fore =? back then str ";8" else []) ++
  (if tb color LVB_UNDERSCORE then str ";4" else []) ++ str "m".

(** fixSpecialCharacters, Terminal.cc:214-247 *)
Definition fixSpecialCharacters (ch : Z) : Z :=
  if ch <=? 0x1b then
    if ch =? 1 then 0x2554 else if ch =? 2 then 0x2557 else if ch =? 3 then 0x255A
    else if ch =? 4 then 0x255D else if ch =? 5 then 0x2551 else if ch =? 6 then 0x2550
    else if ch =? 0x1b then 63 else ch
  else ch.

(** A read outside the line is undefined behaviour. *)
Definition at_ {E} (data : list cell) (i : Z) : res E cell :=
  match znth data i with Some c => Ok c | None => UB end.

(** isFullWidthCharacter, Terminal.cc:249-258 *)
Definition isFullWidthCharacter {E} (data : list cell) (width : Z) : res E bool :=
  if width <? 2 then Ok false
  else
    let! d0 := at_ data 0 in
    if tb (cl_attr d0) LVB_LEADING then
      let! d1 := at_ data 1 in
      Ok (tb (cl_attr d1) LVB_TRAILING && (cl_ch d0 =? cl_ch d1))
    else Ok false.

(** scanUnicodeScalarValue, Terminal.cc:273-299: the number of cells and the character *)
Definition scanUnicodeScalarValue {E} (data : list cell) (width : Z) : res E (Z * Z) :=
  let! _ := assert_ (1 <=? width) in
  let! f := isFullWidthCharacter data width in
  let w1 := if f then 2 else 1 in
  let! d0 := at_ data 0 in
  let c1 := cl_ch d0 in
  if Z.land c1 0xF800 =? 0xD800 then
    if negb (Z.land c1 0xFC00 =? 0xD800) || (width <=? w1) then Ok (w1, 63)
    else
      let! d1 := at_ data w1 in
      if negb (Z.land (cl_ch d1) 0xFC00 =? 0xDC00) then Ok (w1, 63)
      else
        let! f2 := isFullWidthCharacter (zskipn w1 data) (width - w1) in
        Ok (w1 + (if f2 then 2 else 1), decodeSurrogatePair c1 (cl_ch d1))
  else Ok (w1, c1).

(** The object, Terminal.h:62-72, and what it has written to its pipe.  m_termLineWorkingBuffer
    is scratch. *)
Record term := mkTerm {
  t_line : Z; t_col : Z; t_valid : bool; t_data : list cell; t_hidden : bool; t_color : Z;
  t_plain : bool; t_useColor : bool; t_mouse : bool; t_out : list Z }.
(** Terminal.h:38-41, 62-72 *)
Definition new_term (plain useColor : bool) : term := mkTerm 0 0 true [] false (-1) plain useColor false [].
Definition write (bs : list Z) (t : term) : term :=
  mkTerm (t_line t) (t_col t) (t_valid t) (t_data t) (t_hidden t) (t_color t) (t_plain t) (t_useColor t) (t_mouse t) (t_out t ++ bs).
Definition set_pos (line col : Z) (valid : bool) (data : list cell) (t : term) : term :=
  mkTerm line col valid data (t_hidden t) (t_color t) (t_plain t) (t_useColor t) (t_mouse t) (t_out t).
Definition set_hidden (h : bool) (t : term) : term :=
  mkTerm (t_line t) (t_col t) (t_valid t) (t_data t) h (t_color t) (t_plain t) (t_useColor t) (t_mouse t) (t_out t).
Definition set_color (c : Z) (t : term) : term :=
  mkTerm (t_line t) (t_col t) (t_valid t) (t_data t) (t_hidden t) c (t_plain t) (t_useColor t) (t_mouse t) (t_out t).
Definition set_mouse (m : bool) (t : term) : term :=
  mkTerm (t_line t) (t_col t) (t_valid t) (t_data t) (t_hidden t) (t_color t) (t_plain t) (t_useColor t) m (t_out t).

(** reset, Terminal.cc:303-316 *)
Definition clear_seq : list Z := csi (str "0m") ++ csi (str "1;1H") ++ csi (str "2J").
Definition reset (sendClear : bool) (newLine : Z) (t : term) : term :=
  let t := if sendClear && negb (t_plain t) then write clear_seq t else t in
  set_color (-1) (set_hidden false (set_pos newLine 0 (t_valid t) [] t)).

(** hideTerminalCursor, Terminal.cc:453-462 *)
Definition hide_seq : list Z := csi (str "?25l").
Definition show_seq : list Z := csi (str "?25h").
Definition hideTerminalCursor (t : term) : term :=
  if t_plain t then t else if t_hidden t then t else set_hidden true (write hide_seq t).

(** moveTerminalToLine, Terminal.cc:464-501.  The loop writes one CR LF a line. *)
Definition crlf : list Z := [13; 10].
Definition up_seq (n : Z) : list Z := 13 :: csi (udec (u32 n) ++ str "A").
Definition moveTerminalToLine (line : Z) (t : term) : term :=
  if line =? t_line t then t
  else
    let t := hideTerminalCursor t in
    let t :=
      if line <? t_line t then
        if t_plain t then write crlf t else write (up_seq (t_line t - line)) t
      else write (concat (repeat crlf (Z.to_nat (line - t_line t)))) t in
    set_pos line 0 true [] t.

(** The loop of sendLine, Terminal.cc:368-414 *)
Record sl := mkSl { sl_buf : list Z; sl_len : Z; sl_cells : Z; sl_erased : bool; sl_color : Z }.
Definition eol_seq : list Z := csi (str "0K").
Fixpoint send_loop {E} (fuel : nat) (plain useColor : bool) (data : list cell) (width i : Z) (s : sl) : res E sl :=
  match fuel with
  | O => OutOfFuel
  | S f =>
      if negb (i <? width) then Ok s
      else
        let! d := at_ data i in
        let color := Z.land (cl_attr d) COLOR_ATTRIBUTE_MASK in
        let s :=
          if useColor && negb (color =? sl_color s) then
            let b := sl_buf s ++ outputSetColor color in mkSl b (zlen b) i (sl_erased s) color
          else s in
        let! (cellCount, ch) := scanUnicodeScalarValue (zskipn i data) (width - i) in
        let s :=
          if ch =? 32 then mkSl (sl_buf s ++ [32]) (sl_len s) (sl_cells s) (sl_erased s) (sl_color s)
          else
            let last := i + cellCount =? width in
            let b := if last && negb plain then sl_buf s ++ eol_seq else sl_buf s in
            let enc := encodeUtf8 (fixSpecialCharacters ch) in
            let enc := match enc with [] => [63] | _ => enc end in
            let b := b ++ enc in
            mkSl b (zlen b) (i + cellCount) (sl_erased s || last) (sl_color s) in
        send_loop f plain useColor data width (i + cellCount) s
  end.

(** sendLine, Terminal.cc:318-432; [data]: the cells at the pointer.  memcmp is equality
    of cells (see ConsoleLine.v). *)
Definition sendLine {E} (line : Z) (data : list cell) (width cursorColumn : Z) (t : term) : res E term :=
  let! _ := assert_ (1 <=? width) in
  let t := moveTerminalToLine line t in
  let! valid :=
    (if t_valid t then
       let! _ := assert_ (zlen (t_data t) =? t_col t) in
       if 0 <? t_col t then
         let okWidth := if t_plain t then zlen (t_data t) <=? width else zlen (t_data t) <? width in
         if negb okWidth then Ok false
         else if zlen data <? zlen (t_data t) then UB
         else Ok (cells_eqb (t_data t) (zfirstn (zlen (t_data t)) data))
       else Ok true
     else Ok false) in
  let t :=
    if valid then t
    else let t := hideTerminalCursor t in
         set_pos (t_line t) 0 true [] (write (if t_plain t then crlf else [13]) t) in
  let! s := send_loop (Z.to_nat width + 1) (t_plain t) (t_useColor t) data width (zlen (t_data t))
              (mkSl [] 0 (zlen (t_data t)) false (t_color t)) in
  let t := set_color (sl_color s) t in
  let t := if negb (cursorColumn =? -1) && (cursorColumn <? sl_cells s) then hideTerminalCursor t else t in
  let t := write (zfirstn (sl_len s) (sl_buf s)) t in
  let t := if negb (sl_erased s) && negb (t_plain t) then write eol_seq t else t in
  let! _ := assert_ (sl_cells s <=? width) in
  (* [lineData + size, lineData + trimmedCellCount) must be a range *)
  if sl_cells s <? zlen (t_data t) then UB
  else Ok (set_pos (t_line t) (sl_cells s) (t_valid t) (t_data t ++ zskipn (zlen (t_data t)) (zfirstn (sl_cells s) data)) t).

(** showTerminalCursor, Terminal.cc:434-451 *)
Definition col_seq (column : Z) : list Z := csi (sdec (column + 1) ++ str "G").
Definition showTerminalCursor (column line : Z) (t : term) : term :=
  let t := moveTerminalToLine line t in
  if t_plain t then t
  else
    let t := if t_col t =? column then t
             else set_pos (t_line t) column (column =? 0) [] (write (col_seq column) t) in
    if t_hidden t then set_hidden false (write show_seq t) else t.

(** enableMouseMode, Terminal.cc:503-535 *)
Definition mouse_on_seq : list Z :=
  csi (str "?1005l") ++ csi (str "?1000h") ++ csi (str "?1002h") ++ csi (str "?1003h") ++ csi (str "?1015h") ++ csi (str "?1006h").
Definition mouse_off_seq : list Z :=
  csi (str "?1006l") ++ csi (str "?1015l") ++ csi (str "?1003l") ++ csi (str "?1002l") ++ csi (str "?1000l").
Definition enableMouseMode (enabled : bool) (t : term) : term :=
  if Bool.eqb (t_mouse t) enabled || t_plain t then t
  else write (if enabled then mouse_on_seq else mouse_off_seq) (set_mouse enabled t).
