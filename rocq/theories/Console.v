(** A Windows console as the agent sees it, and the agent's wrappers around it:
    src/agent/Win32Console.cc:91-107, Win32Console.h:32-46, Win32ConsoleBuffer.cc:63-187.

    Other programs use the console at the same time.  They are represented by a list of
    arbitrary functions on the screen buffer: one is applied just before each console call
    of the agent, unless the console is in selection mode, in which it blocks every other
    program ("frozen").  What Windows does with the window and cursor on its own (e.g.
    after a font change) is represented the same way. *)
From Verif Require Import Base SmallRect ConsoleLine.

(** A screen buffer.  [b_cells row col]; [b_largest] is GetLargestConsoleWindowSize; [b_cp]
    GetConsoleOutputCP, [b_mode] GetConsoleMode, [b_visible] the cursor's visibility. *)
Record cbuf := mkBuf {
  b_w : Z; b_h : Z; b_win : srect; b_cur : coord; b_cells : Z -> Z -> cell;
  b_largest : coord; b_cp : Z; b_mode : Z; b_visible : bool }.
Definition set_win (r : srect) (b : cbuf) : cbuf :=
  mkBuf (b_w b) (b_h b) r (b_cur b) (b_cells b) (b_largest b) (b_cp b) (b_mode b) (b_visible b).
Definition set_cur (c : coord) (b : cbuf) : cbuf :=
  mkBuf (b_w b) (b_h b) (b_win b) c (b_cells b) (b_largest b) (b_cp b) (b_mode b) (b_visible b).
Definition set_cells (f : Z -> Z -> cell) (b : cbuf) : cbuf :=
  mkBuf (b_w b) (b_h b) (b_win b) (b_cur b) f (b_largest b) (b_cp b) (b_mode b) (b_visible b).
Definition set_size (w h : Z) (b : cbuf) : cbuf :=
  mkBuf w h (b_win b) (b_cur b) (b_cells b) (b_largest b) (b_cp b) (b_mode b) (b_visible b).

(** What the agent asked the console for (ghost), with the buffer it was asked of *)
Inductive request :=
| RMoveWindow (r : srect) (b : cbuf)
| RSetSize (x y : Z)
| RRead (r : srect).

(** The console, and the agent's idea of it.  [w_sel]: in selection mode; [w_frozen]:
    Win32Console::m_frozen; [w_mark]: m_freezeUsesMark; [w_esc]: how many ESC key presses
    reached the program instead of ending a selection; [w_fail]: which of the calls that
    change the window or buffer fail. *)
Record world := mkW {
  w_buf : cbuf; w_sel : bool; w_frozen : bool; w_mark : bool; w_esc : Z;
  w_env : list (cbuf -> cbuf); w_fail : list bool; w_log : list request }.
Definition with_buf (b : cbuf) (w : world) : world :=
  mkW b (w_sel w) (w_frozen w) (w_mark w) (w_esc w) (w_env w) (w_fail w) (w_log w).
Definition with_sel (sel frozen : bool) (esc : Z) (w : world) : world :=
  mkW (w_buf w) sel frozen (w_mark w) esc (w_env w) (w_fail w) (w_log w).
Definition with_log (r : request) (w : world) : world :=
  mkW (w_buf w) (w_sel w) (w_frozen w) (w_mark w) (w_esc w) (w_env w) (w_fail w) (w_log w ++ [r]).
Definition set_mark (m : bool) (w : world) : world :=
  mkW (w_buf w) (w_sel w) (w_frozen w) m (w_esc w) (w_env w) (w_fail w) (w_log w).

(** The other programs' turn *)
Definition interfere (w : world) : world :=
  if w_sel w then w
  else match w_env w with
       | [] => w
       | f :: r => mkW (f (w_buf w)) (w_sel w) (w_frozen w) (w_mark w) (w_esc w) r (w_fail w) (w_log w)
       end.
(** Whether the next call fails *)
Definition fails (w : world) : bool * world :=
  match w_fail w with
  | [] => (false, w)
  | b :: r => (b, mkW (w_buf w) (w_sel w) (w_frozen w) (w_mark w) (w_esc w) (w_env w) r (w_log w))
  end.

(** Win32Console::setFrozen, Win32Console.cc:91-107.  Mark or Select All starts a
    selection; ESC ends it, and is typed into the program if there is none. *)
Definition setFrozen (frozen : bool) (w : world) : world :=
  if Bool.eqb frozen (w_frozen w) then w
  else if frozen then let w := interfere w in with_sel true true (w_esc w) w
  else let w := interfere w in
       if w_sel w then with_sel false false (w_esc w) w else with_sel false false (w_esc w + 1) w.

(** FreezeGuard, Win32Console.h:32-46: the constructor and the destructor *)
Definition guard_enter (frozen : bool) (w : world) : bool * world := (w_frozen w, setFrozen frozen w).
Definition guard_leave (previous : bool) (w : world) : world := setFrozen previous w.

(** CONSOLE_SCREEN_BUFFER_INFO and bufferInfo, Win32ConsoleBuffer.cc:86-93.  The call is
    assumed to succeed. *)
Record cinfo := mkI { i_size : coord; i_win : srect; i_cur : coord }.
Definition info_of (b : cbuf) : cinfo := mkI (mkCoord (b_w b) (b_h b)) (b_win b) (b_cur b).
Definition bufferInfo (w : world) : cinfo * world := let w := interfere w in (info_of (w_buf w), w).

(** Cells of a row-major rectangle *)
Definition in_buf (b : cbuf) (r : srect) : bool :=
  (0 <=? rLeft r) && (0 <=? rTop r) && (rRight r <? b_w b) && (rBottom r <? b_h b).
Definition zseq (start len : Z) : list Z := map (fun k => start + Z.of_nat k) (seq 0 (Z.to_nat len)).
Definition row_cells (b : cbuf) (r c n : Z) : list cell := map (b_cells b r) (zseq c n).
Definition rect_cells (b : cbuf) (r : srect) : list cell :=
  concat (map (fun y => row_cells b y (rLeft r) (rWidth r)) (zseq (rTop r) (rHeight r))).

(** ReadConsoleOutputW, Win32ConsoleBuffer::read (157-179), into [data] from index [off].
    A target too short is undefined.  Reading outside the buffer crashes consoles before
    the new Windows 10 one (Scraper.cc:327-330), which leaves the cells concerned alone. *)
Definition blit (data : list cell) (off : Z) (src : list cell) : list cell :=
  zfirstn off data ++ src ++ zskipn (off + zlen src) data.
Definition clipped (b : cbuf) (r : srect) (old : list cell) : list cell :=
  map (fun k => let y := rTop r + Z.of_nat k / rWidth r in let x := rLeft r + Z.of_nat k mod rWidth r in
                if (0 <=? x) && (x <? b_w b) && (0 <=? y) && (y <? b_h b) then b_cells b y x
                else nth k old (mkCell 0 0))
      (seq 0 (Z.to_nat (rWidth r * rHeight r))).
Definition read {E} (newW10 : bool) (r : srect) (data : list cell) (off : Z) (w : world) : res E (list cell * world) :=
  let w := with_log (RRead r) (interfere w) in
  let n := rWidth r * rHeight r in
  if (n <? 0) || (off <? 0) || (zlen data <? off + n) then UB
  else if in_buf (w_buf w) r then Ok (blit data off (rect_cells (w_buf w) r), w)
  else if newW10 then Ok (blit data off (clipped (w_buf w) r (zfirstn n (zskipn off data))), w)
  else UB.

(** clearLines, Win32ConsoleBuffer.cc:63-80: [width * count] cells from the start of [row] *)
Definition clearLines (row count : Z) (i : cinfo) (w : world) : world :=
  let w := interfere w in
  let b := w_buf w in
  let width := co_x (i_size i) in
  with_buf (set_cells (fun y x => if (row * b_w b <=? y * b_w b + x) && (y * b_w b + x <? row * b_w b + width * count)
                                  then blankChar 7 else b_cells b y x) b) w.

(** WriteConsoleOutputW, Win32ConsoleBuffer::write (181-187); only used for one column *)
Definition write_col (r : srect) (data : list cell) (w : world) : world :=
  let w := interfere w in
  let b := w_buf w in
  with_buf (set_cells (fun y x => if (rLeft r =? x) && (rTop r <=? y) && (y <=? rBottom r)
                                  then match znth data (y - rTop r) with Some c => c | None => b_cells b y x end
                                  else b_cells b y x) b) w.

(** moveWindow, Win32ConsoleBuffer.cc:139-144: SetConsoleWindowInfo refuses a window that
    is not inside the buffer *)
Definition valid_window (b : cbuf) (r : srect) : bool :=
  in_buf b r && (rLeft r <=? rRight r) && (rTop r <=? rBottom r).
Definition moveWindow (r : srect) (w : world) : world :=
  let w := interfere w in
  let '(fail, w1) := fails w in
  let w2 := with_log (RMoveWindow r (w_buf w)) w1 in
  if negb fail && valid_window (w_buf w) r then with_buf (set_win r (w_buf w)) w2 else w2.

(** SetConsoleScreenBufferSize: refuses a size smaller than the window's.  The window and the
    cursor are kept inside.  (How the text is rewrapped is left to the other programs' turn;
    a console that is stricter, e.g. about the window's position, to [w_fail].) *)
Definition fit_window (x y : Z) (r : srect) : srect :=
  let dx := Z.max 0 (rRight r - (x - 1)) in
  let dy := Z.max 0 (rBottom r - (y - 1)) in
  mkRect (rLeft r - dx) (rTop r - dy) (rRight r - dx) (rBottom r - dy).
Definition setBufferSize (x y : Z) (w : world) : bool * world :=
  let w := interfere w in
  let '(fail, w1) := fails w in
  let w2 := with_log (RSetSize x y) w1 in
  let b := w_buf w in
  if negb fail && (rRight (b_win b) - rLeft (b_win b) <? x) && (rBottom (b_win b) - rTop (b_win b) <? y) then
    (true, with_buf (set_win (fit_window x y (b_win b))
             (set_cur (mkCoord (Z.min (co_x (b_cur b)) (x - 1)) (Z.min (co_y (b_cur b)) (y - 1))) (set_size x y b))) w2)
  else (false, w2).

(** resizeBufferRange, Win32ConsoleBuffer.cc:103-129.  [fuel] 20 suffices: X grows from at
    least 1 to 20. *)
Fixpoint widen (fuel : nat) (x y : Z) (w : world) : world :=
  match fuel with
  | O => w
  | S f =>
      if x <? 20 then
        let '(ok, w) := setBufferSize (x + 1) y w in if ok then w else widen f (x + 1) y w
      else w
  end.
Definition resizeBufferRange (x y : Z) (w : world) : world :=
  let '(ok, w) := setBufferSize x y w in
  if ok then w else widen 20 x y w.

(** setCursorPosition, Win32ConsoleBuffer.cc:150-155 *)
Definition setCursorPosition (c : coord) (w : world) : world :=
  let w := interfere w in
  let b := w_buf w in
  if (0 <=? co_x c) && (co_x c <? b_w b) && (0 <=? co_y c) && (co_y c <? b_h b) then with_buf (set_cur c b) w else w.
Definition cursorPosition (w : world) : coord * world := let '(i, w) := bufferInfo w in (i_cur i, w).
(** GetLargestConsoleWindowSize *)
Definition largestSize (w : world) : coord * world := let w := interfere w in (b_largest (w_buf w), w).
(** setSmallFont (ConsoleFont.v): what it does to the buffer is left to the other programs' turn *)
Definition changeFont (w : world) : world := interfere w.
