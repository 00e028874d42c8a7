(** Model of src/agent/Scraper.cc and Scraper.h, on the console of Console.v.  Terminal
    operations are recorded in order; Terminal.v models what they send.

    [int] arithmetic is not wrapped: rows, columns and counts stay below 2^16 here (the
    invariant in ScraperProofs.v).  The 64-bit line numbers are taken not to overflow.
    Conversions to 16 bits are explicit. *)
From Verif Require Import Base Text Strings SmallRect ConsoleLine Console LargeRead TerminalSpec.

(** Scraper.h:43-47 (MAX_CONSOLE_WIDTH is in LargeRead.v) *)
Definition BUFFER_LINE_COUNT : Z := 3000.
Definition MAX_CONSOLE_HEIGHT : Z := 2000.
Definition SYNC_MARKER_LEN : Z := 16.
Definition SYNC_MARKER_MARGIN : Z := 200.
(** Win32ConsoleBuffer.h: kDefaultAttributes *)
Definition kDefaultAttributes : Z := 7.

(** What does not change while the agent runs: Win32Console::isNewW10, isAtLeastWindows8,
    and the content of uninitialised arrays (any, and possibly different at each use).
    [c_strict] is not part of the program: if set, the run stops ([Throw]) as soon as one
    of the three conditions marked [assume] below does not hold. *)
Record cfg := mkCfg { c_new : bool; c_w8 : bool; c_junk : world -> list cell; c_strict : bool }.
Inductive broken := MarkerAtTop | WindowAboveMarker | StaleRectangle.
Definition assume (c : cfg) (b : broken) (cond : bool) : res broken unit :=
  if c_strict c && negb cond then Throw b else Ok tt.

(** Scraper.h:92-108; [s_out]: the operations on m_terminal so far *)
Record sst := mkS {
  s_syncRow : Z; s_counter : Z; s_direct : bool; s_pty : coord; s_scraped : Z; s_scrolled : Z; s_maxBuf : Z;
  s_read : lread; s_lines : list cline; s_dirtyTop : Z; s_dirty : Z; s_out : list top }.
Definition st_sync r n s := mkS r n (s_direct s) (s_pty s) (s_scraped s) (s_scrolled s) (s_maxBuf s) (s_read s) (s_lines s) (s_dirtyTop s) (s_dirty s) (s_out s).
Definition st_direct b s := mkS (s_syncRow s) (s_counter s) b (s_pty s) (s_scraped s) (s_scrolled s) (s_maxBuf s) (s_read s) (s_lines s) (s_dirtyTop s) (s_dirty s) (s_out s).
Definition st_pty p s := mkS (s_syncRow s) (s_counter s) (s_direct s) p (s_scraped s) (s_scrolled s) (s_maxBuf s) (s_read s) (s_lines s) (s_dirtyTop s) (s_dirty s) (s_out s).
Definition st_scraped v s := mkS (s_syncRow s) (s_counter s) (s_direct s) (s_pty s) v (s_scrolled s) (s_maxBuf s) (s_read s) (s_lines s) (s_dirtyTop s) (s_dirty s) (s_out s).
Definition st_scrolled v s := mkS (s_syncRow s) (s_counter s) (s_direct s) (s_pty s) (s_scraped s) v (s_maxBuf s) (s_read s) (s_lines s) (s_dirtyTop s) (s_dirty s) (s_out s).
Definition st_read r s := mkS (s_syncRow s) (s_counter s) (s_direct s) (s_pty s) (s_scraped s) (s_scrolled s) (s_maxBuf s) r (s_lines s) (s_dirtyTop s) (s_dirty s) (s_out s).
Definition st_lines m l s := mkS (s_syncRow s) (s_counter s) (s_direct s) (s_pty s) (s_scraped s) (s_scrolled s) m (s_read s) l (s_dirtyTop s) (s_dirty s) (s_out s).
Definition st_top v s := mkS (s_syncRow s) (s_counter s) (s_direct s) (s_pty s) (s_scraped s) (s_scrolled s) (s_maxBuf s) (s_read s) (s_lines s) v (s_dirty s) (s_out s).
Definition st_dirty v s := mkS (s_syncRow s) (s_counter s) (s_direct s) (s_pty s) (s_scraped s) (s_scrolled s) (s_maxBuf s) (s_read s) (s_lines s) (s_dirtyTop s) v (s_out s).
Definition emit o s := mkS (s_syncRow s) (s_counter s) (s_direct s) (s_pty s) (s_scraped s) (s_scrolled s) (s_maxBuf s) (s_read s) (s_lines s) (s_dirtyTop s) (s_dirty s) (s_out s ++ [o]).

(** m_bufferData[i] *)
Definition line_at {E} (s : sst) (i : Z) : res E cline := match znth (s_lines s) i with Some l => Ok l | None => UB end.
Definition set_line {E} (i : Z) (l : cline) (m : Z) (s : sst) : res E sst :=
  match zupd (s_lines s) i l with Some ls => Ok (st_lines m ls s) | None => UB end.

(** resetConsoleTracking, Scraper.cc:116-129 *)
Definition resetConsoleTracking (sendClear : bool) (scraped : Z) (s : sst) : sst :=
  emit (TReset sendClear scraped)
    (mkS (-1) (s_counter s) (s_direct s) (s_pty s) scraped 0 (-1) (s_read s) (map resetLine (s_lines s)) (-1) 0 (s_out s)).

(** markEntireWindowDirty, 134-138 *)
Definition windowStop (win : srect) : Z := rTop win + rHeight win.
Definition markEntireWindowDirty (win : srect) (s : sst) : sst := st_dirty (Z.max (s_dirty s) (windowStop win)) s.

(** The inner loop of scanForDirtyLines, 152-159: is there a cell among the first [w] that
    is not a space or has another attribute? *)
Definition line_dirty (w : Z) (data : list cell) (attr : Z) : bool :=
  existsb (fun c => negb (cl_ch c =? 32) || negb (cl_attr c =? attr)) (zfirstn w data).
(** Its outer loop, 150-162, over [n] lines from [line]; reading cell [w - 1] of a line
    that has fewer is undefined. *)
Fixpoint scan_loop {E} (n : nat) (r : lread) (line attr dirty : Z) : res E Z :=
  match n with
  | O => Ok dirty
  | S n =>
      let w := rWidth (lr_rect r) in
      let! data := lineData r line in
      match znth data (w - 1) with
      | None => UB
      | Some lastCell => scan_loop n r (line + 1) (cl_attr lastCell) (if line_dirty w data attr then line + 1 else dirty)
      end
  end.
(** scanForDirtyLines, 142-163 *)
Definition scanForDirtyLines {E} (win : srect) (s : sst) : res E sst :=
  let! _ := assert_ (1 <=? s_dirty s) in
  let! prev := lineData (s_read s) (s_dirty s - 1) in
  match znth prev (rWidth (lr_rect (s_read s)) - 1) with
  | None => UB
  | Some c =>
      let! d := scan_loop (Z.to_nat (windowStop win - s_dirty s)) (s_read s) (s_dirty s) (cl_attr c) (s_dirty s) in
      Ok (st_dirty d s)
  end.

(** clearBufferLines, 167-178 *)
Fixpoint clear_loop {E} (n : nat) (row : Z) (s : sst) : res E sst :=
  match n with
  | O => Ok s
  | S n =>
      let bufLine := row + s_scrolled s in
      let! l := line_at s (Z.rem bufLine BUFFER_LINE_COUNT) in
      let! s := set_line (Z.rem bufLine BUFFER_LINE_COUNT) (blankLine l kDefaultAttributes) (Z.max (s_maxBuf s) bufLine) s in
      clear_loop n (row + 1) s
  end.
Definition clearBufferLines {E} (firstRow count : Z) (s : sst) : res E sst :=
  let! _ := assert_ (negb (s_direct s)) in
  clear_loop (Z.to_nat count) firstRow s.

(** cursorInWindow, 180-184 *)
Definition cursorInWindow (i : cinfo) : bool := (rTop (i_win i) <=? co_y (i_cur i)) && (co_y (i_cur i) <=? rBottom (i_win i)).

(** syncMarkerText, 650-660 *)
Definition hex8 (v : Z) : list Z := map (fun k => hexdigit (Z.land (Z.shiftr v (4 * k)) 15)) [7; 6; 5; 4; 3; 2; 1; 0].
Definition syncMarkerText (counter : Z) : list Z := str "S*Y*N*C*" ++ hex8 counter.

(** findSyncMarker, 662-681: the loops *)
Definition matches_at (column : list cell) (i : Z) (marker : list Z) : bool :=
  list_eqb (map cl_ch (zfirstn SYNC_MARKER_LEN (zskipn i column))) marker.
Fixpoint find_from (n : nat) (column : list cell) (i : Z) (marker : list Z) : Z :=
  if matches_at column i marker then i
  else match n with O => -1 | S n => find_from n column (i - 1) marker end.
Definition findSyncMarker (c : cfg) (s : sst) (w : world) : res broken (Z * world) :=
  let! _ := assert_ (0 <=? s_syncRow s) in
  let column := c_junk c w in
  let rect := SmallRect 0 0 1 (s_syncRow s + SYNC_MARKER_LEN) in
  let! (column, w) := read (c_new c) rect column 0 w in
  if zlen column <? s_syncRow s + SYNC_MARKER_LEN then UB
  else Ok (find_from (Z.to_nat (s_syncRow s)) column (s_syncRow s) (syncMarkerText (s_counter s)), w).

(** createSyncMarker, 683-699 *)
Definition createSyncMarker {E} (row : Z) (s : sst) (w : world) : res E (sst * world) :=
  let! _ := assert_ (1 <=? row) in
  let '(i, w) := bufferInfo w in
  let w := clearLines (row - 1) (SYNC_MARKER_LEN + 1) i w in
  let counter := u32 (s_counter s + 1) in
  let w := write_col (SmallRect 0 row 1 SYNC_MARKER_LEN) (map (fun ch => mkCell ch 7) (syncMarkerText counter)) w in
  Ok (st_sync row counter s, w).

(** attributesMask, 397-432 *)
Definition attributesMask (c : cfg) (w : world) : Z * world :=
  let w := interfere w in
  let cp := b_cp (w_buf w) in
  let w := interfere w in
  let mode := b_mode (w_buf w) in
  let isCjk := (cp =? 932) || (cp =? 936) || (cp =? 949) || (cp =? 950) in
  let other := isCjk || Z.testbit mode 4 || Z.testbit mode 2 in
  let mask := 0xFFFF in
  let mask := if other || c_new c then mask else Z.land mask (0xFFFF - 0x4000) in
  ((if other then mask else Z.land mask (0xFFFF - 0x8000)), w).

(** directScrapeOutput, 434-474.  [w]: m_readBuffer; [stale]: the console may have been
    resized since [info] was taken. *)
Definition scrapeRect (info : cinfo) (pty : coord) : srect :=
  SmallRect (rLeft (i_win info)) (rTop (i_win info))
    (Z.min (Z.min (rWidth (i_win info)) (co_x pty)) MAX_CONSOLE_WIDTH)
    (Z.min (Z.min (rHeight (i_win info)) (co_y pty)) BUFFER_LINE_COUNT).
Fixpoint direct_loop {E} (n : nat) (top line width cursorColumn cursorLine : Z) (s : sst) : res E sst :=
  match n with
  | O => Ok s
  | S n =>
      let! curLine := lineData (s_read s) (top + line) in
      let! bufLine := line_at s line in
      let! (changed, bufLine) := detectChangeAndSetLine bufLine curLine width in
      let! s := set_line line bufLine (s_maxBuf s) s in
      let! s := (if changed : bool then
          if zlen curLine <? width then UB
          else Ok (emit (TSend line (zfirstn width curLine) (if line =? cursorLine then cursorColumn else -1)) s)
        else Ok s) in
      direct_loop n top (line + 1) width cursorColumn cursorLine s
  end.
Definition directScrapeOutput (c : cfg) (stale : bool) (info : cinfo) (consoleCursorVisible : bool) (s : sst) (w : world) : res broken (sst * world) :=
  let rect := scrapeRect info (s_pty s) in
  let wd := rWidth rect in
  let h := rHeight rect in
  let cursor := i_cur info in
  let show := consoleCursorVisible && containsCoord rect cursor in
  let cursorColumn := if show then co_x cursor - rLeft rect else -1 in
  let cursorLine := if show then co_y cursor - rTop rect else -1 in
  let s := if show then s else emit THide s in
  let '(mask, w) := attributesMask c w in
  let! _ := assume c StaleRectangle (negb stale || c_new c || in_buf (w_buf w) rect) in
  let! (r, w) := largeConsoleRead (c_new c) (c_w8 c) rect mask (s_read s) w in
  let s := st_read r s in
  let! s := direct_loop (Z.to_nat h) (rTop rect) 0 wd cursorColumn cursorLine s in
  Ok ((if show then emit (TShow cursorColumn cursorLine) s else s), w).

(** scrollingScrapeOutput, 476-648, in parts.  A false result: gave up (tentative).

    The sync marker, 485-508 *)
Definition scroll_marker (c : cfg) (win : srect) (tentative : bool) (s : sst) (w : world) : res broken (bool * sst * world) :=
  if s_syncRow s =? -1 then Ok (true, s, w)
  else
    let! (markerRow, w) := findSyncMarker c s w in
    if markerRow =? -1 then
      if tentative then Ok (false, s, w) else Ok (true, resetConsoleTracking true (rTop win) s, w)
    else if negb (markerRow =? s_syncRow s) then
      let! _ := assert_ (markerRow <? s_syncRow s) in
      let! _ := assume c MarkerAtTop ((1 <=? markerRow) || (432 <=? rTop win)) in
      Ok (true, markEntireWindowDirty win
                  (st_sync markerRow (s_counter s) (st_scrolled (s_scrolled s + (s_syncRow s - markerRow)) s)), w)
    else Ok (true, s, w).

(** The window's movement and the dirty line count, 523-554 *)
Definition scroll_dirty (win : srect) (cursor : coord) (tentative : bool) (s : sst) : bool * sst :=
  let '(go, s) :=
    if negb (s_dirtyTop s =? -1) then
      if s_dirtyTop s <? rTop win then (true, markEntireWindowDirty win s)
      else if rTop win <? s_dirtyTop s then
        if tentative then (false, s) else (true, resetConsoleTracking true (rTop win) s)
      else (true, s)
    else (true, s) in
  if negb go then (false, s)
  else let s := st_top (rTop win) s in
       (true, st_dirty (Z.max (Z.max (s_dirty s) (co_y cursor + 1)) (rTop win)) s).

(** Whether the console changed while it was read without being frozen, 586-597 *)
Definition scroll_check (c : cfg) (info : cinfo) (s : sst) (w : world) : res broken (bool * world) :=
  let '(check, w) := bufferInfo w in
  if negb (coord_eqb (i_size info) (i_size check)) || negb (rect_eqb (i_win info) (i_win check))
     || negb (coord_eqb (i_cur info) (i_cur check)) then Ok (false, w)
  else if negb (s_syncRow s =? -1) then
    let! (row, w) := findSyncMarker c s w in Ok (s_syncRow s =? row, w)
  else Ok (true, w).

(** The lines sent, 625-641, [n] of them from [line] *)
Fixpoint send_lines {E} (n : nat) (line width cursorLine cursorColumn : Z) (saw : bool) (s : sst) : res E sst :=
  match n with
  | O => Ok s
  | S n =>
      let! curLine := lineData (s_read s) (line - s_scrolled s) in
      let! bufLine := line_at s (Z.rem line BUFFER_LINE_COUNT) in
      let m := Z.max (s_maxBuf s) line in
      let saw := saw || (s_maxBuf s <? line) in
      let! (saw, bufLine) := (if saw then let! b := setLine bufLine curLine width in Ok (true, b)
                              else detectChangeAndSetLine bufLine curLine width) in
      let! s := set_line (Z.rem line BUFFER_LINE_COUNT) bufLine m s in
      let! s := (if saw : bool then
          if zlen curLine <? width then UB
          else Ok (emit (TSend line (zfirstn width curLine) (if line =? cursorLine then cursorColumn else -1)) s)
        else Ok s) in
      send_lines n (line + 1) width cursorLine cursorColumn saw s
  end.

(** The part after the console has been read, 604-647 *)
Definition scroll_send {E} (info : cinfo) (consoleCursorVisible : bool) (firstVirt : Z) (s : sst) : res E sst :=
  let win := i_win info in
  let cursor := i_cur info in
  let! s := scanForDirtyLines win s in
  let stopVirt := Z.min (s_dirty s) (windowStop win) + s_scrolled s in
  let show := consoleCursorVisible && containsCoord win cursor in
  let cursorLine := if show then co_y cursor + s_scrolled s else -1 in
  let cursorColumn := if show then co_x cursor else -1 in
  let s := if show then s else emit THide s in
  let! s := send_lines (Z.to_nat (stopVirt - firstVirt)) firstVirt (rWidth (lr_rect (s_read s))) cursorLine cursorColumn false s in
  let s := st_scraped (rTop win + s_scrolled s) s in
  Ok (if show then emit (TShow cursorColumn cursorLine) s else s).

Definition scrollingScrapeOutput (c : cfg) (info : cinfo) (consoleCursorVisible tentative : bool) (s : sst) (w : world) : res broken (bool * sst * world) :=
  let win := i_win info in
  let! (go, s, w) := scroll_marker c win tentative s w in
  if negb (go : bool) then Ok (false, s, w)
  else
  let newSyncRow := rTop win - SYNC_MARKER_LEN - SYNC_MARKER_MARGIN in
  let should := s_syncRow s + SYNC_MARKER_LEN + SYNC_MARKER_MARGIN <=? newSyncRow in
  if tentative && should then Ok (false, s, w)
  else
  let '(go, s) := scroll_dirty win (i_cur info) tentative s in
  if negb go then Ok (false, s, w)
  else
  let! _ := assert_ (1 <=? s_dirty s) in
  let firstVirt := Z.min (s_scraped s) (rTop win + s_scrolled s) in
  let firstRead := Z.min (firstVirt - s_scrolled s) (s_dirty s - 1) in
  let stopRead := Z.max (windowStop win) (s_dirty s) in
  let! _ := assert_ ((0 <=? firstRead) && (firstRead <? stopRead)) in
  let '(mask, w) := attributesMask c w in
  let! (r, w) := largeConsoleRead (c_new c) (c_w8 c)
      (SmallRect 0 firstRead (Z.min (co_x (i_size info)) MAX_CONSOLE_WIDTH) (stopRead - firstRead)) mask (s_read s) w in
  let s := st_read r s in
  let! (same, w) := (if tentative then scroll_check c info s w else Ok (true, w)) in
  if negb (same : bool) then Ok (false, s, w)
  else
  let! (s, w) := (if should then
      let! _ := assert_ (negb tentative) in createSyncMarker newSyncRow s w
    else Ok (s, w)) in
  let! s := scroll_send info consoleCursorVisible firstVirt s in
  Ok (true, s, w).

(** resizeImpl, 186-317, in parts.  Erasing what is above the window, 208-224 *)
Definition resize_clear {E} (orig : cinfo) (s : sst) (w : world) : res E (sst * world) :=
  if s_direct s then
    Ok (st_lines (s_maxBuf s) (map resetLine (s_lines s)) s, w)
  else
    let w := clearLines 0 (rTop (i_win orig)) orig w in
    let! s := clearBufferLines 0 (rTop (i_win orig)) s in
    if negb (s_syncRow s =? -1) then
      createSyncMarker (Z.min (s_syncRow s) (BUFFER_LINE_COUNT - co_y (s_pty s) - SYNC_MARKER_LEN - SYNC_MARKER_MARGIN)) s w
    else Ok (s, w).
(** finalBufferSize, 226-233 *)
Definition finalSize (orig : cinfo) (cols rows : Z) : coord :=
  mkCoord (s16 cols) (s16 (if rHeight (i_win orig) =? co_y (i_size orig) then rows else Z.max rows (co_y (i_size orig)))).
(** tmpWindowRect, 254-267 *)
Definition tmpWindow (i : cinfo) (vcols vrows : Z) : srect :=
  let tw := Z.min (co_x (i_size i)) vcols in
  let th := Z.min (co_y (i_size i)) vrows in
  let r := SmallRect 0 (Z.min (co_y (i_size i) - th) (rTop (i_win i))) tw th in
  if cursorInWindow i then ensureLineIncluded r (co_y (i_cur i)) else r.
(** finalWindowRect, 280-312 *)
Definition finalWindow (i : cinfo) (direct : bool) (dirty vcols vrows : Z) : srect :=
  let r := SmallRect 0 (Z.min (co_y (i_size i) - vrows) (rTop (i_win i))) vcols vrows in
  let r := if negb direct && (rBottom r + 1 <? dirty) then SmallRect 0 (dirty - vrows) vcols vrows else r in
  if cursorInWindow i then ensureLineIncluded r (co_y (i_cur i)) else r.
Definition resizeImpl (c : cfg) (orig : cinfo) (s : sst) (w : world) : res broken (sst * world) :=
  let! _ := assert_ (w_frozen w) in
  let cols := co_x (s_pty s) in
  let rows := co_y (s_pty s) in
  let! (s, w) := resize_clear orig s w in
  let final := finalSize orig cols rows in
  let w := changeFont (setFrozen false w) in
  let '(largest, w) := largestSize w in
  let vcols := Z.min (s16 cols) (co_x largest) in
  let vrows := Z.min (s16 rows) (co_y largest) in
  let w := setFrozen true w in
  let '(i, w) := bufferInfo w in
  let w := moveWindow (tmpWindow i vcols vrows) w in
  let w := setFrozen false w in
  let w := resizeBufferRange (co_x final) (co_y final) w in
  let w := setFrozen true w in
  let '(i, w) := bufferInfo w in
  let! _ := assume c WindowAboveMarker ((s_syncRow s =? -1) || ((co_y (i_size i) =? BUFFER_LINE_COUNT) && (s_syncRow s <=? rTop (i_win i)))) in
  let r := finalWindow i (s_direct s) (s_dirty s) vcols vrows in
  let w := moveWindow r w in
  let s := st_top (rTop r) s in
  let! _ := assert_ (w_frozen w) in
  Ok (s, w).

(** syncConsoleContentAndSize, 319-387.  The cursor's visibility: true if the call fails
    (not modelled otherwise). *)
Definition cursorVisible (w : world) : bool * world := let w := interfere w in (b_visible (w_buf w), w).
Definition syncConsoleContentAndSize (c : cfg) (forceResize : bool) (s : sst) (w : world) : res broken (cinfo * sst * world) :=
  let w := if negb (c_new c) || forceResize then setFrozen true w else w in
  let '(info, w) := bufferInfo w in
  let '(visible, w) := cursorVisible w in
  let newDirect := negb (co_y (i_size info) =? BUFFER_LINE_COUNT) in
  let '(force, s, w) :=
    if negb (Bool.eqb newDirect (s_direct s)) then
      let s := st_direct newDirect (resetConsoleTracking true (if newDirect then 0 else rTop (i_win info)) s) in
      if negb newDirect then (true, s, setFrozen true w) else (forceResize, s, w)
    else (forceResize, s, w) in
  let! (s, w) :=
    (if s_direct s then
       let! (s, w) := (if force : bool then resizeImpl c info s w else Ok (s, w)) in
       directScrapeOutput c force info visible s w
     else
       let! (s, w) :=
         (if negb (w_frozen w) then
            let! (ok, s, w) := scrollingScrapeOutput c info visible true s w in
            Ok (s, if ok : bool then w else setFrozen true w)
          else Ok (s, w)) in
       let! (s, w) :=
         (if w_frozen w then
            let! (ok, s, w) := scrollingScrapeOutput c info visible false s w in Ok (s, w)
          else Ok (s, w)) in
       if force then resizeImpl c info s w else Ok (s, w)) in
  if force then let '(i, w) := bufferInfo w in Ok (i, s, w) else Ok (info, s, w).

(** resizeWindow, 96-105 and scrapeBuffer, 107-114 *)
Definition resizeWindow (c : cfg) (size : coord) (s : sst) (w : world) := syncConsoleContentAndSize c true (st_pty size s) w.
Definition scrapeBuffer (c : cfg) (s : sst) (w : world) := syncConsoleContentAndSize c false s w.

(** The constructor, 47-90.  setTextAttribute affects only later output. *)
Definition newScraper (c : cfg) (size : coord) (w : world) : sst * world :=
  let '(i, w) := bufferInfo w in
  let s := mkS (-1) 0 false size 0 0 (-1) new_lread [] (-1) 0 [] in
  let s := resetConsoleTracking false (rTop (i_win i)) s in
  let s := st_lines (-1) (zrepeat newLine BUFFER_LINE_COUNT) s in
  let w := changeFont w in
  let w := moveWindow (SmallRect 0 0 1 1) w in
  let w := resizeBufferRange (co_x size) BUFFER_LINE_COUNT w in
  let '(largest, w) := largestSize w in
  let w := moveWindow (SmallRect 0 0 (Z.min (co_x size) (co_x largest)) (Z.min (co_y size) (co_y largest))) w in
  let w := setCursorPosition (mkCoord 0 0) w in
  let w := interfere w in
  let '(i, w) := bufferInfo w in
  let w := clearLines 0 (co_y (i_size i)) i w in
  (s, w).
