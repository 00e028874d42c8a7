(** Full-screen ("direct") mode: what a terminal shows, and the histories of polls. *)
From Verif Require Import Base SmallRect TerminalSpec ConsoleLine ConsoleLineSpec Console LargeRead LargeReadSpec Scraper ScraperSpec.

(** The part of the window that is transmitted: as much of it, from its upper left corner,
    as fits a terminal of size [pty]. *)
Definition shown_rect (i : cinfo) (pty : coord) : srect :=
  let win := i_win i in
  mkRect (rLeft win) (rTop win)
    (rLeft win + Z.min (rRight win - rLeft win + 1) (co_x pty) - 1)
    (rTop win + Z.min (rBottom win - rTop win + 1) (co_y pty) - 1).
Definition width_of (r : srect) : Z := rRight r - rLeft r + 1.
Definition height_of (r : srect) : Z := rBottom r - rTop r + 1.

(** A terminal: what each of its rows holds.  A line that is sent replaces its row; the
    rest of the row is erased, in the colour of the line's last cell.  (7 is the colour of
    a cleared terminal.) *)
Definition screen := Z -> row.
Definition wiped (line : list cell) : row := mkRow (fun i => znth line i) (last_colour line 7).
Definition do_op (o : top) (t : screen) : screen :=
  match o with
  | TReset true _ => fun _ => mkRow nothing 7
  | TSend k line _ => fun j => if j =? k then wiped line else t j
  | _ => t
  end.
Definition replay (ops : list top) (t : screen) : screen := fold_left (fun t o => do_op o t) ops t.
(** The row shows the line and nothing else: the rest is blank. *)
Definition fills (r : row) (line : list cell) : Prop :=
  shows r line /\ forall i, zlen line <= i -> holds r i = mkCell 32 (last_colour line 7).
(** Only the columns the terminal has count. *)
Definition cut (n : Z) (r : row) : row := mkRow (fun i => if i <? n then cols r i else None) (colour r).

(** What was sent since [s] *)
Definition new_ops (s s' : sst) : list top := skipn (length (s_out s)) (s_out s').
(** Line [k] of the transmitted rectangle as it was read in the poll that ended in [s] *)
Definition seen (i : cinfo) (s : sst) (k : Z) : list cell :=
  let r := shown_rect i (s_pty s) in
  match @lineData unit (s_read s) (rTop r + k) with Ok l => zfirstn (width_of r) l | _ => [] end.
(** The lines last seen, by row; [None]: not since the start of full-screen mode or the
    last resize *)
Definition look (i : cinfo) (s : sst) (last : Z -> option (list cell)) : Z -> option (list cell) :=
  fun k => if (0 <=? k) && (k <? height_of (shown_rect i (s_pty s))) then Some (seen i s k) else last k.

(** A scraper as the agent creates it and as it remains *)
Definition scraper_ok (s : sst) : Prop :=
  (1 <= co_x (s_pty s) <= 2500 /\ 1 <= co_y (s_pty s) <= 2000 /\ 0 <= s_dirty s <= 3000) /\ zlen (s_lines s) = 3000.
(** A console at any moment at which the agent believes it frozen just if it is *)
Definition at_rest (w : world) : Prop := console_ok (w_buf w) /\ programs_ok (w_env w) /\ w_sel w = w_frozen w.

(** A period of full-screen mode: how it starts, and the polls in it.  Between polls other
    programs do as they like.  [t]: what the terminal shows; [last]: what was last seen.
    When such a period starts, and at a resize, the terminal may show anything. *)
Inductive full_screen (c : cfg) : sst -> screen -> (Z -> option (list cell)) -> Prop :=
| fs_enter s w i s' w' t : scraper_ok s -> at_rest w -> s_direct s = false ->
    scrapeBuffer c s w = Ok (i, s', w') -> s_direct s' = true ->
    full_screen c s' (replay (new_ops s s') t) (look i s' (fun _ => None))
| fs_resize s w size i s' w' t : scraper_ok (st_pty size s) -> at_rest w ->
    resizeWindow c size s w = Ok (i, s', w') -> s_direct s' = true ->
    full_screen c s' (replay (new_ops s s') t) (fun _ => None)
| fs_poll s t last w i s' w' : full_screen c s t last -> at_rest w ->
    scrapeBuffer c s w = Ok (i, s', w') -> s_direct s' = true ->
    full_screen c s' (replay (new_ops s s') t) (look i s' last).

(** What a poll sends: rows in order from the top, each at most once, each with what was
    seen and with the cursor's column if it is the cursor's row; then the cursor. *)
Definition sends (i : cinfo) (s : sst) (sent : Z -> bool) (column line : Z) : list top :=
  flat_map (fun k => if sent k then [TSend k (seen i s k) (if k =? line then column else -1)] else [])
    (zseq 0 (height_of (shown_rect i (s_pty s)))).
Definition cursor_seen (i : cinfo) (pty : coord) (visible : bool) : bool := visible && containsCoord (shown_rect i pty) (i_cur i).
Definition poll_ops (i : cinfo) (s : sst) (sent : Z -> bool) (visible : bool) : list top :=
  let r := shown_rect i (s_pty s) in
  let column := co_x (i_cur i) - rLeft r in
  let line := co_y (i_cur i) - rTop r in
  if cursor_seen i (s_pty s) visible then sends i s sent column line ++ [TShow column line]
  else [THide] ++ sends i s sent (-1) (-1).
(** The attribute bits that are read *)
Definition masks : list Z := [0xFFFF; 0xBFFF; 0x7FFF; 0x3FFF].
