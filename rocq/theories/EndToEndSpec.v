(** From the console to the user's terminal: what it means that the terminal shows what
    the console's programs have displayed, for C51. *)
From Verif Require Import Base SmallRect Terminal TerminalSpec ConsoleLine ConsoleLineSpec Console LargeReadSpec Scraper ScraperSpec StreamSpec DirectSpec.

(** The terminal is as wide as the console's buffer or wider, and as high as its window or
    higher; its characters are as wide as the console's *)
Definition fits (te : tenv) (mask bw : Z) (t : StreamSpec.screen) : Prop :=
  rBottom (p_win t) - rTop (p_win t) + 1 <= te_h te /\
  forall n, exists txt, line_text (content mask (Z.min bw 2500) t n) txt /\ Forall (showable te) txt.
(** Terminal row [row] shows a line of cells *)
Definition row_is (te : tenv) (d : list cell) (s : scr) (row : Z) : Prop :=
  exists txt, line_text d txt /\ row_shows te true rend0 txt s row.
(** The terminal's cursor: hidden, or visible at a place *)
Definition cursor_is (at_ : option (Z * Z)) (s : scr) : Prop :=
  match at_ with
  | Some (row, col) => s_mode s 25 = true /\ s_row s = row /\ s_col s = col
  | None => s_mode s 25 = false
  end.

(** *** Full-screen mode *)
(** The cells of one character have the same colours. *)
Definition uniform (d : list cell) : Prop :=
  forall i a b, znth d i = Some a -> znth d (i + 1) = Some b -> half a = true \/ 0xD800 <= cl_ch a < 0xDC00 ->
  rend_of (cl_attr a) = rend_of (cl_attr b).
Definition legible (te : tenv) (d : list cell) : Prop := (exists txt, line_text d txt /\ Forall (showable te) txt) /\ uniform d.
(** What is seen in a poll of a full-screen console *)
Definition all_legible (te : tenv) (i : cinfo) (s : sst) : Prop := forall k, 0 <= k < height_of (shown_rect i (s_pty s)) -> legible te (seen i s k).
(** Periods of full-screen mode as in DirectSpec.v, without resizes, and the output that is
    written in them.  The agent has been told the terminal's size.  They may start at any
    time in any history of output ([reach]; [strict]: the cursor is not hidden then). *)
Inductive full_output (c : cfg) (te : tenv) (st : scr) (strict : bool) : sst -> term -> (Z -> option (list cell)) -> Prop :=
| fo_enter s w i s' w' off tm ops tm' : scraper_ok s -> s_pty s = mkCoord (te_w te) (te_h te) -> at_rest w -> s_direct s = false ->
    scrapeBuffer c s w = Ok (i, s', w') -> s_direct s' = true -> all_legible te i s' ->
    reach te st true strict off tm -> (strict = true -> t_hidden tm = false) ->
    without_mouse ops = new_ops s s' -> run_tops (E := unit) ops tm = Ok tm' ->
    full_output c te st strict s' tm' (DirectSpec.look i s' (fun _ => None))
| fo_poll s tm last w i s' w' ops tm' : full_output c te st strict s tm last -> at_rest w ->
    scrapeBuffer c s w = Ok (i, s', w') -> s_direct s' = true -> all_legible te i s' ->
    without_mouse ops = new_ops s s' -> run_tops (E := unit) ops tm = Ok tm' ->
    full_output c te st strict s' tm' (DirectSpec.look i s' last).
(** What the terminal shows after a poll: every row as it was last seen; the cursor at its
    place in the visible part of the window, or hidden; and the visible part of the window
    as it is at the end of the poll, unless the console is new and the window's place has
    left the screen buffer. *)
Definition poll_shown (c : cfg) (te : tenv) (strict : bool) (last : Z -> option (list cell)) (i : cinfo) (s : sst) (w : world) (now : scr) : Prop :=
  let r := shown_rect i (s_pty s) in
  (forall k l, DirectSpec.look i s last k = Some l -> row_is te l now (s_top now + k)) /\
  exists visible,
    (c_new c = false -> i = info_of (w_buf w) /\ visible = b_visible (w_buf w)) /\
    (strict = true -> cursor_is (if cursor_seen i (s_pty s) visible then Some (s_top now + (co_y (i_cur i) - rTop r), co_x (i_cur i) - rLeft r) else None) now) /\
    (c_new c = false \/ in_buf (w_buf w) r = true -> words (w_buf w) -> exists mask, In mask masks /\
       forall k, 0 <= k < height_of r -> row_is te (expected_row (w_buf w) mask r (rTop r + k)) now (s_top now + k)).
