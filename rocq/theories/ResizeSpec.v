(** What the agent may ask the console for when it sets window and buffer sizes. *)
From Verif Require Import Base SmallRect ConsoleLine Console Scraper.

Definition rows_of (r : srect) : Z := rBottom r - rTop r + 1.
Definition cols_of (r : srect) : Z := rRight r - rLeft r + 1.
(** Window [r] is inside buffer [b]. *)
Definition fits (b : cbuf) (r : srect) : Prop := 0 <= rLeft r /\ 0 <= rTop r /\ rRight r < b_w b /\ rBottom r < b_h b.
(** The cursor's line is one of the window's. *)
Definition cursor_shown (cur : coord) (r : srect) : Prop := rTop r <= co_y cur <= rBottom r.
Definition is_short (v : Z) : Prop := -32768 <= v <= 32767.

(** A window of at most 2500 x 2000 cells, nothing wrapped, starting at the left edge.  It
    fits the buffer [b] it is asked of unless the buffer is narrower, or lower than the
    window or than the agent's own 3000 lines (the agent had asked for enough, but did not
    get it).  The cursor's line stays shown. *)
Definition window_ok (r : srect) (b : cbuf) : Prop :=
  rLeft r = 0 /\ 1 <= cols_of r <= 2500 /\ 1 <= rows_of r <= 2000 /\ is_short (rTop r) /\ is_short (rBottom r) /\
  (fits b r \/ b_w b < cols_of r \/ b_h b < rows_of r \/ b_h b < 3000) /\
  (cursor_shown (b_cur b) (b_win b) -> cursor_shown (b_cur b) r).
Definition size_ok (x y : Z) : Prop := 1 <= x <= 2500 /\ 1 <= y <= 32767.
Definition request_ok (q : request) : Prop :=
  match q with RMoveWindow r b => window_ok r b | RSetSize x y => size_ok x y | RRead _ => True end.
(** When the agent starts the cursor is about to be put into the corner. *)
Definition start_request_ok (q : request) : Prop :=
  match q with
  | RMoveWindow r b => rLeft r = 0 /\ rTop r = 0 /\ 1 <= cols_of r <= 2500 /\ 1 <= rows_of r <= 2000 /\ (fits b r \/ b_w b < cols_of r \/ b_h b < rows_of r)
  | RSetSize x y => size_ok x y
  | RRead _ => True
  end.

(** What a resize to [cols] x [rows] does to a buffer: the text area has that width; its
    height is [rows] if the window showed all of it, and is otherwise not reduced.  The
    window has the size asked for, or as much of it as the screen has room for. *)
Definition resized (cols rows : Z) (b b' : cbuf) : Prop :=
  b_w b' = cols /\ b_h b' = (if rows_of (b_win b) =? b_h b then rows else Z.max rows (b_h b)) /\
  rLeft (b_win b') = 0 /\ cols_of (b_win b') = Z.min cols (co_x (b_largest b)) /\ rows_of (b_win b') = Z.min rows (co_y (b_largest b)) /\
  fits b' (b_win b') /\ (cursor_shown (b_cur b) (b_win b) -> cursor_shown (b_cur b') (b_win b')).

(** What the agent's start makes of a screen buffer: [cols] columns and 3000 rows, all
    blank; the window in the corner, with the size asked for or as much of it as the screen
    has room for; the cursor in the corner; the rest as it was. *)
Definition prepared (cols rows : Z) (b b' : cbuf) : Prop :=
  b_w b' = cols /\ b_h b' = 3000 /\ b_cur b' = mkCoord 0 0 /\
  b_win b' = mkRect 0 0 (Z.min cols (co_x (b_largest b)) - 1) (Z.min rows (co_y (b_largest b)) - 1) /\
  (forall y x, 0 <= y < 3000 -> 0 <= x < cols -> b_cells b' y x = mkCell 32 7) /\
  b_largest b' = b_largest b /\ b_cp b' = b_cp b /\ b_mode b' = b_mode b /\ b_visible b' = b_visible b.
