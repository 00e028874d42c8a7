(** What it means that a program's output is transmitted completely, for C21. *)
From Verif Require Import Base SmallRect ConsoleLine Console LargeRead LargeReadSpec TerminalSpec Scraper AgentConsole ScraperSpec.

(** *** Programs
    What a console's programs have displayed so far.  Their lines are numbered from the
    first row of the buffer at the beginning: [p_text n x] is what column [x] of line [n]
    holds.  The buffer's 3000 rows hold the lines from [p_off] on: [p_off] lines have
    scrolled off its top. *)
Record screen := mkP { p_off : Z; p_win : srect; p_cur : coord; p_visible : bool; p_text : Z -> Z -> cell }.
(** The line at the top of the window *)
Definition top_line (t : screen) : Z := p_off t + rTop (p_win t).
(** The first line below the window *)
Definition end_line (t : screen) : Z := p_off t + rBottom (p_win t) + 1.

(** The window and the cursor are in a buffer of [width] columns and 3000 rows; attributes
    are 16-bit words; and the programs do not imitate the agent's sync marker: no 16
    lines have in their first column, from top to bottom, the text of one. *)
Definition screen_ok (width : Z) (t : screen) : Prop :=
  0 <= p_off t /\
  0 <= rLeft (p_win t) <= rRight (p_win t) /\ rRight (p_win t) < width /\
  0 <= rTop (p_win t) <= rBottom (p_win t) /\ rBottom (p_win t) < 3000 /\
  0 <= co_x (p_cur t) < width /\ 0 <= co_y (p_cur t) < 3000 /\
  (forall n x, 0 <= cl_attr (p_text t n x) < 65536) /\
  (forall n counter, map (fun k => cl_ch (p_text t (n + k) 0)) (zseq 0 16) <> syncMarkerText counter).
(** What programs do: they may rewrite all lines from the top of the window on, scroll the
    buffer and move the window down; what is above the window stays. *)
Definition goes_to (t t' : screen) : Prop :=
  p_off t <= p_off t' /\ rTop (p_win t) <= rTop (p_win t') /\
  (forall n x, n < top_line t -> p_text t' n x = p_text t n x).
Fixpoint sequence (width : Z) (t : screen) (ts : list screen) : Prop :=
  screen_ok width t /\ match ts with [] => True | t' :: r => goes_to t t' /\ sequence width t' r end.

(** What such a step does to the screen buffer.  Rows above the window move up with
    whatever they hold, which includes what the agent may have written there. *)
Definition move (t t' : screen) (b : cbuf) : cbuf :=
  mkBuf (b_w b) (b_h b) (p_win t') (p_cur t')
    (fun y x => if y + p_off t' <? top_line t then b_cells b (y + p_off t' - p_off t) x else p_text t' (y + p_off t') x)
    (b_largest b) (b_cp b) (b_mode b) (p_visible t').
Fixpoint moves (t : screen) (ts : list screen) : list (cbuf -> cbuf) :=
  match ts with [] => [] | t' :: r => move t t' :: moves t' r end.

(** The screen buffer displays the screen *)
Definition displays (b : cbuf) (t : screen) : Prop :=
  b_h b = 3000 /\ b_win b = p_win t /\ b_cur b = p_cur t /\ b_visible b = p_visible t /\
  forall y x, 0 <= y < 3000 -> 0 <= x < b_w b -> b_cells b y x = p_text t (y + p_off t) x.

(** *** Polls
    [turns]: for each poll, what the programs do from its beginning to the beginning of
    the next one.  As many of these steps as there are console calls by the agent happen
    during the poll, unless the agent freezes the console; the others follow. *)
Definition with_steps (fs : list (cbuf -> cbuf)) (w : world) : world :=
  mkW (w_buf w) (w_sel w) (w_frozen w) (w_mark w) (w_esc w) fs (w_fail w) (w_log w).
Definition finish (w : world) : world :=
  mkW (fold_left (fun b f => f b) (w_env w) (w_buf w)) (w_sel w) (w_frozen w) (w_mark w) (w_esc w) [] (w_fail w) (w_log w).
Definition poll (c : cfg) (t : screen) (ts : list screen) (s : sst) (w : world) : res broken (sst * world) :=
  let! (_, a, w') := agentScrape c (mkAgent s None) (with_steps (moves t ts) w) in Ok (a_prim a, finish w').
Fixpoint polls (c : cfg) (turns : list (list screen)) (t : screen) (s : sst) (w : world) : res broken (sst * world) :=
  match turns with
  | [] => Ok (s, w)
  | ts :: r => let! (s, w) := poll c t ts s w in polls c r (last ts t) s w
  end.

(** The whole run: what the programs do is as above throughout; the screen at its end; all
    screens there are *)
Fixpoint history (width : Z) (t : screen) (turns : list (list screen)) : Prop :=
  match turns with [] => screen_ok width t | ts :: r => sequence width t ts /\ history width (last ts t) r end.
Definition final (t : screen) (turns : list (list screen)) : screen := fold_left (fun t ts => last ts t) turns t.
Definition screens (t : screen) (turns : list (list screen)) : list screen := t :: concat turns.

(** The sync marker, at row [s_syncRow] when [s_scrolled] lines had scrolled off, stays in
    the buffer.  As long as there is none ([s_syncRow] is -1), nothing scrolls off. *)
Definition keeps_marker (s : sst) (t : screen) : Prop := p_off t <= s_scrolled s + Z.max 0 (s_syncRow s).
Fixpoint within_reach (c : cfg) (turns : list (list screen)) (t : screen) (s : sst) (w : world) : Prop :=
  match turns with
  | [] => True
  | ts :: r => Forall (keeps_marker s) (t :: ts) /\
      match poll c t ts s w with Ok (s', w') => within_reach c r (last ts t) s' w' | _ => True end
  end.
(** A condition on the programs alone that suffices: from the beginning of a poll, at which
    the window is at row [T], to the beginning of the poll after the next, at most
    [T - 431] lines scroll off. *)
Fixpoint slow_enough (limit : Z) (turns : list (list screen)) (t : screen) : Prop :=
  match turns with
  | [] => True
  | ts :: r => Forall (fun t' => p_off t' <= limit) (t :: ts) /\
      slow_enough (p_off t + Z.max 0 (rTop (p_win t) - 431)) r (last ts t)
  end.

(** *** The agent at the beginning of a run: scraping begins with line [x] *)
Definition fresh (x : Z) (s : sst) : Prop :=
  s_syncRow s = -1 /\ s_direct s = false /\ s_scrolled s = 0 /\ s_scraped s = x /\ s_maxBuf s = -1 /\
  s_dirtyTop s = -1 /\ s_dirty s = 0 /\ zlen (s_lines s) = 3000 /\ 0 <= s_counter s < 2 ^ 32.
(** The console displays the first screen, from whose window or above scraping begins, and
    is not frozen; nothing has scrolled off *)
Definition begins (x : Z) (t : screen) (s : sst) (w : world) : Prop :=
  fresh x s /\ displays (w_buf w) t /\ words (w_buf w) /\ 1 <= b_w (w_buf w) <= 32767 /\
  w_sel w = false /\ w_frozen w = false /\ p_off t = 0 /\ 0 <= x <= rTop (p_win t).

(** The first screen: nothing displayed yet *)
Definition blank_screen (win : srect) (visible : bool) : screen := mkP 0 win (mkCoord 0 0) visible (fun _ _ => mkCell 32 7).

(** *** What is transmitted
    Attribute bits transmitted: without an East Asian code page or the console modes in
    question, the underscore bit is ignored, by old consoles also the reverse-video bit
    (Scraper.cc:389-432). *)
Definition kept_bits (new : bool) (cp mode : Z) : Z :=
  if (cp =? 932) || (cp =? 936) || (cp =? 949) || (cp =? 950) || Z.testbit mode 4 || Z.testbit mode 2 then 0xFFFF
  else if new then 0x7FFF else 0x3FFF.
(** Line [n] as it is to be transmitted: the first [width] columns *)
Definition content (mask width : Z) (t : screen) (n : Z) : list cell := map (fun x => masked mask (p_text t n x)) (zseq 0 width).

(** What was last sent for line [n] *)
Fixpoint last_sent (ops : list top) (n : Z) : option (list cell) :=
  match ops with
  | [] => None
  | o :: r => match last_sent r n with
              | Some d => Some d
              | None => match o with TSend m d _ => if m =? n then Some d else None | _ => None end
              end
  end.
(** The line numbers are consecutive: from [x] on, each line sent is one sent before or the
    next one.  Nothing is cleared. *)
Fixpoint consecutive (x next : Z) (ops : list top) : Prop :=
  match ops with
  | [] => True
  | TSend n _ _ :: r => x <= n <= next /\ consecutive x (Z.max next (n + 1)) r
  | TReset _ _ :: _ => False
  | _ :: r => consecutive x next r
  end.
Definition blank (d : list cell) : Prop := Forall (fun q => cl_ch q = 32) d.
(** Windows versions: before the new console of Windows 10, or that one *)
Definition supported (c : cfg) : Prop := cfg_ok c /\ (c_new c = true -> c_w8 c = true) /\ c_strict c = false.
