(** A terminal that interprets the agent's output, the meaning of console colours, and
    what a line of console cells should look like. *)
From Verif Require Import Base Unicode UnicodeSpec ConsoleLine Terminal.

(** *** Rendition (ECMA-48 SGR with the 16-colour extension) *)
(** Colours: -1 the terminal's default, 0-7 the palette in the order of the bits red,
    green, blue, 8-15 the same, bright. *)
Record rend := mkRend { r_fg : Z; r_bg : Z; r_bold : bool; r_under : bool; r_inverse : bool; r_conceal : bool }.
Definition rend0 := mkRend (-1) (-1) false false false false.
Definition sgr1 (r : rend) (p : Z) : rend :=
  let '(mkRend f b bo u i c) := r in
  if p =? 0 then rend0 else if p =? 1 then mkRend f b true u i c else if p =? 4 then mkRend f b bo true i c
  else if p =? 7 then mkRend f b bo u true c else if p =? 8 then mkRend f b bo u i true
  else if (30 <=? p) && (p <=? 37) then mkRend (p - 30) b bo u i c
  else if (40 <=? p) && (p <=? 47) then mkRend f (p - 40) bo u i c
  else if (90 <=? p) && (p <=? 97) then mkRend (p - 90 + 8) b bo u i c
  else if (100 <=? p) && (p <=? 107) then mkRend f (p - 100 + 8) bo u i c else r.

(** The documented mapping of a console attribute word: with reverse video, the two
    colours change places; light grey on black is the terminal's default, white on black
    is bold; a white background is the inverted default, with the foreground as
    background unless that is light grey or black; anything else is literal.  Equal
    colours are concealed; underscore is underline. *)
Definition console_fg (a : Z) : Z := (if tb a 4 then 1 else 0) + (if tb a 2 then 2 else 0) + (if tb a 1 then 4 else 0) + (if tb a 8 then 8 else 0).
Definition console_bg (a : Z) : Z := console_fg (a / 16).
Definition rend_of (a : Z) : rend :=
  let fg := if tb a 0x4000 then console_bg a else console_fg a in
  let bg := if tb a 0x4000 then console_fg a else console_bg a in
  let u := tb a 0x8000 in let c := fg =? bg in
  if bg =? 0 then (if fg =? 7 then mkRend (-1) (-1) false u false c else if fg =? 15 then mkRend (-1) (-1) true u false c else mkRend fg (-1) false u false c)
  else if bg =? 15 then mkRend (-1) (if (fg =? 7) || (fg =? 0) then -1 else fg) false u true c
  else mkRend fg bg false u false c.

(** *** The terminal *)
(** Size and the number of columns each character takes. *)
Record tenv := mkTenv { te_w : Z; te_h : Z; te_wid : Z -> Z }.
Inductive glyph := Blank | Glyph (ch : Z) | Right_part.
Inductive pstate := PGround | PEsc | PCsi (private : bool) (done : list Z) (cur : Z) | PUtf (need : nat) (acc : Z).
(** Rows are numbered from the first one ever shown; [s_top] is the one at the top of the
    screen.  A column equal to the width: the last column was just written, and the next
    character wraps. *)
Record scr := mkScr {
  s_top : Z; s_row : Z; s_col : Z; s_cell : Z -> Z -> glyph * rend; s_rend : rend; s_mode : Z -> bool; s_ps : pstate }.
Definition set_cells f s := mkScr (s_top s) (s_row s) (s_col s) f (s_rend s) (s_mode s) (s_ps s).
Definition set_at r c s := mkScr (s_top s) r c (s_cell s) (s_rend s) (s_mode s) (s_ps s).
Definition set_rend r s := mkScr (s_top s) (s_row s) (s_col s) (s_cell s) r (s_mode s) (s_ps s).
Definition set_mode n b s := mkScr (s_top s) (s_row s) (s_col s) (s_cell s) (s_rend s) (fun m => if m =? n then b else s_mode s m) (s_ps s).
Definition set_ps p s := mkScr (s_top s) (s_row s) (s_col s) (s_cell s) (s_rend s) (s_mode s) p.

Definition linefeed te s : scr :=
  mkScr (Z.max (s_top s) (s_row s + 1 - (te_h te - 1))) (s_row s + 1) (s_col s) (s_cell s) (s_rend s) (s_mode s) (s_ps s).
(** Columns from [c1] (included) to [c2] (excluded) of one row *)
Definition fill r c1 c2 (g : Z -> glyph * rend) s : scr :=
  set_cells (fun r' c' => if (r' =? r) && (c1 <=? c') && (c' <? c2) then g c' else s_cell s r' c') s.
Definition glyph_at (ch : Z) (first : bool) : glyph := if ch =? 32 then Blank else if first then Glyph ch else Right_part.
Definition print te ch s : scr :=
  let s := if te_w te <? s_col s + te_wid te ch then set_at (s_row (linefeed te s)) 0 (linefeed te s) else s in
  set_at (s_row s) (s_col s + te_wid te ch)
    (fill (s_row s) (s_col s) (s_col s + te_wid te ch) (fun c => (glyph_at ch (c =? s_col s), s_rend s)) s).
Definition clamp_col te c := Z.max 0 (Z.min c (te_w te - 1)).

(** Control sequences.  Erasing to the end of the line while the next character would
    wrap erases the last column, as many terminals do.  Erasing fills with the current
    rendition.  Unknown sequences are ignored. *)
Definition arg (ps : list Z) (n : nat) (d : Z) : Z := match nth_error ps n with Some p => if p =? 0 then d else p | None => d end.
Definition dispatch te (private : bool) (ps : list Z) (final : Z) (s : scr) : scr :=
  if private then
    if final =? 104 then fold_left (fun s p => set_mode p true s) ps s
    else if final =? 108 then fold_left (fun s p => set_mode p false s) ps s else s
  else
    if final =? 109 then set_rend (fold_left sgr1 ps (s_rend s)) s
    else if final =? 65 then set_at (Z.max (s_top s) (s_row s - arg ps 0 1)) (clamp_col te (s_col s)) s
    else if final =? 71 then set_at (s_row s) (clamp_col te (arg ps 0 1 - 1)) s
    else if final =? 72 then set_at (s_top s + Z.min (arg ps 0 1 - 1) (te_h te - 1)) (clamp_col te (arg ps 1 1 - 1)) s
    else if (final =? 75) && (arg ps 0 0 =? 0) then fill (s_row s) (clamp_col te (s_col s)) (te_w te) (fun _ => (Blank, s_rend s)) s
    else if (final =? 74) && (arg ps 0 0 =? 2) then
      set_cells (fun r c => if (s_top s <=? r) && (r <? s_top s + te_h te) then (Blank, s_rend s) else s_cell s r c) s
    else s.

(** One byte.  Control characters other than CR, LF and ESC are ignored. *)
Definition step te (s : scr) (b : Z) : scr :=
  match s_ps s with
  | PGround =>
      if b =? 27 then set_ps PEsc s
      else if b =? 13 then set_at (s_row s) 0 s
      else if b =? 10 then linefeed te s
      else if (b <? 32) || (b =? 127) then s
      else if b <? 128 then print te b s
      else if b <? 192 then s
      else if b <? 224 then set_ps (PUtf 1 (b - 192)) s
      else if b <? 240 then set_ps (PUtf 2 (b - 224)) s
      else set_ps (PUtf 3 (b - 240)) s
  | PEsc => if b =? 91 then set_ps (PCsi false [] 0) s else set_ps PGround s
  | PCsi p done cur =>
      if (48 <=? b) && (b <=? 57) then set_ps (PCsi p done (cur * 10 + (b - 48))) s
      else if b =? 59 then set_ps (PCsi p (done ++ [cur]) 0) s
      else if b =? 63 then set_ps (PCsi true done cur) s
      else if (64 <=? b) && (b <=? 126) then dispatch te p (done ++ [cur]) b (set_ps PGround s)
      else s
  | PUtf n acc =>
      let acc := acc * 64 + (b - 128) in
      match n with
      | S (S m) => set_ps (PUtf (S m) acc) s
      | _ => print te acc (set_ps PGround s)
      end
  end.
Definition feed te (s : scr) (bs : list Z) : scr := fold_left (step te) bs s.

(** *** What a line of cells says *)
(** The characters of a line: how many cells, which character, the attributes of the
    first cell.  A character outside the Basic Multilingual Plane has a cell (or a pair
    of cells) for each surrogate. *)
Definition surrogate (c : Z) : Prop := 0xD800 <= c <= 0xDFFF.
Definition half (c : cell) : bool := tb (cl_attr c) LVB_LEADING.
Definition wide (c1 c2 : cell) : Prop := cl_ch c1 = cl_ch c2 /\ tb (cl_attr c1) LVB_LEADING = true /\ tb (cl_attr c2) LVB_TRAILING = true.
(** The cells of one UTF-16 unit *)
Definition unit_cells (cs : list cell) (u : Z) : Prop :=
  (exists c, cs = [c] /\ cl_ch c = u /\ half c = false) \/ (exists c1 c2, cs = [c1; c2] /\ cl_ch c1 = u /\ wide c1 c2).
Inductive line_text : list cell -> list (Z * Z * Z) -> Prop :=
| lt_nil : line_text [] []
| lt_bmp cs u a rest txt : 0 <= u < 65536 -> ~ surrogate u -> unit_cells cs u -> hd_error cs = Some (mkCell u a) -> line_text rest txt ->
    line_text (cs ++ rest) ((zlen cs, u, a) :: txt)
| lt_pair cs1 u1 cs2 u2 a rest txt : 0xD800 <= u1 < 0xDC00 -> 0xDC00 <= u2 < 0xE000 -> unit_cells cs1 u1 -> unit_cells cs2 u2 ->
    hd_error cs1 = Some (mkCell u1 a) -> line_text rest txt ->
    line_text (cs1 ++ cs2 ++ rest) ((zlen cs1 + zlen cs2, 65536 + (u1 - 0xD800) * 1024 + (u2 - 0xDC00), a) :: txt).
(** What is shown for a character: the codes 1-6, which East Asian consoles use for box
    drawing, and ESC are replaced. *)
Definition shown (ch : Z) : Z :=
  if ch =? 1 then 0x2554 else if ch =? 2 then 0x2557 else if ch =? 3 then 0x255A else if ch =? 4 then 0x255D
  else if ch =? 5 then 0x2551 else if ch =? 6 then 0x2550 else if ch =? 27 then 63 else ch.
(** A character the terminal shows as the console does: printable, and as many columns
    as cells.  Attributes are 16-bit words. *)
Definition showable te (c : Z * Z * Z) : Prop :=
  let '(n, ch, a) := c in 32 <= shown ch /\ ~ (127 <= shown ch < 160) /\ te_wid te (shown ch) = n /\ 1 <= n /\ 0 <= a < 65536.
Definition rend_for (useColor : bool) (r : rend) (a : Z) : rend := if useColor then rend_of a else r.
Fixpoint look (useColor : bool) (r : rend) (txt : list (Z * Z * Z)) : list (glyph * rend) :=
  match txt with
  | [] => []
  | (n, ch, a) :: t =>
      (glyph_at (shown ch) true, rend_for useColor r a) :: repeat (glyph_at (shown ch) false, rend_for useColor r a) (Z.to_nat (n - 1))
      ++ look useColor r t
  end.
(** What a row shows: the line's characters in their colours, and blanks in the last
    colour to the right of them. *)
Definition row_shows te (useColor : bool) (r : rend) (txt : list (Z * Z * Z)) (s : scr) (row : Z) : Prop :=
  let l := look useColor r txt in
  forall c, 0 <= c < te_w te -> s_cell s row c = match znth l c with Some g => g | None => (Blank, snd (last l (Blank, r))) end.

(** *** Histories *)
Inductive top :=
| TReset (sendClear : bool) (line : Z)
| TSend (line : Z) (data : list cell) (cursorColumn : Z)
| TShow (column line : Z)
| THide
| TMouse (on : bool).
Definition run_top {E} (o : top) (t : term) : res E term :=
  match o with
  | TReset c l => Ok (reset c l t)
  | TSend l d c => sendLine l d (zlen d) c t
  | TShow c l => Ok (showTerminalCursor c l t)
  | THide => Ok (hideTerminalCursor t)
  | TMouse b => Ok (enableMouseMode b t)
  end.

(** A terminal that starts in state [s0] and has read everything written so far *)
Definition screen te (s0 : scr) (t : term) : scr := feed te s0 (t_out t).
Definition tenv_ok te : Prop := 1 <= te_w te < 2 ^ 31 /\ 1 <= te_h te /\ te_wid te 32 = 1.
Definition mouse_reporting : list Z := [1000; 1002; 1003; 1006; 1015].
(** A terminal as it starts: the cursor at the start of a row and visible, no mouse
    reporting.  The rest of its content is arbitrary. *)
Definition start_ok te (s0 : scr) : Prop :=
  s_ps s0 = PGround /\ s_col s0 = 0 /\ s_top s0 <= s_row s0 < s_top s0 + te_h te /\ s_mode s0 25 = true
  /\ forall m, In m mouse_reporting -> s_mode s0 m = false.
(** What the scraper asks for: the row is still on the terminal's screen, the line fits
    its width, and its text can be shown there.  [off] is the terminal row of line 0. *)
Definition reachable_row te s0 off (t : term) (line : Z) : Prop := s_top (screen te s0 t) <= off + line /\ t_line t - line < 2 ^ 32.
Definition op_ok te s0 off (t : term) (o : top) : Prop :=
  match o with
  | TReset c l => c = true \/ s_col (screen te s0 t) = 0
  | TSend l d _ => reachable_row te s0 off t l /\ 1 <= zlen d <= te_w te /\ exists txt, line_text d txt /\ Forall (showable te) txt
  | TShow c l => reachable_row te s0 off t l /\ 0 <= c < te_w te
  | THide | TMouse _ => True
  end.
(** Histories of operations on a new object; after a reset, line numbers are relative to
    the row the terminal's cursor is in.  [strict]: no reset while the cursor is hidden. *)
Inductive reach te s0 (useColor strict : bool) : Z -> term -> Prop :=
| reach_new : reach te s0 useColor strict (s_row s0) (new_term false useColor)
| reach_op off t o t' off' : reach te s0 useColor strict off t -> op_ok te s0 off t o -> run_top (E := unit) o t = Ok t' ->
    off' = match o with TReset _ l => s_row (screen te s0 t') - l | _ => off end ->
    (strict = true -> match o with TReset _ _ => t_hidden t = false | _ => True end) ->
    reach te s0 useColor strict off' t'.

(** *** Escape sequences in the output *)
(** A control sequence: ESC [, parameters made of digits, semicolons and the private
    mark, and one of the given final letters *)
Definition control_seq (finals : list Z) (bs : list Z) : Prop :=
  exists ps f, bs = 27 :: 91 :: ps ++ [f] /\ Forall (fun b => 48 <= b <= 57 \/ b = 59 \/ b = 63) ps /\ In f finals.
(** Output made of such sequences and of text without ESC *)
Definition clean_stream (finals : list Z) (out : list Z) : Prop :=
  exists segs, out = concat segs /\ Forall (fun s => ~ In 27 s \/ control_seq finals s) segs.
(** A G H J K h l m; in plain mode, only m, and only with colours on *)
Definition finals (plain useColor : bool) : list Z :=
  if plain then (if useColor then [109] else []) else [65; 71; 72; 74; 75; 104; 108; 109].
Fixpoint run_tops {E} (ops : list top) (t : term) : res E term :=
  match ops with [] => Ok t | o :: rest => let! t := run_top o t in run_tops rest t end.
(** Cells hold UTF-16 units; columns are not negative. *)
Definition top_wf (o : top) : Prop :=
  match o with TSend _ d _ => Forall (fun c => 0 <= cl_ch c < 65536) d | TShow c _ => 0 <= c | _ => True end.
(** Lines have at least one cell. *)
Definition top_sized (o : top) : Prop := match o with TSend _ d _ => 1 <= zlen d | _ => True end.
(** The agent's output is made by the operations the scraper asks for, with changes of
    mouse reporting, which other parts of the agent ask for, anywhere among them. *)
Definition is_mouse (o : top) : bool := match o with TMouse _ => true | _ => false end.
Definition without_mouse (ops : list top) : list top := filter (fun o => negb (is_mouse o)) ops.
(** Operations that a new terminal object carries out, whatever its options and wherever
    the mouse is switched: no assertion fails and nothing outside a line is read. *)
Definition carried_out (ops : list top) : Prop :=
  forall plain useColor all, without_mouse all = ops -> exists t, run_tops (E := unit) all (new_term plain useColor) = Ok t.
