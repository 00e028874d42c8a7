(** What it means for a change to be noticed: one row of a terminal, and the histories of
    the record kept of it. *)
From Verif Require Import Base ConsoleLine.

(** One row of a terminal: what each column holds, [None]: nothing written since it was
    last erased; and the colour in which erased columns appear. *)
Record row := mkRow { cols : Z -> option cell; colour : Z }.
Definition nothing : Z -> option cell := fun _ => None.
(** The row after a line was sent to it: the rest is erased in the colour of the line's
    last cell.  Columns beyond the line that hold something keep it: some terminals do not
    erase what is obscured by their right edge. *)
Definition last_colour (line : list cell) (a : Z) : Z := match znth line (zlen line - 1) with Some c => cl_attr c | None => a end.
Definition sent (line : list cell) (r : row) : row :=
  mkRow (fun i => match znth line i with Some c => Some c | None => cols r i end) (last_colour line (colour r)).
(** The row shows the line: each cell of it, an erased column being a blank. *)
Definition holds (r : row) (i : Z) : cell := match cols r i with Some c => c | None => mkCell 32 (colour r) end.
Definition shows (r : row) (line : list cell) : Prop := forall i c, znth line i = Some c -> holds r i = c.

(** The histories of the pair of record and row.  A line that is reported as changed is
    sent; one that is not, is not.  [h_set]: the scraper sends the line regardless.
    [h_blank]: both are made blank.  [h_forget]: the terminal forgets obscured columns.
    [h_reset]: both are cleared. *)
Inductive line_history : cline -> row -> Prop :=
| h_new a : line_history newLine (mkRow nothing a)
| h_reset s r a : line_history s r -> line_history (resetLine s) (mkRow nothing a)
| h_blank s r a : line_history s r -> line_history (blankLine s a) (sent [mkCell 32 a] (mkRow nothing a))
| h_set s r line s' : line_history s r -> 1 <= zlen line -> @setLine unit s line (zlen line) = Ok s' -> line_history s' (sent line r)
| h_detect s r line b s' : line_history s r -> 1 <= zlen line -> @detectChangeAndSetLine unit s line (zlen line) = Ok (b, s') ->
    line_history s' (if b then sent line r else r)
| h_forget s r k : line_history s r -> prevLength s <= k -> line_history s (mkRow (fun i => if i <? k then cols r i else None) (colour r)).
(** The recorded line *)
Definition recorded (s : cline) : list cell := zfirstn (prevLength s) (prevData s).
