(** What reading a rectangle of a console means. *)
From Verif Require Import Base SmallRect ConsoleLine Console.

(** A rectangle a console can be asked for: not empty, inside the buffer, at most 2500
    columns wide; buffers are at most 32767 cells in each direction. *)
Definition readable (b : cbuf) (r : srect) : Prop :=
  0 <= rLeft r <= rRight r /\ 0 <= rTop r <= rBottom r /\ rRight r < b_w b <= 32767 /\ rBottom r < b_h b <= 32767 /\
  rRight r - rLeft r < 2500.
(** Attributes are 16-bit words *)
Definition words (b : cbuf) : Prop := forall y x, 0 <= cl_attr (b_cells b y x) < 65536.

(** The rows and columns of a rectangle *)
Definition rows_of (r : srect) : list Z := zseq (rTop r) (rBottom r - rTop r + 1).
Definition cols_of (r : srect) : list Z := zseq (rLeft r) (rRight r - rLeft r + 1).
(** What its cells are, row by row, with the attribute bits outside the mask removed *)
Definition masked (mask : Z) (c : cell) : cell := mkCell (cl_ch c) (Z.land (cl_attr c) mask).
Definition expected_row (b : cbuf) (mask : Z) (r : srect) (y : Z) : list cell := map (fun x => masked mask (b_cells b y x)) (cols_of r).
Definition expected (b : cbuf) (mask : Z) (r : srect) : list cell := flat_map (expected_row b mask r) (rows_of r).

(** The rectangles [rs] divide [r] into bands of whole rows, from top to bottom, each row
    in exactly one of them. *)
Definition bands (r : srect) (rs : list srect) : Prop :=
  Forall (fun s => rLeft s = rLeft r /\ rRight s = rRight r /\ rTop s <= rBottom s) rs /\ flat_map rows_of rs = rows_of r.
Definition cells_in (r : srect) : Z := (rRight r - rLeft r + 1) * (rBottom r - rTop r + 1).
