(** What it means that scraping leaves the contents of the console alone, for C52. *)
From Verif Require Import Base SmallRect ConsoleLine Console.

(** One screen buffer becomes another by steps of the given kind only. *)
Inductive only_by (step : cbuf -> cbuf -> Prop) : cbuf -> cbuf -> Prop :=
| ob_end b : only_by step b b
| ob_step b b1 b' : step b b1 -> only_by step b1 b' -> only_by step b b'.
(** The steps of the other programs *)
Definition programs (fs : list (cbuf -> cbuf)) (b b' : cbuf) : Prop := exists f, In f fs /\ b' = f b.
(** Text is overwritten that is more than 200 rows above the window, and nothing else
    happens. *)
Definition far_above (b b' : cbuf) : Prop :=
  exists cells, b' = set_cells cells b /\
    forall y x, rTop (b_win b) - 200 <= y -> 0 <= x < b_w b -> cells y x = b_cells b y x.
Definition programs_or_far_above (fs : list (cbuf -> cbuf)) (b b' : cbuf) : Prop := programs fs b b' \/ far_above b b'.
(** A step that does not move the window up *)
Definition window_stays (f : cbuf -> cbuf) : Prop := forall b, rTop (b_win b) <= rTop (b_win (f b)).
