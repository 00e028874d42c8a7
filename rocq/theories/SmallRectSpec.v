(** Rectangles as sets of cells. *)
From Verif Require Import Base SmallRect.

(** A value of type SHORT *)
Definition short (v : Z) : Prop := -32768 <= v < 32768.
Definition rect_short (r : srect) : Prop := short (rLeft r) /\ short (rTop r) /\ short (rRight r) /\ short (rBottom r).
(** The cells of a rectangle: both corners belong to it. *)
Definition cell_in (r : srect) (x y : Z) : Prop := rLeft r <= x <= rRight r /\ rTop r <= y <= rBottom r.
Definition nonempty (r : srect) : Prop := rLeft r <= rRight r /\ rTop r <= rBottom r.
