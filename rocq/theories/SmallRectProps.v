(** C23: window geometry arithmetic is exact. *)
From Verif Require Import Base SmallRect SmallRectSpec SmallRectProofs.

(** Containment of a rectangle with at least one cell is containment of its cells. *)
Theorem C23_contains_rect r o : nonempty o -> containsRect r o = true <-> (forall x y, cell_in o x y -> cell_in r x y).
Proof. exact (contains_rect_spec r o). Qed.
Print Assumptions C23_contains_rect.
Theorem C23_contains_coord r c : containsCoord r c = true <-> cell_in r (co_x c) (co_y c).
Proof. exact (contains_coord_spec r c). Qed.
Print Assumptions C23_contains_coord.

(** The intersection has exactly the common cells: for all 16-bit rectangles of which one
    starts to the right of, and one below, the least SHORT. *)
Theorem C23_intersected r o : rect_short r -> rect_short o ->
  -32768 < Z.max (rLeft r) (rLeft o) -> -32768 < Z.max (rTop r) (rTop o) ->
  rect_short (intersected r o) /\ forall x y, cell_in (intersected r o) x y <-> cell_in r x y /\ cell_in o x y.
Proof. exact (intersected_spec r o). Qed.
Print Assumptions C23_intersected.
(** A non-empty and an empty intersection *)
Example C23_intersected_example :
  intersected (SmallRect 0 0 80 25) (SmallRect 60 20 80 25) = mkRect 60 20 79 24 /\
  intersected (SmallRect 0 0 80 25) (SmallRect 90 0 10 25) = mkRect 90 0 89 24.
Proof. split; vm_compute; reflexivity. Qed.
(** The limit is needed: disjoint rectangles at the least SHORT. *)
Example C23_intersected_limit :
  intersected (mkRect (-32768) 0 (-32768) 9) (mkRect (-32768) 0 (-32769 + 0) 9) = mkRect (-32768) 0 32767 9.
Proof. vm_compute; reflexivity. Qed.

(** Sizes count columns and rows. *)
Theorem C23_size r : rect_short r -> nonempty r -> rRight r - rLeft r + 1 <= 32767 -> rBottom r - rTop r + 1 <= 32767 ->
  rWidth r = rRight r - rLeft r + 1 /\ rHeight r = rBottom r - rTop r + 1.
Proof. intros H (N1 & N2) H1 H2. exact (conj (width_spec r H N1 H1) (height_spec r H N2 H2)). Qed.
Print Assumptions C23_size.
(** Constructing a rectangle from a corner and a size, and changing a size *)
Theorem C23_make x y w h : short x -> short y -> 0 <= w <= 32767 -> 0 <= h <= 32767 ->
  short (x + w - 1) -> short (y + h - 1) -> forall cx cy,
  cell_in (SmallRect x y w h) cx cy <-> x <= cx < x + w /\ y <= cy < y + h.
Proof.
  intros Hx Hy Hw Hh [H1 H2] [H3 H4] cx cy.
  rewrite mk_spec by (assumption || lia). unfold cell_in. cbn [rLeft rTop rRight rBottom]. lia.
Qed.
Print Assumptions C23_make.
Theorem C23_resize r v : rect_short r -> 0 <= v -> short (rLeft r + v - 1) -> short (rTop r + v - 1) ->
  setWidth r v = mkRect (rLeft r) (rTop r) (rLeft r + v - 1) (rBottom r) /\
  setHeight r v = mkRect (rLeft r) (rTop r) (rRight r) (rTop r + v - 1).
Proof. intros H H0 [H1 H2] [H3 H4]. apply (set_spec r v H H0); lia. Qed.
Print Assumptions C23_resize.

(** Moving a rectangle to include a line: for all non-empty 16-bit rectangles and all
    lines nothing wraps, the size and the columns stay, the line is inside, and it moves
    no further than needed. *)
Theorem C23_include_line r line : rect_short r -> nonempty r -> short line ->
  let r' := ensureLineIncluded r line in
  rect_short r' /\ nonempty r' /\
  rLeft r' = rLeft r /\ rRight r' = rRight r /\
  rBottom r' - rTop r' = rBottom r - rTop r /\
  rTop r' <= line <= rBottom r' /\
  (rTop r <= line <= rBottom r -> r' = r) /\
  (line < rTop r -> rTop r' = line) /\ (rBottom r < line -> rBottom r' = line).
Proof. exact (included_spec r line). Qed.
Print Assumptions C23_include_line.
Example C23_include_line_example :
  ensureLineIncluded (SmallRect 0 10 80 25) 40 = mkRect 0 16 79 40 /\
  ensureLineIncluded (SmallRect 0 10 80 25) 3 = mkRect 0 3 79 27 /\
  ensureLineIncluded (mkRect 0 (-32768) 0 32766) 32767 = mkRect 0 (-32767) 0 32767.
Proof. repeat split; vm_compute; reflexivity. Qed.

(** Equality and sums *)
Theorem C23_equal a b : rect_eqb a b = true <-> a = b.
Proof. exact (rect_eqb_spec a b). Qed.
Print Assumptions C23_equal.
Theorem C23_add a b : short (co_x a + co_x b) -> short (co_y a + co_y b) ->
  coord_add a b = mkCoord (co_x a + co_x b) (co_y a + co_y b).
Proof. exact (coord_add_spec a b). Qed.
Print Assumptions C23_add.
