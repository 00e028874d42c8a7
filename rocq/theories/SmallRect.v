(** src/agent/SmallRect.h and Coord.h: SHORT arithmetic.  Every SHORT parameter, field and
    return value truncates to 16 bits ([s16]); the additions themselves are done in int
    and cannot overflow it. *)
From Verif Require Import Base.

(** Coord, Coord.h:29-62 *)
Record coord := mkCoord { co_x : Z; co_y : Z }.
Definition Coord_ (x y : Z) : coord := mkCoord (s16 x) (s16 y).
Definition coord_eqb (a b : coord) : bool := (co_x a =? co_x b) && (co_y a =? co_y b).
(** operator+, Coord.h:69-72 *)
Definition coord_add (a b : coord) : coord := Coord_ (co_x a + co_x b) (co_y a + co_y b).
(** isEmpty, Coord.h:74-77 *)
Definition coord_isEmpty (a : coord) : bool := (co_x a <=? 0) || (co_y a <=? 0).

(** SMALL_RECT *)
Record srect := mkRect { rLeft : Z; rTop : Z; rRight : Z; rBottom : Z }.

(** SmallRect(x, y, width, height), SmallRect.h:39-45 *)
Definition SmallRect (x y width height : Z) : srect :=
  let x := s16 x in let y := s16 y in let width := s16 width in let height := s16 height in
  mkRect x y (s16 (x + width - 1)) (s16 (y + height - 1)).
(** SmallRect(topLeft, size), SmallRect.h:47-53 *)
Definition SmallRectC (topLeft size : coord) : srect :=
  mkRect (co_x topLeft) (co_y topLeft) (s16 (co_x topLeft + co_x size - 1)) (s16 (co_y topLeft + co_y size - 1)).

(** contains, SmallRect.h:71-85 *)
Definition containsRect (r other : srect) : bool :=
  (rLeft r <=? rLeft other) && (rRight other <=? rRight r) && (rTop r <=? rTop other) && (rBottom other <=? rBottom r).
Definition containsCoord (r : srect) (c : coord) : bool :=
  (rLeft r <=? co_x c) && (co_x c <=? rRight r) && (rTop r <=? co_y c) && (co_y c <=? rBottom r).

(** width, height, size, SmallRect.h:111-119 *)
Definition rWidth (r : srect) : Z := s16 (rRight r - rLeft r + 1).
Definition rHeight (r : srect) : Z := s16 (rBottom r - rTop r + 1).
Definition rSize (r : srect) : coord := Coord_ (rWidth r) (rHeight r).
(** setTop, setLeft, setWidth, setHeight, SmallRect.h:115-118 *)
Definition setTop (r : srect) (v : Z) : srect := mkRect (rLeft r) (s16 v) (rRight r) (rBottom r).
Definition setLeft (r : srect) (v : Z) : srect := mkRect (s16 v) (rTop r) (rRight r) (rBottom r).
Definition setWidth (r : srect) (v : Z) : srect := mkRect (rLeft r) (rTop r) (s16 (rLeft r + s16 v - 1)) (rBottom r).
Definition setHeight (r : srect) (v : Z) : srect := mkRect (rLeft r) (rTop r) (rRight r) (s16 (rTop r + s16 v - 1)).

(** intersected, SmallRect.h:87-97 *)
Definition intersected (r other : srect) : srect :=
  let x1 := Z.max (rLeft r) (rLeft other) in
  let x2 := Z.min (rRight r) (rRight other) in
  let y1 := Z.max (rTop r) (rTop other) in
  let y2 := Z.min (rBottom r) (rBottom other) in
  SmallRect x1 y1 (Z.max 0 (x2 - x1 + 1)) (Z.max 0 (y2 - y1 + 1)).

(** ensureLineIncluded, SmallRect.h:99-109 *)
Definition ensureLineIncluded (r : srect) (line : Z) : srect :=
  let h := rHeight r in
  if line <? rTop r then SmallRect (rLeft r) line (rWidth r) h
  else if rBottom r <? line then SmallRect (rLeft r) (line - h + 1) (rWidth r) h
  else r.

(** operator==, SmallRect.h:121-132 *)
Definition rect_eqb (a b : srect) : bool :=
  (rLeft a =? rLeft b) && (rRight a =? rRight b) && (rTop a =? rTop b) && (rBottom a =? rBottom b).
