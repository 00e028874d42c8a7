(** Model of src/agent/LargeConsoleRead.cc:34-71 and LargeConsoleRead.h:34-68. *)
From Verif Require Import Base SmallRect ConsoleLine Console.

Definition MAX_CONSOLE_WIDTH : Z := 2500.

(** LargeConsoleReadBuffer, LargeConsoleRead.h:34-68 *)
Record lread := mkLr { lr_rect : srect; lr_width : Z; lr_data : list cell }.
(** LargeConsoleRead.cc:29-32 *)
Definition new_lread : lread := mkLr (mkRect 0 0 (-1) (-1)) 0 [].

(** lineData, LargeConsoleRead.h:39-42, 45-56: the index of the line's first cell;
    abort() for another line is [AssertFail], an index outside the vector undefined. *)
Definition line_index {E} (l : lread) (line : Z) : res E Z :=
  if (line <? rTop (lr_rect l)) || (rBottom (lr_rect l) <? line) then AssertFail
  else let i := (line - rTop (lr_rect l)) * lr_width l in
       if (0 <=? i) && (i <? zlen (lr_data l)) then Ok i else UB.
Definition lineData {E} (l : lread) (line : Z) : res E (list cell) :=
  let! i := line_index l line in Ok (zskipn i (lr_data l)).

(** The loop of largeConsoleRead, LargeConsoleRead.cc:53-63 *)
Fixpoint read_chunks {E} (fuel : nat) (newW10 : bool) (area : srect) (maxLines cur : Z) (l : lread) (w : world) : res E (lread * world) :=
  match fuel with
  | O => OutOfFuel
  | S f =>
      if rBottom area <? cur then Ok (l, w)
      else
        let sub := SmallRect (rLeft area) cur (rWidth area) (Z.min maxLines (rBottom area + 1 - cur)) in
        let! i := line_index l cur in
        let! (d, w) := read newW10 sub (lr_data l) i w in
        read_chunks f newW10 area maxLines (rBottom sub + 1) (mkLr (lr_rect l) (lr_width l) d) w
  end.

(** Attributes &= mask *)
Definition mask_cell (mask : Z) (c : cell) : cell := mkCell (cl_ch c) (Z.land (cl_attr c) mask).

(** largeConsoleRead, LargeConsoleRead.cc:34-71; [w8]: isAtLeastWindows8() *)
Definition largeConsoleRead {E} (newW10 w8 : bool) (area : srect) (mask : Z) (l : lread) (w : world) : res E (lread * world) :=
  let! _ := assert_ ((0 <=? rLeft area) && (0 <=? rTop area) && (rLeft area <=? rRight area) && (rTop area <=? rBottom area)
                     && (rWidth area <=? MAX_CONSOLE_WIDTH)) in
  let count := rWidth area * rHeight area in
  let data := if zlen (lr_data l) <? count then lr_data l ++ zrepeat (mkCell 0 0) (count - zlen (lr_data l)) else lr_data l in
  let l := mkLr area (rWidth area) data in
  let! (l, w) :=
    (if w8 then let! (d, w) := read newW10 area (lr_data l) 0 w in Ok (mkLr (lr_rect l) (lr_width l) d, w)
     else read_chunks (Z.to_nat (rHeight area) + 1) newW10 area (Z.max 1 (Z.quot MAX_CONSOLE_WIDTH (rWidth area))) (rTop area) l w) in
  if mask =? 0xFFFF then Ok (l, w)
  else Ok (mkLr (lr_rect l) (lr_width l) (map (mask_cell mask) (zfirstn count (lr_data l)) ++ zskipn count (lr_data l)), w).
