(** src/agent/ConsoleLine.cc and ConsoleLine.h: the record of the last content of an
    output line. *)
From Verif Require Import Base.

(** CHAR_INFO: a UTF-16 unit and the attribute word.  There is no padding
    (ConsoleLine.cc:37-39), so memcmp equality is equality of the fields. *)
Record cell := mkCell { cl_ch : Z; cl_attr : Z }.
Definition cell_eqb (a b : cell) : bool := (cl_ch a =? cl_ch b) && (cl_attr a =? cl_attr b).

(** blankChar, ConsoleLine.cc:35-44 *)
Definition blankChar (attributes : Z) : cell := mkCell 32 attributes.

(** isLineBlank, ConsoleLine.cc:46-55: the [length] cells from [start] of [line].  A read
    outside the vector is undefined behaviour. *)
Fixpoint isLineBlank_at {E} (line : list cell) (col : Z) (length : nat) (attributes : Z) : res E bool :=
  match length with
  | O => Ok true
  | S n => match znth line col with
           | None => UB
           | Some c => if negb (cl_attr c =? attributes) || negb (cl_ch c =? 32) then Ok false
                       else isLineBlank_at line (col + 1) n attributes
           end
  end.
Definition isLineBlank {E} (line : list cell) (start length attributes : Z) : res E bool :=
  isLineBlank_at line start (Z.to_nat length) attributes.

(** areLinesEqual, ConsoleLine.cc:57-63 *)
Fixpoint cells_eqb (a b : list cell) : bool :=
  match a, b with [], [] => true | x :: a, y :: b => cell_eqb x y && cells_eqb a b | _, _ => false end.
Definition areLinesEqual {E} (l1 l2 : list cell) (length : Z) : res E bool :=
  if (zlen l1 <? length) || (zlen l2 <? length) then UB
  else Ok (cells_eqb (zfirstn length l1) (zfirstn length l2)).

(** ConsoleLine.h:41-42.  Lengths stay far below 2^31 (the scraper caps them at
    MAX_CONSOLE_WIDTH), so the int conversions are not modelled. *)
Record cline := mkCline { prevLength : Z; prevData : list cell }.
(** ConsoleLine.cc:65-73 *)
Definition newLine : cline := mkCline 0 [].
Definition resetLine (s : cline) : cline := mkCline 0 [].

(** setLine, ConsoleLine.cc:138-145; [line] is the cells at the pointer passed *)
Definition setLine {E} (s : cline) (line : list cell) (newLength : Z) : res E cline :=
  if zlen line <? newLength then UB
  else Ok (mkCline newLength (zfirstn newLength line ++ zskipn newLength (prevData s))).

(** detectChangeAndSetLine, ConsoleLine.cc:79-136 *)
Definition detectChangeAndSetLine {E} (s : cline) (line : list cell) (newLength : Z) : res E (bool * cline) :=
  let! _ := assert_ (1 <=? newLength) in
  let! _ := assert_ (prevLength s <=? zlen (prevData s)) in
  if newLength =? prevLength s then
    let! equalLines := areLinesEqual (prevData s) line newLength in
    if equalLines then Ok (false, s)
    else let! s := setLine s line newLength in Ok (true, s)
  else if prevLength s =? 0 then
    let! s := setLine s line newLength in Ok (true, s)
  else
    let! _ := assert_ (1 <=? prevLength s) in
    match znth (prevData s) (prevLength s - 1), znth line (newLength - 1) with
    | Some pc, Some nc =>
        let prevBlank := cl_attr pc in
        let newBlank := cl_attr nc in
        let! equalLines :=
          (if newLength <? prevLength s then
             let! e1 := areLinesEqual (prevData s) line newLength in
             if e1 then isLineBlank (prevData s) newLength (prevLength s - newLength) newBlank else Ok false
           else
             let! _ := assert_ (prevLength s <? newLength) in
             let! e1 := areLinesEqual (prevData s) line (prevLength s) in
             if e1 then
               let! e2 := isLineBlank (prevData s) (prevLength s) (Z.min (zlen (prevData s)) newLength - prevLength s) prevBlank in
               if e2 then isLineBlank line (prevLength s) (newLength - prevLength s) prevBlank else Ok false
             else Ok false) in
        let! s := setLine s line newLength in
        Ok (negb equalLines, s)
    | _, _ => UB
    end.

(** blank, ConsoleLine.cc:147-152 *)
Definition blankLine (s : cline) (attributes : Z) : cline := mkCline 1 [blankChar attributes].
