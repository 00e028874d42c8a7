(** Freezing the console: uses of FreezeGuard (Win32Console.h:32-46), and the detection of
    the new Windows 10 console, Agent.cc:71-118. *)
From Verif Require Import Base SmallRect ConsoleLine Console.

(** Code made of freezing, unfreezing, other console calls, and blocks with a guard *)
Inductive code :=
| CSet (frozen : bool)
| CCall
| CSeq (p q : code)
| CGuard (frozen : bool) (body : code).
Fixpoint run_code (p : code) (w : world) : world :=
  match p with
  | CSet b => setFrozen b w
  | CCall => interfere w
  | CSeq p q => run_code q (run_code p w)
  | CGuard b body => let '(prev, w) := guard_enter b w in guard_leave prev (run_code body w)
  end.

(** What GetConsoleScreenBufferInfo says the cursor is, after Mark: the old console has
    moved it to the window's corner (Agent.cc:64-67).  [new]: whether it is the new one. *)
Definition markCursor (new : bool) (w : world) : coord * world :=
  let w := interfere w in
  ((if new then b_cur (w_buf w) else mkCoord (rLeft (b_win (w_buf w))) (rTop (b_win (w_buf w)))), w).
(** SetConsoleScreenBufferSize without retries: resizeBuffer, Win32ConsoleBuffer.cc:131-137 *)
Definition resizeBuffer (x y : Z) (w : world) : world := snd (setBufferSize x y w).
(** Agent.cc:80-100 *)
Definition expand1x1 (w : world) : world :=
  let w := changeFont w in
  let w := moveWindow (SmallRect 0 0 1 1) w in
  let w := resizeBuffer 400 1 w in
  let w := moveWindow (SmallRect 0 0 2 1) w in
  let '(largest, w) := largestSize w in
  let '(i, w) := bufferInfo w in
  moveWindow (SmallRect 0 0 (Z.min (co_x largest) (co_x (i_size i))) 1) w.
(** detectNewWindows10Console, 71-118.  The result is what setNewW10 gets (false by
    default).  The cursor's return when Mark ends is not needed: it is then set to (0, 0). *)
Definition detectNewWindows10Console {E} (w8 new : bool) (w : world) : res E (bool * world) :=
  if negb w8 then Ok (false, w)
  else
  let '(i, w) := bufferInfo w in
  let! (i, w) :=
    (if (rLeft (i_win i) =? rRight (i_win i)) && (rTop (i_win i) =? rBottom (i_win i)) then
       let w := expand1x1 w in
       let '(i, w) := bufferInfo w in
       let! _ := assert_ (rLeft (i_win i) <? rRight (i_win i)) in Ok (i, w)
     else Ok (i, w)) in
  let initial := mkCoord (rRight (i_win i)) (rBottom (i_win i)) in
  let w := setCursorPosition initial w in
  let! _ := assert_ (negb (w_frozen w)) in
  let w := setFrozen true (set_mark true w) in
  let '(cur, w) := markCursor new w in
  let w := setFrozen false w in
  let w := setCursorPosition (mkCoord 0 0) w in
  Ok (coord_eqb cur initial, set_mark false w).
