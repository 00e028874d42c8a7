(** Model of the adapter's conversions between the locale's text and UTF-16, and of its
    error messages: src/unix-adapter/main.cc (360-400, 534-579, 606-666).  Strings are
    without their terminating NUL; freeing of buffers is not modelled. *)
From Verif Require Import Base Text.

(** mbstowcs and wcstombs, of the C library: [conv] is the locale's conversion, None if a
    character cannot be converted.  At most [maxLen] units are stored, a NUL only if
    there is room for it.  The result: None is (size_t)-1, else the units stored. *)
Definition convert (conv : list Z -> option (list Z)) (text : list Z) (maxLen : Z) : option (list Z) :=
  match conv text with None => None | Some out => Some (zfirstn maxLen out) end.

(** heapMbsToWcs, main.cc:360-370 *)
Definition heapMbsToWcs (conv : list Z -> option (list Z)) (text : list Z) : res unit (list Z) :=
  let maxLen := zlen text * 2 + 1 in
  match convert conv text maxLen with
  | None => AssertFail
  | Some out => if zlen out <? maxLen then Ok out else AssertFail
  end.

(** heapWcsToMbs, main.cc:372-389: None is a null pointer. *)
Definition heapWcsToMbs (conv : list Z -> option (list Z)) (text : list Z) : option (list Z) :=
  let maxLen := zlen text * 3 + 1 in
  match convert conv text maxLen with
  | None => None
  | Some out => if maxLen <=? zlen out then None else Some out
  end.
(** wcsToMbs, main.cc:391-400 *)
Definition wcsToMbs (conv : list Z -> option (list Z)) (text : list Z) : list Z :=
  match heapWcsToMbs conv text with Some p => p | None => [] end.

(** std::string::find_last_not_of with the set of main.cc:557; None is npos. *)
Definition blank (c : Z) : bool := (c =? 32) || (c =? 13) || (c =? 10) || (c =? 9).
Fixpoint findLastNotBlank (s : list Z) (i : Z) (best : option Z) : option Z :=
  match s with
  | [] => best
  | c :: r => findLastNotBlank r (i + 1) (if blank c then best else Some i)
  end.
(** errorMessageToString, main.cc:534-564; [sys] is FormatMessageW, None if it fails. *)
Definition errorMessageToString (conv : list Z -> option (list Z)) (sys : Z -> option (list Z)) (err : Z) : list Z :=
  match sys err with
  | None => []
  | Some wide =>
      let msg := wcsToMbs conv wide in
      match findLastNotBlank msg 0 None with
      | None => []
      | Some pos => zfirstn (pos + 1) msg
      end
  end.

(** sprintf's %#x of an unsigned int: the digits without leading zeros, behind 0x unless
    the value is zero *)
Definition hexDigit (d : Z) : Z := if d <? 10 then 48 + d else 87 + d.
Fixpoint hexN (n : nat) (v : Z) : list Z :=
  match n with O => [] | S m => hexN m (v / 16) ++ [hexDigit (v mod 16)] end.
Fixpoint dropZeros (s : list Z) : list Z :=
  match s with c :: r => if c =? 48 then dropZeros r else s | [] => [] end.
Definition sharp_x (v : Z) : list Z := if v =? 0 then [48] else str "0x" ++ dropZeros (hexN 8 v).

(** formatErrorMessage, main.cc:566-579; sprintf past its 64 bytes would be undefined. *)
Definition formatErrorMessage (conv : list Z -> option (list Z)) (sys : Z -> option (list Z)) (err : Z) : res unit (list Z) :=
  let buf := str "error " ++ sharp_x err in
  if 64 <? zlen buf + 1 then UB
  else
    let ret := errorMessageToString conv sys err in
    match ret with
    | [] => Ok (ret ++ buf)
    | _ => Ok (ret ++ str " (" ++ buf ++ str ")")
    end.

(** WINPTY_ERROR_SPAWN_CREATE_PROCESS_FAILED, src/include/winpty_constants.h:38 *)
Definition SPAWN_CREATE_PROCESS_FAILED : Z := 2.
(** The message if winpty_open fails, main.cc:610-613 *)
Definition openMessage (conv : list Z -> option (list Z)) (errorMsg : list Z) : list Z :=
  str "Error creating winpty: " ++ wcsToMbs conv errorMsg ++ [10].
(** The message if winpty_spawn fails, main.cc:650-663 *)
Definition spawnMessage (conv : list Z -> option (list Z)) (sys : Z -> option (list Z))
  (argv0 cmdLine : list Z) (spawnCode lastError : Z) (errorMsg : list Z) : res unit (list Z) :=
  if spawnCode =? SPAWN_CREATE_PROCESS_FAILED then
    let! t := formatErrorMessage conv sys lastError in
    Ok (argv0 ++ str ": error: cannot start '" ++ cmdLine ++ str "': " ++ t ++ [10])
  else
    Ok (argv0 ++ str ": error: cannot start '" ++ cmdLine ++ str "': internal error: " ++ wcsToMbs conv errorMsg ++ [10]).
