(** Model of the rest of the unix adapter's main.cc: looking up the program,
    terminal modes, the Win32 environment, and main itself.  (Command-line
    handling is in CmdLine.v, the threads and wake-ups in Adapter.v.) *)
From Verif Require Import Base Text CmdLine.

Definition COLON : Z := 58.
Definition SLASH : Z := 47.

(** ** How a piece of the program ends, with the state of the world then *)
Inductive run (W A : Type) : Type :=
| Go (a : A) (w : W)          (* it returned *)
| Exit (code : Z) (w : W)     (* exit(code), or main returned code *)
| Abort (w : W)               (* a failed assert / ASSERT: abort() *)
| Undef (w : W)               (* undefined behaviour *)
| Waiting (w : W).            (* no more events: still waiting in select *)
Arguments Go {W A}. Arguments Exit {W A}. Arguments Abort {W A}. Arguments Undef {W A}. Arguments Waiting {W A}.
Definition andthen {W A B} (m : run W A) (k : A -> W -> run W B) : run W B :=
  match m with
  | Go a w => k a w
  | Exit c w => Exit c w
  | Abort w => Abort w
  | Undef w => Undef w
  | Waiting w => Waiting w
  end.
Notation "'go!' ( x , w ) := m 'in' k" := (andthen m (fun x w => k))
  (at level 200, x name, w name, m at level 100, k at level 200).

(** ** Program lookup, main.cc:200-321 *)

(** What the operating system says about file names. *)
Record files := mkFiles
  { realpath : list Z -> option (list Z);   (* realpath(3): None if it fails *)
    can_run : list Z -> bool;               (* access(p, X_OK) == 0 *)
    can_read : list Z -> bool;              (* access(p, R_OK) == 0 *)
    win_path : list Z -> option (list Z);   (* cygwin_conv_path, None if it fails *)
    lower : Z -> Z }.                       (* tolower in the current locale *)

(** convertPosixPathToWin, main.cc:201-234.  The two calls of cygwin_conv_path
    (size, then text) are one oracle; the fallback for old MSYS is not modelled.
    None is the failed assert. *)
Definition convertPosixPathToWin (fs : files) (path : list Z) : option (list Z) :=
  match win_path fs path with
  | Some p => Some (map (fun c => if c =? SLASH then BS else c) p)
  | None => None
  end.

(** resolvePath, main.cc:236-244: the empty string on failure *)
Definition resolvePath (fs : files) (path : list Z) : list Z :=
  match realpath fs path with Some p => p | None => [] end.

(** endsWith, main.cc:246-259.  (The strcpy fits: a path has no NUL inside, so
    exactly suffixLen characters and the terminator are copied.) *)
Definition endsWith (fs : files) (path suf : list Z) : bool :=
  if zlen path <? zlen suf then false
  else list_eqb (map (lower fs) (zskipn (zlen path - zlen suf) path)) suf.

(** std::string::find(c, pos) *)
Fixpoint find_nat (c : Z) (s : list Z) (pos : Z) : option Z :=
  match s with
  | [] => None
  | x :: t => if x =? c then Some pos else find_nat c t (pos + 1)
  end.
Definition find (s : list Z) (c pos : Z) : option Z := find_nat c (zskipn pos s) pos.

(** The body of the search for one PATH element, main.cc:278-304: the candidate, if
    the search stops here.  [msys] is whether __MSYS__ is defined. *)
Definition try_element (fs : files) (msys : bool) (element prog : list Z) : option (list Z) :=
  let candidate :=
    if negb (zlen element =? 0) && negb (last element 0 =? SLASH) then element ++ [SLASH] else element in
  let candidate := candidate ++ prog in
  let candidate := resolvePath fs candidate in
  if zlen candidate =? 0 then None
  else
    let batch := endsWith fs candidate (str ".bat") || endsWith fs candidate (str ".cmd") in
    let binary := endsWith fs candidate (str ".com") || endsWith fs candidate (str ".exe") in
    let candidate := if batch then candidate else if binary then candidate else candidate ++ str ".exe" in
    let ok := if batch && msys then can_read fs candidate else can_run fs candidate in
    if ok then Some candidate else None.

(** The while loop, main.cc:275-312.  [None] is exit(1), "Not found in PATH".
    substr throws if elpos is past the end. *)
Fixpoint search {E} (fuel : nat) (fs : files) (msys : bool) (pathList prog : list Z) (elpos : Z)
  : res E (option (list Z)) :=
  match fuel with
  | O => OutOfFuel
  | S fuel =>
      let elend := find pathList COLON elpos in
      if zlen pathList <? elpos then UB
      else
        let element := match elend with
                       | Some e => zfirstn (e - elpos) (zskipn elpos pathList)
                       | None => zskipn elpos pathList end in
        match try_element fs msys element prog with
        | Some candidate => Ok (Some candidate)
        | None => match elend with
                  | None => Ok None
                  | Some e => search fuel fs msys pathList prog (e + 1)
                  end
        end
  end.

(** findProgram, main.cc:261-319: None is exit(1) with a message.  [path] is
    getenv("PATH").  A failed conversion is an assertion failure. *)
Definition findProgram {E} (fs : files) (msys : bool) (path : option (list Z)) (prog : list Z)
  : res E (option (list Z)) :=
  let! candidate :=
    (match find prog SLASH 0, find prog BS 0 with
     | None, None =>
         let pathList := match path with Some p => p | None => [] end in
         search (S (length pathList)) fs msys pathList prog 0
     | _, _ =>
         let candidate := resolvePath fs prog in
         Ok (if zlen candidate =? 0 then None else Some candidate)
     end) in
  match candidate with
  | None => Ok None
  | Some c => match convertPosixPathToWin fs c with Some p => Ok (Some p) | None => AssertFail end
  end.

(** ** Terminal modes, main.cc:66-151 *)

(** The part of struct termios that is touched; [others] stands for the rest. *)
Record termios := mkTermios
  { c_iflag : Z; c_oflag : Z; c_cflag : Z; c_lflag : Z; vmin : Z; vtime : Z; others : Z }.

(** The values of the flag names in termios.h: arbitrary. *)
Record bits := mkBits
  { ECHO : Z; ICANON : Z; IEXTEN : Z; ISIG : Z;
    BRKINT : Z; ICRNL : Z; INPCK : Z; ISTRIP : Z; IXON : Z;
    CSIZE : Z; PARENB : Z; CS8 : Z; OPOST : Z }.

Definition clear (flags mask : Z) : Z := Z.land flags (Z.lnot mask).

(** main.cc:111-117 *)
Definition raw_input (B : bits) (m : termios) : termios :=
  mkTermios
    (clear (c_iflag m) (Z.lor (Z.lor (Z.lor (Z.lor (BRKINT B) (ICRNL B)) (INPCK B)) (ISTRIP B)) (IXON B)))
    (c_oflag m)
    (Z.lor (clear (c_cflag m) (Z.lor (CSIZE B) (PARENB B))) (CS8 B))
    (clear (c_lflag m) (Z.lor (Z.lor (Z.lor (ECHO B) (ICANON B)) (IEXTEN B)) (ISIG B)))
    1 0 (others m).
(** main.cc:132-134 *)
Definition raw_output (B : bits) (m : termios) : termios :=
  mkTermios (c_iflag m) (clear (c_oflag m) (OPOST B))
    (Z.lor (clear (c_cflag m) (Z.lor (CSIZE B) (PARENB B))) (CS8 B))
    (c_lflag m) (vmin m) (vtime m) (others m).

(** What the adapter does that others can see, in order. *)
Inductive act :=
| AOpened (agentFlags cols rows : Z) (mouse : bool)  (* winpty_open succeeded *)
| AOpenFailed                                        (* ... failed; message on stderr *)
| APipe (fd : Z)                                     (* CONIN (0), CONOUT (1), CONERR (2) opened *)
| ASpawned (line : list Z)                           (* winpty_spawn succeeded *)
| ASpawnFailed                                       (* ... failed; message on stderr *)
| ANotFound                                          (* message: program not found *)
| ANotTty (fd : Z)                                   (* message: not a tty *)
| ATermError                                         (* message: tcgetattr/tcsetattr failed *)
| AMode (tty : Z) (m : termios)                      (* a terminal's mode was set *)
| AThread (fd : Z)                                   (* an I/O thread for fd was started *)
| ASetSize (cols rows : Z)                           (* winpty_set_size *)
| AFree                                              (* winpty_free *)
| AJoined (fd : Z)                                   (* an I/O thread was joined *)
| AClosed (fd : Z)                                   (* a pipe handle was closed *)
| AMessage.                                          (* help, version, usage or option error *)

(** The state of the world: the mode of each terminal, how many tc* calls were
    made, and the actions so far. *)
Record world := mkWorld { modes : Z -> termios; calls : Z; acts : list act }.
Definition did (w : world) (a : act) : world := mkWorld (modes w) (calls w) (acts w ++ [a]).

(** Standard descriptors: which terminal each is connected to, if any; and which
    of the tcgetattr/tcsetattr calls (numbered from 0) fail although the
    descriptor is a terminal. *)
Record ttys := mkTtys { tty_of : Z -> option Z; fails : Z -> bool }.

Definition tcgetattr (T : ttys) (fd : Z) (w : world) : option termios * world :=
  let w' := mkWorld (modes w) (calls w + 1) (acts w) in
  match tty_of T fd with
  | Some t => (if fails T (calls w) then None else Some (modes w t), w')
  | None => (None, w')
  end.
Definition tcsetattr (T : ttys) (fd : Z) (m : termios) (w : world) : bool * world :=
  let w' := mkWorld (modes w) (calls w + 1) (acts w) in
  match tty_of T fd with
  | Some t =>
      if fails T (calls w) then (false, w')
      else (true, mkWorld (fun x => if x =? t then m else modes w x) (calls w + 1) (acts w ++ [AMode t m]))
  | None => (false, w')
  end.

(** SavedTermiosMode, main.cc:66-70: the valid entries, in order. *)
Definition saved := list (Z * termios).

(** The first loop of setRawTerminalMode, main.cc:83-101, over the descriptors
    whose valid flag is set. *)
Fixpoint save_modes (T : ttys) (allowNonTtys : bool) (fds : list Z) (w : world) : run world saved :=
  match fds with
  | [] => Go [] w
  | fd :: rest =>
      match tty_of T fd with
      | None => if allowNonTtys then save_modes T allowNonTtys rest w else Exit 1 (did w (ANotTty fd))
      | Some _ =>
          match tcgetattr T fd w with
          | (None, w) => Exit 1 (did w ATermError)
          | (Some m, w) => go! (s, w) := save_modes T allowNonTtys rest w in Go ((fd, m) :: s) w
          end
      end
  end.

(** Reading a mode, changing it and setting it: main.cc:104-122 and 124-140. *)
Definition change_mode (T : ttys) (fd : Z) (f : termios -> termios) (w : world) : run world unit :=
  match tcgetattr T fd w with
  | (None, w) => Exit 1 (did w ATermError)
  | (Some m, w) =>
      match tcsetattr T fd (f m) w with
      | (true, w) => Go tt w
      | (false, w) => Exit 1 (did w ATermError)
      end
  end.

(** The second half, main.cc:103-136, over the valid descriptors: standard input
    first, then the others. *)
Fixpoint change_modes (B : bits) (T : ttys) (s : saved) (w : world) : run world unit :=
  match s with
  | [] => Go tt w
  | (fd, _) :: rest =>
      go! (_, w) := change_mode T fd (if fd =? 0 then raw_input B else raw_output B) w in
      change_modes B T rest w
  end.

(** setRawTerminalMode, main.cc:73-139 *)
Definition setRawTerminalMode (B : bits) (T : ttys) (allowNonTtys setStdout setStderr : bool) (w : world)
  : run world saved :=
  let fds := [0] ++ (if setStdout then [1] else []) ++ (if setStderr then [2] else []) in
  go! (s, w) := save_modes T allowNonTtys fds w in
  go! (_, w) := change_modes B T s w in
  Go s w.

(** restoreTerminalMode, main.cc:141-151 *)
Fixpoint restoreTerminalMode (T : ttys) (s : saved) (w : world) : run world unit :=
  match s with
  | [] => Go tt w
  | (fd, m) :: rest =>
      match tcsetattr T fd m w with
      | (true, w) => restoreTerminalMode T rest w
      | (false, w) => Exit 1 (did w ATermError)
      end
  end.

(** debugShowKey, main.cc:153-185, without the reading and printing between the two
    changes of the terminal's mode. *)
Definition debugShowKey (B : bits) (T : ttys) (allowNonTtys : bool) (w : world) : run world unit :=
  go! (s, w) := setRawTerminalMode B T allowNonTtys false false w in
  restoreTerminalMode T s w.

(** ** The Win32 environment, main.cc:402-457 *)

(** Environments are functions from names; the names are as in the source. *)
Definition environment := list Z -> option (list Z).
Definition set_var (e : environment) (n : list Z) (v : option (list Z)) : environment :=
  fun x => if list_eqb x n then v else e x.

(** [unix] is the Unix environment, [synced] the Win32 environment after
    CW_SYNC_WINENV (or the one inherited, if the call is not available);
    [wide] is mbstowcs, whose failure is a failed assert (None).  The std::map
    iterates in the order of the names. *)
Definition setupWin32Environment (wide : list Z -> option (list Z)) (unix synced : environment)
  : option environment :=
  let copy (n : list Z) (e : option environment) : option environment :=
    match e with
    | None => None
    | Some e =>
        match unix n with
        | Some (c :: t) => match wide (c :: t) with Some v => Some (set_var e n (Some v)) | None => None end
        | _ => Some e
        end
    end in
  match copy (str "WINPTY_SHOW_CONSOLE") (copy (str "WINPTY_DEBUG") (Some synced)) with
  | Some e => Some (set_var e (str "TERM") None)
  | None => None
  end.

(** ** main, main.cc:581-729 *)

(** struct winsize: 16-bit fields *)
Record winsize := mkSize { ws_row : Z; ws_col : Z; ws_xpixel : Z; ws_ypixel : Z }.
Definition size_eqb (a b : winsize) : bool :=
  (ws_row a =? ws_row b) && (ws_col a =? ws_col b) && (ws_xpixel a =? ws_xpixel b) && (ws_ypixel a =? ws_ypixel b).

(** Everything main is told. *)
Record outside := mkOutside
  { o_ttys : ttys; o_bits : bits;
    o_size : option winsize;             (* the first ioctl(TIOCGWINSZ), None if it fails *)
    o_env : bool;                        (* setupWin32Environment returned *)
    o_open : bool;                       (* winpty_open succeeds *)
    o_pipe : Z -> bool;                  (* CreateFileW on CONIN (0), CONOUT (1), CONERR (2) succeeds *)
    o_files : files; o_msys : bool; o_path : option (list Z);
    o_wide : list Z -> option (list Z);  (* mbstowcs *)
    o_spawn : bool;                      (* winpty_spawn succeeds *)
    o_wakes : list (option winsize * bool);  (* for each wake-up: the ioctl's answer, and
                                                whether some handler is complete then *)
    o_exit : option Z }.                 (* GetExitCodeProcess *)

(** The main loop, main.cc:680-704.  sz2 is not initialised: if the ioctl fails,
    comparing it is undefined behaviour.  winpty_set_size asserts that both sizes
    are positive (winpty.cc:924) and its result is ignored. *)
Fixpoint main_loop (wakes : list (option winsize * bool)) (sz : winsize) (w : world) : run world unit :=
  match wakes with
  | [] => Waiting w
  | (sz2, complete) :: rest =>
      match sz2 with
      | None => Undef w
      | Some sz2 =>
          if size_eqb sz sz2 then
            if complete then Go tt w else main_loop rest sz w
          else if (0 <? ws_col sz2) && (0 <? ws_row sz2) then
            let w := did w (ASetSize (ws_col sz2) (ws_row sz2)) in
            if complete then Go tt w else main_loop rest sz2 w
          else Abort w
      end
  end.

(** main.cc:668-729, after the child has been started: terminal modes, I/O
    threads, the loop, and shutting down. *)
Definition main_session (o : outside) (f : Flags) (sz : winsize) (w : world) : run world unit :=
  go! (mode, w) := setRawTerminalMode (o_bits o) (o_ttys o) (testAllowNonTtys f) true (testConerr f) w in
  let w := did (did w (AThread 0)) (AThread 1) in
  let w := if testConerr f then did w (AThread 2) else w in
  go! (_, w) := main_loop (o_wakes o) sz w in
  let w := did w AFree in
  let w := did (did (did (did w (AJoined 0)) (AJoined 1)) (AClosed 0)) (AClosed 1) in
  let w := if testConerr f then did (did w (AJoined 2)) (AClosed 2) else w in
  go! (_, w) := restoreTerminalMode (o_ttys o) mode w in
  Exit (match o_exit o with Some c => c | None => 1 end) w.

(** Starting the child, main.cc:633-666.  The exact message is not modelled. *)
Definition main_spawn (o : outside) (childArgv : list (list Z)) (w : world) : run world unit :=
  match childArgv with
  | [] => Undef w
  | prog :: args =>
      match @findProgram unit (o_files o) (o_msys o) (o_path o) prog with
      | Ok None => Exit 1 (did w ANotFound)
      | Ok (Some p) =>
          match @argvToCommandLine unit (p :: args) with
          | Ok line =>
              match o_wide o line with
              | None => Abort w
              | Some lineW => if o_spawn o then Go tt (did w (ASpawned lineW)) else Exit 1 (did w ASpawnFailed)
              end
          | _ => Undef w
          end
      | AssertFail => Abort w
      | _ => Undef w
      end
  end.

(** main.cc:588-631: size, configuration, agent and its pipes. *)
Definition first_size (o : outside) : winsize :=
  match o_size o with Some s => s | None => mkSize 25 80 0 0 end.
Definition main_open (o : outside) (f : Flags) (w : world) : run world unit :=
  let sz := first_size o in
  if negb ((0 <? ws_col sz) && (0 <? ws_row sz)) then Abort w
  else if negb (o_open o) then Exit 1 (did w AOpenFailed)
  else
    let w := did w (AOpened (agentFlags f) (ws_col sz) (ws_row sz) (mouseInput f)) in
    if negb (o_pipe o 0) || negb (o_pipe o 1) then Abort w
    else
      let w := did (did w (APipe 0)) (APipe 1) in
      if testConerr f then
        if negb (o_pipe o 2) then Abort w else Go tt (did w (APipe 2))
      else Go tt w.

(** main, main.cc:581-729 *)
Definition adapter_main (o : outside) (argv : list (list Z)) (w : world) : run world unit :=
  match parseArguments argv with
  | ShowHelp | ShowVersion => Exit 0 (did w AMessage)
  | Unrecognized _ | UsageError => Exit 1 (did w AMessage)
  | ShowKeys allow =>
      go! (_, w) := debugShowKey (o_bits o) (o_ttys o) allow w in Exit 0 w
  | Run f childArgv =>
      if negb (o_env o) then Abort w
      else
        go! (_, w) := main_open o f w in
        go! (_, w) := main_spawn o childArgv w in
        main_session o f (first_size o) w
  end.
