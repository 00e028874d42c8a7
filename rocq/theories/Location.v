(** Which program winpty_open runs and how: libwinpty/AgentLocation.cc and
    startAgentProcess (libwinpty/winpty.cc).  Open.v takes the outcome of these functions
    as input ([oo_exe], [so_exe], [so_pid]); here they are followed to the system calls. *)
From Verif Require Import Base Text Strings StringsSpec DebugFlag.

(** wchar_t strings are lists of UTF-16 units. *)
Definition wexc := (Z * list Z)%type.          (* LibWinptyException: code and message *)

(** What the system answers.  [lo_path] is the full path of the library's file, [None] if
    GetModuleFileNameW fails; [lo_attrs] is GetFileAttributesW (0xFFFFFFFF: no such file). *)
Record loc_os := mkLO
  { lo_handle : bool;                          (* GetModuleHandleExW succeeds *)
    lo_path : option (list Z);
    lo_attrs : list Z -> Z }.

(** std::wstring(path): up to the first NUL; reading on past the buffer is undefined. *)
Fixpoint cstr (buf : list Z) : res wexc (list Z) :=
  match buf with
  | [] => UB
  | c :: t => if c =? 0 then Ok [] else let! r := cstr t in Ok (c :: r)
  end.

(** GetModuleFileNameW with a buffer of [n] characters holding [junk]: (returned size,
    buffer).  A path that does not fit is cut, without a terminator (Windows XP; later
    versions put one in the last place), and [n] is returned. *)
Definition moduleFileName (path : option (list Z)) (n : Z) (junk : list Z) : Z * list Z :=
  match path with
  | None => (0, junk)
  | Some p => if zlen p <? n then (zlen p, p ++ [0] ++ zskipn (zlen p + 1) junk) else (n, zfirstn n p)
  end.

(** getCurrentModule and getModuleFileName, AgentLocation.cc:32-50 *)
Definition getModuleFileName (os : loc_os) (junk : list Z) : res wexc (list Z) :=
  let! _ := assert_ (lo_handle os) in
  let bufsize := 4096 in
  let (size, path) := moduleFileName (lo_path os) bufsize junk in
  let! _ := assert_ (negb (size =? 0) && negb (size =? bufsize)) in
  cstr path.

(** std::wstring::find_last_of: from the back *)
Fixpoint find_last_of (s set : list Z) : option Z :=
  match s with
  | [] => None
  | c :: t => match find_last_of t set with
              | Some i => Some (i + 1)
              | None => if existsb (Z.eqb c) set then Some 0 else None
              end
  end.

(** dirname, AgentLocation.cc:52-59 *)
Definition dirname (path : list Z) : list Z :=
  match find_last_of path [92; 47] with
  | None => []
  | Some pos => zfirstn pos path
  end.

(** pathExists, AgentLocation.cc:61-63 *)
Definition pathExists (os : loc_os) (p : list Z) : bool := negb (lo_attrs os p =? 0xFFFFFFFF).

(** findAgentProgram, AgentLocation.cc:65-75; 4 is WINPTY_ERROR_AGENT_EXE_MISSING *)
Definition findAgentProgram (os : loc_os) (junk : list Z) : res wexc (list Z) :=
  let! file := getModuleFileName os junk in
  let progDir := dirname file in
  let r := progDir ++ str "\winpty-agent.exe" in
  if pathExists os r then Ok r
  else Throw (4, str "agent executable does not exist: '" ++ r ++ str "'").

(** shouldShowConsoleWindow, winpty.cc:412-415: GetEnvironmentVariableA returns 0 for a
    missing or empty variable, the length if it is below 32, otherwise the size needed *)
Definition getEnvironmentVariableA (v : env_var) (size : Z) : Z :=
  match v with
  | None => 0
  | Some s => if zlen s <? size then zlen s else zlen s + 1
  end.
Definition shouldShowConsoleWindow (v : env_var) : bool := 0 <? getEnvironmentVariableA v 32.

(** shouldSpecifyHideFlag, winpty.cc:458-470; [dbg] is WINPTY_DEBUG (DebugFlag.v) *)
Definition shouldSpecifyHideFlag (show dbg : env_var) : res unit bool :=
  let! force := lone_flag dbg (str "force_sw_hide") in
  let! suppress := lone_flag dbg (str "no_sw_hide") in
  let r := negb (shouldShowConsoleWindow show) in
  Ok (if force && suppress then r else if force then true else if suppress then false else r).

(** The arguments of CreateProcessW that matter; [cp_desktop] is lpDesktop ([None]: NULL),
    [cp_hide] whether STARTF_USESHOWWINDOW with SW_HIDE is given. *)
Record create := mkCP
  { cp_app : list Z; cp_cmdline : list Z; cp_desktop : option (list Z);
    cp_inherit : bool; cp_flags : Z; cp_hide : bool }.

(** Its answer: the process id, or the error code *)
Definition created := (Z + Z)%type.

(** startAgentProcess, winpty.cc:472-521: the CreateProcessW call made, if it gets that
    far, and the agent's process id.  8 is WINPTY_ERROR_AGENT_CREATION_FAILED; whexOfInt is
    [ghexOfInt] (Strings.v). *)
Definition startAgentProcess (os : loc_os) (junk : list Z) (show dbg : env_var)
    (desktop pipe params : list Z) (creationFlags : Z) (answer : create -> created)
    : option create * res wexc Z :=
  match findAgentProgram os junk with
  | Ok exe =>
      let cmdline := [34] ++ exe ++ [34; 32] ++ pipe ++ [32] ++ params in
      match shouldSpecifyHideFlag show dbg with
      | Ok hide =>
          let c := mkCP exe cmdline (if zlen desktop =? 0 then None else Some desktop) false creationFlags hide in
          (Some c,
           match answer c with
           | inl pid => Ok pid
           | inr e =>
               match @ghexOfInt wexc false 4 (uninit 9) e with
               | Ok h => Throw (8, str "winpty-agent CreateProcess failed: cmdline='" ++ cmdline ++ str "' err=0x" ++ vs_str h)
               | Throw _ => UB | AssertFail => AssertFail | UB => UB | OutOfFuel => OutOfFuel
               end
           end)
      | Throw _ => (None, UB) | AssertFail => (None, AssertFail) | UB => (None, UB) | OutOfFuel => (None, OutOfFuel)
      end
  | Throw e => (None, Throw e) | AssertFail => (None, AssertFail) | UB => (None, UB) | OutOfFuel => (None, OutOfFuel)
  end.

(** The two calls, winpty.cc:612-613 and 660-661: DETACHED_PROCESS for the helper that
    makes a background desktop, CREATE_NEW_CONSOLE for the agent *)
Definition startHelper (os : loc_os) junk (show dbg : env_var) (pipe : list Z) answer :=
  startAgentProcess os junk show dbg [] pipe (str "--create-desktop") 8 answer.
Definition startAgent (os : loc_os) junk (show dbg : env_var) (desktop pipe params : list Z) answer :=
  startAgentProcess os junk show dbg desktop pipe params 16 answer.
