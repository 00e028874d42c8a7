(** Model of the configuration functions and of winpty_open (libwinpty/winpty.cc,
    shared/BackgroundDesktop.cc), and of the agent's command line (agent/main.cc and
    the start of Agent::Agent), with every OS answer an input.  Memory allocation
    succeeds here. *)
From Verif Require Import Base Text Buffer Strings Rpc CmdLineSpec.

(** ** winpty_config_t, WinptyInternal.h:46-52, and its functions, winpty.cc:156-188.
    [flags] is a UINT64, sizes and mouse mode int, the timeout a DWORD. *)
Record config := mkC { cf_flags : Z; cf_cols : Z; cf_rows : Z; cf_mouse : Z; cf_timeout : Z }.

Definition WINPTY_FLAG_MASK := 15.   (* winpty_constants.h:50-90 *)

Definition config_new {E} (flags : Z) : res E config :=
  let! _ := assert_ (Z.land flags WINPTY_FLAG_MASK =? flags) in Ok (mkC flags 80 25 1 30000).
Definition set_initial_size {E} (c : config) (cols rows : Z) : res E config :=
  let! _ := assert_ ((0 <? cols) && (0 <? rows)) in
  Ok (mkC (cf_flags c) cols rows (cf_mouse c) (cf_timeout c)).
Definition set_mouse_mode {E} (c : config) (m : Z) : res E config :=
  let! _ := assert_ ((0 <=? m) && (m <=? 2)) in
  Ok (mkC (cf_flags c) (cf_cols c) (cf_rows c) m (cf_timeout c)).
Definition set_agent_timeout {E} (c : config) (t : Z) : res E config :=
  let! _ := assert_ (0 <? t) in
  Ok (mkC (cf_flags c) (cf_cols c) (cf_rows c) (cf_mouse c) t).

(** ** Observable actions.  A session is that of the agent itself or of the helper
    agent that only creates a desktop; an OS object is named by its session and role. *)
Inductive which := Main | Helper.
Inductive obj := OEvent (w : which) | OPipe (w : which) | OProcess (w : which) | OThread (w : which) | ODesktop | OStation.
Inductive ev :=
| EvOpen (o : obj)
| EvClose (o : obj)
| EvPipe (w : which) (name : list Z)               (* CreateNamedPipeW succeeded *)
| EvStart (w : which) (cmdline desktop : list Z)   (* CreateProcessW succeeded *)
| EvRead (w : which)                               (* data is read from the pipe *)
| EvStation (background : bool).                   (* SetProcessWindowStation *)

Definition M (A : Type) : Type := list ev * res lexc A.
Definition ret {A} (a : A) : M A := ([], Ok a).
Definition fail {A} (e : lexc) : M A := ([], Throw e).
Definition tell (l : list ev) : M unit := (l, Ok tt).
Definition lift {A} (r : res lexc A) : M A := ([], r).
Definition mbind {A B} (m : M A) (k : A -> M B) : M B :=
  match m with
  | (l, Ok a) => let (l', r) := k a in (l ++ l', r)
  | (l, Throw e) => (l, Throw e)
  | (l, AssertFail) => (l, AssertFail)
  | (l, UB) => (l, UB)
  | (l, OutOfFuel) => (l, OutOfFuel)
  end.
Notation "'do' x <- m ; k" := (mbind m (fun x => k)) (at level 200, x pattern, m at level 100, k at level 200).
(** Destructors run when an exception leaves [m]. *)
Definition unwind {A} (cleanup : list ev) (m : M A) : M A :=
  match m with (l, Throw e) => (l ++ cleanup, Throw e) | _ => m end.

(** ** OS answers *)

(** GetNamedPipeClientProcessId, WindowsSecurity.cc:440-462 *)
Inductive client := ClUnsupported | ClFailed | ClPid (pid : Z).

Record sess_os := mkSO
  { so_event : bool;             (* CreateEventW succeeds *)
    so_sd : bool;                (* the security descriptor can be built *)
    so_time : Z; so_rnd : option (list Z);    (* for the unique pipe name *)
    so_pipe : bool;              (* CreateNamedPipeW succeeds *)
    so_exe : bool;               (* the agent executable exists *)
    so_pid : option Z;           (* CreateProcessW succeeds, with this process id *)
    so_connect : ioans;          (* ConnectNamedPipe *)
    so_client : client;
    so_packet : res lexc (list Z) }.          (* readPacket: see Rpc.v *)

Record desk_os := mkDO
  { do_orig : bool;              (* GetProcessWindowStation *)
    do_station : bool;           (* CreateWindowStationW *)
    do_set : bool;               (* SetProcessWindowStation *)
    do_desktop : bool;           (* CreateDesktopW *)
    do_name : option (list Z) }. (* getDesktopName *)

Record open_os := mkOO
  { oo_plat : plat; oo_pid : Z; oo_counter : Z;
    oo_exe : list Z;             (* the agent's path: findAgentProgram, AgentLocation.cc:67-76 *)
    oo_show : bool;              (* WINPTY_SHOW_CONSOLE *)
    oo_win7 : bool;              (* isAtLeastWindows7 *)
    oo_force : bool; oo_force_spawn : bool; oo_force_curproc : bool; oo_suppress : bool;   (* debug flags *)
    oo_desk : desk_os;
    oo_helper : sess_os; oo_main : sess_os;
    oo_current : option (list Z) }.           (* getCurrentDesktopName, BackgroundDesktop.cc:104-122 *)

(** ** createAgentSession *)

(** operator<< of integers, StringBuilder.h:164-176 *)
Definition dec64 (v : Z) : res lexc (list Z) := let! s := gdecOfInt 8 (uninit 26) v in Ok (vs_str s).
Definition dec32 (v : Z) : res lexc (list Z) := let! s := gdecOfInt 4 (uninit 14) v in Ok (vs_str s).

(** The command line, winpty.cc:479-483 *)
Definition agent_cmdline (exe pipe params : list Z) : list Z :=
  [34] ++ exe ++ [34; 32] ++ pipe ++ [32] ++ params.

(** createControlPipe, winpty.cc:370-394 *)
Definition createControlPipe (w : which) (os : sess_os) (name : list Z) : M unit :=
  if negb (so_sd os) then fail XWinpty
  else if negb (so_pipe os) then fail XWinpty
  else tell [EvOpen (OPipe w); EvPipe w name].

(** startAgentProcess, winpty.cc:472-521; gives the agent's pid *)
Definition startAgentProcess (w : which) (os : sess_os) (exe desktop pipe params : list Z) : M Z :=
  if negb (so_exe os) then fail (XLib 4)
  else match so_pid os with
       | None => fail (XLib 8)
       | Some pid =>
           do _ <- tell [EvOpen (OProcess w); EvOpen (OThread w); EvStart w (agent_cmdline exe pipe params) desktop;
                         EvClose (OThread w)];
           ret pid
       end.

(** connectControlPipe, winpty.cc:285-298; 535 is ERROR_PIPE_CONNECTED *)
Definition connectControlPipe (os : sess_os) : M unit :=
  do r <- lift (handlePendingIo (so_connect os));
  if fst r || (snd r =? 535) then ret tt else fail XWinpty.

(** verifyPipeClientPid, winpty.cc:523-541 *)
Definition verifyPipeClientPid (os : sess_os) (agentPid : Z) : M unit :=
  match so_client os with
  | ClPid clientPid => if clientPid =? agentPid then ret tt else fail XWinpty
  | ClUnsupported => ret tt
  | ClFailed => fail XWinpty
  end.

(** ~winpty_t: members in reverse order, WinptyInternal.h:54-64 *)
Definition free_session (w : which) : list ev := [EvClose (OEvent w); EvClose (OPipe w); EvClose (OProcess w)].

(** createAgentSession, winpty.cc:543-564 (uniqueName: Strings.v).  Returns the new
    value of the name counter. *)
Definition createAgentSession (w : which) (gos : open_os) (os : sess_os) (counter : Z) (desktop params : list Z) : M Z :=
  if negb (so_event os) then fail XWinpty
  else
    do _ <- tell [EvOpen (OEvent w)];
    do (name, counter) <- lift (pipeName (str "\\.\pipe\winpty-control-") (oo_pid gos) counter (so_time os) (so_rnd os));
    do _ <- unwind [EvClose (OEvent w)] (createControlPipe w os name);
    do pid <- unwind [EvClose (OEvent w); EvClose (OPipe w)] (startAgentProcess w os (oo_exe gos) desktop name params);
    do _ <- unwind (free_session w) (do _ <- connectControlPipe os; verifyPipeClientPid os pid);
    ret counter.

(** ** Background desktop *)

(** BackgroundDesktop::BackgroundDesktop, BackgroundDesktop.cc:59-92, with its
    catch-all calling dispose (94-107). *)
Definition backgroundDesktop (os : desk_os) : M (list Z) :=
  if negb (do_orig os) then fail XWinpty
  else if negb (do_station os) then unwind [EvStation false] (fail XWinpty)
  else
    do _ <- tell [EvOpen OStation];
    if negb (do_set os) then unwind [EvStation false; EvClose OStation] (fail XWinpty)
    else
      do _ <- tell [EvStation true];
      if negb (do_desktop os) then unwind [EvStation false; EvClose OStation] (fail XWinpty)
      else
        do _ <- tell [EvOpen ODesktop];
        match do_name os with
        | None => unwind [EvStation false; EvClose ODesktop; EvClose OStation] (fail XWinpty)
        | Some n => ret n
        end.

Inductive agent_desktop := NoDesktop | Direct (name : list Z) | Indirect (name : list Z).
Definition desktop_name (d : agent_desktop) : list Z :=
  match d with NoDesktop => [] | Direct n => n | Indirect n => n end.
(** ~AgentDesktop, winpty.cc:568-597 *)
Definition free_desktop (d : agent_desktop) : list ev :=
  match d with
  | NoDesktop => []
  | Direct _ => [EvStation false; EvClose ODesktop; EvClose OStation]
  | Indirect _ => free_session Helper
  end.

(** shouldCreateBackgroundDesktop, winpty.cc:417-456: create one?, using an agent? *)
Definition shouldCreateBackgroundDesktop (os : open_os) (createUsingAgent : bool) : bool * bool :=
  let n (b : bool) : Z := if b then 1 else 0 in
  let r := negb (oo_show os) && negb (oo_win7 os) in
  if 1 <? n (oo_force os) + n (oo_force_spawn os) + n (oo_force_curproc os) + n (oo_suppress os) then (r, createUsingAgent)
  else if oo_force os then (true, createUsingAgent)
  else if oo_force_spawn os then (true, true)
  else if oo_force_curproc os then (true, false)
  else if oo_suppress os then (false, createUsingAgent)
  else (r, createUsingAgent).

(** setupBackgroundDesktop, winpty.cc:601-639 *)
Definition setupBackgroundDesktop (os : open_os) (cfg : config) : M (agent_desktop * Z) :=
  let (useDesktop, useAgent) := shouldCreateBackgroundDesktop os (Z.land (cf_flags cfg) 8 =? 0) in
  if negb useDesktop then ret (NoDesktop, oo_counter os)
  else if useAgent then
    do counter <- createAgentSession Helper os (oo_helper os) (oo_counter os) [] (str "--create-desktop");
    do name <- unwind (free_session Helper) (
      do _ <- tell [EvRead Helper];
      do payload <- lift (so_packet (oo_helper os));
      do rp <- lift (lift_exc (parseDesktop (oo_plat os) payload));
      ret match rp with RpDesktop n => n | _ => [] end);
    if zlen name =? 0 then do _ <- tell (free_session Helper); ret (NoDesktop, counter)
    else ret (Indirect name, counter)
  else
    match backgroundDesktop (oo_desk os) with
    | (l, Throw XWinpty) => do _ <- tell l; ret (NoDesktop, oo_counter os)
    | m => do n <- m; ret (Direct n, oo_counter os)
    end.

(** ** winpty_open, winpty.cc:642-691 *)
Record session := mkS { ss_conin : list Z; ss_conout : list Z; ss_conerr : list Z; ss_desktop : list Z; ss_timeout : Z }.

(** The parameters, winpty.cc:654-659 *)
Definition open_params (cfg : config) : res lexc (list Z) :=
  let! f := dec64 (cf_flags cfg) in
  let! m := dec32 (cf_mouse cfg) in
  let! c := dec32 (cf_cols cfg) in
  let! r := dec32 (cf_rows cfg) in
  Ok (f ++ [32] ++ m ++ [32] ++ c ++ [32] ++ r).

Definition winpty_open (os : open_os) (cfg : config) : M session :=
  do (desktop, counter) <- setupBackgroundDesktop os cfg;
  do _ <- unwind (free_desktop desktop) (
    do params <- lift (open_params cfg);
    createAgentSession Main os (oo_main os) counter (desktop_name desktop) params);
  do _ <- tell (free_desktop desktop);
  unwind (free_session Main) (
    do spawnDesktop <-
      (if zlen (desktop_name desktop) =? 0 then ret []
       else match oo_current os with Some n => ret n | None => fail XWinpty end);
    do _ <- tell [EvRead Main];
    do payload <- lift (so_packet (oo_main os));
    do rp <- lift (lift_exc (parseSetup (oo_plat os) (negb (Z.land (cf_flags cfg) 1 =? 0)) payload));
    match rp with
    | RpSetup i o e => ret (mkS i o (match e with Some e => e | None => [] end) spawnDesktop (cf_timeout cfg))
    | _ => lift AssertFail
    end).

(** winpty_free, winpty.cc:965-970 *)
Definition winpty_free : list ev := free_session Main.

(** winpty_conerr_name, winpty.cc:721-728: null if empty *)
Definition winpty_conerr_name (s : session) : option (list Z) :=
  if zlen (ss_conerr s) =? 0 then None else Some (ss_conerr s).

(** ** The agent's command line *)

Definition isspace (c : Z) : bool := (c =? 32) || ((9 <=? c) && (c <=? 13)).
Fixpoint skip_space (s : list Z) : list Z :=
  match s with c :: t => if isspace c then skip_space t else s | [] => [] end.
Fixpoint digits (s : list Z) (acc : Z) : Z :=
  match s with c :: t => if (48 <=? c) && (c <=? 57) then digits t (acc * 10 + (c - 48)) else acc | [] => acc end.
(** The number strtoll and atoi read, before range handling (C11 7.22.1) *)
Definition scan_int (s : list Z) : Z :=
  match skip_space s with
  | 45 :: t => - digits t 0
  | 43 :: t => digits t 0
  | s => digits s 0
  end.
(** winpty_atoi64, main.cc:54-56: strtoll saturates; the result becomes a uint64_t *)
Definition winpty_atoi64 (s : list Z) : Z :=
  u64 (Z.max (- 2 ^ 63) (Z.min (2 ^ 63 - 1) (scan_int s))).
(** atoi: undefined when the value is not an int *)
Definition atoi {E} (s : list Z) : res E Z :=
  let v := scan_int s in if (- 2 ^ 31 <=? v) && (v <? 2 ^ 31) then Ok v else UB.

Inductive action :=
| Version | ShowInput (withMouse escapeInput : bool) | CreateDesktop (pipe : list Z) | Usage (status : Z)
| RunAgent (pipe : list Z) (flags mouseMode cols rows : Z).

(** The --show-input options, main.cc:79-93 *)
Fixpoint show_input (args : list (list Z)) (m e : bool) : action :=
  match args with
  | [] => ShowInput m e
  | a :: t =>
      if list_eqb a (str "--with-mouse") then show_input t true e
      else if list_eqb a (str "--escape-input") then show_input t m true
      else Usage 1
  end.

(** main, main.cc:58-114.  [utf8] is utf8FromWide (WideCharToMultiByte). *)
Definition agent_main {E} (q : quoting) (utf8 : list Z -> list Z) (cmdline : list Z) : res E action :=
  match windows_argv q cmdline with
  | _ :: args =>
      match args with
      | a1 :: rest =>
          if match rest with [] => list_eqb a1 (str "--version") | _ => false end then Ok Version
          else if list_eqb a1 (str "--show-input") then Ok (show_input rest false false)
          else
            match rest with
            | [a2] => if list_eqb a2 (str "--create-desktop") then Ok (CreateDesktop a1) else Ok (Usage 1)
            | [a2; a3; a4; a5] =>
                let! m := atoi (utf8 a3) in
                let! c := atoi (utf8 a4) in
                let! r := atoi (utf8 a5) in
                Ok (RunAgent a1 (winpty_atoi64 (utf8 a2)) m c r)
            | _ => Ok (Usage 1)
            end
      | [] => Ok (Usage 1)
      end
  | [] => UB
  end.

(** Agent::Agent's use of its parameters, Agent.cc:146-162 *)
Record agent_cfg := mkA { ag_conerr : bool; ag_plain : bool; ag_color : bool; ag_mouse : Z; ag_cols : Z; ag_rows : Z }.
Definition agent_new {E} (flags mouse cols rows : Z) : res E agent_cfg :=
  let! _ := assert_ ((1 <=? cols) && (1 <=? rows)) in
  let plain := negb (Z.land flags 2 =? 0) in
  Ok (mkA (negb (Z.land flags 1 =? 0)) plain (negb plain || negb (Z.land flags 4 =? 0)) mouse
          (Z.min cols 2500) (Z.min rows 2000)).
