(** Model of winpty_spawn_config_new (libwinpty/winpty.cc) and of the CreateProcess
    call the agent makes from the decoded request (agent/Agent.cc). *)
From Verif Require Import Base Buffer.

(** Memory seen through a caller's pointer: the characters from the pointer on.
    Reading past its end is undefined behaviour. *)
Definition mem := list Z.

Definition ld {E} (m : mem) (i : Z) : res E Z :=
  match znth m i with Some c => Ok c | None => UB end.

(** wcslen(p), one load per character *)
Fixpoint wcslen {E} (fuel : nat) (m : mem) (p : Z) : res E Z :=
  match fuel with
  | O => OutOfFuel
  | S k => let! c := ld m p in
           if c =? 0 then Ok 0 else let! n := wcslen k m (p + 1) in Ok (1 + n)
  end.

(** The while loop of wstringFromEnvBlock, winpty.cc:773-775 *)
Fixpoint env_end {E} (fuel : nat) (m : mem) (p : Z) : res E Z :=
  match fuel with
  | O => OutOfFuel
  | S k => let! c := ld m p in
           if c =? 0 then Ok p
           else let! n := wcslen (S (length m)) m p in env_end k m (p + n + 1)
  end.

(** envStr[i], which is defined up to and including size() *)
Definition str_at (s : list Z) (i : Z) : option Z :=
  if i =? zlen s then Some 0 else znth s i.
Definition str_is {E} (s : list Z) (i : Z) (f : Z -> bool) : res E unit :=
  match str_at s i with Some c => assert_ (f c) | None => UB end.

(** wstringFromEnvBlock, winpty.cc:769-798; [None] is a null pointer. *)
Definition wstringFromEnvBlock {E} (env : option mem) : res E (list Z) :=
  match env with
  | None => Ok []
  | Some m =>
      let! p := env_end (S (length m)) m 0 in
      let envStr := zfirstn (p + 1) m in
      let sz := zlen envStr in
      if sz =? 1 then
        let! _ := str_is envStr 0 (fun c => c =? 0) in
        Ok (envStr ++ [0])
      else
        let! _ := assert_ (3 <=? sz) in
        let! _ := str_is envStr (sz - 3) (fun c => negb (c =? 0)) in
        let! _ := str_is envStr (sz - 2) (fun c => c =? 0) in
        let! _ := str_is envStr (sz - 1) (fun c => c =? 0) in
        Ok envStr
  end.

(** std::wstring = const wchar_t*, winpty.cc:811-813 *)
Definition copy_cstr {E} (s : option mem) : res E (list Z) :=
  match s with
  | None => Ok []
  | Some m => let! n := wcslen (S (length m)) m 0 in Ok (zfirstn n m)
  end.

Definition WINPTY_SPAWN_FLAG_MASK := 3.    (* winpty_constants.h *)

Record spawn_config := mkCfg
  { sc_flags : Z; sc_app : list Z; sc_cmd : list Z; sc_cwd : list Z; sc_env : list Z }.

(** winpty_spawn_config_new, winpty.cc:801-817, allocation succeeding *)
Definition spawn_config_new {E} (flags : Z) (app cmd cwd env : option mem) : res E spawn_config :=
  let! _ := assert_ (Z.land flags WINPTY_SPAWN_FLAG_MASK =? flags) in
  let! a := copy_cstr app in
  let! c := copy_cstr cmd in
  let! d := copy_cstr cwd in
  let! e := wstringFromEnvBlock env in
  Ok (mkCfg flags a c d e).

(** The request winpty_spawn builds, winpty.cc:862-871 *)
Definition spawn_request (cfg : spawn_config) (wantProcess wantThread : bool) (desktop : list Z) : start_req :=
  {| sr_flags := sc_flags cfg; sr_want_process := wantProcess; sr_want_thread := wantThread;
     sr_appname := sc_app cfg; sr_cmdline := sc_cmd cfg; sr_cwd := sc_cwd cfg; sr_env := sc_env cfg;
     sr_desktop := desktop |}.

(** What CreateProcessW receives: for each pointer argument null or the memory it
    points to, Agent.cc:366-378.  c_str() and vectorWithNulFromString end in a NUL,
    vectorFromString does not add one (StringUtil.h:38-52). *)
Record cp_args := mkCP
  { cp_app : option mem; cp_cmd : option mem; cp_cwd : option mem; cp_env : option mem;
    cp_desktop : option mem; cp_inherit : bool }.

Definition ptr_nul (s : list Z) : option mem := match s with [] => None | _ => Some (s ++ [0]) end.
Definition ptr_raw (s : list Z) : option mem := match s with [] => None | _ => Some s end.

Definition create_process_args (useConerr : bool) (r : start_req) : cp_args :=
  mkCP (ptr_nul (sr_appname r)) (ptr_nul (sr_cmdline r)) (ptr_nul (sr_cwd r)) (ptr_raw (sr_env r))
       (ptr_nul (sr_desktop r)) useConerr.

(** From the caller's pointers to CreateProcess, through the wire format: the
    library encodes (winpty.cc:862-872), the agent decodes (Agent.cc:321-364). *)
Definition spawn_path (pl : plat) (flags : Z) (app cmd cwd env : option mem) (wp wt useConerr : bool)
    (desktop : list Z) : res exc cp_args :=
  let! cfg := spawn_config_new flags app cmd cwd env in
  let! bytes := sendRequest (RqStart (spawn_request cfg wp wt desktop)) in
  let! rq := parseRequest pl bytes in
  match rq with
  | RqStart r => Ok (create_process_args useConerr r)
  | _ => AssertFail
  end.
