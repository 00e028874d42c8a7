(** Model of the trace messages: the sending side of src/shared/DebugClient.cc (38-188) and
    the loop of src/debugserver/DebugServer.cc (92-117). *)
From Verif Require Import Base Text DebugFlag.

(** A thread's last-error value and the process's static variables: [disabled] and
    [enabled] of isTracingEnabled and the cached configuration.  Other threads are the
    subject of DebugFlag.v. *)
Record tstate := mkT { t_le : Z; t_disabled : bool; t_enabled : bool; t_config : option (list Z) }.
Definition set_le (s : tstate) (e : Z) : tstate := mkT e (t_disabled s) (t_enabled s) (t_config s).

(** PreserveLastError, DebugClient.cc:43-49, around a block. *)
Definition preserving {A} (f : tstate -> res unit (A * tstate)) (s : tstate) : res unit (A * tstate) :=
  let! (a, s') := f s in Ok (a, set_le s' (t_le s)).

(** getDebugConfig, DebugClient.cc:98-119.  [clob] is what the Windows calls and the memory
    allocator leave in the last-error value; the buffer overwritten by the value is that of
    DebugFlag.config_of_env. *)
Definition getDebugConfig (env : env_var) (clob : Z) (s : tstate) : res unit (list Z * tstate) :=
  match t_config s with
  | Some c => Ok (c, s)
  | None =>
      preserving (fun s =>
        let s := set_le s clob in
        let! c := config_of_env env in
        Ok (c, mkT (t_le s) (t_disabled s) (t_enabled s) (Some c))) s
  end.

(** hasDebugFlag, DebugClient.cc:138-154 *)
Definition hasFlag (env : env_var) (clob : Z) (flag : list Z) (s : tstate) : res unit (bool * tstate) :=
  let! _ := assert_ (flag_ok flag) in
  let! (c, s) := getDebugConfig env clob s in
  match c with
  | [] => Ok (false, s)
  | _ => preserving (fun s => Ok (flag_in_config c flag, set_le s clob)) s
  end.

(** isTracingEnabled, DebugClient.cc:121-136 *)
Definition isTracingEnabled (env : env_var) (clob : Z) (s : tstate) : res unit (bool * tstate) :=
  if t_disabled s then Ok (false, s)
  else if t_enabled s then Ok (true, s)
  else preserving (fun s =>
    let! (a, s) := hasFlag env clob (str "trace") s in
    let! (v, s) := (if a then Ok (true, s) else hasFlag env clob (str "1") s) in
    Ok (v, mkT (t_le s) (negb v) v (t_config s))) s.

(** What trace asks Windows for: the two halves of GetSystemTimeAsFileTime, the path of the
    program ([None]: the call fails), whether a path that does not fit is left without a
    NUL (as Windows XP does), the process and thread numbers, and the answers to CreateFileW. *)
Inductive answer :=
| Opened
| Busy (wait : bool)        (* ERROR_PIPE_BUSY, and whether WaitNamedPipeW succeeds *)
| Refused.                  (* any other error, such as no such pipe *)
Record trace_os := mkTO {
  to_high : Z; to_low : Z; to_module : option (list Z); to_unterminated : bool;
  to_pid : Z; to_tid : Z; to_opens : list answer
}.

(** sendToDebugServer, DebugClient.cc:53-82: the retries, and whether the message goes out
    ([None]: still waiting for a free pipe).  TransactNamedPipe on an open pipe sends the
    whole message as one; the server's answer is not looked at. *)
Fixpoint open_loop (answers : list answer) : option bool :=
  match answers with
  | [] => None
  | Opened :: _ => Some true
  | Busy true :: rest => open_loop rest
  | Busy false :: _ => Some false
  | Refused :: _ => Some false
  end.

(** unixTimeMillis, DebugClient.cc:88-95; shifting a bit into the sign is undefined. *)
Definition unixTimeMillis (os : trace_os) : res unit Z :=
  if 2 ^ 31 <=? to_high os then UB
  else Ok (Z.quot (to_high os * 2 ^ 32 + to_low os) 10000 - 134774 * 24 * 3600 * 1000).

(** The C library's %0wd *)
Fixpoint digits (fuel : nat) (v : Z) (acc : list Z) : list Z :=
  match fuel with
  | O => acc
  | S k => if v <? 10 then (48 + v) :: acc else digits k (v / 10) ((48 + v mod 10) :: acc)
  end.
Definition zero_pad (w : Z) (s : list Z) : list Z := zrepeat 48 (w - zlen s) ++ s.
Definition print_d (w v : Z) : list Z :=
  if v <? 0 then 45 :: zero_pad (w - 1) (digits 20 (- v) []) else zero_pad w (digits 20 v []).

(** strrchr(moduleName, '\\') + 1, DebugClient.cc:175-176 *)
Fixpoint after_last (c : Z) (s : list Z) : option (list Z) :=
  match s with
  | [] => None
  | x :: s' => match after_last c s' with
               | Some r => Some r
               | None => if x =? c then Some s' else None
               end
  end.
Definition base_name (path : list Z) : list Z :=
  match after_last 92 path with Some r => r | None => path end.

(** GetModuleFileNameA with a buffer of 1024 bytes, DebugClient.cc:172-174.  Reading an
    unterminated buffer is undefined. *)
Definition module_name (os : trace_os) : res unit (list Z) :=
  match to_module os with
  | None => Ok []
  | Some path =>
      if zlen path <? 1024 then Ok path
      else if to_unterminated os then UB else Ok (zfirstn 1023 path)
  end.

(** winpty_snprintf into 1024 bytes leaves the first 1023 bytes of the text (Strings.v,
    C06); the model takes that text, which holds no NUL. *)
Definition snprintf_1024 (text : list Z) : list Z := zfirstn 1023 text.

(** trace, DebugClient.cc:156-188.  [text] is what the format and its arguments spell.
    The result: the message sent, nothing sent, or a thread still waiting. *)
Inductive traced := Silent | NoServer | Stuck | Sent (m : list Z).
Definition trace (env : env_var) (clob : Z) (os : trace_os) (text : list Z) (s : tstate) : res unit (traced * tstate) :=
  let! (on, s) := isTracingEnabled env clob s in
  if negb on then Ok (Silent, s)
  else preserving (fun s =>
    let s := set_le s clob in
    let message := snprintf_1024 text in
    let! now := unixTimeMillis os in
    let currentTime := Z.rem now (100000 * 1000) in
    let! moduleName := module_name os in
    let baseName := base_name moduleName in
    let fullMessage := snprintf_1024
      ([91] ++ print_d 5 (Z.quot currentTime 1000) ++ [46] ++ print_d 3 (Z.rem currentTime 1000) ++ [32] ++
       baseName ++ str ",p" ++ print_d 4 (s32 (to_pid os)) ++ str ",t" ++ print_d 4 (s32 (to_tid os)) ++
       str "]: " ++ message) in
    Ok (match open_loop (to_opens os) with
        | None => Stuck
        | Some true => Sent fullMessage
        | Some false => NoServer
        end, s)) s.

(** A process that calls trace again and again: what each call finds and is asked to say. *)
Record call := mkCall { k_env : env_var; k_clob : Z; k_os : trace_os; k_text : list Z }.
Fixpoint trace_all (cs : list call) (s : tstate) : res unit (list traced * tstate) :=
  match cs with
  | [] => Ok ([], s)
  | c :: cs' =>
      let! (r, s) := trace (k_env c) (k_clob c) (k_os c) (k_text c) s in
      let! (rs, s) := trace_all cs' s in
      Ok (r :: rs, s)
  end.

(** *** The server, DebugServer.cc:92-117

    Each round: ConnectNamedPipe fails, or a client connects and either goes away without a
    message or sends one.  A message longer than the buffer makes ReadFile fail
    (ERROR_MORE_DATA) after filling it. *)
Inductive client := ConnectFails | NoMessage | Message (m : list Z).
Inductive out := OPrint (bytes : list Z) | OComplain | OReply.
Inductive finish := Serving | Exited (status : Z).
Definition MSG_SIZE : Z := 4096.

(** ReadFile into [msgBuffer]: the new contents, and the number of bytes if it succeeds. *)
Definition readFile (buf m : list Z) : list Z * option Z :=
  let k := zfirstn MSG_SIZE m in
  (k ++ zskipn (zlen k) buf, if zlen m <=? MSG_SIZE then Some (zlen m) else None).
Fixpoint serve (cs : list client) (buf : list Z) : res unit (list out * finish) :=
  match cs with
  | [] => Ok ([], Serving)
  | ConnectFails :: _ => Ok ([OComplain], Exited 1)
  | NoMessage :: cs' => let! (o, f) := serve cs' buf in Ok (OComplain :: o, f)
  | Message m :: cs' =>
      let '(buf, n) := readFile buf m in
      match n with
      | None => let! (o, f) := serve cs' buf in Ok (OComplain :: o, f)
      | Some n =>
          match zupd buf n 10 with
          | None => UB
          | Some buf =>
              let! (o, f) := serve cs' buf in Ok (OPrint (zfirstn (n + 1) buf) :: OReply :: o, f)
          end
      end
  end.
Definition serve_all (cs : list client) : res unit (list out * finish) :=
  serve cs (zrepeat 0 (MSG_SIZE + 1)).
