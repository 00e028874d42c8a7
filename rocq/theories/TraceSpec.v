(** What a trace line looks like and what the debug server prints. *)
From Verif Require Import Base Text StringsSpec DebugFlag DebugFlagSpec Trace.

(** A number printed with at least [w] digits: no more zeros in front than needed. *)
Definition padded (w : Z) (s : list Z) (v : Z) : Prop :=
  numeral 10 s v /\ w <= zlen s /\ (zlen s = w \/ hd 0 s <> 48).

(** The milliseconds since 1970 of a clock reading in units of 100 ns since 1601 *)
Definition unix_ms (os : trace_os) : Z :=
  (to_high os * 2 ^ 32 + to_low os) / 10000 - 11644473600000.
(** A clock after 1970, numbers of processes and threads below 2^31, a path that fits. *)
Definition ordinary (os : trace_os) : Prop :=
  0 <= to_low os < 2 ^ 32 /\ to_high os < 2 ^ 31 /\ 0 <= unix_ms os /\
  0 <= to_pid os < 2 ^ 31 /\ 0 <= to_tid os < 2 ^ 31 /\
  (forall p, to_module os = Some p -> zlen p < 1024).

(** The file name in a path: what follows the last backslash. *)
Definition file_name (path name : list Z) : Prop :=
  ~ In 92 name /\ (path = name \/ exists dir, path = dir ++ [92] ++ name).

(** "[seconds.milliseconds program,pPROCESS,tTHREAD]: ", the seconds modulo 100000 *)
Definition heading (os : trace_os) (h : list Z) : Prop :=
  exists sec ms name p t,
    padded 5 sec (unix_ms os / 1000 mod 100000) /\ zlen sec = 5 /\
    padded 3 ms (unix_ms os mod 1000) /\ zlen ms = 3 /\
    file_name (match to_module os with Some x => x | None => [] end) name /\
    padded 4 p (to_pid os) /\ padded 4 t (to_tid os) /\
    h = str "[" ++ sec ++ str "." ++ ms ++ str " " ++ name ++ str ",p" ++ p ++ str ",t" ++ t ++ str "]: ".

(** Tracing is asked for: WINPTY_DEBUG has the item "trace" or "1". *)
Definition wants_trace (env : env_var) : Prop :=
  In (str "trace") (flags_of env) \/ In (str "1") (flags_of env).

(** The server is reached: after any number of successful waits the pipe opens. *)
Fixpoint reached (answers : list answer) : Prop :=
  match answers with
  | Opened :: _ => True
  | Busy true :: rest => reached rest
  | _ => False
  end.

(** What becomes of one call of trace in a process whose first call found [env0]. *)
Definition as_told (env0 : env_var) (os : trace_os) (text : list Z) (r : traced) : Prop :=
  (~ wants_trace env0 /\ r = Silent) \/
  (wants_trace env0 /\ reached (to_opens os) /\ exists h, heading os h /\ r = Sent (zfirstn 1023 (h ++ text))) \/
  (wants_trace env0 /\ ~ reached (to_opens os) /\ (r = NoServer \/ r = Stuck)).

(** What the server does for its clients, one after the other. *)
Definition shown (c : client) : list out :=
  match c with
  | ConnectFails => [OComplain]
  | NoMessage => [OComplain]
  | Message m => if zlen m <=? 4096 then [OPrint (m ++ [10]); OReply] else [OComplain]
  end.
Fixpoint until_failure (cs : list client) : list client * finish :=
  match cs with
  | [] => ([], Serving)
  | ConnectFails :: _ => ([ConnectFails], Exited 1)
  | c :: cs' => let '(l, f) := until_failure cs' in (c :: l, f)
  end.
