(** C60: the agent is the program beside the library, run with a hidden console of its own. *)
From Verif Require Import Base BaseLemmas Text Strings StringsSpec DebugFlag DebugFlagSpec CmdLineSpec Rpc Open Location LocationSpec LocationProofs.

(** winpty_open's agent: the file winpty-agent.exe in the directory of the library, with a
    new console, hidden unless asked otherwise, no handle of the caller inherited, on the
    desktop chosen; if there is no such file nothing is started and the error names it. *)
Theorem C60_agent : forall os junk path dir show dbg desktop pipe params answer,
  library_at os path -> zlen path < 4096 -> directory_of path dir -> (forall c e, answer c = inr e -> 0 <= e < 2 ^ 32) ->
  let agent := dir ++ str "\winpty-agent.exe" in
  (file_exists os agent ->
     exists c r, startAgent os junk show dbg desktop pipe params answer = (Some c, r) /\
       proper c agent (pipe ++ str " " ++ params) desktop new_console show dbg /\ reported c (answer c) r) /\
  (~ file_exists os agent -> is_missing agent (startAgent os junk show dbg desktop pipe params answer)).
Proof. intros. now apply (start_ok _ _ path). Qed.
Print Assumptions C60_agent.

(** The same for the helper that makes a background desktop; it gets no console. *)
Theorem C60_helper : forall os junk path dir show dbg pipe answer,
  library_at os path -> zlen path < 4096 -> directory_of path dir -> (forall c e, answer c = inr e -> 0 <= e < 2 ^ 32) ->
  let agent := dir ++ str "\winpty-agent.exe" in
  (file_exists os agent ->
     exists c r, startHelper os junk show dbg pipe answer = (Some c, r) /\
       proper c agent (pipe ++ str " --create-desktop") [] no_console show dbg /\ reported c (answer c) r) /\
  (~ file_exists os agent -> is_missing agent (startHelper os junk show dbg pipe answer)).
Proof. intros. now apply (start_ok _ _ path dir show dbg [] pipe (str "--create-desktop")). Qed.
Print Assumptions C60_helper.

(** Whatever the system answers: a process is created only from that directory, and a path
    too long for the buffer stops the program rather than being cut. *)
Theorem C60_never_elsewhere : forall os junk path show dbg desktop pipe params flags answer c r,
  lo_path os = Some path -> ~ In 0 path ->
  Location.startAgentProcess os junk show dbg desktop pipe params flags answer = (Some c, r) ->
  zlen path < 4096 /\ cp_inherit c = false /\
  exists dir, directory_of path dir /\ cp_app c = dir ++ str "\winpty-agent.exe" /\ file_exists os (cp_app c).
Proof. exact nothing_else. Qed.
Print Assumptions C60_never_elsewhere.
Theorem C60_path_not_cut : forall os junk path show dbg desktop pipe params flags answer,
  library_at os path -> 4096 <= zlen path ->
  Location.startAgentProcess os junk show dbg desktop pipe params flags answer = (None, AssertFail).
Proof. exact long_path. Qed.
Print Assumptions C60_path_not_cut.

(** Every path has exactly one directory. *)
Theorem C60_one_directory : forall path, exists dir, directory_of path dir /\ forall d, directory_of path d -> d = dir.
Proof.
  intros path. destruct (has_directory path) as (dir & D). exists dir. split; [exact D|]. intros d D'.
  rewrite <- (dirname_ok path d D'). exact (dirname_ok path dir D).
Qed.
Print Assumptions C60_one_directory.

(** The agent reads its own path as its first argument, whatever blanks are in it. *)
Theorem C60_first_argument : forall m c agent words desktop console show dbg, ~ In 34 agent ->
  proper c agent words desktop console show dbg ->
  windows_argv m (cp_cmdline c) = agent :: split m words false 0 None.
Proof. exact own_path. Qed.
Print Assumptions C60_first_argument.

(** winpty_open's other theorems (C34, C35, C48, C50, C53) take the outcome of this step as
    an input; it is the outcome found here. *)
Theorem C60_as_in_open : forall w so os junk path dir show dbg desktop pipe params flags answer,
  library_at os path -> zlen path < 4096 -> directory_of path dir -> (forall c e, answer c = inr e -> 0 <= e < 2 ^ 32) ->
  let agent := dir ++ str "\winpty-agent.exe" in
  (so_exe so = true <-> file_exists os agent) ->
  (forall c, so_pid so = match answer c with inl pid => Some pid | inr _ => None end) ->
  let (l, o) := Open.startAgentProcess w so agent desktop pipe params in
  let (c, r) := Location.startAgentProcess os junk show dbg desktop pipe params flags answer in
  match o, r with
  | Ok pid, Ok pid' => pid = pid'
  | Throw (XLib k), Throw (k', _) => k = k'
  | _, _ => False
  end /\
  (forall cmd d, In (EvStart w cmd d) l -> exists c', c = Some c' /\ cp_cmdline c' = cmd /\ d = desktop).
Proof. exact as_open. Qed.
Print Assumptions C60_as_in_open.

(** A library in a directory with blanks; the agent is there. *)
Definition os60 : loc_os :=
  mkLO true (Some (str "C:\Program Files/my app\winpty.dll"))
    (fun p => if list_eqb p (str "C:\Program Files/my app\winpty-agent.exe") then 32 else 2 ^ 32 - 1).
Example C60_holds_somewhere :
  library_at os60 (str "C:\Program Files/my app\winpty.dll") /\
  directory_of (str "C:\Program Files/my app\winpty.dll") (str "C:\Program Files/my app") /\
  file_exists os60 (str "C:\Program Files/my app\winpty-agent.exe") /\
  startAgent os60 (zrepeat 0 100) None (Some (str "trace")) (str "WinSta1\Default") (str "\\.\pipe\p") (str "0 1 80 25") (fun _ => inr 255) =
    (Some (mkCP (str "C:\Program Files/my app\winpty-agent.exe")
                (str """C:\Program Files/my app\winpty-agent.exe"" \\.\pipe\p 0 1 80 25")
                (Some (str "WinSta1\Default")) false 16 true),
     Throw (8, str "winpty-agent CreateProcess failed: cmdline='""C:\Program Files/my app\winpty-agent.exe"" \\.\pipe\p 0 1 80 25' err=0xff")).
Proof.
  split; [|split; [|split]].
  - repeat split; [discriminate|]. vm_compute. intuition discriminate.
  - left. exists 92, (str "winpty.dll"). repeat split; [now left|vm_compute; intuition discriminate|vm_compute; intuition discriminate].
  - unfold file_exists. vm_compute. discriminate.
  - vm_compute. reflexivity.
Qed.
