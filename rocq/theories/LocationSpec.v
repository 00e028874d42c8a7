(** Where the agent program must be and how it must be started. *)
From Verif Require Import Base Text StringsSpec DebugFlag DebugFlagSpec Location.

(** The directory of a file: what comes before the last separator, \ or /. *)
Definition no_separator (s : list Z) : Prop := ~ In 92 s /\ ~ In 47 s.
Definition directory_of (path dir : list Z) : Prop :=
  (exists sep name, path = dir ++ [sep] ++ name /\ (sep = 92 \/ sep = 47) /\ no_separator name) \/
  (dir = [] /\ no_separator path).

(** The library is the file [path]; a path has no NUL in it. *)
Definition library_at (os : loc_os) (path : list Z) : Prop :=
  lo_handle os = true /\ lo_path os = Some path /\ path <> [] /\ ~ In 0 path.
Definition file_exists (os : loc_os) (p : list Z) : Prop := lo_attrs os p <> 2 ^ 32 - 1.

(** The agent's window is hidden unless WINPTY_SHOW_CONSOLE is set to something, or the
    flags force_sw_hide and no_sw_hide of WINPTY_DEBUG say otherwise (without
    contradicting each other). *)
Definition hidden (show dbg : env_var) : Prop :=
  let f := In (str "force_sw_hide") (flags_of dbg) in
  let n := In (str "no_sw_hide") (flags_of dbg) in
  (f /\ ~ n) \/ (((f /\ n) \/ (~ f /\ ~ n)) /\ (show = None \/ show = Some [])).

(** How a process must be created: this program, with these words after it, on this
    desktop (the own one if empty), with no handle inherited, with a new console of its
    own (CREATE_NEW_CONSOLE) or none (DETACHED_PROCESS). *)
Definition new_console : Z := 0x10.
Definition no_console : Z := 0x8.
Definition proper (c : create) (agent words desktop : list Z) (console : Z) (show dbg : env_var) : Prop :=
  cp_app c = agent /\
  cp_cmdline c = str """" ++ agent ++ str """ " ++ words /\
  (desktop = [] -> cp_desktop c = None) /\ (desktop <> [] -> cp_desktop c = Some desktop) /\
  cp_inherit c = false /\ cp_flags c = console /\ (cp_hide c = true <-> hidden show dbg).

(** What is reported: the process, or why there is none. *)
Definition reported (c : create) (answer : created) (r : res wexc Z) : Prop :=
  match answer with
  | inl pid => r = Ok pid
  | inr e => exists h, canonical 16 h e /\
      r = Throw (8, str "winpty-agent CreateProcess failed: cmdline='" ++ cp_cmdline c ++ str "' err=0x" ++ h)
  end.
Definition is_missing (agent : list Z) (r : option create * res wexc Z) : Prop :=
  r = (None, Throw (4, str "agent executable does not exist: '" ++ agent ++ str "'")).
