(** C54 to C57: what a user expects of the adapter's main program, independently
    of how main.cc is written. *)
From Verif Require Import Base Text AdapterMain.

(** ** PATH *)

(** The directories of a PATH: its parts between colons (an empty part is the
    current directory). *)
Fixpoint path_dirs (l : list Z) : list (list Z) :=
  match l with
  | [] => [[]]
  | c :: t =>
      if c =? 58 then [] :: path_dirs t
      else match path_dirs t with d :: ds => (c :: d) :: ds | [] => [[c]] end
  end.

(** The name of [prog] in a directory. *)
Definition in_dir (d prog : list Z) : list Z :=
  match d with
  | [] => prog
  | _ => if last d 0 =? 47 then d ++ prog else d ++ [47] ++ prog
  end.

(** [p] ends in [ext], in whatever case. *)
Definition has_ext (fs : files) (ext p : list Z) : Prop :=
  exists base e, p = base ++ e /\ map (lower fs) e = ext.
Definition batch (fs : files) (p : list Z) : Prop := has_ext fs (str ".bat") p \/ has_ext fs (str ".cmd") p.
Definition binary (fs : files) (p : list Z) : Prop := has_ext fs (str ".com") p \/ has_ext fs (str ".exe") p.

(** [file] is what running [prog] from directory [d] means: a batch file or a
    program as named, and otherwise the .exe of that name (never a script). *)
Definition usable (fs : files) (msys : bool) (d prog file : list Z) : Prop :=
  exists p, realpath fs (in_dir d prog) = Some p /\ p <> [] /\
    ((batch fs p /\ file = p /\ (if msys then can_read fs p else can_run fs p) = true) \/
     (~ batch fs p /\ binary fs p /\ file = p /\ can_run fs p = true) \/
     (~ batch fs p /\ ~ binary fs p /\ file = p ++ str ".exe" /\ can_run fs file = true)).

(** The Windows name of a file, with backslashes. *)
Definition backslashed (p q : list Z) : Prop :=
  Forall2 (fun a b => (a = 47 /\ b = 92) \/ (a <> 47 /\ b = a)) p q.
Definition windows_name (fs : files) (file : list Z) (q : option (list Z)) : Prop :=
  match win_path fs file, q with
  | Some p, Some q => backslashed p q
  | None, None => True
  | _, _ => False
  end.

Definition path_given (path : option (list Z)) : list Z := match path with Some p => p | None => [] end.
Definition plain_name (prog : list Z) : Prop := ~ In 47 prog /\ ~ In 92 prog.

(** ** Terminals *)

(** Descriptor [fd] is connected to terminal [t]. *)
Definition on (T : ttys) (fd t : Z) : bool :=
  match tty_of T fd with Some u => u =? t | None => false end.

(** The terminals the adapter looks after: those of standard input, and of
    standard output and error if asked for. *)
Definition uses_out (T : ttys) (out err : bool) (t : Z) : bool := (out && on T 1 t) || (err && on T 2 t).
Definition uses (T : ttys) (out err : bool) (t : Z) : bool := on T 0 t || uses_out T out err t.

(** Flag [f], cleared where one of [l] is set. *)
Definition without (l : list Z) (f k : Z) : bool := Z.testbit f k && negb (existsb (fun b => Z.testbit b k) l).

(** What raw mode makes of a terminal's mode [m] ([inp]: it is the input terminal;
    [outp]: an output terminal). *)
Definition is_raw (B : bits) (inp outp : bool) (m r : termios) : Prop :=
  (forall k, 0 <= k ->
    Z.testbit (c_lflag r) k =
      (if inp then without [ECHO B; ICANON B; IEXTEN B; ISIG B] (c_lflag m) k else Z.testbit (c_lflag m) k) /\
    Z.testbit (c_iflag r) k =
      (if inp then without [BRKINT B; ICRNL B; INPCK B; ISTRIP B; IXON B] (c_iflag m) k
       else Z.testbit (c_iflag m) k) /\
    Z.testbit (c_oflag r) k = (if outp then without [OPOST B] (c_oflag m) k else Z.testbit (c_oflag m) k) /\
    Z.testbit (c_cflag r) k =
      (if inp || outp then without [CSIZE B; PARENB B] (c_cflag m) k || Z.testbit (CS8 B) k
       else Z.testbit (c_cflag m) k)) /\
  vmin r = (if inp then 1 else vmin m) /\ vtime r = (if inp then 0 else vtime m) /\ others r = others m.

(** No tcgetattr or tcsetattr call on a terminal fails. *)
Definition terminals_work (T : ttys) : Prop := forall n, fails T n = false.
Definition same_modes (w w' : world) : Prop := forall t, modes w' t = modes w t.

(** ** Events of a run *)

Definition started (w : world) : Prop := exists line, In (ASpawned line) (acts w).

(** The sizes the agent is told after [s]: each report that differs from the one
    before. *)
Definition same_size (a b : winsize) : bool :=
  (ws_col a =? ws_col b) && (ws_row a =? ws_row b) && (ws_xpixel a =? ws_xpixel b) && (ws_ypixel a =? ws_ypixel b).
Fixpoint told (s : winsize) (reports : list winsize) : list act :=
  match reports with
  | [] => []
  | r :: rest => (if same_size s r then [] else [ASetSize (ws_col r) (ws_row r)]) ++ told r rest
  end.
Definition positive (s : winsize) : Prop := 0 < ws_col s /\ 0 < ws_row s.

(** The size a session starts with: the terminal's, or 80 columns and 25 rows. *)
Definition start_size (o : outside) : winsize :=
  match o_size o with
  | Some s => s
  | None => {| ws_col := 80; ws_row := 25; ws_xpixel := 0; ws_ypixel := 0 |}
  end.

(** A session whose last wake-up finds an I/O thread finished, with the sizes the
    terminal reported. *)
Definition ends_with (wakes : list (option winsize * bool)) (reports : list winsize) : Prop :=
  exists before last after,
    wakes = map (fun s => (Some s, false)) before ++ (Some last, true) :: after /\ reports = before ++ [last].

(** What makes the adapter abort: the debug variables or the command line are not
    text in the locale; a terminal of no rows or columns; a pipe that cannot be
    opened; a path without a Windows name. *)
Definition crash_cause (o : outside) (f : CmdLine.Flags) (cmd : list (list Z)) : Prop :=
  o_env o = false \/ (exists s, o_size o = Some s /\ ~ positive s) \/
  o_pipe o 0 = false \/ o_pipe o 1 = false \/ (CmdLine.testConerr f = true /\ o_pipe o 2 = false) \/
  (exists file, win_path (o_files o) file = None) \/ (exists line, o_wide o line = None) \/
  (exists s b, In (Some s, b) (o_wakes o) /\ ~ positive s).

(** The program to run, as the agent is told. *)
Definition command_line (o : outside) (cmd : list (list Z)) (lineW : list Z) : Prop :=
  exists prog args p line, cmd = prog :: args /\
    @findProgram unit (o_files o) (o_msys o) (o_path o) prog = Ok (Some p) /\
    @CmdLine.argvToCommandLine unit (p :: args) = Ok line /\ o_wide o line = Some lineW.
