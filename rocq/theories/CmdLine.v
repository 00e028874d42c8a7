(** Model of the unix adapter's command-line handling: argvToCommandLine and
    parseArguments in src/unix-adapter/main.cc. *)
From Verif Require Import Base Text.

Definition BS : Z := 92.   (* backslash *)
Definition QT : Z := 34.   (* double quote *)
Definition SP : Z := 32.
Definition TAB : Z := 9.

Definition INT_MAX : Z := 2147483647.
(** int arithmetic: overflow is undefined *)
Definition ck_int {E} (x : Z) : res E Z := if x <=? INT_MAX then Ok x else UB.

(** The loop over one argument's characters, main.cc:337-349: appends to [result]. *)
Fixpoint arg_loop {E} (p : list Z) (bsCount : Z) (result : list Z) : res E (list Z * Z) :=
  match p with
  | [] => Ok (result, bsCount)
  | c :: t =>
      if c =? BS then let! b := ck_int (bsCount + 1) in arg_loop t b result
      else if c =? QT then
        let! n := ck_int (bsCount * 2 + 1) in
        arg_loop t 0 (result ++ zrepeat BS n ++ [QT])
      else arg_loop t 0 (result ++ zrepeat BS bsCount ++ [c])
  end.

(** One argument, main.cc:329-355.  [arg] has no NUL (it is a C string). *)
Definition quote_needed (arg : list Z) : bool :=
  existsb (Z.eqb SP) arg || existsb (Z.eqb TAB) arg || (zlen arg =? 0).
Definition one_arg {E} (arg result : list Z) : res E (list Z) :=
  let quote := quote_needed arg in
  let result := if quote then result ++ [QT] else result in
  let! (result, bsCount) := arg_loop arg 0 result in
  if quote then
    let! n := ck_int (bsCount * 2) in
    Ok (result ++ zrepeat BS n ++ [QT])
  else Ok (result ++ zrepeat BS bsCount).

(** argvToCommandLine, main.cc:323-358 *)
Fixpoint argv_loop {E} (first : bool) (argv : list (list Z)) (result : list Z) : res E (list Z) :=
  match argv with
  | [] => Ok result
  | a :: t =>
      let result := if first then result else result ++ [SP] in
      let! result := one_arg a result in
      argv_loop false t result
  end.
Definition argvToCommandLine {E} (argv : list (list Z)) : res E (list Z) := argv_loop true argv [].

(** ** parseArguments, main.cc:480-532 *)

(** struct Arguments, main.cc:471-478, without childArgv *)
Record Flags := mkFlags
  { mouseInput : bool; testAllowNonTtys : bool; testConerr : bool; testPlainOutput : bool;
    testColorEscapes : bool; doShowKeys : bool }.
Definition noFlags : Flags := mkFlags false false false false false false.

(** How parseArguments ends: it returns, or the process exits. *)
Inductive parsed :=
| Run (f : Flags) (childArgv : list (list Z))
| ShowHelp                 (* usage(program, 0) *)
| ShowVersion              (* dumpVersionToStdout, exit(0) *)
| Unrecognized (arg : list Z)   (* message on stderr, exit(1) *)
| ShowKeys (allowNonTtys : bool) (* debugShowKey, exit(0) *)
| UsageError.              (* usage(program, 1) *)

(** After the loop, main.cc:522-531 *)
Definition finish (f : Flags) (childArgv : list (list Z)) : parsed :=
  if doShowKeys f then ShowKeys (testAllowNonTtys f)
  else if zlen childArgv =? 0 then UsageError
  else Run f childArgv.

Definition starts_dash (a : list Z) : bool := match a with c :: _ => c =? 45 | [] => false end.

(** The while loop, main.cc:490-521, over argv[1..]. *)
Fixpoint parse_loop (f : Flags) (args : list (list Z)) : parsed :=
  match args with
  | [] => finish f []
  | arg :: t =>
      if starts_dash arg then
        if list_eqb arg (str "-h") || list_eqb arg (str "--help") then ShowHelp
        else if list_eqb arg (str "--mouse") then
          parse_loop (mkFlags true (testAllowNonTtys f) (testConerr f) (testPlainOutput f) (testColorEscapes f) (doShowKeys f)) t
        else if list_eqb arg (str "--showkey") then
          parse_loop (mkFlags (mouseInput f) (testAllowNonTtys f) (testConerr f) (testPlainOutput f) (testColorEscapes f) true) t
        else if list_eqb arg (str "--version") then ShowVersion
        else if list_eqb arg (str "-Xallow-non-tty") then
          parse_loop (mkFlags (mouseInput f) true (testConerr f) (testPlainOutput f) (testColorEscapes f) (doShowKeys f)) t
        else if list_eqb arg (str "-Xconerr") then
          parse_loop (mkFlags (mouseInput f) (testAllowNonTtys f) true (testPlainOutput f) (testColorEscapes f) (doShowKeys f)) t
        else if list_eqb arg (str "-Xplain") then
          parse_loop (mkFlags (mouseInput f) (testAllowNonTtys f) (testConerr f) true (testColorEscapes f) (doShowKeys f)) t
        else if list_eqb arg (str "-Xcolor") then
          parse_loop (mkFlags (mouseInput f) (testAllowNonTtys f) (testConerr f) (testPlainOutput f) true (doShowKeys f)) t
        else if list_eqb arg (str "--") then finish f t
        else Unrecognized arg
      else finish f (arg :: t)
  end.
Definition parseArguments (args : list (list Z)) : parsed := parse_loop noFlags args.

(** main, main.cc:597-600: the winpty agent flags derived from the options.
    ALLOW_CURPROC_DESKTOP_CREATION 8, CONERR 1, PLAIN_OUTPUT 2, COLOR_ESCAPES 4. *)
Definition agentFlags (f : Flags) : Z :=
  Z.lor (Z.lor (Z.lor 8 (if testConerr f then 1 else 0)) (if testPlainOutput f then 2 else 0))
        (if testColorEscapes f then 4 else 0).
