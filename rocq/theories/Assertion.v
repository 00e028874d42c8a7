(** Model of what a failed ASSERT does: src/shared/WinptyAssert.h:30-62 and
    WinptyAssert.cc:28-53, with Agent::~Agent (src/agent/Agent.cc:225-232), which ends the
    agent the same way. *)
From Verif Require Import Base Text Strings ShowInput.

(** What is done: a line given to trace(), a message posted to the console's window, a
    pause in milliseconds, a text the C library prints on the console. *)
Inductive aev := ATrace (t : list Z) | APost (msg : Z) | ASleep (ms : Z) | APrint | AClose (h : Z).
(** What becomes of the process *)
Inductive fate :=
| GoesOn
| Exited (code : Z)
| Aborted
| Closed                     (* ended by the system because of WM_CLOSE *)
| Hangs.                     (* waits for a frozen console *)

(** The surroundings: GetConsoleWindow() gives a window; the system ends the process within
    the pause after WM_CLOSE; the console is frozen by a selection; the library is built
    with NDEBUG. *)
Record assert_os := mkAO { ao_window : bool; ao_closes : bool; ao_frozen : bool; ao_ndebug : bool }.

Definition WM_CLOSE : Z := 16.

(** assertTrace, WinptyAssert.cc:28-31; %d as the decimal of the 4-byte int *)
Definition assertText (file : list Z) (line : Z) (cond : list Z) : res unit (list Z) :=
  let! d := put_dec 4 line in
  Ok (str "Assertion failed: " ++ cond ++ str ", file " ++ file ++ str ", line " ++ d).

(** agentShutdown, WinptyAssert.cc:35-48.  If the system ends the process it does so within
    the pause, so nothing follows it. *)
Definition agentShutdown (os : assert_os) : list aev * fate :=
  if ao_window os then
    if ao_closes os then ([APost WM_CLOSE; ASleep 30000], Closed)
    else ([APost WM_CLOSE; ASleep 30000; ATrace (str "Agent shutdown: WM_CLOSE did not end agent process")], Exited 1)
  else ([ATrace (str "Agent shutdown: GetConsoleWindow() is NULL")], Exited 1).

(** ASSERT in the agent, WinptyAssert.h:33-40, and agentAssertFail, WinptyAssert.cc:50-53 *)
Definition agentAssert (os : assert_os) (cond : bool) (file : list Z) (line : Z) (text : list Z) : res unit (list aev * fate) :=
  if negb cond then
    let! t := assertText file line text in
    let '(l, f) := agentShutdown os in
    Ok (ATrace t :: l, f)
  else Ok ([], GoesOn).

(** The C library's abort(): prints a message first, which waits while the console is
    frozen (the reason given in WinptyAssert.cc:44-46).  The failing assert() does the same. *)
Definition abort (os : assert_os) : list aev * fate := ([APrint], if ao_frozen os then Hangs else Aborted).

(** ASSERT elsewhere, WinptyAssert.h:50-60: assert() is empty with NDEBUG, abort() is not *)
Definition libAssert (os : assert_os) (cond : bool) (file : list Z) (line : Z) (text : list Z) : res unit (list aev * fate) :=
  if negb cond then
    let! t := assertText file line text in
    let '(l1, f1) := if ao_ndebug os then ([], GoesOn) else abort os in
    match f1 with
    | GoesOn => let '(l2, f2) := abort os in Ok (ATrace t :: l1 ++ l2, f2)
    | _ => Ok (ATrace t :: l1, f1)
    end
  else Ok ([], GoesOn).

(** Agent::~Agent, Agent.cc:225-232; [child]: m_childProcess, None for NULL *)
Definition agentEnd (os : assert_os) (child : option Z) : list aev * fate :=
  let '(l, f) := agentShutdown os in
  match f with
  | GoesOn => (ATrace (str "Agent::~Agent entered") :: l ++ match child with Some h => [AClose h] | None => [] end, GoesOn)
  | _ => (ATrace (str "Agent::~Agent entered") :: l, f)
  end.
