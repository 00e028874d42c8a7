(** Property C70. *)
From Verif Require Import Base BaseLemmas Text Strings StringsSpec Assertion AssertionSpec AssertionProofs.

(** C70: a check that holds does nothing. *)
Theorem C70_passed : forall os file line cond, agentAssert os true file line cond = Ok ([], GoesOn) /\ libAssert os true file line cond = Ok ([], GoesOn).
Proof. intros. split; reflexivity. Qed.
Print Assumptions C70_passed.

(** C70: a check that fails in the agent is first reported, then the agent ends, whatever
    the state of its console, on which it prints nothing. *)
Theorem C70_agent : forall os file line cond, 0 <= line < 2 ^ 31 ->
  exists t l f, agentAssert os false file line cond = Ok (ATrace t :: l, f) /\ tells_failure file line cond t /\ shut_down os l f.
Proof. exact agent_ok. Qed.
Print Assumptions C70_agent.

(** C70: a check that fails elsewhere is first reported, then the process never goes on, in
    release builds as well. *)
Theorem C70_library : forall os file line cond, 0 <= line < 2 ^ 31 ->
  exists t l f, libAssert os false file line cond = Ok (ATrace t :: l, f) /\ tells_failure file line cond t /\ f <> GoesOn /\
    (ao_frozen os = false -> ended f).
Proof. exact lib_ok. Qed.
Print Assumptions C70_library.

(** C70: the agent's normal end is the same. *)
Theorem C70_end : forall os child, exists t l f, agentEnd os child = (ATrace t :: l, f) /\ shut_down os l f.
Proof. intros os child. destruct (end_ok os child) as (l & f & E & S). exists (str "Agent::~Agent entered"), l, f. split; assumption. Qed.
Print Assumptions C70_end.

(** A console without a window, a failing check in line 42; a frozen console *)
Example C70_holds_somewhere :
  agentAssert (mkAO false false true true) false (str "Agent.cc") 42 (str "false") =
    Ok ([ATrace (str "Assertion failed: false, file Agent.cc, line 42"); ATrace (str "Agent shutdown: GetConsoleWindow() is NULL")], Exited 1) /\
  snd (agentEnd (mkAO true true true true) (Some 5)) = Closed.
Proof. vm_compute. split; reflexivity. Qed.
