(** C59: trace messages arrive whole and disturb nothing. *)
From Verif Require Import Base BaseLemmas Text DebugFlag DebugFlagSpec Trace TraceSpec TraceProofs.

(** Whatever the environment becomes later, the first call decides.  If tracing was not asked
    for nothing is sent; otherwise every message for which the server can be reached goes
    out once, under its heading, cut only at 1023 bytes.  The error code that the calling
    thread had stays. *)
Theorem C59_messages : forall c cs le, Forall (fun c => ordinary (k_os c)) (c :: cs) ->
  exists rs s, trace_all (c :: cs) (mkT le false false None) = Ok (rs, s) /\ t_le s = le /\
    Forall2 (fun x r => as_told (k_env c) (k_os x) (k_text x) r) (c :: cs) rs.
Proof. exact all_messages. Qed.
Print Assumptions C59_messages.

(** ... also where the clock, the path or the numbers are out of the ordinary. *)
Theorem C59_error_kept : forall env clob os text s r s',
  trace env clob os text s = Ok (r, s') -> t_le s' = t_le s.
Proof. exact trace_le. Qed.
Print Assumptions C59_error_kept.
Theorem C59_flag_error_kept : forall env clob flag s r s',
  hasFlag env clob flag s = Ok (r, s') -> t_le s' = t_le s.
Proof. exact flag_le. Qed.
Print Assumptions C59_flag_error_kept.

(** The server prints every message of up to 4096 bytes on a line of its own, in the order
    of arrival, answers it, complains about the others, stays inside its buffer, and stops
    only if it cannot wait for clients. *)
Theorem C59_server : forall cs,
  serve_all cs = Ok (flat_map shown (fst (until_failure cs)), snd (until_failure cs)).
Proof. exact serve_all_ok. Qed.
Print Assumptions C59_server.

(** Every message sent is short enough to be printed whole. *)
Theorem C59_sent_is_printed : forall env clob os text s m s',
  trace env clob os text s = Ok (Sent m, s') ->
  zlen m <= 1023 /\ shown (Message m) = [OPrint (m ++ [10]); OReply].
Proof. exact sent_printed. Qed.
Print Assumptions C59_sent_is_printed.

(** 2017-07-13 17:46:47 UTC, process 42, thread 70000; the server is busy at first. *)
Definition os1 : trace_os :=
  mkTO 30604288 0 (Some (str "C:\x\winpty-agent.exe")) false 42 70000 [Busy true; Opened].
Example C59_holds_somewhere :
  ordinary os1 /\ wants_trace (Some (str "trace,show_input")) /\
  exists s m, trace_all [mkCall (Some (str "trace,show_input")) 5 os1 (str "hello");
      mkCall None 5 os1 (str "more")] (mkT 2 false false None) = Ok (m, s) /\
    m = [Sent (str "[68007.736 winpty-agent.exe,p0042,t70000]: hello");
         Sent (str "[68007.736 winpty-agent.exe,p0042,t70000]: more")].
Proof.
  split; [|split].
  - repeat split; try (vm_compute; congruence). intros p E. injection E as <-. reflexivity.
  - left. vm_compute. left. reflexivity.
  - eexists. eexists. split; [vm_compute; reflexivity|]. reflexivity.
Qed.
