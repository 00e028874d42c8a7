(** C30 command-line quoting, C46 adapter option parsing. *)
From Verif Require Import Base BaseLemmas Text CmdLine CmdLineSpec CmdLineProofs.

(** Every Windows reader, whichever doubled-quote rule it follows, gets back the
    argument vector.  (The length bound is the int counter of backslashes.) *)
Theorem C30_roundtrip : forall m prog argv,
  program_ok prog -> Forall (fun a => zlen a < 2 ^ 30) (prog :: argv) ->
  exists line, @argvToCommandLine unit (prog :: argv) = Ok line /\ windows_argv m line = prog :: argv.
Proof. exact roundtrip. Qed.
Print Assumptions C30_roundtrip.

Example C30_case :
  let prog := str "C:\Program Files\a.exe" in
  let argv := [[]; str "a b\"; str "\\x"; [92;92;34;34;92]; [32;92;34;92]; [34]] in
  program_ok prog /\ Forall (fun a => zlen a < 2 ^ 30) (prog :: argv) /\
  match @argvToCommandLine unit (prog :: argv) with
  | Ok line => windows_argv StayInQuotes line = prog :: argv /\
               windows_argv Plain line = prog :: argv /\ windows_argv LeaveQuotes line = prog :: argv
  | _ => False end.
Proof.
  cbv zeta. split; [|split].
  - split; [|intros _; vm_compute; discriminate]. vm_compute. intros H. repeat destruct H as [H|H]; try discriminate; contradiction.
  - repeat constructor.
  - vm_compute. repeat split.
Qed.

(** A quoted program path ending in a backslash would not survive (the program
    name follows other rules), which is why [program_ok] excludes it. *)
Example C30_program_exception :
  match @argvToCommandLine unit [str "a b\"] with Ok line => windows_argv Plain line <> [str "a b\"] | _ => False end.
Proof. vm_compute. discriminate. Qed.

Definition exactly (f : Flags) (opts : list (list Z)) : Prop :=
  mouseInput f = given (str "--mouse") opts /\ testAllowNonTtys f = given (str "-Xallow-non-tty") opts /\
  testConerr f = given (str "-Xconerr") opts /\ testPlainOutput f = given (str "-Xplain") opts /\
  testColorEscapes f = given (str "-Xcolor") opts.

(** The child's command is everything after "--", or from the first non-option on. *)
Theorem C46_command : forall opts cmd,
  Forall (fun o => In o flag_options) opts -> given (str "--showkey") opts = false -> cmd <> [] ->
  (exists f, parseArguments (opts ++ str "--" :: cmd) = Run f cmd /\ exactly f opts) /\
  (starts_dash (hd [] cmd) = false -> exists f, parseArguments (opts ++ cmd) = Run f cmd /\ exactly f opts).
Proof.
  intros opts cmd F Hs Hc. assert (Hfin : finish (set_flags noFlags opts) cmd = Run (set_flags noFlags opts) cmd).
  { unfold finish. cbn [set_flags noFlags doShowKeys orb]. rewrite Hs.
    destruct cmd as [|a cmd]; [congruence|]. replace (zlen (a :: cmd) =? 0) with false; [reflexivity|].
    rewrite zlen_cons. pose proof (zlen_nonneg cmd). lia. }
  split.
  - exists (set_flags noFlags opts). rewrite parse_dashdash by exact F. split; [exact Hfin|repeat split].
  - intros Hd. destruct cmd as [|a cmd]; [congruence|]. exists (set_flags noFlags opts).
    rewrite parse_program by assumption. split; [exact Hfin|repeat split].
Qed.
Print Assumptions C46_command.

Theorem C46_no_command : forall opts, Forall (fun o => In o flag_options) opts -> given (str "--showkey") opts = false ->
  parseArguments opts = UsageError /\ parseArguments (opts ++ [str "--"]) = UsageError.
Proof.
  intros opts F Hs. rewrite parse_none, parse_dashdash by exact F. unfold finish.
  cbn [set_flags noFlags doShowKeys orb]. rewrite Hs. auto.
Qed.
Print Assumptions C46_no_command.

Theorem C46_unknown_rejected : forall opts x t, Forall (fun o => In o flag_options) opts ->
  starts_dash x = true -> ~ In x flag_options -> ~ In x special ->
  parseArguments (opts ++ x :: t) = Unrecognized x.
Proof. exact parse_unknown. Qed.
Print Assumptions C46_unknown_rejected.

Theorem C46_information : forall opts t, Forall (fun o => In o flag_options) opts ->
  parseArguments (opts ++ str "-h" :: t) = ShowHelp /\ parseArguments (opts ++ str "--help" :: t) = ShowHelp /\
  parseArguments (opts ++ str "--version" :: t) = ShowVersion /\
  (given (str "--showkey") opts = true ->
     parseArguments (opts ++ str "--" :: t) = ShowKeys (given (str "-Xallow-non-tty") opts)).
Proof.
  intros opts t F. rewrite !parse_help, parse_version, parse_dashdash by auto.
  repeat split. intros Hs. unfold finish. cbn [set_flags noFlags doShowKeys orb testAllowNonTtys]. now rewrite Hs.
Qed.
Print Assumptions C46_information.

(** "--showkey" wins over running a command, with or without one. *)
Theorem C46_showkey : forall opts cmd, Forall (fun o => In o flag_options) opts -> given (str "--showkey") opts = true ->
  parseArguments opts = ShowKeys (given (str "-Xallow-non-tty") opts) /\
  (starts_dash (hd [] cmd) = false -> parseArguments (opts ++ cmd) = ShowKeys (given (str "-Xallow-non-tty") opts)).
Proof.
  intros opts cmd F Hs.
  assert (Hfin : forall c, finish (set_flags noFlags opts) c = ShowKeys (given (str "-Xallow-non-tty") opts)).
  { intros c. unfold finish. cbn [set_flags noFlags doShowKeys orb testAllowNonTtys]. now rewrite Hs. }
  split.
  - rewrite parse_none by exact F. apply Hfin.
  - intros Hd. destruct cmd as [|a cmd]; [rewrite app_nil_r, parse_none by exact F; apply Hfin|].
    rewrite parse_program by assumption. apply Hfin.
Qed.
Print Assumptions C46_showkey.

(** The flags the agent is started with: the winpty_constants.h bit of each test
    option that was given, WINPTY_FLAG_ALLOW_CURPROC_DESKTOP_CREATION (bit 3), and
    nothing else. *)
Theorem C46_agent_flags : forall opts cmd f c, Forall (fun o => In o flag_options) opts ->
  parseArguments (opts ++ str "--" :: cmd) = Run f c ->
  forall k, 0 <= k -> Z.testbit (agentFlags f) k =
    ((k =? 0) && given (str "-Xconerr") opts || (k =? 1) && given (str "-Xplain") opts ||
     (k =? 2) && given (str "-Xcolor") opts || (k =? 3)).
Proof.
  intros opts cmd f c F H k Hk. rewrite parse_dashdash in H by exact F.
  assert (Ef : f = set_flags noFlags opts).
  { unfold finish in H. destruct (doShowKeys _); [discriminate|]. destruct (zlen cmd =? 0); [discriminate|]. congruence. }
  subst f. unfold agentFlags. cbn [set_flags noFlags testConerr testPlainOutput testColorEscapes orb].
  rewrite !Z.lor_spec.
  assert (B : forall i, 0 <= i -> Z.testbit (2 ^ i) k = (k =? i)).
  { intros i Hi. rewrite Z.pow2_bits_eqb by exact Hi. apply Z.eqb_sym. }
  pose proof (B 0 ltac:(lia)) as B0. pose proof (B 1 ltac:(lia)) as B1.
  pose proof (B 2 ltac:(lia)) as B2. pose proof (B 3 ltac:(lia)) as B3.
  change (2 ^ 0) with 1 in B0. change (2 ^ 1) with 2 in B1. change (2 ^ 2) with 4 in B2. change (2 ^ 3) with 8 in B3.
  rewrite B3.
  destruct (given (str "-Xconerr") opts), (given (str "-Xplain") opts), (given (str "-Xcolor") opts);
    rewrite ?B0, ?B1, ?B2, ?Z.bits_0;
    destruct (k =? 0), (k =? 1), (k =? 2), (k =? 3); reflexivity.
Qed.
Print Assumptions C46_agent_flags.

(** Those cases are all. *)
Theorem C46_cases_complete : forall args, exists opts, Forall (fun o => In o flag_options) opts /\
  (args = opts \/
   exists x t, args = opts ++ x :: t /\
     (In x special \/ starts_dash x = false \/ (starts_dash x = true /\ ~ In x flag_options /\ ~ In x special))).
Proof. exact parse_cases. Qed.
Print Assumptions C46_cases_complete.

Example C46_case :
  parseArguments [str "--mouse"; str "-Xconerr"; str "prog"; str "--help"] =
    Run (mkFlags true false true false false false) [str "prog"; str "--help"] /\
  parseArguments [str "--"; str "-h"] = Run noFlags [str "-h"] /\
  parseArguments [str "-x"; str "prog"] = Unrecognized (str "-x") /\
  agentFlags (mkFlags true false true false true false) = 13 /\
  parseArguments [str "--showkey"; str "prog"] = ShowKeys false.
Proof. vm_compute. repeat split. Qed.
