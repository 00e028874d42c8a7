(** C54 program lookup, C55 terminal modes, C56 the adapter's exit, C57 environment. *)
From Verif Require Import Base BaseLemmas Text CmdLine AdapterMain AdapterMainSpec AdapterMainProofs.

(** ** C54 *)

(** A plain name runs the first usable file of the PATH, and is an error exactly
    if there is none.  (An AssertFail is a file without a Windows name.) *)
Theorem C54_first_in_path : forall fs msys path prog, plain_name prog ->
  let r := @findProgram unit fs msys path prog in
  (exists before d after file, path_dirs (path_given path) = before ++ d :: after /\
     (forall e f, In e before -> ~ usable fs msys e prog f) /\ usable fs msys d prog file /\
     exists q, windows_name fs file q /\ r = match q with Some q => Ok (Some q) | None => AssertFail end) \/
  ((forall e f, In e (path_dirs (path_given path)) -> ~ usable fs msys e prog f) /\ r = Ok None).
Proof. intros. exact (findProgram_plain fs msys path prog H). Qed.
Print Assumptions C54_first_in_path.

(** A name with a slash or backslash means that file, whatever its kind. *)
Theorem C54_named_file : forall fs msys path prog, ~ plain_name prog ->
  let r := @findProgram unit fs msys path prog in
  match realpath fs prog with
  | Some (c :: p) => exists q, windows_name fs (c :: p) q /\ r = match q with Some q => Ok (Some q) | None => AssertFail end
  | _ => r = Ok None
  end.
Proof. intros. exact (findProgram_named fs msys path prog H). Qed.
Print Assumptions C54_named_file.

(** Through the PATH only batch files and executables are run, never scripts. *)
Theorem C54_no_scripts : forall fs msys d prog file, map (lower fs) (str ".exe") = str ".exe" ->
  usable fs msys d prog file -> batch fs file \/ binary fs file.
Proof. exact usable_ext. Qed.
Print Assumptions C54_no_scripts.

(** A file system with a script and a program of the same name, and a batch file. *)
Definition fs0 : files := mkFiles
  (fun p => if existsb (list_eqb p) [str "/a/ls"; str "/b/ls"; str "b.BAT"; str "/a/x/y"] then Some p else None)
  (fun p => existsb (list_eqb p) [str "/a/ls"; str "/b/ls.exe"])
  (fun _ => true)
  (fun p => Some (str "C:" ++ p))
  (fun c => if (65 <=? c) && (c <=? 90) then c + 32 else c).
Example C54_case :
  plain_name (str "ls") /\ ~ plain_name (str "/a/x/y") /\
  path_dirs (str "/a:/b/::/c") = [str "/a"; str "/b/"; []; str "/c"] /\
  @findProgram unit fs0 true (Some (str "/a:/b/:")) (str "ls") = Ok (Some (str "C:\b\ls.exe")) /\
  @findProgram unit fs0 true (Some (str "/a:")) (str "b.BAT") = Ok (Some (str "C:b.BAT")) /\
  @findProgram unit fs0 false (Some (str "/a:")) (str "b.BAT") = Ok None /\
  @findProgram unit fs0 false None (str "/a/x/y") = Ok (Some (str "C:\a\x\y")) /\
  usable fs0 false (str "/b/") (str "ls") (str "/b/ls.exe").
Proof.
  split; [split; intros H; repeat destruct H as [H|H]; try discriminate; contradiction|].
  split; [intros (H & _); apply H; left; reflexivity|].
  repeat (split; [vm_compute; reflexivity|]).
  apply try_element_usable. vm_compute. reflexivity.
Qed.

(** ** C55 *)

(** Leaving raw mode: every terminal the adapter uses gets back exactly the mode it
    had before, whatever happened in between and whichever descriptors share a
    terminal; the others are left alone. *)
Theorem C55_restored : forall B T allow out err w s w1 w2 w3,
  setRawTerminalMode B T allow out err w = Go s w1 -> restoreTerminalMode T s w2 = Go tt w3 ->
  forall t, modes w3 t = if uses T out err t then modes w t else modes w2 t.
Proof. exact set_restore. Qed.
Print Assumptions C55_restored.

(** Raw mode: exactly the flags that would change the bytes between the terminal
    and the child are switched, on exactly the terminals in use. *)
Theorem C55_raw : forall B T allow out err w s w1,
  setRawTerminalMode B T allow out err w = Go s w1 ->
  forall t, is_raw B (on T 0 t) (uses_out T out err t) (modes w t) (modes w1 t).
Proof.
  intros B T allow out err w s w1 H. pose proof (setRaw_outcome B T allow out err w) as O. rewrite H in O. exact (proj1 O).
Qed.
Print Assumptions C55_raw.

(** With working terminals, raw mode is refused (status 1, nothing changed) exactly
    if a descriptor is not a terminal and that was not allowed; and leaving raw
    mode always succeeds. *)
Theorem C55_refused : forall B T allow out err w, terminals_work T ->
  match setRawTerminalMode B T allow out err w with
  | Go s _ => (allow = true \/ forall fd, In fd ([0] ++ (if out then [1] else []) ++ (if err then [2] else [])) ->
                 exists u, tty_of T fd = Some u) /\
              forall w2, exists w3, restoreTerminalMode T s w2 = Go tt w3
  | Exit c w1 => c = 1 /\ same_modes w w1 /\ allow = false /\
      exists fd, In fd ([0] ++ (if out then [1] else []) ++ (if err then [2] else [])) /\ tty_of T fd = None
  | _ => False
  end.
Proof.
  intros B T allow out err w HT. pose proof (setRaw_outcome B T allow out err w) as O.
  destruct (setRawTerminalMode B T allow out err w) as [s w1|c w1| | |]; try contradiction.
  - destruct O as (_ & F & _ & _ & Ha). split.
    + destruct allow; [now left|right; exact (Ha eq_refl)].
    + intros w2. pose proof (restore_outcome T w s w2 F) as R.
      destruct (restoreTerminalMode T s w2) as [[] w3|c w3| | |]; try contradiction; [eauto|].
      destruct R as (_ & n & _ & Hn). rewrite HT in Hn. discriminate.
  - destruct O as (-> & [(S & _ & Ha & fd & Hi & E)|(n & _ & Hn)]); [|rewrite HT in Hn; discriminate].
    split; [reflexivity|]. split; [exact S|]. split; [exact Ha|]. exists fd. auto.
Qed.
Print Assumptions C55_refused.

Definition bits0 : bits := mkBits 8 2 0x8000 1 2 0x100 0x10 0x20 0x400 0x30 0x100 0x30 1.
Definition cooked : termios := mkTermios 0x500 5 0xBF 0x8A3B 4 7 99.
Definition one_terminal : ttys := mkTtys (fun fd => if (0 <=? fd) && (fd <=? 1) then Some 7 else if fd =? 2 then Some 8 else None) (fun _ => false).
Definition world1 : world := mkWorld (fun _ => cooked) 0 [].
Example C55_case :
  terminals_work one_terminal /\
  match setRawTerminalMode bits0 one_terminal false true true world1 with
  | Go s w1 =>
      modes w1 7 = mkTermios 0 4 0xBF 0xA30 1 0 99 /\ modes w1 8 = mkTermios 0x500 4 0xBF 0x8A3B 4 7 99 /\
      modes w1 9 = cooked /\
      match restoreTerminalMode one_terminal s w1 with
      | Go _ w2 => modes w2 7 = cooked /\ modes w2 8 = cooked
      | _ => False end
  | _ => False end.
Proof. split; [intros n; reflexivity|]. vm_compute. auto. Qed.

(** Finding: if a tcsetattr fails after standard input has been made raw, the
    adapter exits without restoring it. *)
Theorem C55_failure_refuted : exists T w c w1,
  setRawTerminalMode bits0 T false true true w = Exit c w1 /\ ~ same_modes w w1.
Proof.
  exists (mkTtys (fun fd => Some fd) (fun n => n =? 6)), world1, 1. eexists. split; [vm_compute; reflexivity|].
  intros H. specialize (H 0). vm_compute in H. discriminate.
Qed.
Print Assumptions C55_failure_refuted.

(** ** C56 *)

(** A session from start to end: the agent is opened with the terminal's size, the
    program is started before the terminals become raw, the agent hears of every
    change of size, and when an I/O thread ends the agent is freed first, then
    the threads are joined and the handles closed, the terminals restored, and
    the status is the child's (1 if it cannot be had). *)
Theorem C56_session : forall o argv f cmd lineW reports w,
  parseArguments argv = Run f cmd -> o_env o = true -> positive (start_size o) -> o_open o = true ->
  (forall fd, o_pipe o fd = true) -> command_line o cmd lineW -> o_spawn o = true ->
  terminals_work (o_ttys o) ->
  (testAllowNonTtys f = true \/
   forall fd, In fd ([0; 1] ++ (if testConerr f then [2] else [])) -> exists t, tty_of (o_ttys o) fd = Some t) ->
  ends_with (o_wakes o) reports -> Forall positive reports ->
  exists raw back w1,
    adapter_main o argv w = Exit (match o_exit o with Some c => c | None => 1 end) w1 /\
    Forall (fun a => exists t m, a = AMode t m) raw /\ Forall (fun a => exists t m, a = AMode t m) back /\
    acts w1 = acts w ++
      [AOpened (agentFlags f) (ws_col (start_size o)) (ws_row (start_size o)) (mouseInput f)] ++
      [APipe 0; APipe 1] ++ (if testConerr f then [APipe 2] else []) ++
      [ASpawned lineW] ++ raw ++
      [AThread 0; AThread 1] ++ (if testConerr f then [AThread 2] else []) ++
      told (start_size o) reports ++
      [AFree; AJoined 0; AJoined 1; AClosed 0; AClosed 1] ++ (if testConerr f then [AJoined 2; AClosed 2] else []) ++
      back.
Proof.
  intros o argv f cmd lineW reports w H1 H2 H3 H4 H5 H6 H7 H8 H9 H10 H11.
  destruct (main_session_full o argv f cmd lineW reports w H1 H2 H3 H4 H5 H6 H7 H8 H9 H10 H11)
    as (raw & back & w1 & R1 & R2 & R3 & R4).
  exists raw, back, w1. split; [exact R3|]. split; [exact R1|]. split; [exact R2|].
  rewrite R4. unfold opened, pipes, threads, closing. rewrite <- !app_assoc. reflexivity.
Qed.
Print Assumptions C56_session.

(** However the adapter exits, the terminals are as they were at its start. *)
Theorem C56_terminals_restored : forall o argv w c w1, terminals_work (o_ttys o) ->
  adapter_main o argv w = Exit c w1 -> same_modes w w1.
Proof. exact main_restores. Qed.
Print Assumptions C56_terminals_restored.

(** If no program was started, the status is 1 and no terminal was touched. *)
Theorem C56_not_started : forall o argv f cmd w c w1, parseArguments argv = Run f cmd ->
  adapter_main o argv w = Exit c w1 -> ~ started w1 ->
  c = 1 /\ same_modes w w1 /\ (forall t m, In (AMode t m) (acts w1) -> In (AMode t m) (acts w)).
Proof. exact main_no_child. Qed.
Print Assumptions C56_not_started.

(** An agent that cannot be had, a program that is not found and one that cannot be
    started end the adapter with a message and status 1. *)
Theorem C56_failures_reported : forall o argv f cmd w, parseArguments argv = Run f cmd -> o_env o = true ->
  positive (start_size o) ->
  (o_open o = false -> adapter_main o argv w = Exit 1 (did w AOpenFailed)) /\
  (o_open o = true -> (forall fd, o_pipe o fd = true) ->
   @findProgram unit (o_files o) (o_msys o) (o_path o) (hd [] cmd) = Ok None \/
     (exists lineW, command_line o cmd lineW) /\ o_spawn o = false ->
   exists w1 a, adapter_main o argv w = Exit 1 w1 /\
     acts w1 = acts w ++ [AOpened (agentFlags f) (ws_col (start_size o)) (ws_row (start_size o)) (mouseInput f)] ++
                 ([APipe 0; APipe 1] ++ (if testConerr f then [APipe 2] else [])) ++ [a] /\
     (a = ANotFound \/ a = ASpawnFailed)).
Proof.
  intros o argv f cmd w H1 H2 H3. split; intros H4.
  - exact (main_open_fails o argv f cmd w H1 H2 H3 H4).
  - intros H5 H6. exact (main_start_fails o argv f cmd w H1 H2 H3 H4 H5 H6).
Qed.
Print Assumptions C56_failures_reported.

(** The only ways to crash are those of [crash_cause], a terminal whose size cannot
    be read after the start, and arguments of a gigabyte; and the adapter goes on
    only as long as all its I/O threads do. *)
Theorem C56_crashes_only : forall o argv f cmd w, parseArguments argv = Run f cmd ->
  match adapter_main o argv w with
  | Abort _ => crash_cause o f cmd
  | Undef _ => (exists b, In (None, b) (o_wakes o)) \/
      exists p, @findProgram unit (o_files o) (o_msys o) (o_path o) (hd [] cmd) = Ok (Some p) /\
        ~ Forall (fun a => zlen a < 2 ^ 30) (p :: tl cmd)
  | Waiting _ => Forall (fun x => snd x = false) (o_wakes o)
  | Exit _ _ => True
  | Go _ _ => False
  end.
Proof. exact main_crashes. Qed.
Print Assumptions C56_crashes_only.

(** A run: the program of C54_case in a terminal that is resized twice. *)
Definition outside0 (wakes : list (option winsize * bool)) : outside :=
  mkOutside one_terminal bits0 (Some (mkSize 24 80 640 480)) true true (fun _ => true) fs0 false
    (Some (str "/a:/b/")) (fun l => Some l) true wakes (Some 42).
Definition wakes0 : list (option winsize * bool) :=
  map (fun s => (Some s, false)) [mkSize 24 80 640 480; mkSize 30 100 800 600; mkSize 30 100 800 600] ++
  [(Some (mkSize 25 90 0 0), true)].
Example C56_case :
  parseArguments [str "--mouse"; str "-Xconerr"; str "ls"; str "a b"] =
    Run (mkFlags true false true false false false) [str "ls"; str "a b"] /\
  positive (start_size (outside0 wakes0)) /\
  command_line (outside0 wakes0) [str "ls"; str "a b"] (str "C:\b\ls.exe ""a b""") /\
  ends_with (o_wakes (outside0 wakes0))
    [mkSize 24 80 640 480; mkSize 30 100 800 600; mkSize 30 100 800 600; mkSize 25 90 0 0] /\
  match adapter_main (outside0 wakes0) [str "--mouse"; str "-Xconerr"; str "ls"; str "a b"] world1 with
  | Exit 42 w => filter (fun a => match a with AMode _ _ => false | _ => true end) (acts w) =
      [AOpened 9 80 24 true; APipe 0; APipe 1; APipe 2; ASpawned (str "C:\b\ls.exe ""a b""");
       AThread 0; AThread 1; AThread 2; ASetSize 100 30; ASetSize 90 25;
       AFree; AJoined 0; AJoined 1; AClosed 0; AClosed 1; AJoined 2; AClosed 2]
  | _ => False end.
Proof.
  split; [vm_compute; reflexivity|]. split; [split; reflexivity|]. split; [|split].
  - exists (str "ls"), [str "a b"], (str "C:\b\ls.exe"), (str "C:\b\ls.exe ""a b""").
    split; [reflexivity|]. split; [vm_compute; reflexivity|]. split; [vm_compute; reflexivity|reflexivity].
  - exists [mkSize 24 80 640 480; mkSize 30 100 800 600; mkSize 30 100 800 600], (mkSize 25 90 0 0), [].
    split; reflexivity.
  - vm_compute. reflexivity.
Qed.

(** Findings.  A terminal that reports no columns (or rows) while a program runs
    makes the adapter abort, leaving the terminal raw. *)
Theorem C56_zero_size_refuted : exists o argv w w1, terminals_work (o_ttys o) /\
  adapter_main o argv w = Abort w1 /\ started w1 /\ ~ same_modes w w1.
Proof.
  exists (outside0 [(Some (mkSize 24 0 0 0), false)]), [str "ls"], world1. eexists.
  split; [intros n; reflexivity|]. split; [vm_compute; reflexivity|]. split.
  - eexists. cbn [acts]. do 3 right. left. reflexivity.
  - intros H. specialize (H 7). vm_compute in H. discriminate.
Qed.
Print Assumptions C56_zero_size_refuted.

(** If standard input is not a terminal (which -Xallow-non-tty permits), the first
    wake-up compares a size that was never filled in: undefined behaviour. *)
Theorem C56_non_tty_refuted : exists o argv w w1, terminals_work (o_ttys o) /\
  tty_of (o_ttys o) 0 = None /\ o_size o = None /\ adapter_main o argv w = Undef w1 /\ started w1.
Proof.
  exists (mkOutside (mkTtys (fun _ => None) (fun _ => false)) bits0 None true true (fun _ => true) fs0 false
    (Some (str "/a:/b/")) (fun l => Some l) true [(None, true)] (Some 42)), [str "-Xallow-non-tty"; str "ls"], world1. eexists.
  split; [intros n; reflexivity|]. split; [reflexivity|]. split; [reflexivity|]. split; [vm_compute; reflexivity|].
  eexists. cbn [acts]. do 3 right. left. reflexivity.
Qed.
Print Assumptions C56_non_tty_refuted.

(** ** C57 *)

(** The Win32 environment the agent inherits: the debug variables as in the Unix
    environment (if set there and not empty), no TERM, and otherwise what the
    synchronisation left. *)
Theorem C57_environment : forall wide unix synced e, setupWin32Environment wide unix synced = Some e ->
  (forall n, n = str "WINPTY_DEBUG" \/ n = str "WINPTY_SHOW_CONSOLE" ->
     match unix n with
     | Some (c :: t) => exists v, wide (c :: t) = Some v /\ e n = Some v
     | _ => e n = synced n
     end) /\
  e (str "TERM") = None /\
  (forall n, n <> str "WINPTY_DEBUG" -> n <> str "WINPTY_SHOW_CONSOLE" -> n <> str "TERM" -> e n = synced n).
Proof.
  intros wide unix synced e H. apply environment_set in H. destruct H as (H1 & H2 & H3 & H4).
  split; [|split; [exact H3|exact H4]]. intros n [->| ->]; [exact H1|exact H2].
Qed.
Print Assumptions C57_environment.

(** It fails (abort) exactly if one of the two is not text in the locale. *)
Theorem C57_fails_only_on_text : forall wide unix synced, setupWin32Environment wide unix synced = None <->
  exists n v, (n = str "WINPTY_DEBUG" \/ n = str "WINPTY_SHOW_CONSOLE") /\ unix n = Some v /\ v <> [] /\ wide v = None.
Proof. exact environment_fails. Qed.
Print Assumptions C57_fails_only_on_text.

Example C57_case :
  let unix := set_var (set_var (set_var (fun _ => None) (str "TERM") (Some (str "xterm"))) (str "WINPTY_DEBUG") (Some (str "trace")))
                (str "WINPTY_SHOW_CONSOLE") (Some []) in
  match setupWin32Environment (fun l => Some l) unix (fun n => if list_eqb n (str "WINPTY_DEBUG") then None else unix n) with
  | Some e => e (str "TERM") = None /\ e (str "WINPTY_DEBUG") = Some (str "trace") /\ e (str "WINPTY_SHOW_CONSOLE") = Some []
  | None => False end.
Proof. vm_compute. auto. Qed.
