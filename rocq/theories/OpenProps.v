(** C34, C35, C48, C50, C53: configuring and opening a session. *)
From Verif Require Import Base Text Buffer BufferSpec BufferProps CmdLineSpec Spawn Rpc Open OpenSpec OpenProofs.

(** C34: winpty_open succeeds only if the client of the control pipe is the process
    it started, as far as the system can tell; the same for the helper agent. *)
Theorem C34_open_only_with_own_agent : forall os cfg flags ops c0 l s,
  os_ok os -> 0 <= flags -> @config_new unit flags = Ok c0 -> Forall int_args ops -> configure c0 ops = Ok cfg ->
  winpty_open os cfg = (l, Ok s) ->
  authentic (oo_main os) /\ (uses_helper l -> authentic (oo_helper os)).
Proof. exact open_authentic. Qed.
Print Assumptions C34_open_only_with_own_agent.

(** C34: and not a byte is read from a client that is not the agent. *)
Theorem C34_impostor_never_read : forall os cfg flags ops c0 l r,
  os_ok os -> 0 <= flags -> @config_new unit flags = Ok c0 -> Forall int_args ops -> configure c0 ops = Ok cfg ->
  winpty_open os cfg = (l, r) ->
  (reads Main l -> authentic (oo_main os)) /\ (reads Helper l -> authentic (oo_helper os)).
Proof. exact open_silent. Qed.
Print Assumptions C34_impostor_never_read.

(** C34: when all else works, the reported client alone decides: the own agent, or a
    system that cannot tell, is accepted; another process or a failing query is an error. *)
Theorem C34_decided_by_client : forall w gos os counter desktop params,
  0 <= oo_pid gos < 2 ^ 32 -> sess_ok os -> starts_well os ->
  (authentic os -> exists c, snd (createAgentSession w gos os counter desktop params) = Ok c) /\
  (~ authentic os -> snd (createAgentSession w gos os counter desktop params) = Throw XWinpty).
Proof. exact session_decided. Qed.
Print Assumptions C34_decided_by_client.

(** C35: winpty_config_new accepts exactly the flag words made of the four documented bits. *)
Theorem C35_config_flags : forall flags, 0 <= flags < 2 ^ 64 ->
  (only_bits 4 flags /\ @config_new unit flags = Ok (mkC flags 80 25 1 30000)) \/
  (~ only_bits 4 flags /\ @config_new unit flags = AssertFail).
Proof. intros flags H. apply config_new_exact. apply H. Qed.
Print Assumptions C35_config_flags.

(** C35: winpty_spawn_config_new accepts exactly the two documented bits. *)
Theorem C35_spawn_flags : forall flags app cmd cwd env, 0 <= flags ->
  (only_bits 2 flags -> forall a c d e, @copy_cstr exc app = Ok a -> @copy_cstr exc cmd = Ok c -> @copy_cstr exc cwd = Ok d ->
     @wstringFromEnvBlock exc env = Ok e -> @spawn_config_new exc flags app cmd cwd env = Ok (mkCfg flags a c d e)) /\
  (~ only_bits 2 flags -> @spawn_config_new exc flags app cmd cwd env = AssertFail).
Proof. exact spawn_config_exact. Qed.
Print Assumptions C35_spawn_flags.

(** C35: the setters accept exactly the documented arguments. *)
Theorem C35_setters : forall ops c,
  (Forall documented ops -> exists cfg, configure c ops = Ok cfg) /\
  (~ Forall documented ops -> configure c ops = AssertFail).
Proof. exact configure_exact. Qed.
Print Assumptions C35_setters.

(** C35: the configuration holds for each setting the value last set, or its default;
    the flags are those given. *)
Theorem C35_values : forall flags ops c0 cfg, @config_new unit flags = Ok c0 -> configure c0 ops = Ok cfg ->
  cf_flags cfg = flags /\ (cf_cols cfg, cf_rows cfg) = last_set size_of ops (80, 25) /\
  cf_mouse cfg = last_set mouse_of ops 1 /\ cf_timeout cfg = last_set timeout_of ops 30000.
Proof.
  intros flags ops c0 cfg H0 H. destruct (configure_values _ _ _ H) as (A & B & C & D). unfold config_new in H0.
  destruct (assert_ (Z.land flags WINPTY_FLAG_MASK =? flags)); try discriminate. cbn [bind] in H0. injection H0 as <-. auto.
Qed.
Print Assumptions C35_values.

(** C35: when the system does its part, winpty_open succeeds. *)
Theorem C35_open_succeeds : forall os cfg flags ops c0 payload rp,
  os_ok os -> 0 <= flags -> @config_new unit flags = Ok c0 -> Forall int_args ops -> configure c0 ops = Ok cfg ->
  starts_well (oo_main os) -> authentic (oo_main os) ->
  so_packet (oo_main os) = Ok payload -> parseSetup (oo_plat os) (Z.testbit flags 0) payload = Ok rp ->
  oo_current os <> None ->
  (wanted os = false \/ by_self os flags = true \/
   starts_well (oo_helper os) /\ authentic (oo_helper os) /\ exists n, helper_says os n) ->
  exists l s, winpty_open os cfg = (l, Ok s).
Proof. exact open_succeeds. Qed.
Print Assumptions C35_open_succeeds.

(** C35: the agent process parses exactly the configured values, and the name of the
    pipe created for it, from its command line, whatever its C runtime's treatment of
    doubled quotes; a helper agent is told to create a desktop. *)
Theorem C35_agent_command_line : forall q utf8 os cfg flags ops c0 l r w cmd d,
  ascii_id utf8 -> os_ok os -> 0 <= flags -> @config_new unit flags = Ok c0 ->
  Forall int_args ops -> configure c0 ops = Ok cfg -> winpty_open os cfg = (l, r) -> In (EvStart w cmd d) l ->
  exists name, In (EvPipe w name) l /\
    @agent_main unit q utf8 cmd = Ok match w with
                                     | Main => RunAgent name flags (cf_mouse cfg) (cf_cols cfg) (cf_rows cfg)
                                     | Helper => CreateDesktop name
                                     end.
Proof. exact open_cmdline. Qed.
Print Assumptions C35_agent_command_line.

(** C35: the agent takes each flag bit for what it means and limits the size. *)
Theorem C35_agent_meaning : forall flags cfg, 0 <= flags < 16 -> 1 <= cf_cols cfg -> 1 <= cf_rows cfg ->
  exists a, @agent_new unit flags (cf_mouse cfg) (cf_cols cfg) (cf_rows cfg) = Ok a /\
    ag_conerr a = Z.testbit flags 0 /\ ag_plain a = Z.testbit flags 1 /\
    ag_color a = (negb (Z.testbit flags 1) || Z.testbit flags 2) /\ ag_mouse a = cf_mouse cfg /\
    ag_cols a = Z.min (cf_cols cfg) 2500 /\ ag_rows a = Z.min (cf_rows cfg) 2000.
Proof. exact agent_sees. Qed.
Print Assumptions C35_agent_meaning.

(** C35: the names reported are those the agent sent; there is an error pipe only if asked for. *)
Theorem C35_pipe_names : forall os cfg l s, winpty_open os cfg = (l, Ok s) ->
  exists payload e, so_packet (oo_main os) = Ok payload /\
    parseSetup (oo_plat os) (Z.testbit (cf_flags cfg) 0) payload = Ok (RpSetup (ss_conin s) (ss_conout s) e) /\
    ss_conerr s = (match e with Some x => x | None => [] end) /\
    (Z.testbit (cf_flags cfg) 0 = false -> winpty_conerr_name s = None) /\ ss_timeout s = cf_timeout cfg.
Proof. exact open_names. Qed.
Print Assumptions C35_pipe_names.

(** C53: winpty_open fails exactly if one of its steps does, with the error of the first
    step that fails; otherwise it succeeds. *)
Theorem C53_first_failure_reported : forall os cfg flags ops c0,
  os_ok os -> plat_ok (oo_plat os) -> answers (oo_main os) -> answers (oo_helper os) ->
  0 <= flags -> @config_new unit flags = Ok c0 -> Forall int_args ops -> configure c0 ops = Ok cfg ->
  match first_failure (open_steps os flags) with
  | Some e => snd (winpty_open os cfg) = Throw e
  | None => exists s, snd (winpty_open os cfg) = Ok s
  end.
Proof. exact open_outcome. Qed.
Print Assumptions C53_first_failure_reported.

(** C48: winpty_open leaves nothing behind when it fails, and only the session's three
    handles when it succeeds, which winpty_free closes; nothing is closed twice; the
    process is back on its own window station. *)
Theorem C48_open_leaves_nothing_behind : forall os cfg flags ops c0 l r,
  os_ok os -> 0 <= flags -> @config_new unit flags = Ok c0 -> Forall int_args ops -> configure c0 ops = Ok cfg ->
  winpty_open os cfg = (l, r) ->
  match r with
  | Ok _ => live l [] = Some [OProcess Main; OPipe Main; OEvent Main] /\ live (l ++ winpty_free) [] = Some [] /\ on_background l false = false
  | Throw _ => live l [] = Some [] /\ on_background l false = false
  | _ => True
  end.
Proof. exact open_balanced. Qed.
Print Assumptions C48_open_leaves_nothing_behind.

(** C50: where no background desktop is needed, none is made, no helper agent runs, and
    the agent is started on the default desktop. *)
Theorem C50_not_needed : forall os cfg l r, os_ok os -> wanted os = false -> winpty_open os cfg = (l, r) ->
  stays_put l /\ ~ uses_helper l /\ (forall cmd d, In (EvStart Main cmd d) l -> d = []).
Proof. exact open_not_needed. Qed.
Print Assumptions C50_not_needed.

(** C50: where one is needed, the calling process makes it only if flag 8
    (WINPTY_FLAG_ALLOW_CURPROC_DESKTOP_CREATION) or a debug setting allows it, and otherwise
    only a helper agent does; the agent is started on that desktop.  Only if the calling process is
    allowed and fails is the agent started on the default desktop. *)
Theorem C50_who_makes_it : forall os cfg l r, os_ok os -> wanted os = true -> winpty_open os cfg = (l, r) ->
  if by_self os (cf_flags cfg)
  then ~ uses_helper l /\
       forall cmd d, In (EvStart Main cmd d) l -> d = match can_make (oo_desk os) with Some n => n | None => [] end
  else stays_put l /\ forall cmd d, In (EvStart Main cmd d) l -> helper_says os d.
Proof. exact open_who_makes_it. Qed.
Print Assumptions C50_who_makes_it.

(** C50: the desktop exists while the agent is being started on it: it is held open by
    this process or by the helper agent, whose pipe is still open. *)
Theorem C50_desktop_alive : forall os cfg l r l1 cmd d l2, os_ok os -> winpty_open os cfg = (l, r) ->
  l = l1 ++ EvStart Main cmd d :: l2 -> d <> [] ->
  exists open, live l1 [] = Some open /\
    ((can_make (oo_desk os) = Some d /\ In ODesktop open /\ In OStation open) \/
     (helper_says os d /\ In (OProcess Helper) open /\ In (OPipe Helper) open)).
Proof. exact open_desktop_alive. Qed.
Print Assumptions C50_desktop_alive.

(** C50: a successful call started one agent; programs run later are put on the
    caller's own desktop if the agent is on another one. *)
Theorem C50_children : forall os cfg l s, os_ok os -> winpty_open os cfg = (l, Ok s) ->
  exists l1 cmd d l2, l = l1 ++ EvStart Main cmd d :: l2 /\
    (forall cmd' d', ~ In (EvStart Main cmd' d') (l1 ++ l2)) /\
    (d = [] -> ss_desktop s = []) /\ (d <> [] -> oo_current os = Some (ss_desktop s)).
Proof. exact open_children. Qed.
Print Assumptions C50_children.

(** Windows XP with a helper agent, conerr and an 100x40 window; then the same with an
    impostor on the main pipe, on a system that can tell. *)
Definition good_packet : res lexc (list Z) :=
  match sendReply (RpSetup (str "i") (str "o") (Some (str "e"))) with Ok b => Ok (skipn 8 b) | _ => UB end.
Definition desk_packet : res lexc (list Z) :=
  match sendReply (RpDesktop (str "w\d")) with Ok b => Ok (skipn 8 b) | _ => UB end.
Definition xp (helper main : client) : open_os :=
  mkOO win64 123 0 (str "C:\a b\winpty-agent.exe") false false false false false false
       (mkDO true true true true (Some (str "w\d")))
       (mkSO true true 77 (Some [1; 255]) true true (Some 5) (Now true 0 0) helper desk_packet)
       (mkSO true true 78 None true true (Some 6) (Pend WIo true 0 0) main good_packet)
       (Some (str "WinSta0\Default")).
Definition cfg100 : config := mkC 5 100 40 2 30000.

Example C34_example :
  os_ok (xp ClUnsupported (ClPid 6)) /\
  (let! c := config_new 5 in configure c [SetSize 100 40; SetMouse 2]) = Ok cfg100 /\
  Forall int_args [SetSize 100 40; SetMouse 2] /\
  (let (l, r) := winpty_open (xp ClUnsupported (ClPid 6)) cfg100 in
   r = Ok (mkS (str "i") (str "o") (str "e") (str "WinSta0\Default") 30000) /\
   In (EvStart Main (str """C:\a b\winpty-agent.exe"" \\.\pipe\winpty-control-123-2-4e 5 2 100 40") (str "w\d")) l /\
   In (EvStart Helper (str """C:\a b\winpty-agent.exe"" \\.\pipe\winpty-control-123-1-4d-01ff --create-desktop") []) l) /\
  (let (l, r) := winpty_open (xp (ClPid 5) (ClPid 7)) cfg100 in r = Throw XWinpty /\ In (EvRead Helper) l) /\
  (let (l, r) := winpty_open (xp (ClPid 5) ClFailed) cfg100 in r = Throw XWinpty) /\
  (let (l, r) := winpty_open (xp (ClPid 6) (ClPid 6)) cfg100 in r = Throw XWinpty).
Proof.
  split; [unfold os_ok, sess_ok; cbn [oo_pid oo_main oo_helper oo_exe xp so_time so_rnd]; repeat split; try lia;
          try (repeat constructor; lia); vm_compute; intuition discriminate|].
  split; [reflexivity|]. split; [repeat constructor; cbn; lia|].
  repeat split; vm_compute; auto 20.
Qed.

Example C35_example :
  only_bits 4 5 /\ ~ only_bits 4 16 /\ ~ only_bits 4 (2 ^ 63) /\ @config_new unit (2 ^ 63) = AssertFail /\
  @agent_main unit StayInQuotes (fun s => s) (str """C:\a b\winpty-agent.exe"" \\.\pipe\winpty-control-123-2-4e 5 2 100 40") =
    Ok (RunAgent (str "\\.\pipe\winpty-control-123-2-4e") 5 2 100 40).
Proof.
  split. { intros i Hi. destruct (Z.ltb_spec i 4); [lia|]. exfalso. rewrite Z.bits_above_log2 in Hi; [discriminate|lia|cbn; lia]. }
  split. { intros H. specialize (H 4 eq_refl). lia. }
  split. { intros H. specialize (H 63 eq_refl). lia. }
  split; [reflexivity|vm_compute; reflexivity].
Qed.

(** The same system meets what C50 asks; with flag 8 no helper is used. *)
Example C50_example :
  let os := xp ClUnsupported (ClPid 6) in
  wanted os = true /\ by_self os 5 = false /\ helper_says os (str "w\d") /\ can_make (oo_desk os) = Some (str "w\d") /\
  starts_well (oo_main os) /\ starts_well (oo_helper os) /\ authentic (oo_main os) /\ authentic (oo_helper os) /\
  (exists s, snd (winpty_open os cfg100) = Ok s /\ ss_desktop s = str "WinSta0\Default") /\
  fst (winpty_open os (mkC 8 80 25 1 30000)) =
    [EvOpen OStation; EvStation true; EvOpen ODesktop;
     EvOpen (OEvent Main); EvOpen (OPipe Main); EvPipe Main (str "\\.\pipe\winpty-control-123-1-4e");
     EvOpen (OProcess Main); EvOpen (OThread Main);
     EvStart Main (str """C:\a b\winpty-agent.exe"" \\.\pipe\winpty-control-123-1-4e 8 1 80 25") (str "w\d");
     EvClose (OThread Main); EvStation false; EvClose ODesktop; EvClose OStation; EvRead Main;
     EvClose (OEvent Main); EvClose (OPipe Main); EvClose (OProcess Main)].
Proof.
  cbv zeta. split; [repeat split|]. split; [repeat split|].
  split. { unfold helper_says. exists (match desk_packet with Ok b => b | _ => [] end). split; vm_compute; reflexivity. }
  split; [reflexivity|]. split; [repeat split; cbn; auto; discriminate|]. split; [repeat split; cbn; auto; discriminate|].
  split; [reflexivity|]. split; [exact I|]. split; [eexists; split; vm_compute; reflexivity|]. vm_compute. reflexivity.
Qed.

(** The main agent cannot be started although the helper could; the helper times out. *)
Example C53_example :
  let os := xp (ClPid 5) (ClPid 6) in
  let without_process := mkSO true true 78 None true true None (Now true 0 0) (ClPid 6) good_packet in
  let timing_out := mkSO true true 77 (Some [1; 255]) true true (Some 5) (Pend WTimeout false 0 0) ClUnsupported desk_packet in
  let with_main m h := mkOO (oo_plat os) (oo_pid os) (oo_counter os) (oo_exe os) false false false false false false (oo_desk os) h m (oo_current os) in
  answers (oo_main os) /\ answers (oo_helper os) /\ plat_ok (oo_plat os) /\
  first_failure (open_steps os 5) = None /\
  snd (winpty_open (with_main without_process (oo_helper os)) cfg100) = Throw (XLib 8) /\
  first_failure (open_steps (with_main without_process (oo_helper os)) 5) = Some (XLib 8) /\
  snd (winpty_open (with_main without_process timing_out) cfg100) = Throw (XLib 7) /\
  first_failure (open_steps (with_main without_process timing_out) 5) = Some (XLib 7) /\
  first_failure (open_steps (with_main without_process timing_out) 13) = Some (XLib 8).
Proof.
  cbv zeta. split; [|split; [|split; [|vm_compute; repeat split]]].
  - split; [discriminate|]. vm_compute. repeat (constructor; [split; [discriminate|reflexivity]|]). constructor.
  - split; [discriminate|]. vm_compute. repeat (constructor; [split; [discriminate|reflexivity]|]). constructor.
  - split; [now right|]. vm_compute. split; discriminate.
Qed.
