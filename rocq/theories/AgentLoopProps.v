(** C25, C41 (shutdown), C42: the agent's shutdown and titles. *)
From Verif Require Import Base BaseLemmas Text NamedPipe NamedPipeSpec ConsoleLine Terminal TerminalSpec TerminalFeed TerminalInject TerminalProofs AgentLoop AgentLoopSpec AgentLoopProofs AgentTitleProofs AgentTotalProofs AgentStreamProofs.

(** C25.  A pipe is closed either because its I/O failed, or after: a child started with
    the flag was found to have exited, a client is connected, and everything ever written
    to the pipe has been sent. *)
Theorem C25_conout_close plain useColor useConerr c1 c2 es e a a' :
  Forall scraper_only (es ++ [e]) -> arun es (ainit plain useColor useConerr c1 c2) = Ok a -> astep a e = Ok a' ->
  np_open (a_conout a) = true -> np_open (a_conout a') = false ->
  io_failed (out_svc e) (a_conout a) \/
  ((exists x, shutting_down (es ++ [e]) x) /\ has_client (out_svc e) (a_conout a) /\ np_sent (a_conout a') = conout_bytes a').
Proof.
  intros F H1 H2 O C. destruct (proj1 (conout_close _ _ _ _ _ _ _ _ _ F H1 H2) O C) as [X|(X1 & X2 & X3 & _)]; [left; exact X|right; eauto].
Qed.
Theorem C25_conerr_close plain useColor useConerr c1 c2 es e a a' q q' :
  Forall scraper_only (es ++ [e]) -> arun es (ainit plain useColor useConerr c1 c2) = Ok a -> astep a e = Ok a' ->
  a_conerr a = Some q -> a_conerr a' = Some q' -> np_open q = true -> np_open q' = false ->
  io_failed (err_svc e) q \/
  ((exists x, shutting_down (es ++ [e]) x) /\ has_client (err_svc e) q /\ np_sent q' = a_err a').
Proof.
  intros F H1 H2 E1 E2 O C. pose proof (proj1 (proj2 (conout_close _ _ _ _ _ _ _ _ _ F H1 H2))) as X. unfold conerr_rel in X. rewrite E1, E2 in X.
  destruct (X O C) as [Y|(Y1 & Y2 & Y3)]; [left; exact Y|right; eauto].
Qed.
Print Assumptions C25_conout_close. Print Assumptions C25_conerr_close.

(** A poll before the shutdown, in particular the one that finds that the child has
    exited, writes the title change and all the scrapers' output, and only then may
    close; the polls after that write nothing. *)
Theorem C25_final_scrape plain useColor useConerr c1 c2 es i a a' :
  Forall scraper_only es -> arun es (ainit plain useColor useConerr c1 c2) = Ok a -> astep a (APoll i) = Ok a' -> (forall x, ~ shutting_down es x) ->
  exists t, run_tops (E := unit) (pi_ops i) (a_term a) = Ok t /\
  (exists w v, t_out t = t_out (a_term a) ++ w /\ t_out (a_term a') = t_out t ++ v /\ conout_bytes a' = conout_bytes a ++ concat (map snd (title_segs (pi_title i) a)) ++ w ++ v) /\
  (a_conerr a <> None -> exists w, run_tops (E := unit) (pi_eops i) (a_eterm a) = Ok (a_eterm a') /\ a_err a' = a_err a ++ w /\ t_out (a_eterm a') = t_out (a_eterm a) ++ w).
Proof.
  intros F H1 H2 N. pose proof (not_shutting_closing _ _ _ _ _ _ _ F H1 N) as C. destruct (poll_scrapes _ _ _ _ _ _ _ _ _ F H1 H2 C) as ((P1 & P2 & _ & _ & P5) & _).
  rewrite tops_app in P1. apply bind_Ok in P1. destruct P1 as (t & T1 & T2). exists t. split; [exact T1|]. destruct (tops_frame _ _ _ T1) as (G1 & _). destruct (tops_frame _ _ _ T2) as (G2 & _). split.
  - exists (new_output (a_term a) t), (new_output t (a_term a')). split; [now apply new_output_spec|]. split; [now apply new_output_spec|].
    rewrite P2. now rewrite (new_output_trans _ _ _ G1 G2).
  - intros Hn. destruct (P5 Hn) as (P6 & P7). exists (new_output (a_eterm a) (a_eterm a')). split; [exact P6|]. split; [exact P7|]. apply new_output_spec. now destruct (tops_frame _ _ _ P6).
Qed.
Theorem C25_quiet plain useColor useConerr c1 c2 es i a a' x :
  Forall scraper_only es -> arun es (ainit plain useColor useConerr c1 c2) = Ok a -> astep a (APoll i) = Ok a' -> shutting_down es x ->
  conout_bytes a' = conout_bytes a /\ a_err a' = a_err a.
Proof.
  intros F H1 H2 Hs. destruct (shutting_down_closing _ _ _ _ _ _ _ x F H1 Hs) as (C & _). exact (poll_quiets plain useColor useConerr c1 c2 es a i a' F H1 H2 C).
Qed.
Print Assumptions C25_final_scrape. Print Assumptions C25_quiet.

(** Without the flag, a pipe is closed only when its I/O failed. *)
Theorem C25_no_flag plain useColor useConerr c1 c2 es a :
  Forall scraper_only es -> arun es (ainit plain useColor useConerr c1 c2) = Ok a -> ~ auto_started es ->
  (np_open (a_conout a) = false ->
     exists es1 s k es2 a1, es = es1 ++ AOutIo s k :: es2 /\ arun es1 (ainit plain useColor useConerr c1 c2) = Ok a1 /\ io_closes s (a_conout a1)) /\
  (forall q, a_conerr a = Some q -> np_open q = false ->
     exists es1 s k es2 a1 q1, es = es1 ++ AErrIo s k :: es2 /\ arun es1 (ainit plain useColor useConerr c1 c2) = Ok a1 /\ a_conerr a1 = Some q1 /\ io_closes s q1).
Proof. exact (no_flag plain useColor useConerr c1 c2 es a). Qed.
(** The agent exits when the control pipe is lost, or when the flags say so, the child has
    exited and the output pipes are closed. *)
Theorem C25_exit plain useColor useConerr c1 c2 es a :
  Forall scraper_only es -> arun es (ainit plain useColor useConerr c1 c2) = Ok a -> a_exiting a = true ->
  In AControlLost es \/ (shutting_down es true /\ np_open (a_conout a) = false /\ (forall q, a_conerr a = Some q -> np_open q = false)).
Proof. exact (exits plain useColor useConerr c1 c2 es a). Qed.
(** Once shutting down, when the client reads everything (as many completed writes as
    there are bytes, and one more), the pipe is closed at the next poll at the latest,
    with everything sent; with exit-after-shutdown, and nothing left on CONERR, the agent
    exits. *)
Theorem C25_progress plain useColor useConerr c1 c2 es a svcs k i a' x :
  Forall scraper_only es -> arun es (ainit plain useColor useConerr c1 c2) = Ok a -> shutting_down es x -> np_open (a_conout a) = true ->
  Forall draining svcs -> zlen (conout_bytes a) < zlen svcs -> arun (map (fun s => AOutIo s k) svcs ++ [APoll i]) a = Ok a' ->
  np_open (a_conout a') = false /\ np_sent (a_conout a') = conout_bytes a /\
  (x = true -> match a_conerr a with Some q => np_open q = false | None => True end -> a_exiting a' = true).
Proof.
  intros F H Hs O D L R. destruct (shutting_down_closing _ _ _ _ _ _ _ x F H Hs) as (C & <-). destruct (closes_eventually plain useColor useConerr c1 c2 es a svcs k i a' F H C O D L R) as (X1 & X2 & X3). split; [exact X1|]. split; [exact X2|].
  intros Y1 Y2. apply X3; [exact Y1|]. destruct (a_conerr a); [exact Y2|reflexivity].
Qed.
Print Assumptions C25_no_flag. Print Assumptions C25_exit. Print Assumptions C25_progress.

Definition ex_poll exited title ops := mkPoll true exited title ops [] (0, 0).
Definition ex_svc w := {| sv_conn := ConnDone; sv_read := []; sv_write := w; sv_kr := 0; sv_kw := 0 |}.
Definition ex_hist : list aev :=
  [AStart true true true; APoll (ex_poll false [97] [TSend 0 [mkCell 120 7] (-1)]);
   APoll (ex_poll true [97] [TSend 0 [mkCell 121 7] (-1)]); APoll (ex_poll true [98] [TSend 0 [mkCell 122 7] (-1)])].
(** The child exits before the client connects: both scraped lines are kept, the third is
    not scraped; the client connects and reads, and the agent exits. *)
Example C25_example :
  Forall scraper_only ex_hist /\
  match arun ex_hist (ainit false false false true true) with
  | Ok a => a_closing a = true /\ np_open (a_conout a) = true /\ a_exiting a = false /\ np_sent (a_conout a) = [] /\
      conout_bytes a = str "" ++ [27; 93; 48; 59; 97; 7] ++ eol_seq ++ [120] ++ mouse_on_seq ++ hide_seq ++ [13] ++ eol_seq ++ [121] ++ mouse_off_seq /\
      match arun [AOutIo (ex_svc [IoDone 0]) (0, 0)] a with
      | Ok a' => np_open (a_conout a') = false /\ np_sent (a_conout a') = conout_bytes a /\ a_exiting a' = true
      | _ => False
      end
  | _ => False
  end.
Proof. split; [repeat constructor|]. vm_compute. auto 10. Qed.

(** C25.  Once the child was found to have exited, and the clients of both pipes read (in
    any order, with polls in between, more completed writes than there are bytes), the next
    poll has both pipes closed with everything sent, and the agent exits if asked to. *)
Theorem C25_finish plain useColor useConerr c1 c2 es a es2 i x :
  Forall scraper_only es -> arun es (ainit plain useColor useConerr c1 c2) = Ok a -> shutting_down es x ->
  Forall client_reads es2 -> zlen (conout_bytes a) < zlen (filter is_out_io es2) ->
  (a_conerr a <> None -> zlen (a_err a) < zlen (filter is_err_io es2)) ->
  exists a', arun (es2 ++ [APoll i]) a = Ok a' /\
    np_open (a_conout a') = false /\ (np_open (a_conout a) = true -> np_sent (a_conout a') = conout_bytes a) /\
    (forall q, a_conerr a = Some q -> exists q', a_conerr a' = Some q' /\ np_open q' = false /\ (np_open q = true -> np_sent q' = a_err a)) /\
    (x = true -> a_exiting a' = true).
Proof. exact (finishes plain useColor useConerr c1 c2 es a es2 i x). Qed.
Print Assumptions C25_finish.
Definition ex_err : list aev := [AStart true true true; APoll (mkPoll false true [32] [] [TSend 0 [mkCell 120 7] (-1)] (0, 0))].
Definition ex_drain : list aev := concat (repeat [AErrIo (ex_svc [IoDone 0]) (0, 0); AOutIo (ex_svc [IoDone 0]) (0, 0); APoll (ex_poll true [98] [])] 9).
(** With both pipes: the last line on CONERR is kept until its client reads. *)
Example C25_finish_example :
  Forall scraper_only ex_err /\ shutting_down ex_err true /\ Forall client_reads ex_drain /\
  match arun ex_err (ainit false false true true false) with
  | Ok a => zlen (conout_bytes a) < zlen (filter is_out_io ex_drain) /\ 0 < zlen (a_err a) < zlen (filter is_err_io ex_drain) /\
      option_map np_open (a_conerr a) = Some true /\ a_exiting a = false
  | _ => False
  end.
Proof.
  split; [repeat constructor|]. split; [exists [], []; eexists; exists []; split; reflexivity|]. split; [|vm_compute; auto].
  unfold ex_drain, ex_svc. cbn [repeat concat app]. repeat (apply Forall_cons; [first [exact Logic.I | split; [exists []; reflexivity|]; split; [intros s [H|[]]; injection H as <-; discriminate|]; split; [intros [H|[]]; discriminate H|]; split; [intros []|reflexivity]]|]). apply Forall_nil.
Qed.

(** C25.  None of this stops half-way: whatever the order of polls, pipe events, resizes and
    cursor queries, the agent fails no assertion, provided that no second start follows one
    that succeeded (winpty.h:195 allows only one). *)
Theorem C25_total plain useColor useConerr c1 c2 es :
  Forall event_ok es -> started_once es -> exists a, arun es (ainit plain useColor useConerr c1 c2) = Ok a.
Proof. exact (agent_total plain useColor useConerr c1 c2 es). Qed.
Print Assumptions C25_total.
Definition ex_all : list aev :=
  [AStart false true true] ++ ex_hist ++ [ADsr; AResize [TReset true 5; TSend 5 [mkCell 65 7] (-1)] [TSend 0 [mkCell 66 7] 0]; AOutIo (ex_svc [IoDone 0]) (0, 0); AErrIo (ex_svc [IoDone 0]) (0, 0)].
Example C25_total_example : Forall event_ok ex_all /\ started_once ex_all /\
  arun [AStart true true true; AStart true true true] (ainit false false false true true) = AssertFail.
Proof.
  split; [|split; [|reflexivity]].
  - unfold ex_all, ex_hist, ex_poll, ex_svc. cbn [app]. unfold event_ok. repeat (apply Forall_cons; [cbn [pi_ops pi_eops]; first [exact Logic.I | split; [intros s [H|[]]; injection H as <-; discriminate|discriminate] | split; repeat (apply Forall_cons; [first [exact Logic.I|vm_compute; discriminate|vm_compute; reflexivity]|]); apply Forall_nil]|]). apply Forall_nil.
  - intros es1 au x es2 c au' x' E I. unfold ex_all, ex_hist in E. cbn [app] in E.
    destruct es1 as [|e1 es1]; [discriminate E|]. injection E as _ E. destruct es1 as [|e2 es1].
    + injection E as _ _ E. subst es2. cbn in I. intuition discriminate.
    + injection E as _ E. repeat (destruct es1 as [|? es1]; [discriminate E|injection E as _ E]). destruct es1; discriminate E.
Qed.

(** C41.  When the agent closes CONOUT to shut down, the mouse mode has been switched off
    in what was sent: what the terminal object wrote is all in the stream, and a terminal
    that reads it reports no mouse events. *)
Theorem C41_shutdown plain useColor useConerr c1 c2 es e a a' te s0 uc strict off m :
  Forall scraper_only (es ++ [e]) -> arun es (ainit plain useColor useConerr c1 c2) = Ok a -> astep a e = Ok a' ->
  np_open (a_conout a) = true -> np_open (a_conout a') = false -> ~ io_failed (out_svc e) (a_conout a) ->
  t_mouse (a_term a') = false /\ concat (segments SrcTerm a') = t_out (a_term a') /\ np_sent (a_conout a') = conout_bytes a' /\
  (tenv_ok te -> start_ok te s0 -> reach te s0 uc strict off (a_term a') -> In m mouse_reporting -> s_mode (screen te s0 (a_term a')) m = false).
Proof.
  intros F H1 H2 O C N. destruct (proj1 (conout_close _ _ _ _ _ _ _ _ _ F H1 H2) O C) as [X|(X1 & X2 & X3 & X4)]; [contradiction|].
  assert (H3 : arun (es ++ [e]) (ainit plain useColor useConerr c1 c2) = Ok a') by (rewrite arun_app, H1; cbn; rewrite H2; reflexivity).
  destruct (run_inv _ _ _ _ _ _ _ F H3) as ((_ & _ & S3 & _) & _). split; [exact X4|]. split; [exact S3|]. split; [exact X3|].
  intros Hte Hs0 Hr Hm. destruct (reach_inv te Hte s0 uc strict Hs0 off _ Hr) as (_ & _ & _ & _ & _ & _ & I7). now rewrite (I7 m Hm).
Qed.
Print Assumptions C41_shutdown.
Example C41_shutdown_example :
  match arun (ex_hist ++ [AOutIo (ex_svc [IoDone 0]) (0, 0)]) (ainit false false false true true) with
  | Ok a => np_open (a_conout a) = false /\ zskipn (zlen (np_sent (a_conout a)) - zlen mouse_off_seq) (np_sent (a_conout a)) = mouse_off_seq /\ t_mouse (a_term a) = false
  | _ => False
  end.
Proof. vm_compute. auto. Qed.

(** C42.  As long as the output is open, the title commands written are exactly those for
    the titles that differ from the one before, in order, for all the polls up to the one
    that finds the child gone; none in plain mode. *)
Theorem C42_titles plain useColor useConerr c1 c2 es a :
  Forall scraper_only es -> arun es (ainit plain useColor useConerr c1 c2) = Ok a -> np_open (a_conout a) = true ->
  exists polled later, es = polled ++ later /\
    segments SrcTitle a = (if plain then [] else map title_command (changes [32] (poll_titles polled))) /\
    (later = [] \/ exists x, shutting_down polled x).
Proof.
  intros F H O. destruct (titles plain useColor useConerr c1 c2 es a F H) as (_ & es1 & es2 & E & _ & T2 & T3 & T4 & _). exists es1, es2. split; [exact E|]. split; [exact (T4 O)|].
  destruct (a_closing a); [right; eauto|left; auto].
Qed.
(** A terminal reads the command of a title without control characters as that title. *)
Theorem C42_command t : Forall (fun u => 32 <= u < 65536) t -> read_title_command (title_command t) = Some (utf8FromWide t).
Proof. exact (command_read t). Qed.
(** Titles of any length are read completely, whichever way the title query behaves (and
    even if its behaviour changes between calls): after at most 2 * (length + 1) calls. *)
Theorem C42_complete ts t buf : Forall (fun vt => fst vt <> TFail /\ snd vt = t) ts -> ~ In 0 t -> 1 <= zlen buf -> 2 * (zlen t + 1) <= zlen ts ->
  exists buf', title (E := unit) ts buf = Ok (t, buf') /\ zlen buf <= zlen buf'.
Proof. intros H1 H2 H3 H4. pose proof (zlen_nonneg t). apply title_complete; [exact H1|exact H2|exact H3|lia|lia]. Qed.
(** If the title changes meanwhile, the result is one of the titles, complete; if the
    query fails, it is empty; the buffer is never overrun. *)
Theorem C42_sound ts buf : 1 <= zlen buf -> Forall (fun vt => ~ In 0 (snd vt)) ts ->
  match title (E := unit) ts buf with
  | Ok (s, buf') => (exists v t, In (v, t) ts /\ s = if match v with TFail => true | _ => false end then [] else t) /\ zlen buf <= zlen buf'
  | OutOfFuel => True
  | _ => False
  end.
Proof. exact (title_sound ts buf). Qed.
Print Assumptions C42_titles. Print Assumptions C42_command. Print Assumptions C42_complete. Print Assumptions C42_sound.
Definition ex_long : list Z := zrepeat 120 40.
Example C42_example :
  (match title (E := unit) (repeat (TXp, ex_long) 4) title_buf0 with Ok (s, b) => s = ex_long /\ zlen b = 82 | _ => False end) /\
  (match title (E := unit) (repeat (TVista, ex_long) 2) title_buf0 with Ok (s, b) => s = ex_long | _ => False end) /\
  (match title (E := unit) [(TWin8, ex_long); (TWin8, [97])] title_buf0 with Ok (s, b) => s = [97] /\ zlen b = 82 | _ => False end) /\
  (match arun [APoll (ex_poll false [32] []); APoll (ex_poll false [97] []); APoll (ex_poll false [97] []); APoll (ex_poll false [233] []); APoll (ex_poll false [97] [])] (ainit false true false true true) with
   | Ok a => segments SrcTitle a = [[27; 93; 48; 59; 97; 7]; [27; 93; 48; 59; 195; 169; 7]; [27; 93; 48; 59; 97; 7]] | _ => False end).
Proof. vm_compute. auto 10. Qed.
(** The title is not checked for control characters: a title with BEL ends the command
    early, and what follows is read as output, here an instruction to clear the screen. *)
Theorem C42_injection_refuted : exists t, ~ In 0 t /\
  title_command t = title_command [97] ++ csi (str "2J") ++ [7] /\ read_title_command (title_command t) = None.
Proof. exists [97; 7; 27; 91; 50; 74]. split; [cbn; lia|]. split; reflexivity. Qed.
Print Assumptions C42_injection_refuted.

(** C17.  The whole of CONOUT, whatever the console holds and whenever pieces from the
    scrapers, titles and cursor queries are mixed: every ESC is in a complete control
    sequence, in the cursor query or in a title command, the last two only outside plain
    mode; CONERR has control sequences only.  In plain mode without colours, no ESC. *)
Theorem C17_stream plain useColor useConerr c1 c2 es a :
  Forall event_wf es -> arun es (ainit plain useColor useConerr c1 c2) = Ok a ->
  (exists pieces, conout_bytes a = concat pieces /\ Forall (allowed_piece plain useColor es) pieces) /\
  clean_stream (finals plain useColor) (a_err a).
Proof. exact (streams plain useColor useConerr c1 c2 es a). Qed.
Theorem C17_plain_stream useConerr c1 c2 es a :
  Forall event_wf es -> arun es (ainit true false useConerr c1 c2) = Ok a -> ~ In 27 (conout_bytes a) /\ ~ In 27 (a_err a).
Proof.
  intros W H. destruct (streams true false useConerr c1 c2 es a W H) as ((ps & -> & P) & (qs & -> & Q)). rewrite Forall_forall in P, Q. split; intros I; apply in_concat in I as (x & I1 & I2).
  - destruct (P x I1) as [N|[(? & f & _ & _ & [])|(N & _)]]; [auto|discriminate N].
  - destruct (Q x I1) as [N|(? & f & _ & _ & [])]. auto.
Qed.
Print Assumptions C17_stream. Print Assumptions C17_plain_stream.
Definition ex_mixed : list aev :=
  [APoll (mkPoll true false [97] [TSend 0 [mkCell 27 7; mkCell 91 7] (-1)] [TSend 0 [mkCell 27 7] (-1)] (0, 0)); ADsr].
Example C17_stream_example : Forall event_wf ex_mixed /\
  match arun ex_mixed (ainit false false true true true) with Ok a => conout_bytes a = title_command [97] ++ str "?" ++ eol_seq ++ str "[" ++ mouse_on_seq ++ [27; 91; 54; 110] | _ => False end /\
  match arun ex_mixed (ainit true false true true true) with Ok a => conout_bytes a = str "?[" /\ a_err a = str "?" | _ => False end.
Proof.
  split; [|vm_compute; auto]. constructor; [|constructor; [exact Logic.I|constructor]]. split; repeat constructor; cbn; lia.
Qed.
