(** C20: scraping stays within its tables and never fails an assertion.

    [run_agent c cols rows eb ks w]: the agent sets its console up (with a separate buffer
    for stderr if [eb] is given) and is then asked for [ks]: polls and window resizes.  All
    other programs are in [w]: at every console call of the agent they may do anything to
    the screen buffer, unless the agent has frozen the console.  A failed assertion is
    [AssertFail]; a read outside the console or outside a table is [UB].

    Three circumstances are excluded, all of them in connection with resizes; in each the
    program does fail (C20_..._refuted).  [with_strict true] stops with [Throw] when one of
    them comes about; [with_strict false] is the program. *)
From Verif Require Import Base SmallRect ConsoleLine Console LargeRead TerminalSpec Scraper AgentConsole ScraperSpec ScraperExamples ScraperProofs.

(** The program runs to the end of every history, and so do its terminals with what they
    are asked to show, unless one of the three has come about. *)
Theorem C20_safe : forall c cols rows eb ks w,
  cfg_ok c -> 1 <= cols -> 1 <= rows -> (forall b, eb = Some b -> console_ok b) -> Forall call_ok ks -> world_ok w ->
  (exists e, run_agent (with_strict true c) cols rows eb ks w = Throw e) \/
  (exists a w', run_agent (with_strict false c) cols rows eb ks w = Ok (a, w') /\ drawn_all a).
Proof. exact agent_safe. Qed.
Print Assumptions C20_safe.

(** The stops are all the difference between the two. *)
Theorem C20_same : forall c cols rows eb ks w,
  match run_agent (with_strict true c) cols rows eb ks w with
  | Throw _ => True
  | r => run_agent (with_strict false c) cols rows eb ks w = r
  end.
Proof.
  intros c cols rows eb ks w. pose proof (sim_agent c cols rows eb ks w) as H. destruct (run_agent (with_strict true c) cols rows eb ks w); exact H.
Qed.
Print Assumptions C20_same.

(** Without resizes nothing is excluded: if programs leave the height of the buffer alone
    (the agent resizes on its own when it becomes 3000 again), every history of polls runs to
    its end, in the terminals too. *)
Theorem C20_polls : forall c cols rows eb ks w,
  cfg_ok c -> c_strict c = false -> 1 <= cols -> 1 <= rows -> (forall b, eb = Some b -> console_ok b) -> Forall (eq Poll) ks ->
  world_ok w -> same_height (w_env w) -> exists a w', run_agent c cols rows eb ks w = Ok (a, w') /\ drawn_all a.
Proof. exact agent_steady. Qed.
Print Assumptions C20_polls.

(** 1. The sync marker has scrolled to the very top when the window is resized:
    createSyncMarker's [row >= 1] fails.  (Marker at 215, text scrolls up by 215.) *)
Definition programs_a := wait 10 ++ [window_to 0 431 0 455; scroll_by 215].
Theorem C20_marker_refuted : exists c w, cfg_ok c /\ world_ok w /\ run_agent (with_strict false c) 1 25 None [Poll; SetSize 1 25] w = AssertFail.
Proof.
  exists (cfg0 false false), (world0 programs_a). split; [apply cfg0_ok|]. split; [apply world0_ok|]. vm_compute. reflexivity.
Qed.
Print Assumptions C20_marker_refuted.
Example marker_strict : run_agent (cfg0 false true) 1 25 None [Poll; SetSize 1 25] (world0 programs_a) = Throw MarkerAtTop.
Proof. vm_compute. reflexivity. Qed.

(** 2. A program moves the window above the marker while the agent resizes it; the next
    scroll makes [firstReadLine >= 0] fail. *)
Definition programs_b := wait 10 ++ [window_to 0 431 0 455] ++ wait 1 ++ [window_to 0 0 0 24] ++ wait 5 ++ [scroll_by 10].
Theorem C20_window_refuted : exists c w, cfg_ok c /\ world_ok w /\ run_agent (with_strict false c) 1 25 None [Poll; SetSize 1 450; Poll; Poll] w = AssertFail.
Proof.
  exists (cfg0 false false), (world0 programs_b). split; [apply cfg0_ok|]. split; [apply world0_ok|]. vm_compute. reflexivity.
Qed.
Print Assumptions C20_window_refuted.
Example window_strict : run_agent (cfg0 false true) 1 25 None [Poll; SetSize 1 450; Poll; Poll] (world0 programs_b) = Throw WindowAboveMarker.
Proof. vm_compute. reflexivity. Qed.

(** 3. A full-screen program has scrolled the window sideways and the window gets narrower:
    the agent reads outside the buffer, which crashes consoles before the new one. *)
Definition programs_c := wait 10 ++ [buffer_size 80 25 (mkRect 30 0 79 24)].
Theorem C20_stale_refuted : exists c w, cfg_ok c /\ world_ok w /\ c_new c = false /\ run_agent (with_strict false c) 80 25 None [Poll; SetSize 40 25] w = UB.
Proof.
  exists (cfg0 false false), (world0 programs_c). split; [apply cfg0_ok|]. split; [apply world0_ok|]. split; [reflexivity|]. vm_compute. reflexivity.
Qed.
Print Assumptions C20_stale_refuted.
Example stale_strict : run_agent (cfg0 false true) 80 25 None [Poll; SetSize 40 25] (world0 programs_c) = Throw StaleRectangle.
Proof. vm_compute. reflexivity. Qed.

(** An ordinary history: text appears, the marker is set, the text scrolls, the window is
    resized twice, a full-screen program starts and ends. *)
Definition programs_d := wait 10 ++ [window_to 0 431 4 455; scroll_by 10] ++ wait 13 ++ [buffer_size 5 25 (mkRect 0 0 4 24); buffer_size 5 3000 (mkRect 0 0 4 24)].
Example ordinary : match run_agent (cfg0 false true) 5 25 None [Poll; Poll; SetSize 8 40; Poll; SetSize 5 25; Poll; Poll] (world0 programs_d) with
  | Ok (a, w) => (s_direct (a_prim a), w_frozen w) = (false, false) /\ 100 <= zlen (s_out (a_prim a))
  | _ => False end.
Proof. vm_compute. split; [reflexivity|discriminate]. Qed.
Example ordinary_polls : same_height (w_env (world0 (wait 200))) /\ match run_agent (cfg0 false false) 20 25 (Some buf0) [Poll; Poll; Poll] (world0 (wait 200)) with Ok _ => True | _ => False end.
Proof.
  split; [|vm_compute; exact I]. unfold same_height, world0, wait. cbn [w_env]. apply Forall_forall. intros f Hf. apply in_map_iff in Hf as (g & <- & Hg).
  apply repeat_spec in Hg. subst g. intros b. unfold safely. destruct (console_okb b); reflexivity.
Qed.
