(** C52: looking at the console leaves what is displayed there alone. *)
From Coq Require Import Lia.
From Verif Require Import Base BaseLemmas SmallRect ConsoleLine Console LargeRead LargeReadSpec TerminalSpec Scraper AgentConsole ScraperSpec ScraperExamples StreamSpec StreamProofs KeptSpec KeptProofs.

(** A poll in full-screen mode: whatever happens to the console meanwhile, to its contents,
    size, window, cursor or modes, is done by the other programs.  The same for the
    buffer of a separate error output.  ([w_sel w = w_frozen w]: the agent is not in the
    middle of freezing the console.) *)
Theorem C52_full_screen : forall c a w r a' w', w_sel w = w_frozen w -> agentScrape c a w = Ok (r, a', w') ->
  (s_direct (a_prim a') = true -> only_by (programs (w_env w)) (w_buf w) (w_buf w')) /\
  (forall es eb es' eb', a_err a = Some (es, eb) -> a_err a' = Some (es', eb') -> s_direct es' = true -> only_by (programs (w_env w)) eb eb').
Proof. exact agent_full_screen. Qed.
Print Assumptions C52_full_screen.

(** Any other poll, except the one that leaves full-screen mode: the agent may also
    overwrite text, but only such as is more than 200 rows above the window at the time.
    With the new console of Windows 10 this asks that programs do not move the window
    up during the poll. *)
Theorem C52_scrolling : forall c a w r a' w', w_sel w = w_frozen w -> c_new c = false \/ Forall window_stays (w_env w) -> agentScrape c a w = Ok (r, a', w') ->
  (s_direct (a_prim a) = false \/ s_direct (a_prim a') = true -> only_by (programs_or_far_above (w_env w)) (w_buf w) (w_buf w')) /\
  (forall es eb es' eb', a_err a = Some (es, eb) -> a_err a' = Some (es', eb') -> s_direct es = false \/ s_direct es' = true -> only_by (programs_or_far_above (w_env w)) eb eb').
Proof. exact agent_scrolling. Qed.
Print Assumptions C52_scrolling.

(** In particular, if the programs do nothing during the poll, then the size of the
    buffer, window, cursor and modes stay, and so does all text in the window, below it
    and in the 200 rows above it. *)
Theorem C52_idle : forall c a w r a' w', w_sel w = w_frozen w -> w_env w = [] -> agentScrape c a w = Ok (r, a', w') ->
  s_direct (a_prim a) = false \/ s_direct (a_prim a') = true ->
  w_buf w' = Console.set_cells (b_cells (w_buf w')) (w_buf w) /\
  (forall y x, rTop (b_win (w_buf w)) - 200 <= y -> 0 <= x < b_w (w_buf w) -> b_cells (w_buf w') y x = b_cells (w_buf w) y x).
Proof.
  intros c a w r a' w' Sf Ev E D. apply quiet_far. rewrite <- Ev. assert (Hw : c_new c = false \/ Forall window_stays (w_env w)) by (right; rewrite Ev; constructor).
  exact (proj1 (agent_scrolling c a w r a' w' Sf Hw E) D).
Qed.
Print Assumptions C52_idle.

(** A whole run of polls, as for C21: what the programs displayed last is displayed, and
    the console is not left frozen. *)
Theorem C52_history : forall c x t0 turns s0 w0,
  supported c -> begins x t0 s0 w0 -> history (b_w (w_buf w0)) t0 turns -> within_reach c turns t0 s0 w0 ->
  let t := final t0 turns in
  exists s1 w1, polls c turns t0 s0 w0 = Ok (s1, w1) /\ w_sel w1 = false /\ w_frozen w1 = false /\
    b_w (w_buf w1) = b_w (w_buf w0) /\ b_h (w_buf w1) = 3000 /\ b_cp (w_buf w1) = b_cp (w_buf w0) /\ b_mode (w_buf w1) = b_mode (w_buf w0) /\
    b_win (w_buf w1) = p_win t /\ b_cur (w_buf w1) = p_cur t /\ b_visible (w_buf w1) = p_visible t /\
    forall y x, Z.max 0 (rTop (p_win t) - 200) <= y < 3000 -> 0 <= x < b_w (w_buf w1) -> b_cells (w_buf w1) y x = p_text t (y + p_off t) x.
Proof.
  intros c x t0 turns s0 w0 (Kc & Kn & Ks) B Hi Re t. pose proof B as (_ & _ & _ & Bw & _).
  assert (Ok0 : screen_ok (b_w (w_buf w0)) t0). { destruct turns as [|u r]; cbn [history] in Hi; [exact Hi|]. destruct Hi as (S & _). apply (sequence_ok _ _ _ S). }
  assert (I0 : inv c (b_w (w_buf w0)) (b_cp (w_buf w0)) (b_mode (w_buf w0)) (s_out s0) x (fun _ => True) [] t0 s0 w0) by (apply begins_inv; auto).
  pose proof (polls_inv c _ (b_cp (w_buf w0)) (b_mode (w_buf w0)) Kc Kn Ks Bw (s_out s0) x (fun _ => True) turns [] t0 s0 w0 I0 Hi Re (fun _ _ => Logic.I)) as P.
  destruct (polls c turns t0 s0 w0) as [[s1 w1]| | | |]; try contradiction. destruct P as (new & mk & lim & K & Sl & _). exists s1, w1. split; [reflexivity|]. split; [exact Sl|].
  destruct K as [_ _ _ Ks' Kw Kh Kcp Km Kwin Kcur Kv _ Kcl Kmk _]. cbn [with_steps w_buf w_sel w_frozen] in *. split; [congruence|].
  repeat (split; [assumption|]). intros y z Y Z. rewrite Kw in Z. apply Kcl; [lia|exact Z|]. destruct mk as [[m K]|]; [|exact Logic.I]. cbn [clean_line]. destruct Kmk as (_ & _ & Kmk & _). revert Kmk. unfold top_line. fold t. lia.
Qed.
Print Assumptions C52_history.

(** *** A window that moves up
    The agent writes its marker 216 rows above the place where the window was when it last
    asked for it, and that was before it froze the console.  A new agent; a program has
    scrolled down to row 500; then, just before the console is frozen, it moves the window
    back to row 280 and fills the buffer with the letter A.  Afterwards the text of the
    marker (its first letter is S, code 83) is in the window, and the line above it is blank. *)
Definition stay : cbuf -> cbuf := fun b => b.
Definition down (b : cbuf) : cbuf := window_to 0 500 79 524 b.
Definition up (b : cbuf) : cbuf := Console.set_cells (fun _ _ => mkCell 65 7) (window_to 0 280 79 304 b).
Definition world52 : world := world0 (wait 10 ++ [down; stay; up]).
Theorem C52_window_up_refuted : exists a w r a' w', world_ok world52 /\ run_agent (cfg0 true false) 80 25 None [] world52 = Ok (a, w) /\
  agentScrape (cfg0 true false) a w = Ok (r, a', w') /\ s_direct (a_prim a) = false /\ s_direct (a_prim a') = false /\
  ~ only_by (programs_or_far_above (w_env w)) (w_buf w) (w_buf w').
Proof.
  set (r0 := run_agent (cfg0 true false) 80 25 None [] world52).
  assert (E0 : match r0 with Ok (a, w) => match agentScrape (cfg0 true false) a w with
      | Ok (_, a', w') => (s_direct (a_prim a), s_direct (a_prim a'), (b_w (w_buf w), rTop (b_win (w_buf w))), rTop (b_win (w_buf w')), cl_ch (b_cells (w_buf w') 284 0))
      | _ => (true, true, (0, 0), 0, 0) end | _ => (true, true, (0, 0), 0, 0) end = (false, false, (80, 0), 280, 83)) by (vm_compute; reflexivity).
  assert (E1 : match r0 with Ok (a, w) => w_env w | _ => [] end = map safely [down; stay; up]) by (vm_compute; reflexivity).
  destruct r0 as [[a w]| | | |] eqn:Er; try discriminate E0. destruct (agentScrape (cfg0 true false) a w) as [[[r a'] w']| | | |] eqn:Ea; try discriminate E0.
  injection E0 as D D' W T T' L. exists a, w, r, a', w'. split; [apply world0_ok|]. split; [reflexivity|]. split; [exact Ea|]. split; [exact D|]. split; [exact D'|].
  intros O. rewrite E1 in O. assert (J : forall b b', only_by (programs_or_far_above (map safely [down; stay; up])) b b' ->
    b_w b = 80 /\ (rTop (b_win b) = 280 -> cl_ch (b_cells b 284 0) = 65) -> rTop (b_win b') = 280 -> cl_ch (b_cells b' 284 0) = 65).
  { clear. induction 1 as [b|b b1 b' St _ IH]; intros (W & J); [exact J|]. apply IH. clear IH. destruct St as [(f & I' & ->)|(cells & -> & C)].
    - cbn [map In] in I'. destruct I' as [<-|[<-|[<-|[]]]]; unfold safely; match goal with |- context [if ?q then _ else _] => destruct q end; try (split; assumption).
      + split; [exact W|]. cbn. discriminate.
      + split; [exact W|]. reflexivity.
    - cbn [Console.set_cells b_w b_win b_cells]. split; [exact W|]. intros T. rewrite C by lia. apply J. exact T. }
  specialize (J _ _ O). rewrite L in J. discriminate J; [split; [exact W|rewrite T; discriminate]|exact T'].
Qed.
Print Assumptions C52_window_up_refuted.

(** *** Non-vacuity *)
(** The same with a program that stays where it is: a poll that writes the marker, at row
    284, and one that finds it *)
Definition further (b : cbuf) : cbuf := window_to 0 (rTop (b_win b) + 500) 79 (rTop (b_win b) + 524) b.
Definition world52' : world := world0 (wait 10 ++ [further; stay]).
Example C52_marker : exists a w r a' w', run_agent (cfg0 true false) 80 25 None [] world52' = Ok (a, w) /\ agentScrape (cfg0 true false) a w = Ok (r, a', w') /\
  w_sel w = w_frozen w /\ Forall window_stays (w_env w) /\ s_direct (a_prim a) = false /\ s_syncRow (a_prim a') = 284 /\ cl_ch (b_cells (w_buf w') 284 0) = 83 /\ rTop (b_win (w_buf w')) = 500.
Proof.
  set (r0 := run_agent (cfg0 true false) 80 25 None [] world52').
  assert (E0 : match r0 with Ok (a, w) => match agentScrape (cfg0 true false) a w with
      | Ok (_, a', w') => (s_direct (a_prim a), (w_sel w, w_frozen w), s_syncRow (a_prim a'), cl_ch (b_cells (w_buf w') 284 0), rTop (b_win (w_buf w')))
      | _ => (true, (true, true), 0, 0, 0) end | _ => (true, (true, true), 0, 0, 0) end = (false, (false, false), 284, 83, 500)) by (vm_compute; reflexivity).
  assert (E1 : match r0 with Ok (a, w) => w_env w | _ => [] end = map safely [further; stay]) by (vm_compute; reflexivity).
  destruct r0 as [[a w]| | | |] eqn:Er; try discriminate E0. destruct (agentScrape (cfg0 true false) a w) as [[[r a'] w']| | | |] eqn:Ea; try discriminate E0.
  injection E0 as D W T M L T'. exists a, w, r, a', w'. split; [reflexivity|]. split; [exact Ea|]. split; [congruence|]. split; [|auto].
  rewrite E1. cbn [map]. apply Forall_cons; [|apply Forall_cons; [|apply Forall_nil]]; intros b; unfold safely; match goal with |- context [if ?q then _ else _] => destruct q end; unfold further, stay, window_to; cbn [set_cur set_win b_win rTop]; lia.
Qed.
(** Full-screen mode: a console with 25 rows, in which a program does something at every call *)
Definition type52 (b : cbuf) : cbuf := Console.set_cells (fun y x => if y =? 3 then mkCell (cl_ch (b_cells b y x) + 1) 7 else b_cells b y x) b.
Definition world52d : world := world0 (wait 10 ++ [buffer_size 80 25 (mkRect 0 0 79 24)] ++ zrepeat type52 20).
Example C52_direct : exists a w r a' w', run_agent (cfg0 true false) 80 25 None [Poll] world52d = Ok (a, w) /\ agentScrape (cfg0 true false) a w = Ok (r, a', w') /\
  w_sel w = w_frozen w /\ s_direct (a_prim a) = true /\ s_direct (a_prim a') = true /\ zlen (w_env w') < zlen (w_env w).
Proof.
  set (r0 := run_agent (cfg0 true false) 80 25 None [Poll] world52d).
  assert (E0 : match r0 with Ok (a, w) => match agentScrape (cfg0 true false) a w with
      | Ok (_, a', w') => (w_sel w, w_frozen w, (s_direct (a_prim a), s_direct (a_prim a')), zlen (w_env w') <? zlen (w_env w))
      | _ => (true, false, (true, true), true) end | _ => (true, false, (true, true), true) end = (false, false, (true, true), true)) by (vm_compute; reflexivity).
  destruct r0 as [[a w]| | | |] eqn:Er; try discriminate E0. destruct (agentScrape (cfg0 true false) a w) as [[[r a'] w']| | | |] eqn:Ea; try discriminate E0.
  injection E0 as S F D D' L. exists a, w, r, a', w'. split; [reflexivity|]. split; [exact Ea|]. split; [congruence|]. split; [exact D|]. split; [exact D'|]. apply Z.ltb_lt. exact L.
Qed.

