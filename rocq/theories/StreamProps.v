(** C21: scrolled-off output is transmitted completely, once and in order. *)
From Coq Require Import Lia.
From Verif Require Import Base BaseLemmas SmallRect ConsoleLine Console LargeRead LargeReadSpec LargeReadProofs TerminalSpec Scraper AgentConsole ScraperSpec ScraperExamples StreamSpec StreamProofs SetupProofs.

(** Every run of polls goes well.  Line numbers are consecutive and nothing is cleared;
    whatever is sent for line [n] is what line [n] held at some time, so that each line
    keeps its number; and what was above the window when the last poll began has been
    transmitted in its final form. *)
Theorem C21_stream c x t0 before ts s0 w0 :
  supported c -> begins x t0 s0 w0 -> history (b_w (w_buf w0)) t0 (before ++ [ts]) -> within_reach c (before ++ [ts]) t0 s0 w0 ->
  let width := Z.min (b_w (w_buf w0)) 2500 in
  let mask := kept_bits (c_new c) (b_cp (w_buf w0)) (b_mode (w_buf w0)) in
  let t := final t0 before in
  exists s1 w1 ops, polls c (before ++ [ts]) t0 s0 w0 = Ok (s1, w1) /\ s_out s1 = s_out s0 ++ ops /\
    consecutive x x ops /\
    (forall n d col, In (TSend n d col) ops -> exists t', In t' (screens t0 (before ++ [ts])) /\ d = content mask width t' n) /\
    (forall n, x <= n < top_line t -> last_sent ops n = Some (content mask width (last ts t) n)).
Proof.
  intros (Kc & Kn & Ks) B Hi Re. cbv zeta. pose proof B as (_ & _ & _ & Bw & _).
  destruct (stream c _ _ _ Kc Kn Ks Bw x t0 before ts s0 w0 B eq_refl eq_refl eq_refl Hi Re) as (s1 & w1 & s2 & w2 & ops1 & ops2 & tr & E1 & E2 & E3 & E4 & C1 & C2 & C3 & _).
  exists s2, w2, (ops1 ++ ops2). split; [exact (polls_snoc c _ _ _ _ _ _ E1 _ _ E2)|]. split; [now rewrite E4, E3, app_assoc|]. split; [exact C1|]. split; [|exact C3].
  intros n d col I. rewrite Forall_forall in C2. destruct (C2 _ I) as (t' & T1 & T2). exists t'. auto.
Qed.
Print Assumptions C21_stream.

(** After a poll during which the programs did nothing, the whole window has been
    transmitted, except for blank lines at its end that have never been sent. *)
Theorem C21_window c x t0 before s0 w0 :
  supported c -> begins x t0 s0 w0 -> history (b_w (w_buf w0)) t0 (before ++ [[]]) -> within_reach c (before ++ [[]]) t0 s0 w0 ->
  let width := Z.min (b_w (w_buf w0)) 2500 in
  let mask := kept_bits (c_new c) (b_cp (w_buf w0)) (b_mode (w_buf w0)) in
  let t := final t0 before in
  exists s1 w1 ops, polls c (before ++ [[]]) t0 s0 w0 = Ok (s1, w1) /\ s_out s1 = s_out s0 ++ ops /\
    forall n, x <= n < end_line t ->
      last_sent ops n = Some (content mask width t n) \/ last_sent ops n = None /\ blank (content mask width t n).
Proof.
  intros (Kc & Kn & Ks) B Hi Re. cbv zeta. pose proof B as (_ & _ & _ & Bw & _).
  destruct (stream c _ _ _ Kc Kn Ks Bw x t0 before [] s0 w0 B eq_refl eq_refl eq_refl Hi Re) as (s1 & w1 & s2 & w2 & ops1 & ops2 & tr & E1 & E2 & E3 & E4 & C1 & C2 & C3 & Tr & C4 & _).
  exists s2, w2, (ops1 ++ ops2). split; [exact (polls_snoc c _ _ _ _ _ _ E1 _ _ E2)|]. split; [now rewrite E4, E3, app_assoc|].
  destruct Tr as [<-|[]]. intros n N. exact (C4 n N eq_refl).
Qed.
Print Assumptions C21_window.

(** All that one poll sends shows the console at one moment; and it sends a line only
    because that line, or one above it, differs from what was last sent for it or has not
    been sent before. *)
Theorem C21_once c x t0 before ts s0 w0 :
  supported c -> begins x t0 s0 w0 -> history (b_w (w_buf w0)) t0 (before ++ [ts]) -> within_reach c (before ++ [ts]) t0 s0 w0 ->
  let width := Z.min (b_w (w_buf w0)) 2500 in
  let mask := kept_bits (c_new c) (b_cp (w_buf w0)) (b_mode (w_buf w0)) in
  let t := final t0 before in
  exists s1 w1 s2 w2 ops1 ops2 tr, polls c before t0 s0 w0 = Ok (s1, w1) /\ s_out s1 = s_out s0 ++ ops1 /\
    poll c t ts s1 w1 = Ok (s2, w2) /\ s_out s2 = s_out s1 ++ ops2 /\
    In tr (t :: ts) /\
    forall n d col, In (TSend n d col) ops2 -> d = content mask width tr n /\
      exists m, x <= m <= n /\ last_sent ops1 m <> Some (content mask width tr m).
Proof.
  intros (Kc & Kn & Ks) B Hi Re. cbv zeta. pose proof B as (_ & _ & _ & Bw & _).
  destruct (stream c _ _ _ Kc Kn Ks Bw x t0 before ts s0 w0 B eq_refl eq_refl eq_refl Hi Re) as (s1 & w1 & s2 & w2 & ops1 & ops2 & tr & E1 & E2 & E3 & E4 & C1 & C2 & C3 & Tr & C4 & C5).
  exists s1, w1, s2, w2, ops1, ops2, tr. auto 10.
Qed.
Print Assumptions C21_once.

(** The marker stays within reach if the programs are slow enough. *)
Theorem C21_slow_enough c x t0 turns s0 w0 :
  supported c -> begins x t0 s0 w0 -> history (b_w (w_buf w0)) t0 turns -> slow_enough 0 turns t0 -> within_reach c turns t0 s0 w0.
Proof.
  intros (Kc & Kn & Ks) B Hi Sl. pose proof B as (_ & _ & _ & Bw & _). exact (slow_reach c _ _ _ Kc Kn Ks Bw x t0 turns s0 w0 B eq_refl eq_refl eq_refl Hi Sl).
Qed.
Print Assumptions C21_slow_enough.

(** A new agent is at the beginning of a run; scraping begins with the line that was at
    the top of the window when the agent started. *)
Theorem C21_start c size w :
  let x := rTop (b_win (w_buf (interfere w))) in
  fresh x (fst (newScraper c size w)) /\ s_out (fst (newScraper c size w)) = [TReset false x].
Proof. exact (new_fresh c size w). Qed.
Print Assumptions C21_start.

(** In a console that is not scrolled and has no other programs yet, its start leaves the
    console as the theorems above ask. *)
Theorem C21_setup c cols rows eb w : world_ok w -> (forall b, eb = Some b -> console_ok b) -> w_env w = [] -> w_fail w = [] -> 1 <= cols -> 1 <= rows ->
  words (w_buf w) -> rTop (b_win (w_buf w)) = 0 ->
  exists a w', agentNew c cols rows eb w = Ok (a, w') /\ b_w (w_buf w') = Z.min cols 2500 /\
    let t0 := blank_screen (b_win (w_buf w')) (b_visible (w_buf w)) in
    begins 0 t0 (a_prim a) w' /\ screen_ok (Z.min cols 2500) t0 /\ s_out (a_prim a) = [TReset false 0].
Proof. exact (start_begins c cols rows eb w). Qed.
Print Assumptions C21_setup.
Example C21_setup_example : world_ok (world0 []) /\ words (w_buf (world0 [])) /\ rTop (b_win (w_buf (world0 []))) = 0.
Proof. split; [apply world0_ok|]. split; [|reflexivity]. intros y x. cbn. lia. Qed.

(** *** Non-vacuity
    80 columns; the program writes 2990 lines, pauses, writes 100 more, pauses. *)
Definition written (n k x : Z) : cell := if (k <? n) && (x <? 30) then mkCell (65 + (k + x) mod 26) 7 else mkCell 32 7.
Definition after (n : Z) : screen :=
  mkP (Z.max 0 (n + 10 - 3000)) (mkRect 0 (Z.min 2975 (Z.max 0 (n - 15))) 79 (Z.min 2975 (Z.max 0 (n - 15)) + 24)) (mkCoord 0 (Z.min 2990 n)) true (written n).
Definition buf21 : cbuf := mkBuf 80 3000 (mkRect 0 0 79 24) (mkCoord 0 0) (fun _ _ => mkCell 32 7) (mkCoord 200 1000) 437 3 true.
Definition start21 : world := mkW buf21 false false false 0 [] [] [].
Definition agent21 : sst := fst (newScraper (cfg0 true false) (mkCoord 80 25) start21).
Definition run21 : list (list screen) := [[after 2990]; [after 2990]; [after 3090]; []].
Lemma after_ok n : 0 <= n -> screen_ok 80 (after n).
Proof.
  intros N. unfold screen_ok, after. cbn [p_off p_win p_cur p_text rLeft rTop rRight rBottom co_x co_y]. repeat match goal with |- _ /\ _ => split end; try lia.
  - intros k x. unfold written. destruct ((k <? n) && (x <? 30)); cbn; lia.
  - intros k d. apply (no_marker (fun j => cl_ch (written n j 0))). intros j. unfold written. destruct ((j <? n) && (0 <? 30)); cbn [cl_ch]; [pose proof (Z.mod_pos_bound (j + 0) 26)|]; lia.
Qed.
Lemma after_goes n m : 0 <= n <= m -> goes_to (after n) (after m).
Proof.
  intros N. unfold goes_to, after, top_line. cbn [p_off p_win p_text rTop]. repeat match goal with |- _ /\ _ => split end; try lia.
  intros k x K. unfold written. destruct ((k <? n) && (x <? 30)) eqn:E1, ((k <? m) && (x <? 30)) eqn:E2; try reflexivity; lia.
Qed.
Example C21_begins : begins 0 (after 0) agent21 start21.
Proof.
  unfold begins. split; [exact (proj1 (new_fresh (cfg0 true false) (mkCoord 80 25) start21))|]. split.
  - unfold displays. repeat match goal with |- _ /\ _ => split end; try reflexivity. intros y x Y X. cbn [start21 w_buf buf21 b_cells after p_text p_off]. unfold written. destruct (y + Z.max 0 (0 + 10 - 3000) <? 0) eqn:E; [lia|reflexivity].
  - repeat match goal with |- _ /\ _ => split end; try reflexivity; try (cbn; lia). intros y x. cbn. lia.
Qed.
Example C21_history : history 80 (after 0) run21 /\ slow_enough 0 run21 (after 0) /\ top_line (final (after 0) run21) = 3075 /\ end_line (final (after 0) run21) = 3100.
Proof.
  split; [|split; [|split; reflexivity]]; unfold run21.
  - cbn [history sequence last]. repeat match goal with |- screen_ok _ _ => apply after_ok | |- goes_to _ _ => apply after_goes | |- _ /\ _ => split end; try exact I; lia.
  - cbn [slow_enough last]. repeat match goal with |- _ /\ _ => split end; try exact I; repeat constructor; cbn; lia.
Qed.
Example C21_run : exists s1 w1 ops, polls (cfg0 true false) run21 (after 0) agent21 start21 = Ok (s1, w1) /\ s_out s1 = TReset false 0 :: ops /\
  last_sent ops 3000 = Some (content 0x7FFF 80 (after 3090) 3000).
Proof.
  assert (Sp : supported (cfg0 true false)) by (split; [apply cfg0_ok|split; reflexivity]). destruct C21_history as (Hi & Sl & _).
  destruct (C21_stream (cfg0 true false) 0 (after 0) [[after 2990]; [after 2990]; [after 3090]] [] agent21 start21 Sp C21_begins Hi (C21_slow_enough _ _ _ _ _ _ Sp C21_begins Hi Sl)) as (s1 & w1 & ops & E1 & E2 & _ & _ & E3).
  exists s1, w1, ops. split; [exact E1|]. split; [exact E2|]. apply E3. change (0 <= 3000 < 3075). lia.
Qed.

(** The condition on the marker cannot be dropped: before there is a first marker (that is
    as long as the window has not been 432 rows down at a poll), it is not noticed that
    lines have scrolled off.  Here five of nine lines do in the first turn, and the line
    numbers of the others are wrong: line 5 is sent as line 0. *)
Definition short_screen (off top n : Z) : screen := mkP off (mkRect 0 top 0 top) (mkCoord 0 top) true (fun k _ => if k <? n then mkCell (65 + k mod 26) 7 else mkCell 32 7).
Definition buf21' : cbuf := mkBuf 1 3000 (mkRect 0 0 0 0) (mkCoord 0 0) (fun _ _ => mkCell 32 7) (mkCoord 200 1000) 437 3 true.
Definition start21' : world := mkW buf21' false false false 0 [] [] [].
Definition agent21' : sst := fst (newScraper (cfg0 true false) (mkCoord 1 1) start21').
Theorem C21_first_scroll_refuted : exists t0 turns s0 w0, begins 0 t0 s0 w0 /\ history 1 t0 turns /\
  exists s1 w1 ops d, polls (cfg0 true false) turns t0 s0 w0 = Ok (s1, w1) /\ s_out s1 = s_out s0 ++ ops /\ In (TSend 0 d (-1)) ops /\
    forall t, In t (screens t0 turns) -> d <> content 0x7FFF 1 t 0.
Proof.
  exists (short_screen 0 0 0), [[short_screen 5 3 9]; []], agent21', start21'. split; [|split].
  - unfold begins. split; [exact (proj1 (new_fresh (cfg0 true false) (mkCoord 1 1) start21'))|]. split.
    + unfold displays. repeat match goal with |- _ /\ _ => split end; try reflexivity. intros y x Y X. cbn [start21' w_buf buf21' b_cells short_screen p_text p_off]. destruct (y + 0 <? 0) eqn:E; [lia|reflexivity].
    + repeat match goal with |- _ /\ _ => split end; try reflexivity; try (cbn; lia). intros y x. cbn. lia.
  - assert (O : forall off top n, 0 <= off -> 0 <= top < 3000 -> screen_ok 1 (short_screen off top n)).
    { intros off top n A B. unfold screen_ok, short_screen. cbn [p_off p_win p_cur p_text rLeft rTop rRight rBottom co_x co_y]. repeat match goal with |- _ /\ _ => split end; try lia.
      - intros k x. destruct (k <? n); cbn; lia.
      - intros k d. apply (no_marker (fun j => cl_ch (if j <? n then mkCell (65 + j mod 26) 7 else mkCell 32 7))). intros j. destruct (j <? n); cbn [cl_ch]; [pose proof (Z.mod_pos_bound j 26)|]; lia. }
    cbn [history sequence last]. repeat match goal with |- screen_ok _ _ => apply O | |- _ /\ _ => split end; try exact I; try lia.
    unfold goes_to, top_line, short_screen. cbn. split; [lia|split; [lia|]]. intros k x K. destruct (k <? 0) eqn:E1, (k <? 9) eqn:E2; try reflexivity; lia.
  - set (r := polls (cfg0 true false) [[short_screen 5 3 9]; []] (short_screen 0 0 0) agent21' start21').
    assert (E : match r with Ok (s, _) => firstn 2 (s_out s) | _ => [] end = [TReset false 0; TSend 0 [mkCell 70 7] (-1)]) by (vm_compute; reflexivity).
    destruct r as [[s1 w1]| | | |] eqn:Er; try discriminate E.
    exists s1, w1, (tl (s_out s1)), [mkCell 70 7]. split; [reflexivity|].
    destruct (s_out s1) as [|o1 [|o2 l]]; try discriminate E. cbn [firstn] in E. injection E as -> ->. cbn [tl].
    split; [reflexivity|]. split; [left; reflexivity|]. intros t [<-|[<-|[]]]; discriminate.
Qed.
Print Assumptions C21_first_scroll_refuted.
