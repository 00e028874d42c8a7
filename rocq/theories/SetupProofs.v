(** What the agent's constructor leaves behind in a quiet console, for C33 and C21. *)
From Coq Require Import Lia.
From Verif Require Import Base BaseLemmas SmallRect SmallRectSpec SmallRectProofs ConsoleLine Console LargeRead LargeReadSpec TerminalSpec Scraper AgentConsole ScraperSpec ResizeSpec ScraperProofs ResizeProofs StreamSpec StreamProofs.

Ltac splits := repeat match goal with |- _ /\ _ => split end.
Section quiet.
Variable w : world.
Hypothesis He : w_env w = [].
Hypothesis Hf : w_fail w = [].
Lemma q_interfere : interfere w = w.
Proof. unfold interfere. rewrite He. destruct (w_sel w); reflexivity. Qed.
Lemma q_turn : turn w = w.
Proof. unfold turn. rewrite He. reflexivity. Qed.
Lemma q_move r : valid_window (w_buf w) r = true -> moveWindow r w = with_buf (set_win r (w_buf w)) (with_log (RMoveWindow r (w_buf w)) w).
Proof. intros V. unfold moveWindow. rewrite q_interfere. unfold fails. rewrite Hf. rewrite V. reflexivity. Qed.
Lemma q_size x y : rRight (b_win (w_buf w)) - rLeft (b_win (w_buf w)) < x -> rBottom (b_win (w_buf w)) - rTop (b_win (w_buf w)) < y ->
  resizeBufferRange x y w = with_buf (set_win (fit_window x y (b_win (w_buf w))) (set_cur (mkCoord (Z.min (co_x (b_cur (w_buf w))) (x - 1)) (Z.min (co_y (b_cur (w_buf w))) (y - 1))) (set_size x y (w_buf w)))) (with_log (RSetSize x y) w).
Proof.
  intros X Y. unfold resizeBufferRange, setBufferSize. rewrite q_interfere. unfold fails. rewrite Hf. apply Z.ltb_lt in X, Y. rewrite X, Y. reflexivity.
Qed.
Lemma q_cursor p : 0 <= co_x p < b_w (w_buf w) -> 0 <= co_y p < b_h (w_buf w) -> setCursorPosition p w = with_buf (set_cur p (w_buf w)) w.
Proof.
  intros X Y. unfold setCursorPosition. rewrite q_interfere. replace ((0 <=? co_x p) && (co_x p <? b_w (w_buf w)) && (0 <=? co_y p) && (co_y p <? b_h (w_buf w))) with true by lia. reflexivity.
Qed.
End quiet.

Definition kept_cells (cols : Z) (b b' : cbuf) : Prop :=
  forall y x, b_cells b' y x = if (0 <=? y * cols + x) && (y * cols + x <? cols * 3000) then mkCell 32 7 else b_cells b y x.
Lemma new_set_up c x y w : w_env w = [] -> w_fail w = [] -> console_ok (w_buf w) -> 1 <= x <= 2500 -> 1 <= y <= 2000 ->
  exists w', snd (newScraper c (mkCoord x y) w) = w' /\ kept_cells x (w_buf w) (w_buf w') /\ prepared x y (w_buf w) (w_buf w') /\
    w_env w' = [] /\ w_fail w' = [] /\ w_sel w' = w_sel w /\ w_frozen w' = w_frozen w.
Proof.
  intros He Hf C Hx Hy. eexists. split; [reflexivity|].
  destruct C as (C1 & C2 & C3 & C4 & C5 & C6 & C7 & C8 & C9 & C10).
  unfold newScraper, bufferInfo, largestSize, changeFont. cbv zeta. cbn [co_x co_y].
  rewrite !(q_interfere w He). rewrite (q_move w He Hf) by (rewrite make_window by lia; unfold valid_window, in_buf; cbn [rLeft rTop rRight rBottom]; lia).
  rewrite (make_window 0 1 1) by lia. change (0 + 1 - 1) with 0. change (1 - 1) with 0.
  match goal with |- context [resizeBufferRange _ _ ?v] => rewrite (q_size v He Hf) by (cbn; unfold BUFFER_LINE_COUNT; lia) end.
  match goal with |- context [interfere ?v] => rewrite !(q_interfere v He) end.
  cbn [with_buf with_log set_win set_cur set_size w_buf b_largest].
  rewrite make_window by lia.
  match goal with |- context [moveWindow ?r ?v] => rewrite (q_move v He Hf) by (unfold valid_window, in_buf; cbn; unfold BUFFER_LINE_COUNT; lia) end.
  match goal with |- context [setCursorPosition ?r ?v] => rewrite (q_cursor v He) by (cbn; unfold BUFFER_LINE_COUNT; lia) end.
  unfold clearLines.
  match goal with |- context [interfere ?v] => rewrite !(q_interfere v He) end.
  cbn [with_buf with_log set_win set_cur set_size set_cells snd w_buf b_largest b_w b_h b_win b_cur b_cells b_cp b_mode b_visible w_env w_fail w_sel w_frozen info_of i_size co_x co_y].
  assert (K : forall f g, (forall p q, g p q = if (0 <=? p * x + q) && (p * x + q <? x * 3000) then mkCell 32 7 else f p q) ->
    forall r q, 0 <= r < 3000 -> 0 <= q < x -> g r q = mkCell 32 7).
  { intros f g H r q Hr Hq. rewrite H. replace ((0 <=? r * x + q) && (r * x + q <? x * 3000)) with true; [reflexivity|].
    symmetry. apply Bool.andb_true_iff. split; [apply Z.leb_le; nia|apply Z.ltb_lt; nia]. }
  split; [intros p q; reflexivity|]. split; [|auto]. unfold prepared. cbn [b_w b_h b_win b_cur b_cells b_largest b_cp b_mode b_visible set_cells]. splits; try reflexivity.
  intros r q Hr Hq. refine (K (b_cells (w_buf w)) _ _ r q Hr Hq). intros p q'. reflexivity.
Qed.
Lemma start_up c cols rows eb w : world_ok w -> (forall b, eb = Some b -> console_ok b) -> w_env w = [] -> w_fail w = [] -> 1 <= cols -> 1 <= rows ->
  exists a w', agentNew c cols rows eb w = Ok (a, w') /\ prepared (Z.min cols 2500) (Z.min rows 2000) (w_buf w) (w_buf w') /\
    kept_cells (Z.min cols 2500) (w_buf w) (w_buf w') /\ w_sel w' = false /\ w_frozen w' = false /\
    a_prim a = fst (newScraper c (mkCoord (Z.min cols 2500) (Z.min rows 2000)) w) /\
    match eb, a_err a with None, None => True | Some b, Some (_, b') => prepared (Z.min cols 2500) (Z.min rows 2000) b b' | _, _ => False end.
Proof.
  intros (C & _ & S & F) Hb He Hf Hc Hr. unfold agentNew. replace ((1 <=? cols) && (1 <=? rows)) with true by lia. cbn [assert_ bind].
  replace (Coord_ (Z.min cols MAX_CONSOLE_WIDTH) (Z.min rows MAX_CONSOLE_HEIGHT)) with (mkCoord (Z.min cols 2500) (Z.min rows 2000))
    by (unfold Coord_, MAX_CONSOLE_WIDTH, MAX_CONSOLE_HEIGHT; rewrite !LargeReadProofs.s16_id by lia; reflexivity).
  destruct (new_set_up c (Z.min cols 2500) (Z.min rows 2000) w He Hf C ltac:(lia) ltac:(lia)) as (w1 & E1 & K1 & P1 & He1 & Hf1 & S1 & F1).
  destruct (newScraper c (mkCoord (Z.min cols 2500) (Z.min rows 2000)) w) as (s, w1'). cbn [snd fst] in *. subst w1'.
  destruct eb as [b|].
  - specialize (Hb b eq_refl). unfold on_buffer. rewrite (q_turn (with_buf b w1) He1).
    destruct (new_set_up c (Z.min cols 2500) (Z.min rows 2000) (with_buf b w1) He1 Hf1 Hb ltac:(lia) ltac:(lia)) as (w2 & E2 & K2 & P2 & He2 & Hf2 & S2 & F2).
    destruct (newScraper c (mkCoord (Z.min cols 2500) (Z.min rows 2000)) (with_buf b w1)) as (s2, w2'). cbn [snd fst bind] in *. subst w2'.
    rewrite (q_turn (with_buf (w_buf w1) w2) He2). eexists _, _. split; [reflexivity|]. cbn [w_buf with_buf w_sel w_frozen a_prim a_err] in *. splits; try assumption; try reflexivity; congruence.
  - eexists _, _. split; [reflexivity|]. cbn [a_prim a_err]. splits; try assumption; try reflexivity; congruence.
Qed.
Lemma start_begins c cols rows eb w : world_ok w -> (forall b, eb = Some b -> console_ok b) -> w_env w = [] -> w_fail w = [] -> 1 <= cols -> 1 <= rows ->
  words (w_buf w) -> rTop (b_win (w_buf w)) = 0 ->
  exists a w', agentNew c cols rows eb w = Ok (a, w') /\ b_w (w_buf w') = Z.min cols 2500 /\
    begins 0 (blank_screen (b_win (w_buf w')) (b_visible (w_buf w))) (a_prim a) w' /\
    screen_ok (Z.min cols 2500) (blank_screen (b_win (w_buf w')) (b_visible (w_buf w))) /\ s_out (a_prim a) = [TReset false 0].
Proof.
  intros Hw Hb He Hf Hc Hr W T. pose proof Hw as (C & _). destruct C as (_ & _ & _ & _ & _ & _ & _ & _ & C9 & C10).
  destruct (start_up c cols rows eb w Hw Hb He Hf Hc Hr) as (a & w' & E & (P1 & P2 & P3 & P4 & P5 & P6 & P7 & P8 & P9) & K & S & F & A & _).
  exists a, w'. split; [exact E|]. split; [exact P1|].
  destruct (new_fresh c (mkCoord (Z.min cols 2500) (Z.min rows 2000)) w) as (N1 & N2). rewrite (q_interfere w He), T in N1, N2. rewrite <- A in N1, N2.
  split; [|split; [|exact N2]].
  - unfold begins. split; [exact N1|]. split; [|split; [|split; [|split; [exact S|split; [exact F|]]]]].
    + unfold displays, blank_screen. cbn [p_win p_cur p_visible p_text p_off]. splits; auto. intros y x Hy Hx. apply P5; [exact Hy|]. lia.
    + intros y x. rewrite K. destruct (_ && _); [cbn; lia|apply W].
    + lia.
    + cbn [blank_screen p_off p_win]. rewrite P4. cbn [rTop]. lia.
  - unfold screen_ok, blank_screen. cbn [p_win p_cur p_visible p_text p_off]. rewrite P4. cbn [rTop rLeft rRight rBottom co_x co_y cl_attr cl_ch]. splits; try lia.
    intros n d. exact (no_marker (fun _ => 32) n d (fun j => or_introl eq_refl)).
Qed.
