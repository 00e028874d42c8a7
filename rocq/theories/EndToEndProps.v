(** C51: the user's terminal shows what the console's programs have displayed. *)
From Coq Require Import Lia.
From Verif Require Import Base BaseLemmas SmallRect Terminal TerminalSpec TerminalProofs ConsoleLine Console LargeRead LargeReadSpec LargeReadProofs Scraper AgentConsole ScraperSpec ScraperExamples DirectSpec DirectProofs DirectProps StreamSpec StreamProofs StreamProps EndToEndSpec EndToEndProofs EndToEndDirect.

(** The agent scrapes the console while programs write to it, as for C21, and its output
    is read by a terminal that is in any state at the beginning and at least as large as
    the console's window.  Nothing fails.  Line [x], which scraping begins with, is shown
    in the row the cursor is in at the beginning, and each line that was above the window
    when the last poll began in the row as far below as the line is below line [x]: with
    its characters and colours, in its final form, and blank to the right of it.  Rows
    above stay as they are. *)
Theorem C51_scrolled c te st x t0 before ts s0 w0 :
  supported c -> begins x t0 s0 w0 -> s_out s0 = [TReset false x] ->
  history (b_w (w_buf w0)) t0 (before ++ [ts]) -> within_reach c (before ++ [ts]) t0 s0 w0 ->
  let width := Z.min (b_w (w_buf w0)) 2500 in
  let mask := kept_bits (c_new c) (b_cp (w_buf w0)) (b_mode (w_buf w0)) in
  let t := final t0 before in
  tenv_ok te -> start_ok te st -> b_w (w_buf w0) <= te_w te -> (forall t', In t' (screens t0 (before ++ [ts])) -> fits te mask (b_w (w_buf w0)) t') ->
  exists s1 w1, polls c (before ++ [ts]) t0 s0 w0 = Ok (s1, w1) /\
    forall ops, without_mouse ops = s_out s1 ->
    exists tm, run_tops (E := unit) ops (new_term false true) = Ok tm /\
      (forall n, x <= n < top_line t -> row_is te (content mask width (last ts t) n) (TerminalSpec.screen te st tm) (s_row st + (n - x))) /\
      (forall row col, row < s_row st -> s_cell (TerminalSpec.screen te st tm) row col = s_cell st row col).
Proof.
  intros (Kc & Kn & Ks) B Eo Hi Re width mask t Ht Hst Tw Ft. assert (Bw : 1 <= b_w (w_buf w0) <= 32767) by (destruct B as (_ & _ & _ & Q & _); exact Q).
  destruct (whole c (b_w (w_buf w0)) (b_cp (w_buf w0)) (b_mode (w_buf w0)) Kc Kn Ks Bw te Ht Tw st Hst x t0 before ts s0 w0 B eq_refl eq_refl eq_refl Eo Hi Re Ft) as (s1 & w1 & E & H).
  exists s1, w1. split; [exact E|]. intros ops Em. destruct (H ops Em) as (tm & R & H1 & H2 & _). exists tm. split; [exact R|]. split; [|exact H2].
  intros n N. replace (s_row st + (n - x)) with (s_row st - x + n) by lia. apply H1. exact N.
Qed.
Print Assumptions C51_scrolled.

(** After a poll during which the programs did nothing, the whole window is on the
    terminal's screen, except that blank lines that were never sent may be left as they
    were; and the terminal's cursor is at the console's, or hidden if that is hidden or
    outside of the window. *)
Theorem C51_window c te st x t0 before s0 w0 :
  supported c -> begins x t0 s0 w0 -> s_out s0 = [TReset false x] ->
  history (b_w (w_buf w0)) t0 (before ++ [[]]) -> within_reach c (before ++ [[]]) t0 s0 w0 ->
  let width := Z.min (b_w (w_buf w0)) 2500 in
  let mask := kept_bits (c_new c) (b_cp (w_buf w0)) (b_mode (w_buf w0)) in
  let t := final t0 before in
  tenv_ok te -> start_ok te st -> b_w (w_buf w0) <= te_w te -> (forall t', In t' (screens t0 (before ++ [[]])) -> fits te mask (b_w (w_buf w0)) t') ->
  exists s1 w1, polls c (before ++ [[]]) t0 s0 w0 = Ok (s1, w1) /\
    forall ops, without_mouse ops = s_out s1 ->
    exists tm, run_tops (E := unit) ops (new_term false true) = Ok tm /\
      let now := TerminalSpec.screen te st tm in
      let row n := s_row st + (n - x) in
      s_top now <= row (top_line t) /\
      (forall n, x <= n < end_line t ->
         row_is te (content mask width t n) now (row n) /\ row n < s_top now + te_h te \/
         blank (content mask width t n) /\ forall col, s_cell now (row n) col = s_cell st (row n) col) /\
      let cur := p_cur t in let win := p_win t in
      cursor_is (if p_visible t && (rLeft win <=? co_x cur) && (co_x cur <=? rRight win) && (rTop win <=? co_y cur) && (co_y cur <=? rBottom win)
                 then Some (row (p_off t + co_y cur), co_x cur) else None) now.
Proof.
  intros (Kc & Kn & Ks) B Eo Hi Re width mask t Ht Hst Tw Ft. assert (Bw : 1 <= b_w (w_buf w0) <= 32767) by (destruct B as (_ & _ & _ & Q & _); exact Q).
  destruct (whole c (b_w (w_buf w0)) (b_cp (w_buf w0)) (b_mode (w_buf w0)) Kc Kn Ks Bw te Ht Tw st Hst x t0 before [] s0 w0 B eq_refl eq_refl eq_refl Eo Hi Re Ft) as (s1 & w1 & E & H).
  exists s1, w1. split; [exact E|]. intros ops Em. destruct (H ops Em) as (tm & R & _ & _ & H3). destruct (H3 eq_refl) as (H4 & H5 & H6). fold t in H4, H5, H6. exists tm. split; [exact R|]. cbv zeta. split; [lia|]. split.
  - intros n N. replace (s_row st + (n - x)) with (s_row st - x + n) by lia. apply H4. exact N.
  - assert (Ec : containsCoord (p_win t) (p_cur t) = (rLeft (p_win t) <=? co_x (p_cur t)) && (co_x (p_cur t) <=? rRight (p_win t)) && (rTop (p_win t) <=? co_y (p_cur t)) && (co_y (p_cur t) <=? rBottom (p_win t))).
    { apply Bool.eq_true_iff_eq. destruct (p_cur t) as [cx cy]. rewrite SmallRectProofs.contains_coord_spec. cbn [co_x co_y]. unfold SmallRectSpec.cell_in. rewrite !Bool.andb_true_iff, !Z.leb_le. tauto. }
    rewrite Ec in H5. rewrite !Bool.andb_assoc in H5. destruct (_ && _) in H5 |- *; [|exact H5].
    replace (s_row st + (p_off t + co_y (p_cur t) - x)) with (s_row st - x + p_off t + co_y (p_cur t)) by lia. exact H5.
Qed.
Print Assumptions C51_window.

(** Full-screen mode.  When it starts, at whatever time in whatever history of output, and
    at every poll in it, the agent's output can be written, and a terminal of the size
    that the agent was told shows the visible part of the console's window, and its
    cursor. *)
Theorem C51_full_start c te st strict s w i s' w' off tm ops : (c_new c = true -> c_w8 c = true) -> tenv_ok te -> start_ok te st ->
  scraper_ok s -> s_pty s = mkCoord (te_w te) (te_h te) -> at_rest w -> s_direct s = false ->
  scrapeBuffer c s w = Ok (i, s', w') -> s_direct s' = true -> all_legible te i s' ->
  reach te st true strict off tm -> (strict = true -> t_hidden tm = false) -> without_mouse ops = new_ops s s' ->
  exists tm', run_tops (E := unit) ops tm = Ok tm' /\ poll_shown c te strict (fun _ => None) i s' w' (TerminalSpec.screen te st tm').
Proof.
  intros Hc Ht Hs V Sp W D E Hd Lg R Hid Ea. destruct (keeps_enter c te st strict Hc Ht Hs s w i s' w' off tm ops V Sp W D E Hd Lg R Hid Ea) as (tm' & Er & G).
  exists tm'. split; [exact Er|]. apply good_shown; assumption.
Qed.
Print Assumptions C51_full_start.
Theorem C51_full_poll c te st strict s tm last w i s' w' ops : (c_new c = true -> c_w8 c = true) -> tenv_ok te -> start_ok te st ->
  full_output c te st strict s tm last -> at_rest w ->
  scrapeBuffer c s w = Ok (i, s', w') -> s_direct s' = true -> all_legible te i s' -> without_mouse ops = new_ops s s' ->
  exists tm', run_tops (E := unit) ops tm = Ok tm' /\ poll_shown c te strict last i s' w' (TerminalSpec.screen te st tm').
Proof.
  intros Hc Ht Hs F W E Hd Lg Ea. apply (output_keeps c te st strict Hc Ht Hs) in F. destruct (keeps_poll c te st strict Hc Ht s tm last w i s' w' ops F W E Hd Lg Ea) as (tm' & Er & G).
  exists tm'. split; [exact Er|]. apply good_shown; assumption.
Qed.
Print Assumptions C51_full_poll.

(** *** Non-vacuity
    The run of C21 in a terminal of 80 columns and 30 rows that is full of text and whose
    cursor is in row 20. *)
Definition te51 : tenv := mkTenv 80 30 (fun _ => 1).
Definition st51 : TerminalSpec.scr := mkScr 0 20 0 (fun _ _ => (Glyph 88, rend0)) rend0 (fun m => m =? 25) PGround.
Example C51_setting : tenv_ok te51 /\ start_ok te51 st51 /\ forall t, In t (screens (after 0) run21) -> fits te51 0x7FFF 80 t.
Proof.
  split; [unfold tenv_ok; cbn; lia|]. split; [unfold start_ok, mouse_reporting; cbn; repeat split; try lia; intros m Hm; repeat destruct Hm as [<-|Hm]; try reflexivity; contradiction|].
  assert (G : forall n, 0 <= n -> fits te51 0x7FFF 80 (after n)).
  { intros n N. split; [cbn [after p_win rTop rBottom te_h te51]; lia|]. intros k. apply ascii_line; [reflexivity|].
    apply Forall_forall. intros q Hq. apply in_map_iff in Hq as (xx & <- & _). cbn [after p_text]. unfold written.
    destruct (_ && _); unfold masked; cbn [cl_ch cl_attr]; (split; [lia|split; [reflexivity|]]); vm_compute; split; congruence || reflexivity. }
  intros t [<-|I']; [apply G; lia|]. cbn [run21 concat app] in I'. repeat (destruct I' as [<-|I']; [apply G; lia|]). contradiction.
Qed.
Example C51_run : exists s1 w1, polls (cfg0 true false) run21 (after 0) agent21 start21 = Ok (s1, w1) /\
  forall ops, without_mouse ops = s_out s1 -> exists tm, run_tops (E := unit) ops (new_term false true) = Ok tm /\
    row_is te51 (content 0x7FFF 80 (after 3090) 3000) (TerminalSpec.screen te51 st51 tm) 3020 /\
    s_cell (TerminalSpec.screen te51 st51 tm) 19 7 = (Glyph 88, rend0) /\ s_row (TerminalSpec.screen te51 st51 tm) = 3110.
Proof.
  destruct C51_setting as (T1 & T2 & T3). destruct C21_history as (Hi & Sl & Tl & El).
  assert (Sup : supported (cfg0 true false)) by (split; [apply cfg0_ok|split; [reflexivity|reflexivity]]).
  pose proof (C21_slow_enough (cfg0 true false) 0 (after 0) run21 agent21 start21 Sup C21_begins Hi Sl) as Re.
  change run21 with ([[after 2990]; [after 2990]; [after 3090]] ++ [[]]) in *.
  assert (So : s_out agent21 = [TReset false 0]) by (apply (C21_start (cfg0 true false) (mkCoord 80 25) start21)).
  destruct (C51_scrolled (cfg0 true false) te51 st51 0 (after 0) _ [] agent21 start21 Sup C21_begins So Hi Re T1 T2 ltac:(cbn; lia) T3) as (s1 & w1 & E & H).
  destruct (C51_window (cfg0 true false) te51 st51 0 (after 0) _ agent21 start21 Sup C21_begins So Hi Re T1 T2 ltac:(cbn; lia) T3) as (s2 & w2 & E2 & H2).
  exists s1, w1. split; [exact E|]. intros ops Em. destruct (H ops Em) as (tm & R & R1 & R2). exists tm. split; [exact R|].
  rewrite E in E2. injection E2 as <- <-. destruct (H2 ops Em) as (tm' & R' & _ & _ & R3). rewrite R in R'. injection R' as <-.
  split; [apply (R1 3000); vm_compute; split; congruence || reflexivity|]. split; [apply (R2 19 7); reflexivity|].
  cbv zeta in R3. destruct R3 as (_ & R3 & _). rewrite R3. vm_compute. reflexivity.
Qed.

(** Full-screen mode: the two polls of C22's example, with mouse reporting switched on in
    between.  The changed cell is shown in its place. *)
Definition te51f : tenv := mkTenv 20 10 (fun _ => 1).
Definition st51f : TerminalSpec.scr := mkScr 3 7 0 (fun _ _ => (Glyph 88, rend0)) rend0 (fun m => m =? 25) PGround.
Lemma legible_by te d : te_wid te = (fun _ => 1) -> forallb (fun q => (32 <=? cl_ch q) && (cl_ch q <? 127) && negb (half q) && (0 <=? cl_attr q) && (cl_attr q <? 65536)) d = true -> legible te d.
Proof.
  intros Ew H. rewrite forallb_forall in H.
  assert (F : Forall (fun q => 32 <= cl_ch q < 127 /\ half q = false /\ 0 <= cl_attr q < 65536) d).
  { apply Forall_forall. intros q Hq. specialize (H q Hq). rewrite !Bool.andb_true_iff in H. destruct H as ((((H1 & H2) & H3) & H4) & H5). apply Bool.negb_true_iff in H3. repeat split; auto; lia. }
  split; [apply ascii_line; [intros; rewrite Ew; reflexivity|exact F]|].
  intros i a b Ha Hb Hx. apply znth_In in Ha. rewrite Forall_forall in F. destruct (F a Ha) as (F1 & F2 & _). destruct Hx as [Hx|Hx]; [congruence|lia].
Qed.
Lemma legible_all te i s : te_wid te = (fun _ => 1) ->
  forallb (fun k => forallb (fun q => (32 <=? cl_ch q) && (cl_ch q <? 127) && negb (half q) && (0 <=? cl_attr q) && (cl_attr q <? 65536)) (seen i s k)) (zseq 0 (height_of (shown_rect i (s_pty s)))) = true -> all_legible te i s.
Proof. intros Ew H k Hk. rewrite forallb_forall in H. apply legible_by; [exact Ew|]. apply H. apply LargeReadProofs.zseq_in. lia. Qed.
Example C51_two_polls : exists tm1 tm2 w2, run_tops (E := unit) (new_ops start1 sst1) (new_term false true) = Ok tm1 /\
  run_tops (E := unit) ([TMouse true] ++ new_ops sst1 sst2) tm1 = Ok tm2 /\
  poll_shown cfg1 te51f true (DirectSpec.look (poll_i start1 (fun b => b)) sst1 (fun _ => None)) (poll_i sst1 write_x) sst2 w2 (TerminalSpec.screen te51f st51f tm2) /\
  row_is te51f (zrepeat (mkCell 32 7) 5 ++ [mkCell 88 7] ++ zrepeat (mkCell 32 7) 14) (TerminalSpec.screen te51f st51f tm2) (s_top (TerminalSpec.screen te51f st51f tm2) + 2).
Proof.
  assert (P : forall s f s', s' = poll_s s f -> polled s f = true -> exists w', scrapeBuffer cfg1 s (console1 f) = Ok (poll_i s f, s', w')).
  { intros s f s'' ->. unfold polled, poll_i, poll_s. destruct (scrapeBuffer cfg1 s (console1 f)) as [[[i s'] w']| | | |]; try discriminate. intros _. exists w'. reflexivity. }
  assert (R : forall f, console_okb (f (small buf0)) = true -> at_rest (console1 f)).
  { intros f Hf. split; [apply console_okb_ok; exact Hf|]. split; [constructor|reflexivity]. }
  assert (Q1 : sst1 = poll_s start1 (fun b => b)) by (unfold sst1; reflexivity). assert (Q2 : sst2 = poll_s sst1 write_x) by (unfold sst2; reflexivity).
  destruct (P start1 (fun b => b) sst1 Q1 ltac:(vm_compute; reflexivity)) as (w1 & E1). destruct (P sst1 write_x sst2 Q2 ltac:(vm_compute; reflexivity)) as (w2 & E2).
  assert (D1 : s_direct sst1 = true) by (vm_compute; reflexivity). assert (D2 : s_direct sst2 = true) by (vm_compute; reflexivity).
  assert (O1 : scraper_ok start1) by (vm_compute; intuition discriminate).
  assert (T1 : tenv_ok te51f) by (unfold tenv_ok; cbn; lia).
  assert (T2 : start_ok te51f st51f) by (unfold start_ok, mouse_reporting; cbn; repeat split; try lia; intros m Hm; repeat destruct Hm as [<-|Hm]; try reflexivity; contradiction).
  assert (Cn : c_new cfg1 = true -> c_w8 cfg1 = true) by (intros H; discriminate H).
  assert (L1 : all_legible te51f (poll_i start1 (fun b => b)) sst1) by (apply legible_all; [reflexivity|vm_compute; reflexivity]).
  assert (L2 : all_legible te51f (poll_i sst1 write_x) sst2) by (apply legible_all; [reflexivity|vm_compute; reflexivity]).
  assert (M1 : without_mouse (new_ops start1 sst1) = new_ops start1 sst1) by (vm_compute; reflexivity).
  assert (M2 : without_mouse ([TMouse true] ++ new_ops sst1 sst2) = new_ops sst1 sst2) by (vm_compute; reflexivity).
  destruct (C51_full_start cfg1 te51f st51f true start1 (console1 (fun b => b)) (poll_i start1 (fun b => b)) sst1 w1 _ _ _ Cn T1 T2 O1 eq_refl (R (fun b => b) eq_refl) eq_refl E1 D1 L1 (reach_new te51f st51f true true) (fun _ => eq_refl) M1) as (tm1 & Er1 & _).
  pose proof (fo_enter cfg1 te51f st51f true start1 (console1 (fun b => b)) (poll_i start1 (fun b => b)) sst1 w1 _ _ _ tm1 O1 eq_refl (R (fun b => b) eq_refl) eq_refl E1 D1 L1 (reach_new te51f st51f true true) (fun _ => eq_refl) M1 Er1) as F1.
  destruct (C51_full_poll cfg1 te51f st51f true sst1 tm1 _ (console1 write_x) (poll_i sst1 write_x) sst2 w2 _ Cn T1 T2 F1 (R write_x eq_refl) E2 D2 L2 M2) as (tm2 & Er2 & S2).
  exists tm1, tm2, w2. split; [exact Er1|]. split; [exact Er2|]. split; [exact S2|]. destruct S2 as (S2 & _). apply (S2 2). vm_compute. reflexivity.
Qed.
