From Verif Require Import Base BaseLemmas SmallRect SmallRectSpec SmallRectProofs ConsoleLine ConsoleLineSpec ConsoleLineProofs Console LargeRead LargeReadSpec LargeReadProofs TerminalSpec TerminalTotal Scraper AgentConsole ScraperSpec.
Ltac Zify.zify_post_hook ::= Z.div_mod_to_equations.
Ltac splits := repeat match goal with |- _ /\ _ => split end.

Definition good {E A} (r : res E A) (P : A -> Prop) : Prop := match r with Ok a => P a | Throw _ => True | _ => False end.
Lemma good_bind {E A B} (m : res E A) (k : A -> res E B) (P : A -> Prop) (Q : B -> Prop) :
  good m P -> (forall a, P a -> good (k a) Q) -> good (bind m k) Q.
Proof. destruct m; cbn; auto. Qed.
Lemma good_weak {E A} (r : res E A) (P Q : A -> Prop) : good r P -> (forall a, P a -> Q a) -> good r Q.
Proof. destruct r; cbn; auto. Qed.
Lemma good_assert {E A} b (k : res E A) Q : b = true -> good k Q -> good (let! _ := assert_ b in k) Q.
Proof. intros -> H. exact H. Qed.
Lemma good_assume {A} c x b (k : res broken A) Q : ((c_strict c = true -> b = true) -> good k Q) -> good (let! _ := assume c x b in k) Q.
Proof. intros H. unfold assume. destruct (c_strict c) eqn:E, b; cbn in *; auto; apply H; congruence. Qed.

(** *** The console *)
Definition winv (w : world) : Prop := console_ok (w_buf w) /\ programs_ok (w_env w) /\ w_sel w = w_frozen w.
Lemma interfere_ok w : winv w -> winv (interfere w).
Proof.
  intros (A & B & C). unfold interfere. destruct (w_sel w) eqn:Es; [split; [auto|split; auto; congruence]|].
  destruct (w_env w) as [|f r] eqn:Ee; [split; [auto|split]; [rewrite Ee; constructor|congruence]|].
  inversion B as [|? ? Hf Hr]; subst. split; [apply Hf; exact A|]. split; [exact Hr|]. cbn. congruence.
Qed.
Lemma turn_ok w : winv w -> winv (turn w).
Proof.
  intros (A & B & C). unfold turn.
  destruct (w_env w) as [|f r] eqn:Ee; [split; [auto|split]; [rewrite Ee; constructor|congruence]|].
  inversion B as [|? ? Hf Hr]; subst. split; [apply Hf; exact A|]. split; [exact Hr|]. cbn. congruence.
Qed.
Lemma interfere_frozen w : w_frozen (interfere w) = w_frozen w.
Proof. unfold interfere. destruct (w_sel w); [reflexivity|]. destruct (w_env w); reflexivity. Qed.
Lemma interfere_sel_eq w : w_sel (interfere w) = w_sel w.
Proof. unfold interfere. destruct (w_sel w) eqn:E; [exact E|]. destruct (w_env w); cbn; auto. Qed.
Lemma turn_frozen w : w_frozen (turn w) = w_frozen w.
Proof. unfold turn. destruct (w_env w); reflexivity. Qed.
Lemma setFrozen_ok b w : winv w -> winv (setFrozen b w) /\ w_frozen (setFrozen b w) = b.
Proof.
  intros H. unfold setFrozen. destruct (Bool.eqb b (w_frozen w)) eqn:Eb.
  - split; [exact H|]. apply Bool.eqb_prop in Eb. auto.
  - pose proof (interfere_ok w H) as (A & B & C). destruct b; [|destruct (w_sel (interfere w))]; cbn; (split; [|reflexivity]); split; auto.
Qed.
Lemma clearLines_ok r n i w : winv w -> winv (clearLines r n i w) /\ w_frozen (clearLines r n i w) = w_frozen w.
Proof.
  intros H. pose proof (interfere_ok w H) as (A & B & C). unfold clearLines. cbn. rewrite interfere_frozen. split; [|reflexivity]. split; [exact A|split; [exact B|]]. exact C.
Qed.
Lemma write_col_ok r d w : winv w -> winv (write_col r d w) /\ w_frozen (write_col r d w) = w_frozen w.
Proof.
  intros H. pose proof (interfere_ok w H) as (A & B & C). unfold write_col. cbn. rewrite interfere_frozen. split; [|reflexivity]. split; [exact A|split; [exact B|]]. exact C.
Qed.
Lemma fails_ok w : w_buf (snd (fails w)) = w_buf w /\ w_env (snd (fails w)) = w_env w /\ w_sel (snd (fails w)) = w_sel w /\ w_frozen (snd (fails w)) = w_frozen w.
Proof. unfold fails. destruct (w_fail w); cbn; auto. Qed.
Lemma moveWindow_ok r w : winv w -> winv (moveWindow r w) /\ w_frozen (moveWindow r w) = w_frozen w.
Proof.
  intros H. pose proof (interfere_ok w H) as (A & B & C). unfold moveWindow. pose proof (fails_ok (interfere w)) as (F1 & F2 & F3 & F4).
  destruct (fails (interfere w)) as [fl w1]. cbn [snd] in *.
  destruct (negb fl && valid_window (w_buf (interfere w)) r) eqn:Ev.
  - split; [|cbn; rewrite F4; apply interfere_frozen]. split; [|split; cbn; [rewrite F2; exact B|congruence]].
    destruct fl; [discriminate|]. cbn in Ev. unfold valid_window, in_buf in Ev. cbn.
    destruct A as (A1 & A2 & A3 & A4 & A5 & A6 & A7 & A8 & A9 & A10). unfold console_ok, set_win. cbn. splits; try lia; tauto.
  - split; [|cbn; rewrite F4; apply interfere_frozen]. split; [cbn; rewrite F1; exact A|split; cbn; [rewrite F2; exact B|congruence]].
Qed.
Lemma setBufferSize_ok x y w : x <= 32767 -> y <= 32767 -> winv w ->
  winv (snd (setBufferSize x y w)) /\ w_frozen (snd (setBufferSize x y w)) = w_frozen w.
Proof.
  intros Hx Hy H. pose proof (interfere_ok w H) as (A & B & C). unfold setBufferSize. pose proof (fails_ok (interfere w)) as (F1 & F2 & F3 & F4).
  destruct (fails (interfere w)) as [fl w1]. cbn [snd] in *.
  destruct (negb fl && (rRight (b_win (w_buf (interfere w))) - rLeft (b_win (w_buf (interfere w))) <? x) && (rBottom (b_win (w_buf (interfere w))) - rTop (b_win (w_buf (interfere w))) <? y)) eqn:Ev; cbn [snd].
  - split; [|cbn; rewrite F4; apply interfere_frozen]. split; [|split; cbn; [rewrite F2; exact B|congruence]].
    destruct fl; [discriminate|]. cbn in Ev. cbn.
    destruct A as (A1 & A2 & A3 & A4 & A5 & A6 & A7 & A8 & A9 & A10). unfold console_ok, set_size, set_cur, set_win, fit_window. cbn. splits; try lia; tauto.
  - split; [|cbn; rewrite F4; apply interfere_frozen]. split; [cbn; rewrite F1; exact A|split; cbn; [rewrite F2; exact B|congruence]].
Qed.
Lemma widen_ok fuel : forall x y w, y <= 32767 -> winv w -> winv (widen fuel x y w) /\ w_frozen (widen fuel x y w) = w_frozen w.
Proof.
  induction fuel as [|f IH]; intros x y w Hy H; [auto|]. cbn [widen]. destruct (x <? 20) eqn:Ex; [|auto].
  pose proof (setBufferSize_ok (x + 1) y w ltac:(lia) Hy H) as (A & B). destruct (setBufferSize (x + 1) y w) as [ok w']. cbn [snd] in *.
  destruct ok; [auto|]. destruct (IH (x + 1) y w' Hy A) as (C & D). split; [exact C|congruence].
Qed.
Lemma resizeBufferRange_ok x y w : x <= 32767 -> y <= 32767 -> winv w -> winv (resizeBufferRange x y w) /\ w_frozen (resizeBufferRange x y w) = w_frozen w.
Proof.
  intros Hx Hy H. unfold resizeBufferRange. pose proof (setBufferSize_ok x y w Hx Hy H) as (A & B). destruct (setBufferSize x y w) as [ok w']. cbn [snd] in *.
  destruct ok; [auto|]. destruct (widen_ok 20 x y w' Hy A) as (C & D). split; [exact C|congruence].
Qed.
Lemma setCursorPosition_ok p w : winv w -> winv (setCursorPosition p w) /\ w_frozen (setCursorPosition p w) = w_frozen w.
Proof.
  intros H. pose proof (interfere_ok w H) as (A & B & C). unfold setCursorPosition.
  destruct ((0 <=? co_x p) && (co_x p <? b_w (w_buf (interfere w))) && (0 <=? co_y p) && (co_y p <? b_h (w_buf (interfere w)))) eqn:Ep.
  - split; [|cbn; apply interfere_frozen]. split; [|split; [exact B|exact C]]. cbn. destruct A as (A1 & A2 & A3 & A4 & A5 & A6 & A7 & A8 & A9 & A10). unfold console_ok, set_cur. cbn. splits; try lia; tauto.
  - split; [split; auto|apply interfere_frozen].
Qed.
Definition info_ok (i : cinfo) : Prop :=
  1 <= co_x (i_size i) <= 32767 /\ 1 <= co_y (i_size i) <= 32767 /\
  0 <= rLeft (i_win i) <= rRight (i_win i) /\ rRight (i_win i) < co_x (i_size i) /\
  0 <= rTop (i_win i) <= rBottom (i_win i) /\ rBottom (i_win i) < co_y (i_size i) /\
  0 <= co_x (i_cur i) < co_x (i_size i) /\ 0 <= co_y (i_cur i) < co_y (i_size i).
Lemma info_of_ok b : console_ok b -> info_ok (info_of b).
Proof. unfold console_ok, info_ok, info_of. cbn. tauto. Qed.
Lemma win_height i : info_ok i -> rHeight (i_win i) = rBottom (i_win i) - rTop (i_win i) + 1.
Proof. intros (A1 & A2 & A3 & A4 & A5 & A6 & _). unfold rHeight. rewrite LargeReadProofs.s16_id by lia. lia. Qed.
Lemma win_width i : info_ok i -> rWidth (i_win i) = rRight (i_win i) - rLeft (i_win i) + 1.
Proof. intros (A1 & A2 & A3 & A4 & A5 & A6 & _). unfold rWidth. rewrite LargeReadProofs.s16_id by lia. lia. Qed.
Lemma win_stop i : info_ok i -> windowStop (i_win i) = rBottom (i_win i) + 1.
Proof. intros H. unfold windowStop. rewrite (win_height i H). lia. Qed.

(** *** Reading *)
Definition lread_ok (r : lread) (area : srect) : Prop :=
  lr_rect r = area /\ lr_width r = rRight area - rLeft area + 1 /\ cells_in area <= zlen (lr_data r).
(** The world after a read differs in the log only, apart from what programs did *)
Lemma zlen_clipped b r old : zlen (clipped b r old) = Z.max 0 (rWidth r * rHeight r).
Proof. unfold clipped, zlen. rewrite map_length, seq_length. lia. Qed.
Definition nonneg_dims (r : srect) : Prop := 0 <= rRight r - rLeft r + 1 <= 32767 /\ 0 <= rBottom r - rTop r + 1 <= 32767.
Lemma dims r : nonneg_dims r -> rWidth r = rRight r - rLeft r + 1 /\ rHeight r = rBottom r - rTop r + 1.
Proof. intros (A & B). unfold rWidth, rHeight. rewrite !LargeReadProofs.s16_id by lia. auto. Qed.
Lemma read_good {E} nw r data off w : winv w -> nonneg_dims r -> 0 <= off -> off + cells_in r <= zlen data ->
  (nw = true \/ in_buf (w_buf (interfere w)) r = true) ->
  exists d, @read E nw r data off w = Ok (d, with_log (RRead r) (interfere w)) /\ zlen d = zlen data.
Proof.
  intros W D A B C. destruct (dims r D) as (Hw & Hh). unfold read. rewrite Hw, Hh. fold (cells_in r).
  assert (P : 0 <= cells_in r) by (unfold cells_in; destruct D; nia).
  destruct ((cells_in r <? 0) || (off <? 0) || (zlen data <? off + cells_in r)) eqn:E1; [lia|].
  change (w_buf (with_log (RRead r) (interfere w))) with (w_buf (interfere w)).
  destruct (in_buf (w_buf (interfere w)) r) eqn:Ei.
  - eexists. split; [reflexivity|]. assert (Lr : zlen (rect_cells (w_buf (interfere w)) r) = cells_in r).
    { unfold rect_cells. rewrite Hh. rewrite <- flat_map_concat_map. rewrite (flat_map_len _ (rRight r - rLeft r + 1)).
      - rewrite zlen_zseq by (destruct D; lia). reflexivity.
      - intros y. unfold row_cells. rewrite Hw. rewrite <- (zlen_zseq (rLeft r) (rRight r - rLeft r + 1)) at 2 by (destruct D; lia). unfold zlen. now rewrite map_length. }
    apply (proj1 (blit_spec data off (rect_cells (w_buf (interfere w)) r) A ltac:(lia))).
  - destruct C as [->|C]; [|discriminate]. eexists. split; [reflexivity|].
    set (src := clipped _ _ _). assert (Ls : zlen src = cells_in r) by (unfold src; rewrite zlen_clipped, Hw, Hh; unfold cells_in in *; lia).
    apply (proj1 (blit_spec data off src A ltac:(lia))).
Qed.
Lemma log_ok q w : winv w -> winv (with_log q w).
Proof. auto. Qed.
Definition same_run (w w' : world) : Prop := winv w' /\ w_frozen w' = w_frozen w /\ (w_sel w = true -> w_buf w' = w_buf w).
Lemma same_refl w : winv w -> same_run w w.
Proof. intros H. split; auto. Qed.
Lemma same_interfere w : winv w -> same_run w (interfere w).
Proof. intros H. split; [apply interfere_ok; exact H|]. split; [apply interfere_frozen|]. intros S. now rewrite interfere_sel. Qed.
Lemma same_sel w w' : winv w -> same_run w w' -> w_sel w' = w_sel w.
Proof. intros (_ & _ & A) ((_ & _ & B) & C & _). congruence. Qed.
Lemma same_trans a b c : winv a -> same_run a b -> same_run b c -> same_run a c.
Proof.
  intros W A B. pose proof (same_sel a b W A) as S. destruct A as (A1 & A2 & A3), B as (B1 & B2 & B3). split; [exact B1|]. split; [congruence|]. intros Hs. rewrite B3, A3; auto. congruence.
Qed.
Lemma same_log w q : winv w -> same_run w (with_log q (interfere w)).
Proof. intros H. destruct (same_interfere w H) as (A & B & C). split; [exact A|]. split; [exact B|exact C]. Qed.

Definition area_okay (area : srect) : Prop := 0 <= rLeft area <= rRight area /\ 0 <= rTop area <= rBottom area /\ rRight area - rLeft area < 2500 /\ rBottom area - rTop area < 32767 /\ rBottom area <= 32767 /\ rRight area <= 32767.
Lemma chunks_good nw area maxLines : area_okay area -> 1 <= maxLines <= 2500 ->
  forall fuel cur l w, winv w -> (nw = true \/ (w_sel w = true /\ in_buf (w_buf w) area = true)) ->
  rTop area <= cur <= rBottom area + 1 -> rBottom area + 1 - cur < Z.of_nat fuel -> lread_ok l area ->
  good (@read_chunks broken fuel nw area maxLines cur l w) (fun '(l', w') => lread_ok l' area /\ same_run w w').
Proof.
  intros (R1 & R2 & R3 & R4 & R5 & R6) M. assert (Hw : rWidth area = rRight area - rLeft area + 1) by (apply dims; split; lia).
  induction fuel as [|fuel IH]; intros cur l w W C Hc Hf (L1 & L2 & L3); [lia|]. cbn [read_chunks].
  destruct (rBottom area <? cur) eqn:Ec; [split; [split; auto|apply same_refl; exact W]|].
  set (n := Z.min maxLines (rBottom area + 1 - cur)).
  assert (Hn : 1 <= n <= maxLines /\ cur + n - 1 <= rBottom area) by (unfold n; lia).
  rewrite Hw, mk_spec by (unfold short; lia). replace (rLeft area + (rRight area - rLeft area + 1) - 1) with (rRight area) by lia.
  set (sub := mkRect (rLeft area) cur (rRight area) (cur + n - 1)).
  assert (Cs : cells_in sub = (rRight area - rLeft area + 1) * n) by (unfold cells_in, sub; cbn; f_equal; lia).
  assert (Ca : cells_in area = (rRight area - rLeft area + 1) * (rBottom area + 1 - rTop area)) by (unfold cells_in; f_equal; lia).
  assert (Ei : @line_index broken l cur = Ok ((cur - rTop area) * (rRight area - rLeft area + 1))).
  { unfold line_index. rewrite L1, L2. destruct ((cur <? rTop area) || (rBottom area <? cur)) eqn:E1; [lia|]. cbv zeta.
    destruct ((0 <=? _) && _) eqn:E2; [reflexivity|]. nia. }
  rewrite Ei. cbn [bind].
  destruct (@read_good broken nw sub (lr_data l) ((cur - rTop area) * (rRight area - rLeft area + 1)) w) as (d & Ed & Ld); auto.
  { unfold sub, nonneg_dims. cbn. lia. } { nia. } { nia. }
  { destruct C as [C|(C1 & C2)]; [auto|]. right. rewrite interfere_sel by exact C1. unfold in_buf, sub in *. cbn. lia. }
  rewrite Ed. cbn [bind]. replace (rBottom sub + 1) with (cur + n) by (unfold sub; cbn; lia).
  pose proof (same_log w (RRead sub) W) as S. eapply good_weak; [apply IH|].
  - apply S.
  - destruct C as [C|(C1 & C2)]; [auto|]. right. split; [rewrite (same_sel _ _ W S); exact C1|]. destruct S as (_ & _ & S). rewrite S; auto.
  - lia.
  - lia.
  - split; [exact L1|]. split; [exact L2|]. cbn [lr_data]. lia.
  - intros [l' w'] (A & B). split; [exact A|]. eapply same_trans; eauto.
Qed.
Lemma large_good c w8 area mask l w : area_okay area -> winv w ->
  (c = true \/ (w_sel w = true /\ in_buf (w_buf w) area = true)) ->
  good (@largeConsoleRead broken c w8 area mask l w) (fun '(l', w') => lread_ok l' area /\ same_run w w').
Proof.
  intros O W C. pose proof O as (R1 & R2 & R3 & R4 & R5 & R6). assert (D : nonneg_dims area) by (split; lia). destruct (dims area D) as (Hw & Hh).
  unfold largeConsoleRead, LargeRead.MAX_CONSOLE_WIDTH. rewrite Hw, Hh. apply good_assert; [lia|]. fold (cells_in area). cbv zeta.
  assert (Pc : 0 <= cells_in area) by (unfold cells_in; nia).
  set (data := if zlen (lr_data l) <? cells_in area then _ else _).
  assert (Ld : cells_in area <= zlen data).
  { unfold data. destruct (zlen (lr_data l) <? cells_in area) eqn:El; [|lia]. rewrite zlen_app, zlen_repeat. lia. }
  apply good_bind with (P := fun '(l', w') => lread_ok l' area /\ same_run w w').
  - destruct w8.
    + destruct (@read_good broken c area data 0 w) as (d & Ed & Hd); auto; try lia.
      { destruct C as [C|(C1 & C2)]; [auto|]. right. now rewrite interfere_sel. }
      cbn [lr_data]. rewrite Ed. cbn. split; [split; [reflexivity|split; [reflexivity|cbn; lia]]|apply same_log; exact W].
    + apply chunks_good; auto; try lia.
      * split; [reflexivity|]. split; [reflexivity|exact Ld].
  - intros [l' w'] ((A1 & A2 & A3) & B). destruct (mask =? 65535); [split; [split; auto|exact B]|]. split; [|exact B].
    split; [exact A1|]. split; [exact A2|]. cbn [lr_data]. rewrite zlen_app, zlen_map, zlen_zfirstn, zlen_zskipn. lia.
Qed.
Lemma lineData_good {E} r area y : lread_ok r area -> rLeft area <= rRight area -> rTop area <= y <= rBottom area ->
  good (@lineData E r y) (fun d => rRight area - rLeft area + 1 <= zlen d).
Proof.
  intros (A & B & C) Hx Hy. unfold lineData, line_index. rewrite A, B. destruct ((y <? rTop area) || (rBottom area <? y)) eqn:E1; [lia|]. cbv zeta.
  set (wd := rRight area - rLeft area + 1) in *. assert (P : (y - rTop area) * wd + wd <= zlen (lr_data r) /\ 0 <= (y - rTop area) * wd) by (unfold cells_in in C; fold wd in C; nia).
  destruct ((0 <=? (y - rTop area) * wd) && ((y - rTop area) * wd <? zlen (lr_data r))) eqn:E2; [|lia]. cbn. rewrite zlen_zskipn. lia.
Qed.

(** *** The scraper's state *)
Definition line_ok (l : cline) : Prop := 0 <= prevLength l <= zlen (prevData l).
Record sinv (s : sst) : Prop := {
  v_lines : zlen (s_lines s) = 3000;
  v_each : Forall line_ok (s_lines s);
  v_ptyx : 1 <= co_x (s_pty s) <= 2500;
  v_ptyy : 1 <= co_y (s_pty s) <= 2000;
  v_scrolled : 0 <= s_scrolled s;
  v_scraped : s_scrolled s <= s_scraped s;
  v_dirty : 0 <= s_dirty s <= 3000;
  v_sync : s_syncRow s = -1 \/ (0 <= s_syncRow s <= 2984 /\ s_syncRow s <= s_scraped s - s_scrolled s /\ s_syncRow s <= s_dirtyTop s);
  v_direct : s_direct s = true -> s_syncRow s = -1;
  v_sent : Forall top_sized (s_out s) }.
(** At row 0 only if a new marker is about to be placed *)
Definition marker_at (c : cfg) (win : srect) (s : sst) : Prop := c_strict c = true -> s_syncRow s = 0 -> 432 <= rTop win.
Definition marker_ok (c : cfg) (s : sst) : Prop := c_strict c = true -> s_syncRow s <> 0.

Lemma znth_none_inv {A} (l : list A) i : znth l i = None -> i < 0 \/ zlen l <= i.
Proof. unfold znth, zlen. destruct (i <? 0) eqn:E; [lia|]. intros H. apply nth_error_None in H. lia. Qed.
Lemma setLine_good {E} l data n : line_ok l -> 1 <= n <= zlen data -> good (@setLine E l data n) line_ok.
Proof.
  intros L H. unfold setLine. destruct (zlen data <? n) eqn:E1; [lia|]. cbn. split; [cbn; lia|]. cbn. rewrite zlen_app, zlen_zfirstn, zlen_zskipn. lia.
Qed.
Lemma detect_good {E} l data n : line_ok l -> 1 <= n <= zlen data -> good (@detectChangeAndSetLine E l data n) (fun '(_, l') => line_ok l').
Proof.
  intros (L1 & L2) H. unfold detectChangeAndSetLine. apply good_assert; [lia|]. apply good_assert; [lia|].
  assert (S : forall b : bool, good (let! s := @setLine E l data n in Ok (b, s)) (fun '(_, l') => line_ok l')).
  { intros b. apply good_bind with (P := line_ok); [apply setLine_good; [split; lia|lia]|]. intros a Ha. exact Ha. }
  destruct (n =? prevLength l) eqn:E1.
  - rewrite areLinesEqual_spec by lia. cbn [bind]. destruct (cells_eqb _ _); [split; lia|apply S].
  - destruct (prevLength l =? 0) eqn:E2; [apply S|]. apply good_assert; [lia|].
    destruct (znth (prevData l) (prevLength l - 1)) as [pc|] eqn:Ep; [|apply znth_none_inv in Ep; lia].
    destruct (znth data (n - 1)) as [nc|] eqn:En; [|apply znth_none_inv in En; lia].
    apply good_bind with (P := fun _ => True); [|intros b _; apply S].
    destruct (n <? prevLength l) eqn:E3.
    + rewrite areLinesEqual_spec by lia. cbn [bind]. destruct (cells_eqb _ _); [|exact I].
      destruct (@isLineBlank_spec E (prevData l) n (prevLength l - n) (cl_attr nc)) as (b & -> & _); [lia|lia|lia|exact I].
    + apply good_assert; [lia|]. rewrite areLinesEqual_spec by lia. cbn [bind]. destruct (cells_eqb _ _); [|exact I].
      destruct (@isLineBlank_spec E (prevData l) (prevLength l) (Z.min (zlen (prevData l)) n - prevLength l) (cl_attr pc)) as (b & -> & _); [lia|lia|lia|]. cbn [bind].
      destruct b; [|exact I].
      destruct (@isLineBlank_spec E data (prevLength l) (n - prevLength l) (cl_attr pc)) as (b & -> & _); [lia|lia|lia|exact I].
Qed.

(** Fields of the invariant after updates *)
Lemma sent_emit o s : Forall top_sized (s_out s) -> top_sized o -> Forall top_sized (s_out (emit o s)).
Proof. intros H Ho. cbn. apply Forall_app. split; [exact H|]. constructor; [exact Ho|constructor]. Qed.
Lemma sinv_emit o s : sinv s -> top_sized o -> sinv (emit o s).
Proof. intros [] Ho. constructor; try assumption. apply sent_emit; assumption. Qed.
Lemma sinv_read r s : sinv s -> sinv (st_read r s).
Proof. intros []. constructor; assumption. Qed.
Lemma sinv_dirty d s : sinv s -> 0 <= d <= 3000 -> sinv (st_dirty d s).
Proof. intros [] H. constructor; assumption. Qed.
Lemma sinv_reset b n s : sinv s -> 0 <= n -> sinv (resetConsoleTracking b n s).
Proof.
  intros [] H. constructor; cbn; auto; try lia.
  - rewrite zlen_map. auto.
  - apply Forall_map. eapply Forall_impl; [|exact v_each0]. intros l _. unfold line_ok. cbn. change (zlen (@nil cell)) with 0. lia.
  - apply Forall_app. split; [assumption|]. constructor; [exact I|constructor].
Qed.
Lemma line_at_good {E} s i : zlen (s_lines s) = 3000 -> Forall line_ok (s_lines s) -> 0 <= i < 3000 -> good (@line_at E s i) line_ok.
Proof.
  intros L F H. unfold Scraper.line_at. destruct (znth (s_lines s) i) as [l|] eqn:El; [|apply znth_none_inv in El; lia].
  cbn. rewrite Forall_forall in F. apply F. unfold znth in El. destruct (i <? 0); [discriminate|]. eapply nth_error_In; eauto.
Qed.
Lemma upd_Forall {A} (P : A -> Prop) x : forall l n l', Forall P l -> P x -> upd_nat l n x = Some l' -> Forall P l'.
Proof.
  induction l as [|y l IH]; intros [|n] l' F Px H; cbn in H; try discriminate.
  - injection H as <-. inversion F; subst. constructor; auto.
  - destruct (upd_nat l n x) as [r|] eqn:Er; [|discriminate]. injection H as <-. inversion F; subst. constructor; eauto.
Qed.
(** Only lines, record number and output differ *)
Definition upto_lines (s s' : sst) : Prop :=
  s_syncRow s' = s_syncRow s /\ s_counter s' = s_counter s /\ s_direct s' = s_direct s /\ s_pty s' = s_pty s /\ s_scraped s' = s_scraped s /\ s_scrolled s' = s_scrolled s /\
  s_read s' = s_read s /\ s_dirtyTop s' = s_dirtyTop s /\ s_dirty s' = s_dirty s /\ zlen (s_lines s') = 3000 /\ Forall line_ok (s_lines s') /\
  (Forall top_sized (s_out s) -> Forall top_sized (s_out s')).
Lemma set_line_good {E} i l m s : zlen (s_lines s) = 3000 -> Forall line_ok (s_lines s) -> 0 <= i < 3000 -> line_ok l -> good (@set_line E i l m s) (upto_lines s).
Proof.
  intros L F H Hl. unfold set_line. destruct (zupd_some (s_lines s) i l) as (ls & E1 & E2 & _); [lia|]. rewrite E1. cbn. unfold upto_lines. cbn. splits; auto; [lia|].
  unfold zupd in E1. destruct (i <? 0); [discriminate|]. eapply upd_Forall; eauto.
Qed.
Lemma upto_refl s : zlen (s_lines s) = 3000 -> Forall line_ok (s_lines s) -> upto_lines s s.
Proof. unfold upto_lines. intuition. Qed.
Lemma upto_trans a b c : upto_lines a b -> upto_lines b c -> upto_lines a c.
Proof. unfold upto_lines. intros (? & ? & ? & ? & ? & ? & ? & ? & ? & ? & ? & ?) (? & ? & ? & ? & ? & ? & ? & ? & ? & ? & ? & ?). splits; try congruence; auto. Qed.
Lemma upto_sinv s s' : sinv s -> upto_lines s s' -> sinv s'.
Proof.
  intros [] (U1 & U2 & U3 & U4 & U5 & U6 & U7 & U8 & U9 & U10 & U11 & U12). constructor; rewrite ?U1, ?U3, ?U4, ?U5, ?U6, ?U8, ?U9; auto.
Qed.
Lemma upto_emit o s s' : upto_lines s s' -> top_sized o -> upto_lines s (emit o s').
Proof. unfold upto_lines. cbn [emit s_syncRow s_counter s_direct s_pty s_scraped s_scrolled s_read s_dirtyTop s_dirty s_lines]. intros (? & ? & ? & ? & ? & ? & ? & ? & ? & ? & ? & U) Ho. splits; auto. intros Hf. apply sent_emit; auto. Qed.
Lemma clear_loop_good {E} n : forall row s, zlen (s_lines s) = 3000 -> Forall line_ok (s_lines s) -> 0 <= row -> 0 <= s_scrolled s -> good (@clear_loop E n row s) (upto_lines s).
Proof.
  induction n as [|n IH]; intros row s L F Hr Hs; [apply upto_refl; auto|]. cbn [clear_loop].
  assert (R : 0 <= Z.rem (row + s_scrolled s) BUFFER_LINE_COUNT < 3000) by (unfold BUFFER_LINE_COUNT; apply Z.rem_bound_pos; lia).
  eapply good_bind; [apply line_at_good; auto|]. intros l Hl.
  eapply good_bind; [apply set_line_good; auto|].
  { unfold line_ok, blankLine. cbn. unfold zlen. cbn. lia. }
  intros s' U. pose proof U as (_ & _ & _ & _ & _ & U6 & _ & _ & _ & U7 & U8 & _). eapply good_weak; [apply IH; auto; lia|].
  intros s'' U'. eapply upto_trans; eauto.
Qed.
Lemma scan_loop_good {E} area r : lread_ok r area -> rLeft area <= rRight area -> rWidth area = rRight area - rLeft area + 1 -> forall n line attr dirty, rTop area <= line -> line + Z.of_nat n <= rBottom area + 1 ->
  good (@scan_loop E n r line attr dirty) (fun d => d = dirty \/ line < d <= line + Z.of_nat n).
Proof.
  intros R Hx Hw. induction n as [|n IH]; intros line attr dirty H1 H2; [left; reflexivity|]. cbn [scan_loop].
  eapply good_bind; [apply (lineData_good r area line R Hx); lia|]. intros data Hd. cbv beta in Hd. pose proof R as (R1 & _). rewrite R1, Hw.
  destruct (znth data (rRight area - rLeft area + 1 - 1)) as [lc|] eqn:El; [|apply znth_none_inv in El; lia].
  eapply good_weak; [apply IH; lia|]. intros d Hd'. cbn in Hd'. destruct (line_dirty _ _ _); lia.
Qed.

Lemma scan_good {E} area win s : lread_ok (s_read s) area -> rLeft area <= rRight area -> rWidth area = rRight area - rLeft area + 1 ->
  1 <= s_dirty s -> rTop area <= s_dirty s - 1 <= rBottom area -> windowStop win <= rBottom area + 1 ->
  good (@scanForDirtyLines E win s) (fun s' => exists d, s' = st_dirty d s /\ s_dirty s <= d <= Z.max (s_dirty s) (windowStop win)).
Proof.
  intros R Hx Hw Hd Ht Hb. unfold scanForDirtyLines. apply good_assert; [lia|].
  eapply good_bind; [apply (lineData_good (s_read s) area (s_dirty s - 1) R Hx); lia|]. intros data Hl. cbv beta in Hl. pose proof R as (R1 & _). rewrite R1, Hw.
  destruct (znth data (rRight area - rLeft area + 1 - 1)) as [lc|] eqn:El; [|apply znth_none_inv in El; lia].
  eapply good_bind; [apply (scan_loop_good area (s_read s) R Hx Hw); lia|]. intros d Hd'. cbv beta in Hd'. exists d. split; [reflexivity|]. lia.
Qed.
Lemma send_lines_good {E} area wd cl cc : rLeft area <= rRight area -> wd = rRight area - rLeft area + 1 ->
  forall n line saw s, zlen (s_lines s) = 3000 -> Forall line_ok (s_lines s) -> lread_ok (s_read s) area -> 0 <= line ->
  rTop area <= line - s_scrolled s -> line - s_scrolled s + Z.of_nat n <= rBottom area + 1 ->
  good (@send_lines E n line wd cl cc saw s) (upto_lines s).
Proof.
  intros Hx Hw. induction n as [|n IH]; intros line saw s L F R H0 H1 H2; [apply upto_refl; auto|]. cbn [send_lines].
  assert (Rm : 0 <= Z.rem line BUFFER_LINE_COUNT < 3000) by (unfold BUFFER_LINE_COUNT; apply Z.rem_bound_pos; lia).
  eapply good_bind; [apply (lineData_good (s_read s) area (line - s_scrolled s) R Hx); lia|]. intros data Hd. cbv beta in Hd.
  eapply good_bind; [apply line_at_good; auto|]. intros bl Hb. cbv zeta.
  apply good_bind with (P := fun '(_, l') => line_ok l').
  { destruct (saw || (s_maxBuf s <? line)).
    - eapply good_bind; [apply setLine_good; [exact Hb|lia]|]. intros a Ha. exact Ha.
    - apply detect_good; [exact Hb|lia]. }
  intros [saw' bl'] Hb'. eapply good_bind; [apply set_line_good; auto|]. intros s1 U1.
  apply good_bind with (P := upto_lines s).
  { destruct saw'; [|exact U1]. destruct (zlen data <? wd) eqn:Ew; [lia|]. cbn [good]. apply upto_emit; [exact U1|]. cbn. rewrite zlen_zfirstn. lia. }
  intros s2 U2. pose proof U2 as (_ & _ & _ & _ & _ & V6 & V7 & _ & _ & V10 & V11 & _).
  eapply good_weak; [apply IH; auto; try lia; rewrite ?V7; auto|]. intros s3 U3. eapply upto_trans; eauto.
Qed.
Lemma direct_loop_good {E} area wd cl cc : rLeft area <= rRight area -> wd = rRight area - rLeft area + 1 ->
  forall n line s, zlen (s_lines s) = 3000 -> Forall line_ok (s_lines s) -> lread_ok (s_read s) area -> 0 <= line ->
  line + Z.of_nat n <= rBottom area - rTop area + 1 -> line + Z.of_nat n <= 3000 ->
  good (@direct_loop E n (rTop area) line wd cc cl s) (upto_lines s).
Proof.
  intros Hx Hw. induction n as [|n IH]; intros line s L F R H0 H1 H2; [apply upto_refl; auto|]. cbn [direct_loop].
  eapply good_bind; [apply (lineData_good (s_read s) area (rTop area + line) R Hx); lia|]. intros data Hd. cbv beta in Hd.
  eapply good_bind; [apply line_at_good; auto; lia|]. intros bl Hb.
  eapply good_bind; [apply detect_good; [exact Hb|lia]|]. intros [ch bl'] Hb'. cbv beta iota in Hb'.
  eapply good_bind; [apply set_line_good; auto; lia|]. intros s1 U1.
  apply good_bind with (P := upto_lines s).
  { destruct ch; [|exact U1]. destruct (zlen data <? wd) eqn:Ew; [lia|]. cbn [good]. apply upto_emit; [exact U1|]. cbn. rewrite zlen_zfirstn. lia. }
  intros s2 U2. pose proof U2 as (_ & _ & _ & _ & _ & V6 & V7 & _ & _ & V10 & V11 & _).
  eapply good_weak; [apply IH; auto; try lia; rewrite ?V7; auto|]. intros s3 U3. eapply upto_trans; eauto.
Qed.

(** *** The marker *)
Lemma find_from_range n : forall column i marker, let r := find_from n column i marker in r = -1 \/ i - Z.of_nat n <= r <= i.
Proof.
  induction n as [|n IH]; intros column i marker; cbn [find_from]; destruct (matches_at column i marker); cbv zeta; try lia.
  pose proof (IH column (i - 1) marker) as H. cbv zeta in H. lia.
Qed.
(** The agent may read the rows of the buffer: it is the new console, or nothing moves *)
Definition calm (c : cfg) (w : world) : Prop := c_new c = true \/ (w_sel w = true /\ b_h (w_buf w) = 3000).
Lemma calm_same c w w' : winv w -> calm c w -> same_run w w' -> calm c w'.
Proof.
  intros W [C|(C1 & C2)] S; [left; exact C|]. right. rewrite (same_sel w w' W S). destruct S as (_ & _ & S). rewrite S by exact C1. auto.
Qed.
Lemma findSyncMarker_good c s w : cfg_ok c -> winv w -> calm c w -> 0 <= s_syncRow s <= 2984 ->
  good (findSyncMarker c s w) (fun '(r, w') => (r = -1 \/ 0 <= r <= s_syncRow s) /\ same_run w w').
Proof.
  intros K W C H. unfold findSyncMarker. apply good_assert; [lia|]. cbv zeta. unfold SYNC_MARKER_LEN. rewrite mk_spec by (unfold short; lia).
  destruct (@read_good broken (c_new c) (mkRect 0 0 (0 + 1 - 1) (0 + (s_syncRow s + 16) - 1)) (c_junk c w) 0 w) as (d & Ed & Hd); auto.
  - unfold nonneg_dims. cbn [rLeft rTop rRight rBottom]. lia.
  - lia.
  - rewrite K. unfold cells_in, BUFFER_LINE_COUNT. cbn [rLeft rTop rRight rBottom]. lia.
  - destruct C as [C|(C1 & C2)]; [auto|]. right. rewrite interfere_sel by exact C1. destruct W as ((W1 & W2 & _) & _). unfold in_buf. cbn [rLeft rTop rRight rBottom]. lia.
  - rewrite Ed. cbn [bind]. rewrite K in Hd. unfold BUFFER_LINE_COUNT in Hd. destruct (zlen d <? s_syncRow s + 16) eqn:E1; [lia|]. cbn [good]. split; [|apply same_log; exact W].
    pose proof (find_from_range (Z.to_nat (s_syncRow s)) d (s_syncRow s) (syncMarkerText (s_counter s))) as R. cbv zeta in R. lia.
Qed.
Lemma createSyncMarker_good row s w : 1 <= row -> winv w ->
  good (@createSyncMarker broken row s w) (fun '(s', w') => (exists n, s' = st_sync row n s) /\ winv w' /\ w_frozen w' = w_frozen w).
Proof.
  intros H W. unfold createSyncMarker. apply good_assert; [lia|]. unfold bufferInfo. cbv zeta. cbn [good].
  pose proof (interfere_ok w W) as W1. destruct (clearLines_ok (row - 1) (SYNC_MARKER_LEN + 1) (info_of (w_buf (interfere w))) (interfere w) W1) as (W2 & F2).
  destruct (write_col_ok (SmallRect 0 row 1 SYNC_MARKER_LEN) (map (fun ch => mkCell ch 7) (syncMarkerText (u32 (s_counter s + 1)))) _ W2) as (W3 & F3).
  split; [eexists; reflexivity|]. split; [exact W3|]. rewrite F3, F2. apply interfere_frozen.
Qed.

Lemma scroll_marker_good c win tent s w : cfg_ok c -> winv w -> calm c w -> sinv s -> marker_at c win s -> 0 <= rTop win -> 0 <= windowStop win <= 3000 ->
  good (scroll_marker c win tent s w) (fun '(go, s', w') => sinv s' /\ marker_at c win s' /\ s_direct s' = s_direct s /\ same_run w w' /\ (tent = false -> go = true)).
Proof.
  intros K W C V M T0 T1. unfold scroll_marker. destruct (s_syncRow s =? -1) eqn:E1; [cbn; splits; auto using same_refl|].
  destruct (v_sync s V) as [H|(H1 & H2 & H3)]; [lia|].
  eapply good_bind; [apply findSyncMarker_good; auto; lia|]. intros [row w'] (R & S). cbv beta iota.
  destruct (row =? -1) eqn:E2.
  - destruct tent; cbn; [splits; auto; discriminate|]. splits; auto; [apply sinv_reset; auto|]. intros _ Hz. cbn in Hz. lia.
  - destruct (negb (row =? s_syncRow s)) eqn:E3; [|cbn; splits; auto].
    apply good_assert; [lia|]. apply good_assume. intros A. cbn. splits; auto.
    + destruct V. constructor; cbn; auto; try lia.
    + intros St Hz. cbn in Hz. specialize (A St). lia.
Qed.
Lemma scroll_dirty_good win cursor tent s : sinv s -> s_direct s = false -> 0 <= rTop win -> 0 <= windowStop win <= 3000 -> rTop win < 3000 -> 0 <= co_y cursor < 3000 ->
  let '(go, s') := scroll_dirty win cursor tent s in
  sinv s' /\ (s_syncRow s' = s_syncRow s \/ s_syncRow s' = -1) /\ s_direct s' = false /\
  (go = true -> 1 <= s_dirty s' <= 3000 /\ rTop win <= s_dirty s' /\ co_y cursor < s_dirty s' /\ s_dirtyTop s' = rTop win) /\ (tent = false -> go = true).
Proof.
  intros V D T0 T1 T2 C. unfold scroll_dirty.
  assert (G : forall s', sinv s' -> s_direct s' = false -> (s_syncRow s' = s_syncRow s \/ s_syncRow s' = -1) -> (s_syncRow s' <= rTop win) ->
    sinv (st_dirty (Z.max (Z.max (s_dirty (st_top (rTop win) s')) (co_y cursor + 1)) (rTop win)) (st_top (rTop win) s'))).
  { intros s' [] Hd Hs Ht. constructor; cbn; auto; lia. }
  destruct (negb (s_dirtyTop s =? -1)) eqn:E1.
  - destruct (s_dirtyTop s <? rTop win) eqn:E2.
    + cbn [negb]. splits; auto.
      * apply G; auto; [apply sinv_dirty; auto; destruct V; lia|]. cbn. destruct (v_sync s V) as [?|(? & ? & ?)]; lia.
      * intros _. cbn. destruct V. lia.
    + destruct (rTop win <? s_dirtyTop s) eqn:E3.
      * destruct tent; cbn [negb]; [splits; auto; intros; discriminate|]. splits; auto.
        -- apply G; auto; [apply sinv_reset; auto|cbn; lia].
        -- intros _. cbn. lia.
      * cbn [negb]. splits; auto.
        -- apply G; auto. destruct (v_sync s V) as [?|(? & ? & ?)]; lia.
        -- intros _. cbn. destruct V. lia.
  - cbn [negb]. splits; auto.
    + apply G; auto. destruct (v_sync s V) as [?|(? & ? & ?)]; lia.
    + intros _. cbn. destruct V. lia.
Qed.
Lemma attributesMask_same c w : winv w -> same_run w (snd (attributesMask c w)).
Proof.
  intros W. unfold attributesMask. cbn [snd]. eapply same_trans; [exact W|apply same_interfere; exact W|]. apply same_interfere. apply interfere_ok; exact W.
Qed.
Lemma scroll_check_good c info s w : cfg_ok c -> winv w -> calm c w -> (s_syncRow s = -1 \/ 0 <= s_syncRow s <= 2984) ->
  good (scroll_check c info s w) (fun '(_, w') => same_run w w').
Proof.
  intros K W C H. unfold scroll_check, bufferInfo. cbv zeta. pose proof (same_interfere w W) as S.
  destruct (negb _ || negb _ || negb _); [exact S|]. destruct (negb (s_syncRow s =? -1)) eqn:E1; [|exact S].
  eapply good_bind; [apply findSyncMarker_good; auto; [apply S|eapply calm_same; eauto|lia]|]. intros [r w'] (_ & S'). cbn. eapply same_trans; eauto.
Qed.
Lemma scroll_send_good area info vis fv s : info_ok info -> co_y (i_size info) = 3000 -> sinv (st_scraped (rTop (i_win info) + s_scrolled s) s) -> s_direct s = false ->
  lread_ok (s_read s) area -> 0 <= rLeft area <= rRight area -> rRight area <= 32766 ->
  1 <= s_dirty s -> rTop area <= s_dirty s - 1 <= rBottom area -> windowStop (i_win info) <= rBottom area + 1 ->
  0 <= fv -> rTop area <= fv - s_scrolled s <= rBottom area + 1 ->
  good (@scroll_send broken info vis fv s) (fun s' => sinv s' /\ s_direct s' = false /\ s_syncRow s' = s_syncRow s).
Proof.
  intros I H3 V D R Hx Hx2 Hd Ht Hb Hf Hfr. pose proof (win_stop info I) as Ws. pose proof I as (I1 & I2 & I3 & I4 & I5 & I6 & I7 & I8).
  assert (Hw : rWidth area = rRight area - rLeft area + 1) by (unfold rWidth; apply LargeReadProofs.s16_id; lia).
  pose proof (v_dirty _ V) as Vd. cbn in Vd.
  unfold scroll_send. eapply good_bind; [apply (scan_good area (i_win info) s R); auto; lia|]. intros s1 (d & -> & Hd'). cbv zeta.
  set (show := vis && containsCoord (i_win info) (i_cur info)).
  set (s2 := if show then st_dirty d s else emit THide (st_dirty d s)).
  assert (E2 : sinv (st_scraped (rTop (i_win info) + s_scrolled s) s2) /\ s_direct s2 = false /\ s_syncRow s2 = s_syncRow s /\ s_read s2 = s_read s /\ s_scrolled s2 = s_scrolled s /\ zlen (s_lines s2) = 3000 /\ Forall line_ok (s_lines s2)).
  { unfold s2. assert (V' : sinv (st_scraped (rTop (i_win info) + s_scrolled s) (st_dirty d s))) by (apply (sinv_dirty d _ V); lia).
    pose proof (v_lines _ V). pose proof (v_each _ V). destruct show; cbn; splits; auto. exact (sinv_emit THide _ V' Logic.I). }
  destruct E2 as (V2 & D2 & S2 & R2 & C2 & L2 & F2). destruct R as (R1 & R3 & R4). assert (R : lread_ok (s_read s2) area) by (rewrite R2; split; auto).
  eapply good_bind.
  - apply (send_lines_good area (rWidth (lr_rect (s_read s2)))); auto; try lia.
    + rewrite R2, R1. exact Hw.
    + rewrite C2. change (s_dirty (st_dirty d s)) with d. change (s_scrolled (st_dirty d s)) with (s_scrolled s). lia.
  - intros s3 U. pose proof U as (U1 & _ & U3 & _ & _ & U6 & _ & U8 & _).
    assert (V4 : sinv (st_scraped (rTop (i_win info) + s_scrolled s3) s3)).
    { apply (upto_sinv (st_scraped (rTop (i_win info) + s_scrolled s) s2)); [exact V2|]. destruct U as (X1 & X2 & X3 & X4 & X5 & X6 & X7 & X8 & X9 & X10 & X11 & X12). unfold upto_lines. cbn. splits; auto. lia. }
    destruct show; cbn; splits; auto; try congruence; try (apply sinv_emit; [exact V4|exact Logic.I]).
Qed.
Definition read_right (c : cfg) (info : cinfo) (w : world) : Prop := c_new c = true \/ (w_sel w = true /\ info = info_of (w_buf w)).
Lemma scrolling_good c info vis tent s w : cfg_ok c -> winv w -> info_ok info -> co_y (i_size info) = 3000 ->
  read_right c info w -> sinv s -> s_direct s = false -> marker_at c (i_win info) s ->
  good (scrollingScrapeOutput c info vis tent s w) (fun '(ok, s', w') => sinv s' /\ s_direct s' = false /\ winv w' /\ w_frozen w' = w_frozen w /\ marker_at c (i_win info) s' /\
     (ok = true -> marker_ok c s') /\ (tent = false -> ok = true)).
Proof.
  intros K W I H3 C V D M. pose proof (win_stop info I) as Ws. pose proof I as (I1 & I2 & I3 & I4 & I5 & I6 & I7 & I8).
  assert (Cm : calm c w). { destruct C as [C|(C1 & C2)]; [left; exact C|right; split; [exact C1|]]. subst info. cbn in H3. exact H3. }
  unfold scrollingScrapeOutput. eapply good_bind; [apply scroll_marker_good; auto; lia|].
  intros [[go s1] w1] (V1 & M1 & D1 & S1 & G1). cbv beta iota zeta. rewrite D in D1.
  pose proof S1 as (W1 & F1 & B1). pose proof (same_sel w w1 W S1) as L1.
  destruct (negb go) eqn:Eg.
  { cbn. splits; auto; intros X; [|rewrite (G1 X) in Eg]; try discriminate. }
  set (nsr := rTop (i_win info) - SYNC_MARKER_LEN - SYNC_MARKER_MARGIN).
  set (should := s_syncRow s1 + SYNC_MARKER_LEN + SYNC_MARKER_MARGIN <=? nsr).
  assert (Sh : should = true <-> s_syncRow s1 + 432 <= rTop (i_win info)) by (unfold should, nsr, SYNC_MARKER_LEN, SYNC_MARKER_MARGIN; rewrite Z.leb_le; lia).
  assert (Nr : nsr = rTop (i_win info) - 216) by (unfold nsr, SYNC_MARKER_LEN, SYNC_MARKER_MARGIN; lia).
  assert (Lo : -1 <= s_syncRow s1) by (destruct (v_sync s1 V1) as [?|(? & ? & ?)]; lia).
  clearbody should nsr.
  destruct (tent && should) eqn:Ets.
  { cbn. splits; auto; [discriminate|]. intros ->. discriminate. }
  pose proof (scroll_dirty_good (i_win info) (i_cur info) tent s1 V1 D1 ltac:(lia) ltac:(lia) ltac:(lia) ltac:(lia)) as SD.
  destruct (scroll_dirty (i_win info) (i_cur info) tent s1) as [go2 s2]. destruct SD as (V2 & Y2 & D2 & G2 & G3).
  assert (M2 : marker_at c (i_win info) s2). { intros St Hz. apply (M1 St). lia. }
  destruct (negb go2) eqn:Eg2.
  { cbn. splits; auto; intros X; [|rewrite (G3 X) in Eg2]; try discriminate. }
  assert (go2 = true) as -> by (destruct go2; auto; discriminate). destruct (G2 eq_refl) as (A1 & A2 & A3 & A4). clear G2 G3.
  apply good_assert; [lia|].
  set (fv := Z.min (s_scraped s2) (rTop (i_win info) + s_scrolled s2)). set (fr := Z.min (fv - s_scrolled s2) (s_dirty s2 - 1)).
  assert (Fv : 0 <= fv - s_scrolled s2 <= rTop (i_win info) /\ 0 <= fv) by (destruct V2; unfold fv; lia).
  assert (Fr : 0 <= fr <= s_dirty s2 - 1 /\ fr <= fv - s_scrolled s2) by (unfold fr; lia).
  apply good_assert; [lia|].
  pose proof (attributesMask_same c w1 W1) as S3. destruct (attributesMask c w1) as [mask w3]. cbn [snd] in S3.
  pose proof S3 as (W3 & F3 & B3). pose proof (same_sel w1 w3 W1 S3) as L3.
  set (sr := Z.max (windowStop (i_win info)) (s_dirty s2)).
  assert (Sr : sr <= 3000 /\ windowStop (i_win info) <= sr /\ s_dirty s2 <= sr) by (unfold sr; lia).
  assert (Er : SmallRect 0 fr (Z.min (co_x (i_size info)) MAX_CONSOLE_WIDTH) (sr - fr) = mkRect 0 fr (Z.min (co_x (i_size info)) 2500 - 1) (sr - 1)).
  { rewrite mk_spec by (unfold short, MAX_CONSOLE_WIDTH; lia). unfold MAX_CONSOLE_WIDTH. f_equal; lia. }
  rewrite Er. set (area := mkRect 0 fr (Z.min (co_x (i_size info)) 2500 - 1) (sr - 1)).
  assert (Ao : area_okay area) by (unfold area_okay, area; cbn [rLeft rTop rRight rBottom]; lia).
  eapply good_bind; [apply (large_good (c_new c) (c_w8 c) area); auto|].
  { destruct C as [C|(C1 & C2)]; [left; exact C|]. right. split; [congruence|]. rewrite B3, B1 by congruence. subst info. unfold in_buf, area. cbn in *. lia. }
  intros [r w4] (R4 & S4). cbv beta iota. pose proof S4 as (W4 & F4 & B4). pose proof (same_sel w3 w4 W3 S4) as L4.
  assert (Cm4 : calm c w4). { destruct Cm as [Cm|(Ca & Cb)]; [left; exact Cm|]. right. split; [congruence|]. rewrite B4, B3, B1 by congruence. exact Cb. }
  eapply good_bind with (P := fun '(same, w') => winv w' /\ w_frozen w' = w_frozen w /\ (tent = false -> same = true)).
  { destruct tent.
    - eapply good_weak; [apply scroll_check_good; auto|].
      + cbn. destruct (v_sync s2 V2) as [?|(? & ? & ?)]; lia.
      + intros [b w'] (Q1 & Q2 & _). splits; auto; [congruence|discriminate].
    - cbn. splits; auto. congruence. }
  intros [same w5] (W5 & F5 & T5). destruct (negb same) eqn:Es.
  { cbn [good]. splits; auto.
    - apply sinv_read. exact V2.
    - discriminate.
    - intros X. rewrite (T5 X) in Es. discriminate. }
  eapply good_bind with (P := fun '(s', w') => winv w' /\ w_frozen w' = w_frozen w /\ marker_ok c s' /\ sinv (st_scraped (rTop (i_win info) + s_scrolled s') s') /\
      s_direct s' = false /\ s_read s' = r /\ s_scrolled s' = s_scrolled s2 /\ s_dirty s' = s_dirty s2).
  { destruct should eqn:Esh.
    - apply good_assert; [destruct tent; [discriminate Ets|reflexivity]|].
      eapply good_weak; [apply createSyncMarker_good; [lia|exact W5]|]. intros [s' w'] ((n & ->) & W6 & F6). cbn. splits; auto; [congruence|unfold marker_ok; cbn; lia|].
      destruct V2. constructor; cbn; auto; try lia. intros X. congruence.
    - cbn. splits; auto.
      + unfold marker_ok. cbn. intros St Hz. destruct Y2 as [Y2|Y2]; [|lia]. assert (Hm : s_syncRow s1 = 0) by congruence. pose proof (M1 St Hm) as Hq. destruct Sh as (_ & Sh). rewrite Hm in Sh. specialize (Sh Hq). discriminate.
      + destruct V2. constructor; cbn; auto; try lia. }
  intros [s6 w6] (W6 & F6 & M6 & V6 & D6 & R6 & C6 & T6).
  eapply good_bind; [apply (scroll_send_good area info vis fv s6); auto|].
  - rewrite R6. exact R4.
  - unfold area. cbn [rLeft rTop rRight rBottom]. lia.
  - unfold area. cbn [rLeft rTop rRight rBottom]. lia.
  - lia.
  - unfold area. cbn [rLeft rTop rRight rBottom]. lia.
  - unfold area. cbn [rLeft rTop rRight rBottom]. lia.
  - lia.
  - unfold area. cbn [rLeft rTop rRight rBottom]. lia.
  - intros s7 (V7 & D7 & Y7). cbn [good]. splits; auto.
    + intros St Hz. unfold marker_ok in M6. specialize (M6 St). congruence.
    + intros _ St. unfold marker_ok in *. specialize (M6 St). congruence.
Qed.

Lemma scrapeRect_eq info pty : info_ok info -> 1 <= co_x pty <= 2500 -> 1 <= co_y pty <= 2000 ->
  scrapeRect info pty = mkRect (rLeft (i_win info)) (rTop (i_win info))
    (rLeft (i_win info) + Z.min (rRight (i_win info) - rLeft (i_win info) + 1) (co_x pty) - 1)
    (rTop (i_win info) + Z.min (rBottom (i_win info) - rTop (i_win info) + 1) (co_y pty) - 1).
Proof.
  intros I Hx Hy. unfold scrapeRect. rewrite (win_width info I), (win_height info I). pose proof I as (I1 & I2 & I3 & I4 & I5 & I6 & I7 & I8).
  unfold MAX_CONSOLE_WIDTH, BUFFER_LINE_COUNT. rewrite mk_spec by (unfold short; lia). f_equal; lia.
Qed.
Lemma direct_good c stale info vis s w : cfg_ok c -> (stale = true -> c_strict c = true) -> winv w -> info_ok info ->
  (stale = false -> read_right c info w) -> (c_new c = true \/ w_sel w = true) -> sinv s ->
  good (directScrapeOutput c stale info vis s w) (fun '(s', w') => sinv s' /\ s_direct s' = s_direct s /\ s_syncRow s' = s_syncRow s /\ winv w' /\ w_frozen w' = w_frozen w).
Proof.
  intros K St W I C Fz V. pose proof I as (I1 & I2 & I3 & I4 & I5 & I6 & I7 & I8). unfold directScrapeOutput. cbv zeta.
  rewrite (scrapeRect_eq info (s_pty s) I (v_ptyx s V) (v_ptyy s V)). pose proof (v_ptyx s V) as Px. pose proof (v_ptyy s V) as Py.
  set (area := mkRect _ _ _ _).
  assert (Ao : area_okay area) by (unfold area_okay, area; cbn [rLeft rTop rRight rBottom]; lia).
  assert (Dm : nonneg_dims area) by (unfold nonneg_dims, area; cbn [rLeft rTop rRight rBottom]; lia). destruct (dims area Dm) as (Hw & Hh). rewrite Hw, Hh.
  set (show := vis && containsCoord area (i_cur info)).
  set (s2 := if show then s else emit THide s).
  assert (E2 : sinv s2 /\ s_direct s2 = s_direct s /\ s_syncRow s2 = s_syncRow s). { unfold s2. destruct show; cbn; splits; auto. apply sinv_emit; [auto|exact Logic.I]. }
  destruct E2 as (V2 & D2 & Y2).
  pose proof (attributesMask_same c w W) as S3. destruct (attributesMask c w) as [mask w3]. cbn [snd] in S3.
  pose proof S3 as (W3 & F3 & B3). pose proof (same_sel w w3 W S3) as L3.
  apply good_assume. intros A.
  eapply good_bind; [apply (large_good (c_new c) (c_w8 c) area); auto|].
  { destruct stale.
    - specialize (A (St eq_refl)). cbn [negb orb] in A. apply Bool.orb_true_iff in A as [A|A]; [left; exact A|]. destruct Fz as [Fz|Fz]; [left; exact Fz|]. right. split; [congruence|exact A].
    - destruct (C eq_refl) as [C'|(C1 & C2)]; [left; exact C'|]. right. split; [congruence|]. rewrite B3 by exact C1. subst info. unfold in_buf, area. cbn in *. lia. }
  intros [r w4] (R4 & S4). cbv beta iota. pose proof S4 as (W4 & F4 & B4).
  eapply good_bind.
  { apply (direct_loop_good area); [unfold area; cbn [rLeft rTop rRight rBottom]; lia|reflexivity|apply V2|apply V2|exact R4|lia| |]; unfold area; cbn [rLeft rTop rRight rBottom]; lia. }
  intros s5 U. pose proof (upto_sinv _ s5 (sinv_read r s2 V2) U) as V5. pose proof U as (U1 & _ & U3 & _). cbn in U1, U3.
  destruct show; cbn [good]; splits; try (apply sinv_emit; [exact V5|exact Logic.I]); auto; cbn; congruence.
Qed.

Lemma finalTop_ge i direct dirty vc vr sync : info_ok i -> co_y (i_size i) = 3000 -> 0 <= sync <= rTop (i_win i) -> 1 <= vr -> vr <= 2000 -> sync <= 3000 - vr -> 1 <= vc <= 2500 -> dirty <= 3000 ->
  sync <= rTop (finalWindow i direct dirty vc vr).
Proof.
  intros I H3 Hs V1 V2 V3 Vc Hd. pose proof I as (I1 & I2 & I3 & I4 & I5 & I6 & I7 & I8). unfold finalWindow. rewrite H3.
  set (t := Z.min (3000 - vr) (rTop (i_win i))). assert (Ht : 0 <= t <= 3000 - vr /\ sync <= t) by (unfold t; lia).
  rewrite (mk_spec 0 t vc vr) by (unfold short; lia). cbn [rBottom].
  assert (G : forall x, 0 <= x -> x + vr - 1 <= 3000 -> sync <= x ->
    sync <= rTop (if cursorInWindow i then ensureLineIncluded (mkRect 0 x (0 + vc - 1) (x + vr - 1)) (co_y (i_cur i)) else mkRect 0 x (0 + vc - 1) (x + vr - 1))).
  { intros x X1 X2 X3. destruct (cursorInWindow i) eqn:Ec; [|exact X3]. unfold cursorInWindow in Ec. unfold ensureLineIncluded.
    assert (Eh : rHeight (mkRect 0 x (0 + vc - 1) (x + vr - 1)) = vr) by (unfold rHeight; cbn [rTop rBottom]; rewrite LargeReadProofs.s16_id by lia; lia).
    assert (Ew : rWidth (mkRect 0 x (0 + vc - 1) (x + vr - 1)) = vc) by (unfold rWidth; cbn [rLeft rRight]; rewrite LargeReadProofs.s16_id by lia; lia).
    rewrite Eh, Ew. cbn [rTop rBottom rLeft].
    destruct (co_y (i_cur i) <? x) eqn:E1; [rewrite mk_spec by (unfold short; lia); cbn [rTop]; lia|].
    destruct (x + vr - 1 <? co_y (i_cur i)) eqn:E2; [rewrite mk_spec by (unfold short; lia); cbn [rTop]; lia|]. exact X3. }
  destruct (negb direct && (t + vr - 1 + 1 <? dirty)) eqn:Ed; [|apply G; lia].
  rewrite (mk_spec 0 (dirty - vr) vc vr) by (unfold short; lia). apply G; lia.
Qed.

Lemma sinv_sync row n s : sinv s -> 0 <= row <= s_syncRow s -> sinv (st_sync row n s).
Proof.
  intros [] H. constructor; cbn; auto; try lia.
Qed.
Lemma resize_clear_good c orig s w : c_strict c = true -> sinv s -> marker_ok c s -> winv w ->
  good (@resize_clear broken orig s w) (fun '(s', w') => sinv s' /\ marker_ok c s' /\ s_direct s' = s_direct s /\ s_pty s' = s_pty s /\ s_dirty s' = s_dirty s /\
     (s_syncRow s' = -1 \/ s_syncRow s' <= 3000 - co_y (s_pty s) - 216) /\ winv w' /\ w_frozen w' = w_frozen w).
Proof.
  intros St V M W. unfold resize_clear. destruct (s_direct s) eqn:Ed.
  - cbn. assert (Hs : s_syncRow s = -1) by (apply V; exact Ed). splits; auto.
    destruct V. constructor; cbn; auto.
    + rewrite zlen_map. auto.
    + apply Forall_map. eapply Forall_impl; [|exact v_each0]. intros l _. unfold line_ok. cbn. change (zlen (@nil cell)) with 0. lia.
  - cbv zeta. destruct (clearLines_ok 0 (rTop (i_win orig)) orig w W) as (W1 & F1).
    eapply good_bind with (P := upto_lines s).
    { unfold clearBufferLines. rewrite Ed. apply good_assert; [reflexivity|]. apply clear_loop_good; try apply V. lia. }
    intros s1 U. pose proof (upto_sinv s s1 V U) as V1. pose proof U as (U1 & _ & U3 & U4 & _ & _ & _ & _ & U9 & _).
    destruct (negb (s_syncRow s1 =? -1)) eqn:Ey.
    + assert (P : 1 <= s_syncRow s1). { destruct (v_sync s1 V1) as [?|(? & _)]; [lia|]. unfold marker_ok in M. specialize (M St). lia. }
      pose proof (v_ptyy s V) as Py. rewrite U4. unfold BUFFER_LINE_COUNT, SYNC_MARKER_LEN, SYNC_MARKER_MARGIN.
      eapply good_weak; [apply createSyncMarker_good; [lia|exact W1]|]. intros [s' w'] ((n & ->) & W2 & F2).
      unfold marker_ok. cbn [st_sync s_syncRow s_direct s_pty s_dirty]. splits; auto; try congruence.
      * apply sinv_sync; auto. lia.
      * lia.
      * right. lia.
    + cbn. unfold marker_ok in *. specialize (M St). splits; auto; try congruence; try lia.
Qed.
Lemma s16_le v : s16 v <= 32767.
Proof. pose proof (s16_short v) as H. unfold short in H. lia. Qed.
Lemma resizeImpl_good c orig s w : c_strict c = true -> winv w -> w_frozen w = true -> sinv s -> marker_ok c s ->
  good (resizeImpl c orig s w) (fun '(s', w') => sinv s' /\ marker_ok c s' /\ s_direct s' = s_direct s /\ winv w' /\ w_frozen w' = true).
Proof.
  intros St W F V M. unfold resizeImpl. apply good_assert; [exact F|]. cbv zeta.
  eapply good_bind; [apply (resize_clear_good c); auto|]. intros [s1 w1] (V1 & M1 & D1 & P1 & T1 & Y1 & W1 & F1). cbv beta iota.
  destruct (setFrozen_ok false w1 W1) as (W2 & F2). set (w2 := setFrozen false w1) in *. clearbody w2.
  unfold changeFont, largestSize. cbv zeta. pose proof (interfere_ok w2 W2) as W3. pose proof (interfere_frozen w2) as F3. set (w3 := interfere w2) in *. clearbody w3.
  pose proof (interfere_ok w3 W3) as W4. set (w4 := interfere w3) in *. clearbody w4.
  assert (Lg : 1 <= co_x (b_largest (w_buf w4)) <= 32767 /\ 1 <= co_y (b_largest (w_buf w4)) <= 32767) by (destruct W4 as (W4 & _); unfold console_ok in W4; tauto).
  set (largest := b_largest (w_buf w4)) in *. clearbody largest.
  pose proof (v_ptyx s V) as Px. pose proof (v_ptyy s V) as Py.
  rewrite !(LargeReadProofs.s16_id (co_x (s_pty s))), !(LargeReadProofs.s16_id (co_y (s_pty s))) by lia.
  set (vc := Z.min (co_x (s_pty s)) (co_x largest)). set (vr := Z.min (co_y (s_pty s)) (co_y largest)).
  assert (Hv : 1 <= vc <= 2500 /\ 1 <= vr <= co_y (s_pty s)) by (unfold vc, vr; lia). clearbody vc vr.
  destruct (setFrozen_ok true w4 W4) as (W5 & F5). set (w5 := setFrozen true w4) in *. clearbody w5. unfold bufferInfo. cbv zeta.
  pose proof (interfere_ok w5 W5) as W6. set (w6 := interfere w5) in *. clearbody w6.
  destruct (moveWindow_ok (tmpWindow (info_of (w_buf w6)) vc vr) w6 W6) as (W7 & F7). set (w7 := moveWindow (tmpWindow (info_of (w_buf w6)) vc vr) w6) in *. clearbody w7.
  destruct (setFrozen_ok false w7 W7) as (W8 & F8). set (w8 := setFrozen false w7) in *. clearbody w8.
  destruct (resizeBufferRange_ok (co_x (finalSize orig (co_x (s_pty s)) (co_y (s_pty s)))) (co_y (finalSize orig (co_x (s_pty s)) (co_y (s_pty s)))) w8 (s16_le _) (s16_le _) W8) as (W9 & F9).
  set (w9 := resizeBufferRange _ _ w8) in *. clearbody w9.
  destruct (setFrozen_ok true w9 W9) as (W10 & F10). set (w10 := setFrozen true w9) in *. clearbody w10.
  pose proof (interfere_ok w10 W10) as W11. pose proof (interfere_frozen w10) as F11. set (w11 := interfere w10) in *. clearbody w11.
  apply good_assume. intros A. specialize (A St).
  destruct (moveWindow_ok (finalWindow (info_of (w_buf w11)) (s_direct s1) (s_dirty s1) vc vr) w11 W11) as (W12 & F12).
  apply good_assert; [congruence|]. cbn [good]. splits; auto; [|congruence].
  assert (Q : s_syncRow s1 = -1 \/ s_syncRow s1 <= rTop (finalWindow (info_of (w_buf w11)) (s_direct s1) (s_dirty s1) vc vr)).
  { destruct (v_sync s1 V1) as [Q|(Q1 & Q2 & Q3)]; [left; exact Q|right]. destruct Y1 as [Y1|Y1]; [lia|].
    unfold BUFFER_LINE_COUNT in A. pose proof (v_dirty s1 V1). destruct W11 as (W11 & _). apply finalTop_ge; auto using info_of_ok; lia. }
  destruct V1. constructor; cbn; auto; lia.
Qed.

Lemma marker_ok_at c win s : marker_ok c s -> marker_at c win s.
Proof. unfold marker_ok, marker_at. intros H St Hz. destruct (H St Hz). Qed.
Lemma setFrozen_id w : w_frozen w = true -> setFrozen true w = w.
Proof. intros H. unfold setFrozen. now rewrite H. Qed.
Lemma read_right_same c i w w' : winv w -> read_right c i w -> same_run w w' -> read_right c i w'.
Proof.
  intros W [C|(C1 & C2)] S; [left; exact C|]. right. rewrite (same_sel w w' W S). destruct S as (_ & _ & S). rewrite S by exact C1. auto.
Qed.
(** *** Programs that leave the height of the buffer alone *)
Definition keep (h : Z) (w : world) : Prop := b_h (w_buf w) = h /\ same_height (w_env w).
Definition ends {E A} (m : res E A) (P : A -> Prop) : Prop := match m with Ok a => P a | _ => True end.
Lemma ends_bind {E A B} (m : res E A) (k : A -> res E B) P Q : ends m P -> (forall a, P a -> ends (k a) Q) -> ends (bind m k) Q.
Proof. destruct m; cbn; auto. Qed.
Lemma ends_all {E A X} (m : res E A) (Q : X -> A -> Prop) : (forall x, ends m (Q x)) -> ends m (fun a => forall x, Q x a).
Proof. destruct m; cbn; auto. Qed.
Lemma ends_any {E A} (m : res E A) (P : A -> Prop) : (forall a, P a) -> ends m P.
Proof. destruct m; cbn; auto. Qed.
Lemma interfere_keep h w : keep h w -> keep h (interfere w).
Proof.
  intros (A & B). unfold interfere. destruct (w_sel w); [split; auto|]. destruct (w_env w) as [|f r] eqn:Ee; [split; [auto|rewrite Ee; constructor]|].
  split; [cbn; rewrite (Forall_inv B); exact A|exact (Forall_inv_tail B)].
Qed.
Lemma turn_keep h w : keep h w -> keep h (turn w).
Proof.
  intros (A & B). unfold turn. destruct (w_env w) as [|f r] eqn:Ee; [split; [auto|rewrite Ee; constructor]|].
  split; [cbn; rewrite (Forall_inv B); exact A|exact (Forall_inv_tail B)].
Qed.
Lemma setFrozen_keep h b w : keep h w -> keep h (setFrozen b w).
Proof.
  intros H. unfold setFrozen. destruct (Bool.eqb _ _); [exact H|]. pose proof (interfere_keep h w H) as (A & B). destruct b; [split; auto|]. destruct (w_sel _); split; auto.
Qed.
Lemma clearLines_keep h a n i w : keep h w -> keep h (clearLines a n i w).
Proof. intros H. exact (interfere_keep h w H). Qed.
Lemma write_col_keep h r d w : keep h w -> keep h (write_col r d w).
Proof. intros H. exact (interfere_keep h w H). Qed.
Lemma read_keep {E} h nw r d o w : keep h w -> ends (@read E nw r d o w) (fun '(_, w') => keep h w').
Proof.
  intros H. unfold read. pose proof (interfere_keep h w H) as K. destruct (_ || _ || _); [exact I|]. destruct (in_buf _ _); [exact K|]. destruct nw; [exact K|exact I].
Qed.
Lemma chunks_keep {E} h n : forall nw a m c l w, keep h w -> ends (@read_chunks E n nw a m c l w) (fun '(_, w') => keep h w').
Proof.
  induction n; intros nw a m c l w H; [exact I|]. cbn [read_chunks]. destruct (rBottom a <? c); [exact H|]. cbv zeta.
  eapply ends_bind; [apply (ends_any _ (fun _ => True)); auto|]. intros i _. eapply ends_bind; [apply read_keep; exact H|]. intros [d w'] H'. apply IHn. exact H'.
Qed.
Lemma large_keep {E} h nw w8 a m l w : keep h w -> ends (@largeConsoleRead E nw w8 a m l w) (fun '(_, w') => keep h w').
Proof.
  intros H. unfold largeConsoleRead. eapply ends_bind; [apply (ends_any _ (fun _ => True)); auto|]. intros _ _. cbv zeta.
  eapply ends_bind with (P := fun '(_, w') => keep h w').
  - destruct w8; [|apply chunks_keep; exact H]. eapply ends_bind; [apply read_keep; exact H|]. intros [d w'] H'. exact H'.
  - intros [l' w'] H'. destruct (m =? 65535); exact H'.
Qed.
Lemma find_keep h c s w : keep h w -> ends (findSyncMarker c s w) (fun '(_, w') => keep h w').
Proof.
  intros H. unfold findSyncMarker. eapply ends_bind; [apply (ends_any _ (fun _ => True)); auto|]. intros _ _. cbv zeta. eapply ends_bind; [apply read_keep; exact H|].
  intros [d w'] H'. destruct (_ <? _); [exact I|exact H'].
Qed.
Lemma create_keep {E} h r s w : keep h w -> ends (@createSyncMarker E r s w) (fun '(s', w') => keep h w' /\ s_direct s' = s_direct s).
Proof.
  intros H. unfold createSyncMarker. eapply ends_bind; [apply (ends_any _ (fun _ => True)); auto|]. intros _ _. unfold bufferInfo. cbv zeta. cbn [ends].
  split; [|reflexivity]. apply write_col_keep, clearLines_keep, interfere_keep. exact H.
Qed.
Lemma mask_keep h c w : keep h w -> keep h (snd (attributesMask c w)).
Proof. intros H. unfold attributesMask. cbn [snd]. apply interfere_keep, interfere_keep. exact H. Qed.
Lemma direct_keep h c st info vis s w : keep h w -> ends (directScrapeOutput c st info vis s w) (fun '(_, w') => keep h w').
Proof.
  intros H. unfold directScrapeOutput. cbv zeta. pose proof (mask_keep h c w H) as H1. destruct (attributesMask c w) as [mask w1]. cbn [snd] in H1.
  eapply ends_bind; [apply (ends_any _ (fun _ => True)); auto|]. intros _ _. eapply ends_bind; [apply large_keep; exact H1|]. intros [r w2] H2. cbv beta iota.
  eapply ends_bind; [apply (ends_any _ (fun _ => True)); auto|]. intros s' _. exact H2.
Qed.
Lemma scroll_marker_keep h c win t s w : keep h w -> ends (scroll_marker c win t s w) (fun '(_, _, w') => keep h w').
Proof.
  intros H. unfold scroll_marker. destruct (_ =? -1); [exact H|]. eapply ends_bind; [apply find_keep; exact H|]. intros [m w1] H1. cbv beta iota.
  destruct (m =? -1); [destruct t; exact H1|]. destruct (negb _); [|exact H1].
  eapply ends_bind; [apply (ends_any _ (fun _ => True)); auto|]. intros _ _. eapply ends_bind; [apply (ends_any _ (fun _ => True)); auto|]. intros _ _. exact H1.
Qed.
Lemma check_keep h c info s w : keep h w -> ends (scroll_check c info s w) (fun '(_, w') => keep h w').
Proof.
  intros H. unfold scroll_check, bufferInfo. cbv zeta. pose proof (interfere_keep h w H) as H1. destruct (_ || _); [exact H1|]. destruct (negb _); [|exact H1].
  eapply ends_bind; [apply find_keep; exact H1|]. intros [m w1] H2. exact H2.
Qed.
Lemma scrolling_keep h c info vis t s w : keep h w -> ends (scrollingScrapeOutput c info vis t s w) (fun '(_, _, w') => keep h w').
Proof.
  intros H. unfold scrollingScrapeOutput. eapply ends_bind; [apply scroll_marker_keep; exact H|]. intros [[go s1] w1] H1. cbv beta iota zeta.
  destruct (negb go); [exact H1|]. destruct (t && _); [exact H1|]. destruct (scroll_dirty _ _ t s1) as [go2 s2]. destruct (negb go2); [exact H1|].
  eapply ends_bind; [apply (ends_any _ (fun _ => True)); auto|]. intros _ _. eapply ends_bind; [apply (ends_any _ (fun _ => True)); auto|]. intros _ _.
  pose proof (mask_keep h c w1 H1) as H2. destruct (attributesMask c w1) as [mask w2]. cbn [snd] in H2.
  eapply ends_bind; [apply large_keep; exact H2|]. intros [r w3] H3. cbv beta iota.
  eapply ends_bind with (P := fun '(_, w') => keep h w'); [destruct t; [apply check_keep; exact H3|exact H3]|]. intros [same w4] H4. destruct (negb same); [exact H4|].
  eapply ends_bind with (P := fun '(_, w') => keep h w').
  - destruct (_ <=? _); [|exact H4]. eapply ends_bind; [apply (ends_any _ (fun _ => True)); auto|]. intros _ _.
    pose proof (@create_keep broken h (rTop (i_win info) - SYNC_MARKER_LEN - SYNC_MARKER_MARGIN) (st_read r s2) w4 H4) as Q.
    destruct (createSyncMarker _ _ _) as [[s' w']| | | |]; auto. apply Q.
  - intros [s5 w5] H5. cbv beta iota. eapply ends_bind; [apply (ends_any _ (fun _ => True)); auto|]. intros s6 _. exact H5.
Qed.

(** The second half of syncConsoleContentAndSize *)
Lemma scroll_twice_good c info vis s w : cfg_ok c -> winv w -> info_ok info -> co_y (i_size info) = 3000 ->
  read_right c info w -> sinv s -> s_direct s = false -> marker_ok c s ->
  good (let! (s, w) := (if negb (w_frozen w) then
            let! (ok, s, w) := scrollingScrapeOutput c info vis true s w in
            Ok (s, if ok : bool then w else setFrozen true w)
          else Ok (s, w)) in
       (if w_frozen w then
            let! (ok, s, w) := scrollingScrapeOutput c info vis false s w in Ok (s, w)
          else Ok (s, w)))
    (fun '(s', w') => sinv s' /\ s_direct s' = false /\ marker_ok c s' /\ winv w' /\ (w_frozen w = true -> w_frozen w' = true)).
Proof.
  intros K W I H3 C V D M.
  eapply good_bind with (P := fun '(s1, w1) => sinv s1 /\ s_direct s1 = false /\ marker_at c (i_win info) s1 /\ winv w1 /\ read_right c info w1 /\ (w_frozen w1 = false -> marker_ok c s1) /\ (w_frozen w = true -> w_frozen w1 = true)).
  - destruct (w_frozen w) eqn:Ef; cbn [negb].
    + cbn. splits; auto. apply marker_ok_at; auto.
    + eapply good_bind; [apply scrolling_good; auto; apply marker_ok_at; auto|]. intros [[ok s1] w1] (V1 & D1 & W1 & F1 & M1 & M2 & _). cbn.
      assert (N : c_new c = true). { destruct C as [C|(C1 & _)]; [exact C|]. destruct W as (_ & _ & W). congruence. }
      destruct ok; cbn.
      * splits; auto; [left; exact N|congruence].
      * destruct (setFrozen_ok true w1 W1) as (W2 & F2). splits; auto; [left; exact N|congruence].
  - intros [s1 w1] (V1 & D1 & M1 & W1 & C1 & M2 & F1). destruct (w_frozen w1) eqn:Ef.
    + eapply good_bind; [apply scrolling_good; auto|]. intros [[ok s2] w2] (V2 & D2 & W2 & F2 & _ & M3 & T2). cbn. splits; auto. congruence.
    + cbn. splits; auto. intros X; discriminate (F1 X).
Qed.
Definition steady (force : bool) (s : sst) (w : world) : Prop := force = false /\ exists h, keep h w /\ (s_direct s = true -> h <> 3000).
Lemma sync_good c force s w : cfg_ok c -> (c_strict c = true \/ steady force s w) -> winv w -> sinv s -> marker_ok c s ->
  good (syncConsoleContentAndSize c force s w) (fun '(i, s', w') => info_ok i /\ sinv s' /\ marker_ok c s' /\ winv w' /\
     (steady force s w -> steady false s' w' /\ b_h (w_buf w') = b_h (w_buf w))).
Proof.
  intros K St W V M. unfold syncConsoleContentAndSize. cbv zeta.
  set (w0 := if negb (c_new c) || force then setFrozen true w else w).
  assert (H0 : winv w0 /\ (c_new c = true \/ w_frozen w0 = true) /\ (force = true -> w_frozen w0 = true)).
  { unfold w0. destruct (setFrozen_ok true w W) as (A & B). destruct (c_new c), force; cbn [negb orb]; splits; auto; discriminate. }
  assert (Hk : forall h, keep h w -> keep h w0) by (intros h Hk; unfold w0; destruct (negb (c_new c) || force); [apply setFrozen_keep|]; exact Hk).
  destruct H0 as (W0 & N0 & Fr0). clearbody w0. unfold bufferInfo, cursorVisible. cbv zeta.
  pose proof (interfere_ok w0 W0) as W1. pose proof (interfere_frozen w0) as F1. assert (Hk1 : forall h, keep h w -> keep h (interfere w0)) by auto using interfere_keep. set (w1 := interfere w0) in *. clearbody w1.
  assert (Hk2 : forall h, keep h w -> keep h (interfere w1)) by auto using interfere_keep. pose proof (same_interfere w1 W1) as S2. set (w2 := interfere w1) in *. clearbody w2. pose proof S2 as (W2 & F2 & B2).
  set (info := info_of (w_buf w1)). assert (I : info_ok info) by (apply info_of_ok; apply W1).
  assert (C : read_right c info w2).
  { destruct N0 as [N|N]; [left; exact N|]. right. destruct W2 as (_ & _ & W2), W1 as (_ & _ & W1). assert (w_sel w1 = true) by congruence. split; [congruence|]. unfold info. now rewrite B2. }
  set (vis := b_visible (w_buf w2)). clearbody vis.
  set (nd := negb (co_y (i_size info) =? BUFFER_LINE_COUNT)).
  assert (Fr : force = true -> w_frozen w2 = true) by (intros X; rewrite F2, F1; auto).
  set (sw := if negb (Bool.eqb nd (s_direct s)) then _ else _).
  assert (Hsw : let '(fo, s', w') := sw in sinv s' /\ marker_ok c s' /\ s_direct s' = nd /\ winv w' /\ read_right c info w' /\ (fo = true -> w_frozen w' = true) /\
     (steady force s w -> fo = false) /\ (forall h, keep h w -> keep h w')).
  { unfold sw. destruct (negb (Bool.eqb nd (s_direct s))) eqn:En.
    - set (s1 := st_direct nd (resetConsoleTracking true (if nd then 0 else rTop (i_win info)) s)).
      assert (V1 : sinv s1). { destruct I as (_ & _ & _ & _ & I5 & _). pose proof (sinv_reset true (if nd then 0 else rTop (i_win info)) s V ltac:(destruct nd; lia)) as []. constructor; cbn; auto. }
      assert (M1 : marker_ok c s1) by (unfold marker_ok, s1; cbn; lia).
      assert (Hst : steady force s w -> nd = true).
      { intros (_ & h & Kh & Hd). unfold nd. destruct (Hk1 h Kh) as (Eh & _). unfold info, BUFFER_LINE_COUNT. cbn [info_of i_size co_y]. rewrite Eh.
        destruct (s_direct s); [destruct (Z.eqb_spec h 3000) as [X|X]; [destruct (Hd eq_refl X)|reflexivity]|].
        unfold nd, info, BUFFER_LINE_COUNT in En. cbn [info_of i_size co_y] in En. rewrite Eh in En. destruct (h =? 3000); [discriminate|reflexivity]. }
      destruct nd; cbn [negb]; [splits; auto; intros (X & _); exact X|].
      destruct (setFrozen_ok true w2 W2) as (A & B). splits; auto; [|intros X; discriminate (Hst X)|auto using setFrozen_keep].
      destruct C as [C|(C1 & C2)]; [left; exact C|]. rewrite setFrozen_id; [right; auto|]. destruct W2 as (_ & _ & W2). congruence.
    - apply Bool.negb_false_iff, Bool.eqb_prop in En. splits; auto. intros (X & _); exact X. }
  destruct sw as [[fo s1] w3]. destruct Hsw as (V1 & M1 & D1 & W3 & C3 & Fo & Fst & Hk3).
  assert (St' : fo = true -> c_strict c = true) by (intros X; destruct St as [St|St]; [exact St|rewrite (Fst St) in X; discriminate]).
  eapply good_bind with (P := fun '(s', w') => (sinv s' /\ marker_ok c s' /\ winv w' /\ s_direct s' = s_direct s1) /\ (fo = false -> forall h, keep h w -> keep h w')).
  { match goal with |- good ?m _ => assert (Gs : good m (fun '(s', w') => sinv s' /\ marker_ok c s' /\ winv w' /\ s_direct s' = s_direct s1));
      [|assert (Ge : ends m (fun x => fo = false -> forall h, keep h w -> keep h (snd x)))] end.
    2:{ destruct fo eqn:Efo; [apply ends_any; discriminate|]. apply ends_all. intros _. apply ends_all. intros h. apply ends_all. intros Kh. pose proof (Hk3 h Kh) as K3. clear Gs. cbn [bind].
      destruct (s_direct s1).
      - pose proof (direct_keep h c false info vis s1 w3 K3) as D. destruct (directScrapeOutput _ _ _ _ _ _) as [[? ?]| | | |]; exact D.
      - eapply ends_bind with (P := fun '(_, w') => keep h w').
        + destruct (negb (w_frozen w3)); [|exact K3]. eapply ends_bind; [apply scrolling_keep; exact K3|]. intros [[ok s'] w'] H'. destruct ok; [exact H'|]. apply setFrozen_keep. exact H'.
        + intros [s' w'] H'. cbv beta iota. eapply ends_bind with (P := fun '(_, w') => keep h w'); [|intros [? ?] Q; exact Q].
          destruct (w_frozen w'); [|exact H']. eapply ends_bind; [apply scrolling_keep; exact H'|]. intros [[ok s''] w''] H''. exact H''. }
    2:{ destruct (if s_direct s1 then _ else _) as [[s' w']| | | |]; cbn [good ends snd] in *; auto. }
    destruct (s_direct s1) eqn:Ed.
    - eapply good_bind with (P := fun '(s', w') => sinv s' /\ marker_ok c s' /\ winv w' /\ s_direct s' = true /\ (c_new c = true \/ w_sel w' = true) /\ (fo = false -> read_right c info w')).
      + destruct fo eqn:Efo.
        * eapply good_weak; [apply resizeImpl_good; auto|]. intros [s' w'] (A1 & A2 & A3 & A4 & A5). splits; auto; [congruence| |discriminate]. right. destruct A4 as (_ & _ & A4). congruence.
        * cbn. splits; auto. destruct C3 as [C3|(C3 & _)]; auto.
      + intros [s' w'] (A1 & A2 & A3 & A0 & A4 & A5). eapply good_weak; [apply direct_good; auto|]. intros [s'' w''] (E1 & E2 & E3 & E4 & E5). splits; auto; [unfold marker_ok in *; rewrite E3; exact A2|congruence].
    - assert (H3 : co_y (i_size info) = 3000). { unfold nd, BUFFER_LINE_COUNT in D1. symmetry in D1. apply Bool.negb_false_iff in D1. lia. }
      pose proof (scroll_twice_good c info vis s1 w3 K W3 I H3 C3 V1 Ed M1) as G.
      match goal with |- good (bind ?m ?k) _ => assert (Gk : forall s' w', sinv s' /\ s_direct s' = false /\ marker_ok c s' /\ winv w' /\ (w_frozen w3 = true -> w_frozen w' = true) -> good (if fo then resizeImpl c info s' w' else Ok (s', w')) (fun '(s'', w'') => sinv s'' /\ marker_ok c s'' /\ winv w'' /\ s_direct s'' = false)) end.
      { intros s' w' (A1 & A2 & A3 & A4 & A5). destruct fo eqn:Efo; [|cbn; auto].
        eapply good_weak; [apply resizeImpl_good; auto|]. intros [s'' w''] (E1 & E2 & E3 & E4 & E5). splits; auto. congruence. }
      clear - G Gk.
      destruct (if negb (w_frozen w3) then _ else _) as [[s4 w4]| | | |]; cbn [bind good] in *; auto.
      destruct (if w_frozen w4 then _ else _) as [[s5 w5]| | | |]; cbn [bind good] in *; auto. }
  intros [s4 w4] ((V4 & M4 & W4 & D4) & Hk4). destruct fo; cbn [good]; splits; auto.
  - apply info_of_ok. apply interfere_ok; exact W4.
  - apply interfere_ok; exact W4.
  - intros H. discriminate (Fst H).
  - intros (_ & h & Kh & Hd). destruct (Hk4 eq_refl h Kh) as (X & _). pose proof Kh as (Y & _). split; [|congruence]. split; [reflexivity|]. exists h. split; [apply Hk4; auto|]. destruct (Hk1 h Kh) as (Eh & _). rewrite D4, D1. unfold nd, info, BUFFER_LINE_COUNT. cbn [info_of i_size co_y]. rewrite Eh. intros X1 X2. rewrite X2 in X1. discriminate X1.
Qed.
Lemma new_good c size w : winv w -> 1 <= co_x size <= 2500 -> 1 <= co_y size <= 2000 ->
  let '(s, w') := newScraper c size w in sinv s /\ marker_ok c s /\ winv w' /\ w_frozen w' = w_frozen w.
Proof.
  intros W Hx Hy. unfold newScraper, bufferInfo, largestSize, changeFont. cbv zeta.
  pose proof (interfere_ok w W) as W1. pose proof (interfere_frozen w) as F1. set (w1 := interfere w) in *. clearbody w1.
  assert (T : 0 <= rTop (i_win (info_of (w_buf w1)))) by (destruct W1 as (W1 & _); unfold console_ok in W1; cbn; lia).
  pose proof (interfere_ok w1 W1) as W2. pose proof (interfere_frozen w1) as F2. set (w2 := interfere w1) in *. 
  destruct (moveWindow_ok (SmallRect 0 0 1 1) w2 W2) as (W3 & F3). set (w3 := moveWindow (SmallRect 0 0 1 1) w2) in *. clearbody w3.
  destruct (resizeBufferRange_ok (co_x size) BUFFER_LINE_COUNT w3 ltac:(lia) ltac:(unfold BUFFER_LINE_COUNT; lia) W3) as (W4 & F4).
  set (w4 := resizeBufferRange (co_x size) BUFFER_LINE_COUNT w3) in *. clearbody w4.
  pose proof (interfere_ok w4 W4) as W5. pose proof (interfere_frozen w4) as F5. set (w5 := interfere w4) in *. clearbody w5.
  match goal with |- context [moveWindow ?r w5] => destruct (moveWindow_ok r w5 W5) as (W6 & F6); set (w6 := moveWindow r w5) in *; clearbody w6 end.
  destruct (setCursorPosition_ok (mkCoord 0 0) w6 W6) as (W7 & F7). set (w7 := setCursorPosition (mkCoord 0 0) w6) in *. clearbody w7.
  pose proof (interfere_ok w7 W7) as W8. pose proof (interfere_frozen w7) as F8. set (w8 := interfere w7) in *. clearbody w8.
  pose proof (interfere_ok w8 W8) as W9. pose proof (interfere_frozen w8) as F9. set (w9 := interfere w8) in *. clearbody w9.
  destruct (clearLines_ok 0 (co_y (i_size (info_of (w_buf w9)))) (info_of (w_buf w9)) w9 W9) as (W10 & F10).
  splits; auto.
  - constructor; cbn [s_lines s_pty s_scrolled s_scraped s_dirty s_syncRow s_direct st_lines resetConsoleTracking emit s_dirtyTop]; auto; try lia.
    + apply Forall_forall. intros l Hl. apply repeat_spec in Hl. subst l. unfold line_ok. cbn. change (zlen (@nil cell)) with 0. lia.
    + repeat constructor.
  - unfold marker_ok. cbn. lia.
  - congruence.
Qed.

(** *** The agent *)
Definition ainv (c : cfg) (a : agent) : Prop :=
  sinv (a_prim a) /\ marker_ok c (a_prim a) /\
  match a_err a with None => True | Some (es, eb) => sinv es /\ marker_ok c es /\ console_ok eb end.
Lemma ainv_drawn c a : ainv c a -> drawn_all a.
Proof.
  intros (A & _ & B). split; [apply sized_carried; apply A|]. destruct (a_err a) as [[es eb]|]; [|exact I]. destruct B as (B & _). apply sized_carried. apply B.
Qed.
Lemma with_buf_ok b w : winv w -> console_ok b -> winv (with_buf b w).
Proof. intros (A & B & C) H. split; auto. Qed.
Lemma on_buffer_good {A} (L : Prop) b (f : world -> res broken (A * world)) w (P : A -> cbuf -> Prop) : winv w -> console_ok b -> (L -> same_height (w_env w)) ->
  (forall w', winv w' -> (L -> keep (b_h b) w') -> good (f w') (fun '(a, w2) => P a (w_buf w2) /\ winv w2 /\ (L -> same_height (w_env w2)))) ->
  good (on_buffer b f w) (fun '(a, b', w2) => P a b' /\ console_ok b' /\ winv w2 /\ (L -> keep (b_h (w_buf w)) w2)).
Proof.
  intros W B Lw F. unfold on_buffer. eapply good_bind; [apply F; [apply turn_ok; apply with_buf_ok; auto|]|].
  - intros S. apply turn_keep. split; [reflexivity|exact (Lw S)].
  - intros [a w'] (Pa & W' & S'). cbn.
    splits; auto; [apply W'| |].
    + apply turn_ok. apply with_buf_ok; [exact W'|apply W].
    + intros S. apply turn_keep. split; [reflexivity|]. exact (S' S).
Qed.
(** The heights of the buffers agree with the scrapers' modes. *)
Definition level_buf (s : sst) (b : cbuf) : Prop := s_direct s = true -> b_h b <> 3000.
Definition level (a : agent) (w : world) : Prop :=
  same_height (w_env w) /\ level_buf (a_prim a) (w_buf w) /\ match a_err a with None => True | Some (es, eb) => level_buf es eb end.
Lemma level_steady s w : same_height (w_env w) -> level_buf s (w_buf w) -> steady false s w.
Proof. intros H L. split; [reflexivity|]. exists (b_h (w_buf w)). split; [split; [reflexivity|exact H]|exact L]. Qed.
Lemma steady_level s w : steady false s w -> same_height (w_env w) /\ level_buf s (w_buf w).
Proof. intros (_ & h & (K1 & K2) & L). split; [exact K2|]. intros X. rewrite K1. exact (L X). Qed.
Lemma call_good c k a w : cfg_ok c -> (c_strict c = true \/ (k = Poll /\ level a w)) -> call_ok k -> winv w -> ainv c a ->
  good (run_call c k a w) (fun '(a', w') => ainv c a' /\ winv w' /\ (k = Poll -> level a w -> level a' w')).
Proof.
  intros K St Hk W (V & M & Er). destruct k as [|x y]; cbn [run_call].
  - eapply good_bind with (P := fun '(_, a', w') => ainv c a' /\ winv w' /\ (level a w -> level a' w')); [|intros [[i a'] w'] (H1 & H2 & H3); cbn; auto].
    unfold agentScrape, guard_enter. cbv zeta. destruct (setFrozen_ok (w_frozen w) w W) as (W1 & _).
    assert (Lv1 : level a w -> steady false (a_prim a) (setFrozen (w_frozen w) w)).
    { intros (L1 & L2 & _). split; [reflexivity|]. exists (b_h (w_buf w)). split; [|exact L2]. apply setFrozen_keep. split; [reflexivity|exact L1]. }
    assert (Hh1 : level a w -> keep (b_h (w_buf w)) (setFrozen (w_frozen w) w)) by (intros (L1 & _); apply setFrozen_keep; split; [reflexivity|exact L1]).
    unfold scrapeBuffer. eapply good_bind; [apply sync_good; auto; destruct St as [St|(_ & St)]; auto|]. intros [[i s1] w1] (_ & V1 & M1 & W1' & Lv2). cbv beta iota.
    assert (Lv3 : level a w -> same_height (w_env w1) /\ level_buf s1 (w_buf w1)) by (intros L; apply steady_level; apply Lv2; auto).
    eapply good_bind with (P := fun '(e, w') => match e with None => True | Some (es, eb) => sinv es /\ marker_ok c es /\ console_ok eb /\ (level a w -> level_buf es eb) end /\ winv w' /\
        (level a w -> same_height (w_env w') /\ b_h (w_buf w') = b_h (w_buf w1))).
    + destruct (a_err a) as [[es eb]|] eqn:Ee; [|cbn; splits; auto; intros L; split; [apply Lv3; auto|reflexivity]]. destruct Er as (V2 & M2 & B2).
      eapply good_bind; [apply (on_buffer_good (level a w) eb _ w1 (fun s b => sinv s /\ marker_ok c s /\ (level a w -> level_buf s b))); auto; [intros L; apply Lv3; exact L|]|].
      * intros w' W' Kw. 
        assert (Lw : level a w -> steady false es w').
        { intros L. split; [reflexivity|]. exists (b_h eb). split; [apply Kw; auto|]. destruct L as (_ & _ & L). rewrite Ee in L. exact L. }
        eapply good_bind; [apply sync_good; auto; destruct St as [St|(_ & St)]; auto|]. intros [[i' s'] w2] (_ & A & B & C & D). cbn. splits; auto; intros L; apply (steady_level s' w2); apply D; auto.
      * intros [[es' eb'] w'] ((A & B & Q) & C & D & Z). cbn. splits; auto. intros L. destruct (Z L). auto.
    + intros [e w2] (E & W2 & L2). cbn. splits; auto.
      * split; [exact V1|split; [exact M1|]]. cbn. destruct e as [[es eb]|]; tauto.
      * apply setFrozen_ok; exact W2.
      * intros L. destruct (L2 L) as (L3 & L4). destruct (Lv3 L) as (L5 & L6).
        destruct (setFrozen_keep (b_h (w_buf w1)) (w_frozen w) w2 (conj L4 L3)) as (L7 & L8). split; [exact L8|]. cbn. split; [unfold level_buf, guard_leave in *; rewrite L7; exact L6|].
        destruct e as [[es eb]|]; [|exact I]. tauto.
  - eapply good_bind with (P := fun '(_, _, a', w') => ainv c a' /\ winv w'); [|intros [[[i j] a'] w'] (H1 & H2); cbn; splits; auto; discriminate].
    destruct St as [St|(St & _)]; [|discriminate].
    cbn in Hk. unfold agentResize, guard_enter. apply good_assert; [lia|]. cbv zeta. destruct (setFrozen_ok (w_frozen w) w W) as (W1 & _).
    assert (Hp : forall s, sinv s -> sinv (st_pty (Coord_ (Z.min x MAX_CONSOLE_WIDTH) (Z.min y MAX_CONSOLE_HEIGHT)) s)).
    { intros s []. unfold Coord_, MAX_CONSOLE_WIDTH, MAX_CONSOLE_HEIGHT. constructor; cbn; auto; rewrite LargeReadProofs.s16_id by lia; lia. }
    set (size := Coord_ _ _) in *. clearbody size. unfold resizeWindow. eapply good_bind; [apply sync_good; auto|]. intros [[i s1] w1] (_ & V1 & M1 & W1' & _). cbv beta iota.
    eapply good_bind with (P := fun '(e, w') => match e with None => True | Some (es, eb) => sinv es /\ marker_ok c es /\ console_ok eb end /\ winv w').
    + destruct (a_err a) as [[es eb]|]; [|cbn; auto]. destruct Er as (V2 & M2 & B2).
      eapply good_bind; [apply (on_buffer_good False eb _ w1 (fun s _ => sinv s /\ marker_ok c s)); auto; [intros []|]|].
      * intros w' W' _. 
        eapply good_bind; [apply sync_good; auto|]. intros [[i' s'] w2] (_ & A & B & C & D). cbn. splits; auto. intros [].
      * intros [[es' eb'] w'] ((A & B) & C & D & _). cbn. auto.
    + intros [e w2] (E & W2). cbn. splits; auto; [split; [exact V1|split; [exact M1|exact E]]|]. apply setFrozen_ok. apply interfere_ok. exact W2.
Qed.
Lemma calls_good c ks : cfg_ok c -> forall a w, (c_strict c = true \/ (Forall (eq Poll) ks /\ level a w)) -> Forall call_ok ks -> winv w -> ainv c a ->
  good (run_calls c ks a w) (fun '(a', w') => ainv c a' /\ winv w').
Proof.
  intros K. induction ks as [|k ks IH]; intros a w St F W A; [cbn; auto|]. cbn [run_calls]. pose proof (Forall_inv F) as Fk. apply Forall_inv_tail in F.
  eapply good_bind; [apply call_good; auto; destruct St as [St|(St & L)]; [left; exact St|right; split; [symmetry; exact (Forall_inv St)|exact L]]|].
  intros [a' w'] (A' & W' & L'). apply IH; auto. destruct St as [St|(St & L)]; [left; exact St|right]. split; [exact (Forall_inv_tail St)|]. apply L'; [symmetry; exact (Forall_inv St)|exact L].
Qed.
Lemma fails_keep h w : keep h w -> keep h (snd (fails w)).
Proof. intros (A & B). unfold fails. destruct (w_fail w); split; auto. Qed.
Lemma moveWindow_env r w : same_height (w_env w) -> same_height (w_env (moveWindow r w)).
Proof.
  intros H. unfold moveWindow. destruct (interfere_keep _ w (conj eq_refl H)) as (_ & H1). unfold fails. destruct (w_fail (interfere w)); cbv zeta; match goal with |- context [if ?b then _ else _] => destruct b end; exact H1.
Qed.
Lemma setBufferSize_env x y w : same_height (w_env w) -> same_height (w_env (snd (setBufferSize x y w))).
Proof.
  intros H. unfold setBufferSize. destruct (interfere_keep _ w (conj eq_refl H)) as (_ & H1). unfold fails. destruct (w_fail (interfere w)); cbv zeta; match goal with |- context [if ?b then _ else _] => destruct b end; exact H1.
Qed.
Lemma widen_env n : forall x y w, same_height (w_env w) -> same_height (w_env (widen n x y w)).
Proof.
  induction n; intros x y w H; [exact H|]. cbn [widen]. destruct (x <? 20); [|exact H]. pose proof (setBufferSize_env (x + 1) y w H) as H1.
  destruct (setBufferSize (x + 1) y w) as [[] w1]; [exact H1|]. apply IHn. exact H1.
Qed.
Lemma resizeRange_env x y w : same_height (w_env w) -> same_height (w_env (resizeBufferRange x y w)).
Proof.
  intros H. unfold resizeBufferRange. pose proof (setBufferSize_env x y w H) as H1. destruct (setBufferSize x y w) as [[] w1]; [exact H1|]. apply widen_env. exact H1.
Qed.
Lemma interfere_env w : same_height (w_env w) -> same_height (w_env (interfere w)).
Proof. intros H. apply (interfere_keep _ w (conj eq_refl H)). Qed.
Lemma turn_env w : same_height (w_env w) -> same_height (w_env (turn w)).
Proof. intros H. apply (turn_keep _ w (conj eq_refl H)). Qed.
Lemma clearLines_env a n i w : same_height (w_env w) -> same_height (w_env (clearLines a n i w)).
Proof. intros H. apply (clearLines_keep _ a n i w (conj eq_refl H)). Qed.
Lemma setCursor_env x w : same_height (w_env w) -> same_height (w_env (setCursorPosition x w)).
Proof. intros H. unfold setCursorPosition. pose proof (interfere_env w H). destruct (_ && _); assumption. Qed.
Lemma newScraper_env c size w : same_height (w_env w) -> same_height (w_env (snd (newScraper c size w))) /\ s_direct (fst (newScraper c size w)) = false.
Proof.
  intros H. unfold newScraper, bufferInfo, largestSize, changeFont. cbv zeta. cbn [fst snd]. split.
  2:{ cbn [s_direct st_lines resetConsoleTracking emit]. reflexivity. }
  apply clearLines_env. repeat first [apply interfere_env | apply moveWindow_env | apply resizeRange_env | apply setCursor_env | exact H].
Qed.
Lemma agent_good c cols rows eb ks w : cfg_ok c -> (c_strict c = true \/ (Forall (eq Poll) ks /\ same_height (w_env w))) -> 1 <= cols -> 1 <= rows ->
  (forall b, eb = Some b -> console_ok b) -> Forall call_ok ks -> world_ok w ->
  good (run_agent c cols rows eb ks w) (fun '(a, w') => ainv c a /\ winv w').
Proof.
  intros K St Hc Hr Hb F (B1 & B2 & B3 & B4). assert (W : winv w) by (split; [auto|split; [auto|congruence]]).
  unfold run_agent. eapply good_bind with (P := fun '(a, w') => ainv c a /\ winv w' /\ (same_height (w_env w) -> level a w')).
  2:{ intros [a w'] (A & W' & L). apply calls_good; auto. destruct St as [St|(St & H)]; auto. }
  unfold agentNew. apply good_assert; [lia|]. cbv zeta.
  assert (Hs : 1 <= co_x (Coord_ (Z.min cols MAX_CONSOLE_WIDTH) (Z.min rows MAX_CONSOLE_HEIGHT)) <= 2500 /\ 1 <= co_y (Coord_ (Z.min cols MAX_CONSOLE_WIDTH) (Z.min rows MAX_CONSOLE_HEIGHT)) <= 2000).
  { unfold Coord_, MAX_CONSOLE_WIDTH, MAX_CONSOLE_HEIGHT. cbn [co_x co_y]. rewrite !LargeReadProofs.s16_id by lia. lia. }
  set (size := Coord_ _ _) in *. clearbody size. destruct Hs as (Hx & Hy).
  pose proof (new_good c size w W Hx Hy) as N. pose proof (newScraper_env c size w) as Nk. destruct (newScraper c size w) as [s w1]. destruct N as (V1 & M1 & W1 & _). cbn [fst snd] in Nk.
  eapply good_bind with (P := fun '(e, w') => match e with None => True | Some (es, eb) => sinv es /\ marker_ok c es /\ console_ok eb /\ (same_height (w_env w) -> level_buf es eb) end /\ winv w' /\
      (same_height (w_env w) -> same_height (w_env w'))).
  - destruct eb as [b|]; [|cbn; splits; auto; intros H; apply Nk; exact H].
    eapply good_bind; [apply (on_buffer_good (same_height (w_env w)) b _ w1 (fun s b => sinv s /\ marker_ok c s /\ (same_height (w_env w) -> level_buf s b))); auto; [intros H; apply Nk; exact H|]|].
    + intros w' W' Kw. pose proof (new_good c size w' W' Hx Hy) as N'. pose proof (newScraper_env c size w') as Nk'. destruct (newScraper c size w') as [s' w'']. cbn [fst snd] in Nk'. cbn. destruct N' as (N1 & N2 & N3 & _). splits; auto.
      * intros H. destruct (Kw H) as (_ & Kw'). destruct (Nk' Kw') as (_ & X). intros Y. congruence.
      * intros H. destruct (Kw H) as (_ & Kw'). apply Nk'. exact Kw'.
    + intros [[es' eb'] w'] ((A & B & X) & C & D & Y). cbn. splits; auto. intros H. apply Y. exact H.
  - intros [e w2] (E & W2 & L2). cbn. splits; auto.
    + split; [exact V1|split; [exact M1|]]. cbn. destruct e as [[es eb']|]; tauto.
    + intros H. split; [auto|]. cbn. split; [intros X; destruct (Nk H) as (_ & Y); congruence|]. destruct e as [[es eb']|]; [|exact I]. tauto.
Qed.

(** *** The stops do not change the program otherwise *)
Definition sim {A} (m m' : res broken A) : Prop := match m with Throw _ => True | r => m' = r end.
Lemma sim_refl {A} (m : res broken A) : sim m m.
Proof. destruct m; cbn; auto. Qed.
Lemma sim_bind {A B} (m m' : res broken A) (k k' : A -> res broken B) : sim m m' -> (forall a, sim (k a) (k' a)) -> sim (bind m k) (bind m' k').
Proof. destruct m; cbn; intros -> H || intros _ H; cbn; auto. Qed.
Lemma sim_assume {A} c x b (k k' : res broken A) : sim k k' -> sim (let! _ := assume (with_strict true c) x b in k) (let! _ := assume (with_strict false c) x b in k').
Proof. intros H. unfold assume. cbn. destruct b; cbn; auto. Qed.
Ltac simt := repeat first [
    apply sim_refl
  | match goal with |- sim (bind (assume _ _ _) _) _ => apply sim_assume end
  | match goal with |- sim (bind _ _) _ => apply sim_bind; [|intros]; cbv beta end
  | match goal with |- context [match ?x with _ => _ end] => match type of x with world => fail 1 | _ => destruct x end end ].
Lemma sim_direct c st info vis s w : sim (directScrapeOutput (with_strict true c) st info vis s w) (directScrapeOutput (with_strict false c) st info vis s w).
Proof.
  unfold directScrapeOutput. cbv zeta. change (attributesMask (with_strict true c) w) with (attributesMask (with_strict false c) w).
  destruct (attributesMask (with_strict false c) w) as [mask w1]. change (c_new (with_strict true c)) with (c_new (with_strict false c)).
  apply sim_assume. apply sim_refl.
Qed.
Lemma sim_marker c win t s w : sim (scroll_marker (with_strict true c) win t s w) (scroll_marker (with_strict false c) win t s w).
Proof.
  unfold scroll_marker. change (findSyncMarker (with_strict true c) s w) with (findSyncMarker (with_strict false c) s w).
  destruct (_ =? -1); [apply sim_refl|]. apply sim_bind; [apply sim_refl|]. intros [m w1]. destruct (m =? -1); [apply sim_refl|]. destruct (negb _); [|apply sim_refl].
  apply sim_bind; [apply sim_refl|]. intros _. apply sim_assume. apply sim_refl.
Qed.
Lemma sim_scrolling c info vis t s w : sim (scrollingScrapeOutput (with_strict true c) info vis t s w) (scrollingScrapeOutput (with_strict false c) info vis t s w).
Proof.
  unfold scrollingScrapeOutput. apply sim_bind; [apply sim_marker|]. intros [[go s1] w1]. apply sim_refl.
Qed.
Lemma sim_resize c orig s w : sim (resizeImpl (with_strict true c) orig s w) (resizeImpl (with_strict false c) orig s w).
Proof.
  unfold resizeImpl. apply sim_bind; [apply sim_refl|]. intros _. apply sim_bind; [apply sim_refl|]. intros [s1 w1]. cbv zeta. unfold largestSize, bufferInfo. cbv zeta.
  apply sim_assume. apply sim_refl.
Qed.
Lemma sim_sync c force s w : sim (syncConsoleContentAndSize (with_strict true c) force s w) (syncConsoleContentAndSize (with_strict false c) force s w).
Proof.
  unfold syncConsoleContentAndSize. cbv zeta. unfold bufferInfo, cursorVisible. cbv zeta. change (c_new (with_strict true c)) with (c_new (with_strict false c)).
  destruct (if negb (Bool.eqb _ _) then _ else _) as [[fo s1] w1]. apply sim_bind.
  - destruct (s_direct s1).
    + apply sim_bind; [destruct fo; [apply sim_resize|apply sim_refl]|]. intros [s2 w2]. apply sim_direct.
    + apply sim_bind.
      * destruct (negb _); [|apply sim_refl]. apply sim_bind; [apply sim_scrolling|]. intros [[ok s2] w2]. apply sim_refl.
      * intros [s2 w2]. apply sim_bind.
        -- destruct (w_frozen w2); [|apply sim_refl]. apply sim_bind; [apply sim_scrolling|]. intros [[ok s3] w3]. apply sim_refl.
        -- intros [s3 w3]. destruct fo; [apply sim_resize|apply sim_refl].
  - intros [s2 w2]. apply sim_refl.
Qed.
Lemma sim_on_buffer {A} b (f f' : world -> res broken (A * world)) w : (forall w, sim (f w) (f' w)) -> sim (on_buffer b f w) (on_buffer b f' w).
Proof. intros H. unfold on_buffer. apply sim_bind; [apply H|]. intros [a w']. apply sim_refl. Qed.
Lemma sim_call c k a w : sim (run_call (with_strict true c) k a w) (run_call (with_strict false c) k a w).
Proof.
  destruct k as [|x y]; cbn [run_call].
  - apply sim_bind; [|intros [[i a'] w']; apply sim_refl]. unfold agentScrape, guard_enter, scrapeBuffer. cbv zeta. apply sim_bind; [apply sim_sync|]. intros [[i s] w'].
    apply sim_bind; [|intros [e w2]; apply sim_refl]. destruct (a_err a) as [[es eb]|]; [|apply sim_refl]. apply sim_bind; [|intros [[es' eb'] w2]; apply sim_refl].
    apply sim_on_buffer. intros w2. apply sim_bind; [apply sim_sync|]. intros [[i2 s2] w3]. apply sim_refl.
  - apply sim_bind; [|intros [[[i j] a'] w']; apply sim_refl]. unfold agentResize, guard_enter, resizeWindow. apply sim_bind; [apply sim_refl|]. intros _. cbv zeta. apply sim_bind; [apply sim_sync|]. intros [[i s] w'].
    apply sim_bind; [|intros [e w2]; apply sim_refl]. destruct (a_err a) as [[es eb]|]; [|apply sim_refl]. apply sim_bind; [|intros [[es' eb'] w2]; apply sim_refl].
    apply sim_on_buffer. intros w2. apply sim_bind; [apply sim_sync|]. intros [[i2 s2] w3]. apply sim_refl.
Qed.
Lemma sim_calls c ks : forall a w, sim (run_calls (with_strict true c) ks a w) (run_calls (with_strict false c) ks a w).
Proof. induction ks as [|k ks IH]; intros a w; [apply sim_refl|]. cbn [run_calls]. apply sim_bind; [apply sim_call|]. intros [a' w']. apply IH. Qed.
Lemma sim_agent c cols rows eb ks w : sim (run_agent (with_strict true c) cols rows eb ks w) (run_agent (with_strict false c) cols rows eb ks w).
Proof. unfold run_agent. apply sim_bind; [apply sim_refl|]. intros [a w']. apply sim_calls. Qed.
Lemma agent_safe c cols rows eb ks w : cfg_ok c -> 1 <= cols -> 1 <= rows -> (forall b, eb = Some b -> console_ok b) -> Forall call_ok ks -> world_ok w ->
  (exists e, run_agent (with_strict true c) cols rows eb ks w = Throw e) \/
  (exists a w', run_agent (with_strict false c) cols rows eb ks w = Ok (a, w') /\ drawn_all a).
Proof.
  intros K Hc Hr He Hk W.
  assert (G : good (run_agent (with_strict true c) cols rows eb ks w) (fun '(a, w') => ainv (with_strict true c) a /\ winv w')) by (apply agent_good; auto; exact K).
  pose proof (sim_agent c cols rows eb ks w) as S. destruct (run_agent (with_strict true c) cols rows eb ks w) as [[a w']|e| | |]; cbn in G, S; try tauto; eauto. right. exists a, w'. split; [exact S|]. exact (ainv_drawn _ _ (proj1 G)).
Qed.
(** *** Without the stops nothing is thrown *)
Definition nt {E A} (m : res E A) : Prop := match m with Throw _ => False | _ => True end.
Lemma nt_bind {E A B} (m : res E A) (k : A -> res E B) : nt m -> (forall a, nt (k a)) -> nt (bind m k).
Proof. destruct m; cbn; auto. Qed.
Lemma nt_assert {E} b : nt (@assert_ E b).
Proof. destruct b; exact I. Qed.
Ltac nts := repeat (cbv zeta; first [
    exact I
  | apply nt_assert
  | assumption
  | match goal with H : forall _, _ |- _ => apply H end
  | match goal with |- nt (bind _ _) => apply nt_bind; [|intros] end
  | match goal with |- nt (match ?x with _ => _ end) => destruct x end
  | match goal with |- nt (let (_, _) := ?x in _) => destruct x end ]).
Lemma nt_lineData {E} r l : nt (@lineData E r l).
Proof. unfold lineData, line_index. nts. Qed.
Lemma nt_read {E} n r d o w : nt (@read E n r d o w).
Proof. unfold read. nts. Qed.
Lemma nt_chunks {E} f : forall n a m c l w, nt (@read_chunks E f n a m c l w).
Proof. induction f; intros; [exact I|]. cbn [read_chunks]. unfold line_index. nts. apply nt_read. Qed.
Lemma nt_large {E} n w8 a m l w : nt (@largeConsoleRead E n w8 a m l w).
Proof. unfold largeConsoleRead. nts; [apply nt_read|apply nt_chunks]. Qed.
Lemma nt_setLine {E} a b n : nt (@setLine E a b n).
Proof. unfold setLine. nts. Qed.
Lemma nt_blank {E} n : forall l c a, nt (@isLineBlank_at E l c n a).
Proof. induction n; intros; [exact I|]. cbn [isLineBlank_at]. nts. Qed.
Lemma nt_equal {E} a b n : nt (@areLinesEqual E a b n).
Proof. unfold areLinesEqual. nts. Qed.
Lemma nt_detect {E} a b n : nt (@detectChangeAndSetLine E a b n).
Proof. unfold detectChangeAndSetLine. nts; first [apply nt_setLine|apply nt_equal|apply nt_blank]. Qed.
Lemma nt_direct_loop {E} n : forall a b c d e s, nt (@direct_loop E n a b c d e s).
Proof. induction n; intros; [exact I|]. cbn [direct_loop]. unfold Scraper.line_at, set_line. nts; first [apply nt_lineData|apply nt_detect]. Qed.
Lemma nt_find c s w : nt (findSyncMarker c s w).
Proof. unfold findSyncMarker. nts. apply nt_read. Qed.
Lemma nt_scan_loop {E} n : forall r a b c, nt (@scan_loop E n r a b c).
Proof. induction n; intros; [exact I|]. cbn [scan_loop]. nts. apply nt_lineData. Qed.
Lemma nt_scan {E} w s : nt (@scanForDirtyLines E w s).
Proof. unfold scanForDirtyLines. nts; [apply nt_lineData|apply nt_scan_loop]. Qed.
Lemma nt_send {E} n : forall a b c d e s, nt (@send_lines E n a b c d e s).
Proof. induction n; intros; [exact I|]. cbn [send_lines]. unfold Scraper.line_at, set_line. nts; first [apply nt_lineData|apply nt_setLine|apply nt_detect]. Qed.
Lemma nt_create {E} r s w : nt (@createSyncMarker E r s w).
Proof. unfold createSyncMarker, bufferInfo. nts. Qed.
Lemma nt_clear {E} n : forall r s, nt (@clear_loop E n r s).
Proof. induction n; intros; [exact I|]. cbn [clear_loop]. unfold Scraper.line_at, set_line. nts. Qed.
Lemma nt_assume c x b : c_strict c = false -> nt (assume c x b).
Proof. intros H. unfold assume. rewrite H. exact I. Qed.
Lemma nt_direct c st i v s w : c_strict c = false -> nt (directScrapeOutput c st i v s w).
Proof. intros H. unfold directScrapeOutput. cbv zeta. destruct (attributesMask c w). nts; [apply nt_assume; exact H|apply nt_large|apply nt_direct_loop]. Qed.
Lemma nt_scrolling c i v t s w : c_strict c = false -> nt (scrollingScrapeOutput c i v t s w).
Proof.
  intros H. unfold scrollingScrapeOutput. apply nt_bind.
  - unfold scroll_marker. nts; [apply nt_find|apply nt_assume; exact H].
  - intros [[go s1] w1]. destruct (negb go); [exact I|]. cbv zeta. destruct (t && _); [exact I|]. destruct (scroll_dirty _ _ t s1) as [go2 s2]. destruct (negb go2); [exact I|].
    apply nt_bind; [apply nt_assert|]. intros _. apply nt_bind; [apply nt_assert|]. intros _. destruct (attributesMask c w1) as [mask w2].
    apply nt_bind; [apply nt_large|]. intros [r w3]. apply nt_bind; [unfold scroll_check, bufferInfo; nts; apply nt_find|]. intros [same w4]. destruct (negb same); [exact I|].
    apply nt_bind; [nts; apply nt_create|]. intros [s5 w5]. apply nt_bind; [unfold scroll_send; nts; first [apply nt_scan|apply nt_send]|]. intros s6. exact I.
Qed.
Lemma nt_resize c i s w : c_strict c = false -> nt (resizeImpl c i s w).
Proof.
  intros H. unfold resizeImpl. apply nt_bind; [apply nt_assert|]. intros _. cbv zeta. apply nt_bind.
  - unfold resize_clear, clearBufferLines. nts; [apply nt_clear|apply nt_create].
  - intros [s1 w1]. unfold largestSize, bufferInfo. cbv zeta. apply nt_bind; [apply nt_assume; exact H|]. intros _. apply nt_bind; [apply nt_assert|]. intros _. exact I.
Qed.
Lemma nt_sync c f s w : c_strict c = false -> nt (syncConsoleContentAndSize c f s w).
Proof.
  intros H. unfold syncConsoleContentAndSize, bufferInfo, cursorVisible. cbv zeta. destruct (if negb (Bool.eqb _ _) then _ else _) as [[fo s1] w1]. apply nt_bind.
  - destruct (s_direct s1).
    + apply nt_bind; [destruct fo; [apply nt_resize; exact H|exact I]|]. intros [s2 w2]. apply nt_direct; exact H.
    + apply nt_bind; [destruct (negb _); [|exact I]; apply nt_bind; [apply nt_scrolling; exact H|intros [[? ?] ?]; exact I]|]. intros [s2 w2].
      apply nt_bind; [destruct (w_frozen w2); [|exact I]; apply nt_bind; [apply nt_scrolling; exact H|intros [[? ?] ?]; exact I]|]. intros [s3 w3]. destruct fo; [apply nt_resize; exact H|exact I].
  - intros [s2 w2]. destruct fo; exact I.
Qed.
Lemma nt_on_buffer {A} b (f : world -> res broken (A * world)) w : (forall w, nt (f w)) -> nt (on_buffer b f w).
Proof. intros H. unfold on_buffer. apply nt_bind; [apply H|]. intros [a w']. exact I. Qed.
Lemma nt_calls c ks : c_strict c = false -> forall a w, nt (run_calls c ks a w).
Proof.
  intros H. induction ks as [|k ks IH]; intros a w; [exact I|]. cbn [run_calls]. apply nt_bind; [|intros [a' w']; apply IH].
  destruct k as [|x y]; cbn [run_call].
  - apply nt_bind; [|intros [[? ?] ?]; exact I]. unfold agentScrape, guard_enter. apply nt_bind; [apply nt_sync; exact H|]. intros [[i s] w'].
    apply nt_bind; [|intros [? ?]; exact I]. destruct (a_err a) as [[es eb]|]; [|exact I]. apply nt_bind; [|intros [[? ?] ?]; exact I].
    apply nt_on_buffer. intros w2. apply nt_bind; [apply nt_sync; exact H|]. intros [[? ?] ?]. exact I.
  - apply nt_bind; [|intros [[[? ?] ?] ?]; exact I]. unfold agentResize, guard_enter. apply nt_bind; [apply nt_assert|]. intros _. cbv zeta. apply nt_bind; [apply nt_sync; exact H|]. intros [[i s] w'].
    apply nt_bind; [|intros [? ?]; exact I]. destruct (a_err a) as [[es eb]|]; [|exact I]. apply nt_bind; [|intros [[? ?] ?]; exact I].
    apply nt_on_buffer. intros w2. apply nt_bind; [apply nt_sync; exact H|]. intros [[? ?] ?]. exact I.
Qed.
Lemma nt_agent c cols rows eb ks w : c_strict c = false -> nt (run_agent c cols rows eb ks w).
Proof.
  intros H. unfold run_agent. apply nt_bind; [|intros [a w']; apply nt_calls; exact H]. unfold agentNew. apply nt_bind; [apply nt_assert|]. intros _. cbv zeta.
  destruct (newScraper _ _ _) as [s w1]. apply nt_bind; [|intros [? ?]; exact I]. destruct eb as [b|]; [|exact I]. apply nt_bind; [|intros [[? ?] ?]; exact I].
  apply nt_on_buffer. intros w2. exact I.
Qed.
Lemma agent_steady c cols rows eb ks w : cfg_ok c -> c_strict c = false -> 1 <= cols -> 1 <= rows -> (forall b, eb = Some b -> console_ok b) -> Forall (eq Poll) ks ->
  world_ok w -> same_height (w_env w) -> exists a w', run_agent c cols rows eb ks w = Ok (a, w') /\ drawn_all a.
Proof.
  intros K Ns Hc Hr He Hk W Sh.
  assert (Hk' : Forall call_ok ks) by (eapply Forall_impl; [|exact Hk]; intros k <-; exact I).
  pose proof (agent_good c cols rows eb ks w K (or_intror (conj Hk Sh)) Hc Hr He Hk' W) as G. pose proof (nt_agent c cols rows eb ks w Ns) as N.
  destruct (run_agent c cols rows eb ks w) as [[a w']|e| | |]; cbn in G, N; try tauto. exists a, w'. split; [reflexivity|]. exact (ainv_drawn _ _ (proj1 G)).
Qed.
