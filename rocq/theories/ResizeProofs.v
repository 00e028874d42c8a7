(** Proofs for C33. *)
From Coq Require Import Lia.
From Verif Require Import Base BaseLemmas SmallRect SmallRectSpec SmallRectProofs ConsoleLine Console LargeRead Scraper AgentConsole ScraperSpec ResizeSpec LargeReadProofs ScraperProofs.
Ltac splits := repeat match goal with |- _ /\ _ => split end.

(** *** The two windows *)
Lemma ensure_spec t vc vr line : 1 <= vc <= 2500 -> 1 <= vr <= 2000 -> -2000 <= t <= 32767 - vr -> 0 <= line <= 32766 ->
  let r := ensureLineIncluded (mkRect 0 t (vc - 1) (t + vr - 1)) line in
  r = mkRect 0 (rTop r) (vc - 1) (rTop r + vr - 1) /\ rTop r <= line <= rTop r + vr - 1 /\
  (rTop r = t \/ rTop r = line /\ rTop r <= t \/ rTop r = line - vr + 1 /\ t <= rTop r).
Proof.
  intros Hc Hr Ht Hl. unfold ensureLineIncluded.
  assert (Eh : rHeight (mkRect 0 t (vc - 1) (t + vr - 1)) = vr) by (unfold rHeight; cbn [rTop rBottom]; rewrite LargeReadProofs.s16_id by lia; lia).
  assert (Ew : rWidth (mkRect 0 t (vc - 1) (t + vr - 1)) = vc) by (unfold rWidth; cbn [rLeft rRight]; rewrite LargeReadProofs.s16_id by lia; lia).
  rewrite Eh, Ew. cbn [rTop rBottom rLeft]. cbv zeta.
  destruct (line <? t) eqn:E1; [rewrite mk_spec by (unfold short; lia); cbn [rTop]; splits; try lia; f_equal; lia|].
  destruct (t + vr - 1 <? line) eqn:E2; [rewrite mk_spec by (unfold short; lia); cbn [rTop]; splits; try lia; f_equal; lia|].
  cbn [rTop]. splits; try lia. reflexivity.
Qed.
Lemma make_window t vc vr : 1 <= vc <= 2500 -> 1 <= vr <= 2000 -> -2000 <= t <= 32767 - vr -> SmallRect 0 t vc vr = mkRect 0 t (vc - 1) (t + vr - 1).
Proof. intros. rewrite mk_spec by (unfold short; lia). f_equal; lia. Qed.
Lemma cursor_in i : cursorInWindow i = true <-> cursor_shown (i_cur i) (i_win i).
Proof. unfold cursorInWindow, cursor_shown. lia. Qed.
Lemma tmp_spec b vc vr : console_ok b -> 1 <= vc <= 2500 -> 1 <= vr <= 2000 ->
  let r := tmpWindow (info_of b) vc vr in
  rLeft r = 0 /\ cols_of r = Z.min (b_w b) vc /\ rows_of r = Z.min (b_h b) vr /\ 0 <= rTop r /\ rBottom r < b_h b /\
  (cursor_shown (b_cur b) (b_win b) -> cursor_shown (b_cur b) r) /\ (rTop (b_win b) = 0 -> co_y (b_cur b) < Z.min (b_h b) vr -> rTop r = 0).
Proof.
  intros (C1 & C2 & C3 & C4 & C5 & C6 & C7 & C8 & C9 & C10) Hc Hr. unfold tmpWindow. cbn [info_of i_size i_win i_cur co_x co_y].
  set (tw := Z.min (b_w b) vc). set (th := Z.min (b_h b) vr). set (t := Z.min (b_h b - th) (rTop (b_win b))).
  assert (Q : 1 <= tw <= 2500 /\ 1 <= th <= 2000 /\ th <= b_h b /\ 0 <= t <= b_h b - th /\ (rTop (b_win b) = 0 -> t = 0)) by (unfold tw, th, t; lia). destruct Q as (Q1 & Q2 & Q3 & Q4 & Q5). clearbody tw th t.
  rewrite make_window by lia. destruct (cursorInWindow _) eqn:Ec.
  - pose proof (ensure_spec t tw th (co_y (b_cur b)) Q1 Q2 ltac:(lia) ltac:(lia)) as E. cbv zeta in E. set (r := ensureLineIncluded _ _) in *. clearbody r. destruct E as (E1 & E2 & E3).
    cbv zeta. rewrite E1. unfold cols_of, rows_of, cursor_shown. cbn [rLeft rTop rRight rBottom]. splits; try lia.
  - cbv zeta. unfold cols_of, rows_of. cbn [rLeft rTop rRight rBottom]. splits; try lia. intros H. pose proof (proj2 (cursor_in (info_of b)) H) as Hx. enough (false = true) by discriminate. rewrite <- Ec. exact Hx.
Qed.
Lemma final_spec b direct dirty vc vr : console_ok b -> 1 <= vc <= 2500 -> 1 <= vr <= 2000 -> 0 <= dirty <= 3000 ->
  let r := finalWindow (info_of b) direct dirty vc vr in
  rLeft r = 0 /\ cols_of r = vc /\ rows_of r = vr /\ -2000 <= rTop r /\ rBottom r <= 32766 /\
  (vr <= b_h b -> direct = true \/ dirty <= b_h b -> 0 <= rTop r /\ rBottom r < b_h b) /\
  (cursor_shown (b_cur b) (b_win b) -> cursor_shown (b_cur b) r).
Proof.
  intros (C1 & C2 & C3 & C4 & C5 & C6 & C7 & C8 & C9 & C10) Hc Hr Hd. unfold finalWindow. cbn [info_of i_size i_win i_cur co_x co_y].
  set (t := Z.min (b_h b - vr) (rTop (b_win b))). assert (Ht : -2000 <= t <= b_h b - vr /\ (vr <= b_h b -> 0 <= t)) by (unfold t; lia). clearbody t.
  rewrite (make_window t) by lia. cbn [rBottom].
  set (t2 := if negb direct && (t + vr - 1 + 1 <? dirty) then dirty - vr else t).
  assert (E0 : (if negb direct && (t + vr - 1 + 1 <? dirty) then SmallRect 0 (dirty - vr) vc vr else mkRect 0 t (vc - 1) (t + vr - 1)) = mkRect 0 t2 (vc - 1) (t2 + vr - 1)).
  { unfold t2. destruct (negb direct && _); [apply make_window; lia|reflexivity]. }
  rewrite E0. assert (Ht2 : -2000 <= t2 <= 32767 - vr /\ (vr <= b_h b -> direct = true \/ dirty <= b_h b -> 0 <= t2 <= b_h b - vr)).
  { unfold t2. destruct direct; cbn [negb andb]; [lia|]. destruct (t + vr - 1 + 1 <? dirty) eqn:Et; [|lia]. split; [lia|]. intros H1 [H2|H2]; [discriminate|]. lia. }
  clearbody t2. clear E0. destruct (cursorInWindow _) eqn:Ec.
  - pose proof (ensure_spec t2 vc vr (co_y (b_cur b)) Hc Hr ltac:(lia) ltac:(lia)) as E. cbv zeta in E. set (r := ensureLineIncluded _ _) in *. clearbody r. destruct E as (E1 & E2 & E3).
    cbv zeta. rewrite E1. unfold cols_of, rows_of, cursor_shown. cbn [rLeft rTop rRight rBottom]. splits; try lia; try (intros Hq1 Hq2; destruct Ht2 as (_ & Ht2); specialize (Ht2 Hq1 Hq2); lia).
  - cbv zeta. unfold cols_of, rows_of. cbn [rLeft rTop rRight rBottom]. splits; try lia; try (intros Hq1 Hq2; destruct Ht2 as (_ & Ht2); specialize (Ht2 Hq1 Hq2); lia). intros H. pose proof (proj2 (cursor_in (info_of b)) H) as Hx. enough (false = true) by discriminate. rewrite <- Ec. exact Hx.
Qed.

(** The part of the scraper's state that matters here *)
Definition pinv (s : sst) : Prop := 1 <= co_x (s_pty s) <= 2500 /\ 1 <= co_y (s_pty s) <= 2000 /\ 0 <= s_dirty s <= 3000.
(** What every console call other than the two that resize keeps, the scrapes keep. *)
Section Gen.
Context (d0 : bool) (p0 : coord).
Definition pind (s : sst) : Prop := (s_direct s = d0 /\ s_pty s = p0 /\ 1 <= co_x (s_pty s) <= 2500) /\ 1 <= co_y (s_pty s) <= 2000 /\ 0 <= s_dirty s <= 3000.
Context (J : world -> Prop) (J_inter : forall w, J w -> J (interfere w)) (J_clear : forall a n i w, J w -> J (clearLines a n i w))
  (J_write : forall r d w, J w -> J (write_col r d w)) (J_log : forall r w, J w -> J (with_log (RRead r) w)).
Lemma read_gen {E} nw r d o w : J w -> ends (@read E nw r d o w) (fun '(_, w') => J w').
Proof. intros H. unfold read. pose proof (J_log r _ (J_inter w H)) as K. destruct (_ || _ || _); [exact I|]. destruct (in_buf _ _); [exact K|]. destruct nw; [exact K|exact I]. Qed.
Lemma chunks_gen {E} n : forall nw a m c l w, J w -> ends (@read_chunks E n nw a m c l w) (fun '(_, w') => J w').
Proof.
  induction n; intros nw a m c l w H; [exact I|]. cbn [read_chunks]. destruct (rBottom a <? c); [exact H|]. cbv zeta.
  eapply ends_bind; [apply (ends_any _ (fun _ => True)); auto|]. intros i _. eapply ends_bind; [apply read_gen; exact H|]. intros [d w'] H'. apply IHn. exact H'.
Qed.
Lemma large_gen {E} nw w8 a m l w : J w -> ends (@largeConsoleRead E nw w8 a m l w) (fun '(_, w') => J w').
Proof.
  intros H. unfold largeConsoleRead. eapply ends_bind; [apply (ends_any _ (fun _ => True)); auto|]. intros _ _. cbv zeta.
  eapply ends_bind with (P := fun '(_, w') => J w').
  - destruct w8; [|apply chunks_gen; exact H]. eapply ends_bind; [apply read_gen; exact H|]. intros [d w'] H'. exact H'.
  - intros [l' w'] H'. destruct (m =? 65535); exact H'.
Qed.
Lemma find_gen c s w : J w -> ends (findSyncMarker c s w) (fun '(_, w') => J w').
Proof.
  intros H. unfold findSyncMarker. eapply ends_bind; [apply (ends_any _ (fun _ => True)); auto|]. intros _ _. cbv zeta. eapply ends_bind; [apply read_gen; exact H|].
  intros [d w'] H'. destruct (_ <? _); [exact I|exact H'].
Qed.
Definition SId (x : sst * world) : Prop := pind (fst x) /\ J (snd x).
Lemma create_g0 {E} r s w : pind s -> J w -> ends (@createSyncMarker E r s w) SId.
Proof.
  intros V H. unfold createSyncMarker. eapply ends_bind; [apply (ends_any _ (fun _ => True)); auto|]. intros _ _. unfold bufferInfo. cbv zeta. cbn [ends].
  split; [exact V|]. apply J_write, J_clear, J_inter. exact H.
Qed.
Lemma mask_gen c w : J w -> J (snd (attributesMask c w)).
Proof. intros H. unfold attributesMask. cbn [snd]. apply J_inter, J_inter. exact H. Qed.
Lemma pind_emit o s : pind s -> pind (emit o s). Proof. auto. Qed.
Lemma direct_loop_p {E} n : forall a b c d e s, pind s -> ends (@direct_loop E n a b c d e s) pind.
Proof.
  induction n; intros a b c d e s V; [exact V|]. cbn [direct_loop]. eapply ends_bind; [apply (ends_any _ (fun _ => True)); auto|]. intros cur _.
  eapply ends_bind; [apply (ends_any _ (fun _ => True)); auto|]. intros bl _. eapply ends_bind; [apply (ends_any _ (fun _ => True)); auto|]. intros [ch bl'] _.
  eapply ends_bind with (P := pind); [unfold set_line; destruct (zupd _ _ _); [exact V|exact I]|]. intros s1 V1.
  eapply ends_bind with (P := pind); [destruct ch; [destruct (_ <? _); [exact I|exact V1]|exact V1]|]. intros s2 V2. apply IHn. exact V2.
Qed.
Lemma send_p {E} n : forall a b c d e s, pind s -> ends (@send_lines E n a b c d e s) pind.
Proof.
  induction n; intros a b c d e s V; [exact V|]. cbn [send_lines]. eapply ends_bind; [apply (ends_any _ (fun _ => True)); auto|]. intros cur _.
  eapply ends_bind; [apply (ends_any _ (fun _ => True)); auto|]. intros bl _. cbv zeta. eapply ends_bind; [apply (ends_any _ (fun _ => True)); auto|]. intros [ch bl'] _.
  eapply ends_bind with (P := pind); [unfold set_line; destruct (zupd _ _ _); [exact V|exact I]|]. intros s1 V1.
  eapply ends_bind with (P := pind); [destruct ch; [destruct (_ <? _); [exact I|exact V1]|exact V1]|]. intros s2 V2. apply IHn. exact V2.
Qed.
Lemma clear_p0 {E} n : forall r s, pind s -> ends (@clear_loop E n r s) pind.
Proof.
  induction n; intros r s V; [exact V|]. cbn [clear_loop]. cbv zeta. eapply ends_bind; [apply (ends_any _ (fun _ => True)); auto|]. intros bl _.
  eapply ends_bind with (P := pind); [unfold set_line; destruct (zupd _ _ _); [exact V|exact I]|]. intros s1 V1. apply IHn. exact V1.
Qed.
Lemma scan_loop_p {E} n : forall r line a d, 0 <= d <= 3000 -> 0 <= line -> line + Z.of_nat n <= 3000 -> ends (@scan_loop E n r line a d) (fun d' => 0 <= d' <= 3000).
Proof.
  induction n; intros r line a d Hd Hl Hn; [exact Hd|]. cbn [scan_loop]. cbv zeta. eapply ends_bind; [apply (ends_any _ (fun _ => True)); auto|]. intros data _.
  destruct (znth data _) as [lc|]; [|exact I]. apply IHn; [destruct (line_dirty _ _ _)|..]; lia.
Qed.
Lemma scan_p {E} win s : pind s -> windowStop win <= 3000 -> ends (@scanForDirtyLines E win s) pind.
Proof.
  intros (V1 & V2 & V3) Hw. unfold scanForDirtyLines. eapply ends_bind; [apply (ends_any _ (fun _ => True)); auto|]. intros _ _.
  eapply ends_bind; [apply (ends_any _ (fun _ => True)); auto|]. intros prev _. destruct (znth prev _) as [c|]; [|exact I].
  eapply ends_bind; [apply scan_loop_p; [exact V3|lia|lia]|]. intros d Hd. cbn. split; [exact V1|split; [exact V2|exact Hd]].
Qed.
Lemma direct_g0 c st info vis s w : pind s -> J w -> ends (directScrapeOutput c st info vis s w) SId.
Proof.
  intros V H. unfold directScrapeOutput. cbv zeta. pose proof (mask_gen c w H) as H1. destruct (attributesMask c w) as [mask w1]. cbn [snd] in H1.
  eapply ends_bind; [apply (ends_any _ (fun _ => True)); auto|]. intros _ _. eapply ends_bind; [apply large_gen; exact H1|]. intros [r w2] H2. cbv beta iota.
  eapply ends_bind; [apply direct_loop_p; destruct (_ && _); exact V|]. intros s' V'. split; [destruct (_ && _); exact V'|exact H2].
Qed.
Lemma scroll_marker_gen c win t s w : windowStop win <= 3000 -> pind s -> J w -> ends (scroll_marker c win t s w) (fun '(_, s', w') => pind s' /\ J w').
Proof.
  intros Hw V H. assert (Vr : forall b v, pind (resetConsoleTracking b v s)) by (destruct V as (V1 & V2 & _); intros; split; [exact V1|split; [exact V2|cbn; lia]]).
  unfold scroll_marker. destruct (_ =? -1); [split; assumption|]. eapply ends_bind; [apply find_gen; exact H|]. intros [m w1] H1. cbv beta iota.
  destruct (m =? -1); [destruct t; split; auto|]. destruct (negb _); [|split; assumption].
  eapply ends_bind; [apply (ends_any _ (fun _ => True)); auto|]. intros _ _. eapply ends_bind; [apply (ends_any _ (fun _ => True)); auto|]. intros _ _. split; [|exact H1].
  destruct V as (V1 & V2 & V3). split; [exact V1|split; [exact V2|cbn [markEntireWindowDirty st_dirty s_dirty st_sync st_scrolled]; lia]].
Qed.
Lemma scroll_dirty_p win cur t s : windowStop win <= 3000 -> rTop win <= 3000 -> co_y cur < 3000 -> pind s -> pind (snd (scroll_dirty win cur t s)).
Proof.
  intros H1 H2 H3 (V1 & V2 & V3). unfold scroll_dirty.
  assert (G : forall s', pind s' -> pind (st_dirty (Z.max (Z.max (s_dirty (st_top (rTop win) s')) (co_y cur + 1)) (rTop win)) (st_top (rTop win) s'))).
  { intros s' (A & B & C). split; [exact A|split; [exact B|]]. cbn [st_dirty s_dirty st_top]. lia. }
  assert (V : pind s) by (split; [exact V1|split; assumption]).
  destruct (negb (s_dirtyTop s =? -1)); [|apply G; exact V]. destruct (s_dirtyTop s <? rTop win).
  - cbn [negb snd]. apply G. split; [exact V1|split; [exact V2|]]. cbn [markEntireWindowDirty st_dirty s_dirty]. lia.
  - destruct (rTop win <? s_dirtyTop s); [|apply G; exact V]. destruct t; [exact V|]. cbn [negb snd]. apply G. split; [exact V1|split; [exact V2|cbn; lia]].
Qed.
Lemma check_gen c info s w : J w -> ends (scroll_check c info s w) (fun '(_, w') => J w').
Proof.
  intros H. unfold scroll_check, bufferInfo. cbv zeta. pose proof (J_inter w H) as H1. destruct (_ || _); [exact H1|]. destruct (negb _); [|exact H1].
  eapply ends_bind; [apply find_gen; exact H1|]. intros [m w1] H2. exact H2.
Qed.
Lemma scrolling_g0 c info vis t s w : info_ok info -> co_y (i_size info) = 3000 -> pind s -> J w -> ends (scrollingScrapeOutput c info vis t s w) (fun '(_, s', w') => pind s' /\ J w').
Proof.
  intros Io H3 V H. pose proof (win_stop info Io) as Ws. pose proof Io as (I1 & I2 & I3 & I4 & I5 & I6 & I7 & I8).
  unfold scrollingScrapeOutput. eapply ends_bind; [apply scroll_marker_gen; [lia|exact V|exact H]|]. intros [[go s1] w1] (V1 & H1). cbv beta iota zeta.
  destruct (negb go); [split; assumption|]. destruct (t && _); [split; assumption|]. pose proof (scroll_dirty_p (i_win info) (i_cur info) t s1 ltac:(lia) ltac:(lia) ltac:(lia) V1) as V2.
  destruct (scroll_dirty _ _ t s1) as [go2 s2]. cbn [snd] in V2. destruct (negb go2); [split; assumption|].
  eapply ends_bind; [apply (ends_any _ (fun _ => True)); auto|]. intros _ _. eapply ends_bind; [apply (ends_any _ (fun _ => True)); auto|]. intros _ _.
  pose proof (mask_gen c w1 H1) as H2. destruct (attributesMask c w1) as [mask w2]. cbn [snd] in H2.
  eapply ends_bind; [apply large_gen; exact H2|]. intros [r w3] H4. cbv beta iota.
  eapply ends_bind with (P := fun '(_, w') => J w'); [destruct t; [apply check_gen; exact H4|exact H4]|]. intros [same w4] H5. destruct (negb same); [split; assumption|].
  eapply ends_bind with (P := SId).
  - destruct (_ <=? _); [|split; assumption]. eapply ends_bind; [apply (ends_any _ (fun _ => True)); auto|]. intros _ _. apply create_g0; assumption.
  - intros [s5 w5] (V5 & H6). cbv beta iota. cbn [fst snd] in *. eapply ends_bind with (P := pind).
    + unfold scroll_send. eapply ends_bind; [apply scan_p; [exact V5|lia]|]. intros s6 V6. cbv zeta. eapply ends_bind; [apply send_p; destruct (_ && _); exact V6|].
      intros s7 V7. cbn [ends]. destruct (_ && _); exact V7.
    + intros s8 V8. split; assumption.
Qed.
End Gen.

Lemma pin s : pinv s -> pind (s_direct s) (s_pty s) s. Proof. intros (A & B & C). exact (conj (conj eq_refl (conj eq_refl A)) (conj B C)). Qed.
Lemma pout d p s : pind d p s -> pinv s /\ s_direct s = d /\ s_pty s = p. Proof. intros ((D & P & A) & B & C). exact (conj (conj A (conj B C)) (conj D P)). Qed.
Definition SI (J : world -> Prop) (x : sst * world) : Prop := pinv (fst x) /\ J (snd x).
Lemma ends_weak {E A} (m : res E A) (P Q : A -> Prop) : ends m P -> (forall a, P a -> Q a) -> ends m Q.
Proof. destruct m; cbn; auto. Qed.
Section Use.
Context (J : world -> Prop) (J_inter : forall w, J w -> J (interfere w)) (J_clear : forall a n i w, J w -> J (clearLines a n i w))
  (J_write : forall r d w, J w -> J (write_col r d w)) (J_log : forall r w, J w -> J (with_log (RRead r) w)).
Lemma create_gen {E} r s w : pinv s -> J w -> ends (@createSyncMarker E r s w) (fun '(s', w') => pinv s' /\ J w' /\ s_direct s' = s_direct s /\ s_pty s' = s_pty s).
Proof. intros V H. eapply ends_weak; [apply (create_g0 (s_direct s) (s_pty s) J J_inter J_clear J_write); [apply pin; exact V|exact H]|]. intros [s' w'] (A & B). apply pout in A. cbn [fst snd] in *. tauto. Qed.
Lemma clear_p {E} n r s : pinv s -> ends (@clear_loop E n r s) (fun s' => pinv s' /\ s_direct s' = s_direct s /\ s_pty s' = s_pty s).
Proof. intros V. eapply ends_weak; [apply clear_p0; apply pin; exact V|]. intros s' A. apply pout in A. exact A. Qed.
Lemma direct_gen c st info vis s w : pinv s -> J w -> ends (directScrapeOutput c st info vis s w) (fun '(s', w') => pinv s' /\ J w' /\ s_direct s' = s_direct s /\ s_pty s' = s_pty s).
Proof. intros V H. eapply ends_weak; [apply (direct_g0 (s_direct s) (s_pty s) J J_inter J_log); [apply pin; exact V|exact H]|]. intros [s' w'] (A & B). apply pout in A. cbn [fst snd] in *. tauto. Qed.
Lemma scrolling_gen c info vis t s w : info_ok info -> co_y (i_size info) = 3000 -> pinv s -> J w ->
  ends (scrollingScrapeOutput c info vis t s w) (fun '(_, s', w') => pinv s' /\ J w' /\ s_direct s' = s_direct s /\ s_pty s' = s_pty s).
Proof.
  intros Io H3 V H. eapply ends_weak; [apply (scrolling_g0 (s_direct s) (s_pty s) J J_inter J_clear J_write J_log); [exact Io|exact H3|apply pin; exact V|exact H]|].
  intros [[b s'] w'] (A & B). apply pout in A. tauto.
Qed.
End Use.

(** *** Everything asked for *)
Section Log.
Context (P : request -> Prop) (log0 : list request) (PR : forall r, P (RRead r)).
Definition logged (l : list request) : Prop := exists q, l = log0 ++ q /\ Forall P q.
Lemma logged_add l x : logged l -> P x -> logged (l ++ [x]).
Proof. intros (q & -> & F) H. exists (q ++ [x]). split; [now rewrite app_assoc|]. apply Forall_app. auto. Qed.
Definition Inv (w : world) : Prop := winv w /\ logged (w_log w).
Lemma interfere_log w : w_log (interfere w) = w_log w.
Proof. unfold interfere. destruct (w_sel w); [reflexivity|]. destruct (w_env w); reflexivity. Qed.
Lemma interfere_linv w : Inv w -> Inv (interfere w).
Proof. intros (A & B). split; [apply interfere_ok; exact A|rewrite interfere_log; exact B]. Qed.
Lemma turn_linv w : Inv w -> Inv (turn w).
Proof. intros (A & B). split; [apply turn_ok; exact A|]. unfold turn. destruct (w_env w); exact B. Qed.
Lemma setFrozen_linv b w : Inv w -> Inv (setFrozen b w).
Proof.
  intros (A & B). split; [apply setFrozen_ok; exact A|]. unfold setFrozen. destruct (Bool.eqb _ _); [exact B|].
  rewrite <- interfere_log in B. destruct b; [exact B|]. destruct (w_sel _); exact B.
Qed.
Lemma moveWindow_linv r w : P (RMoveWindow r (w_buf (interfere w))) -> Inv w -> Inv (moveWindow r w).
Proof.
  intros Hp (A & B). split; [apply moveWindow_ok; exact A|]. rewrite <- interfere_log in B. unfold moveWindow, fails.
  destruct (w_fail (interfere w)); cbv zeta; match goal with |- context [if ?b then _ else _] => destruct b end; cbn; apply logged_add; assumption.
Qed.
Lemma setBufferSize_linv x y w : x <= 32767 -> y <= 32767 -> P (RSetSize x y) -> Inv w -> Inv (snd (setBufferSize x y w)).
Proof.
  intros Hx Hy Hp (A & B). split; [apply setBufferSize_ok; assumption|]. rewrite <- interfere_log in B. unfold setBufferSize, fails.
  destruct (w_fail (interfere w)); cbv zeta; match goal with |- context [if ?b then _ else _] => destruct b end; cbn; apply logged_add; assumption.
Qed.
Lemma widen_linv n : forall x y w, y <= 32767 -> (forall x', x < x' <= 20 -> P (RSetSize x' y)) -> Inv w -> Inv (widen n x y w).
Proof.
  induction n; intros x y w Hy Hp H; [exact H|]. cbn [widen]. destruct (x <? 20) eqn:Ex; [|exact H]. pose proof (setBufferSize_linv (x + 1) y w ltac:(lia) Hy (Hp (x + 1) ltac:(lia)) H) as H1.
  destruct (setBufferSize (x + 1) y w) as [[] w1]; [exact H1|]. apply IHn; [exact Hy| |exact H1]. intros x' Hx'. apply Hp. lia.
Qed.
Lemma resizeRange_linv x y w : x <= 32767 -> y <= 32767 -> (forall x', x <= x' <= Z.max 20 x -> P (RSetSize x' y)) -> Inv w -> Inv (resizeBufferRange x y w).
Proof.
  intros Hx Hy Hp H. unfold resizeBufferRange. pose proof (setBufferSize_linv x y w Hx Hy (Hp x ltac:(lia)) H) as H1. destruct (setBufferSize x y w) as [[] w1]; [exact H1|].
  apply widen_linv; [exact Hy| |exact H1]. intros x' Hx'. apply Hp. lia.
Qed.
Lemma setCursor_linv x w : Inv w -> Inv (setCursorPosition x w).
Proof. intros (A & B). split; [apply setCursorPosition_ok; exact A|]. rewrite <- interfere_log in B. unfold setCursorPosition. destruct (_ && _ && _ && _); exact B. Qed.
Lemma clearLines_linv a n i w : Inv w -> Inv (clearLines a n i w).
Proof. intros (A & B). split; [apply clearLines_ok; exact A|]. rewrite <- interfere_log in B. exact B. Qed.
Lemma write_col_linv r d w : Inv w -> Inv (write_col r d w).
Proof. intros (A & B). split; [apply write_col_ok; exact A|]. rewrite <- interfere_log in B. exact B. Qed.
Lemma with_log_linv r w : Inv w -> Inv (with_log (RRead r) w).
Proof. intros (A & B). split; [exact A|]. cbn. apply logged_add; [exact B|apply PR]. Qed.
End Log.


Lemma interfere_frozen_id w : winv w -> w_frozen w = true -> interfere w = w.
Proof. intros (_ & _ & A) F. unfold interfere. rewrite A, F. reflexivity. Qed.
Notation RInv := (Inv request_ok).
Lemma Rinter log0 w : RInv log0 w -> RInv log0 (interfere w). Proof. apply interfere_linv. Qed.
Lemma Rclear log0 a n i w : RInv log0 w -> RInv log0 (clearLines a n i w). Proof. apply clearLines_linv. Qed.
Lemma Rwrite log0 r d w : RInv log0 w -> RInv log0 (write_col r d w). Proof. apply write_col_linv. Qed.
Lemma Rlog log0 r w : RInv log0 w -> RInv log0 (with_log (RRead r) w). Proof. apply with_log_linv. exact (fun _ => I). Qed.
Lemma sized x y : 1 <= x <= 2500 -> 1 <= y <= 32767 -> forall x', x <= x' <= Z.max 20 x -> request_ok (RSetSize x' y).
Proof. intros Hx Hy x' Hx'. cbn. unfold size_ok. lia. Qed.
Lemma tmp_request b vc vr : console_ok b -> 1 <= vc <= 2500 -> 1 <= vr <= 2000 -> request_ok (RMoveWindow (tmpWindow (info_of b) vc vr) b).
Proof.
  intros H3 Hvc Hvr. pose proof (tmp_spec b vc vr H3 Hvc Hvr) as T. cbv zeta in T. set (r := tmpWindow _ vc vr) in *. clearbody r. destruct T as (T1 & T2 & T3 & T4 & T5 & T6 & _).
  destruct H3 as (C1 & C2 & _). cbn. unfold window_ok, fits, is_short, rows_of, cols_of in *. splits; auto; try lia.
Qed.
Lemma final_request b d k vc vr : console_ok b -> 1 <= vc <= 2500 -> 1 <= vr <= 2000 -> 0 <= k <= 3000 -> request_ok (RMoveWindow (finalWindow (info_of b) d k vc vr) b).
Proof.
  intros H7 Hvc Hvr V1. pose proof (final_spec b d k vc vr H7 Hvc Hvr V1) as T. cbv zeta in T. set (r := finalWindow _ _ _ vc vr) in *. clearbody r. destruct T as (T1 & T2 & T3 & T4 & T5 & T6 & T7).
  destruct H7 as (C1 & C2 & _). cbn. unfold window_ok, fits, is_short, rows_of, cols_of in *. splits; auto; try lia.
Qed.
Lemma min_range a b m : 1 <= a <= m -> 1 <= b -> 1 <= Z.min a b <= m.
Proof. lia. Qed.
Lemma resizeImpl_linv log0 c orig s w : info_ok orig -> pinv s -> RInv log0 w -> ends (resizeImpl c orig s w) (SI (RInv log0)).
Proof.
  intros Io V H. unfold resizeImpl. eapply ends_bind; [apply (ends_any _ (fun _ => True)); auto|]. intros _ _. cbv zeta.
  eapply ends_bind with (P := SI (RInv log0)).
  - unfold resize_clear. destruct (s_direct s); [split; [exact V|exact H]|]. eapply ends_bind with (P := pinv).
    + unfold clearBufferLines. eapply ends_bind; [apply (ends_any _ (fun _ => True)); auto|]. intros _ _. eapply ends_weak; [apply clear_p; exact V|]. intros s' (A & _). exact A.
    + intros s1 V1. destruct (negb _); [eapply ends_weak; [apply (create_gen (RInv log0) (Rinter log0) (Rclear log0) (Rwrite log0)); [exact V1|apply clearLines_linv; exact H]|intros [s' w'] (A & B & _); exact (conj A B)]|]. split; [exact V1|apply clearLines_linv; exact H].
  - intros [s1 w1] (V1 & H1). cbn [fst snd] in *. unfold changeFont, largestSize, bufferInfo. cbv beta iota zeta.
    pose proof (interfere_linv _ _ _ (interfere_linv _ _ _ (setFrozen_linv _ _ false _ H1))) as H2. set (w2 := interfere (interfere (setFrozen false w1))) in *. clearbody w2.
    assert (Lg : 1 <= co_x (b_largest (w_buf w2)) <= 32767 /\ 1 <= co_y (b_largest (w_buf w2)) <= 32767) by (destruct H2 as ((H2 & _) & _); unfold console_ok in H2; tauto).
    destruct V as (Vx & Vy & _). rewrite !(LargeReadProofs.s16_id (co_x (s_pty s))), !(LargeReadProofs.s16_id (co_y (s_pty s))) by lia.
    set (vc := Z.min (co_x (s_pty s)) (co_x (b_largest (w_buf w2)))). set (vr := Z.min (co_y (s_pty s)) (co_y (b_largest (w_buf w2)))).
    assert (Hv : 1 <= vc <= 2500 /\ 1 <= vr <= 2000) by (unfold vc, vr; lia). destruct Hv as (Hvc & Hvr). clearbody vc vr. clear Lg.
    pose proof (setFrozen_linv _ _ true _ H2) as H3. assert (F3 : w_frozen (setFrozen true w2) = true) by (apply setFrozen_ok; apply H2). set (w3 := setFrozen true w2) in *. clearbody w3.
    rewrite (interfere_frozen_id w3) by (apply H3 || exact F3).
    assert (H4 : RInv log0 (moveWindow (tmpWindow (info_of (w_buf w3)) vc vr) w3)).
    { apply moveWindow_linv; [|exact H3]. rewrite (interfere_frozen_id w3) by (apply H3 || exact F3). destruct H3 as ((H3 & _) & _). exact (tmp_request _ _ _ H3 Hvc Hvr). }
    set (w4 := moveWindow _ w3) in *. clearbody w4. pose proof (setFrozen_linv _ _ false _ H4) as H5. set (w5 := setFrozen false w4) in *. clearbody w5.
    assert (Fy : 1 <= co_y (finalSize orig (co_x (s_pty s)) (co_y (s_pty s))) <= 32767 /\ co_x (finalSize orig (co_x (s_pty s)) (co_y (s_pty s))) = co_x (s_pty s)).
    { unfold finalSize. cbn [co_x co_y]. rewrite (LargeReadProofs.s16_id (co_x (s_pty s))) by lia. destruct Io as (I1 & I2 & _).
      destruct (_ =? _); rewrite LargeReadProofs.s16_id by lia; lia. }
    destruct Fy as (Fy & Fx). rewrite Fx.
    assert (H6 : RInv log0 (resizeBufferRange (co_x (s_pty s)) (co_y (finalSize orig (co_x (s_pty s)) (co_y (s_pty s)))) w5)).
    { apply resizeRange_linv; [lia|lia| |exact H5]. apply sized; lia. }
    set (w6 := resizeBufferRange _ _ w5) in *. clearbody w6. pose proof (setFrozen_linv _ _ true _ H6) as H7.
    assert (F7 : w_frozen (setFrozen true w6) = true) by (apply setFrozen_ok; apply H6). set (w7 := setFrozen true w6) in *. clearbody w7.
    rewrite (interfere_frozen_id w7) by (apply H7 || exact F7).
    eapply ends_bind; [apply (ends_any _ (fun _ => True)); auto|]. intros _ _. eapply ends_bind; [apply (ends_any _ (fun _ => True)); auto|]. intros _ _. cbn [ends]. split; [exact V1|]. cbn [snd].
    apply moveWindow_linv; [|exact H7]. rewrite (interfere_frozen_id w7) by (apply H7 || exact F7). destruct H7 as ((H7 & _) & _). destruct V1 as (_ & _ & V1).
    exact (final_request _ _ _ _ _ H7 Hvc Hvr V1).
Qed.
Lemma sync_linv log0 c f s w : pinv s -> RInv log0 w -> ends (syncConsoleContentAndSize c f s w) (fun '(_, s', w') => pinv s' /\ RInv log0 w').
Proof.
  intros V H. unfold syncConsoleContentAndSize, bufferInfo, cursorVisible. cbv zeta.
  set (w0 := if negb (c_new c) || f then setFrozen true w else w).
  assert (H0 : RInv log0 w0) by (unfold w0; destruct (negb (c_new c) || f); [apply setFrozen_linv|]; exact H). clearbody w0.
  pose proof (interfere_linv _ _ _ H0) as H1. assert (Io : info_ok (info_of (w_buf (interfere w0)))) by (apply info_of_ok; apply H1).
  set (info := info_of (w_buf (interfere w0))) in *. clearbody info. pose proof (interfere_linv _ _ _ H1) as H2. set (w1 := interfere (interfere w0)) in *. clearbody w1.
  set (vis := b_visible _). clearbody vis.
  set (nd := negb (co_y (i_size info) =? BUFFER_LINE_COUNT)).
  match goal with |- ends (let '(_, _) := ?x in _) _ => set (sw := x) end.
  assert (Hs : pinv (snd (fst sw)) /\ RInv log0 (snd sw) /\ s_direct (snd (fst sw)) = nd).
  { unfold sw. destruct (negb (Bool.eqb nd (s_direct s))) eqn:En.
    - assert (Vr : pinv (st_direct nd (resetConsoleTracking true (if nd then 0 else rTop (i_win info)) s))) by (destruct V as (V1 & V2 & _); split; [exact V1|split; [exact V2|cbn; lia]]).
      destruct nd; cbn [negb fst snd]; splits; auto. apply setFrozen_linv. exact H2.
    - apply Bool.negb_false_iff, Bool.eqb_prop in En. cbn [fst snd]. splits; auto. }
  clearbody sw. destruct sw as [[fo s2] w2]. cbn [fst snd] in Hs. destruct Hs as (V2 & Hs & Dn).
  eapply ends_bind with (P := SI (RInv log0)).
  - destruct (s_direct s2) eqn:Ed.
    + eapply ends_bind with (P := SI (RInv log0)); [destruct fo; [apply resizeImpl_linv; assumption|split; assumption]|]. intros [s3 w3] (V3 & H3). eapply ends_weak; [apply (direct_gen (RInv log0) (Rinter log0) (Rlog log0)); assumption|]. intros [s' w'] (A & B & _). exact (conj A B).
    + assert (H3000 : co_y (i_size info) = 3000) by (unfold nd, BUFFER_LINE_COUNT in Dn; symmetry in Dn; apply Bool.negb_false_iff in Dn; lia).
      eapply ends_bind with (P := SI (RInv log0)).
      * destruct (negb (w_frozen w2)); [|split; assumption]. eapply ends_bind; [apply (scrolling_gen (RInv log0) (Rinter log0) (Rclear log0) (Rwrite log0) (Rlog log0)); assumption|]. intros [[ok s3] w3] (V3 & H3 & _). split; [exact V3|].
        destruct ok; [exact H3|]. apply setFrozen_linv. exact H3.
      * intros [s3 w3] (V3 & H3). cbn [fst snd] in *. eapply ends_bind with (P := SI (RInv log0)).
        -- destruct (w_frozen w3); [|split; assumption]. eapply ends_bind; [apply (scrolling_gen (RInv log0) (Rinter log0) (Rclear log0) (Rwrite log0) (Rlog log0)); assumption|]. intros [[ok s4] w4] (V4 & H4 & _). split; assumption.
        -- intros [s4 w4] (V4 & H4). cbn [fst snd] in *. destruct fo; [apply resizeImpl_linv|split]; assumption.
  - intros [s3 w3] (V3 & H3). cbn [fst snd] in *. destruct fo; cbn [ends]; split; auto. apply interfere_linv. exact H3.
Qed.
Definition aok (a : agent) : Prop := pinv (a_prim a) /\ match a_err a with None => True | Some (es, eb) => pinv es /\ console_ok eb end.
Lemma on_buffer_linv log0 b (f : world -> res broken (sst * world)) w : console_ok b -> (forall w, RInv log0 w -> ends (f w) (SI (RInv log0))) -> RInv log0 w ->
  ends (on_buffer b f w) (fun '(s', b', w') => pinv s' /\ console_ok b' /\ RInv log0 w').
Proof.
  intros B F H. unfold on_buffer. eapply ends_bind; [apply F; apply turn_linv; split; [apply with_buf_ok; [apply H|exact B]|apply H]|]. intros [a w'] (V & H'). cbn [fst snd] in *. cbn.
  splits; auto; [apply H'|]. apply turn_linv. split; [apply with_buf_ok; [apply H'|apply H]|apply H'].
Qed.
Lemma agentScrape_linv log0 c a w : aok a -> RInv log0 w -> ends (agentScrape c a w) (fun '(_, a', w') => aok a' /\ RInv log0 w').
Proof.
  intros (V & Er) H. unfold agentScrape, guard_enter, guard_leave, scrapeBuffer. cbv zeta.
  eapply ends_bind; [apply sync_linv; [exact V|apply setFrozen_linv; exact H]|]. intros [[i s] w1] (V1 & H1). cbv beta iota.
  eapply ends_bind with (P := fun '(e, w') => match e with None => True | Some (es, eb) => pinv es /\ console_ok eb end /\ RInv log0 w').
  - destruct (a_err a) as [[es eb]|]; [|split; [exact I|exact H1]]. destruct Er as (V2 & B2). eapply ends_bind; [apply (on_buffer_linv log0); [exact B2| |exact H1]|].
    + intros w' H'. eapply ends_bind; [apply sync_linv; [exact V2|exact H']|]. intros [[i' s'] w2] (V3 & H3). split; assumption.
    + intros [[es' eb'] w2] (V3 & B3 & H3). cbn. auto.
  - intros [e' w2] (V3 & H2). cbn. split; [split; [exact V1|exact V3]|]. apply setFrozen_linv. exact H2.
Qed.
Lemma agentResize_linv log0 c x y a w : aok a -> RInv log0 w -> ends (agentResize c x y a w) (fun '(_, a', w') => aok a' /\ RInv log0 w').
Proof.
  intros (V & Er) H. unfold agentResize, guard_enter, guard_leave, resizeWindow, bufferInfo. eapply ends_bind with (P := fun _ => 1 <= x /\ 1 <= y).
  { destruct (_ && _) eqn:E; cbn; lia. }
  intros _ (Hx & Hy). cbv zeta.
  assert (Hp : forall s, pinv s -> pinv (st_pty (Coord_ (Z.min x MAX_CONSOLE_WIDTH) (Z.min y MAX_CONSOLE_HEIGHT)) s)).
  { intros s (_ & _ & D). unfold pinv, Coord_, MAX_CONSOLE_WIDTH, MAX_CONSOLE_HEIGHT. cbn [st_pty s_pty s_dirty co_x co_y]. rewrite !LargeReadProofs.s16_id by lia. lia. }
  set (size := Coord_ _ _) in *. clearbody size.
  eapply ends_bind; [apply sync_linv; [apply Hp; exact V|apply setFrozen_linv; exact H]|]. intros [[i s] w1] (V1 & H1). cbv beta iota.
  eapply ends_bind with (P := fun '(e, w') => match e with None => True | Some (es, eb) => pinv es /\ console_ok eb end /\ RInv log0 w').
  - destruct (a_err a) as [[es eb]|]; [|split; [exact I|exact H1]]. destruct Er as (V2 & B2). eapply ends_bind; [apply (on_buffer_linv log0); [exact B2| |exact H1]|].
    + intros w' H'. eapply ends_bind; [apply sync_linv; [apply Hp; exact V2|exact H']|]. intros [[i' s'] w2] (V3 & H3). split; assumption.
    + intros [[es' eb'] w2] (V3 & B3 & H3). cbn. auto.
  - intros [e' w2] (V3 & H2). cbn. split; [split; [exact V1|exact V3]|]. apply setFrozen_linv, interfere_linv. exact H2.
Qed.
Lemma calls_linv log0 c ks : forall a w, aok a -> RInv log0 w -> ends (run_calls c ks a w) (fun '(a', w') => aok a' /\ RInv log0 w').
Proof.
  induction ks as [|k ks IH]; intros a w V H; [split; assumption|]. cbn [run_calls]. eapply ends_bind with (P := fun '(a', w') => aok a' /\ RInv log0 w').
  - destruct k as [|x y]; cbn [run_call].
    + eapply ends_bind; [apply (agentScrape_linv log0); assumption|]. intros [[i a'] w'] H'. exact H'.
    + eapply ends_bind; [apply (agentResize_linv log0); assumption|]. intros [[[i j] a'] w'] H'. exact H'.
  - intros [a' w'] (H1 & H2). apply IH; assumption.
Qed.

(** *** The start *)
Notation SInv := (Inv start_request_ok).
Lemma new_linv log0 c size w : 1 <= co_x size <= 2500 -> 1 <= co_y size <= 2000 -> SInv log0 w ->
  pinv (fst (newScraper c size w)) /\ SInv log0 (snd (newScraper c size w)).
Proof.
  intros Hx Hy H. unfold newScraper, bufferInfo, largestSize, changeFont. cbv zeta. cbn [fst snd]. split; [unfold pinv; cbn; lia|].
  assert (M : forall vc vr w, 1 <= vc <= 2500 -> 1 <= vr <= 2000 -> SInv log0 w -> SInv log0 (moveWindow (SmallRect 0 0 vc vr) w)).
  { intros vc vr w' Hc Hr H'. apply moveWindow_linv; [|exact H']. rewrite make_window by lia. cbn. unfold rows_of, cols_of, fits. cbn [rLeft rTop rRight rBottom]. lia. }
  pose proof (interfere_linv _ _ _ (interfere_linv _ _ _ H)) as H1.
  pose proof (M 1 1 _ ltac:(lia) ltac:(lia) H1) as H2. set (w2 := moveWindow _ _) in *. clearbody w2.
  assert (H3 : SInv log0 (resizeBufferRange (co_x size) BUFFER_LINE_COUNT w2)).
  { unfold BUFFER_LINE_COUNT. apply resizeRange_linv; [lia|lia| |exact H2]. intros x' Hx'. cbn. unfold size_ok. lia. }
  set (w3 := resizeBufferRange _ _ w2) in *. clearbody w3. pose proof (interfere_linv _ _ _ H3) as H4. set (w4 := interfere w3) in *. clearbody w4.
  assert (Lg : 1 <= co_x (b_largest (w_buf w4)) <= 32767 /\ 1 <= co_y (b_largest (w_buf w4)) <= 32767) by (destruct H4 as ((H4 & _) & _); unfold console_ok in H4; tauto).
  apply clearLines_linv, interfere_linv, interfere_linv, setCursor_linv. apply M; [lia|lia|exact H4].
Qed.
Lemma agentNew_linv log0 c cols rows eb w : (forall b, eb = Some b -> console_ok b) -> SInv log0 w ->
  ends (agentNew c cols rows eb w) (fun '(a, w') => aok a /\ SInv log0 w').
Proof.
  intros Hb H. unfold agentNew. eapply ends_bind with (P := fun _ => 1 <= cols /\ 1 <= rows).
  { destruct (_ && _) eqn:E; cbn; lia. }
  intros _ (Hc & Hr). cbv zeta.
  assert (Hs : 1 <= co_x (Coord_ (Z.min cols MAX_CONSOLE_WIDTH) (Z.min rows MAX_CONSOLE_HEIGHT)) <= 2500 /\ 1 <= co_y (Coord_ (Z.min cols MAX_CONSOLE_WIDTH) (Z.min rows MAX_CONSOLE_HEIGHT)) <= 2000).
  { unfold Coord_, MAX_CONSOLE_WIDTH, MAX_CONSOLE_HEIGHT. cbn [co_x co_y]. rewrite !LargeReadProofs.s16_id by lia. lia. }
  set (size := Coord_ _ _) in *. clearbody size. destruct Hs as (Hx & Hy).
  pose proof (new_linv log0 c size w Hx Hy H) as (V1 & H1). destruct (newScraper c size w) as [s w1]. cbn [fst snd] in *.
  eapply ends_bind with (P := fun '(e, w') => match e with None => True | Some (es, eb) => pinv es /\ console_ok eb end /\ SInv log0 w').
  - destruct eb as [b|]; [|cbn; auto]. unfold on_buffer. pose proof (turn_linv _ _ _ (conj (with_buf_ok b w1 (proj1 H1) (Hb b eq_refl)) (proj2 H1))) as H2.
    pose proof (new_linv log0 c size _ Hx Hy H2) as (V3 & H3). destruct (newScraper c size (turn (with_buf b w1))) as [s' w']. cbn [fst snd] in *. cbn.
    split; [split; [exact V3|apply H3]|]. apply turn_linv. split; [apply with_buf_ok; [apply H3|apply H1]|apply H3].
  - intros [e w2] (E & H2). cbn. split; [split; [exact V1|exact E]|exact H2].
Qed.

(** *** What a resize does *)
(** Nobody else uses the console and nothing fails *)
Definition quiet (w : world) : Prop := winv w /\ w_env w = [] /\ w_fail w = [].
Definition geo (b : cbuf) : Z * Z * srect * coord * coord := (b_w b, b_h b, b_win b, b_cur b, b_largest b).
Definition G (g : Z * Z * srect * coord * coord) (w : world) : Prop := quiet w /\ geo (w_buf w) = g.
Lemma quiet_id w : w_env w = [] -> interfere w = w.
Proof. intros H. unfold interfere. rewrite H. destruct (w_sel w); reflexivity. Qed.
Lemma turn_id w : w_env w = [] -> turn w = w.
Proof. intros H. unfold turn. rewrite H. reflexivity. Qed.
Lemma Ginter g w : G g w -> G g (interfere w).
Proof. intros H. rewrite quiet_id; [exact H|apply H]. Qed.
Lemma Gclear g a n i w : G g w -> G g (clearLines a n i w).
Proof. intros ((A & B & C) & D). unfold clearLines. rewrite (quiet_id w B). split; [|exact D]. split; [|split; assumption]. pose proof (clearLines_ok a n i w A) as H. unfold clearLines in H. rewrite (quiet_id w B) in H. apply H. Qed.
Lemma Gwrite g r d w : G g w -> G g (write_col r d w).
Proof. intros ((A & B & C) & D). unfold write_col. rewrite (quiet_id w B). split; [|exact D]. split; [|split; assumption]. pose proof (write_col_ok r d w A) as H. unfold write_col in H. rewrite (quiet_id w B) in H. apply H. Qed.
Lemma Glog g r w : G g w -> G g (with_log (RRead r) w).
Proof. intros H. exact H. Qed.
Lemma Gfrozen g b w : G g w -> G g (setFrozen b w) /\ w_frozen (setFrozen b w) = b /\ w_buf (setFrozen b w) = w_buf w.
Proof.
  intros ((A & B & C) & D). pose proof (setFrozen_ok b w A) as (K1 & K2). unfold setFrozen in *. rewrite (quiet_id w B) in *. 
  destruct (Bool.eqb b (w_frozen w)) eqn:Eb; [split; [exact (conj (conj A (conj B C)) D)|split; [exact K2|reflexivity]]|].
  destruct b; [split; [split; [split; [exact K1|split; assumption]|exact D]|auto]|].
  destruct (w_sel w); (split; [split; [split; [exact K1|split; assumption]|exact D]|auto]).
Qed.
Lemma Gmove g r w : G g w -> fits (w_buf w) r -> rLeft r <= rRight r -> rTop r <= rBottom r ->
  quiet (moveWindow r w) /\ w_buf (moveWindow r w) = set_win r (w_buf w) /\ w_frozen (moveWindow r w) = w_frozen w.
Proof.
  intros ((A & B & C) & D) F H1 H2. pose proof (moveWindow_ok r w A) as K. unfold moveWindow, fails in *. rewrite (quiet_id w B) in *. rewrite C in *.
  assert (V : valid_window (w_buf w) r = true) by (unfold valid_window, in_buf; unfold fits in F; lia). cbn [negb andb] in *. rewrite V in *. splits; auto.
  exact (conj (proj1 K) (conj B C)).
Qed.
Lemma Gsize g x y w : G g w -> 1 <= x <= 32767 -> 1 <= y <= 32767 -> cols_of (b_win (w_buf w)) <= x -> rows_of (b_win (w_buf w)) <= y ->
  quiet (resizeBufferRange x y w) /\ w_frozen (resizeBufferRange x y w) = w_frozen w /\
  w_buf (resizeBufferRange x y w) = set_win (fit_window x y (b_win (w_buf w)))
     (set_cur (mkCoord (Z.min (co_x (b_cur (w_buf w))) (x - 1)) (Z.min (co_y (b_cur (w_buf w))) (y - 1))) (set_size x y (w_buf w))).
Proof.
  intros ((A & B & C) & D) Hx Hy H1 H2. pose proof (setBufferSize_ok x y w ltac:(lia) ltac:(lia) A) as K. unfold resizeBufferRange. unfold setBufferSize, fails in *. rewrite (quiet_id w B) in *. rewrite C in *.
  assert (V : (rRight (b_win (w_buf w)) - rLeft (b_win (w_buf w)) <? x) && (rBottom (b_win (w_buf w)) - rTop (b_win (w_buf w)) <? y) = true) by (unfold cols_of, rows_of in *; lia).
  cbn [negb andb] in *. rewrite V in *. cbn [snd] in K. splits; auto. exact (conj (proj1 K) (conj B C)).
Qed.
Definition same_geo (b b' : cbuf) : Prop := geo b' = geo b.
Lemma resizeImpl_effect c g s w : G g w -> pinv s -> s_direct s = true \/ rows_of (b_win (w_buf w)) < b_h (w_buf w) /\ b_h (w_buf w) = 3000 ->
  ends (resizeImpl c (info_of (w_buf w)) s w) (fun '(s', w') => pinv s' /\ s_direct s' = s_direct s /\ quiet w' /\ resized (co_x (s_pty s)) (co_y (s_pty s)) (w_buf w) (w_buf w')).
Proof.
  intros H V Hd. unfold resizeImpl. eapply ends_bind; [apply (ends_any _ (fun _ => True)); auto|]. intros _ _. cbv zeta.
  pose proof H as ((W0 & _) & Hg). pose proof W0 as (Co & _).
  set (b := w_buf w) in *. clearbody b. 
  eapply ends_bind with (P := fun '(s', w') => pinv s' /\ s_direct s' = s_direct s /\ G g w').
  - unfold resize_clear. destruct (s_direct s) eqn:Ed; [split; [exact V|split; [exact Ed|exact H]]|]. eapply ends_bind with (P := fun s' => pinv s' /\ s_direct s' = false).
    + unfold clearBufferLines. eapply ends_bind; [apply (ends_any _ (fun _ => True)); auto|]. intros _ _.
      eapply ends_weak; [apply clear_p; exact V|]. intros s' (A & B & _). split; [exact A|congruence].
    + intros s1 (V1 & E1). destruct (negb _); [|split; [exact V1|split; [exact E1|apply Gclear; exact H]]]. unfold createSyncMarker.
      eapply ends_bind; [apply (ends_any _ (fun _ => True)); auto|]. intros _ _. unfold bufferInfo. cbv zeta. cbn [ends]. split; [exact V1|split; [exact E1|]]. apply Gwrite, Gclear, Ginter, Gclear. exact H.
  - intros [s1 w1] (V1 & D1 & H1). unfold changeFont, largestSize, bufferInfo. cbv beta iota zeta.
    pose proof (Gfrozen g false w1 H1) as (H2 & _ & _). set (w2 := setFrozen false w1) in *. clearbody w2. rewrite !(quiet_id w2) by apply H2.
    assert (Lg : b_largest (w_buf w2) = b_largest b) by (destruct H2 as (_ & H2); rewrite <- Hg in H2; unfold geo in H2; congruence). rewrite Lg.
    pose proof Co as (_ & _ & _ & _ & _ & _ & _ & _ & Cl1 & Cl2).
    pose proof V as (Vx & Vy & _). rewrite !(LargeReadProofs.s16_id (co_x (s_pty s))), !(LargeReadProofs.s16_id (co_y (s_pty s))) by lia.
    set (cols := co_x (s_pty s)) in *. set (rows := co_y (s_pty s)) in *.
    set (vc := Z.min cols (co_x (b_largest b))). set (vr := Z.min rows (co_y (b_largest b))).
    assert (Hv : 1 <= vc <= cols /\ 1 <= vr <= rows) by (unfold vc, vr; lia). destruct Hv as (Hvc & Hvr).
    pose proof (Gfrozen g true w2 H2) as (H3 & F3 & _). set (w3 := setFrozen true w2) in *. clearbody w3. rewrite (quiet_id w3) by apply H3.
    assert (B3 : geo (w_buf w3) = geo b) by (destruct H3 as (_ & H3); congruence).
    assert (C3 : console_ok (w_buf w3)) by apply H3.
    pose proof (tmp_spec (w_buf w3) vc vr C3 ltac:(lia) ltac:(lia)) as T. cbv zeta in T. set (tr := tmpWindow _ vc vr) in *. destruct T as (T1 & T2 & T3 & T4 & T5 & T6 & _).
    pose proof C3 as (D3 & D4 & _).
    pose proof (Gmove g tr w3 H3 ltac:(unfold fits, cols_of in *; lia) ltac:(unfold cols_of in *; lia) ltac:(unfold rows_of in *; lia)) as (Q4 & B4 & F4).
    clearbody tr. set (w4 := moveWindow tr w3) in *. clearbody w4.
    pose proof (Gfrozen (geo (w_buf w4)) false w4 (conj Q4 eq_refl)) as (H5 & _ & B5). set (w5 := setFrozen false w4) in *. clearbody w5.
    set (bh := b_h b) in *. assert (Hgw : b_w (w_buf w3) = b_w b /\ b_h (w_buf w3) = bh /\ b_win (w_buf w3) = b_win b /\ b_cur (w_buf w3) = b_cur b) by (unfold geo in B3; unfold bh; splits; congruence).
    destruct Hgw as (G1 & G2 & G3 & G4). rewrite G1 in *. rewrite G2 in *. rewrite G3, G4 in T6.
    set (y := if rows_of (b_win b) =? bh then rows else Z.max rows bh).
    assert (Ef : finalSize (info_of b) cols rows = mkCoord cols y).
    { unfold finalSize. cbn [info_of i_size i_win co_x co_y]. rewrite (LargeReadProofs.s16_id cols) by lia. f_equal.
      assert (Eh : rHeight (b_win b) = rows_of (b_win b)). { unfold rHeight, rows_of. pose proof Co as (Cw1 & Cw2 & Cw3 & Cw4 & Cw5 & Cw6 & Cw7 & Cw8 & _). rewrite LargeReadProofs.s16_id by lia. lia. }
      rewrite Eh. unfold y, bh. destruct (_ =? _); rewrite LargeReadProofs.s16_id by lia; lia. }
    rewrite Ef. cbn [co_x co_y].
    assert (Hy : 1 <= y <= 32767 /\ rows <= y) by (unfold y; destruct (_ =? _); lia).
    assert (Hdirty : s_direct s = true \/ y = 3000). { destruct Hd as [Hd|Hd]; [left; exact Hd|right]. unfold y. destruct (_ =? _) eqn:E; lia. }
    assert (B5' : w_buf w5 = set_win tr (w_buf w3)) by congruence.
    pose proof (Gsize _ cols y w5 H5 ltac:(lia) ltac:(lia)) as K. rewrite B5' in K. cbn [set_win b_win b_cur] in K. specialize (K ltac:(lia) ltac:(lia)). destruct K as (Q6 & F6 & B6).
    set (w6 := resizeBufferRange cols y w5) in *. clearbody w6.
    pose proof (Gfrozen (geo (w_buf w6)) true w6 (conj Q6 eq_refl)) as (H7 & F7 & B7). set (w7 := setFrozen true w6) in *. clearbody w7. rewrite (quiet_id w7) by apply H7.
    eapply ends_bind; [apply (ends_any _ (fun _ => True)); auto|]. intros _ _.
    assert (C7 : console_ok (w_buf w7)) by apply H7. destruct V1 as (V1a & V1b & V1c).
    pose proof (final_spec (w_buf w7) (s_direct s1) (s_dirty s1) vc vr C7 ltac:(lia) ltac:(lia) V1c) as T. cbv zeta in T. set (r := finalWindow _ _ _ vc vr) in *. clearbody r. destruct T as (U1 & U2 & U3 & U4 & U5 & U6 & U7).
    assert (B7' : b_w (w_buf w7) = cols /\ b_h (w_buf w7) = y /\ b_win (w_buf w7) = fit_window cols y tr /\ co_y (b_cur (w_buf w7)) = Z.min (co_y (b_cur b)) (y - 1)) by (rewrite B7, B6; cbn; rewrite G4; auto).
    destruct B7' as (R1 & R2 & R3 & R4). rewrite R2 in *. specialize (U6 ltac:(lia) ltac:(destruct Hdirty; [left; congruence|right; lia])).
    pose proof (Gmove (geo (w_buf w6)) r w7 H7 ltac:(unfold fits, cols_of in *; lia) ltac:(unfold cols_of in *; lia) ltac:(unfold rows_of in *; lia)) as (Q8 & B8 & F8).
    eapply ends_bind; [apply (ends_any _ (fun _ => True)); auto|]. intros _ _. cbn [ends]. splits; [exact (conj V1a (conj V1b V1c))|exact D1|exact Q8|].
    rewrite B8. unfold resized. cbn [set_win b_w b_h b_win b_cur b_largest]. splits; auto; try lia.
    + unfold fits. cbn [set_win b_w b_h]. unfold cols_of in *. lia.
    + intros Sh. specialize (T6 Sh). apply U7. rewrite R3. unfold cursor_shown in *. rewrite R4. unfold fit_window. cbn [rTop rBottom]. pose proof Co as (Cw1 & Cw2 & Cw3 & Cw4 & Cw5 & Cw6 & Cw7 & Cw8 & _). lia.
Qed.
Lemma sync_effect c s w : quiet w -> pinv s -> (b_h (w_buf w) = 3000 -> rows_of (b_win (w_buf w)) < 3000) ->
  ends (syncConsoleContentAndSize c true s w) (fun '(i, s', w') => pinv s' /\ quiet w' /\ resized (co_x (s_pty s)) (co_y (s_pty s)) (w_buf w) (w_buf w') /\ i = info_of (w_buf w')).
Proof.
  intros H V Hr. unfold syncConsoleContentAndSize, bufferInfo, cursorVisible. cbv zeta. rewrite Bool.orb_true_r.
  pose proof (Gfrozen (geo (w_buf w)) true w (conj H eq_refl)) as (H0 & F0 & B0). set (w0 := setFrozen true w) in *. clearbody w0. rewrite !(quiet_id w0) by apply H0.
  set (info := info_of (w_buf w0)). set (vis := b_visible _). clearbody vis.
  assert (Io : info_ok info) by (apply info_of_ok; apply H0).
  set (nd := negb (co_y (i_size info) =? BUFFER_LINE_COUNT)).
  match goal with |- ends (let '(_, _) := ?x in _) _ => set (sw := x) end.
  assert (Hs : pinv (snd (fst sw)) /\ fst (fst sw) = true /\ G (geo (w_buf w)) (snd sw) /\ w_buf (snd sw) = w_buf w /\ s_direct (snd (fst sw)) = nd /\ s_pty (snd (fst sw)) = s_pty s).
  { unfold sw. destruct (negb (Bool.eqb nd (s_direct s))) eqn:En.
    - assert (Vr : pinv (st_direct nd (resetConsoleTracking true (if nd then 0 else rTop (i_win info)) s))) by (destruct V as (V1 & V2 & _); split; [exact V1|split; [exact V2|cbn; lia]]).
      destruct nd; cbn [negb fst snd]; splits; auto; [apply Gfrozen; exact H0|]. rewrite <- B0. apply (Gfrozen _ true w0 H0).
    - apply Bool.negb_false_iff, Bool.eqb_prop in En. cbn [fst snd]. splits; auto. }
  clearbody sw. destruct sw as [[fo s2] w2]. cbn [fst snd] in Hs. destruct Hs as (V2 & -> & H2 & B2 & Dn & Pn).
  assert (Ei : info = info_of (w_buf w2)) by (unfold info; rewrite B0, B2; reflexivity).
  rewrite <- Pn. rewrite <- B2 in *. clear B0 H0 F0 H V Pn. clearbody info. 
  eapply ends_bind with (P := fun '(s', w') => pinv s' /\ quiet w' /\ resized (co_x (s_pty s2)) (co_y (s_pty s2)) (w_buf w2) (w_buf w')).
  - destruct (s_direct s2) eqn:Ed.
    + eapply ends_bind; [rewrite Ei; apply (resizeImpl_effect c _ s2 w2 H2 V2); left; exact Ed|]. intros [s3 w3] (V3 & D3 & Q3 & R3).
      eapply ends_weak; [apply (direct_gen (G (geo (w_buf w3))) (Ginter _) (Glog _)); [exact V3|split; [exact Q3|reflexivity]]|]. intros [s4 w4] (V4 & (Q4 & R4) & _). splits; auto.
      clear - R3 R4. revert R3. generalize (w_buf w2) as b. intros b. unfold resized, geo, fits in *. injection R4 as -> -> -> -> _. auto.
    + assert (H3000 : co_y (i_size info) = 3000) by (unfold nd, BUFFER_LINE_COUNT in Dn; symmetry in Dn; apply Bool.negb_false_iff in Dn; lia).
      pose proof (scrolling_gen (G (geo (w_buf w2))) (Ginter _) (Gclear _) (Gwrite _) (Glog _)) as SG.
      assert (SP : forall t s w, pinv s -> G (geo (w_buf w2)) w -> s_direct s = false -> s_pty s = s_pty s2 -> ends (scrollingScrapeOutput c info vis t s w) (fun '(_, s', w') => (pinv s' /\ G (geo (w_buf w2)) w') /\ (s_direct s' = false /\ s_pty s' = s_pty s2))).
      { intros t s' w' V' H' Ds Ps. eapply ends_weak; [apply SG; assumption|]. intros [[ok s3] w3] (A & B & C & D). splits; auto; congruence. }
      eapply ends_bind with (P := fun '(s', w') => (pinv s' /\ G (geo (w_buf w2)) w') /\ (s_direct s' = false /\ s_pty s' = s_pty s2)).
      * destruct (negb (w_frozen w2)); [|cbn [ends]; splits; auto]. eapply ends_bind; [apply SP; auto|]. intros [[ok s3] w3] ((V3 & H3) & K3). split; [|exact K3]. split; [exact V3|].
        destruct ok; [exact H3|]. apply Gfrozen. exact H3.
      * intros [s3 w3] ((V3 & H3) & K3 & K4). eapply ends_bind with (P := fun '(s', w') => (pinv s' /\ G (geo (w_buf w2)) w') /\ (s_direct s' = false /\ s_pty s' = s_pty s2)).
        -- destruct (w_frozen w3); [|cbn [ends]; splits; auto]. eapply ends_bind; [apply SP; auto|]. intros [[ok s4] w4] H4. exact H4.
        -- intros [s4 w4] ((V4 & H4) & K5 & K6). assert (Eg : geo (w_buf w4) = geo (w_buf w2)) by apply H4.
           assert (Ei4 : info = info_of (w_buf w4)) by (rewrite Ei; unfold info_of, geo in *; injection Eg as -> -> -> -> _; reflexivity). rewrite Ei4.
           assert (Ey : b_h (w_buf w2) = 3000) by (rewrite Ei in H3000; exact H3000).
           eapply ends_weak; [apply (resizeImpl_effect c _ s4 w4 H4 V4); right|].
           ++ unfold geo in Eg. injection Eg as _ -> -> _ _. specialize (Hr Ey). lia.
           ++ intros [s5 w5] (V5 & D5 & Q5 & R5). splits; auto. rewrite <- K6. revert R5. unfold resized, geo in *. injection Eg as _ -> -> -> ->. auto.
  - intros [s3 w3] (V3 & Q3 & R3). cbn [ends]. rewrite (quiet_id w3) by apply Q3. splits; auto; apply Q3.
Qed.
Definition room (b : cbuf) : Prop := b_h b = 3000 -> rows_of (b_win b) < 3000.
Lemma agentResize_effect c x y a w : quiet w -> aok a -> room (w_buf w) -> (forall es eb, a_err a = Some (es, eb) -> room eb) ->
  ends (agentResize c x y a w) (fun '(r, z, a', w') => resized (Z.min x 2500) (Z.min y 2000) (w_buf w) (w_buf w') /\
     match a_err a, a_err a' with None, None => True | Some (_, eb), Some (_, eb') => resized (Z.min x 2500) (Z.min y 2000) eb eb' | _, _ => False end /\
     r = b_win (w_buf w') /\ z = mkCoord (b_w (w_buf w')) (b_h (w_buf w'))).
Proof.
  intros H (V & Er) Hr Hr2. unfold agentResize, guard_enter, guard_leave, resizeWindow, bufferInfo. eapply ends_bind with (P := fun _ => 1 <= x /\ 1 <= y).
  { destruct (_ && _) eqn:E; cbn; lia. }
  intros _ (Hx & Hy). cbv zeta.
  assert (Hp : forall s, pinv s -> pinv (st_pty (Coord_ (Z.min x MAX_CONSOLE_WIDTH) (Z.min y MAX_CONSOLE_HEIGHT)) s)).
  { intros s (_ & _ & D). unfold pinv, Coord_, MAX_CONSOLE_WIDTH, MAX_CONSOLE_HEIGHT. cbn [st_pty s_pty s_dirty co_x co_y]. rewrite !LargeReadProofs.s16_id by lia. lia. }
  assert (Hz : Coord_ (Z.min x MAX_CONSOLE_WIDTH) (Z.min y MAX_CONSOLE_HEIGHT) = mkCoord (Z.min x 2500) (Z.min y 2000)) by (unfold Coord_, MAX_CONSOLE_WIDTH, MAX_CONSOLE_HEIGHT; rewrite !LargeReadProofs.s16_id by lia; reflexivity).
  rewrite Hz in *. clear Hz.
  assert (Ff : forall b w, quiet w -> quiet (setFrozen b w) /\ w_buf (setFrozen b w) = w_buf w) by (intros b w' H'; pose proof (Gfrozen (geo (w_buf w')) b w' (conj H' eq_refl)) as ((A & _) & _ & B); auto).
  destruct (Ff (w_frozen w) w H) as (H0 & B0). set (w0 := setFrozen (w_frozen w) w) in *. clearbody w0.
  eapply ends_bind; [apply (sync_effect c _ w0 H0 (Hp _ V)); rewrite B0; exact Hr|]. intros [[i s] w1] (V1 & H1 & R1 & Ei). cbv beta iota. cbn [st_pty s_pty co_x co_y] in R1. rewrite B0 in R1.
  eapply ends_bind with (P := fun '(e, w') => quiet w' /\ w_buf w' = w_buf w1 /\ match a_err a, e with None, None => True | Some (_, eb), Some (_, eb') => resized (Z.min x 2500) (Z.min y 2000) eb eb' | _, _ => False end).
  - destruct (a_err a) as [[es eb]|]; [|split; [exact H1|split; [reflexivity|exact I]]]. destruct Er as (V2 & B2). unfold on_buffer.
    assert (H2 : quiet (with_buf eb w1)) by (destruct H1 as (A & B & C); split; [apply with_buf_ok; assumption|split; assumption]).
    rewrite (turn_id (with_buf eb w1)) by apply H2.
    eapply ends_bind with (P := fun '(_, eb', w') => quiet w' /\ w_buf w' = w_buf w1 /\ resized (Z.min x 2500) (Z.min y 2000) eb eb').
    + eapply ends_bind with (P := fun '(s', w') => quiet w' /\ resized (Z.min x 2500) (Z.min y 2000) eb (w_buf w')).
      * eapply ends_bind; [apply (sync_effect c _ _ H2 (Hp _ V2)); exact (Hr2 es eb eq_refl)|]. intros [[i' s'] w2] (V3 & H3 & R3 & _). cbn [st_pty s_pty co_x co_y] in R3. cbn. split; assumption.
      * intros [s' w2] (H3 & R3). assert (H4 : quiet (with_buf (w_buf w1) w2)) by (destruct H3 as (A & B & C); split; [apply with_buf_ok; [exact A|apply H1]|split; assumption]).
        cbn [ends]. rewrite turn_id by apply H4. split; [exact H4|split; [reflexivity|exact R3]].
    + intros [[es' eb'] w2] (H3 & B3 & R3). cbn. auto.
  - intros [e w2] (H2 & B2 & R2). cbn [ends]. rewrite (quiet_id w2) by apply H2. destruct (Ff (w_frozen w) w2 H2) as (_ & B3). rewrite B3, B2. cbn [a_err]. splits; auto. subst i. reflexivity.
Qed.
Lemma log_start P l : logged P l l.
Proof. exists []. split; [symmetry; apply app_nil_r|constructor]. Qed.
