(** Proofs for C36 and C49. *)
From Coq Require Import Lia.
From Verif Require Import Base BaseLemmas SmallRect SmallRectSpec SmallRectProofs ConsoleLine Console LargeRead TerminalSpec Scraper AgentConsole Freeze ScraperSpec LargeReadProofs ScraperProofs.
Ltac splits := repeat match goal with |- _ /\ _ => split end.

(** A property of the world no console call changes *)
Definition settled (e : Z * list (cbuf -> cbuf)) (w : world) : Prop := w_sel w = w_frozen w /\ w_esc w = fst e /\ incl (w_env w) (snd e).
Section Calls.
Context (e : Z * list (cbuf -> cbuf)).
Notation Inv := (settled e).
Lemma interfere_inv w : Inv w -> Inv (interfere w).
Proof. intros (A & B). unfold interfere. destruct (w_sel w) eqn:E; [split; auto; congruence|]. destruct B as (B & C). destruct (w_env w) as [|f r] eqn:Ev; split; cbn; [congruence|rewrite Ev; auto|congruence|split; [exact B|intros x Hx; apply C; right; exact Hx]]. Qed.
Lemma turn_inv w : Inv w -> Inv (turn w).
Proof. intros (A & B & C). unfold turn. destruct (w_env w) as [|f r] eqn:Ev; split; cbn; [congruence|rewrite Ev; auto|congruence|split; [exact B|intros x Hx; apply C; right; exact Hx]]. Qed.
Lemma setFrozen_inv b w : Inv w -> Inv (setFrozen b w) /\ w_frozen (setFrozen b w) = b.
Proof.
  intros H. unfold setFrozen. destruct (Bool.eqb b (w_frozen w)) eqn:Eb; [apply Bool.eqb_prop in Eb; split; [exact H|congruence]|].
  pose proof (interfere_inv w H) as (A & B). pose proof (interfere_frozen w) as F. destruct b; [split; [split|]; auto|].
  assert (w_frozen w = true) by (destruct (w_frozen w); [reflexivity|discriminate]). replace (w_sel (interfere w)) with true by congruence. split; [split|]; auto.
Qed.
Lemma moveWindow_inv r w : Inv w -> Inv (moveWindow r w).
Proof. intros H. unfold moveWindow. pose proof (interfere_inv w H) as (A & B). unfold fails. destruct (w_fail (interfere w)); cbv zeta; match goal with |- context [if ?b then _ else _] => destruct b end; split; auto. Qed.
Lemma setBufferSize_inv x y w : Inv w -> Inv (snd (setBufferSize x y w)).
Proof. intros H. unfold setBufferSize. pose proof (interfere_inv w H) as (A & B). unfold fails. destruct (w_fail (interfere w)); cbv zeta; match goal with |- context [if ?b then _ else _] => destruct b end; split; auto. Qed.
Lemma widen_inv n : forall x y w, Inv w -> Inv (widen n x y w).
Proof.
  induction n; intros x y w H; [exact H|]. cbn [widen]. destruct (x <? 20); [|exact H]. pose proof (setBufferSize_inv (x + 1) y w H) as H1.
  destruct (setBufferSize (x + 1) y w) as [[] w1]; [exact H1|]. apply IHn. exact H1.
Qed.
Lemma resizeRange_inv x y w : Inv w -> Inv (resizeBufferRange x y w).
Proof. intros H. unfold resizeBufferRange. pose proof (setBufferSize_inv x y w H) as H1. destruct (setBufferSize x y w) as [[] w1]; [exact H1|]. apply widen_inv. exact H1. Qed.
Lemma setCursor_inv x w : Inv w -> Inv (setCursorPosition x w).
Proof. intros H. unfold setCursorPosition. pose proof (interfere_inv w H) as (A & B). destruct (_ && _ && _ && _); split; auto. Qed.
Lemma clearLines_inv a n i w : Inv w -> Inv (clearLines a n i w).
Proof. intros H. exact (interfere_inv w H). Qed.
Lemma write_col_inv r d w : Inv w -> Inv (write_col r d w).
Proof. intros H. exact (interfere_inv w H). Qed.
Lemma read_inv {E} nw r d o w : Inv w -> ends (@read E nw r d o w) (fun '(_, w') => Inv w').
Proof. intros H. unfold read. pose proof (interfere_inv w H) as K. destruct (_ || _ || _); [exact I|]. destruct (in_buf _ _); [exact K|]. destruct nw; [exact K|exact I]. Qed.
Lemma chunks_inv {E} n : forall nw a m c l w, Inv w -> ends (@read_chunks E n nw a m c l w) (fun '(_, w') => Inv w').
Proof.
  induction n; intros nw a m c l w H; [exact I|]. cbn [read_chunks]. destruct (rBottom a <? c); [exact H|]. cbv zeta.
  eapply ends_bind; [apply (ends_any _ (fun _ => True)); auto|]. intros i _. eapply ends_bind; [apply read_inv; exact H|]. intros [d w'] H'. apply IHn. exact H'.
Qed.
Lemma large_inv {E} nw w8 a m l w : Inv w -> ends (@largeConsoleRead E nw w8 a m l w) (fun '(_, w') => Inv w').
Proof.
  intros H. unfold largeConsoleRead. eapply ends_bind; [apply (ends_any _ (fun _ => True)); auto|]. intros _ _. cbv zeta.
  eapply ends_bind with (P := fun '(_, w') => Inv w').
  - destruct w8; [|apply chunks_inv; exact H]. eapply ends_bind; [apply read_inv; exact H|]. intros [d w'] H'. exact H'.
  - intros [l' w'] H'. destruct (m =? 65535); exact H'.
Qed.
Lemma find_inv c s w : Inv w -> ends (findSyncMarker c s w) (fun '(_, w') => Inv w').
Proof.
  intros H. unfold findSyncMarker. eapply ends_bind; [apply (ends_any _ (fun _ => True)); auto|]. intros _ _. cbv zeta. eapply ends_bind; [apply read_inv; exact H|].
  intros [d w'] H'. destruct (_ <? _); [exact I|exact H'].
Qed.
Lemma create_inv {E} r s w : Inv w -> ends (@createSyncMarker E r s w) (fun '(_, w') => Inv w').
Proof.
  intros H. unfold createSyncMarker. eapply ends_bind; [apply (ends_any _ (fun _ => True)); auto|]. intros _ _. unfold bufferInfo. cbv zeta. cbn [ends].
  apply write_col_inv, clearLines_inv, interfere_inv. exact H.
Qed.
Lemma mask_inv c w : Inv w -> Inv (snd (attributesMask c w)).
Proof. intros H. unfold attributesMask. cbn [snd]. apply interfere_inv, interfere_inv. exact H. Qed.
Lemma direct_inv c st info vis s w : Inv w -> ends (directScrapeOutput c st info vis s w) (fun '(_, w') => Inv w').
Proof.
  intros H. unfold directScrapeOutput. cbv zeta. pose proof (mask_inv c w H) as H1. destruct (attributesMask c w) as [mask w1]. cbn [snd] in H1.
  eapply ends_bind; [apply (ends_any _ (fun _ => True)); auto|]. intros _ _. eapply ends_bind; [apply large_inv; exact H1|]. intros [r w2] H2. cbv beta iota.
  eapply ends_bind; [apply (ends_any _ (fun _ => True)); auto|]. intros s' _. exact H2.
Qed.
Lemma scroll_marker_inv c win t s w : Inv w -> ends (scroll_marker c win t s w) (fun '(_, _, w') => Inv w').
Proof.
  intros H. unfold scroll_marker. destruct (_ =? -1); [exact H|]. eapply ends_bind; [apply find_inv; exact H|]. intros [m w1] H1. cbv beta iota.
  destruct (m =? -1); [destruct t; exact H1|]. destruct (negb _); [|exact H1].
  eapply ends_bind; [apply (ends_any _ (fun _ => True)); auto|]. intros _ _. eapply ends_bind; [apply (ends_any _ (fun _ => True)); auto|]. intros _ _. exact H1.
Qed.
Lemma check_inv c info s w : Inv w -> ends (scroll_check c info s w) (fun '(_, w') => Inv w').
Proof.
  intros H. unfold scroll_check, bufferInfo. cbv zeta. pose proof (interfere_inv w H) as H1. destruct (_ || _); [exact H1|]. destruct (negb _); [|exact H1].
  eapply ends_bind; [apply find_inv; exact H1|]. intros [m w1] H2. exact H2.
Qed.
Lemma scrolling_inv c info vis t s w : Inv w -> ends (scrollingScrapeOutput c info vis t s w) (fun '(_, _, w') => Inv w').
Proof.
  intros H. unfold scrollingScrapeOutput. eapply ends_bind; [apply scroll_marker_inv; exact H|]. intros [[go s1] w1] H1. cbv beta iota zeta.
  destruct (negb go); [exact H1|]. destruct (t && _); [exact H1|]. destruct (scroll_dirty _ _ t s1) as [go2 s2]. destruct (negb go2); [exact H1|].
  eapply ends_bind; [apply (ends_any _ (fun _ => True)); auto|]. intros _ _. eapply ends_bind; [apply (ends_any _ (fun _ => True)); auto|]. intros _ _.
  pose proof (mask_inv c w1 H1) as H2. destruct (attributesMask c w1) as [mask w2]. cbn [snd] in H2.
  eapply ends_bind; [apply large_inv; exact H2|]. intros [r w3] H3. cbv beta iota.
  eapply ends_bind with (P := fun '(_, w') => Inv w'); [destruct t; [apply check_inv; exact H3|exact H3]|]. intros [same w4] H4. destruct (negb same); [exact H4|].
  eapply ends_bind with (P := fun '(_, w') => Inv w').
  - destruct (_ <=? _); [|exact H4]. eapply ends_bind; [apply (ends_any _ (fun _ => True)); auto|]. intros _ _. apply create_inv. exact H4.
  - intros [s5 w5] H5. cbv beta iota. eapply ends_bind; [apply (ends_any _ (fun _ => True)); auto|]. intros s6 _. exact H5.
Qed.
Lemma resizeImpl_inv c i s w : Inv w -> ends (resizeImpl c i s w) (fun '(_, w') => Inv w').
Proof.
  intros H. unfold resizeImpl. eapply ends_bind; [apply (ends_any _ (fun _ => True)); auto|]. intros _ _. cbv zeta.
  eapply ends_bind with (P := fun '(_, w') => Inv w').
  - unfold resize_clear. destruct (s_direct s); [exact H|]. eapply ends_bind; [apply (ends_any _ (fun _ => True)); auto|]. intros s1 _.
    destruct (negb _); [apply create_inv|]; apply clearLines_inv; exact H.
  - intros [s1 w1] H1. unfold changeFont, largestSize, bufferInfo. cbv beta iota zeta.
    eapply ends_bind; [apply (ends_any _ (fun _ => True)); auto|]. intros _ _. eapply ends_bind; [apply (ends_any _ (fun _ => True)); auto|]. intros _ _. cbn [ends].
    repeat first [ apply interfere_inv | apply moveWindow_inv | apply resizeRange_inv | apply setFrozen_inv | exact H1 ].
Qed.
Lemma sync_inv c f s w : Inv w -> ends (syncConsoleContentAndSize c f s w) (fun '(_, w') => Inv w').
Proof.
  intros H. unfold syncConsoleContentAndSize, bufferInfo, cursorVisible. cbv zeta.
  set (w0 := if negb (c_new c) || f then setFrozen true w else w).
  assert (H0 : Inv w0) by (unfold w0; destruct (negb (c_new c) || f); [apply setFrozen_inv|]; exact H). clearbody w0.
  set (info := info_of (w_buf (interfere w0))). clearbody info. pose proof (interfere_inv _ (interfere_inv _ H0)) as H1. set (w1 := interfere (interfere w0)) in *. clearbody w1.
  set (nd := negb (co_y (i_size info) =? BUFFER_LINE_COUNT)). clearbody nd.
  match goal with |- ends (let '(_, _) := ?x in _) _ => set (sw := x) end.
  assert (Hs : Inv (snd sw)). { unfold sw. destruct (negb (Bool.eqb nd (s_direct s))); [|exact H1]. destruct nd; cbn [negb snd]; [exact H1|]. apply setFrozen_inv. exact H1. }
  clearbody sw. destruct sw as [[fo s2] w2]. cbn [snd] in Hs.
  eapply ends_bind with (P := fun '(_, w') => Inv w').
  - destruct (s_direct s2).
    + eapply ends_bind with (P := fun '(_, w') => Inv w'); [destruct fo; [apply resizeImpl_inv; exact Hs|exact Hs]|]. intros [s3 w3] H3. apply direct_inv. exact H3.
    + eapply ends_bind with (P := fun '(_, w') => Inv w').
      * destruct (negb (w_frozen w2)); [|exact Hs]. eapply ends_bind; [apply scrolling_inv; exact Hs|]. intros [[ok s3] w3] H3. destruct ok; [exact H3|]. apply setFrozen_inv. exact H3.
      * intros [s3 w3] H3. eapply ends_bind with (P := fun '(_, w') => Inv w').
        -- destruct (w_frozen w3); [|exact H3]. eapply ends_bind; [apply scrolling_inv; exact H3|]. intros [[ok s4] w4] H4. exact H4.
        -- intros [s4 w4] H4. destruct fo; [apply resizeImpl_inv|]; exact H4.
  - intros [s3 w3] H3. destruct fo; [apply interfere_inv|]; exact H3.
Qed.
Lemma on_buffer_inv {A} b (f : world -> res broken (A * world)) w : (forall w, Inv w -> ends (f w) (fun '(_, w') => Inv w')) -> Inv w -> ends (on_buffer b f w) (fun '(_, w') => Inv w').
Proof.
  intros F H. unfold on_buffer. eapply ends_bind; [apply F; apply turn_inv; exact H|]. intros [a w'] H'. cbn. apply turn_inv. exact H'.
Qed.
Lemma newScraper_inv c size w : Inv w -> Inv (snd (newScraper c size w)).
Proof.
  intros H. unfold newScraper, bufferInfo, largestSize, changeFont. cbv zeta. cbn [snd].
  apply clearLines_inv. repeat first [apply interfere_inv | apply moveWindow_inv | apply resizeRange_inv | apply setCursor_inv | exact H].
Qed.
Lemma agentScrape_inv c a w : Inv w -> ends (agentScrape c a w) (fun '(_, w') => Inv w' /\ w_frozen w' = w_frozen w).
Proof.
  intros H. unfold agentScrape, guard_enter, guard_leave, scrapeBuffer. cbv zeta.
  eapply ends_bind; [apply sync_inv; apply setFrozen_inv; exact H|]. intros [[i s] w1] H1. cbv beta iota.
  eapply ends_bind with (P := fun '(_, w') => Inv w').
  - destruct (a_err a) as [[es eb]|]; [|exact H1]. eapply ends_bind; [apply on_buffer_inv; [|exact H1]|].
    + intros w' H'. eapply ends_bind; [apply sync_inv; exact H'|]. intros [[i' s'] w2] H2. exact H2.
    + intros [[es' eb'] w2] H2. exact H2.
  - intros [e' w2] H2. cbn. apply setFrozen_inv. exact H2.
Qed.
Lemma agentResize_inv c x y a w : Inv w -> ends (agentResize c x y a w) (fun '(_, w') => Inv w' /\ w_frozen w' = w_frozen w).
Proof.
  intros H. unfold agentResize, guard_enter, guard_leave, resizeWindow, bufferInfo. eapply ends_bind; [apply (ends_any _ (fun _ => True)); auto|]. intros _ _. cbv zeta.
  eapply ends_bind; [apply sync_inv; apply setFrozen_inv; exact H|]. intros [[i s] w1] H1. cbv beta iota.
  eapply ends_bind with (P := fun '(_, w') => Inv w').
  - destruct (a_err a) as [[es eb]|]; [|exact H1]. eapply ends_bind; [apply on_buffer_inv; [|exact H1]|].
    + intros w' H'. eapply ends_bind; [apply sync_inv; exact H'|]. intros [[i' s'] w2] H2. exact H2.
    + intros [[es' eb'] w2] H2. exact H2.
  - intros [e' w2] H2. cbn. apply setFrozen_inv, interfere_inv. exact H2.
Qed.
Lemma run_code_inv p : forall w, Inv w -> Inv (run_code p w).
Proof. induction p; intros w H; cbn [run_code]; auto using interfere_inv. - apply setFrozen_inv; exact H. - unfold guard_enter, guard_leave. apply setFrozen_inv, IHp, setFrozen_inv. exact H. Qed.
Lemma guard_restores b p w : Inv w -> Inv (run_code (CGuard b p) w) /\ w_frozen (run_code (CGuard b p) w) = w_frozen w.
Proof. intros H. cbn [run_code guard_enter]. unfold guard_leave. apply setFrozen_inv, run_code_inv, setFrozen_inv. exact H. Qed.
End Calls.

(** *** Whole histories: frozen at the start as after every call *)
Lemma calls_inv e c ks : forall a w, settled e w -> ends (run_calls c ks a w) (fun '(_, w') => settled e w' /\ w_frozen w' = w_frozen w).
Proof.
  induction ks as [|k ks IH]; intros a w H; [cbn; auto|]. cbn [run_calls]. eapply ends_bind with (P := fun '(_, w') => settled e w' /\ w_frozen w' = w_frozen w).
  - destruct k as [|x y]; cbn [run_call].
    + eapply ends_bind; [apply (agentScrape_inv e); exact H|]. intros [[i a'] w'] H'. exact H'.
    + eapply ends_bind; [apply (agentResize_inv e); exact H|]. intros [[[i j] a'] w'] H'. exact H'.
  - intros [a' w'] (H1 & H2). pose proof (IH a' w' H1) as Q. destruct (run_calls c ks a' w') as [[a2 w2]| | | |]; cbn in *; auto. destruct Q as (Q1 & Q2). split; [exact Q1|congruence].
Qed.

(** *** The detection *)
Lemma no_env w : w_env w = [] -> interfere w = w.
Proof. intros H. unfold interfere. rewrite H. destruct (w_sel w); reflexivity. Qed.
Lemma setCursor_at c w : w_env w = [] -> (0 <= co_x c < b_w (w_buf w)) -> (0 <= co_y c < b_h (w_buf w)) -> setCursorPosition c w = with_buf (set_cur c (w_buf w)) w.
Proof. intros H Hx Hy. unfold setCursorPosition. rewrite (no_env w H). replace (_ && _) with true by lia. reflexivity. Qed.
(** From the cursor test on *)
Definition tested (w w' : world) : Prop :=
  w_frozen w' = false /\ w_sel w' = false /\ w_mark w' = false /\ w_esc w' = w_esc w /\ b_cur (w_buf w') = mkCoord 0 0 /\ b_win (w_buf w') = b_win (w_buf w).
Lemma detect_tail {E} new w : w_env w = [] -> console_ok (w_buf w) -> w_sel w = false -> w_frozen w = false ->
  rLeft (b_win (w_buf w)) < rRight (b_win (w_buf w)) \/ rTop (b_win (w_buf w)) < rBottom (b_win (w_buf w)) ->
  exists w', tested w w' /\ (let initial := mkCoord (rRight (b_win (w_buf w))) (rBottom (b_win (w_buf w))) in
  let w := setCursorPosition initial w in
  let! _ := @assert_ E (negb (w_frozen w)) in
  let w := setFrozen true (set_mark true w) in
  let '(cur, w) := markCursor new w in
  let w := setFrozen false w in
  let w := setCursorPosition (mkCoord 0 0) w in
  Ok (coord_eqb cur initial, set_mark false w)) = Ok (new, w').
Proof.
  intros He (C1 & C2 & C3 & C4 & C5 & C6 & C7) Hs Hf Hw.
  cbv zeta. rewrite setCursor_at; auto; cbn [co_x co_y]; try lia. cbn [w_frozen with_buf]. rewrite Hf. cbn [negb assert_ bind].
  set (cur := mkCoord (rRight (b_win (w_buf w))) (rBottom (b_win (w_buf w)))). set (w1 := with_buf (set_cur cur (w_buf w)) w).
  assert (E1 : setFrozen true (set_mark true w1) = with_sel true true (w_esc w) (set_mark true w1)).
  { unfold setFrozen. cbn [set_mark w_frozen w1 with_buf]. rewrite Hf. cbn [Bool.eqb]. rewrite no_env by exact He. reflexivity. }
  rewrite E1. unfold markCursor. rewrite no_env by exact He. set (w2 := with_sel true true (w_esc w) (set_mark true w1)).
  assert (E2 : setFrozen false w2 = with_sel false false (w_esc w) (set_mark true w1)).
  { unfold setFrozen, w2. cbn [w_frozen with_sel Bool.eqb]. rewrite no_env by exact He. reflexivity. }
  rewrite E2. rewrite setCursor_at; [|exact He|cbn; lia|cbn; lia].
  eexists. split; [|f_equal; f_equal; cbn; destruct new; unfold coord_eqb, cur; cbn [co_x co_y]; [rewrite !Z.eqb_refl; reflexivity|lia]].
  unfold tested. cbn. auto 6.
Qed.
Lemma detect_right {E} w8 new w : w_env w = [] -> console_ok (w_buf w) -> w_sel w = false -> w_frozen w = false ->
  rLeft (b_win (w_buf w)) < rRight (b_win (w_buf w)) \/ rTop (b_win (w_buf w)) < rBottom (b_win (w_buf w)) ->
  exists w', @detectNewWindows10Console E w8 new w = Ok (w8 && new, w') /\ (if w8 then tested w w' else w' = w).
Proof.
  intros He C Hs Hf Hw. unfold detectNewWindows10Console. destruct w8; cbn [negb andb]; [|eauto].
  unfold bufferInfo. cbv zeta. rewrite (no_env w He). change (i_win (info_of (w_buf w))) with (b_win (w_buf w)).
  replace ((rLeft (b_win (w_buf w)) =? rRight (b_win (w_buf w))) && (rTop (b_win (w_buf w)) =? rBottom (b_win (w_buf w)))) with false by (destruct C as (_ & _ & C3 & _ & C5 & _); lia).
  cbn [bind]. cbv beta iota. destruct (@detect_tail E new w He C Hs Hf Hw) as (w' & T & Q). exists w'. split; [exact Q|exact T].
Qed.
(** A window of one cell *)
Lemma moveWindow_at r w : w_env w = [] -> w_fail w = [] -> valid_window (w_buf w) r = true -> moveWindow r w = with_buf (set_win r (w_buf w)) (with_log (RMoveWindow r (w_buf w)) w).
Proof. intros A B C. unfold moveWindow, fails. rewrite (no_env w A), B, C. reflexivity. Qed.
Lemma detect_1x1 {E} new w : w_env w = [] -> w_fail w = [] -> console_ok (w_buf w) -> w_sel w = false -> w_frozen w = false ->
  rLeft (b_win (w_buf w)) = rRight (b_win (w_buf w)) -> rTop (b_win (w_buf w)) = rBottom (b_win (w_buf w)) -> 2 <= co_x (b_largest (w_buf w)) ->
  exists w', @detectNewWindows10Console E true new w = Ok (new, w') /\ w_frozen w' = false /\ w_sel w' = false /\ w_mark w' = false /\ w_esc w' = w_esc w.
Proof.
  intros He Hq C Hs Hf Hx Hy Hl. unfold detectNewWindows10Console. cbn [negb]. unfold bufferInfo. cbv zeta. rewrite (no_env w He).
  change (i_win (info_of (w_buf w))) with (b_win (w_buf w)). rewrite Hx, Hy, !Z.eqb_refl. cbn [andb].
  assert (Ex : exists w1, expand1x1 w = w1 /\ w_env w1 = [] /\ w_sel w1 = false /\ w_frozen w1 = false /\ w_esc w1 = w_esc w /\ console_ok (w_buf w1) /\
     b_win (w_buf w1) = mkRect 0 0 (Z.min (co_x (b_largest (w_buf w))) 400 - 1) 0).
  { eexists. split; [reflexivity|]. unfold expand1x1, changeFont, largestSize, bufferInfo, resizeBuffer. cbv zeta. rewrite (no_env w He).
    pose proof C as (C1 & C2 & C3 & C4 & C5 & C6 & C7 & C8 & C9 & C10).
    rewrite (moveWindow_at (SmallRect 0 0 1 1) w He Hq).
    2:{ change (SmallRect 0 0 1 1) with (mkRect 0 0 0 0). unfold valid_window, in_buf. cbn [rLeft rTop rRight rBottom]. lia. }
    set (w1 := with_buf _ (with_log _ w)).
    assert (S : snd (setBufferSize 400 1 w1) = with_buf (set_win (mkRect 0 0 0 0) (set_cur (mkCoord (Z.min (co_x (b_cur (w_buf w1))) (400 - 1)) (Z.min (co_y (b_cur (w_buf w1))) (1 - 1))) (set_size 400 1 (w_buf w1)))) (with_log (RSetSize 400 1) w1)).
    { unfold setBufferSize. rewrite (no_env w1 He). unfold fails. change (w_fail w1) with (w_fail w). rewrite Hq. reflexivity. }
    rewrite S. set (w2 := with_buf _ (with_log _ w1)).
    rewrite (moveWindow_at (SmallRect 0 0 2 1) w2 He Hq eq_refl). set (w3 := with_buf _ (with_log _ w2)).
    rewrite !(no_env w3 He). change (co_x (i_size (info_of (w_buf w3)))) with 400. change (b_largest (w_buf w3)) with (b_largest (w_buf w)).
    set (lx := co_x (b_largest (w_buf w))) in *.
    assert (Er : SmallRect 0 0 (Z.min lx 400) 1 = mkRect 0 0 (Z.min lx 400 - 1) 0) by (rewrite mk_spec by (unfold short; lia); f_equal; lia). rewrite Er.
    rewrite (moveWindow_at _ w3 He Hq).
    2:{ change (b_w (w_buf w3)) with 400. unfold valid_window, in_buf. cbn [rLeft rTop rRight rBottom w3 w2 w1 with_buf with_log w_buf b_w b_h set_win set_size set_cur]. lia. }
    cbn [w_env w_sel w_frozen w_esc w_buf with_buf with_log w1 w2 w3 b_win set_win]. splits; auto.
    unfold console_ok. cbn [b_w b_h b_win b_cur b_largest set_win set_size set_cur co_x co_y rLeft rTop rRight rBottom w_buf with_buf with_log]. lia. }
  destruct Ex as (w1 & -> & A1 & A2 & A3 & A4 & A5 & A6). rewrite (no_env w1 A1). change (i_win (info_of (w_buf w1))) with (b_win (w_buf w1)). rewrite A6. cbn [rLeft rRight].
  replace (0 <? Z.min (co_x (b_largest (w_buf w))) 400 - 1) with true by lia. cbn [assert_ bind].
  destruct (@detect_tail E new w1 A1 A5 A2 A3) as (w' & (T1 & T2 & T3 & T4 & _) & Q); [left; rewrite A6; cbn [rLeft rRight]; lia|].
  exists w'. split; [exact Q|]. splits; auto. congruence.
Qed.
