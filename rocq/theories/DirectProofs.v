(** Proofs for C22. *)
From Coq Require Import Lia.
From Verif Require Import Base BaseLemmas SmallRect SmallRectSpec SmallRectProofs TerminalSpec ConsoleLine ConsoleLineSpec Console LargeRead LargeReadSpec Scraper AgentConsole ScraperSpec DirectSpec ConsoleLineProofs LargeReadProofs ScraperProofs ResizeProofs.
Ltac splits := repeat match goal with |- _ /\ _ => split end.

(** *** Change detection *)
Lemma zfirstn_firstn {A} n m (l : list A) : n <= m -> zfirstn n (zfirstn m l) = zfirstn n l.
Proof. intros H. unfold zfirstn. rewrite firstn_firstn. f_equal. lia. Qed.
Lemma blank_prefix {E} (line : list cell) n start k a : 0 <= start -> start + Z.of_nat k <= n -> n <= zlen line ->
  @isLineBlank_at E (zfirstn n line) start k a = isLineBlank_at line start k a.
Proof.
  revert start. induction k as [|k IH]; intros start Hs Hk Hn; [reflexivity|]. cbn [isLineBlank_at]. rewrite znth_zfirstn by lia.
  destruct (znth line start); [|reflexivity]. destruct (_ || _); [reflexivity|]. apply IH; lia.
Qed.
Lemma detect_prefix {E} s line n : 1 <= n <= zlen line -> 0 <= prevLength s -> @detectChangeAndSetLine E s line n = detectChangeAndSetLine s (zfirstn n line) n.
Proof.
  intros Hn Hp. assert (L : zlen (zfirstn n line) = n) by (rewrite zlen_zfirstn; lia). unfold detectChangeAndSetLine, setLine, areLinesEqual. rewrite L.
  rewrite zfirstn_firstn by lia. replace (zlen line <? n) with false by lia. rewrite Z.ltb_irrefl. rewrite (znth_zfirstn line n (n - 1)) by lia.
  destruct (assert_ _); cbn [bind]; try reflexivity. destruct (assert_ _); cbn [bind]; try reflexivity.
  destruct (n =? prevLength s); [reflexivity|]. destruct (prevLength s =? 0); [reflexivity|]. destruct (assert_ _); cbn [bind]; try reflexivity.
  destruct (znth (prevData s) (prevLength s - 1)); [|reflexivity]. destruct (znth line (n - 1)); [|reflexivity]. f_equal.
  destruct (n <? prevLength s) eqn:E1; [reflexivity|]. destruct (prevLength s <? n) eqn:E2; cbn [assert_ bind]; [|reflexivity].
  replace (zlen line <? prevLength s) with false by lia. replace (n <? prevLength s) with false by lia. rewrite zfirstn_firstn by lia.
  destruct (zlen (prevData s) <? prevLength s); cbn [orb bind]; [reflexivity|].
  destruct (cells_eqb _ _); [|reflexivity]. destruct (isLineBlank (prevData s) _ _ _) as [[]|e| | |]; cbn [bind]; try reflexivity.
  unfold isLineBlank. rewrite (blank_prefix line n) by lia. reflexivity.
Qed.
Lemma detect_long {E} s line n b s' : 1 <= n -> @detectChangeAndSetLine E s line n = Ok (b, s') -> n <= zlen line.
Proof.
  intros Hn. unfold detectChangeAndSetLine, setLine, areLinesEqual.
  destruct (assert_ _); cbn [bind]; try discriminate. destruct (assert_ _); cbn [bind]; try discriminate.
  destruct (n =? prevLength s).
  { destruct (zlen line <? n) eqn:E1; [|intros; lia]. rewrite Bool.orb_true_r. discriminate. }
  destruct (prevLength s =? 0).
  { destruct (zlen line <? n) eqn:E1; [discriminate|intros; lia]. }
  destruct (assert_ _); cbn [bind]; try discriminate.
  destruct (znth (prevData s) (prevLength s - 1)); [|discriminate]. destruct (znth line (n - 1)) eqn:En; [|discriminate]. intros _. apply znth_range in En. lia.
Qed.
Lemma detect_zero {E} s line n b s' : 1 <= n -> prevLength s = 0 -> @detectChangeAndSetLine E s line n = Ok (b, s') -> b = true.
Proof.
  intros Hn Hp. unfold detectChangeAndSetLine. destruct (assert_ _); cbn [bind]; try discriminate. destruct (assert_ _); cbn [bind]; try discriminate. rewrite Hp.
  destruct (n =? 0) eqn:En; [lia|]. change (0 =? 0) with true. cbv iota. destruct (setLine _ _ _); cbn [bind]; congruence.
Qed.
(** The record agrees with the row, and the row is blank beyond the recorded line. *)
Definition agrees (s : cline) (r : row) : Prop := agree s r /\ 1 <= prevLength s /\ forall i, prevLength s <= i -> holds r i = mkCell 32 (colour r).
(** Nothing is known of the row, or the record agrees with it. *)
Definition known (s : cline) (r : row) : Prop := (prevLength s = 0 /\ prevData s = []) \/ agrees s r.
Lemma agree_less s (r r' : row) : agree s r -> (forall i c, cols r' i = Some c -> cols r i = Some c) -> (forall i, i < prevLength s -> cols r' i = None -> cols r i = None) -> colour r' = colour r -> agree s r'.
Proof. intros (A & B & C & D & F) H1 H2 H3. unfold agree. rewrite H3. splits; eauto; lia. Qed.
Lemma last_colour_any l a b : 1 <= zlen l -> last_colour l a = last_colour l b.
Proof. intros H. unfold last_colour. destruct (znth_some l (zlen l - 1) ltac:(lia)) as (c & ->). reflexivity. Qed.
Lemma agrees_fills s r : agrees s r -> fills r (recorded s).
Proof.
  intros (A & H & B). pose proof A as (A1 & _ & _ & _ & A5). split; [exact (agree_shows s r A)|]. assert (L : zlen (recorded s) = prevLength s) by (unfold recorded; rewrite zlen_zfirstn; lia).
  intros i Hi. rewrite L in Hi. rewrite (B i Hi). f_equal. unfold last_colour. rewrite L. unfold recorded. rewrite znth_zfirstn by lia.
  destruct (znth_some (prevData s) (prevLength s - 1) ltac:(lia)) as (c & Hc). rewrite Hc. exact (A5 c Hc).
Qed.
(** A shorter line is only unchanged if what it drops is blank. *)
Lemma detect_drops {E} s l s' : 1 <= zlen l -> @detectChangeAndSetLine E s l (zlen l) = Ok (false, s') -> prevLength s <= zlen (prevData s) -> exists nc,
  znth l (zlen l - 1) = Some nc /\ forall i, zlen l <= i < prevLength s -> znth (prevData s) i = Some (mkCell 32 (cl_attr nc)).
Proof.
  intros Hl H Hp. destruct (znth_some l (zlen l - 1) ltac:(lia)) as (nc & Hnc). exists nc. split; [exact Hnc|]. intros i Hi. revert H. unfold detectChangeAndSetLine.
  destruct (assert_ _); cbn [bind]; try discriminate. destruct (assert_ _); cbn [bind]; try discriminate.
  replace (zlen l =? prevLength s) with false by lia. replace (prevLength s =? 0) with false by lia. destruct (assert_ _); cbn [bind]; try discriminate.
  destruct (znth (prevData s) (prevLength s - 1)); [|discriminate]. rewrite Hnc. replace (zlen l <? prevLength s) with true by lia.
  destruct (areLinesEqual _ _ _) as [[]|e| | |]; cbn [bind]; try discriminate; [|destruct (setLine _ _ _); cbn [bind]; discriminate].
  destruct (@isLineBlank_spec E (prevData s) (zlen l) (prevLength s - zlen l) (cl_attr nc)) as (b & -> & Sb); [lia|lia|lia|]. cbn [bind].
  destruct (setLine _ _ _); cbn [bind]; try discriminate. intros [= Eb _]. destruct b; [|discriminate]. apply Sb; [reflexivity|lia].
Qed.
Lemma wiped_tail l : 1 <= zlen l -> forall i, zlen l <= i -> holds (wiped l) i = mkCell 32 (colour (wiped l)).
Proof. intros H i Hi. unfold holds, wiped. cbn [cols colour]. destruct (znth l i) eqn:E; [apply znth_range in E; lia|reflexivity]. Qed.
Lemma detect_row {E} s r line n b s' : known s r -> 1 <= n -> @detectChangeAndSetLine E s line n = Ok (b, s') ->
  n <= zlen line /\ recorded s' = zfirstn n line /\ agrees s' (if b then wiped (zfirstn n line) else r) /\
  (recorded s = zfirstn n line -> b = false) /\ (b = false -> fills r (zfirstn n line)).
Proof.
  intros K Hn H. pose proof (detect_long s line n b s' Hn H) as Hl. set (l := zfirstn n line).
  assert (L : zlen l = n) by (unfold l; rewrite zlen_zfirstn; lia).
  assert (Hp : 0 <= prevLength s) by (destruct K as [(K & _)|(K & _)]; [lia|apply K]). rewrite detect_prefix in H by lia. fold l in H. rewrite <- L in H. rewrite <- L in Hn. clearbody l.
  destruct K as [(K1 & K2)|(K & KL & KT)].
  - destruct s as [pl pd]. cbn [prevLength prevData] in *. subst pl pd.
    destruct (@detect_spec E newLine (mkRow nothing 7) l (agree_none 7) Hn) as (b0 & s0 & H0 & R & P & A & N).
    assert (b = true /\ s0 = s' /\ b0 = b) as (-> & -> & ->).
    { unfold newLine in *. rewrite H in H0. injection H0 as -> ->. split; [|auto]. revert H. unfold detectChangeAndSetLine. cbn [prevLength prevData]. 
      destruct (assert_ _); cbn [bind]; try discriminate. destruct (assert_ _); cbn [bind]; try discriminate. destruct (zlen l =? 0) eqn:El; [lia|].
      change (0 =? 0) with true. cbv iota. destruct (setLine _ _ _); cbn [bind]; try discriminate. congruence. }
    splits; auto; try discriminate. split; [|split; [lia|rewrite P; apply wiped_tail; lia]].
    apply (agree_less _ _ _ A); unfold wiped, sent; cbn [cols colour]; [| |reflexivity]; intros i; destruct (znth l i); auto; discriminate.
  - destruct (@detect_spec E s r l K Hn) as (b0 & s0 & H0 & R & P & A & N). rewrite H in H0. injection H0 as <- <-.
    assert (AT : agrees s' (if b then wiped l else r)).
    { destruct b.
      - split; [|split; [lia|rewrite P; apply wiped_tail; lia]].
        apply (agree_less _ _ _ A); unfold wiped, sent; cbn [cols colour]; [| |apply last_colour_any; lia]; intros i; destruct (znth l i) eqn:El; try discriminate; auto. intros Hi _. rewrite P in Hi.
        destruct (Z_lt_le_dec i 0); [|destruct (znth_some l i ltac:(lia)); congruence].
        destruct (cols r i) eqn:Er; [|reflexivity]. destruct K as (_ & _ & K & _). apply K in Er. apply znth_range in Er. lia.
      - split; [exact A|]. split; [lia|]. rewrite P. intros i Hi. destruct (Z_lt_le_dec i (prevLength s)) as [Lt|Ge]; [|apply KT; lia].
        pose proof K as (K1 & _ & K3 & _). destruct (detect_drops s l s' Hn H ltac:(lia)) as (nc & D1 & D2).
        assert (C : colour r = cl_attr nc).
        { destruct A as (A1 & _ & _ & _ & A5). apply A5. rewrite P. rewrite <- (znth_zfirstn (prevData s') (prevLength s')) by lia. fold (recorded s'). rewrite R. exact D1. }
        unfold holds. destruct (cols r i) as [c|] eqn:Ec; [|reflexivity]. apply K3 in Ec. rewrite D2 in Ec by lia. injection Ec as <-. now rewrite C. }
    splits; auto. intros ->. rewrite <- R. apply agrees_fills. exact AT.
Qed.

(** *** The loop *)
Lemma zseq_cons a n : zseq a (Z.of_nat (S n)) = a :: zseq (a + 1) (Z.of_nat n).
Proof.
  unfold zseq. rewrite !Nat2Z.id. cbn [seq map]. f_equal; [lia|]. rewrite <- seq_shift, map_map. apply map_ext. intros k. lia.
Qed.
Definition content (s : sst) (tp width k : Z) : list cell := match @lineData unit (s_read s) (tp + k) with Ok l => zfirstn width l | _ => [] end.
Definition op_of (s : sst) (tp width column line : Z) (sd : Z -> bool) (k : Z) : list TerminalSpec.top :=
  if sd k then [TSend k (content s tp width k) (if k =? line then column else -1)] else [].
Lemma cut_wiped n l : zlen l <= n -> forall i, cols (cut n (wiped l)) i = cols (wiped l) i.
Proof. intros H i. unfold cut, wiped. cbn [cols]. destruct (i <? n) eqn:Ei; [reflexivity|]. destruct (znth l i) eqn:E; [apply znth_range in E; lia|reflexivity]. Qed.
Lemma agrees_ext s (r r' : row) : (forall i, cols r i = cols r' i) -> colour r = colour r' -> agrees s r -> agrees s r'.
Proof. intros H Hc (A & L & B). split; [apply (agree_less s r r' A); auto; intros i; rewrite H; auto|]. split; [exact L|]. intros i Hi. unfold holds. rewrite <- H, <- Hc. exact (B i Hi). Qed.
(** One line *)
Definition line_step (W : Z) (t : screen) (c : list cell) (k : Z) (sd : bool) (bl bl' : cline) : Prop :=
  recorded bl' = c /\ agrees bl' (cut W (if sd then wiped c else t k)) /\ (recorded bl = c -> sd = false) /\ (prevLength bl = 0 -> sd = true) /\ (sd = false -> fills (cut W (t k)) c).
Lemma direct_loop_spec {E} W (t : screen) tp width cc cl : 1 <= width <= W -> forall n line s,
  0 <= line -> line + Z.of_nat n <= 3000 -> zlen (s_lines s) = 3000 ->
  (forall k bl, line <= k -> znth (s_lines s) k = Some bl -> known bl (cut W (t k))) ->
  ends (@direct_loop E n tp line width cc cl s) (fun s' => exists sd : Z -> bool,
    s_out s' = s_out s ++ flat_map (op_of s tp width cc cl sd) (zseq line (Z.of_nat n)) /\
    s_read s' = s_read s /\ s_pty s' = s_pty s /\ s_direct s' = s_direct s /\ zlen (s_lines s') = 3000 /\
    (forall k, line <= k < line + Z.of_nat n -> zlen (content s tp width k) = width /\
       exists bl bl', znth (s_lines s) k = Some bl /\ znth (s_lines s') k = Some bl' /\ line_step W t (content s tp width k) k (sd k) bl bl') /\
    (forall k, ~ (line <= k < line + Z.of_nat n) -> znth (s_lines s') k = znth (s_lines s) k)).
Proof.
  intros Hw. induction n as [|n IH]; intros line s H0 Hn L3 K.
  { cbn [direct_loop ends]. exists (fun _ => false). cbn [flat_map zseq]. splits; auto; try lia. cbn. now rewrite app_nil_r. }
  cbn [direct_loop]. destruct (lineData (s_read s) (tp + line)) as [cur|e| | |] eqn:El; cbn [bind ends]; auto.
  unfold Scraper.line_at. destruct (znth_some (s_lines s) line ltac:(lia)) as (bl & Hbl). rewrite Hbl. cbn [bind].
  destruct (detectChangeAndSetLine bl cur width) as [[ch bl']|e| | |] eqn:Ed; cbn [bind ends]; auto.
  destruct (detect_row bl (cut W (t line)) cur width ch bl' (K line bl ltac:(lia) Hbl) ltac:(lia) Ed) as (D1 & D2 & D3 & D4 & D5).
  unfold set_line. destruct (zupd_some (s_lines s) line bl' ltac:(lia)) as (ls & Z1 & Z2 & Z3). rewrite Z1. cbn [bind].
  replace (zlen cur <? width) with false by lia.
  assert (Ec : content s tp width line = zfirstn width cur).
  { unfold content. unfold lineData, line_index in *. destruct (_ || _); cbn [bind] in *; [discriminate|]. cbv zeta in *. destruct (_ && _); cbn [bind] in *; [|discriminate]. congruence. }
  set (s1 := st_lines (s_maxBuf s) ls s). set (s2 := if ch then emit (TSend line (zfirstn width cur) (if line =? cl then cc else -1)) s1 else s1).
  assert (E2 : (if ch then Ok (emit (TSend line (zfirstn width cur) (if line =? cl then cc else -1)) s1) else @Ok E _ s1) = Ok s2) by (unfold s2; destruct ch; reflexivity).
  rewrite E2. cbn [bind]. assert (Q : s_read s2 = s_read s /\ s_pty s2 = s_pty s /\ s_direct s2 = s_direct s /\ s_lines s2 = ls /\ s_out s2 = s_out s ++ (if ch then [TSend line (zfirstn width cur) (if line =? cl then cc else -1)] else [])).
  { unfold s2, s1. destruct ch; cbn; rewrite ?app_nil_r; auto. }
  clearbody s2. destruct Q as (Q1 & Q2 & Q3 & Q4 & Q5). clear E2 s1.
  eapply ends_weak; [apply IH; [lia|lia|rewrite Q4; lia|]|].
  - intros k b Hk Hb. rewrite Q4, Z3 in Hb. destruct (k =? line) eqn:Ek; [lia|]. apply K; [lia|exact Hb].
  - intros s' (sd & A1 & A2 & A3 & A4 & A5 & A6 & A7). exists (fun k => if k =? line then ch else sd k).
    assert (EC : forall k, content s2 tp width k = content s tp width k) by (intros k; unfold content; rewrite Q1; reflexivity).
    splits; try congruence.
    + rewrite A1, Q5, <- app_assoc. f_equal. rewrite zseq_cons. cbn [flat_map]. unfold op_of at 2. rewrite Z.eqb_refl, Ec. f_equal.
      rewrite !flat_map_concat_map. f_equal. apply map_ext_in. intros k Hk. apply zseq_in in Hk. unfold op_of. rewrite EC. replace (k =? line) with false by lia. reflexivity.
    + intros k Hk. destruct (Z.eq_dec k line) as [->|Nk].
      * rewrite Ec. split; [rewrite zlen_zfirstn; lia|]. exists bl, bl'. splits; [exact Hbl|rewrite A7 by lia; rewrite Q4, Z3, Z.eqb_refl; reflexivity|]. rewrite Z.eqb_refl. unfold line_step. splits; auto; [|intros Hz; exact (detect_zero bl cur width ch bl' ltac:(lia) Hz Ed)].
        destruct ch; [|exact D3]. eapply agrees_ext; [| |exact D3]; [|reflexivity]. intros i. symmetry. apply cut_wiped. rewrite zlen_zfirstn. lia.
      * destruct (A6 k ltac:(lia)) as (B1 & b & b' & B2 & B3 & B4). rewrite EC in *. split; [exact B1|]. exists b, b'. rewrite Q4, Z3 in B2. replace (k =? line) with false in * by lia. auto.
    + intros k Hk. rewrite A7 by lia. rewrite Q4, Z3. replace (k =? line) with false by lia. reflexivity.
Qed.

(** *** One scrape *)
Lemma scrape_rect info pty : info_ok info -> 1 <= co_x pty <= 2500 -> 1 <= co_y pty <= 2000 ->
  scrapeRect info pty = shown_rect info pty /\ rWidth (shown_rect info pty) = width_of (shown_rect info pty) /\ rHeight (shown_rect info pty) = height_of (shown_rect info pty) /\
  1 <= width_of (shown_rect info pty) <= co_x pty /\ 1 <= height_of (shown_rect info pty) <= co_y pty.
Proof.
  intros (I1 & I2 & I3 & I4 & I5 & I6 & I7 & I8) Hx Hy. unfold scrapeRect, shown_rect, width_of, height_of, rWidth, rHeight, MAX_CONSOLE_WIDTH, BUFFER_LINE_COUNT. cbn [rLeft rTop rRight rBottom].
  rewrite !LargeReadProofs.s16_id by lia. rewrite mk_spec by (unfold short; lia). splits; try lia. f_equal; lia.
Qed.
Lemma mask_in c w : In (fst (attributesMask c w)) masks.
Proof. unfold attributesMask, masks. cbn [fst]. destruct (_ || _ || _), (c_new c); cbn; auto. Qed.
Lemma large_buf {E} nw w8 area m l w : (w8 = false -> w_sel w = true) -> ends (@largeConsoleRead E nw w8 area m l w) (fun '(_, w') => w_buf w' = w_buf (interfere w)).
Proof.
  intros Hs. unfold largeConsoleRead. eapply ends_bind; [apply (ends_any _ (fun _ => True)); auto|]. intros _ _. cbv zeta.
  eapply ends_bind with (P := fun '(_, w') => w_buf w' = w_buf (interfere w)).
  - destruct w8.
    + unfold read. destruct (_ || _ || _); [exact I|]. destruct (in_buf _ _); [reflexivity|]. destruct nw; [reflexivity|exact I].
    + specialize (Hs eq_refl). assert (Ei : forall w, w_sel w = true -> interfere w = w) by (intros w0 H0; unfold interfere; rewrite H0; reflexivity). rewrite (Ei w Hs).
      apply (ends_weak _ (fun '(_, w') => w_sel w' = true /\ w_buf w' = w_buf w)); [|intros [l' w'] (_ & H); exact H].
      apply (chunks_gen (fun w' => w_sel w' = true /\ w_buf w' = w_buf w)); [| |auto].
      * intros w0 (A & B). rewrite (Ei w0 A). auto.
      * intros r w0 H0. exact H0.
  - intros [l' w'] H'. destruct (m =? 65535); exact H'.
Qed.
Definition exactly (info : cinfo) (s' : sst) (w' : world) : Prop :=
  in_buf (w_buf w') (shown_rect info (s_pty s')) = true -> words (w_buf w') -> exists mask, In mask masks /\
    forall k, 0 <= k < height_of (shown_rect info (s_pty s')) -> seen info s' k = expected_row (w_buf w') mask (shown_rect info (s_pty s')) (rTop (shown_rect info (s_pty s')) + k).
Definition scraped (info : cinfo) (vis : bool) (t : screen) (s s' : sst) : Prop := exists sd,
  s_out s' = s_out s ++ poll_ops info s' sd vis /\ scraper_ok s' /\ s_pty s' = s_pty s /\ s_direct s' = s_direct s /\
  (forall k, 0 <= k < height_of (shown_rect info (s_pty s')) -> zlen (seen info s' k) = width_of (shown_rect info (s_pty s')) /\
     exists bl bl', znth (s_lines s) k = Some bl /\ znth (s_lines s') k = Some bl' /\ line_step (co_x (s_pty s')) t (seen info s' k) k (sd k) bl bl') /\
  (forall k, ~ (0 <= k < height_of (shown_rect info (s_pty s'))) -> znth (s_lines s') k = znth (s_lines s) k).
Lemma seen_content info s k : info_ok info -> scraper_ok s -> seen info s k = content s (rTop (shown_rect info (s_pty s))) (width_of (shown_rect info (s_pty s))) k.
Proof. reflexivity. Qed.
Lemma direct_scrape c stale info vis t s w : scraper_ok s -> info_ok info -> winv w -> (c_w8 c = false -> w_sel w = true) ->
  (forall k bl, znth (s_lines s) k = Some bl -> known bl (cut (co_x (s_pty s)) (t k))) ->
  ends (directScrapeOutput c stale info vis s w) (fun '(s', w') => scraped info vis t s s' /\ exactly info s' w').
Proof.
  intros (P & L3) Io W Hw8 K. pose proof P as (P1 & P2 & P3). destruct (scrape_rect info (s_pty s) Io P1 P2) as (R1 & R2 & R3 & R4 & R5).
  unfold directScrapeOutput. cbv zeta. rewrite R1. set (r := shown_rect info (s_pty s)) in *. rewrite R2, R3.
  pose proof (mask_in c w) as Hm. pose proof (mask_gen winv interfere_ok c w W) as W1.
  assert (S1 : c_w8 c = false -> w_sel (snd (attributesMask c w)) = true).
  { intros H. specialize (Hw8 H). unfold attributesMask. cbn [snd]. unfold interfere. rewrite Hw8, Hw8. exact Hw8. }
  destruct (attributesMask c w) as [mask w1]. cbn [fst snd] in *.
  eapply ends_bind; [apply (ends_any _ (fun _ => True)); auto|]. intros _ _.
  assert (Es : forall b : bool, s_read (if b then s else emit THide s) = s_read s) by (intros []; reflexivity). rewrite Es. clear Es.
  pose proof (@large_buf broken (c_new c) (c_w8 c) r mask (s_read s) w1 S1) as Hb.
  pose proof (@large_read broken (c_new c) (c_w8 c) r mask (s_read s) w1) as Hr. cbv zeta in Hr. unfold area_ok in Hr.
  destruct (largeConsoleRead (c_new c) (c_w8 c) r mask (s_read s) w1) as [[lr w2]|e| | |]; cbn [ends bind] in *; auto.
  set (show := vis && containsCoord r (i_cur info)). set (col := if show then co_x (i_cur info) - rLeft r else -1). set (ln := if show then co_y (i_cur info) - rTop r else -1).
  set (s1 := st_read lr (if show then s else emit THide s)).
  assert (Q : s_read s1 = lr /\ s_lines s1 = s_lines s /\ s_pty s1 = s_pty s /\ s_direct s1 = s_direct s /\ s_dirty s1 = s_dirty s /\ s_out s1 = s_out s ++ (if show then [] else [THide])).
  { unfold s1. destruct show; cbn; rewrite ?app_nil_r; splits; reflexivity. }
  clearbody s1. destruct Q as (Q1 & Q2 & Q3 & Q4 & Q5 & Q6).
  assert (Dl : forall n a b c d e s, ends (@direct_loop broken n a b c d e s) (fun s' => s_dirty s' = s_dirty s)).
  { clear. induction n; intros a b c0 d e s; [reflexivity|]. cbn [direct_loop]. eapply ends_bind; [apply (ends_any _ (fun _ => True)); auto|]. intros cur _.
    eapply ends_bind; [apply (ends_any _ (fun _ => True)); auto|]. intros bl _. eapply ends_bind; [apply (ends_any _ (fun _ => True)); auto|]. intros [ch bl'] _.
    eapply ends_bind with (P := fun s' => s_dirty s' = s_dirty s); [unfold set_line; destruct (zupd _ _ _); [reflexivity|exact I]|]. intros s1 V1.
    eapply ends_bind with (P := fun s' => s_dirty s' = s_dirty s); [destruct ch; [destruct (_ <? _); [exact I|exact V1]|exact V1]|]. intros s2 V2. eapply ends_weak; [apply IHn|]. intros s' H. cbv beta in *. congruence. }
  specialize (Dl (Z.to_nat (height_of r)) (rTop r) 0 (width_of r) col ln s1).
  pose proof (@direct_loop_spec broken (co_x (s_pty s)) t (rTop r) (width_of r) col ln R4 (Z.to_nat (height_of r)) 0 s1 ltac:(lia) ltac:(lia) ltac:(congruence)) as Sp.
  rewrite Z2Nat.id in Sp by lia. change (0 + height_of r) with (height_of r) in Sp.
  assert (K' : forall k bl, 0 <= k -> znth (s_lines s1) k = Some bl -> known bl (cut (co_x (s_pty s)) (t k))) by (intros k bl _ Hk; apply K; congruence).
  specialize (Sp K'). clear K'.
  destruct (direct_loop _ _ _ _ _ _ s1) as [s2|e| | |]; cbn [ends bind] in *; auto. destruct Sp as (sd & A1 & A2 & A3 & A4 & A5 & A6 & A7).
  set (s3 := if show then emit (TShow col ln) s2 else s2).
  assert (T : s_read s3 = lr /\ s_lines s3 = s_lines s2 /\ s_pty s3 = s_pty s /\ s_direct s3 = s_direct s /\ s_dirty s3 = s_dirty s /\ s_out s3 = s_out s2 ++ (if show then [TShow col ln] else [])).
  { unfold s3. destruct show; cbn; rewrite ?app_nil_r; splits; congruence. }
  assert (EC : forall k, seen info s3 k = content s1 (rTop r) (width_of r) k).
  { intros k. destruct T as (T1 & _ & T3 & _). unfold seen, content. rewrite T1, T3, Q1. reflexivity. }
  clearbody s3. destruct T as (T1 & T2 & T3 & T4 & T5 & T6).
  split.
  - exists sd. unfold scraper_ok. rewrite T2, T3, T5. splits; auto; try lia.
    + rewrite T6, A1, Q6. rewrite <- !app_assoc. f_equal. unfold poll_ops, cursor_seen, sends. rewrite T3. fold r. fold show.
      assert (EF : forall cc cl, flat_map (op_of s1 (rTop r) (width_of r) cc cl sd) (zseq 0 (height_of r)) = flat_map (fun k => if sd k then [TSend k (seen info s3 k) (if k =? cl then cc else -1)] else []) (zseq 0 (height_of r))).
      { intros cc cl. rewrite !flat_map_concat_map. f_equal. apply map_ext. intros k. unfold op_of. rewrite EC. reflexivity. }
      rewrite EF. unfold col, ln. destruct show; [reflexivity|]. cbn [app]. rewrite app_nil_r. reflexivity.
    + intros k Hk. fold r in Hk |- *. rewrite EC. rewrite <- Q2. apply A6. exact Hk.
    + intros k Hk. fold r in Hk. rewrite <- Q2. apply A7. exact Hk.
  - unfold exactly. rewrite T3. fold r. intros Hin Hwd. rewrite Hb in Hin, Hwd.
    assert (Rd : readable (w_buf (interfere w1)) r).
    { destruct (interfere_ok w1 W1) as ((C1 & C2 & _) & _). unfold in_buf in Hin. unfold readable. unfold width_of, height_of in *. destruct Io as (I1 & I2 & I3 & I4 & I5 & I6 & I7 & I8).
      assert (rLeft r = rLeft (i_win info) /\ rTop r = rTop (i_win info)) as (? & ?) by (unfold r, shown_rect; cbn; auto). lia. }
    destruct (Hr Rd Hwd S1) as (d & rs & H1 & H2 & H3 & _). exists mask. split; [exact Hm|]. intros k Hk. fold r in Hk.
    assert (Elr : lr = mkLr r (rRight r - rLeft r + 1) d) by congruence.
    destruct (@LargeReadProofs.line_at unit _ mask r d (rTop r + k) Rd H2 H3) as (rest & Er); [unfold height_of in Hk; lia|].
    rewrite EC. unfold content. rewrite Q1, Elr, Er, Hb. apply zfirstn_app_exact. unfold expected_row, cols_of, zlen. rewrite map_length. fold (zlen (zseq (rLeft r) (rRight r - rLeft r + 1))). rewrite zlen_zseq by (unfold width_of in *; lia). reflexivity.
Qed.

(** *** A poll or a resize *)
Definition all_reset (l : list cline) : Prop := Forall (fun b => prevLength b = 0 /\ prevData b = []) l.
Lemma reset_all l : all_reset (map resetLine l) /\ zlen (map resetLine l) = zlen l.
Proof. split; [|unfold zlen; rewrite map_length; reflexivity]. induction l; constructor; [split; reflexivity|assumption]. Qed.
Lemma reset_known l r : all_reset l -> forall k bl, znth l k = Some bl -> known bl (r k).
Proof.
  intros H k bl Hk. left. unfold znth in Hk. destruct (k <? 0); [discriminate|]. apply nth_error_In in Hk. unfold all_reset in H. rewrite Forall_forall in H. apply H. exact Hk.
Qed.
Definition parts (s s' : sst) : Prop := s_out s' = s_out s /\ s_pty s' = s_pty s /\ s_direct s' = s_direct s /\ s_dirty s' = s_dirty s.
Lemma resizeImpl_direct c i s w : info_ok i -> pinv s -> winv w -> s_direct s = true ->
  ends (resizeImpl c i s w) (fun '(s', w') => winv w' /\ w_frozen w' = true /\ parts s s' /\ s_lines s' = map resetLine (s_lines s)).
Proof.
  intros Io V W Hd. pose proof (resizeImpl_linv (w_log w) c i s w Io V (conj W (log_start _ _))) as Q.
  assert (B : ends (resizeImpl c i s w) (fun '(s', w') => w_frozen w' = true /\ parts s s' /\ s_lines s' = map resetLine (s_lines s))).
  { clear Q. unfold resizeImpl. eapply ends_bind; [apply (ends_any _ (fun _ => True)); auto|]. intros _ _. cbv zeta. unfold resize_clear. rewrite Hd. cbn [bind].
    unfold changeFont, largestSize, bufferInfo. cbv beta iota zeta. eapply ends_bind; [apply (ends_any _ (fun _ => True)); auto|]. intros _ _.
    match goal with |- ends (bind (assert_ (w_frozen ?x)) _) _ => set (w9 := x); clearbody w9 end.
    destruct (w_frozen w9) eqn:Ef; cbn [assert_ bind ends]; [|exact I]. unfold parts. cbn. splits; auto. }
  destruct (resizeImpl c i s w) as [[s' w']|e| | |]; cbn [ends] in *; auto. destruct Q as (_ & Q & _). cbn [snd] in Q. split; [exact Q|exact B].
Qed.
Lemma resizeImpl_mode c i s w : info_ok i -> pinv s -> winv w -> ends (resizeImpl c i s w) (fun '(s', _) => s_direct s' = s_direct s).
Proof.
  intros Io V W. unfold resizeImpl. eapply ends_bind; [apply (ends_any _ (fun _ => True)); auto|]. intros _ _. cbv zeta.
  eapply ends_bind with (P := fun '(s', _) => s_direct s' = s_direct s).
  - unfold resize_clear. destruct (s_direct s) eqn:Ed; [exact Ed|]. eapply ends_bind with (P := fun s' => pinv s' /\ s_direct s' = false).
    + unfold clearBufferLines. eapply ends_bind; [apply (ends_any _ (fun _ => True)); auto|]. intros _ _. eapply ends_weak; [apply clear_p; exact V|]. intros s' (A & B & _). split; [exact A|congruence].
    + intros s1 (V1 & E1). destruct (negb _); [|exact E1]. unfold createSyncMarker. eapply ends_bind; [apply (ends_any _ (fun _ => True)); auto|]. intros _ _. unfold bufferInfo. exact E1.
  - intros [s1 w1] E1. unfold changeFont, largestSize, bufferInfo. cbv beta iota zeta. eapply ends_bind; [apply (ends_any _ (fun _ => True)); auto|]. intros _ _.
    eapply ends_bind; [apply (ends_any _ (fun _ => True)); auto|]. intros _ _. exact E1.
Qed.
Definition step (c : cfg) (f : bool) (t : screen) (s : sst) (i : cinfo) (s' : sst) (w' : world) : Prop :=
  exists info vis s1, info_ok info /\ scraped info vis t s1 s' /\
    s_pty s1 = s_pty s /\ (f = false -> i = info) /\
    (s_out s1 = s_out s ++ (if s_direct s then [] else [TReset true 0])) /\
    (if f || negb (s_direct s) then all_reset (s_lines s1) else s_lines s1 = s_lines s) /\
    (f = false -> exactly info s' w' /\ (c_new c = false -> info = info_of (w_buf w') /\ vis = b_visible (w_buf w'))).
Lemma sync_direct c f t s w : winv w -> scraper_ok s -> (c_new c = true -> c_w8 c = true) ->
  (f = false -> s_direct s = true -> forall k bl, znth (s_lines s) k = Some bl -> known bl (cut (co_x (s_pty s)) (t k))) ->
  ends (syncConsoleContentAndSize c f s w) (fun '(i, s', w') => s_direct s' = true -> step c f t s i s' w').
Proof.
  intros W (V & L3) Hcfg K. unfold syncConsoleContentAndSize, bufferInfo, cursorVisible. cbv zeta.
  set (w0 := if negb (c_new c) || f then setFrozen true w else w).
  assert (W0 : winv w0 /\ (negb (c_new c) || f = true -> w_frozen w0 = true)).
  { unfold w0. destruct (negb (c_new c) || f); [split; [apply setFrozen_ok; exact W|intros _; apply setFrozen_ok; exact W]|split; [exact W|discriminate]]. }
  clearbody w0. destruct W0 as (W0 & F0).
  set (w1 := interfere w0). pose proof (interfere_ok w0 W0) as W1. fold w1 in W1. set (info := info_of (w_buf w1)). assert (Io : info_ok info) by (apply info_of_ok; apply W1).
  set (w2 := interfere w1). pose proof (interfere_ok w1 W1) as W2. fold w2 in W2. set (vis := b_visible (w_buf w2)).
  assert (Fz : negb (c_new c) || f = true -> w1 = w0 /\ w2 = w0) by (intros H; specialize (F0 H); unfold w2, w1; rewrite !(interfere_frozen_id w0) by (exact W0 || exact F0); rewrite ?(interfere_frozen_id w0) by (exact W0 || exact F0); auto).
  assert (Vi : negb (c_new c) || f = true -> info = info_of (w_buf w2) /\ vis = b_visible (w_buf w2)) by (intros H; destruct (Fz H) as (A & B); split; [unfold info; rewrite A, B|]; reflexivity).
  assert (F2 : negb (c_new c) || f = true -> w_frozen w2 = true) by (intros H; destruct (Fz H) as (A & B); rewrite B; apply F0; exact H).
  clearbody w2. clear Fz F0. clearbody info vis. clear W1 w1 W0 w0.
  set (nd := negb (co_y (i_size info) =? BUFFER_LINE_COUNT)).
  destruct nd eqn:End.
  - (* full-screen mode *)
    set (s1 := if s_direct s then s else st_direct true (resetConsoleTracking true 0 s)).
    match goal with |- ends (let '(_, _) := ?x in _) _ => assert (Ex : x = (f, s1, w2)) end.
    { unfold s1. destruct (s_direct s); cbn [Bool.eqb negb]; reflexivity. }
    rewrite Ex. clear Ex.
    assert (D1 : s_direct s1 = true /\ scraper_ok s1 /\ s_pty s1 = s_pty s /\ s_out s1 = s_out s ++ (if s_direct s then [] else [TReset true 0]) /\ (if s_direct s then s_lines s1 = s_lines s else all_reset (s_lines s1))).
    { destruct V as (V1 & V2 & V3). unfold s1. destruct (s_direct s) eqn:Ed; [rewrite app_nil_r; split; [exact Ed|split; [exact (conj (conj V1 (conj V2 V3)) L3)|auto]]|].
      split; [reflexivity|]. split; [split; [split; [exact V1|split; [exact V2|cbn; lia]]|]|].
      - change (zlen (map resetLine (s_lines s)) = 3000). rewrite (proj2 (reset_all (s_lines s))). exact L3.
      - split; [reflexivity|split; [reflexivity|exact (proj1 (reset_all (s_lines s)))]]. }
    clearbody s1. destruct D1 as (D1 & (V1 & L1) & P1 & O1 & N1). rewrite D1.
    assert (Hw8 : forall w', winv w' -> (negb (c_new c) = true -> w_frozen w' = true) -> c_w8 c = false -> w_sel w' = true).
    { intros w' (_ & _ & A) B C. rewrite A. apply B. destruct (c_new c); [specialize (Hcfg eq_refl); congruence|reflexivity]. }
    eapply ends_bind with (P := fun '(s', w') => exists s2, scraped info vis t s2 s' /\ s_pty s2 = s_pty s /\ s_out s2 = s_out s1 /\ (if f || negb (s_direct s) then all_reset (s_lines s2) else s_lines s2 = s_lines s) /\
       (f = false -> exactly info s' w' /\ (c_new c = false -> w_buf w' = w_buf w2))).
    + destruct f.
      * eapply ends_bind; [apply (resizeImpl_direct c info s1 w2 Io V1 W2 D1)|]. intros [s2 w3] (W3 & F3 & (Q1 & Q2 & Q3 & Q4) & Q5).
        assert (R2 : all_reset (s_lines s2)) by (rewrite Q5; apply reset_all).
        assert (S2 : scraper_ok s2). { unfold scraper_ok. rewrite Q2, Q4, Q5. split; [exact V1|]. pose proof (proj2 (reset_all (s_lines s1))). lia. }
        eapply ends_weak; [apply (direct_scrape c true info vis t s2 w3 S2 Io W3)|].
        -- apply Hw8; [exact W3|auto].
        -- apply (reset_known _ (fun k => cut (co_x (s_pty s2)) (t k))). exact R2.
        -- intros [s' w'] (A & B). exists s2. cbn [orb]. splits; auto; congruence.
      * assert (Kk : forall k bl, znth (s_lines s1) k = Some bl -> known bl (cut (co_x (s_pty s1)) (t k))).
        { destruct (s_direct s); [rewrite N1, P1; auto|apply (reset_known _ (fun k => cut (co_x (s_pty s1)) (t k))); exact N1]. }
        cbn [bind]. pose proof (direct_scrape c false info vis t s1 w2 (conj V1 L1) Io W2) as Q.
        assert (Hs : c_w8 c = false -> w_sel w2 = true) by (apply Hw8; [exact W2|intros H; apply F2; rewrite H; reflexivity]).
        specialize (Q Hs Kk).
        assert (Hbf : c_new c = false -> ends (directScrapeOutput c false info vis s1 w2) (fun '(_, w') => w_buf w' = w_buf w2)).
        { intros Hn. assert (Hf : w_frozen w2 = true) by (apply F2; rewrite Hn; reflexivity).
          eapply ends_weak; [apply (direct_gen (fun w' => winv w' /\ w_frozen w' = true /\ w_buf w' = w_buf w2))|].
          - intros w' (A & B & C). rewrite (interfere_frozen_id w' A B). auto.
          - intros r w' H'. exact H'.
          - exact V1.
          - auto.
          - intros [s' w'] (_ & (_ & _ & A) & _). exact A. }
        destruct (directScrapeOutput c false info vis s1 w2) as [[s' w']|e| | |]; cbn [ends] in *; auto. destruct Q as (A & B). exists s1. cbn [orb]. splits; auto.
        destruct (s_direct s); exact N1.
    + intros [s' w'] (s2 & A1 & A2 & A3 & A4 & A5).
      assert (G : forall i w'', (f = false -> i = info /\ w'' = w') -> step c f t s i s' w'').
      { intros i w'' Hi. exists info, vis, s2. splits; auto; [intros Hf; apply Hi; exact Hf|congruence|].
        intros Hf. destruct (Hi Hf) as (_ & ->). destruct (A5 Hf) as (B1 & B2). split; [exact B1|]. intros Hn. rewrite (B2 Hn). apply Vi. rewrite Hn. reflexivity. }
      destruct f; cbn [ends]; intros _; apply G; auto; discriminate.
  - (* scrolling mode *)
    match goal with |- ends (let '(_, _) := ?x in _) _ => set (sw := x) end.
    assert (Hs : pinv (snd (fst sw)) /\ winv (snd sw) /\ s_direct (snd (fst sw)) = false).
    { unfold sw. destruct (s_direct s) eqn:Ed; cbn [Bool.eqb negb fst snd].
      - assert (Vr : pinv (st_direct false (resetConsoleTracking true (rTop (i_win info)) s))) by (destruct V as (V1 & V2 & _); split; [exact V1|split; [exact V2|cbn; lia]]).
        splits; auto; apply setFrozen_ok; exact W2.
      - splits; auto; apply W2. }
    clearbody sw. destruct sw as [[fo s2] w3]. cbn [fst snd] in Hs. destruct Hs as (V2 & W3 & D2). rewrite D2.
    assert (H3000 : co_y (i_size info) = 3000) by (unfold nd, BUFFER_LINE_COUNT in End; apply Bool.negb_false_iff in End; lia).
    pose proof (scrolling_gen winv interfere_ok (fun a n i w H => proj1 (clearLines_ok a n i w H)) (fun r d w H => proj1 (write_col_ok r d w H)) (fun r w H => H)) as SG.
    assert (SP : forall tt s w, pinv s -> winv w -> s_direct s = false -> ends (scrollingScrapeOutput c info vis tt s w) (fun '(_, s', w') => pinv s' /\ winv w' /\ s_direct s' = false)).
    { intros tt s' w' V' H' Ds. eapply ends_weak; [apply SG; assumption|]. intros [[ok s3] w4] (A & B & C & D). splits; auto; try congruence; apply B. }
    eapply ends_bind with (P := fun '(s', _) => s_direct s' = false).
    + eapply ends_bind with (P := fun '(s', w') => pinv s' /\ winv w' /\ s_direct s' = false).
      * destruct (negb (w_frozen w3)); [|cbn [ends]; splits; auto; apply W3]. eapply ends_bind; [apply SP; auto|]. intros [[ok s3] w4] (A & B & C). cbn [ends]. splits; auto; destruct ok; try apply B; apply setFrozen_ok; exact B.
      * intros [s3 w4] (A & B & C). eapply ends_bind with (P := fun '(s', w') => pinv s' /\ winv w' /\ s_direct s' = false).
        -- destruct (w_frozen w4); [|cbn [ends]; splits; auto; apply B]. eapply ends_bind; [apply SP; auto|]. intros [[ok s4] w5] H4. exact H4.
        -- intros [s4 w5] (A4 & B4 & C4). destruct fo; [|exact C4]. eapply ends_weak; [apply (resizeImpl_mode c info s4 w5 Io A4 B4)|]. intros [s5 w6] E5. congruence.
    + intros [s3 w4] E3. destruct fo; cbn [ends]; intros Hx; congruence.
Qed.

(** *** Periods of full-screen mode *)
Lemma replay_app a b t : replay (a ++ b) t = replay b (replay a t).
Proof. unfold replay. apply fold_left_app. Qed.
Lemma replay_sends (f : Z -> list cell) (g : Z -> Z) (sd : Z -> bool) (ks : list Z) : forall t j,
  replay (flat_map (fun k => if sd k then [TSend k (f k) (g k)] else []) ks) t j = if existsb (Z.eqb j) ks && sd j then wiped (f j) else t j.
Proof.
  induction ks as [|k ks IH]; intros t j; [reflexivity|]. cbn [flat_map existsb]. rewrite replay_app, IH. destruct (Z.eqb_spec j k) as [->|N]; cbn [orb andb].
  - destruct (sd k) eqn:Ed.
    + rewrite Bool.andb_true_r. destruct (existsb _ ks); [reflexivity|]. cbn [replay fold_left do_op]. rewrite Z.eqb_refl. reflexivity.
    + rewrite Bool.andb_false_r. reflexivity.
  - destruct (existsb (Z.eqb j) ks && sd j); [reflexivity|]. destruct (sd k); [|reflexivity]. cbn [replay fold_left do_op]. replace (j =? k) with false by lia. reflexivity.
Qed.
Lemma exists_zseq j n : existsb (Z.eqb j) (zseq 0 n) = (0 <=? j) && (j <? n).
Proof.
  apply Bool.eq_iff_eq_true. rewrite existsb_exists. split.
  - intros (x & H1 & H2). apply zseq_in in H1. apply Z.eqb_eq in H2. lia.
  - intros H. exists j. split; [apply zseq_in; lia|apply Z.eqb_refl].
Qed.
Lemma replay_poll info s sd vis t j : replay (poll_ops info s sd vis) t j =
  if (0 <=? j) && (j <? height_of (shown_rect info (s_pty s))) && sd j then wiped (seen info s j) else t j.
Proof.
  unfold poll_ops. cbv zeta. destruct (cursor_seen _ _ _).
  - rewrite replay_app. change (replay [TShow ?a ?b] ?x) with x. unfold sends. rewrite (replay_sends (seen info s) (fun k => if k =? _ then _ else -1)), exists_zseq. reflexivity.
  - rewrite replay_app. change (replay [THide] ?x) with x. unfold sends. rewrite (replay_sends (seen info s) (fun k => if k =? _ then _ else -1)), exists_zseq. reflexivity.
Qed.
Definition viewed (s : sst) (t : screen) (last : Z -> option (list cell)) : Prop :=
  scraper_ok s /\ s_direct s = true /\ (forall k bl, znth (s_lines s) k = Some bl -> known bl (cut (co_x (s_pty s)) (t k))) /\
  (forall k l, last k = Some l -> exists bl, znth (s_lines s) k = Some bl /\ agrees bl (cut (co_x (s_pty s)) (t k)) /\ recorded bl = l).
Lemma new_ops_app s s' l : s_out s' = s_out s ++ l -> new_ops s s' = l.
Proof. intros H. unfold new_ops. rewrite H. rewrite skipn_app, skipn_all, Nat.sub_diag. reflexivity. Qed.
Lemma scraped_viewed info vis t s1 s' last : scraped info vis t s1 s' -> s_direct s' = true ->
  (forall k bl, znth (s_lines s1) k = Some bl -> known bl (cut (co_x (s_pty s1)) (t k))) ->
  (forall k l, last k = Some l -> exists bl, znth (s_lines s1) k = Some bl /\ agrees bl (cut (co_x (s_pty s1)) (t k)) /\ recorded bl = l) ->
  exists sd, s_out s' = s_out s1 ++ poll_ops info s' sd vis /\ viewed s' (replay (poll_ops info s' sd vis) t) (look info s' last).
Proof.
  intros (sd & A1 & A2 & A3 & A4 & A5 & A6) Hd K Hl. exists sd. split; [exact A1|]. unfold viewed. rewrite A3 in *. set (h := height_of (shown_rect info (s_pty s1))) in *.
  assert (In' : forall k, 0 <= k < h -> exists bl', znth (s_lines s') k = Some bl' /\ recorded bl' = seen info s' k /\ agrees bl' (cut (co_x (s_pty s1)) (replay (poll_ops info s' sd vis) t k))).
  { intros k Hk. destruct (A5 k Hk) as (_ & bl & bl' & B1 & B2 & B3 & B4 & _). exists bl'. splits; auto. rewrite replay_poll, A3. fold h.
    replace ((0 <=? k) && (k <? h)) with true by lia. cbn [andb]. exact B4. }
  assert (Out : forall k, ~ (0 <= k < h) -> replay (poll_ops info s' sd vis) t k = t k).
  { intros k Hk. rewrite replay_poll, A3. fold h. replace ((0 <=? k) && (k <? h)) with false by lia. reflexivity. }
  splits; auto; try apply A2.
  - intros k bl Hk. destruct ((0 <=? k) && (k <? h)) eqn:Ek.
    + destruct (In' k ltac:(lia)) as (bl' & B1 & _ & B3). right. congruence.
    + rewrite Out by lia. rewrite A6 in Hk by lia. apply K. exact Hk.
  - intros k l. unfold look. rewrite A3. fold h. destruct ((0 <=? k) && (k <? h)) eqn:Ek.
    + intros E. injection E as <-. destruct (In' k ltac:(lia)) as (bl' & B1 & B2 & B3). exists bl'. auto.
    + intros E. rewrite Out by lia. rewrite A6 by lia. apply Hl. exact E.
Qed.
Lemma viewed_none s t last : viewed s t last -> viewed s t (fun _ => None).
Proof. intros (A & B & C & D). unfold viewed. splits; auto; try apply A. discriminate. Qed.
Lemma step_viewed c f t s i s' w' last : step c f (if s_direct s then t else fun _ => mkRow nothing 7) s i s' w' -> s_direct s' = true ->
  (f = false -> s_direct s = true -> viewed s t last) ->
  viewed s' (replay (new_ops s s') t) (if f then fun _ => None else look i s' (if s_direct s then last else fun _ => None)).
Proof.
  intros (info & vis & s1 & Io & Sc & P1 & Ei & O1 & L1 & _) Hd Hv.
  set (t1 := if s_direct s then t else fun _ => mkRow nothing 7) in *.
  set (last1 := if f then fun _ => None else if s_direct s then last else (fun _ => None)).
  assert (K : forall k bl, znth (s_lines s1) k = Some bl -> known bl (cut (co_x (s_pty s1)) (t1 k))).
  { destruct (f || negb (s_direct s)) eqn:Ef; [apply (reset_known _ (fun k => cut (co_x (s_pty s1)) (t1 k))); exact L1|].
    apply Bool.orb_false_iff in Ef as (Ef & En). apply Bool.negb_false_iff in En. destruct (Hv Ef En) as (_ & _ & Kv & _). unfold t1. rewrite En, L1, P1. exact Kv. }
  assert (Hl : forall k l, last1 k = Some l -> exists bl, znth (s_lines s1) k = Some bl /\ agrees bl (cut (co_x (s_pty s1)) (t1 k)) /\ recorded bl = l).
  { unfold last1. destruct f; [discriminate|]. destruct (s_direct s) eqn:En; [|discriminate]. destruct (Hv eq_refl eq_refl) as (_ & _ & _ & Kl). cbn [orb negb] in L1. unfold t1. rewrite L1, P1. exact Kl. }
  destruct (scraped_viewed info vis t1 s1 s' last1 Sc Hd K Hl) as (sd & E1 & V).
  assert (En : new_ops s s' = (if s_direct s then [] else [TReset true 0]) ++ poll_ops info s' sd vis) by (apply new_ops_app; rewrite E1, O1, app_assoc; reflexivity).
  assert (Er : replay (new_ops s s') t = replay (poll_ops info s' sd vis) t1) by (rewrite En, replay_app; unfold t1; destruct (s_direct s); reflexivity).
  rewrite Er. destruct f; [apply (viewed_none _ _ _ V)|]. rewrite (Ei eq_refl). exact V.
Qed.
Lemma full_viewed c : (c_new c = true -> c_w8 c = true) -> forall s t last, full_screen c s t last -> viewed s t last.
Proof.
  intros Hc s t last H. induction H as [s w i s' w' t S W Hd E Hd'|s w size i s' w' t S W E Hd'|s t last w i s' w' H IH W E Hd'].
  - pose proof (sync_direct c false (if s_direct s then t else fun _ => mkRow nothing 7) s w W S Hc) as Q. unfold scrapeBuffer in E. rewrite E in Q. cbn [ends] in Q.
    pose proof (step_viewed c false t s i s' w' (fun _ => None) (Q ltac:(intros _ Hx; congruence) Hd') Hd' ltac:(intros _ Hx; congruence)) as V. rewrite Hd in V. exact V.
  - pose proof (sync_direct c true (if s_direct s then t else fun _ => mkRow nothing 7) (st_pty size s) w W S Hc ltac:(discriminate)) as Q. unfold resizeWindow in E. rewrite E in Q. cbn [ends] in Q.
    exact (step_viewed c true t (st_pty size s) i s' w' (fun _ => None) (Q Hd') Hd' ltac:(discriminate)).
  - destruct IH as (A & B & C & D). pose proof (sync_direct c false (if s_direct s then t else fun _ => mkRow nothing 7) s w W A Hc) as Q. unfold scrapeBuffer in E. rewrite E in Q. cbn [ends] in Q.
    pose proof (step_viewed c false t s i s' w' last (Q ltac:(intros _ _; rewrite B; exact C) Hd') Hd' ltac:(intros _ _; exact (conj A (conj B (conj C D))))) as V. rewrite B in V. exact V.
Qed.
Lemma full_shows c : (c_new c = true -> c_w8 c = true) -> forall s t last, full_screen c s t last ->
  forall k l, last k = Some l -> fills (cut (co_x (s_pty s)) (t k)) l.
Proof.
  intros Hc s t last H k l Hl. destruct (full_viewed c Hc s t last H) as (_ & _ & _ & D). destruct (D k l Hl) as (bl & _ & A & <-). apply agrees_fills. exact A.
Qed.

(** *** Every scraper has 3000 line records *)
Definition full (s : sst) : Prop := zlen (s_lines s) = 3000.
Lemma set_full {E} i l m s : full s -> ends (@set_line E i l m s) full.
Proof.
  intros F. unfold set_line. destruct (zupd (s_lines s) i l) as [ls|] eqn:Ez; [|exact I]. cbn. unfold full. cbn. destruct (Z_lt_le_dec i 0); [rewrite zupd_none in Ez by lia; discriminate|].
  destruct (Z_lt_le_dec i (zlen (s_lines s))); [|rewrite zupd_none in Ez by lia; discriminate]. destruct (zupd_some (s_lines s) i l ltac:(lia)) as (l' & E1 & E2 & _). unfold full in F. congruence.
Qed.
Lemma reset_full b v s : full s -> full (resetConsoleTracking b v s).
Proof. intros F. unfold full. cbn. rewrite (proj2 (reset_all (s_lines s))). exact F. Qed.
Lemma direct_loop_full {E} n : forall a b c d e s, full s -> ends (@direct_loop E n a b c d e s) full.
Proof.
  induction n; intros a b c d e s V; [exact V|]. cbn [direct_loop]. eapply ends_bind; [apply (ends_any _ (fun _ => True)); auto|]. intros cur _.
  eapply ends_bind; [apply (ends_any _ (fun _ => True)); auto|]. intros bl _. eapply ends_bind; [apply (ends_any _ (fun _ => True)); auto|]. intros [ch bl'] _.
  eapply ends_bind; [apply set_full; exact V|]. intros s1 V1. eapply ends_bind with (P := full); [destruct ch; [destruct (_ <? _); [exact I|exact V1]|exact V1]|]. intros s2 V2. apply IHn. exact V2.
Qed.
Lemma send_full {E} n : forall a b c d e s, full s -> ends (@send_lines E n a b c d e s) full.
Proof.
  induction n; intros a b c d e s V; [exact V|]. cbn [send_lines]. eapply ends_bind; [apply (ends_any _ (fun _ => True)); auto|]. intros cur _.
  eapply ends_bind; [apply (ends_any _ (fun _ => True)); auto|]. intros bl _. cbv zeta. eapply ends_bind; [apply (ends_any _ (fun _ => True)); auto|]. intros [ch bl'] _.
  eapply ends_bind; [apply set_full; exact V|]. intros s1 V1. eapply ends_bind with (P := full); [destruct ch; [destruct (_ <? _); [exact I|exact V1]|exact V1]|]. intros s2 V2. apply IHn. exact V2.
Qed.
Lemma clear_full {E} n : forall r s, full s -> ends (@clear_loop E n r s) full.
Proof.
  induction n; intros r s V; [exact V|]. cbn [clear_loop]. cbv zeta. eapply ends_bind; [apply (ends_any _ (fun _ => True)); auto|]. intros bl _.
  eapply ends_bind; [apply set_full; exact V|]. intros s1 V1. apply IHn. exact V1.
Qed.
Lemma create_full {E} r s w : full s -> ends (@createSyncMarker E r s w) (fun '(s', _) => full s').
Proof. intros F. unfold createSyncMarker. eapply ends_bind; [apply (ends_any _ (fun _ => True)); auto|]. intros _ _. unfold bufferInfo. exact F. Qed.
Lemma scrolling_full c info vis t s w : full s -> ends (scrollingScrapeOutput c info vis t s w) (fun '(_, s', _) => full s').
Proof.
  intros F. unfold scrollingScrapeOutput. eapply ends_bind with (P := fun '(_, s', _) => full s').
  { unfold scroll_marker. destruct (_ =? -1); [exact F|]. eapply ends_bind; [apply (ends_any _ (fun _ => True)); auto|]. intros [m w1] _. cbv beta iota.
    destruct (m =? -1); [destruct t; [exact F|apply reset_full; exact F]|]. destruct (negb _); [|exact F].
    eapply ends_bind; [apply (ends_any _ (fun _ => True)); auto|]. intros _ _. eapply ends_bind; [apply (ends_any _ (fun _ => True)); auto|]. intros _ _. exact F. }
  intros [[go s1] w1] F1. cbv beta iota zeta. destruct (negb go); [exact F1|]. destruct (t && _); [exact F1|].
  assert (F2 : full (snd (scroll_dirty (i_win info) (i_cur info) t s1))).
  { unfold scroll_dirty. destruct (negb (s_dirtyTop s1 =? -1)); [|exact F1]. destruct (s_dirtyTop s1 <? _); [exact F1|]. destruct (_ <? s_dirtyTop s1); [|exact F1].
    destruct t; [exact F1|]. cbn [negb snd]. exact (reset_full _ _ s1 F1). }
  destruct (scroll_dirty _ _ t s1) as [go2 s2]. cbn [snd] in F2. destruct (negb go2); [exact F2|].
  eapply ends_bind; [apply (ends_any _ (fun _ => True)); auto|]. intros _ _. eapply ends_bind; [apply (ends_any _ (fun _ => True)); auto|]. intros _ _. destruct (attributesMask c w1) as [mask w2].
  eapply ends_bind; [apply (ends_any _ (fun _ => True)); auto|]. intros [r w3] _. cbv beta iota. eapply ends_bind; [apply (ends_any _ (fun _ => True)); auto|]. intros [same w4] _. destruct (negb same); [exact F2|].
  eapply ends_bind with (P := fun '(s', _) => full s').
  - destruct (_ <=? _); [|exact F2]. eapply ends_bind; [apply (ends_any _ (fun _ => True)); auto|]. intros _ _. apply create_full. exact F2.
  - intros [s5 w5] F5. eapply ends_bind with (P := full).
    + unfold scroll_send. eapply ends_bind with (P := full).
      * unfold scanForDirtyLines. eapply ends_bind; [apply (ends_any _ (fun _ => True)); auto|]. intros _ _. eapply ends_bind; [apply (ends_any _ (fun _ => True)); auto|]. intros prev _. destruct (znth prev _); [|exact I].
        eapply ends_bind; [apply (ends_any _ (fun _ => True)); auto|]. intros d _. exact F5.
      * intros s6 F6. cbv zeta. eapply ends_bind; [apply send_full; destruct (_ && _); exact F6|]. intros s7 F7. cbn [ends]. destruct (_ && _); exact F7.
    + intros s8 F8. exact F8.
Qed.
Lemma resizeImpl_full c i s w : full s -> ends (resizeImpl c i s w) (fun '(s', _) => full s').
Proof.
  intros F. unfold resizeImpl. eapply ends_bind; [apply (ends_any _ (fun _ => True)); auto|]. intros _ _. cbv zeta. eapply ends_bind with (P := fun '(s', _) => full s').
  - unfold resize_clear. destruct (s_direct s); [unfold full; cbn; rewrite (proj2 (reset_all (s_lines s))); exact F|]. eapply ends_bind with (P := full).
    + unfold clearBufferLines. eapply ends_bind; [apply (ends_any _ (fun _ => True)); auto|]. intros _ _. apply clear_full. exact F.
    + intros s1 F1. destruct (negb _); [apply create_full; exact F1|exact F1].
  - intros [s1 w1] F1. unfold changeFont, largestSize, bufferInfo. cbv beta iota zeta. eapply ends_bind; [apply (ends_any _ (fun _ => True)); auto|]. intros _ _.
    eapply ends_bind; [apply (ends_any _ (fun _ => True)); auto|]. intros _ _. exact F1.
Qed.
Lemma sync_full c f s w : full s -> ends (syncConsoleContentAndSize c f s w) (fun '(_, s', _) => full s').
Proof.
  intros F. unfold syncConsoleContentAndSize, bufferInfo, cursorVisible. cbv zeta.
  set (w0 := if negb (c_new c) || f then setFrozen true w else w). set (info := info_of (w_buf (interfere w0))). set (w2 := interfere (interfere w0)). set (vis := b_visible _). clearbody vis info w2.
  set (nd := negb (co_y (i_size info) =? BUFFER_LINE_COUNT)).
  match goal with |- ends (let '(_, _) := ?x in _) _ => set (sw := x) end.
  assert (Hs : full (snd (fst sw))).
  { unfold sw. destruct (negb (Bool.eqb nd (s_direct s))); [|exact F]. destruct nd; cbn [negb fst snd]; exact (reset_full _ _ s F). }
  clearbody sw. destruct sw as [[fo s2] w3]. cbn [fst snd] in Hs. eapply ends_bind with (P := fun '(s', _) => full s').
  - destruct (s_direct s2).
    + eapply ends_bind with (P := fun '(s', _) => full s'); [destruct fo; [apply resizeImpl_full|]; exact Hs|]. intros [s3 w4] F3. unfold directScrapeOutput. cbv zeta. destruct (attributesMask c w4) as [mask w5].
      eapply ends_bind; [apply (ends_any _ (fun _ => True)); auto|]. intros _ _. eapply ends_bind; [apply (ends_any _ (fun _ => True)); auto|]. intros [r w6] _. cbv beta iota.
      eapply ends_bind; [apply direct_loop_full; destruct (_ && _); exact F3|]. intros s4 F4. cbn [ends]. destruct (_ && _); exact F4.
    + eapply ends_bind with (P := fun '(s', _) => full s').
      * destruct (negb (w_frozen w3)); [|exact Hs]. eapply ends_bind; [apply scrolling_full; exact Hs|]. intros [[ok s3] w4] H3. exact H3.
      * intros [s3 w4] H3. eapply ends_bind with (P := fun '(s', _) => full s').
        -- destruct (w_frozen w4); [|exact H3]. eapply ends_bind; [apply scrolling_full; exact H3|]. intros [[ok s4] w5] H4. exact H4.
        -- intros [s4 w5] H4. destruct fo; [apply resizeImpl_full|]; exact H4.
  - intros [s3 w4] F3. destruct fo; exact F3.
Qed.
Definition afull (a : agent) : Prop := full (a_prim a) /\ forall es eb, a_err a = Some (es, eb) -> full es.
Lemma err_full (g : sst -> world -> res broken (cinfo * sst * world)) e w : (forall s w, full s -> ends (g s w) (fun '(_, s', _) => full s')) -> (forall es eb, e = Some (es, eb) -> full es) ->
  ends (match e with
        | None => Ok (None, w)
        | Some (es, eb) => let! (es', eb', w') := on_buffer eb (fun w => let! (_, s, w) := g es w in Ok (s, w)) w in Ok (Some (es', eb'), w')
        end) (fun '(e', _) => forall es eb, e' = Some (es, eb) -> full es).
Proof.
  intros G F. destruct e as [[es eb]|]; [|cbn; discriminate]. unfold on_buffer. specialize (G es (turn (with_buf eb w)) (F es eb eq_refl)).
  destruct (g es _) as [[[i s] w1]| | | |]; cbn; auto. cbn in G. intros es' eb' E. injection E as <- _. exact G.
Qed.
Lemma calls_full c ks : forall a w, afull a -> ends (run_calls c ks a w) (fun '(a', _) => afull a').
Proof.
  induction ks as [|k ks IH]; intros a w V; [exact V|]. cbn [run_calls]. eapply ends_bind with (P := fun '(a', _) => afull a'); [|intros [a' w'] H; apply IH; exact H].
  destruct V as (V1 & V2). destruct k as [|x y]; cbn [run_call].
  - unfold agentScrape, guard_enter. eapply ends_bind with (P := fun '(_, a', _) => afull a'); [|intros [[i a'] w'] H; exact H].
    eapply ends_bind; [apply sync_full; exact V1|]. intros [[i s] w1] F1. cbv beta iota. eapply ends_bind; [apply (err_full (scrapeBuffer c)); [|exact V2]|].
    + intros s0 w0 F0. apply sync_full. exact F0.
    + intros [e' w2] F2. exact (conj F1 F2).
  - unfold agentResize, guard_enter. eapply ends_bind with (P := fun '(_, _, a', _) => afull a'); [|intros [[[i z] a'] w'] H; exact H].
    eapply ends_bind; [apply (ends_any _ (fun _ => True)); auto|]. intros _ _. cbv zeta. set (size := Coord_ _ _).
    eapply ends_bind; [apply sync_full; exact V1|]. intros [[i s] w1] F1. cbv beta iota. eapply ends_bind; [apply (err_full (resizeWindow c size)); [|exact V2]|].
    + intros s0 w0 F0. apply sync_full. exact F0.
    + intros [e' w2] F2. unfold bufferInfo. exact (conj F1 F2).
Qed.
Lemma new_full c size w : full (fst (newScraper c size w)).
Proof. unfold newScraper, bufferInfo, largestSize. cbv zeta. cbn [fst]. unfold full. cbn [st_lines s_lines]. unfold BUFFER_LINE_COUNT. vm_compute. reflexivity. Qed.
Lemma agentNew_full c cols rows eb w : ends (agentNew c cols rows eb w) (fun '(a, _) => afull a).
Proof.
  unfold agentNew. eapply ends_bind; [apply (ends_any _ (fun _ => True)); auto|]. intros _ _. cbv zeta. set (size := Coord_ _ _).
  pose proof (new_full c size w) as F. destruct (newScraper c size w) as [s w1]. cbn [fst] in F.
  destruct eb as [b|]; [|cbn; split; [exact F|discriminate]]. unfold on_buffer. pose proof (new_full c size (turn (with_buf b w1))) as F'. destruct (newScraper c size (turn _)) as [s' w2].
  cbn. split; [exact F|]. intros es eb' E. cbn in E. injection E as <- _. exact F'.
Qed.
Lemma reachable_ok c cols rows eb ks w a w' : world_ok w -> (forall b, eb = Some b -> console_ok b) -> run_agent c cols rows eb ks w = Ok (a, w') ->
  scraper_ok (a_prim a) /\ (forall es eb', a_err a = Some (es, eb') -> scraper_ok es /\ console_ok eb') /\ at_rest w'.
Proof.
  intros Hw Hb E. unfold run_agent in E. destruct (agentNew c cols rows eb w) as [[a0 w0]| | | |] eqn:E0; try discriminate. cbn [bind] in E.
  assert (W : winv w) by (destruct Hw as (A & B & C & D); exact (conj A (conj B (eq_trans C (eq_sym D))))).
  pose proof (agentNew_linv (w_log w) c cols rows eb w Hb (conj W (log_start _ _))) as Q. rewrite E0 in Q. destruct Q as (Q1 & Q2 & _).
  pose proof (calls_linv (w_log w0) c ks a0 w0 Q1 (conj Q2 (log_start _ _))) as R. rewrite E in R. destruct R as (R1 & R2 & _).
  pose proof (agentNew_full c cols rows eb w) as F. rewrite E0 in F. pose proof (calls_full c ks a0 w0 F) as G. rewrite E in G. cbn in G. destruct G as (G1 & G2). destruct R1 as (R1 & R3).
  splits; [split; assumption| |exact R2]. intros es eb' Ee. rewrite Ee in R3. split; [split; [apply R3|exact (G2 es eb' Ee)]|apply R3].
Qed.
