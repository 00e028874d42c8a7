From Verif Require Import Base BaseLemmas SmallRect SmallRectProofs ConsoleLine Console LargeRead LargeReadSpec.
Ltac Zify.zify_post_hook ::= Z.div_mod_to_equations.
Ltac splits := repeat match goal with |- _ /\ _ => split end.

Lemma zlen_zseq s n : 0 <= n -> zlen (zseq s n) = n.
Proof. intros H. unfold zseq, zlen. rewrite map_length, seq_length. lia. Qed.
Lemma zseq_app s a b : 0 <= a -> 0 <= b -> zseq s (a + b) = zseq s a ++ zseq (s + a) b.
Proof.
  intros A B. unfold zseq. rewrite Z2Nat.inj_add by lia. rewrite seq_app, map_app. f_equal. cbn.
  rewrite <- (Nat.add_0_r (Z.to_nat a)) at 1. generalize O as k. intros k. revert k.
  induction (Z.to_nat b) as [|n IH]; intros k; [reflexivity|]. cbn [seq map]. f_equal; [lia|]. rewrite <- (IH (S k)). f_equal. f_equal. lia.
Qed.
Lemma zseq_nil s n : n <= 0 -> zseq s n = [].
Proof. intros H. unfold zseq. replace (Z.to_nat n) with O by lia. reflexivity. Qed.
Lemma zseq_in s n k : In k (zseq s n) <-> s <= k < s + n.
Proof.
  unfold zseq. rewrite in_map_iff. split.
  - intros (i & <- & Hi). apply in_seq in Hi. lia.
  - intros H. exists (Z.to_nat (k - s)). split; [lia|]. apply in_seq. lia.
Qed.
Lemma s16_id x : -32768 <= x < 32768 -> s16 x = x.
Proof. intros H. unfold s16. apply wraps_small; lia. Qed.
Lemma readable_dims b r : readable b r -> rWidth r = rRight r - rLeft r + 1 /\ rHeight r = rBottom r - rTop r + 1.
Proof. intros (A & B & C & D & F). unfold rWidth, rHeight. rewrite !s16_id by lia. auto. Qed.
Lemma flat_map_len {A} (f : Z -> list A) n l : (forall y, zlen (f y) = n) -> zlen (flat_map f l) = n * zlen l.
Proof.
  intros H. induction l as [|y l IH]; cbn [flat_map]; [change (zlen (@nil A)) with 0; change (zlen (@nil Z)) with 0; lia|].
  rewrite zlen_app, IH, H, zlen_cons. lia.
Qed.
(** One band's cells, without the mask *)
Definition raw (b : cbuf) (r : srect) : list cell := flat_map (fun y => map (b_cells b y) (cols_of r)) (rows_of r).
Lemma rect_cells_raw b r : readable b r -> rect_cells b r = raw b r.
Proof.
  intros H. destruct (readable_dims b r H) as (Hw & Hh). unfold rect_cells, raw, row_cells, cols_of, rows_of. rewrite Hw, Hh, flat_map_concat_map. reflexivity.
Qed.
Lemma raw_len b r : readable b r -> zlen (raw b r) = cells_in r.
Proof.
  intros (A & B & _). unfold raw, cells_in. rewrite (flat_map_len _ (rRight r - rLeft r + 1)).
  - unfold rows_of. rewrite zlen_zseq by lia. reflexivity.
  - intros y. unfold cols_of. rewrite <- (zlen_zseq (rLeft r) (rRight r - rLeft r + 1)) at 2 by lia. unfold zlen. now rewrite map_length.
Qed.
Lemma readable_in b r : readable b r -> in_buf b r = true.
Proof. unfold readable, in_buf. lia. Qed.
Lemma blit_spec data off src : 0 <= off -> off + zlen src <= zlen data ->
  zlen (blit data off src) = zlen data /\ zfirstn off (blit data off src) = zfirstn off data /\
  zfirstn (off + zlen src) (blit data off src) = zfirstn off data ++ src.
Proof.
  intros A B. pose proof (zlen_nonneg src) as P. unfold blit.
  assert (L : zlen (zfirstn off data) = off) by (rewrite zlen_zfirstn; lia).
  splits.
  - rewrite !zlen_app, zlen_zskipn, L by lia. lia.
  - apply zfirstn_app_exact. symmetry. exact L.
  - rewrite app_assoc. apply zfirstn_app_exact. rewrite zlen_app, L. lia.
Qed.
(** Reading while frozen *)
Lemma interfere_sel w : w_sel w = true -> interfere w = w.
Proof. intros H. unfold interfere. now rewrite H. Qed.
Lemma read_ok {E} nw r data off w : let b := w_buf (interfere w) in readable b r -> 0 <= off -> off + cells_in r <= zlen data ->
  @read E nw r data off w = Ok (blit data off (raw b r), with_log (RRead r) (interfere w)).
Proof.
  cbv zeta. intros R A B. destruct (readable_dims _ r R) as (Hw & Hh). unfold read. rewrite Hw, Hh. fold (cells_in r).
  assert (0 <= cells_in r) as P by (rewrite <- (raw_len _ r R); apply zlen_nonneg).
  destruct ((cells_in r <? 0) || (off <? 0) || (zlen data <? off + cells_in r)) eqn:E1; [lia|].
  change (w_buf (with_log (RRead r) (interfere w))) with (w_buf (interfere w)).
  rewrite (readable_in _ r R), (rect_cells_raw _ r R). reflexivity.
Qed.

(** *** The loop *)
Definition upto (r : srect) (k : Z) : srect := mkRect (rLeft r) (rTop r) (rRight r) (k - 1).
Lemma raw_split b L R t m e : 0 <= m - t -> 0 <= e - m -> raw b (mkRect L t R (e - 1)) = raw b (mkRect L t R (m - 1)) ++ raw b (mkRect L m R (e - 1)).
Proof.
  intros A B. unfold raw, rows_of, cols_of. cbn [rLeft rTop rRight rBottom]. rewrite <- flat_map_app. f_equal.
  replace (e - 1 - t + 1) with ((m - t) + (e - m)) by lia. rewrite zseq_app by lia. f_equal; f_equal; lia.
Qed.
Lemma rows_split L R t m e : 0 <= m - t -> 0 <= e - m -> rows_of (mkRect L t R (e - 1)) = rows_of (mkRect L t R (m - 1)) ++ rows_of (mkRect L m R (e - 1)).
Proof.
  intros A B. unfold rows_of. cbn [rTop rBottom]. replace (e - 1 - t + 1) with ((m - t) + (e - m)) by lia. rewrite zseq_app by lia. f_equal; f_equal; lia.
Qed.
Definition add_reads (rs : list srect) (w : world) : world :=
  mkW (w_buf w) (w_sel w) (w_frozen w) (w_mark w) (w_esc w) (w_env w) (w_fail w) (w_log w ++ map RRead rs).
Lemma add_nil w : add_reads [] w = w.
Proof. unfold add_reads. cbn. rewrite app_nil_r. now destruct w. Qed.
Lemma add_add r rs w : add_reads rs (with_log (RRead r) w) = add_reads (r :: rs) w.
Proof. unfold add_reads, with_log. cbn. now rewrite <- app_assoc. Qed.
Lemma chunks_ok {E} nw b area maxLines : readable b area -> 1 <= maxLines -> (rRight area - rLeft area + 1) * maxLines <= 2500 ->
  forall fuel cur l w, w_sel w = true -> w_buf w = b -> rTop area <= cur <= rBottom area + 1 -> rBottom area + 1 - cur < Z.of_nat fuel ->
  lr_rect l = area -> lr_width l = rRight area - rLeft area + 1 -> cells_in area <= zlen (lr_data l) ->
  zfirstn (cells_in (upto area cur)) (lr_data l) = raw b (upto area cur) ->
  exists d rs, @read_chunks E fuel nw area maxLines cur l w = Ok (mkLr area (lr_width l) d, add_reads rs w) /\
    zlen d = zlen (lr_data l) /\ zfirstn (cells_in area) d = raw b area /\
    bands (mkRect (rLeft area) cur (rRight area) (rBottom area)) rs /\ Forall (fun s => cells_in s <= 2500) rs.
Proof.
  intros R M1 M2. destruct (readable_dims b area R) as (Hw & Hh). pose proof R as (R1 & R2 & R3 & R4 & R5).
  induction fuel as [|fuel IH]; intros cur l w Hs Hb Hc Hf Hr Hl Hd Hp; [lia|]. cbn [read_chunks].
  destruct (rBottom area <? cur) eqn:Ec.
  - assert (cur = rBottom area + 1) by lia. subst cur. exists (lr_data l), []. rewrite add_nil. splits; auto.
    + rewrite <- Hr. now destruct l.
    + replace (upto area (rBottom area + 1)) with area in Hp; [exact Hp|]. unfold upto. replace (rBottom area + 1 - 1) with (rBottom area) by lia. now destruct area.
    + split; [constructor|]. unfold rows_of. cbn [rTop rBottom flat_map]. rewrite zseq_nil by lia. reflexivity.
  - set (n := Z.min maxLines (rBottom area + 1 - cur)).
    assert (Hn : 1 <= n <= maxLines /\ cur + n - 1 <= rBottom area) by (unfold n; lia).
    assert (Es : SmallRect (rLeft area) cur (rWidth area) n = mkRect (rLeft area) cur (rRight area) (cur + n - 1)).
    { assert (maxLines <= 2500) by nia. rewrite Hw, mk_spec by (unfold SmallRectSpec.short; lia). f_equal; lia. }
    rewrite Es. set (sub := mkRect (rLeft area) cur (rRight area) (cur + n - 1)).
    assert (Rs : readable b sub). { unfold readable, sub. cbn. lia. }
    assert (Cs : cells_in sub = (rRight area - rLeft area + 1) * n). { unfold cells_in, sub. cbn. f_equal. lia. }
    assert (Cu : cells_in (upto area cur) = (rRight area - rLeft area + 1) * (cur - rTop area)). { unfold cells_in, upto. cbn. f_equal. lia. }
    assert (Ca : cells_in area = (rRight area - rLeft area + 1) * (rBottom area + 1 - rTop area)). { unfold cells_in. f_equal. lia. }
    assert (Ei : @line_index E l cur = Ok (cells_in (upto area cur))).
    { unfold line_index. rewrite Hr, Hl. destruct ((cur <? rTop area) || (rBottom area <? cur)) eqn:E1; [lia|].
      cbv zeta. rewrite Cu. replace ((cur - rTop area) * (rRight area - rLeft area + 1)) with ((rRight area - rLeft area + 1) * (cur - rTop area)) by lia.
      destruct ((0 <=? _) && _) eqn:E2; [reflexivity|]. nia. }
    rewrite Ei. cbn [bind].
    assert (P : cells_in (upto area cur) + cells_in sub <= zlen (lr_data l)) by nia.
    assert (P0 : 0 <= cells_in (upto area cur)) by nia.
    assert (X := @read_ok E nw sub (lr_data l) (cells_in (upto area cur)) w). cbv zeta in X. rewrite (interfere_sel w Hs) in X. rewrite Hb in X. rewrite (X Rs P0 P). clear X. cbn [bind].
    pose proof (raw_len b sub Rs) as Ls. destruct (blit_spec (lr_data l) (cells_in (upto area cur)) (raw b sub)) as (B1 & B2 & B3); [lia|lia|].
    change (rBottom sub + 1) with (cur + n - 1 + 1). replace (cur + n - 1 + 1) with (cur + n) by lia.
    destruct (IH (cur + n) (mkLr (lr_rect l) (lr_width l) (blit (lr_data l) (cells_in (upto area cur)) (raw b sub))) (with_log (RRead sub) w)) as (d & rs & G1 & G2 & G3 & G4 & G5); auto; cbn [lr_data]; try lia.
    { assert (Eu : raw b (upto area (cur + n)) = raw b (upto area cur) ++ raw b sub).
      { unfold upto, sub. replace (cur + n - 1) with ((cur + n) - 1) by lia. rewrite (raw_split b _ _ (rTop area) cur (cur + n)) by lia. reflexivity. }
      rewrite Eu, <- Hp, <- B3. f_equal. rewrite Ls, Cu, Cs. unfold cells_in, upto. cbn. lia. }
    exists d, (sub :: rs). splits.
    + rewrite G1. cbn [lr_width]. now rewrite add_add.
    + rewrite G2. cbn [lr_data]. exact B1.
    + exact G3.
    + destruct G4 as (G41 & G42). split; [constructor; [unfold sub; cbn; lia|exact G41]|]. cbn [flat_map]. rewrite G42.
      unfold sub. replace (rBottom area) with (rBottom area + 1 - 1) by lia. rewrite (rows_split (rLeft area) (rRight area) cur (cur + n) (rBottom area + 1)) by lia. f_equal. 
    + constructor; [|exact G5]. rewrite Cs. apply Z.le_trans with ((rRight area - rLeft area + 1) * maxLines); [apply Z.mul_le_mono_nonneg_l; lia|exact M2].
Qed.

Lemma expected_raw b mask r : expected b mask r = map (masked mask) (raw b r).
Proof.
  unfold expected, raw, expected_row. induction (rows_of r) as [|y l IH]; [reflexivity|]. cbn [flat_map]. rewrite map_app, IH, map_map. reflexivity.
Qed.
Lemma masked_all b r : words b -> map (masked 0xFFFF) (raw b r) = raw b r.
Proof.
  intros W. unfold raw. induction (rows_of r) as [|y l IH]; [reflexivity|]. cbn [flat_map]. rewrite map_app, IH, map_map. f_equal.
  apply map_ext. intros x. unfold masked. specialize (W y x). change 65535 with (Z.ones 16). rewrite Z.land_ones by lia. rewrite Z.mod_small by lia. now destruct (b_cells b y x).
Qed.
Definition area_ok {E} (nw w8 : bool) (b : cbuf) (area : srect) (mask : Z) (l : lread) (w : world) : Prop :=
  exists d rs, @largeConsoleRead E nw w8 area mask l w = Ok (mkLr area (rRight area - rLeft area + 1) d, add_reads rs (interfere w)) /\
    cells_in area <= zlen d /\ zfirstn (cells_in area) d = expected b mask area /\
    bands area rs /\ (w8 = true -> rs = [area]) /\ (w8 = false -> Forall (fun s => cells_in s <= 2500) rs).
Lemma large_read {E} nw w8 area mask l w : let b := w_buf (interfere w) in
  readable b area -> words b -> (w8 = false -> w_sel w = true) -> @area_ok E nw w8 b area mask l w.
Proof.
  cbv zeta. intros R W S. set (b := w_buf (interfere w)) in *. destruct (readable_dims b area R) as (Hw & Hh). pose proof R as (R1 & R2 & R3 & R4 & R5).
  unfold area_ok, largeConsoleRead, MAX_CONSOLE_WIDTH. rewrite Hw, Hh.
  assert (A : (0 <=? rLeft area) && (0 <=? rTop area) && (rLeft area <=? rRight area) && (rTop area <=? rBottom area) && (rRight area - rLeft area + 1 <=? 2500) = true) by lia.
  rewrite A. cbn [assert_ bind]. fold (cells_in area). cbv zeta.
  set (data := if zlen (lr_data l) <? cells_in area then lr_data l ++ zrepeat (mkCell 0 0) (cells_in area - zlen (lr_data l)) else lr_data l).
  assert (Ld : cells_in area <= zlen data).
  { unfold data. destruct (zlen (lr_data l) <? cells_in area) eqn:El; [|lia]. rewrite zlen_app, zlen_repeat. lia. }
  cbn [lr_rect lr_width lr_data].
  assert (Fin : forall d rs, cells_in area <= zlen d -> zfirstn (cells_in area) d = raw b area -> bands area rs -> (w8 = true -> rs = [area]) -> (w8 = false -> Forall (fun s => cells_in s <= 2500) rs) ->
    exists d' rs', (if mask =? 65535 then Ok (mkLr area (rRight area - rLeft area + 1) d, add_reads rs (interfere w))
       else Ok (mkLr area (rRight area - rLeft area + 1) (map (mask_cell mask) (zfirstn (cells_in area) d) ++ zskipn (cells_in area) d), add_reads rs (interfere w)))
       = @Ok E _ (mkLr area (rRight area - rLeft area + 1) d', add_reads rs' (interfere w)) /\ cells_in area <= zlen d' /\ zfirstn (cells_in area) d' = expected b mask area /\ bands area rs' /\ (w8 = true -> rs' = [area]) /\ (w8 = false -> Forall (fun s => cells_in s <= 2500) rs')).
  { intros d rs D1 D2 D3 D4 D5. rewrite expected_raw. destruct (mask =? 65535) eqn:Em.
    - apply Z.eqb_eq in Em. subst mask. exists d, rs. rewrite masked_all by exact W. splits; auto.
    - rewrite D2. pose proof (raw_len b area R) as Lr. assert (Lm : zlen (map (mask_cell mask) (raw b area)) = cells_in area) by (unfold zlen; rewrite map_length; exact Lr).
      exists (map (mask_cell mask) (raw b area) ++ zskipn (cells_in area) d), rs. splits; auto.
      + rewrite zlen_app, Lm. pose proof (zlen_nonneg (zskipn (cells_in area) d)). lia.
      + rewrite (zfirstn_app_exact _ _ _ (eq_sym Lm)). reflexivity. }
  assert (Pc : 0 <= cells_in area) by (unfold cells_in; nia).
  destruct w8.
  - rewrite (@read_ok E nw area data 0 w) by (assumption || lia). cbn [bind].
    destruct (blit_spec data 0 (raw b area)) as (B1 & _ & B3); [lia|rewrite (raw_len b area R); lia|].
    change (with_log (RRead area) (interfere w)) with (with_log (RRead area) (interfere w)).
    replace (with_log (RRead area) (interfere w)) with (add_reads [area] (interfere w)) by reflexivity.
    change (w_buf (interfere w)) with b. apply (Fin (blit data 0 (raw b area)) [area]); [rewrite B1; lia| | |reflexivity|discriminate].
    + rewrite (raw_len b area R) in B3. cbn [Z.add] in B3. exact B3.
    + split; [constructor; [lia|constructor]|cbn; apply app_nil_r].
  - assert (Hs : w_sel w = true) by (apply S; reflexivity). assert (Eb : w_buf w = b) by (unfold b; now rewrite interfere_sel).
    assert (Q : Z.quot 2500 (rRight area - rLeft area + 1) = 2500 / (rRight area - rLeft area + 1)) by (apply Z.quot_div_nonneg; lia).
    set (ml := Z.max 1 (Z.quot 2500 (rRight area - rLeft area + 1))).
    assert (M1 : 1 <= ml) by (unfold ml; lia).
    assert (M2 : (rRight area - rLeft area + 1) * ml <= 2500).
    { unfold ml. rewrite Q. pose proof (Z.mul_div_le 2500 (rRight area - rLeft area + 1)). assert (1 <= 2500 / (rRight area - rLeft area + 1)) by (apply Z.div_le_lower_bound; lia). rewrite Z.max_r by lia. lia. }
    clearbody ml.
    destruct (@chunks_ok E nw b area ml R M1 M2) with (fuel := (Z.to_nat (rBottom area - rTop area + 1) + 1)%nat) (cur := rTop area)
      (l := mkLr area (rRight area - rLeft area + 1) data) (w := w) as (d & rs & G1 & G2 & G3 & G4 & G5); auto; try lia.
    { unfold upto, raw, rows_of, cells_in. cbn. rewrite zseq_nil by lia. replace ((rRight area - rLeft area + 1) * (rTop area - 1 - rTop area + 1)) with 0 by lia. reflexivity. }
    rewrite G1. cbn [bind lr_rect lr_width lr_data]. rewrite (interfere_sel w Hs) in *.
    replace (mkRect (rLeft area) (rTop area) (rRight area) (rBottom area)) with area in G4 by (now destruct area).
    cbn [lr_data] in G2. apply (Fin d rs); [lia|exact G3|exact G4|discriminate|intros _; exact G5].
Qed.

(** The line at a position *)
Lemma flat_map_at {A} (f : Z -> list A) n l k y : (forall y, zlen (f y) = n) -> 0 <= n -> znth l k = Some y -> forall rest, exists rest', zskipn (k * n) (flat_map f l ++ rest) = f y ++ rest'.
Proof.
  intros H N. revert k. induction l as [|x l IH]; intros k Hk rest; [unfold znth in Hk; destruct (k <? 0); [discriminate|]; destruct (Z.to_nat k); discriminate|].
  destruct (Z.eq_dec k 0) as [->|Nz].
  - unfold znth in Hk. cbn in Hk. injection Hk as ->. exists (flat_map f l ++ rest). replace (0 * n) with 0 by lia. cbn [flat_map]. unfold zskipn. cbn. now rewrite <- app_assoc.
  - unfold znth in Hk. destruct (k <? 0) eqn:Ek; [discriminate|]. destruct (Z.to_nat k) as [|m] eqn:Em; [lia|]. cbn in Hk.
    cbn [flat_map]. rewrite <- app_assoc. replace (k * n) with (zlen (f x) + (k - 1) * n) by (rewrite H; lia). rewrite <- zskipn_zskipn by (try apply zlen_nonneg; nia).
    rewrite zskipn_app_exact by reflexivity. apply IH. unfold znth. destruct (k - 1 <? 0) eqn:E1; [lia|]. replace (Z.to_nat (k - 1)) with m by lia. exact Hk.
Qed.
Lemma znth_zseq s n k : 0 <= k < n -> znth (zseq s n) k = Some (s + k).
Proof.
  intros H. unfold znth, zseq. destruct (k <? 0) eqn:E; [lia|]. rewrite nth_error_map. rewrite nth_error_nth' with (d := O) by (rewrite seq_length; lia).
  rewrite seq_nth by lia. cbn. f_equal. lia.
Qed.
Lemma expected_row_len b mask r y : rLeft r <= rRight r + 1 -> zlen (expected_row b mask r y) = rRight r - rLeft r + 1.
Proof. intros H. unfold expected_row, cols_of. rewrite <- (zlen_zseq (rLeft r) (rRight r - rLeft r + 1)) at 2 by lia. unfold zlen. now rewrite map_length. Qed.
Lemma line_at {E} b mask area d y : readable b area -> cells_in area <= zlen d -> zfirstn (cells_in area) d = expected b mask area -> rTop area <= y <= rBottom area ->
  exists rest, @lineData E (mkLr area (rRight area - rLeft area + 1) d) y = Ok (expected_row b mask area y ++ rest).
Proof.
  intros R Ld Hd Hy. pose proof R as (R1 & R2 & R3 & R4 & R5). unfold lineData, line_index. cbn [lr_rect lr_width lr_data].
  destruct ((y <? rTop area) || (rBottom area <? y)) eqn:E1; [lia|]. cbv zeta.
  assert (P : 0 <= (y - rTop area) * (rRight area - rLeft area + 1) < zlen d) by (unfold cells_in in Ld; nia).
  destruct ((0 <=? _) && _) eqn:E2; [|lia]. cbn [bind].
  assert (Ed : d = expected b mask area ++ zskipn (cells_in area) d) by (rewrite <- Hd; symmetry; apply zfirstn_zskipn).
  destruct (flat_map_at (expected_row b mask area) (rRight area - rLeft area + 1) (rows_of area) (y - rTop area) y) with (rest := zskipn (cells_in area) d) as (rest' & Hr).
  - intros z. apply expected_row_len. lia.
  - lia.
  - unfold rows_of. rewrite znth_zseq by lia. f_equal. lia.
  - exists rest'. f_equal. rewrite Ed. exact Hr.
Qed.
