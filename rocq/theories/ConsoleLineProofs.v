(** Proofs about the line record (C15). *)
From Verif Require Import Base BaseLemmas ConsoleLine ConsoleLineSpec.
Ltac splits := repeat match goal with |- _ /\ _ => split end.

Lemma cell_eqb_eq a b : cell_eqb a b = true <-> a = b.
Proof.
  destruct a as [x u], b as [y v]. unfold cell_eqb. cbn. rewrite andb_true_iff, !Z.eqb_eq. split; [intros (-> & ->); reflexivity|intros H; injection H; auto].
Qed.
Lemma cells_eqb_eq a : forall b, cells_eqb a b = true <-> a = b.
Proof.
  induction a as [|x a IH]; intros [|y b]; cbn; split; intros H; try discriminate; auto.
  - apply andb_true_iff in H as (H1 & H2). apply cell_eqb_eq in H1. apply IH in H2. now subst.
  - injection H as -> ->. apply andb_true_iff. split; [now apply cell_eqb_eq|now apply IH].
Qed.
Lemma isLineBlank_spec {E} line start n a : 0 <= start -> 0 <= n -> start + n <= zlen line ->
  exists b, @isLineBlank E line start n a = Ok b /\ (b = true <-> forall i, start <= i < start + n -> znth line i = Some (mkCell 32 a)).
Proof.
  intros Hs Hn Hl. unfold isLineBlank. revert start Hs Hl. remember (Z.to_nat n) as k eqn:Hk. assert (n = Z.of_nat k) as -> by lia. clear Hn Hk.
  induction k as [|k IH]; intros start Hs Hl; cbn [isLineBlank_at].
  - exists true. split; [reflexivity|]. split; [intros _ i Hi; lia|reflexivity].
  - destruct (znth line start) as [c|] eqn:Hc; [|destruct (znth_some line start ltac:(lia)); congruence].
    destruct (IH (start + 1) ltac:(lia) ltac:(lia)) as (b & Hb & Sb).
    destruct (negb (cl_attr c =? a) || negb (cl_ch c =? 32)) eqn:Q.
    + exists false. split; [reflexivity|]. split; [discriminate|]. intros H. specialize (H start ltac:(lia)). rewrite Hc in H. injection H as ->. cbn in Q. rewrite Z.eqb_refl in Q. discriminate.
    + exists b. split; [exact Hb|]. apply orb_false_iff in Q as (Q1 & Q2). apply negb_false_iff in Q1, Q2. apply Z.eqb_eq in Q1, Q2.
      assert (Hcc : c = mkCell 32 a) by (destruct c; cbn in *; congruence). rewrite Sb. split; intros H i Hi.
      * destruct (Z.eq_dec i start) as [->|]; [now rewrite Hc, Hcc|]. apply H. lia.
      * apply H. lia.
Qed.
Lemma areLinesEqual_spec {E} l1 l2 n : n <= zlen l1 -> n <= zlen l2 ->
  @areLinesEqual E l1 l2 n = Ok (cells_eqb (zfirstn n l1) (zfirstn n l2)).
Proof. intros H1 H2. unfold areLinesEqual. replace (zlen l1 <? n) with false by lia. replace (zlen l2 <? n) with false by lia. reflexivity. Qed.
Lemma setLine_ok {E} s line : @setLine E s line (zlen line) = Ok (mkCline (zlen line) (line ++ zskipn (zlen line) (prevData s))).
Proof. unfold setLine. rewrite Z.ltb_irrefl. now rewrite zfirstn_all by lia. Qed.
Lemma set_recorded line (t : list cell) : zfirstn (zlen line) (line ++ t) = line.
Proof. now rewrite zfirstn_app_exact. Qed.
Lemma firstn_nth {A} n (a b : list A) : zfirstn n a = zfirstn n b -> forall i, i < n -> znth a i = znth b i.
Proof. intros H i Hi. rewrite <- (znth_zfirstn a n i) by lia. rewrite <- (znth_zfirstn b n i) by lia. now rewrite H. Qed.

(** The invariant: the record is well-formed; the row holds nothing the record does not
    know of; erased columns appear in the recorded line's last colour, and those of the
    recorded line are blanks in that colour. *)
Definition agree (s : cline) (r : row) : Prop :=
  0 <= prevLength s <= zlen (prevData s) /\
  (prevLength s = 0 -> prevData s = []) /\
  (forall i c, cols r i = Some c -> znth (prevData s) i = Some c) /\
  (forall i c, i < prevLength s -> znth (prevData s) i = Some c -> cols r i = None -> c = mkCell 32 (colour r)) /\
  (forall last, znth (prevData s) (prevLength s - 1) = Some last -> colour r = cl_attr last).
Lemma agree_shows s r : agree s r -> shows r (recorded s).
Proof.
  intros (H1 & H2 & H3 & H4 & H5) i c Hc. unfold recorded in *.
  assert (L : zlen (zfirstn (prevLength s) (prevData s)) = prevLength s) by (rewrite zlen_zfirstn; lia).
  pose proof (znth_range _ _ _ Hc) as Hr. rewrite L in *. rewrite znth_zfirstn in Hc by lia. unfold holds.
  destruct (cols r i) as [c'|] eqn:E.
  - apply H3 in E. congruence.
  - symmetry. apply (H4 i c ltac:(lia) Hc E).
Qed.
Lemma agree_sent s r line : agree s r -> 1 <= zlen line -> agree (mkCline (zlen line) (line ++ zskipn (zlen line) (prevData s))) (sent line r).
Proof.
  intros (H1 & H2 & H3 & H4 & H5) Hl. unfold agree. cbn [prevLength prevData]. rewrite zlen_app. pose proof (zlen_nonneg (zskipn (zlen line) (prevData s))). splits; try lia.
  - intros i c Hc. unfold sent in Hc. cbn [cols] in Hc. destruct (znth line i) as [x|] eqn:E.
    + rewrite znth_app_l; [now rewrite E|]. apply znth_range in E. lia.
    + pose proof (H3 _ _ Hc) as Hp. pose proof (znth_range _ _ _ Hp) as Hq. assert (zlen line <= i) by (destruct (Z_lt_le_dec i (zlen line)); auto; destruct (znth_some line i ltac:(lia)); congruence). rewrite znth_app_r by lia. rewrite znth_zskipn by lia. rewrite <- Hp. f_equal. lia.
  - intros i c Hi Hc HN. unfold sent in HN. cbn [cols] in HN. destruct (znth line i) as [x|] eqn:E; [discriminate|]. apply znth_range in Hc. destruct (znth_some line i ltac:(lia)); congruence.
  - intros lst Hlast. rewrite znth_app_l in Hlast by lia. unfold sent, last_colour. cbn [colour]. now rewrite Hlast.
Qed.

Lemma detect_spec {E} s r line : agree s r -> 1 <= zlen line ->
  exists b s', @detectChangeAndSetLine E s line (zlen line) = Ok (b, s') /\ recorded s' = line /\ prevLength s' = zlen line /\
    agree s' (if b then sent line r else r) /\ (recorded s = line -> b = false).
Proof.
  intros A Hl. pose proof A as (H1 & H2 & H3 & H4 & H5). unfold detectChangeAndSetLine.
  replace (1 <=? zlen line) with true by lia. replace (prevLength s <=? zlen (prevData s)) with true by lia. cbn [assert_ bind].
  assert (SA := agree_sent s r line A Hl). set (s1 := mkCline (zlen line) (line ++ zskipn (zlen line) (prevData s))) in *.
  assert (R1 : recorded s1 = line) by apply set_recorded.
  assert (LR : zlen (recorded s) = prevLength s) by (unfold recorded; rewrite zlen_zfirstn; lia).
  assert (LN : zlen line <> prevLength s -> recorded s <> line) by (intros N Q; apply N; rewrite <- Q; exact LR).
  destruct (zlen line =? prevLength s) eqn:EL.
  { apply Z.eqb_eq in EL. rewrite areLinesEqual_spec by lia. cbn [bind]. rewrite (zfirstn_all _ line) by lia.
    assert (RS : zfirstn (zlen line) (prevData s) = recorded s) by (unfold recorded; now rewrite EL). rewrite RS.
    destruct (cells_eqb (recorded s) line) eqn:Q.
    - apply cells_eqb_eq in Q. exists false, s. splits; auto.
    - rewrite setLine_ok. cbn [bind]. fold s1. exists true, s1. splits; auto. intros Q2. apply cells_eqb_eq in Q2. congruence. }
  apply Z.eqb_neq in EL.
  destruct (prevLength s =? 0) eqn:E0.
  { rewrite setLine_ok. cbn [bind]. fold s1. exists true, s1. splits; auto. intros Q. now apply LN in Q. }
  apply Z.eqb_neq in E0. replace (1 <=? prevLength s) with true by lia. cbn [assert_ bind].
  destruct (znth_some (prevData s) (prevLength s - 1) ltac:(lia)) as (pc & Hpc). destruct (znth_some line (zlen line - 1) ltac:(lia)) as (nc & Hnc). rewrite Hpc, Hnc.
  assert (Fin : forall b, (b = true -> agree s1 r) ->
     exists b0 s', (let! s2 := @setLine E s line (zlen line) in Ok (negb b, s2)) = Ok (b0, s') /\ recorded s' = line /\ prevLength s' = zlen line /\ agree s' (if b0 then sent line r else r) /\ (recorded s = line -> b0 = false)).
  { intros b Hb. rewrite setLine_ok. cbn [bind]. fold s1. exists (negb b), s1. splits; auto; [destruct b; cbn [negb]; auto|intros Q; now apply LN in Q]. }
  destruct (zlen line <? prevLength s) eqn:Lt.
  - (* shorter *)
    rewrite areLinesEqual_spec by lia. cbn [bind]. rewrite (zfirstn_all _ line) by lia.
    destruct (cells_eqb (zfirstn (zlen line) (prevData s)) line) eqn:Q; [|cbn [bind]; apply Fin; discriminate]. apply cells_eqb_eq in Q.
    destruct (@isLineBlank_spec E (prevData s) (zlen line) (prevLength s - zlen line) (cl_attr nc)) as (b & -> & Sb); [lia|lia|lia|]. cbn [bind]. apply Fin. intros ->.
    destruct Sb as (Sb & _). specialize (Sb eq_refl).
    assert (EQ : line ++ zskipn (zlen line) (prevData s) = prevData s) by (rewrite <- Q at 1; apply zfirstn_zskipn).
    assert (Pa : pc = mkCell 32 (cl_attr nc)) by (specialize (Sb (prevLength s - 1) ltac:(lia)); congruence).
    unfold agree, s1. cbn [prevLength prevData]. rewrite EQ. splits; try lia; auto.
    + intros i c Hi Hc HN. apply (H4 i c ltac:(lia) Hc HN).
    + intros lst Hlast. rewrite <- EQ in Hlast. rewrite znth_app_l in Hlast by lia. rewrite (H5 _ Hpc), Pa. cbn [cl_attr]. congruence.
  - (* longer *)
    replace (prevLength s <? zlen line) with true by lia. cbn [assert_ bind]. rewrite areLinesEqual_spec by lia. cbn [bind].
    destruct (cells_eqb (zfirstn (prevLength s) (prevData s)) (zfirstn (prevLength s) line)) eqn:Q; [|cbn [bind]; apply Fin; discriminate]. apply cells_eqb_eq in Q.
    destruct (@isLineBlank_spec E (prevData s) (prevLength s) (Z.min (zlen (prevData s)) (zlen line) - prevLength s) (cl_attr pc)) as (b & -> & Sb); [lia|lia|lia|]. cbn [bind].
    destruct b; [|cbn [bind]; apply Fin; discriminate]. destruct Sb as (Sb & _). specialize (Sb eq_refl).
    destruct (@isLineBlank_spec E line (prevLength s) (zlen line - prevLength s) (cl_attr pc)) as (b & -> & Sl); [lia|lia|lia|]. cbn [bind]. apply Fin. intros ->.
    destruct Sl as (Sl & _). specialize (Sl eq_refl).
    assert (Pre : forall i, i < prevLength s -> znth (prevData s) i = znth line i) by (apply firstn_nth; exact Q).
    assert (Nc : nc = mkCell 32 (cl_attr pc)) by (specialize (Sl (zlen line - 1) ltac:(lia)); congruence).
    unfold agree, s1. cbn [prevLength prevData]. rewrite zlen_app. pose proof (zlen_nonneg (zskipn (zlen line) (prevData s))). splits; try lia.
    + intros i c Hc. apply H3 in Hc. pose proof (znth_range _ _ _ Hc). destruct (Z_lt_le_dec i (zlen line)).
      * rewrite znth_app_l by lia. destruct (Z_lt_le_dec i (prevLength s)); [now rewrite <- Pre by lia|]. rewrite (Sl i) by lia. rewrite <- (Sb i) by lia. exact Hc.
      * rewrite znth_app_r by lia. rewrite znth_zskipn by lia. rewrite <- Hc. f_equal. lia.
    + intros i c Hi Hc HN. rewrite znth_app_l in Hc by lia.
      destruct (Z_lt_le_dec i (prevLength s)).
      * rewrite <- Pre in Hc by lia. apply (H4 i c ltac:(lia) Hc HN).
      * pose proof (znth_range _ _ _ Hc). rewrite (Sl i) in Hc by lia. injection Hc as <-. now rewrite (H5 _ Hpc).
    + intros lst Hlast. rewrite znth_app_l in Hlast by lia. rewrite (H5 _ Hpc). rewrite Hnc in Hlast. injection Hlast as <-. now rewrite Nc.
Qed.

Lemma agree_none a : agree newLine (mkRow nothing a).
Proof. unfold agree, nothing. cbn [newLine prevLength prevData cols colour]. change (zlen (@nil cell)) with 0. splits; try lia; auto; try (intros i c H1; discriminate); try (intros i c H1 H2; apply znth_range in H2; lia). intros l H. apply znth_range in H. lia. Qed.
Lemma history_agree s r : line_history s r -> agree s r.
Proof.
  induction 1 as [a|s r a H IH|s r a H IH|s r line s' H IH Hl Hs|s r line b s' H IH Hl Hd|s r k H IH Hk].
  - exact (agree_none a).
  - exact (agree_none a).
  - exact (agree_sent newLine (mkRow nothing a) [mkCell 32 a] (agree_none a) ltac:(cbn; lia)).
  - rewrite setLine_ok in Hs. assert (s' = mkCline (zlen line) (line ++ zskipn (zlen line) (prevData s))) by congruence. subst s'. now apply agree_sent.
  - destruct (@detect_spec unit s r line IH Hl) as (b0 & s0 & Hd0 & _ & _ & A & _). rewrite Hd in Hd0. injection Hd0 as -> ->. exact A.
  - destruct IH as (H1 & H2 & H3 & H4 & H5). unfold agree. cbn [cols colour]. splits; try lia; auto.
    + intros i c Hc. destruct (i <? k); [now apply H3|discriminate].
    + intros i c Hi Hc HN. replace (i <? k) with true in HN by lia. eauto.
Qed.
Theorem detect_correct {E} s r line : line_history s r -> 1 <= zlen line ->
  exists b s', @detectChangeAndSetLine E s line (zlen line) = Ok (b, s') /\ recorded s' = line /\
    (b = false -> shows r line) /\ (recorded s = line -> b = false).
Proof.
  intros H Hl. destruct (@detect_spec E s r line (history_agree s r H) Hl) as (b & s' & Hd & Hr & _ & A & Hn). exists b, s'. splits; auto.
  intros ->. rewrite <- Hr. now apply agree_shows.
Qed.
Theorem history_shows s r : line_history s r -> shows r (recorded s).
Proof. intros H. now apply agree_shows, history_agree. Qed.
