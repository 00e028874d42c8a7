From Verif Require Import Base BaseLemmas SmallRect SmallRectSpec.
Ltac Zify.zify_post_hook ::= Z.div_mod_to_equations.

Lemma s16_id v : short v -> s16 v = v.
Proof. unfold short. intros H. unfold s16. apply wraps_small; [lia|]. change (16 - 1) with 15. change (2 ^ 15) with 32768. lia. Qed.
Lemma s16_short v : short (s16 v).
Proof. unfold short, s16. pose proof (wraps_range 16 v ltac:(lia)) as H. change (16 - 1) with 15 in H. change (2 ^ 15) with 32768 in H. lia. Qed.
(** s16 v differs from v by a multiple of 2^16. *)
Lemma s16_mod v : exists k, s16 v = v + k * 65536.
Proof.
  unfold s16, wraps. change (2 ^ 16) with 65536. change (2 ^ (16 - 1)) with 32768.
  destruct (v mod 65536 <? 32768) eqn:E; [exists (- (v / 65536))|exists (- (v / 65536) - 1)]; lia.
Qed.
(** Sums of truncated values, truncated again, are the true value if it is a SHORT. *)
Lemma s16_sum a b : short (a + b - 1) -> short a -> s16 (a + s16 b - 1) = a + b - 1.
Proof.
  intros H Ha. destruct (s16_mod b) as [k Hk]. destruct (s16_mod (a + s16 b - 1)) as [j Hj].
  pose proof (s16_short (a + s16 b - 1)) as Hs. unfold short in *. lia.
Qed.
Lemma s16_eq a b : short b -> (exists k, a = b + k * 65536) -> s16 a = b.
Proof.
  intros H [k Hk]. destruct (s16_mod a) as [j Hj]. pose proof (s16_short a) as Hs. unfold short in *. lia.
Qed.

Lemma contains_rect_spec r o : nonempty o -> containsRect r o = true <-> (forall x y, cell_in o x y -> cell_in r x y).
Proof.
  intros [N1 N2]. unfold containsRect, cell_in. split.
  - intros H x y Hc. lia.
  - intros H. pose proof (H (rLeft o) (rTop o) ltac:(lia)). pose proof (H (rRight o) (rBottom o) ltac:(lia)). lia.
Qed.
Lemma contains_coord_spec r c : containsCoord r c = true <-> cell_in r (co_x c) (co_y c).
Proof. unfold containsCoord, cell_in. lia. Qed.

Lemma axis (a1 a2 b1 b2 : Z) : short a1 -> short a2 -> short b1 -> short b2 -> -32768 < Z.max a1 b1 ->
  forall v, (s16 (Z.max a1 b1) <= v <= s16 (s16 (Z.max a1 b1) + s16 (Z.max 0 (Z.min a2 b2 - Z.max a1 b1 + 1)) - 1)) <->
    (a1 <= v <= a2 /\ b1 <= v <= b2).
Proof.
  intros H1 H2 H3 H4 H5 v.
  rewrite (s16_id (Z.max a1 b1)) by (unfold short in *; lia).
  rewrite s16_sum by (unfold short in *; lia). lia.
Qed.
Lemma intersected_spec r o : rect_short r -> rect_short o ->
  -32768 < Z.max (rLeft r) (rLeft o) -> -32768 < Z.max (rTop r) (rTop o) ->
  rect_short (intersected r o) /\ forall x y, cell_in (intersected r o) x y <-> cell_in r x y /\ cell_in o x y.
Proof.
  intros (A1 & A2 & A3 & A4) (B1 & B2 & B3 & B4) HL HT. split.
  - unfold rect_short, intersected, SmallRect. cbn [rLeft rTop rRight rBottom]. auto using s16_short.
  - intros x y. unfold cell_in, intersected, SmallRect. cbn [rLeft rTop rRight rBottom].
    pose proof (axis _ _ _ _ A1 A3 B1 B3 HL x). pose proof (axis _ _ _ _ A2 A4 B2 B4 HT y). tauto.
Qed.

Lemma width_spec r : rect_short r -> rLeft r <= rRight r -> rRight r - rLeft r + 1 <= 32767 ->
  rWidth r = rRight r - rLeft r + 1.
Proof. intros (A1 & A2 & A3 & A4) H1 H2. unfold rWidth. apply s16_id. unfold short in *. lia. Qed.
Lemma height_spec r : rect_short r -> rTop r <= rBottom r -> rBottom r - rTop r + 1 <= 32767 ->
  rHeight r = rBottom r - rTop r + 1.
Proof. intros (A1 & A2 & A3 & A4) H1 H2. unfold rHeight. apply s16_id. unfold short in *. lia. Qed.

(** The constructor: a w by h rectangle at (x,y). *)
Lemma mk_spec x y w h : short x -> short y -> 0 <= w <= 32767 -> 0 <= h <= 32767 -> x + w - 1 <= 32767 -> y + h - 1 <= 32767 ->
  -32768 <= x + w - 1 -> -32768 <= y + h - 1 ->
  SmallRect x y w h = mkRect x y (x + w - 1) (y + h - 1).
Proof.
  intros. unfold SmallRect. rewrite !s16_id by (unfold short in *; rewrite ?s16_id by (unfold short; lia); lia). reflexivity.
Qed.

Lemma included_spec r line : rect_short r -> nonempty r -> short line ->
  let r' := ensureLineIncluded r line in
  rect_short r' /\ nonempty r' /\
  rLeft r' = rLeft r /\ rRight r' = rRight r /\
  rBottom r' - rTop r' = rBottom r - rTop r /\
  rTop r' <= line <= rBottom r' /\
  (rTop r <= line <= rBottom r -> r' = r) /\
  (line < rTop r -> rTop r' = line) /\ (rBottom r < line -> rBottom r' = line).
Proof.
  intros (A1 & A2 & A3 & A4) (N1 & N2) Hl. cbv zeta. unfold ensureLineIncluded.
  assert (Hw : s16 (rLeft r + s16 (rWidth r) - 1) = rRight r).
  { apply s16_eq; [assumption|]. unfold rWidth. destruct (s16_mod (s16 (rRight r - rLeft r + 1))) as [k Hk].
    destruct (s16_mod (rRight r - rLeft r + 1)) as [j Hj]. exists (k + j). lia. }
  destruct (line <? rTop r) eqn:E1; [|destruct (rBottom r <? line) eqn:E2].
  - assert (Hb : s16 (line + s16 (rHeight r) - 1) = line + (rBottom r - rTop r)).
    { apply s16_eq; [unfold short in *; lia|]. unfold rHeight. destruct (s16_mod (s16 (rBottom r - rTop r + 1))) as [k Hk].
      destruct (s16_mod (rBottom r - rTop r + 1)) as [j Hj]. exists (k + j). lia. }
    unfold SmallRect. rewrite (s16_id line) by assumption. rewrite (s16_id (rLeft r)) by assumption. rewrite Hw, Hb.
    unfold rect_short, nonempty. cbn [rLeft rTop rRight rBottom]. unfold short in *. intuition (try lia).
  - assert (Ht : s16 (line - rHeight r + 1) = line - (rBottom r - rTop r)).
    { apply s16_eq; [unfold short in *; lia|]. unfold rHeight.
      destruct (s16_mod (rBottom r - rTop r + 1)) as [j Hj]. exists (- j). lia. }
    assert (Hb : s16 (line - (rBottom r - rTop r) + s16 (rHeight r) - 1) = line).
    { apply s16_eq; [unfold short in *; lia|]. unfold rHeight. destruct (s16_mod (s16 (rBottom r - rTop r + 1))) as [k Hk].
      destruct (s16_mod (rBottom r - rTop r + 1)) as [j Hj]. exists (k + j). lia. }
    unfold SmallRect. rewrite Ht. rewrite (s16_id (rLeft r)) by assumption. rewrite Hw, Hb.
    unfold rect_short, nonempty. cbn [rLeft rTop rRight rBottom]. unfold short in *. intuition (try lia).
  - unfold rect_short, nonempty. intuition (try lia).
Qed.

Lemma rect_eqb_spec a b : rect_eqb a b = true <-> a = b.
Proof.
  unfold rect_eqb. destruct a as [a1 a2 a3 a4], b as [b1 b2 b3 b4]. cbn [rLeft rTop rRight rBottom]. split.
  - intros H. f_equal; lia.
  - intros H. injection H as -> -> -> ->. lia.
Qed.
Lemma coord_add_spec a b : short (co_x a + co_x b) -> short (co_y a + co_y b) ->
  coord_add a b = mkCoord (co_x a + co_x b) (co_y a + co_y b).
Proof. intros H1 H2. unfold coord_add, Coord_. now rewrite !s16_id. Qed.
Lemma set_spec r v : rect_short r -> 0 <= v -> rLeft r + v - 1 <= 32767 -> rTop r + v - 1 <= 32767 ->
  -32768 <= rLeft r + v - 1 -> -32768 <= rTop r + v - 1 ->
  setWidth r v = mkRect (rLeft r) (rTop r) (rLeft r + v - 1) (rBottom r) /\
  setHeight r v = mkRect (rLeft r) (rTop r) (rRight r) (rTop r + v - 1).
Proof.
  intros (A1 & A2 & A3 & A4) H0 H1 H2 H3 H4. unfold setWidth, setHeight.
  rewrite !s16_sum by (unfold short in *; lia). auto.
Qed.
