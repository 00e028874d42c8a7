(** Proofs about lines, the cursor and the mouse mode (C16, C19, C41). *)
From Verif Require Import Base BaseLemmas Text Unicode UnicodeSpec UnicodeProofs ConsoleLine ConsoleLineProofs Terminal TerminalSpec TerminalFeed.
Ltac Zify.zify_post_hook ::= Z.div_mod_to_equations.
Ltac splits := repeat match goal with |- _ /\ _ => split end.

(** *** The text of a line *)
Lemma masks_sweep : forallb (fun h => forallb (fun l => let u := h * 256 + l in
  Bool.eqb (Z.land u 0xF800 =? 0xD800) ((0xD800 <=? u) && (u <=? 0xDFFF)) && Bool.eqb (Z.land u 0xFC00 =? 0xD800) ((0xD800 <=? u) && (u <=? 0xDBFF))
  && Bool.eqb (Z.land u 0xFC00 =? 0xDC00) ((0xDC00 <=? u) && (u <=? 0xDFFF))) (upto 256)) (upto 256) = true.
Proof. vm_compute. reflexivity. Qed.
Lemma masks u : 0 <= u < 65536 ->
  (Z.land u 0xF800 =? 0xD800) = ((0xD800 <=? u) && (u <=? 0xDFFF)) /\ (Z.land u 0xFC00 =? 0xD800) = ((0xD800 <=? u) && (u <=? 0xDBFF))
  /\ (Z.land u 0xFC00 =? 0xDC00) = ((0xDC00 <=? u) && (u <=? 0xDFFF)).
Proof.
  intros H. pose proof (sweep 256 _ masks_sweep (u / 256) ltac:(lia)) as H1. cbn beta in H1.
  pose proof (sweep 256 _ H1 (u mod 256) ltac:(lia)) as H2. cbv beta zeta in H2. replace (u / 256 * 256 + u mod 256) with u in H2 by lia.
  rewrite !andb_true_iff, !Bool.eqb_true_iff in H2. tauto.
Qed.
Lemma unit_len cs u : unit_cells cs u -> zlen cs = 1 \/ zlen cs = 2.
Proof. intros [(c & -> & _)|(c1 & c2 & -> & _)]; auto. Qed.
Lemma at0 {E} (c : cell) l : at_ (E := E) (c :: l) 0 = Ok c.
Proof. reflexivity. Qed.
Lemma unit_full {E} cs u rest : unit_cells cs u -> isFullWidthCharacter (E := E) (cs ++ rest) (zlen (cs ++ rest)) = Ok (zlen cs =? 2).
Proof.
  unfold isFullWidthCharacter, half. intros [(c & -> & Hc & Hh)|(c1 & c2 & -> & Hc & He & Hl & Ht)].
  - destruct (_ <? 2); [reflexivity|]. cbn [app]. rewrite at0. cbn [bind]. unfold half in Hh. rewrite Hh. reflexivity.
  - rewrite zlen_app. change (zlen [c1; c2]) with 2. pose proof (zlen_nonneg rest). replace (2 + zlen rest <? 2) with false by lia.
    cbn [app]. rewrite at0. cbn [bind]. rewrite Hl. unfold at_. cbn [znth Z.eqb Z.sub Z.add Z.opp]. 
    change (znth (c1 :: c2 :: rest) 1) with (Some c2). cbn [bind]. rewrite Ht, He, Z.eqb_refl. reflexivity.
Qed.
Lemma unit_w1 cs u : unit_cells cs u -> (if zlen cs =? 2 then 2 else 1) = zlen cs.
Proof. intros H. apply unit_len in H. destruct (zlen cs =? 2) eqn:E; lia. Qed.
Lemma unit_head cs u : unit_cells cs u -> exists c l, cs = c :: l /\ cl_ch c = u.
Proof. intros [(c & -> & Hc & _)|(c1 & c2 & -> & Hc & _)]; eauto. Qed.

Lemma text_next {E} data n ch a txt : line_text data ((n, ch, a) :: txt) ->
  exists cs rest d, data = cs ++ rest /\ zlen cs = n /\ 1 <= n /\ line_text rest txt /\ line_text cs [(n, ch, a)] /\ scalar ch /\ at_ (E := E) data 0 = Ok d /\ cl_attr d = a
    /\ scanUnicodeScalarValue (E := E) data (zlen data) = Ok (n, ch).
Proof.
  intros H. remember ((n, ch, a) :: txt) as L eqn:EL. destruct H as [|cs u a' rest txt' Hu Hs Hc Hh Hr|cs1 u1 cs2 u2 a' rest txt' H1 H2 Hc1 Hc2 Hh Hr]; [discriminate| |].
  - assert (E2 : txt' = txt) by congruence. assert (E3 : u = ch) by congruence. assert (E4 : a' = a) by congruence. assert (E5 : zlen cs = n) by congruence. clear EL. subst u a' txt' n.
    exists cs, rest, (mkCell ch a). destruct (unit_head _ _ Hc) as (c & l & -> & Hch). cbn in Hh. injection Hh as ->. pose proof (unit_len _ _ Hc) as Hl.
    pose proof (zlen_nonneg rest). splits; auto; [lia|rewrite <- (app_nil_r (_ :: l)) at 1; now apply lt_bmp; auto; constructor|unfold scalar, surrogate in *; lia|].
    unfold scanUnicodeScalarValue. rewrite (unit_full _ _ rest Hc). replace (1 <=? zlen ((mkCell ch a :: l) ++ rest)) with true by (rewrite zlen_app; lia).
    cbn [assert_ bind]. rewrite (unit_w1 _ _ Hc). cbn [app]. rewrite at0. cbn [bind cl_ch].
    destruct (masks ch Hu) as (-> & _). unfold surrogate in Hs. replace ((0xD800 <=? ch) && (ch <=? 0xDFFF)) with false by lia. reflexivity.
  - set (cp := 65536 + (u1 - 0xD800) * 1024 + (u2 - 0xDC00)) in EL. assert (Ecp : cp = 65536 + (u1 - 0xD800) * 1024 + (u2 - 0xDC00)) by reflexivity. clearbody cp.
    set (m := zlen cs1 + zlen cs2) in EL. assert (Em : m = zlen cs1 + zlen cs2) by reflexivity. clearbody m. injection EL as -> -> -> ->. subst n ch.
    exists (cs1 ++ cs2), rest, (mkCell u1 a). destruct (unit_head _ _ Hc1) as (c & l & -> & Hch). cbn in Hh. injection Hh as ->.
    pose proof (unit_len _ _ Hc1) as Hl1. pose proof (unit_len _ _ Hc2) as Hl2. pose proof (zlen_nonneg rest).
    splits; auto; [now rewrite app_assoc|now rewrite zlen_app|lia|rewrite <- (app_nil_r cs2) at 1; now apply lt_pair; auto; constructor|unfold scalar, surrogate in *; lia|].
    unfold scanUnicodeScalarValue. rewrite (unit_full _ _ (cs2 ++ rest) Hc1).
    replace (1 <=? zlen ((mkCell u1 a :: l) ++ cs2 ++ rest)) with true by (rewrite zlen_app; rewrite zlen_app; lia).
    cbn [assert_ bind]. rewrite (unit_w1 _ _ Hc1). cbn [app]. rewrite at0. cbn [bind cl_ch].
    destruct (masks u1 ltac:(lia)) as (-> & -> & _). replace ((0xD800 <=? u1) && (u1 <=? 0xDFFF)) with true by lia. replace ((0xD800 <=? u1) && (u1 <=? 0xDBFF)) with true by lia. cbn [negb orb].
    change (mkCell u1 a :: l ++ cs2 ++ rest) with ((mkCell u1 a :: l) ++ cs2 ++ rest). set (cs1 := mkCell u1 a :: l) in *.
    rewrite !zlen_app. replace (zlen cs1 + (zlen cs2 + zlen rest) <=? zlen cs1) with false by lia. cbn [orb].
    destruct (unit_head _ _ Hc2) as (c2 & l2 & E2 & Hch2). unfold at_. rewrite znth_app_r by lia. replace (zlen cs1 - zlen cs1) with 0 by lia.
    rewrite E2 at 1. cbn [app]. change (znth (c2 :: l2 ++ rest) 0) with (Some c2). cbn [bind]. rewrite Hch2.
    destruct (masks u2 ltac:(lia)) as (_ & _ & ->). replace ((0xDC00 <=? u2) && (u2 <=? 0xDFFF)) with true by lia. cbn [negb].
    rewrite zskipn_app_exact by reflexivity. replace (zlen cs1 + (zlen cs2 + zlen rest) - zlen cs1) with (zlen (cs2 ++ rest)) by (rewrite zlen_app; lia).
    rewrite (unit_full _ _ rest Hc2). cbn [bind]. rewrite (unit_w1 _ _ Hc2). do 2 f_equal.
    unfold decodeSurrogatePair. rewrite Z.shiftl_mul_pow2 by lia. change (2^10) with 1024. unfold u32. rewrite wrapu_small by lia. lia.
Qed.
Lemma text_nil data : line_text data [] -> data = [].
Proof. intros H. now inversion H. Qed.
Lemma text_nil_l txt : line_text [] txt -> txt = [].
Proof.
  intros H. destruct txt as [|((n, ch), a) t]; [reflexivity|]. destruct (@text_next unit _ _ _ _ _ H) as (cs & rest & d & E & En & Hn & _).
  destruct cs; [change (zlen (@nil cell)) with 0 in En; lia|discriminate].
Qed.
Lemma unit_det cs u cs' u' r r' : unit_cells cs u -> unit_cells cs' u' -> cs ++ r = cs' ++ r' -> cs = cs' /\ u = u' /\ r = r'.
Proof.
  unfold half. intros [(c & -> & Hc & Hh)|(c1 & c2 & -> & Hc & _ & Hl & _)] [(c' & -> & Hc' & Hh')|(c1' & c2' & -> & Hc' & _ & Hl' & _)] E; cbn in E.
  - injection E as <- <-. subst. auto.
  - injection E as <- E. unfold half in *. congruence.
  - injection E as <- E. unfold half in *. congruence.
  - injection E as <- <- <-. subst. auto.
Qed.
(** A line that starts with the cells of another one has its text as a start. *)
Lemma text_prefix a ta : line_text a ta -> forall b t, line_text (a ++ b) t -> exists tb, t = ta ++ tb /\ line_text b tb.
Proof.
  induction 1 as [|cs u at_' rest txt Hu Hs Hc Hh Hr IH|cs1 u1 cs2 u2 at_' rest txt H1 H2 Hc1 Hc2 Hh Hr IH]; intros b t Ht; [exists t; split; [reflexivity|exact Ht]| |].
  - rewrite <- app_assoc in Ht. inversion Ht as [E|cs' u' a'' rest' txt' Hu' Hs' Hc' Hh' Hr' E1 E2|cs1' u1' cs2' u2' a'' rest' txt' H1' H2' Hc1' Hc2' Hh' Hr' E1 E2]; subst.
    + destruct (unit_head _ _ Hc) as (c & l & -> & _). discriminate.
    + destruct (unit_det _ _ _ _ _ _ Hc' Hc E1) as (-> & -> & ->). destruct (IH _ _ Hr') as (t2 & -> & Ht2). rewrite Hh' in Hh. injection Hh as ->. exists t2. split; [reflexivity|exact Ht2].
    + destruct (unit_det _ _ _ _ _ _ Hc1' Hc E1) as (-> & -> & _). unfold surrogate in Hs. lia.
  - rewrite <- !app_assoc in Ht. inversion Ht as [E|cs' u' a'' rest' txt' Hu' Hs' Hc' Hh' Hr' E1 E2|cs1' u1' cs2' u2' a'' rest' txt' H1' H2' Hc1' Hc2' Hh' Hr' E1 E2]; subst.
    + destruct (unit_head _ _ Hc1) as (c & l & -> & _). discriminate.
    + destruct (unit_det _ _ _ _ _ _ Hc' Hc1 E1) as (-> & -> & _). unfold surrogate in Hs'. lia.
    + destruct (unit_det _ _ _ _ _ _ Hc1' Hc1 E1) as (-> & -> & E2). destruct (unit_det _ _ _ _ _ _ Hc2' Hc2 E2) as (-> & -> & ->).
      destruct (IH _ _ Hr') as (t2 & -> & Ht2). rewrite Hh' in Hh. injection Hh as ->. exists t2. split; [reflexivity|exact Ht2].
Qed.

Lemma look_app uc r a b : look uc r (a ++ b) = look uc r a ++ look uc r b.
Proof. induction a as [|((n, ch), x) t IH]; [reflexivity|]. cbn [app look]. rewrite IH, <- app_assoc. reflexivity. Qed.
Lemma look_len uc r data txt : line_text data txt -> zlen (look uc r txt) = zlen data.
Proof.
  revert data. induction txt as [|((n, ch), x) t IH]; intros data H; [now rewrite (text_nil _ H)|].
  destruct (@text_next unit _ _ _ _ _ H) as (cs & rest & d & -> & En & Hn & Hr & _). cbn [look]. rewrite zlen_cons, !zlen_app, (IH _ Hr). unfold zlen at 1. rewrite repeat_length. lia.
Qed.

Lemma text_app a ta : line_text a ta -> forall b tb, line_text b tb -> line_text (a ++ b) (ta ++ tb).
Proof. induction 1; intros b tb' Hb; [exact Hb| |]; cbn [app]; rewrite <- !app_assoc; constructor; auto. Qed.

(** *** Runs of spaces *)
Lemma znth_rep {A} (x : A) k c : 0 <= c < Z.of_nat k -> znth (repeat x k) c = Some x.
Proof.
  revert c. induction k as [|k IH]; intros c H; [lia|]. cbn [repeat]. destruct (Z.eq_dec c 0) as [->|]; [reflexivity|].
  replace c with (c - 1 + 1) by lia. rewrite znth_succ by lia. apply IH. lia.
Qed.
Lemma feed_spaces te : te_wid te 32 = 1 -> forall k s, s_ps s = PGround -> s_col s + Z.of_nat k <= te_w te ->
  let s' := feed te s (repeat 32 k) in
  s_ps s' = PGround /\ s_top s' = s_top s /\ s_row s' = s_row s /\ s_rend s' = s_rend s /\ s_mode s' = s_mode s /\ s_col s' = s_col s + Z.of_nat k
  /\ forall r c, s_cell s' r c = if (r =? s_row s) && (s_col s <=? c) && (c <? s_col s + Z.of_nat k) then (Blank, s_rend s) else s_cell s r c.
Proof.
  intros Hw. induction k as [|k IH]; intros s Hs Hc; cbn zeta.
  - cbn [repeat feed fold_left]. splits; auto; [lia|]. intros r c. now replace ((r =? s_row s) && (s_col s <=? c) && (c <? s_col s + Z.of_nat 0)) with false by lia.
  - cbn [repeat]. rewrite feed_cons. change (step te s 32) with (feed te s [32]). change [32] with (utf8_form 32). rewrite feed_utf8 by (auto; lia).
    rewrite print_fits by lia. rewrite Hw. set (s2 := set_at _ _ _).
    destruct (IH s2) as (E1 & E2 & E3 & E4 & E5 & E6 & E7); [exact Hs|cbn [s2 s_col set_at]; lia|]. splits; auto; [rewrite E6; cbn [s2 s_col set_at]; lia|].
    intros r c. rewrite E7. cbn [s2 s_col set_at s_row s_rend s_cell fill set_cells]. change (glyph_at 32 (c =? s_col s)) with Blank.
    destruct (r =? s_row s) eqn:Er; cbn [andb]; [|reflexivity].
    destruct ((s_col s + 1 <=? c) && (c <? s_col s + 1 + Z.of_nat k)) eqn:A, ((s_col s <=? c) && (c <? s_col s + 1)) eqn:B, ((s_col s <=? c) && (c <? s_col s + Z.of_nat (S k))) eqn:C; try reflexivity; lia.
Qed.

Lemma rend_mask a a' : 0 <= a < 65536 -> 0 <= a' < 65536 -> Z.land a COLOR_ATTRIBUTE_MASK = Z.land a' COLOR_ATTRIBUTE_MASK -> rend_of a = rend_of a'.
Proof.
  intros Ha Ha' E. set (te := mkTenv 1 1 (fun _ => 1)). set (s := mkScr 0 0 0 (fun _ _ => (Blank, rend0)) rend0 (fun _ => false) PGround).
  pose proof (color_feed te s a Ha eq_refl) as H. rewrite E, (color_feed te s a' Ha' eq_refl) in H. apply (f_equal s_rend) in H. symmetry. exact H.
Qed.
Lemma land_mask_nonneg a : 0 <= Z.land a COLOR_ATTRIBUTE_MASK.
Proof. apply Z.land_nonneg. right. unfold COLOR_ATTRIBUTE_MASK. lia. Qed.
Lemma fix_shown ch : 0 <= ch -> fixSpecialCharacters ch = shown ch.
Proof.
  intros H. unfold fixSpecialCharacters, shown. change 0x1b with 27. destruct (Z.leb_spec ch 27); [reflexivity|].
  replace (ch =? 1) with false by lia. replace (ch =? 2) with false by lia. replace (ch =? 3) with false by lia. replace (ch =? 4) with false by lia.
  replace (ch =? 5) with false by lia. replace (ch =? 6) with false by lia. now replace (ch =? 27) with false by lia.
Qed.
Lemma shown_scalar ch : scalar ch -> scalar (shown ch).
Proof.
  unfold shown, scalar. intros H. destruct (ch =? 1); [lia|]. destruct (ch =? 2); [lia|]. destruct (ch =? 3); [lia|]. destruct (ch =? 4); [lia|].
  destruct (ch =? 5); [lia|]. destruct (ch =? 6); [lia|]. destruct (ch =? 27); [lia|]. exact H.
Qed.
Lemma shown_32 ch : (shown ch =? 32) = (ch =? 32).
Proof.
  unfold shown. destruct (Z.eqb_spec ch 1) as [->|]; [reflexivity|]. destruct (Z.eqb_spec ch 2) as [->|]; [reflexivity|]. destruct (Z.eqb_spec ch 3) as [->|]; [reflexivity|].
  destruct (Z.eqb_spec ch 4) as [->|]; [reflexivity|]. destruct (Z.eqb_spec ch 5) as [->|]; [reflexivity|]. destruct (Z.eqb_spec ch 6) as [->|]; [reflexivity|].
  destruct (Z.eqb_spec ch 27) as [->|]; [reflexivity|]. reflexivity.
Qed.
Lemma encode_some ch : scalar ch -> match encodeUtf8 ch with [] => [63] | _ => encodeUtf8 ch end = utf8_form ch.
Proof.
  intros H. rewrite (encodeUtf8_form _ H). unfold utf8_form. destruct (ch <? 128); [reflexivity|]. destruct (ch <? 2048); [reflexivity|]. destruct (ch <? 65536); reflexivity.
Qed.

(** *** The loop over a line *)
Section Loop.
Variable te : tenv.
Hypothesis Hte : tenv_ok te.
Variable s0 : scr.
Hypothesis Hs0 : s_ps s0 = PGround.
Variables (uc : bool) (data : list cell) (start : Z).
Hypothesis Hstart : 0 <= start < zlen data.
Hypothesis Hwidth : zlen data <= te_w te.
Local Notation W := (te_w te).
Local Notation row := (s_row s0).
Local Notation lk := (look uc (s_rend s0)).

Definition LI (i : Z) (done : list (Z * Z * Z)) (s : sl) (r : rend) : Prop :=
  exists out k, 0 <= k <= i /\ sl_buf s = out ++ repeat 32 (Z.to_nat k) /\ sl_len s = zlen out /\ sl_cells s = i - k /\ zlen (lk done) = i /\ start <= i - k /\ line_text (zfirstn i data) done /\ (exists d1 d2, done = d1 ++ d2 /\ line_text (zfirstn (i - k) data) d1) /\
  let s1 := feed te s0 out in
  s_ps s1 = PGround /\ s_row s1 = row /\ s_top s1 = s_top s0 /\ s_mode s1 = s_mode s0 /\ s_col s1 = i - k /\ s_rend s1 = r /\
  (forall r' c, r' <> row -> s_cell s1 r' c = s_cell s0 r' c) /\
  (forall c, 0 <= c < i - k -> znth (lk done) c = Some (s_cell s1 row c)) /\
  (forall c, i - k <= c < i -> znth (lk done) c = Some (Blank, r)) /\
  (uc = true -> sl_color s = -1 \/ exists a, 0 <= a < 65536 /\ sl_color s = Z.land a COLOR_ATTRIBUTE_MASK /\ r = rend_of a) /\
  (uc = false -> r = s_rend s0) /\
  (sl_erased s = true -> i = zlen data /\ k = 0 /\ forall c, i <= c < W -> s_cell s1 row c = (Blank, r)) /\
  (sl_erased s = false -> i - k < zlen data).

Definition color_step (i : Z) (color : Z) (s : sl) : sl :=
  if uc && negb (color =? sl_color s) then let b := sl_buf s ++ outputSetColor color in mkSl b (zlen b) i (sl_erased s) color else s.
Definition char_step (width i n ch : Z) (s : sl) : sl :=
  if ch =? 32 then mkSl (sl_buf s ++ [32]) (sl_len s) (sl_cells s) (sl_erased s) (sl_color s)
  else
    let last := i + n =? width in
    let b := if last && negb false then sl_buf s ++ eol_seq else sl_buf s in
    let enc := encodeUtf8 (fixSpecialCharacters ch) in
    let enc := match enc with [] => [63] | _ => enc end in
    let b := b ++ enc in
    mkSl b (zlen b) (i + n) (sl_erased s || last) (sl_color s).

Lemma LI_color i done s r a : LI i done s r -> i < zlen data -> 0 <= a < 65536 -> LI i done (color_step i (Z.land a COLOR_ATTRIBUTE_MASK) s) (rend_for uc (s_rend s0) a).
Proof using Hte Hs0 Hwidth Hstart.
  intros HL Hi Ha. unfold color_step. destruct (Bool.bool_dec uc true) as [Euc|Euc]; [|apply Bool.not_true_is_false in Euc].
  2: { replace (uc && negb (Z.land a COLOR_ATTRIBUTE_MASK =? sl_color s)) with false by now rewrite Euc.
       replace (rend_for uc (s_rend s0) a) with (s_rend s0) by (unfold rend_for; now rewrite Euc). assert (r = s_rend s0) as <-; [|exact HL]. destruct HL as (out & k & HL). cbv zeta in HL. apply HL. exact Euc. }
  destruct HL as (out & k & Hk & Hb & Hl & Hc & Hn & Hst & Hlt & Hd & P1 & P2 & P3 & P4 & P5 & P6 & P7 & P8 & P9 & P10 & P11 & P12 & P13).
  set (s1 := feed te s0 out) in *. replace (rend_for uc (s_rend s0) a) with (rend_of a) by (unfold rend_for; now rewrite Euc).
  replace (uc && negb (Z.land a COLOR_ATTRIBUTE_MASK =? sl_color s)) with (negb (Z.land a COLOR_ATTRIBUTE_MASK =? sl_color s)) by now rewrite Euc.
  assert (Er : sl_erased s = false) by (destruct (sl_erased s) eqn:E; [destruct (P12 eq_refl); lia|reflexivity]).
  destruct (Z.eqb_spec (Z.land a COLOR_ATTRIBUTE_MASK) (sl_color s)) as [Ec|Nc]; cbn [negb].
  - assert (r = rend_of a) as <-.
    { destruct (P10 Euc) as [E|(a' & Ha' & E & ->)]; [pose proof (land_mask_nonneg a); lia|]. apply rend_mask; auto. congruence. }
    exists out, k. cbv zeta. fold s1. splits; auto; lia.
  - destruct Hte as (Hw & Hh & Hw1).
    exists (sl_buf s ++ outputSetColor (Z.land a COLOR_ATTRIBUTE_MASK)), 0. cbn [sl_buf sl_len sl_cells sl_erased sl_color Z.to_nat repeat].
    rewrite app_nil_r, !Z.sub_0_r. rewrite Hb, !feed_app. fold s1.
    destruct (feed_spaces te Hw1 (Z.to_nat k) s1 P1 ltac:(lia)) as (Q1 & Q2 & Q3 & Q4 & Q5 & Q6 & Q7).
    set (s2 := feed te s1 (repeat 32 (Z.to_nat k))) in *. rewrite (color_feed te s2 a Ha Q1).
    cbv zeta. cbn [set_rend s_ps s_row s_top s_mode s_col s_rend s_cell]. splits; auto; try lia; try congruence.
    + exists done, []. rewrite app_nil_r. auto.
    + intros r' c Hr. rewrite Q7. replace (r' =? s_row s1) with false by lia. cbn [andb]. now apply P7.
    + intros c Hcc. rewrite Q7, P2, Z.eqb_refl, P5. cbn [andb]. destruct (Z.ltb_spec c (i - k)).
      * replace (i - k <=? c) with false by lia. cbn [andb]. apply P8. lia.
      * replace ((i - k <=? c) && (c <? i - k + Z.of_nat (Z.to_nat k))) with true by lia. rewrite P6. apply P9. lia.
    + intros. right. exists a. auto.
Qed.

Lemma LI_char i done s r n ch a cs rest : LI i done s r -> r = rend_for uc (s_rend s0) a -> showable te (n, ch, a) -> scalar ch -> zskipn i data = cs ++ rest -> line_text cs [(n, ch, a)] -> zlen cs = n -> i < zlen data ->
  LI (i + n) (done ++ [(n, ch, a)]) (char_step (zlen data) i n ch s) r /\ snd (last (lk (done ++ [(n, ch, a)])) (Blank, s_rend s0)) = r.
Proof using Hte Hs0 Hwidth Hstart.
  intros (out & k & Hk & Hb & Hl & Hc & Hn & Hst & Hlt & Hd & P1 & P2 & P3 & P4 & P5 & P6 & P7 & P8 & P9 & P10 & P11 & P12 & P13) Hr (S1 & S2 & S3 & S4 & S5) Hsc Hskip Htc Hcs Hi.
  set (s1 := feed te s0 out) in *. destruct Hte as (Hw & Hh & Hw1).
  assert (Er : sl_erased s = false) by (destruct (sl_erased s) eqn:E; [destruct (P12 eq_refl); lia|reflexivity]).
  assert (Hfit : i + n <= zlen data).
  { apply (f_equal zlen) in Hskip. rewrite zlen_app, zlen_zskipn in Hskip by lia. pose proof (zlen_nonneg rest). lia. }
  assert (Elk : lk (done ++ [(n, ch, a)]) = lk done ++ (glyph_at (shown ch) true, r) :: repeat (glyph_at (shown ch) false, r) (Z.to_nat (n - 1))).
  { rewrite look_app. cbn [look]. rewrite app_nil_r, <- Hr. reflexivity. }
  assert (Enth : forall c, znth (lk (done ++ [(n, ch, a)])) c = if c <? i then znth (lk done) c else if c =? i then Some (glyph_at (shown ch) true, r) else if c <? i + n then Some (glyph_at (shown ch) false, r) else None).
  { intros c. rewrite Elk. destruct (Z.ltb_spec c i); [destruct (Z.ltb_spec c 0); [unfold znth; now replace (c <? 0) with true by lia|apply znth_app_l; lia]|]. rewrite znth_app_r by lia. rewrite Hn.
    destruct (Z.eqb_spec c i) as [->|]; [replace (i - i) with 0 by lia; reflexivity|].
    replace (c - i) with (c - i - 1 + 1) by lia. rewrite znth_succ by lia.
    destruct (Z.ltb_spec c (i + n)); [apply znth_rep; lia|]. apply znth_none. unfold zlen. rewrite repeat_length. lia. }
  split.
  2: { rewrite Elk. clear. induction (lk done) as [|x l IH].
       - cbn [app]. destruct (Z.to_nat (n - 1)) as [|m]; [reflexivity|]. assert (G : forall m x, snd (last (x :: repeat (glyph_at (shown ch) false, r) m) (Blank, s_rend s0)) = snd x \/ snd (last (x :: repeat (glyph_at (shown ch) false, r) m) (Blank, s_rend s0)) = r).
         { clear. induction m as [|m IH]; intros x; [now left|]. right. cbn [repeat]. change (last (x :: ?y :: ?l) ?d) with (last (y :: l) d). destruct (IH (glyph_at (shown ch) false, r)) as [E|E]; exact E. }
         destruct (G (S m) (glyph_at (shown ch) true, r)) as [E|E]; exact E.
       - cbn [app]. destruct (l ++ _) eqn:E; [destruct l; discriminate|]. exact IH. }
  assert (Hlen : zlen (lk (done ++ [(n, ch, a)])) = i + n).
  { rewrite Elk, zlen_app, zlen_cons, Hn. unfold zlen. rewrite repeat_length. lia. }
  assert (Hlt2 : line_text (zfirstn (i + n) data) (done ++ [(n, ch, a)])).
  { replace (zfirstn (i + n) data) with (zfirstn i data ++ cs); [now apply text_app|]. rewrite <- (zfirstn_zskipn i data) at 2. rewrite Hskip, app_assoc. symmetry.
    apply zfirstn_app_exact. rewrite zlen_app, zlen_zfirstn by lia. lia. }
  unfold char_step. destruct (Z.eqb_spec ch 32) as [->|N32].
  - exists out, (k + 1). cbn [sl_buf sl_len sl_cells sl_erased sl_color]. change (shown 32) with 32 in *. rewrite Hw1 in S3. assert (En1 : n = 1) by lia. clear Hcs S3. subst n.
    cbv zeta. fold s1. splits; auto; try lia; try congruence.
    + rewrite Hb, <- app_assoc. f_equal. replace (Z.to_nat (k + 1)) with (Z.to_nat k + 1)%nat by lia. rewrite repeat_app. reflexivity.
    + destruct Hd as (d1 & d2 & -> & Hd1). exists d1, (d2 ++ [(1, 32, a)]). split; [now rewrite app_assoc|]. now replace (i + 1 - (k + 1)) with (i - k) by lia.
    + intros c Hcc. rewrite Enth. replace (c <? i) with true by lia. apply P8. lia.
    + intros c Hcc. rewrite Enth. destruct (Z.ltb_spec c i); [apply P9; lia|]. replace (c =? i) with true by lia. reflexivity.
  - set (b := if (i + n =? zlen data) && negb false then sl_buf s ++ eol_seq else sl_buf s).
    assert (Hch0 : 0 <= ch) by (unfold scalar in Hsc; lia). rewrite (fix_shown ch Hch0), (encode_some _ (shown_scalar _ Hsc)).
    exists (b ++ utf8_form (shown ch)), 0. cbn [sl_buf sl_len sl_cells sl_erased sl_color Z.to_nat repeat]. rewrite app_nil_r, !Z.sub_0_r. rewrite !feed_app.
    destruct (feed_spaces te Hw1 (Z.to_nat k) s1 P1 ltac:(lia)) as (Q1 & Q2 & Q3 & Q4 & Q5 & Q6 & Q7).
    set (s2 := feed te s1 (repeat 32 (Z.to_nat k))) in *.
    assert (Eb : feed te s0 b = if i + n =? zlen data then fill row i W (fun _ => (Blank, r)) s2 else s2).
    { unfold b. rewrite andb_true_r. destruct (i + n =? zlen data); rewrite ?feed_app, Hb, feed_app; fold s1; fold s2; [|reflexivity].
      rewrite (feed_eol te s2 Q1). rewrite Q3, P2, Q4, P6, Q6, P5. unfold clamp_col. replace (Z.max 0 (Z.min (i - k + Z.of_nat (Z.to_nat k)) (W - 1))) with i by lia. reflexivity. }
    set (s3 := feed te s0 b) in *.
    assert (G : s_ps s3 = PGround /\ s_top s3 = s_top s0 /\ s_row s3 = row /\ s_rend s3 = r /\ s_mode s3 = s_mode s0 /\ s_col s3 = i).
    { rewrite Eb. destruct (i + n =? zlen data); unfold fill, set_cells; cbn [s_ps s_top s_row s_rend s_mode s_col]; splits; auto; try congruence; lia. }
    destruct G as (G1 & G2 & G3 & G4 & G5 & G6).
    rewrite (feed_utf8 te s3 (shown ch) G1) by (try lia; unfold scalar in Hsc; pose proof (shown_scalar _ Hsc) as Hsc'; unfold scalar in Hsc'; lia).
    rewrite print_fits by lia. rewrite S3.
    assert (Ecell : forall r' c, s_cell s3 r' c = if (i + n =? zlen data) && (r' =? row) && (i <=? c) && (c <? W) then (Blank, r) else if (r' =? row) && (i - k <=? c) && (c <? i) then (Blank, r) else s_cell s1 r' c).
    { intros r' c. rewrite Eb. destruct (i + n =? zlen data); cbn [fill set_cells s_cell andb]; rewrite Q7, P2, P5, P6; replace (i - k + Z.of_nat (Z.to_nat k)) with i by lia; reflexivity. }
    cbv zeta. cbn [set_at fill set_cells s_ps s_row s_top s_mode s_col s_rend s_cell]. rewrite G3, G4, G6. splits; auto; try lia; try congruence.
    + exists (done ++ [(n, ch, a)]), []. rewrite app_nil_r. auto.
    + intros r' c Hne. replace (r' =? row) with false by lia. cbn [andb]. rewrite Ecell. replace (r' =? row) with false by lia. rewrite andb_false_r. cbn [andb]. now apply P7.
    + intros c Hcc. rewrite Enth, Z.eqb_refl. cbn [andb]. destruct (Z.ltb_spec c i).
      * replace (i <=? c) with false by lia. cbn [andb]. rewrite Ecell, Z.eqb_refl. replace (i <=? c) with false by lia. rewrite !andb_false_r. cbn [andb].
        destruct (Z.leb_spec (i - k) c); [replace (c <? i) with true by lia; apply P9; lia|apply P8; lia].
      * replace (i <=? c) with true by lia. replace (c <? i + n) with true by lia. cbn [andb]. destruct (c =? i); reflexivity.
    + rewrite Er. cbn [orb]. intros El. splits; [lia|auto|]. intros c Hcc. rewrite Z.eqb_refl. cbn [andb]. replace (c <? i + n) with false by lia. rewrite andb_false_r.
      rewrite Ecell, El, Z.eqb_refl. replace ((i <=? c) && (c <? W)) with true by lia. cbn [andb]. now replace ((i <=? c) && (c <? W)) with true by lia.
Qed.

Lemma loop_ok {E} : forall fuel rem i done s r, LI i done s r -> line_text (zskipn i data) rem -> Forall (showable te) rem -> 0 <= i <= zlen data -> zlen data - i < Z.of_nat fuel ->
  exists s' r', send_loop (E := E) fuel false uc data (zlen data) i s = Ok s' /\ LI (zlen data) (done ++ rem) s' r'
    /\ (rem <> [] -> snd (last (lk (done ++ rem)) (Blank, s_rend s0)) = r') /\ (rem = [] -> r' = r).
Proof using Hte Hs0 Hwidth Hstart.
  induction fuel as [|f IH]; intros rem i done s r HL Ht Hsh Hi Hf; [lia|]. cbn [send_loop].
  destruct rem as [|((n, ch), a) rem].
  - apply text_nil in Ht. assert (i = zlen data) as ->. { apply (f_equal zlen) in Ht. rewrite zlen_zskipn in Ht by lia. change (zlen (@nil cell)) with 0 in Ht. lia. }
    rewrite Z.ltb_irrefl. cbn [negb]. exists s, r. rewrite app_nil_r. splits; auto. congruence.
  - destruct (@text_next E _ _ _ _ _ Ht) as (cs & rest & d & Es & En & Hn & Hr & Ht1 & Hsc & Hat & Ha & Hscan).
    assert (Hi2 : i + n <= zlen data).
    { apply (f_equal zlen) in Es. rewrite zlen_app, zlen_zskipn in Es by lia. pose proof (zlen_nonneg rest). lia. }
    replace (i <? zlen data) with true by lia. cbn [negb].
    assert (Hat2 : at_ (E := E) data i = Ok d). { unfold at_ in *. rewrite znth_zskipn in Hat by lia. now replace (i + 0) with i in Hat by lia. }
    rewrite Hat2. cbn [bind]. replace (zlen data - i) with (zlen (zskipn i data)) by (rewrite zlen_zskipn; lia). rewrite Hscan. cbn [bind]. subst a.
    inversion Hsh as [|x l Hs1 Hs2]; subst x l. assert (Ha : 0 <= cl_attr d < 65536) by apply Hs1.
    change (if uc && negb (Z.land (cl_attr d) COLOR_ATTRIBUTE_MASK =? sl_color s) then _ else s) with (color_step i (Z.land (cl_attr d) COLOR_ATTRIBUTE_MASK) s).
    pose proof (LI_color i done s r (cl_attr d) HL ltac:(lia) Ha) as HL2. set (s2 := color_step _ _ _) in *.
    destruct (LI_char i done s2 _ n ch (cl_attr d) cs rest HL2 eq_refl Hs1 Hsc Es Ht1 En ltac:(lia)) as (HL3 & Hlast).
    change (if ch =? 32 then _ else _) with (char_step (zlen data) i n ch s2). set (s3 := char_step _ _ _ _ _) in *.
    destruct (IH rem (i + n) (done ++ [(n, ch, cl_attr d)]) s3 _ HL3) as (s' & r' & H1 & H2 & H3 & H4); try lia; auto.
    { replace (zskipn (i + n) data) with rest; [exact Hr|]. rewrite <- zskipn_zskipn by lia. rewrite Es, zskipn_app_exact by congruence. reflexivity. }
    exists s', r'. rewrite <- app_assoc in H2, H3. cbn [app] in H2, H3. splits; auto; [|discriminate]. intros _. destruct rem as [|x l]; [|apply H3; discriminate].
    rewrite H4 by reflexivity. exact Hlast.
Qed.
End Loop.

(** *** The relation between the object and the terminal *)
Section Rel.
Variable te : tenv.
Hypothesis Hte : tenv_ok te.
Variable s0 : scr.
Variables (uc strict : bool).
Local Notation W := (te_w te).
Local Notation scn := (screen te s0).

Definition pos_ok off t (sc : scr) : Prop :=
  s_ps sc = PGround /\ s_row sc = off + t_line t /\ s_top sc <= s_row sc < s_top sc + te_h te /\ s_col sc = t_col t /\ 0 <= t_col t <= W.
Definition color_ok t (sc : scr) : Prop :=
  uc = true -> t_color t = -1 \/ exists a, 0 <= a < 65536 /\ t_color t = Z.land a COLOR_ATTRIBUTE_MASK /\ s_rend sc = rend_of a.
Definition data_ok t (sc : scr) : Prop :=
  t_valid t = true -> zlen (t_data t) = t_col t /\ exists txt, line_text (t_data t) txt
    /\ forall c, 0 <= c < t_col t -> znth (look uc (s_rend sc) txt) c = Some (s_cell sc (s_row sc) c).
Definition inv off t : Prop :=
  t_plain t = false /\ t_useColor t = uc /\ pos_ok off t (scn t) /\ color_ok t (scn t) /\ data_ok t (scn t)
  /\ (strict = true -> s_mode (scn t) 25 = negb (t_hidden t)) /\ (forall m, In m mouse_reporting -> s_mode (scn t) m = t_mouse t).

Lemma scn_write bs t : scn (write bs t) = feed te (scn t) bs.
Proof. unfold screen. cbn [write t_out]. apply feed_app. Qed.

(** Hiding the cursor *)
Lemma hide_fields t : let t' := hideTerminalCursor t in
  t_line t' = t_line t /\ t_col t' = t_col t /\ t_valid t' = t_valid t /\ t_data t' = t_data t /\ t_color t' = t_color t /\ t_plain t' = t_plain t /\ t_useColor t' = t_useColor t /\ t_mouse t' = t_mouse t.
Proof. cbv zeta. unfold hideTerminalCursor. destruct (t_plain t) eqn:E; [splits; auto|]. destruct (t_hidden t); splits; auto. Qed.
Lemma hide_inv off t : inv off t -> inv off (hideTerminalCursor t) /\ t_hidden (hideTerminalCursor t) = true
  /\ s_cell (scn (hideTerminalCursor t)) = s_cell (scn t) /\ s_rend (scn (hideTerminalCursor t)) = s_rend (scn t) /\ s_top (scn (hideTerminalCursor t)) = s_top (scn t).
Proof.
  intros (I1 & I2 & I3 & I4 & I5 & I6 & I7). unfold hideTerminalCursor. rewrite I1. destruct (t_hidden t) eqn:Eh.
  - split; [|auto]. unfold inv. rewrite Eh. auto 10.
  - assert (Es : scn (set_hidden true (write hide_seq t)) = set_mode 25 false (scn t)).
    { transitivity (scn (write hide_seq t)); [reflexivity|]. rewrite scn_write. apply feed_hide. apply I3. }
    unfold inv. rewrite Es. splits; auto. intros m Hm. cbn [set_mode s_mode]. replace (m =? 25) with false; [apply I7, Hm|].
    cbn in Hm. lia.
Qed.

(** Moving to another line *)
Lemma scn_crlfs n t : s_ps (scn t) = PGround -> let s' := scn (write (concat (repeat crlf n)) t) in
  s_ps s' = PGround /\ s_row s' = s_row (scn t) + Z.of_nat n /\ s_cell s' = s_cell (scn t) /\ s_rend s' = s_rend (scn t) /\ s_mode s' = s_mode (scn t)
  /\ s_col s' = (if n then s_col (scn t) else 0) /\ s_top (scn t) <= s_top s' /\ (s_top (scn t) <= s_row (scn t) < s_top (scn t) + te_h te -> s_top s' <= s_row s' < s_top s' + te_h te)
  /\ (s_row (scn t) < s_top (scn t) + te_h te -> s_top s' = Z.max (s_top (scn t)) (s_row (scn t) + Z.of_nat n - (te_h te - 1))).
Proof using Hte.
  intros Hs. cbv zeta. rewrite scn_write. generalize dependent (scn t). clear t. intros s Hs. destruct Hte as (Hw & Hh & _).
  revert s Hs. induction n as [|n IH]; intros s Hs.
  - cbn [repeat concat feed fold_left]. splits; auto; lia.
  - cbn [repeat concat]. rewrite feed_app, (feed_crlf te s Hs). destruct (IH (linefeed te (set_at (s_row s) 0 s)) Hs) as (E1 & E2 & E3 & E4 & E5 & E6 & E7 & E8 & E9).
    cbn [linefeed set_at s_ps s_row s_cell s_rend s_mode s_col s_top] in *.
    splits; auto; try lia. rewrite E6; now destruct n.
Qed.
Lemma move_inv off t line : inv off t -> s_top (scn t) <= off + line -> t_line t - line < 2 ^ 32 ->
  let t' := moveTerminalToLine line t in
  inv off t' /\ t_line t' = line /\ s_cell (scn t') = s_cell (scn t) /\ s_rend (scn t') = s_rend (scn t) /\ (s_top (scn t) <= s_top (scn t') <= off + line)
  /\ s_top (scn t') = Z.max (s_top (scn t)) (off + line - (te_h te - 1)).
Proof using Hte.
  intros Hi Htop Hd. cbv zeta. unfold moveTerminalToLine. destruct (Z.eqb_spec line (t_line t)) as [->|Nl].
  { pose proof Hi as (_ & _ & (_ & I3b & I3c & _) & _). splits; auto; lia. }
  destruct (hide_inv off t Hi) as (H1 & H2 & H3 & H4 & H5). destruct (hide_fields t) as (F1 & F2 & F3 & F4 & F5 & F6 & F7 & F8).
  set (u := hideTerminalCursor t) in *. destruct H1 as (I1 & I2 & (I3a & I3b & I3c & I3d & I3e) & I4 & I5 & I6 & I7). rewrite I1.
  assert (G : exists v, v = (if line <? t_line u then write (up_seq (t_line u - line)) u else write (concat (repeat crlf (Z.to_nat (line - t_line u)))) u)
     /\ s_ps (scn v) = PGround /\ s_row (scn v) = off + line /\ s_cell (scn v) = s_cell (scn u) /\ s_rend (scn v) = s_rend (scn u) /\ s_mode (scn v) = s_mode (scn u)
     /\ s_col (scn v) = 0 /\ (s_top (scn u) <= s_top (scn v) /\ s_top (scn v) = Z.max (s_top (scn u)) (off + line - (te_h te - 1))) /\ s_top (scn v) <= s_row (scn v) < s_top (scn v) + te_h te
     /\ t_plain v = false /\ t_useColor v = uc /\ t_color v = t_color u /\ t_hidden v = t_hidden u /\ t_mouse v = t_mouse u).
  { eexists. split; [reflexivity|]. destruct (Z.ltb_spec line (t_line u)).
    - rewrite scn_write. unfold up_seq. change (13 :: csi (udec (u32 (t_line u - line)) ++ str "A")) with ([13] ++ CSI ++ udec (u32 (t_line u - line)) ++ [65]).
      rewrite feed_app, (feed_cr te _ I3a). replace (u32 (t_line u - line)) with (t_line u - line) by (unfold u32; rewrite wrapu_small; lia).
      rewrite feed_csi1; [|exact I3a|lia|lia]. unfold dispatch. cbn [Z.eqb Pos.eqb].
      destruct Hte as (Hw & Hh & _). cbn [set_at s_ps s_row s_cell s_rend s_mode s_col s_top arg nth_error]. replace (t_line u - line =? 0) with false by lia.
      unfold clamp_col. cbn [write t_plain t_useColor t_color t_hidden t_mouse]. splits; auto; lia.
    - destruct (scn_crlfs (Z.to_nat (line - t_line u)) u I3a) as (E1 & E2 & E3 & E4 & E5 & E6 & E7 & E8 & E9).
      cbn [write t_plain t_useColor t_color t_hidden t_mouse]. specialize (E8 I3c). splits; auto; try lia. rewrite E6. destruct (Z.to_nat (line - t_line u)) eqn:En; [lia|reflexivity]. }
  destruct G as (v & Ev & V1 & V2 & V3 & V4 & V5 & V6 & V7 & V8 & V9 & V10 & V11 & V12 & V13). rewrite <- Ev. clear Ev.
  change (scn (set_pos line 0 true [] v)) with (scn v). unfold inv, pos_ok, color_ok, data_ok. change (scn (set_pos line 0 true [] v)) with (scn v).
  cbn [set_pos t_plain t_useColor t_line t_col t_color t_valid t_data t_hidden t_mouse]. destruct Hte as (Hw & Hh & _).
  splits; auto; try lia; try congruence.
  - rewrite V11, V4. exact I4.
  - intros _. split; [reflexivity|]. exists []. split; [constructor|intros; lia].
  - intros Hst. rewrite V5, V12. now apply I6.
  - intros m Hm. rewrite V5, V13. now apply I7.
Qed.

(** Sending a line *)
Lemma cr_inv off t : inv off t -> let t' := set_pos (t_line t) 0 true [] (write [13] t) in
  inv off t' /\ s_cell (scn t') = s_cell (scn t) /\ s_rend (scn t') = s_rend (scn t) /\ s_top (scn t') = s_top (scn t).
Proof using Hte.
  intros (I1 & I2 & (I3a & I3b & I3c & I3d & I3e) & I4 & I5 & I6 & I7). cbv zeta.
  assert (Es : scn (set_pos (t_line t) 0 true [] (write [13] t)) = set_at (s_row (scn t)) 0 (scn t)).
  { transitivity (scn (write [13] t)); [reflexivity|]. rewrite scn_write. now apply feed_cr. }
  unfold inv, pos_ok, color_ok, data_ok. rewrite Es. destruct Hte as (Hw & Hh & _). cbn. splits; auto; try lia.
  intros _. split; [reflexivity|]. exists []. split; [constructor|intros; lia].
Qed.
Lemma send_ok {E} off t line data cc txt : inv off t -> s_top (scn t) <= off + line -> t_line t - line < 2 ^ 32 -> 1 <= zlen data <= W ->
  line_text data txt -> Forall (showable te) txt ->
  exists t', sendLine (E := E) line data (zlen data) cc t = Ok t' /\ inv off t' /\ t_line t' = line /\ row_shows te uc (s_rend (scn t)) txt (scn t') (off + line)
    /\ (forall r c, r <> off + line -> s_cell (scn t') r c = s_cell (scn t) r c) /\ s_top (scn t') = Z.max (s_top (scn t)) (off + line - (te_h te - 1)).
Proof using Hte.
  intros Hi Htop Hd Hlen Htxt Hshow. unfold sendLine. replace (1 <=? zlen data) with true by lia. cbn [assert_ bind].
  destruct (move_inv off t line Hi Htop Hd) as (M1 & M2 & M3 & M4 & M5 & M6). cbv zeta. set (t1 := moveTerminalToLine line t) in *. clearbody t1.
  (* the row starts with recorded cells, or the cursor goes back to column 0 *)
  assert (G : exists valid, (if t_valid t1 then
       bind (assert_ (E := E) (zlen (t_data t1) =? t_col t1)) (fun _ =>
       if 0 <? t_col t1 then
         if negb (if t_plain t1 then zlen (t_data t1) <=? zlen data else zlen (t_data t1) <? zlen data) then Ok false
         else if zlen data <? zlen (t_data t1) then UB else Ok (cells_eqb (t_data t1) (zfirstn (zlen (t_data t1)) data))
       else Ok true) else Ok false) = Ok valid /\
     let t2 := if valid then t1 else set_pos (t_line (hideTerminalCursor t1)) 0 true [] (write (if t_plain (hideTerminalCursor t1) then crlf else [13]) (hideTerminalCursor t1)) in
     inv off t2 /\ t_line t2 = line /\ t_valid t2 = true /\ s_cell (scn t2) = s_cell (scn t1) /\ s_rend (scn t2) = s_rend (scn t1) /\ s_top (scn t2) = s_top (scn t1)
     /\ exists rest, data = t_data t2 ++ rest /\ 1 <= zlen rest).
  { assert (Gcr : let t2 := set_pos (t_line (hideTerminalCursor t1)) 0 true [] (write (if t_plain (hideTerminalCursor t1) then crlf else [13]) (hideTerminalCursor t1)) in
       inv off t2 /\ t_line t2 = line /\ t_valid t2 = true /\ s_cell (scn t2) = s_cell (scn t1) /\ s_rend (scn t2) = s_rend (scn t1) /\ s_top (scn t2) = s_top (scn t1)
       /\ exists rest, data = t_data t2 ++ rest /\ 1 <= zlen rest).
    { cbv zeta. destruct (hide_inv off t1 M1) as (H1 & H2 & H3 & H4 & H5). destruct (hide_fields t1) as (F1 & F2 & F3 & F4 & F5 & F6 & F7 & F8).
      assert (P : t_plain (hideTerminalCursor t1) = false) by apply H1. rewrite P. destruct (cr_inv off _ H1) as (C1 & C2 & C3 & C4).
      splits; auto; try congruence; [cbn [set_pos t_line]; congruence|]. exists data. split; [reflexivity|lia]. }
    pose proof M1 as (I1 & I2 & I3 & I4 & I5 & _). rewrite I1.
    destruct (t_valid t1) eqn:Ev; [|exists false; split; [reflexivity|exact Gcr]].
    destruct (I5 Ev) as (E1 & tx & E2 & E3). rewrite E1, Z.eqb_refl. cbn [assert_ bind].
    destruct (Z.ltb_spec 0 (t_col t1)) as [Hpos|Hz].
    - destruct (Z.ltb_spec (t_col t1) (zlen data)) as [Hlt|Hge]; cbn [negb]; [|exists false; split; [reflexivity|exact Gcr]].
      replace (zlen data <? t_col t1) with false by lia. destruct (cells_eqb (t_data t1) (zfirstn (t_col t1) data)) eqn:Ee; [|exists false; split; [reflexivity|exact Gcr]].
      exists true. split; [reflexivity|]. cbv zeta. splits; auto. apply cells_eqb_eq in Ee. exists (zskipn (t_col t1) data). rewrite Ee, zfirstn_zskipn, zlen_zskipn by lia. split; [reflexivity|lia].
    - exists true. split; [reflexivity|]. cbv zeta. splits; auto. exists data. destruct (t_data t1) as [|x l]; [split; [reflexivity|lia]|]. rewrite zlen_cons in E1. pose proof (zlen_nonneg l). lia. }
  destruct G as (valid & Gv & Gt). rewrite Gv. cbn [bind]. clear Gv. cbv zeta in Gt.
  match type of Gt with inv off ?x /\ _ => set (t2 := x) in * end. clearbody t2. clear valid.
  destruct Gt as (K1 & K2 & K3 & K4 & K5 & K6 & rest & K7 & K8).
  pose proof K1 as (I1 & I2 & (I3a & I3b & I3c & I3d & I3e) & I4 & I5 & I6 & I7). destruct (I5 K3) as (D1 & tp & D2 & D3). rewrite I1, I2.
  assert (Ht2 := Htxt). rewrite K7 in Ht2. destruct (text_prefix _ _ D2 _ _ Ht2) as (tr & Etxt & Htr).
  assert (Hsr : Forall (showable te) tr) by (rewrite Etxt in Hshow; now apply Forall_app in Hshow).
  set (start := zlen (t_data t2)) in *. assert (Hst : 0 <= start < zlen data) by (rewrite K7, zlen_app; pose proof (zlen_nonneg (t_data t2)); unfold start; lia).
  assert (Htr2 : line_text (zskipn start data) tr) by (rewrite K7, zskipn_app_exact by reflexivity; exact Htr).
  assert (Hfn : zfirstn start data = t_data t2) by (rewrite K7; now apply zfirstn_app_exact).
  (* the loop, whatever the cursor's visibility *)
  assert (LOOP : forall sq, s_ps sq = PGround -> s_row sq = s_row (scn t2) -> s_col sq = s_col (scn t2) -> s_cell sq = s_cell (scn t2) -> s_rend sq = s_rend (scn t2) ->
    exists s' r', send_loop (E := E) (Z.to_nat (zlen data) + 1) false uc data (zlen data) start (mkSl [] 0 start false (t_color t2)) = Ok s'
     /\ LI te sq uc data start (zlen data) txt s' r' /\ snd (last (look uc (s_rend sq) txt) (Blank, s_rend sq)) = r').
  { intros sq Q1 Q2 Q3 Q4 Q5. destruct (loop_ok te Hte sq Q1 uc data start Hst (proj2 Hlen) (E := E) (Z.to_nat (zlen data) + 1) tr start tp (mkSl [] 0 start false (t_color t2)) (s_rend sq)) as (s' & r' & L1 & L2 & L3 & _); auto; try lia.
    - exists [], 0. cbn [sl_buf sl_len sl_cells sl_erased sl_color Z.to_nat repeat app feed fold_left]. rewrite !Z.sub_0_r. splits; auto; try lia.
      + rewrite (look_len uc (s_rend sq) _ _ D2). reflexivity.
      + now rewrite Hfn.
      + exists tp, []. rewrite app_nil_r, Hfn. auto.
      + intros c Hc. rewrite Q5, Q4, Q2. apply D3. unfold start in Hc. lia.
      + rewrite Q5. exact I4.
    - exists s', r'. rewrite <- Etxt in L2, L3. splits; auto. apply L3. intros ->. apply text_nil in Htr. subst rest. change (zlen (@nil cell)) with 0 in K8. lia. }
  destruct (LOOP (scn t2)) as (s' & r0 & L1 & _); auto. rewrite L1. cbn [bind].
  set (t3 := set_color (sl_color s') t2). change (t_plain t3) with (t_plain t2).
  match goal with |- context [if negb (cc =? -1) && ?b then ?x else ?y] => set (t4 := if negb (cc =? -1) && b then x else y) end.
  assert (H4 : t_line t4 = t_line t2 /\ t_col t4 = t_col t2 /\ t_valid t4 = true /\ t_data t4 = t_data t2 /\ t_color t4 = sl_color s' /\ t_plain t4 = false /\ t_useColor t4 = uc /\ t_mouse t4 = t_mouse t2
     /\ (strict = true -> s_mode (scn t4) 25 = negb (t_hidden t4)) /\ (forall m, In m mouse_reporting -> s_mode (scn t4) m = t_mouse t2)
     /\ s_ps (scn t4) = PGround /\ s_row (scn t4) = s_row (scn t2) /\ s_col (scn t4) = s_col (scn t2) /\ s_cell (scn t4) = s_cell (scn t2) /\ s_rend (scn t4) = s_rend (scn t2) /\ s_top (scn t4) = s_top (scn t2)).
  { unfold t4. destruct (negb (cc =? -1) && _); [|unfold t3; cbn [set_color t_line t_col t_valid t_data t_color t_plain t_useColor t_mouse t_hidden]; splits; auto].
    unfold hideTerminalCursor. change (t_plain t3) with (t_plain t2). change (t_hidden t3) with (t_hidden t2). rewrite I1. destruct (t_hidden t2) eqn:Eh.
    - unfold t3; cbn [set_color t_line t_col t_valid t_data t_color t_plain t_useColor t_mouse t_hidden]. rewrite Eh. splits; auto.
    - assert (Es : scn (set_hidden true (write hide_seq t3)) = set_mode 25 false (scn t2)).
      { transitivity (scn (write hide_seq t2)); [reflexivity|]. rewrite scn_write. now apply feed_hide. }
      rewrite Es. cbn. splits; auto. intros m Hm. replace (m =? 25) with false by lia. now apply I7. }
  clearbody t4. clear t3. destruct H4 as (T1 & T2 & T3 & T4 & T5 & T6 & T7 & T8 & T9 & T10 & T11 & T12 & T13 & T14 & T15 & T16).
  destruct (LOOP (scn t4)) as (s'' & r & L1' & L2 & L3); auto. rewrite L1 in L1'. injection L1' as <-.
  destruct L2 as (out & k & Hk & Hb & Hl & Hc & Hn & Hs2 & Hlt & Hdd & P1 & P2 & P3 & P4 & P5 & P6 & P7 & P8 & P9 & P10 & P11 & P12 & P13).
  set (s1 := feed te (scn t4) out) in *. change (t_plain (write ?x t4)) with (t_plain t4). rewrite T6.
  assert (Ebuf : zfirstn (sl_len s') (sl_buf s') = out) by (rewrite Hb; now apply zfirstn_app_exact). rewrite Ebuf.
  match goal with |- context [assert_ (sl_cells s' <=? zlen data)] => replace (sl_cells s' <=? zlen data) with true by lia end. cbn [assert_ bind].
  match goal with |- context [set_pos (t_line ?x) (sl_cells s')] => set (t5 := x) end.
  assert (H5 : t_line t5 = t_line t2 /\ t_valid t5 = true /\ t_data t5 = t_data t2 /\ t_color t5 = sl_color s' /\ t_plain t5 = false /\ t_useColor t5 = uc /\ t_mouse t5 = t_mouse t2 /\ t_hidden t5 = t_hidden t4
     /\ scn t5 = if sl_erased s' then s1 else fill (s_row s1) (clamp_col te (s_col s1)) W (fun _ => (Blank, r)) s1).
  { unfold t5. destruct (sl_erased s'); cbn [negb andb].
    - cbn [write t_line t_valid t_data t_color t_plain t_useColor t_mouse t_hidden]. splits; auto. apply scn_write.
    - cbn [write t_line t_valid t_data t_color t_plain t_useColor t_mouse t_hidden]. splits; auto. rewrite scn_write, scn_write. fold s1. rewrite feed_eol by exact P1. now rewrite P6. }
  clearbody t5. destruct H5 as (U1 & U2 & U3 & U4 & U5 & U6 & U7 & U8 & U9).
  assert (Hrow : s_row (scn t4) = off + line) by congruence. destruct Hte as (Hw & Hh & Hw1).
  assert (V : s_ps (scn t5) = PGround /\ s_row (scn t5) = off + line /\ s_top (scn t5) = s_top (scn t2) /\ s_mode (scn t5) = s_mode (scn t4) /\ s_col (scn t5) = zlen data - k /\ s_rend (scn t5) = r
     /\ (forall r' c, r' <> off + line -> s_cell (scn t5) r' c = s_cell (scn t2) r' c)
     /\ (forall c, 0 <= c < zlen data - k -> s_cell (scn t5) (off + line) c = s_cell s1 (off + line) c)
     /\ (forall c, zlen data - k <= c < W -> s_cell (scn t5) (off + line) c = (Blank, r))).
  { rewrite U9. destruct (sl_erased s') eqn:Ee.
    - destruct (P12 eq_refl) as (_ & -> & P12'). splits; auto; try congruence.
      + intros r' c Hr'. rewrite P7 by congruence. now rewrite T14.
      + intros c Hcc. rewrite <- Hrow. apply P12'. lia.
    - specialize (P13 eq_refl). unfold clamp_col. rewrite P5, P2, Hrow. cbn [fill set_cells s_ps s_row s_top s_mode s_col s_rend s_cell].
      replace (Z.max 0 (Z.min (zlen data - k) (W - 1))) with (zlen data - k) by lia. splits; auto; try congruence.
      + intros r' c Hr'. replace (r' =? off + line) with false by lia. cbn [andb]. rewrite P7 by congruence. now rewrite T14.
      + intros c Hcc. replace (zlen data - k <=? c) with false by lia. rewrite andb_false_r. reflexivity.
      + intros c Hcc. rewrite Z.eqb_refl. replace (zlen data - k <=? c) with true by lia. now replace (c <? W) with true by lia. }
  destruct V as (V1 & V2 & V3 & V4 & V5 & V6 & V7 & V8 & V9).
  rewrite U3. fold start. replace (sl_cells s' <? start) with false by lia.
  eexists. split; [reflexivity|]. change (scn (set_pos ?a ?b ?c ?d t5)) with (scn t5). unfold inv, pos_ok, color_ok, data_ok. change (scn (set_pos ?a ?b ?c ?d t5)) with (scn t5).
  cbn [set_pos t_plain t_useColor t_line t_col t_color t_valid t_data t_hidden t_mouse].
  assert (Edata : t_data t2 ++ zskipn start (zfirstn (sl_cells s') data) = zfirstn (sl_cells s') data).
  { rewrite <- (zfirstn_zskipn start (zfirstn (sl_cells s') data)) at 2. f_equal. rewrite <- (zfirstn_zskipn (sl_cells s') data) in Hfn.
    rewrite zfirstn_app_le in Hfn by (rewrite zlen_zfirstn; lia). now symmetry. }
  rewrite Edata. splits; auto; try lia; try congruence.
  - rewrite V6, U4. exact P10.
  - intros _. split; [rewrite zlen_zfirstn; lia|]. destruct Hdd as (d1 & d2 & Ed & Hd1). exists d1. rewrite Hc. split; [exact Hd1|].
    intros c Hcc. rewrite V2, V8 by lia. rewrite <- Hrow. rewrite <- P8 by lia. rewrite Ed, look_app, V6.
    rewrite znth_app_l by (rewrite (look_len uc _ _ _ Hd1), zlen_zfirstn; lia). destruct uc eqn:Eu; [|now rewrite P11 by reflexivity].
    assert (Gl : forall r1 r2 tx, look true r1 tx = look true r2 tx). { clear. induction tx as [|((n, ch), a) tx IH]; [reflexivity|]. cbn [look rend_for]. now rewrite IH. }
    now rewrite (Gl r (s_rend (scn t4))).
  - intros Hstr. rewrite V4, U8. now apply T9.
  - intros m Hm. rewrite V4, U7. now apply T10.
  - intros c Hcc. assert (Erend : s_rend (scn t) = s_rend (scn t4)) by congruence. rewrite Erend. fold (look uc (s_rend (scn t4)) txt).
    destruct (Z.ltb_spec c (zlen data - k)) as [Hc1|Hc1]; [rewrite V8, <- Hrow by lia; now rewrite P8 by lia|].
    rewrite V9 by lia. destruct (Z.ltb_spec c (zlen data)) as [Hc2|Hc2]; [now rewrite P9 by lia|].
    rewrite znth_none by lia. now rewrite L3.
  - intros r' c Hr'. rewrite V7 by assumption. congruence.
Qed.

(** Showing the cursor, resetting, switching the mouse mode *)
Lemma show_ok off t column line : inv off t -> s_top (scn t) <= off + line -> t_line t - line < 2 ^ 32 -> 0 <= column < W ->
  let t' := showTerminalCursor column line t in
  inv off t' /\ s_row (scn t') = off + line /\ s_col (scn t') = column /\ t_hidden t' = false /\ s_cell (scn t') = s_cell (scn t) /\ s_rend (scn t') = s_rend (scn t)
  /\ s_top (scn t') = Z.max (s_top (scn t)) (off + line - (te_h te - 1)).
Proof using Hte.
  intros Hi Htop Hd Hcol. cbv zeta. unfold showTerminalCursor. destruct (move_inv off t line Hi Htop Hd) as (M1 & M2 & M3 & M4 & M5 & M6). cbv zeta.
  set (t1 := moveTerminalToLine line t) in *. clearbody t1. pose proof M1 as (I1 & _). rewrite I1.
  set (t2 := if t_col t1 =? column then t1 else set_pos (t_line t1) column (column =? 0) [] (write (col_seq column) t1)).
  assert (G : inv off t2 /\ t_line t2 = line /\ t_col t2 = column /\ t_hidden t2 = t_hidden t1 /\ s_cell (scn t2) = s_cell (scn t1) /\ s_rend (scn t2) = s_rend (scn t1) /\ s_top (scn t2) = s_top (scn t1)).
  { unfold t2. destruct (Z.eqb_spec (t_col t1) column) as [Ec|Nc]; [splits; auto|].
    destruct M1 as (_ & I2 & (I3a & I3b & I3c & I3d & I3e) & I4 & I5 & I6 & I7). destruct Hte as (Hw & Hh & _).
    assert (Es : scn (set_pos (t_line t1) column (column =? 0) [] (write (col_seq column) t1)) = set_at (s_row (scn t1)) column (scn t1)).
    { transitivity (scn (write (col_seq column) t1)); [reflexivity|]. rewrite scn_write. unfold col_seq, csi, sdec. replace (column + 1 <? 0) with false by lia.
      change (str "G") with [71]. rewrite feed_csi1; [|exact I3a|lia|lia]. unfold dispatch. cbn [Z.eqb Pos.eqb]. cbn [arg nth_error]. replace (column + 1 =? 0) with false by lia.
      unfold clamp_col. now replace (Z.max 0 (Z.min (column + 1 - 1) (te_w te - 1))) with column by lia. }
    unfold inv, pos_ok, color_ok, data_ok. rewrite Es. cbn [set_at set_pos write t_plain t_useColor t_line t_col t_color t_valid t_data t_hidden t_mouse s_ps s_row s_top s_col s_rend s_cell s_mode].
    splits; auto; try lia. intros E0. apply Z.eqb_eq in E0. subst column. split; [reflexivity|]. exists []. split; [constructor|intros; lia]. }
  destruct G as (G1 & G2 & G3 & G4 & G5 & G6 & G7). clearbody t2. pose proof G1 as (J1 & J2 & (J3a & J3b & J3c & J3d & J3e) & J4 & J5 & J6 & J7).
  destruct (t_hidden t2) eqn:Eh; [|splits; auto; try lia; congruence].
  assert (Es : scn (set_hidden false (write show_seq t2)) = set_mode 25 true (scn t2)).
  { transitivity (scn (write show_seq t2)); [reflexivity|]. rewrite scn_write. now apply feed_show. }
  unfold inv, pos_ok, color_ok, data_ok. rewrite Es. cbn [set_mode set_hidden write t_plain t_useColor t_line t_col t_color t_valid t_data t_hidden t_mouse s_ps s_row s_top s_col s_rend s_cell s_mode].
  splits; auto; try lia; try congruence. intros m Hm. replace (m =? 25) with false; [now apply J7|]. cbn in Hm. lia.
Qed.
Lemma reset_ok off t c line : inv off t -> c = true \/ s_col (scn t) = 0 -> (strict = true -> t_hidden t = false) ->
  let t' := reset c line t in inv (s_row (scn t') - line) t'.
Proof using Hte.
  intros (I1 & I2 & (I3a & I3b & I3c & I3d & I3e) & I4 & I5 & I6 & I7) Hc Hs. cbv zeta. destruct Hte as (Hw & Hh & _).
  unfold reset. rewrite I1, andb_true_r.
  set (t1 := if c then write clear_seq t else t).
  assert (G : s_ps (scn t1) = PGround /\ s_top (scn t1) <= s_row (scn t1) < s_top (scn t1) + te_h te /\ s_col (scn t1) = 0 /\ s_mode (scn t1) = s_mode (scn t)
     /\ t_plain t1 = false /\ t_useColor t1 = uc /\ t_mouse t1 = t_mouse t).
  { unfold t1. destruct c.
    - rewrite scn_write, (feed_clear te _ I3a). unfold cleared, clamp_col. cbn [set_cells set_at set_rend s_ps s_top s_row s_col s_mode write t_plain t_useColor t_mouse]. splits; auto; lia.
    - destruct Hc as [|Hc]; [discriminate|]. splits; auto; lia. }
  clearbody t1. destruct G as (G1 & G2 & G3 & G4 & G5 & G6 & G7).
  unfold inv, pos_ok, color_ok, data_ok. change (scn (set_color (-1) (set_hidden false (set_pos line 0 (t_valid t1) [] t1)))) with (scn t1).
  cbn [set_color set_hidden set_pos t_plain t_useColor t_line t_col t_color t_valid t_data t_hidden t_mouse].
  splits; auto; try lia.
  - intros _. split; [reflexivity|]. exists []. split; [constructor|intros; lia].
  - intros Hst. rewrite G4, (I6 Hst), (Hs Hst). reflexivity.
  - intros m Hm. rewrite G4, G7. now apply I7.
Qed.
Lemma mouse_mode_in b m s : In m mouse_reporting -> s_mode (mouse_modes b s) m = b.
Proof. intros Hm. cbn in Hm. destruct Hm as [<-|[<-|[<-|[<-|[<-|[]]]]]]; destruct b; reflexivity. Qed.
Lemma mouse_mode_25 b s : s_mode (mouse_modes b s) 25 = s_mode s 25.
Proof. destruct b; reflexivity. Qed.
Lemma mouse_ok off t b : inv off t -> inv off (enableMouseMode b t) /\ t_mouse (enableMouseMode b t) = b.
Proof.
  intros (I1 & I2 & (I3a & I3b & I3c & I3d & I3e) & I4 & I5 & I6 & I7). unfold enableMouseMode. rewrite I1, orb_false_r.
  destruct (Bool.eqb (t_mouse t) b) eqn:Eb.
  - apply Bool.eqb_prop in Eb. split; [|exact Eb]. unfold inv, pos_ok. splits; auto; lia.
  - split; [|reflexivity].
    assert (Es : scn (write (if b then mouse_on_seq else mouse_off_seq) (set_mouse b t)) = mouse_modes b (scn t)).
    { rewrite scn_write. change (scn (set_mouse b t)) with (scn t). now apply feed_mouse. }
    unfold inv, pos_ok, color_ok, data_ok. rewrite Es.
    cbn [set_mouse write t_plain t_useColor t_line t_col t_color t_valid t_data t_hidden t_mouse].
    assert (G : s_ps (mouse_modes b (scn t)) = s_ps (scn t) /\ s_row (mouse_modes b (scn t)) = s_row (scn t) /\ s_top (mouse_modes b (scn t)) = s_top (scn t)
      /\ s_col (mouse_modes b (scn t)) = s_col (scn t) /\ s_rend (mouse_modes b (scn t)) = s_rend (scn t) /\ s_cell (mouse_modes b (scn t)) = s_cell (scn t)) by (destruct b; splits; reflexivity).
    destruct G as (-> & -> & -> & -> & -> & ->). splits; auto; try lia.
    + intros Hst. rewrite mouse_mode_25. auto.
    + intros m Hm. now apply mouse_mode_in.
Qed.

Hypothesis Hs0 : start_ok te s0.
Lemma new_inv : inv (s_row s0) (new_term false uc).
Proof using Hte Hs0.
  destruct Hs0 as (A1 & A2 & A3 & A4 & A5). destruct Hte as (Hw & Hh & _). unfold inv, pos_ok, color_ok, data_ok, screen. cbn. splits; auto; try lia.
  intros _. split; [reflexivity|]. exists []. split; [constructor|intros; lia].
Qed.
Theorem reach_inv off t : reach te s0 uc strict off t -> inv off t.
Proof using Hte Hs0.
  induction 1 as [|off t o t' off' Hr IH Hok Hrun Hoff Hst]; [apply new_inv|]. destruct o as [c l|l d cc|c l| |b]; cbn [run_top op_ok] in *.
  - injection Hrun as <-. subst off'. now apply (reset_ok off).
  - subst off'. destruct Hok as ((Ht & Hd) & Hlen & txt & Hl & Hs). destruct (@send_ok unit off t l d cc txt IH Ht Hd Hlen Hl Hs) as (t'' & E & Hi & _). congruence.
  - injection Hrun as <-. subst off'. destruct Hok as ((Ht & Hd) & Hc). now apply show_ok.
  - injection Hrun as <-. subst off'. now apply hide_inv.
  - injection Hrun as <-. subst off'. now apply mouse_ok.
Qed.
End Rel.

(** *** The theorems *)
Section Final.
Variables (te : tenv) (s0 : scr) (uc strict : bool).
Hypothesis Hte : tenv_ok te.
Hypothesis Hs0 : start_ok te s0.
Local Notation scn := (screen te s0).

Theorem op_total off t o : reach te s0 uc strict off t -> op_ok te s0 off t o -> exists t', run_top (E := unit) o t = Ok t'.
Proof using Hte Hs0.
  intros Hr Hok. pose proof (reach_inv te Hte s0 uc strict Hs0 off t Hr) as Hi. destruct o as [c l|l d cc|c l| |b]; cbn [run_top op_ok] in *; eauto.
  destruct Hok as ((Ht & Hd) & Hlen & txt & Hl & Hs). destruct (@send_ok te Hte s0 uc strict unit off t l d cc txt Hi Ht Hd Hlen Hl Hs) as (t'' & E & _). eauto.
Qed.
Theorem position off t : reach te s0 uc strict off t ->
  s_row (scn t) = off + t_line t /\ s_col (scn t) = t_col t /\ s_top (scn t) <= s_row (scn t) < s_top (scn t) + te_h te.
Proof using Hte Hs0. intros Hr. destruct (reach_inv te Hte s0 uc strict Hs0 off t Hr) as (_ & _ & (I3a & I3b & I3c & I3d & I3e) & _). splits; auto; lia. Qed.
Theorem send_shows off t line data cc txt : reach te s0 uc strict off t -> reachable_row te s0 off t line -> 1 <= zlen data <= te_w te -> line_text data txt -> Forall (showable te) txt ->
  exists t', run_top (E := unit) (TSend line data cc) t = Ok t' /\ reach te s0 uc strict off t' /\ row_shows te uc (s_rend (scn t)) txt (scn t') (off + line)
    /\ (forall r c, r <> off + line -> s_cell (scn t') r c = s_cell (scn t) r c) /\ s_row (scn t') = off + line.
Proof using Hte Hs0.
  intros Hr (Ht & Hd) Hlen Hl Hs. pose proof (reach_inv te Hte s0 uc strict Hs0 off t Hr) as Hi.
  destruct (@send_ok te Hte s0 uc strict unit off t line data cc txt Hi Ht Hd Hlen Hl Hs) as (t' & E & Hi' & El & Hrow & Hoth & _).
  exists t'. splits; auto.
  - eapply (reach_op te s0 uc strict off t (TSend line data cc)); [exact Hr| |exact E|reflexivity|intros _; exact I]. cbn [op_ok]. splits; auto; try (unfold reachable_row; auto); try lia. eauto.
  - destruct Hi' as (_ & _ & (_ & I3b & _) & _). congruence.
Qed.
Theorem show_places off t column line : reach te s0 uc strict off t -> reachable_row te s0 off t line -> 0 <= column < te_w te ->
  let t' := showTerminalCursor column line t in
  s_row (scn t') = off + line /\ s_col (scn t') = column /\ s_cell (scn t') = s_cell (scn t).
Proof using Hte Hs0.
  intros Hr (Ht & Hd) Hc. pose proof (reach_inv te Hte s0 uc strict Hs0 off t Hr) as Hi. destruct (show_ok te Hte s0 uc strict off t column line Hi Ht Hd Hc) as (H1 & H2 & H3 & H4 & H5 & H6). auto.
Qed.
Theorem show_visible off t column line : strict = true -> reach te s0 uc strict off t -> reachable_row te s0 off t line -> 0 <= column < te_w te ->
  s_mode (scn (showTerminalCursor column line t)) 25 = true.
Proof using Hte Hs0.
  intros Hst Hr (Ht & Hd) Hc. pose proof (reach_inv te Hte s0 uc strict Hs0 off t Hr) as Hi. destruct (show_ok te Hte s0 uc strict off t column line Hi Ht Hd Hc) as (H1 & H2 & H3 & H4 & _).
  destruct H1 as (_ & _ & _ & _ & _ & I6 & _). rewrite (I6 Hst), H4. reflexivity.
Qed.
Theorem hide_hides off t : strict = true -> reach te s0 uc strict off t ->
  let t' := hideTerminalCursor t in s_mode (scn t') 25 = false /\ s_cell (scn t') = s_cell (scn t) /\ s_row (scn t') = s_row (scn t) /\ s_col (scn t') = s_col (scn t).
Proof using Hte Hs0.
  intros Hst Hr. pose proof (reach_inv te Hte s0 uc strict Hs0 off t Hr) as Hi. destruct (hide_inv te s0 uc strict off t Hi) as (H1 & H2 & H3 & _). cbv zeta.
  destruct H1 as (_ & _ & (_ & P2 & _ & P4 & _) & _ & _ & I6 & _). destruct Hi as (_ & _ & (_ & Q2 & _ & Q4 & _) & _).
  destruct (hide_fields t) as (F1 & F2 & _). rewrite (I6 Hst), H2. splits; auto; congruence.
Qed.
Theorem hide_again off t : strict = true -> reach te s0 uc strict off t -> s_mode (scn t) 25 = false -> hideTerminalCursor t = t.
Proof using Hte Hs0.
  intros Hst Hr Hm. destruct (reach_inv te Hte s0 uc strict Hs0 off t Hr) as (I1 & _ & _ & _ & _ & I6 & _). rewrite (I6 Hst) in Hm. apply negb_false_iff in Hm. unfold hideTerminalCursor. now rewrite I1, Hm.
Qed.
Theorem show_again off t column line : strict = true -> reach te s0 uc strict off t -> s_mode (scn t) 25 = true -> s_row (scn t) = off + line -> s_col (scn t) = column ->
  showTerminalCursor column line t = t.
Proof using Hte Hs0.
  intros Hst Hr Hm Hrow Hcol. destruct (reach_inv te Hte s0 uc strict Hs0 off t Hr) as (I1 & _ & (P1 & P2 & P3 & P4 & P5) & _ & _ & I6 & _). rewrite (I6 Hst) in Hm. apply negb_true_iff in Hm.
  unfold showTerminalCursor, moveTerminalToLine. replace (line =? t_line t) with true by lia. cbv zeta. rewrite I1. replace (t_col t =? column) with true by lia. now rewrite Hm.
Qed.
Theorem mouse_follows off t o t' m : reach te s0 uc strict off t -> op_ok te s0 off t o -> run_top (E := unit) o t = Ok t' -> In m mouse_reporting ->
  (strict = true -> match o with TReset _ _ => t_hidden t = false | _ => True end) ->
  s_mode (scn t') m = match o with TMouse b => b | _ => s_mode (scn t) m end.
Proof using Hte Hs0.
  intros Hr Hok Hrun Hm Hst. pose proof (reach_inv te Hte s0 uc strict Hs0 off t Hr) as Hi.
  pose proof (reach_inv te Hte s0 uc strict Hs0 _ t' (reach_op te s0 uc strict off t o t' _ Hr Hok Hrun eq_refl Hst)) as Hi'.
  destruct Hi as (_ & _ & _ & _ & _ & _ & I7). destruct Hi' as (_ & _ & _ & _ & _ & _ & I7'). rewrite (I7' m Hm).
  assert (G : t_mouse t' = match o with TMouse b => b | _ => t_mouse t end).
  { destruct o as [c l|l d cc|c l| |b]; cbn [run_top op_ok] in *.
    - injection Hrun as <-. unfold reset. destruct (c && _); reflexivity.
    - clear - Hrun. assert (Hh : forall t, t_mouse (hideTerminalCursor t) = t_mouse t) by (intros x; apply hide_fields).
      assert (Hmv : t_mouse (moveTerminalToLine l t) = t_mouse t).
      { unfold moveTerminalToLine. destruct (l =? t_line t); [reflexivity|]. cbn [set_pos t_mouse]. rewrite <- (Hh t). destruct (l <? _); [destruct (t_plain _)|]; reflexivity. }
      unfold sendLine in Hrun. destruct (assert_ (E := unit) (1 <=? zlen d)); try discriminate. cbn [bind] in Hrun. cbv zeta in Hrun. set (t1 := moveTerminalToLine l t) in *. clearbody t1.
      match type of Hrun with bind ?m _ = _ => destruct m as [valid| | | |] end; try discriminate. cbn [bind] in Hrun.
      match type of Hrun with bind ?m _ = _ => destruct m as [s| | | |] end; try discriminate. cbn [bind] in Hrun.
      match type of Hrun with bind ?m _ = _ => destruct m as [u| | | |] end; try discriminate. cbn [bind] in Hrun.
      match type of Hrun with (if ?b then _ else _) = _ => destruct b end; try discriminate. injection Hrun as <-. cbn [set_pos t_mouse].
      repeat match goal with |- t_mouse (if ?b then _ else _) = _ => destruct b end; cbn [write t_mouse];
      repeat match goal with |- t_mouse (if ?b then _ else _) = _ => destruct b end; rewrite ?Hh; cbn [set_color t_mouse]; destruct valid; cbn [set_pos write t_mouse]; rewrite ?Hh; exact Hmv.
    - injection Hrun as <-. assert (Hh : forall t, t_mouse (hideTerminalCursor t) = t_mouse t) by (intros x; apply hide_fields).
      assert (Hmv : t_mouse (moveTerminalToLine l t) = t_mouse t).
      { unfold moveTerminalToLine. destruct (l =? t_line t); [reflexivity|]. cbn [set_pos t_mouse]. rewrite <- (Hh t). destruct (l <? _); [destruct (t_plain _)|]; reflexivity. }
      unfold showTerminalCursor. cbv zeta. destruct (t_plain _); [exact Hmv|]. destruct (_ =? c).
      + destruct (t_hidden _); exact Hmv.
      + cbn [set_pos t_hidden write]. destruct (t_hidden _); exact Hmv.
    - injection Hrun as <-. apply hide_fields.
    - injection Hrun as <-. pose proof (reach_inv te Hte s0 uc strict Hs0 off t Hr) as Hi. now destruct (mouse_ok te s0 uc strict off t b Hi). }
  rewrite G. destruct o; auto; symmetry; auto.
Qed.
End Final.

Theorem reset_clears te s0 uc strict off t line : tenv_ok te -> start_ok te s0 -> reach te s0 uc strict off t ->
  let s := screen te s0 (reset true line t) in
  s_row s = s_top s /\ s_col s = 0 /\ forall r c, s_top s <= r < s_top s + te_h te -> s_cell s r c = (Blank, rend0).
Proof.
  intros Hte Hs0 Hr. destruct (reach_inv te Hte s0 uc strict Hs0 off t Hr) as (I1 & _ & (P1 & _) & _). cbv zeta. destruct Hte as (Hw & Hh & _).
  unfold reset. rewrite I1. cbn [andb negb].
  assert (Es : screen te s0 (set_color (-1) (set_hidden false (set_pos line 0 (t_valid (write clear_seq t)) [] (write clear_seq t)))) = cleared te (screen te s0 t)).
  { transitivity (screen te s0 (write clear_seq t)); [reflexivity|]. rewrite scn_write. now apply feed_clear. }
  rewrite Es. unfold cleared, clamp_col. cbn [set_cells set_at set_rend s_top s_row s_col s_cell]. splits; try lia.
  intros r c Hrc. now replace ((s_top (screen te s0 t) <=? r) && (r <? s_top (screen te s0 t) + te_h te)) with true by lia.
Qed.
