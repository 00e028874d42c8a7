(** Proofs for C51: full-screen mode. *)
From Coq Require Import Lia.
From Verif Require Import Base BaseLemmas SmallRect Terminal TerminalSpec TerminalFeed TerminalProofs ConsoleLine ConsoleLineSpec Console LargeRead LargeReadSpec Scraper AgentConsole ScraperSpec StreamSpec EndToEndProofs DirectSpec ScraperProofs DirectProofs EndToEndSpec.
Local Ltac splits := repeat match goal with |- _ /\ _ => split end.

(** *** Rows that differ only in blanks at the end *)
Lemma blank_look te a r : te_wid te 32 = 1 -> forall l tb, line_text l tb -> Forall (fun q => q = mkCell 32 a) l -> Forall (showable te) tb ->
  TerminalSpec.look true r tb = map (fun _ => (Blank, rend_of a)) l.
Proof.
  intros Hw l tb T. induction T as [|cs u a0 rest txt U S Cs Hd T IH|cs1 u1 cs2 u2 a0 rest txt U1 U2 C1 C2 Hd T IH]; intros F Sh; [reflexivity| |].
  - apply Forall_app in F as (F1 & F2). inversion Sh as [|? ? S1 S2]; subst.
    assert (Eq : mkCell u a0 = mkCell 32 a). { destruct cs as [|q cs]; [discriminate|]. cbn in Hd. injection Hd as ->. inversion F1; assumption. }
    injection Eq as -> ->. cbn [showable] in S1. change (shown 32) with 32 in S1. destruct S1 as (_ & _ & S1 & _). rewrite Hw in S1.
    rewrite map_app, <- IH by assumption. destruct cs as [|q [|q' cs]]; [discriminate| |rewrite !zlen_cons in S1; pose proof (zlen_nonneg cs); lia]. reflexivity.
  - exfalso. apply Forall_app in F as (F1 & _). destruct cs1 as [|q cs1]; [discriminate|]. cbn in Hd. injection Hd as ->. inversion F1 as [|? ? Eq]. injection Eq as -> ->. lia.
Qed.
Lemma uniform_app a b : uniform (a ++ b) -> uniform b.
Proof.
  intros U i x y Hx Hy. pose proof (znth_range b i x Hx) as R. pose proof (zlen_nonneg a). apply (U (zlen a + i)).
  - rewrite znth_app_r by lia. replace (zlen a + i - zlen a) with i by lia. exact Hx.
  - rewrite znth_app_r by lia. replace (zlen a + i + 1 - zlen a) with (i + 1) by lia. exact Hy.
Qed.
Lemma last_colour_app a b d : 1 <= zlen b -> last_colour (a ++ b) d = last_colour b d.
Proof. intros L. unfold last_colour. rewrite zlen_app, znth_app_r by (pose proof (zlen_nonneg a); lia). replace (zlen a + zlen b - 1 - zlen a) with (zlen b - 1) by lia. reflexivity. Qed.
Lemma last_app_ne {A} (a b : list A) d : b <> [] -> last (a ++ b) d = last b d.
Proof. intros N. induction a as [|x a IH]; [reflexivity|]. cbn [app]. destruct (a ++ b) as [|y r] eqn:E; [destruct a; [subst; contradiction|discriminate]|]. exact IH. Qed.
Lemma last_repeat {A} (x : A) n d : last (x :: repeat x n) d = x.
Proof. induction n as [|n IH]; [reflexivity|]. exact IH. Qed.
Lemma last_rend r z d txt : line_text d txt -> uniform d -> 1 <= zlen d -> snd (last (TerminalSpec.look true r txt) z) = rend_of (last_colour d 7).
Proof.
  intros T. induction T as [|cs u a0 rest txt U S Cs Hd T IH|cs1 u1 cs2 u2 a0 rest txt U1 U2 C1 C2 Hd T IH]; intros Un L; [change (zlen (@nil cell)) with 0 in L; lia| |].
  - pose proof (look_len true r _ _ T) as Ll. destruct rest as [|q rest].
    + apply text_nil_l in T. subst txt. rewrite app_nil_r in *. cbn [TerminalSpec.look rend_for]. rewrite app_nil_r.
      assert (E1 : forall g h n, snd (last ((g, rend_of a0) :: repeat (h, rend_of a0) n) z) = rend_of a0) by (intros g h [|n]; [reflexivity|]; change (snd (last ((h, rend_of a0) :: repeat (h, rend_of a0) n) z) = rend_of a0); rewrite last_repeat; reflexivity).
      rewrite E1. destruct Cs as [(q & -> & Q1 & Q2)|(q1 & q2 & -> & Q1 & Q2 & Q3 & Q4)]; cbn in Hd; injection Hd as ->; [reflexivity|].
      exact (Un 0 (mkCell u a0) q2 eq_refl eq_refl (or_introl Q3)).
    + rewrite last_colour_app by (rewrite zlen_cons; pose proof (zlen_nonneg rest); lia). cbn [TerminalSpec.look].
      assert (N : TerminalSpec.look true r txt <> []) by (intros E; rewrite E, zlen_cons in Ll; change (zlen (@nil (glyph * rend))) with 0 in Ll; pose proof (zlen_nonneg rest); lia).
      rewrite app_comm_cons, last_app_ne by exact N. apply IH; [apply (uniform_app cs); exact Un|rewrite zlen_cons; pose proof (zlen_nonneg rest); lia].
  - pose proof (look_len true r _ _ T) as Ll. destruct rest as [|q rest].
    + apply text_nil_l in T. subst txt. rewrite app_nil_r in *. cbn [TerminalSpec.look rend_for]. rewrite app_nil_r.
      assert (E1 : forall g h n, snd (last ((g, rend_of a0) :: repeat (h, rend_of a0) n) z) = rend_of a0) by (intros g h [|n]; [reflexivity|]; change (snd (last ((h, rend_of a0) :: repeat (h, rend_of a0) n) z) = rend_of a0); rewrite last_repeat; reflexivity).
      rewrite E1.
      destruct C1 as [(q & -> & Q1 & Q2)|(q1 & q2 & -> & Q1 & Q2 & Q3 & Q4)]; destruct C2 as [(p & -> & P1 & P2)|(p1 & p2 & -> & P1 & P2 & P3 & P4)]; cbn in Hd; injection Hd as ->; cbn [cl_ch] in *; unfold last_colour; cbn.
      * apply (Un 0 (mkCell u1 a0) p); [reflexivity|reflexivity|right; exact U1].
      * transitivity (rend_of (cl_attr p1)); [apply (Un 0 (mkCell u1 a0) p1)|apply (Un 1 p1 p2)]; try reflexivity; [right; exact U1|left; exact P3].
      * transitivity (rend_of (cl_attr q2)); [apply (Un 0 (mkCell u1 a0) q2)|apply (Un 1 q2 p)]; try reflexivity; [left; exact Q3|right; rewrite <- Q2; exact U1].
      * transitivity (rend_of (cl_attr q2)); [apply (Un 0 (mkCell u1 a0) q2)|transitivity (rend_of (cl_attr p1)); [apply (Un 1 q2 p1)|apply (Un 2 p1 p2)]]; try reflexivity; [left; exact Q3|right; rewrite <- Q2; exact U1|left; exact P3].
    + rewrite app_assoc in *. rewrite last_colour_app by (rewrite zlen_cons; pose proof (zlen_nonneg rest); lia). cbn [TerminalSpec.look].
      assert (N : TerminalSpec.look true r txt <> []) by (intros E; rewrite E, zlen_cons in Ll; change (zlen (@nil (glyph * rend))) with 0 in Ll; pose proof (zlen_nonneg rest); lia).
      rewrite app_comm_cons, last_app_ne by exact N. apply IH; [apply (uniform_app (cs1 ++ cs2)); exact Un|rewrite zlen_cons; pose proof (zlen_nonneg rest); lia].
Qed.
Lemma text_unique d t1 t2 : line_text d t1 -> line_text d t2 -> t1 = t2.
Proof. intros A B. rewrite <- (app_nil_r d) in B. destruct (text_prefix _ _ A _ _ B) as (tb & -> & C). apply text_nil_l in C. subst tb. now rewrite app_nil_r. Qed.

Lemma same_row te a l s row : te_wid te 32 = 1 -> legible te a -> legible te (a ++ l) -> 1 <= zlen a -> Forall (fun q => q = mkCell 32 (last_colour a 7)) l ->
  row_is te a s row <-> row_is te (a ++ l) s row.
Proof.
  intros Hw ((ta & A1 & A2) & Au) ((tb & B1 & B2) & Bu) La F. destruct (text_prefix _ _ A1 _ _ B1) as (tl & -> & Tl). apply Forall_app in B2 as (_ & B2).
  pose proof (blank_look te (last_colour a 7) rend0 Hw l tl Tl F B2) as El. pose proof (last_rend rend0 (Blank, rend0) _ _ A1 Au La) as Er.
  pose proof (look_len true rend0 _ _ A1) as Ll.
  assert (Eq : forall c, 0 <= c -> match znth (TerminalSpec.look true rend0 ta) c with Some g => g | None => (Blank, snd (last (TerminalSpec.look true rend0 ta) (Blank, rend0))) end
     = match znth (TerminalSpec.look true rend0 (ta ++ tl)) c with Some g => g | None => (Blank, snd (last (TerminalSpec.look true rend0 (ta ++ tl)) (Blank, rend0))) end).
  { intros c C. rewrite look_app, El, Er. destruct (Z_lt_ge_dec c (zlen (TerminalSpec.look true rend0 ta))) as [Lc|Lc].
    - rewrite znth_app_l by lia. destruct (znth_some (TerminalSpec.look true rend0 ta) c ltac:(lia)) as (g & ->). reflexivity.
    - rewrite znth_app_r by lia. rewrite (znth_none _ c) by lia. destruct l as [|q l].
      + rewrite app_nil_r, Er. cbn [map]. rewrite znth_none by (change (zlen (@nil (glyph * rend))) with 0; lia). reflexivity.
      + rewrite last_app_ne by discriminate.
        assert (La' : forall l : list cell, last (map (fun _ => (Blank, rend_of (last_colour a 7))) (q :: l)) (Blank, rend0) = (Blank, rend_of (last_colour a 7))).
        { clear. intros l. revert q. induction l as [|p l IH]; intros q; [reflexivity|]. apply (IH p). }
        rewrite La'. set (k := c - _). destruct (znth (map _ (q :: l)) k) as [g|] eqn:Eg; [|reflexivity].
        apply znth_In in Eg. apply in_map_iff in Eg as (? & <- & _). reflexivity. }
  split; intros (txt & T & S).
  - rewrite (text_unique _ _ _ T A1) in S. exists (ta ++ tl). split; [exact B1|]. intros c C. cbv zeta. rewrite <- Eq by lia. apply S. exact C.
  - rewrite (text_unique _ _ _ T B1) in S. exists ta. split; [exact A1|]. intros c C. cbv zeta. rewrite Eq by lia. apply S. exact C.
Qed.

(** *** From the row C22 speaks of to the terminal's *)
Definition all_blank (a : Z) (l : list cell) : Prop := Forall (fun q => q = mkCell 32 a) l.
Lemma blank_rest (l : list cell) n a : (forall i q, n <= i -> znth l i = Some q -> q = mkCell 32 a) -> 0 <= n -> all_blank a (zskipn n l).
Proof.
  intros H N. apply Forall_forall. intros q Hq. apply In_nth_error in Hq as (k & Hk).
  apply (H (n + Z.of_nat k)); [lia|]. rewrite <- znth_zskipn by lia. unfold znth. replace (Z.of_nat k <? 0) with false by lia. rewrite Nat2Z.id. exact Hk.
Qed.
Lemma fills_row W d l : fills (cut W (wiped d)) l -> zlen d <= W -> zlen l <= W -> 1 <= zlen d -> 1 <= zlen l ->
  (exists m, l = d ++ m /\ all_blank (last_colour d 7) m) \/ (exists m, d = l ++ m /\ all_blank (last_colour l 7) m).
Proof.
  intros (S & R) Wd Wl Ld Ll. unfold shows, holds, cut, wiped in *. cbn [cols colour] in *.
  destruct (Z_le_gt_dec (zlen d) (zlen l)) as [C|C].
  - left. exists (zskipn (zlen d) l). split.
    + rewrite <- (zfirstn_zskipn (zlen d) l) at 1. f_equal. apply znth_ext; [rewrite zlen_zfirstn; lia|].
      intros i Hi. rewrite zlen_zfirstn in Hi. rewrite znth_zfirstn by lia. destruct (znth_some l i ltac:(lia)) as (q & Hq). specialize (S i q Hq). replace (i <? W) with true in S by lia.
      rewrite Hq. destruct (znth_some d i ltac:(lia)) as (p & Hp). rewrite Hp in S |- *. congruence.
    + apply blank_rest; [|pose proof (zlen_nonneg d); lia]. intros i q Hi Hq. pose proof (znth_range _ _ _ Hq) as Rg. specialize (S i q Hq). replace (i <? W) with true in S by lia. rewrite (znth_none d i) in S by lia. congruence.
  - right. exists (zskipn (zlen l) d). split.
    + rewrite <- (zfirstn_zskipn (zlen l) d) at 1. f_equal. apply znth_ext; [rewrite zlen_zfirstn; lia|].
      intros i Hi. rewrite zlen_zfirstn in Hi. rewrite znth_zfirstn by lia. destruct (znth_some l i ltac:(lia)) as (q & Hq). specialize (S i q Hq). replace (i <? W) with true in S by lia.
      rewrite Hq. destruct (znth_some d i ltac:(lia)) as (p & Hp). rewrite Hp in S |- *. congruence.
    + apply blank_rest; [|pose proof (zlen_nonneg l); lia]. intros i q Hi Hq. pose proof (znth_range _ _ _ Hq) as Rg. specialize (R i Hi). replace (i <? W) with true in R by lia. rewrite Hq in R. exact R.
Qed.
Lemma fills_shown te d l s row : te_wid te 32 = 1 -> fills (cut (te_w te) (wiped d)) l -> 1 <= zlen d <= te_w te -> 1 <= zlen l <= te_w te -> legible te d -> legible te l ->
  row_is te d s row -> row_is te l s row.
Proof.
  intros Hw F (Ld & Wd) (Ll & Wl) Gd Gl R. destruct (fills_row _ _ _ F Wd Wl Ld Ll) as [(m & -> & B)|(m & -> & B)].
  - apply (same_row te d m); auto.
  - apply (same_row te l m); auto.
Qed.
Lemma cleared_shown te n l s row : te_wid te 32 = 1 -> fills (cut n (mkRow nothing 7)) l -> 1 <= zlen l -> legible te l ->
  (forall c, s_cell s row c = (Blank, rend0)) -> row_is te l s row.
Proof.
  intros Hw (S & _) Ll ((txt & T & Sh) & _) Cb. exists txt. split; [exact T|].
  assert (F : all_blank 7 l). { rewrite <- (zskipn_neg 0 l) by lia. apply blank_rest; [|lia]. intros i q _ Hq. specialize (S i q Hq). unfold holds, cut, nothing in S. cbn [cols colour] in S. destruct (i <? n); congruence. }
  intros c C. rewrite Cb. cbv zeta. rewrite (blank_look te 7 rend0 Hw l txt T F Sh). change (rend_of 7) with rend0.
  rewrite znth_map. destruct (znth l c) as [q|]; [reflexivity|]. cbn [option_map].
  assert (E : forall l : list cell, last (map (fun _ => (Blank, rend0)) l) (Blank, rend0) = (Blank, rend0)).
  { clear. induction l as [|q l IH]; [reflexivity|]. destruct l; [reflexivity|exact IH]. }
  rewrite E. reflexivity.
Qed.
Lemma replay_last : forall ops t k, (forall o, In o ops -> match o with TReset _ _ => False | _ => True end) ->
  replay ops t k = match last_sent ops k with Some d => wiped d | None => t k end.
Proof.
  induction ops as [|o ops IH]; intros t k N; [reflexivity|]. change (replay (o :: ops) t k) with (replay ops (do_op o t) k). rewrite IH by (intros o' H; apply N; right; exact H).
  cbn [last_sent]. destruct (last_sent ops k); [reflexivity|]. destruct o; cbn [do_op]; try reflexivity; [destruct (N _ (or_introl eq_refl))|]. rewrite Z.eqb_sym. destruct (line =? k); reflexivity.
Qed.

(** *** A poll *)
Lemma direct_step c s t w i s' w' : (c_new c = true -> c_w8 c = true) -> scraper_ok s -> at_rest w ->
  (s_direct s = true -> forall k bl, znth (s_lines s) k = Some bl -> known bl (cut (co_x (s_pty s)) (t k))) ->
  scrapeBuffer c s w = Ok (i, s', w') -> s_direct s' = true ->
  let r := shown_rect i (s_pty s') in
  exists sd vis, new_ops s s' = (if s_direct s then [] else [TReset true 0]) ++ poll_ops i s' sd vis /\ s_pty s' = s_pty s /\ scraper_ok s' /\
    1 <= width_of r <= co_x (s_pty s') /\ 1 <= height_of r <= co_y (s_pty s') /\
    (forall k, 0 <= k < height_of r -> zlen (seen i s' k) = width_of r) /\
    (c_new c = false -> i = info_of (w_buf w') /\ vis = b_visible (w_buf w')) /\
    (c_new c = false \/ in_buf (w_buf w') r = true -> words (w_buf w') -> exists mask, In mask masks /\
       forall k, 0 <= k < height_of r -> seen i s' k = expected_row (w_buf w') mask r (rTop r + k)).
Proof.
  intros Hc A W C E Hd r.
  pose proof (sync_direct c false t s w W A Hc ltac:(intros _; exact C)) as Q. unfold scrapeBuffer in E. rewrite E in Q. cbn [ends] in Q.
  destruct (Q Hd) as (info & vis & s1 & Io & Sc & P1 & Ei & O1 & L1 & Ex). specialize (Ei eq_refl). subst info. destruct (Ex eq_refl) as (Ex1 & Ex2). clear Ex.
  destruct Sc as (sd & S1 & S2 & S3 & S4 & S5 & S6). exists sd, vis. pose proof S2 as ((S2a & S2b & _) & _).
  destruct (scrape_rect i (s_pty s') Io S2a S2b) as (_ & _ & _ & R1 & R2).
  split; [apply new_ops_app; rewrite S1, O1, app_assoc; reflexivity|]. split; [congruence|]. split; [exact S2|]. split; [exact R1|]. split; [exact R2|]. split; [|split; [exact Ex2|]].
  - intros k Hk. apply (S5 k Hk).
  - intros Hin Hwd. apply Ex1; [|exact Hwd]. destruct Hin as [Hn|Hin]; [|exact Hin]. destruct (Ex2 Hn) as (Hi & _). subst i. unfold r, info_ok in *. cbn [info_of i_size i_win i_cur co_x co_y] in Io.
    destruct Io as (I1 & I2 & I3 & I4 & I5 & I6 & _). unfold in_buf, shown_rect, width_of, height_of in *. cbn [info_of i_win rLeft rTop rRight rBottom] in *. rewrite !Bool.andb_true_iff, !Z.leb_le, !Z.ltb_lt. lia.
Qed.

Section Full.
Variables (c : cfg) (te : tenv) (st : scr) (strict : bool).
Hypothesis Hc : c_new c = true -> c_w8 c = true.
Hypothesis Hte : tenv_ok te.
Hypothesis Hst : start_ok te st.
Local Notation scn := (TerminalSpec.screen te st).
Local Notation h := (te_h te).

Lemma sends_fit (f : Z -> list cell) (g : Z -> Z) (sd : Z -> bool) : forall ks m q, (forall k, In k ks -> 0 <= k < h /\ legible te (f k) /\ 1 <= zlen (f k) <= te_w te) -> 0 <= m < h -> h <= 2000 ->
  let ops := flat_map (fun k => if sd k then [TSend k (f k) (g k)] else []) ks in
  all_fit te (0, m, q) ops /\ let '(b', m', q') := places h (0, m, q) ops in b' = 0 /\ 0 <= m' < h /\ (q = Some None -> q' = Some None).
Proof.
  cbv zeta. induction ks as [|k ks IH]; intros m q Hk Hm Hh; cbn [flat_map]; [cbn; splits; auto; lia|].
  assert (Hk' : forall k, In k ks -> 0 <= k < h /\ legible te (f k) /\ 1 <= zlen (f k) <= te_w te) by (intros k' I'; apply Hk; right; exact I').
  destruct (sd k); cbn [app]; [|apply IH; auto]. destruct (Hk k (or_introl eq_refl)) as (K1 & (K2 & _) & K3).
  cbn [all_fit places placed op_fits]. replace (Z.max 0 (k - (h - 1))) with 0 by lia.
  destruct (IH k (match q with Some None => Some None | _ => None end) Hk' K1 Hh) as (A & B). split; [splits; auto; lia|].
  destruct (places h _ _) as ((b' & m') & q'). destruct B as (B1 & B2 & B3). splits; auto; try lia. intros ->. apply B3. reflexivity.
Qed.
Lemma poll_ops_fit i s sd vis m q : let r := shown_rect i (s_pty s) in 1 <= width_of r <= te_w te -> 1 <= height_of r <= h -> h <= 2000 -> 0 <= m < h ->
  (forall k, 0 <= k < height_of r -> zlen (seen i s k) = width_of r) -> all_legible te i s ->
  let ops := poll_ops i s sd vis in all_fit te (0, m, q) ops /\ let '(b', m', q') := places h (0, m, q) ops in b' = 0 /\ 0 <= m' < h /\
    if cursor_seen i (s_pty s) vis then m' = co_y (i_cur i) - rTop r /\ q' = Some (Some (co_x (i_cur i) - rLeft r)) else q' = Some None.
Proof.
  intros r Rw Rh Hh Hm Ln Lg. cbv zeta. unfold poll_ops. cbv zeta. fold r.
  assert (Hk : forall k, In k (zseq 0 (height_of r)) -> 0 <= k < h /\ legible te (seen i s k) /\ 1 <= zlen (seen i s k) <= te_w te).
  { intros k Hk. apply LargeReadProofs.zseq_in in Hk. split; [lia|]. split; [apply Lg; fold r; lia|rewrite Ln by lia; lia]. }
  destruct (cursor_seen i (s_pty s) vis) eqn:Ec.
  - unfold cursor_seen in Ec. apply Bool.andb_true_iff in Ec as (_ & Ec). fold r in Ec.
    assert (Cc : rLeft r <= co_x (i_cur i) <= rRight r /\ rTop r <= co_y (i_cur i) <= rBottom r).
    { destruct (i_cur i) as [cx cy]. apply SmallRectProofs.contains_coord_spec in Ec. exact Ec. }
    unfold sends. fold r. destruct (sends_fit (seen i s) (fun k => if k =? co_y (i_cur i) - rTop r then co_x (i_cur i) - rLeft r else -1) sd _ m q Hk Hm Hh) as (A & B).
    rewrite fit_app, places_app. destruct (places h (0, m, q) _) as ((b' & m') & q'). destruct B as (-> & B2 & _). cbn [all_fit places placed op_fits].
    unfold width_of, height_of in Rw, Rh. splits; auto; try lia.
  - unfold sends. fold r. destruct (sends_fit (seen i s) (fun k => if k =? -1 then -1 else -1) sd _ m (Some None) Hk Hm Hh) as (A & B).
    cbn [app all_fit places placed op_fits]. match goal with |- context [places ?x ?y ?z] => change (places x y z) with (places h (0, m, Some None : curs) z); set (zz := places h (0, m, Some None : curs) z) end.
    match type of B with context [places ?x ?y ?z] => change (places x y z) with zz in B end. destruct zz as ((b' & m') & q'). destruct B as (B1 & B2 & B3). splits; auto; lia.
Qed.

Definition keeps (s : sst) (tm : term) (last : Z -> option (list cell)) : Prop := exists t off base ops m q,
  full_screen c s t last /\ at_place te st strict off base ops (0, m, q) tm /\ 0 <= m < h /\
  (forall r cc, off <= r < off + h -> s_cell base r cc = (Blank, rend0)) /\
  (forall k, t k = match last_sent ops k with Some d => wiped d | None => mkRow nothing 7 end) /\
  (forall k d, last_sent ops k = Some d -> 0 <= k < h /\ legible te d /\ 1 <= zlen d <= te_w te) /\
  s_pty s = mkCoord (te_w te) h /\ h <= 2000 /\
  (forall k l, last k = Some l -> 0 <= k < h /\ legible te l /\ 1 <= zlen l <= te_w te).

(** What [keeps] says of the terminal *)
Lemma keeps_rows s tm last k l : keeps s tm last -> last k = Some l -> row_is te l (scn tm) (s_top (scn tm) + k).
Proof.
  intros (t & off & base & ops & m & q & F & (I & (Pb & _) & Cl) & _ & Bl & Et & Sn & Sp & _ & Ls) Hl. destruct (Ls k l Hl) as (L1 & L2 & L3). destruct Hte as (_ & _ & Hw).
  pose proof (full_shows c Hc s t last F k l Hl) as Fi. rewrite Sp in Fi. cbn [co_x] in Fi. rewrite Et in Fi. specialize (Cl k). replace (s_top (scn tm) + k) with (off + k) by lia.
  destruct (last_sent ops k) as [d|] eqn:Ed.
  - destruct (Sn k d Ed) as (S1 & S2 & S3). apply (fills_shown te d l); auto. apply Cl.
  - apply (cleared_shown te (te_w te) l); auto; [lia|]. intros cc. rewrite Cl. apply Bl. lia.
Qed.
Lemma sent_in : forall ops k d, last_sent ops k = Some d -> exists cc, In (TSend k d cc) ops.
Proof.
  induction ops as [|o ops IH]; intros k d H; [discriminate|]. cbn [last_sent] in H. destruct (last_sent ops k) as [d'|] eqn:E.
  - injection H as <-. destruct (IH k d' E) as (cc & Hi). exists cc. right. exact Hi.
  - destruct o as [|n dd cc| | |]; try discriminate. destruct (Z.eqb_spec n k) as [->|]; [|discriminate]. injection H as ->. exists cc. left. reflexivity.
Qed.
Lemma poll_ops_in i s sd vis o : In o (poll_ops i s sd vis) -> match o with
  | TSend k d _ => 0 <= k < height_of (shown_rect i (s_pty s)) /\ d = seen i s k | TShow _ _ | THide => True | _ => False end.
Proof.
  assert (Sd : forall col line, In o (sends i s sd col line) -> match o with TSend k d _ => 0 <= k < height_of (shown_rect i (s_pty s)) /\ d = seen i s k | TShow _ _ | THide => True | _ => False end).
  { intros col line. unfold sends. intros Hi. apply in_flat_map in Hi as (k & Hk & Hi). apply LargeReadProofs.zseq_in in Hk. destruct (sd k); [|contradiction]. destruct Hi as [<-|[]]. split; [lia|reflexivity]. }
  unfold poll_ops. cbv zeta. destruct (cursor_seen _ _ _).
  - intros Hi. apply in_app_or in Hi as [Hi|[<-|[]]]; [apply (Sd _ _ Hi)|exact I].
  - intros [<-|Hi]; [exact I|]. apply (Sd _ _ Hi).
Qed.
(** The cursor after a poll *)
Definition cursor_after (i : cinfo) (s : sst) (vis : bool) (tm : term) : Prop := strict = true ->
  let r := shown_rect i (s_pty s) in
  cursor_is (if cursor_seen i (s_pty s) vis then Some (s_top (scn tm) + (co_y (i_cur i) - rTop r), co_x (i_cur i) - rLeft r) else None) (scn tm).
(** Running a poll's operations *)
Lemma run_poll t' last off base ops m q i s sd vis tm all : at_place te st strict off base ops (0, m, q) tm -> 0 <= m < h ->
  (forall r cc, off <= r < off + h -> s_cell base r cc = (Blank, rend0)) ->
  (forall k d, last_sent ops k = Some d -> 0 <= k < h /\ legible te d /\ 1 <= zlen d <= te_w te) ->
  (forall k l, last k = Some l -> 0 <= k < h /\ legible te l /\ 1 <= zlen l <= te_w te) ->
  s_pty s = mkCoord (te_w te) h -> h <= 2000 ->
  (let r := shown_rect i (s_pty s) in 1 <= width_of r <= te_w te /\ 1 <= height_of r <= h /\ forall k, 0 <= k < height_of r -> zlen (seen i s k) = width_of r) -> all_legible te i s ->
  (forall k, t' k = match last_sent (ops ++ poll_ops i s sd vis) k with Some d => wiped d | None => mkRow nothing 7 end) ->
  full_screen c s t' (DirectSpec.look i s last) -> without_mouse all = poll_ops i s sd vis ->
  exists tm', run_tops (E := unit) all tm = Ok tm' /\ keeps s tm' (DirectSpec.look i s last) /\ cursor_after i s vis tm'.
Proof.
  intros A Hm Bl Sn Ls Sp Hh (Rw & Rh & Ln) Lg Et F Ea.
  destruct (poll_ops_fit i s sd vis m q Rw Rh Hh Hm Ln Lg) as (Ft & Pl). rewrite <- Ea in Ft, Pl. apply mouse_fit in Ft. rewrite mouse_places in Pl.
  destruct (ops_run te st strict Hte off base all ops (0, m, q) tm A Ft) as (tm' & Er & A'). exists tm'. split; [exact Er|].
  destruct (places h (0, m, q) all) as ((b' & m') & q'). destruct Pl as (-> & Hm' & Pc). pose proof A' as (I' & (Pb & Pm & Pq) & Cl).
  assert (Els : forall k, last_sent (ops ++ all) k = last_sent (ops ++ poll_ops i s sd vis) k).
  { intros k. rewrite !StreamProofs.last_sent_app. rewrite <- Ea, mouse_sent. reflexivity. }
  assert (Sn1 : forall k, 0 <= k < height_of (shown_rect i (s_pty s)) -> 0 <= k < h /\ legible te (seen i s k) /\ 1 <= zlen (seen i s k) <= te_w te).
  { intros k K. split; [lia|]. split; [apply Lg; exact K|]. rewrite Ln by exact K. exact Rw. }
  split.
  - exists t', off, base, (ops ++ all), m', q'. splits; auto; try lia.
    + intros k. rewrite Els. apply Et.
    + intros k d Hd. rewrite Els, StreamProofs.last_sent_app in Hd. destruct (last_sent (poll_ops i s sd vis) k) as [d'|] eqn:Ed; [|apply Sn; exact Hd].
      injection Hd as <-. destruct (sent_in _ _ _ Ed) as (cc & Hi). apply poll_ops_in in Hi as (K1 & ->). apply Sn1. exact K1.
    + intros k l Hl. unfold DirectSpec.look in Hl. destruct ((0 <=? k) && (k <? height_of (shown_rect i (s_pty s)))) eqn:Ek; [|apply Ls; exact Hl].
      injection Hl as <-. apply Sn1. lia.
  - intros Str. cbv zeta. pose proof I' as (_ & _ & (_ & K2 & _ & K4 & _) & _ & _ & K6 & _). specialize (K6 Str). destruct (cursor_seen i (s_pty s) vis); cbn [cursor_is].
    + destruct Pc as (-> & ->). cbn [known] in Pq. destruct Pq as (Q1 & Q2). rewrite Q1 in K6. splits; [exact K6|lia|congruence].
    + subst q'. cbn [EndToEndProofs.known] in Pq. rewrite Pq in K6. exact K6.
Qed.
(** What the theorems say of one poll *)
Definition good_poll (i : cinfo) (s' : sst) (w' : world) (tm' : term) (last : Z -> option (list cell)) : Prop :=
  keeps s' tm' last /\ exists vis, cursor_after i s' vis tm' /\ (c_new c = false -> i = info_of (w_buf w') /\ vis = b_visible (w_buf w')) /\
  let r := shown_rect i (s_pty s') in 1 <= width_of r <= te_w te /\ 1 <= height_of r <= h /\
  (c_new c = false \/ in_buf (w_buf w') r = true -> words (w_buf w') -> exists mask, In mask masks /\
       forall k, 0 <= k < height_of r -> seen i s' k = expected_row (w_buf w') mask r (rTop r + k)).
Lemma keeps_poll s tm last w i s' w' all : keeps s tm last -> at_rest w -> scrapeBuffer c s w = Ok (i, s', w') -> s_direct s' = true -> all_legible te i s' ->
  without_mouse all = new_ops s s' -> exists tm', run_tops (E := unit) all tm = Ok tm' /\ good_poll i s' w' tm' (DirectSpec.look i s' last).
Proof.
  intros (t & off & base & ops & m & q & F & A & Hm & Bl & Et & Sn & Sp & Hh & Ls) W E Hd Lg Ea.
  destruct (full_viewed c Hc s t last F) as (V1 & V2 & V3 & V4).
  destruct (direct_step c s t w i s' w' Hc V1 W ltac:(intros _; exact V3) E Hd) as (sd & vis & No & Sp' & V' & Rw & Rh & Ln & Ev & Ex). rewrite V2 in No. cbn [app] in No.
  assert (Sp2 : s_pty s' = mkCoord (te_w te) h) by congruence. rewrite Sp2 in Rw, Rh. cbn [co_x co_y] in Rw, Rh. rewrite <- Sp2 in Rw, Rh.
  assert (Nr : forall o, In o (new_ops s s') -> match o with TReset _ _ => False | _ => True end).
  { rewrite No. intros o Ho. apply poll_ops_in in Ho. destruct o; auto. }
  destruct (run_poll (replay (new_ops s s') t) last off base ops m q i s' sd vis tm all A Hm Bl Sn Ls Sp2 Hh) as (tm' & Er & K & Cu); auto.
  - intros k. rewrite replay_last by exact Nr. rewrite <- No, StreamProofs.last_sent_app. destruct (last_sent (new_ops s s') k); [reflexivity|apply Et].
  - apply (fs_poll c s t last w i s' w' F W E Hd).
  - congruence.
  - exists tm'. split; [exact Er|]. split; [exact K|]. exists vis. splits; auto; lia.
Qed.
Lemma mouse_reach : forall pre off tm, Forall (fun o => is_mouse o = true) pre -> reach te st true strict off tm ->
  exists tm', run_tops (E := unit) pre tm = Ok tm' /\ reach te st true strict off tm' /\ t_hidden tm' = t_hidden tm.
Proof.
  induction pre as [|o pre IH]; intros off tm F R; [exists tm; splits; auto|]. inversion F as [|? ? F1 F2]; subst. destruct o as [| | | |on]; try discriminate F1.
  assert (R1 : reach te st true strict off (enableMouseMode on tm)) by (eapply (reach_op te st true strict off tm (TMouse on)); [exact R|exact I|reflexivity|reflexivity|intros _; exact I]).
  destruct (IH off (enableMouseMode on tm) F2 R1) as (tm' & E & R' & Hh). exists tm'. cbn [run_tops run_top bind]. splits; auto. rewrite Hh. unfold enableMouseMode. destruct (_ || _); reflexivity.
Qed.
Lemma reset_first' x cl : forall all ops, without_mouse all = TReset cl x :: ops ->
  exists pre post, all = pre ++ TReset cl x :: post /\ Forall (fun o => is_mouse o = true) pre /\ without_mouse post = ops.
Proof.
  induction all as [|o all IH]; intros ops E; [discriminate|]. unfold without_mouse in E. cbn [filter] in E. destruct (is_mouse o) eqn:Eo; cbn [negb] in E.
  - destruct (IH ops E) as (pre & post & -> & A & B). exists (o :: pre), post. splits; auto.
  - injection E as -> E. exists [], all. splits; auto.
Qed.
Lemma keeps_enter s w i s' w' off tm all : scraper_ok s -> s_pty s = mkCoord (te_w te) h -> at_rest w -> s_direct s = false ->
  scrapeBuffer c s w = Ok (i, s', w') -> s_direct s' = true -> all_legible te i s' ->
  reach te st true strict off tm -> (strict = true -> t_hidden tm = false) -> without_mouse all = new_ops s s' ->
  exists tm', run_tops (E := unit) all tm = Ok tm' /\ good_poll i s' w' tm' (DirectSpec.look i s' (fun _ => None)).
Proof.
  intros V Sp W D E Hd Lg R Hid Ea.
  destruct (direct_step c s (fun _ => mkRow nothing 7) w i s' w' Hc V W ltac:(intros Hx; congruence) E Hd) as (sd & vis & No & Sp' & V' & Rw & Rh & Ln & Ev & Ex). rewrite D in No. cbn [app] in No.
  assert (Sp2 : s_pty s' = mkCoord (te_w te) h) by congruence. rewrite Sp2 in Rw, Rh. cbn [co_x co_y] in Rw, Rh. rewrite <- Sp2 in Rw, Rh.
  rewrite No in Ea. destruct (reset_first' 0 true all _ Ea) as (pre & post & -> & Pm & Ep). destruct (mouse_reach pre off tm Pm R) as (tm1 & E1 & R1 & H1).
  set (tm2 := reset true 0 tm1).
  pose proof (reach_inv te Hte st true strict Hst off tm1 R1) as I1.
  pose proof (reset_ok te Hte st true strict off tm1 true 0 I1 (or_introl eq_refl) ltac:(intros Str; rewrite H1; apply Hid; exact Str)) as I2. cbv zeta in I2. fold tm2 in I2. rewrite Z.sub_0_r in I2.
  destruct (reset_clears te st true strict off tm1 0 Hte Hst R1) as (C1 & C2 & C3). fold tm2 in C1, C2, C3. rewrite C1 in I2.
  assert (A : at_place te st strict (s_top (scn tm2)) (scn tm2) [] (0, 0, Some (Some 0)) tm2).
  { split; [exact I2|]. split; [|intros n cc; reflexivity]. splits; [lia|reflexivity|split; reflexivity]. }
  assert (Hh : 1 <= h <= 2000). { destruct V' as ((_ & Q & _) & _). rewrite Sp2 in Q. cbn [co_y] in Q. lia. }
  assert (Nr : forall o, In o (poll_ops i s' sd vis) -> match o with TReset _ _ => False | _ => True end).
  { intros o Ho. apply poll_ops_in in Ho. destruct o; auto. }
  destruct (run_poll (replay (new_ops s s') (fun _ => mkRow nothing 7)) (fun _ => None) (s_top (scn tm2)) (scn tm2) [] 0 (Some (Some 0)) i s' sd vis tm2 post A ltac:(lia)) as (tm' & Er & K & Cu); auto; try lia.
  - discriminate.
  - discriminate.
  - intros k. rewrite No. change (replay (TReset true 0 :: poll_ops i s' sd vis) (fun _ => mkRow nothing 7) k) with (replay (poll_ops i s' sd vis) (fun _ => mkRow nothing 7) k). rewrite replay_last by exact Nr. reflexivity.
  - apply (fs_enter c s w i s' w' _ V W D E Hd).
  - exists tm'. split.
    + clear - E1 Er. revert tm E1. induction pre as [|o pre IH]; intros tm E1.
      * cbn [app run_tops run_top bind] in *. injection E1 as ->. exact Er.
      * cbn [app run_tops] in *. destruct (run_top o tm); cbn [bind] in *; try discriminate. apply IH. exact E1.
    + split; [exact K|]. exists vis. splits; auto; lia.
Qed.
Lemma good_shown i s' w' tm' last : good_poll i s' w' tm' (DirectSpec.look i s' last) -> poll_shown c te strict last i s' w' (scn tm').
Proof.
  intros (K & vis & Cu & Ev & Rw & Rh & Ex). split; [intros k l Hl; apply (keeps_rows s' tm' (DirectSpec.look i s' last) k l K Hl)|]. exists vis. split; [exact Ev|]. split; [exact Cu|].
  intros Hin Hwd. destruct (Ex Hin Hwd) as (mask & Hm & He). exists mask. split; [exact Hm|]. intros k Hk. rewrite <- He by exact Hk. apply (keeps_rows s' tm' (DirectSpec.look i s' last) k _ K).
  unfold DirectSpec.look. replace ((0 <=? k) && (k <? height_of (shown_rect i (s_pty s')))) with true by lia. reflexivity.
Qed.
Lemma output_keeps s tm last : full_output c te st strict s tm last -> keeps s tm last.
Proof.
  induction 1 as [s w i s' w' off tm ops tm' V Sp W D E Hd Lg R Hid Ea Er|s tm last w i s' w' ops tm' F IH W E Hd Lg Ea Er].
  - destruct (keeps_enter s w i s' w' off tm ops V Sp W D E Hd Lg R Hid Ea) as (tm2 & E2 & K & _). rewrite Er in E2. injection E2 as <-. exact K.
  - destruct (keeps_poll s tm last w i s' w' ops IH W E Hd Lg Ea) as (tm2 & E2 & K & _). rewrite Er in E2. injection E2 as <-. exact K.
Qed.
End Full.
