(** Histories of ConsoleInput: tokens, frames, chunking. *)
From Verif Require Import Base BaseLemmas Text Unicode UnicodeSpec UnicodeProofs InputMap InputMapSpec InputMapProofs
  DefaultInputMap DefaultInputMapSpec DefaultInputMapProofs ConsoleInput ConsoleInputSpec ConsoleInputScan ConsoleInputToken.
Ltac Zify.zify_post_hook ::= Z.div_mod_to_equations.
Ltac splits := repeat match goal with |- _ /\ _ => split end.

(** *** Actions are total *)
Definition mouseEv (e : env) (r : mouse) (c : ci) : ci := match @mouseEvent unit e c r with Ok c' => c' | _ => c end.
Lemma button_cases n : Z.land n 3 = 0 \/ Z.land n 3 = 1 \/ Z.land n 3 = 2 \/ Z.land n 3 = 3.
Proof. assert (Z.land n 3 = n mod 4) as -> by (change 3 with (Z.ones 2); now rewrite Z.land_ones). lia. Qed.
Lemma mouseEvent_ok {E} e c r : @mouseEvent E e c r = Ok (mouseEv e r c).
Proof.
  unfold mouseEv, mouseEvent, tick. destruct (button_cases (mr_flags r)) as [H|[H|[H|H]]]; rewrite H; cbn [Z.eqb Pos.eqb assert_ bind negb];
    destruct (has (mr_flags r) 64); try reflexivity; destruct (mr_release r); try reflexivity;
    match goal with |- context [Z.land ?a ?b =? 0] => destruct (Z.land a b =? 0) end; try reflexivity;
    match goal with |- context [if ?a && ?b && ?x then _ else _] => destruct (a && b && x) end; try reflexivity;
    match goal with |- context [if ?a <? ?b then _ else _] => destruct (a <? b) end; reflexivity.
Qed.
Definition act (e : env) (t : tok) (c : ci) : ci :=
  match t with
  | TCtrlC => emit EvCtrlC (flushInputRecords c)
  | TDsr => set_dsr false c
  | TMouse r => mouseEv e r c
  | TKey k => appendMatch e c k
  | TChar cp alt => appendCodePoint e c cp alt
  | TInvalid => c
  end.
Lemma applyTok_act {E} e t c : @applyTok E e t c = Ok (act e t c).
Proof. destruct t; try reflexivity. apply mouseEvent_ok. Qed.
Fixpoint acts (e : env) (ts : list tok) (c : ci) : ci := match ts with [] => c | t :: r => acts e r (act e t c) end.
Lemma applyAll_acts {E} e ts : forall c, @applyAll E e ts c = Ok (acts e ts c).
Proof. induction ts as [|t ts IH]; intros c; [reflexivity|]. cbn [applyAll acts]. rewrite applyTok_act. cbn [bind]. apply IH. Qed.
Lemma acts_app e a : forall b c, acts e (a ++ b) c = acts e b (acts e a c).
Proof. induction a as [|t a IH]; intros b c; [reflexivity|]. cbn. apply IH. Qed.

(** *** Frames *)
Definition core (c : ci) : ci :=
  mkCi [] false 0 (c_buttons c) (c_dc c) (c_ext c) (c_mouse c) (c_quick c) (c_esc c) (c_left c) (c_top c) (c_right c) (c_bottom c) [] [] (c_clock c).
Definition cfg (c : ci) := (c_ext c, c_mouse c, c_quick c, c_esc c, c_left c, c_top c, c_right c, c_bottom c).
Definition keeps (c c' : ci) : Prop := c_queue c' = c_queue c /\ c_dsrSent c' = c_dsrSent c /\ c_lastWrite c' = c_lastWrite c /\ queries (c_log c') = queries (c_log c) /\ cfg c' = cfg c.
Definition frame (f : ci -> ci) : Prop :=
  forall c, core (f c) = core (f (core c)) /\ told (f c) = told c ++ told (f (core c)) /\ keeps c (f c).
Lemma core_core c : core (core c) = core c. Proof. reflexivity. Qed.
Lemma told_core c : told (core c) = []. Proof. reflexivity. Qed.
Lemma keeps_trans a b c : keeps a b -> keeps b c -> keeps a c.
Proof. unfold keeps. intros (? & ? & ? & ? & ?) (? & ? & ? & ? & ?). splits; congruence. Qed.
Lemma keeps_refl a : keeps a a. Proof. unfold keeps. splits; auto. Qed.
Lemma frame_id : frame (fun c => c).
Proof. intros c. splits; [reflexivity|now rewrite told_core, app_nil_r|apply keeps_refl]. Qed.
Lemma frame_comp f g : frame f -> frame g -> frame (fun c => g (f c)).
Proof.
  intros F G c. destruct (F c) as (F1 & F2 & F3). destruct (G (f c)) as (G1 & G2 & G3). destruct (G (f (core c))) as (H1 & H2 & H3). splits.
  - rewrite G1, F1. symmetry. exact H1.
  - rewrite G2, F2, F1, H2, app_assoc. reflexivity.
  - eapply keeps_trans; eassumption.
Qed.
Lemma frame_if (p : ci -> bool) f g : (forall c, p c = p (core c)) -> frame f -> frame g -> frame (fun c => if p c then f c else g c).
Proof. intros P F G c. rewrite <- (P c). destruct (p c); [apply F|apply G]. Qed.
Lemma frame_ifb (b : bool) f g : frame f -> frame g -> frame (fun c => if b then f c else g c).
Proof. intros F G. apply (frame_if (fun _ => b)); auto. Qed.
Lemma queries_app a b : queries (a ++ b) = queries a + queries b.
Proof. unfold queries. now rewrite filter_app, zlen_app. Qed.
Lemma frame_push (r : ci -> irec) : (forall c, r c = r (core c)) -> frame (fun c => push (r c) c).
Proof.
  intros R c. splits; [reflexivity| |unfold keeps; splits; reflexivity].
  - unfold told. cbn [push set_out c_records c_log core]. rewrite map_app, app_assoc, <- R. reflexivity.
Qed.
Lemma received_app a b : received (a ++ b) = received a ++ received b.
Proof. unfold received. apply flat_map_app. Qed.
Lemma flush_told c : told (flushInputRecords c) = told c.
Proof.
  unfold flushInputRecords. destruct (c_records c) as [|x l] eqn:E; [reflexivity|]. unfold told. cbn [set_out c_records c_log].
  rewrite E, received_app. unfold received at 2. cbn [flat_map flat1]. now rewrite !app_nil_r.
Qed.
Lemma flush_core c : core (flushInputRecords c) = core c.
Proof. unfold flushInputRecords. destruct (c_records c); reflexivity. Qed.
Lemma flush_keeps c : keeps c (flushInputRecords c).
Proof.
  unfold flushInputRecords. destruct (c_records c) as [|x l]; [apply keeps_refl|]. unfold keeps. splits; try reflexivity.
  cbn [set_out c_log]. rewrite queries_app. change (queries [EvWrite (x :: l)]) with 0. lia.
Qed.
Lemma flush_records c : c_records (flushInputRecords c) = [].
Proof. unfold flushInputRecords. destruct (c_records c) eqn:E; [exact E|reflexivity]. Qed.
Lemma frame_flush : frame flushInputRecords.
Proof. intros c. splits; [rewrite flush_core; reflexivity|rewrite flush_told; change (flushInputRecords (core c)) with (core c); now rewrite told_core, app_nil_r|apply flush_keeps]. Qed.
(** an event sent right after a flush *)
Lemma frame_emit f ev : frame f -> (forall c, c_records (f c) = []) -> flat1 ev <> [] -> frame (fun c => emit ev (f c)).
Proof.
  intros F R Hf c. destruct (F c) as (F1 & F2 & F3).
  assert (T : forall c, told (emit ev (f c)) = told (f c) ++ flat1 ev).
  { intros c0. unfold told. cbn [emit set_out c_records c_log]. rewrite R, received_app. unfold received at 2. cbn [flat_map map]. now rewrite !app_nil_r. }
  splits.
  - exact F1.
  - rewrite !T, F2, app_assoc. reflexivity.
  - eapply keeps_trans; [exact F3|]. unfold keeps. splits; try reflexivity. cbn [emit set_out c_log]. rewrite queries_app.
    assert (queries [ev] = 0) by (destruct ev; try reflexivity; contradiction Hf; reflexivity). lia.
Qed.

Lemma frame_append e down vk ch ks : frame (fun c => appendInputRecord e c down vk ch ks).
Proof. apply (frame_push (fun _ => _)). reflexivity. Qed.
Lemma frame_cp e down vk cp ks : frame (fun c => appendCPInputRecords e c down vk cp ks).
Proof.
  unfold appendCPInputRecords. destruct (encodeUtf16 cp) as [|a [|b [|d l]]]; try apply frame_id.
  - apply frame_append.
  - apply (frame_comp (fun c => appendInputRecord e c down vk a ks) (fun c => appendInputRecord e c down vk b ks)); apply frame_append.
Qed.
Lemma frame_outs e s : frame (fun c => outs e c s).
Proof.
  induction s as [|x t IH]; [apply frame_id|]. cbn [outs].
  apply (frame_comp (fun c => outch e c x) (fun c => outs e c t)); [apply frame_append|exact IH].
Qed.
Lemma frame_reenc e vk cp ks : frame (fun c => reencodeEscapedKeyPress e c vk cp ks).
Proof.
  unfold reencodeEscapedKeyPress.
  assert (P : frame (fun c => if cp =? 0 then c else appendCPInputRecords e (if has ks LEFT_ALT_PRESSED then outch e c 27 else c) true 0 cp 0)).
  { apply frame_ifb; [apply frame_id|]. apply (frame_comp (fun c => if has ks LEFT_ALT_PRESSED then outch e c 27 else c) (fun c => appendCPInputRecords e c true 0 cp 0)).
    - apply frame_ifb; [apply frame_append|apply frame_id].
    - apply frame_cp. }
  destruct (escapeCode vk); try apply frame_outs. apply frame_ifb.
  - apply (frame_comp (fun c => if has ks LEFT_ALT_PRESSED then outch e c 27 else c) (fun c => outch e c 127)); [|apply frame_append].
    apply frame_ifb; [apply frame_append|apply frame_id].
  - apply frame_ifb; [|exact P]. apply frame_ifb; [apply frame_outs|exact P].
Qed.
Lemma frame_ctrl e on down vk ks : frame (fun c => ctrl_step e c on down vk ks).
Proof. unfold ctrl_step. apply frame_ifb; [apply frame_append|apply frame_id]. Qed.
Lemma frame_key e vk dn up wks cp vks : frame (fun c => appendKeyPress e c vk dn up wks cp vks).
Proof.
  unfold appendKeyPress. cbv zeta.
  set (q := existsb (Z.eqb vk) _). clearbody q.
  set (ctrl := has wks LEFT_CTRL_PRESSED). set (la := has wks LEFT_ALT_PRESSED). set (ra := has wks RIGHT_ALT_PRESSED). set (sh := has wks SHIFT_PRESSED). set (en := has wks ENHANCED_KEY).
  clearbody ctrl la ra sh en.
  apply (frame_if (fun c => c_esc c && q && negb ctrl && negb la && negb ra && negb sh)); [reflexivity| |].
  - unfold sendKeyMessage. apply (frame_emit (fun c => emit _ (flushInputRecords c))).
    + apply (frame_emit flushInputRecords); [apply frame_flush|apply flush_records|discriminate].
    + intros c. cbn [emit set_out c_records]. apply flush_records.
    + discriminate.
  - assert (C : forall f on d v k, frame f -> frame (fun c => ctrl_step e (f c) on d v k)).
    { intros f on d v k F. apply (frame_comp f (fun c => ctrl_step e c on d v k)); [exact F|apply frame_ctrl]. }
    assert (CP : forall f d v x k, frame f -> frame (fun c => appendCPInputRecords e (f c) d v x k)).
    { intros f d v x k F. apply (frame_comp f (fun c => appendCPInputRecords e c d v x k)); [exact F|apply frame_cp]. }
    assert (B : forall f v x k, frame f -> frame (fun c => if c_esc (f c) then reencodeEscapedKeyPress e (f c) vk cp vks else appendCPInputRecords e (f c) true v x k)).
    { intros f v x k F. apply (frame_comp f (fun c => if c_esc c then reencodeEscapedKeyPress e c vk cp vks else appendCPInputRecords e c true v x k)); [exact F|].
      apply (frame_if c_esc); [reflexivity|apply frame_reenc|apply frame_cp]. }
    refine (C (fun c => _) _ _ _ _ _). refine (C (fun c => _) _ _ _ _ _). refine (C (fun c => _) _ _ _ _ _). refine (C (fun c => _) _ _ _ _ _).
    refine (CP (fun c => _) _ _ _ _ _). refine (B (fun c => _) _ _ _ _).
    refine (C (fun c => _) _ _ _ _ _). refine (C (fun c => _) _ _ _ _ _). refine (C (fun c => _) _ _ _ _ _). refine (C (fun c => _) _ _ _ _ _). apply frame_id.
Qed.
Lemma frame_mouse e r : frame (mouseEv e r).
Proof.
  intros c.
  unfold mouseEv, mouseEvent, tick, FROM_LEFT_1ST_BUTTON_PRESSED, FROM_LEFT_2ND_BUTTON_PRESSED, RIGHTMOST_BUTTON_PRESSED. destruct (button_cases (mr_flags r)) as [H|[H|[H|H]]]; rewrite H; cbn [Z.eqb Pos.eqb assert_ bind negb];
    cbn [core c_left c_right c_top c_bottom c_buttons c_dc c_clock c_mouse c_quick set_mstate];
    change (rect_width (core c)) with (rect_width c); change (rect_height (core c)) with (rect_height c);
    destruct (has (mr_flags r) 64);
    try (destruct (mr_release r));
    try match goal with |- context [Z.land ?a ?b =? 0] => destruct (Z.land a b =? 0) end;
    try match goal with |- context [if ?a && ?b && ?x then _ else _] => destruct (a && b && x) end;
    try match goal with |- context [if ?a <? ?b then _ else _] => destruct (a <? b) end;
    try (destruct (c_mouse c && negb (c_quick c)));
    (splits; [reflexivity| |unfold keeps; splits; reflexivity]); unfold told, push; cbn [set_out set_mstate c_records c_log map app received flat_map core];
    rewrite ?map_app, ?app_nil_r, ?app_assoc; reflexivity.
Qed.
Definition keeps2 (c c' : ci) : Prop := c_queue c' = c_queue c /\ c_lastWrite c' = c_lastWrite c /\ queries (c_log c') = queries (c_log c) /\ cfg c' = cfg c.
Definition frame2 (f : ci -> ci) : Prop :=
  forall c, core (f c) = core (f (core c)) /\ told (f c) = told c ++ told (f (core c)) /\ keeps2 c (f c).
Lemma frame_weak f : frame f -> frame2 f.
Proof. intros F c. destruct (F c) as (F1 & F2 & (? & ? & ? & ? & ?)). splits; auto. unfold keeps2. splits; auto. Qed.
Lemma frame2_comp f g : frame2 f -> frame2 g -> frame2 (fun c => g (f c)).
Proof.
  intros F G c. destruct (F c) as (F1 & F2 & F3). destruct (G (f c)) as (G1 & G2 & G3). destruct (G (f (core c))) as (H1 & H2 & H3). splits.
  - rewrite G1, F1. symmetry. exact H1.
  - rewrite G2, F2, F1, H2, app_assoc. reflexivity.
  - unfold keeps2 in *. destruct F3 as (? & ? & ? & ?), G3 as (? & ? & ? & ?). splits; congruence.
Qed.
Lemma frame_act e t : t <> TDsr -> frame (act e t).
Proof.
  intros Hd. destruct t; cbn [act].
  - apply (frame_emit flushInputRecords); [apply frame_flush|apply flush_records|discriminate].
  - congruence.
  - apply frame_mouse.
  - unfold appendMatch. apply frame_key.
  - unfold appendCodePoint. apply frame_key.
  - apply frame_id.
Qed.
Lemma frame2_act e t : frame2 (act e t).
Proof.
  destruct t; try (apply frame_weak, frame_act; discriminate). intros c. cbn [act]. splits; try reflexivity.
  - unfold told. cbn. now rewrite app_nil_r.
  - unfold keeps2. splits; auto.
Qed.
Lemma frame2_acts e ts : frame2 (acts e ts).
Proof.
  induction ts as [|t ts IH]; [apply frame_weak, frame_id|]. cbn [acts]. apply (frame2_comp (act e t) (acts e ts)); [apply frame2_act|exact IH].
Qed.
Definition is_dsr (t : tok) : bool := match t with TDsr => true | _ => false end.
Lemma act_dsr e t c : c_dsrSent (act e t c) = if is_dsr t then false else c_dsrSent c.
Proof. destruct t; try reflexivity; match goal with |- _ (act ?e ?t _) = _ => destruct (frame_act e t ltac:(discriminate) c) as (_ & _ & (_ & H & _)); exact H end. Qed.
Lemma acts_dsr e ts : forall c, c_dsrSent (acts e ts c) = if existsb is_dsr ts then false else c_dsrSent c.
Proof.
  induction ts as [|t ts IH]; intros c; [reflexivity|]. cbn [acts existsb]. rewrite IH, act_dsr. destruct (is_dsr t), (existsb is_dsr ts); reflexivity.
Qed.

(** *** Eating input *)
Section E.
Variable e : env.
Hypothesis EO : env_ok e.

Inductive eats (eof : bool) : list Z -> list tok -> list Z -> Prop :=
| eat_done : eats eof [] [] []
| eat_wait input : input <> [] -> classify e input eof = CMore -> eats eof input [] input
| eat_tok input n t ts rest : input <> [] -> classify e input eof = CTok n t -> eats eof (zskipn n input) ts rest -> eats eof input (t :: ts) rest.

Lemma bytes_skip n l : bytes l -> bytes (zskipn n l).
Proof. intros H. rewrite <- (zfirstn_zskipn n l) in H. apply bytes_app in H. apply H. Qed.

Lemma eats_total eof : forall k input, (length input <= k)%nat -> bytes input -> exists ts rest, eats eof input ts rest.
Proof.
  induction k as [|k IH]; intros input Hk Hb.
  - destruct input; [|cbn in Hk; lia]. exists [], []. constructor.
  - destruct input as [|b t]; [exists [], []; constructor|]. assert (Hn : b :: t <> []) by discriminate.
    pose proof (classify_spec e EO (b :: t) eof Hb Hn) as Sp. destruct (classify e (b :: t) eof) as [| |n tk] eqn:Ec; [|contradiction|].
    + exists [], (b :: t). now constructor.
    + destruct Sp as (((Hn1 & Hn2) & _) & _). destruct (IH (zskipn n (b :: t))) as (ts & rest & He).
      * unfold zskipn, zlen in *. rewrite skipn_length. lia.
      * now apply bytes_skip.
      * exists (tk :: ts), rest. econstructor; eassumption.
Qed.
Lemma eats_det eof input ts rest : eats eof input ts rest -> forall ts' rest', eats eof input ts' rest' -> ts = ts' /\ rest = rest'.
Proof.
  induction 1 as [|input Hn Hc|input n t ts rest Hn Hc He IH]; intros ts' rest' H'.
  - inversion H'; subst; try congruence; auto.
  - inversion H'; subst; try congruence; auto.
  - inversion H'; subst; try congruence.
    match goal with Hy : classify e input eof = CTok ?n' ?t', Hz : eats eof (zskipn ?n' input) _ _ |- _ =>
      assert (n' = n /\ t' = t) as (-> & ->) by (split; congruence); destruct (IH _ _ Hz) as (-> & ->) end. auto.
Qed.
(** what has been eaten *)
Lemma eats_pieces eof input ts rest : eats eof input ts rest -> bytes input ->
  exists ps, map snd ps = ts /\ Forall (fun p => token (processed e) (fst p) (snd p)) ps /\ concat (map fst ps) ++ rest = input /\
  (rest = [] \/ (rest <> [] /\ classify e rest eof = CMore)).
Proof.
  induction 1 as [|input Hn Hc|input n t ts rest Hn Hc He IH]; intros Hb.
  - exists []. cbn. splits; auto.
  - exists []. cbn. splits; auto.
  - destruct (IH (bytes_skip _ _ Hb)) as (ps & Hm & HF & Hcc & Hr). exists ((zfirstn n input, t) :: ps). cbn [map snd fst concat]. splits; auto.
    + now rewrite Hm.
    + constructor; auto. cbn [fst snd]. pose proof (classify_spec e EO input eof Hb Hn) as Sp. rewrite Hc in Sp. apply Sp.
    + rewrite <- app_assoc, Hcc. apply zfirstn_zskipn.
Qed.
(** chunking *)
Lemma eats_chunk P ts rest : eats false P ts rest -> bytes P -> forall Q ts2 rest2, bytes Q -> eats false (rest ++ Q) ts2 rest2 -> eats false (P ++ Q) (ts ++ ts2) rest2.
Proof.
  induction 1 as [|input Hn Hc|input n t ts rest Hn Hc He IH]; intros Hb Q ts2 rest2 HQ H2; auto.
  pose proof (classify_spec e EO input false Hb Hn) as Sp. rewrite Hc in Sp. destruct Sp as (((Hn1 & Hn2) & _) & St). cbn [app].
  apply (eat_tok _ _ n).
  - intros H. apply app_eq_nil in H as (H & _). contradiction.
  - now apply St.
  - rewrite zskipn_app_le by lia. apply IH; auto. now apply bytes_skip.
Qed.
Lemma eats_again eof input ts rest : eats eof input ts rest -> eats eof rest [] rest.
Proof. induction 1; auto; constructor; auto. Qed.

(** *** The loop *)
Lemma act_queue t c : c_queue (act e t c) = c_queue c.
Proof. apply (frame2_act e t c). Qed.
Lemma write_loop_eats {E} eof : forall fuel c idx ts rest, bytes (c_queue c) -> zlen (c_queue c) < 2 ^ 31 ->
  0 <= idx <= zlen (c_queue c) -> zlen (c_queue c) - idx < Z.of_nat fuel ->
  forall input, input = zskipn idx (c_queue c) -> eats eof input ts rest ->
  @write_loop E fuel e c idx eof = Ok (zlen (c_queue c) - zlen rest, acts e ts c).
Proof.
  induction fuel as [|k IH]; intros c idx ts rest Hb Hl Hi Hf input Hin He; [lia|]. cbn [write_loop].
  assert (Hz : zlen (zskipn idx (c_queue c)) = zlen (c_queue c) - idx) by (rewrite zlen_zskipn; lia).
  destruct (Z.ltb_spec idx (zlen (c_queue c))) as [Hlt|Hge].
  - assert (Hn : zskipn idx (c_queue c) <> []) by (intros H; rewrite H in Hz; change (zlen (@nil Z)) with 0 in Hz; lia).
    rewrite (scanInput_eq e EO) by (auto using bytes_skip; lia). rewrite <- Hin in *.
    destruct He as [|input Hx Hy|input n t ts2 rest Hx Hy Hw]; [congruence| |].
    + rewrite Hy. cbn [outcome bind]. change (-1 =? -1) with true. cbv iota. cbn [acts]. repeat f_equal. lia.
    + rewrite Hy. cbn [outcome]. rewrite applyTok_act. cbn [bind].
      assert (Hbi : bytes input) by (rewrite Hin; now apply bytes_skip).
      pose proof (classify_spec e EO _ eof Hbi Hn) as Sp. rewrite Hy in Sp. destruct Sp as (((Hn1 & Hn2) & _) & _).
      replace (n =? -1) with false by lia. rewrite (IH (act e t c) (idx + n) ts2 rest) with (input := zskipn n input); rewrite ?act_queue; auto; try lia.
      rewrite Hin. apply zskipn_zskipn; lia.
  - assert (zskipn idx (c_queue c) = []) as Hn by (apply zskipn_all; lia). rewrite Hin, Hn in He.
    inversion He; subst; try congruence.
    cbn [acts]. change (zlen (@nil Z)) with 0. repeat f_equal. lia.
Qed.
Lemma eats_rest_suffix eof input ts rest : eats eof input ts rest -> bytes input -> zlen rest <= zlen input /\ zskipn (zlen input - zlen rest) input = rest /\ bytes rest.
Proof.
  intros He Hb. destruct (eats_pieces _ _ _ _ He Hb) as (ps & _ & _ & Hc & _). rewrite <- Hc in Hb |- *. rewrite zlen_app.
  pose proof (zlen_nonneg (concat (map fst ps))). splits; [lia| |now apply bytes_app in Hb].
  apply zskipn_app_exact. lia.
Qed.
Lemma doWrite_eats {E} eof c ts rest : bytes (c_queue c) -> zlen (c_queue c) < 2 ^ 31 -> eats eof (c_queue c) ts rest ->
  @doWrite E e c eof = Ok (flushInputRecords (set_queue rest (acts e ts (set_out [] (c_log c) c)))).
Proof.
  intros Hb Hl He. unfold doWrite. set (c0 := set_out [] (c_log c) c). assert (Hq : c_queue c0 = c_queue c) by reflexivity.
  rewrite (write_loop_eats eof _ c0 0 ts rest) with (input := c_queue c); rewrite ?Hq; auto.
  - cbn [bind]. destruct (frame2_acts e ts c0) as (_ & _ & (Hq2 & _)). rewrite Hq2, Hq.
    destruct (eats_rest_suffix _ _ _ _ He Hb) as (_ & -> & _). reflexivity.
  - pose proof (zlen_nonneg (c_queue c)). lia.
  - unfold zlen. lia.
Qed.
End E.
