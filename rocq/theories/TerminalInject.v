(** Proofs: escape sequences in the output (C17). *)
From Verif Require Import Base BaseLemmas Text Unicode UnicodeSpec UnicodeProofs ConsoleLine Terminal TerminalSpec TerminalFeed TerminalProofs.
Ltac Zify.zify_post_hook ::= Z.div_mod_to_equations.
Ltac splits := repeat match goal with |- _ /\ _ => split end.

Ltac lit := splits; try reflexivity; cbn; auto 14.
Section Fin.
Variable fs : list Z.
Lemma cs_app a b : clean_stream fs a -> clean_stream fs b -> clean_stream fs (a ++ b).
Proof. intros (s1 & -> & H1) (s2 & -> & H2). exists (s1 ++ s2). split; [now rewrite concat_app|]. now apply Forall_app. Qed.
Lemma cs_nil : clean_stream fs [].
Proof. exists []. split; [reflexivity|constructor]. Qed.
Lemma cs_text bs : ~ In 27 bs -> clean_stream fs bs.
Proof. intros H. exists [bs]. split; [cbn; now rewrite app_nil_r|]. constructor; [now left|constructor]. Qed.
Lemma cs_seq ps f : Forall (fun b => 48 <= b <= 57 \/ b = 59 \/ b = 63) ps -> In f fs -> clean_stream fs (csi (ps ++ [f])).
Proof. intros H1 H2. exists [csi (ps ++ [f])]. split; [cbn [concat]; now rewrite app_nil_r|]. constructor; [right; exists ps, f; auto|constructor]. Qed.
Lemma cs_spaces n : clean_stream fs (repeat 32 n).
Proof. apply cs_text. intros H. apply repeat_spec in H. discriminate. Qed.
End Fin.
Ltac apps := repeat match goal with |- clean_stream _ (_ ++ _) => apply cs_app end.

Definition pbyte (b : Z) : Prop := 48 <= b <= 57 \/ b = 59 \/ b = 63.
Lemma udec_digits fuel n : Forall pbyte (udec_loop fuel n).
Proof. revert n. induction fuel as [|f IH]; intros n; [constructor|]. cbn [udec_loop]. assert (pbyte (48 + n mod 10)) by (left; lia). destruct (n / 10 =? 0); [auto|]. apply Forall_app. auto. Qed.
Lemma sgr_params_bytes b c : Forall pbyte (outputSetColorSgrParams b c).
Proof.
  unfold outputSetColorSgrParams. constructor; [right; now left|]. destruct (tb c FLAG_BRIGHT); [|apply udec_digits]. rewrite !Forall_app. splits; try apply udec_digits. constructor; [right; now left|constructor].
Qed.
Lemma pbytes l : forallb (fun b => ((48 <=? b) && (b <=? 57)) || (b =? 59) || (b =? 63)) l = true -> Forall pbyte l.
Proof. intros H. rewrite forallb_forall in H. apply Forall_forall. intros b Hb. specialize (H b Hb). unfold pbyte. lia. Qed.
Lemma color_clean fs c : In 109 fs -> clean_stream fs (outputSetColor c).
Proof.
  intros Hf. unfold outputSetColor.
  match goal with |- context [if ?b then (?x, ?y) else ?z] => destruct (if b then (x, y) else z) as (fore, back) end.
  change (str "m") with [109]. unfold csi. rewrite <- app_assoc.
  match goal with |- context [CSI ++ str "0" ++ ?a ++ ?b ++ ?c ++ [109]] => replace (CSI ++ str "0" ++ a ++ b ++ c ++ [109]) with (csi ((str "0" ++ a ++ b ++ c) ++ [109])) by (unfold csi; now rewrite <- !app_assoc) end.
  apply cs_seq; [|exact Hf]. change (Forall pbyte (str "0" ++ (if back =? BLACK
    then if fore =? LTGRAY then [] else if fore =? WHITE then str ";1" else if fore =? DKGRAY then str ";37;90" else outputSetColorSgrParams true fore
    else if back =? WHITE then str ";7" ++ (if (fore =? LTGRAY) || (fore =? BLACK) then [] else outputSetColorSgrParams false fore)
         else outputSetColorSgrParams true fore ++ outputSetColorSgrParams false back) ++ (if fore =? back then str ";8" else []) ++ (if tb c LVB_UNDERSCORE then str ";4" else []))).
  rewrite !Forall_app. splits.
  - now apply pbytes.
  - destruct (back =? BLACK).
    + destruct (fore =? LTGRAY); [constructor|]. destruct (fore =? WHITE); [now apply pbytes|]. destruct (fore =? DKGRAY); [now apply pbytes|apply sgr_params_bytes].
    + destruct (back =? WHITE); apply Forall_app; split; try apply sgr_params_bytes; [now apply pbytes|]. destruct (_ || _); [constructor|apply sgr_params_bytes].
  - destruct (fore =? back); [now apply pbytes|constructor].
  - destruct (tb c LVB_UNDERSCORE); [now apply pbytes|constructor].
Qed.
Lemma encode_no_esc ch : 0 <= ch -> ~ In 27 (match encodeUtf8 (fixSpecialCharacters ch) with [] => [63] | _ => encodeUtf8 (fixSpecialCharacters ch) end).
Proof.
  intros H. rewrite (fix_shown ch H). assert (Hn : 0 <= shown ch) by (unfold shown; repeat (destruct (_ =? _); [lia|]); lia).
  assert (H27 : shown ch <> 27) by (unfold shown; repeat match goal with |- context [if ?a =? ?b then _ else _] => destruct (Z.eqb_spec a b); [lia|] end; lia).
  assert (D : scalar (shown ch) \/ ~ scalar (shown ch)) by (unfold scalar; lia). destruct D as [Hs|Hs].
  - rewrite (encode_some _ Hs). unfold utf8_form, cont_of. destruct (Z.ltb_spec (shown ch) 128); [intros [|[]]; lia|].
    destruct (Z.ltb_spec (shown ch) 2048); [intros [|[|[]]]; lia|]. destruct (Z.ltb_spec (shown ch) 65536); [intros [|[|[|[]]]]; lia|intros [|[|[|[|[]]]]]; lia].
  - rewrite (encodeUtf8_error _ Hn Hs). intros [|[]]; lia.
Qed.
Lemma at_In {E} (l : list cell) i d : at_ (E := E) l i = Ok d -> In d l.
Proof. unfold at_. destruct (znth l i) eqn:Ez; [|discriminate]. intros [= <-]. eapply znth_In; eauto. Qed.
Lemma zskipn_In {A} n (l : list A) x : In x (zskipn n l) -> In x l.
Proof. intros H. rewrite <- (zfirstn_zskipn n l). apply in_or_app. now right. Qed.
Lemma scan_nonneg {E} data w n ch : Forall (fun c => 0 <= cl_ch c < 65536) data -> scanUnicodeScalarValue (E := E) data w = Ok (n, ch) -> 0 <= ch.
Proof.
  intros Hd. unfold scanUnicodeScalarValue. destruct (assert_ (E := E) (1 <=? w)); try discriminate. cbn [bind].
  destruct (isFullWidthCharacter (E := E) data w) as [f| | | |]; try discriminate. cbn [bind].
  destruct (at_ (E := E) data 0) as [d0| | | |] eqn:E0; try discriminate. cbn [bind]. apply at_In in E0. rewrite Forall_forall in Hd. pose proof (Hd _ E0) as Hr.
  destruct (Z.land (cl_ch d0) 0xF800 =? 0xD800); [|intros [= <- <-]; lia].
  destruct (_ || _); [intros [= <- <-]; lia|].
  destruct (at_ (E := E) data (if f then 2 else 1)) as [d1| | | |] eqn:E1; try discriminate. cbn [bind]. destruct (negb _); [intros [= <- <-]; lia|].
  destruct (isFullWidthCharacter (E := E) _ _) as [f2| | | |]; try discriminate. cbn [bind]. intros [= <- <-].
  unfold decodeSurrogatePair, u32, wrapu. apply Z.mod_pos_bound. lia.
Qed.

Section Mode.
Variables plain uc : bool.
(** what was there before *)
Variable base : list Z.
Local Notation fs := (finals plain uc).
Local Notation clean := (clean_stream fs).
Lemma In_m : uc = true -> In 109 fs.
Proof. unfold finals. intros ->. destruct plain; lit. Qed.
Lemma npl f : plain = false -> In f [65; 71; 72; 74; 75; 104; 108; 109] -> In f fs.
Proof. unfold finals. intros ->. auto. Qed.
Lemma seq_lit bs : plain = false -> (exists ps f, bs = csi (ps ++ [f]) /\ forallb (fun b => ((48 <=? b) && (b <=? 57)) || (b =? 59) || (b =? 63)) ps = true /\ In f [65; 71; 72; 74; 75; 104; 108; 109]) -> clean bs.
Proof. intros Hp (ps & f & -> & H1 & H2). apply cs_seq; [now apply pbytes|now apply npl]. Qed.

Definition SI (s : sl) : Prop := exists out k, sl_buf s = out ++ repeat 32 k /\ sl_len s = zlen out /\ clean out.
Lemma loop_clean {E} : forall fuel data width i s s', Forall (fun c => 0 <= cl_ch c < 65536) data -> SI s -> send_loop (E := E) fuel plain uc data width i s = Ok s' -> SI s'.
Proof.
  induction fuel as [|f IH]; intros data width i s s' Hd Hs; [discriminate|]. cbn [send_loop]. destruct (negb (i <? width)); [intros [= <-]; exact Hs|].
  destruct (at_ (E := E) data i) as [d| | | |]; try discriminate. cbn [bind].
  set (s1 := if uc && _ then _ else s). destruct (scanUnicodeScalarValue (E := E) (zskipn i data) (width - i)) as [(n, ch)| | | |] eqn:Esc; try discriminate. cbn [bind].
  assert (Hch : 0 <= ch). { eapply scan_nonneg; [|exact Esc]. rewrite Forall_forall in *. intros x Hx. apply Hd. eapply zskipn_In; eauto. }
  assert (H1 : SI s1).
  { unfold s1. destruct uc eqn:Eu; [|exact Hs]. cbn [andb]. destruct (negb _); [|exact Hs]. destruct Hs as (out & k & Hb & Hl & Hc).
    exists (sl_buf s ++ outputSetColor (Z.land (cl_attr d) COLOR_ATTRIBUTE_MASK)), O. cbn [sl_buf sl_len repeat]. rewrite app_nil_r. splits; auto.
    rewrite Hb. apps; auto using cs_spaces. apply color_clean. now apply In_m. }
  clearbody s1. intros H. eapply IH; [exact Hd| |exact H]. clear H. destruct H1 as (out & k & Hb & Hl & Hc).
  destruct (ch =? 32).
  - exists out, (k + 1)%nat. cbn [sl_buf sl_len]. splits; auto. rewrite Hb, <- app_assoc. f_equal. rewrite repeat_app. reflexivity.
  - match goal with |- SI (mkSl ?b _ _ _ _) => exists b, O end. cbn [sl_buf sl_len repeat]. rewrite app_nil_r. splits; auto.
    apply cs_app; [|apply cs_text; now apply encode_no_esc]. destruct ((i + n =? width) && negb plain) eqn:Ea; rewrite Hb; apps; auto using cs_spaces.
    apply andb_true_iff in Ea as (_ & Ep). apply negb_true_iff in Ep. apply seq_lit; [exact Ep|]. exists [48], 75. lit.
Qed.

Definition ok (t : term) : Prop := t_plain t = plain /\ t_useColor t = uc /\ exists w, t_out t = base ++ w /\ clean w.
Lemma ok_write bs t : ok t -> clean bs -> ok (write bs t).
Proof. intros (H1 & H2 & w & H3 & H4) H. unfold ok. cbn [write t_plain t_useColor t_out]. splits; auto. exists (w ++ bs). rewrite H3, app_assoc. split; [reflexivity|now apply cs_app]. Qed.
Lemma ok_hide t : ok t -> ok (hideTerminalCursor t).
Proof.
  intros H. pose proof H as (H1 & _). unfold hideTerminalCursor. destruct (t_plain t) eqn:Ep; [exact H|]. destruct (t_hidden t); [exact H|].
  change (ok (write hide_seq t)). apply ok_write; [exact H|]. apply seq_lit; [congruence|]. exists (str "?25"), 108. lit.
Qed.
Lemma crlf_clean : clean crlf. Proof. apply cs_text. cbn. lia. Qed.
Lemma ok_move line t : ok t -> ok (moveTerminalToLine line t).
Proof.
  intros H. unfold moveTerminalToLine. destruct (line =? t_line t); [exact H|]. pose proof (ok_hide t H) as H2. set (u := hideTerminalCursor t) in *. clearbody u.
  match goal with |- ok (set_pos ?a ?b ?c ?d ?x) => change (ok x) end. pose proof H2 as (P & _). destruct (line <? t_line u).
  - destruct (t_plain u) eqn:Ep; apply ok_write; auto using crlf_clean. change (up_seq (t_line u - line)) with ([13] ++ csi (udec (u32 (t_line u - line)) ++ [65])).
    apply cs_app; [apply cs_text; cbn; lia|]. apply cs_seq; [apply udec_digits|]. apply npl; [congruence|]. lit.
  - apply ok_write; [exact H2|]. induction (Z.to_nat (line - t_line u)) as [|n IH]; [apply cs_nil|]. cbn [repeat concat]. apply cs_app; [apply crlf_clean|exact IH].
Qed.
Lemma ok_send {E} line data width cc t t' : Forall (fun c => 0 <= cl_ch c < 65536) data -> ok t -> sendLine (E := E) line data width cc t = Ok t' -> ok t'.
Proof.
  intros Hd H. unfold sendLine. destruct (assert_ (E := E) (1 <=? width)); try discriminate. cbn [bind]. pose proof (ok_move line t H) as H1. cbv zeta. set (t1 := moveTerminalToLine line t) in *. clearbody t1.
  match goal with |- bind ?m _ = _ -> _ => destruct m as [valid| | | |] end; try discriminate. cbn [bind].
  match goal with |- context [send_loop _ (t_plain ?x)] => set (t2 := x) end.
  assert (H2 : ok t2).
  { unfold t2. destruct valid; [exact H1|]. match goal with |- ok (set_pos ?a ?b ?c ?d ?x) => change (ok x) end. apply ok_write; [now apply ok_hide|]. destruct (t_plain _); [apply crlf_clean|]. apply cs_text. cbn. lia. }
  clearbody t2. pose proof H2 as (P1 & P2 & P3). rewrite P1, P2.
  match goal with |- bind ?m _ = _ -> _ => destruct m as [s| | | |] eqn:El end; try discriminate. cbn [bind].
  assert (Hs : SI s). { apply (loop_clean (E := E)) in El; [exact El|exact Hd|]. exists [], O. cbn. splits; auto using cs_nil. }
  destruct Hs as (out & k & Hb & Hl & Hc). rewrite Hb, Hl, zfirstn_app_exact by reflexivity.
  set (t3 := if negb (cc =? -1) && _ then _ else _).
  assert (H3 : ok t3) by (unfold t3; destruct (_ && _); [apply ok_hide|]; exact H2). clearbody t3. pose proof H3 as (Q1 & _). change (t_plain (write out t3)) with (t_plain t3). rewrite Q1.
  set (t4 := if negb (sl_erased s) && _ then _ else _).
  assert (H4 : ok t4).
  { unfold t4. destruct (negb (sl_erased s) && negb plain) eqn:Ea; [|now apply ok_write]. apply andb_true_iff in Ea as (_ & Ep). apply negb_true_iff in Ep. apply ok_write; [now apply ok_write|]. apply seq_lit; [congruence|]. exists [48], 75. lit. }
  clearbody t4. match goal with |- bind ?m _ = _ -> _ => destruct m end; try discriminate. cbn [bind]. destruct (_ <? _); [discriminate|]. intros [= <-]. exact H4.
Qed.
Lemma ok_op {E} o t t' : top_wf o -> ok t -> run_top (E := E) o t = Ok t' -> ok t'.
Proof.
  intros Hw H. destruct o as [c l|l d cc|c l| |b]; cbn [run_top top_wf] in *.
  - intros [= <-]. unfold reset. match goal with |- ok (set_color _ (set_hidden _ (set_pos ?a ?b ?c ?d ?x))) => change (ok x) end.
    pose proof H as (P & _). destruct c; cbn [andb]; [|exact H]. destruct (t_plain t) eqn:Ep; cbn [negb]; [exact H|]. apply ok_write; [exact H|].
    unfold clear_seq. apps; (apply seq_lit; [congruence|]); [exists [48], 109|exists (str "1;1"), 72|exists [50], 74]; lit.
  - now apply ok_send.
  - intros [= <-]. unfold showTerminalCursor. pose proof (ok_move l t H) as H1. cbv zeta. set (t1 := moveTerminalToLine l t) in *. clearbody t1. pose proof H1 as (P & _).
    destruct (t_plain t1) eqn:Ep; [exact H1|]. set (t2 := if t_col t1 =? c then t1 else _).
    assert (H2 : ok t2).
    { unfold t2. destruct (t_col t1 =? c); [exact H1|]. match goal with |- ok (set_pos ?a ?b ?c ?d ?x) => change (ok x) end. apply ok_write; [exact H1|].
      unfold col_seq, sdec. replace (c + 1 <? 0) with false by lia. apply cs_seq; [apply udec_digits|]. apply npl; [congruence|lit]. }
    clearbody t2. destruct (t_hidden t2); [|exact H2]. change (ok (write show_seq t2)). apply ok_write; [exact H2|]. apply seq_lit; [congruence|]. exists (str "?25"), 104. lit.
  - intros [= <-]. now apply ok_hide.
  - intros [= <-]. unfold enableMouseMode. pose proof H as (P & _). destruct (_ || _) eqn:Eo; [exact H|]. apply orb_false_iff in Eo as (_ & Ep). assert (Hp : plain = false) by congruence.
    apply ok_write; [exact H|]. destruct b; [unfold mouse_on_seq|unfold mouse_off_seq]; apps; (apply seq_lit; [exact Hp|]);
    [exists (str "?1005"), 108|exists (str "?1000"), 104|exists (str "?1002"), 104|exists (str "?1003"), 104|exists (str "?1015"), 104|exists (str "?1006"), 104
    |exists (str "?1006"), 108|exists (str "?1015"), 108|exists (str "?1003"), 108|exists (str "?1002"), 108|exists (str "?1000"), 108]; lit.
Qed.
Lemma ok_ops {E} ops : forall t t', Forall top_wf ops -> ok t -> run_tops (E := E) ops t = Ok t' -> ok t'.
Proof.
  induction ops as [|o ops IH]; intros t t' Hw H; cbn [run_tops]; [intros [= <-]; exact H|]. inversion Hw; subst. destruct (run_top (E := E) o t) as [t1| | | |] eqn:E1; try discriminate. cbn [bind].
  apply IH; auto. eapply ok_op; eauto.
Qed.
End Mode.
Theorem ops_clean plain uc {E} ops t' : Forall top_wf ops -> run_tops (E := E) ops (new_term plain uc) = Ok t' -> clean_stream (finals plain uc) (t_out t').
Proof.
  intros Hw H. destruct (ok_ops plain uc [] (E := E) ops (new_term plain uc) t' Hw) as (_ & _ & w & -> & C); [|exact H|exact C].
  unfold ok. cbn. splits; auto. exists []. auto using cs_nil.
Qed.
(** What operations add is clean, wherever they start. *)
Theorem ops_add {E} ops t t' : Forall top_wf ops -> run_tops (E := E) ops t = Ok t' ->
  t_plain t' = t_plain t /\ t_useColor t' = t_useColor t /\ exists w, t_out t' = t_out t ++ w /\ clean_stream (finals (t_plain t) (t_useColor t)) w.
Proof.
  intros Hw H. apply (ok_ops (t_plain t) (t_useColor t) (t_out t) (E := E) ops t t' Hw); [|exact H].
  unfold ok. splits; auto. exists []. rewrite app_nil_r. auto using cs_nil.
Qed.

Theorem plain_no_esc {E} ops t' : Forall top_wf ops -> run_tops (E := E) ops (new_term true false) = Ok t' -> ~ In 27 (t_out t').
Proof.
  intros Hw H. destruct (ops_clean true false ops t' Hw H) as (segs & -> & Hs). intros Hi. apply in_concat in Hi as (x & Hx & H27). rewrite Forall_forall in Hs. destruct (Hs x Hx) as [Hn|(ps & f & _ & _ & [])]. auto.
Qed.

Theorem plain_mouse {E} useColor ops t b : Forall top_wf ops -> run_tops (E := E) ops (new_term true useColor) = Ok t -> t_out (enableMouseMode b t) = t_out t.
Proof.
  intros Hw H. destruct (ops_add ops _ t Hw H) as (Hp & _). cbn in Hp.
  unfold enableMouseMode. now rewrite Hp, orb_true_r.
Qed.
