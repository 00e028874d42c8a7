(** Proofs for C51. *)
From Coq Require Import Lia.
From Verif Require Import Base BaseLemmas SmallRect SmallRectProofs Terminal TerminalSpec TerminalFeed TerminalProofs ConsoleLine Console LargeRead LargeReadSpec LargeReadProofs Scraper AgentConsole ScraperSpec StreamSpec StreamProofs EndToEndSpec.
Local Ltac splits := repeat match goal with |- _ /\ _ => split end.

(** *** The terminal's position from the operations alone: the line at the top of the
    screen, the cursor's line, and its column if it is known to be shown or hidden *)
Definition curs := option (option Z).
Definition place := (Z * Z * curs)%type.
Definition placed (h : Z) (o : top) (p : place) : place :=
  let '(b, m, q) := p in
  match o with
  | TSend k _ _ => (Z.max b (k - (h - 1)), k, match q with Some None => Some None | _ => None end)
  | TShow col k => (Z.max b (k - (h - 1)), k, Some (Some col))
  | THide => (b, m, Some None)
  | _ => p
  end.
Definition op_fits (te : tenv) (p : place) (o : top) : Prop :=
  let '(b, m, _) := p in
  match o with
  | TSend k d _ => b <= k /\ m - k < 2 ^ 32 /\ 1 <= zlen d <= te_w te /\ exists txt, line_text d txt /\ Forall (showable te) txt
  | TShow col k => b <= k /\ m - k < 2 ^ 32 /\ 0 <= col < te_w te
  | THide | TMouse _ => True
  | TReset _ _ => False
  end.
Fixpoint all_fit (te : tenv) (p : place) (ops : list top) : Prop :=
  match ops with [] => True | o :: r => op_fits te p o /\ all_fit te (placed (te_h te) o p) r end.
Fixpoint places (h : Z) (p : place) (ops : list top) : place :=
  match ops with [] => p | o :: r => places h (placed h o p) r end.

Lemma fit_app te : forall a b p, all_fit te p (a ++ b) <-> all_fit te p a /\ all_fit te (places (te_h te) p a) b.
Proof. induction a as [|o a IH]; intros b p; cbn [app all_fit places]; [tauto|]. rewrite IH. tauto. Qed.
Lemma places_app h : forall a b p, places h p (a ++ b) = places h (places h p a) b.
Proof. induction a as [|o a IH]; intros b p; cbn [app places]; auto. Qed.
Lemma mouse_fit te : forall ops p, all_fit te p (without_mouse ops) -> all_fit te p ops.
Proof.
  induction ops as [|o ops IH]; intros p; [auto|]. unfold without_mouse. cbn [filter]. destruct o; cbn [is_mouse negb all_fit op_fits]; try (intros (A & B); split; [exact A|]; apply IH; exact B).
  intros A. split; [destruct p as ((b & m) & q); exact I|]. destruct p as ((b & m) & q). apply IH. exact A.
Qed.
Lemma mouse_places h : forall ops p, places h p (without_mouse ops) = places h p ops.
Proof. induction ops as [|o ops IH]; intros p; [reflexivity|]. unfold without_mouse. cbn [filter]. destruct o; cbn [is_mouse negb places]; try apply IH. destruct p as ((b & m) & q). apply IH. Qed.
Lemma mouse_sent : forall ops n, last_sent (without_mouse ops) n = last_sent ops n.
Proof. induction ops as [|o ops IH]; intros n; [reflexivity|]. unfold without_mouse. cbn [filter]. destruct o; cbn [is_mouse negb last_sent]; rewrite <- IH; unfold without_mouse; try reflexivity. destruct (last_sent _ n); reflexivity. Qed.

(** *** A hidden cursor stays hidden *)
Lemma hidden_hide t : t_hidden t = true -> t_hidden (hideTerminalCursor t) = true.
Proof. intros H. unfold hideTerminalCursor. rewrite H. now destruct (t_plain t). Qed.
Lemma hidden_move line t : t_hidden t = true -> t_hidden (moveTerminalToLine line t) = true.
Proof.
  intros H. unfold moveTerminalToLine. destruct (line =? t_line t); [exact H|]. pose proof (hidden_hide t H) as H'. cbv zeta.
  repeat match goal with |- context [if ?b then _ else _] => destruct b end; exact H'.
Qed.
Lemma hidden_send {E} line d w cc t t' : sendLine (E := E) line d w cc t = Ok t' -> t_hidden t = true -> t_hidden t' = true.
Proof.
  intros H Hh. unfold sendLine in H. destruct (1 <=? w); cbn [assert_ bind] in H; [|discriminate]. cbv zeta in H.
  pose proof (hidden_move line t Hh) as H1. set (t1 := moveTerminalToLine line t) in *. clearbody t1.
  match type of H with bind ?m _ = _ => destruct m as [valid| | | |]; cbn [bind] in H; try discriminate end.
  match type of H with context [send_loop _ (t_plain ?x)] => set (t2 := x) in *; assert (H2 : t_hidden t2 = true) by (unfold t2; destruct valid; [exact H1|apply (hidden_hide t1 H1)]) end. clearbody t2.
  match type of H with bind ?m _ = _ => destruct m as [s| | | |]; cbn [bind] in H; try discriminate end.
  match type of H with context [write ?q (if ?b then hideTerminalCursor ?x else ?x)] => set (t3 := if b then hideTerminalCursor x else x) in * end.
  assert (H3 : t_hidden t3 = true) by (unfold t3; match goal with |- context [if ?b then _ else _] => destruct b end; [apply hidden_hide|]; exact H2). clearbody t3.
  match type of H with context [if ?b then write eol_seq ?x else ?x] => set (t4 := if b then write eol_seq x else x) in *; assert (H4 : t_hidden t4 = true) by (unfold t4; destruct b; exact H3) end. clearbody t4.
  revert H. unfold assert_. repeat match goal with |- context [if ?b then _ else _] => destruct b; cbn [bind] end; intros H; try discriminate; injection H as <-; exact H4.
Qed.

(** *** Running the operations *)
Section Run.
Variables (te : tenv) (st : TerminalSpec.scr) (strict : bool).
Hypothesis Hte : tenv_ok te.
Local Notation scn := (TerminalSpec.screen te st).
Local Notation tinv := (TerminalProofs.inv te st true strict).

Definition known (t : term) (q : curs) : Prop :=
  match q with None => True | Some None => t_hidden t = true | Some (Some col) => t_hidden t = false /\ t_col t = col end.
(** [base]: the screen before *)
Definition at_place (off : Z) (base : TerminalSpec.scr) (ops : list top) (p : place) (t : term) : Prop :=
  tinv off t /\ (let '(b, m, q) := p in s_top (scn t) = off + b /\ t_line t = m /\ known t q) /\
  (forall n, match last_sent ops n with Some d => row_is te d (scn t) (off + n) /\ off + n < s_top (scn t) + te_h te | None => forall c, s_cell (scn t) (off + n) c = s_cell base (off + n) c end).

Lemma look_color r1 r2 tx : look true r1 tx = look true r2 tx.
Proof. induction tx as [|((n, ch), a) tx IH]; [reflexivity|]. cbn [look rend_for]. now rewrite IH. Qed.
Lemma shows_color r1 r2 d txt s row : 1 <= zlen d -> line_text d txt -> row_shows te true r1 txt s row -> row_shows te true r2 txt s row.
Proof.
  intros L T H c C. specialize (H c C). cbv zeta in *. rewrite (look_color r2 r1). rewrite H. destruct (znth _ c); [reflexivity|].
  pose proof (look_len true r1 _ _ T) as Ll. destruct (look true r1 txt) as [|g l] eqn:El; [change (zlen (@nil (glyph * rend))) with 0 in Ll; lia|].
  assert (Q : forall (l : list (glyph * rend)) g a b, last (g :: l) a = last (g :: l) b).
  { clear. induction l as [|g' l IH]; intros g a b; [reflexivity|]. change (last (g' :: l) a = last (g' :: l) b). apply IH. }
  now rewrite (Q l g (Blank, r1) (Blank, r2)).
Qed.
Lemma row_same d s s' row : (forall c, s_cell s' row c = s_cell s row c) -> row_is te d s row -> row_is te d s' row.
Proof. intros E (txt & A & B). exists txt. split; [exact A|]. intros c C. rewrite E. apply B. exact C. Qed.

Lemma op_run off base ops p t o : at_place off base ops p t -> op_fits te p o ->
  exists t', run_top (E := unit) o t = Ok t' /\ at_place off base (ops ++ [o]) (placed (te_h te) o p) t'.
Proof.
  destruct p as ((b & m) & q). intros (I & (Pb & Pm & Pq) & Cl) F. pose proof Hte as (Hw & Hh & _).
  assert (Same : forall t', s_top (scn t) <= s_top (scn t') -> (forall r c, s_cell (scn t') r c = s_cell (scn t) r c) -> (match o with TSend _ _ _ => False | _ => True end) ->
    forall n, match last_sent (ops ++ [o]) n with Some d => row_is te d (scn t') (off + n) /\ off + n < s_top (scn t') + te_h te | None => forall c, s_cell (scn t') (off + n) c = s_cell base (off + n) c end).
  { intros t' Tp E No n. rewrite last_sent_app. assert (Eo : last_sent [o] n = None) by (destruct o; auto; contradiction). rewrite Eo. specialize (Cl n). destruct (last_sent ops n) as [d|].
    - split; [apply (row_same d (scn t)); [intros c; apply E|apply Cl]|]. destruct Cl. lia.
    - intros c. rewrite E. apply Cl. }
  destruct o as [cl l|k d cc|col k| |on]; cbn [op_fits] in F; cbn [run_top placed].
  - contradiction.
  - destruct F as (F1 & F2 & F3 & txt & F4 & F5).
    destruct (send_ok te Hte st true strict (E := unit) off t k d cc txt I) as (t' & E & I' & L & R & O & T); auto; try lia.
    exists t'. split; [exact E|]. split; [exact I'|]. split.
    + splits; [lia|exact L|]. destruct q as [[col|]|]; cbn [known] in *; auto. apply (hidden_send _ _ _ _ _ _ E Pq).
    + intros n. rewrite last_sent_app. cbn [last_sent]. destruct (Z.eqb_spec k n) as [<-|Ne].
      * split; [|lia]. exists txt. split; [exact F4|]. eapply (shows_color _ _ d); [lia|exact F4|exact R].
      * specialize (Cl n). destruct (last_sent ops n) as [dd|].
        -- split; [apply (row_same dd (scn t)); [|apply Cl]; intros c; apply O; lia|]. destruct Cl. lia.
        -- intros c. rewrite O by lia. apply Cl.
  - destruct F as (F1 & F2 & F3). destruct (show_ok te Hte st true strict off t col k I) as (I' & S1 & S2 & S3 & S4 & S5 & S6); auto; try lia.
    eexists. split; [reflexivity|]. split; [exact I'|]. split.
    + pose proof I' as (_ & _ & (_ & J2 & _ & J4 & _) & _). splits; [lia|lia|]. cbn [known]. split; [exact S3|congruence].
    + apply Same; [lia| |exact Logic.I]. intros r c. now rewrite S4.
  - destruct (hide_inv te st true strict off t I) as (I' & S1 & S2 & S3 & S4). destruct (hide_fields t) as (Fl & _).
    eexists. split; [reflexivity|]. split; [exact I'|]. split.
    + splits; [lia|congruence|exact S1].
    + apply Same; [lia| |exact Logic.I]. intros r c. now rewrite S2.
  - destruct (mouse_ok te st true strict off t on I) as (I' & _).
    assert (Fm : scn (enableMouseMode on t) = scn t \/ scn (enableMouseMode on t) = mouse_modes on (scn t)).
    { unfold enableMouseMode. destruct (_ || _); [left; reflexivity|]. right. rewrite scn_write. change (scn (set_mouse on t)) with (scn t). apply feed_mouse. apply I. }
    assert (Fc : s_cell (scn (enableMouseMode on t)) = s_cell (scn t) /\ s_top (scn (enableMouseMode on t)) = s_top (scn t)) by (destruct Fm as [->| ->]; destruct on; split; reflexivity).
    assert (Ft : t_line (enableMouseMode on t) = t_line t /\ t_hidden (enableMouseMode on t) = t_hidden t /\ t_col (enableMouseMode on t) = t_col t) by (unfold enableMouseMode; destruct (_ || _); splits; reflexivity).
    destruct Fc as (Fc1 & Fc2). destruct Ft as (Ft1 & Ft2 & Ft3).
    eexists. split; [reflexivity|]. split; [exact I'|]. split.
    + splits; [lia|congruence|]. destruct q as [[col|]|]; cbn [known] in *; auto; [rewrite Ft2, Ft3; exact Pq|congruence].
    + apply Same; [lia| |exact Logic.I]. intros r c. now rewrite Fc1.
Qed.
Lemma ops_run off base : forall ops done p t, at_place off base done p t -> all_fit te p ops ->
  exists t', run_tops (E := unit) ops t = Ok t' /\ at_place off base (done ++ ops) (places (te_h te) p ops) t'.
Proof.
  induction ops as [|o ops IH]; intros done p t A F.
  { exists t. rewrite app_nil_r. split; [reflexivity|exact A]. }
  destruct F as (F1 & F2). destruct (op_run off base done p t o A F1) as (t1 & E1 & A1). destruct (IH _ _ _ A1 F2) as (t2 & E2 & A2).
  exists t2. cbn [run_tops places]. rewrite E1. cbn [bind]. split; [exact E2|]. rewrite <- app_assoc in A2. exact A2.
Qed.
End Run.

(** *** What the scraper asks for *)
Section Scroll.
Variables (c : cfg) (bw cp mode : Z).
Hypothesis Kc : cfg_ok c.
Hypothesis Kn : c_new c = true -> c_w8 c = true.
Hypothesis Ks : c_strict c = false.
Hypothesis Bw : 1 <= bw <= 32767.
Variables (te : tenv).
Hypothesis Hte : tenv_ok te.
Hypothesis Tw : bw <= te_w te.
Local Notation mask := (kept_bits (c_new c) cp mode).
Local Notation W := (Z.min bw 2500).
Local Notation h := (te_h te).
Local Notation sinv := (StreamProofs.inv c bw cp mode).

Definition in_reach (p0 : place) (out : list top) (s : sst) : Prop :=
  all_fit te p0 out /\ let '(b, m, q) := places h p0 out in b <= s_scraped s /\ m < s_scraped s + 3000.

Lemma upward_fit hi : forall mid lo b m q, upward lo hi mid -> b <= lo -> m - lo < 2 ^ 32 ->
  (forall k d col, In (TSend k d col) mid -> 1 <= zlen d <= te_w te /\ exists txt, line_text d txt /\ Forall (showable te) txt) ->
  all_fit te (b, m, q) mid /\ let '(b', m', q') := places h (b, m, q) mid in b' <= Z.max b (hi - h) /\ m' <= Z.max m (hi - 1) /\ (q = Some None -> q' = Some None).
Proof.
  destruct Hte as (_ & Hh & _).
  induction mid as [|o mid IH]; intros lo b m q U Hb Hm Tx.
  { cbn [all_fit places]. splits; auto; lia. }
  destruct o as [| k d cc| | |]; cbn [upward] in U; try contradiction. destruct U as (U1 & U2).
  cbn [all_fit places placed op_fits].
  destruct (IH (k + 1) (Z.max b (k - (h - 1))) k (match q with Some None => Some None | _ => None end) U2) as (A & B); try lia.
  { intros k' d' col' I'. apply (Tx k' d' col'). right. exact I'. }
  destruct (Tx k d cc (or_introl eq_refl)) as (T1 & T2).
  split; [splits; auto; lia|]. destruct (places h _ mid) as ((b' & m') & q'). destruct B as (B1 & B2 & B3). splits; try lia. intros ->. apply B3. reflexivity.
Qed.

(** The screen the last pass is about, if it is in the window *)
Lemma drawn_fit lo ti off vis new b m q s' : drawn lo (p_win ti) (p_cur ti) vis off new -> screen_ok bw ti -> rBottom (p_win ti) - rTop (p_win ti) + 1 <= h ->
  s_scraped s' = rTop (p_win ti) + off -> lo <= s_scraped s' -> b <= lo -> m < lo + 3000 ->
  (forall k d col, In (TSend k d col) new -> 1 <= zlen d <= te_w te /\ exists txt, line_text d txt /\ Forall (showable te) txt) ->
  all_fit te (b, m, q) new /\ let '(b', m', q') := places h (b, m, q) new in b' <= s_scraped s' /\ m' < s_scraped s' + 3000 /\
    if vis && containsCoord (p_win ti) (p_cur ti) then m' = co_y (p_cur ti) + off /\ q' = Some (Some (co_x (p_cur ti))) else q' = Some None.
Proof.
  intros (mid & U & E) Si Hf Es Lo Hb Hm Tx. pose proof (win_of_screen c bw ti Si) as Ws. pose proof Si as (_ & S1 & S2 & S3 & S4 & S5 & S6 & _). destruct Hte as (_ & Hh & _).
  assert (Cc : containsCoord (p_win ti) (p_cur ti) = true -> rTop (p_win ti) <= co_y (p_cur ti) <= rBottom (p_win ti)).
  { intros Cc. destruct (p_cur ti) as [cx cy] eqn:Ecur. apply contains_coord_spec in Cc. destruct Cc as (_ & Cc). cbn [co_y]. exact Cc. }
  destruct (vis && containsCoord (p_win ti) (p_cur ti)) eqn:Ev.
  - apply Bool.andb_true_iff in Ev as (_ & Ev). specialize (Cc Ev).
    destruct (upward_fit (windowStop (p_win ti) + off) mid lo b m q U Hb ltac:(lia)) as (A & B).
    { intros k d col I'. apply (Tx k d col). rewrite E. apply in_or_app. left. exact I'. }
    rewrite E, fit_app, places_app. destruct (places h (b, m, q) mid) as ((b' & m') & q'). destruct B as (B1 & B2 & _). cbn [all_fit places placed op_fits].
    splits; auto; lia.
  - rewrite E. cbn [all_fit places placed op_fits].
    destruct (upward_fit (windowStop (p_win ti) + off) mid lo b m (Some None) U Hb ltac:(lia)) as (A & B).
    { intros k d col I'. apply (Tx k d col). rewrite E. right. exact I'. }
    match goal with |- context [places ?x ?y mid] => change (places x y mid) with (places h (b, m, Some None : curs) mid) end. match type of B with context [places ?x ?y mid] => change (places x y mid) with (places h (b, m, Some None : curs) mid) in B end. destruct (places h (b, m, Some None : curs) mid) as ((b' & m') & q'). destruct B as (B1 & B2 & B3). splits; auto; lia.
Qed.

Lemma poll_fit p0 out0 x (seen : StreamSpec.screen -> Prop) out t ts s w : sinv out0 x seen out t s w -> in_reach p0 out s ->
  sequence bw t ts -> Forall (keeps_marker s) (t :: ts) -> (forall t', In t' (t :: ts) -> seen t' /\ fits te mask bw t') ->
  done (StreamSpec.poll c t ts s w) (fun '(s', w') => exists new, sinv out0 x seen (out ++ new) (last ts t) s' w' /\ in_reach p0 (out ++ new) s' /\
    s_scraped s' >= top_line t /\
    (ts = [] -> (forall k, s_scraped s <= k < end_line t -> last_sent (out ++ new) k = Some (content mask W t k) \/ last_sent (out ++ new) k = None /\ blank_cells (content mask W t k)) /\
       let '(_, m, q) := places h p0 (out ++ new) in
       if p_visible t && containsCoord (p_win t) (p_cur t) then m = p_off t + co_y (p_cur t) /\ q = Some (Some (co_x (p_cur t))) else q = Some None)).
Proof.
  intros H (R1 & R2) Sq Ke Sn. pose proof H as (mk & lim & _ & _ & V). pose proof (r_reach _ _ _ _ _ _ _ _ _ _ _ _ V) as Rr.
  eapply done_weak; [apply (poll_inv c bw cp mode Kc Kn Ks Bw out0 x seen out t ts s w H Sq Ke); intros t' I'; apply Sn; exact I'|].
  intros [s' w'] (new & ti & tr & tv & H' & Ti & Tr & G1 & G2 & Rt & Q1 & Q2 & Q3 & Q4 & Q5 & Tv & Dr). exists new. split; [exact H'|].
  pose proof G1 as (G1a & G1b & _). pose proof G2 as (G2a & _). unfold top_line in *.
  assert (Tx : forall k d col, In (TSend k d col) new -> 1 <= zlen d <= te_w te /\ exists txt, line_text d txt /\ Forall (showable te) txt).
  { intros k d col I'. destruct (Q5 k d col I') as (-> & _). split; [rewrite content_len by lia; lia|]. apply (proj2 (Sn tr Tr)). }
  destruct (places h p0 out) as ((b & m) & q) eqn:Ep. destruct R2 as (R2 & R3).
  destruct (drawn_fit (s_scraped s) ti (p_off tr) (p_visible tv) new b m q s' Dr (sequence_each bw ts t ti Sq Ti) (proj1 (proj2 (Sn ti Ti))) Q2 ltac:(lia) ltac:(lia) ltac:(lia) Tx) as (A & B).
  unfold in_reach. rewrite fit_app, places_app, Ep. destruct (places h (b, m, q) new) as ((b' & m') & q'). destruct B as (B1 & B2 & B3).
  splits; auto; try lia. intros ->. destruct Ti as [<-|[]]. destruct Tr as [<-|[]]. destruct Tv as [<-|[]]. split.
  - intros k Hk. apply Q4. rewrite (win_of_screen c bw t (sequence_ok _ _ _ Sq)). unfold end_line in Hk. lia.
  - destruct (p_visible t && containsCoord (p_win t) (p_cur t)); [destruct B3; split; auto; lia|exact B3].
Qed.
Lemma polls_fit p0 out0 x (seen : StreamSpec.screen -> Prop) : forall turns out t s w, sinv out0 x seen out t s w -> in_reach p0 out s -> history bw t turns -> within_reach c turns t s w ->
  (forall t', In t' (screens t turns) -> seen t' /\ fits te mask bw t') ->
  done (polls c turns t s w) (fun '(s', w') => exists new, sinv out0 x seen (out ++ new) (final t turns) s' w' /\ in_reach p0 (out ++ new) s').
Proof.
  induction turns as [|ts r IH]; intros out t s w H F Hi Re Sn.
  { cbn [polls done]. exists []. rewrite app_nil_r. split; assumption. }
  cbn [polls]. destruct Hi as (Sq & Hi). destruct Re as (Ke & Re).
  assert (Sn1 : forall t', In t' (t :: ts) -> seen t' /\ fits te mask bw t').
  { intros t' [<-|I']; apply Sn; [left; reflexivity|right; cbn [concat]; apply in_or_app; left; exact I']. }
  pose proof (poll_fit p0 out0 x seen out t ts s w H F Sq Ke Sn1) as P. destruct (StreamSpec.poll c t ts s w) as [[s1 w1]| | | |] eqn:E; cbn [done] in P; try contradiction.
  destruct P as (new & H1 & F1 & _). cbn [bind]. eapply done_weak; [apply (IH (out ++ new) (last ts t) s1 w1 H1 F1 Hi Re)|].
  - intros t' [<-|I']; [apply Sn1; apply last_in|]. apply Sn. right. cbn [concat]. apply in_or_app. right. exact I'.
  - intros [s' w'] (new' & H' & F'). exists (new ++ new'). rewrite app_assoc. split; assumption.
Qed.

(** *** The whole *)
Section Whole.
Variable st : TerminalSpec.scr.
Hypothesis Hst : start_ok te st.
Local Notation scn := (TerminalSpec.screen te st).

Lemma reset_first x : forall all ops, without_mouse all = TReset false x :: ops ->
  exists pre post, all = pre ++ TReset false x :: post /\ Forall (fun o => is_mouse o = true) pre /\ without_mouse post = ops.
Proof.
  induction all as [|o all IH]; intros ops E; [discriminate|]. unfold without_mouse in E. cbn [filter] in E. destruct (is_mouse o) eqn:Eo; cbn [negb] in E.
  - destruct (IH ops E) as (pre & post & -> & A & B). exists (o :: pre), post. splits; auto.
  - injection E as -> E. exists [], all. splits; auto.
Qed.
Lemma mouse_only p : forall pre, Forall (fun o => is_mouse o = true) pre -> all_fit te p pre /\ places h p pre = p /\ (forall n, last_sent pre n = None).
Proof.
  destruct p as ((b & m) & q). induction pre as [|o pre IH]; intros F; [splits; auto; exact I|]. inversion F as [|? ? F1 F2]; subst. destruct o; try discriminate F1. destruct (IH F2) as (A & B & C).
  cbn [all_fit places placed op_fits last_sent]. splits; auto. intros n. now rewrite C.
Qed.
(** After the reset at the beginning *)
Lemma started x all ops : without_mouse all = TReset false x :: ops -> let off := s_row st - x in let p0 := (s_top st - off, x, Some (Some 0)) in
  all_fit te p0 ops -> exists t', run_tops (E := unit) all (new_term false true) = Ok t' /\ at_place te st true off st ops (places h p0 ops) t'.
Proof.
  intros E off p0 F. destruct (reset_first x all ops E) as (pre & post & -> & Pm & <-).
  pose proof Hst as (S1 & S2 & S3 & S4 & S5).
  pose proof (new_inv te Hte st true true Hst) as I0.
  assert (A0 : at_place te st true (s_row st) st [] (s_top st - s_row st, 0, Some (Some 0)) (new_term false true)).
  { split; [exact I0|]. split; [|intros n c0; reflexivity]. splits; [change (scn (new_term false true)) with st; lia|reflexivity|split; reflexivity]. }
  destruct (mouse_only (s_top st - s_row st, 0, Some (Some 0)) pre Pm) as (F0 & Pl & Ls).
  destruct (ops_run te st true Hte (s_row st) st pre [] _ _ A0 F0) as (t1 & E1 & A1). rewrite Pl in A1. cbn [app] in A1.
  destruct A1 as (I1 & (B1 & B2 & B3 & B4) & B5). pose proof I1 as (_ & Iu & (_ & J2 & _ & J4 & _) & _).
  assert (Pp : t_plain t1 = false) by apply I1.
  pose proof (reset_ok te Hte st true true (s_row st) t1 false x I1) as R. cbv zeta in R. specialize (R ltac:(right; congruence) ltac:(intros _; exact B3)).
  assert (Sc : scn (reset false x t1) = scn t1) by reflexivity. rewrite Sc in R.
  assert (Eo : s_row (scn t1) = s_row st) by lia. rewrite Eo in R. fold off in R.
  assert (A2 : at_place te st true off st [] p0 (reset false x t1)).
  { split; [exact R|]. unfold p0. rewrite Sc. split.
    - splits; [lia|reflexivity|split; reflexivity].
    - intros n c0. cbn [last_sent]. specialize (B5 (off + n - s_row st)). rewrite Ls in B5. replace (s_row st + (off + n - s_row st)) with (off + n) in B5 by lia. apply B5. }
  apply mouse_fit in F. destruct (ops_run te st true Hte off st post [] p0 _ A2 F) as (t2 & E2 & A2').
  exists t2. split.
  - clear - E1 E2 Pp. revert E1. generalize (new_term false true). induction pre as [|o pre IH]; intros t0 E1.
    + cbn [app run_tops run_top bind] in *. injection E1 as ->. exact E2.
    + cbn [app run_tops] in *. destruct (run_top o t0); cbn [bind] in *; try discriminate. apply IH. exact E1.
  - rewrite mouse_places. destruct A2' as (C1 & C2 & C3). cbn [app] in C3. split; [exact C1|]. split; [exact C2|]. intros n. rewrite mouse_sent. apply C3.
Qed.

Lemma whole x t0 before ts s0 w0 : begins x t0 s0 w0 -> b_w (w_buf w0) = bw -> b_cp (w_buf w0) = cp -> b_mode (w_buf w0) = mode -> s_out s0 = [TReset false x] ->
  history bw t0 (before ++ [ts]) -> within_reach c (before ++ [ts]) t0 s0 w0 -> (forall t', In t' (screens t0 (before ++ [ts])) -> fits te mask bw t') ->
  let t := final t0 before in let off := s_row st - x in
  exists s2 w2, polls c (before ++ [ts]) t0 s0 w0 = Ok (s2, w2) /\ forall all, without_mouse all = s_out s2 ->
    exists tm, run_tops (E := unit) all (new_term false true) = Ok tm /\
      (forall n, x <= n < top_line t -> row_is te (content mask W (last ts t) n) (scn tm) (off + n)) /\
      (forall row col, row < s_row st -> s_cell (scn tm) row col = s_cell st row col) /\
      (ts = [] ->
        (forall n, x <= n < end_line t -> row_is te (content mask W t n) (scn tm) (off + n) /\ off + n < s_top (scn tm) + h \/
           blank (content mask W t n) /\ forall col, s_cell (scn tm) (off + n) col = s_cell st (off + n) col) /\
        cursor_is (if p_visible t && containsCoord (p_win t) (p_cur t) then Some (off + p_off t + co_y (p_cur t), co_x (p_cur t)) else None) (scn tm) /\
        s_top (scn tm) <= off + top_line t).
Proof.
  intros B E1 E2 E3 Eo Hi Re Ft. destruct (within_app c _ _ _ _ _ Re) as (Re1 & Re2). destruct (history_app bw _ _ _ Hi) as (Hi1 & Hi2).
  set (seen := fun t => In t (screens t0 (before ++ [ts]))).
  assert (Ok0 : screen_ok bw t0). { destruct before as [|u r]; cbn [app history] in Hi; destruct Hi as (S & _); apply (sequence_ok _ _ _ S). }
  pose proof (begins_inv c bw cp mode Bw x seen t0 s0 w0 B E1 E2 E3 Ok0) as I0. cbv zeta. set (t := final t0 before) in *. set (off := s_row st - x).
  set (p0 := (s_top st - off, x, Some (Some 0)) : place).
  assert (F0 : in_reach p0 [] s0). { split; [exact I|]. cbn [places p0]. destruct B as ((_ & _ & _ & Bs & _) & _). destruct Hst as (_ & _ & Hs & _). rewrite Bs. unfold off. lia. }
  assert (Sn : forall t', In t' (screens t0 before) -> seen t' /\ fits te mask bw t') by (intros t' I'; split; [|apply Ft]; apply screens_in; exact I').
  pose proof (polls_fit p0 (s_out s0) x seen before [] t0 s0 w0 I0 F0 Hi1 Re1 Sn) as P.
  destruct (polls c before t0 s0 w0) as [[s1 w1]| | | |] eqn:Ep; cbn [done] in P; try contradiction. destruct P as (ops1 & I1 & F1). cbn [app] in I1, F1.
  specialize (Re2 s1 w1 eq_refl). destruct Re2 as (Ke & _). destruct Hi2 as (Sq & _). fold t in Ke, Sq, I1.
  assert (Sn2 : forall t', In t' (t :: ts) -> seen t' /\ fits te mask bw t').
  { intros t' I'. assert (Q : seen t'); [|split; [exact Q|apply Ft; exact Q]]. destruct I' as [<-|I']; [apply Sn; apply final_in|]. unfold seen, screens. right. rewrite concat_app. apply in_or_app. right. cbn. rewrite app_nil_r. exact I'. }
  pose proof (poll_fit p0 (s_out s0) x seen ops1 t ts s1 w1 I1 F1 Sq Ke Sn2) as Q. 
  destruct (StreamSpec.poll c t ts s1 w1) as [[s2 w2]| | | |] eqn:Eq; cbn [done] in Q; try contradiction.
  destruct Q as (ops2 & I2 & (F2 & Fp) & Sc & Qt). exists s2, w2. split; [eapply polls_snoc; [exact Ep|exact Eq]|].
  destruct I2 as (mk2 & lim2 & C2 & Sl2 & V2). pose proof (r_tab _ _ _ _ _ _ _ _ _ _ _ _ V2) as T2. pose proof (StreamProofs.t_out _ _ _ _ _ _ _ _ _ T2) as O2.
  pose proof (t_none _ _ _ _ _ _ _ _ _ T2) as Tn. pose proof (r_final _ _ _ _ _ _ _ _ _ _ _ _ V2) as Rf.
  rewrite O2, Eo. intros all Eall. destruct (started x all (ops1 ++ ops2) Eall F2) as (tm & Er & (J1 & J2 & J3)). fold off in J1, J2, J3. fold p0 in J2.
  exists tm. split; [exact Er|]. splits.
  - intros n N. specialize (J3 n). rewrite Rf in J3 by lia. apply J3.
  - intros row col L. specialize (J3 (row - off)). rewrite Tn in J3 by (unfold off; lia). replace (off + (row - off)) with row in J3 by lia. apply J3.
  - intros Ets. destruct (Qt Ets) as (Q1 & Q2). subst ts. cbn [last] in *. splits.
    + intros n N. specialize (J3 n). destruct (Z_lt_ge_dec n (s_scraped s1)) as [L|L].
      * left. rewrite Rf in J3; [exact J3|]. destruct I1 as (mk1 & lim1 & _ & _ & V1). pose proof (r_reach _ _ _ _ _ _ _ _ _ _ _ _ V1). lia.
      * destruct (Q1 n ltac:(lia)) as [E|(E & Bl)]; rewrite E in J3; [left; exact J3|right; split; [exact Bl|exact J3]].
    + destruct (places h p0 (ops1 ++ ops2)) as ((b & m) & q). destruct J2 as (J2a & J2b & J2c). pose proof J1 as (_ & _ & (_ & K2 & _ & K4 & _) & _ & _ & K6 & _). specialize (K6 eq_refl).
      destruct (p_visible t && containsCoord (p_win t) (p_cur t)); cbn [cursor_is].
      * destruct Q2 as (-> & ->). cbn [known] in J2c. destruct J2c as (Ha & Hb). rewrite Ha in K6. splits; [exact K6|lia|congruence].
      * subst q. cbn [known] in J2c. rewrite J2c in K6. exact K6.
    + destruct (places h p0 (ops1 ++ ops2)) as ((b & m) & q). destruct J2 as (J2a & _). destruct Fp as (Fp & _). pose proof (r_reach _ _ _ _ _ _ _ _ _ _ _ _ V2). lia.
Qed.
End Whole.
End Scroll.

(** Lines of ASCII characters, one cell each *)
Lemma ascii_line te d : (forall ch, 32 <= ch < 127 -> te_wid te ch = 1) -> Forall (fun q => 32 <= cl_ch q < 127 /\ half q = false /\ 0 <= cl_attr q < 65536) d ->
  exists txt, line_text d txt /\ Forall (showable te) txt.
Proof.
  intros Tw F. induction F as [|q d (Q1 & Q2 & Q3) F (txt & A & B)]; [exists []; split; constructor|].
  exists ((1, cl_ch q, cl_attr q) :: txt). split.
  - apply (lt_bmp [q] (cl_ch q) (cl_attr q) d txt); auto; try lia; [unfold surrogate; lia| |destruct q; reflexivity].
    left. exists q. auto.
  - constructor; [|exact B]. cbn [showable]. assert (Es : shown (cl_ch q) = cl_ch q).
    { unfold shown. repeat match goal with |- context [?a =? ?b] => replace (a =? b) with false by lia end. reflexivity. }
    rewrite Es, Tw by lia. splits; lia.
Qed.
