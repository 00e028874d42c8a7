(** Proofs for C52 *)
From Coq Require Import Lia.
From Verif Require Import Base BaseLemmas SmallRect ConsoleLine Console LargeRead TerminalSpec Scraper AgentConsole FreezeProofs KeptSpec.
Ltac Zify.zify_post_hook ::= Z.div_mod_to_equations.
Ltac splits := repeat match goal with |- _ /\ _ => split end.

Lemma ob_trans step a b c : only_by step a b -> only_by step b c -> only_by step a c.
Proof. induction 1; auto. intros H'. econstructor; eauto. Qed.
Lemma ob_one (step : cbuf -> cbuf -> Prop) a b : step a b -> only_by step a b.
Proof. intros H. econstructor; [exact H|constructor]. Qed.
Lemma ob_mono (p q : cbuf -> cbuf -> Prop) a b : (forall x y, p x y -> q x y) -> only_by p a b -> only_by q a b.
Proof. intros H. induction 1; [constructor|econstructor; eauto]. Qed.

Section Kept.
Variable fs : list (cbuf -> cbuf).
(** From [w] to [w'] only programs acted. *)
Definition led (w w' : world) : Prop :=
  incl (w_env w) fs -> w_sel w = w_frozen w -> incl (w_env w') fs /\ w_sel w' = w_frozen w' /\ only_by (programs fs) (w_buf w) (w_buf w').
Lemma led_refl w : led w w. Proof. intros E S. splits; auto. constructor. Qed.
Lemma led_trans a b c : led a b -> led b c -> led a c.
Proof. intros H1 H2 E S. destruct (H1 E S) as (E1 & S1 & P1). destruct (H2 E1 S1) as (E2 & S2 & P2). splits; auto. eapply ob_trans; eauto. Qed.
Lemma led_interfere w : led w (interfere w).
Proof.
  intros E S. unfold interfere. destruct (w_sel w) eqn:Es; [splits; auto; [congruence|constructor]|]. destruct (w_env w) as [|f r] eqn:Ev; [rewrite Ev; splits; auto; [congruence|constructor]|].
  cbn [w_env w_sel w_frozen w_buf]. splits; [intros x I; apply E; right; exact I|congruence|]. apply ob_one. exists f. split; [apply E; left; reflexivity|reflexivity].
Qed.
Lemma led_same w w' : w_env w' = w_env w -> w_buf w' = w_buf w -> (w_sel w = w_frozen w -> w_sel w' = w_frozen w') -> led w w'.
Proof. intros A B C E S. rewrite A, B. splits; auto. constructor. Qed.
Lemma led_setFrozen v w : led w (setFrozen v w).
Proof.
  unfold setFrozen. destruct (Bool.eqb v (w_frozen w)); [apply led_refl|]. destruct v; (eapply led_trans; [apply led_interfere|]).
  - apply led_same; auto.
  - destruct (w_sel (interfere w)); apply led_same; auto.
Qed.
(** Where the console is frozen, nobody acts, and it stays so. *)
Definition still (w w' : world) : Prop := w_sel w = true -> w_sel w' = true /\ w_buf w' = w_buf w.
Lemma still_refl w : still w w. Proof. intros S. auto. Qed.
Lemma still_trans a b c : still a b -> still b c -> still a c.
Proof. intros H1 H2 S. destruct (H1 S) as (S1 & B1). destruct (H2 S1) as (S2 & B2). split; congruence. Qed.
Lemma still_interfere w : still w (interfere w).
Proof. intros S. unfold interfere. rewrite S. auto. Qed.
Definition fine (w w' : world) : Prop := led w w' /\ still w w'.
Lemma fine_refl w : fine w w. Proof. split; [apply led_refl|apply still_refl]. Qed.
Lemma fine_trans a b c : fine a b -> fine b c -> fine a c.
Proof. intros (A & B) (C & D). split; [eapply led_trans; eauto|eapply still_trans; eauto]. Qed.
Lemma fine_interfere w : fine w (interfere w).
Proof. split; [apply led_interfere|apply still_interfere]. Qed.
Lemma fine_log q w : fine w (with_log q w).
Proof. split; [apply led_same; auto|intros S; auto]. Qed.

(** Results *)
Definition goes {E A} (m : res E (A * world)) (w : world) : Prop := match m with Ok (_, w') => fine w w' | _ => True end.
Lemma goes_bind {E A B} (m : res E (A * world)) (k : A * world -> res E (B * world)) w :
  goes m w -> (forall a w', m = Ok (a, w') -> fine w w' -> goes (k (a, w')) w') -> goes (bind m k) w.
Proof.
  intros H K. destruct m as [[a w']| | | |]; cbn [bind goes] in *; auto. specialize (K a w' eq_refl H).
  destruct (k (a, w')) as [[b w'']| | | |]; cbn [goes] in *; auto. eapply fine_trans; eauto.
Qed.
Lemma goes_pure {E A B} (m : res E A) (k : A -> res E (B * world)) w : (forall a, m = Ok a -> goes (k a) w) -> goes (bind m k) w.
Proof. intros K. destruct m; cbn [bind goes]; auto. Qed.
Lemma goes_from {E A} (m : res E (A * world)) w w' : fine w w' -> goes m w' -> goes m w.
Proof. intros F. destruct m as [[a w2]| | | |]; cbn [goes]; auto. intros H. eapply fine_trans; eauto. Qed.
Lemma goes_ok {E A} (a : A) w : goes (@Ok E _ (a, w)) w. Proof. apply fine_refl. Qed.

Lemma read_goes {E} nw r d off w : goes (@read E nw r d off w) w.
Proof.
  unfold read. cbv zeta. assert (F : fine w (with_log (RRead r) (interfere w))) by (eapply fine_trans; [apply fine_interfere|apply fine_log]).
  repeat match goal with |- goes (if ?b then _ else _) _ => destruct b end; cbn [goes]; auto.
Qed.
Lemma chunks_goes {E} nw area ml : forall fuel cur l w, goes (@read_chunks E fuel nw area ml cur l w) w.
Proof.
  induction fuel as [|f IH]; intros cur l w; cbn [read_chunks]; [exact I|]. destruct (rBottom area <? cur); [apply goes_ok|].
  apply goes_pure. intros i _. apply goes_bind; [apply read_goes|]. intros d w' _ _. apply IH.
Qed.
Lemma large_goes {E} nw w8 area mask l w : goes (@largeConsoleRead E nw w8 area mask l w) w.
Proof.
  unfold largeConsoleRead. apply goes_pure. intros _ _. cbv zeta. apply goes_bind.
  - destruct w8; [|apply chunks_goes]. apply goes_bind; [apply read_goes|]. intros d w' _ _. apply goes_ok.
  - intros l' w' _ _. destruct (mask =? 65535); apply goes_ok.
Qed.
Lemma mask_fine c w : fine w (snd (attributesMask c w)).
Proof. unfold attributesMask. cbn [snd]. eapply fine_trans; apply fine_interfere. Qed.
Lemma find_goes c s w : goes (findSyncMarker c s w) w.
Proof.
  unfold findSyncMarker. apply goes_pure. intros _ _. cbv zeta. apply goes_bind; [apply read_goes|]. intros d w' _ _.
  destruct (_ <? _); [exact I|apply goes_ok].
Qed.
Lemma direct_goes c st info v s w : goes (directScrapeOutput c st info v s w) w.
Proof.
  unfold directScrapeOutput. cbv zeta. destruct (attributesMask c w) as [mask w1] eqn:Em. apply (goes_from _ w w1); [rewrite <- (f_equal snd Em : _ = w1); apply mask_fine|].
  apply goes_pure. intros _ _. apply goes_bind; [apply large_goes|]. intros r w2 _ _. apply goes_pure. intros s' _. apply goes_ok.
Qed.
Lemma marker_goes c win t s w : goes (scroll_marker c win t s w) w.
Proof.
  unfold scroll_marker. destruct (s_syncRow s =? -1); [apply goes_ok|]. apply goes_bind; [apply find_goes|]. intros m w' _ _.
  destruct (m =? -1); [destruct t; apply goes_ok|]. destruct (negb (m =? s_syncRow s)); [|apply goes_ok].
  apply goes_pure. intros _ _. apply goes_pure. intros _ _. apply goes_ok.
Qed.
Lemma check_goes c info s w : goes (scroll_check c info s w) w.
Proof.
  unfold scroll_check, bufferInfo. cbv zeta. apply (goes_from _ w (interfere w)); [apply fine_interfere|]. destruct (_ || _); [apply goes_ok|].
  destruct (negb _); [|apply goes_ok]. apply goes_bind; [apply find_goes|]. intros r w' _ _. apply goes_ok.
Qed.

(** Scrolling mode: also the marker is written, above the window. *)
Definition leads (w w' : world) : Prop :=
  incl (w_env w) fs -> w_sel w = w_frozen w -> incl (w_env w') fs /\ w_sel w' = w_frozen w' /\ only_by (programs_or_far_above fs) (w_buf w) (w_buf w').
Lemma led_leads w w' : led w w' -> leads w w'.
Proof. intros H E S. destruct (H E S) as (A & B & C). splits; auto. eapply ob_mono; [|exact C]. intros x y P. left. exact P. Qed.
Lemma leads_trans a b c : leads a b -> leads b c -> leads a c.
Proof. intros H1 H2 E S. destruct (H1 E S) as (E1 & S1 & P1). destruct (H2 E1 S1) as (E2 & S2 & P2). splits; auto. eapply ob_trans; eauto. Qed.
Definition lead {E A} (m : res E (A * world)) (w : world) : Prop := match m with Ok (_, w') => leads w w' | _ => True end.
Lemma lead_bind {E A B} (m : res E (A * world)) (k : A * world -> res E (B * world)) w :
  lead m w -> (forall a w', m = Ok (a, w') -> leads w w' -> lead (k (a, w')) w') -> lead (bind m k) w.
Proof.
  intros H K. destruct m as [[a w']| | | |]; cbn [bind lead] in *; auto. specialize (K a w' eq_refl H).
  destruct (k (a, w')) as [[b w'']| | | |]; cbn [lead] in *; auto. eapply leads_trans; eauto.
Qed.
Lemma lead_pure {E A B} (m : res E A) (k : A -> res E (B * world)) w : (forall a, m = Ok a -> lead (k a) w) -> lead (bind m k) w.
Proof. intros K. destruct m; cbn [bind lead]; auto. Qed.
Lemma goes_lead {E A} (m : res E (A * world)) w : goes m w -> lead m w.
Proof. destruct m as [[a w']| | | |]; cbn [goes lead]; auto. intros (H & _). apply led_leads. exact H. Qed.
Lemma lead_ok {E A} (a : A) w : lead (@Ok E _ (a, w)) w. Proof. apply goes_lead, goes_ok. Qed.
Lemma lead_from {E A} (m : res E (A * world)) w w' : leads w w' -> lead m w' -> lead m w.
Proof. intros F. destruct m as [[a w2]| | | |]; cbn [lead]; auto. intros H. eapply leads_trans; eauto. Qed.

Lemma clear_rows row n b w : w_sel w = true -> w_buf w = b -> clearLines row n (info_of b) w = with_buf (Console.set_cells (fun y x => if (row * b_w b <=? y * b_w b + x) && (y * b_w b + x <? row * b_w b + b_w b * n) then blankChar 7 else b_cells b y x) b) w.
Proof. intros S <-. unfold clearLines, interfere. rewrite S. reflexivity. Qed.
Lemma s16_le v : 0 <= v -> s16 v <= v.
Proof. intros H. unfold s16, wraps, wrapu. destruct (_ <? _); lia. Qed.
Lemma create_lead {E} row s w : w_sel w = true -> row + 216 <= rTop (b_win (w_buf w)) -> lead (@createSyncMarker E row s w) w.
Proof.
  intros S R. unfold createSyncMarker. destruct (1 <=? row) eqn:R1; [|exact I]. cbn [assert_ bind]. unfold bufferInfo. cbv zeta. assert (Ei : interfere w = w) by (unfold interfere; rewrite S; reflexivity). rewrite Ei.
  rewrite (clear_rows _ _ (w_buf w) w S eq_refl). cbn [lead]. unfold write_col. match goal with |- context [interfere ?x] => assert (Ej : interfere x = x) by (unfold interfere; cbn [with_buf w_sel]; rewrite S; reflexivity); rewrite Ej end.
  intros Ev Sf. splits; [exact Ev|exact Sf|]. cbn [with_buf w_buf]. set (b := w_buf w) in *.
  apply (ob_step _ _ (Console.set_cells (fun y x : Z => if ((row - 1) * b_w b <=? y * b_w b + x) && (y * b_w b + x <? (row - 1) * b_w b + b_w b * (SYNC_MARKER_LEN + 1)) then blankChar 7 else b_cells b y x) b)).
  - right. eexists. split; [reflexivity|]. intros y x Y X. cbv beta. destruct (y * b_w b + x <? (row - 1) * b_w b + b_w b * (SYNC_MARKER_LEN + 1)) eqn:L; [exfalso|rewrite Bool.andb_false_r; reflexivity].
    apply Z.ltb_lt in L. revert L. unfold SYNC_MARKER_LEN. assert (b_w b * (row + 16) <= b_w b * y) by (apply Z.mul_le_mono_nonneg_l; lia). nia.
  - apply ob_one. right. eexists. split; [reflexivity|]. intros y x Y X. cbn [Console.set_cells b_win b_w b_cells] in *.
    destruct (y <=? rBottom (SmallRect 0 row 1 SYNC_MARKER_LEN)) eqn:L; [exfalso|rewrite Bool.andb_false_r; reflexivity].
    apply Z.leb_le in L, R1. unfold SmallRect, SYNC_MARKER_LEN in L. cbn [rBottom] in L. change (s16 16) with 16 in L. revert L. unfold s16, wraps. repeat match goal with |- context [if ?c then _ else _] => destruct c eqn:? end; change (2 ^ 16) with 65536; lia.
Qed.

Lemma scrolling_lead c info v t s w : (t = false -> w_sel w = true /\ rTop (i_win info) <= rTop (b_win (w_buf w))) -> lead (scrollingScrapeOutput c info v t s w) w.
Proof.
  intros F. unfold scrollingScrapeOutput. cbv zeta.
  assert (Q : forall A (m : res broken (A * world)) (k : A * world -> res broken (bool * sst * world)), goes m w -> (forall a w', m = Ok (a, w') -> fine w w' -> lead (k (a, w')) w') -> lead (bind m k) w).
  { intros A m k G K. apply lead_bind; [apply goes_lead; exact G|]. intros a w' E _. apply K; [exact E|]. rewrite E in G. exact G. }
  apply Q; [apply marker_goes|]. intros [go s1] w1 _ F1. destruct (negb go); [apply lead_ok|].
  destruct (t && _) eqn:Et; [apply lead_ok|]. destruct (scroll_dirty (i_win info) (i_cur info) t s1) as [go2 s2]. destruct (negb go2); [apply lead_ok|].
  apply lead_pure. intros _ _. apply lead_pure. intros _ _. destruct (attributesMask c w1) as [mask w2] eqn:Em.
  assert (F2 : fine w1 w2) by (rewrite <- (f_equal snd Em : _ = w2); apply mask_fine).
  apply (lead_from _ w1 w2); [apply led_leads; apply F2|]. apply lead_bind; [apply goes_lead; apply large_goes|]. intros r w3 E3 _.
  assert (F3 : fine w2 w3) by (pose proof (@large_goes broken (c_new c) (c_w8 c) (SmallRect 0 (Z.min (Z.min (s_scraped s2) (rTop (i_win info) + s_scrolled s2) - s_scrolled s2) (s_dirty s2 - 1)) (Z.min (co_x (i_size info)) MAX_CONSOLE_WIDTH) (Z.max (windowStop (i_win info)) (s_dirty s2) - Z.min (Z.min (s_scraped s2) (rTop (i_win info) + s_scrolled s2) - s_scrolled s2) (s_dirty s2 - 1))) mask (s_read s2) w2) as G; rewrite E3 in G; exact G).
  apply lead_bind; [destruct t; [apply goes_lead, check_goes|apply lead_ok]|]. intros same w4 E4 _. destruct (negb same); [apply lead_ok|].
  apply lead_bind.
  - destruct (_ <=? _) eqn:Sh; [|apply lead_ok]. apply lead_pure. intros u As. destruct t; [discriminate As|]. cbn in E4. injection E4 as <- <-.
    destruct (F eq_refl) as (Sl & Tp). destruct F1 as (_ & T1). destruct F2 as (_ & T2). destruct F3 as (_ & T3).
    destruct (still_trans _ _ _ (still_trans _ _ _ T1 T2) T3 Sl) as (Sl3 & B3). apply create_lead; [exact Sl3|]. rewrite B3. unfold SYNC_MARKER_LEN, SYNC_MARKER_MARGIN. lia.
  - intros s5 w5 _ _. apply lead_pure. intros s6 _. apply lead_ok.
Qed.

(** A tentative scrape writes nothing. *)
Lemma tentative_goes c info v s w : goes (scrollingScrapeOutput c info v true s w) w.
Proof.
  unfold scrollingScrapeOutput. cbv zeta. apply goes_bind; [apply marker_goes|]. intros [go s1] w1 _ F1. destruct (negb go); [apply goes_ok|].
  cbn [andb negb assert_]. destruct (_ <=? _) eqn:Sh; [apply goes_ok|]. destruct (scroll_dirty (i_win info) (i_cur info) true s1) as [go2 s2]. destruct (negb go2); [apply goes_ok|].
  apply goes_pure. intros _ _. apply goes_pure. intros _ _. destruct (attributesMask c w1) as [mask w2] eqn:Em.
  apply (goes_from _ w1 w2); [rewrite <- (f_equal snd Em : _ = w2); apply mask_fine|]. apply goes_bind; [apply large_goes|]. intros r w3 E3 _.
  apply goes_bind; [apply check_goes|]. intros same w4 E4 _. destruct (negb same); [apply goes_ok|]. cbn [bind]. apply goes_pure. intros s6 _. apply goes_ok.
Qed.

Lemma tops a b : Forall window_stays fs -> only_by (programs fs) a b -> rTop (b_win a) <= rTop (b_win b).
Proof.
  intros Fw. induction 1 as [|a a1 b (f & I' & ->) _ IH]; [lia|]. rewrite Forall_forall in Fw. specialize (Fw f I' a). lia.
Qed.
Lemma frozen_sel w : w_sel w = w_frozen w -> w_sel (setFrozen true w) = true.
Proof. intros S. unfold setFrozen. destruct (Bool.eqb true (w_frozen w)) eqn:E; [apply Bool.eqb_prop in E; congruence|reflexivity]. Qed.

End Kept.

(** The mode does not change in what follows its choice. *)
Definition sd {E A} (f : A -> sst) (d : bool) (m : res E A) : Prop := match m with Ok a => s_direct (f a) = d | _ => True end.
Lemma sd_bind {E A B} (f : A -> sst) (g : B -> sst) d (m : res E A) (k : A -> res E B) : sd f d m -> (forall a, s_direct (f a) = d -> sd g d (k a)) -> sd g d (bind m k).
Proof. intros H K. destruct m; cbn [bind sd] in *; auto. Qed.
Lemma sd_pure {E A B} (g : B -> sst) d (m : res E A) (k : A -> res E B) : (forall a, sd g d (k a)) -> sd g d (bind m k).
Proof. intros K. destruct m; cbn [bind sd]; auto. Qed.
Definition id_ (s : sst) := s.
Definition st1 {W} (x : sst * W) := fst x.
Definition st2 {B W} (x : B * sst * W) := snd (fst x).
Lemma set_sd {E} i l m s d : s_direct s = d -> sd id_ d (@set_line E i l m s).
Proof. intros H. unfold set_line. destruct (zupd _ _ _); [exact H|exact Logic.I]. Qed.
Lemma send_sd {E} wd cl cc d : forall n line saw s, s_direct s = d -> sd id_ d (@send_lines E n line wd cl cc saw s).
Proof.
  induction n as [|n IH]; intros line saw s H; cbn [send_lines]; [exact H|]. apply sd_pure. intros cur. apply sd_pure. intros bl. apply sd_pure. intros [sw bl'].
  apply (sd_bind id_); [apply set_sd; exact H|]. intros s1 H1. apply (sd_bind id_).
  - destruct sw; [destruct (_ <? _)|]; cbn [sd]; auto.
  - intros s2 H2. apply IH. exact H2.
Qed.
Lemma scroll_send_sd {E} i v fv s d : s_direct s = d -> sd id_ d (@scroll_send E i v fv s).
Proof.
  intros H. unfold scroll_send. cbv zeta. apply (sd_bind id_).
  - unfold scanForDirtyLines. apply sd_pure. intros _. apply sd_pure. intros prev. destruct (znth prev _); [|exact Logic.I]. apply sd_pure. intros n. exact H.
  - intros s1 H1. apply (sd_bind id_); [apply send_sd; destruct (_ && _); exact H1|]. intros s2 H2. destruct (_ && _); exact H2.
Qed.
Lemma create_sd {E} r s w d : s_direct s = d -> sd st1 d (@createSyncMarker E r s w).
Proof. intros H. unfold createSyncMarker. apply sd_pure. intros _. exact H. Qed.
Lemma scrolling_sd c info v t s w d : s_direct s = d -> sd st2 d (scrollingScrapeOutput c info v t s w).
Proof.
  intros H. unfold scrollingScrapeOutput. cbv zeta. apply (sd_bind st2).
  - unfold scroll_marker. destruct (_ =? _); [exact H|]. apply sd_pure. intros [m w1]. destruct (m =? -1); [destruct t; exact H|]. destruct (negb _); [|exact H].
    apply sd_pure. intros _. apply sd_pure. intros _. exact H.
  - intros [[go s1] w1] H1. cbn [st2 fst snd] in H1. destruct (negb go); [exact H1|]. destruct (t && _); [exact H1|].
    assert (H2 : s_direct (snd (scroll_dirty (i_win info) (i_cur info) t s1)) = d).
    { unfold scroll_dirty. destruct (negb (s_dirtyTop s1 =? -1)); [|exact H1]. destruct (s_dirtyTop s1 <? rTop (i_win info)); [exact H1|]. destruct (rTop (i_win info) <? s_dirtyTop s1); [destruct t|]; exact H1. }
    destruct (scroll_dirty (i_win info) (i_cur info) t s1) as [go2 s2]. cbn [snd] in H2. destruct (negb go2); [exact H2|].
    apply sd_pure. intros _. apply sd_pure. intros _. destruct (attributesMask c w1) as [mask w2]. apply sd_pure. intros [r w3]. apply sd_pure. intros [same w4]. destruct (negb same); [exact H2|].
    apply (sd_bind st1).
    + destruct (_ <=? _); [|exact H2]. apply sd_pure. intros _. apply create_sd. exact H2.
    + intros [s5 w5] H5. apply (sd_bind id_); [apply scroll_send_sd; exact H5|]. intros s6 H6. exact H6.
Qed.
Lemma clear_sd {E} d : forall n row s, s_direct s = d -> sd id_ d (@clear_loop E n row s).
Proof.
  induction n as [|n IH]; intros row s H; cbn [clear_loop]; [exact H|]. apply sd_pure. intros l. apply (sd_bind id_); [apply set_sd; exact H|]. intros s1 H1. apply IH. exact H1.
Qed.
Lemma resize_sd c i s w d : s_direct s = d -> sd st1 d (resizeImpl c i s w).
Proof.
  intros H. unfold resizeImpl. apply sd_pure. intros _. cbv zeta. apply (sd_bind st1).
  - unfold resize_clear. destruct (s_direct s) eqn:Ed; [cbn [sd st1 fst st_lines s_direct]; congruence|]. cbv zeta. apply (sd_bind id_).
    + unfold clearBufferLines. apply sd_pure. intros _. apply clear_sd. congruence.
    + intros s1 H1. destruct (negb _); [apply create_sd|]; exact H1.
  - intros [s1 w1] H1. cbn [st1 fst] in H1. destruct (largestSize _) as [lg w2]. unfold bufferInfo. cbv zeta. apply sd_pure. intros _. apply sd_pure. intros _. exact H1.
Qed.

Lemma direct_loop_sd {E} top wd cc cl d : forall n line s, s_direct s = d -> sd id_ d (@direct_loop E n top line wd cc cl s).
Proof.
  induction n as [|n IH]; intros line s H1; cbn [direct_loop]; [exact H1|].
  apply sd_pure. intros cur. apply sd_pure. intros bl. apply sd_pure. intros [ch bl']. apply (sd_bind id_); [apply set_sd; exact H1|]. intros s2 H2. apply (sd_bind id_).
  - destruct ch; [destruct (_ <? _)|]; cbn [sd]; auto.
  - intros s3 H3. apply IH. exact H3.
Qed.
Lemma direct_sd_ c st info v s w d : s_direct s = d -> sd st1 d (directScrapeOutput c st info v s w).
Proof.
  intros H. unfold directScrapeOutput. cbv zeta. destruct (attributesMask c w) as [mask w1]. apply sd_pure. intros _. apply sd_pure. intros [r w2]. apply (sd_bind id_).
  - apply direct_loop_sd. destruct (_ && _); exact H.
  - intros s3 H3. destruct (_ && _); exact H3.
Qed.

Section Poll.
Variable fs : list (cbuf -> cbuf).
(** The parts of a poll *)
Definition poll_start (c : cfg) (w : world) : world := if negb (c_new c) then setFrozen true w else w.
Lemma poll_parts c s w i s' w' : scrapeBuffer c s w = Ok (i, s', w') ->
  let w0 := poll_start c w in let w1 := interfere w0 in let w2 := interfere w1 in
  let info := info_of (w_buf w1) in
  (exists s1, s_direct s' = true /\ directScrapeOutput c false info (b_visible (w_buf w2)) s1 w2 = Ok (s', w')) \/
  s_direct s' = false /\ s_direct s = true \/
  s_direct s' = false /\ s_direct s = false /\
    exists s1 w3, (w_frozen w2 = false /\ (exists ok w4, scrollingScrapeOutput c info (b_visible (w_buf w2)) true s w2 = Ok (ok, s1, w4) /\ w3 = if ok : bool then w4 else setFrozen true w4) \/ w_frozen w2 = true /\ w3 = w2) /\
      (w_frozen w3 = false /\ w' = w3 \/ w_frozen w3 = true /\ exists ok, scrollingScrapeOutput c info (b_visible (w_buf w2)) false s1 w3 = Ok (ok, s', w')).
Proof.
  unfold scrapeBuffer, syncConsoleContentAndSize. rewrite Bool.orb_false_r. fold (poll_start c w). unfold bufferInfo, cursorVisible. cbv zeta.
  set (w0 := poll_start c w). set (w1 := interfere w0). set (w2 := interfere w1). set (info := info_of (w_buf w1)).
  destruct (co_y (i_size info) =? BUFFER_LINE_COUNT); cbn [negb]; destruct (s_direct s) eqn:Ed; cbn [Bool.eqb negb].
  - intros E. right. left. split; [|reflexivity]. revert E. set (s0 := st_direct false (resetConsoleTracking true (rTop (i_win info)) s)). change (s_direct s0) with false. cbv iota.
    assert (H0 : s_direct s0 = false) by reflexivity. clearbody s0. set (wf := setFrozen true w2). clearbody wf.
    assert (Q : sd st1 false (let! (s1, w3) := (if negb (w_frozen wf) then let! (ok, s1, w3) := scrollingScrapeOutput c info (b_visible (w_buf w2)) true s0 wf in Ok (s1, if ok : bool then w3 else setFrozen true w3) else Ok (s0, wf)) in
        let! (s1, w3) := (if w_frozen w3 then let! (ok, s1, w3) := scrollingScrapeOutput c info (b_visible (w_buf w2)) false s1 w3 in Ok (s1, w3) else Ok (s1, w3)) in resizeImpl c info s1 w3)).
    { apply (sd_bind st1); [destruct (negb _); [|exact H0]; apply (sd_bind st2); [apply scrolling_sd; exact H0|]; intros [[ok s1] w3] H1; exact H1|].
      intros [s1 w3] H1. apply (sd_bind st1); [destruct (w_frozen w3); [|exact H1]; apply (sd_bind st2); [apply scrolling_sd; exact H1|]; intros [[ok s2] w4] H2; exact H2|].
      intros [s2 w4] H2. apply resize_sd. exact H2. }
    intros E. match type of E with bind ?m _ = _ => change m with (let! (s1, w3) := (if negb (w_frozen wf) then let! (ok, s1, w3) := scrollingScrapeOutput c info (b_visible (w_buf w2)) true s0 wf in Ok (s1, if ok : bool then w3 else setFrozen true w3) else Ok (s0, wf)) in
        let! (s1, w3) := (if w_frozen w3 then let! (ok, s1, w3) := scrollingScrapeOutput c info (b_visible (w_buf w2)) false s1 w3 in Ok (s1, w3) else Ok (s1, w3)) in resizeImpl c info s1 w3) in E end.
    match type of Q with sd _ _ ?m => destruct m as [[s9 w9]| | | |] end; try discriminate E. cbn [bind] in E. injection E as _ <- _. exact Q.
  - rewrite Ed. intros E. right. right.
    assert (Q : forall s1 w3, (if negb (w_frozen w2) then let! (ok, s1, w3) := scrollingScrapeOutput c info (b_visible (w_buf w2)) true s w2 in Ok (s1, if ok : bool then w3 else setFrozen true w3) else Ok (s, w2)) = Ok (s1, w3) ->
      s_direct s1 = false /\ (w_frozen w2 = false /\ (exists ok w4, scrollingScrapeOutput c info (b_visible (w_buf w2)) true s w2 = Ok (ok, s1, w4) /\ w3 = if ok : bool then w4 else setFrozen true w4) \/ w_frozen w2 = true /\ w3 = w2 /\ s1 = s)).
    { intros s1 w3. destruct (w_frozen w2); cbn [negb]; [intros X; injection X as <- <-; auto|]. pose proof (scrolling_sd c info (b_visible (w_buf w2)) true s w2 false Ed) as S1. destruct (scrollingScrapeOutput _ _ _ _ _ _) as [[[ok s2] w4]| | | |]; cbn [bind]; try discriminate. intros X. injection X as <- <-. split; [exact S1|]. left. split; [reflexivity|]. exists ok, w4. auto. }
    match type of Q with forall _ _, ?m = _ -> _ => destruct m as [[s1 w3]| | | |] end; cbn [bind] in E; try discriminate E. destruct (Q s1 w3 eq_refl) as (S1 & Q1). clear Q.
    assert (Q : forall s2 w4, (if w_frozen w3 then let! (ok, s1, w3) := scrollingScrapeOutput c info (b_visible (w_buf w2)) false s1 w3 in Ok (s1, w3) else Ok (s1, w3)) = Ok (s2, w4) ->
      s_direct s2 = false /\ (w_frozen w3 = false /\ w4 = w3 \/ w_frozen w3 = true /\ exists ok, scrollingScrapeOutput c info (b_visible (w_buf w2)) false s1 w3 = Ok (ok, s2, w4))).
    { intros s2 w4. destruct (w_frozen w3); [|intros X; injection X as <- <-; auto]. pose proof (scrolling_sd c info (b_visible (w_buf w2)) false s1 w3 false S1) as S2. destruct (scrollingScrapeOutput _ _ _ _ _ _) as [[[ok s3] w5]| | | |]; cbn [bind]; try discriminate. intros X. injection X as <- <-. split; [exact S2|]. right. split; [reflexivity|]. exists ok. reflexivity. }
    match type of Q with forall _ _, ?m = _ -> _ => destruct m as [[s2 w4]| | | |] end; cbn [bind] in E; try discriminate E. destruct (Q s2 w4 eq_refl) as (S2 & Q2). injection E as <- <- <-.
    split; [exact S2|]. split; [reflexivity|]. exists s1, w3. split; [|exact Q2]. destruct Q1 as [Q1|(A & B & _)]; auto.
  - rewrite Ed. cbn [bind]. intros E. left. exists s. pose proof (direct_sd_ c false info (b_visible (w_buf w2)) s w2 true Ed) as S1. destruct (directScrapeOutput _ _ _ _ _ _) as [[s1 w3]| | | |]; cbn [bind] in E; try discriminate E. injection E as <- <- <-. auto.
  - set (s0 := st_direct true (resetConsoleTracking true 0 s)). change (s_direct s0) with true. cbv iota. cbn [bind]. intros E. left. exists s0.
    pose proof (direct_sd_ c false info (b_visible (w_buf w2)) s0 w2 true eq_refl) as S1. destruct (directScrapeOutput _ _ _ _ _ _) as [[s1 w3]| | | |]; cbn [bind] in E; try discriminate E. injection E as <- <- <-. auto.
Qed.
Lemma start_led c w : led fs w (poll_start c w).
Proof. unfold poll_start. destruct (negb (c_new c)); [apply led_setFrozen|apply led_refl]. Qed.
Lemma poll_led c s w i s' w' : scrapeBuffer c s w = Ok (i, s', w') -> s_direct s' = true -> led fs w w'.
Proof.
  intros E Hd. destruct (poll_parts c s w i s' w' E) as [(s1 & _ & D)|[(H & _)|(H & _)]]; try congruence.
  eapply led_trans; [apply start_led|]. eapply led_trans; [apply led_interfere|]. eapply led_trans; [apply led_interfere|].
  pose proof (direct_goes fs c false (info_of (w_buf (interfere (poll_start c w)))) (b_visible (w_buf (interfere (interfere (poll_start c w))))) s1 (interfere (interfere (poll_start c w)))) as G. rewrite D in G. apply G.
Qed.
Lemma poll_leads c s w i s' w' : scrapeBuffer c s w = Ok (i, s', w') -> c_new c = false \/ Forall window_stays fs -> s_direct s' = true \/ s_direct s = false -> leads fs w w'.
Proof.
  intros E Hw Hd. destruct (poll_parts c s w i s' w' E) as [(s1 & D & _)|[(H1 & H2)|(H1 & H2 & s1 & w3 & P & Q)]].
  - apply led_leads. eapply poll_led; eauto.
  - destruct Hd; congruence.
  - clear E. set (w0 := poll_start c w) in *. set (w1 := interfere w0) in *. set (w2 := interfere w1) in *. intros Ev Sf.
    assert (L1 : led fs w w1) by (eapply led_trans; [apply start_led|apply led_interfere]).
    destruct (L1 Ev Sf) as (Ev1 & Sf1 & B1). destruct (led_interfere fs w1 Ev1 Sf1) as (Ev2 & Sf2 & B2). fold w2 in Ev2, Sf2, B2.
    assert (L3 : led fs w2 w3).
    { destruct P as [(_ & ok & w4 & Sc & ->)|(_ & ->)]; [|apply led_refl]. pose proof (tentative_goes fs c (info_of (w_buf w1)) (b_visible (w_buf w2)) s w2) as G. rewrite Sc in G. destruct G as (G & _).
      destruct ok; [exact G|]. eapply led_trans; [exact G|apply led_setFrozen]. }
    destruct (L3 Ev2 Sf2) as (Ev3 & Sf3 & B3).
    assert (T : w_frozen w3 = true -> rTop (b_win (w_buf w1)) <= rTop (b_win (w_buf w3))).
    { intros _. destruct Hw as [Hn|Fw].
      - assert (S0 : w_sel w0 = true) by (unfold w0, poll_start; rewrite Hn; cbn [negb]; apply frozen_sel; exact Sf).
        assert (E1 : w1 = w0) by (unfold w1, interfere; rewrite S0; reflexivity). assert (E2 : w2 = w0) by (unfold w2, interfere; rewrite E1, S0; reflexivity).
        destruct P as [(Fz & _)|(_ & ->)]; [rewrite E2, <- Sf2, E2 in Fz || rewrite E2 in *; congruence|]. rewrite E1, E2. lia.
      - apply (tops fs); [exact Fw|]. eapply ob_trans; [exact B2|exact B3]. }
    assert (B03 : only_by (programs_or_far_above fs) (w_buf w) (w_buf w3)).
    { eapply ob_mono; [intros x y Pr; left; exact Pr|]. eapply ob_trans; [exact B1|]. eapply ob_trans; [exact B2|exact B3]. }
    destruct Q as [(_ & ->)|(Fz & ok & Sc)]; [splits; auto|].
    assert (S3 : w_sel w3 = true) by congruence.
    pose proof (scrolling_lead fs c (info_of (w_buf w1)) (b_visible (w_buf w2)) false s1 w3 (fun _ => conj S3 (T Fz))) as G. rewrite Sc in G. destruct (G Ev3 Sf3) as (Ev' & Sf' & B').
    splits; auto. eapply ob_trans; [exact B03|exact B'].
Qed.

(** The agent's poll: both buffers *)
Lemma turn_facts w : incl (w_env w) fs -> incl (w_env (turn w)) fs /\ w_sel (turn w) = w_sel w /\ w_frozen (turn w) = w_frozen w /\ only_by (programs fs) (w_buf w) (w_buf (turn w)).
Proof.
  intros E. unfold turn. destruct (w_env w) as [|f r] eqn:Ev; [rewrite Ev; splits; auto; constructor|]. cbn [w_env w_sel w_frozen w_buf]. splits; auto; [intros x I'; apply E; right; exact I'|].
  apply ob_one. exists f. split; [apply E; left; reflexivity|reflexivity].
Qed.
Lemma agent_kept (step : cbuf -> cbuf -> Prop) (ok : sst -> sst -> Prop) c a w r a' w' :
  (forall x y, programs fs x y -> step x y) ->
  (forall s w i s' w', scrapeBuffer c s w = Ok (i, s', w') -> ok s s' -> incl (w_env w) fs -> w_sel w = w_frozen w -> only_by step (w_buf w) (w_buf w')) ->
  (forall s w i s' w', scrapeBuffer c s w = Ok (i, s', w') -> incl (w_env w) fs -> w_sel w = w_frozen w -> incl (w_env w') fs /\ w_sel w' = w_frozen w') ->
  incl (w_env w) fs -> w_sel w = w_frozen w -> agentScrape c a w = Ok (r, a', w') ->
  (ok (a_prim a) (a_prim a') -> only_by step (w_buf w) (w_buf w')) /\
  (forall es eb es' eb', a_err a = Some (es, eb) -> a_err a' = Some (es', eb') -> ok es es' -> only_by step eb eb').
Proof.
  intros Sp Hk He Ev Sf. unfold agentScrape, guard_enter. cbv zeta. assert (E0 : setFrozen (w_frozen w) w = w) by (unfold setFrozen; rewrite Bool.eqb_reflx; reflexivity). rewrite E0.
  destruct (scrapeBuffer c (a_prim a) w) as [[[i s'] w1]| | | |] eqn:E1; cbn [bind]; try discriminate. destruct (He _ _ _ _ _ E1 Ev Sf) as (Ev1 & Sf1).
  assert (Lv : forall wx, incl (w_env wx) fs -> w_sel wx = w_frozen wx -> only_by step (w_buf wx) (w_buf (guard_leave (w_frozen w) wx))).
  { intros wx Ex Sx. destruct (led_setFrozen fs (w_frozen w) wx Ex Sx) as (_ & _ & B). eapply ob_mono; [exact Sp|exact B]. }
  destruct (a_err a) as [[es eb]|] eqn:Ea; cbn [bind].
  - unfold on_buffer. destruct (turn_facts (with_buf eb w1) Ev1) as (T1 & T2 & T3 & T4).
    destruct (scrapeBuffer c es (turn (with_buf eb w1))) as [[[i2 es2] w2]| | | |] eqn:E2; cbn [bind]; try discriminate. intros X. injection X as <- <- <-. cbn [a_prim a_err].
    assert (Sft : w_sel (turn (with_buf eb w1)) = w_frozen (turn (with_buf eb w1))) by (rewrite T2, T3; exact Sf1). destruct (He _ _ _ _ _ E2 T1 Sft) as (Ev2 & Sf2).
    destruct (turn_facts (with_buf (w_buf w1) w2) Ev2) as (U1 & U2 & U3 & U4). split.
    + intros O. eapply ob_trans; [exact (Hk _ _ _ _ _ E1 O Ev Sf)|]. eapply ob_trans; [|apply Lv; [exact U1|rewrite U2, U3; exact Sf2]]. eapply ob_mono; [exact Sp|exact U4].
    + intros es0 eb0 es' eb' X Y O. injection X as <- <-. injection Y as <- <-. eapply ob_trans; [eapply ob_mono; [exact Sp|exact T4]|]. exact (Hk _ _ _ _ _ E2 O T1 Sft).
  - intros X. injection X as <- <- <-. cbn [a_prim a_err]. split; [|intros; discriminate]. intros O. eapply ob_trans; [exact (Hk _ _ _ _ _ E1 O Ev Sf)|apply Lv; assumption].
Qed.
End Poll.

(** Facts of a poll that do not depend on what it does to the buffer *)
Lemma poll_settled fs c s w i s' w' : scrapeBuffer c s w = Ok (i, s', w') -> incl (w_env w) fs -> w_sel w = w_frozen w -> incl (w_env w') fs /\ w_sel w' = w_frozen w'.
Proof.
  intros E Ev Sf. pose proof (FreezeProofs.sync_inv (w_esc w, fs) c false s w (conj Sf (conj eq_refl Ev))) as Q. unfold scrapeBuffer in E. rewrite E in Q.
  destruct Q as (A & _ & B). auto.
Qed.
Lemma agent_full_screen c a w r a' w' : w_sel w = w_frozen w -> agentScrape c a w = Ok (r, a', w') ->
  (s_direct (a_prim a') = true -> only_by (programs (w_env w)) (w_buf w) (w_buf w')) /\
  (forall es eb es' eb', a_err a = Some (es, eb) -> a_err a' = Some (es', eb') -> s_direct es' = true -> only_by (programs (w_env w)) eb eb').
Proof.
  intros Sf E. apply (agent_kept (w_env w) (programs (w_env w)) (fun _ s' => s_direct s' = true) c a w r a' w'); auto.
  - intros s w0 i s' w1 E1 D Ev S0. exact (proj2 (proj2 (poll_led (w_env w) c s w0 i s' w1 E1 D Ev S0))).
  - intros s w0 i s' w1 E1. apply (poll_settled _ _ _ _ _ _ _ E1).
  - apply incl_refl.
Qed.
Lemma agent_scrolling c a w r a' w' : w_sel w = w_frozen w -> c_new c = false \/ Forall window_stays (w_env w) -> agentScrape c a w = Ok (r, a', w') ->
  (s_direct (a_prim a) = false \/ s_direct (a_prim a') = true -> only_by (programs_or_far_above (w_env w)) (w_buf w) (w_buf w')) /\
  (forall es eb es' eb', a_err a = Some (es, eb) -> a_err a' = Some (es', eb') -> s_direct es = false \/ s_direct es' = true -> only_by (programs_or_far_above (w_env w)) eb eb').
Proof.
  intros Sf Hw E. apply (agent_kept (w_env w) (programs_or_far_above (w_env w)) (fun s s' => s_direct s = false \/ s_direct s' = true) c a w r a' w'); auto.
  - intros x y P. left. exact P.
  - intros s w0 i s' w1 E1 D Ev S0. refine (proj2 (proj2 (poll_leads (w_env w) c s w0 i s' w1 E1 Hw _ Ev S0))). tauto.
  - intros s w0 i s' w1 E1. apply (poll_settled _ _ _ _ _ _ _ E1).
  - apply incl_refl.
Qed.

(** Without other programs *)
Lemma quiet_far b b' : only_by (programs_or_far_above []) b b' ->
  b' = Console.set_cells (b_cells b') b /\ forall y x, rTop (b_win b) - 200 <= y -> 0 <= x < b_w b -> b_cells b' y x = b_cells b y x.
Proof.
  induction 1 as [b|b b1 b' [(f & [] & _)|(cells & -> & H)] _ IH]; [destruct b; auto|]. cbn [Console.set_cells b_win b_w b_cells] in IH. destruct IH as (E & C). split; [rewrite E at 1; reflexivity|].
  intros y x Y X. rewrite C by assumption. apply H; assumption.
Qed.
Lemma quiet_same b b' : only_by (programs []) b b' -> b' = b.
Proof. induction 1 as [b|b b1 b' (f & [] & _) _ IH]; reflexivity. Qed.
