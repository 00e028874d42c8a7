From Verif Require Import Base BaseLemmas Text Strings SmallRect SmallRectSpec SmallRectProofs ConsoleLine ConsoleLineSpec ConsoleLineProofs Console LargeRead LargeReadSpec LargeReadProofs TerminalSpec Scraper AgentConsole ScraperSpec ScraperProofs StreamSpec.
Ltac Zify.zify_post_hook ::= Z.div_mod_to_equations.
Ltac splits := repeat match goal with |- _ /\ _ => split end.

Definition done {E A} (r : res E A) (P : A -> Prop) : Prop := match r with Ok a => P a | _ => False end.
Lemma done_bind {E A B} (m : res E A) (k : A -> res E B) (P : A -> Prop) (Q : B -> Prop) :
  done m P -> (forall a, P a -> done (k a) Q) -> done (bind m k) Q.
Proof. destruct m; cbn; auto; contradiction. Qed.
Lemma done_weak {E A} (r : res E A) (P Q : A -> Prop) : done r P -> (forall a, P a -> Q a) -> done r Q.
Proof. destruct r; cbn; auto. Qed.
Lemma done_assert {E A} b (k : res E A) Q : b = true -> done k Q -> done (let! _ := assert_ b in k) Q.
Proof. intros -> H. exact H. Qed.
Lemma done_ok {E A} (r : res E A) P : done r P -> exists a, r = Ok a /\ P a.
Proof. destruct r; cbn; try contradiction. eauto. Qed.

(** *** The marker's text *)
Lemma hexdigit_inj a b : 0 <= a < 16 -> 0 <= b < 16 -> hexdigit a = hexdigit b -> a = b.
Proof. unfold hexdigit. intros A B H. destruct (a <? 10) eqn:E1, (b <? 10) eqn:E2; lia. Qed.
Lemma hexdigit_range a : 0 <= a < 16 -> 48 <= hexdigit a <= 102.
Proof. unfold hexdigit. intros A. destruct (a <? 10) eqn:E1; lia. Qed.
Lemma nibble v k : 0 <= k -> Z.land (Z.shiftr v (4 * k)) 15 = v / 2 ^ (4 * k) mod 16.
Proof. intros K. change 15 with (Z.ones 4). rewrite Z.land_ones by lia. rewrite Z.shiftr_div_pow2 by lia. reflexivity. Qed.
Definition tk (c k : Z) : Z := nth (Z.to_nat k) (syncMarkerText c) 0.
Lemma text_nibbles c : syncMarkerText c = [83; 42; 89; 42; 78; 42; 67; 42;
  hexdigit (c / 268435456 mod 16); hexdigit (c / 16777216 mod 16); hexdigit (c / 1048576 mod 16); hexdigit (c / 65536 mod 16);
  hexdigit (c / 4096 mod 16); hexdigit (c / 256 mod 16); hexdigit (c / 16 mod 16); hexdigit (c mod 16)].
Proof.
  unfold syncMarkerText, hex8. cbn [map]. rewrite !nibble by lia. change (4 * 0) with 0. change (2 ^ 0) with 1. rewrite Z.div_1_r. reflexivity.
Qed.
Lemma text_len c : length (syncMarkerText c) = 16%nat.
Proof. rewrite text_nibbles. reflexivity. Qed.
Lemma text_inj c d : 0 <= c < 2 ^ 32 -> 0 <= d < 2 ^ 32 -> syncMarkerText c = syncMarkerText d -> c = d.
Proof.
  intros C D H. rewrite !text_nibbles in H. injection H as H7 H6 H5 H4 H3 H2 H1 H0.
  apply hexdigit_inj in H0; [|apply Z.mod_pos_bound; lia..]. apply hexdigit_inj in H1; [|apply Z.mod_pos_bound; lia..]. apply hexdigit_inj in H2; [|apply Z.mod_pos_bound; lia..].
  apply hexdigit_inj in H3; [|apply Z.mod_pos_bound; lia..]. apply hexdigit_inj in H4; [|apply Z.mod_pos_bound; lia..]. apply hexdigit_inj in H5; [|apply Z.mod_pos_bound; lia..].
  apply hexdigit_inj in H6; [|apply Z.mod_pos_bound; lia..]. apply hexdigit_inj in H7; [|apply Z.mod_pos_bound; lia..].
  assert (F : forall v, 0 <= v < 2 ^ 32 -> v = (v / 268435456 mod 16) * 268435456 + (v / 16777216 mod 16) * 16777216 + (v / 1048576 mod 16) * 1048576 + (v / 65536 mod 16) * 65536 + (v / 4096 mod 16) * 4096 + (v / 256 mod 16) * 256 + (v / 16 mod 16) * 16 + v mod 16).
  { intros v V. change (2 ^ 32) with 4294967296 in V.
    assert (G : forall a b, 0 < b -> a / (b * 16) = a / b / 16) by (intros a b B; rewrite Z.div_div by lia; reflexivity).
    change 268435456 with (16777216 * 16). change 16777216 with (1048576 * 16). change 1048576 with (65536 * 16). change 65536 with (4096 * 16). change 4096 with (256 * 16). change 256 with (16 * 16).
    rewrite !G by lia. lia. }
  rewrite (F c C), (F d D). congruence.
Qed.
Lemma hexdigit_not a : 0 <= a < 16 -> hexdigit a <> 83 /\ hexdigit a <> 32.
Proof. unfold hexdigit. intros A. destruct (a <? 10) eqn:E1; lia. Qed.
Lemma tk_facts c k : 0 <= k < 16 -> tk c k <> 32 /\ (tk c k = 83 -> k = 0).
Proof.
  intros H. unfold tk. rewrite text_nibbles. pose proof (fun v => hexdigit_not (v mod 16) ltac:(apply Z.mod_pos_bound; lia)) as N.
  assert (Hk : k = Z.of_nat (Z.to_nat k)) by lia. assert (Hj : (Z.to_nat k < 16)%nat) by lia. rewrite Hk. rewrite Nat2Z.id. revert Hj. generalize (Z.to_nat k). clear H Hk k. intros j Hj.
  do 16 (destruct j as [|j]; [cbn [nth]; try (split; [lia|intros; lia]); (split; [apply N|intros X; exfalso; revert X; apply N])|]). lia.
Qed.
Lemma tk_zero c : tk c 0 = 83.
Proof. unfold tk. now rewrite text_nibbles. Qed.
(** Column 0 of 16 rows *)
Definition column_at (f : Z -> Z) (n : Z) : list Z := map (fun k => f (n + k)) (zseq 0 16).
Lemma list16 {A} (l : list A) d : length l = 16%nat -> l = map (fun k => nth (Z.to_nat k) l d) (zseq 0 16).
Proof.
  intros H. do 16 (destruct l as [|? l]; [discriminate|]). destruct l; [reflexivity|discriminate].
Qed.
Lemma map_eq_in {A B} (f g : A -> B) l : map f l = map g l -> forall k, In k l -> f k = g k.
Proof.
  induction l as [|y l IH]; intros E k J; [contradiction|]. cbn [map] in E. destruct J as [->|J]; [|apply IH; [|exact J]]; congruence.
Qed.
Lemma column_text f n c : column_at f n = syncMarkerText c <-> (forall k, 0 <= k < 16 -> f (n + k) = tk c k).
Proof.
  rewrite (list16 (syncMarkerText c) 0 (text_len c)). unfold column_at. split.
  - intros H k K. apply (map_eq_in _ _ _ H). apply LargeReadProofs.zseq_in. lia.
  - intros H. apply map_ext_in. intros k K. apply LargeReadProofs.zseq_in in K. apply H. lia.
Qed.

(** *** Steps of the programs *)
Lemma goes_refl t : goes_to t t.
Proof. unfold goes_to. splits; auto; lia. Qed.
Lemma goes_trans a b c : goes_to a b -> goes_to b c -> goes_to a c.
Proof.
  intros (A1 & A2 & A3) (B1 & B2 & B3). unfold goes_to. splits; try lia. intros n x H. rewrite B3, A3; auto. unfold top_line in *. lia.
Qed.
Lemma goes_top a b : goes_to a b -> top_line a <= top_line b.
Proof. intros (A & B & _). unfold top_line. lia. Qed.
Definition aft (t : screen) (r : list screen) (t' : screen) (r' : list screen) : Prop :=
  goes_to t t' /\ incl (t' :: r') (t :: r) /\ last r' t' = last r t.
Lemma aft_refl t r : aft t r t r.
Proof. split; [apply goes_refl|]. split; [apply incl_refl|reflexivity]. Qed.
Lemma aft_trans a ra b rb c rc : aft a ra b rb -> aft b rb c rc -> aft a ra c rc.
Proof. intros (A1 & A2 & A3) (B1 & B2 & B3). split; [eapply goes_trans; eauto|]. split; [eapply incl_tran; eauto|congruence]. Qed.
Lemma last_cons {A} (l : list A) x d : last (x :: l) d = last l x.
Proof. revert x d. induction l as [|y l IH]; intros x d; [reflexivity|]. change (last (x :: y :: l) d) with (last (y :: l) d). rewrite IH. symmetry. apply IH. Qed.
Lemma aft_step t t' r : goes_to t t' -> aft t (t' :: r) t' r.
Proof. intros H. split; [exact H|]. split; [intros z Z; right; exact Z|]. symmetry. apply last_cons. Qed.
Lemma aft_in t r t' r' : aft t r t' r' -> In t' (t :: r).
Proof. intros (_ & I & _). apply I. now left. Qed.
Lemma sequence_ok bw t r : sequence bw t r -> screen_ok bw t.
Proof. destruct r; cbn; tauto. Qed.
Lemma sequence_goes bw : forall r t t', sequence bw t r -> In t' (t :: r) -> goes_to t t'.
Proof.
  induction r as [|u r IH]; intros t t' S I.
  - destruct I as [<-|[]]. apply goes_refl.
  - destruct S as (_ & G & S). destruct I as [<-|I]; [apply goes_refl|]. eapply goes_trans; [exact G|]. apply IH; auto.
Qed.
Lemma sequence_each bw : forall r t t', sequence bw t r -> In t' (t :: r) -> screen_ok bw t'.
Proof.
  induction r as [|u r IH]; intros t t' S I.
  - destruct I as [<-|[]]. apply S.
  - destruct S as (O & G & S). destruct I as [<-|I]; [exact O|]. apply (IH u); auto.
Qed.

Section Stream.
Variables (c : cfg) (bw cp mode : Z).
Hypothesis Kc : cfg_ok c.
Hypothesis Kn : c_new c = true -> c_w8 c = true.
Hypothesis Ks : c_strict c = false.
Hypothesis Bw : 1 <= bw <= 32767.

Definition ch0 (b : cbuf) (t : screen) (n : Z) : Z := cl_ch (b_cells b (n - p_off t) 0).
Definition is_marker (b : cbuf) (t : screen) (a d : Z) : Prop := forall k, 0 <= k < 16 -> ch0 b t (a + k) = tk d k.
Definition clean_line (mk : option (Z * Z)) (n : Z) : Prop := match mk with None => True | Some (m, _) => m + 16 <= n end.
Record con (mk : option (Z * Z)) (lim : Z) (t : screen) (rest : list screen) (w : world) : Prop := {
  k_env : w_env w = moves t rest;
  k_seq : sequence bw t rest;
  k_lim : Forall (fun t => p_off t <= lim) (t :: rest);
  k_sel : w_sel w = w_frozen w;
  k_w : b_w (w_buf w) = bw;
  k_h : b_h (w_buf w) = 3000;
  k_cp : b_cp (w_buf w) = cp;
  k_mode : b_mode (w_buf w) = mode;
  k_win : b_win (w_buf w) = p_win t;
  k_cur : b_cur (w_buf w) = p_cur t;
  k_vis : b_visible (w_buf w) = p_visible t;
  k_words : words (w_buf w);
  k_clean : forall y x, 0 <= y < 3000 -> 0 <= x < bw -> clean_line mk (y + p_off t) -> b_cells (w_buf w) y x = p_text t (y + p_off t) x;
  k_mark : match mk with
           | None => True
           | Some (m, K) => 0 <= K < 2 ^ 32 /\ lim <= m /\ m + 216 <= top_line t /\ is_marker (w_buf w) t m K
           end;
  k_match : forall a d, p_off t <= a -> a + 16 <= p_off t + 3000 -> 0 <= d < 2 ^ 32 -> is_marker (w_buf w) t a d ->
            match mk with
            | None => False
            | Some (m, K) => a = m \/ (a < m /\ 1 <= u32 (K - d) /\ 216 * u32 (K - d) <= m - a)
            end }.

Lemma con_step mk lim t t' r w : con mk lim t (t' :: r) w -> w_sel w = false ->
  con mk lim t' r (mkW (move t t' (w_buf w)) (w_sel w) (w_frozen w) (w_mark w) (w_esc w) (moves t' r) (w_fail w) (w_log w)).
Proof.
  intros H Es. pose proof H as []. destruct k_seq0 as (O & G & S). pose proof (sequence_ok _ _ _ S) as O'. pose proof G as (G1 & G2 & G3). pose proof (goes_top _ _ G) as G4.
  pose proof O as (P1 & P2 & P3 & P4 & P5 & P6 & P7 & P8 & P9). pose proof O' as (Q1 & Q2 & Q3 & Q4 & Q5 & Q6 & Q7 & Q8 & Q9).
  assert (Cl : forall y x, 0 <= y < 3000 -> 0 <= x < bw -> clean_line mk (y + p_off t') -> b_cells (move t t' (w_buf w)) y x = p_text t' (y + p_off t') x).
  { intros y x Y X C. unfold move. cbn [b_cells]. destruct (y + p_off t' <? top_line t) eqn:E1; [|reflexivity].
    rewrite G3 by lia. unfold top_line in E1. rewrite k_clean0; [|lia|exact X|].
    - f_equal. lia.
    - replace (y + p_off t' - p_off t + p_off t) with (y + p_off t') by lia. exact C. }
  assert (Up : forall n, n < top_line t -> ch0 (move t t' (w_buf w)) t' n = ch0 (w_buf w) t n).
  { intros n N. unfold ch0, move. cbn [b_cells]. replace (n - p_off t' + p_off t') with n by lia. destruct (n <? top_line t) eqn:E1; [reflexivity|lia]. }
  assert (No : forall a d, p_off t' <= a -> a + 16 <= p_off t' + 3000 -> clean_line mk a -> is_marker (move t t' (w_buf w)) t' a d -> False).
  { intros a d A1 A2 A3 M. apply (Q9 a d). apply (proj2 (column_text (fun n => cl_ch (p_text t' n 0)) a d)). intros k K. rewrite <- (M k K). unfold ch0.
    rewrite Cl; [f_equal; f_equal; lia|lia|lia|]. unfold clean_line in *. destruct mk as [[m K']|]; [lia|exact I]. }
  constructor; cbn [w_env w_buf w_sel w_frozen]; auto.
  - inversion k_lim0; assumption.
  - intros y x. unfold move. cbn [b_cells]. destruct (_ <? _); [apply k_words0|apply Q8].
  - destruct mk as [[m K]|]; [|exact I]. destruct k_mark0 as (M1 & M2 & M3 & M4). splits; try lia. intros k Hk. rewrite Up by (unfold top_line in *; lia). apply M4. exact Hk.
  - intros a d A1 A2 A3 M. destruct mk as [[m K]|].
    + destruct k_mark0 as (M1 & M2 & M3 & M4). destruct (Z.le_gt_cases (m + 16) a) as [L|L]; [exfalso; apply (No a d); auto|].
      destruct (Z.le_gt_cases a m) as [L2|L2].
      * apply (k_match0 a d); [lia|unfold top_line in *; lia|exact A3|]. intros k Hk. rewrite <- Up by lia. apply M. exact Hk.
      * exfalso. specialize (M 0 ltac:(lia)). rewrite tk_zero in M. rewrite Up in M by lia. specialize (M4 (a - m) ltac:(lia)). replace (m + (a - m)) with (a + 0) in M4 by lia. rewrite M in M4.
        destruct (tk_facts K (a - m) ltac:(lia)) as (_ & X). specialize (X (eq_sym M4)). lia.
    + apply (No a d); auto.
Qed.
Lemma interfere_con mk lim t rest w : con mk lim t rest w ->
  exists t' rest', con mk lim t' rest' (interfere w) /\ aft t rest t' rest' /\ (w_sel w = true -> t' = t /\ rest' = rest).
Proof.
  intros H. unfold interfere. destruct (w_sel w) eqn:Es; [exists t, rest; splits; auto using aft_refl|].
  rewrite (k_env _ _ _ _ _ H). destruct rest as [|t' r]; cbn [moves].
  - exists t, []. splits; auto using aft_refl.
  - exists t', r. splits; [|apply aft_step; apply (k_seq _ _ _ _ _ H)|discriminate]. pose proof (con_step mk lim t t' r w H Es) as G. rewrite Es in G. exact G.
Qed.
Lemma con_sel mk lim t rest w : con mk lim t rest w -> w_sel (interfere w) = w_sel w.
Proof. intros _. apply interfere_sel_eq. Qed.
Lemma con_log mk lim t rest w q : con mk lim t rest w -> con mk lim t rest (with_log q w).
Proof. intros []. constructor; assumption. Qed.
Lemma con_reads mk lim t rest w rs : con mk lim t rest w -> con mk lim t rest (add_reads rs w).
Proof. intros []. constructor; assumption. Qed.
Lemma con_freeze mk lim t rest w : con mk lim t rest w -> con mk lim t rest (with_sel true true (w_esc w) w).
Proof. intros []. constructor; cbn; auto. Qed.
Lemma con_unfreeze mk lim t rest w : con mk lim t rest w -> con mk lim t rest (with_sel false false (w_esc w) w).
Proof. intros []. constructor; cbn; auto. Qed.

Lemma con_reading mk lim t rest w : con mk lim t rest w -> forall T B R, 0 <= T <= B -> B < 3000 -> 0 <= R < bw -> R < 2500 -> readable (w_buf w) (mkRect 0 T R B).
Proof. intros H T B R A1 A2 A3 A4. unfold readable. cbn [rLeft rTop rRight rBottom]. rewrite (k_w _ _ _ _ _ H), (k_h _ _ _ _ _ H). lia. Qed.
Lemma slice {A} (f : Z -> A) L i n rest : 0 <= i -> 0 <= n -> i + n <= L -> zfirstn n (zskipn i (map f (zseq 0 L) ++ rest)) = map f (zseq i n).
Proof.
  intros I N H. replace L with (i + (n + (L - i - n))) by lia. rewrite (zseq_app 0 i) by lia. rewrite (zseq_app (0 + i) n) by lia. rewrite !map_app, <- !app_assoc.
  rewrite zskipn_app_exact by (rewrite zlen_map, zlen_zseq; lia). rewrite zfirstn_app_exact by (rewrite zlen_map, zlen_zseq; lia). f_equal.
Qed.
Lemma zseq_shift f s n : map f (zseq s n) = map (fun k => f (s + k)) (zseq 0 n) :> list Z.
Proof. unfold zseq. rewrite !map_map. apply map_ext. intros k. f_equal. Qed.
Lemma raw_column b B : 0 <= B -> raw b (mkRect 0 0 0 B) = map (fun y => b_cells b y 0) (zseq 0 (B + 1)).
Proof.
  intros H. unfold raw, rows_of, cols_of. cbn [rLeft rTop rRight rBottom]. replace (B - 0 + 1) with (B + 1) by lia. change (zseq 0 (0 - 0 + 1)) with [0]. cbn [map].
  induction (zseq 0 (B + 1)) as [|y l IH]; [reflexivity|]. cbn. now rewrite IH.
Qed.
Lemma find_from_first marker column r : matches_at column r marker = true -> forall n i, (Z.to_nat (i - r) <= n)%nat -> r <= i ->
  (forall j, r < j <= i -> matches_at column j marker = false) -> find_from n column i marker = r.
Proof.
  intros M. induction n as [|n IH]; intros i N I H.
  - assert (i = r) by lia. subst i. cbn [find_from]. now rewrite M.
  - cbn [find_from]. destruct (Z.eq_dec i r) as [->|Ne]; [now rewrite M|]. rewrite H by lia. apply IH; [lia|lia|]. intros j J. apply H. lia.
Qed.
(** The marker is found where it is *)
Lemma find_con m K lim t rest s w : con (Some (m, K)) lim t rest w -> s_counter s = K -> s_scrolled s + s_syncRow s = m -> s_scrolled s <= p_off t -> 0 <= s_syncRow s <= 2984 ->
  done (findSyncMarker c s w) (fun '(row, w') => exists t' rest', con (Some (m, K)) lim t' rest' w' /\ aft t rest t' rest' /\ (w_sel w = true -> t' = t /\ rest' = rest) /\
    row = m - p_off t' /\ p_off t' <= m /\ w_sel w' = w_sel w).
Proof.
  intros H Hk Hm Hs Hr. destruct (interfere_con _ _ _ _ _ H) as (t' & rest' & H' & A & Fz).
  unfold findSyncMarker. apply done_assert; [lia|]. cbv zeta. unfold SYNC_MARKER_LEN. rewrite mk_spec by (unfold short; lia).
  replace (mkRect 0 0 (0 + 1 - 1) (0 + (s_syncRow s + 16) - 1)) with (mkRect 0 0 0 (s_syncRow s + 15)) by (f_equal; lia).
  pose proof (con_reading _ _ _ _ _ H' 0 (s_syncRow s + 15) 0 ltac:(lia) ltac:(lia) ltac:(lia) ltac:(lia)) as R.
  pose proof (Kc w) as Lj. unfold BUFFER_LINE_COUNT in Lj.
  assert (Cl : cells_in (mkRect 0 0 0 (s_syncRow s + 15)) = s_syncRow s + 16) by (unfold cells_in; cbn [rLeft rTop rRight rBottom]; lia).
  rewrite (@read_ok broken (c_new c) _ (c_junk c w) 0 w R) by lia. cbn [bind].
  rewrite raw_column by lia. set (b := w_buf (interfere w)) in *. unfold blit. rewrite zlen_map, zlen_zseq by lia. rewrite (zfirstn_neg 0) by lia. cbn [app].
  replace (s_syncRow s + 15 + 1) with (s_syncRow s + 16) by lia.
  set (col := map _ _ ++ _).
  assert (Lc : zlen col = 3000). { unfold col. rewrite zlen_app, zlen_map, zlen_zseq, zlen_zskipn by lia. lia. }
  destruct (zlen col <? s_syncRow s + 16) eqn:E1; [lia|]. cbn [done].
  destruct (k_mark _ _ _ _ _ H') as (M1 & M2 & M3 & M4). fold b in M4.
  assert (Lo : p_off t' <= m). { pose proof (k_lim _ _ _ _ _ H') as L. inversion L; subst. lia. }
  assert (Of : p_off t <= p_off t') by (destruct A as ((A1 & _) & _); lia).
  assert (Mt : forall i d, 0 <= i <= s_syncRow s -> matches_at col i (syncMarkerText d) = true <-> is_marker b t' (i + p_off t') d).
  { intros i d I. unfold matches_at, SYNC_MARKER_LEN, col. rewrite slice by lia. rewrite map_map, zseq_shift. rewrite list_eqb_eq.
    rewrite (column_text (fun y => cl_ch (b_cells b y 0)) i d). unfold is_marker, ch0. split; intros X k Kk; rewrite <- (X k Kk); do 2 f_equal; lia. }
  exists t', rest'. splits; auto.
  - apply con_log. exact H'.
  - rewrite Hk. apply find_from_first; try lia.
    + apply Mt; [lia|]. replace (m - p_off t' + p_off t') with m by lia. exact M4.
    + intros j J. destruct (matches_at col j (syncMarkerText K)) eqn:Em; [|reflexivity]. exfalso. apply Mt in Em; [|lia].
      pose proof (k_match _ _ _ _ _ H' (j + p_off t') K ltac:(lia) ltac:(lia) M1 Em) as X. cbv beta iota in X. lia.
  - cbn. apply interfere_sel_eq.
Qed.

Lemma u32_small v : 0 <= v < 2 ^ 32 -> u32 v = v.
Proof. intros H. unfold u32. apply wrapu_small. lia. Qed.
Lemma u32_next K d : 0 <= K < 2 ^ 32 -> 0 <= d < 2 ^ 32 -> 0 <= u32 (K - d) < 14 -> u32 (u32 (K + 1) - d) = u32 (K - d) + 1.
Proof.
  unfold u32, wrapu. change (2 ^ 32) with 4294967296. intros A B C. lia.
Qed.
Lemma u32_range v : 0 <= u32 v < 2 ^ 32.
Proof. unfold u32, wrapu. change (2 ^ 32) with 4294967296. apply Z.mod_pos_bound. lia. Qed.
Lemma text_znth n k : 0 <= k < 16 -> znth (map (fun ch => mkCell ch 7) (syncMarkerText n)) k = Some (mkCell (tk n k) 7).
Proof.
  intros H. unfold znth. destruct (k <? 0) eqn:E; [lia|]. rewrite nth_error_map. unfold tk. rewrite (nth_error_nth' _ 0); [reflexivity|]. rewrite text_len. lia.
Qed.
Lemma create_con mk lim t rest s w row : con mk lim t rest w -> w_sel w = true -> 1 <= row -> row + 216 <= rTop (p_win t) -> lim <= row + p_off t -> 0 <= s_counter s < 2 ^ 32 ->
  match mk with None => True | Some (m, K) => K = s_counter s /\ m + 216 <= row + p_off t end ->
  done (@createSyncMarker broken row s w) (fun '(s', w') => s' = st_sync row (u32 (s_counter s + 1)) s /\ con (Some (row + p_off t, u32 (s_counter s + 1))) lim t rest w' /\ w_sel w' = true).
Proof.
  intros H Es R1 R2 Hl Hc Hm. unfold createSyncMarker. apply done_assert; [lia|].
  set (K' := u32 (s_counter s + 1)). set (txt := map (fun ch => mkCell ch 7) (syncMarkerText K')).
  unfold bufferInfo. cbv zeta. rewrite (interfere_sel w Es).
  unfold write_col, clearLines. rewrite (interfere_sel w Es). cbv zeta. set (b := w_buf w) in *.
  set (b1 := Console.set_cells _ b). rewrite interfere_sel by exact Es. change (w_buf (with_buf b1 w)) with b1.
  unfold SYNC_MARKER_LEN in *. rewrite mk_spec by (pose proof (sequence_ok _ _ _ (k_seq _ _ _ _ _ H)) as (Q0 & Q1 & Q2 & Q3 & Q4 & _); unfold short; lia). cbn [rLeft rTop rBottom].
  set (b2 := Console.set_cells _ b1). cbn [done]. splits; [reflexivity| |exact Es].
  pose proof H as []. fold b in k_w0, k_h0, k_cp0, k_mode0, k_win0, k_cur0, k_vis0, k_words0, k_clean0, k_mark0, k_match0.
  pose proof (sequence_ok _ _ _ k_seq0) as (Q1 & Q2 & Q3 & Q4 & Q5 & Q6 & Q7 & Q8 & Q9).
  assert (C1 : forall y x, 0 <= x < bw -> b_cells b1 y x = if (row - 1 <=? y) && (y <? row + 16) then blankChar 7 else b_cells b y x).
  { intros y x X. unfold b1. cbn [Console.set_cells b_cells b_w info_of i_size co_x]. rewrite k_w0.
    replace (((row - 1) * bw <=? y * bw + x) && (y * bw + x <? (row - 1) * bw + bw * (16 + 1))) with ((row - 1 <=? y) && (y <? row + 16)); [reflexivity|].
    assert (A : (row - 1 <=? y) = ((row - 1) * bw <=? y * bw + x)). { destruct (row - 1 <=? y) eqn:E; symmetry; [apply Z.leb_le; nia|apply Z.leb_gt; nia]. }
    assert (B : (y <? row + 16) = (y * bw + x <? (row - 1) * bw + bw * (16 + 1))). { destruct (y <? row + 16) eqn:E; symmetry; [apply Z.ltb_lt; nia|apply Z.ltb_ge; nia]. }
    now rewrite A, B. }
  assert (C2 : forall y x, 0 <= x < bw -> (y < row - 1 \/ row + 16 <= y) -> b_cells b2 y x = b_cells b y x).
  { intros y x X Y. unfold b2. cbn [Console.set_cells b_cells]. destruct ((0 =? x) && (row <=? y) && (y <=? row + 16 - 1)) eqn:E; [lia|]. rewrite C1 by exact X. destruct ((row - 1 <=? y) && (y <? row + 16)) eqn:E2; [lia|reflexivity]. }
  assert (C3 : cl_ch (b_cells b2 (row - 1) 0) = 32).
  { unfold b2. cbn [Console.set_cells b_cells]. destruct ((0 =? 0) && (row <=? row - 1) && (row - 1 <=? row + 16 - 1)) eqn:E; [lia|]. rewrite C1 by lia. destruct ((row - 1 <=? row - 1) && (row - 1 <? row + 16)) eqn:E2; [reflexivity|lia]. }
  assert (C4 : forall k, 0 <= k < 16 -> cl_ch (b_cells b2 (row + k) 0) = tk K' k).
  { intros k Hk. unfold b2. cbn [Console.set_cells b_cells]. destruct ((0 =? 0) && (row <=? row + k) && (row + k <=? row + 16 - 1)) eqn:E; [|lia]. unfold txt. replace (row + k - row) with k by lia. rewrite text_znth by exact Hk. reflexivity. }
  assert (Cn : forall y x, 0 <= y < 3000 -> 0 <= x < bw -> row + 16 <= y -> b_cells b2 y x = p_text t (y + p_off t) x).
  { intros y x Y X A. rewrite C2 by lia. apply k_clean0; auto. destruct mk as [[m K]|]; cbn; [lia|exact I]. }
  constructor; cbn [w_env w_buf with_buf w_sel w_frozen]; auto.
  - intros y x. unfold b2. cbn [Console.set_cells b_cells].
    assert (W1 : 0 <= cl_attr (b_cells b1 y x) < 65536). { unfold b1. cbn [Console.set_cells b_cells]. destruct (_ && _); [cbn; lia|apply k_words0]. }
    destruct (_ && _ && _); [|exact W1]. destruct (znth txt (y - row)) as [cl|] eqn:Ez; [|exact W1].
    unfold txt, znth in Ez. destruct (y - row <? 0); [discriminate|]. apply nth_error_In in Ez. apply in_map_iff in Ez as (ch & <- & _). cbn. lia.
  - intros y x Y X A. unfold clean_line in A. apply Cn; auto. lia.
  - splits; try apply u32_range; [exact Hl|unfold top_line; lia|]. intros k Hk. unfold ch0. replace (row + p_off t + k - p_off t) with (row + k) by lia. apply C4. exact Hk.
  - intros a d A1 A2 A3 M. set (m' := row + p_off t).
    assert (Hm' : m' = row + p_off t) by reflexivity. clearbody m'.
    destruct (Z.le_gt_cases (m' + 16) a) as [L|L].
    { exfalso. apply (Q9 a d). apply (proj2 (column_text (fun n => cl_ch (p_text t n 0)) a d)). intros k K. rewrite <- (M k K). unfold ch0. rewrite Cn by lia. do 2 f_equal. lia. }
    destruct (Z.lt_total a m') as [L2|[L2|L2]]; [|left; exact L2|].
    + destruct (Z.le_gt_cases (m' - 16) a) as [L3|L3].
      { exfalso. specialize (M (m' - 1 - a) ltac:(lia)). unfold ch0 in M. replace (a + (m' - 1 - a) - p_off t) with (row - 1) in M by lia. rewrite C3 in M. destruct (tk_facts d (m' - 1 - a) ltac:(lia)) as (X & _). congruence. }
      assert (Old : is_marker b t a d). { intros k K. rewrite <- (M k K). unfold ch0. rewrite C2 by lia. reflexivity. }
      pose proof (k_match0 a d A1 A2 A3 Old) as X. destruct mk as [[m K]|]; [|contradiction]. destruct Hm as (-> & Hm). destruct k_mark0 as (M1 & M2 & M3 & M4).
      right. destruct X as [->|(X1 & X2 & X3)].
      * assert (d = s_counter s) as ->.
        { apply text_inj; auto. rewrite <- (proj2 (column_text (ch0 b t) m d) Old). apply (proj2 (column_text (ch0 b t) m (s_counter s)) M4). }
        assert (E0 : u32 (s_counter s - s_counter s) = 0) by (rewrite Z.sub_diag; reflexivity).
        unfold K'. rewrite u32_next by lia. lia.
      * assert (0 <= u32 (s_counter s - d) < 14) as Y. { pose proof (u32_range (s_counter s - d)). unfold top_line in M3. lia. }
        unfold K'. rewrite u32_next by lia. lia.
    + exfalso. specialize (M 0 ltac:(lia)). rewrite tk_zero in M. unfold ch0 in M. replace (a + 0 - p_off t) with (row + (a - m')) in M by lia. rewrite C4 in M by lia. destruct (tk_facts K' (a - m') ltac:(lia)) as (_ & X). specialize (X M). lia.
Qed.

(** *** What is sent *)
Lemma last_sent_app a b n : last_sent (a ++ b) n = match last_sent b n with Some d => Some d | None => last_sent a n end.
Proof.
  induction a as [|o a IH]; cbn [last_sent app]; [destruct (last_sent b n); reflexivity|]. rewrite IH. destruct (last_sent b n); [reflexivity|]. reflexivity.
Qed.
Fixpoint next_after (next : Z) (ops : list top) : Z :=
  match ops with [] => next | TSend n _ _ :: r => next_after (Z.max next (n + 1)) r | _ :: r => next_after next r end.
Lemma consecutive_app x a : forall next b, consecutive x next (a ++ b) <-> consecutive x next a /\ consecutive x (next_after next a) b.
Proof. induction a as [|[]]; intros next b; cbn [consecutive next_after app]; rewrite ?IHa; tauto. Qed.
Lemma next_app a : forall next b, next_after next (a ++ b) = next_after (next_after next a) b.
Proof. induction a as [|[]]; intros next b; cbn [next_after app]; auto. Qed.

Notation W := (Z.min bw 2500).
Notation mask := (kept_bits (c_new c) cp mode).
Lemma content_len m wd t n : 0 <= wd -> zlen (content m wd t n) = wd.
Proof. intros H. unfold content. rewrite zlen_map. apply zlen_zseq. exact H. Qed.

Definition src (seen : screen -> Prop) (o : top) : Prop :=
  match o with TSend n d _ => exists t, seen t /\ d = content mask W t n | _ => True end.
Record tab (out0 : list top) (x : Z) (seen : screen -> Prop) (out : list top) (s : sst) : Prop := {
  t_out : s_out s = out0 ++ out;
  t_len : zlen (s_lines s) = 3000;
  t_max : -1 <= s_maxBuf s;
  t_none : forall n, n < x \/ s_maxBuf s < n -> last_sent out n = None;
  t_slot : forall n, x <= n <= s_maxBuf s -> s_maxBuf s - 3000 < n ->
           exists l, znth (s_lines s) (n mod 3000) = Some l /\ prevLength l = W /\ W <= zlen (prevData l) /\ last_sent out n = Some (zfirstn W (prevData l));
  t_cons : consecutive x x out;
  t_next : next_after x out = Z.max x (s_maxBuf s + 1);
  t_src : Forall (src seen) out }.
(** Neither the line table nor the output *)
Definition same_rest (s s' : sst) : Prop :=
  s_syncRow s' = s_syncRow s /\ s_counter s' = s_counter s /\ s_direct s' = s_direct s /\ s_pty s' = s_pty s /\ s_scraped s' = s_scraped s /\ s_scrolled s' = s_scrolled s /\
  s_read s' = s_read s /\ s_dirtyTop s' = s_dirtyTop s /\ s_dirty s' = s_dirty s.
Definition line_set (l : cline) (d : list cell) : Prop := prevLength l = W /\ W <= zlen (prevData l) /\ zfirstn W (prevData l) = d.
Lemma setLine_done {E} l d rest : zlen d = W -> done (@setLine E l (d ++ rest) W) (fun l' => line_set l' d).
Proof.
  intros Hd. unfold setLine. pose proof (zlen_nonneg rest). rewrite zlen_app. destruct (zlen d + zlen rest <? W) eqn:E1; [lia|]. cbn [done]. unfold line_set. cbn [prevLength prevData].
  rewrite (zfirstn_app_exact d rest W) by lia. splits; auto.
  - rewrite zlen_app. pose proof (zlen_nonneg (zskipn W (prevData l))). lia.
  - rewrite zfirstn_app_exact by lia. reflexivity.
Qed.
Lemma detect_done {E} l d0 d rest : zlen d = W -> line_set l d0 -> done (@detectChangeAndSetLine E l (d ++ rest) W) (fun '(b, l') => line_set l' d /\ (b = false -> d0 = d) /\ (d0 = d -> b = false)).
Proof.
  intros Hd (L1 & L2 & L3). unfold detectChangeAndSetLine. rewrite L1. apply done_assert; [lia|]. apply done_assert; [lia|]. rewrite Z.eqb_refl.
  pose proof (zlen_nonneg rest). rewrite areLinesEqual_spec; [|lia|rewrite zlen_app; lia]. cbn [bind]. rewrite (zfirstn_app_exact d rest W), L3 by lia.
  destruct (cells_eqb d0 d) eqn:Ee.
  - apply cells_eqb_eq in Ee. subst d0. cbn [done]. unfold line_set. splits; auto.
  - eapply done_bind; [apply (setLine_done l d rest Hd)|]. intros l' Hl. cbn [done]. splits; auto; try discriminate. intros ->. rewrite (proj2 (cells_eqb_eq d d) eq_refl) in Ee. discriminate.
Qed.
Lemma slot_ne a b m : m - 3000 < a <= m -> m - 3000 < b <= m -> a <> b -> a mod 3000 <> b mod 3000.
Proof. intros A B N. lia. Qed.

Lemma rest_refl s : same_rest s s.
Proof. unfold same_rest. splits; reflexivity. Qed.
Lemma rest_trans a b d : same_rest a b -> same_rest b d -> same_rest a d.
Proof. unfold same_rest. intros (? & ? & ? & ? & ? & ? & ? & ? & ?) (? & ? & ? & ? & ? & ? & ? & ? & ?). splits; congruence. Qed.
(** The table after one line has been set to [d] *)
Lemma tab_set out0 x (seen : screen -> Prop) out s line l d ls : 0 <= x -> tab out0 x seen out s -> x <= line <= Z.max x (s_maxBuf s + 1) -> s_maxBuf s - 3000 < line -> line_set l d ->
  zupd (s_lines s) (line mod 3000) l = Some ls -> (exists t, seen t /\ d = content mask W t line) ->
  let s1 := st_lines (Z.max (s_maxBuf s) line) ls s in
  (forall cc, tab out0 x seen (out ++ [TSend line d cc]) (emit (TSend line d cc) s1)) /\
  (last_sent out line = Some d -> tab out0 x seen out s1).
Proof.
  intros X T L1 L2 (S1 & S2 & S3) U Sr s1. pose proof T as [].
  destruct (zupd_some (s_lines s) (line mod 3000) l) as (ls' & E1 & E2 & E4); [lia|]. rewrite U in E1. injection E1 as <-.
  assert (Slot : forall out' : list top, last_sent out' line = Some d -> (forall n, n <> line -> last_sent out' n = last_sent out n) ->
     forall n, x <= n <= Z.max (s_maxBuf s) line -> Z.max (s_maxBuf s) line - 3000 < n ->
     exists l, znth ls (n mod 3000) = Some l /\ prevLength l = W /\ W <= zlen (prevData l) /\ last_sent out' n = Some (zfirstn W (prevData l))).
  { intros out' O1 O2 n N1 N2. destruct (Z.eq_dec n line) as [->|Ne].
    - exists l. rewrite E4, Z.eqb_refl. splits; auto. rewrite O1, S3. reflexivity.
    - assert (n mod 3000 <> line mod 3000) as Nm by (apply (slot_ne n line (Z.max (s_maxBuf s) line)); lia).
      rewrite E4. destruct (n mod 3000 =? line mod 3000) eqn:Eq; [lia|]. rewrite O2 by exact Ne. apply t_slot0; lia. }
  split.
  - intros cc.
    assert (O1 : last_sent (out ++ [TSend line d cc]) line = Some d) by (rewrite last_sent_app; cbn; now rewrite Z.eqb_refl).
    assert (O2 : forall n, n <> line -> last_sent (out ++ [TSend line d cc]) n = last_sent out n).
    { intros n N. rewrite last_sent_app. cbn. destruct (line =? n) eqn:E; [lia|reflexivity]. }
    constructor; cbn [emit s1 st_lines s_out s_lines s_maxBuf].
    + rewrite t_out0. now rewrite app_assoc.
    + lia.
    + lia.
    + intros n N. rewrite O2 by lia. apply t_none0. lia.
    + apply Slot; auto.
    + apply consecutive_app. split; [exact t_cons0|]. rewrite t_next0. cbn. lia.
    + rewrite next_app, t_next0. cbn. lia.
    + apply Forall_app. split; [exact t_src0|]. constructor; [exact Sr|constructor].
  - intros O1. constructor; cbn [s1 st_lines s_out s_lines s_maxBuf]; auto.
    + lia.
    + lia.
    + intros n N. apply t_none0. lia.
    + rewrite t_next0. destruct (Z.le_gt_cases line (s_maxBuf s)); [lia|]. rewrite t_none0 in O1 by lia. discriminate.
Qed.
(** Lines sent in order, each at most once, from [lo] on and below [hi] *)
Fixpoint upward (lo hi : Z) (ops : list top) : Prop :=
  match ops with [] => True | TSend k _ _ :: r => lo <= k < hi /\ upward (k + 1) hi r | _ :: _ => False end.
Lemma upward_weak hi hi' : hi <= hi' -> forall ops lo lo', lo' <= lo -> upward lo hi ops -> upward lo' hi' ops.
Proof. intros H. induction ops as [|[] r IH]; intros lo lo' L; cbn [upward]; auto. intros (A & B). split; [lia|]. apply (IH (line + 1)); [lia|exact B]. Qed.
Lemma send_lines_done out0 x (seen : screen -> Prop) wd cl cc t : 0 <= x -> seen t -> wd = W -> forall n line saw out s, tab out0 x seen out s ->
  x <= line <= Z.max x (s_maxBuf s + 1) -> s_maxBuf s - 3000 < line ->
  (forall k, line <= k < line + Z.of_nat n -> exists rest, @lineData broken (s_read s) (k - s_scrolled s) = Ok (content mask W t k ++ rest)) ->
  done (@send_lines broken n line wd cl cc saw s) (fun s' => exists new, tab out0 x seen (out ++ new) s' /\ same_rest s s' /\
    (forall k, line <= k < line + Z.of_nat n -> last_sent (out ++ new) k = Some (content mask W t k)) /\
    (forall k, k < line \/ line + Z.of_nat n <= k -> last_sent (out ++ new) k = last_sent out k) /\
    s_maxBuf s' = Z.max (s_maxBuf s) (if n then -1 else line + Z.of_nat n - 1) /\
    (forall k d col, In (TSend k d col) new -> line <= k < line + Z.of_nat n /\ d = content mask W t k /\ (saw = true \/ exists k', line <= k' <= k /\ last_sent out k' <> Some (content mask W t k'))) /\
    upward line (line + Z.of_nat n) new).
Proof.
  intros X Sn ->. induction n as [|n IH]; intros line saw out s T L1 L2 R; cbn [send_lines].
  { cbn [done]. exists []. rewrite app_nil_r. splits; auto using rest_refl; try (intros; lia); try (intros ? ? ? []); try exact I.
    pose proof (t_max _ _ _ _ _ T). lia. }
  destruct (R line ltac:(lia)) as (rest & Rl). rewrite Rl. cbn [bind]. set (d := content mask W t line).
  assert (Ld : zlen d = W) by (apply content_len; lia).
  assert (Rm : Z.rem line BUFFER_LINE_COUNT = line mod 3000) by (unfold BUFFER_LINE_COUNT; apply Z.rem_mod_nonneg; lia). rewrite Rm.
  pose proof (t_len _ _ _ _ _ T) as Tl.
  unfold Scraper.line_at. destruct (znth (s_lines s) (line mod 3000)) as [bl|] eqn:Ebl; [|apply znth_none_inv in Ebl; lia]. cbn [bind]. cbv zeta.
  apply done_bind with (P := fun '(saw', bl') => line_set bl' d /\ (saw' = false -> last_sent out line = Some d) /\ (saw' = true -> saw = true \/ last_sent out line <> Some d)).
  { destruct (saw || (s_maxBuf s <? line)) eqn:Es.
    - eapply done_bind; [apply (setLine_done bl d rest Ld)|]. intros l' Hl. cbn [done]. splits; auto; [discriminate|]. intros _.
      destruct saw; [left; reflexivity|]. right. rewrite (t_none _ _ _ _ _ T) by lia. discriminate.
    - destruct (t_slot _ _ _ _ _ T line ltac:(lia) L2) as (l0 & Z1 & Z2 & Z3 & Z4). rewrite Ebl in Z1. injection Z1 as <-.
      eapply done_weak; [apply (detect_done bl (zfirstn W (prevData bl)) d rest Ld); unfold line_set; auto|]. intros [b l'] (D1 & D2 & D3).
      rewrite Z4. splits; auto.
      + intros ->. now rewrite D2.
      + intros Hb. right. intros Q. injection Q as Q. rewrite (D3 Q) in Hb. discriminate. }
  intros [saw' bl'] (B1 & B2 & B3). unfold set_line.
  destruct (zupd_some (s_lines s) (line mod 3000) bl') as (ls & U1 & U2 & U4); [lia|]. rewrite U1. cbn [bind].
  destruct (tab_set out0 x seen out s line bl' d ls X T L1 L2 B1 U1) as (G1 & G2); [exists t; split; auto|].
  set (s1 := st_lines (Z.max (s_maxBuf s) line) ls s) in *.
  apply done_bind with (P := fun s2 => exists new1, (new1 = [] \/ exists col, saw' = true /\ new1 = [TSend line d col]) /\ tab out0 x seen (out ++ new1) s2 /\ same_rest s s2 /\ s_maxBuf s2 = Z.max (s_maxBuf s) line /\
     last_sent (out ++ new1) line = Some d).
  { destruct saw'.
    - pose proof (zlen_nonneg rest). rewrite zlen_app. destruct (zlen d + zlen rest <? W) eqn:E1; [lia|]. cbn [done]. rewrite (zfirstn_app_exact d rest W) by lia.
      exists [TSend line d (if line =? cl then cc else -1)]. splits; auto.
      + right. eauto.
      + unfold same_rest. splits; reflexivity.
      + rewrite last_sent_app. cbn. now rewrite Z.eqb_refl.
    - cbn [done]. exists []. rewrite app_nil_r. specialize (B2 eq_refl). splits; auto. unfold same_rest. splits; reflexivity. }
  intros s2 (new1 & N1 & T2 & R2 & M2 & O2).
  assert (Oth : forall k, k <> line -> last_sent (out ++ new1) k = last_sent out k).
  { intros k Nk. destruct N1 as [->|(col & _ & ->)]; [now rewrite app_nil_r|]. rewrite last_sent_app. cbn. destruct (line =? k) eqn:E; [lia|reflexivity]. }
  pose proof R2 as (Q1 & Q2 & Q3 & Q4 & Q5 & Q6 & Q7 & Q8 & Q9).
  eapply done_weak; [apply (IH (line + 1) saw' (out ++ new1) s2 T2); [lia|lia|]|].
  { intros k Hk. rewrite Q6, Q7. apply R. lia. }
  intros s3 (new2 & T3 & R3 & A1 & A2 & A3 & A4 & A5). exists (new1 ++ new2). rewrite app_assoc. splits; auto.
  - eapply rest_trans; eauto.
  - intros k Hk. destruct (Z.eq_dec k line) as [->|Nk]; [rewrite A2 by lia; exact O2|]. apply A1. lia.
  - intros k Hk. rewrite A2 by lia. apply Oth. lia.
  - rewrite A3, M2. destruct n; lia.
  - intros k dk col I. apply in_app_iff in I as [I|I].
    + destruct N1 as [->|(col' & Sw & ->)]; [contradiction|]. destruct I as [E|[]]. injection E as -> <- _. split; [lia|]. split; [reflexivity|]. destruct (B3 Sw) as [B|B]; [auto|]. right. exists k. split; [lia|exact B].
    + destruct (A4 k dk col I) as (K1 & Kd & K2). split; [lia|]. split; [exact Kd|]. destruct K2 as [Sw|(k' & K2 & K3)].
      * destruct (B3 Sw) as [B|B]; [auto|]. right. exists line. split; [lia|exact B].
      * right. exists k'. split; [lia|]. rewrite Oth in K3 by lia. exact K3.
  - destruct N1 as [->|(col' & _ & ->)]; cbn [app upward]; [|split; [lia|]]; (eapply upward_weak; [|idtac|exact A5]); lia.
Qed.

(** *** Reading *)
Definition blank_cells (d : list cell) : Prop := Forall (fun cl => cl_ch cl = 32) d.
Lemma line_clean wd d rest attr : zlen d = wd -> line_dirty wd (d ++ rest) attr = false -> blank_cells d.
Proof.
  intros L. unfold line_dirty. rewrite (zfirstn_app_exact d rest wd) by lia. clear L. unfold blank_cells.
  induction d as [|q d IH]; intros H; constructor; cbn [existsb] in H; apply Bool.orb_false_iff in H as (H1 & H2); [lia|auto].
Qed.
Lemma scan_loop_done area r (row : Z -> list cell) wd : lr_rect r = area -> rWidth area = wd -> 1 <= wd -> forall n line attr dirty,
  (forall y, line <= y < line + Z.of_nat n -> zlen (row y) = wd /\ exists rest, @lineData broken r y = Ok (row y ++ rest)) -> dirty <= line ->
  done (@scan_loop broken n r line attr dirty) (fun d => dirty <= d <= line + Z.of_nat n /\ forall y, Z.max line d <= y < line + Z.of_nat n -> blank_cells (row y)).
Proof.
  intros R1 R2 Wd. induction n as [|n IH]; intros line attr dirty H D; cbn [scan_loop]; [cbn [done]; split; [lia|intros; lia]|].
  destruct (H line ltac:(lia)) as (L & rest & Hl). rewrite Hl, R1, R2. cbn [bind]. cbv zeta.
  destruct (znth (row line ++ rest) (wd - 1)) as [q|] eqn:Eq; [|apply znth_none_inv in Eq; rewrite zlen_app in Eq; pose proof (zlen_nonneg rest); lia].
  assert (H' : forall y, line + 1 <= y < line + 1 + Z.of_nat n -> zlen (row y) = wd /\ exists rest, @lineData broken r y = Ok (row y ++ rest)) by (intros y Y; apply H; lia).
  destruct (line_dirty wd (row line ++ rest) attr) eqn:Ed.
  - eapply done_weak; [apply (IH (line + 1) _ (line + 1) H'); lia|]. intros d (D1 & D2). split; [lia|]. intros y Y. apply D2. lia.
  - eapply done_weak; [apply (IH (line + 1) _ dirty H'); lia|]. intros d (D1 & D2). split; [lia|]. intros y Y.
    destruct (Z.eq_dec y line) as [->|N]; [eapply line_clean; eauto|]. apply D2. lia.
Qed.
Lemma scan_done area (row : Z -> list cell) win s : lr_rect (s_read s) = area -> rWidth area = W ->
  (forall y, rTop area <= y <= rBottom area -> zlen (row y) = W /\ exists rest, @lineData broken (s_read s) y = Ok (row y ++ rest)) ->
  1 <= s_dirty s -> rTop area <= s_dirty s - 1 <= rBottom area -> windowStop win <= rBottom area + 1 ->
  done (@scanForDirtyLines broken win s) (fun s' => exists d, s' = st_dirty d s /\ s_dirty s <= d <= Z.max (s_dirty s) (windowStop win) /\
    forall y, d <= y < windowStop win -> blank_cells (row y)).
Proof.
  intros R1 R2 R3 D1 D2 D3. unfold scanForDirtyLines. apply done_assert; [lia|]. destruct (R3 (s_dirty s - 1) ltac:(lia)) as (L & rest & Hl). rewrite Hl, R1, R2. cbn [bind].
  destruct (znth (row (s_dirty s - 1) ++ rest) (W - 1)) as [q|] eqn:Eq; [|apply znth_none_inv in Eq; rewrite zlen_app in Eq; pose proof (zlen_nonneg rest); lia].
  eapply done_bind; [apply (scan_loop_done area (s_read s) row W R1 R2); [lia| |lia]|].
  - intros y Y. apply R3. lia.
  - intros d (E1 & E2). cbn [done]. exists d. splits; auto; [lia|lia|]. intros y Y. apply E2. lia.
Qed.
Lemma mask_value mk lim t rest w : con mk lim t rest w ->
  exists t' rest', fst (attributesMask c w) = mask /\ con mk lim t' rest' (snd (attributesMask c w)) /\ aft t rest t' rest' /\ (w_sel w = true -> t' = t /\ rest' = rest) /\ w_sel (snd (attributesMask c w)) = w_sel w.
Proof.
  intros H. destruct (interfere_con _ _ _ _ _ H) as (t1 & r1 & H1 & A1 & F1). destruct (interfere_con _ _ _ _ _ H1) as (t2 & r2 & H2 & A2 & F2).
  exists t2, r2. unfold attributesMask. cbn [fst snd]. splits; auto.
  - rewrite (k_cp _ _ _ _ _ H1), (k_mode _ _ _ _ _ H2). unfold kept_bits.
    destruct ((cp =? 932) || (cp =? 936) || (cp =? 949) || (cp =? 950) || Z.testbit mode 4 || Z.testbit mode 2); cbn [orb]; [reflexivity|]. destruct (c_new c); reflexivity.
  - eapply aft_trans; eauto.
  - intros S. destruct (F1 S) as (-> & ->). apply F2. rewrite interfere_sel_eq. exact S.
  - rewrite !interfere_sel_eq. reflexivity.
Qed.
(** What is read is what the programs display, below the marker *)
Lemma read_con mk lim t rest w l fr sr : con mk lim t rest w -> (c_new c = true \/ w_sel w = true) -> 0 <= fr < sr -> sr <= 3000 ->
  done (@largeConsoleRead broken (c_new c) (c_w8 c) (mkRect 0 fr (W - 1) (sr - 1)) mask l w) (fun '(r, w') => exists t' rest' row,
    con mk lim t' rest' w' /\ aft t rest t' rest' /\ (w_sel w = true -> t' = t /\ rest' = rest) /\ w_sel w' = w_sel w /\
    lr_rect r = mkRect 0 fr (W - 1) (sr - 1) /\
    (forall y, fr <= y <= sr - 1 -> zlen (row y) = W /\ exists rest, @lineData broken r y = Ok (row y ++ rest)) /\
    (forall y, fr <= y <= sr - 1 -> clean_line mk (y + p_off t') -> row y = content mask W t' (y + p_off t'))).
Proof.
  intros H Sf F1 F2. destruct (interfere_con _ _ _ _ _ H) as (t' & rest' & H' & A & Fz).
  set (area := mkRect 0 fr (W - 1) (sr - 1)).
  assert (R : readable (w_buf (interfere w)) area) by (apply (con_reading _ _ _ _ _ H'); lia).
  destruct (@large_read broken (c_new c) (c_w8 c) area mask l w R (k_words _ _ _ _ _ H')) as (d & rs & G1 & G2 & G3 & _).
  { intros E8. destruct Sf as [Sf|Sf]; [rewrite (Kn Sf) in E8; discriminate|exact Sf]. }
  rewrite G1. cbn [done]. exists t', rest', (expected_row (w_buf (interfere w)) mask area). splits; auto.
  - apply con_reads. exact H'.
  - cbn. apply interfere_sel_eq.
  - intros y Y. split; [rewrite expected_row_len by (unfold area; cbn [rLeft rRight]; lia); unfold area; cbn [rLeft rRight]; lia|].
    destruct (@LargeReadProofs.line_at broken (w_buf (interfere w)) mask area d y R G2 G3) as (q & Q); [unfold area; cbn [rTop rBottom]; lia|]. exists q. exact Q.
  - intros y Y C. unfold expected_row, content, cols_of, area. cbn [rLeft rRight]. replace (W - 1 - 0 + 1) with W by lia. apply map_ext_in. intros x X. apply LargeReadProofs.zseq_in in X.
    rewrite (k_clean _ _ _ _ _ H') by (auto; lia). reflexivity.
Qed.

(** *** The scraper *)
Record scr (out0 : list top) (x : Z) (seen : screen -> Prop) (mk : option (Z * Z)) (lim : Z) (out : list top) (t : screen) (s : sst) : Prop := {
  r_tab : tab out0 x seen out s;
  r_direct : s_direct s = false;
  r_x : 0 <= x <= s_scraped s;
  r_next : s_scraped s <= Z.max x (s_maxBuf s + 1);
  r_dirty : 0 <= s_dirty s <= 3000;
  r_used : s_maxBuf s + 1 <= s_dirty s + s_scrolled s;
  r_dtop : s_dirtyTop s <= rTop (p_win t);
  r_scrolled : 0 <= s_scrolled s <= p_off t;
  r_counter : 0 <= s_counter s < 2 ^ 32;
  r_lim : lim <= s_scraped s;
  r_mark : match mk with
           | None => s_syncRow s = -1 /\ lim = s_scrolled s
           | Some (m, K) => s_counter s = K /\ s_scrolled s + s_syncRow s = m /\ 0 <= s_syncRow s <= 2984 /\ m + 216 <= s_scraped s
           end;
  r_reach : s_scraped s <= top_line t;
  r_final : forall n, x <= n < s_scraped s -> last_sent out n = Some (content mask W t n) }.
Lemma content_goes t t' n : goes_to t t' -> n < top_line t -> content mask W t' n = content mask W t n.
Proof. intros (_ & _ & G) H. unfold content. apply map_ext. intros x. now rewrite G. Qed.
Lemma scr_goes out0 x seen mk lim out t t' s : scr out0 x seen mk lim out t s -> goes_to t t' -> scr out0 x seen mk lim out t' s.
Proof.
  intros [] G. pose proof (goes_top _ _ G) as G'. pose proof G as (G1 & G2 & _). constructor; auto; try lia.
  intros n N. rewrite (content_goes t t' n G) by lia. auto.
Qed.
(** The marker is found again *)
Lemma marker_con out0 x seen mk lim out t rest s w win tent : con mk lim t rest w -> scr out0 x seen mk lim out t s -> 0 <= windowStop win <= 3000 ->
  done (scroll_marker c win tent s w) (fun '(go, s', w') => go = true /\ exists t' rest', con mk lim t' rest' w' /\ aft t rest t' rest' /\ (w_sel w = true -> t' = t /\ rest' = rest) /\ w_sel w' = w_sel w /\
    scr out0 x seen mk lim out t' s' /\ s_scrolled s' = p_off t' /\ s_scraped s' = s_scraped s /\ s_dirtyTop s' = s_dirtyTop s).
Proof.
  intros H V Ww. pose proof V as []. unfold scroll_marker. pose proof (k_lim _ _ _ _ _ H) as Li. inversion Li as [|? ? L0 _]; subst. destruct mk as [[m K]|].
  - destruct r_mark0 as (M1 & M2 & M3 & M4). destruct (s_syncRow s =? -1) eqn:E1; [lia|].
    eapply done_bind; [apply (find_con m K lim t rest s w); auto; lia|]. intros [row w'] (t' & rest' & H' & A & Fz & Er & Lo & Sl).
    pose proof A as (G & _). pose proof G as (G1 & G2 & _). pose proof (scr_goes _ _ _ _ _ _ _ t' _ V G) as V'. destruct (row =? -1) eqn:E2; [lia|].
    destruct (negb (row =? s_syncRow s)) eqn:E3.
    + apply done_assert; [lia|]. unfold assume. rewrite Ks. cbn [andb bind done]. split; [reflexivity|]. exists t', rest'. splits; auto.
      * destruct V'. constructor; cbn [markEntireWindowDirty st_dirty st_sync st_scrolled s_direct s_scraped s_maxBuf s_dirty s_scrolled s_dirtyTop s_counter s_syncRow]; auto; try lia.
        -- destruct r_tab1. constructor; assumption.
      * cbn. lia.
    + cbn [done]. split; [reflexivity|]. exists t', rest'. splits; auto. lia.
  - destruct r_mark0 as (M1 & M2). destruct (s_syncRow s =? -1) eqn:E1; [|lia]. cbn [done]. split; [reflexivity|]. exists t, rest. splits; auto using aft_refl. lia.
Qed.
Lemma dirty_con out0 x seen mk lim out t s win cur tent : scr out0 x seen mk lim out t s -> 0 <= rTop win -> s_dirtyTop s <= rTop win -> rTop win <= rTop (p_win t) -> rTop win < 3000 -> windowStop win <= 3000 -> 0 <= co_y cur < 3000 ->
  exists s', scroll_dirty win cur tent s = (true, s') /\ scr out0 x seen mk lim out t s' /\ s_scrolled s' = s_scrolled s /\ s_scraped s' = s_scraped s /\ s_syncRow s' = s_syncRow s /\ s_dirtyTop s' = rTop win /\
    1 <= s_dirty s' /\ rTop win <= s_dirty s'.
Proof.
  intros V T0 T1 T2 T3 T4 C. unfold scroll_dirty.
  assert (G : forall d, s_dirty s <= d <= 3000 -> let s1 := st_top (rTop win) (st_dirty d s) in
     let s' := st_dirty (Z.max (Z.max (s_dirty s1) (co_y cur + 1)) (rTop win)) s1 in
     scr out0 x seen mk lim out t s' /\ s_scrolled s' = s_scrolled s /\ s_scraped s' = s_scraped s /\ s_syncRow s' = s_syncRow s /\ s_dirtyTop s' = rTop win /\ 1 <= s_dirty s' /\ rTop win <= s_dirty s').
  { intros d D. cbv zeta. cbn [st_top st_dirty s_scrolled s_scraped s_syncRow s_dirtyTop s_dirty]. splits; auto; try lia.
    destruct V. constructor; cbn [st_top st_dirty s_direct s_scraped s_maxBuf s_dirty s_scrolled s_dirtyTop s_counter s_syncRow]; auto; try lia.
    destruct r_tab0. constructor; assumption. }
  destruct (negb (s_dirtyTop s =? -1)) eqn:E1; [destruct (s_dirtyTop s <? rTop win) eqn:E2; [|destruct (rTop win <? s_dirtyTop s) eqn:E3; [lia|]]|]; cbn [negb]; eexists; (split; [reflexivity|]).
  - apply (G (Z.max (s_dirty s) (windowStop win))). destruct V. lia.
  - apply (G (s_dirty s)). destruct V. lia.
  - apply (G (s_dirty s)). destruct V. lia.
Qed.

Lemma tab_emit out0 x seen out s o : tab out0 x seen out s -> match o with TShow _ _ | THide => True | _ => False end -> tab out0 x seen (out ++ [o]) (emit o s).
Proof.
  intros [] H. assert (L : forall n, last_sent (out ++ [o]) n = last_sent out n) by (intros n; rewrite last_sent_app; cbn; destruct o; try contradiction; reflexivity).
  constructor; cbn [emit s_out s_lines s_maxBuf]; auto.
  - rewrite t_out0. now rewrite app_assoc.
  - intros n N. rewrite L. auto.
  - intros n N1 N2. rewrite L. auto.
  - apply consecutive_app. split; [exact t_cons0|]. destruct o; try contradiction; exact I.
  - rewrite next_app. rewrite t_next0. destruct o; try contradiction; reflexivity.
  - apply Forall_app. split; [exact t_src0|]. constructor; [|constructor]. destruct o; try contradiction; exact I.
Qed.
Lemma tab_fields out0 x seen out s s' : tab out0 x seen out s -> s_out s' = s_out s -> s_lines s' = s_lines s -> s_maxBuf s' = s_maxBuf s -> tab out0 x seen out s'.
Proof. intros [] A B C. constructor; rewrite ?A, ?B, ?C; auto. Qed.
Lemma check_con out0 x seen mk lim out t rest s w info : con mk lim t rest w -> scr out0 x seen mk lim out t s ->
  done (scroll_check c info s w) (fun '(same, w') => exists t' rest', con mk lim t' rest' w' /\ aft t rest t' rest' /\ w_sel w' = w_sel w /\
    (same = true -> p_off t' = s_scrolled s /\ exists t3, goes_to t t3 /\ goes_to t3 t' /\ rTop (p_win t3) = rTop (i_win info))).
Proof.
  intros H V. unfold scroll_check, bufferInfo. cbv zeta. destruct (interfere_con _ _ _ _ _ H) as (t1 & r1 & H1 & A1 & F1). pose proof A1 as (G1 & _).
  pose proof (scr_goes _ _ _ _ _ _ _ t1 _ V G1) as V1.
  destruct (negb (coord_eqb _ _) || negb (rect_eqb (i_win info) (i_win (info_of (w_buf (interfere w))))) || _) eqn:E1.
  { cbn [done]. exists t1, r1. splits; auto; [apply interfere_sel_eq|discriminate]. }
  apply Bool.orb_false_iff in E1 as (E1 & _). apply Bool.orb_false_iff in E1 as (_ & E1). apply Bool.negb_false_iff in E1.
  assert (Et : rTop (p_win t1) = rTop (i_win info)). { cbn [info_of i_win] in E1. rewrite (k_win _ _ _ _ _ H1) in E1. unfold rect_eqb in E1. lia. }
  pose proof (k_lim _ _ _ _ _ H1) as Li. inversion Li as [|? ? L0 _]; subst. pose proof (r_mark _ _ _ _ _ _ _ _ V1) as M. pose proof (r_scrolled _ _ _ _ _ _ _ _ V1) as Sc.
  destruct mk as [[m K]|].
  - destruct M as (M1 & M2 & M3 & M4). destruct (negb (s_syncRow s =? -1)) eqn:E2; [|lia].
    eapply done_bind; [apply (find_con m K lim t1 r1 s _ H1); auto; lia|]. intros [row w'] (t2 & r2 & H2 & A2 & F2 & Er & Lo & Sl). cbn [done].
    exists t2, r2. pose proof A2 as (G2 & _). splits; auto; [eapply aft_trans; eauto|rewrite Sl; apply interfere_sel_eq|].
    intros Eq. split; [lia|]. exists t1. splits; auto.
  - destruct M as (M1 & M2). destruct (negb (s_syncRow s =? -1)) eqn:E2; [lia|]. cbn [done]. exists t1, r1. splits; auto; [apply interfere_sel_eq|]. intros _. split; [lia|]. exists t1. splits; auto using goes_refl.
Qed.
(** What a pass sends: lines, and the cursor's place if it is to be seen *)
Definition drawn (lo : Z) (win : srect) (cur : coord) (vis : bool) (off : Z) (new : list top) : Prop :=
  exists mid, upward lo (windowStop win + off) mid /\
    new = if vis && containsCoord win cur then mid ++ [TShow (co_x cur) (co_y cur + off)] else THide :: mid.
Lemma send_con out0 x (seen : screen -> Prop) out s t win cur size vis fv area row : 0 <= x -> seen t -> tab out0 x seen out s -> s_scrolled s = p_off t ->
  x <= fv <= Z.max x (s_maxBuf s + 1) -> s_maxBuf s - 3000 < fv -> fv <= rTop win + s_scrolled s -> rTop win <= windowStop win -> windowStop win <= 3000 ->
  lr_rect (s_read s) = area -> rWidth area = W ->
  (forall y, rTop area <= y <= rBottom area -> zlen (row y) = W /\ exists rest, @lineData broken (s_read s) y = Ok (row y ++ rest)) ->
  (forall y, fv - s_scrolled s <= y <= rBottom area -> row y = content mask W t (y + p_off t)) ->
  1 <= s_dirty s <= 3000 -> rTop win <= s_dirty s -> rTop area <= s_dirty s - 1 <= rBottom area -> windowStop win <= rBottom area + 1 -> rTop area <= fv - s_scrolled s ->
  done (@scroll_send broken (mkI size win cur) vis fv s) (fun s' => exists new d, tab out0 x seen (out ++ new) s' /\
    s_syncRow s' = s_syncRow s /\ s_counter s' = s_counter s /\ s_direct s' = s_direct s /\ s_scrolled s' = s_scrolled s /\ s_dirtyTop s' = s_dirtyTop s /\
    s_scraped s' = rTop win + s_scrolled s /\ s_dirty s' = d /\ s_dirty s <= d <= 3000 /\
    (let stop := Z.min d (windowStop win) + s_scrolled s in
     (forall k, fv <= k < stop -> last_sent (out ++ new) k = Some (content mask W t k)) /\
     (forall k, k < fv \/ stop <= k -> last_sent (out ++ new) k = last_sent out k) /\
     s_maxBuf s' = Z.max (s_maxBuf s) (if fv <? stop then stop - 1 else -1) /\
     (forall k dd col, In (TSend k dd col) new -> dd = content mask W t k /\ exists k', fv <= k' <= k /\ last_sent out k' <> Some (content mask W t k'))) /\
    (forall k, d + s_scrolled s <= k < windowStop win + s_scrolled s -> blank_cells (content mask W t k)) /\
    drawn fv win cur vis (s_scrolled s) new).
Proof.
  intros X Sn T So F1 F2 F3 W1 W2 R1 R2 R3 R4 D1 D2 D3 D4 D5. unfold scroll_send. cbn [i_win i_cur]. cbv zeta.
  eapply done_bind; [apply (scan_done area row win s R1 R2 R3); lia|]. intros s1 (d & -> & Dd & Bl).
  set (show := vis && containsCoord win cur). set (cl := if show then _ else -1). set (cc := if show then co_x cur else -1).
  assert (Dd' : s_dirty s <= d <= 3000) by lia.
  change (s_dirty (st_dirty d s)) with d. change (s_scrolled (st_dirty d s)) with (s_scrolled s). set (stop := Z.min d (windowStop win) + s_scrolled s).
  set (s2 := if show then st_dirty d s else emit THide (st_dirty d s)). set (pre := if show then [] else [THide]).
  assert (T2 : tab out0 x seen (out ++ pre) s2).
  { unfold s2, pre. assert (T1 : tab out0 x seen out (st_dirty d s)) by (apply (tab_fields _ _ _ _ _ _ T); reflexivity). destruct show; [rewrite app_nil_r; exact T1|]. apply tab_emit; [exact T1|exact I]. }
  assert (P2 : forall k, last_sent (out ++ pre) k = last_sent out k). { intros k. rewrite last_sent_app. unfold pre. destruct show; reflexivity. }
  assert (Q2 : same_rest (st_dirty d s) s2 /\ s_maxBuf s2 = s_maxBuf s). { unfold s2. destruct show; split; try reflexivity; unfold same_rest; splits; reflexivity. }
  destruct Q2 as (Q2 & Q3). pose proof Q2 as (U1 & U2 & U3 & U4 & U5 & U6 & U7 & U8 & U9). cbn [st_dirty s_syncRow s_counter s_direct s_pty s_scraped s_scrolled s_read s_dirtyTop s_dirty] in U1, U2, U3, U4, U5, U6, U7, U8, U9.
  eapply done_bind; [apply (send_lines_done out0 x seen (rWidth (lr_rect (s_read s2))) cl cc t X Sn) with (out := out ++ pre)|].
  - rewrite U7, R1. exact R2.
  - exact T2.
  - lia.
  - lia.
  - intros k Hk. rewrite U6, U7. assert (Y : fv - s_scrolled s <= k - s_scrolled s <= rBottom area) by (unfold stop in Hk; lia).
    destruct (R3 (k - s_scrolled s) ltac:(lia)) as (_ & rest & Hr). exists rest. rewrite Hr, R4 by lia. do 2 f_equal. f_equal. lia.
  - intros s3 (new & T3 & Rs & A1 & A2 & A3 & A4 & A5). pose proof Rs as (V1 & V2 & V3 & V4 & V5 & V6 & V7 & V8 & V9).
    set (post := if show then [TShow cc cl] else []).
    assert (P3 : forall k, last_sent (out ++ (pre ++ new) ++ post) k = last_sent ((out ++ pre) ++ new) k).
    { intros k. rewrite !app_assoc. rewrite last_sent_app. unfold post. destruct show; reflexivity. }
    cbn [done]. exists ((pre ++ new) ++ post), d.
    assert (Fin : forall s4 : sst, s4 = (if show then emit (TShow cc cl) (st_scraped (rTop win + s_scrolled s3) s3) else st_scraped (rTop win + s_scrolled s3) s3) -> 
       tab out0 x seen (out ++ (pre ++ new) ++ post) s4 /\ s_syncRow s4 = s_syncRow s /\ s_counter s4 = s_counter s /\ s_direct s4 = s_direct s /\ s_scrolled s4 = s_scrolled s /\ s_dirtyTop s4 = s_dirtyTop s /\
       s_scraped s4 = rTop win + s_scrolled s /\ s_dirty s4 = d /\ s_maxBuf s4 = s_maxBuf s3).
    { intros s4 ->. assert (T4 : tab out0 x seen ((out ++ pre) ++ new) (st_scraped (rTop win + s_scrolled s3) s3)) by (apply (tab_fields _ _ _ _ _ _ T3); reflexivity).
      unfold post. rewrite !app_assoc. destruct show; [|rewrite app_nil_r]; (split; [try (apply tab_emit; [exact T4|exact I]); exact T4|]); cbn [emit st_scraped s_syncRow s_counter s_direct s_scraped s_scrolled s_dirtyTop s_dirty s_maxBuf]; splits; congruence. }
    destruct (Fin _ eq_refl) as (B1 & B2 & B3 & B4 & B5 & B6 & B7 & B8 & B9). splits; auto; try lia.
    + intros k Hk. rewrite P3. apply A1. unfold stop. lia.
    + intros k Hk. rewrite P3, A2, P2 by (unfold stop; lia). reflexivity.
    + rewrite B9, A3, Q3. f_equal. destruct (Z.to_nat (stop - fv)) eqn:En; fold stop; destruct (fv <? stop) eqn:Ef; try reflexivity; try lia.
    + intros k dk col I. rewrite !in_app_iff in I. destruct I as [[I|I]|I].
      * unfold pre in I. destruct show; [contradiction|]. destruct I as [I|[]]. discriminate.
      * destruct (A4 k dk col I) as (K1 & Kd & [K2|(k' & K2 & K3)]); [discriminate|]. split; [exact Kd|]. exists k'. split; [lia|]. rewrite P2 in K3. exact K3.
      * unfold post in I. destruct show; [|contradiction]. destruct I as [I|[]]. discriminate.
    + intros k Hk. replace k with (k - s_scrolled s + p_off t) by lia. rewrite <- R4 by lia. apply Bl. lia.
    + exists new. split; [eapply upward_weak; [|apply Z.le_refl|exact A5]; unfold stop; pose proof (Zle_0_nat (Z.to_nat (stop - fv))); lia|].
      unfold pre, post, cc, cl. fold show. clear. destruct show; cbn [app]; now rewrite ?app_nil_r.
Qed.

Lemma scr_read out0 x seen mk lim out t s r : scr out0 x seen mk lim out t s -> scr out0 x seen mk lim out t (st_read r s).
Proof. intros []. constructor; auto. apply (tab_fields _ _ _ _ _ _ r_tab0); reflexivity. Qed.
Lemma con_lim mk lim t rest w : con mk lim t rest w -> p_off t <= lim.
Proof. intros H. pose proof (k_lim _ _ _ _ _ H) as L. now inversion L. Qed.
Lemma win_of_screen ti : screen_ok bw ti -> windowStop (p_win ti) = rBottom (p_win ti) + 1.
Proof. intros (_ & _ & _ & A & B & _). unfold windowStop, rHeight. rewrite LargeReadProofs.s16_id by lia. lia. Qed.
(** What a successful pass achieves; [tr] is the screen it has read *)
Definition passed out0 x seen mk lim out (t : screen) (rest : list screen) (ti : screen) (vis : bool) (sc : Z) (t' : screen) (s' : sst) : Prop :=
  exists new tr, scr out0 x seen mk lim (out ++ new) t' s' /\ goes_to t tr /\ goes_to tr t' /\ In tr (t :: rest) /\ rTop (p_win ti) <= rTop (p_win tr) /\
    s_scrolled s' = p_off tr /\ s_scraped s' = rTop (p_win ti) + p_off tr /\ rTop (p_win ti) - 431 <= s_syncRow s' /\
    (forall k, sc <= k < windowStop (p_win ti) + p_off tr -> last_sent (out ++ new) k = Some (content mask W tr k) \/ last_sent (out ++ new) k = None /\ blank_cells (content mask W tr k)) /\
    (forall k dd col, In (TSend k dd col) new -> dd = content mask W tr k /\ exists k', sc <= k' <= k /\ last_sent out k' <> Some (content mask W tr k')) /\
    drawn sc (p_win ti) (p_cur ti) vis (p_off tr) new.
Lemma scrolling_con out0 x (seen : screen -> Prop) mk lim out t rest s w ti vis tent : con mk lim t rest w -> scr out0 x seen mk lim out t s ->
  screen_ok bw ti -> goes_to ti t -> s_dirtyTop s <= rTop (p_win ti) -> s_scraped s <= top_line ti -> (forall t', In t' (t :: rest) -> seen t') ->
  w_sel w = negb tent -> (c_new c = true \/ w_sel w = true) ->
  done (scrollingScrapeOutput c (mkI (mkCoord bw 3000) (p_win ti) (p_cur ti)) vis tent s w) (fun '(ok, s', w') => exists mk' t' rest', con mk' lim t' rest' w' /\ aft t rest t' rest' /\
    (w_sel w = true -> t' = t /\ rest' = rest) /\ w_sel w' = w_sel w /\
    if ok : bool then passed out0 x seen mk' lim out t rest ti vis (s_scraped s) t' s'
    else tent = true /\ mk' = mk /\ scr out0 x seen mk lim out t' s' /\ s_dirtyTop s' <= rTop (p_win ti) /\ s_scraped s' = s_scraped s).
Proof.
  intros H V Si Gi Dt Sr Sn Tf Sf. unfold scrollingScrapeOutput. cbn [i_win i_cur i_size co_x]. cbv zeta. set (win := p_win ti) in *.
  pose proof (win_of_screen ti Si) as Ws. pose proof Si as (I0 & I1 & I2 & I3 & I4 & I5 & I6 & _). fold win in Ws, I1, I2, I3, I4. pose proof Gi as (Gi1 & Gi2 & _). fold win in Gi2. unfold top_line in Sr. fold win in Sr.
  eapply done_bind; [apply (marker_con out0 x seen mk lim out t rest s w win tent H V); lia|].
  intros [[go s1] w1] (-> & t1 & r1 & H1 & A1 & F1 & Sl1 & V1 & So1 & Sc1 & Dt1). cbn [negb]. pose proof A1 as (G1 & In1 & _). pose proof G1 as (G1a & G1b & _).
  unfold SYNC_MARKER_LEN, SYNC_MARKER_MARGIN. set (should := _ <=? _).
  destruct (tent && should) eqn:Ets.
  { cbn [done]. exists mk, t1, r1. apply Bool.andb_true_iff in Ets as (Et & _). splits; auto; lia. }
  destruct (dirty_con out0 x seen mk lim out t1 s1 win (p_cur ti) tent V1) as (s2 & Ed & V2 & So2 & Sc2 & Sy2 & Dt2 & Di2 & Dj2); try lia.
  rewrite Ed. cbn [negb]. apply done_assert; [lia|].
  pose proof (con_lim _ _ _ _ _ H1) as Lm1. pose proof V2 as [Q1 Q2 Q3 Q4 Q5 Q6 Q7 Q8 Q9 Q10 Q11 Q12 Q13].
  assert (Fv : Z.min (s_scraped s2) (rTop win + s_scrolled s2) = s_scraped s2) by lia. rewrite Fv.
  set (fr := Z.min (s_scraped s2 - s_scrolled s2) (s_dirty s2 - 1)). set (sr := Z.max (windowStop win) (s_dirty s2)).
  apply done_assert; [unfold fr, sr; lia|].
  destruct (mask_value mk lim t1 r1 w1 H1) as (t2 & r2 & Em & H2 & A2 & F2 & Sl2). rewrite (surjective_pairing (attributesMask c w1)), Em.
  set (w2 := snd (attributesMask c w1)) in *. clearbody w2.
  assert (Er : SmallRect 0 fr (Z.min bw MAX_CONSOLE_WIDTH) (sr - fr) = mkRect 0 fr (W - 1) (sr - 1)).
  { rewrite mk_spec by (unfold short, MAX_CONSOLE_WIDTH, fr, sr; lia). unfold MAX_CONSOLE_WIDTH. f_equal; lia. }
  rewrite Er.
  eapply done_bind; [apply (read_con mk lim t2 r2 w2 (s_read s2) fr sr H2); [destruct Sf as [Sf|Sf]; [left; exact Sf|right; congruence]|unfold fr, sr; lia|unfold sr; lia]|].
  intros [r w3] (t3 & r3 & row & H3 & A3 & F3 & Sl3 & R1 & R2 & R3).
  assert (A13 : aft t rest t3 r3) by (eapply aft_trans; [exact A1|]; eapply aft_trans; eauto). pose proof A2 as (G2 & _). pose proof A3 as (G3 & _).
  assert (G13 : goes_to t1 t3) by (eapply goes_trans; eauto).
  pose proof (scr_read _ _ _ _ _ _ _ _ r (scr_goes _ _ _ _ _ _ _ t3 _ V2 G13)) as V3. pose proof G13 as (G13a & G13b & _). pose proof A13 as (G03 & In03 & _).
  assert (S3 : w_sel w3 = w_sel w) by congruence.
  (* the end, when it is known that the read is of the right moment *)
  assert (Rest : forall mk' t4 r4 w4 s4, con mk' lim t4 r4 w4 -> aft t rest t4 r4 -> (w_sel w = true -> t4 = t /\ r4 = rest) -> w_sel w4 = w_sel w -> goes_to t3 t4 ->
     p_off t3 = p_off t1 -> rTop win <= rTop (p_win t3) -> rTop win - 431 <= s_syncRow s4 ->
     match mk' with None => mk = None | Some (m, K) => s_counter s4 = K /\ s_scrolled s2 + s_syncRow s4 = m /\ 0 <= s_syncRow s4 <= 2984 /\ m + 216 <= rTop win + s_scrolled s2 end ->
     s4 = st_sync (s_syncRow s4) (s_counter s4) (st_read r s2) -> 0 <= s_counter s4 < 2 ^ 32 -> (mk' = None -> s_syncRow s4 = -1) ->
     done (let! s5 := @scroll_send broken (mkI (mkCoord bw 3000) win (p_cur ti)) vis (s_scraped s2) s4 in Ok (true, s5, w4))
       (fun '(ok, s', w') => exists mk' t' rest', con mk' lim t' rest' w' /\ aft t rest t' rest' /\
    (w_sel w = true -> t' = t /\ rest' = rest) /\ w_sel w' = w_sel w /\
    if ok : bool then passed out0 x seen mk' lim out t rest ti vis (s_scraped s) t' s'
    else tent = true /\ mk' = mk /\ scr out0 x seen mk lim out t' s' /\ s_dirtyTop s' <= rTop win /\ s_scraped s' = s_scraped s)).
  { intros mk' t4 r4 w4 s4 H4 A4 F4 Sl4 G4 Off Rt Sy4 Mk4 Es4 Cn4 Mn4.
    assert (Tb : tab out0 x seen out s4) by (rewrite Es4; apply (tab_fields _ _ _ _ _ _ Q1); reflexivity).
    assert (E4 : s_scrolled s4 = s_scrolled s2 /\ s_maxBuf s4 = s_maxBuf s2 /\ s_dirty s4 = s_dirty s2 /\ s_direct s4 = s_direct s2 /\ s_dirtyTop s4 = s_dirtyTop s2 /\ s_read s4 = r) by (rewrite Es4; splits; reflexivity).
    destruct E4 as (E41 & E42 & E43 & E44 & E45 & E46). clear Es4.
    assert (Cln : forall y, s_scraped s2 - s_scrolled s2 <= y -> clean_line mk (y + p_off t3)).
    { intros y Y. unfold clean_line. destruct mk as [[m K]|]; [|exact I]. lia. }
    eapply done_bind; [apply (send_con out0 x seen out s4 t3 win (p_cur ti) (mkCoord bw 3000) vis (s_scraped s2) (mkRect 0 fr (W - 1) (sr - 1)) row); rewrite ?E41, ?E42, ?E43, ?E46; auto|].
    all: cbn [rTop rBottom] in *; try (unfold fr, sr; lia).
    - apply Sn. apply In03. left. reflexivity.
    - unfold rWidth. cbn [rLeft rRight]. rewrite LargeReadProofs.s16_id by lia. lia.
    - intros y Y. destruct (Z_le_gt_dec fr y) as [Y1|Y1]; [|exfalso; unfold fr in Y1; lia].
      apply R3; [lia|]. apply Cln. lia.
    - intros s5 (new & d & B1 & B2 & B3 & B4 & B5 & B6 & B7 & B8 & B9 & (B10 & B11 & B12 & B13) & B14 & B15). cbn [done]. rewrite E41 in B5, B7, B10, B11, B12, B14, B15. rewrite E42 in B12. rewrite E43 in B9. rewrite E44 in B4. rewrite E45 in B6.
      exists mk', t4, r4. splits; auto. exists new, t3.
      assert (Ed' : rTop win <= d) by lia. pose proof G4 as (G4a & G4b & _). pose proof (con_lim _ _ _ _ _ H4) as Lm4.
      assert (Eo : s_scrolled s2 = p_off t3) by lia. rewrite Eo in *.
      splits; auto; try (apply In03; left; reflexivity); try lia.
      + constructor; auto; try congruence; try lia.
        * rewrite B12. destruct (s_scraped s2 <? Z.min d (windowStop win) + p_off t3) eqn:Ef; lia.
        * rewrite B8, B12, B5. pose proof (t_max _ _ _ _ _ Q1). destruct (s_scraped s2 <? Z.min d (windowStop win) + p_off t3) eqn:Ef; lia.
        * destruct mk' as [[m K]|]; [destruct Mk4 as (M1 & M2 & M3 & M4); splits; try congruence; lia|]. rewrite Mk4 in Q11. destruct Q11 as (M1 & M2). rewrite B2. split; [apply Mn4; reflexivity|]. lia.
        * unfold top_line. lia.
        * intros n N. rewrite (content_goes t3 t4 n G4) by (unfold top_line; lia).
          destruct (Z_lt_ge_dec n (s_scraped s2)) as [L|L]; [|apply B10; lia].
          rewrite B11 by lia. rewrite (content_goes t1 t3 n G13) by (unfold top_line; lia). apply Q13. lia.
      + fold win. lia.
      + fold win. intros k Hk. destruct (Z_lt_ge_dec k (Z.min d (windowStop win) + p_off t3)) as [L|L]; [left; apply B10; lia|]. right.
        split; [|apply B14; lia]. rewrite B11 by lia. apply (t_none _ _ _ _ _ Q1). right. lia.
      + intros k dd col Ik. destruct (B13 k dd col Ik) as (Kd & k' & K1 & K2). split; [exact Kd|]. exists k'. split; [lia|exact K2].
      + fold win. replace (s_scraped s) with (s_scraped s2) by lia. exact B15. }
  eapply done_bind with (P := fun '(same, w') => exists t4 r4, con mk lim t4 r4 w' /\ aft t rest t4 r4 /\ (w_sel w = true -> t4 = t /\ r4 = rest) /\ w_sel w' = w_sel w /\ goes_to t3 t4 /\ (tent = false -> same = true) /\
     (same = true -> p_off t3 = p_off t1 /\ rTop win <= rTop (p_win t3))).
  { destruct tent.
    - eapply done_weak; [apply (check_con out0 x seen mk lim out t3 r3 (st_read r s2) w3 (mkI (mkCoord bw 3000) win (p_cur ti)) H3 V3)|].
      intros [same w'] (t4 & r4 & H4 & A4 & Sl4 & E4). exists t4, r4. pose proof A4 as (G4 & _). splits; auto.
      + eapply aft_trans; eauto.
      + intros Sw. rewrite Tf in Sw. discriminate.
      + congruence.
      + discriminate.
      + intros Es. destruct (E4 Es) as (E5 & t5 & E6 & E7 & E8). cbn [st_read s_scrolled i_win] in E5, E8. pose proof G4 as (G4a & _). pose proof E6 as (_ & E6b & _). lia.
    - cbn [done]. exists t3, r3. splits; auto.
      + intros Sw. destruct (F1 Sw) as (-> & ->). destruct F2 as (-> & ->); [congruence|]. apply F3. congruence.
      + apply goes_refl.
      + intros _. cbn [negb] in Tf. destruct (F1 Tf) as (-> & ->). destruct F2 as (-> & ->); [congruence|]. destruct F3 as (-> & ->); [congruence|]. split; [reflexivity|lia]. }
  intros [same w4] (t4 & r4 & H4 & A4 & F4 & Sl4 & G4 & Ff & Es4).
  destruct same; cbn [negb].
  2:{ cbn [done]. exists mk, t4, r4. destruct tent; [|discriminate (Ff eq_refl)]. splits; auto.
      - apply (scr_goes _ _ _ _ _ _ _ t4 _ V3 G4).
      - cbn [st_read s_dirtyTop]. lia.
      - cbn [st_read s_scraped]. congruence. }
  destruct (Es4 eq_refl) as (Off & Rt). destruct should eqn:Es.
  - rewrite Bool.andb_true_r in Ets. rewrite Ets in *. cbn [negb] in Tf. destruct (F4 Tf) as (-> & ->).
    destruct (F1 Tf) as (-> & ->). destruct F2 as (-> & ->); [congruence|]. destruct F3 as (-> & ->); [congruence|].
    unfold should in Es. rewrite <- Sy2 in Es. cbn [negb assert_ bind].
    eapply done_bind; [apply (create_con mk lim t rest (st_read r s2) w4 (rTop win - 16 - 200) H4)|].
    + congruence.
    + destruct mk as [[m K]|]; lia.
    + lia.
    + pose proof (k_mark _ _ _ _ _ H4) as Km. destruct mk as [[m K]|]; lia.
    + exact Q9.
    + destruct mk as [[m K]|]; [|exact I]. cbn [st_read s_counter]. lia.
    + intros [s5 w5] (-> & H5 & Sl5). apply (Rest _ _ _ _ _ H5); auto; try reflexivity; try discriminate.
      * congruence.
      * cbn [st_sync s_syncRow]. lia.
      * cbn [st_sync s_syncRow s_counter]. splits; try reflexivity; destruct mk as [[m K]|]; lia.
      * cbn [st_sync s_counter]. unfold u32, wrapu. apply Z.mod_pos_bound. lia.
  - cbn [bind]. apply (Rest mk t4 r4 w4 (st_read r s2) H4); auto; try reflexivity.
    + unfold should in Es. cbn [st_read s_syncRow]. lia.
    + destruct mk as [[m K]|]; [|reflexivity]. cbn [st_read s_syncRow s_counter]. splits; lia.
    + intros ->. cbn [st_read s_syncRow]. apply Q11.
Qed.

(** *** Polls *)
Lemma freezing_con f mk lim t rest w : con mk lim t rest w -> exists t' rest', con mk lim t' rest' (setFrozen f w) /\ aft t rest t' rest' /\ w_sel (setFrozen f w) = f.
Proof.
  intros H. pose proof (k_sel _ _ _ _ _ H) as E. unfold setFrozen. destruct (Bool.eqb f (w_frozen w)) eqn:E1.
  { apply Bool.eqb_prop in E1. exists t, rest. splits; auto using aft_refl. congruence. }
  destruct (interfere_con _ _ _ _ _ H) as (t1 & r1 & H1 & A1 & F1). pose proof (con_sel _ _ _ _ _ H) as Sl. cbv zeta.
  destruct f; [exists t1, r1; splits; auto; apply con_freeze; exact H1|].
  destruct (w_sel (interfere w)) eqn:E2; [exists t1, r1; splits; auto; apply con_unfreeze; exact H1|].
  destruct (w_frozen w); [congruence|discriminate].
Qed.
Lemma finish_con : forall rest mk lim t w, con mk lim t rest w -> w_sel w = false -> con mk lim (last rest t) [] (finish w) /\ w_sel (finish w) = false.
Proof.
  induction rest as [|t' r IH]; intros mk lim t w H E.
  - split; [|exact E]. unfold finish. rewrite (k_env _ _ _ _ _ H). cbn [moves fold_left last]. pose proof (k_env _ _ _ _ _ H) as Ee. destruct H. constructor; auto.
  - pose proof (con_step _ _ _ _ _ _ H E) as G. destruct (IH _ _ _ _ G E) as (G1 & G2). rewrite last_cons.
    assert (Ef : finish w = finish (mkW (move t t' (w_buf w)) (w_sel w) (w_frozen w) (w_mark w) (w_esc w) (moves t' r) (w_fail w) (w_log w))).
    { unfold finish. rewrite (k_env _ _ _ _ _ H). reflexivity. }
    rewrite Ef. split; assumption.
Qed.
Lemma steps_con mk lim t w ts s out0 x seen out : con mk lim t [] w -> scr out0 x seen mk lim out t s -> sequence bw t ts -> Forall (keeps_marker s) (t :: ts) ->
  exists lim', con mk lim' t ts (with_steps (moves t ts) w) /\ scr out0 x seen mk lim' out t s.
Proof.
  intros H V Sq Ke. exists (s_scrolled s + Z.max 0 (s_syncRow s)). pose proof H as []. pose proof V as []. split.
  - constructor; auto. destruct mk as [[m K]|]; [|exact I]. destruct k_mark0 as (M1 & M2 & M3 & M4). splits; auto; lia.
  - constructor; auto; destruct mk as [[m K]|]; lia.
Qed.
Lemma passed_from out0 x seen mk lim out t rest t1 r1 ti vis sc t' s' : aft t rest t1 r1 -> passed out0 x seen mk lim out t1 r1 ti vis sc t' s' -> passed out0 x seen mk lim out t rest ti vis sc t' s'.
Proof.
  intros (A1 & A2 & _) (new & tr & B1 & B2 & B3 & B4 & B5). exists new, tr. split; [exact B1|]. split; [eapply goes_trans; eauto|]. split; [exact B3|]. split; [apply A2; exact B4|exact B5].
Qed.
Lemma scrape_con out0 x (seen : screen -> Prop) mk lim out t rest s w : con mk lim t rest w -> scr out0 x seen mk lim out t s -> w_sel w = false -> (forall t', In t' (t :: rest) -> seen t') ->
  done (agentScrape c (mkAgent s None) w) (fun '(_, a, w') => exists mk' t' rest' ti tv, con mk' lim t' rest' w' /\ w_sel w' = false /\ aft t rest t' rest' /\ In ti (t :: rest) /\ goes_to t ti /\ In tv (t :: rest) /\
    passed out0 x seen mk' lim out t rest ti (p_visible tv) (s_scraped s) t' (a_prim a)).
Proof.
  intros H V Sl Sn. pose proof (k_sel _ _ _ _ _ H) as Ef. unfold agentScrape, guard_enter, guard_leave. cbn [a_prim a_err]. cbv zeta.
  rewrite <- Ef, Sl. assert (E0 : setFrozen false w = w) by (unfold setFrozen; rewrite <- Ef, Sl; reflexivity). rewrite E0.
  unfold scrapeBuffer, syncConsoleContentAndSize. rewrite Bool.orb_false_r.
  set (w0 := if negb (c_new c) then setFrozen true w else w).
  assert (P0 : exists t0 r0, con mk lim t0 r0 w0 /\ aft t rest t0 r0 /\ w_sel w0 = negb (c_new c)).
  { unfold w0. assert (Ec : c_new c = true \/ c_new c = false) by (destruct (c_new c); auto). destruct Ec as [-> | ->]; cbn [negb]; [exists t, rest; splits; auto using aft_refl|]. apply freezing_con. exact H. }
  clearbody w0. destruct P0 as (t0 & r0 & H0 & A0 & S0).
  unfold bufferInfo, cursorVisible. cbv zeta. destruct (interfere_con _ _ _ _ _ H0) as (ti & ri & Hi & Ai & _). pose proof (con_sel _ _ _ _ _ H0) as Si.
  assert (Ei : info_of (w_buf (interfere w0)) = mkI (mkCoord bw 3000) (p_win ti) (p_cur ti)).
  { unfold info_of. rewrite (k_w _ _ _ _ _ Hi), (k_h _ _ _ _ _ Hi), (k_win _ _ _ _ _ Hi), (k_cur _ _ _ _ _ Hi). reflexivity. }
  rewrite Ei. set (wi := interfere w0) in *. clearbody wi. destruct (interfere_con _ _ _ _ _ Hi) as (t1 & r1 & H1 & A1 & _). pose proof (con_sel _ _ _ _ _ Hi) as S1.
  assert (Ev : b_visible (w_buf (interfere wi)) = p_visible t1) by (apply (k_vis _ _ _ _ _ H1)). rewrite Ev. set (vis := p_visible t1) in *. set (w1 := interfere wi) in *. clearbody w1.
  cbn [i_size co_y i_win]. change (3000 =? BUFFER_LINE_COUNT) with true. cbn [negb]. rewrite (r_direct _ _ _ _ _ _ _ _ V). cbn [Bool.eqb negb].
  assert (A0i : aft t rest ti ri) by (eapply aft_trans; eauto). assert (A01 : aft t rest t1 r1) by (eapply aft_trans; eauto).
  pose proof A0i as (G0i & _). pose proof A01 as (G01 & In01 & _). pose proof A1 as (Gi1 & _).
  assert (Sn1 : forall t', In t' (t1 :: r1) -> seen t') by (intros t' I'; apply Sn; apply In01; exact I').
  assert (Oi : screen_ok bw ti) by (apply (sequence_ok _ _ _ (k_seq _ _ _ _ _ Hi))).
  pose proof (scr_goes _ _ _ _ _ _ _ t1 _ V G01) as V1.
  assert (Dt : s_dirtyTop s <= rTop (p_win ti)) by (pose proof (r_dtop _ _ _ _ _ _ _ _ V); destruct G0i as (_ & G & _); lia).
  assert (Sc : s_scraped s <= top_line ti) by (pose proof (r_reach _ _ _ _ _ _ _ _ V); pose proof (goes_top _ _ G0i); lia).
  assert (Sw1 : w_sel w1 = negb (c_new c)) by congruence.
  pose proof (k_sel _ _ _ _ _ H1) as Ef1.
  (* after both passes *)
  set (Done := fun '(s', w') => exists mk' t' rest', con mk' lim t' rest' w' /\ aft t rest t' rest' /\ passed out0 x seen mk' lim out t rest ti vis (s_scraped s) t' s').
  eapply done_bind with (P := fun '(i, s', w') => i = mkI (mkCoord bw 3000) (p_win ti) (p_cur ti) /\ Done (s', w')).
  2:{ intros [[i s'] w'] (-> & mk' & t' & r' & H' & A' & P'). cbn [bind done a_prim]. destruct (freezing_con false _ _ _ _ _ H') as (t2 & r2 & H2 & A2 & S2). pose proof A2 as (G2 & _).
      exists mk', t2, r2, ti, t1. splits; auto; [eapply aft_trans; eauto|exact (aft_in _ _ _ _ A0i)|exact (aft_in _ _ _ _ A01)|].
      destruct P' as (new & tr & B1 & B2 & B3 & B4). exists new, tr. split; [eapply scr_goes; eauto|]. split; [exact B2|]. split; [eapply goes_trans; eauto|exact B4]. }
  eapply done_bind with (P := Done).
  2:{ intros [s' w'] D. cbn [done]. split; [reflexivity|exact D]. }
  rewrite (r_direct _ _ _ _ _ _ _ _ V).
  eapply done_bind with (P := fun '(s', w') => if w_frozen w' then exists t' rest', con mk lim t' rest' w' /\ aft t rest t' rest' /\ goes_to ti t' /\ scr out0 x seen mk lim out t' s' /\ s_dirtyTop s' <= rTop (p_win ti) /\ s_scraped s' = s_scraped s
     else Done (s', w')).
  - rewrite <- Ef1, Sw1. rewrite Bool.negb_involutive. assert (Ec : c_new c = true \/ c_new c = false) by (destruct (c_new c); auto). destruct Ec as [Ec|Ec]; rewrite Ec in Sw1; rewrite Ec.
    + eapply done_bind; [apply (scrolling_con out0 x seen mk lim out t1 r1 s w1 ti vis true H1 V1 Oi Gi1 Dt Sc Sn1); [rewrite Sw1; reflexivity|left; exact Ec]|].
      intros [[ok s2] w2] (mk2 & t2 & r2 & H2 & A2 & F2 & S2 & P2). cbn [done]. assert (A02 : aft t rest t2 r2) by (eapply aft_trans; eauto). pose proof A2 as (G12 & _). destruct ok.
      * rewrite <- (k_sel _ _ _ _ _ H2), S2, Sw1. cbn [negb]. exists mk2, t2, r2. splits; auto. apply (passed_from _ _ _ _ _ _ _ _ _ _ _ _ _ _ _ A01 P2).
      * destruct P2 as (_ & -> & P2 & P3 & P4). destruct (freezing_con true _ _ _ _ _ H2) as (t3 & r3 & H3 & A3 & S3). rewrite <- (k_sel _ _ _ _ _ H3), S3. pose proof A3 as (G3 & _).
        exists t3, r3. splits; auto; [eapply aft_trans; eauto|eapply goes_trans; [exact Gi1|]; eapply goes_trans; eauto|eapply scr_goes; eauto].
    + cbn [done]. rewrite <- Ef1, Sw1. cbn [negb]. exists t1, r1. splits; auto.
  - intros [s2 w2] P2. eapply done_bind with (P := Done); [|intros [s3 w3] P3; cbn [done]; exact P3].
    destruct (w_frozen w2) eqn:E2; [|cbn [done]; exact P2].
    destruct P2 as (t2 & r2 & H2 & A2 & G2 & V2 & Dt2 & Sc2). pose proof A2 as (_ & In2 & _).
    eapply done_bind; [apply (scrolling_con out0 x seen mk lim out t2 r2 s2 w2 ti vis false H2 V2 Oi G2 Dt2)|].
    + lia.
    + intros t' I'. apply Sn. apply In2. exact I'.
    + rewrite (k_sel _ _ _ _ _ H2). exact E2.
    + right. rewrite (k_sel _ _ _ _ _ H2). exact E2.
    + intros [[ok s3] w3] (mk3 & t3 & r3 & H3 & A3 & F3 & S3 & P3). cbn [done]. destruct ok; [|destruct P3; discriminate].
      exists mk3, t3, r3. splits; auto; [eapply aft_trans; eauto|]. rewrite <- Sc2. apply (passed_from _ _ _ _ _ _ _ _ _ _ _ _ _ _ _ A2 P3).
Qed.
Definition inv out0 x (seen : screen -> Prop) (out : list top) (t : screen) (s : sst) (w : world) : Prop :=
  exists mk lim, con mk lim t [] (with_steps [] w) /\ w_sel w = false /\ scr out0 x seen mk lim out t s.
Lemma poll_inv out0 x (seen : screen -> Prop) out t ts s w : inv out0 x seen out t s w -> sequence bw t ts -> Forall (keeps_marker s) (t :: ts) -> (forall t', In t' (t :: ts) -> seen t') ->
  done (poll c t ts s w) (fun '(s', w') => exists new ti tr tv, inv out0 x seen (out ++ new) (last ts t) s' w' /\ In ti (t :: ts) /\ In tr (t :: ts) /\ goes_to t ti /\ goes_to t tr /\ rTop (p_win ti) <= rTop (p_win tr) /\
    s_scrolled s' = p_off tr /\ s_scraped s' = rTop (p_win ti) + p_off tr /\ rTop (p_win ti) - 431 <= s_syncRow s' /\
    (forall k, s_scraped s <= k < windowStop (p_win ti) + p_off tr -> last_sent (out ++ new) k = Some (content mask W tr k) \/ last_sent (out ++ new) k = None /\ blank_cells (content mask W tr k)) /\
    (forall k dd col, In (TSend k dd col) new -> dd = content mask W tr k /\ exists k', s_scraped s <= k' <= k /\ last_sent out k' <> Some (content mask W tr k')) /\
    In tv (t :: ts) /\ drawn (s_scraped s) (p_win ti) (p_cur ti) (p_visible tv) (p_off tr) new).
Proof.
  intros (mk & lim & H & Sl & V) Sq Ke Sn. destruct (steps_con _ _ _ _ ts _ _ _ _ _ H V Sq Ke) as (lim' & H' & V'). unfold poll.
  eapply done_bind; [apply (scrape_con out0 x seen mk lim' out t ts s _ H' V' Sl Sn)|].
  intros [[r a] w'] (mk' & t' & rest' & ti & tv & B1 & B2 & B3 & B4 & B5 & B6 & new & tr & C1 & C2 & C3 & C4 & C5 & C6 & C7 & C8 & C9 & C10 & C11). cbn [done].
  destruct (finish_con _ _ _ _ _ B1 B2) as (F1 & F2). pose proof B3 as (_ & _ & B3l). exists new, ti, tr, tv. splits; auto.
  exists mk', lim'. rewrite <- B3l. splits; auto. eapply scr_goes; [exact C1|]. apply (sequence_goes bw rest' t'); [apply (k_seq _ _ _ _ _ B1)|].
  clear. revert t'. induction rest' as [|u r IH]; intros t; [left; reflexivity|]. right. rewrite last_cons. apply IH.
Qed.

Lemma last_in {A} (l : list A) d : In (last l d) (d :: l).
Proof. revert d. induction l as [|y l IH]; intros d; [left; reflexivity|]. right. rewrite last_cons. apply IH. Qed.
Lemma polls_inv out0 x (seen : screen -> Prop) : forall turns out t s w, inv out0 x seen out t s w -> history bw t turns -> within_reach c turns t s w -> (forall t', In t' (screens t turns) -> seen t') ->
  done (polls c turns t s w) (fun '(s', w') => exists new, inv out0 x seen (out ++ new) (final t turns) s' w').
Proof.
  induction turns as [|ts r IH]; intros out t s w H Hi Re Sn.
  { cbn [polls done]. exists []. rewrite app_nil_r. exact H. }
  cbn [polls]. destruct Hi as (Sq & Hi). destruct Re as (Ke & Re).
  assert (Sn1 : forall t', In t' (t :: ts) -> seen t').
  { intros t' [<-|I']; apply Sn; [left; reflexivity|right; cbn [concat]; apply in_or_app; left; exact I']. }
  pose proof (poll_inv out0 x seen out t ts s w H Sq Ke Sn1) as P. destruct (poll c t ts s w) as [[s1 w1]| | | |] eqn:E; cbn [done] in P; try contradiction.
  destruct P as (new & ti & tr & tv & H1 & _). cbn [bind]. eapply done_weak; [apply (IH (out ++ new) (last ts t) s1 w1 H1 Hi Re)|].
  - intros t' [<-|I']; [apply Sn1; apply last_in|]. apply Sn. right. cbn [concat]. apply in_or_app. right. exact I'.
  - intros [s' w'] (new' & H'). exists (new ++ new'). rewrite app_assoc. exact H'.
Qed.
Lemma reach_slow out0 x (seen : screen -> Prop) : forall turns out t s w limit, inv out0 x seen out t s w -> history bw t turns -> slow_enough limit turns t -> limit <= s_scrolled s + Z.max 0 (s_syncRow s) -> (forall t', In t' (screens t turns) -> seen t') ->
  within_reach c turns t s w.
Proof.
  induction turns as [|ts r IH]; intros out t s w limit H Hi Sl Li Sn; [exact I|].
  destruct Hi as (Sq & Hi). destruct Sl as (L1 & L2).
  assert (Ke : Forall (keeps_marker s) (t :: ts)) by (revert L1; apply Forall_impl; intros a A; unfold keeps_marker; lia).
  assert (Sn1 : forall t', In t' (t :: ts) -> seen t').
  { intros t' [<-|I']; apply Sn; [left; reflexivity|right; cbn [concat]; apply in_or_app; left; exact I']. }
  cbn [within_reach]. split; [exact Ke|].
  pose proof (poll_inv out0 x seen out t ts s w H Sq Ke Sn1) as P. destruct (poll c t ts s w) as [[s1 w1]| | | |] eqn:E; try exact I. cbn [done] in P.
  destruct P as (new & ti & tr & tv & H1 & _ & _ & (_ & G1 & _) & (G2 & _) & _ & E1 & _ & E2 & _). apply (IH _ _ _ _ _ H1 Hi L2).
  - lia.
  - intros t' [<-|I']; [apply Sn1; apply last_in|]. apply Sn. right. cbn [concat]. apply in_or_app. right. exact I'.
Qed.
Lemma begins_inv x (seen : screen -> Prop) t s w : begins x t s w -> b_w (w_buf w) = bw -> b_cp (w_buf w) = cp -> b_mode (w_buf w) = mode -> screen_ok bw t -> inv (s_out s) x seen [] t s w.
Proof.
  intros ((F1 & F2 & F3 & F4 & F5 & F6 & F7 & F8 & F9) & (D1 & D2 & D3 & D4 & D5) & Wd & Wb & Sl & Fz & Of & X) Eb Ecp Em O. exists None, 0. rewrite Eb in D5.
  pose proof O as (P1 & P2 & P3 & P4 & P5 & P6 & P7 & P8 & P9). splits; auto.
  - constructor; auto; try (cbn; congruence).
    + cbn. auto.
    + constructor; [lia|constructor].
    + intros a d A1 A2 A3 M. apply (P9 a d). apply (proj2 (column_text (fun n => cl_ch (p_text t n 0)) a d)). intros k K. rewrite <- (M k K). unfold ch0. cbn [with_steps w_buf]. rewrite D5 by lia. f_equal. f_equal. lia.
  - constructor; auto; try lia.
    + constructor; auto; try lia; try reflexivity.
      * now rewrite app_nil_r.
      * cbn. lia.
    + unfold top_line. lia.
Qed.

Lemma within_app : forall a b t s w, within_reach c (a ++ b) t s w -> within_reach c a t s w /\ forall s' w', polls c a t s w = Ok (s', w') -> within_reach c b (final t a) s' w'.
Proof.
  induction a as [|ts a IH]; intros b t s w H; [split; [exact I|]; cbn; intros s' w' E; injection E as <- <-; exact H|].
  cbn [app within_reach] in H. destruct H as (H1 & H2). cbn [within_reach polls final fold_left]. destruct (poll c t ts s w) as [[s1 w1]| | | |]; cbn [bind];
    try (split; [split; [exact H1|exact I]|intros s' w' E; discriminate]).
  destruct (IH b (last ts t) s1 w1 H2) as (G1 & G2). split; [split; assumption|exact G2].
Qed.
Lemma history_app : forall a b t, history bw t (a ++ b) -> history bw t a /\ history bw (final t a) b.
Proof.
  induction a as [|ts a IH]; intros b t H.
  - split; [|exact H]. destruct b as [|ts b]; [exact H|]. destruct H as (H & _). cbn. apply (sequence_ok _ _ _ H).
  - destruct H as (H1 & H2). destruct (IH b _ H2) as (G1 & G2). split; [split; assumption|exact G2].
Qed.
Lemma screens_in a b t t' : In t' (screens t a) -> In t' (screens t (a ++ b)).
Proof. unfold screens. rewrite concat_app. intros [<-|H]; [left; reflexivity|right; apply in_or_app; left; exact H]. Qed.
Lemma final_in : forall a t, In (final t a) (screens t a).
Proof.
  induction a as [|ts a IH]; intros t; [left; reflexivity|]. unfold final. cbn [fold_left]. fold (final (last ts t) a). unfold screens. cbn [concat].
  destruct (IH (last ts t)) as [E|E]; [|right; apply in_or_app; right; exact E]. rewrite <- E. destruct (last_in ts t) as [G|G]; [left; exact G|right; apply in_or_app; left; exact G].
Qed.
(** Everything about a run's last poll *)
Lemma stream x t0 before ts s0 w0 : begins x t0 s0 w0 -> b_w (w_buf w0) = bw -> b_cp (w_buf w0) = cp -> b_mode (w_buf w0) = mode ->
  history bw t0 (before ++ [ts]) -> within_reach c (before ++ [ts]) t0 s0 w0 ->
  exists s1 w1 s2 w2 ops1 ops2 tr, polls c before t0 s0 w0 = Ok (s1, w1) /\ poll c (final t0 before) ts s1 w1 = Ok (s2, w2) /\ s_out s1 = s_out s0 ++ ops1 /\ s_out s2 = s_out s1 ++ ops2 /\
    consecutive x x (ops1 ++ ops2) /\ Forall (src (fun t => In t (screens t0 (before ++ [ts])))) (ops1 ++ ops2) /\
    (forall n, x <= n < top_line (final t0 before) -> last_sent (ops1 ++ ops2) n = Some (content mask W (last ts (final t0 before)) n)) /\
    In tr (final t0 before :: ts) /\
    (forall n, x <= n < end_line (final t0 before) -> ts = [] -> last_sent (ops1 ++ ops2) n = Some (content mask W tr n) \/ last_sent (ops1 ++ ops2) n = None /\ blank_cells (content mask W tr n)) /\
    (forall k dd col, In (TSend k dd col) ops2 -> dd = content mask W tr k /\ exists k', x <= k' <= k /\ last_sent ops1 k' <> Some (content mask W tr k')).
Proof.
  intros B E1 E2 E3 Hi Re. destruct (within_app _ _ _ _ _ Re) as (Re1 & Re2). destruct (history_app _ _ _ Hi) as (Hi1 & Hi2).
  set (seen := fun t => In t (screens t0 (before ++ [ts]))).
  assert (Ok0 : screen_ok bw t0). { destruct before as [|u r]; cbn [app history] in Hi; destruct Hi as (S & _); apply (sequence_ok _ _ _ S). }
  pose proof (begins_inv x seen t0 s0 w0 B E1 E2 E3 Ok0) as I0.
  pose proof (polls_inv (s_out s0) x seen before [] t0 s0 w0 I0 Hi1 Re1) as P. 
  assert (Sn : forall t', In t' (screens t0 before) -> seen t') by (intros t' I'; apply screens_in; exact I'). specialize (P Sn).
  destruct (polls c before t0 s0 w0) as [[s1 w1]| | | |] eqn:Ep; cbn [done] in P; try contradiction. destruct P as (ops1 & I1). cbn [app] in I1.
  specialize (Re2 s1 w1 eq_refl). destruct Re2 as (Ke & _). destruct Hi2 as (Sq & _). set (t := final t0 before) in *.
  pose proof (poll_inv (s_out s0) x seen ops1 t ts s1 w1 I1 Sq Ke) as Q.
  assert (Sn2 : forall t', In t' (t :: ts) -> seen t').
  { intros t' [<-|I']; [apply Sn; apply final_in|]. unfold seen, screens. right. rewrite concat_app. apply in_or_app. right. cbn. rewrite app_nil_r. exact I'. }
  specialize (Q Sn2). destruct (poll c t ts s1 w1) as [[s2 w2]| | | |] eqn:Eq; cbn [done] in Q; try contradiction.
  destruct Q as (ops2 & ti & tr & tv & I2 & Ti & Tr & G1 & G2 & Rt & Q1 & Q2 & Q3 & Q4 & Q5 & _). destruct I2 as (mk2 & lim2 & C2 & Sl2 & V2). destruct I1 as (mk1 & lim1 & C1 & Sl1 & V1).
  exists s1, w1, s2, w2, ops1, ops2, tr. pose proof (r_tab _ _ _ _ _ _ _ _ V1) as T1. pose proof (r_tab _ _ _ _ _ _ _ _ V2) as T2.
  pose proof (t_out _ _ _ _ _ T1) as O1. pose proof (t_out _ _ _ _ _ T2) as O2. pose proof G1 as (G1a & G1b & _). pose proof G2 as (G2a & _).
  splits; auto.
  - rewrite O2, O1. now rewrite app_assoc.
  - apply (t_cons _ _ _ _ _ T2).
  - apply (t_src _ _ _ _ _ T2).
  - intros n N. apply (r_final _ _ _ _ _ _ _ _ V2). unfold top_line in N. lia.
  - intros n N Ets. subst ts. destruct Ti as [<-|[]]. destruct Tr as [<-|[]]. cbn [last] in V2.
    destruct (Z_lt_ge_dec n (s_scraped s1)) as [L|L].
    + left. apply (r_final _ _ _ _ _ _ _ _ V2). pose proof (r_reach _ _ _ _ _ _ _ _ V1) as Rr. unfold top_line in Rr. lia.
    + apply Q4. rewrite (win_of_screen t (sequence_ok _ _ _ Sq)). unfold end_line in N. lia.
  - intros k dd col Ik. destruct (Q5 k dd col Ik) as (Kd & k' & K1 & K2). split; [exact Kd|]. exists k'. split; [|exact K2]. pose proof (r_x _ _ _ _ _ _ _ _ V1). lia.
Qed.
Lemma slow_reach x t0 turns s0 w0 : begins x t0 s0 w0 -> b_w (w_buf w0) = bw -> b_cp (w_buf w0) = cp -> b_mode (w_buf w0) = mode -> history bw t0 turns -> slow_enough 0 turns t0 -> within_reach c turns t0 s0 w0.
Proof.
  intros B E1 E2 E3 Hi Sl.
  assert (Ok0 : screen_ok bw t0). { destruct turns as [|u r]; cbn [history] in Hi; [exact Hi|]. destruct Hi as (S & _); apply (sequence_ok _ _ _ S). }
  apply (reach_slow (s_out s0) x (fun _ => True) turns [] t0 s0 w0 0); auto; [apply begins_inv; auto|].
  destruct B as ((F1 & F2 & F3 & _) & _). rewrite F1, F3. reflexivity.
Qed.
End Stream.

Lemma polls_snoc c : forall before t s w s1 w1, polls c before t s w = Ok (s1, w1) -> forall ts r, poll c (final t before) ts s1 w1 = r -> polls c (before ++ [ts]) t s w = r.
Proof.
  induction before as [|u b IH]; intros t s w s1 w1 E ts r P.
  - cbn in E. injection E as <- <-. cbn [app polls]. cbn [final fold_left] in P. rewrite P. destruct r as [[? ?]| | | |]; reflexivity.
  - cbn [app polls] in *. destruct (poll c t u s w) as [[s2 w2]| | | |]; cbn [bind] in *; try discriminate. apply (IH _ _ _ _ _ E ts r P).
Qed.
Lemma new_fresh c size w : let x := rTop (b_win (w_buf (interfere w))) in fresh x (fst (newScraper c size w)) /\ s_out (fst (newScraper c size w)) = [TReset false x].
Proof.
  cbv zeta. unfold newScraper, bufferInfo, largestSize. cbv zeta. cbn [fst]. unfold resetConsoleTracking, emit, fresh.
  cbn [st_lines s_syncRow s_direct s_scrolled s_scraped s_maxBuf s_dirtyTop s_dirty s_lines s_counter s_out info_of i_win]. split; [|reflexivity]. splits; try reflexivity; try lia.
Qed.
Lemma no_marker (f : Z -> Z) n d : (forall j, f j = 32 \/ 65 <= f j <= 90) -> map (fun k => f (n + k)) (zseq 0 16) <> syncMarkerText d.
Proof.
  intros H E. rewrite text_nibbles in E. change (zseq 0 16) with [0; 1; 2; 3; 4; 5; 6; 7; 8; 9; 10; 11; 12; 13; 14; 15] in E. cbn [map] in E. injection E as _ E _. specialize (H (n + 1)). lia.
Qed.
