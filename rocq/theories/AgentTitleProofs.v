From Verif Require Import Base BaseLemmas Text NamedPipe NamedPipeSpec NamedPipeProofs ConsoleLine Unicode UnicodeSpec UnicodeProofs Terminal TerminalSpec AgentLoop AgentLoopSpec AgentLoopProofs.
Ltac Zify.zify_post_hook ::= Z.div_mod_to_equations.
Ltac splits := repeat match goal with |- _ /\ _ => split end.

(** *** Reading the title *)
Lemma cstr_ok {E} t r : ~ In 0 t -> cstr (E := E) (t ++ 0 :: r) = Ok t.
Proof.
  induction t as [|c t IH]; intros H; cbn [app cstr]; [reflexivity|].
  assert (c =? 0 = false) as -> by (apply Z.eqb_neq; intros ->; apply H; now left).
  rewrite IH; [reflexivity|]. intros X. apply H. now right.
Qed.
Lemma overlay_len s buf : zlen s <= zlen buf -> zlen (overlay s buf) = zlen buf.
Proof. intros H. unfold overlay. rewrite zlen_app, zlen_zskipn. pose proof (zlen_nonneg s). lia. Qed.
Lemma overlay_first t x buf n : n = zlen t -> zfirstn n (overlay (t ++ x) buf) = t.
Proof. intros ->. unfold overlay. rewrite <- app_assoc. now apply zfirstn_app_exact. Qed.

Lemma get_spec v t buf count buf' : 1 <= zlen buf -> getConsoleTitle v t buf = (count, buf') ->
  zlen buf' = zlen buf /\ 0 <= count <= zlen t /\
  ((count + 1) * 2 <= zlen buf -> if match v with TFail => true | _ => false end then count = 0 else count = zlen t /\ zfirstn count buf' = t).
Proof.
  intros Hb H. pose proof (zlen_nonneg t) as Ht.
  assert (L : forall cap, cap <= zlen buf -> zlen (if 1 <=? cap then overlay (zfirstn (Z.min (zlen t) (cap - 1)) t ++ [0]) buf else buf) = zlen buf).
  { intros cap Hc. destruct (1 <=? cap) eqn:E; [|reflexivity]. apply overlay_len. rewrite zlen_app, zlen_zfirstn. change (zlen [0]) with 1. lia. }
  assert (F : forall cap, zlen t < cap -> zfirstn (zlen t) (if 1 <=? cap then overlay (zfirstn (Z.min (zlen t) (cap - 1)) t ++ [0]) buf else buf) = t).
  { intros cap Hc. replace (1 <=? cap) with true by lia. replace (Z.min (zlen t) (cap - 1)) with (zlen t) by lia. rewrite (zfirstn_all _ t) by lia. now apply overlay_first. }
  destruct v; cbn [getConsoleTitle] in H; cbv zeta in H.
  - destruct ((zlen t =? 0) || (zlen buf =? 0)) eqn:E; injection H as <- <-.
    + apply orb_true_iff in E as [E|E]; [|lia]. splits; auto; try lia. intros _. split; [lia|]. rewrite (zlen_0_nil t) by lia. reflexivity.
    + splits; try lia; [apply L; lia|]. intros X. assert (zlen t <= zlen buf - 1) by lia. replace (Z.min (zlen t) (zlen buf - 1)) with (zlen t) at 1 2 by lia. split; [reflexivity|]. apply F. lia.
  - injection H as <- <-. splits; [apply L; lia|lia|lia|]. intros X. split; [reflexivity|]. apply F. lia.
  - injection H as <- <-. splits; [apply L; lia|lia|lia|]. intros X. split; [reflexivity|]. apply F. lia.
  - injection H as <- <-. splits; try lia.
Qed.
Lemma upd_split (l : list Z) n x : 0 <= n < zlen l -> exists r, zupd l n x = Some (zfirstn n l ++ x :: r) /\ zlen (zfirstn n l ++ x :: r) = zlen l.
Proof.
  intros H. exists (zskipn (n + 1) l). assert (E : zupd l n x = Some (zfirstn n l ++ x :: zskipn (n + 1) l)).
  { unfold zupd. replace (n <? 0) with false by lia. unfold zfirstn, zskipn. replace (Z.to_nat (n + 1)) with (S (Z.to_nat n)) by lia.
    assert (Hn : (Z.to_nat n < length l)%nat) by (unfold zlen in H; lia). revert Hn. generalize (Z.to_nat n) as m. clear. induction l as [|y l IH]; intros [|m] Hm; cbn [length] in Hm; try lia; cbn [upd_nat firstn skipn app]; [reflexivity|].
    rewrite (IH m) by lia. reflexivity. }
  split; [exact E|]. rewrite zlen_app, zlen_cons, zlen_zfirstn, zlen_zskipn. lia.
Qed.
Theorem title_complete {E} t ts : forall buf, Forall (fun vt => fst vt <> TFail /\ snd vt = t) ts -> ~ In 0 t -> 1 <= zlen buf -> 2 * (zlen t + 1) - zlen buf < zlen ts ->  0 < zlen ts ->
  exists buf', title (E := E) ts buf = Ok (t, buf') /\ zlen buf <= zlen buf'.
Proof.
  induction ts as [|(v, t') ts IH]; intros buf Hts H0 Hb Hn Hp; [change (zlen (@nil (title_os * list Z))) with 0 in Hp; lia|].
  inversion Hts as [|? ? (Hv & Hs) Hts']; subst. cbn [fst snd] in *. cbn [title].
  destruct (getConsoleTitle v t' buf) as (count, buf1) eqn:Eg. destruct (get_spec _ _ _ _ _ Hb Eg) as (G1 & G2 & G3). cbv zeta.
  rewrite G1. destruct (zlen buf <? (count + 1) * 2) eqn:El.
  - assert (Lr : zlen (buf1 ++ zrepeat 0 ((count + 1) * 2 - zlen buf)) = (count + 1) * 2) by (rewrite zlen_app, zlen_repeat, G1; lia).
    rewrite zlen_cons in Hn. destruct (IH (buf1 ++ zrepeat 0 ((count + 1) * 2 - zlen buf))) as (buf' & I1 & I2); auto; try lia.
    exists buf'. split; [exact I1|lia].
  - assert (A : count = zlen t' /\ zfirstn count buf1 = t') by (destruct v; try (apply G3; lia); congruence). destruct A as (-> & A).
    destruct (upd_split buf1 (zlen t') 0) as (r & U1 & U2); [lia|]. rewrite U1, A, cstr_ok by assumption. cbn [bind]. rewrite A in U2. eexists. split; [reflexivity|lia].
Qed.
Theorem title_sound {E} ts : forall buf, 1 <= zlen buf -> Forall (fun vt => ~ In 0 (snd vt)) ts ->
  match title (E := E) ts buf with
  | Ok (s, buf') => (exists v t, In (v, t) ts /\ s = if match v with TFail => true | _ => false end then [] else t) /\ zlen buf <= zlen buf'
  | OutOfFuel => True
  | _ => False
  end.
Proof.
  induction ts as [|(v, t) ts IH]; intros buf Hb Hts; cbn [title]; [exact I|]. inversion Hts as [|? ? Hs Hts']; subst. cbn [snd] in Hs.
  destruct (getConsoleTitle v t buf) as (count, buf1) eqn:Eg. destruct (get_spec _ _ _ _ _ Hb Eg) as (G1 & G2 & G3). cbv zeta.
  rewrite G1. destruct (zlen buf <? (count + 1) * 2) eqn:El.
  - assert (Lr : zlen (buf1 ++ zrepeat 0 ((count + 1) * 2 - zlen buf)) = (count + 1) * 2) by (rewrite zlen_app, zlen_repeat, G1; lia).
    assert (Hb2 : 1 <= zlen (buf1 ++ zrepeat 0 ((count + 1) * 2 - zlen buf))) by lia.
    specialize (IH _ Hb2 Hts'). destruct (title ts _) as [(s & buf')| | | |]; auto. destruct IH as ((v' & t' & I1 & I2) & I3). split; [|lia]. exists v', t'. split; [now right|exact I2].
  - destruct (upd_split buf1 count 0) as (r & U1 & U2); [lia|]. rewrite U1.
    assert (A : exists s, zfirstn count buf1 = s /\ ~ In 0 s /\ s = if match v with TFail => true | _ => false end then [] else t).
    { assert (G : (count + 1) * 2 <= zlen buf) by lia. specialize (G3 G). clear G. destruct v; [destruct G3 as (_ & G3)..|]; try (exists t; splits; auto; fail).
      subst count. exists []. splits; auto. }
    destruct A as (s & A1 & A2 & A3). rewrite A1 in *. rewrite cstr_ok by exact A2. cbn [bind]. split; [|lia]. exists v, t. split; [now left|exact A3].
Qed.

(** *** The title command *)
Definition visible (bs : list Z) : Prop := Forall (fun b => 32 <= b) bs.
Lemma cont_of_vis x : 32 <= cont_of x. Proof. unfold cont_of. lia. Qed.
Lemma encode_vis c : 32 <= c -> visible (encodeUtf8 c).
Proof.
  intros H. unfold encodeUtf8, visible. cbv zeta. destruct (c <? 0x80); [repeat constructor; auto|].
  rewrite ?b6_eq, ?lead2_eq, ?lead3_eq, ?lead4_eq.
  destruct (c <? 0x800); [|destruct (c <? 0x10000); [destruct (_ && _)|destruct (c <? 0x110000)]]; repeat constructor; auto using cont_of_vis; lia.
Qed.
Lemma pair_vis a b : 0xD800 <= a <= 0xDBFF -> 0xDC00 <= b <= 0xDFFF -> 32 <= decodeSurrogatePair a b.
Proof. intros Ha Hb. unfold decodeSurrogatePair. rewrite Z.shiftl_mul_pow2 by lia. change (2^10) with 1024. unfold u32. rewrite wrapu_small; lia. Qed.
Lemma wide_vis_n n : forall w, (length w <= n)%nat -> Forall (fun u => 32 <= u < 65536) w -> visible (utf8FromWide w).
Proof.
  induction n as [|n IH]; intros [|a w] Hl Hw; cbn [length] in Hl; try lia; try (constructor; fail).
  inversion Hw as [|? ? Ha Hw']; subst. cbn [utf8FromWide]. destruct ((0xD800 <=? a) && (a <=? 0xDBFF)) eqn:E1.
  - destruct w as [|b w]; [apply encode_vis; lia|]. inversion Hw' as [|? ? Hb Hw'']; subst. destruct ((0xDC00 <=? b) && (b <=? 0xDFFF)) eqn:E2.
    + apply Forall_app. split; [apply encode_vis, pair_vis; lia|]. apply IH; [cbn [length] in Hl; lia|assumption].
    + apply Forall_app. split; [apply encode_vis; lia|]. apply IH; [cbn [length] in *; lia|assumption].
  - destruct ((0xDC00 <=? a) && (a <=? 0xDFFF)); (apply Forall_app; split; [apply encode_vis; lia|apply IH; [lia|assumption]]).
Qed.
Lemma until_nul_vis bs : Forall (fun b => b <> 0) bs -> until_nul bs = bs.
Proof. induction 1 as [|b bs Hb H IH]; cbn [until_nul]; [reflexivity|]. rewrite IH. now replace (b =? 0) with false by lia. Qed.
Lemma until_bel_vis bs : visible bs -> until_bel (bs ++ [7]) = Some bs.
Proof.
  induction 1 as [|b bs Hb H IH]; cbn [app until_bel]; [reflexivity|]. replace (b =? 7) with false by lia. replace (b <? 32) with false by lia. now rewrite IH.
Qed.
Theorem command_read t : Forall (fun u => 32 <= u < 65536) t -> read_title_command (title_command t) = Some (utf8FromWide t).
Proof.
  intros H. pose proof (wide_vis_n _ _ (Nat.le_refl _) H) as V. unfold title_command. rewrite until_nul_vis.
  - cbn [app read_title_command]. now apply until_bel_vis.
  - apply Forall_app. split; [repeat constructor; lia|]. apply Forall_app. split; [|repeat constructor; lia]. revert V. apply Forall_impl. intros; lia.
Qed.

(** *** Histories *)
Lemma changes_snoc prev ts t : changes prev (ts ++ [t]) = changes prev ts ++ (if list_eqb t (last ts prev) then [] else [t]).
Proof.
  revert prev; induction ts as [|u ts IH]; intros prev; cbn [app changes].
  - cbn [last]. destruct (list_eqb t prev); reflexivity.
  - rewrite IH. assert (E : last (u :: ts) prev = last ts u) by (clear; revert u prev; induction ts as [|x ts IH]; intros u prev; [reflexivity|]; change (last (x :: ts) prev = last (x :: ts) u); rewrite !IH; reflexivity).
    rewrite E. destruct (list_eqb u prev); reflexivity.
Qed.
Lemma poll_titles_snoc es e : poll_titles (es ++ [e]) = poll_titles es ++ match e with APoll i => [pi_title i] | _ => [] end.
Proof. unfold poll_titles. rewrite flat_map_app. cbn. now rewrite app_nil_r. Qed.

Lemma other_frame e a a' : st a -> astep a e = Ok a' -> (forall i, e <> APoll i) ->
  segments SrcTitle a' = segments SrcTitle a /\ a_title a' = a_title a /\ a_plain a' = a_plain a /\ a_closing a' = a_closing a /\ (a_closing a = true -> a_exitAfter a' = a_exitAfter a).
Proof.
  intros S H N. destruct e as [i|s k|s k|cr au ex|ops eops| |].
  - exfalso. now apply (N i).
  - destruct (service_frame _ _ _ _ H S) as (F1 & F2 & F3 & F4 & F5 & F6). auto 6.
  - cbn [astep] in H. destruct (a_conerr a) as [q|] eqn:Eq; [|injection H as <-; auto 6].
    apply bind_Ok in H. destruct H as ((did & p) & Hv & H). cbv zeta in H.
    assert (S1 : st (with_err a (Some p) (a_eterm a) [])).
    { destruct S as (A1 & A2 & A3 & A4). unfold st. cbn. rewrite !app_nil_r. rewrite Eq in A2, A4. splits; auto; [eapply pok_service; eauto|]. intros _. apply A4. discriminate. }
    destruct did; [|injection H as <-; cbn; auto 6]. destruct (auto_spec _ _ _ S1 H) as (_ & (R1 & R2 & R3 & R4 & R5 & R6 & R7 & R8 & R9 & R10) & _).
    unfold segments. rewrite R3, R4, R6, R9, R10. auto 6.
  - cbn [astep] in H. apply bind_Ok in H. destruct H as (u1 & H1 & H). apply bind_Ok in H. destruct H as (u2 & H2 & H). injection H as <-.
    destruct (a_closing a) eqn:Ec; [discriminate|]. destruct cr; cbn; splits; auto; congruence.
  - cbn [astep] in H. apply bind_Ok in H. destruct H as (a1 & H1 & H2). destruct (term_ops_spec _ _ _ S H1) as (t' & _ & S1 & O1 & _ & _ & T & T2 & _).
    destruct (eterm_ops_spec _ _ _ S1 H2) as (S2 & O2 & _ & T3 & T4 & _). destruct (outop_trans _ _ _ O1 O2) as (F & _). unfold flags in F. injection F as F1 F2 F3 F4 F5 F6.
    splits; auto; try congruence. unfold segments. rewrite T4, T2, filter_app, map_app. cbn. apply app_nil_r.
  - cbn [astep] in H. unfold sendDsr in H. destruct (negb (a_plain a) && np_open (a_conout a)).
    + assert (Nt : SrcDsr <> SrcTerm) by discriminate. destruct (write_out_spec _ _ _ _ S Nt H) as (S2 & (F & _) & _ & _ & T & T2 & _). unfold flags in F. injection F as F1 F2 F3 F4 F5 F6.
      splits; auto. unfold segments. rewrite T2, filter_app, map_app. cbn. apply app_nil_r.
    + injection H as <-. auto 6.
  - cbn [astep] in H. injection H as <-. cbn. auto 6.
Qed.

Theorem titles pl uc ce c1 c2 es a : Forall scraper_only es -> arun es (ainit pl uc ce c1 c2) = Ok a ->
  a_plain a = pl /\
  exists es1 es2, es = es1 ++ es2 /\ a_title a = last (poll_titles es1) [32] /\ (a_closing a = false -> es2 = []) /\ (a_closing a = true -> shutting_down es1 (a_exitAfter a)) /\
    (np_open (a_conout a) = true -> segments SrcTitle a = if pl then [] else map title_command (changes [32] (poll_titles es1))) /\
    (pl = true -> segments SrcTitle a = []).
Proof.
  revert a; induction es as [|e es IH] using rev_ind; intros a F H.
  { injection H as <-. split; [reflexivity|]. exists [], []. cbn. splits; auto; try discriminate. destruct pl; reflexivity. }
  destruct (arun_snoc _ _ _ _ H) as (a1 & H1 & H2). pose proof (conout_close _ _ _ _ _ _ _ _ _ F H1 H2) as (_ & _ & C3 & _). pose proof F as Fall.
  apply Forall_app in F as (F1 & _). destruct (IH _ F1 H1) as (IHp & es1 & es2 & -> & T1 & T2 & T3 & T4 & T5). pose proof (run_inv _ _ _ _ _ _ _ F1 H1) as I1.
  pose proof (run_inv _ _ _ _ _ _ _ Fall H) as I2.
  assert (Ho : np_open (a_conout a) = true -> np_open (a_conout a1) = true) by (intros O; destruct (np_open (a_conout a1)); auto; rewrite C3 in O by reflexivity; discriminate).
  assert (Dec : (forall i, e <> APoll i) \/ exists i, e = APoll i) by (destruct e; [right; eauto|left; intros; discriminate..]).
  destruct Dec as [N|(i & ->)].
  - destruct (other_frame _ _ _ (proj1 I1) H2 N) as (G1 & G2 & G3 & G4 & G5). split; [congruence|]. destruct (a_closing a1) eqn:Ec.
    + exists es1, (es2 ++ [e]). rewrite G1, G2, G4, (G5 eq_refl). splits; auto; try congruence. now rewrite app_assoc.
    + rewrite (T2 eq_refl) in *. rewrite app_nil_r in *. exists (es1 ++ [e]), []. rewrite poll_titles_snoc. replace (match e with APoll i => [pi_title i] | _ => [] end) with (@nil (list Z)) by (destruct e; auto; exfalso; eapply N; reflexivity).
      rewrite !app_nil_r, G1, G2, G4. splits; auto; congruence.
  - cbn [astep] in H2. destruct (poll_spec _ _ _ (proj1 I1) H2) as (_ & P1 & P2 & _ & P4 & _ & _ & _ & _ & _ & _ & _ & _ & Q & _). split; [congruence|].
    destruct (a_closing a1) eqn:Ec.
    + destruct Q as (_ & _ & Q3 & Q4 & _). exists es1, (es2 ++ [APoll i]). rewrite P2, P4, Q3, Q4. unfold poll_closing. rewrite Ec. cbn [orb]. splits; auto; try congruence. now rewrite app_assoc.
    + destruct Q as (_ & _ & Q3 & Q4 & _). rewrite (T2 eq_refl) in *. rewrite app_nil_r in *. exists (es1 ++ [APoll i]), []. rewrite poll_titles_snoc, !app_nil_r, Q3, Q4. splits; auto.
      * now rewrite last_last.
      * intros C. destruct I2 as (_ & _ & _ & I4 & _). now apply I4.
      * intros O. specialize (Ho O). rewrite T4 by exact Ho. unfold title_segs. rewrite T1, IHp, Ho. destruct pl; cbn [negb andb]; [now destruct (list_eqb _ _)|].
        rewrite changes_snoc, map_app. f_equal. destruct (list_eqb _ _); reflexivity.
      * intros X. rewrite T5 by exact X. unfold title_segs. rewrite IHp, X. cbn. now destruct (list_eqb _ _).
Qed.

(** *** Shutting down is a matter of the history *)
Lemma poll_flags i a a' : st a -> astep a (APoll i) = Ok a' -> a_closing a' = poll_closing i a /\ a_auto a' = a_auto a /\ a_exitAfter a' = a_exitAfter a /\ a_child a' = (a_child a && negb (a_auto a && pi_exited i)).
Proof. intros S H. destruct (poll_spec _ _ _ S H) as (_ & _ & P2 & P3 & P4 & P5 & _). auto. Qed.
Lemma other_flags e a a' : st a -> astep a e = Ok a' -> (forall i, e <> APoll i) -> (forall au ex, e <> AStart true au ex) ->
  a_closing a' = a_closing a /\ a_auto a' = a_auto a /\ a_exitAfter a' = a_exitAfter a /\ a_child a' = a_child a.
Proof.
  intros S H N N2. destruct e as [i|s k|s k|cr au ex|ops eops| |].
  - exfalso. now apply (N i).
  - cbn [astep] in H. apply bind_Ok in H. destruct H as ((did & p) & Hv & H). cbv zeta in H.
    assert (S1 : st (with_out a p [])).
    { destruct S as (A1 & A2 & A3 & A4). unfold st. rewrite conout_bytes_app, segments_app. cbn. rewrite !app_nil_r. splits; auto. eapply pok_service; eauto. }
    destruct did; [|injection H as <-; auto]. destruct (auto_spec _ _ _ S1 H) as (_ & (R1 & R2 & R3 & R4 & R5 & R6 & R7 & R8 & R9 & R10) & _). auto.
  - cbn [astep] in H. destruct (a_conerr a) as [q|] eqn:Eq; [|injection H as <-; auto].
    apply bind_Ok in H. destruct H as ((did & p) & Hv & H). cbv zeta in H.
    assert (S1 : st (with_err a (Some p) (a_eterm a) [])).
    { destruct S as (A1 & A2 & A3 & A4). unfold st. cbn. rewrite !app_nil_r. rewrite Eq in A2, A4. splits; auto; [eapply pok_service; eauto|]. intros _. apply A4. discriminate. }
    destruct did; [|injection H as <-; cbn; auto]. destruct (auto_spec _ _ _ S1 H) as (_ & (R1 & R2 & R3 & R4 & R5 & R6 & R7 & R8 & R9 & R10) & _). auto.
  - cbn [astep] in H. apply bind_Ok in H. destruct H as (u1 & H1 & H). apply bind_Ok in H. destruct H as (u2 & H2 & H). injection H as <-.
    destruct cr; [exfalso; eapply N2; reflexivity|auto].
  - cbn [astep] in H. apply bind_Ok in H. destruct H as (a1 & H1 & H2). destruct (term_ops_spec _ _ _ S H1) as (t' & _ & S1 & O1 & _).
    destruct (eterm_ops_spec _ _ _ S1 H2) as (S2 & O2 & _). destruct (outop_trans _ _ _ O1 O2) as (F & _). unfold flags in F. injection F as F1 F2 F3 F4 F5 F6. auto.
  - cbn [astep] in H. unfold sendDsr in H. destruct (negb (a_plain a) && np_open (a_conout a)).
    + assert (Nt : SrcDsr <> SrcTerm) by discriminate. destruct (write_out_spec _ _ _ _ S Nt H) as (S2 & (F & _) & _). unfold flags in F. injection F as F1 F2 F3 F4 F5 F6. auto.
    + injection H as <-. auto.
  - cbn [astep] in H. injection H as <-. auto.
Qed.
Lemma start_refused a au ex a' : astep a (AStart true au ex) = Ok a' -> a_child a = false /\ a_closing a = false /\ a_child a' = true /\ a_auto a' = au /\ a_exitAfter a' = ex.
Proof.
  cbn [astep]. intros H. apply bind_Ok in H. destruct H as (u1 & H1 & H). apply bind_Ok in H. destruct H as (u2 & H2 & H). injection H as <-.
  destruct (a_child a); [discriminate|]. destruct (a_closing a); [discriminate|]. auto.
Qed.
Lemma started pl uc ce c1 c2 es a x : Forall scraper_only es -> arun es (ainit pl uc ce c1 c2) = Ok a -> In (AStart true true x) es ->
  a_auto a = true /\ a_exitAfter a = x /\ (a_child a = true \/ a_closing a = true).
Proof.
  revert a; induction es as [|e es IH] using rev_ind; intros a F H Hi; [contradiction|].
  destruct (arun_snoc _ _ _ _ H) as (a1 & H1 & H2). apply Forall_app in F as (F1 & _). pose proof (run_inv _ _ _ _ _ _ _ F1 H1) as I1.
  assert (Dec : (exists i, e = APoll i) \/ (exists au ex, e = AStart true au ex) \/ ((forall i, e <> APoll i) /\ forall au ex, e <> AStart true au ex)).
  { destruct e as [i|s k|s k|cr au ex|ops eops| |]; [left; eauto| | |destruct cr; [right; left; eauto|]| | |]; right; right; split; intros; discriminate. }
  apply in_app_iff in Hi as [Hi|[->|[]]].
  - destruct (IH _ F1 H1 Hi) as (A1 & A2 & A3). destruct Dec as [(i & ->)|[(au & ex & ->)|(N1 & N2)]].
    + destruct (poll_flags _ _ _ (proj1 I1) H2) as (P1 & P2 & P3 & P4). rewrite P1, P2, P3, P4. splits; auto. unfold poll_closing. rewrite A1.
      destruct A3 as [A3|A3]; rewrite A3; cbn; [|right; reflexivity]. destruct (pi_exited i); [right; apply orb_true_r|left; reflexivity].
    + destruct (start_refused _ _ _ _ H2) as (X1 & X2 & _). destruct A3; congruence.
    + destruct (other_flags _ _ _ (proj1 I1) H2 N1 N2) as (P1 & P2 & P3 & P4). rewrite P1, P2, P3, P4. auto.
  - destruct (start_refused _ _ _ _ H2) as (X1 & X2 & X3 & X4 & X5). auto.
Qed.
Lemma shutting_down_closing pl uc ce c1 c2 es a x : Forall scraper_only es -> arun es (ainit pl uc ce c1 c2) = Ok a -> shutting_down es x -> a_closing a = true /\ a_exitAfter a = x.
Proof.
  intros F H (es1 & es2 & i & es3 & -> & Hx). split.
  2: { eapply started; eauto. apply in_or_app. right. now left. }
  revert a H F. induction es3 as [|e es3 IH] using rev_ind; intros a H F.
  - replace (es1 ++ AStart true true x :: es2 ++ [APoll i]) with ((es1 ++ AStart true true x :: es2) ++ [APoll i]) in H, F by (now rewrite <- app_assoc).
    destruct (arun_snoc _ _ _ _ H) as (a1 & H1 & H2). apply Forall_app in F as (F1 & _). pose proof (run_inv _ _ _ _ _ _ _ F1 H1) as I1.
    destruct (started _ _ _ _ _ _ _ x F1 H1) as (A1 & _ & A3); [apply in_or_app; right; now left|]. destruct (poll_flags _ _ _ (proj1 I1) H2) as (P1 & _). rewrite P1. unfold poll_closing. rewrite A1, Hx.
    destruct A3 as [A3|A3]; rewrite A3; [apply orb_true_r|reflexivity].
  - replace (es1 ++ AStart true true x :: es2 ++ APoll i :: es3 ++ [e]) with ((es1 ++ AStart true true x :: es2 ++ APoll i :: es3) ++ [e]) in H, F by (rewrite <- app_assoc; cbn; rewrite <- app_assoc; reflexivity).
    destruct (arun_snoc _ _ _ _ H) as (a1 & H1 & H2). apply Forall_app in F as (F1 & _). pose proof (run_inv _ _ _ _ _ _ _ F1 H1) as I1. specialize (IH _ H1 F1).
    assert (Dec : (exists j, e = APoll j) \/ forall j, e <> APoll j) by (destruct e; [left; eauto|right; intros; discriminate..]).
    destruct Dec as [(j & ->)|N]; [|destruct (other_frame _ _ _ (proj1 I1) H2 N) as (_ & _ & _ & G & _); congruence].
    destruct (poll_flags _ _ _ (proj1 I1) H2) as (P1 & _). rewrite P1. unfold poll_closing. now rewrite IH.
Qed.
Lemma not_shutting_closing pl uc ce c1 c2 es a : Forall scraper_only es -> arun es (ainit pl uc ce c1 c2) = Ok a -> (forall x, ~ shutting_down es x) -> a_closing a = false.
Proof.
  intros F H N. destruct (a_closing a) eqn:E; [|reflexivity]. destruct (run_inv _ _ _ _ _ _ _ F H) as (_ & _ & _ & I4 & _). destruct (I4 E) as (X & _). exfalso. exact (N _ X).
Qed.
