(** The agent's event handlers never fail. *)
From Verif Require Import Base BaseLemmas Text NamedPipe NamedPipeSpec NamedPipeProofs ConsoleLine Terminal TerminalSpec TerminalTotal AgentLoop AgentLoopSpec AgentLoopProofs AgentTitleProofs.
Ltac splits := repeat match goal with |- _ /\ _ => split end.

Definition good_pipe (p : pipe) : Prop := exists wr, pok p wr.
Definition good_agent (a : agent) : Prop :=
  good_pipe (a_conout a) /\ match a_conerr a with None => True | Some q => good_pipe q end /\ fine (a_term a) /\ fine (a_eterm a).
Definition same_child (a a' : agent) : Prop := a_child a' = a_child a /\ a_closing a' = a_closing a.

Lemma gp_write p d : good_pipe p -> exists q, np_write d p = Ok q /\ good_pipe q.
Proof. intros (wr & H). destruct (np_write_ok p d (proj2 (proj2 (proj2 H)))) as (q & E). exists q. split; [exact E|]. exists (wr ++ d). exact (proj1 (pok_write _ _ _ _ H E)). Qed.
Lemma gp_auto k p : good_pipe p -> exists q, autoClose1 k p = Ok q /\ good_pipe q.
Proof.
  intros (wr & H). assert (X : exists q, autoClose1 k p = Ok q).
  { unfold autoClose1. destruct (isConnected p); [|eauto]. unfold bytesToSend. rewrite (proj2 (proj2 (proj2 H))). cbn. eauto. }
  destruct X as (q & E). exists q. split; [exact E|]. exists wr. exact (proj1 (autoClose1_spec _ _ _ _ H E)).
Qed.
Lemma gp_service s p : good_pipe p -> full_writes s -> exists b q, serviceIo s p = Ok (b, q) /\ good_pipe q.
Proof.
  intros (wr & H) F. destruct (serviceIo_ok s p (proj1 H) F) as ((b & q) & E). exists b, q. split; [exact E|]. exists wr. exact (pok_service _ _ _ _ _ H E).
Qed.
Lemma ga_write src bs a : good_agent a -> exists a', write_out src bs a = Ok a' /\ good_agent a' /\ same_child a a' /\ a_term a' = a_term a.
Proof.
  intros (P & Q & T & U). destruct (gp_write _ bs P) as (q & E & G). unfold write_out. rewrite E. cbn [bind]. eexists. split; [reflexivity|]. unfold good_agent, same_child. cbn. auto.
Qed.
Lemma ga_term ops a : good_agent a -> Forall top_sized ops -> exists a', term_ops ops a = Ok a' /\ good_agent a' /\ same_child a a'.
Proof.
  intros G S. pose proof G as (_ & _ & T & _). unfold term_ops. destruct (@ops_total unit ops _ T S) as (t & -> & F). cbn [bind].
  destruct (ga_write SrcTerm (new_output (a_term a) t) a G) as (a1 & -> & (A & B & C & D) & S1 & _). cbn [bind]. eexists. split; [reflexivity|]. unfold good_agent, same_child. cbn. auto.
Qed.
Lemma ga_eterm ops a : good_agent a -> Forall top_sized ops -> exists a', eterm_ops ops a = Ok a' /\ good_agent a' /\ same_child a a'.
Proof.
  intros G S. pose proof G as (A & B & C & D). unfold eterm_ops. destruct (a_conerr a) as [p|]; [|exists a; unfold same_child; auto].
  destruct (@ops_total unit ops _ D S) as (t & -> & F). cbn [bind]. cbv zeta. destruct (gp_write p (new_output (a_eterm a) t) B) as (q & -> & Q). cbn [bind].
  eexists. split; [reflexivity|]. unfold good_agent, same_child. cbn. auto.
Qed.
Lemma ga_auto k a : good_agent a -> exists a', autoClosePipesForShutdown k a = Ok a' /\ good_agent a' /\ same_child a a'.
Proof.
  intros (A & B & C & D). unfold autoClosePipesForShutdown. destruct (a_closing a) eqn:Ec; [|exists a; unfold good_agent, same_child; splits; auto].
  destruct (gp_auto k _ A) as (p & -> & P). cbn [bind]. cbv zeta. cbn [a_conerr with_out].
  assert (X : exists a2, (match a_conerr a with None => Ok (with_out a p []) | Some q => let! q := autoClose1 k q in Ok (with_err (with_out a p []) (Some q) (a_eterm (with_out a p [])) []) end) = Ok a2 /\ good_agent a2 /\ same_child a a2).
  { destruct (a_conerr a) as [q|] eqn:Eq.
    - destruct (gp_auto k q B) as (q2 & -> & Q). cbn [bind]. eexists. split; [reflexivity|]. unfold good_agent, same_child. cbn. auto.
    - eexists. split; [reflexivity|]. unfold good_agent, same_child. cbn. rewrite Eq. auto. }
  destruct X as (a2 & -> & G & S). cbn [bind]. eexists. split; [reflexivity|]. destruct (a_exitAfter a2 && _ && _); [split; [exact G|exact S]|auto].
Qed.
Lemma ga_title t a : good_agent a -> exists a', syncConsoleTitle t a = Ok a' /\ good_agent a' /\ same_child a a'.
Proof.
  intros G. unfold syncConsoleTitle. destruct (list_eqb t (a_title a)); [exists a; unfold same_child; auto|].
  assert (X : exists a1, (if negb (a_plain a) && np_open (a_conout a) then write_out SrcTitle (title_command t) a else Ok a) = Ok a1 /\ good_agent a1 /\ same_child a a1).
  { destruct (negb (a_plain a) && _); [|exists a; unfold same_child; auto]. destruct (ga_write SrcTitle (title_command t) a G) as (a1 & E & G1 & S1 & _). eauto. }
  destruct X as (a1 & -> & G1 & S1). cbn [bind]. eexists. split; [reflexivity|]. auto.
Qed.
Lemma sc_trans a b c : same_child a b -> same_child b c -> same_child a c.
Proof. unfold same_child. intros (A & B) (C & D). split; congruence. Qed.
(** After a poll, a child is known or the pipes are being closed only if that was so before. *)
Lemma ga_poll i a : good_agent a -> Forall top_sized (pi_ops i) -> Forall top_sized (pi_eops i) ->
  exists a', onPollTimeout i a = Ok a' /\ good_agent a' /\ (a_child a' || a_closing a' = true -> a_child a || a_closing a = true).
Proof.
  intros G S1 S2. unfold onPollTimeout. cbv zeta. set (a0 := if a_auto a && a_child a && pi_exited i then _ else a).
  assert (G0 : good_agent a0 /\ (a_child a0 || a_closing a0 = true -> a_child a || a_closing a = true)).
  { unfold a0. destruct (a_auto a && a_child a && pi_exited i) eqn:E; [|auto]. split; [exact G|]. intros _. apply andb_true_iff in E as (E & _). apply andb_true_iff in E as (_ & ->). reflexivity. }
  clearbody a0. destruct G0 as (G0 & H0).
  assert (X : exists a1, (if negb (a_closing a) then let! a := syncConsoleTitle (pi_title i) a0 in let! a := term_ops (pi_ops i) a in eterm_ops (pi_eops i) a else Ok a0) = Ok a1 /\ good_agent a1 /\ same_child a0 a1).
  { destruct (negb (a_closing a)); [|exists a0; unfold same_child; auto]. destruct (ga_title (pi_title i) a0 G0) as (b & -> & G1 & C1). cbn [bind].
    destruct (ga_term (pi_ops i) b G1 S1) as (c & -> & G2 & C2). cbn [bind]. destruct (ga_eterm (pi_eops i) c G2 S2) as (d & -> & G3 & C3). exists d. splits; auto.
    eapply sc_trans; [exact C1|]. eapply sc_trans; eauto. }
  destruct X as (a1 & -> & G1 & C1). cbn [bind].
  destruct (ga_term [TMouse (pi_mouse i && negb (a_closing a1))] a1 G1 ltac:(repeat constructor)) as (a2 & -> & G2 & C2). cbn [bind].
  destruct (ga_auto (pi_k i) a2 G2) as (a3 & E3 & G3 & C3). exists a3. split; [exact E3|]. split; [exact G3|]. destruct (sc_trans _ _ _ C1 (sc_trans _ _ _ C2 C3)) as (-> & ->). exact H0.
Qed.
Definition is_start (e : aev) : bool := match e with AStart _ _ _ => true | _ => false end.
Definition succeeded (e : aev) : bool := match e with AStart c _ _ => c | _ => false end.
Lemma ga_step e a : good_agent a -> event_ok e -> (is_start e = true -> a_child a || a_closing a = false) ->
  exists a', astep a e = Ok a' /\ good_agent a' /\ (a_child a' || a_closing a' = true -> a_child a || a_closing a = true \/ succeeded e = true).
Proof.
  intros G K H. destruct e as [i|s k|s k|c au x|ops eops| |]; cbn [astep event_ok] in *.
  - destruct K as (K1 & K2). destruct (ga_poll i a G K1 K2) as (a' & E & G' & C). exists a'. splits; auto.
  - pose proof G as (A & B & C & D). destruct (gp_service s _ A K) as (b & q & -> & Q). cbn [bind]. cbv zeta.
    assert (G1 : good_agent (with_out a q [])) by (unfold good_agent; cbn; auto).
    destruct b; [|eexists; split; [reflexivity|]; split; [exact G1|]; cbn; auto].
    destruct (ga_auto k _ G1) as (a' & E & G' & (C1 & C2)). exists a'. split; [exact E|]. split; [exact G'|]. rewrite C1, C2. cbn. auto.
  - pose proof G as (A & B & C & D). destruct (a_conerr a) as [p|] eqn:Ep; [|exists a; auto].
    destruct (gp_service s p B K) as (b & q & -> & Q). cbn [bind]. cbv zeta.
    assert (G1 : good_agent (with_err a (Some q) (a_eterm a) [])) by (unfold good_agent; cbn; auto).
    destruct b; [|eexists; split; [reflexivity|]; split; [exact G1|]; cbn; auto].
    destruct (ga_auto k _ G1) as (a' & E & G' & (C1 & C2)). exists a'. split; [exact E|]. split; [exact G'|]. rewrite C1, C2. cbn. auto.
  - specialize (H eq_refl). apply orb_false_iff in H as (H1 & H2). rewrite H1, H2. cbn [negb assert_ bind]. eexists. split; [reflexivity|].
    destruct c; [split; [exact G|]; cbn; auto|]. split; [exact G|]. rewrite H1, H2. discriminate.
  - destruct K as (K1 & K2). destruct (ga_term ops a G K1) as (b & -> & G1 & C1). cbn [bind]. destruct (ga_eterm eops b G1 K2) as (c & E & G2 & C2). exists c. split; [exact E|]. split; [exact G2|].
    destruct (sc_trans _ _ _ C1 C2) as (-> & ->). auto.
  - unfold sendDsr. destruct (negb (a_plain a) && _); [|exists a; auto]. destruct (ga_write SrcDsr [27; 91; 54; 110] a G) as (b & E & G1 & (C1 & C2) & _). exists b. splits; auto. rewrite C1, C2. auto.
  - eexists. split; [reflexivity|]. split; [exact G|]. auto.
Qed.
Lemma ga_run es : forall a, good_agent a -> Forall event_ok es -> started_once es -> (a_child a || a_closing a = true -> forall e, In e es -> is_start e = false) ->
  exists a', arun es a = Ok a' /\ good_agent a'.
Proof.
  induction es as [|e es IH]; intros a G K O H; [exists a; auto|]. inversion K as [|? ? K1 K2]; subst. cbn [arun].
  destruct (ga_step e a G K1) as (a1 & E1 & G1 & C1).
  { intros S. destruct (a_child a || a_closing a); [|reflexivity]. rewrite (H eq_refl e (or_introl eq_refl)) in S. discriminate. }
  rewrite E1. cbn [bind]. apply IH; auto.
  - intros es1 au x es2 c au' x' -> I. exact (O (e :: es1) au x es2 c au' x' eq_refl I).
  - intros C e' I'. destruct (C1 C) as [C'|S]; [exact (H C' e' (or_intror I'))|].
    destruct e' as [| | |c au' x'| | |]; try reflexivity. destruct e as [| | |c0 au x| | |]; try discriminate S. cbn in S. subst c0. destruct (O [] au x es c au' x' eq_refl I').
Qed.
Theorem agent_total pl uc ce c1 c2 es : Forall event_ok es -> started_once es -> exists a, arun es (ainit pl uc ce c1 c2) = Ok a.
Proof.
  intros K O. destruct (ga_run es (ainit pl uc ce c1 c2)) as (a & E & _); auto.
  - unfold good_agent. cbn. splits.
    + exists []. apply fresh_pok.
    + destruct ce; [|exact I]. exists []. apply fresh_pok.
    + apply new_fine.
    + apply new_fine.
  - cbn. discriminate.
  - eauto.
Qed.

(** *** Once the child is gone and the clients read, everything is sent and the agent exits *)
(** [n]: how often the pipe has been serviced since; [o]: it was open at the start *)
Definition prog (p : pipe) (wr : list Z) (n : Z) (o : bool) : Prop :=
  pok p wr /\ 0 <= n /\ (np_open p = true -> (0 < n -> np_connecting p = false) /\ unsent p <= Z.max 0 (zlen wr - n)) /\ (np_open p = false -> o = true -> np_sent p = wr).
Lemma prog_start p wr : pok p wr -> prog p wr 0 (np_open p).
Proof.
  intros P. unfold prog. splits; auto; try lia; try congruence. intros O. split; [lia|]. pose proof P as (_ & Oi & _). unfold out_inv in Oi. rewrite O in Oi. rewrite <- Oi, !zlen_app.
  unfold unsent. pose proof (zlen_nonneg (np_sent p)). lia.
Qed.
Lemma prog_service s p wr n o : prog p wr n o -> draining s -> exists b q, serviceIo s p = Ok (b, q) /\ prog q wr (n + 1) o.
Proof.
  intros (P & N & A & B) D. pose proof D as (_ & D2 & _ & _ & D5).
  destruct (serviceIo_ok s p (proj1 P)) as ((b & q) & E); [split; [exact D2|congruence]|]. exists b, q. split; [exact E|]. pose proof (pok_service _ _ _ _ _ P E) as Q.
  destruct (np_open p) eqn:O.
  - pose proof P as (W & _ & _ & Wr). destruct (draining_step _ _ _ _ W O Wr D E) as (O1 & _ & _ & U & _). destruct (A eq_refl) as (_ & A2).
    unfold prog. splits; auto; try lia; [|congruence]. intros _. split; [intros _; exact (service_connected _ _ _ _ W D5 E)|lia].
  - pose proof (service_closed _ _ _ _ O E) as ->. unfold prog. splits; auto; try lia. congruence.
Qed.
Lemma prog_auto k p wr n o : prog p wr n o -> exists q, autoClose1 k p = Ok q /\ prog q wr n o /\ (zlen wr < n -> np_open q = false).
Proof.
  intros (P & N & A & B). destruct (gp_auto k p (ex_intro _ wr P)) as (q & E & _). exists q. split; [exact E|].
  destruct (autoClose1_spec _ _ _ _ P E) as (Q & C1 & C2 & C3). destruct (np_open p) eqn:O.
  - destruct (A eq_refl) as (A1 & A2). split.
    + unfold prog. splits; auto.
      * intros O1. assert (q = p) as ->; [|auto]. unfold autoClose1 in E. destruct (isConnected p); [|congruence]. apply bind_Ok in E. destruct E as (m & _ & E). injection E as <-. destruct (m =? 0); [|reflexivity]. rewrite close_closes in O1. discriminate.
      * intros O1 _. exact (proj2 (proj2 (C2 eq_refl O1))).
    + intros L. pose proof (zlen_nonneg wr). apply C3; auto; [apply A1; lia|]. apply unsent_sent; auto. lia.
  - rewrite (C1 eq_refl). split; [|auto]. unfold prog. splits; auto; congruence.
Qed.
Definition eprog (c : option pipe) (we : list Z) (m : Z) (oe : option bool) : Prop :=
  match c, oe with Some q, Some o => prog q we m o | None, None => True | _, _ => False end.
Definition fin (a : agent) (wr we : list Z) (n m : Z) (o : bool) (oe : option bool) (x : bool) : Prop :=
  a_closing a = true /\ t_mouse (a_term a) = false /\ a_exitAfter a = x /\ prog (a_conout a) wr n o /\ eprog (a_conerr a) we m oe.
Lemma fin_auto k a wr we n m o oe x : fin a wr we n m o oe x -> exists a', autoClosePipesForShutdown k a = Ok a' /\ fin a' wr we n m o oe x /\
  (zlen wr < n -> np_open (a_conout a') = false) /\ (zlen we < m -> match a_conerr a' with Some q => np_open q = false | None => True end) /\
  (zlen wr < n -> (a_conerr a = None \/ zlen we < m) -> x = true -> a_exiting a' = true).
Proof.
  intros (C & M & X & P & Q). unfold autoClosePipesForShutdown. rewrite C. destruct (prog_auto k _ _ _ _ P) as (p & -> & P1 & P2). cbn [bind]. cbv zeta. cbn [a_conerr with_out].
  set (b := with_out a p []). unfold eprog in Q.
  assert (Y : exists b2, (match a_conerr a with None => Ok b | Some q => let! q := autoClose1 k q in Ok (with_err b (Some q) (a_eterm b) []) end) = Ok b2 /\
    fin b2 wr we n m o oe x /\ a_conout b2 = p /\ (a_conerr a = None -> a_conerr b2 = None) /\ (zlen we < m -> match a_conerr b2 with Some q => np_open q = false | None => True end)).
  { destruct (a_conerr a) as [q|] eqn:Eq, oe as [oe|]; try contradiction.
    - destruct (prog_auto k _ _ _ _ Q) as (q2 & -> & Q1 & Q2). cbn [bind]. eexists. split; [reflexivity|]. unfold fin. cbn. splits; auto. discriminate.
    - eexists. split; [reflexivity|]. unfold fin. cbn. rewrite Eq. splits; auto. }
  destruct Y as (b2 & -> & F & Ep & En & Ee). cbn [bind]. eexists. split; [reflexivity|].
  assert (Z1 : forall z : bool, a_conout (if z then with_exiting b2 else b2) = p /\ a_conerr (if z then with_exiting b2 else b2) = a_conerr b2 /\ fin (if z then with_exiting b2 else b2) wr we n m o oe x).
  { intros []; cbn; splits; auto. }
  match goal with |- context [if ?z then with_exiting b2 else b2] => destruct (Z1 z) as (-> & -> & F2); set (zz := z) in * end. splits; auto.
  intros L1 L2 ->. pose proof F as (_ & _ & X2 & _). assert (zz = true) as ->; [|reflexivity]. unfold zz. rewrite X2, Ep, (P2 L1). cbn [negb andb].
  destruct L2 as [L2|L2]; [rewrite (En L2); reflexivity|]. specialize (Ee L2). destruct (a_conerr b2); [rewrite Ee|]; reflexivity.
Qed.
Lemma write_nil p wr : pok p wr -> np_write [] p = Ok p.
Proof. intros (_ & _ & _ & W). unfold np_write. rewrite W. cbn. rewrite app_nil_r. destruct p; cbn in *; subst; reflexivity. Qed.
Lemma fin_poll i a wr we n m o oe x : fin a wr we n m o oe x -> exists a', onPollTimeout i a = Ok a' /\ fin a' wr we n m o oe x /\
  (zlen wr < n -> np_open (a_conout a') = false) /\ (zlen we < m -> match a_conerr a' with Some q => np_open q = false | None => True end) /\
  (zlen wr < n -> (a_conerr a = None \/ zlen we < m) -> x = true -> a_exiting a' = true).
Proof.
  intros F. unfold onPollTimeout. cbv zeta. set (a0 := if a_auto a && a_child a && pi_exited i then _ else a).
  assert (F0 : fin a0 wr we n m o oe x /\ a_conerr a0 = a_conerr a) by (unfold a0; destruct (a_auto a && a_child a && pi_exited i); [destruct F as (C & F); split; [split; [reflexivity|exact F]|reflexivity]|auto]).
  clearbody a0. destruct F0 as (F0 & E0). rewrite <- E0. destruct F as (C & _). rewrite C. cbn [negb]. pose proof F0 as (C0 & M0 & X0 & P0 & Q0). cbn [bind].
  unfold term_ops at 1. rewrite C0, andb_false_r. cbn [run_tops run_top bind]. unfold enableMouseMode. rewrite M0. cbn [Bool.eqb orb].
  unfold new_output. rewrite zskipn_all by lia. unfold write_out. rewrite (write_nil _ wr (proj1 P0)). cbn [bind].
  match goal with |- context [autoClosePipesForShutdown _ ?z] => apply (fin_auto (pi_k i) z) end. unfold fin. cbn. splits; auto.
Qed.
Lemma fin_run es : forall a wr we n m o oe x, fin a wr we n m o oe x -> Forall client_reads es -> exists a', arun es a = Ok a' /\ fin a' wr we (n + zlen (filter is_out_io es)) (m + zlen (filter is_err_io es)) o oe x.
Proof.
  induction es as [|e es IH]; intros a wr we n m o oe x F K.
  - exists a. cbn [filter]. rewrite !zlen_nil, !Z.add_0_r. auto.
  - inversion K as [|? ? K1 K2]; subst. cbn [arun].
    assert (Y : exists a1, astep a e = Ok a1 /\ fin a1 wr we (n + (if is_out_io e then 1 else 0)) (m + (if is_err_io e then 1 else 0)) o oe x).
    { destruct e as [i|s k|s k|c au y|ops eops| |]; cbn [client_reads is_out_io is_err_io astep] in *; try contradiction; rewrite ?Z.add_0_r.
      - destruct (fin_poll i _ _ _ _ _ _ _ _ F) as (a1 & E & F1 & _). eauto.
      - destruct F as (C & M & X & P & Q). destruct (prog_service s _ _ _ _ P K1) as (b & q & -> & P1). cbn [bind]. cbv zeta.
        assert (F1 : fin (with_out a q []) wr we (n + 1) m o oe x) by (unfold fin; cbn; splits; auto).
        destruct b; [|eauto]. destruct (fin_auto k _ _ _ _ _ _ _ _ F1) as (a1 & E & F2 & _). eauto.
      - destruct F as (C & M & X & P & Q). unfold eprog in Q. destruct (a_conerr a) as [q0|] eqn:Eq, oe as [oe|]; try contradiction.
        + destruct (prog_service s _ _ _ _ Q K1) as (b & q & -> & P1). cbn [bind]. cbv zeta.
          assert (F1 : fin (with_err a (Some q) (a_eterm a) []) wr we n (m + 1) o (Some oe) x) by (unfold fin; cbn; splits; auto).
          destruct b; [|eauto]. destruct (fin_auto k _ _ _ _ _ _ _ _ F1) as (a1 & E & F2 & _). eauto.
        + exists a. split; [reflexivity|]. unfold fin. rewrite Eq. cbn. splits; auto. }
    destruct Y as (a1 & -> & F1). cbn [bind]. destruct (IH _ _ _ _ _ _ _ _ F1 K2) as (a' & E & F'). exists a'. split; [exact E|].
    cbn [filter]. destruct (is_out_io e), (is_err_io e); rewrite ?zlen_cons; match goal with |- fin _ _ _ ?u ?v _ _ _ => match type of F' with fin _ _ _ ?u' ?v' _ _ _ => replace u with u' by lia; replace v with v' by lia end end; exact F'.
Qed.
Theorem finishes pl uc ce c1 c2 es a es2 i x : Forall scraper_only es -> arun es (ainit pl uc ce c1 c2) = Ok a -> shutting_down es x ->
  Forall client_reads es2 -> zlen (conout_bytes a) < zlen (filter is_out_io es2) -> (a_conerr a <> None -> zlen (a_err a) < zlen (filter is_err_io es2)) ->
  exists a', arun (es2 ++ [APoll i]) a = Ok a' /\ np_open (a_conout a') = false /\ (np_open (a_conout a) = true -> np_sent (a_conout a') = conout_bytes a) /\
    (forall q, a_conerr a = Some q -> exists q', a_conerr a' = Some q' /\ np_open q' = false /\ (np_open q = true -> np_sent q' = a_err a)) /\ (x = true -> a_exiting a' = true).
Proof.
  intros F H Hs K L1 L2. destruct (shutting_down_closing _ _ _ _ _ _ _ x F H Hs) as (C & X). pose proof (run_inv _ _ _ _ _ _ _ F H) as ((S1 & S2 & _) & _ & _ & I4 & _).
  assert (F0 : fin a (conout_bytes a) (a_err a) 0 0 (np_open (a_conout a)) (option_map np_open (a_conerr a)) x).
  { unfold fin. splits; auto; [apply (I4 C)|apply prog_start; exact S1|]. unfold eprog. destruct (a_conerr a); cbn; [apply prog_start; exact S2|exact I]. }
  destruct (fin_run es2 _ _ _ _ _ _ _ _ F0 K) as (a1 & E1 & F1). rewrite !Z.add_0_l in F1. rewrite arun_app, E1. cbn [bind arun astep].
  destruct (fin_poll i _ _ _ _ _ _ _ _ F1) as (a' & -> & F2 & O1 & O2 & Ex). cbn [bind]. exists a'. split; [reflexivity|]. pose proof F2 as (_ & _ & _ & P & Q). unfold eprog in Q.
  splits.
  - auto.
  - intros O. apply P; auto.
  - intros q Eq. rewrite Eq in Q, L2. cbn [option_map] in Q. destruct (a_conerr a') as [q'|]; [|contradiction]. specialize (O2 (L2 ltac:(discriminate))). exists q'. splits; auto. intros O. apply Q; auto.
  - intros ->. apply Ex; auto. destruct F1 as (_ & _ & _ & _ & Q1). unfold eprog in Q1. destruct (a_conerr a) as [q|]; cbn [option_map] in Q1; [right; apply L2; discriminate|]. destruct (a_conerr a1); [contradiction|auto].
Qed.
