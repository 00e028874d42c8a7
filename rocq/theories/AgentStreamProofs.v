(** What the agent's output streams are made of. *)
From Verif Require Import Base BaseLemmas Text NamedPipe NamedPipeSpec ConsoleLine Terminal TerminalSpec TerminalInject AgentLoop AgentLoopSpec AgentLoopProofs.
Ltac splits := repeat match goal with |- _ /\ _ => split end.

Section Pieces.
Variables plain uc : bool.
Definition made (es : list aev) (bs : list Z) : Prop := exists ps, bs = concat ps /\ Forall (allowed_piece plain uc es) ps.
Lemma made_app es a b : made es a -> made es b -> made es (a ++ b).
Proof. intros (p & -> & P) (q & -> & Q). exists (p ++ q). rewrite concat_app. split; [reflexivity|]. apply Forall_app. auto. Qed.
Lemma made_clean es bs : clean_stream (finals plain uc) bs -> made es bs.
Proof. intros (p & -> & P). exists p. split; [reflexivity|]. eapply Forall_impl; [|exact P]. intros s [H|H]; [left; exact H|right; left; exact H]. Qed.
Lemma made_one es bs : allowed_piece plain uc es bs -> made es bs.
Proof. intros H. exists [bs]. cbn. rewrite app_nil_r. auto. Qed.
Lemma made_more es e bs : made es bs -> made (es ++ [e]) bs.
Proof.
  intros (p & -> & P). exists p. split; [reflexivity|]. eapply Forall_impl; [|exact P]. intros s [H|[H|(H & [K|(t & I & K)])]]; [left; exact H|right; left; exact H|right; right; auto|].
  right; right. split; [exact H|]. right. exists t. split; [|exact K]. unfold poll_titles in *. rewrite flat_map_app. apply in_or_app. auto.
Qed.
Definition ainv (es : list aev) (a : agent) : Prop :=
  a_plain a = plain /\ t_plain (a_term a) = plain /\ t_useColor (a_term a) = uc /\ t_plain (a_eterm a) = plain /\ t_useColor (a_eterm a) = uc /\
  made es (conout_bytes a) /\ clean_stream (finals plain uc) (a_err a).
Lemma i_write es src bs a a' : ainv es a -> made es bs -> write_out src bs a = Ok a' -> ainv es a' /\ a_term a' = a_term a.
Proof.
  intros (A & B & C & D & F & G & H) M E. unfold write_out in E. apply bind_Ok in E. destruct E as (p & _ & E). injection E as <-. split; [|reflexivity]. unfold ainv. rewrite conout_bytes_app. cbn. splits; auto. rewrite app_nil_r. now apply made_app.
Qed.
Lemma i_term es ops a a' : ainv es a -> Forall top_wf ops -> term_ops ops a = Ok a' -> ainv es a'.
Proof.
  intros I W E. pose proof I as (A & B & C & _). unfold term_ops in E. apply bind_Ok in E. destruct E as (t & R & E). apply bind_Ok in E. destruct E as (b & E1 & E). injection E as <-.
  destruct (ops_add _ _ _ W R) as (P1 & P2 & w & Ew & Cw). unfold new_output in E1. rewrite Ew in E1. rewrite zskipn_app_exact in E1 by reflexivity. rewrite B, C in Cw.
  destruct (i_write es _ _ _ _ I (made_clean es w Cw) E1) as ((A1 & B1 & C1 & D1 & F1 & G1 & H1) & _). unfold ainv. cbn. splits; auto; congruence.
Qed.
Lemma i_eterm es ops a a' : ainv es a -> Forall top_wf ops -> eterm_ops ops a = Ok a' -> ainv es a'.
Proof.
  intros I W E. pose proof I as (A & B & C & D & F & G & H). unfold eterm_ops in E. destruct (a_conerr a) as [p|]; [|injection E as <-; exact I]. apply bind_Ok in E. destruct E as (t & R & E). cbv zeta in E. apply bind_Ok in E. destruct E as (q & _ & E). injection E as <-.
  destruct (ops_add _ _ _ W R) as (P1 & P2 & w & Ew & Cw). unfold ainv. cbn. unfold new_output. rewrite Ew. rewrite zskipn_app_exact by reflexivity. rewrite D, F in Cw. splits; auto; try congruence. now apply cs_app.
Qed.
Lemma i_auto es k a a' : ainv es a -> autoClosePipesForShutdown k a = Ok a' -> ainv es a'.
Proof.
  intros I E. unfold autoClosePipesForShutdown in E. destruct (a_closing a); [|injection E as <-; exact I]. apply bind_Ok in E. destruct E as (p & _ & E). cbv zeta in E. apply bind_Ok in E. destruct E as (b & E1 & E). injection E as <-.
  assert (I1 : ainv es (with_out a p [])). { destruct I as (A & B & C & D & F & G & H). unfold ainv. rewrite conout_bytes_app. cbn. rewrite app_nil_r. splits; auto. }
  assert (I2 : ainv es b).
  { cbn [a_conerr with_out] in E1. destruct (a_conerr a) as [q|]; [|injection E1 as <-; exact I1]. apply bind_Ok in E1. destruct E1 as (q2 & _ & E1). injection E1 as <-. destruct I1 as (A & B & C & D & F & G & H). unfold ainv. splits; try assumption. cbn. rewrite app_nil_r. exact H. }
  destruct (_ && _); exact I2.
Qed.
Lemma i_title es t a a' : ainv es a -> In t (poll_titles es) -> syncConsoleTitle t a = Ok a' -> ainv es a'.
Proof.
  intros I T E. unfold syncConsoleTitle in E. destruct (list_eqb t (a_title a)); [injection E as <-; exact I|]. apply bind_Ok in E. destruct E as (b & E1 & E). injection E as <-.
  assert (I2 : ainv es b); [|exact I2]. destruct (negb (a_plain a) && np_open (a_conout a)) eqn:Ep; [|injection E1 as <-; exact I]. apply andb_true_iff in Ep as (Ep & _). apply negb_true_iff in Ep.
  apply (i_write es SrcTitle (title_command t) a b I); [|exact E1]. apply made_one. right; right. pose proof I as (A & _). split; [congruence|]. right. eauto.
Qed.
Lemma i_step es e a a' : ainv es a -> event_wf e -> astep a e = Ok a' -> ainv (es ++ [e]) a'.
Proof.
  intros I0 W E. assert (I : ainv (es ++ [e]) a) by (destruct I0 as (A & B & C & D & F & G & H); unfold ainv; splits; auto using made_more). clear I0.
  destruct e as [i|s k|s k|c au x|ops eops| |]; cbn [astep event_wf] in *.
  - destruct W as (W1 & W2). unfold onPollTimeout in E. cbv zeta in E. set (a0 := if a_auto a && a_child a && pi_exited i then _ else a) in E.
    assert (J0 : ainv (es ++ [APoll i]) a0) by (unfold a0; destruct (_ && _); exact I). clearbody a0. apply bind_Ok in E. destruct E as (b & E1 & E). apply bind_Ok in E. destruct E as (d & E2 & E3).
    eapply i_auto; [|exact E3]. refine (i_term _ _ _ _ _ _ E2); [|constructor; [exact Logic.I|constructor]]. destruct (negb (a_closing a)); [|injection E1 as <-; exact J0].
    apply bind_Ok in E1. destruct E1 as (f & F1 & E1). apply bind_Ok in E1. destruct E1 as (g & F2 & F3). eapply i_eterm; [|exact W2|exact F3]. eapply i_term; [|exact W1|exact F2].
    eapply i_title; [exact J0| |exact F1]. unfold poll_titles. rewrite flat_map_app. apply in_or_app. right. left. reflexivity.
  - apply bind_Ok in E. destruct E as ((did & p) & _ & E). cbv zeta in E.
    assert (I1 : ainv (es ++ [AOutIo s k]) (with_out a p [])). { destruct I as (A & B & C & D & F & G & H). unfold ainv. rewrite conout_bytes_app. cbn. rewrite app_nil_r. splits; auto. }
    destruct did; [eapply i_auto; eauto|injection E as <-; exact I1].
  - destruct (a_conerr a) as [q|]; [|injection E as <-; exact I]. apply bind_Ok in E. destruct E as ((did & p) & _ & E). cbv zeta in E.
    assert (I1 : ainv (es ++ [AErrIo s k]) (with_err a (Some p) (a_eterm a) [])). { destruct I as (A & B & C & D & F & G & H). unfold ainv. splits; try assumption. cbn. rewrite app_nil_r. exact H. }
    destruct did; [eapply i_auto; eauto|injection E as <-; exact I1].
  - apply bind_Ok in E. destruct E as (_ & _ & E). apply bind_Ok in E. destruct E as (_ & _ & E). injection E as <-. destruct c; exact I.
  - destruct W as (W1 & W2). apply bind_Ok in E. destruct E as (b & E1 & E2). eapply i_eterm; [|exact W2|exact E2]. exact (i_term _ _ _ _ I W1 E1).
  - unfold sendDsr in E. destruct (negb (a_plain a) && np_open (a_conout a)) eqn:Ep; [|injection E as <-; exact I]. apply andb_true_iff in Ep as (Ep & _). apply negb_true_iff in Ep.
    apply (i_write _ SrcDsr _ a a' I) in E; [exact (proj1 E)|]. apply made_one. right; right. pose proof I as (A & _). split; [congruence|]. left. reflexivity.
  - injection E as <-. exact I.
Qed.
Lemma i_run es2 : forall es a a', ainv es a -> Forall event_wf es2 -> arun es2 a = Ok a' -> ainv (es ++ es2) a'.
Proof.
  induction es2 as [|e es2 IH]; intros es a a' I W H; cbn [arun] in H; [injection H as <-; rewrite app_nil_r; exact I|]. inversion W as [|? ? W1 W2]; subst. apply bind_Ok in H. destruct H as (b & E & H).
  replace (es ++ e :: es2) with ((es ++ [e]) ++ es2) by now rewrite <- app_assoc. eapply IH; [eapply i_step; eauto|exact W2|exact H].
Qed.
Theorem streams ce c1 c2 es a : Forall event_wf es -> arun es (ainit plain uc ce c1 c2) = Ok a -> made es (conout_bytes a) /\ clean_stream (finals plain uc) (a_err a).
Proof.
  intros W H. assert (I : ainv [] (ainit plain uc ce c1 c2)). { unfold ainv. cbn. splits; auto; [exists []; auto|exists []; auto]. }
  destruct (i_run es [] _ _ I W H) as (_ & _ & _ & _ & _ & A & B). auto.
Qed.
End Pieces.
