From Verif Require Import Base BaseLemmas Text Strings StringsSpec StringsProofs ShowInput ShowInputProofs Assertion AssertionSpec.

Ltac splits := repeat match goal with |- _ /\ _ => split end.

Lemma text_ok file line cond : 0 <= line < 2 ^ 31 -> exists t, assertText file line cond = Ok t /\ tells_failure file line cond t.
Proof.
  intros L. unfold assertText. destruct (put_dec_ok true 4 line ltac:(lia)) as (d & -> & D); [unfold int_range; cbn; lia|].
  cbn [bind]. eexists. split; [reflexivity|]. unfold decimal in D. destruct (Z.ltb_spec line 0); [lia|]. exists d. split; [exact D|reflexivity].
Qed.

Lemma first_app (l : list aev) : posted_first l -> forall t, posted_first (ATrace t :: l).
Proof.
  intros P t a ms b E. destruct a as [|x a]; [discriminate E|]. cbn [app] in E. assert (E2 : l = a ++ ASleep ms :: b) by congruence. right. exact (P a ms b E2).
Qed.

Lemma shut_ok os l f : agentShutdown os = (l, f) -> shut_down os l f.
Proof.
  unfold agentShutdown, shut_down, WM_CLOSE. intros E.
  destruct (ao_window os).
  - destruct (ao_closes os); inversion E; subst l f; clear E; splits; try (cbn; lia); try (cbn; intuition discriminate); try (cbn [ended]; exact Logic.I).
    + intros [|x [|y a]] ms b E; [discriminate E|injection E as <- _ _; left; reflexivity|injection E as <- _ E; left; reflexivity].
    + intros [|x a] ms b E; [discriminate E|injection E as <- _; left; reflexivity].
    + intros c _. exists [APost 16; ASleep 30000]. eexists. reflexivity.
  - inversion E; subst l f; clear E; splits; try (cbn; lia); try (cbn; intuition discriminate).
    + intros [|x [|y a]] ms b E; discriminate E.
    + intros c _. exists []. eexists. reflexivity.
Qed.

Lemma shut_trace os l f t : shut_down os l f -> shut_down os (ATrace t :: l) f.
Proof.
  intros (A & B & C & D & E & F & G & H). red; splits; auto.
  - intros [X|X]; [discriminate X|exact (B X)].
  - apply first_app. exact D.
  - cbn [paused fold_right]. exact (proj1 E).
  - cbn [paused fold_right]. exact (proj2 E).
  - intros h [X|X]; [discriminate X|exact (G h X)].
  - intros c Q. destruct (H c Q) as (l' & u & ->). exists (ATrace t :: l'), u. reflexivity.
Qed.

Lemma agent_ok os file line cond : 0 <= line < 2 ^ 31 ->
  exists t l f, agentAssert os false file line cond = Ok (ATrace t :: l, f) /\ tells_failure file line cond t /\ shut_down os l f.
Proof.
  intros L. destruct (text_ok file line cond L) as (t & E & T). unfold agentAssert. cbn [negb]. rewrite E. cbn [bind].
  destruct (agentShutdown os) as [l f] eqn:S. exists t, l, f. splits; auto. exact (shut_ok os l f S).
Qed.

Lemma lib_ok os file line cond : 0 <= line < 2 ^ 31 ->
  exists t l f, libAssert os false file line cond = Ok (ATrace t :: l, f) /\ tells_failure file line cond t /\ f <> GoesOn /\
    (ao_frozen os = false -> ended f).
Proof.
  intros L. destruct (text_ok file line cond L) as (t & E & T). unfold libAssert, abort. cbn [negb]. rewrite E. cbn [bind].
  destruct (ao_ndebug os), (ao_frozen os); cbn [app]; do 3 eexists; splits; try reflexivity; try exact T; try discriminate; try (intros Q; first [discriminate Q|exact Logic.I]).
Qed.

Lemma end_ok os child : exists l f, agentEnd os child = (ATrace (str "Agent::~Agent entered") :: l, f) /\ shut_down os l f.
Proof.
  unfold agentEnd. destruct (agentShutdown os) as [l f] eqn:S. assert (K := shut_ok os l f S). exists l, f. split; [|exact K].
  destruct f; try reflexivity. destruct K as (K & _). destruct K.
Qed.
