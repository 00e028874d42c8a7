From Verif Require Import Base BaseLemmas Text DebugFlag DebugFlagSpec.

Ltac splits := repeat match goal with |- _ /\ _ => split end.
Lemma is_prefix_spec p s : is_prefix p s = true <-> exists r, s = p ++ r.
Proof.
  revert s; induction p as [|x p IH]; intros s; cbn; [split; eauto|].
  destruct s as [|y s]; [split; [discriminate|intros (r & E); discriminate]|].
  rewrite andb_true_iff, Z.eqb_eq, IH. split; [intros (-> & r & ->); eauto|intros (r & E); injection E as -> ->; eauto].
Qed.
Lemma find_spec p s : find p s = true <-> exists a b, s = a ++ p ++ b.
Proof.
  induction s as [|c s IH]; cbn [find]; rewrite orb_true_iff, is_prefix_spec.
  - split.
    + intros [(r & E)|H]; [|discriminate]. exists [], r. exact E.
    + intros (a & b & E). left. exists b. destruct a; [exact E|discriminate].
  - rewrite IH. split.
    + intros [(r & E)|(a & b & E)]; [exists [], r; exact E|exists (c :: a), b; now rewrite E].
    + intros (a & b & E). destruct a as [|x a]; [left; exists b; exact E|right; injection E as -> E; eauto].
Qed.

Lemma items_nocomma s : ~ In 44 s -> items s = [s].
Proof.
  induction s as [|c s IH]; intros N; [reflexivity|]. cbn [items]. destruct (c =? 44) eqn:E; [apply Z.eqb_eq in E; subst; exfalso; apply N; now left|].
  rewrite IH; [reflexivity|]. intros H. apply N. now right.
Qed.
Lemma items_cut i s : ~ In 44 i -> items (i ++ 44 :: s) = i :: items s.
Proof.
  induction i as [|c i IH]; intros N; [reflexivity|]. cbn [app items]. destruct (c =? 44) eqn:E; [apply Z.eqb_eq in E; subst; exfalso; apply N; now left|].
  rewrite IH; [reflexivity|]. intros H. apply N. now right.
Qed.
Lemma items_app a s : items (a ++ 44 :: s) = items a ++ items s.
Proof.
  induction a as [|c a IH]; [reflexivity|]. cbn [app items]. destruct (c =? 44); [now rewrite IH|]. rewrite IH.
  destruct (items a) as [|i r] eqn:E; [|reflexivity]. destruct a as [|x a]; [discriminate|]. cbn [items] in E. destruct (x =? 44); [discriminate|]. destruct (items a); discriminate.
Qed.
Lemma items_in i s : In i (items s) -> ~ In 44 i.
Proof.
  revert i; induction s as [|c s IH]; intros i H; cbn [items] in H.
  - destruct H as [<-|[]]. auto.
  - destruct (c =? 44) eqn:E; [destruct H as [<-|H]; [auto|now apply IH]|].
    destruct (items s) as [|j r] eqn:F.
    + destruct H as [<-|[]]. intros [X|[]]. lia.
    + destruct H as [<-|H]; [|now apply IH; right]. intros [X|X]; [lia|]. apply (IH j); [now left|exact X].
Qed.
Lemma items_join s : flat_map (cons 44) (items s) = 44 :: s.
Proof.
  induction s as [|c s IH]; [reflexivity|]. cbn [items]. destruct (c =? 44) eqn:E.
  - apply Z.eqb_eq in E. subst c. cbn [flat_map app]. now rewrite IH.
  - destruct (items s) as [|i r] eqn:F; [discriminate IH|]. cbn [flat_map app] in *. injection IH as IH. now rewrite IH.
Qed.
Lemma items_starts l : exists b, flat_map (cons 44) l ++ [44] = 44 :: b.
Proof. destruct l as [|i l]; cbn; eauto. Qed.
Lemma items_find i s : ~ In 44 i -> find (44 :: i ++ [44]) (44 :: s ++ [44]) = true <-> In i (items s).
Proof.
  intros N. rewrite find_spec. split.
  - intros (a & b & E). change (44 :: s ++ [44]) with ((44 :: s) ++ [44]) in E.
    assert (X : exists b', 44 :: s = a ++ 44 :: i ++ b' /\ (b' = [] \/ exists b'', b' = 44 :: b'')).
    { destruct (list_eq_dec Z.eq_dec b []) as [->|Nb].
      - rewrite app_nil_r in E. change (44 :: i ++ [44]) with ((44 :: i) ++ [44]) in E. rewrite app_assoc in E. apply app_inj_tail in E as (E & _).
        exists []. rewrite app_nil_r. auto.
      - destruct (exists_last Nb) as (b' & x & ->). replace (a ++ (44 :: i ++ [44]) ++ b' ++ [x]) with ((a ++ 44 :: i ++ 44 :: b') ++ [x]) in E by (cbn; rewrite <- !app_assoc; cbn; rewrite <- !app_assoc; reflexivity).
        apply app_inj_tail in E as (E & _). exists (44 :: b'). eauto. }
    destruct X as (b' & E' & D). destruct a as [|y a]; cbn [app] in E'; [injection E' as Es|injection E' as _ Es]; rewrite Es; clear Es E.
    + destruct D as [->|(b'' & ->)]; [rewrite app_nil_r, items_nocomma by auto; now left|]. rewrite items_cut by auto. now left.
    + rewrite items_app. apply in_or_app. right. destruct D as [->|(b'' & ->)]; [rewrite app_nil_r, items_nocomma by auto; now left|]. rewrite items_cut by auto. now left.
  - intros H. apply in_split in H as (l1 & l2 & E). change (44 :: s ++ [44]) with ((44 :: s) ++ [44]). rewrite <- items_join, E, flat_map_app. cbn [flat_map].
    destruct (items_starts l2) as (b & B). exists (flat_map (cons 44) l1), b. rewrite <- !app_assoc, B. cbn. rewrite <- !app_assoc. reflexivity.
Qed.

Lemma flag_ok_spec f : flag_ok f = true <-> ~ In 44 f.
Proof.
  unfold flag_ok. rewrite negb_true_iff. split.
  - intros E H. assert (existsb (Z.eqb comma) f = true); [|congruence]. apply existsb_exists. exists 44. auto.
  - intros N. destruct (existsb (Z.eqb comma) f) eqn:E; [|reflexivity]. apply existsb_exists in E as (x & H & E). apply Z.eqb_eq in E. subst x. contradiction.
Qed.
Lemma config_spec v : exists c, config_of_env v = Ok c /\ (c = [] \/ v = Some c /\ 0 < zlen c < 256) /\
  (forall f, ~ In 44 f -> flag_in_config c f = true <-> In f (flags_of v)).
Proof.
  unfold config_of_env, getenv, flags_of. destruct v as [s|]; [|exists []; cbn; splits; auto; intros; split; [discriminate|contradiction]].
  pose proof (zlen_nonneg s) as P. destruct (zlen s + 1 <=? 256) eqn:E.
  - destruct (zlen s =? 0) eqn:E0; cbn [orb].
    + exists []. cbn. splits; auto. intros; split; [discriminate|contradiction].
    + destruct (256 <=? zlen s) eqn:E1; [lia|]. exists s. splits; auto; [right; split; [auto|lia]|].
      intros f N. unfold flag_in_config. destruct s as [|c s]; [cbn in E0; discriminate|]. now apply items_find.
  - destruct (zlen s + 1 =? 0) eqn:E0; [lia|]. destruct (256 <=? zlen s + 1) eqn:E1; [|lia]. cbn [orb]. exists []. splits; auto.
    intros f N. destruct (zlen s =? 0) eqn:E2; [lia|]. destruct (256 <=? zlen s) eqn:E3; [|lia]. cbn. split; [discriminate|contradiction].
Qed.
Lemma lone v f : ~ In 44 f -> exists b, lone_flag v f = Ok b /\ (b = true <-> In f (flags_of v)).
Proof.
  intros N. destruct (config_spec v) as (c & E & _ & H). unfold lone_flag, hasDebugFlag. rewrite E. cbn [bind]. rewrite (proj2 (flag_ok_spec f) N). cbn. eauto.
Qed.

(** *** Threads *)
Definition seen (es : list dev) (v : env_var) (c : list Z) := exists w, In w (envs es v) /\ config_of_env w = Ok c.
Definition pc_ok (g : option (list Z)) (S : list Z -> Prop) (p : pc) : Prop :=
  match p with
  | PHave c => S c
  | PSwapped => g <> None
  | PDone c => g = Some c
  | _ => True
  end.
Definition dinv (S : list Z -> Prop) (s : dstate) : Prop :=
  Forall (pc_ok (d_global s) S) (d_threads s) /\ (forall c, d_global s = Some c -> S c).
Lemma upd_forall {A} (P : A -> Prop) l i a l' : Forall P l -> P a -> upd_nat l i a = Some l' -> Forall P l'.
Proof.
  revert i l'; induction l as [|x l IH]; intros i l' F Pa; [discriminate|]. apply Forall_cons_iff in F as (F1 & F2). destruct i; cbn; [intros [= <-]; auto|].
  destruct (upd_nat l i a) eqn:E; [|discriminate]. intros [= <-]. constructor; eauto.
Qed.
Lemma dstep_inv (S : list Z -> Prop) s e s' : dinv S s -> (forall c, config_of_env (d_env s) = Ok c -> S c) -> dstep s e = Ok s' ->
  dinv S s' /\ (d_global s <> None -> d_global s' = d_global s).
Proof.
  intros (I1 & I2) HS. destruct e as [|t|w]; cbn [dstep].
  - intros [= <-]. split; [|auto]. split; [|auto]. cbn. apply Forall_app. split; [auto|]. constructor; [exact I|constructor].
  - destruct (znth (d_threads s) t) as [p|] eqn:En; [|intros [= <-]; split; [split|]; auto].
    assert (Pp : pc_ok (d_global s) S p).
    { unfold znth in En. destruct (t <? 0); [discriminate|]. apply nth_error_In in En. rewrite Forall_forall in I1. now apply I1. }
    intros H. apply bind_Ok in H. destruct H as ((g & p') & H1 & H2). destruct (zupd (d_threads s) t p') as [l|] eqn:Eu; [|discriminate]. injection H2 as <-. cbn [d_global d_threads].
    unfold zupd in Eu. destruct (t <? 0); [discriminate|].
    destruct p as [| |c| |c]; cbn [thread_step] in H1.
    + injection H1 as <- <-. split; [|auto]. split; [|auto]. cbn. refine (upd_forall _ _ _ _ _ I1 _ Eu). destruct (d_global s); cbn; [discriminate|auto].
    + apply bind_Ok in H1. destruct H1 as (c & C1 & C2). injection C2 as <- <-. split; [|auto]. split; [|auto]. refine (upd_forall _ _ _ _ _ I1 _ Eu). cbn. auto.
    + injection H1 as <- <-. destruct (d_global s) as [x|] eqn:Eg.
      * split; [|auto]. split; [|auto]. refine (upd_forall _ _ _ _ _ I1 _ Eu). cbn. discriminate.
      * split; [|congruence]. cbn in Pp. split; cbn; [|intros ? [= <-]; exact Pp]. refine (upd_forall (pc_ok (Some c) S) _ _ _ _ _ _ Eu); [|cbn; discriminate].
        eapply Forall_impl; [|exact I1]. intros q Q. destruct q; cbn in *; auto; congruence.
    + destruct (d_global s) as [x|] eqn:Eg; [|discriminate]. injection H1 as <- <-. split; [|auto]. split; [|auto]. refine (upd_forall _ _ _ _ _ I1 _ Eu). reflexivity.
    + injection H1 as <- <-. split; [|auto]. split; [|auto]. refine (upd_forall _ _ _ _ _ I1 _ Eu). exact Pp.
  - intros [= <-]. split; [|auto]. split; auto.
Qed.
Lemma dstep_total (S : list Z -> Prop) s e : dinv S s -> exists s', dstep s e = Ok s'.
Proof.
  intros (I1 & I2). destruct e as [|t|w]; cbn [dstep]; eauto. destruct (znth (d_threads s) t) as [p|] eqn:En; [|eauto].
  assert (Pp : pc_ok (d_global s) S p).
  { unfold znth in En. destruct (t <? 0); [discriminate|]. apply nth_error_In in En. rewrite Forall_forall in I1. now apply I1. }
  assert (exists gp, thread_step (d_global s) (d_env s) p = Ok gp) as ((g & p') & Et).
  { destruct p as [| |c| |c]; cbn [thread_step]; eauto.
    - destruct (config_spec (d_env s)) as (c & -> & _). cbn. eauto.
    - cbn in Pp. destruct (d_global s); [eauto|congruence]. }
  rewrite Et. cbn [bind]. unfold znth in En. unfold zupd. destruct (t <? 0); [discriminate|].
  assert (nth_error (d_threads s) (Z.to_nat t) <> None) as X by congruence. apply nth_error_Some in X.
  destruct (upd_nat_some (d_threads s) (Z.to_nat t) p' X) as (l & -> & _). eauto.
Qed.
Lemma drun_inv (S : list Z -> Prop) es : forall s, dinv S s -> (forall w c, In w (envs es (d_env s)) -> config_of_env w = Ok c -> S c) ->
  exists s', drun es s = Ok s' /\ dinv S s' /\ (d_global s <> None -> d_global s' = d_global s).
Proof.
  induction es as [|e es IH]; intros s Iv HS; [exists s; auto|]. cbn [drun].
  destruct (dstep_total S s e Iv) as (s1 & E1). rewrite E1. cbn [bind].
  assert (X1 : forall c, config_of_env (d_env s) = Ok c -> S c).
  { intros c. apply HS. destruct e; cbn; auto; clear; destruct es as [|[] es]; cbn; auto;
    match goal with |- In ?v (envs ?l ?v) => induction l as [|[] l IHl]; cbn; auto end. }
  destruct (dstep_inv S s e s1 Iv X1 E1) as (Iv1 & G1).
  destruct (IH s1 Iv1) as (s2 & E2 & Iv2 & G2).
  { intros w c Hw. apply HS. destruct e as [|t|w']; cbn [envs]; cbn [dstep] in E1.
    - injection E1 as <-. exact Hw.
    - assert (d_env s1 = d_env s) as <-; [|exact Hw]. destruct (znth (d_threads s) t); [|now injection E1 as <-]. apply bind_Ok in E1. destruct E1 as ((g & p') & _ & E1). destruct (zupd _ _ _); [|discriminate]. now injection E1 as <-.
    - injection E1 as <-. right. exact Hw. }
  exists s2. splits; auto. intros N. rewrite G2; [auto|]. rewrite (G1 N). exact N.
Qed.
Lemma all_agree v es : exists s, drun es (dinit v) = Ok s /\
  forall c c', In (PDone c) (d_threads s) -> In (PDone c') (d_threads s) -> c = c' /\ seen es v c.
Proof.
  destruct (drun_inv (seen es v) es (dinit v)) as (s & E & (I1 & I2) & _).
  - split; cbn; [constructor|discriminate].
  - intros w c Hw Hc. exists w. auto.
  - exists s. split; [exact E|]. intros c c' H H'. rewrite Forall_forall in I1. pose proof (I1 _ H) as P. pose proof (I1 _ H') as P'. cbn in P, P'. split; [congruence|auto].
Qed.
Lemma agree_for_ever v es es' c : forall s s', drun es (dinit v) = Ok s -> In (PDone c) (d_threads s) -> drun es' s = Ok s' -> forall c', In (PDone c') (d_threads s') -> c' = c.
Proof.
  intros s s' H1 Hc H2 c' Hc'.
  assert (T : dinv (fun _ => True) s).
  { destruct (drun_inv (fun _ => True) es (dinit v)) as (s0 & E & I0 & _); auto; [split; cbn; [constructor|auto]|]. congruence. }
  destruct (drun_inv (fun _ => True) es' s T) as (s1 & E & (I1 & _) & G); auto. assert (s1 = s') as -> by congruence.
  destruct T as (T1 & _). rewrite Forall_forall in T1, I1. pose proof (T1 _ Hc) as P. pose proof (I1 _ Hc') as P'. cbn in P, P'. rewrite G in P' by congruence. congruence.
Qed.

Definition rank (p : pc) : Z := match p with PStart => 4 | PMiss => 3 | PHave _ => 2 | PSwapped => 1 | PDone _ => 0 end.
Lemma thread_rank g env p g' p' : thread_step g env p = Ok (g', p') -> rank p' <= Z.max 0 (rank p - 1).
Proof.
  destruct p as [| |m| |r]; cbn [thread_step].
  - destruct g; intros [= <- <-]; cbn; lia.
  - destruct (config_of_env env); cbn [bind]; try discriminate. intros [= <- <-]. cbn. lia.
  - destruct g; intros [= <- <-]; cbn; lia.
  - destruct g; [|discriminate]. intros [= <- <-]. cbn. lia.
  - intros [= <- <-]. cbn. lia.
Qed.
Lemma dstep_rank s e s' t p : dstep s e = Ok s' -> znth (d_threads s) t = Some p ->
  exists p', znth (d_threads s') t = Some p' /\ rank p' <= Z.max 0 (rank p - turns t [e]).
Proof.
  intros H Hp. pose proof (znth_range _ _ _ Hp) as Hr. assert (Rp : 0 <= rank p) by (destruct p; cbn; lia). destruct e as [|u|w]; cbn [dstep turns] in *.
  - injection H as <-. cbn [d_threads]. exists p. split; [rewrite znth_app_l by lia; exact Hp|lia].
  - destruct (znth (d_threads s) u) as [q|] eqn:Eu.
    + destruct (thread_step (d_global s) (d_env s) q) as [[g' q']|e| | |] eqn:Et; cbn [bind] in H; try discriminate.
      pose proof (znth_range _ _ _ Eu) as Hu. destruct (zupd_some (d_threads s) u q' ltac:(lia)) as (l & Z1 & Z2 & Z3). rewrite Z1 in H. injection H as <-. cbn [d_threads].
      rewrite Z3. destruct (t =? u) eqn:Etu.
      * assert (t = u) as -> by lia. rewrite Z.eqb_refl. exists q'. split; [reflexivity|]. rewrite Eu in Hp. injection Hp as ->. pose proof (thread_rank _ _ _ _ _ Et). lia.
      * exists p. split; [exact Hp|]. replace (u =? t) with false by lia. lia.
    + injection H as <-. exists p. split; [exact Hp|]. replace (u =? t) with false by (destruct (u =? t) eqn:E; [assert (u = t) by lia; congruence|reflexivity]). lia.
  - injection H as <-. exists p. split; [exact Hp|lia].
Qed.
Lemma turns_nonneg t es : 0 <= turns t es.
Proof. induction es as [|[|u|w] es IH]; cbn [turns]; try lia. destruct (u =? t); lia. Qed.
Lemma drun_rank t es : forall s s' p, drun es s = Ok s' -> znth (d_threads s) t = Some p ->
  exists p', znth (d_threads s') t = Some p' /\ rank p' <= Z.max 0 (rank p - turns t es).
Proof.
  induction es as [|e es IH]; intros s s' p H Hp.
  - injection H as <-. exists p. split; [exact Hp|cbn [turns]; lia].
  - cbn [drun] in H. destruct (dstep s e) as [s1|x| | |] eqn:E; cbn [bind] in H; try discriminate. destruct (dstep_rank s e s1 t p E Hp) as (p1 & P1 & R1).
    destruct (IH s1 s' p1 H P1) as (p' & P2 & R2). exists p'. split; [exact P2|]. assert (T : turns t (e :: es) = turns t [e] + turns t es) by (destruct e; cbn [turns]; lia). pose proof (turns_nonneg t es). lia.
Qed.
Lemma answered s s' es t : drun es s = Ok s' -> 0 <= t < zlen (d_threads s) -> 4 <= turns t es -> exists c, znth (d_threads s') t = Some (PDone c).
Proof.
  intros H Ht Hn. destruct (znth_some (d_threads s) t Ht) as (p & Hp). destruct (drun_rank t es s s' p H Hp) as (p' & P & R).
  assert (rank p <= 4) by (destruct p; cbn; lia). destruct p'; cbn [rank] in R; try lia. eauto.
Qed.
