(** C39: the WINPTY_DEBUG flags. *)
From Verif Require Import Base Text DebugFlag DebugFlagSpec DebugFlagProofs.

(** C39: a flag is reported set exactly when it is an item of the variable; unset, empty
    and 256 bytes or more set nothing.  Flags never contain a comma (asking for one that
    does aborts). *)
Theorem C39_exact v f : ~ In 44 f -> exists b, lone_flag v f = Ok b /\ (b = true <-> In f (flags_of v)).
Proof. exact (lone v f). Qed.
Print Assumptions C39_exact.

(** C39, the items: they contain no comma, and joining them with commas gives the variable. *)
Theorem C39_items s : Forall (fun i => ~ In 44 i) (items s) /\ flat_map (cons 44) (items s) = 44 :: s.
Proof. split; [apply Forall_forall; intros i; apply items_in|exact (items_join s)]. Qed.
Print Assumptions C39_items.

(** C39: with any number of threads asking, in any interleaving and with the environment
    changed at any moment, every caller ever answered saw one and the same configuration,
    which is that of an environment in force at some moment before. *)
Theorem C39_threads v es : exists s, drun es (dinit v) = Ok s /\
  forall c c', In (PDone c) (d_threads s) -> In (PDone c') (d_threads s) ->
  c = c' /\ exists w, In w (envs es v) /\ config_of_env w = Ok c /\ forall f, ~ In 44 f -> flag_in_config c f = true <-> In f (flags_of w).
Proof.
  destruct (all_agree v es) as (s & E & H). exists s. split; [exact E|]. intros c c' H1 H2. destruct (H c c' H1 H2) as (-> & w & W1 & W2).
  split; [reflexivity|]. exists w. split; [exact W1|]. split; [exact W2|]. destruct (config_spec w) as (d & D1 & _ & D3). assert (d = c') as <- by congruence. exact D3.
Qed.
Print Assumptions C39_threads.

(** C39: and the answer stays for ever. *)
Theorem C39_stable v es es' s s' c : drun es (dinit v) = Ok s -> In (PDone c) (d_threads s) -> drun es' s = Ok s' ->
  forall c', In (PDone c') (d_threads s') -> c' = c.
Proof. intros H1 H2 H3. exact (agree_for_ever v es es' c s s' H1 H2 H3). Qed.
Print Assumptions C39_stable.

(** C39: and it comes: four steps of its own suffice for any caller, whatever the others do. *)
Theorem C39_answered v es es' s s' t : drun es (dinit v) = Ok s -> 0 <= t < zlen (d_threads s) -> drun es' s = Ok s' -> 4 <= turns t es' ->
  exists c, znth (d_threads s') t = Some (PDone c).
Proof. intros _ Ht H Hn. exact (answered s s' es' t H Ht Hn). Qed.
Print Assumptions C39_answered.

(** C39: tracing is on exactly if the variable has the item "trace" or the item "1". *)
Theorem C39_tracing v : exists c, config_of_env v = Ok c /\ (tracing c = true <-> In (str "trace") (flags_of v) \/ In (str "1") (flags_of v)).
Proof.
  assert (A : forall f, ~ In 44 f -> flag_ok f = true).
  { intros f H. unfold flag_ok. apply Bool.negb_true_iff. apply Bool.not_true_iff_false. intros E. apply existsb_exists in E as (x & H1 & H2). apply Z.eqb_eq in H2. subst x. exact (H H1). }
  assert (N1 : ~ In 44 (str "trace")) by (vm_compute; intuition discriminate). assert (N2 : ~ In 44 (str "1")) by (vm_compute; intuition discriminate).
  destruct (C39_exact v (str "trace") N1) as (b1 & E1 & I1). destruct (C39_exact v (str "1") N2) as (b2 & E2 & I2).
  unfold lone_flag, hasDebugFlag in E1, E2. destruct (config_of_env v) as [c|e| | |]; try discriminate. exists c. split; [reflexivity|]. cbn [bind] in E1, E2.
  rewrite (A _ N1) in E1. rewrite (A _ N2) in E2. cbn [assert_ bind] in E1, E2. unfold tracing. rewrite Bool.orb_true_iff.
  replace (flag_in_config c (str "trace")) with b1 by congruence. replace (flag_in_config c (str "1")) with b2 by congruence. now rewrite I1, I2.
Qed.
Print Assumptions C39_tracing.
Example C39_example :
  lone_flag (Some (str "trace,force_desktop_spawn")) (str "force_desktop") = Ok false /\
  lone_flag (Some (str "trace,force_desktop_spawn")) (str "force_desktop_spawn") = Ok true /\
  lone_flag (Some (str "trace,input")) (str "trace") = Ok true /\
  lone_flag (Some (str "trace,input")) (str "race") = Ok false /\
  lone_flag (Some (zrepeat 120 255)) (zrepeat 120 255) = Ok true /\
  lone_flag (Some (zrepeat 120 256)) (zrepeat 120 256) = Ok false /\
  lone_flag (Some (str "a,b")) (str "a,b") = AssertFail.
Proof. vm_compute. auto 10. Qed.

(** Two threads race, the variable being changed in between: both see the first value. *)
Example C39_race :
  drun [DCall; DCall; DStep 0; DStep 1; DStep 0; DSetEnv (Some (str "input")); DStep 1; DStep 0; DStep 1; DStep 1; DStep 0]
    (dinit (Some (str "trace"))) =
  Ok (mkD (Some (str "trace")) (Some (str "input")) [PDone (str "trace"); PDone (str "trace")]).
Proof. vm_compute. reflexivity. Qed.
