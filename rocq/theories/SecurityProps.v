(** C58: who may use the pipes of a session and of the debug server. *)
From Verif Require Import Base Text Security SecuritySpec SecurityProofs.

(** Every pipe of a session that is ever asked for gives every right to the system, to
    administrators and to the user the creating thread acts for, and none to anyone else. *)
Theorem C58_session_pipes : forall os name m o i r,
  In r (fst (createControlPipe os name)) \/ In r (fst (openServerPipe os name m o i)) ->
  exists t, acts_for os t /\
    forall who n, may (rq_sd r) who n <-> pipe_right n /\ trusted (tok_owner t) who.
Proof. exact session_pipes. Qed.
Print Assumptions C58_session_pipes.

(** The pipe of a debug server for everyone lets others send and receive but not create
    another end of the pipe (2), delete it (16) or change its permissions (18, 19). *)
Theorem C58_debug_server : forall os r t,
  In r (fst (debugServerPipe os true)) -> acts_for os t -> tok_owner t <> everyone ->
  forall who n, may (rq_sd r) who n <->
    (pipe_right n /\ trusted (tok_owner t) who) \/ (public_right n /\ In everyone who).
Proof. exact debug_everyone. Qed.
Print Assumptions C58_debug_server.

(** Nobody else's pipe is used in place of the new one, no second client or second server
    end fits, remote clients are refused from Vista on, and data flows in the directions
    asked for. *)
Theorem C58_exclusive : forall os name, version_sane os ->
  (forall r, In r (fst (createControlPipe os name)) -> rq_name r = name /\ exclusive os true true r) /\
  (forall m o i r, In r (fst (openServerPipe os name m o i)) ->
     rq_name r = name /\ rq_out r = o /\ rq_in r = i /\ exclusive os (Z.testbit m 0) (Z.testbit m 1) r) /\
  (forall everyone r, In r (fst (debugServerPipe os everyone)) -> exclusive os true true r).
Proof. exact pipes_exclusive. Qed.
Print Assumptions C58_exclusive.

(** A pipe is asked for exactly when every call that protects it worked; otherwise the
    first failing call is reported and there is no pipe. *)
Theorem C58_all_or_nothing : forall os name,
  (fst (createControlPipe os name) <> [] <-> calls_fine os 2) /\
  (forall h, snd (createControlPipe os name) = Ok h <-> calls_fine os 2 /\ o_create os = inl h) /\
  match snd (createControlPipe os name) with
  | Ok _ => True | Throw e => failed os e | AssertFail => absurd_answer os | UB | OutOfFuel => False
  end /\
  (fst (debugServerPipe os true) <> [] <-> calls_fine os 3) /\
  (forall h, snd (debugServerPipe os true) = Ok h <-> calls_fine os 3 /\ o_create os = inl h) /\
  match snd (debugServerPipe os true) with
  | Ok _ => True | Throw e => failed os e | AssertFail => absurd_answer os | UB | OutOfFuel => False
  end.
Proof.
  intros os name. destruct (control_fine os name) as (A & B & C). destruct (debug_fine os) as (D & E & F).
  exact (conj A (conj B (conj C (conj D (conj E F))))).
Qed.
Print Assumptions C58_all_or_nothing.
Theorem C58_data_pipe_or_stop : forall os name m o i, 1 <= m <= 3 ->
  (fst (openServerPipe os name m o i) <> [] <-> calls_fine os 2) /\
  (forall h, snd (openServerPipe os name m o i) = Ok h <-> calls_fine os 2 /\ o_create os = inl h) /\
  (forall e, snd (openServerPipe os name m o i) = Throw e -> failed os e) /\
  (snd (openServerPipe os name m o i) = AssertFail -> absurd_answer os \/ exists e, o_create os = inr e).
Proof. exact server_fine. Qed.
Print Assumptions C58_data_pipe_or_stop.

(** A user of Windows 10 who belongs to Users; a stranger; the pipe's rights. *)
Definition joe : sid := mkSid [0; 0; 0; 0; 0; 5] [21; 1; 2; 3; 1001].
Definition eve : sid := mkSid [0; 0; 0; 0; 0; 5] [21; 1; 2; 3; 1002].
Definition users : sid := mkSid [0; 0; 0; 0; 0; 5] [32; 545].
Definition os0 : sec_os :=
  mkOs (inr 1008) (inl (Some (mkTok joe (inr 122) (inl 36)))) (fun _ => None) 0 true None None (Some (10, 0)) (inl 7).
Example C58_holds_somewhere : forall name,
  exists r, createControlPipe os0 name = ([r], Ok 7) /\ Z.testbit (rq_mode r) 3 = true /\
    may (rq_sd r) [joe; users; everyone] 1 /\ ~ may (rq_sd r) [eve; users; everyone] 0.
Proof.
  intros name. eexists. split; [vm_compute; reflexivity|]. split; [reflexivity|].
  destruct (C58_session_pipes os0 name 1 0 0
    (mkReq name 0x40080003 8 1 8192 256 (Some (Dacl (SetEntriesInAcl [full_control system; full_control administrators; full_control joe])))))
    as (t & Ht & H); [left; vm_compute; left; reflexivity|].
  assert (Et : t = mkTok joe (inr 122) (inl 36)).
  { destruct Ht as [E|[_ E]]; [discriminate E|]. injection E as <-. reflexivity. }
  rewrite Et in H. split.
  - apply (H [joe; users; everyone] 1). split; [left; lia|]. right; right. left. reflexivity.
  - intros X. apply (H [eve; users; everyone] 0) in X. destruct X as [_ [X|[X|X]]];
      cbn in X; destruct X as [X|[X|[X|[]]]]; discriminate X.
Qed.
Example C58_debug_somewhere : exists r, debugServerPipe os0 true = ([r], Ok 7) /\
  may (rq_sd r) [eve; users; everyone] 1 /\ ~ may (rq_sd r) [eve; users; everyone] 2.
Proof.
  destruct (debugServerPipe os0 true) as [l x] eqn:E. assert (E' := E). vm_compute in E'. injection E' as El Ex.
  destruct l as [|r l]; [discriminate|]. destruct l as [|y l]; [|discriminate]. subst x.
  exists r. split; [reflexivity|].
  assert (H := C58_debug_server os0 r (mkTok joe (inr 122) (inl 36))).
  rewrite E in H. specialize (H (or_introl eq_refl) (or_intror (conj eq_refl eq_refl)) ltac:(discriminate)).
  split.
  - apply H. right. split; [cbn; tauto|cbn; tauto].
  - intros X. apply H in X. destruct X as [[_ [X|[X|X]]]|[X _]].
    + cbn in X. destruct X as [X|[X|[X|[]]]]; discriminate X.
    + cbn in X. destruct X as [X|[X|[X|[]]]]; discriminate X.
    + cbn in X. destruct X as [X|[X|[X|[]]]]; discriminate X.
    + cbn in X. intuition discriminate.
Qed.
