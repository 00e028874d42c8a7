(** C09-C14, C43: terminal input. *)
From Verif Require Import Base Text Unicode UnicodeSpec InputMap InputMapSpec DefaultInputMap DefaultInputMapSpec DefaultInputMapProofs
  ConsoleInput ConsoleInputSpec ConsoleInputProofs ConsoleInputDsr.

(** An ordinary console: modes as in cmd.exe's line editing, layout that knows nothing. *)
Definition ex_env : env := mkEnv 0x1F7 (fun _ => -1) (fun v => v) 500 (fun _ => false) droot.
Example ex_env_ok : env_ok ex_env.
Proof. split; [exact (eq_trans add_eq droot_eq)|reflexivity]. Qed.
Definition ex_ci : ci := init_ci ex_env [].
Example ex_reachable : reachable ex_ci.
Proof. apply reach_init. exact ex_env_ok. Qed.

(** ** C09 *)
(** From any state any history leads to: whatever the chunks a stream of bytes arrives in,
    with polls of the console in between, none later than the escape timeout, the console
    gets the same events, the same bytes are held back and the same mouse state results
    as when the whole stream arrives in one write. *)
Theorem C09_chunking (E : Type) e ops c now : env_ok e -> reachable c -> modes_read e c -> Forall op_ok ops ->
  prompt (c_lastWrite c) ops -> zlen (written ops) <= 2 ^ 31 - 64 ->
  exists c1 c2, @run E e ops c = Ok c1 /\ @run E e [OpWrite now (written ops)] c = Ok c2 /\
    received (c_log c1) = received (c_log c2) /\ c_queue c1 = c_queue c2 /\ same_state c1 c2.
Proof. exact (@chunking E e ops c now). Qed.
Print Assumptions C09_chunking.
Example C09_example : let ops := [OpWrite 10 [27; 91]; OpPoll 500; OpWrite 900 [65; 195]; OpPoll 1900; OpWrite 1901 [169]] in
  prompt (c_lastWrite ex_ci) ops /\ Forall op_ok ops /\ modes_read ex_env ex_ci /\
  match @run unit ex_env ops ex_ci with
  | Ok c => received (c_log c) =
      map ORec [KeyRec true 0x26 0x26 0 256; KeyRec false 0x26 0x26 0 256; KeyRec true 0 0 233 0; KeyRec false 0 0 233 0]
  | _ => False end.
Proof.
  split; [|split; [|split]]. 1: { cbn [prompt]. change (zlen [27; 91] =? 0) with false. vm_compute. repeat split; discriminate. }
  - repeat constructor; cbn; try lia; discriminate.
  - reflexivity.
  - vm_compute. reflexivity.
Qed.

(** ** C10 *)
(** A write: all the bytes, held back ones first, are cut into pieces of the grammar, each
    acted on in turn, and a remainder that is a proper prefix of a recognisable sequence. *)
Theorem C10_consumed (E : Type) e now data c : env_ok e -> reachable c -> InputMapSpec.bytes data -> zlen data <= 2 ^ 31 - 64 ->
  exists ps c' c1, @writeInput E e now data c = Ok c' /\
    Forall (fun p => token (has (e_mode e) ENABLE_PROCESSED_INPUT) (fst p) (snd p)) ps /\
    concat (map fst ps) ++ c_queue c' = c_queue c ++ data /\
    @applyAll E e (map snd ps) c = Ok c1 /\ received (c_log c') = told c1 /\ same_state c' c1 /\
    (c_queue c' = [] \/ exists w, w <> [] /\ recognisable (c_queue c' ++ w)).
Proof. exact (@consumed E e now data c). Qed.
Print Assumptions C10_consumed.
(** A poll after the timeout: the same for what is held back, and nothing stays; the one
    thing not delivered is a UTF-8 character that never became complete. *)
Theorem C10_timeout (E : Type) e now c : env_ok e -> reachable c -> 1000 < (now - c_lastWrite c) mod 2 ^ 32 ->
  exists ps lost c' c1, @run_op E e (OpPoll now) c = Ok c' /\ c_queue c' = [] /\
    Forall (fun p => token (has (e_mode e) ENABLE_PROCESSED_INPUT) (fst p) (snd p)) ps /\
    concat (map fst ps) ++ lost = c_queue c /\ (lost = [] \/ utf8_partial lost) /\
    @applyAll E e (map snd ps) (updateInputFlags e c) = Ok c1 /\ received (c_log c') = told c1 /\ same_state c' c1.
Proof. exact (@timed_out E e now c). Qed.
Print Assumptions C10_timeout.
(** No operation of any history fails, and no more than 31 bytes are ever held back. *)
Theorem C10_never_stuck (E : Type) e o c : env_ok e -> op_ok o -> reachable c ->
  exists c', @run_op E e o c = Ok c' /\ zlen (c_queue c') <= 31.
Proof. exact (@never_stuck E e o c). Qed.
Print Assumptions C10_never_stuck.
(** ESC [ 1 waits for more; after the timeout it is Alt+[ and 1. *)
Example C10_example :
  match @writeInput unit ex_env 0 [27; 91; 49] ex_ci with
  | Ok c => c_queue c = [27; 91; 49] /\
      match @run_op unit ex_env (OpPoll 1001) c with
      | Ok c' => c_queue c' = [] /\ zlen (received (c_log c')) = 6
      | _ => False end
  | _ => False end.
Proof. vm_compute. auto. Qed.

(** ** C14 *)
(** After any history, in any environments: the bytes written are cut into pieces of the
    grammar and a rest still held back, and the queries sent never exceed the replies
    received by more than one, and by none unless one is marked outstanding. *)
Theorem C14_one_outstanding (E : Type) h e0 clock :
  Forall (fun x => env_ok (fst x) /\ op_ok (snd x)) h -> env_ok e0 ->
  exists c ps, @run_history E h (init_ci e0 clock) = Ok c /\ Forall piece_ok ps /\
    concat (map fst ps) ++ c_queue c = flat_map (fun x => op_data (snd x)) h /\
    queries (c_log c) <= replies ps + (if c_dsrSent c then 1 else 0).
Proof. intros F O. exact (history_queries h F e0 clock O). Qed.
Print Assumptions C14_one_outstanding.
(** Two incomplete writes send one query; the reply to it allows the next. *)
Example C14_one_example :
  match @run_history unit [(ex_env, OpWrite 0 [27]); (ex_env, OpWrite 1 [91]); (ex_env, OpWrite 2 [49])] ex_ci with
  | Ok c => queries (c_log c) = 1 /\ c_queue c = [27; 91; 49] /\
      match @run_history unit [(ex_env, OpWrite 3 [27; 91; 53; 59; 55; 82]); (ex_env, OpWrite 4 [27])] c with
      | Ok c => queries (c_log c) = 2
      | _ => False end
  | _ => False end.
Proof. vm_compute. auto. Qed.

(** In whatever state a reply arrives, nothing is held back after it. *)
Theorem C14_released (E : Type) e now r c : env_ok e -> reachable c -> dsr_reply r ->
  exists c', @writeInput E e now r c = Ok c' /\ c_queue c' = [].
Proof. exact (@reply_releases E e now r c). Qed.
Print Assumptions C14_released.

(** A reply arriving while ASCII input other than ESC [ M is held back (or none is): the
    console gets exactly what the timeout would have given it, which is nothing if
    nothing was held back; the reply itself produces no event and clears the mark.  The
    last hypothesis excludes a held-back ESC in front of a reply that, with that ESC, is
    the documented encoding of a key. *)
Theorem C14_swallowed (E : Type) e now late r c : env_ok e -> reachable c -> modes_read e c -> dsr_reply r ->
  Forall (fun b => 0 <= b < 128) (c_queue c) -> ~ In 77 (c_queue c) ->
  ((exists p, c_queue c = p ++ [27]) -> forall k, ~ means_key (27 :: r) k) ->
  1000 < (late - c_lastWrite c) mod 2 ^ 32 ->
  exists c1 c2, @writeInput E e now r c = Ok c1 /\ @run_op E e (OpPoll late) c = Ok c2 /\
    received (c_log c1) = received (c_log c2) /\ same_state c1 c2 /\ c_queue c1 = [] /\ c_queue c2 = [] /\ c_dsrSent c1 = false /\
    (c_queue c = [] -> received (c_log c1) = received (c_log c)).
Proof. exact (@reply_swallowed E e now late r c). Qed.
Print Assumptions C14_swallowed.
(** A held-back ESC [ and the reply ESC [ 12 ; 40 R *)
Example C14_swallowed_example :
  dsr_reply [27; 91; 49; 50; 59; 52; 48; 82] /\
  match @writeInput unit ex_env 0 [27; 91] ex_ci with
  | Ok c => c_queue c = [27; 91] /\ modes_read ex_env c /\ c_dsrSent c = true /\
      match @writeInput unit ex_env 5 [27; 91; 49; 50; 59; 52; 48; 82] c with
      | Ok c' => c_queue c' = [] /\ c_dsrSent c' = false /\
          received (c_log c') = map ORec [KeyRec true 0x12 0x12 0 2; KeyRec true 0 0 91 2; KeyRec false 0 0 0 2; KeyRec false 0x12 0x12 0 0]
      | _ => False end
  | _ => False end.
Proof.
  split; [exists [49; 50], [52; 48]; split; [split; [vm_compute; split; discriminate|repeat constructor; discriminate]|split; [split; [vm_compute; split; discriminate|repeat constructor; discriminate]|reflexivity]]|].
  vm_compute. auto 20.
Qed.

(** Without those conditions the claim is false of the code.  The documented encoding of
    Shift+F3 is taken for a reply: no event results. *)
Theorem C14_f3_refuted : exists s k c, means_key s k /\ @writeInput unit ex_env 0 s ex_ci = Ok c /\ c_queue c = [] /\ received (c_log c) = [].
Proof.
  exists [27; 91; 49; 59; 50; 82], (mkKey VK_F3 0 SHIFT_PRESSED).
  destruct (@writeInput unit ex_env 0 [27; 91; 49; 59; 50; 82] ex_ci) as [c| | | |] eqn:H; try (vm_compute in H; discriminate). exists c.
  split; [exists (KF 3), with_shift; split; [apply nth_error_In with (n := 316%nat); vm_compute; reflexivity|reflexivity]|]. split; [reflexivity|]. vm_compute in H. injection H as <-. split; reflexivity.
Qed.
Print Assumptions C14_f3_refuted.
(** A held-back ESC and the reply ESC [ 1 ; 2 R become Alt+Shift+F3. *)
Theorem C14_escape_refuted : exists c c1 c2, @writeInput unit ex_env 0 [27] ex_ci = Ok c /\
  @writeInput unit ex_env 1 [27; 91; 49; 59; 50; 82] c = Ok c1 /\ @run_op unit ex_env (OpPoll 2000) c = Ok c2 /\
  received (c_log c1) <> received (c_log c2).
Proof.
  destruct (@writeInput unit ex_env 0 [27] ex_ci) as [c| | | |] eqn:H; try (vm_compute in H; discriminate). exists c. vm_compute in H. injection H as <-.
  eexists. eexists. split; [reflexivity|]. split; [vm_compute; reflexivity|]. split; [vm_compute; reflexivity|]. vm_compute. discriminate.
Qed.
Print Assumptions C14_escape_refuted.
(** A held-back UTF-8 lead byte swallows the first byte of the reply, whose rest is then
    delivered as typed characters. *)
Theorem C14_lead_refuted : exists c c1, @writeInput unit ex_env 0 [195] ex_ci = Ok c /\
  @writeInput unit ex_env 1 [27; 91; 53; 59; 55; 82] c = Ok c1 /\ zlen (received (c_log c1)) = 10.
Proof.
  destruct (@writeInput unit ex_env 0 [195] ex_ci) as [c| | | |] eqn:H; try (vm_compute in H; discriminate). exists c. vm_compute in H. injection H as <-.
  eexists. split; [reflexivity|]. split; vm_compute; reflexivity.
Qed.
Print Assumptions C14_lead_refuted.
