(** C26, C27, C32, C45: RPC calls on an open session. *)
From Coq Require Import Permutation.
From Verif Require Import Base BaseLemmas Buffer BufferSpec BufferProofs BufferProps Spawn Rpc RpcSpec RpcProofs.

(** C26: every sequence of calls, with any answers of the system, against an agent
    that answers each request with one packet (whatever its contents), stays in step:
    each usable result is read off the reply to the call's own request, and after any
    other result every call fails at once and sends nothing. *)
Theorem C26_in_step : forall agent fuel pl w cs w' rs,
  plat_ok pl -> one_reply_each pl agent -> dups_ok w -> w_pipe w = true -> w_in w = [] ->
  calls agent fuel pl w cs = (w', rs) ->
  in_step pl agent (w_sent w) cs rs (w_sent w').
Proof. intros agent fuel pl w cs w' rs H1 H2 H3 H4 H5 H6. exact (calls_in_step agent fuel pl cs w w' rs H1 H2 H3 H4 H5 H6). Qed.
Print Assumptions C26_in_step.

(** C26: the same for an agent sending arbitrary bytes: the connection stays open
    exactly after a usable result; otherwise later calls fail without any I/O. *)
Theorem C26_poisoned : forall agent fuel pl w c w' r,
  docall agent fuel pl w c = (w', r) -> w_pipe w = true -> dups_ok w -> ~ dead r ->
  (usable r -> w_pipe w' = true) /\
  (~ usable r -> forall cs w2 rs, calls agent fuel pl w' cs = (w2, rs) ->
     rs = map (fun _ => closed_res) cs /\ w_sent w2 = w_sent w' /\ w_io w2 = w_io w').
Proof. exact poison. Qed.
Print Assumptions C26_poisoned.

(** C26: for an agent sending arbitrary bytes: a usable result is read off exactly one
    well-formed packet, the next one received; a malformed one never yields a result. *)
Theorem C26_only_from_a_packet : forall agent fuel pl w c w' r,
  docall agent fuel pl w c = (w', r) -> w_pipe w = true -> dups_ok w ->
  (forall sent, Forall (fun b => 0 <= b < 256) (agent sent)) -> Forall (fun b => 0 <= b < 256) (w_in w) -> usable r ->
  exists b hdr payload, sendRequest (request_of c) = Ok b /\
    w_in w ++ agent (w_sent w ++ [b]) = hdr ++ payload ++ w_in w' /\
    is_le 8 (8 + zlen payload) hdr /\ answers c payload r.
Proof. exact only_from_packet. Qed.
Print Assumptions C26_only_from_a_packet.

(** C26: a resize on a healthy connection succeeds and leaves it usable. *)
Theorem C26_resize_succeeds : forall agent fuel pl w cols rows,
  plat_ok pl -> w_pipe w = true -> w_in w = [] ->
  agent_replies agent w (CSetSize cols rows) RpSetSize -> receivable pl RpSetSize ->
  healthy fuel w (CSetSize cols rows) RpSetSize ->
  exists w', docall agent fuel pl w (CSetSize cols rows) = (w', mkR no_outs [] (Ok 1)) /\ w_pipe w' = true.
Proof. exact size_ok. Qed.
Print Assumptions C26_resize_succeeds.

(** C26: whenever an I/O operation of a call fails, the call fails with the error that
    names the reason: agent died, timeout, lost connection, or unspecified. *)
Theorem C26_failure_reported : forall agent fuel pl w c w' r,
  docall agent fuel pl w c = (w', r) ->
  exists l, w_log w' = w_log w ++ l /\
    forall o a d e, In (o, AIo a d) l -> io_failure a = Some e -> r_ret r = Throw e.
Proof. exact error_explained. Qed.
Print Assumptions C26_failure_reported.

(** C27: for every agent and every failure point.  The handles the process owns are
    those it owned before, plus the returned ones: none is leaked and none closed. *)
Theorem C27_outputs : forall agent fuel pl w rq w' r,
  docall agent fuel pl w (CSpawn rq) = (w', r) -> dups_ok w -> ~ dead r ->
  let o := r_outs r in
  match r_ret r with
  | Ok v => v = 1 /\ o_error o = 0 /\
            (sr_want_process rq = false -> o_process o = 0) /\ (sr_want_thread rq = false -> o_thread o = 0) /\
            Permutation (w_handles w') (slot (o_process o) ++ slot (o_thread o) ++ w_handles w)
  | Throw e => o_process o = 0 /\ o_thread o = 0 /\ Permutation (w_handles w') (w_handles w) /\
               (o_error o <> 0 -> e = XLib ERR_SPAWN_CREATE_PROCESS_FAILED)
  | _ => False
  end.
Proof. exact spawn_outputs. Qed.
Print Assumptions C27_outputs.

(** C27: with the real agent's reply, success returns exactly duplicates of the
    requested handles and duplicates nothing else; the creation error is the one
    CreateProcess reported. *)
Theorem C27_requested_handles : forall agent fuel pl w rq w' r created,
  docall agent fuel pl w (CSpawn rq) = (w', r) -> dups_ok w -> plat_ok pl -> w_pipe w = true -> w_in w = [] ->
  agent_replies agent w (CSpawn rq) (spawn_reply rq created) -> receivable pl (spawn_reply rq created) ->
  match created with
  | inl (hp, ht) => handle_ok pl hp /\ handle_ok pl ht
  | inr e => 0 <= e < 2 ^ 32
  end ->
  (forall v, r_ret r = Ok v -> exists hp ht l, created = inl (hp, ht) /\ w_log w' = w_log w ++ l /\
     duplicated l = (if sr_want_process rq then [(hp, Some (o_process (r_outs r)))] else []) ++
                    (if sr_want_thread rq then [(ht, Some (o_thread (r_outs r)))] else []) /\
     (sr_want_process rq = true -> o_process (r_outs r) <> 0) /\
     (sr_want_thread rq = true -> o_thread (r_outs r) <> 0)) /\
  (r_ret r = Throw (XLib ERR_SPAWN_CREATE_PROCESS_FAILED) -> exists e, created = inr e /\ r_outs r = mkOuts 0 0 e).
Proof. exact spawn_honest. Qed.
Print Assumptions C27_requested_handles.

(** C27: and on a healthy connection the call does succeed, or report the error. *)
Theorem C27_spawn_succeeds : forall agent fuel pl w rq hp ht d1 d2 t,
  plat_ok pl -> w_pipe w = true -> w_in w = [] ->
  agent_replies agent w (CSpawn rq) (spawn_reply rq (inl (hp, ht))) -> receivable pl (spawn_reply rq (inl (hp, ht))) ->
  healthy fuel w (CSpawn rq) (spawn_reply rq (inl (hp, ht))) -> handle_ok pl hp -> handle_ok pl ht ->
  w_dup w = Some d1 :: Some d2 :: t ->
  exists w', docall agent fuel pl w (CSpawn rq) =
    (w', mkR (mkOuts (if sr_want_process rq then d1 else 0)
                     (if sr_want_thread rq then if sr_want_process rq then d2 else d1 else 0) 0) [] (Ok 1)) /\
    w_pipe w' = true.
Proof. exact spawn_ok. Qed.
Print Assumptions C27_spawn_succeeds.

Theorem C27_creation_error_reported : forall agent fuel pl w rq e,
  plat_ok pl -> w_pipe w = true -> w_in w = [] ->
  agent_replies agent w (CSpawn rq) (spawn_reply rq (inr e)) -> receivable pl (spawn_reply rq (inr e)) ->
  healthy fuel w (CSpawn rq) (spawn_reply rq (inr e)) -> 0 <= e < 2 ^ 32 ->
  exists w', docall agent fuel pl w (CSpawn rq) = (w', mkR (mkOuts 0 0 e) [] (Throw (XLib 2))) /\ w_pipe w' = true.
Proof. exact spawn_fails. Qed.
Print Assumptions C27_creation_error_reported.

(** C32: with a large enough array the count and all ids are returned. *)
Theorem C32_list_returned : forall agent fuel pl w cap ps,
  plat_ok pl -> w_pipe w = true -> w_in w = [] ->
  agent_replies agent w (CProcessList cap) (RpProcessList ps) -> receivable pl (RpProcessList ps) ->
  healthy fuel w (CProcessList cap) (RpProcessList ps) ->
  zlen ps <= cap -> zlen ps < 2 ^ 31 -> Forall (fun p => 0 <= p < 2 ^ 31) ps ->
  exists w', docall agent fuel pl w (CProcessList cap) = (w', mkR no_outs ps (Ok (zlen ps))) /\ w_pipe w' = true.
Proof. exact list_ok. Qed.
Print Assumptions C32_list_returned.

(** C32: with a smaller array nothing is stored and the call fails, and then every
    later call fails too (on a healthy connection: always). *)
Theorem C32_small_array_fails : forall agent fuel pl w cap ps w' r,
  plat_ok pl -> w_pipe w = true -> w_in w = [] ->
  agent_replies agent w (CProcessList cap) (RpProcessList ps) -> receivable pl (RpProcessList ps) ->
  0 <= cap < zlen ps -> zlen ps < 2 ^ 31 -> docall agent fuel pl w (CProcessList cap) = (w', r) ->
  r_ids r = [] /\ succeeded (r_ret r) = false /\
  (dead r \/ w_pipe w' = false) /\
  (healthy fuel w (CProcessList cap) (RpProcessList ps) -> r_ret r = Throw XDecode /\ w_pipe w' = false).
Proof. exact list_small. Qed.
Print Assumptions C32_small_array_fails.

(** C32: the agent's loop reports the processes of one GetConsoleProcessList call, and
    needs at most 26 of them however the list changes meanwhile. *)
Theorem C32_agent_loop_ends : forall os,
  Forall (fun ps => zlen ps < 2 ^ 31) os -> (26 <= length os)%nat ->
  exists ps, In ps os /\ process_list os = Some ps.
Proof. exact process_list_ends. Qed.
Print Assumptions C32_agent_loop_ends.

(** C45: whenever no call is in progress, the world (with the log of every I/O
    operation so far) and every thread's results are those of running the calls one
    after the other in some order that respects each thread's own. *)
Theorem C45_serialised : forall agent fuel pl w todo es,
  let s := crun agent fuel pl (cinit w todo) es in
  c_lock s = None ->
  exists order rs, seq_calls agent fuel pl w order = (c_world s, rs) /\
    forall t th, nth_error (c_threads s) t = Some th ->
      t_done th = of_thread t rs /\ nth_error todo t = Some (of_thread t order ++ t_todo th).
Proof.
  intros agent fuel pl w todo es s Hl. destruct (serial agent fuel pl w todo es) as (order & w1 & rs & H1 & _ & H2).
  fold s in H2. rewrite Hl in H2. destruct H2 as (<- & H2). exists order, rs. split; [exact H1|].
  intros t th Ht. destruct (H2 t th Ht) as (_ & A & B). auto.
Qed.
Print Assumptions C45_serialised.

(** C45: while a call is in progress, running it to its end gives what a sequential
    run would: nothing another thread does can come between its operations. *)
Theorem C45_in_progress : forall agent fuel pl w todo es h,
  let s := crun agent fuel pl (cinit w todo) es in
  c_lock s = Some h ->
  exists order w1 rs c p, seq_calls agent fuel pl w order = (w1, rs) /\
    run agent (c_world s) p = docall agent fuel pl w1 c /\
    forall t th, nth_error (c_threads s) t = Some th ->
      t_done th = of_thread t rs /\
      (if Nat.eqb t h then t_cur th = Some p /\ nth_error todo t = Some (of_thread t order ++ c :: t_todo th)
       else t_cur th = None /\ nth_error todo t = Some (of_thread t order ++ t_todo th)).
Proof.
  intros agent fuel pl w todo es h s Hl. destruct (serial agent fuel pl w todo es) as (order & w1 & rs & H1 & _ & H2).
  fold s in H2. rewrite Hl in H2. destruct H2 as (c & p & H2 & H3). exists order, w1, rs, c, p. auto.
Qed.
Print Assumptions C45_in_progress.

(** *** Concrete cases *)

(** An agent that answers set-size requests, whose reply comes in two pieces. *)
Definition size_agent (sent : list (list Z)) : list Z := [8; 0; 0; 0; 0; 0; 0; 0].
Definition io_size := [Now true 0 23; Pend WIo true 0 3; Now true 0 5].
Definition world0 (io : list ioans) (dup : list (option Z)) := mkW true [] [] io dup [] [].

Example C26_example :
  one_reply_each win64 size_agent /\
  (* the second call times out while waiting for its reply; the third is refused *)
  (let (w', rs) := calls size_agent 100 win64 (world0 (io_size ++ [Now true 0 23]) []) [CSetSize 80 25; CSetSize 90 30; CSetSize 1 1] in
   map r_ret rs = [Ok 1; Throw (XLib 7); Throw XWinpty] /\ zlen (w_sent w') = 2 /\ w_pipe w' = false).
Proof.
  split.
  - intros sent. exists [], [8; 0; 0; 0; 0; 0; 0; 0]. split; [reflexivity|].
    split; [apply is_le_iff; reflexivity|]. split; [vm_compute; discriminate|]. split; [vm_compute; discriminate|constructor].
  - vm_compute. auto.
Qed.

(** Creating a process: handle 0x44 is duplicated as 0x104. *)
Definition spawn_agent (rp : reply) (sent : list (list Z)) : list Z :=
  match sendReply rp with Ok b => b | _ => [] end.
Definition sample_rq := Build_start_req 1 true false [] [120] [] [] [].
Definition req_len := match sendRequest (RqStart sample_rq) with Ok b => zlen b | _ => 0 end.
Example C27_example :
  (let (w', r) := docall (spawn_agent (spawn_reply sample_rq (inl (68, 72)))) 100 win64
       (world0 [Now true 0 req_len; Now true 0 1000; Now true 0 1000] [Some 260; Some 264]) (CSpawn sample_rq) in
   r = mkR (mkOuts 260 0 0) [] (Ok 1) /\ w_handles w' = [260] /\ duplicated (w_log w') = [(68, Some 260)]) /\
  (let (w', r) := docall (spawn_agent (spawn_reply sample_rq (inr 5))) 100 win64
       (world0 [Now true 0 req_len; Now true 0 1000; Now true 0 1000] [Some 260; Some 264]) (CSpawn sample_rq) in
   r = mkR (mkOuts 0 0 5) [] (Throw (XLib 2)) /\ w_pipe w' = true) /\
  handle_ok win64 68.
Proof. vm_compute. intuition discriminate. Qed.

(** The hypotheses of the success theorems are met by the first case above. *)
Example C27_healthy :
  let rp := spawn_reply sample_rq (inl (68, 72)) in
  let w := world0 (Now true 0 req_len :: repeat (Pend WIo true 0 1000) 40) [Some 260; Some 264] in
  agent_replies (spawn_agent rp) w (CSpawn sample_rq) rp /\ receivable win64 rp /\
  healthy 100 w (CSpawn sample_rq) rp /\ handle_ok win64 68 /\ handle_ok win64 72.
Proof.
  cbv zeta. split; [|split; [|split; [|split; vm_compute; intuition discriminate]]].
  - intros b _. vm_compute. reflexivity.
  - intros bs E. vm_compute in E. injection E as <-. vm_compute. split; discriminate.
  - eexists _, _, _. split; [vm_compute; reflexivity|]. split; [vm_compute; reflexivity|]. split; [reflexivity|].
    split; [|split; [vm_compute; discriminate|vm_compute; lia]].
    apply Forall_forall. intros a Ha. apply repeat_spec in Ha. subst a. split; [reflexivity|vm_compute; discriminate].
Qed.
(** C32: a one-element array for two processes closes the connection. *)
Theorem C32_small_array_refuted :
  exists agent fuel pl w cap ps w' r,
    plat_ok pl /\ w_pipe w = true /\ agent_replies agent w (CProcessList cap) (RpProcessList ps) /\
    docall agent fuel pl w (CProcessList cap) = (w', r) /\
    zlen ps = 2 /\ cap = 1 /\ r_ret r = Throw XDecode /\ w_pipe w' = false.
Proof.
  exists (spawn_agent (RpProcessList [100; 200])), 100%nat, win64,
    (world0 [Now true 0 13; Now true 0 1000; Now true 0 1000] []), 1, [100; 200].
  eexists _, _. split; [split; [right; reflexivity|cbn; lia]|]. split; [reflexivity|]. split.
  - intros b _. reflexivity.
  - split; [vm_compute; reflexivity|]. vm_compute. auto.
Qed.
Print Assumptions C32_small_array_refuted.

Example C32_example :
  (let (w', r) := docall (spawn_agent (RpProcessList [100; 200])) 100 win64
     (world0 [Now true 0 13; Now true 0 1000; Now true 0 1000] []) (CProcessList 2) in
   r = mkR no_outs [100; 200] (Ok 2) /\ w_pipe w' = true) /\
  process_list [repeat 1 70; repeat 1 200; repeat 2 3] = Some (repeat 2 3).
Proof. vm_compute. auto. Qed.

(** C45: two threads resizing; the second tries to lock in between. *)
Example C45_example :
  let s := crun size_agent 100 win64 (cinit (world0 (io_size ++ io_size) []) [[CSetSize 80 25]; [CSetSize 90 30]])
    ([Lock 1; Lock 0; Step 0; Step 1] ++ repeat (Step 1) 5 ++ [Lock 0] ++ repeat (Step 0) 6) in
  c_lock s = None /\ map (fun th => map r_ret (t_done th)) (c_threads s) = [[Ok 1]; [Ok 1]] /\ zlen (w_sent (c_world s)) = 2.
Proof. vm_compute. auto. Qed.
