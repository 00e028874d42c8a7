(** C24: data pipes deliver bytes in order without loss or duplication.

    A history is any list of operations: service calls (with arbitrary OS
    answers: partial reads, pending, errors), writes and reads by the owner,
    read-buffer resizing, closing, and bytes arriving from the peer. *)
From Verif Require Import Base BaseLemmas NamedPipe NamedPipeSpec NamedPipeProofs.

(** The bytes the owner read are a prefix of what the peer wrote. *)
Theorem C24_reader_prefix : forall ops connecting reading writing q delivered,
  prun ops (fresh_pipe connecting reading writing) = Ok (q, delivered) ->
  is_prefix delivered (peer_written ops).
Proof. exact reader_prefix. Qed.
Print Assumptions C24_reader_prefix.

(** While the pipe is open nothing is lost: read ++ queued ++ still in the
    kernel = everything the peer wrote. *)
Theorem C24_reader_nothing_lost : forall ops connecting reading writing q delivered,
  prun ops (fresh_pipe connecting reading writing) = Ok (q, delivered) -> np_open q = true ->
  delivered ++ np_inq q ++ np_peer q = peer_written ops.
Proof. exact reader_nothing_lost. Qed.
Print Assumptions C24_reader_nothing_lost.

(** What the kernel accepted is a prefix of what the owner wrote. *)
Theorem C24_writer_prefix : forall ops connecting reading writing q delivered,
  prun ops (fresh_pipe connecting reading writing) = Ok (q, delivered) ->
  is_prefix (np_sent q) (written ops).
Proof. exact writer_prefix. Qed.
Print Assumptions C24_writer_prefix.

(** "Nothing left to send" is exact. *)
Theorem C24_bytes_to_send_exact : forall ops connecting reading q delivered n,
  prun ops (fresh_pipe connecting reading true) = Ok (q, delivered) -> np_open q = true ->
  bytesToSend q = Ok n ->
  n = zlen (written ops) - zlen (np_sent q) /\ (n = 0 <-> np_sent q = written ops).
Proof. exact bytesToSend_exact. Qed.
Print Assumptions C24_bytes_to_send_exact.

(** Once writing stops and the OS keeps completing writes without error, all
    written bytes are handed over and bytesToSend becomes 0. *)
Theorem C24_eventually_sent : forall ops svcs connecting reading q d q2 d2,
  prun ops (fresh_pipe connecting reading true) = Ok (q, d) -> np_open q = true ->
  Forall draining svcs -> zlen (written ops) <= zlen svcs ->
  prun (map PService svcs) q = Ok (q2, d2) ->
  np_open q2 = true /\ np_sent q2 = written ops /\ bytesToSend q2 = Ok 0.
Proof. exact eventually_sent. Qed.
Print Assumptions C24_eventually_sent.

(** A reader that keeps reading obtains everything the peer wrote. *)
Theorem C24_eventually_received : forall ops rounds connecting writing q d q2 d2,
  prun ops (fresh_pipe connecting true writing) = Ok (q, d) -> np_open q = true -> 0 < np_rbs q ->
  Forall supplying rounds -> zlen (peer_written ops) <= zlen rounds ->
  prun (read_rounds rounds) q = Ok (q2, d2) ->
  d ++ d2 = peer_written ops.
Proof. exact eventually_received. Qed.
Print Assumptions C24_eventually_received.

(** A closed pipe stays closed, sends nothing more, and later reads return only
    bytes received before the close. *)
Theorem C24_closed_is_final : forall ops1 ops2 connecting reading writing q1 d1 q2 d2,
  prun ops1 (fresh_pipe connecting reading writing) = Ok (q1, d1) -> np_open q1 = false ->
  prun ops2 q1 = Ok (q2, d2) ->
  np_open q2 = false /\ np_sent q2 = np_sent q1 /\ d2 ++ np_inq q2 = np_inq q1.
Proof.
  exact (fun ops1 ops2 c r w q1 d1 q2 d2 H1 Hc H2 =>
           closed_stays ops2 q1 q2 d2 Hc (proj1 (prun_fresh ops1 c r w q1 d1 H1)) H2).
Qed.
Print Assumptions C24_closed_is_final.

(** No assertion can fail as long as the OS never reports a short successful
    write or a failed connect, and the caller respects the pipe's direction. *)
Theorem C24_no_assertion_failure : forall ops connecting reading writing,
  Forall (legal reading writing) ops ->
  exists r, prun ops (fresh_pipe connecting reading writing) = Ok r.
Proof. exact no_assert. Qed.
Print Assumptions C24_no_assertion_failure.

(** An error the OS reports for a read or a write closes the pipe at once, and is noticed
    by the event loop. *)
Theorem C24_error_closes : forall ops a connecting reading writing q d b q2,
  prun ops (fresh_pipe connecting reading writing) = Ok (q, d) -> np_open q = true -> np_connecting q = false ->
  serviceIo a q = Ok (b, q2) ->
  (reading = true /\ zlen (np_inq q) < np_rbs q /\ (exists l, sv_read a = IoError :: l)) \/
  (writing = true /\ np_sent q <> written ops /\ (exists l, sv_write a = IoError :: l)) ->
  b = true /\ np_open q2 = false.
Proof. exact error_closes. Qed.
Print Assumptions C24_error_closes.

(** A read returns as many bytes as were asked for, or all there are, and leaves the rest. *)
Theorem C24_read_size : forall ops n connecting reading writing q d q2 d2,
  prun ops (fresh_pipe connecting reading writing) = Ok (q, d) -> prun [PRead n] q = Ok (q2, d2) ->
  zlen d2 = Z.max 0 (Z.min n (zlen (np_inq q))) /\ np_inq q = d2 ++ np_inq q2.
Proof. exact read_size. Qed.
Print Assumptions C24_read_size.

(** Non-vacuity: a connection that pends, a write that pends and completes, a
    short read, and an error that closes the pipe. *)
Definition svc0 c r w := {| sv_conn := c; sv_read := r; sv_write := w; sv_kr := 0; sv_kw := 1 |}.
Example C24_history :
  match prun [PWrite [1;2;3]; PPeer [7;8;9]; PService (svc0 ConnPending [] []);
              PService (svc0 ConnDone [IoDone 2; IoPending] [IoPending]); PRead 5;
              PService (svc0 ConnPending [IoDone 0] [IoDone 0]); PWrite [4;5];
              PService (svc0 ConnPending [] [IoPending]);
              PService (svc0 ConnPending [] [IoError]); PReadAll] (fresh_pipe true true true) with
  | Ok (q, d) => d = [7;8;9] /\ np_sent q = [1;2;3;4] /\ np_open q = false
  | _ => False
  end.
Proof. vm_compute. auto. Qed.

Example C24_draining_case :
  draining (svc0 ConnDone [] [IoDone 0]) /\ supplying (svc0 ConnDone [IoDone 0] []) /\
  legal true true (PService (svc0 ConnDone [IoDone 1; IoError] [IoDone 0; IoPending])).
Proof.
  assert (T : forall s, In (IoDone s) [IoDone 0] -> s <= 0) by (intros s [E|[]]; injection E as <-; lia).
  unfold draining, supplying, legal, full_writes, svc0; cbn.
  repeat split; try (eexists; reflexivity); try discriminate;
    try (intros s [E|E]; [injection E as <-; lia|cbn in E; destruct E as [E|[]]; discriminate]);
    try (intros s [E|[]]; injection E as <-; lia); try tauto;
    try (intros [E|[]]; discriminate); try (intros ? []).
Qed.
