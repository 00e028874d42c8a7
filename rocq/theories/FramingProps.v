(** C03: control-pipe framing.  A run is a list of event-loop iterations; in
    each, some bytes arrive and the OS answers the pipe's I/O arbitrarily. *)
From Verif Require Import Base Buffer BufferSpec BufferProofs NamedPipe NamedPipeSpec Framing FramingSpec FramingProofs.
From Verif Require Import BufferProps.

(** The agent executes, in order and at most once, a prefix of the requests
    the client sent, and only requests all of whose bytes have arrived. *)
Theorem C03_executes_prefix_in_order : forall pl h setup its s rqs bs,
  plat_ok pl -> sends rqs bs -> Forall (sendable pl) rqs -> Forall (fun b => zlen b <= p_size_max pl) bs ->
  is_prefix (arrived its) (concat bs) ->
  crun pl h its (cinit setup) = Ok s ->
  exists k, c_exec s = firstn k rqs /\ is_prefix (concat (firstn k bs)) (arrived its).
Proof. exact executed_prefix. Qed.
Print Assumptions C03_executes_prefix_in_order.

(** While the agent runs, once the kernel buffer is drained every request that
    arrived whole has been executed. *)
Theorem C03_whole_requests_executed : forall pl h setup its s rqs bs,
  plat_ok pl -> sends rqs bs -> Forall (sendable pl) rqs -> Forall (fun b => zlen b <= p_size_max pl) bs ->
  is_prefix (arrived its) (concat bs) ->
  crun pl h its (cinit setup) = Ok s -> c_exit s = false -> np_peer (c_pipe s) = [] ->
  forall k, is_prefix (concat (firstn k bs)) (arrived its) -> is_prefix (firstn k rqs) (c_exec s).
Proof. exact executed_all. Qed.
Print Assumptions C03_whole_requests_executed.

(** Reading can never get stuck: there is always free buffer space, whatever
    the size of the request being received (arbitrary byte streams). *)
Theorem C03_always_room : forall pl h setup its s,
  Forall (fun b => 0 <= b < 256) (arrived its) ->
  crun pl h its (cinit setup) = Ok s -> c_exit s = false ->
  np_open (c_pipe s) = true /\ zlen (np_inq (c_pipe s)) < np_rbs (c_pipe s).
Proof. exact always_room. Qed.
Print Assumptions C03_always_room.

(** When all bytes have been sent and the OS keeps completing reads, exactly
    the sent requests get executed, whatever happened before. *)
Theorem C03_eventually_all_executed : forall pl h setup its its2 s s2 rqs bs,
  plat_ok pl -> sends rqs bs -> Forall (sendable pl) rqs -> Forall (fun b => zlen b <= p_size_max pl) bs ->
  arrived its = concat bs -> crun pl h its (cinit setup) = Ok s -> c_exit s = false ->
  Forall (fun it => fst it = [] /\ supplying (snd it)) its2 -> zlen (concat bs) <= zlen its2 ->
  crun pl h its2 s = Ok s2 ->
  c_exec s2 = rqs.
Proof. exact eventually_executed. Qed.
Print Assumptions C03_eventually_all_executed.

(** Well-formed traffic never makes the framing code abort. *)
Theorem C03_no_abort : forall pl h setup its rqs bs,
  plat_ok pl -> sends rqs bs -> Forall (sendable pl) rqs -> Forall (fun b => zlen b <= p_size_max pl) bs ->
  is_prefix (arrived its) (concat bs) ->
  (forall e, h e <> None) -> Forall (fun it => full_writes (snd it)) its ->
  exists s, crun pl h its (cinit setup) = Ok s.
Proof. exact no_abort. Qed.
Print Assumptions C03_no_abort.

(** A message with an impossible length header is never executed, nor is
    anything behind it. *)
Theorem C03_impossible_header_not_executed : forall pl h setup its s pks hdr rest,
  plat_ok pl -> Forall packet pks -> zlen hdr = 8 -> Forall (fun b => 0 <= b < 256) (arrived its) ->
  ~ (8 <= le_value hdr <= p_size_max pl) ->
  is_prefix (arrived its) (concat pks ++ hdr ++ rest) ->
  crun pl h its (cinit setup) = Ok s ->
  exists k, Forall2 (fun pk rq => parseRequest pl pk = Ok rq) (firstn k pks) (c_exec s).
Proof. exact bad_header. Qed.
Print Assumptions C03_impossible_header_not_executed.

(** Non-vacuity: three requests arriving split across reads. *)
Definition demo_rqs := [RqSetSize 80 25; RqProcessList; sample_start].
Definition demo_bytes : list (list Z) :=
  map (fun rq => match sendRequest rq with Ok b => b | _ => [] end) demo_rqs.
Definition quiet_h : handler := fun _ => Some [1; 2; 3].
Definition sv r w := {| sv_conn := ConnDone; sv_read := r; sv_write := w; sv_kr := 0; sv_kw := 0 |}.

Example C03_demo_hypotheses :
  plat_ok win64 /\ sends demo_rqs demo_bytes /\ Forall (sendable win64) demo_rqs /\
  Forall (fun b => zlen b <= p_size_max win64) demo_bytes.
Proof.
  split; [exact win64_ok|]. split.
  - repeat (apply sends_cons; [reflexivity|]). apply sends_nil.
  - split.
    + constructor; [split; split; vm_compute; congruence|]. constructor; [exact I|].
      constructor; [exact (proj1 C01_request_nonvacuous)|constructor].
    + repeat constructor; vm_compute; congruence.
Qed.

Example C03_demo_run :
  match crun win64 quiet_h
         [(firstn 3 (concat demo_bytes), sv [IoDone 1] [IoDone 0]);
          (firstn 40 (skipn 3 (concat demo_bytes)), sv [IoPending] []);
          ([], sv [IoDone 5; IoDone 0; IoPending] [IoDone 0]);
          (skipn 43 (concat demo_bytes), sv [IoDone 0; IoPending] [])] (cinit [9]) with
  | Ok s => c_exec s = demo_rqs /\ c_exit s = false
  | _ => False
  end.
Proof. vm_compute. split; reflexivity. Qed.

(** Finding: "executes exactly the requests the client sent" fails at
    disconnection.  If the OS delivers a complete request and reports the
    broken pipe in the same service call, the agent sees a closed pipe, shuts
    down, and drops the request although all its bytes were received
    (Agent.cc:287-291 before 293). *)
Theorem C03_request_before_disconnect_refuted :
  exists its s, arrived its = concat demo_bytes /\
    crun win64 quiet_h its (cinit []) = Ok s /\
    np_inq (c_pipe s) = concat demo_bytes /\ c_exec s = [].
Proof.
  exists [(concat demo_bytes, sv [IoDone 0; IoError] [])].
  eexists. split; [reflexivity|]. split; [vm_compute; reflexivity|]. split; vm_compute; reflexivity.
Qed.
Print Assumptions C03_request_before_disconnect_refuted.
