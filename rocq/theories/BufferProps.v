(** C01, C02: the RPC message format.  Statements only; proofs in
    BufferProofs.v; specification in BufferSpec.v. *)
From Verif Require Import Base Buffer BufferSpec BufferProofs.

(** A 64-bit platform that can allocate strings of up to 2^40 characters. *)
Definition win64 : plat := {| p_size_max := 2^64 - 1; p_alloc_limit := 2^40 |}.
Example win64_ok : plat_ok win64.
Proof. split; [right; reflexivity|vm_compute; split; discriminate]. Qed.
Definition win32 : plat := {| p_size_max := 2^32 - 1; p_alloc_limit := 2^29 |}.
Example win32_ok : plat_ok win32.
Proof. split; [left; reflexivity|vm_compute; split; discriminate]. Qed.

(** C01: any sequence of values written is read back exactly, then EOF. *)
Theorem C01_roundtrip : forall pl vs ts,
  plat_ok pl -> Forall representable vs -> Forall (storable pl) vs -> Forall2 has_type vs ts ->
  decodeFields pl ts (putVals [] vs) = Ok vs.
Proof. exact roundtrip. Qed.
Print Assumptions C01_roundtrip.

Example C01_roundtrip_nonvacuous :
  let vs := [VInt32 (-2147483648); VInt64 9223372036854775807; VStr []; VStr [0; 65535; 0]; VInt32 (-1)] in
  Forall representable vs /\ Forall (storable win64) vs /\
  Forall2 has_type vs [TInt32; TInt64; TStr; TStr; TInt32] /\
  decodeFields win64 [TInt32; TInt64; TStr; TStr; TInt32] (putVals [] vs) = Ok vs.
Proof.
  cbv zeta. repeat split; repeat constructor; vm_compute; try reflexivity; try discriminate.
Qed.

(** The bytes produced are those of the wire format. *)
Theorem C01_writer_produces_wire_format : forall vs, fields_on_wire vs (putVals [] vs).
Proof. exact writer_wire. Qed.
Print Assumptions C01_writer_produces_wire_format.

(** C01: every request the library sends is decoded by the agent to the same
    request; sending itself cannot fail. *)
Theorem C01_request_roundtrip : forall pl rq bytes,
  plat_ok pl -> sendable pl rq -> sendRequest rq = Ok bytes -> parseRequest pl bytes = Ok rq.
Proof. exact request_roundtrip. Qed.
Print Assumptions C01_request_roundtrip.

Theorem C01_send_total : forall rq rp,
  (exists b, sendRequest rq = Ok b) /\ (exists b, sendReply rp = Ok b).
Proof. exact send_total. Qed.
Print Assumptions C01_send_total.

Definition sample_start : request :=
  RqStart {| sr_flags := 3; sr_want_process := true; sr_want_thread := false;
             sr_appname := []; sr_cmdline := [99; 109; 100]; sr_cwd := [67; 58];
             sr_env := [65; 61; 66; 0; 0]; sr_desktop := [] |}.
Example C01_request_nonvacuous :
  sendable win64 sample_start /\
  match sendRequest sample_start with
  | Ok b => zlen b = 97 /\ parseRequest win64 b = Ok sample_start
  | _ => False
  end.
Proof.
  split.
  - split; [split; [discriminate|reflexivity]|].
    repeat (constructor; [split; [repeat constructor; discriminate|discriminate]|]). constructor.
  - vm_compute; split; reflexivity.
Qed.

(** C01: replies.  [payload_of] is what the library hands to the reply parser:
    everything after the 8-byte size. *)
Theorem C01_reply_spawn_failed : forall e bytes,
  0 <= e < 2^32 -> sendReply (RpSpawnFailed e) = Ok bytes ->
  parseSpawnReply (skipn 8 bytes) = Ok (RpSpawnFailed e).
Proof. exact spawnFailed_reply. Qed.
Print Assumptions C01_reply_spawn_failed.

Theorem C01_reply_spawned : forall p t bytes,
  - 2^63 <= p < 2^63 -> - 2^63 <= t < 2^63 -> sendReply (RpSpawned p t) = Ok bytes ->
  parseSpawnReply (skipn 8 bytes) = Ok (RpSpawned p t).
Proof. exact spawned_reply. Qed.
Print Assumptions C01_reply_spawned.

Theorem C01_reply_process_list : forall cap pids bytes,
  zlen pids < 2^31 -> zlen pids <= cap -> Forall (fun p => 0 <= p < 2^31) pids ->
  sendReply (RpProcessList pids) = Ok bytes ->
  parseProcessListReply cap (skipn 8 bytes) = Ok (zlen pids, pids).
Proof. exact processList_reply. Qed.
Print Assumptions C01_reply_process_list.

Theorem C01_reply_setup : forall pl i o e bytes,
  plat_ok pl ->
  Forall (fun s => representable (VStr s) /\ storable pl (VStr s)) (i :: o :: match e with Some e => [e] | None => [] end) ->
  sendReply (RpSetup i o e) = Ok bytes ->
  parseSetup pl (match e with Some _ => true | None => false end) (skipn 8 bytes) = Ok (RpSetup i o e).
Proof. exact setup_reply. Qed.
Print Assumptions C01_reply_setup.

Theorem C01_reply_desktop : forall pl n bytes,
  plat_ok pl -> representable (VStr n) -> storable pl (VStr n) ->
  sendReply (RpDesktop n) = Ok bytes -> parseDesktop pl (skipn 8 bytes) = Ok (RpDesktop n).
Proof. exact desktop_reply. Qed.
Print Assumptions C01_reply_desktop.

Theorem C01_reply_set_size : forall bytes,
  sendReply RpSetSize = Ok bytes -> parseSetSizeReply (skipn 8 bytes) = Ok RpSetSize.
Proof. exact setSize_reply. Qed.
Print Assumptions C01_reply_set_size.

Example C01_reply_nonvacuous :
  match sendReply (RpProcessList [4; 1234; 2147483647]) with
  | Ok b => parseProcessListReply 64 (skipn 8 b) = Ok (3, [4; 1234; 2147483647])
  | _ => False
  end.
Proof. vm_compute; reflexivity. Qed.

(** C02: decoding any byte string for any field list never reads outside the
    message and never asserts: the outcome is values or an exception. *)
Theorem C02_never_overreads : forall pl ts bytes,
  plat_ok pl -> Forall (fun b => 0 <= b < 256) bytes ->
  match decodeFields pl ts bytes with Ok _ | Throw _ => True | AssertFail | UB | OutOfFuel => False end.
Proof. exact decodeFields_safe. Qed.
Print Assumptions C02_never_overreads.

(** C02: exactly the well-formed messages are accepted: wrong types, truncated
    fields, oversize strings and left-over bytes are all rejected. *)
Theorem C02_accepts_exactly_wellformed : forall pl ts bytes vs,
  plat_ok pl -> Forall (fun b => 0 <= b < 256) bytes ->
  (decodeFields pl ts bytes = Ok vs <->
   fields_on_wire vs bytes /\ Forall2 has_type vs ts /\ Forall representable vs /\ Forall (storable pl) vs).
Proof. exact decodeFields_iff. Qed.
Print Assumptions C02_accepts_exactly_wellformed.

(** C02: the agent's request decoder, on arbitrary bytes. *)
Theorem C02_request_decoder : forall pl bytes,
  plat_ok pl -> Forall (fun b => 0 <= b < 256) bytes ->
  match parseRequest pl bytes with
  | Ok rq => exists hdr payload, bytes = hdr ++ payload /\ length hdr = 8%nat /\ means_request rq payload
  | Throw _ => True
  | AssertFail | UB | OutOfFuel => False
  end.
Proof. exact parseRequest_sound. Qed.
Print Assumptions C02_request_decoder.

(** C02: a rejection is a decode error, except that a string length field
    beyond what the process can allocate surfaces as an allocation failure;
    this never happens when the announced length is allocatable. *)
Theorem C02_rejection_is_decode_error : forall pl ts bytes,
  plat_ok pl -> Forall (fun b => 0 <= b < 256) bytes ->
  decodeFields pl ts bytes = Throw EAlloc ->
  exists pre n suf, bytes = pre ++ 2 :: le_bytes 8 n ++ suf /\ p_alloc_limit pl < n.
Proof. exact decodeFields_alloc. Qed.
Print Assumptions C02_rejection_is_decode_error.

(** Finding: "a string length that does not fit the message is reported as a
    decode error" is false for huge lengths, because the string is resized
    before the length is compared with the message size (Buffer.cc:95-96).
    On the agent this exception is not caught (Agent.cc:315). *)
Theorem C02_oversize_string_refuted :
  exists bytes, Forall (fun b => 0 <= b < 256) bytes /\ length bytes = 9%nat /\
    decodeFields win64 [TStr] bytes = Throw EAlloc.
Proof. exists [2; 0; 0; 0; 0; 0; 0; 1; 0]. split; [repeat constructor; vm_compute; congruence|split; vm_compute; reflexivity]. Qed.
Print Assumptions C02_oversize_string_refuted.

Example C02_nonvacuous :
  decodeFields win64 [TInt32] [0; 1; 0; 0] = Throw EDecode /\        (* truncated *)
  decodeFields win64 [TInt32] [1; 1; 0; 0; 0] = Throw EDecode /\     (* wrong type *)
  decodeFields win64 [TInt32] [0; 1; 0; 0; 0; 9] = Throw EDecode /\  (* left-over *)
  decodeFields win64 [TStr] [2; 2; 0; 0; 0; 0; 0; 0; 0; 65; 0] = Throw EDecode /\ (* too long *)
  decodeFields win64 [TInt32] [0; 255; 255; 255; 255] = Ok [VInt32 (-1)].
Proof. vm_compute; repeat split. Qed.
