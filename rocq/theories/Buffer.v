(** Model of the RPC serialiser, src/shared/Buffer.{h,cc}, and of the message
    layouts used by src/libwinpty/winpty.cc and src/agent/Agent.cc. *)
From Verif Require Import Base.

(** Exceptions the reader can throw: [ReadBuffer::DecodeError]
    (Buffer.h:67-71), and [std::length_error]/[std::bad_alloc] out of
    [ret.resize(charLen)] (Buffer.cc:95). *)
Inductive exc := EDecode | EAlloc.

(** Platform parameters: SIZE_MAX of the process, and the largest string
    (in characters) that [std::wstring::resize] manages to allocate. *)
Record plat := { p_size_max : Z; p_alloc_limit : Z }.

(** ** Object representation of integers (little endian on all Windows targets) *)
Fixpoint le_bytes (n : nat) (x : Z) : list Z :=
  match n with
  | O => []
  | S n' => x mod 256 :: le_bytes n' (x / 256)
  end.

Fixpoint le_value (bs : list Z) : Z :=
  match bs with
  | [] => 0
  | b :: r => b + 256 * le_value r
  end.

(** enum class Piece : uint8_t, Buffer.cc:38 *)
Definition piece_int32 := 0.
Definition piece_int64 := 1.
Definition piece_wstring := 2.

(** ** WriteBuffer: the buffer is the list of bytes so far *)

(** WriteBuffer::putRawData, Buffer.cc:40-43 *)
Definition putRawData (buf data : list Z) : list Z := buf ++ data.

(** WriteBuffer::putRawValue of an [n]-byte integer, Buffer.h:41-43 *)
Definition putRawInt (n : nat) (buf : list Z) (x : Z) : list Z :=
  putRawData buf (le_bytes n x).

(** std::copy into the vector: checked stores. *)
Fixpoint store_all {E} (buf : list Z) (pos : Z) (data : list Z) : res E (list Z) :=
  match data with
  | [] => Ok buf
  | b :: r => match zupd buf pos b with
              | Some buf' => store_all buf' (pos + 1) r
              | None => UB
              end
  end.

(** WriteBuffer::replaceRawData, Buffer.cc:45-49 *)
Definition replaceRawData {E} (buf : list Z) (pos : Z) (data : list Z) : res E (list Z) :=
  let! _ := assert_ ((pos <=? zlen buf) && (zlen data <=? zlen buf - pos)) in
  store_all buf pos data.

(** WriteBuffer::putInt32, Buffer.cc:51-54 *)
Definition putInt32 (buf : list Z) (i : Z) : list Z :=
  putRawInt 4 (putRawInt 1 buf piece_int32) i.

(** WriteBuffer::putInt64, Buffer.cc:56-59 *)
Definition putInt64 (buf : list Z) (i : Z) : list Z :=
  putRawInt 8 (putRawInt 1 buf piece_int64) i.

(** WriteBuffer::putWString, Buffer.cc:62-66; wchar_t is 2 bytes on Windows. *)
Definition putWString (buf : list Z) (str : list Z) : list Z :=
  putRawData (putRawInt 8 (putRawInt 1 buf piece_wstring) (zlen str))
             (flat_map (le_bytes 2) str).

(** ** ReadBuffer *)
Record rbuf := { rb_buf : list Z; rb_off : Z }.

(** The copy out of the vector, one checked load per byte. *)
Fixpoint load_n {E} (buf : list Z) (pos : Z) (n : nat) : res E (list Z) :=
  match n with
  | O => Ok []
  | S n' => match znth buf pos with
            | Some b => let! r := load_n buf (pos + 1) n' in Ok (b :: r)
            | None => UB
            end
  end.

(** ReadBuffer::getRawData, Buffer.cc:68-74.  [&m_buf[m_off]] with
    [m_off == m_buf.size()] is undefined behaviour. *)
Definition getRawData (rb : rbuf) (len : Z) : res exc (list Z * rbuf) :=
  let size := zlen (rb_buf rb) in
  let off := rb_off rb in
  let! _ := assert_ (off <=? size) in
  if len <=? size - off then
    if off <? size then
      let! data := load_n (rb_buf rb) off (Z.to_nat len) in
      Ok (data, {| rb_buf := rb_buf rb; rb_off := off + len |})
    else UB
  else Throw EDecode.

(** ReadBuffer::getRawValue, Buffer.h:80-84, for unsigned [n]-byte integers *)
Definition getRawUInt (n : Z) (rb : rbuf) : res exc (Z * rbuf) :=
  let! (d, rb') := getRawData rb n in
  Ok (le_value d, rb').

(** READ_BUFFER_CHECK, Buffer.cc:30-36 *)
Definition read_check (c : bool) : res exc unit := if c then Ok tt else Throw EDecode.

(** ReadBuffer::getInt32, Buffer.cc:76-79 *)
Definition getInt32 (rb : rbuf) : res exc (Z * rbuf) :=
  let! (t, rb1) := getRawUInt 1 rb in
  let! _ := read_check (t =? piece_int32) in
  let! (v, rb2) := getRawUInt 4 rb1 in
  Ok (s32 v, rb2).

(** ReadBuffer::getInt64, Buffer.cc:81-84 *)
Definition getInt64 (rb : rbuf) : res exc (Z * rbuf) :=
  let! (t, rb1) := getRawUInt 1 rb in
  let! _ := read_check (t =? piece_int64) in
  let! (v, rb2) := getRawUInt 8 rb1 in
  Ok (s64 v, rb2).

Fixpoint units_of_bytes (bs : list Z) : list Z :=
  match bs with
  | lo :: hi :: r => (lo + 256 * hi) :: units_of_bytes r
  | _ => []
  end.

(** ReadBuffer::getWString, Buffer.cc:86-99.  The [size_t] product
    [charLen * sizeof(wchar_t)] is computed modulo SIZE_MAX+1.  The copy
    writes [byteLen] bytes into a string of [charLen] characters: a larger
    [byteLen] would be UB. *)
Definition getWString (pl : plat) (rb : rbuf) : res exc (list Z * rbuf) :=
  let! (t, rb1) := getRawUInt 1 rb in
  let! _ := read_check (t =? piece_wstring) in
  let! (charLen, rb2) := getRawUInt 8 rb1 in
  let! _ := read_check (charLen <=? p_size_max pl / 2) in
  if 0 <? charLen then
    let byteLen := (charLen * 2) mod (p_size_max pl + 1) in
    if charLen <=? p_alloc_limit pl then
      let! (d, rb3) := getRawData rb2 byteLen in
      if zlen d =? charLen * 2 then Ok (units_of_bytes d, rb3) else UB
    else Throw EAlloc
  else Ok ([], rb2).

(** ReadBuffer::assertEof, Buffer.cc:101-103 *)
Definition assertEof (rb : rbuf) : res exc unit :=
  read_check (rb_off rb =? zlen (rb_buf rb)).

(** ReadBuffer(std::vector<char>&&), Buffer.h:78 *)
Definition mkReadBuffer (bytes : list Z) : rbuf := {| rb_buf := bytes; rb_off := 0 |}.

(** ** Sequences of fields: what a caller does when it puts or gets fields one
    after the other. *)
Inductive val := VInt32 (i : Z) | VInt64 (i : Z) | VStr (s : list Z).
Inductive ty := TInt32 | TInt64 | TStr.

Definition putVal (buf : list Z) (v : val) : list Z :=
  match v with
  | VInt32 i => putInt32 buf i
  | VInt64 i => putInt64 buf i
  | VStr s => putWString buf s
  end.

Definition putVals (buf : list Z) (vs : list val) : list Z := fold_left putVal vs buf.

Definition getVal (pl : plat) (t : ty) (rb : rbuf) : res exc (val * rbuf) :=
  match t with
  | TInt32 => let! (i, rb) := getInt32 rb in Ok (VInt32 i, rb)
  | TInt64 => let! (i, rb) := getInt64 rb in Ok (VInt64 i, rb)
  | TStr => let! (s, rb) := getWString pl rb in Ok (VStr s, rb)
  end.

Fixpoint getVals (pl : plat) (ts : list ty) (rb : rbuf) : res exc (list val * rbuf) :=
  match ts with
  | [] => Ok ([], rb)
  | t :: ts' => let! (v, rb) := getVal pl t rb in
                let! (vs, rb) := getVals pl ts' rb in
                Ok (v :: vs, rb)
  end.

(** Read the given fields and then require end of message. *)
Definition decodeFields (pl : plat) (ts : list ty) (bytes : list Z) : res exc (list val) :=
  let! (vs, rb) := getVals pl ts (mkReadBuffer bytes) in
  let! _ := assertEof rb in
  Ok vs.

(** ** Packets *)

(** newPacket, winpty.cc:317-321 and Agent.cc:119-123 *)
Definition newPacket : list Z := putRawInt 8 [] 0.

(** The bytes handed to the pipe by writePacket, winpty.cc:323-327 and
    Agent.cc:344-349 *)
Definition finishPacket {E} (buf : list Z) : res E (list Z) :=
  replaceRawData buf 0 (le_bytes 8 (zlen buf)).

(** ** Messages *)

Record start_req := {
  sr_flags : Z;            (* UINT64 winptyFlags *)
  sr_want_process : bool;
  sr_want_thread : bool;
  sr_appname : list Z;
  sr_cmdline : list Z;
  sr_cwd : list Z;
  sr_env : list Z;
  sr_desktop : list Z
}.

Inductive request :=
| RqStart (r : start_req)
| RqSetSize (cols rows : Z)
| RqProcessList
| RqUnknown (ty : Z).     (* only ever produced by decoding *)

Definition Z_of_bool (b : bool) : Z := if b then 1 else 0.

(** AgentMsg, src/shared/AgentMsg.h:24-31 *)
Definition msg_start := 0.
Definition msg_set_size := 1.
Definition msg_process_list := 2.

(** The request packet built by winpty_spawn (winpty.cc:862-872),
    winpty_set_size (winpty.cc:927-931), winpty_get_console_process_list
    (winpty.cc:946-948), before the size is patched in. *)
Definition buildRequest (rq : request) : list Z :=
  match rq with
  | RqStart r =>
      let p := newPacket in
      let p := putInt32 p msg_start in
      let p := putInt64 p (sr_flags r) in
      let p := putInt32 p (Z_of_bool (sr_want_process r)) in
      let p := putInt32 p (Z_of_bool (sr_want_thread r)) in
      let p := putWString p (sr_appname r) in
      let p := putWString p (sr_cmdline r) in
      let p := putWString p (sr_cwd r) in
      let p := putWString p (sr_env r) in
      putWString p (sr_desktop r)
  | RqSetSize c r =>
      putInt32 (putInt32 (putInt32 newPacket msg_set_size) c) r
  | RqProcessList => putInt32 newPacket msg_process_list
  | RqUnknown t => putInt32 newPacket t
  end.

Definition sendRequest (rq : request) : res exc (list Z) := finishPacket (buildRequest rq).

(** Agent side: Agent::handlePacket (Agent.cc:321-342) and the decoding part
    of the three handlers (351-364, 423-427, 433-435), after the size has
    been skipped (Agent.cc:313).  The handler's own assertions and effects
    are modelled elsewhere. *)
Definition parseRequest (pl : plat) (packet : list Z) : res exc request :=
  let rb := mkReadBuffer packet in
  let! (_, rb) := getRawUInt 8 rb in
  let! (ty, rb) := getInt32 rb in
  if ty =? msg_start then
    let! (flags, rb) := getInt64 rb in
    let! (wp, rb) := getInt32 rb in
    let! (wt, rb) := getInt32 rb in
    let! (app, rb) := getWString pl rb in
    let! (cmd, rb) := getWString pl rb in
    let! (cwd, rb) := getWString pl rb in
    let! (env, rb) := getWString pl rb in
    let! (desk, rb) := getWString pl rb in
    let! _ := assertEof rb in
    Ok (RqStart {| sr_flags := u64 flags;
                   sr_want_process := negb (wp =? 0);
                   sr_want_thread := negb (wt =? 0);
                   sr_appname := app; sr_cmdline := cmd; sr_cwd := cwd;
                   sr_env := env; sr_desktop := desk |})
  else if ty =? msg_set_size then
    let! (c, rb) := getInt32 rb in
    let! (r, rb) := getInt32 rb in
    let! _ := assertEof rb in
    Ok (RqSetSize c r)
  else if ty =? msg_process_list then
    let! _ := assertEof rb in
    Ok RqProcessList
  else Ok (RqUnknown ty).

Inductive reply :=
| RpSpawnFailed (lastError : Z)             (* DWORD *)
| RpSpawned (process thread : Z)            (* int64 handles *)
| RpSetSize
| RpProcessList (pids : list Z)             (* DWORD pids *)
| RpSetup (conin conout : list Z) (conerr : option (list Z))
| RpDesktop (name : list Z).

(** Replies: Agent.cc:399-420 (spawn), 429-430 (set size), 452-457 (process
    list); the setup packet Agent.cc:181-187; the desktop packet of
    AgentCreateDesktop.cc:57-59. *)
Definition buildReply (rp : reply) : list Z :=
  match rp with
  | RpSpawnFailed e => putInt32 (putInt32 newPacket 0) e
  | RpSpawned p t => putInt64 (putInt64 (putInt32 newPacket 1) p) t
  | RpSetSize => newPacket
  | RpProcessList pids =>
      fold_left putInt32 pids (putInt32 newPacket (zlen pids))
  | RpSetup i o e =>
      let p := putWString (putWString newPacket i) o in
      match e with Some e => putWString p e | None => p end
  | RpDesktop n => putWString newPacket n
  end.

Definition sendReply (rp : reply) : res exc (list Z) := finishPacket (buildReply rp).

(** Client side.  The library reads the size, checks it (winpty.cc:359-363),
    and wraps the payload. *)
Definition parseSpawnReply (payload : list Z) : res exc reply :=
  let rb := mkReadBuffer payload in
  let! (result, rb) := getInt32 rb in
  if result =? 0 then                                   (* winpty.cc:877-880 *)
    let! (e, rb) := getInt32 rb in
    let! _ := assertEof rb in
    Ok (RpSpawnFailed (u32 e))
  else if result =? 1 then                              (* winpty.cc:886-889 *)
    let! (p, rb) := getInt64 rb in
    let! (t, rb) := getInt64 rb in
    let! _ := assertEof rb in
    Ok (RpSpawned p t)
  else Throw EDecode.  (* winpty.cc:907-910 throws a generic WinptyException; merged here *)

Definition parseSetSizeReply (payload : list Z) : res exc reply :=   (* winpty.cc:932 *)
  let! _ := assertEof (mkReadBuffer payload) in
  Ok RpSetSize.

Fixpoint getInt32s (rb : rbuf) (n : nat) : res exc (list Z * rbuf) :=
  match n with
  | O => Ok ([], rb)
  | S n' => let! (v, rb) := getInt32 rb in
            let! (vs, rb) := getInt32s rb n' in
            Ok (v :: vs, rb)
  end.

(** winpty.cc:951-961: the decoded count, and the ints stored in the caller's
    array (none if the array is too small). *)
Definition parseProcessListReply (cap : Z) (payload : list Z) : res exc (Z * list Z) :=
  let rb := mkReadBuffer payload in
  let! (count, rb) := getInt32 rb in
  let! (pids, rb) := (if count <=? cap then getInt32s rb (Z.to_nat count) else Ok ([], rb)) in
  let! _ := assertEof rb in
  Ok (count, pids).

(** winpty.cc:681-687 *)
Definition parseSetup (pl : plat) (wantErr : bool) (payload : list Z) : res exc reply :=
  let rb := mkReadBuffer payload in
  let! (i, rb) := getWString pl rb in
  let! (o, rb) := getWString pl rb in
  if wantErr then
    let! (e, rb) := getWString pl rb in
    let! _ := assertEof rb in
    Ok (RpSetup i o (Some e))
  else
    let! _ := assertEof rb in
    Ok (RpSetup i o None).

(** winpty.cc:616-618 *)
Definition parseDesktop (pl : plat) (payload : list Z) : res exc reply :=
  let rb := mkReadBuffer payload in
  let! (n, rb) := getWString pl rb in
  let! _ := assertEof rb in
  Ok (RpDesktop n).
