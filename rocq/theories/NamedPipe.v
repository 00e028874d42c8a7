(** Model of src/agent/NamedPipe.{h,cc}: an overlapped-I/O pipe endpoint with
    input and output queues, against an operating system that answers every
    call arbitrarily. *)
From Verif Require Import Base.

(** Answer of the OS to ReadFile/WriteFile/GetOverlappedResult.
    - [IoDone short]: success; the transfer is [short] bytes less than it could
      have been (0 = a full transfer).
    - [IoPending]: ERROR_IO_PENDING / ERROR_IO_INCOMPLETE.
    - [IoError]: any other error. *)
Inductive io_ans := IoDone (short : Z) | IoPending | IoError.
(** Answer to GetOverlappedResult on the pending ConnectNamedPipe. *)
Inductive conn_ans := ConnDone | ConnPending | ConnError.

(** kIoSize, NamedPipe.h:61 *)
Definition kIoSize : Z := 65536.

(** IoWorker, NamedPipe.h:47-65: m_pending, m_currentIoSize, m_buffer (only the
    part in use). *)
Record worker := { w_pending : bool; w_size : Z; w_buf : list Z }.
Definition new_worker : worker := {| w_pending := false; w_size := 0; w_buf := [] |}.

(** NamedPipe members (NamedPipe.h:112-122) plus, as ghost state, the two
    kernel-side streams: [np_peer], bytes the peer has written that the kernel
    still holds, and [np_sent], bytes the kernel has accepted from us. *)
Record pipe := {
  np_open : bool;         (* m_handle != nullptr *)
  np_connecting : bool;   (* m_connectEvent != nullptr *)
  np_reading : bool;      (* m_openMode & Reading *)
  np_writing : bool;      (* m_openMode & Writing *)
  np_rbs : Z;             (* m_readBufferSize *)
  np_inq : list Z;        (* m_inQueue *)
  np_outq : list Z;       (* m_outQueue *)
  np_in : option worker;  (* m_inputWorker *)
  np_out : option worker; (* m_outputWorker *)
  np_peer : list Z;
  np_sent : list Z
}.

Definition set_inq (p : pipe) (q peer : list Z) (w : worker) : pipe :=
  {| np_open := np_open p; np_connecting := np_connecting p; np_reading := np_reading p;
     np_writing := np_writing p; np_rbs := np_rbs p; np_inq := q; np_outq := np_outq p;
     np_in := Some w; np_out := np_out p; np_peer := peer; np_sent := np_sent p |}.
Definition set_outq (p : pipe) (q sent : list Z) (w : worker) : pipe :=
  {| np_open := np_open p; np_connecting := np_connecting p; np_reading := np_reading p;
     np_writing := np_writing p; np_rbs := np_rbs p; np_inq := np_inq p; np_outq := q;
     np_in := np_in p; np_out := Some w; np_peer := np_peer p; np_sent := sent |}.

Inductive sres := NoProgress | Progress | SError.

(** Number of bytes a read delivers: at most the buffer and what is there. *)
Definition read_amount (short : Z) (peer : list Z) : Z :=
  Z.max 0 (Z.min kIoSize (zlen peer) - Z.max 0 short).

(** InputWorker::shouldIssueIo, NamedPipe.cc:167-179 (and readBufferSize,
    306-310, which asserts the mode). *)
Definition in_should_issue (p : pipe) : res unit bool :=
  let! _ := assert_ (negb (np_connecting p)) in
  if negb (np_open p) then Ok false
  else let! _ := assert_ (np_reading p) in Ok (zlen (np_inq p) <? np_rbs p).

(** The while loop of IoWorker::service (NamedPipe.cc:117-142) for the input
    worker; structural on the OS's answers; no more answers = pending. *)
Fixpoint in_loop (ans : list io_ans) (p : pipe) (progress : sres) : res unit (sres * pipe) :=
  let! go := in_should_issue p in
  if go then
    match ans with
    | IoDone short :: ans' =>
        let n := read_amount short (np_peer p) in
        in_loop ans' (set_inq p (np_inq p ++ zfirstn n (np_peer p)) (zskipn n (np_peer p)) new_worker) Progress
    | IoError :: _ => Ok (SError, p)
    | IoPending :: _ | [] =>
        Ok (progress, set_inq p (np_inq p) (np_peer p) {| w_pending := true; w_size := kIoSize; w_buf := [] |})
    end
  else Ok (progress, p).

(** IoWorker::service, NamedPipe.cc:96-143, input worker. *)
Definition in_service (ans : list io_ans) (p : pipe) (w : worker) : res unit (sres * pipe) :=
  if w_pending w then
    match ans with
    | IoDone short :: ans' =>
        let n := read_amount short (np_peer p) in
        in_loop ans' (set_inq p (np_inq p ++ zfirstn n (np_peer p)) (zskipn n (np_peer p)) new_worker) Progress
    | IoError :: _ => Ok (SError, p)
    | IoPending :: _ | [] => Ok (NoProgress, p)
    end
  else in_loop ans p NoProgress.

(** Completion of a write of [buf]: the kernel took [zlen buf - short] bytes;
    OutputWorker::completeIo (NamedPipe.cc:181-184) asserts a full write. *)
Definition out_complete (p : pipe) (buf : list Z) (short : Z) : res unit pipe :=
  let n := Z.max 0 (zlen buf - Z.max 0 short) in
  let! _ := assert_ (n =? zlen buf) in
  Ok (set_outq p (np_outq p) (np_sent p ++ zfirstn n buf) new_worker).

(** OutputWorker::shouldIssueIo (NamedPipe.cc:186-199) and the while loop. *)
Fixpoint out_loop (ans : list io_ans) (p : pipe) (progress : sres) : res unit (sres * pipe) :=
  match np_outq p with
  | [] => Ok (progress, p)
  | _ :: _ =>
      let n := Z.min (zlen (np_outq p)) kIoSize in
      let buf := zfirstn n (np_outq p) in
      let p1 := set_outq p (zskipn n (np_outq p)) (np_sent p)
                  {| w_pending := false; w_size := n; w_buf := buf |} in
      match ans with
      | IoDone short :: ans' =>
          let! p2 := out_complete p1 buf short in
          out_loop ans' p2 Progress
      | IoError :: _ => Ok (SError, p1)
      | IoPending :: _ | [] =>
          Ok (progress, set_outq p1 (np_outq p1) (np_sent p1) {| w_pending := true; w_size := n; w_buf := buf |})
      end
  end.

Definition out_service (ans : list io_ans) (p : pipe) (w : worker) : res unit (sres * pipe) :=
  if w_pending w then
    match ans with
    | IoDone short :: ans' =>
        let! p2 := out_complete p (w_buf w) short in
        out_loop ans' p2 Progress
    | IoError :: _ => Ok (SError, p)
    | IoPending :: _ | [] => Ok (NoProgress, p)
    end
  else out_loop ans p NoProgress.

(** NamedPipe::closePipe, NamedPipe.cc:357-378.  A cancelled operation may have
    transferred [kr]/[kw] bytes. *)
Definition closePipe (kr kw : Z) (p : pipe) : pipe :=
  if negb (np_open p) then p
  else
    let lost := match np_in p with Some w => if w_pending w then kr else 0 | None => 0 end in
    let late := match np_out p with Some w => if w_pending w then zfirstn kw (w_buf w) else [] | None => [] end in
    {| np_open := false; np_connecting := false; np_reading := np_reading p; np_writing := np_writing p;
       np_rbs := np_rbs p; np_inq := np_inq p; np_outq := np_outq p; np_in := None; np_out := None;
       np_peer := zskipn lost (np_peer p); np_sent := np_sent p ++ late |}.

(** NamedPipe::startPipeWorkers, NamedPipe.cc:275-283 *)
Definition startPipeWorkers (p : pipe) : pipe :=
  {| np_open := np_open p; np_connecting := false; np_reading := np_reading p;
     np_writing := np_writing p; np_rbs := np_rbs p; np_inq := np_inq p; np_outq := np_outq p;
     np_in := if np_reading p then Some new_worker else np_in p;
     np_out := if np_writing p then Some new_worker else np_out p;
     np_peer := np_peer p; np_sent := np_sent p |}.

Definition is_serror (r : sres) : bool := match r with SError => true | _ => false end.
Definition is_progress (r : sres) : bool := match r with Progress => true | _ => false end.

(** What the OS answers during one serviceIo call. *)
Record svc := { sv_conn : conn_ans; sv_read : list io_ans; sv_write : list io_ans; sv_kr : Z; sv_kw : Z }.

(** NamedPipe::serviceIo, NamedPipe.cc:33-81 (wait handles omitted: they only
    decide when the loop wakes up).  Returns "something happened". *)
Definition serviceIo (a : svc) (p : pipe) : res unit (bool * pipe) :=
  if negb (np_open p) then Ok (false, p)
  else
    let! (just, p) :=
      (if np_connecting p then
         match sv_conn a with
         | ConnDone => Ok (true, startPipeWorkers p)
         | ConnPending => Ok (false, p)
         | ConnError => AssertFail
         end
       else Ok (false, p)) in
    let! (rp, p) := (match np_in p with Some w => in_service (sv_read a) p w | None => Ok (NoProgress, p) end) in
    let! (wp, p) := (match np_out p with Some w => out_service (sv_write a) p w | None => Ok (NoProgress, p) end) in
    if is_serror rp || is_serror wp then Ok (true, closePipe (sv_kr a) (sv_kw a) p)
    else Ok (just || is_progress rp || is_progress wp, p).

(** NamedPipe::bytesToSend, NamedPipe.cc:285-293 with getPendingIoSize 201-204 *)
Definition bytesToSend (p : pipe) : res unit Z :=
  let! _ := assert_ (np_writing p) in
  Ok (zlen (np_outq p) + match np_out p with Some w => if w_pending w then w_size w else 0 | None => 0 end).

(** NamedPipe::write, NamedPipe.cc:295-299 *)
Definition np_write (d : list Z) (p : pipe) : res unit pipe :=
  let! _ := assert_ (np_writing p) in
  Ok {| np_open := np_open p; np_connecting := np_connecting p; np_reading := np_reading p;
        np_writing := np_writing p; np_rbs := np_rbs p; np_inq := np_inq p; np_outq := np_outq p ++ d;
        np_in := np_in p; np_out := np_out p; np_peer := np_peer p; np_sent := np_sent p |}.

Definition with_inq (p : pipe) (q : list Z) : pipe :=
  {| np_open := np_open p; np_connecting := np_connecting p; np_reading := np_reading p;
     np_writing := np_writing p; np_rbs := np_rbs p; np_inq := q; np_outq := np_outq p;
     np_in := np_in p; np_out := np_out p; np_peer := np_peer p; np_sent := np_sent p |}.

(** NamedPipe::setReadBufferSize, NamedPipe.cc:312-316 *)
Definition setReadBufferSize (n : Z) (p : pipe) : res unit pipe :=
  let! _ := assert_ (np_reading p) in
  Ok {| np_open := np_open p; np_connecting := np_connecting p; np_reading := np_reading p;
        np_writing := np_writing p; np_rbs := n; np_inq := np_inq p; np_outq := np_outq p;
        np_in := np_in p; np_out := np_out p; np_peer := np_peer p; np_sent := np_sent p |}.

(** NamedPipe::peek, NamedPipe.cc:324-331 *)
Definition np_peek (size : Z) (p : pipe) : res unit (list Z) :=
  let! _ := assert_ (np_reading p) in
  Ok (zfirstn (Z.min size (zlen (np_inq p))) (np_inq p)).

(** NamedPipe::read, NamedPipe.cc:333-338 *)
Definition np_read (size : Z) (p : pipe) : res unit (list Z * pipe) :=
  let! d := np_peek size p in
  Ok (d, with_inq p (zskipn (zlen d) (np_inq p))).

(** NamedPipe::readAllToString, NamedPipe.cc:349-355 *)
Definition np_readAll (p : pipe) : res unit (list Z * pipe) :=
  let! _ := assert_ (np_reading p) in
  Ok (np_inq p, with_inq p []).

(** The peer (or the kernel on its behalf) makes bytes available. *)
Definition peer_write (d : list Z) (p : pipe) : pipe :=
  {| np_open := np_open p; np_connecting := np_connecting p; np_reading := np_reading p;
     np_writing := np_writing p; np_rbs := np_rbs p; np_inq := np_inq p; np_outq := np_outq p;
     np_in := np_in p; np_out := np_out p; np_peer := np_peer p ++ d; np_sent := np_sent p |}.

(** A fresh server endpoint still waiting for its client (openServerPipe with a
    pending connection, NamedPipe.cc:206-252), and a connected one
    (openServerPipe when ConnectNamedPipe succeeds at once, 245-248;
    connectToServer, 254-273).  m_readBufferSize starts at 64 KiB
    (NamedPipe.h:117). *)
Definition fresh_pipe (connecting reading writing : bool) : pipe :=
  let p := {| np_open := true; np_connecting := connecting; np_reading := reading; np_writing := writing;
     np_rbs := 65536; np_inq := []; np_outq := []; np_in := None; np_out := None;
     np_peer := []; np_sent := [] |} in
  if connecting then p else startPipeWorkers p.

(** ** Operations on one endpoint, in any order *)
Inductive pop :=
| PService (a : svc)
| PWrite (d : list Z)
| PRead (size : Z)
| PReadAll
| PSetBuf (n : Z)
| PClose (kr kw : Z)
| PPeer (d : list Z).

(** Run one operation; the result carries the bytes handed to the caller. *)
Definition pstep (p : pipe) (o : pop) : res unit (pipe * list Z) :=
  match o with
  | PService a => let! (_, p) := serviceIo a p in Ok (p, [])
  | PWrite d => let! p := np_write d p in Ok (p, [])
  | PRead n => let! (d, p) := np_read n p in Ok (p, d)
  | PReadAll => let! (d, p) := np_readAll p in Ok (p, d)
  | PSetBuf n => let! p := setReadBufferSize n p in Ok (p, [])
  | PClose kr kw => Ok (closePipe kr kw p, [])
  | PPeer d => Ok (peer_write d p, [])
  end.

(** Run a history, accumulating the bytes delivered to the caller. *)
Fixpoint prun (ops : list pop) (p : pipe) : res unit (pipe * list Z) :=
  match ops with
  | [] => Ok (p, [])
  | o :: r => let! (p1, d1) := pstep p o in
              let! (p2, d2) := prun r p1 in
              Ok (p2, d1 ++ d2)
  end.
