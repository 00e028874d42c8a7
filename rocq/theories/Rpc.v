(** Model of libwinpty's RPC calls on an open session: libwinpty/winpty.cc, with the
    operating system and the agent as explicit inputs.

    A call is a program over I/O operations, so that it can be run alone or
    interleaved with calls of other threads one operation at a time. *)
From Verif Require Import Base Buffer Spawn.

(** Exceptions that reach API_CATCH.  [XLib] carries its error code; messages are
    modelled in ErrorObj. *)
Inductive lexc := XDecode | XLib (code : Z) | XWinpty | XBadAlloc | XOther.

(** Error codes, winpty_constants.h:36-44 *)
Definition ERR_SPAWN_CREATE_PROCESS_FAILED := 2.
Definition ERR_LOST_CONNECTION := 3.
Definition ERR_UNSPECIFIED := 5.
Definition ERR_AGENT_DIED := 6.
Definition ERR_AGENT_TIMEOUT := 7.

(** ** Operating system answers *)

(** WaitForMultipleObjects on the I/O event and the agent process, winpty.cc:238 *)
Inductive wait := WIo | WDied | WTimeout | WFailed | WUnknown.

(** A WriteFile or ReadFile: finished at once with success or an error, or pending,
    then the wait's answer and what GetOverlappedResult reports (used only if the
    wait returned the I/O event).  [n] bytes moved in either case: an I/O that is
    cancelled or fails may still have happened. *)
Inductive ioans := Now (ok : bool) (err n : Z) | Pend (w : wait) (ok : bool) (err n : Z).
Definition moved (a : ioans) : Z := match a with Now _ _ n => n | Pend _ _ _ n => n end.

Inductive op :=
| OIsOpen                  (* controlPipe.get() == nullptr, winpty.cc:742 *)
| OWrite (data : list Z)   (* WriteFile on the control pipe *)
| ORead (amount : Z)       (* ReadFile on the control pipe *)
| OSteal (h : Z)           (* DuplicateHandle from the agent, winpty.cc:833-842 *)
| OCloseHandle (h : Z)     (* ~OwnedHandle *)
| OClosePipe.              (* controlPipe.dispose(true), winpty.cc:749 *)

Inductive ans := ABool (b : bool) | AIo (r : ioans) (data : list Z) | AHandle (h : option Z) | AUnit.

(** ** The world *)
Record world := mkW
  { w_pipe : bool;              (* the library's end of the control pipe is open *)
    w_sent : list (list Z);     (* the requests the agent has received *)
    w_in : list Z;              (* bytes from the agent not read yet *)
    w_io : list ioans;          (* answers to come; then everything times out *)
    w_dup : list (option Z);    (* DuplicateHandle answers to come; then failures *)
    w_handles : list Z;         (* duplicated handles the library or its caller owns *)
    w_log : list (op * ans) }.  (* everything done so far *)

Definition next_io (w : world) : ioans * list ioans :=
  match w_io w with a :: t => (a, t) | [] => (Pend WTimeout false 0 0, []) end.
Definition next_dup (w : world) : option Z * list (option Z) :=
  match w_dup w with a :: t => (a, t) | [] => (None, []) end.

Fixpoint remove_one (h : Z) (l : list Z) : list Z :=
  match l with [] => [] | x :: t => if x =? h then t else x :: remove_one h t end.

(** [agent] is the agent: the bytes it sends back, given every request received so
    far, the last being the current one. *)
Definition weffect (agent : list (list Z) -> list Z) (w : world) (o : op) : world * ans :=
  match o with
  | OIsOpen => (w, ABool (w_pipe w))
  | OWrite data =>
      let (a, t) := next_io w in
      if moved a =? zlen data then
        let sent := w_sent w ++ [data] in
        (mkW (w_pipe w) sent (w_in w ++ agent sent) t (w_dup w) (w_handles w) (w_log w), AIo a [])
      else (mkW (w_pipe w) (w_sent w) (w_in w) t (w_dup w) (w_handles w) (w_log w), AIo a [])
  | ORead amount =>
      let (a, t) := next_io w in
      (* never more than asked for and available *)
      let n := Z.max 0 (Z.min (moved a) (Z.min amount (zlen (w_in w)))) in
      (mkW (w_pipe w) (w_sent w) (zskipn n (w_in w)) t (w_dup w) (w_handles w) (w_log w), AIo a (zfirstn n (w_in w)))
  | OSteal _ =>
      let (a, t) := next_dup w in
      (mkW (w_pipe w) (w_sent w) (w_in w) (w_io w) t
           (match a with Some h => h :: w_handles w | None => w_handles w end) (w_log w), AHandle a)
  | OCloseHandle h => (mkW (w_pipe w) (w_sent w) (w_in w) (w_io w) (w_dup w) (remove_one h (w_handles w)) (w_log w), AUnit)
  | OClosePipe => (mkW false (w_sent w) (w_in w) (w_io w) (w_dup w) (w_handles w) (w_log w), AUnit)
  end.
Definition wstep (agent : list (list Z) -> list Z) (w : world) (o : op) : world * ans :=
  let (w', a) := weffect agent w o in
  (mkW (w_pipe w') (w_sent w') (w_in w') (w_io w') (w_dup w') (w_handles w') (w_log w ++ [(o, a)]), a).

(** ** Programs *)
Inductive prog (A : Type) : Type :=
| Ret (a : A)
| Do (o : op) (k : ans -> prog A).
Arguments Ret {A} a.
Arguments Do {A} o k.

Fixpoint pbind {A B} (p : prog A) (k : A -> prog B) : prog B :=
  match p with Ret a => k a | Do o f => Do o (fun a => pbind (f a) k) end.
(** ... with exceptions *)
Definition tbind {A B} (p : prog (res lexc A)) (k : A -> prog (res lexc B)) : prog (res lexc B) :=
  pbind p (fun r => match r with
                    | Ok a => k a
                    | Throw e => Ret (Throw e)
                    | AssertFail => Ret AssertFail
                    | UB => Ret UB
                    | OutOfFuel => Ret OutOfFuel
                    end).

Fixpoint run {A} (agent : list (list Z) -> list Z) (w : world) (p : prog A) : world * A :=
  match p with
  | Ret a => (w, a)
  | Do o k => let (w', a) := wstep agent w o in run agent w' (k a)
  end.

(** ** I/O helpers *)

(** handlePendingIo, winpty.cc:232-257: success, error, bytes *)
Definition handlePendingIo (a : ioans) : res lexc (bool * Z) :=
  match a with
  | Now ok err _ => Ok (ok, err)
  | Pend WIo ok err _ => Ok (ok, err)
  | Pend WDied _ _ _ => Throw (XLib ERR_AGENT_DIED)
  | Pend WTimeout _ _ _ => Throw (XLib ERR_AGENT_TIMEOUT)
  | Pend WFailed _ _ _ => Throw XWinpty
  | Pend WUnknown _ _ _ => AssertFail
  end.

(** handleReadWriteErrors, winpty.cc:265-282: ERROR_BROKEN_PIPE, ERROR_NO_DATA,
    ERROR_PIPE_NOT_CONNECTED *)
Definition handleReadWriteErrors (r : bool * Z) : res lexc unit :=
  if fst r then Ok tt
  else if (snd r =? 109) || (snd r =? 232) || (snd r =? 233) then Throw (XLib ERR_LOST_CONNECTION)
  else Throw XWinpty.

Definition io_result (a : ioans) : res lexc unit :=
  let! r := handlePendingIo a in handleReadWriteErrors r.

(** writeData, winpty.cc:300-315 *)
Definition writeData (data : list Z) : prog (res lexc unit) :=
  Do (OWrite data) (fun a => Ret
    match a with
    | AIo r _ => let! _ := io_result r in assert_ (moved r =? zlen data)
    | _ => UB
    end).

(** readData, winpty.cc:329-341 *)
Definition readData (amount : Z) : prog (res lexc (list Z)) :=
  Do (ORead amount) (fun a => Ret
    match a with
    | AIo r data => let! _ := io_result r in Ok data
    | _ => UB
    end).

(** readAll, winpty.cc:343-350.  Fuel: number of reads; the loop does not end if the
    system keeps returning no bytes. *)
Fixpoint readAll (fuel : nat) (amount : Z) : prog (res lexc (list Z)) :=
  if 0 <? amount then
    match fuel with
    | O => Ret OutOfFuel
    | S k =>
        tbind (readData amount) (fun chunk =>
        if zlen chunk <=? amount then
          tbind (readAll k (amount - zlen chunk)) (fun rest => Ret (Ok (chunk ++ rest)))
        else Ret AssertFail)
    end
  else Ret (Ok []).

(** readPacket, winpty.cc:359-368.  The vector's allocation fails beyond the
    platform's limit. *)
Definition readPacket (fuel : nat) (pl : plat) : prog (res lexc (list Z)) :=
  tbind (readAll fuel 8) (fun hdr =>
  let packetSize := le_value hdr in
  if (packetSize <? 8) || (p_size_max pl <? packetSize) then Ret (Throw XWinpty)
  else if p_alloc_limit pl <? packetSize - 8 then Ret (Throw XBadAlloc)
  else readAll fuel (packetSize - 8)).

(** writePacket, winpty.cc:323-327; [m] is the packet before the size is patched. *)
Definition writePacket (m : list Z) : prog (res lexc unit) :=
  match @finishPacket lexc m with
  | Ok bytes => writeData bytes
  | AssertFail => Ret AssertFail
  | UB => Ret UB
  | OutOfFuel => Ret OutOfFuel
  | Throw e => Ret (Throw e)
  end.

(** ReadBuffer's exceptions *)
Definition lift_exc {A} (m : res exc A) : res lexc A :=
  match m with
  | Ok a => Ok a
  | Throw EDecode => Throw XDecode
  | Throw EAlloc => Throw XBadAlloc
  | AssertFail => AssertFail
  | UB => UB
  | OutOfFuel => OutOfFuel
  end.

(** ** RpcOperation, winpty.cc:739-756.  The body reports whether success() was
    called; an abort runs no destructor. *)
Definition with_rpc {R} (closed : R) (fatal : R -> bool) (body : prog (bool * R)) : prog R :=
  Do OIsOpen (fun a =>
    match a with
    | ABool true =>
        pbind body (fun sr => let (s, r) := (sr : bool * R) in
          if s || fatal r then Ret r else Do OClosePipe (fun _ => Ret r))
    | _ => Ret closed
    end).

Definition fatal_res {A} (r : res lexc A) : bool :=
  match r with Ok _ | Throw _ => false | _ => true end.

(** ** winpty_spawn *)

(** The three output parameters, as the caller sees them. *)
Record outs := mkOuts { o_process : Z; o_thread : Z; o_error : Z }.
Definition no_outs := mkOuts 0 0 0.      (* winpty.cc:854-856 *)

(** handleFromInt64, winpty.cc:827-829: truncation to the pointer size *)
Definition handleFromInt64 (pl : plat) (i : Z) : Z :=
  if p_size_max pl =? 2 ^ 32 - 1 then s32 i else s64 i.

(** stealHandle when the remote handle is not null, winpty.cc:892-899 *)
Definition steal (remote : Z) : prog (res lexc Z) :=
  if remote =? 0 then Ret (Ok 0)
  else Do (OSteal remote) (fun a => Ret match a with AHandle (Some h) => Ok h | _ => Throw XWinpty end).

(** ~OwnedHandle, OwnedHandle.cc:26-36 *)
Definition dtor {A} (h : Z) (k : prog A) : prog A :=
  if h =? 0 then k else Do (OCloseHandle h) (fun _ => k).

Definition spawn_body (fuel : nat) (pl : plat) (rq : start_req) : prog (bool * (outs * res lexc unit)) :=
  let fail (r : res lexc unit) : prog (bool * (outs * res lexc unit)) := Ret (false, (no_outs, r)) in
  pbind (writePacket (buildRequest (RqStart rq))) (fun w =>
  match w with
  | Ok _ =>
      pbind (readPacket fuel pl) (fun r =>
      match r with
      | Ok payload =>
          match lift_exc (parseSpawnReply payload) with
          | Ok (RpSpawnFailed e) =>                                    (* 877-885 *)
              Ret (true, (mkOuts 0 0 e, Throw (XLib ERR_SPAWN_CREATE_PROCESS_FAILED)))
          | Ok (RpSpawned p t) =>                                      (* 886-906 *)
              pbind (steal (handleFromInt64 pl p)) (fun rp =>
              match rp with
              | Ok hp =>
                  pbind (steal (handleFromInt64 pl t)) (fun rt =>
                  match rt with
                  | Ok ht =>
                      let op_ := if sr_want_process rq then hp else 0 in
                      let ot := if sr_want_thread rq then ht else 0 in
                      dtor (if sr_want_thread rq then 0 else ht)
                        (dtor (if sr_want_process rq then 0 else hp)
                           (Ret (true, (mkOuts op_ ot 0, Ok tt))))
                  | Throw e => dtor hp (fail (Throw e))
                  | _ => fail AssertFail
                  end)
              | Throw e => fail (Throw e)
              | _ => fail AssertFail
              end)
          | Ok _ => fail AssertFail
          | Throw e => fail (Throw e)
          | AssertFail => fail AssertFail | UB => fail UB | OutOfFuel => fail OutOfFuel
          end
      | Throw e => fail (Throw e)
      | AssertFail => fail AssertFail | UB => fail UB | OutOfFuel => fail OutOfFuel
      end)
  | Throw e => fail (Throw e)
  | AssertFail => fail AssertFail | UB => fail UB | OutOfFuel => fail OutOfFuel
  end).

(** ** The calls *)
Inductive call :=
| CSpawn (rq : start_req)
| CSetSize (cols rows : Z)
| CProcessList (cap : Z).

(** What a call gives back: the out-parameters of winpty_spawn, the ids stored by
    winpty_get_console_process_list, and the return value or exception. *)
Record cres := mkR { r_outs : outs; r_ids : list Z; r_ret : res lexc Z }.

(** winpty_set_size, winpty.cc:921-936 *)
Definition set_size_body (fuel : nat) (pl : plat) (cols rows : Z) : prog (res lexc Z) :=
  tbind (writePacket (buildRequest (RqSetSize cols rows))) (fun _ =>
  tbind (readPacket fuel pl) (fun payload =>
  Ret (let! _ := lift_exc (parseSetSizeReply payload) in Ok 1))).

(** winpty_get_console_process_list, winpty.cc:939-962: the ids stored in the
    caller's array stay there even if a later check throws, so they are returned
    separately.  The loop stores nothing if the array is too small. *)
Fixpoint store_ids (rb : rbuf) (n : nat) : list Z * res exc rbuf :=
  match n with
  | O => ([], Ok rb)
  | S k =>
      match getInt32 rb with
      | Ok (v, rb) => let (l, r) := store_ids rb k in (v :: l, r)
      | Throw e => ([], Throw e)
      | AssertFail => ([], AssertFail) | UB => ([], UB) | OutOfFuel => ([], OutOfFuel)
      end
  end.
Definition process_list_reply (cap : Z) (payload : list Z) : list Z * res exc Z :=
  match getInt32 (mkReadBuffer payload) with
  | Ok (count, rb) =>
      let (ids, r) := (if count <=? cap then store_ids rb (Z.to_nat count) else ([], Ok rb)) in
      (ids, let! rb := r in let! _ := assertEof rb in Ok count)
  | Throw e => ([], Throw e)
  | AssertFail => ([], AssertFail) | UB => ([], UB) | OutOfFuel => ([], OutOfFuel)
  end.
Definition process_list_body (fuel : nat) (pl : plat) (cap : Z) : prog (list Z * res lexc Z) :=
  pbind (writePacket (buildRequest RqProcessList)) (fun w =>
  match w with
  | Ok _ =>
      pbind (readPacket fuel pl) (fun r =>
      match r with
      | Ok payload => let (ids, x) := process_list_reply cap payload in Ret (ids, lift_exc x)
      | Throw e => Ret ([], Throw e)
      | AssertFail => Ret ([], AssertFail) | UB => Ret ([], UB) | OutOfFuel => Ret ([], OutOfFuel)
      end)
  | Throw e => Ret ([], Throw e)
  | AssertFail => Ret ([], AssertFail) | UB => Ret ([], UB) | OutOfFuel => Ret ([], OutOfFuel)
  end).

Definition closed_res : cres := mkR no_outs [] (Throw XWinpty).      (* winpty.cc:742-744 *)
Definition succeeded (r : res lexc Z) : bool := match r with Ok _ => true | _ => false end.

(** The critical section of a call, between lock and unlock.  The argument
    assertions (winpty.cc:852, 924, 942-943) come before it. *)
Definition section (fuel : nat) (pl : plat) (c : call) : prog cres :=
  with_rpc closed_res (fun r => fatal_res (r_ret r))
    match c with
    | CSpawn rq =>
        pbind (spawn_body fuel pl rq) (fun sr => let '(s, (o, r)) := (sr : bool * (outs * res lexc unit)) in
          Ret (s, mkR o [] (let! _ := r in Ok 1)))
    | CSetSize cols rows =>
        pbind (set_size_body fuel pl cols rows) (fun r => Ret (succeeded r, mkR no_outs [] r))
    | CProcessList cap =>
        pbind (process_list_body fuel pl cap) (fun lr => let (l, r) := (lr : list Z * res lexc Z) in
          Ret (succeeded r, mkR no_outs l r))
    end.

Definition docall agent fuel pl (w : world) (c : call) : world * cres := run agent w (section fuel pl c).

(** Calls one after the other. *)
Fixpoint calls agent fuel pl (w : world) (cs : list call) : world * list cres :=
  match cs with
  | [] => (w, [])
  | c :: t => let (w, r) := docall agent fuel pl w c in
              let (w, rs) := calls agent fuel pl w t in (w, r :: rs)
  end.

(** ** Several threads (C45): each has calls to make, at most one in progress. *)
Record thread := mkT { t_todo : list call; t_cur : option (prog cres); t_done : list cres }.
Record conc := mkC { c_world : world; c_lock : option nat; c_threads : list thread }.
Inductive cev := Lock (t : nat) | Step (t : nat).

(** LockGuard, Mutex.h:43-52: the section starts when the lock is taken; Step does one
    operation, or ends the section and releases the lock. *)
Definition set_thread (s : conc) (t : nat) (th : thread) : list thread :=
  match upd_nat (c_threads s) t th with Some l => l | None => c_threads s end.

Definition cstep agent fuel pl (s : conc) (e : cev) : conc :=
  match e with
  | Lock t =>
      match c_lock s, nth_error (c_threads s) t with
      | None, Some th =>
          match t_todo th, t_cur th with
          | c :: rest, None =>
              mkC (c_world s) (Some t) (set_thread s t (mkT rest (Some (section fuel pl c)) (t_done th)))
          | _, _ => s
          end
      | _, _ => s
      end
  | Step t =>
      match nth_error (c_threads s) t with
      | Some th =>
          match t_cur th with
          | Some (Do o k) =>
              let (w, a) := wstep agent (c_world s) o in
              mkC w (c_lock s) (set_thread s t (mkT (t_todo th) (Some (k a)) (t_done th)))
          | Some (Ret r) => mkC (c_world s) None (set_thread s t (mkT (t_todo th) None (t_done th ++ [r])))
          | None => s
          end
      | None => s
      end
  end.
Definition crun agent fuel pl (s : conc) (es : list cev) : conc := fold_left (cstep agent fuel pl) es s.
Definition cinit (w : world) (todo : list (list call)) : conc :=
  mkC w None (map (fun cs => mkT cs None []) todo).

(** ** The agent's side *)

(** The reply of Agent::handleStartProcessPacket, Agent.cc:393-419.  [created] is
    CreateProcess's result: the two handles duplicated for the client (those asked
    for, Agent.cc:403-408), or GetLastError(). *)
Definition spawn_reply (rq : start_req) (created : (Z * Z) + Z) : reply :=
  match created with
  | inl (hProcess, hThread) =>
      RpSpawned (if sr_want_process rq then hProcess else 0) (if sr_want_thread rq then hThread else 0)
  | inr lastError => RpSpawnFailed lastError
  end.

(** The loop of handleGetConsoleProcessListPacket, Agent.cc:437-446.  [os] are the
    processes attached at each successive GetConsoleProcessList call (none if it
    fails); the call stores the ids only if they fit. *)
Fixpoint process_list_loop (os : list (list Z)) (size : Z) : option (list Z) :=
  match os with
  | [] => None                                     (* no further answer: still looping *)
  | ps :: os =>
      if size <? zlen ps then process_list_loop os (Z.max (u32 (size * 2)) (zlen ps))
      else Some ps
  end.
Definition process_list (os : list (list Z)) : option (list Z) := process_list_loop os 64.
