(** Model of the unix adapter's I/O: Util.cc (writeAll), OutputHandler.cc,
    InputHandler.cc, WakeupFd.cc and the main loop of main.cc. *)
From Verif Require Import Base.

(** ** writeAll and the two copying threads *)

(** One write() call: interrupted, failed (-1 with another errno, or 0), or [n]
    bytes accepted. *)
Inductive wr := WIntr | WFail | WSome (n : Z).

(** writeAll, Util.cc:32-56.  [os] are the answers of successive write() calls,
    [fd] what the descriptor has received; with no answer left the call is still
    blocked (OutOfFuel).  [ret] is an int: the ssize_t result is narrowed. *)
Fixpoint writeAll_loop {E} (os : list wr) (buf : list Z) (written : Z) (fd : list Z)
  : res E (bool * list Z * list wr) :=
  if written <? zlen buf then
    match os with
    | [] => OutOfFuel
    | WIntr :: os => writeAll_loop os buf written fd
    | WFail :: os => Ok (false, fd, os)
    | WSome n :: os =>
        let fd := fd ++ zfirstn n (zskipn written buf) in
        let ret := s32 n in
        if ret <=? 0 then Ok (false, fd, os)
        else
          let! _ := assert_ (ret <=? zlen buf - written) in
          writeAll_loop os buf (written + ret) fd
    end
  else
    let! _ := assert_ (written =? zlen buf) in
    Ok (true, fd, os).
Definition writeAll {E} (os : list wr) (buf fd : list Z) := @writeAll_loop E os buf 0 fd.

(** One ReadFile on CONOUT: data (at least a byte), or failure/empty. *)
Inductive rd := RData (bytes : list Z) | RFail.

(** OutputHandler::threadProc, OutputHandler.cc:54-80: result is whether the last
    write failed, and what the descriptor received. *)
Fixpoint output_thread {E} (reads : list rd) (os : list wr) (fd : list Z) : res E (bool * list Z) :=
  match reads with
  | [] => OutOfFuel
  | RFail :: _ => Ok (true, fd)
  | RData b :: t =>
      if zlen b =? 0 then Ok (true, fd)
      else
        let! (ok, fd, os) := writeAll os b fd in
        if ok then output_thread t os fd else Ok (false, fd)
  end.

(** One round of InputHandler::threadProc, InputHandler.cc:61-111: the shutdown
    flag is seen; select returns without input (wake-up or EINTR); read is
    interrupted; read fails or hits end of file; or [bytes] are read and WriteFile
    answers ([ok], number of bytes written). *)
Inductive ird := IShutdown | INoInput | IIntr | IEnd | IData (bytes : list Z) (ok : bool) (written : Z).

(** InputHandler::threadProc: [conin] is what the pipe received. *)
Fixpoint input_thread {E} (rounds : list ird) (conin : list Z) : res E (list Z) :=
  match rounds with
  | [] => OutOfFuel
  | IShutdown :: _ => Ok conin
  | INoInput :: t => input_thread t conin
  | IIntr :: t => input_thread t conin
  | IEnd :: _ => Ok conin
  | IData b ok written :: t =>
      if zlen b <=? 0 then Ok conin
      else
        let conin := conin ++ zfirstn written b in
        if negb ok || negb (written =? zlen b) then Ok conin else input_thread t conin
  end.

(** ** Wake-ups *)

(** An I/O thread: running; has set m_threadCompleted (InputHandler.cc:112,
    OutputHandler.cc:78); has also called m_completionWakeup.set() (113, 79). *)
Inductive hstate := HRunning | HFlagged | HNotified.

(** Program counter of main: before registerResizeSignalHandler (main.cc:669), in
    selectWrapper (684), in reset (685), at the resize check (687-695), at the
    completion check (699-702), after the loop. *)
Inductive mpc := Start | Select | Reset | CheckSize | CheckDone | Exited.

Record mstate := mkM
  { pipe : Z;            (* bytes in the self-pipe *)
    pc : mpc;
    term : Z;            (* the terminal's size now (any encoding) *)
    sz : Z;              (* the size main last acted upon *)
    reg : bool;          (* SIGWINCH handler installed *)
    pend : bool;         (* SIGWINCH pending: several resizes coalesce *)
    hs : list hstate }.

Inductive mev :=
| EvResize (v : Z)       (* the terminal changes size; the kernel raises SIGWINCH *)
| EvDeliver              (* terminalResized runs, main.cc:187-190 *)
| EvComplete (i : nat)   (* thread i sets its completion flag *)
| EvNotify (i : nat)     (* thread i calls set() *)
| EvMain                 (* main takes a step *)
| EvIntr.                (* select returns with EINTR, Util.cc:62-71 *)

(** WakeupFd::set, WakeupFd.cc:51-57, on a non-blocking pipe of capacity [cap]: a
    full pipe already wakes the reader.  EINTR is retried. *)
Definition wake (cap n : Z) : Z := Z.min cap (n + 1).

(** WakeupFd::reset's read of up to 256 bytes, WakeupFd.cc:62 *)
Definition drain (n : Z) : Z := n - Z.min 256 n.

Definition complete (h : hstate) : bool := match h with HRunning => false | _ => true end.

Definition with_pc (s : mstate) (p : mpc) := mkM (pipe s) p (term s) (sz s) (reg s) (pend s) (hs s).
Definition with_pipe (s : mstate) (n : Z) := mkM n (pc s) (term s) (sz s) (reg s) (pend s) (hs s).

(** One event; an event that is not enabled leaves the state unchanged. *)
Definition mstep (cap : Z) (s : mstate) (e : mev) : mstate :=
  match e with
  | EvResize v => mkM (pipe s) (pc s) v (sz s) (reg s) (pend s || reg s) (hs s)
  | EvDeliver =>
      if pend s then mkM (wake cap (pipe s)) (pc s) (term s) (sz s) (reg s) false (hs s) else s
  | EvComplete i =>
      match pc s, nth_error (hs s) i with
      | Start, _ => s            (* threads start after registration, main.cc:673-678 *)
      | _, Some HRunning =>
          mkM (pipe s) (pc s) (term s) (sz s) (reg s) (pend s)
              (match upd_nat (hs s) i HFlagged with Some l => l | None => hs s end)
      | _, _ => s
      end
  | EvNotify i =>
      match nth_error (hs s) i with
      | Some HFlagged =>
          mkM (wake cap (pipe s)) (pc s) (term s) (sz s) (reg s) (pend s)
              (match upd_nat (hs s) i HNotified with Some l => l | None => hs s end)
      | _ => s
      end
  | EvMain =>
      match pc s with
      | Start => mkM (pipe s) Select (term s) (sz s) true (pend s) (hs s)
      | Select => if 0 <? pipe s then with_pc s Reset else s
      | Reset => if pipe s =? 0 then with_pc s CheckSize else with_pipe s (drain (pipe s))
      | CheckSize => mkM (pipe s) CheckDone (term s) (term s) (reg s) (pend s) (hs s)
      | CheckDone => if existsb complete (hs s) then with_pc s Exited else with_pc s Select
      | Exited => s
      end
  | EvIntr => match pc s with Select => with_pc s Reset | _ => s end
  end.

Definition mrun (cap : Z) (s : mstate) (es : list mev) : mstate := fold_left (mstep cap) es s.

(** Just after the initial ioctl, main.cc:595. *)
Definition minit (v : Z) (n : nat) : mstate := mkM 0 Start v v false false (repeat HRunning n).

(** ** Shutting down the input thread: InputHandler.h:36 and InputHandler.cc:61-78.
    [IWork] is the rest of a round (read and WriteFile), which ends by itself. *)
Inductive ipc := IReset | ICheck | ISelect | IWork | IDone.
Record istate := mkI { ipipe : Z; ip : ipc; ishould : bool; isetdone : bool }.
Inductive iev :=
| IvShould               (* m_shouldShutdown = 1 *)
| IvSet                  (* m_wakeup.set(), after it *)
| IvStep                 (* the thread steps *)
| IvInput                (* input arrives: select returns with the descriptor ready *)
| IvIntr.                (* select is interrupted *)
Definition istep (cap : Z) (s : istate) (e : iev) : istate :=
  match e with
  | IvShould => mkI (ipipe s) (ip s) true (isetdone s)
  | IvSet => if ishould s && negb (isetdone s) then mkI (wake cap (ipipe s)) (ip s) true true else s
  | IvStep =>
      match ip s with
      | IReset => if ipipe s =? 0 then mkI 0 ICheck (ishould s) (isetdone s)
                  else mkI (drain (ipipe s)) IReset (ishould s) (isetdone s)
      | ICheck => mkI (ipipe s) (if ishould s then IDone else ISelect) (ishould s) (isetdone s)
      | ISelect => if 0 <? ipipe s then mkI (ipipe s) IReset (ishould s) (isetdone s) else s
      | IWork => mkI (ipipe s) IReset (ishould s) (isetdone s)
      | IDone => s
      end
  | IvInput => match ip s with ISelect => mkI (ipipe s) IWork (ishould s) (isetdone s) | _ => s end
  | IvIntr => match ip s with ISelect => mkI (ipipe s) IReset (ishould s) (isetdone s) | _ => s end
  end.
Definition irun (cap : Z) (s : istate) (es : list iev) : istate := fold_left (istep cap) es s.
Definition iinit : istate := mkI 0 IReset false false.
