(** The event loop of agent/EventLoop.cc with its pipes (NamedPipe.v), the clock, and the
    owner's handlers. *)
From Verif Require Import Base NamedPipe.

(** What an event handler (onPipeIo, onPollTimeout) does: operations on the pipes, and
    whether it calls shutdown (EventLoop.cc:96-99). *)
Record handler := mkH { h_ops : list (nat * pop); h_exit : bool }.

(** One turn of the while loop: bytes that have arrived, the system's answers and the
    handler for each pipe, the handler of the timeout, and how long things take
    (milliseconds): the pipes, the timeout handler, the rest, and the wait, given its
    timeout; does the wait succeed?  Pipes are created before the loop runs
    (Agent.cc:189-222, AgentCreateDesktop.cc:56). *)
Record turn := mkT
  { t_peer : list (nat * list Z); t_pipe : nat -> svc * handler; t_poll : handler;
    t_d1 : Z; t_dp : Z; t_d2 : Z; t_wait : option Z -> Z; t_wait_ok : bool }.

(** The events a pipe can wait for (NamedPipe.cc:57, 73, 76) *)
Inductive what := WConnect | WRead | WWrite.
(** What the loop does; [at] is the time in milliseconds since the system started. *)
Inductive lev :=
| LService (i : nat)                            (* serviceIo of pipe i *)
| LPipeIo (i : nat) (exit : bool)               (* onPipeIo; calls shutdown? *)
| LClock (at_ : Z)                              (* GetTickCount, line 56 *)
| LPoll (at_ : Z)                               (* onPollTimeout begins *)
| LPolled (at_ : Z) (exit : bool)               (* ... and has returned *)
| LWait (at_ : Z) (for_ : list (nat * what)) (timeout : option Z)
                                                (* Sleep if [for_] is empty; [None]: INFINITE *)
| LWake (at_ : Z).

(** GetTickCount: the low 32 bits of the time *)
Definition tick (t : Z) : Z := u32 t.

(** The events pushed by serviceIo, NamedPipe.cc:57, 72-77 with getWaitEvent (159-162):
    a connection pending, or a worker's pending operation.  NamedPipe.v's serviceIo leaves
    them out; they are read off the state after the call. *)
Definition pending (o : option worker) : bool := match o with Some k => w_pending k | None => false end.
Definition wait_events (i : nat) (q : pipe) : list (nat * what) :=
  (if np_open q && np_connecting q then [(i, WConnect)] else []) ++
  (if pending (np_in q) then [(i, WRead)] else []) ++
  (if pending (np_out q) then [(i, WWrite)] else []).

Definition put (i : nat) (q : pipe) (ps : list pipe) : list pipe := firstn i ps ++ q :: skipn (S i) ps.
(** Operations of a handler on the pipes; one on no pipe is not possible in C++ *)
Fixpoint pipes_do (ops : list (nat * pop)) (ps : list pipe) : res unit (list pipe) :=
  match ops with
  | [] => Ok ps
  | (i, o) :: r => match nth_error ps i with
                   | None => UB
                   | Some p => let! (q, _) := pstep p o in pipes_do r (put i q ps)
                   end
  end.
Definition arrive (l : list (nat * list Z)) (ps : list pipe) : list pipe :=
  fold_left (fun ps x => match nth_error ps (fst x) with None => ps | Some p => put (fst x) (peer_write (snd x) p) ps end) l ps.

(** m_pipes, m_exiting, lastTime (a DWORD), and the true time *)
Record lstate := mkL { l_pipes : list pipe; l_exit : bool; l_last : Z; l_now : Z }.

(** The for loop over the pipes, EventLoop.cc:45-50: log, didSomething, waitHandles *)
Fixpoint service_all (f : nat -> svc * handler) (k i : nat) (ps : list pipe) (ex : bool)
    : list lev * res unit (list pipe * bool * bool * list (nat * what)) :=
  match k with
  | O => ([], Ok (ps, ex, false, []))
  | S k =>
      match nth_error ps i with
      | None => ([], UB)
      | Some p =>
          match serviceIo (fst (f i)) p with
          | Ok (did, q) =>
              if did then
                match pipes_do (h_ops (snd (f i))) (put i q ps) with
                | Ok ps =>
                    let (l, r) := service_all f k (S i) ps (ex || h_exit (snd (f i))) in
                    ([LService i; LPipeIo i (h_exit (snd (f i)))] ++ l,
                     let! (((ps, ex), _), w) := r in Ok (ps, ex, true, wait_events i q ++ w))
                | Throw e => ([LService i; LPipeIo i (h_exit (snd (f i)))], Throw e)
                | AssertFail => ([LService i; LPipeIo i (h_exit (snd (f i)))], AssertFail)
                | UB => ([LService i; LPipeIo i (h_exit (snd (f i)))], UB)
                | OutOfFuel => ([LService i; LPipeIo i (h_exit (snd (f i)))], OutOfFuel)
                end
              else
                let (l, r) := service_all f k (S i) (put i q ps) ex in
                (LService i :: l, let! (((ps, ex), d), w) := r in Ok (ps, ex, d, wait_events i q ++ w))
          | Throw e => ([LService i], Throw e) | AssertFail => ([LService i], AssertFail)
          | UB => ([LService i], UB) | OutOfFuel => ([LService i], OutOfFuel)
          end
      end
  end.

Section Loop.
(** m_pollInterval; the agent's is 25 (Agent.cc:222), the desktop helper's 0 *)
Variable interval : Z.

(** The end of a turn, EventLoop.cc:66-82: the wait.  lastTime + m_pollInterval -
    GetTickCount() is computed in 32 bits and read as an int. *)
Definition loop_wait (t : turn) (w : list (nat * what)) (s : lstate) : list lev * res unit lstate :=
  let now := l_now s + t_d2 t in
  let timeout := if 0 <? interval then Some (Z.max 0 (s32 (l_last s + interval - tick now))) else None in
  let go (e : list lev) (ok : bool) : list lev * res unit lstate :=
    let wake := now + t_wait t timeout in
    (e ++ [LWake wake], if ok then Ok (mkL (l_pipes s) (l_exit s) (l_last s) wake) else AssertFail) in
  match w, timeout with
  | [], None => ([], AssertFail)
  | [], Some ms => if 0 <? ms then go [LWait now [] timeout] true
                   else ([], Ok (mkL (l_pipes s) (l_exit s) (l_last s) now))
  | _, _ => go [LWait now w timeout] (t_wait_ok t)
  end.

(** One turn, EventLoop.cc:41-82 *)
Definition loop_turn (t : turn) (s : lstate) : list lev * res unit lstate :=
  let (l, r) := service_all (t_pipe t) (length (l_pipes s)) 0 (arrive (t_peer t) (l_pipes s)) (l_exit s) in
  match r with
  | Ok (ps, ex, did, w) =>
      let now := l_now s + t_d1 t in
      if 0 <? interval then
        if interval <=? s32 (tick now - l_last s) then
          match pipes_do (h_ops (t_poll t)) ps with
          | Ok ps =>
              let e := now + t_dp t in
              (l ++ [LClock now; LPoll now; LPolled e (h_exit (t_poll t))],
               Ok (mkL ps (ex || h_exit (t_poll t)) (tick e) e))
          | Throw e => (l ++ [LClock now; LPoll now], Throw e) | AssertFail => (l ++ [LClock now; LPoll now], AssertFail)
          | UB => (l ++ [LClock now; LPoll now], UB) | OutOfFuel => (l ++ [LClock now; LPoll now], OutOfFuel)
          end
        else if did then (l ++ [LClock now], Ok (mkL ps ex (l_last s) now))
        else let (l', r) := loop_wait t w (mkL ps ex (l_last s) now) in (l ++ [LClock now] ++ l', r)
      else if did then (l, Ok (mkL ps ex (l_last s) now))
      else let (l', r) := loop_wait t w (mkL ps ex (l_last s) now) in (l ++ l', r)
  | Throw e => (l, Throw e) | AssertFail => (l, AssertFail) | UB => (l, UB) | OutOfFuel => (l, OutOfFuel)
  end.

(** EventLoop::run, EventLoop.cc:37-83, until the turns given are used up *)
Fixpoint loop_turns (ts : list turn) (s : lstate) : list lev * res unit lstate :=
  match ts with
  | [] => ([], Ok s)
  | t :: r =>
      if l_exit s then ([], Ok s)
      else match loop_turn t s with
           | (l, Ok s) => let (l', o) := loop_turns r s in (l ++ l', o)
           | (l, x) => (l, x)
           end
  end.
Definition loop_run (ps : list pipe) (start : Z) (ts : list turn) : list lev * res unit lstate :=
  loop_turns ts (mkL ps false (tick start) start).
End Loop.
