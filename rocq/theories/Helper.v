(** The helper agent that makes a background desktop: agent/AgentCreateDesktop.cc with the
    event loop of agent/EventLoop.cc.  The desktop itself is Open.v's [backgroundDesktop]
    (the same class, shared/BackgroundDesktop.cc), the pipe is NamedPipe.v's. *)
From Verif Require Import Base Text Buffer NamedPipe Rpc Open.

(** What happens to the helper while it runs: a round of its event loop, with the
    system's answers, or bytes arriving from the other end of the pipe. *)
Inductive hin := HRound (a : svc) | HPeer (d : list Z).

(** What it does: window stations and desktops, the connection, bytes accepted by the
    pipe, and noticing that the pipe is closed. *)
Inductive hev := HD (e : ev) | HConnect | HSent (d : list Z) | HClosed.

(** waitHandles after serviceIo, NamedPipe.cc:70-75 with getWaitEvent (NamedPipe.h:56):
    the events of the workers with a pending operation *)
Definition has_wait (p : pipe) : bool :=
  let w o := match o with Some k => w_pending k | None => false end in w (np_in p) || w (np_out p).

Definition newly_sent (p q : pipe) : list hev :=
  match zskipn (zlen (np_sent p)) (np_sent q) with [] => [] | d => [HSent d] end.

(** EventLoop::run, EventLoop.cc:37-82, with one connected pipe and no poll interval, and
    CreateDesktopLoop::onPipeIo, AgentCreateDesktop.cc:68-72.  If nothing happened the loop
    waits for an event; without any it asserts (EventLoop.cc:71-72).  The result: has the
    loop ended? *)
Fixpoint hloop (ins : list hin) (p : pipe) : list hev * res unit bool :=
  match ins with
  | [] => ([], Ok false)
  | HPeer d :: r => hloop r (peer_write d p)
  | HRound a :: r =>
      match serviceIo a p with
      | Ok (did, q) =>
          if did then
            if np_open q then let (l, o) := hloop r q in (newly_sent p q ++ l, o)
            else (newly_sent p q ++ [HClosed], Ok true)
          else if has_wait q then let (l, o) := hloop r q in (newly_sent p q ++ l, o)
          else (newly_sent p q, AssertFail)
      | Throw e => ([], Throw e) | AssertFail => ([], AssertFail) | UB => ([], UB) | OutOfFuel => ([], OutOfFuel)
      end
  end.

(** handleCreateDesktop, AgentCreateDesktop.cc:76-85, with CreateDesktopLoop's constructor
    (54-60): the desktop is made first, as the first member; connectToServer
    (NamedPipe.cc:254-273) asserts that it can connect; the packet (36-40, 62-66) is
    queued; the loop runs; then ~BackgroundDesktop, before ~EventLoop.  A failed assertion
    ends the process there (the system then closes what it holds). *)
Definition handleCreateDesktop (os : desk_os) (connects : bool) (ins : list hin) : list hev * res unit bool :=
  match backgroundDesktop os with
  | (l, Ok name) =>
      if negb connects then (map HD l, AssertFail)
      else
        match sendReply (RpDesktop name) with
        | Ok packet =>
            match np_write packet (fresh_pipe false true true) with
            | Ok p =>
                let (l', o) := hloop ins p in
                (map HD l ++ [HConnect] ++ l' ++
                 match o with
                 | Ok true => map HD [EvStation false; EvClose ODesktop; EvClose OStation]
                 | _ => []
                 end, o)
            | _ => (map HD l ++ [HConnect], AssertFail)
            end
        | _ => (map HD l ++ [HConnect], AssertFail)
        end
  | (l, Throw _) => (map HD l, Ok true)          (* traced, then main returns: main.cc:94-97 *)
  | (l, _) => (map HD l, UB)
  end.
