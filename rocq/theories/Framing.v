(** Model of the agent's control-pipe loop: EventLoop::run and
    Agent::pollControlPipe, on top of the pipe model. *)
From Verif Require Import Base Buffer NamedPipe.

(** Pipe operations throw nothing; move them to the exception type [exc]. *)
Definition lift {A} (m : res unit A) : res exc A :=
  match m with
  | Ok a => Ok a
  | Throw _ => UB
  | AssertFail => AssertFail
  | UB => UB
  | OutOfFuel => OutOfFuel
  end.

(** What the rest of the agent does with a request is a parameter: given the
    requests executed so far (the last one being the current one), either the
    bytes of the reply queued on the control pipe (Agent.cc:344-349), or [None]
    when the handler itself aborts (its own ASSERTs, Agent.cc:353-354). *)
Definition handler := list request -> option (list Z).

(** Agent::handlePacket inside the try block, Agent.cc:311-317. *)
Definition handlePacket (pl : plat) (packet : list Z) : res exc request :=
  match parseRequest pl packet with
  | Throw EDecode => AssertFail
  | r => r
  end.

(** The while loop of Agent::pollControlPipe, Agent.cc:293-318.  [exec] is the
    list of requests executed so far.  The allocation of the packet vector
    (Agent.cc:307-308), whose bytes have already been received, is assumed to
    succeed.  Fuel: number of iterations. *)
Fixpoint poll_loop (fuel : nat) (pl : plat) (h : handler) (p : pipe) (exec : list request)
  : res exc (pipe * list request) :=
  match fuel with
  | O => OutOfFuel
  | S fuel' =>
      let! hdr := lift (np_peek 8 p) in
      if zlen hdr <? 8 then Ok (p, exec)
      else
        let packetSize := le_value hdr in
        let! _ := assert_ ((8 <=? packetSize) && (packetSize <=? p_size_max pl)) in
        if zlen (np_inq p) <? packetSize then
          if np_rbs p <? packetSize then
            let! p := lift (setReadBufferSize packetSize p) in Ok (p, exec)
          else Ok (p, exec)
        else
          let! (packet, p) := lift (np_read packetSize p) in
          let! _ := assert_ (zlen packet =? packetSize) in
          let! rq := handlePacket pl packet in
          let exec := exec ++ [rq] in
          match h exec with
          | None => AssertFail
          | Some reply => let! p := lift (np_write reply p) in poll_loop fuel' pl h p exec
          end
  end.

Record cstate := { c_pipe : pipe; c_exit : bool; c_exec : list request }.

(** Agent::pollControlPipe, Agent.cc:285-319; shutdown() sets m_exiting
    (EventLoop.cc:96-99). *)
Definition pollControlPipe (pl : plat) (h : handler) (s : cstate) : res exc cstate :=
  if negb (np_open (c_pipe s)) then
    Ok {| c_pipe := c_pipe s; c_exit := true; c_exec := c_exec s |}
  else
    let! (p, e) := poll_loop (S (length (np_inq (c_pipe s)))) pl h (c_pipe s) (c_exec s) in
    Ok {| c_pipe := p; c_exit := c_exit s; c_exec := e |}.

(** One iteration of EventLoop::run (EventLoop.cc:41-81) as far as the control
    pipe is concerned: some bytes arrive from the client, the pipe is serviced,
    and onPipeIo (Agent.cc:280-282) polls it iff something happened. *)
Definition cstep (pl : plat) (h : handler) (s : cstate) (it : list Z * svc) : res exc cstate :=
  let p := peer_write (fst it) (c_pipe s) in
  let s := {| c_pipe := p; c_exit := c_exit s; c_exec := c_exec s |} in
  if c_exit s then Ok s
  else
    let! (b, p) := lift (serviceIo (snd it) p) in
    let s := {| c_pipe := p; c_exit := c_exit s; c_exec := c_exec s |} in
    if b then pollControlPipe pl h s else Ok s.

Fixpoint crun (pl : plat) (h : handler) (its : list (list Z * svc)) (s : cstate) : res exc cstate :=
  match its with
  | [] => Ok s
  | it :: r => let! s := cstep pl h s it in crun pl h r s
  end.

(** The agent's control pipe after its constructor: connected as a client in
    both directions (Agent.cc:166, NamedPipe.cc:254-273), with the setup packet
    queued (Agent.cc:181-188). *)
Definition cinit (setup : list Z) : cstate :=
  {| c_pipe := {| np_open := true; np_connecting := false; np_reading := true; np_writing := true;
                  np_rbs := 65536; np_inq := []; np_outq := setup;
                  np_in := Some new_worker; np_out := Some new_worker;
                  np_peer := []; np_sent := [] |};
     c_exit := false; c_exec := [] |}.
