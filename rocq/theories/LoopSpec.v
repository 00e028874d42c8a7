(** What the owner of an event loop relies on, read off the log of the loop. *)
From Verif Require Import Base NamedPipe NamedPipeSpec Loop.

(** The end of the last timeout handler; before the first, the loop's start. *)
Fixpoint last_poll (start : Z) (l : list lev) : Z :=
  match l with
  | [] => start
  | LPolled t _ :: r => last_poll t r
  | _ :: r => last_poll start r
  end.
(** The time at which something is done *)
Definition time_of (e : lev) : option Z :=
  match e with
  | LClock t | LPoll t | LWait t _ _ | LWake t => Some t
  | LPolled _ _ | LService _ | LPipeIo _ _ => None
  end.
Definition services (l : list lev) : list nat := flat_map (fun e => match e with LService i => [i] | _ => [] end) l.
Definition is_wait (e : lev) : Prop := match e with LWait _ _ _ => True | _ => False end.
Definition is_handler (e : lev) : Prop := match e with LPipeIo _ _ | LPoll _ | LPolled _ _ => True | _ => False end.
Definition asks_to_end (e : lev) : Prop := match e with LPipeIo _ true | LPolled _ true => True | _ => False end.

(** Time does not run backwards. *)
Definition forward (t : turn) : Prop := 0 <= t_d1 t /\ 0 <= t_dp t /\ 0 <= t_d2 t /\ forall w, 0 <= t_wait t w.
(** Going through the pipes takes at most [busy] milliseconds, and a wait ends at most
    [slack] milliseconds after its timeout. *)
Definition steady (busy slack : Z) (t : turn) : Prop :=
  forward t /\ t_d1 t <= busy /\ t_d2 t <= busy /\ forall ms, 0 <= ms -> t_wait t (Some ms) <= ms + slack.

(** Nothing can be done for pipe [i] now, and [w] has the event that will change that: the
    connection is awaited; or else all that was written is with the system or a write is
    under way, and what can be taken in is being read. *)
Definition at_rest (w : list (nat * what)) (i : nat) (q : pipe) : Prop :=
  (np_connecting q = true /\ In (i, WConnect) w) \/
  (np_connecting q = false /\
   (np_writing q = true -> np_outq q = [] \/ In (i, WWrite) w) /\
   (np_reading q = true -> np_rbs q <= zlen (np_inq q) \/ In (i, WRead) w)).

(** Pipe modes (connecting, reading, writing), and handlers that respect them *)
Definition modes := list (bool * bool * bool).
Definition opened (ms : modes) : list pipe := map (fun m => fresh_pipe (fst (fst m)) (snd (fst m)) (snd m)) ms.
Definition respects (ms : modes) (h : handler) : Prop :=
  Forall (fun x => exists c r w, nth_error ms (fst x) = Some (c, r, w) /\ legal r w (snd x)) (h_ops h).
Definition sound_turn (ms : modes) (t : turn) : Prop :=
  t_wait_ok t = true /\ respects ms (t_poll t) /\ forall i, full_writes (fst (t_pipe t i)) /\ respects ms (snd (t_pipe t i)).
