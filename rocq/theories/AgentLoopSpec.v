(** What the properties of the agent's output and shutdown talk about. *)
From Verif Require Import Base Text NamedPipe NamedPipeSpec Terminal TerminalSpec AgentLoop.

(** Everything written to CONOUT, and the parts of one kind. *)
Definition conout_bytes (a : agent) : list Z := concat (map snd (a_out a)).
Definition src_eqb (x y : source) : bool :=
  match x, y with SrcTerm, SrcTerm | SrcTitle, SrcTitle | SrcDsr, SrcDsr => true | _, _ => false end.
Definition segments (k : source) (a : agent) : list (list Z) :=
  map snd (filter (fun s => src_eqb (fst s) k) (a_out a)).

(** The child was started with the auto-shutdown flag (and with or without
    exit-after-shutdown), and a later poll found that it has exited. *)
Definition shutting_down (es : list aev) (exitAfter : bool) : Prop :=
  exists es1 es2 i es3, es = es1 ++ AStart true true exitAfter :: es2 ++ APoll i :: es3 /\ pi_exited i = true.
Definition auto_started (es : list aev) : Prop := exists x, In (AStart true true x) es.

(** Servicing the pipe closes it by itself: an I/O error, the client is gone. *)
Definition io_closes (s : svc) (p : pipe) : Prop :=
  np_open p = true /\ exists b q, serviceIo s p = Ok (b, q) /\ np_open q = false.

(** The scrapers do not switch the mouse mode. *)
Definition is_mouse (o : top) : bool := match o with TMouse _ => true | _ => false end.
Definition scraper_only (e : aev) : Prop :=
  match e with
  | APoll i => Forall (fun o => is_mouse o = false) (pi_ops i)
  | AResize ops _ => Forall (fun o => is_mouse o = false) ops
  | _ => True
  end.

(** The titles to report: those that differ from the one before. *)
Fixpoint changes (prev : list Z) (ts : list (list Z)) : list (list Z) :=
  match ts with
  | [] => []
  | t :: ts => if list_eqb t prev then changes t ts else t :: changes t ts
  end.

(** A terminal's reading of a title command: ESC ] 0 ; text BEL *)
Fixpoint until_bel (bs : list Z) : option (list Z) :=
  match bs with
  | [] => None
  | b :: t => if b =? 7 then match t with [] => Some [] | _ => None end
              else if b <? 32 then None else option_map (cons b) (until_bel t)
  end.
Definition read_title_command (bs : list Z) : option (list Z) :=
  match bs with
  | 27 :: 93 :: 48 :: 59 :: r => until_bel r
  | _ => None
  end.

(** A client is connected to the pipe when the agent decides to close it during event
    [e]; [mine]: the events that service this pipe first. *)
Definition connected (p : pipe) : Prop := np_open p = true /\ np_connecting p = false.
Definition has_client (mine : option svc) (p : pipe) : Prop :=
  match mine with
  | Some s => exists b q, serviceIo s p = Ok (b, q) /\ connected q
  | None => connected p
  end.
Definition out_svc (e : aev) : option svc := match e with AOutIo s _ => Some s | _ => None end.
Definition err_svc (e : aev) : option svc := match e with AErrIo s _ => Some s | _ => None end.
(** The pipe was closed because its I/O failed. *)
Definition io_failed (mine : option svc) (p : pipe) : Prop :=
  match mine with Some s => io_closes s p | None => False end.

(** The titles found by the polls of a history *)
Definition poll_titles (es : list aev) : list (list Z) := flat_map (fun e => match e with APoll i => [pi_title i] | _ => [] end) es.

(** What a poll should write for the title: nothing if it is the one known, or in plain
    mode, or with the output closed *)
Definition title_segs (newTitle : list Z) (a : agent) : list (source * list Z) :=
  if list_eqb newTitle (a_title a) then [] else if negb (a_plain a) && np_open (a_conout a) then [(SrcTitle, title_command newTitle)] else [].

(** Events that can occur: the scrapers send lines with at least one cell (C20), and the
    system reports neither a short successful write nor a failed connect (C24). *)
Definition event_ok (e : aev) : Prop :=
  match e with
  | APoll i => Forall top_sized (pi_ops i) /\ Forall top_sized (pi_eops i)
  | AResize ops eops => Forall top_sized ops /\ Forall top_sized eops
  | AOutIo s _ | AErrIo s _ => full_writes s
  | _ => True
  end.
(** No second start after one that succeeded. *)
Definition started_once (es : list aev) : Prop :=
  forall es1 au x es2 c au' x', es = es1 ++ AStart true au x :: es2 -> ~ In (AStart c au' x') es2.
(** The clients read: pipe events that complete a write, in any order with polls. *)
Definition client_reads (e : aev) : Prop :=
  match e with AOutIo s _ | AErrIo s _ => draining s | APoll _ => True | _ => False end.
Definition is_out_io (e : aev) : bool := match e with AOutIo _ _ => true | _ => false end.
Definition is_err_io (e : aev) : bool := match e with AErrIo _ _ => true | _ => false end.
(** Cells hold 16-bit units and columns are not negative, in what the scrapers send. *)
Definition event_wf (e : aev) : Prop :=
  match e with
  | APoll i => Forall top_wf (pi_ops i) /\ Forall top_wf (pi_eops i)
  | AResize ops eops => Forall top_wf ops /\ Forall top_wf eops
  | _ => True
  end.
(** The pieces CONOUT's output may be made of: text without ESC, complete control sequences
    and, except in plain mode, the cursor query and title commands for titles that occurred *)
Definition allowed_piece (plain useColor : bool) (es : list aev) (bs : list Z) : Prop :=
  ~ In 27 bs \/ control_seq (finals plain useColor) bs \/
  plain = false /\ (bs = [27; 91; 54; 110] \/ exists t, In t (poll_titles es) /\ bs = title_command t).
