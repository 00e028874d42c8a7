(** How the agent uses its scrapers: Agent.cc:157-208 (the part of the constructor that
    sets the console up), 554-588 (resizeWindow) and 590-600 (scrapeBuffers). *)
From Verif Require Import Base SmallRect ConsoleLine Console LargeRead TerminalSpec Scraper.

(** The primary scraper, and the one for stderr with its own screen buffer.  The primary
    buffer is the world's. *)
Record agent := mkAgent { a_prim : sst; a_err : option (sst * cbuf) }.

(** Programs use both buffers at any time the console is not frozen.  While the agent works
    on one buffer, the other's history is not followed; it is made up for in one turn of the
    other programs when the agent comes back to it. *)
Definition turn (w : world) : world :=
  match w_env w with
  | [] => w
  | f :: r => mkW (f (w_buf w)) (w_sel w) (w_frozen w) (w_mark w) (w_esc w) r (w_fail w) (w_log w)
  end.
Definition on_buffer {A} (b : cbuf) (f : world -> res broken (A * world)) (w : world) : res broken (A * cbuf * world) :=
  let! (a, w') := f (turn (with_buf b w)) in Ok (a, w_buf w', turn (with_buf (w_buf w) w')).

(** resizeWindow, Agent.cc:554-588, and scrapeBuffers, 590-600.  Also the window
    rectangle handed to ConsoleInput (setMouseWindowRect) and, for a resize, the buffer
    size announced in the synthesized event. *)
Definition agentScrape (c : cfg) (a : agent) (w : world) : res broken (srect * agent * world) :=
  let '(prev, w) := guard_enter (w_frozen w) w in
  let! (info, s, w) := scrapeBuffer c (a_prim a) w in
  let! (e, w) :=
    match a_err a with
    | None => Ok (None, w)
    | Some (es, eb) =>
        let! (es', eb', w') := on_buffer eb (fun w => let! (_, s, w) := scrapeBuffer c es w in Ok (s, w)) w in
        Ok (Some (es', eb'), w')
    end in
  Ok (i_win info, mkAgent s e, guard_leave prev w).
Definition agentResize (c : cfg) (cols rows : Z) (a : agent) (w : world) : res broken (srect * coord * agent * world) :=
  let! _ := assert_ ((1 <=? cols) && (1 <=? rows)) in
  let cols := Z.min cols MAX_CONSOLE_WIDTH in
  let rows := Z.min rows MAX_CONSOLE_HEIGHT in
  let '(prev, w) := guard_enter (w_frozen w) w in
  let size := Coord_ cols rows in
  let! (info, s, w) := resizeWindow c size (a_prim a) w in
  let! (e, w) :=
    match a_err a with
    | None => Ok (None, w)
    | Some (es, eb) =>
        let! (es', eb', w') := on_buffer eb (fun w => let! (_, s, w) := resizeWindow c size es w in Ok (s, w)) w in
        Ok (Some (es', eb'), w')
    end in
  let '(i, w) := bufferInfo w in
  Ok (i_win info, i_size i, mkAgent s e, guard_leave prev w).

(** The scrapers' construction, Agent.cc:157-163, 190-208; [eb]: the error buffer, if
    there is one *)
Definition agentNew (c : cfg) (cols rows : Z) (eb : option cbuf) (w : world) : res broken (agent * world) :=
  let! _ := assert_ ((1 <=? cols) && (1 <=? rows)) in
  let size := Coord_ (Z.min cols MAX_CONSOLE_WIDTH) (Z.min rows MAX_CONSOLE_HEIGHT) in
  let '(s, w) := newScraper c size w in
  let! (e, w) :=
    match eb with
    | None => Ok (None, w)
    | Some b => let! (es, eb', w') := on_buffer b (fun w => Ok (newScraper c size w)) w in Ok (Some (es, eb'), w')
    end in
  Ok (mkAgent s e, w).

(** What the agent is asked to do over its life *)
Inductive call := Poll | SetSize (cols rows : Z).
Definition run_call (c : cfg) (k : call) (a : agent) (w : world) : res broken (agent * world) :=
  match k with
  | Poll => let! (_, a, w) := agentScrape c a w in Ok (a, w)
  | SetSize x y => let! (_, _, a, w) := agentResize c x y a w in Ok (a, w)
  end.
Fixpoint run_calls (c : cfg) (ks : list call) (a : agent) (w : world) : res broken (agent * world) :=
  match ks with [] => Ok (a, w) | k :: ks => let! (a, w) := run_call c k a w in run_calls c ks a w end.
Definition run_agent (c : cfg) (cols rows : Z) (eb : option cbuf) (ks : list call) (w : world) : res broken (agent * world) :=
  let! (a, w) := agentNew c cols rows eb w in run_calls c ks a w.
