(** The agent's polling and shutdown logic: src/agent/Agent.cc (onPollTimeout,
    autoClosePipesForShutdown, syncConsoleTitle, sendDsr, handleStartProcessPacket's
    bookkeeping), EventLoop.cc (shutdown) and Win32Console::title. *)
From Verif Require Import Base Text NamedPipe ConsoleLine Terminal TerminalSpec Unicode.

(** ** Console titles *)

(** The behaviours of GetConsoleTitleW described in Win32Console.cc:45-70: Windows XP
    returns the length after truncation, and stores nothing for an empty title; Vista and
    7 take the size in bytes; Windows 8 and up behave as documented.  [TFail]: the call
    fails and returns 0. *)
Inductive title_os := TXp | TVista | TWin8 | TFail.

(** Store [s] at the start of a buffer. *)
Definition overlay (s buf : list Z) : list Z := s ++ zskipn (zlen s) buf.

(** GetConsoleTitleW(buf, buf.size()) when the title is [t]: count and buffer *)
Definition getConsoleTitle (v : title_os) (t buf : list Z) : Z * list Z :=
  let size := zlen buf in
  let cut cap := if 1 <=? cap then overlay (zfirstn (Z.min (zlen t) (cap - 1)) t ++ [0]) buf else buf in
  match v with
  | TXp => if (zlen t =? 0) || (size =? 0) then (0, buf) else (Z.min (zlen t) (size - 1), cut size)
  | TVista => (zlen t, cut (size / 2))
  | TWin8 => (zlen t, cut size)
  | TFail => (0, buf)
  end.

(** A C wide string to std::wstring: up to the first NUL; none is an out-of-bounds read *)
Fixpoint cstr {E} (buf : list Z) : res E (list Z) :=
  match buf with
  | [] => UB
  | c :: t => if c =? 0 then Ok [] else let! r := cstr t in Ok (c :: r)
  end.

(** Win32Console::title, Win32Console.cc:42-82.  [ts]: version and title at each
    successive call; with no more of them the loop is still running.  Also returns the
    work buffer, which is kept.  (count + 1) * 2 does not wrap for titles shorter than
    2^31. *)
Fixpoint title {E} (ts : list (title_os * list Z)) (buf : list Z) : res E (list Z * list Z) :=
  match ts with
  | [] => OutOfFuel
  | (v, t) :: ts =>
      let (count, buf) := getConsoleTitle v t buf in
      let needed := (count + 1) * 2 in
      if zlen buf <? needed then title ts (buf ++ zrepeat 0 (needed - zlen buf))
      else match zupd buf count 0 with
           | None => UB
           | Some buf => let! s := cstr buf in Ok (s, buf)
           end
  end.
(** Win32Console.cc:31 *)
Definition title_buf0 : list Z := zrepeat 0 16.

(** utf8FromWide, StringUtil.cc:39-55: WideCharToMultiByte(CP_UTF8), which replaces a
    surrogate without partner by U+FFFD *)
Fixpoint utf8FromWide (w : list Z) : list Z :=
  match w with
  | [] => []
  | a :: w' =>
      if (0xD800 <=? a) && (a <=? 0xDBFF) then
        match w' with
        | b :: w'' => if (0xDC00 <=? b) && (b <=? 0xDFFF) then encodeUtf8 (decodeSurrogatePair a b) ++ utf8FromWide w''
                      else encodeUtf8 0xFFFD ++ utf8FromWide w'
        | [] => encodeUtf8 0xFFFD
        end
      else if (0xDC00 <=? a) && (a <=? 0xDFFF) then encodeUtf8 0xFFFD ++ utf8FromWide w'
      else encodeUtf8 a ++ utf8FromWide w'
  end.

(** A C string passed to NamedPipe::write: up to the first NUL *)
Fixpoint until_nul (s : list Z) : list Z :=
  match s with [] => [] | c :: t => if c =? 0 then [] else c :: until_nul t end.

(** ** The agent *)

(** Where a piece of CONOUT output comes from. *)
Inductive source := SrcTerm | SrcTitle | SrcDsr.

Record agent := mkA
  { a_plain : bool;                  (* m_plainMode *)
    a_conout : pipe;                 (* m_conoutPipe *)
    a_conerr : option pipe;          (* m_conerrPipe *)
    a_term : term;                   (* m_primaryScraper->terminal() *)
    a_eterm : term;                  (* m_errorScraper->terminal() *)
    a_title : list Z;                (* m_currentTitle *)
    a_child : bool;                  (* m_childProcess != nullptr *)
    a_auto : bool;                   (* m_autoShutdown *)
    a_exitAfter : bool;              (* m_exitAfterShutdown *)
    a_closing : bool;                (* m_closingOutputPipes *)
    a_exiting : bool;                (* EventLoop::m_exiting *)
    (* what has been written to the pipes so far, for stating properties *)
    a_out : list (source * list Z);
    a_err : list Z }.

Definition with_out (a : agent) (p : pipe) (seg : list (source * list Z)) : agent :=
  mkA (a_plain a) p (a_conerr a) (a_term a) (a_eterm a) (a_title a) (a_child a) (a_auto a) (a_exitAfter a)
      (a_closing a) (a_exiting a) (a_out a ++ seg) (a_err a).
Definition with_err (a : agent) (p : option pipe) (t : term) (w : list Z) : agent :=
  mkA (a_plain a) (a_conout a) p (a_term a) t (a_title a) (a_child a) (a_auto a) (a_exitAfter a)
      (a_closing a) (a_exiting a) (a_out a) (a_err a ++ w).
Definition with_term (a : agent) (t : term) : agent :=
  mkA (a_plain a) (a_conout a) (a_conerr a) t (a_eterm a) (a_title a) (a_child a) (a_auto a) (a_exitAfter a)
      (a_closing a) (a_exiting a) (a_out a) (a_err a).
Definition with_title (a : agent) (t : list Z) : agent :=
  mkA (a_plain a) (a_conout a) (a_conerr a) (a_term a) (a_eterm a) t (a_child a) (a_auto a) (a_exitAfter a)
      (a_closing a) (a_exiting a) (a_out a) (a_err a).
Definition with_child (a : agent) (child auto exitAfter closing : bool) : agent :=
  mkA (a_plain a) (a_conout a) (a_conerr a) (a_term a) (a_eterm a) (a_title a) child auto exitAfter
      closing (a_exiting a) (a_out a) (a_err a).
Definition with_exiting (a : agent) : agent :=
  mkA (a_plain a) (a_conout a) (a_conerr a) (a_term a) (a_eterm a) (a_title a) (a_child a) (a_auto a) (a_exitAfter a)
      (a_closing a) true (a_out a) (a_err a).

(** NamedPipe::write on CONOUT *)
Definition write_out (src : source) (bs : list Z) (a : agent) : res unit agent :=
  let! p := np_write bs (a_conout a) in Ok (with_out a p [(src, bs)]).
(** Operations on the terminal write to the pipe what they add to its output. *)
Definition new_output (t t' : term) : list Z := zskipn (zlen (t_out t)) (t_out t').
Definition term_ops (ops : list top) (a : agent) : res unit agent :=
  let! t' := run_tops ops (a_term a) in
  let! a' := write_out SrcTerm (new_output (a_term a) t') a in
  Ok (with_term a' t').
Definition eterm_ops (ops : list top) (a : agent) : res unit agent :=
  match a_conerr a with
  | None => Ok a
  | Some p =>
      let! t' := run_tops ops (a_eterm a) in
      let w := new_output (a_eterm a) t' in
      let! p := np_write w p in
      Ok (with_err a (Some p) t' w)
  end.

(** sendDsr, Agent.cc:238-243 *)
Definition sendDsr (a : agent) : res unit agent :=
  if negb (a_plain a) && np_open (a_conout a) then write_out SrcDsr [27; 91; 54; 110] a else Ok a.

(** syncConsoleTitle, Agent.cc:601-612 *)
Definition title_command (t : list Z) : list Z := until_nul ([27; 93; 48; 59] ++ utf8FromWide t ++ [7]).
Definition syncConsoleTitle (newTitle : list Z) (a : agent) : res unit agent :=
  if list_eqb newTitle (a_title a) then Ok a
  else
    let! a := (if negb (a_plain a) && np_open (a_conout a) then write_out SrcTitle (title_command newTitle) a else Ok a) in
    Ok (with_title a newTitle).

(** NamedPipe::isConnected, NamedPipe.h:107-109 *)
Definition isConnected (p : pipe) : bool := np_open p && negb (np_connecting p).

(** One pipe in autoClosePipesForShutdown.  [k]: what a cancelled operation may have
    transferred, see [closePipe]. *)
Definition autoClose1 (k : Z * Z) (p : pipe) : res unit pipe :=
  if isConnected p then
    let! n := bytesToSend p in
    Ok (if n =? 0 then closePipe (fst k) (snd k) p else p)
  else Ok p.
(** autoClosePipesForShutdown, Agent.cc:514-538 *)
Definition autoClosePipesForShutdown (k : Z * Z) (a : agent) : res unit agent :=
  if a_closing a then
    let! p := autoClose1 k (a_conout a) in
    let a := with_out a p [] in
    let! a := (match a_conerr a with
               | None => Ok a
               | Some q => let! q := autoClose1 k q in Ok (with_err a (Some q) (a_eterm a) [])
               end) in
    Ok (if a_exitAfter a && negb (np_open (a_conout a)) &&
           match a_conerr a with None => true | Some q => negb (np_open q) end
        then with_exiting a else a)
  else Ok a.

(** What the outside contributes to one poll: whether ConsoleInput asks for mouse reports
    (ConsoleInput.v, shouldActivateTerminalMouse), whether the child is found to have
    exited, the title, and what the scrapers make the terminals do. *)
Record poll_in := mkPoll
  { pi_mouse : bool; pi_exited : bool; pi_title : list Z;
    pi_ops : list top; pi_eops : list top; pi_k : Z * Z }.

(** onPollTimeout, Agent.cc:475-512.  The input part (476-481) affects only ConsoleInput. *)
Definition onPollTimeout (i : poll_in) (a : agent) : res unit agent :=
  let shouldScrapeContent := negb (a_closing a) in
  let a := if a_auto a && a_child a && pi_exited i
           then with_child a false (a_auto a) (a_exitAfter a) true else a in
  let! a := (if shouldScrapeContent then
               let! a := syncConsoleTitle (pi_title i) a in
               let! a := term_ops (pi_ops i) a in
               eterm_ops (pi_eops i) a
             else Ok a) in
  let! a := term_ops [TMouse (pi_mouse i && negb (a_closing a))] a in
  autoClosePipesForShutdown (pi_k i) a.

(** What can happen to the agent. *)
Inductive aev :=
| APoll (i : poll_in)
| AOutIo (s : svc) (k : Z * Z)          (* serviceIo of CONOUT, EventLoop.cc:48-53, Agent.cc:274-277 *)
| AErrIo (s : svc) (k : Z * Z)
| AStart (created auto exitAfter : bool)(* handleStartProcessPacket, Agent.cc:351-421 *)
| AResize (ops eops : list top)         (* resizeWindow, Agent.cc:554-588 *)
| ADsr                                  (* ConsoleInput asks for the cursor position *)
| AControlLost.                         (* pollControlPipe, Agent.cc:287-291 *)

(** One event.  EventLoop::run (EventLoop.cc:37-85) leaves its loop at the end of the
    round in which shutdown() was called; events after that are allowed here, so that the
    rest of that round is included. *)
Definition astep (a : agent) (e : aev) : res unit agent :=
    match e with
    | APoll i => onPollTimeout i a
    | AOutIo s k =>
        let! (did, p) := serviceIo s (a_conout a) in
        let a := with_out a p [] in
        if did then autoClosePipesForShutdown k a else Ok a
    | AErrIo s k =>
        match a_conerr a with
        | None => Ok a
        | Some q =>
            let! (did, q) := serviceIo s q in
            let a := with_err a (Some q) (a_eterm a) [] in
            if did then autoClosePipesForShutdown k a else Ok a
        end
    | AStart created auto exitAfter =>
        let! _ := assert_ (negb (a_child a)) in
        let! _ := assert_ (negb (a_closing a)) in
        Ok (if created then with_child a true auto exitAfter (a_closing a) else a)
    | AResize ops eops => let! a := term_ops ops a in eterm_ops eops a
    | ADsr => sendDsr a
    | AControlLost => Ok (with_exiting a)
    end.

(** The state after construction, Agent.cc:145-218, Agent.h:80-100.  The pipes may or may
    not have got their client already. *)
Definition ainit (plain useColor useConerr c1 c2 : bool) : agent :=
  mkA plain (fresh_pipe c1 false true) (if useConerr then Some (fresh_pipe c2 false true) else None)
      (new_term plain useColor) (new_term plain useColor) [32] false false false false false [] [].

Fixpoint arun (es : list aev) (a : agent) : res unit agent :=
  match es with [] => Ok a | e :: es => let! a := astep a e in arun es a end.
