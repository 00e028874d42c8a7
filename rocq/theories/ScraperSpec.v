(** What a Windows console can be like, for C20 and C33. *)
From Verif Require Import Base TerminalSpec SmallRect ConsoleLine Console Scraper AgentConsole.

(** A screen buffer as a Windows console reports it: sizes are positive 16-bit numbers, the
    window is a non-empty part of the buffer, and the cursor is in the buffer. *)
Definition console_ok (b : cbuf) : Prop :=
  1 <= b_w b <= 32767 /\ 1 <= b_h b <= 32767 /\
  0 <= rLeft (b_win b) <= rRight (b_win b) /\ rRight (b_win b) < b_w b /\
  0 <= rTop (b_win b) <= rBottom (b_win b) /\ rBottom (b_win b) < b_h b /\
  0 <= co_x (b_cur b) < b_w b /\ 0 <= co_y (b_cur b) < b_h b /\
  1 <= co_x (b_largest b) <= 32767 /\ 1 <= co_y (b_largest b) <= 32767.
(** Programs can do anything to the console, but it stays a console. *)
Definition programs_ok (fs : list (cbuf -> cbuf)) : Prop := Forall (fun f => forall b, console_ok b -> console_ok (f b)) fs.
(** Programs that leave the height of the screen buffer as it is *)
Definition same_height (fs : list (cbuf -> cbuf)) : Prop := Forall (fun f => forall b, b_h (f b) = b_h b) fs.
(** A console as the agent finds it: nothing frozen. *)
Definition world_ok (w : world) : Prop := console_ok (w_buf w) /\ programs_ok (w_env w) /\ w_sel w = false /\ w_frozen w = false.
(** Requests: sizes the library accepts *)
Definition call_ok (k : call) : Prop := match k with Poll => True | SetSize x y => 1 <= x /\ 1 <= y end.
(** The uninitialised array of findSyncMarker has its declared size. *)
Definition cfg_ok (c : cfg) : Prop := forall w, zlen (c_junk c w) = BUFFER_LINE_COUNT.

(** The run neither fails an assertion nor does anything undefined. *)
Definition safe {E A} (r : res E A) : Prop := match r with Ok _ => True | Throw _ => True | _ => False end.
(** The same program, with or without the stops *)
Definition with_strict (b : bool) (c : cfg) : cfg := mkCfg (c_new c) (c_w8 c) (c_junk c) b.

(** What the scrapers asked of their terminals can be done. *)
Definition drawn_all (a : agent) : Prop :=
  carried_out (s_out (a_prim a)) /\ match a_err a with None => True | Some (es, _) => carried_out (s_out es) end.
