(** What terminal input means: the grammar of the sequences, their bytes, and what the
    console is told, independently of how the code scans. *)
From Verif Require Import Base Text UnicodeSpec InputMap InputMapSpec DefaultInputMap DefaultInputMapSpec ConsoleInput.

(** *** The grammar *)
(** One to seven decimal digits. *)
Definition digits (d : list Z) : Prop := 1 <= zlen d <= 7 /\ Forall (fun c => 48 <= c <= 57) d.
Definition decval (d : list Z) : Z := fold_left (fun a c => a * 10 + (c - 48)) d 0.
Inductive signed_num : list Z -> Z -> Prop :=
| sn_pos d : digits d -> signed_num d (decval d)
| sn_neg d : digits d -> signed_num (45 :: d) (- decval d).

(** A cursor position report: ESC [ digits ; digits R *)
Definition dsr_reply (s : list Z) : Prop :=
  exists a b, digits a /\ digits b /\ s = [27; 91] ++ a ++ [59] ++ b ++ [82].

(** Mouse reports.  Coordinates are one-based; the program keeps them zero-based in 16
    bits. *)
Inductive mouse_seq : list Z -> mouse -> Prop :=
| ms_sgr f x vx y vy c : digits f -> signed_num x vx -> signed_num y vy -> c = 77 \/ c = 109 ->
    mouse_seq ([27; 91; 60] ++ f ++ [59] ++ x ++ [59] ++ y ++ [c])
              (mkMouse (c =? 109) (decval f) (s16 (vx - 1)) (s16 (vy - 1)))
| ms_urxvt f x vx y vy : digits f -> signed_num x vx -> signed_num y vy ->
    mouse_seq ([27; 91] ++ f ++ [59] ++ x ++ [59] ++ y ++ [77])
              (mkMouse false (decval f - 32) (s16 (vx - 1)) (s16 (vy - 1)))
| ms_x10 f x y : InputMapSpec.bytes [f; x; y] ->
    mouse_seq [27; 91; 77; f; x; y] (mkMouse false ((f - 32) mod 256) ((x - 33) mod 256) ((y - 33) mod 256)).

(** What a piece of the input stands for. *)
Inductive tok :=
| TCtrlC                       (* Ctrl+C in processed mode *)
| TDsr
| TMouse (r : mouse)
| TKey (k : Key)
| TChar (c : Z) (alt : bool)
| TInvalid.                    (* bytes that are no UTF-8; dropped *)

Inductive token (processed : bool) : list Z -> tok -> Prop :=
| tk_ctrlc : processed = true -> token processed [3] TCtrlC
| tk_dsr s : dsr_reply s -> token processed s TDsr
| tk_mouse s r : mouse_seq s r -> token processed s (TMouse r)
| tk_key s k : means_key s k -> token processed s (TKey k)
| tk_char c : scalar c -> token processed (utf8_form c) (TChar c false)
| tk_altchar c : scalar c -> token processed (27 :: utf8_form c) (TChar c true)
| tk_badbyte b : announced b = 0 -> token processed [b] TInvalid
| tk_bad b t : announced b = zlen (b :: t) -> (forall c, scalar c -> utf8_form c <> b :: t) -> token processed (b :: t) TInvalid
| tk_altbad b t : announced b = zlen (b :: t) -> (forall c, scalar c -> utf8_form c <> b :: t) -> token processed (27 :: b :: t) TInvalid.

(** The sequences worth waiting for: those of the grammar, and a UTF-8 lead byte with as
    many bytes as it announces, with or without an ESC in front. *)
Inductive recognisable : list Z -> Prop :=
| rc_dsr s : dsr_reply s -> recognisable s
| rc_mouse s r : mouse_seq s r -> recognisable s
| rc_key s k : means_key s k -> recognisable s
| rc_char b t : announced b = zlen (b :: t) -> recognisable (b :: t)
| rc_altchar b t : announced b = zlen (b :: t) -> recognisable (27 :: b :: t).

(** *** What the console receives *)
Inductive oev := ORec (r : irec) | OCtrlC | OKeyMsg (down : bool) (vk lparam : Z).
Definition flat1 (e : ev) : list oev :=
  match e with EvWrite rs => map ORec rs | EvCtrlC => [OCtrlC] | EvKeyMsg d v l => [OKeyMsg d v l] | EvDsr => [] end.
Definition received (l : list ev) : list oev := flat_map flat1 l.
Definition queries (l : list ev) : Z := zlen (filter (fun e => match e with EvDsr => true | _ => false end) l).

(** Everything the console has been told so far, the records waiting in the current
    batch included. *)
Definition told (c : ci) : list oev := received (c_log c) ++ map ORec (c_records c).

(** *** What each piece of input makes the program do *)
Definition applyTok {E} (e : env) (t : tok) (c : ci) : res E ci :=
  match t with
  | TCtrlC => Ok (emit EvCtrlC (flushInputRecords c))
  | TDsr => Ok (set_dsr false c)
  | TMouse r => mouseEvent e c r
  | TKey k => Ok (appendMatch e c k)
  | TChar cp alt => Ok (appendCodePoint e c cp alt)
  | TInvalid => Ok c
  end.
Fixpoint applyAll {E} (e : env) (ts : list tok) (c : ci) : res E ci :=
  match ts with [] => Ok c | t :: r => let! c := applyTok e t c in applyAll e r c end.

(** *** Histories of the object *)
Inductive op :=
| OpWrite (now : Z) (data : list Z)
| OpPoll (now : Z)
| OpRect (left top right bottom : Z).
(** OpPoll: updateInputFlags and flushIncompleteEscapeCode, Agent.cc:477-482;
    OpRect: setMouseWindowRect, ConsoleInput.h:45 *)
Definition run_op {E} (e : env) (o : op) (c : ci) : res E ci :=
  match o with
  | OpWrite now data => writeInput e now data c
  | OpPoll now => flushIncompleteEscapeCode e now (updateInputFlags e c)
  | OpRect l t r b => Ok (set_rect l t r b c)
  end.
Fixpoint run {E} (e : env) (ops : list op) (c : ci) : res E ci :=
  match ops with [] => Ok c | o :: t => let! c := run_op e o c in run e t c end.
Definition op_data (o : op) : list Z := match o with OpWrite _ d => d | _ => [] end.
Definition written (ops : list op) : list Z := flat_map op_data ops.

(** Only writes, and polls none of which comes more than the timeout after the last
    write. *)
Fixpoint prompt (last : Z) (ops : list op) : Prop :=
  match ops with
  | [] => True
  | OpWrite now d :: t => prompt (if zlen d =? 0 then last else now) t
  | OpPoll now :: t => (now - last) mod 2 ^ 32 <= 1000 /\ prompt last t
  | OpRect _ _ _ _ :: _ => False
  end.

(** *** Environment *)
(** The key table is the built-in one, and isdigit rejects negative chars. *)
Definition env_ok (e : env) : Prop :=
  @addDefaultEntriesToInputMap unit empty_node = Ok (e_root e) /\ (forall c, e_digit e c = false).
(** The console's mode is the one last read (it is read at construction and at each
    poll). *)
Definition modes_read (e : env) (c : ci) : Prop := updateInputFlags e c = c.
(** Writes of bytes, below 2 GiB at a time. *)
Definition op_ok (o : op) : Prop := InputMapSpec.bytes (op_data o) /\ zlen (op_data o) <= 2 ^ 31 - 64.

(** The states of the object: everything any history can lead to, the environment
    (console mode, keyboard layout) changing freely on the way. *)
Inductive reachable : ci -> Prop :=
| reach_init e clock : env_ok e -> reachable (init_ci e clock)
| reach_step e o c c' : env_ok e -> op_ok o -> reachable c -> @run_op unit e o c = Ok c' -> reachable c'.

(** The first bytes of a UTF-8 character, possibly after an ESC, not all there. *)
Definition utf8_partial (input : list Z) : Prop :=
  exists pre b t, input = pre ++ b :: t /\ (pre = [] \/ pre = [27]) /\ zlen (b :: t) < announced b.

(** The state apart from the input queue, the query flag, the time of the last write and
    the output. *)
Definition same_state (c c' : ci) : Prop :=
  c_buttons c = c_buttons c' /\ c_dc c = c_dc c' /\ c_clock c = c_clock c' /\
  (c_ext c, c_mouse c, c_quick c, c_esc c) = (c_ext c', c_mouse c', c_quick c', c_esc c') /\
  (c_left c, c_top c, c_right c, c_bottom c) = (c_left c', c_top c', c_right c', c_bottom c').

(** *** Histories in a changing environment *)
Fixpoint run_history {E} (h : list (env * op)) (c : ci) : res E ci :=
  match h with [] => Ok c | (e, o) :: t => let! c := run_op e o c in run_history t c end.
(** A piece of the input, and what it was taken for; [None]: a character that never
    became complete and was discarded. *)
Definition piece := (list Z * option tok)%type.
Definition piece_ok (p : piece) : Prop :=
  match snd p with Some t => exists processed, token processed (fst p) t | None => utf8_partial (fst p) end.
(** How many pieces are cursor-position replies. *)
Definition replies (ps : list piece) : Z := zlen (filter (fun p => match snd p with Some TDsr => true | _ => false end) ps).
