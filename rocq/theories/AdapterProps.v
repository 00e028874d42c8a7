(** C31 and C40: the unix adapter's copying loops and wake-ups. *)
From Verif Require Import Base BaseLemmas Adapter AdapterSpec AdapterProofs.

(** C31: the whole buffer, in order, or a proper prefix at the first error; no
    assertion fails.  Without further answers the call is still waiting. *)
Theorem C31_write_all : forall os buf fd, zlen buf < 2 ^ 31 -> answers_ok os (zlen buf) ->
  match @writeAll unit os buf fd with
  | Ok (true, fd', _) => fd' = fd ++ buf
  | Ok (false, fd', _) => exists p, fd' = fd ++ p /\ is_prefix p buf /\ p <> buf
  | OutOfFuel => True
  | _ => False
  end.
Proof. exact writeAll_ok. Qed.
Print Assumptions C31_write_all.

(** C31: interruptions and partial writes alone never stop it. *)
Theorem C31_write_all_finishes : forall os buf fd,
  zlen buf < 2 ^ 31 -> answers_ok os (zlen buf) -> no_fail os -> zlen buf <= accepted os ->
  exists os', @writeAll unit os buf fd = Ok (true, fd ++ buf, os').
Proof. exact writeAll_finishes. Qed.
Print Assumptions C31_write_all_finishes.

Example C31_example :
  @writeAll unit [WIntr; WSome 2; WIntr; WSome 1; WSome 2] [1; 2; 3; 4; 5] [9] = Ok (true, [9; 1; 2; 3; 4; 5], []) /\
  answers_ok [WIntr; WSome 2; WIntr; WSome 1; WSome 2] 5.
Proof. split; [reflexivity|]. repeat (constructor; try lia). Qed.

(** C31: what the terminal received is a prefix of what was read from CONOUT; if no
    write failed it is everything read before the stream ended. [ok]: no write failed. *)
Theorem C31_output_thread : forall rs os fd, thread_ok rs os ->
  match @output_thread unit rs os fd with
  | Ok (ok, fd') => exists p, fd' = fd ++ p /\ is_prefix p (read_bytes rs) /\
        (ok = true -> exists k, p = read_bytes (firstn k rs) /\
                       (nth_error rs k = Some RFail \/ nth_error rs k = Some (RData []))) /\
        (ok = false -> In WFail os)
  | OutOfFuel => True
  | _ => False
  end.
Proof.
  intros rs os fd H. pose proof (output_thread_ok rs os fd H) as A. pose proof (output_fails_only rs os fd) as B.
  destruct (@output_thread unit rs os fd) as [[ok fd']| | | |]; auto. destruct A as (p & A1 & A2 & A3).
  exists p. repeat split; auto. intros ->. exact (B fd' H eq_refl).
Qed.
Print Assumptions C31_output_thread.

Example C31_output_example :
  @output_thread unit [RData [1; 2; 3]; RData [4]; RFail; RData [5]] [WSome 2; WIntr; WSome 1; WSome 1] [] = Ok (true, [1; 2; 3; 4]).
Proof. reflexivity. Qed.

(** C31, the other direction: CONIN receives a prefix of what was typed ... *)
Theorem C31_input_thread : forall rs conin,
  match @input_thread unit rs conin with
  | Ok c => exists p, c = conin ++ p /\ is_prefix p (input_bytes rs)
  | OutOfFuel => True
  | _ => False
  end.
Proof. exact input_thread_ok. Qed.
Print Assumptions C31_input_thread.

(** ... and all of it as long as reads and pipe writes succeed, whatever wake-ups
    and interruptions come in between. *)
Theorem C31_input_complete : forall rs conin tail, Forall round_ok rs ->
  @input_thread unit (rs ++ tail) conin = input_thread tail (conin ++ input_bytes rs).
Proof. exact input_thread_all. Qed.
Print Assumptions C31_input_complete.

Example C31_input_example :
  @input_thread unit [IData [1; 2] true 2; INoInput; IIntr; IData [3] true 1; IShutdown] [] = Ok [1; 2; 3].
Proof. reflexivity. Qed.

(** C40: whenever main is blocked and no wake-up is on its way, there is nothing it
    has missed: the size it acted upon is the terminal's, and every thread runs. *)
Theorem C40_no_lost_wakeup : forall cap v n es,
  0 < cap -> let s := mrun cap (mstart cap v n) es in
  pc s = Select -> ~ wake_coming s -> sz s = term s /\ Forall (fun h => h = HRunning) (hs s).
Proof. exact no_lost. Qed.
Print Assumptions C40_no_lost_wakeup.

(** C40: in every interleaving, once a thread has set its completion flag and then
    called set(), main leaves its loop after a bounded number of its own steps; and
    it leaves the loop only if some thread has set its completion flag. *)
Theorem C40_main_exits : forall cap v n i before after es, 0 < cap -> (i < n)%nat -> In (EvNotify i) after ->
  let s := mrun cap (mstart cap v n) (before ++ EvComplete i :: after) in
  5 + pipe s + count is_set es <= count is_main es -> pc (mrun cap s es) = Exited.
Proof. exact main_exits. Qed.
Print Assumptions C40_main_exits.

Theorem C40_main_exits_only_then : forall cap v n es,
  pc (mrun cap (mstart cap v n) es) = Exited -> exists i, In (EvComplete i) es.
Proof. exact exits_only. Qed.
Print Assumptions C40_main_exits_only_then.

(** C40: in every interleaving, once the signal of the last resize has been
    delivered main acts upon that size after a bounded number of its own steps,
    unless it is already shutting down. *)
Theorem C40_resize_noticed : forall cap v n w before after es, 0 < cap ->
  Forall (fun e => is_resize e = false) (after ++ es) -> In EvDeliver after ->
  let s := mrun cap (mstart cap v n) (before ++ EvResize w :: after) in
  6 + pipe s + count is_set es <= count is_main es ->
  sz (mrun cap s es) = w \/ pc (mrun cap s es) = Exited.
Proof. exact resize_acted. Qed.
Print Assumptions C40_resize_noticed.

(** Two resizes race with a reset; the final size is acted upon. *)
Example C40_example :
  let pre := [EvResize 7; EvDeliver; EvMain; EvMain; EvResize 8; EvDeliver] in
  let s := mrun 100 (mstart 100 5 2) pre in
  let s' := mrun 100 s (repeat EvMain 8) in
  sz s = 5 /\ term s = 8 /\ pend s = false /\ sz s' = 8 /\ pc s' = Select.
Proof. vm_compute. auto. Qed.

Example C40_exit_example :
  let s := mrun 100 (mstart 100 5 2) [EvComplete 1; EvMain; EvNotify 1] in
  pipe s = 1 /\ pc (mrun 100 s (repeat EvMain 6)) = Exited.
Proof. vm_compute. auto. Qed.

(** C40: a shutdown request (the flag, then set()) always ends the input thread
    after a bounded number of its steps, wherever it was; and it ends only if asked
    to. *)
Theorem C40_input_thread_stops : forall cap before after es, 0 < cap -> In IvSet after ->
  let s := irun cap iinit (before ++ IvShould :: after) in
  4 + ipipe s <= count is_istep es -> ip (irun cap s es) = IDone.
Proof. exact input_asked. Qed.
Print Assumptions C40_input_thread_stops.

Theorem C40_input_thread_stops_only_if_asked : forall cap es,
  ip (irun cap iinit es) = IDone -> In IvShould es.
Proof. exact asked_only. Qed.
Print Assumptions C40_input_thread_stops_only_if_asked.

Example C40_input_example :
  ip (irun 1 iinit [IvStep; IvStep; IvShould; IvInput; IvSet; IvStep; IvStep; IvStep; IvStep]) = IDone.
Proof. reflexivity. Qed.

(** Finding: a resize between the initial size query (main.cc:595) and the
    installation of the handler (main.cc:669) raises no wake-up: main blocks with
    the old size, for as long as nothing else happens. *)
Theorem C40_resize_before_registration_refuted :
  let s := mrun 100 (minit 5 1) [EvResize 7; EvMain] in
  pc s = Select /\ ~ wake_coming s /\ sz s = 5 /\ term s = 7 /\
  forall k, mrun 100 s (repeat EvMain k) = s.
Proof.
  cbv zeta. split; [reflexivity|]. split.
  - unfold wake_coming. vm_compute. intros [H|[H|[H|H]]]; try discriminate. exact H.
  - split; [reflexivity|]. split; [reflexivity|]. induction k as [|k IH]; [reflexivity|]. exact IH.
Qed.
Print Assumptions C40_resize_before_registration_refuted.
