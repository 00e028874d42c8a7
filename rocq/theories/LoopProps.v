(** C63: the event loop polls at a steady pace, serves all pipes alike and waits only when
    there is nothing to do. *)
From Verif Require Import Base BaseLemmas NamedPipe NamedPipeSpec Loop LoopSpec LoopProofs.

(** The timeout handler never starts before the interval has passed since it last ended. *)
Theorem C63_not_early : forall I ps start ts l r l1 t l2, 0 < I < 2 ^ 31 -> Forall forward ts ->
  loop_run I ps start ts = (l, r) -> l = l1 ++ LPoll t :: l2 -> last_poll start l1 + I <= t.
Proof. exact not_early. Qed.
Print Assumptions C63_not_early.

(** However busy the pipes are: if going through them takes at most b milliseconds and a
    wait overruns by at most k, nothing happens later than I + 2b + k after the last call
    of the timeout handler without calling it again, also when the 32-bit clock starts
    over. *)
Theorem C63_not_late : forall I b k ps start ts l r l1 e t l2, 0 < I -> 0 <= b -> 0 <= k -> I + 2 * b + k < 2 ^ 31 ->
  Forall (steady b k) ts -> loop_run I ps start ts = (l, r) -> l = l1 ++ e :: l2 -> time_of e = Some t ->
  t <= last_poll start l1 + I + 2 * b + k.
Proof. exact not_late. Qed.
Print Assumptions C63_not_late.

(** Each time the clock is read and the handler is due, it is called at once, ... *)
Theorem C63_due : forall I ps start ts l r l1 t l2, 0 < I < 2 ^ 31 -> Forall forward ts -> loop_run I ps start ts = (l, r) ->
  l = l1 ++ LClock t :: l2 -> last_poll start l1 + I <= t < last_poll start l1 + 2 ^ 31 -> exists l3, l2 = LPoll t :: l3.
Proof. exact due_polled. Qed.
Print Assumptions C63_due.

(** ... and no wait is asked to last beyond that moment. *)
Theorem C63_wait : forall I ps start ts l r l1 t w ms l2, 0 < I < 2 ^ 31 -> Forall forward ts -> loop_run I ps start ts = (l, r) ->
  l = l1 ++ LWait t w ms :: l2 ->
  exists m, ms = Some m /\ 0 <= m /\ (t < last_poll start l1 + 2 ^ 31 -> t + m <= Z.max t (last_poll start l1 + I)).
Proof. exact wait_bounded. Qed.
Print Assumptions C63_wait.

(** Every turn goes through all pipes, in order: none is starved by another. *)
Theorem C63_fair : forall I ms start ts l s, loop_run I (opened ms) start ts = (l, Ok s) ->
  exists k, (k <= length ts)%nat /\ (~ Exists asks_to_end l -> k = length ts) /\
    services l = concat (repeat (List.seq 0 (length ms)) k).
Proof. exact run_fair. Qed.
Print Assumptions C63_fair.

(** When the loop has waited, every pipe had been gone through since the last handler ran,
    nothing could be done for any open pipe, and the events waited for are all those, and
    only those, of open pipes. *)
Theorem C63_idle : forall I ms start ts l1 at_ w m b s, ms <> [] ->
  loop_run I (opened ms) start ts = (l1 ++ [LWait at_ w m; LWake b], Ok s) ->
  (exists l0 lt, l1 = l0 ++ lt /\ ~ Exists is_handler lt /\ services lt = List.seq 0 (length ms)) /\
  (forall i q, nth_error (l_pipes s) i = Some q -> np_open q = true -> at_rest w i q) /\
  (forall x, In x w -> exists q, nth_error (l_pipes s) (fst x) = Some q /\ np_open q = true).
Proof. exact run_rest. Qed.
Print Assumptions C63_idle.

(** Once a handler has asked for the end, the loop ends without waiting again: at most the
    pipes of this turn are still gone through. *)
Theorem C63_end : forall I ms start ts l s l1 e l2, loop_run I (opened ms) start ts = (l, Ok s) ->
  l = l1 ++ e :: l2 -> asks_to_end e ->
  ~ Exists is_wait l2 /\ (length (services l2) <= length ms)%nat /\
  forall more, loop_run I (opened ms) start (ts ++ more) = (l, Ok s).
Proof. exact run_exit. Qed.
Print Assumptions C63_end.

(** No assertion fails as long as writes are whole, waits succeed and handlers use pipes
    as they were opened; with a poll interval there is always something to wait for. *)
Theorem C63_no_failure : forall I ms start ts l r, 0 < I -> Forall (sound_turn ms) ts ->
  loop_run I (opened ms) start ts = (l, r) -> exists s, r = Ok s.
Proof. exact run_ok. Qed.
Print Assumptions C63_no_failure.

(** One quiet turn whose wait lasts as given *)
Definition nothing : handler := mkH [] false.
Definition quiet_svc : svc := {| sv_conn := ConnPending; sv_read := []; sv_write := []; sv_kr := 0; sv_kw := 0 |}.
Definition sleepy (d : Z) : turn := mkT [] (fun _ => (quiet_svc, nothing)) nothing 0 3 1 (fun _ => d) true.

(** Without the bound on how long a wait can overrun, the pace is lost: if the computer
    sleeps for 25 days during a wait, the loop does not poll when it wakes up but asks for
    a wait of more than 24 days. *)
Theorem C63_long_sleep_refuted :
  exists ts l1 t w m l2 s, Forall forward ts /\
    loop_run 25 (opened [(false, true, true)]) 0 ts = (l1 ++ LWait t w (Some m) :: l2, Ok s) /\
    last_poll 0 l1 + 25 * 24 * 3600 * 1000 <= t /\ 24 * 24 * 3600 * 1000 <= m.
Proof.
  pose (l := fst (loop_run 25 (opened [(false, true, true)]) 0 [sleepy (25 * 24 * 3600 * 1000); sleepy 0])).
  exists [sleepy (25 * 24 * 3600 * 1000); sleepy 0], (firstn 6 l).
  eexists _, _, _, _, _. split; [|split; [vm_compute; reflexivity|split; vm_compute; discriminate]].
  repeat constructor; cbn; try lia; discriminate.
Qed.
Print Assumptions C63_long_sleep_refuted.

(** Two pipes, one of which gets a byte; the clock starts over; the handler is called
    after 26 ms and ends the loop. *)
Example C63_holds_somewhere :
  let quiet := sleepy 12 in
  let byte := mkT [(1%nat, [7])] (fun i => ({| sv_conn := ConnDone; sv_read := [IoDone 0]; sv_write := []; sv_kr := 0; sv_kw := 0 |},
                                   mkH (if Nat.eqb i 1 then [(1%nat, PReadAll); (0%nat, PWrite [9])] else []) false)) nothing 0 3 1 (fun _ => 12) true in
  let last := mkT [] (fun _ => (quiet_svc, nothing)) (mkH [] true) 2 3 1 (fun _ => 12) true in
  let ms := [(true, false, true); (false, true, false)] in
  let (l, r) := loop_run 25 (opened ms) (2 ^ 32 - 10) [byte; quiet; quiet; last; quiet] in
  Forall forward [byte; quiet; quiet; last; quiet] /\ Forall (sound_turn ms) [byte; quiet; quiet; last; quiet] /\
  l = [LService 0; LPipeIo 0 false; LService 1; LPipeIo 1 false; LClock (2 ^ 32 - 10);
       LService 0; LService 1; LClock (2 ^ 32 - 10); LWait (2 ^ 32 - 9) [(0%nat, WWrite); (1%nat, WRead)] (Some 24); LWake (2 ^ 32 + 3);
       LService 0; LService 1; LClock (2 ^ 32 + 3); LWait (2 ^ 32 + 4) [(0%nat, WWrite); (1%nat, WRead)] (Some 11); LWake (2 ^ 32 + 16);
       LService 0; LService 1; LClock (2 ^ 32 + 18); LPoll (2 ^ 32 + 18); LPolled (2 ^ 32 + 21) true] /\
  exists s, r = Ok s.
Proof.
  cbv zeta. assert (F : forall d, 0 <= d -> forall w : option Z, 0 <= d) by auto.
  match goal with |- let (l, r) := ?e in _ => destruct e as [l r] eqn:E end.
  split; [repeat constructor; cbn; lia|]. split; [|vm_compute in E; injection E as <- <-; split; [reflexivity|eexists; reflexivity]].
  assert (R0 : forall ms, respects ms nothing) by (intros ms; constructor).
  assert (W : forall x, full_writes {| sv_conn := ConnDone; sv_read := x; sv_write := []; sv_kr := 0; sv_kw := 0 |}) by (intros x; split; [intros s []|discriminate]).
  assert (W' : full_writes quiet_svc) by (split; [intros s []|discriminate]).
  repeat (apply Forall_cons; [split; [reflexivity|split; [repeat constructor|intros i; cbn [t_pipe fst snd sleepy]; split; [auto|]]]|]); try apply Forall_nil; try apply R0.
  unfold respects. cbn [h_ops]. destruct (Nat.eqb i 1); [|constructor].
  repeat (apply Forall_cons; [cbn; eexists _, _, _; split; [reflexivity|cbn; auto]|]). apply Forall_nil.
Qed.
