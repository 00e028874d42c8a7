From Verif Require Import Base Adapter.

(** Answers of write() allowed by POSIX for a request of [n] bytes, and small
    enough for the caller's int. *)
Inductive answers_ok : list wr -> Z -> Prop :=
| ao_nil n : answers_ok [] n
| ao_intr os n : answers_ok os n -> answers_ok (WIntr :: os) n
| ao_fail os n : answers_ok (WFail :: os) n
| ao_some k os n : 0 < k <= n -> answers_ok os (n - k) -> answers_ok (WSome k :: os) n.

(** Bytes a list of answers accepts. *)
Definition accepted (os : list wr) : Z :=
  fold_right (fun o a => match o with WSome k => k + a | _ => a end) 0 os.
Definition no_fail (os : list wr) : Prop := Forall (fun o => o <> WFail) os.

Definition is_prefix {A} (p l : list A) : Prop := exists r, l = p ++ r.

(** The bytes of the data reads. *)
Definition read_bytes (rs : list rd) : list Z := flat_map (fun r => match r with RData b => b | RFail => [] end) rs.
Definition input_bytes (rs : list ird) : list Z := flat_map (fun r => match r with IData b _ _ => b | _ => [] end) rs.

(** A wake-up is still on its way: a pending signal, bytes in the pipe, or a
    thread between its flag and its set(). *)
Definition wake_coming (s : mstate) : Prop :=
  pend s = true \/ 0 < pipe s \/ In HFlagged (hs s).

Definition is_main (e : mev) : bool := match e with EvMain => true | _ => false end.
Definition is_set (e : mev) : bool := match e with EvDeliver | EvNotify _ => true | _ => false end.
Definition is_resize (e : mev) : bool := match e with EvResize _ => true | _ => false end.
Definition count {A} (f : A -> bool) (l : list A) : Z := zlen (filter f l).

(** The answers serve every write of the output thread: each buffer fits an int
    and each request gets legal answers; [writeAll] consumes them in order. *)
Inductive thread_ok : list rd -> list wr -> Prop :=
| to_nil os : thread_ok [] os
| to_fail rs os : thread_ok (RFail :: rs) os
| to_data b rs os : zlen b < 2 ^ 31 -> answers_ok os (zlen b) ->
    (forall fd fd' os', @writeAll unit os b fd = Ok (true, fd', os') -> thread_ok rs os') ->
    thread_ok (RData b :: rs) os.

(** The adapter once the resize handler is installed. *)
Definition mstart (cap v : Z) (n : nat) : mstate := mstep cap (minit v n) EvMain.

Definition is_istep (e : iev) : bool := match e with IvStep => true | _ => false end.

(** Rounds of the input thread in which nothing goes wrong. *)
Definition round_ok (r : ird) : Prop :=
  match r with IShutdown | IEnd => False | IData b ok w => ok = true /\ w = zlen b /\ 0 < zlen b | _ => True end.
