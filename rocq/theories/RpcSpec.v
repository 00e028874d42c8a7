From Coq Require Import Permutation.
From Verif Require Import Base Buffer BufferSpec Rpc.

(** [bs] is one packet carrying [payload]: its total size as eight little-endian
    bytes, then the payload; small enough to be received. *)
Definition carries (pl : plat) (bs payload : list Z) : Prop :=
  exists hdr, bs = hdr ++ payload /\ is_le 8 (8 + zlen payload) hdr /\
              8 + zlen payload <= p_size_max pl /\ zlen payload <= p_alloc_limit pl /\
              Forall (fun b => 0 <= b < 256) payload.

(** An agent that answers every request with exactly one packet. *)
Definition one_reply_each (pl : plat) (agent : list (list Z) -> list Z) : Prop :=
  forall sent, exists payload, carries pl (agent sent) payload.

Definition request_of (c : call) : request :=
  match c with
  | CSpawn rq => RqStart rq
  | CSetSize c r => RqSetSize c r
  | CProcessList _ => RqProcessList
  end.

(** The result of a call that has understood its reply. *)
Definition answers (c : call) (payload : list Z) (r : cres) : Prop :=
  match c with
  | CSpawn _ =>
      (exists e, fields_on_wire [VInt32 0; VInt32 e] payload /\
                 r_ret r = Throw (XLib 2) /\ r_outs r = mkOuts 0 0 (e mod 2 ^ 32)) \/
      (exists p t, fields_on_wire [VInt32 1; VInt64 p; VInt64 t] payload /\ r_ret r = Ok 1)
  | CSetSize _ _ => payload = [] /\ r_ret r = Ok 1
  | CProcessList cap =>
      exists n ids, fields_on_wire (VInt32 n :: map VInt32 ids) payload /\ r_ret r = Ok n /\ r_ids r = ids /\
                    (zlen ids = Z.max 0 n \/ (cap < n /\ ids = []))
  end.

(** The call aborted the process, or never returned. *)
Definition dead (r : cres) : Prop := match r_ret r with Ok _ | Throw _ => False | _ => True end.
(** The call leaves the connection usable. *)
Definition usable (r : cres) : Prop := match r_ret r with Ok _ | Throw (XLib 2) => True | _ => False end.

(** A session in step: each call's result is read off the agent's reply to that
    call's own request; after the first failure of any other kind every call fails
    at once and nothing more is sent. *)
Inductive in_step (pl : plat) (agent : list (list Z) -> list Z)
  : list (list Z) -> list call -> list cres -> list (list Z) -> Prop :=
| is_nil h : in_step pl agent h [] [] h
| is_ok h c cs r rs b payload h' :
    sendRequest (request_of c) = Ok b ->
    carries pl (agent (h ++ [b])) payload -> answers c payload r -> usable r ->
    in_step pl agent (h ++ [b]) cs rs h' -> in_step pl agent h (c :: cs) (r :: rs) h'
| is_broken h c cs r rs h' :
    ~ usable r -> ~ dead r -> rs = map (fun _ => closed_res) cs ->
    (h' = h \/ exists b, sendRequest (request_of c) = Ok b /\ h' = h ++ [b]) ->
    in_step pl agent h (c :: cs) (r :: rs) h'
| is_dead h c cs r rs h' : dead r -> in_step pl agent h (c :: cs) (r :: rs) h'.

(** A handle slot: at most one handle. *)
Definition slot (h : Z) : list Z := if h =? 0 then [] else [h].

(** The sequential runs of C45: the calls in the given order, each tagged with its
    thread; results are collected per thread. *)
Fixpoint seq_calls agent fuel pl (w : world) (order : list (nat * call)) : world * list (nat * cres) :=
  match order with
  | [] => (w, [])
  | (t, c) :: rest =>
      let (w, r) := docall agent fuel pl w c in
      let (w, rs) := seq_calls agent fuel pl w rest in (w, (t, r) :: rs)
  end.
Definition of_thread {A} (t : nat) (l : list (nat * A)) : list A :=
  map snd (filter (fun x => Nat.eqb (fst x) t) l).

(** The DuplicateHandle calls in a log: the agent's handle, and the duplicate. *)
Definition duplicated (l : list (op * ans)) : list (Z * option Z) :=
  flat_map (fun x => match x with (OSteal h, AHandle a) => [(h, a)] | _ => [] end) l.
(** DuplicateHandle never succeeds with a null handle. *)
Definition dups_ok (w : world) : Prop := Forall (fun d => d <> Some 0) (w_dup w).

(** A handle value the library's pointers can hold. *)
Definition handle_ok (pl : plat) (h : Z) : Prop :=
  h <> 0 /\ (if p_size_max pl =? 2 ^ 32 - 1 then - 2 ^ 31 <= h < 2 ^ 31 else - 2 ^ 63 <= h < 2 ^ 63).

(** The agent's answer to the next request, sent as [rp]. *)
Definition agent_replies (agent : list (list Z) -> list Z) (w : world) (c : call) (rp : reply) : Prop :=
  forall b, sendRequest (request_of c) = Ok b -> sendReply rp = Ok (agent (w_sent w ++ [b])).
(** ... and it can be received. *)
Definition receivable (pl : plat) (rp : reply) : Prop :=
  forall bs, sendReply rp = Ok bs -> zlen bs <= p_size_max pl /\ zlen bs - 8 <= p_alloc_limit pl.

(** The system completes the write, then each read with at least one byte, long enough
    for the whole reply. *)
Definition healthy (fuel : nat) (w : world) (c : call) (rp : reply) : Prop :=
  exists b bs reads, sendRequest (request_of c) = Ok b /\ sendReply rp = Ok bs /\
    w_io w = Now true 0 (zlen b) :: reads /\
    Forall (fun a => io_result a = Ok tt /\ 1 <= moved a) reads /\
    zlen bs <= zlen reads /\ (length bs <= fuel)%nat.

(** What an I/O answer that is not a success means to the caller (winpty_constants.h):
    3 connection lost (a broken-pipe error), 6 agent died, 7 timeout, otherwise an
    unspecified failure.  No entry: success, or an unknown wait result. *)
Definition io_failure (a : ioans) : option lexc :=
  let failed (err : Z) := Some (if existsb (Z.eqb err) [109; 232; 233] then XLib 3 else XWinpty) in
  match a with
  | Pend WDied _ _ _ => Some (XLib 6)
  | Pend WTimeout _ _ _ => Some (XLib 7)
  | Pend WFailed _ _ _ => Some XWinpty
  | Pend WIo false err _ | Now false err _ => failed err
  | _ => None
  end.
