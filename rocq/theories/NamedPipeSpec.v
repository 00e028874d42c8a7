(** What a user of a pipe endpoint can observe: the bytes passed to write, the
    bytes returned by reads, and the two kernel streams. *)
From Verif Require Import Base NamedPipe.

Definition written_by (o : pop) : list Z := match o with PWrite d => d | _ => [] end.
Definition peer_by (o : pop) : list Z := match o with PPeer d => d | _ => [] end.

(** All bytes the owner wrote / the peer wrote during a history. *)
Definition written (ops : list pop) : list Z := flat_map written_by ops.
Definition peer_written (ops : list pop) : list Z := flat_map peer_by ops.

Definition is_prefix {A} (a b : list A) : Prop := exists r, b = a ++ r.

(** The OS contract for overlapped writes to a byte-mode pipe: a write that
    completes successfully wrote everything; and a pended connect does not
    fail. *)
Definition full_writes (a : svc) : Prop :=
  (forall s, In (IoDone s) (sv_write a) -> s <= 0) /\ sv_conn a <> ConnError.

(** Operations permitted by the mode the endpoint was opened with. *)
Definition legal (reading writing : bool) (o : pop) : Prop :=
  match o with
  | PService a => full_writes a
  | PWrite _ => writing = true
  | PRead _ | PReadAll | PSetBuf _ => reading = true
  | PClose _ _ | PPeer _ => True
  end.

(** A service call during which the OS completes (at least) the next write and
    nothing fails. *)
Definition draining (a : svc) : Prop :=
  (exists r, sv_write a = IoDone 0 :: r) /\
  (forall s, In (IoDone s) (sv_write a) -> s <= 0) /\
  ~ In IoError (sv_write a) /\ ~ In IoError (sv_read a) /\ sv_conn a = ConnDone.

(** A service call during which the OS completes (at least) the next read with
    all it has, and nothing fails. *)
Definition supplying (a : svc) : Prop :=
  (exists r, sv_read a = IoDone 0 :: r) /\
  (forall s, In (IoDone s) (sv_write a) -> s <= 0) /\
  ~ In IoError (sv_write a) /\ ~ In IoError (sv_read a) /\ sv_conn a = ConnDone.

(** The reader's loop: take everything received, then let the OS work. *)
Fixpoint read_rounds (l : list svc) : list pop :=
  match l with
  | [] => [PReadAll]
  | a :: r => PReadAll :: PService a :: read_rounds r
  end.
