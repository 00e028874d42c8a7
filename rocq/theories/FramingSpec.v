(** Specification vocabulary for control-pipe framing. *)
From Verif Require Import Base Buffer BufferSpec NamedPipe NamedPipeSpec Framing.

(** A packet: its first eight bytes are its own length. *)
Definition packet (bs : list Z) : Prop :=
  8 <= zlen bs < 2^64 /\ is_le 8 (zlen bs) (firstn 8 bs).

(** The bytes the client has pushed into the pipe during a run. *)
Definition arrived (its : list (list Z * svc)) : list Z := concat (map fst its).

(** The bytes the client writes for a list of requests. *)
Inductive sends : list request -> list (list Z) -> Prop :=
| sends_nil : sends [] []
| sends_cons rq b rqs bs : sendRequest rq = Ok b -> sends rqs bs -> sends (rq :: rqs) (b :: bs).
