(** What the helper agent owes the library. *)
From Verif Require Import Base Text Buffer NamedPipe NamedPipeSpec Open OpenSpec Helper.

(** The desktop events of a log, and all bytes it sent. *)
Definition desktop_log (l : list hev) : list ev := flat_map (fun e => match e with HD x => [x] | _ => [] end) l.
Definition sent (l : list hev) : list Z := flat_map (fun e => match e with HSent d => d | _ => [] end) l.

(** The desktop exists: it and its window station are open, and the process is on that
    station. *)
Definition desktop_exists (l : list hev) : Prop :=
  live (desktop_log l) [] = Some [ODesktop; OStation] /\ on_background (desktop_log l) false = true.
Definition nothing_left (l : list hev) : Prop :=
  live (desktop_log l) [] = Some [] /\ on_background (desktop_log l) false = false.

(** All the bytes the library wrote to it. *)
Definition received (ins : list hin) : list Z := flat_map (fun i => match i with HPeer d => d | _ => [] end) ins.
(** The pipe works: no write is short; here the other end is there. *)
Definition sound (i : hin) : Prop := match i with HRound a => full_writes a | HPeer _ => True end.
(** The system reports an error on the pipe: the other end is gone. *)
Definition gone (i : hin) : Prop :=
  match i with HRound a => In IoError (sv_read a) \/ In IoError (sv_write a) | HPeer _ => False end.

(** A packet of the control pipe: its own size in the first eight bytes, low byte first. *)
Definition packet_size (b : list Z) : Z := fold_right (fun x a => x + 256 * a) 0 (firstn 8 b).
(** The packet that tells the library this desktop *)
Definition tells (pl : plat) (packet name : list Z) : Prop :=
  packet_size packet = zlen packet /\ parseDesktop pl (skipn 8 packet) = Ok (RpDesktop name).
