(** Who is responsible for an open handle. *)
From Verif Require Import Base Handles.

(** The handles held by owners that are alive *)
Definition held (s : hstate) : list Z :=
  flat_map (fun o => match o with Some h => if real h then [h] else [] | None => [] end) (h_owners s).
(** Everyone responsible: owners, whoever got a released handle, and nobody (the OS
    refused to close it). *)
Definition responsible (s : hstate) : list Z := held s ++ h_released s ++ h_lost s.
Definition times (h : Z) (l : list Z) : nat := count_occ Z.eq_dec l h.
(** Each open handle has exactly one party responsible and there are no others; no
    CloseHandle was ever called on a handle that was not open. *)
Definition accounted (s : hstate) : Prop :=
  (forall h, times h (responsible s) = times h (h_open s) /\ (times h (h_open s) <= 1)%nat) /\ h_bad s = [].
Definition all_ok (o : hop) : bool :=
  match o with HAssign _ _ ok | HDispose _ _ ok | HDestroy _ ok => ok | _ => true end.
Definition destroyed (s : hstate) : Prop := Forall (fun o => o = None) (h_owners s).
