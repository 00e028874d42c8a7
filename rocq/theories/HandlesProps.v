(** C44: OS handles are closed exactly once. *)
From Verif Require Import Base Handles HandlesSpec HandlesProofs.

(** After any sequence of operations on owners, with any failures of CloseHandle: no
    handle was closed that was not open (so none was closed twice or closed by anybody
    after release()), and each handle that is open has exactly one owner, or was released,
    or the OS refused to close it; no owner holds a closed handle. *)
Theorem C44_accounted os : accounted (hrun hinit os).
Proof. exact (hrun_acc os hinit init_acc). Qed.
Print Assumptions C44_accounted.
(** If the OS closes what it is told to close, then once every owner is gone exactly the
    released handles are still open. *)
Theorem C44_all_closed os : let s := hrun hinit os in forallb all_ok os = true -> destroyed s ->
  forall h, times h (h_open s) = times h (h_released s).
Proof. exact (final os). Qed.
Print Assumptions C44_all_closed.

(** Three handles: one moved, one overwritten by assignment, one released; one owner
    holds INVALID_HANDLE_VALUE. *)
Example C44_example :
  let os := [HOpen 10; HOpen 20; HOpen 30; HOpen INVALID; HMove 0; HAssign 1 4 true; HRelease 2;
             HAssign 1 1 true; HDestroy 0 true; HDestroy 1 true; HDestroy 2 true; HDestroy 3 true; HDestroy 4 true] in
  forallb all_ok os = true /\ destroyed (hrun hinit os) /\ h_open (hrun hinit os) = [30] /\ h_released (hrun hinit os) = [30].
Proof. cbv zeta. split; [reflexivity|]. split; [repeat constructor|]. split; reflexivity. Qed.
(** A refused close in an explicit dispose() throws and keeps the handle, which the
    destructor then closes. *)
Example C44_refused : let s := hrun hinit [HOpen 10; HDispose 0 false false] in
  held s = [10] /\ h_open (hstep s (HDestroy 0 true)) = [].
Proof. split; reflexivity. Qed.
