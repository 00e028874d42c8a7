(** src/shared/OwnedHandle.h and OwnedHandle.cc: owners of OS handles.  Handles are
    numbers; 0 is nullptr and [INVALID] is INVALID_HANDLE_VALUE.  A state has the owners
    in scope, what the OS has open, and what happened so far. *)
From Verif Require Import Base.

Definition INVALID : Z := -1.
(** A handle that needs closing, OwnedHandle.cc:27 *)
Definition real (h : Z) : bool := negb (h =? 0) && negb (h =? INVALID).

Record hstate := mkH
  { h_owners : list (option Z);      (* by creation order: m_h; None: destroyed *)
    h_open : list Z;                 (* handles open in the OS *)
    h_bad : list Z;                  (* CloseHandle calls on a handle that was not open *)
    h_released : list Z;             (* handles given away by release() *)
    h_lost : list Z }.               (* handles the OS refused to close, now forgotten *)

(** CloseHandle(h): [ok] is the OS's choice; a handle that is not open is refused. *)
Definition closeHandle (s : hstate) (h : Z) (ok : bool) : bool * hstate :=
  if existsb (Z.eqb h) (h_open s) then
    if ok then (true, mkH (h_owners s) (remove Z.eq_dec h (h_open s)) (h_bad s) (h_released s) (h_lost s))
    else (false, s)
  else (false, mkH (h_owners s) (h_open s) (h :: h_bad s) (h_released s) (h_lost s)).

Definition set_owner (s : hstate) (i : nat) (v : option Z) : hstate :=
  mkH (match upd_nat (h_owners s) i v with Some l => l | None => h_owners s end)
      (h_open s) (h_bad s) (h_released s) (h_lost s).
(** m_h of the i-th owner; [None] if there is no such owner (any more) *)
Definition owner (s : hstate) (i : nat) : option Z :=
  match nth_error (h_owners s) i with Some o => o | None => None end.

(** dispose, OwnedHandle.cc:26-36.  The flag tells whether it threw: m_h is kept then. *)
Definition dispose (s : hstate) (i : nat) (nothrow ok : bool) : bool * hstate :=
  match owner s i with
  | None => (false, s)
  | Some h =>
      if real h then
        let (closed, s) := closeHandle s h ok in
        if closed then (false, set_owner s i (Some 0))
        else if nothrow then
          (false, let s := set_owner s i (Some 0) in
                  mkH (h_owners s) (h_open s) (h_bad s) (h_released s) (h :: h_lost s))
        else (true, s)
      else (false, set_owner s i (Some 0))
  end.
(** release, OwnedHandle.h:35: the value and the state *)
Definition release (s : hstate) (i : nat) : Z * hstate :=
  match owner s i with Some h => (h, set_owner s i (Some 0)) | None => (0, s) end.

(** What a program can do with owners. *)
Inductive hop :=
| HOpen (h : Z)                       (* the OS opens a handle, stored in a new owner: OwnedHandle(h) *)
| HMove (j : nat)                     (* move construction from owner j, OwnedHandle.h:37 *)
| HAssign (i j : nat) (ok : bool)     (* move assignment, OwnedHandle.h:39-43 *)
| HDispose (i : nat) (nothrow ok : bool)
| HRelease (i : nat)                  (* release() to the caller *)
| HDestroy (i : nat) (ok : bool).     (* scope exit, OwnedHandle.h:32 *)

Definition hstep (s : hstate) (o : hop) : hstate :=
  match o with
  | HOpen h =>
      (* the OS hands out only handles that are not open *)
      if real h && existsb (Z.eqb h) (h_open s) then s
      else mkH (h_owners s ++ [Some h]) (if real h then h :: h_open s else h_open s)
               (h_bad s) (h_released s) (h_lost s)
  | HMove j =>
      match owner s j with
      | None => s
      | Some _ => let (h, s) := release s j in
                  mkH (h_owners s ++ [Some h]) (h_open s) (h_bad s) (h_released s) (h_lost s)
      end
  | HAssign i j ok =>
      match owner s i, owner s j with
      | Some _, Some _ =>
          let (threw, s) := dispose s i false ok in
          if threw then s
          else let (h, s) := release s j in set_owner s i (Some h)
      | _, _ => s
      end
  | HDispose i nothrow ok => snd (dispose s i nothrow ok)
  | HRelease i =>
      match owner s i with
      | None => s
      | Some _ => let (h, s) := release s i in
                  mkH (h_owners s) (h_open s) (h_bad s) (if real h then h :: h_released s else h_released s) (h_lost s)
      end
  | HDestroy i ok =>
      match owner s i with
      | None => s
      | Some _ => set_owner (snd (dispose s i true ok)) i None
      end
  end.
Definition hrun (s : hstate) (os : list hop) : hstate := fold_left hstep os s.
Definition hinit : hstate := mkH [] [] [] [] [].
