(** When the objects behind a pipe's access control are treated well. *)
From Verif Require Import Base Text Security SecLife.

(** The function that frees what was acquired: CloseHandle for OpenThreadToken and
    OpenProcessToken, FreeSid for AllocateAndInitializeSid, delete[] for new[], FreeLibrary
    for LoadLibrary, LocalFree for the rest. *)
Definition freed_by (o : robj) : freer :=
  match o with
  | OToken => CloseHandle
  | OSystem | OAdmins | OEveryone => FreeSid
  | OOwner => DeleteArray
  | OModule => FreeLibrary
  | OAcl | OSd | OText | OResult => LocalFree
  end.

(** From the objects [held] to the objects [rest]: nothing is acquired over an object still
    held, nothing is used that is not held, nothing is freed twice or by the wrong function,
    the ACL outlives the descriptor that points to it, and a pipe is created with both alive. *)
Inductive tidy : list robj -> list rev -> list robj -> Prop :=
| tidy_nil held : tidy held [] held
| tidy_got held o l rest : ~ In o held -> tidy (o :: held) l rest -> tidy held (RGot o :: l) rest
| tidy_use held o l rest : In o held -> tidy held l rest -> tidy held (RUse o :: l) rest
| tidy_free a o b l rest : ~ In o (a ++ b) -> (o = OAcl -> ~ In OSd (a ++ b)) -> tidy (a ++ b) l rest ->
    tidy (a ++ o :: b) (RFree (freed_by o) o :: l) rest
| tidy_create held l rest : In OSd held -> In OAcl held -> tidy held l rest -> tidy held (RCreate :: l) rest.

(** The same ending, whatever the value *)
Definition same_end {A B} (x : res why A) (y : res why B) : Prop :=
  match x, y with
  | Ok _, Ok _ => True
  | Throw v, Throw w => v = w
  | AssertFail, AssertFail => True
  | UB, UB => True
  | OutOfFuel, OutOfFuel => True
  | _, _ => False
  end.
