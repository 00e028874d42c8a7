(** What Windows lets a caller do with a pipe, and who should be let in.  Independent of how
    winpty builds its descriptors; the record types are those of Security.v. *)
From Verif Require Import Base Text Security.

(** S-1-5-18, S-1-5-32-544 and S-1-1-0 *)
Definition system : sid := mkSid [0; 0; 0; 0; 0; 5] [18].
Definition administrators : sid := mkSid [0; 0; 0; 0; 0; 5] [32; 544].
Definition everyone : sid := mkSid [0; 0; 0; 0; 0; 1] [0].

(** The rights of a pipe are numbered by their bits: 0-8 are those of files (2 is
    FILE_CREATE_PIPE_INSTANCE), 16-20 DELETE, READ_CONTROL, WRITE_DAC, WRITE_OWNER and
    SYNCHRONIZE. *)
Definition pipe_right (n : Z) : Prop := 0 <= n <= 8 \/ 16 <= n <= 20.

(** The bits an access mask of a pipe stands for: bits 28-31 are the generic rights, mapped
    to FILE_ALL_ACCESS, FILE_GENERIC_EXECUTE, FILE_GENERIC_WRITE and FILE_GENERIC_READ. *)
Definition covers (mask n : Z) : Prop :=
  (n < 28 /\ Z.testbit mask n = true) \/
  (Z.testbit mask 28 = true /\ Z.testbit 0x1F01FF n = true) \/
  (Z.testbit mask 29 = true /\ Z.testbit 0x1200A0 n = true) \/
  (Z.testbit mask 30 = true /\ Z.testbit 0x120116 n = true) \/
  (Z.testbit mask 31 = true /\ Z.testbit 0x120089 n = true).

(** The documented access check, for one right: the first entry that names one of the
    caller's identities and mentions the right decides; without such an entry the right is
    refused.  (The owner of an object may in addition always read and write its
    permissions; the owner of a pipe is the user who created it.) *)
Fixpoint granted (acl : list ace) (who : list sid) (n : Z) : Prop :=
  match acl with
  | [] => False
  | a :: rest =>
      ((In (a_sid a) who /\ covers (a_rights a) n) /\ a_allow a = true) \/
      (~ (In (a_sid a) who /\ covers (a_rights a) n) /\ granted rest who n)
  end.

(** Without a DACL nothing is refused (a missing descriptor stands for Windows' default
    one, about which nothing is claimed). *)
Definition may (sd : option descriptor) (who : list sid) (n : Z) : Prop :=
  match sd with
  | Some (Dacl acl) => granted acl who n
  | Some NullDacl | Some NoDacl | None => True
  end.

(** The user a thread acts for: the one it impersonates, otherwise the one of its process. *)
Definition acts_for (os : sec_os) (t : token) : Prop :=
  o_thread os = inl (Some t) \/ (o_thread os = inr 1008 /\ o_process os = inl (Some t)).

(** System, an administrator or the owner *)
Definition trusted (owner : sid) (who : list sid) : Prop :=
  In system who \/ In administrators who \/ In owner who.

(** What anyone may do with the pipe of the debug server: read and write its data (0, 1),
    extended attributes (3, 4) and attributes (7, 8), read its permissions (17), wait (20). *)
Definition public_right (n : Z) : Prop := In n [0; 1; 3; 4; 7; 8; 17; 20].

(** Each Windows call answered as it should. *)
Definition token_usable (t : token) : Prop :=
  tok_size t = inr 122 /\ exists n, tok_info t = inl n /\ 8 <= n.
Definition calls_fine (os : sec_os) (sids : Z) : Prop :=
  (exists t, acts_for os t /\ token_usable t) /\
  (forall n, 0 <= n < sids -> o_alloc_sid os n = None) /\
  o_set_entries os = 0 /\ o_local_alloc os = true /\ o_initialize os = None /\
  o_set_dacl os = None /\ o_version os <> None.

(** An exception names a call that failed, with that call's error. *)
Definition failed (os : sec_os) (e : why) : Prop :=
  match e with
  | WThreadToken c => o_thread os = inr c /\ c <> 1008
  | WProcessToken c => o_thread os = inr 1008 /\ o_process os = inr c
  | WTokenSize c => exists t, acts_for os t /\
      ((tok_size t = inr c /\ c <> 122) \/ (exists n, tok_size t = inl n) /\ c = 0)
  | WTokenOwner c => exists t, acts_for os t /\ tok_info t = inr c
  | WSid c => exists n, o_alloc_sid os n = Some c
  | WSetEntries c => o_set_entries os = c /\ c <> 0
  | WLocalAlloc => o_local_alloc os = false
  | WInitialize c => o_initialize os = Some c
  | WSetDacl c => o_set_dacl os = Some c
  | WCreatePipe c => o_create os = inr c
  end.
(** An assertion fails only for answers Windows does not give, or ... *)
Definition absurd_answer (os : sec_os) : Prop :=
  o_thread os = inl None \/ (o_thread os = inr 1008 /\ o_process os = inl None) \/
  (exists t n, acts_for os t /\ tok_info t = inl n /\ n < 8) \/ o_version os = None.

(** Windows Vista is version 6.0. *)
Definition vista (os : sec_os) : Prop :=
  exists major minor, o_version os = Some (major, minor) /\ 6 <= major.
Definition version_sane (os : sec_os) : Prop :=
  forall major minor, o_version os = Some (major, minor) -> 0 <= minor.

(** The pipe is the only one of its name (FILE_FLAG_FIRST_PIPE_INSTANCE is bit 19 of the
    open mode, the instance limit is 1), takes no remote clients (bit 3 of the pipe mode)
    from Vista on, and carries data in the directions given (bits 0 and 1). *)
Definition exclusive (os : sec_os) (inbound outbound : bool) (r : request) : Prop :=
  Z.testbit (rq_open r) 19 = true /\ rq_max r = 1 /\
  (Z.testbit (rq_mode r) 3 = true <-> vista os) /\
  Z.testbit (rq_open r) 0 = inbound /\ Z.testbit (rq_open r) 1 = outbound.
