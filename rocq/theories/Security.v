(** Model of who may use winpty's pipes: src/shared/WindowsSecurity.cc, the parts of
    src/shared/WindowsVersion.cc it uses, and the three places which create a named pipe:
    createControlPipe (src/libwinpty/winpty.cc:370-395), NamedPipe::openServerPipe
    (src/agent/NamedPipe.cc:206-233) and main of src/debugserver/DebugServer.cc:61-90. *)
From Verif Require Import Base Text.

(** A security identifier: the six bytes of its authority and its sub-authorities. *)
Record sid := mkSid { sid_authority : list Z; sid_subs : list Z }.
Definition sid_eqb (a b : sid) : bool :=
  list_eqb (sid_authority a) (sid_authority b) && list_eqb (sid_subs a) (sid_subs b).

(** Which Windows call made the code throw. *)
Inductive why :=
| WThreadToken (code : Z)
| WProcessToken (code : Z)
| WTokenSize (code : Z)
| WTokenOwner (code : Z)
| WSid (code : Z)
| WSetEntries (code : Z)
| WLocalAlloc
| WInitialize (code : Z)
| WSetDacl (code : Z)
| WCreatePipe (code : Z).

(** A token as the calls see it: its default owner, and what the two calls of
    GetTokenInformation(TokenOwner) do.  The first one has no buffer: [inl n] is the
    successful return that is not expected, [inr code] the failure.  The second one fills
    the buffer with a TOKEN_OWNER which points to the owner ([inl n]: [n] bytes used). *)
Record token := mkTok { tok_owner : sid; tok_size : Z + Z; tok_info : Z + Z }.

(** What Windows answers.  [inl] is success and [inr code] failure with GetLastError's
    value.  [o_thread]/[o_process] are OpenThreadToken and OpenProcessToken; [None] is a
    success that left the handle NULL. *)
Record sec_os := mkOs {
  o_thread : option token + Z;
  o_process : option token + Z;
  o_alloc_sid : Z -> option Z;        (* the n-th AllocateAndInitializeSid: error, if any *)
  o_set_entries : Z;                  (* SetEntriesInAclW's return value *)
  o_local_alloc : bool;               (* LocalAlloc returned memory *)
  o_initialize : option Z;            (* InitializeSecurityDescriptor: error, if any *)
  o_set_dacl : option Z;              (* SetSecurityDescriptorDacl: error, if any *)
  o_version : option (Z * Z);         (* GetVersionEx: major and minor version *)
  o_create : Z + Z                    (* CreateNamedPipeW: the handle *)
}.

Definition ERROR_NO_TOKEN : Z := 1008.
Definition ERROR_INSUFFICIENT_BUFFER : Z := 122.
Definition ERROR_SUCCESS : Z := 0.

(** openSecurityTokenForQuery, WindowsSecurity.cc:76-92.  GetLastError is only asked after
    a failing call. *)
Definition openSecurityTokenForQuery (os : sec_os) : res why token :=
  let! t := match o_thread os with
            | inl t => Ok t
            | inr e =>
                if negb (e =? ERROR_NO_TOKEN) then Throw (WThreadToken e)
                else match o_process os with
                     | inl t => Ok t
                     | inr e => Throw (WProcessToken e)
                     end
            end in
  match t with
  | Some t => Ok t
  | None => AssertFail
  end.

(** sizeof(TOKEN_OWNER): one pointer, in a 64-bit build. *)
Definition sizeof_TOKEN_OWNER : Z := 8.

(** getOwnerSid, WindowsSecurity.cc:95-126.  The buffer has the size the first call asked
    for; the model takes the second call's word that it used no more than that. *)
Definition getOwnerSid (os : sec_os) : res why sid :=
  let! t := openSecurityTokenForQuery os in
  match tok_size t with
  | inl _ => Throw (WTokenSize 0)
  | inr e =>
      if negb (e =? ERROR_INSUFFICIENT_BUFFER) then Throw (WTokenSize e)
      else match tok_info t with
           | inr e => Throw (WTokenOwner e)
           | inl n => if n >=? sizeof_TOKEN_OWNER then Ok (tok_owner t) else AssertFail
           end
  end.

(** wellKnownSid, WindowsSecurity.cc:128-147.  AllocateAndInitializeSid takes the first
    [count] of eight sub-authorities; [n] numbers the calls. *)
Definition wellKnownSid (os : sec_os) (n : Z) (authority : list Z) (count sub0 sub1 : Z) : res why sid :=
  match o_alloc_sid os n with
  | Some e => Throw (WSid e)
  | None => Ok (mkSid authority (zfirstn count [sub0; sub1; 0; 0; 0; 0; 0; 0]))
  end.

Definition SECURITY_NT_AUTHORITY : list Z := [0; 0; 0; 0; 0; 5].
Definition SECURITY_WORLD_SID_AUTHORITY : list Z := [0; 0; 0; 0; 0; 1].

(** builtinAdminsSid, localSystemSid, everyoneSid, WindowsSecurity.cc:149-172.  The default
    argument of the second sub-authority is 0 (WindowsSecurity.h). *)
Definition builtinAdminsSid (os : sec_os) (n : Z) := wellKnownSid os n SECURITY_NT_AUTHORITY 2 32 544.
Definition localSystemSid (os : sec_os) (n : Z) := wellKnownSid os n SECURITY_NT_AUTHORITY 1 18 0.
Definition everyoneSid (os : sec_os) (n : Z) := wellKnownSid os n SECURITY_WORLD_SID_AUTHORITY 1 0 0.

(** An EXPLICIT_ACCESSW with TRUSTEE_IS_SID. *)
Inductive mode := GRANT_ACCESS | SET_ACCESS | DENY_ACCESS | REVOKE_ACCESS.
Record entry := mkE { e_rights : Z; e_mode : mode; e_inherit : Z; e_trustee : sid }.
Definition NO_INHERITANCE : Z := 0.

(** An access control entry of a DACL. *)
Record ace := mkAce { a_allow : bool; a_rights : Z; a_inherit : Z; a_sid : sid }.

(** SetEntriesInAclW starting from no ACL, as documented: SET_ACCESS replaces what the list
    says about the trustee, GRANT_ACCESS adds to it, DENY_ACCESS replaces it by a denial
    put at the front and REVOKE_ACCESS removes it. *)
Definition others (s : sid) (acl : list ace) : list ace :=
  filter (fun a => negb (sid_eqb (a_sid a) s)) acl.
Definition apply_entry (acl : list ace) (e : entry) : list ace :=
  let s := e_trustee e in
  let x b := mkAce b (e_rights e) (e_inherit e) s in
  match e_mode e with
  | SET_ACCESS => others s acl ++ [x true]
  | GRANT_ACCESS => acl ++ [x true]
  | DENY_ACCESS => x false :: others s acl
  | REVOKE_ACCESS => others s acl
  end.
Definition SetEntriesInAcl (es : list entry) : list ace := fold_left apply_entry es [].

(** A security descriptor: no DACL, a NULL DACL or a DACL. *)
Inductive descriptor := NoDacl | NullDacl | Dacl (acl : list ace).

(** finishSecurityDescriptor, WindowsSecurity.cc:174-210.  The life time of the ACL the
    descriptor points to is in SecLife.v. *)
Definition finishSecurityDescriptor (os : sec_os) (es : list entry) : res why descriptor :=
  if negb (o_set_entries os =? ERROR_SUCCESS) then Throw (WSetEntries (o_set_entries os))
  else if negb (o_local_alloc os) then Throw WLocalAlloc
  else match o_initialize os with
       | Some e => Throw (WInitialize e)
       | None => match o_set_dacl os with
                 | Some e => Throw (WSetDacl e)
                 | None => Ok (Dacl (SetEntriesInAcl es))
                 end
       end.

Definition GENERIC_ALL : Z := 0x10000000.
Definition FILE_GENERIC_READ : Z := 0x120089.
Definition FILE_WRITE_ATTRIBUTES : Z := 0x100.
Definition FILE_WRITE_DATA : Z := 2.
Definition FILE_WRITE_EA : Z := 0x10.
Definition STANDARD_RIGHTS_WRITE : Z := 0x20000.
Definition SYNCHRONIZE : Z := 0x100000.

(** The loop of WindowsSecurity.cc:231-236 and 272-277 followed by the Trustee of one entry. *)
Definition full_control (s : sid) : entry := mkE GENERIC_ALL SET_ACCESS NO_INHERITANCE s.

(** createPipeSecurityDescriptorOwnerFullControl, WindowsSecurity.cc:212-251 *)
Definition ownerFullControl (os : sec_os) : res why descriptor :=
  let! localSystem := localSystemSid os 0 in
  let! builtinAdmins := builtinAdminsSid os 1 in
  let! owner := getOwnerSid os in
  finishSecurityDescriptor os
    [full_control localSystem; full_control builtinAdmins; full_control owner].

(** createPipeSecurityDescriptorOwnerFullControlEveryoneWrite, WindowsSecurity.cc:253-301 *)
Definition everyone_rights : Z :=
  Z.lor (Z.lor (Z.lor (Z.lor (Z.lor FILE_GENERIC_READ FILE_WRITE_ATTRIBUTES) FILE_WRITE_DATA)
    FILE_WRITE_EA) STANDARD_RIGHTS_WRITE) SYNCHRONIZE.
Definition ownerFullControlEveryoneWrite (os : sec_os) : res why descriptor :=
  let! localSystem := localSystemSid os 0 in
  let! builtinAdmins := builtinAdminsSid os 1 in
  let! owner := getOwnerSid os in
  let! everyone := everyoneSid os 2 in
  finishSecurityDescriptor os
    [full_control localSystem; full_control builtinAdmins; full_control owner;
     mkE everyone_rights SET_ACCESS NO_INHERITANCE everyone].

(** isAtLeastWindowsVista, WindowsVersion.cc:44-68 and 164-166: std::tuple's comparison. *)
Definition isAtLeastWindowsVista (os : sec_os) : res why bool :=
  match o_version os with
  | None => AssertFail
  | Some (major, minor) => Ok ((6 <? major) || ((major =? 6) && (0 <=? minor)))
  end.

(** rejectRemoteClientsPipeFlag, WindowsSecurity.cc:423-435; trace output is not modelled. *)
Definition rejectRemoteClientsPipeFlag (os : sec_os) : res why Z :=
  let! vista := isAtLeastWindowsVista os in
  Ok (if vista then 8 else 0).

(** A call of CreateNamedPipeW: dwOpenMode, dwPipeMode, nMaxInstances, the buffer sizes
    and the security descriptor ([None]: lpSecurityAttributes is NULL). *)
Record request := mkReq {
  rq_name : list Z; rq_open : Z; rq_mode : Z; rq_max : Z; rq_out : Z; rq_in : Z;
  rq_sd : option descriptor
}.
Definition PIPE_ACCESS_INBOUND : Z := 1.
Definition PIPE_ACCESS_OUTBOUND : Z := 2.
Definition PIPE_ACCESS_DUPLEX : Z := 3.
Definition FILE_FLAG_FIRST_PIPE_INSTANCE : Z := 0x80000.
Definition FILE_FLAG_OVERLAPPED : Z := 0x40000000.
Definition PIPE_TYPE_MESSAGE : Z := 4.
Definition PIPE_READMODE_MESSAGE : Z := 2.

(** What a function did: the pipes it asked Windows to create, and how it ended. *)
Definition made (A : Type) : Type := list request * res why A.
Definition calm {A B} (m : res why A) (k : A -> made B) : made B :=
  match m with
  | Ok a => k a
  | Throw e => ([], Throw e)
  | AssertFail => ([], AssertFail)
  | UB => ([], UB)
  | OutOfFuel => ([], OutOfFuel)
  end.

(** createControlPipe, winpty.cc:370-395.  A descriptor that was made is not NULL. *)
Definition createControlPipe (os : sec_os) (name : list Z) : made Z :=
  calm (ownerFullControl os) (fun sd =>
  calm (rejectRemoteClientsPipeFlag os) (fun reject =>
  let r := mkReq name
             (Z.lor (Z.lor PIPE_ACCESS_DUPLEX FILE_FLAG_FIRST_PIPE_INSTANCE) FILE_FLAG_OVERLAPPED)
             reject 1 8192 256 (Some sd) in
  ([r], match o_create os with inl h => Ok h | inr e => Throw (WCreatePipe e) end))).

(** NamedPipe::openServerPipe up to the new handle, NamedPipe.cc:206-233, on a closed
    pipe.  OpenMode is Reading = 1, Writing = 2, Duplex = 3 (NamedPipe.h:87-90). *)
Definition openServerPipe (os : sec_os) (name : list Z) (openMode outSize inSize : Z) : made Z :=
  if Z.land openMode 3 =? 0 then ([], AssertFail)
  else
  let winOpenMode :=
    Z.lor (Z.lor (Z.lor (if Z.land openMode 1 =? 0 then 0 else PIPE_ACCESS_INBOUND)
                        (if Z.land openMode 2 =? 0 then 0 else PIPE_ACCESS_OUTBOUND))
      FILE_FLAG_FIRST_PIPE_INSTANCE) FILE_FLAG_OVERLAPPED in
  calm (ownerFullControl os) (fun sd =>
  calm (rejectRemoteClientsPipeFlag os) (fun reject =>
  let r := mkReq name winOpenMode reject 1 outSize inSize (Some sd) in
  ([r], match o_create os with inl h => Ok h | inr _ => AssertFail end))).

(** The pipe of the debug server, DebugServer.cc:59-90.  The exceptions it catches and the
    failure of CreateNamedPipeW end in exit(1), told apart here by what failed. *)
Definition debugServerPipe (os : sec_os) (everyone : bool) : made Z :=
  calm (if everyone then let! sd := ownerFullControlEveryoneWrite os in Ok (Some sd) else Ok None)
    (fun sd =>
  calm (rejectRemoteClientsPipeFlag os) (fun reject =>
  let r := mkReq (str "\\.\pipe\DebugServer")
             (Z.lor PIPE_ACCESS_DUPLEX FILE_FLAG_FIRST_PIPE_INSTANCE)
             (Z.lor (Z.lor PIPE_TYPE_MESSAGE PIPE_READMODE_MESSAGE) reject) 1 4096 4096 sd in
  ([r], match o_create os with inl h => Ok h | inr e => Throw (WCreatePipe e) end))).
