(** Model of the life time of what src/shared/WindowsSecurity.cc allocates: the token, the
    SIDs, the owner's buffer, the ACL and the descriptor of a pipe, and the modules and texts
    of the conversions.  What the calls answer is Security.v's [sec_os]. *)
From Verif Require Import Base Text Security.

Inductive robj := OToken | OSystem | OAdmins | OOwner | OEveryone | OAcl | OSd | OModule | OText | OResult.
Inductive freer := CloseHandle | FreeSid | DeleteArray | LocalFree | FreeLibrary.
(** Acquired, used, freed by a function; [RCreate]: CreateNamedPipeW with the descriptor *)
Inductive rev := RGot (o : robj) | RUse (o : robj) | RFree (f : freer) (o : robj) | RCreate.

(** What was done and how it ended.  An assertion ends the process: no destructor runs. *)
Definition act (A : Type) : Type := list rev * res why A.
Definition ret {A} (a : A) : act A := ([], Ok a).
Definition ev (l : list rev) : act unit := (l, Ok tt).
Definition andThen {A B} (m : act A) (k : A -> act B) : act B :=
  match snd m with
  | Ok a => let (l, r) := k a in (fst m ++ l, r)
  | Throw w => (fst m, Throw w)
  | AssertFail => (fst m, AssertFail)
  | UB => (fst m, UB)
  | OutOfFuel => (fst m, OutOfFuel)
  end.
(** A local object: destroyed however the block is left *)
Definition scope {A} (m : act A) (d : list rev) : act A :=
  match snd m with
  | Ok _ | Throw _ => (fst m ++ d, snd m)
  | _ => m
  end.
(** An object whose owner survives the block: destroyed when an exception leaves it *)
Definition on_throw {A} (m : act A) (d : list rev) : act A :=
  match snd m with
  | Throw _ => (fst m ++ d, snd m)
  | _ => m
  end.

(** openSecurityTokenForQuery, WindowsSecurity.cc:76-92: the handle on success *)
Definition openToken (os : sec_os) : act token :=
  match openSecurityTokenForQuery os with
  | Ok t => ([RGot OToken], Ok t)
  | r => ([], r)
  end.

(** getOwnerSid, WindowsSecurity.cc:95-126: [token] is a local object, the buffer is handed
    over to the Sid returned. *)
Definition ownerSid (os : sec_os) : act unit :=
  andThen (openToken os) (fun t =>
  scope
    (andThen (ev [RUse OToken]) (fun _ =>
     match tok_size t with
     | inl _ => ([], Throw (WTokenSize 0))
     | inr e =>
         if negb (e =? ERROR_INSUFFICIENT_BUFFER) then ([], Throw (WTokenSize e))
         else
           andThen (ev [RGot OOwner]) (fun _ =>
           on_throw
             (andThen (ev [RUse OToken; RUse OOwner]) (fun _ =>
              match tok_info t with
              | inr e => ([], Throw (WTokenOwner e))
              | inl n => if n >=? sizeof_TOKEN_OWNER then ([RUse OOwner], Ok tt) else ([], AssertFail)
              end))
             [RFree DeleteArray OOwner])
     end))
    [RFree CloseHandle OToken]).

(** wellKnownSid and allocatedSid, WindowsSecurity.cc:58-69 and 128-147 *)
Definition someSid (os : sec_os) (n : Z) (o : robj) : act unit :=
  match o_alloc_sid os n with
  | Some e => ([], Throw (WSid e))
  | None => ([RGot o], Ok tt)
  end.

(** finishSecurityDescriptor, WindowsSecurity.cc:174-210.  [sids]: what the entries point to.
    The ACL goes to the caller's object, which the exception destroys next. *)
Definition finish (os : sec_os) (sids : list robj) : act unit :=
  andThen (ev (map RUse sids)) (fun _ =>
  if negb (o_set_entries os =? ERROR_SUCCESS) then ([], Throw (WSetEntries (o_set_entries os)))
  else
    andThen (ev [RGot OAcl]) (fun _ =>
    on_throw
      (if negb (o_local_alloc os) then ([], Throw WLocalAlloc)
       else
         andThen (ev [RGot OSd]) (fun _ =>
         on_throw
           (andThen (ev [RUse OSd]) (fun _ =>
            match o_initialize os with
            | Some e => ([], Throw (WInitialize e))
            | None =>
                andThen (ev [RUse OSd; RUse OAcl]) (fun _ =>
                match o_set_dacl os with
                | Some e => ([], Throw (WSetDacl e))
                | None => ret tt
                end)
            end))
           [RFree LocalFree OSd]))
      [RFree LocalFree OAcl])).

(** The two functions which make a pipe's descriptor, WindowsSecurity.cc:212-251 and 253-301.
    [everyone]: the second one. *)
Definition descriptorFor (os : sec_os) (everyone : bool) : act unit :=
  andThen (someSid os 0 OSystem) (fun _ => on_throw
    (andThen (someSid os 1 OAdmins) (fun _ => on_throw
      (andThen (ownerSid os) (fun _ => on_throw
        (if everyone then
           andThen (someSid os 2 OEveryone) (fun _ => on_throw
             (finish os [OSystem; OAdmins; OOwner; OEveryone])
             [RFree FreeSid OEveryone])
         else finish os [OSystem; OAdmins; OOwner])
        [RFree DeleteArray OOwner]))
      [RFree FreeSid OAdmins]))
    [RFree FreeSid OSystem]).

(** ~Impl of the two: the members in reverse order *)
Definition destroy (everyone : bool) : list rev :=
  [RFree LocalFree OSd; RFree LocalFree OAcl] ++ (if everyone then [RFree FreeSid OEveryone] else []) ++
  [RFree DeleteArray OOwner; RFree FreeSid OAdmins; RFree FreeSid OSystem].

(** createControlPipe, winpty.cc:370-395, and NamedPipe::openServerPipe, NamedPipe.cc:206-233:
    the descriptor is a local object.  Without a pipe the first throws and [agent]'s second
    fails an assertion.  Their other work is in Security.v. *)
Definition pipeFor (os : sec_os) (agent : bool) : act Z :=
  andThen (descriptorFor os false) (fun _ =>
  scope ([RCreate], match o_create os with inl h => Ok h | inr e => if agent then AssertFail else Throw (WCreatePipe e) end) (destroy false)).

(** main of the debug server with --everyone, DebugServer.cc:61-90: [sd] lives until main
    returns.  Errors end the process by exit(), here the exception. *)
Definition serverPipe (os : sec_os) (main : act unit) : act unit :=
  andThen (descriptorFor os true) (fun _ =>
  scope (andThen ([RCreate], match o_create os with inl h => Ok h | inr e => Throw (WCreatePipe e) end) (fun _ => main)) (destroy true)).

(** What the conversions ask for: advapi32.dll loads, the function exists, its error if any *)
Record conv_os := mkConv { c_load : bool; c_proc : bool; c_call : option Z }.
(** GET_MODULE_PROC and the four conversions, WindowsSecurity.cc:345-421: [toText] of sidToString and
    sdToString, else stringToSid and stringToSd, whose result is handed over.  OsModule's
    constructor asserts that the module loads; the missing function's exception carries no
    code, here 0. *)
Definition convert (os : conv_os) (toText : bool) : act unit :=
  if negb (c_load os) then ([], AssertFail)
  else
    andThen (ev [RGot OModule]) (fun _ =>
    scope
      (if negb (c_proc os) then ([], Throw (WSid 0))
       else
         andThen (ev [RUse OModule]) (fun _ =>
         match c_call os with
         | Some e => ([], Throw (WSid e))
         | None =>
             if toText then andThen (ev [RGot OText]) (fun _ => scope (ev [RUse OText]) [RFree LocalFree OText])
             else ev [RGot OResult]
         end))
      [RFree FreeLibrary OModule]).
