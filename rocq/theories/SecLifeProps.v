(** Property C71. *)
From Verif Require Import Base BaseLemmas Text Security SecLife SecLifeSpec SecLifeProofs.

(** C71: whatever Windows answers, once a pipe has been created or has failed to be, every
    object acquired for its access control is freed, once, by the right function and not
    before its last use; the pipe is created with descriptor and ACL alive. *)
Theorem C71_pipe : forall os agent,
  match pipeFor os agent with
  | (l, Ok h) => tidy [] l [] /\ o_create os = inl h /\ In RCreate l
  | (l, Throw _) => tidy [] l []
  | (l, AssertFail) => exists rest, tidy [] l rest
  | _ => False
  end.
Proof. exact pipe_ok. Qed.
Print Assumptions C71_pipe.

(** C71: the same for the debug server, whatever it does in between. *)
Theorem C71_server : forall os main, (forall h, tidy h (fst main) h) -> snd main = Ok tt ->
  match serverPipe os main with
  | (l, Ok _) => tidy [] l [] /\ In RCreate l
  | (l, Throw _) => tidy [] l []
  | (l, AssertFail) => exists rest, tidy [] l rest
  | _ => False
  end.
Proof. exact server_ok. Qed.
Print Assumptions C71_server.

(** C71: a descriptor that was made holds its SIDs, ACL and itself, and no token; one that
    could not be made leaves nothing. *)
Theorem C71_descriptor : forall os everyone,
  match descriptorFor os everyone with
  | (l, Ok _) => tidy [] l (if everyone then [OSd; OAcl; OEveryone; OOwner; OAdmins; OSystem] else [OSd; OAcl; OOwner; OAdmins; OSystem])
  | (l, Throw _) => tidy [] l []
  | (l, AssertFail) => exists rest, tidy [] l rest
  | _ => False
  end.
Proof. intros os ev. assert (K := descriptor_ok os ev). destruct (descriptorFor os ev) as [l [u|w| | |]]; auto. destruct ev; exact K. Qed.
Print Assumptions C71_descriptor.

(** C71: these runs are those of C58's model: the same success or the same error. *)
Theorem C71_same : forall os,
  same_end (snd (descriptorFor os false)) (ownerFullControl os) /\ same_end (snd (descriptorFor os true)) (ownerFullControlEveryoneWrite os).
Proof. exact same_ok. Qed.
Print Assumptions C71_same.

(** C71: the conversions leave nothing behind but the object a caller is given, and fail
    exactly if the function is missing or fails. *)
Theorem C71_conversions : forall os toText,
  match convert os toText with
  | (l, Ok _) => tidy [] l (if toText then [] else [OResult]) /\ c_load os = true /\ c_proc os = true /\ c_call os = None
  | (l, Throw _) => tidy [] l [] /\ c_load os = true /\ (c_proc os = false \/ c_call os <> None)
  | (l, AssertFail) => l = [] /\ c_load os = false
  | _ => False
  end.
Proof. exact convert_ok. Qed.
Print Assumptions C71_conversions.

(** No token of the thread, the process' token is used; setting the DACL fails with 5. *)
Definition denied : sec_os :=
  mkOs (inr 1008) (inl (Some (mkTok (mkSid [0; 0; 0; 0; 0; 5] [18]) (inr 122) (inl 28)))) (fun _ => None) 0 true None (Some 5) (Some (6, 1)) (inl 7).
Example C71_holds_somewhere :
  snd (serverPipe denied (ret tt)) = Throw (WSetDacl 5) /\ zlen (fst (serverPipe denied (ret tt))) = 25 /\
  (forall h, tidy h (fst (ret (A := unit) tt)) h).
Proof. split; [vm_compute; reflexivity|]. split; [vm_compute; reflexivity|]. intros h. apply tidy_nil. Qed.
