From Verif Require Import Base BaseLemmas Text Security SecLife SecLifeSpec.

Ltac splits := repeat match goal with |- _ /\ _ => split end.

Ltac notin := cbn; intuition discriminate.
(** Frees the head of the list of held objects, or the one behind it *)
Ltac tidy1 :=
  match goal with
  | |- tidy _ [] _ => apply tidy_nil
  | |- tidy _ (RGot _ :: _) _ => apply tidy_got; [notin|]
  | |- tidy _ (RUse _ :: _) _ => apply tidy_use; [cbn; tauto|]
  | |- tidy _ (RCreate :: _) _ => apply tidy_create; [cbn; tauto|cbn; tauto|]
  | |- tidy (?o :: ?r) (RFree _ ?o :: _) _ => apply (tidy_free [] o r); [notin|try (intros Q; discriminate Q); notin|cbn [app]]
  | |- tidy (?x :: ?o :: ?r) (RFree _ ?o :: _) _ => apply (tidy_free [x] o r); [notin|try (intros Q; discriminate Q); notin|cbn [app]]
  end.
Ltac tidys := cbn [fst snd app map]; repeat tidy1.

Ltac cases := repeat match goal with
  | |- context [match ?x with _ => _ end] => first [is_var x; destruct x | destruct x eqn:?]
  end.

(** Every way through [ownerSid] *)
Lemma owner_cases os : ownerSid os =
  match openSecurityTokenForQuery os with
  | Ok t => match tok_size t with
            | inl _ => ([RGot OToken; RUse OToken; RFree CloseHandle OToken], Throw (WTokenSize 0))
            | inr e => if negb (e =? ERROR_INSUFFICIENT_BUFFER) then ([RGot OToken; RUse OToken; RFree CloseHandle OToken], Throw (WTokenSize e))
                       else match tok_info t with
                            | inr e => ([RGot OToken; RUse OToken; RGot OOwner; RUse OToken; RUse OOwner; RFree DeleteArray OOwner; RFree CloseHandle OToken], Throw (WTokenOwner e))
                            | inl n => if n >=? sizeof_TOKEN_OWNER then ([RGot OToken; RUse OToken; RGot OOwner; RUse OToken; RUse OOwner; RUse OOwner; RFree CloseHandle OToken], Ok tt)
                                       else ([RGot OToken; RUse OToken; RGot OOwner; RUse OToken; RUse OOwner], AssertFail)
                            end
            end
  | Throw w => ([], Throw w) | AssertFail => ([], AssertFail) | UB => ([], UB) | OutOfFuel => ([], OutOfFuel)
  end.
Proof.
  unfold ownerSid, openToken. destruct (openSecurityTokenForQuery os) as [t|w| | |]; try reflexivity.
  unfold andThen, scope, ev. cbn [fst snd]. destruct (tok_size t) as [n|e]; [reflexivity|].
  destruct (negb (e =? ERROR_INSUFFICIENT_BUFFER)); [reflexivity|]. destruct (tok_info t) as [n|e']; [|reflexivity].
  destruct (n >=? sizeof_TOKEN_OWNER); reflexivity.
Qed.

Lemma open_ends os : match openSecurityTokenForQuery os with UB | OutOfFuel => False | _ => True end.
Proof.
  unfold openSecurityTokenForQuery. destruct (o_thread os) as [[t|]|e]; cbn [bind]; auto. destruct (negb (e =? ERROR_NO_TOKEN)); cbn [bind]; auto.
  destruct (o_process os) as [[t|]|e']; cbn [bind]; auto.
Qed.

Definition life (everyone : bool) : list robj :=
  [OSd; OAcl] ++ (if everyone then [OEveryone] else []) ++ [OOwner; OAdmins; OSystem].

Lemma descriptor_ok os ev : 
  match descriptorFor os ev with
  | (l, Ok _) => tidy [] l (life ev)
  | (l, Throw _) => tidy [] l []
  | (l, AssertFail) => exists rest, tidy [] l rest
  | _ => False
  end.
Proof.
  unfold descriptorFor, someSid. destruct (o_alloc_sid os 0) as [e0|]; [apply tidy_nil|].
  unfold andThen at 1. cbn [snd fst]. destruct (o_alloc_sid os 1) as [e1|]; [cbn; tidys|].
  unfold andThen at 1. cbn [snd fst]. rewrite (owner_cases os). assert (K := open_ends os).
  destruct (openSecurityTokenForQuery os) as [t|w| | |]; try (destruct K); [|cbn; tidys|cbn; eexists; tidys].
  destruct (tok_size t) as [n|e]; [cbn; tidys|]. destruct (negb (e =? ERROR_INSUFFICIENT_BUFFER)); [cbn; tidys|].
  destruct (tok_info t) as [n|e']; [|cbn; tidys]. destruct (n >=? sizeof_TOKEN_OWNER); [|cbn; eexists; tidys].
  unfold finish, life. destruct ev.
  - destruct (o_alloc_sid os 2) as [e2|]; [cbn; tidys|]. destruct (negb (o_set_entries os =? ERROR_SUCCESS)); [cbn; tidys|].
    destruct (negb (o_local_alloc os)); [cbn; tidys|]. destruct (o_initialize os); [cbn; tidys|]. destruct (o_set_dacl os); cbn; tidys.
  - destruct (negb (o_set_entries os =? ERROR_SUCCESS)); [cbn; tidys|].
    destruct (negb (o_local_alloc os)); [cbn; tidys|]. destruct (o_initialize os); [cbn; tidys|]. destruct (o_set_dacl os); cbn; tidys.
Qed.

Lemma tidy_app a l1 b l2 c : tidy a l1 b -> tidy b l2 c -> tidy a (l1 ++ l2) c.
Proof.
  intros H. induction H; intros K; cbn [app]; auto.
  - apply tidy_got; auto.
  - apply tidy_use; auto.
  - apply tidy_free; auto.
  - apply tidy_create; auto.
Qed.

Lemma destroy_ok ev : tidy (life ev) (RCreate :: destroy ev) [].
Proof. destruct ev; unfold life, destroy; tidys. Qed.

Lemma pipe_ok os agent :
  match pipeFor os agent with
  | (l, Ok h) => tidy [] l [] /\ o_create os = inl h /\ In RCreate l
  | (l, Throw _) => tidy [] l []
  | (l, AssertFail) => exists rest, tidy [] l rest
  | _ => False
  end.
Proof.
  unfold pipeFor, andThen. assert (K := descriptor_ok os false). destruct (descriptorFor os false) as [l [u|w| | |]]; cbn [fst snd]; auto.
  unfold scope. destruct (o_create os) as [h|e]; cbn [fst snd]; cbn [app].
  - splits; [exact (tidy_app _ _ _ _ _ K (destroy_ok false))|reflexivity|apply in_or_app; right; left; reflexivity].
  - destruct agent; cbn [fst snd]; cbn [app]; [|exact (tidy_app _ _ _ _ _ K (destroy_ok false))].
    exists (life false). apply (tidy_app _ _ _ _ _ K). unfold life. tidys.
Qed.

Lemma server_ok os m : (forall h, tidy h (fst m) h) -> snd m = Ok tt ->
  match serverPipe os m with
  | (l, Ok _) => tidy [] l [] /\ In RCreate l
  | (l, Throw _) => tidy [] l []
  | (l, AssertFail) => exists rest, tidy [] l rest
  | _ => False
  end.
Proof.
  intros M E. destruct m as [lm rm]. cbn [fst snd] in *. subst rm. unfold serverPipe. unfold andThen at 1. assert (K := descriptor_ok os true).
  destruct (descriptorFor os true) as [l [u|w| | |]]; cbn [fst snd]; auto.
  unfold scope, andThen. destruct (o_create os) as [h|e]; cbn [fst snd]; cbn [app].
  - split; [|apply in_or_app; right; left; reflexivity]. apply (tidy_app _ _ _ _ _ K). apply tidy_create; [cbn; tauto|cbn; tauto|].
    apply (tidy_app _ _ _ _ _ (M _)). unfold life, destroy. tidys.
  - exact (tidy_app _ _ _ _ _ K (destroy_ok true)).
Qed.

Lemma same_ok os : same_end (snd (descriptorFor os false)) (ownerFullControl os) /\ same_end (snd (descriptorFor os true)) (ownerFullControlEveryoneWrite os).
Proof.
  unfold ownerFullControl, ownerFullControlEveryoneWrite, descriptorFor, someSid, localSystemSid, builtinAdminsSid, everyoneSid, wellKnownSid, getOwnerSid, finish, finishSecurityDescriptor.
  rewrite (owner_cases os). assert (K := open_ends os).
  destruct (o_alloc_sid os 0) as [e0|]; [cbn; auto|]. destruct (o_alloc_sid os 1) as [e1|]; [cbn; auto|]. cbn [bind].
  destruct (openSecurityTokenForQuery os) as [t|w| | |]; try (destruct K); [|cbn; auto|cbn; auto]. cbn [bind].
  destruct (tok_size t) as [n|e]; [cbn; auto|]. destruct (negb (e =? ERROR_INSUFFICIENT_BUFFER)); [cbn; auto|].
  destruct (tok_info t) as [n|e']; [|cbn; auto]. destruct (n >=? sizeof_TOKEN_OWNER); [|cbn; auto]. cbn [bind].
  destruct (o_alloc_sid os 2) as [e2|]; destruct (negb (o_set_entries os =? ERROR_SUCCESS)); destruct (negb (o_local_alloc os));
    destruct (o_initialize os); destruct (o_set_dacl os); cbn; auto.
Qed.

Lemma convert_ok os toText :
  match convert os toText with
  | (l, Ok _) => tidy [] l (if toText then [] else [OResult]) /\ c_load os = true /\ c_proc os = true /\ c_call os = None
  | (l, Throw _) => tidy [] l [] /\ c_load os = true /\ (c_proc os = false \/ c_call os <> None)
  | (l, AssertFail) => l = [] /\ c_load os = false
  | _ => False
  end.
Proof.
  unfold convert. destruct (c_load os); cbn [negb]; [|auto]. destruct (c_proc os); cbn [negb].
  - destruct (c_call os) as [e|]; [cbn; splits; [tidys|reflexivity|right; discriminate]|]. destruct toText; cbn; splits; auto; tidys.
  - cbn. splits; auto. tidys.
Qed.
