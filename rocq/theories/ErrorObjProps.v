(** C28: error objects. *)
From Coq Require Import Permutation.
From Verif Require Import Base Text ErrorObj ErrorObjSpec ErrorObjProofs.

(** C28: a failing call stores an object with a non-success code and a message; they
    are the failure's own, or "out of memory" if building the object ran out of memory;
    freeing it gives back exactly the memory it took. *)
Theorem C28_error_object : forall m e, wf m -> lib_code e ->
  exists p c x m1 m2, api m true true (Some e) = Ok (Some p, m1) /\
    error_code m1 p = Ok c /\ c <> 0 /\ error_msg m1 p = Ok x /\
    ((c = documented_code e /\ forall w, own_message e = Some w -> x = w) \/ (p = EStatic KOutOfMemory /\ c = 1)) /\
    error_free m1 p = Ok m2 /\ Permutation (m_blocks m2) (m_blocks m).
Proof. exact error_object. Qed.
Print Assumptions C28_error_object.

(** C28: with enough memory, always the documented code and the failure's message. *)
Theorem C28_documented_code : forall m e,
  Forall (fun x => x = true) (m_oracle m) -> e <> EBadAlloc -> wf m -> lib_code e ->
  exists p m1 x, api m true true (Some e) = Ok (Some p, m1) /\ error_code m1 p = Ok (documented_code e) /\
    error_msg m1 p = Ok x /\ (forall w, own_message e = Some w -> x = w).
Proof. exact error_object_exact. Qed.
Print Assumptions C28_documented_code.

(** C28: a succeeding call stores null; a failing call that was not asked for an
    object leaves none behind. *)
Theorem C28_success_and_unwanted : forall m tr e,
  api m true tr None = Ok (Some ENull, m) /\
  exists m1, api m false true (Some e) = Ok (None, m1) /\ m_blocks m1 = m_blocks m.
Proof. intros m tr e. split; [reflexivity|exact (no_error_object m e)]. Qed.
Print Assumptions C28_success_and_unwanted.

(** C28: any sequence of calls and frees, each held error (null, static or heap) freed at
    most once, in any order and under any allocation failures: no undefined behaviour,
    every held error stays readable, and once all are freed the heap is as before. *)
Theorem C28_client_safe : forall m es, wf m -> calls_ok es ->
  exists m' held, client m [] es = Ok (m', held) /\
    Forall (fun p => exists c x, error_code m' p = Ok c /\ error_msg m' p = Ok x) held /\
    (held = [] -> Permutation (m_blocks m') (m_blocks m)).
Proof. exact client_safe. Qed.
Print Assumptions C28_client_safe.

(** A timeout reported, then an out-of-memory failure while reporting a Windows error;
    freed in the other order. *)
Definition m0 := mkM 0 [] [true; true; true; true; true; false].
Example C28_example :
  wf m0 /\
  match client m0 [] [Call true true (Some (ELib 7 (str "agent timed out"))); Call true true (Some (EWinpty (str "x")));
                      Call false true (Some EDecodeError); Call true true None] with
  | Ok (m, [p; q; r]) =>
      error_code m p = Ok 7 /\ error_msg m p = Ok (str "agent timed out") /\ q = EStatic KOutOfMemory /\ error_code m r = Ok 0
  | _ => False
  end /\
  match client m0 [] [Call true true (Some (ELib 7 (str "agent timed out"))); Call true true (Some (EWinpty (str "x"))); Free 1; Free 0] with
  | Ok (m, []) => m_blocks m = []
  | _ => False
  end.
Proof. split; [repeat constructor|]. vm_compute. auto. Qed.

(** Freeing an object twice is undefined: the theorem is not vacuous about frees. *)
Example C28_double_free :
  match api (mkM 0 [] []) true true (Some (EWinpty (str "x"))) with
  | Ok (Some p, m) => (let! m := error_free m p in error_free m p) = UB
  | _ => False
  end.
Proof. reflexivity. Qed.

(** Finding: translateException converts the message for its trace call outside the try
    block; if that allocation fails the API function is left by an exception, and the
    error object leaks. *)
Theorem C28_trace_allocation_refuted : exists m e, wf m /\ lib_code e /\ api m true false (Some e) = Throw tt.
Proof. exists (mkM 0 [] []), (ELib 7 (str "agent timed out")). split; [repeat constructor|]. split; [cbn; auto 10|reflexivity]. Qed.
Print Assumptions C28_trace_allocation_refuted.
