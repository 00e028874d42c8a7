From Verif Require Import Base Text ErrorObj.

(** The documented code of each kind of failure, winpty_constants.h and winpty.h. *)
Definition documented_code (e : exn) : Z :=
  match e with
  | ELib code _ => code
  | EBadAlloc => 1
  | _ => 5
  end.
(** The message of a failure that carries one. *)
Definition own_message (e : exn) : option (list Z) :=
  match e with ELib _ w | EWinpty w => Some w | _ => None end.

(** Every block was handed out by the allocator, once. *)
Definition wf (m : mem) : Prop :=
  NoDup (map fst (m_blocks m)) /\ Forall (fun p => (fst p < m_next m)%nat) (m_blocks m).
(** The same blocks are live, with the same contents. *)
Definition same_heap (m m' : mem) : Prop := m_blocks m' = m_blocks m.

(** The codes the library's own exceptions carry. *)
Definition lib_code (e : exn) : Prop :=
  match e with ELib c _ => In c [2; 3; 4; 6; 7; 8] | _ => True end.

Definition calls_ok (es : list cl_ev) : Prop :=
  Forall (fun e => match e with
                   | Call _ trace_ok (Some x) => trace_ok = true /\ lib_code x
                   | _ => True
                   end) es.
