(** C62: the key table's memory pool uses the heap correctly. *)
From Verif Require Import Base BaseLemmas Pool PoolSpec PoolProofs.

(** However nodes are allocated and the pool is cleared, no event breaks the rules of the
    heap, at most one block's room is unused, and clearing (or destroying) the pool gives
    everything back. *)
Theorem C62_heap_rules : forall malloc n ops ps s, 0 < n -> honest malloc ->
  pool_run malloc n ops pool0 = Ok (ps, s) ->
  exists h, after (pl_log s) [] = Some h /\ Forall (fun k => b_room k = n) h /\ n * zlen h < zlen (objects h) + n /\
    after (pl_log (pclear s)) [] = Some [].
Proof. exact pool_correct. Qed.
Print Assumptions C62_heap_rules.

(** The nodes given out since the last clearing are all different and exactly the objects
    there are: none is reused or destroyed while the pool lives on. *)
Theorem C62_nodes_stay : forall malloc n ops k ps s, 0 < n -> honest malloc ->
  pool_run malloc n (ops ++ PClear :: repeat PAlloc k) pool0 = Ok (ps, s) ->
  exists old new h, ps = old ++ new /\ length new = k /\ NoDup new /\ after (pl_log s) [] = Some h /\ objects h = rev new.
Proof. exact given_out. Qed.
Print Assumptions C62_nodes_stay.

(** It fails only if malloc does, and then by a failed assertion. *)
Theorem C62_total : forall malloc n ops, 0 < n -> honest malloc ->
  (exists ps s, pool_run malloc n ops pool0 = Ok (ps, s)) \/
  (pool_run malloc n ops pool0 = AssertFail /\ exists l h, after l [] = Some h /\ malloc l = None).
Proof. exact run_total. Qed.
Print Assumptions C62_total.

(** A malloc that numbers its blocks. *)
Definition highest (l : list pev) : Z := fold_right (fun e a => match e with EMalloc b _ => Z.max b a | _ => a end) 0 l.
Definition counting (l : list pev) : option Z := Some (1 + highest l).
Example C62_holds_somewhere : honest counting /\
  match pool_run counting 2 [PAlloc; PAlloc; PAlloc; PClear; PAlloc] pool0 with
  | Ok (ps, s) => ps = [(1, 0); (1, 1); (2, 0); (3, 0)] /\
      pl_log s = [EMalloc 1 2; EConstruct (1, 0); EConstruct (1, 1); EMalloc 2 2; EConstruct (2, 0);
                  EDestroy (1, 0); EDestroy (1, 1); EFree 1; EDestroy (2, 0); EFree 2; EMalloc 3 2; EConstruct (3, 0)] /\
      after (pl_log s) [] = Some [mkB 3 2 [0]] /\ after (pl_log (pclear s)) [] = Some []
  | _ => False
  end.
Proof.
  split; [|vm_compute; repeat split; reflexivity].
  intros l h b A E I. assert (b = 1 + highest l) as -> by (unfold counting in E; congruence). destruct (malloced l [] h _ A I) as [[]|(n & J)].
  assert (H : forall l b n, In (EMalloc b n) l -> b <= highest l).
  { clear. induction l as [|e l IH]; intros b n J; [destruct J|]. cbn [highest fold_right]. fold (highest l). destruct J as [->|J]; [lia|].
    pose proof (IH b n J). destruct e; lia. }
  pose proof (H l _ n J). lia.
Qed.
