(** The memory pool of the key-sequence table: agent/SimplePool.h. *)
From Verif Require Import Base.

(** What it does with memory.  A block is what one malloc returned; [EMalloc b n]: block
    [b] with room for [n] objects (sizeof(T) * n bytes, not followed here: the sizes are
    compile-time constants, InputMap.h:77-78); an object is a place in a block. *)
Definition place : Type := Z * Z.
Inductive pev := EMalloc (b n : Z) | EConstruct (p : place) | EDestroy (p : place) | EFree (b : Z).

(** Chunk, SimplePool.h:37-40 *)
Record chunk := mkK { ck_count : Z; ck_data : Z }.

(** m_chunks, SimplePool.h:41, the last chunk first; and the log so far *)
Record pool := mkPool { pl_chunks : list chunk; pl_log : list pev }.

Section Pool.
(** malloc's answer, which may depend on all that happened; [None] is NULL. *)
Variable malloc : list pev -> option Z.
Variable chunkSize : Z.

(** alloc, SimplePool.h:61-73 *)
Definition palloc (s : pool) : res unit (place * pool) :=
  let full := match pl_chunks s with [] => true | c :: _ => ck_count c =? chunkSize end in
  let! s :=
    (if full then
       match malloc (pl_log s) with
       | None => AssertFail
       | Some newData => Ok (mkPool (mkK 0 newData :: pl_chunks s) (pl_log s ++ [EMalloc newData chunkSize]))
       end
     else Ok s) in
  match pl_chunks s with
  | [] => UB
  | c :: t =>
      let r := (ck_data c, ck_count c) in
      Ok (r, mkPool (mkK (ck_count c + 1) (ck_data c) :: t) (pl_log s ++ [EConstruct r]))
  end.

(** The inner loop of clear, SimplePool.h:53-55 *)
Fixpoint destroy_from (fuel : nat) (ti : Z) (c : chunk) : list pev :=
  match fuel with
  | O => []
  | S k => if ti <? ck_count c then EDestroy (ck_data c, ti) :: destroy_from k (ti + 1) c else []
  end.

(** clear, SimplePool.h:50-59 *)
Definition pclear (s : pool) : pool :=
  mkPool [] (pl_log s ++ flat_map (fun c => destroy_from (Z.to_nat (ck_count c)) 0 c ++ [EFree (ck_data c)]) (rev (pl_chunks s))).

(** The users' calls; the destructor (SimplePool.h:44-47) is a last [PClear]. *)
Inductive pop := PAlloc | PClear.
Fixpoint pool_run (ops : list pop) (s : pool) : res unit (list place * pool) :=
  match ops with
  | [] => Ok ([], s)
  | PAlloc :: r => let! (p, s) := palloc s in let! (l, s) := pool_run r s in Ok (p :: l, s)
  | PClear :: r => pool_run r (pclear s)
  end.
Definition pool0 : pool := mkPool [] [].
End Pool.
