(** What correct use of the heap is. *)
From Verif Require Import Base Pool.

(** A block: its name, its room, and the places in it that hold an object. *)
Record block := mkB { b_name : Z; b_room : Z; b_live : list Z }.
Definition heap := list block.

Fixpoint take (x : Z) (l : list Z) : option (list Z) :=
  match l with
  | [] => None
  | y :: t => if y =? x then Some t else match take x t with Some t' => Some (y :: t') | None => None end
  end.
(** Change the block called [b]; [None] if there is none or it is not allowed. *)
Fixpoint with_block (b : Z) (f : block -> option heap) (h : heap) : option heap :=
  match h with
  | [] => None
  | k :: t => if b_name k =? b then match f k with Some l => Some (l ++ t) | None => None end
              else match with_block b f t with Some t' => Some (k :: t') | None => None end
  end.
(** One event, if it is allowed: a new block is not an existing one; an object is
    constructed inside a block, where there is none; only an existing object is destroyed;
    a block is freed when its objects are gone. *)
Definition allowed (h : heap) (e : pev) : option heap :=
  match e with
  | EMalloc b n => if existsb (fun k => b_name k =? b) h then None else Some (mkB b n [] :: h)
  | EConstruct (b, i) =>
      with_block b (fun k => if (0 <=? i) && (i <? b_room k) && negb (existsb (Z.eqb i) (b_live k))
                             then Some [mkB b (b_room k) (i :: b_live k)] else None) h
  | EDestroy (b, i) =>
      with_block b (fun k => match take i (b_live k) with Some l => Some [mkB b (b_room k) l] | None => None end) h
  | EFree b => with_block b (fun k => match b_live k with [] => Some [] | _ => None end) h
  end.
Fixpoint after (l : list pev) (h : heap) : option heap :=
  match l with [] => Some h | e :: t => match allowed h e with Some h => after t h | None => None end end.

(** malloc never returns a block that is in use. *)
Definition honest (malloc : list pev -> option Z) : Prop :=
  forall l h b, after l [] = Some h -> malloc l = Some b -> ~ In b (map b_name h).
Definition objects (h : heap) : list place := flat_map (fun k => map (fun i => (b_name k, i)) (b_live k)) h.
