(** Model of agent/InputMap.h and InputMap.cc: the trie of escape sequences.
    Characters are bytes (unsigned char).  Nodes come from a pool that never moves or
    frees them while the map lives (SimplePool.h:61-73; its allocation succeeds), and
    each is referenced by one parent only, so a tree value models them. *)
From Verif Require Import Base.

(** InputMap::Key, InputMap.h:34-40: uint16_t, uint32_t, uint16_t *)
Record Key := mkKey { virtualKey : Z; unicodeChar : Z; keyState : Z }.
Definition kKeyZero := mkKey 0 0 0.

(** InputMap::Node, InputMap.h:53-76.  The union: the used prefix of the two tiny
    arrays as (value, child) pairs, or the branch's 256 pointers. *)
Inductive node := Node (key : Key) (childCount : Z) (u : union)
with union := Tiny (l : list (Z * node)) | Branch (a : list (option node)).
Definition kTinyCount := 8.
Definition node_key (n : node) : Key := let (k, _, _) := n in k.
Definition node_count (n : node) : Z := let (_, c, _) := n in c.
Definition empty_node : node := Node kKeyZero 0 (Tiny []).

Definition hasKey (n : node) : bool :=
  negb (virtualKey (node_key n) =? 0) || negb (unicodeChar (node_key n) =? 0).

(** The search loop, InputMap.h:94-98: the first [cnt] pairs; reading beyond what was
    stored is undefined. *)
Fixpoint tiny_find {E} (cnt : nat) (l : list (Z * node)) (ch : Z) : res E (option node) :=
  match cnt with
  | O => Ok None
  | S k => match l with
           | [] => UB
           | (v, n) :: t => if v =? ch then Ok (Some n) else tiny_find k t ch
           end
  end.

(** getChild, InputMap.h:92-103; using the wrong union member is undefined *)
Definition getChild {E} (n : node) (ch : Z) : res E (option node) :=
  let (_, cnt, u) := n in
  if cnt <=? kTinyCount then
    match u with Tiny l => tiny_find (Z.to_nat cnt) l ch | Branch _ => UB end
  else
    match u with
    | Branch a => match znth a ch with Some c => Ok c | None => UB end
    | Tiny _ => UB
    end.

(** The first loop of getOrCreateChild, InputMap.cc:161-167 *)
Fixpoint insert_index (l : list (Z * node)) (ch : Z) (i : Z) : Z :=
  match l with
  | [] => i
  | (v, _) :: t => if ch <? v then i else insert_index t ch (i + 1)
  end.

(** Copying the pairs into a new branch, InputMap.cc:177-180 *)
Fixpoint fill_branch {E} (l : list (Z * node)) (a : list (option node)) : res E (list (option node)) :=
  match l with
  | [] => Ok a
  | (v, n) :: t => match zupd a v (Some n) with Some a => fill_branch t a | None => UB end
  end.

(** getOrCreateChild, InputMap.cc:153-187: the updated node, and the child *)
Definition getOrCreateChild {E} (n : node) (ch : Z) : res E (node * node) :=
  let! r := getChild n ch in
  match r with
  | Some c => Ok (n, c)
  | None =>
      let (key, cnt, u) := n in
      if cnt <? kTinyCount then
        match u with
        | Tiny l =>
            (* shifting the pairs from the insert index up by one (168-173): the
               arrays have room because cnt < kTinyCount *)
            let i := insert_index l ch 0 in
            Ok (Node key (cnt + 1) (Tiny (zfirstn i l ++ (ch, empty_node) :: zskipn i l)), empty_node)
        | Branch _ => UB
        end
      else
        let! a :=
          match u with
          | Tiny l => if cnt =? kTinyCount then fill_branch l (zrepeat None 256) else UB
          | Branch a => if cnt =? kTinyCount then UB else Ok a
          end in
        match zupd a ch (Some empty_node) with
        | Some a => Ok (Node key (cnt + 1) (Branch a), empty_node)
        | None => UB
        end
  end.

(** Writing through the child reference. *)
Fixpoint tiny_put (l : list (Z * node)) (ch : Z) (c : node) : list (Z * node) :=
  match l with
  | [] => []
  | (v, n) :: t => if v =? ch then (v, c) :: t else (v, n) :: tiny_put t ch c
  end.
Definition putChild (n : node) (ch : Z) (c : node) : node :=
  let (key, cnt, u) := n in
  Node key cnt match u with
               | Tiny l => Tiny (tiny_put l ch c)
               | Branch a => Branch (match zupd a ch (Some c) with Some a => a | None => a end)
               end.

(** setHelper, InputMap.cc:145-151 *)
Fixpoint setHelper {E} (n : node) (encoding : list Z) (key : Key) : res E node :=
  match encoding with
  | [] => let (_, cnt, u) := n in Ok (Node key cnt u)
  | ch :: t =>
      let! (n, c) := getOrCreateChild n ch in
      let! c := setHelper c t key in
      Ok (putChild n ch c)
  end.

(** set, InputMap.cc:140-143 *)
Definition set {E} (root : node) (encoding : list Z) (key : Key) : res E node :=
  let! _ := assert_ (0 <? zlen encoding) in setHelper root encoding key.

(** The loop of lookupKey, InputMap.cc:199-208, and its end.  [i] bytes are consumed. *)
Fixpoint lookup_loop {E} (n : node) (input : list Z) (i : Z) (len : Z) (key : Key) : res E (Z * Key * bool) :=
  match input with
  | [] => Ok (len, key, 0 <? node_count n)
  | ch :: t =>
      let! r := getChild n ch in
      match r with
      | None => Ok (len, key, false)
      | Some c => if hasKey c then lookup_loop c t (i + 1) (i + 1) (node_key c)
                  else lookup_loop c t (i + 1) len key
      end
  end.
(** lookupKey, InputMap.cc:189-212: matched length, key, incomplete *)
Definition lookupKey {E} (root : node) (input : list Z) : res E (Z * Key * bool) :=
  lookup_loop root input 0 0 kKeyZero.

(** A history of set calls. *)
Fixpoint set_all {E} (root : node) (regs : list (list Z * Key)) : res E node :=
  match regs with
  | [] => Ok root
  | (s, k) :: t => let! root := set root s k in set_all root t
  end.
