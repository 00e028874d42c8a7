(** Model of libwinpty's error objects: libwinpty/winpty.cc:52-148 and
    libwinpty/LibWinptyException.h, shared/WinptyException.cc, with heap blocks and an
    allocator that may fail at any allocation. *)
From Verif Require Import Base Text Strings.

(** ** Heap
    [BErr]: a winpty_error_s (WinptyInternal.h:34-41); [BPtr]: a heap-allocated
    std::shared_ptr; [BStr]: a shared std::wstring with its reference count (string,
    buffer and control block are allocated together or not at all). *)
Inductive block :=
| BErr (code : Z) (msgStatic : option (list Z)) (msgDynamic : option nat)
| BPtr (str : nat)
| BStr (text : list Z) (refs : Z).
Record mem := mkM { m_next : nat; m_blocks : list (nat * block); m_oracle : list bool }.

Fixpoint find (l : list (nat * block)) (i : nat) : option block :=
  match l with [] => None | (j, b) :: t => if Nat.eqb j i then Some b else find t i end.
Fixpoint remove (l : list (nat * block)) (i : nat) : list (nat * block) :=
  match l with [] => [] | (j, b) :: t => if Nat.eqb j i then t else (j, b) :: remove t i end.
Fixpoint replace (l : list (nat * block)) (i : nat) (b : block) : list (nat * block) :=
  match l with [] => [] | (j, c) :: t => if Nat.eqb j i then (j, b) :: t else (j, c) :: replace t i b end.

(** new: fails when the oracle says so; an exhausted oracle always succeeds. *)
Definition alloc (m : mem) (b : block) : option nat * mem :=
  let (ok, t) := match m_oracle m with [] => (true, []) | o :: t => (o, t) end in
  if ok then (Some (m_next m), mkM (S (m_next m)) ((m_next m, b) :: m_blocks m) t)
  else (None, mkM (m_next m) (m_blocks m) t).
(** delete: undefined if the block is not live *)
Definition delete (m : mem) (i : nat) : res unit mem :=
  match find (m_blocks m) i with
  | Some _ => Ok (mkM (m_next m) (remove (m_blocks m) i) (m_oracle m))
  | None => UB
  end.
Definition set_block (m : mem) (i : nat) (b : block) : res unit mem :=
  match find (m_blocks m) i with
  | Some _ => Ok (mkM (m_next m) (replace (m_blocks m) i b) (m_oracle m))
  | None => UB
  end.
(** std::shared_ptr copies and destructors *)
Definition retain (m : mem) (i : nat) : res unit mem :=
  match find (m_blocks m) i with
  | Some (BStr t n) => set_block m i (BStr t (n + 1))
  | _ => UB
  end.
Definition release (m : mem) (i : nat) : res unit mem :=
  match find (m_blocks m) i with
  | Some (BStr t n) => if n =? 1 then delete m i else set_block m i (BStr t (n - 1))
  | _ => UB
  end.

(** ** Error objects *)
Inductive static_err := KOutOfMemory | KBadRpcPacket | KUncaughtException.
Inductive eptr := ENull | EStatic (s : static_err) | EHeap (i : nat).

(** winpty.cc:57-73 *)
Definition static_code (s : static_err) : Z :=
  match s with KOutOfMemory => 1 | KBadRpcPacket => 5 | KUncaughtException => 5 end.
Definition static_msg (s : static_err) : list Z :=
  match s with
  | KOutOfMemory => str "Out of memory"
  | KBadRpcPacket => str "Bad RPC packet"
  | KUncaughtException => str "Uncaught C++ exception"
  end.

(** winpty_error_code, winpty.cc:76-78 *)
Definition error_code (m : mem) (p : eptr) : res unit Z :=
  match p with
  | ENull => Ok 0
  | EStatic s => Ok (static_code s)
  | EHeap i => match find (m_blocks m) i with Some (BErr c _ _) => Ok c | _ => UB end
  end.

(** winpty_error_msg, winpty.cc:82-95 *)
Definition error_msg (m : mem) (p : eptr) : res unit (list Z) :=
  match p with
  | ENull => Ok (str "Success")
  | EStatic s => Ok (static_msg s)
  | EHeap i =>
      match find (m_blocks m) i with
      | Some (BErr _ (Some s) _) => Ok s
      | Some (BErr _ None None) => AssertFail
      | Some (BErr _ None (Some d)) =>
          match find (m_blocks m) d with
          | Some (BPtr s) => match find (m_blocks m) s with Some (BStr t _) => Ok t | _ => UB end
          | _ => UB
          end
      | _ => UB
      end
  end.

(** winpty_error_free, winpty.cc:99-104; deleting the shared_ptr releases the string. *)
Definition error_free (m : mem) (p : eptr) : res unit mem :=
  match p with
  | ENull | EStatic _ => Ok m                     (* msgDynamic is null *)
  | EHeap i =>
      match find (m_blocks m) i with
      | Some (BErr _ _ None) => Ok m
      | Some (BErr _ _ (Some d)) =>
          match find (m_blocks m) d with
          | Some (BPtr s) =>
              let! m := release m s in
              let! m := delete m d in
              delete m i
          | _ => UB
          end
      | _ => UB
      end
  end.

(** ** Exceptions
    [ELib]: LibWinptyException.h:31-54; [EWinpty]: WinptyException.cc:30-42; both hold
    a shared message.  [raise] is the throw expression: if the message cannot be
    allocated, std::bad_alloc is thrown instead. *)
Inductive exn := EDecodeError | ELib (code : Z) (what : list Z) | EWinpty (what : list Z) | EBadAlloc | EOtherExn.
Inductive thrown := TDecode | TLib (code : Z) (s : nat) | TWinpty (s : nat) | TBadAlloc | TOther.
Definition raise (m : mem) (e : exn) : thrown * mem :=
  match e with
  | EDecodeError => (TDecode, m)
  | ELib c w => match alloc m (BStr w 1) with (Some s, m) => (TLib c s, m) | (None, m) => (TBadAlloc, m) end
  | EWinpty w => match alloc m (BStr w 1) with (Some s, m) => (TWinpty s, m) | (None, m) => (TBadAlloc, m) end
  | EBadAlloc => (TBadAlloc, m)
  | EOtherExn => (TOther, m)
  end.
(** the end of the catch block destroys the exception *)
Definition drop (m : mem) (t : thrown) : res unit mem :=
  match t with TLib _ s | TWinpty s => release m s | _ => Ok m end.

(** The object built by translateException, winpty.cc:106-131.  A failed allocation
    inside unwinds what was built and selects kOutOfMemory. *)
Definition build (m : mem) (t : thrown) : res unit (eptr * mem) :=
  match t with
  | TDecode => Ok (EStatic KBadRpcPacket, m)
  | TLib code s =>
      match alloc m (BErr 0 None None) with
      | (None, m) => Ok (EStatic KOutOfMemory, m)
      | (Some obj, m) =>
          let! m := set_block m obj (BErr code None None) in
          match alloc m (BPtr s) with                          (* copies the shared_ptr *)
          | (None, m) => let! m := delete m obj in Ok (EStatic KOutOfMemory, m)
          | (Some d, m) =>
              let! m := retain m s in
              let! m := set_block m obj (BErr code None (Some d)) in
              Ok (EHeap obj, m)
          end
      end
  | TWinpty s =>
      match alloc m (BErr 0 None None) with
      | (None, m) => Ok (EStatic KOutOfMemory, m)
      | (Some obj, m) =>
          match find (m_blocks m) s with
          | Some (BStr what _) =>
              match alloc m (BStr what 1) with
              | (None, m) => let! m := delete m obj in Ok (EStatic KOutOfMemory, m)
              | (Some msg, m) =>
                  let! m := set_block m obj (BErr 5 None None) in
                  match alloc m (BPtr msg) with
                  | (None, m) =>                               (* ~msg, ~obj *)
                      let! m := release m msg in
                      let! m := delete m obj in
                      Ok (EStatic KOutOfMemory, m)
                  | (Some d, m) =>
                      let! m := retain m msg in
                      let! m := set_block m obj (BErr 5 None (Some d)) in
                      let! m := release m msg in               (* ~msg *)
                      Ok (EHeap obj, m)
                  end
              end
          | _ => UB
          end
      end
  | TBadAlloc => Ok (EStatic KOutOfMemory, m)
  | TOther => Ok (EStatic KUncaughtException, m)
  end.

(** translateException, winpty.cc:106-141.  [trace_ok]: the temporary strings of the
    trace call's arguments (132-134), evaluated whether or not tracing is on, could be
    allocated.  [want]: err is not null.  A throw here leaves the API function by an
    exception. *)
Definition translate (m : mem) (t : thrown) (want trace_ok : bool) : res unit (option eptr * mem) :=
  let! (ret, m) := build m t in
  let! _ := error_code m ret in
  let! _ := error_msg m ret in
  if trace_ok then
    if want then Ok (Some ret, m)
    else let! m := error_free m ret in Ok (None, m)
  else Throw tt.

(** API_TRY { body } API_CATCH, winpty.cc:143-148: what the caller finds in *err.
    [body] either returns or throws. *)
Definition api (m : mem) (want trace_ok : bool) (body : option exn) : res unit (option eptr * mem) :=
  match body with
  | None => Ok (if want then Some ENull else None, m)
  | Some e =>
      let (t, m) := raise m e in
      let! (err, m) := translate m t want trace_ok in
      let! m := drop m t in
      Ok (err, m)
  end.

(** ** A client: calls that store an error object or not, and frees of the k-th error
    it still holds. *)
Inductive cl_ev := Call (want trace_ok : bool) (body : option exn) | Free (k : nat).
Fixpoint drop_nth {A} (l : list A) (k : nat) : list A :=
  match l, k with
  | [], _ => []
  | _ :: t, O => t
  | x :: t, S k => x :: drop_nth t k
  end.
Fixpoint client (m : mem) (held : list eptr) (es : list cl_ev) : res unit (mem * list eptr) :=
  match es with
  | [] => Ok (m, held)
  | Call want trace_ok body :: es =>
      let! (err, m) := api m want trace_ok body in
      client m (match err with Some p => held ++ [p] | None => held end) es
  | Free k :: es =>
      match nth_error held k with
      | Some p => let! m := error_free m p in client m (drop_nth held k) es
      | None => client m held es
      end
  end.
