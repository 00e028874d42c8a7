(** Shared vocabulary of the model: machine integers, outcomes, checked
    memory access.  Nothing here is specific to one component. *)
From Coq Require Export List ZArith Lia Bool.
From Coq Require Export ZifyBool ZifyNat.
Export ListNotations.
Open Scope Z_scope.

(** ** Outcomes

    [res E A]: the result of running C++ code that may throw an exception of
    kind [E], fail an ASSERT (src/shared/WinptyAssert.h:35-60, the process is
    terminated), have undefined behaviour, or (model only) run out of fuel. *)
Inductive res (E A : Type) : Type :=
| Ok (a : A)
| Throw (e : E)
| AssertFail
| UB
| OutOfFuel.
Arguments Ok {E A} a.
Arguments Throw {E A} e.
Arguments AssertFail {E A}.
Arguments UB {E A}.
Arguments OutOfFuel {E A}.

Definition bind {E A B} (m : res E A) (k : A -> res E B) : res E B :=
  match m with
  | Ok a => k a
  | Throw e => Throw e
  | AssertFail => AssertFail
  | UB => UB
  | OutOfFuel => OutOfFuel
  end.
Notation "'let!' x := m 'in' k" := (bind m (fun x => k))
  (at level 200, x pattern, m at level 100, k at level 200, right associativity).

(** ASSERT(cond), src/shared/WinptyAssert.h:35-40 and 53-60. *)
Definition assert_ {E} (c : bool) : res E unit := if c then Ok tt else AssertFail.

(** ** Machine integers (two's complement, as on every Windows target) *)
Definition wrapu (bits x : Z) : Z := x mod 2 ^ bits.
Definition wraps (bits x : Z) : Z :=
  let y := x mod 2 ^ bits in
  if y <? 2 ^ (bits - 1) then y else y - 2 ^ bits.

Definition u8  := wrapu 8.
Definition u16 := wrapu 16.
Definition u32 := wrapu 32.
Definition u64 := wrapu 64.
Definition s16 := wraps 16.
Definition s32 := wraps 32.
Definition s64 := wraps 64.

Definition in_u (bits x : Z) : bool := (0 <=? x) && (x <? 2 ^ bits).
Definition in_s (bits x : Z) : bool := (- 2 ^ (bits - 1) <=? x) && (x <? 2 ^ (bits - 1)).

Definition is_byte (b : Z) : bool := (0 <=? b) && (b <? 256).
Definition is_unit (b : Z) : bool := (0 <=? b) && (b <? 65536).

(** ** Lists with Z lengths and indices *)
Definition zlen {A} (l : list A) : Z := Z.of_nat (length l).

(** Checked indexing: [None] is an out-of-bounds access. *)
Definition znth {A} (l : list A) (i : Z) : option A :=
  if i <? 0 then None else nth_error l (Z.to_nat i).

Definition zfirstn {A} (n : Z) (l : list A) : list A := firstn (Z.to_nat n) l.
Definition zskipn {A} (n : Z) (l : list A) : list A := skipn (Z.to_nat n) l.
Definition zrepeat {A} (a : A) (n : Z) : list A := repeat a (Z.to_nat n).

(** Checked store: [None] is an out-of-bounds write. *)
Fixpoint upd_nat {A} (l : list A) (i : nat) (a : A) : option (list A) :=
  match l, i with
  | [], _ => None
  | _ :: t, O => Some (a :: t)
  | x :: t, S i' => match upd_nat t i' a with
                    | Some t' => Some (x :: t')
                    | None => None
                    end
  end.
Definition zupd {A} (l : list A) (i : Z) (a : A) : option (list A) :=
  if i <? 0 then None else upd_nat l (Z.to_nat i) a.
