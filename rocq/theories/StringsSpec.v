(** What a numeral is, independently of how the code produces one. *)
From Verif Require Import Base Strings.

(** Value of a digit character, -1 for any other character. *)
Definition dval (c : Z) : Z :=
  if (48 <=? c) && (c <=? 57) then c - 48
  else if (97 <=? c) && (c <=? 102) then c - 87
  else -1.

Definition value (base : Z) (s : list Z) : Z := fold_left (fun a c => a * base + dval c) s 0.

(** [s] is a nonempty string of base-[base] digits with value [v]. *)
Definition numeral (base : Z) (s : list Z) (v : Z) : Prop :=
  s <> [] /\ Forall (fun c => 0 <= dval c < base) s /\ value base s = v.

(** ... without leading zeros. *)
Definition canonical (base : Z) (s : list Z) (v : Z) : Prop :=
  numeral base s v /\ (hd 0 s = 48 -> s = [48]).

(** Signed decimal: a minus sign exactly for negatives. *)
Definition decimal (s : list Z) (v : Z) : Prop :=
  if v <? 0 then exists d, s = 45 :: d /\ canonical 10 d (- v) else canonical 10 s v.

(** The values of an integer type of [n] bytes. *)
Definition int_range (signed : bool) (n v : Z) : Prop :=
  if signed then - 2 ^ (8 * n - 1) <= v < 2 ^ (8 * n - 1) else 0 <= v < 2 ^ (8 * n).

(** The text of a C string: up to the first NUL. *)
Fixpoint ctext (s : list Z) : list Z :=
  match s with
  | [] => []
  | c :: t => if c =? 0 then [] else c :: ctext t
  end.

(** A formatted value: its text is [s], it lies inside its array and is
    followed there by a NUL, so c_str() is also [s]. *)
Definition vs_ok (v : ValueString) (s : list Z) : Prop :=
  vs_str v = s /\ znth (vs_array v) (vs_offset v + vs_size v) = Some 0 /\
  0 <= vs_offset v /\ 0 <= vs_size v /\ vs_offset v + vs_size v < zlen (vs_array v).

(** The source is readable far enough: it holds a NUL or at least N units. *)
Definition readable (s : list Z) (N : Z) : Prop := In 0 s \/ N <= zlen s.

(** A process generating names one after the other,
    each call with its own prefix, clock reading and random bytes. *)
Fixpoint gen_names (pid counter : Z) (ins : list (list Z * Z * option (list Z))) : res unit (list (list Z)) :=
  match ins with
  | [] => Ok []
  | (prefix, time, rnd) :: t =>
      let! (n, c) := pipeName prefix pid counter time rnd in
      let! r := gen_names pid c t in
      Ok (n :: r)
  end.

(** Prefixes in use: equal, or different at some common position. *)
Definition prefix_apart (p q : list Z) : Prop :=
  p = q \/ exists i a b, znth p i = Some a /\ znth q i = Some b /\ a <> b.
