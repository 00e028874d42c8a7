(** What a table of key sequences means. *)
From Verif Require Import Base Text InputMap.

(** A real key (the zero key means "no key", InputMap.h:71-73). *)
Definition is_key (k : Key) : Prop := virtualKey k <> 0 \/ unicodeChar k <> 0.

(** The key most recently registered for exactly this sequence. *)
Fixpoint assigned (regs : list (list Z * Key)) (s : list Z) : option Key :=
  match regs with
  | [] => None
  | (s', k) :: t => match assigned t s with Some k' => Some k' | None => if list_eqb s' s then Some k else None end
  end.

(** [k] is the key of the longest registered sequence that starts the input, of length
    [n]; no such sequence if n = 0. *)
Definition longest_match (regs : list (list Z * Key)) (input : list Z) (n : Z) (k : Key) : Prop :=
  0 <= n <= zlen input /\
  (n = 0 -> k = kKeyZero) /\
  (0 < n -> is_key k /\ assigned regs (zfirstn n input) = Some k) /\
  (forall m k', n < m <= zlen input -> assigned regs (zfirstn m input) = Some k' -> ~ is_key k').

Definition proper_prefix (a b : list Z) : Prop := exists c, c <> [] /\ b = a ++ c.

Definition bytes (s : list Z) : Prop := Forall (fun c => 0 <= c < 256) s.
(** Registrations with nonempty byte sequences. *)
Definition regs_ok (regs : list (list Z * Key)) : Prop := Forall (fun r => fst r <> [] /\ bytes (fst r)) regs.
