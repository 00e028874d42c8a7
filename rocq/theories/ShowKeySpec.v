(** What someone reading the output of --showkey relies on. *)
From Verif Require Import Base Text StringsSpec ShowKey.

(** Reads of bytes, none empty *)
Definition reads_ok (rs : list (list Z)) : Prop := Forall (fun r => r <> [] /\ Forall (fun b => 0 <= b < 256) r) rs.

(** [taken all seen]: reading stops after a read that begins with Ctrl-D. *)
Inductive taken : list (list Z) -> list (list Z) -> Prop :=
| taken_nil : taken [] []
| taken_end r rest : taken ((4 :: r) :: rest) [4 :: r]
| taken_more b r rest seen : b <> 4 -> taken rest seen -> taken ((b :: r) :: rest) ((b :: r) :: seen).

(** A byte in caret notation: control characters as ^ and the letter 64 above, DEL as ^?. *)
Definition caret (b : Z) : list Z := if b <? 32 then [94; b + 64] else if b =? 127 then [94; 63] else [b].
(** A byte in decimal, octal and hexadecimal, in columns *)
Definition three_ways (b : Z) (t : list Z) : Prop :=
  exists pad d o h, t = [9] ++ pad ++ d ++ str " " ++ o ++ str " 0x" ++ h ++ [10] /\
    Forall (eq 32) pad /\ zlen pad + zlen d = 3 /\ canonical 10 d b /\ zlen o = 4 /\ numeral 8 o b /\ zlen h = 2 /\ numeral 16 h b.
