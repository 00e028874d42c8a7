(** How Windows programs split their command line (MSDN, "Parsing C++
    command-line arguments" and CommandLineToArgvW), written from the documentation
    and independent of the adapter. *)
From Verif Require Import Base Text.

(** Treatment of a doubled quote inside a quoted part, which differs between C
    runtimes: no special meaning; a literal quote that leaves the quoted part
    (before 2008); a literal quote that stays in it (since 2008). *)
Inductive quoting := Plain | LeaveQuotes | StayInQuotes.

Definition is_blank (c : Z) : bool := (c =? 32) || (c =? 9).

Definition backslashes (n : nat) : list Z := repeat 92 n.

(** The argument being collected: None between arguments. *)
Definition add (cur : option (list Z)) (x : list Z) : option (list Z) :=
  Some (match cur with Some a => a ++ x | None => x end).
Definition flush (cur : option (list Z)) (bs : nat) : list (list Z) :=
  match cur, bs with None, O => [] | _, _ => match add cur (backslashes bs) with Some a => [a] | None => [] end end.

(** [bs] backslashes have been read and not yet interpreted:
    - 2n backslashes and a quote: n backslashes, and the quote starts or ends a quoted part;
    - 2n+1 backslashes and a quote: n backslashes and a literal quote;
    - backslashes not followed by a quote are literal;
    - blanks outside quoted parts separate arguments. *)
Fixpoint split (m : quoting) (l : list Z) (inq : bool) (bs : nat) (cur : option (list Z)) : list (list Z) :=
  match l with
  | [] => flush cur bs
  | c :: t =>
      if c =? 92 then split m t inq (S bs) cur
      else if c =? 34 then
        let cur' := add cur (backslashes (Nat.div2 bs)) in
        if Nat.odd bs then split m t inq 0 (add cur' [34])
        else
          match inq, m, t with
          | true, LeaveQuotes, 34 :: t' => split m t' false 0 (add cur' [34])
          | true, StayInQuotes, 34 :: t' => split m t' true 0 (add cur' [34])
          | _, _, _ => split m t (negb inq) 0 cur'
          end
      else if is_blank c && negb inq then flush cur bs ++ split m t false 0 None
      else split m t inq 0 (add cur (backslashes bs ++ [c]))
  end.

(** The program name is read differently: backslashes mean nothing, quotes only
    protect blanks. *)
Fixpoint program_name (l : list Z) (inq : bool) (acc : list Z) : list Z * list Z :=
  match l with
  | [] => (acc, [])
  | c :: t =>
      if c =? 34 then program_name t (negb inq) acc
      else if is_blank c && negb inq then (acc, t)
      else program_name t inq (acc ++ [c])
  end.

Definition windows_argv (m : quoting) (line : list Z) : list (list Z) :=
  let (prog, rest) := program_name line false [] in
  prog :: split m rest false 0 None.

(** A usable program path: no quote in it; and if it needs quoting it does not
    end in a backslash (a file name never does). *)
Definition program_ok (p : list Z) : Prop :=
  ~ In 34 p /\ (existsb is_blank p = true -> last p 0 <> 92).

(** The adapter's options. *)
Definition flag_options : list (list Z) :=
  [str "--mouse"; str "--showkey"; str "-Xallow-non-tty"; str "-Xconerr"; str "-Xplain"; str "-Xcolor"].
Definition given (o : list Z) (opts : list (list Z)) : bool := existsb (list_eqb o) opts.
Definition special : list (list Z) := [str "-h"; str "--help"; str "--version"; str "--"].
