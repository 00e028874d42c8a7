(** What a failed internal check is relied on to do. *)
From Verif Require Import Base Text StringsSpec Assertion.

(** The process is over, and not with the code of success. *)
Definition ended (f : fate) : Prop :=
  match f with Exited c => c <> 0 | Aborted => True | Closed => True | GoesOn => False | Hangs => False end.
(** The line tells the condition, the file and the line. *)
Definition tells_failure (file : list Z) (line : Z) (cond t : list Z) : Prop :=
  exists d, canonical 10 d line /\ t = str "Assertion failed: " ++ cond ++ str ", file " ++ file ++ str ", line " ++ d.
(** The time spent, in milliseconds *)
Definition paused (l : list aev) : Z := fold_right (fun e n => match e with ASleep ms => ms + n | _ => n end) 0 l.
(** The messages posted *)
Definition posted (l : list aev) : list Z := flat_map (fun e => match e with APost m => [m] | _ => [] end) l.
(** No pause before the message is posted *)
Definition posted_first (l : list aev) : Prop := forall a ms b, l = a ++ ASleep ms :: b -> In (APost 16) a.
(** How an agent ends: nothing printed on its console, the console asked to close
    (WM_CLOSE = 16) exactly if it has a window, at most half a minute. *)
Definition shut_down (os : assert_os) (l : list aev) (f : fate) : Prop :=
  ended f /\ ~ In APrint l /\ posted l = (if ao_window os then [16] else []) /\ posted_first l /\ 0 <= paused l <= 30 * 1000 /\
  (ao_window os = true -> 0 < paused l) /\ (forall h, ~ In (AClose h) l) /\
  (forall c, f = Exited c -> exists l' t, l = l' ++ [ATrace t]).
