(** What WINPTY_DEBUG means. *)
From Verif Require Import Base DebugFlag.

(** The comma-separated items of a string. *)
Fixpoint items (s : list Z) : list (list Z) :=
  match s with
  | [] => [[]]
  | c :: s' => if c =? 44 then [] :: items s'
               else match items s' with i :: r => (c :: i) :: r | [] => [[c]] end
  end.

(** The flags an environment sets: none if unset, empty, or 256 bytes or more. *)
Definition flags_of (v : env_var) : list (list Z) :=
  match v with
  | None => []
  | Some s => if (zlen s =? 0) || (256 <=? zlen s) then [] else items s
  end.

(** The environments in force at some moment of a run *)
Fixpoint envs (es : list dev) (v : env_var) : list env_var :=
  match es with
  | [] => [v]
  | DSetEnv w :: es' => v :: envs es' w
  | _ :: es' => envs es' v
  end.

(** How often thread [t] gets to run *)
Fixpoint turns (t : Z) (es : list dev) : Z :=
  match es with
  | [] => 0
  | DStep u :: es' => (if u =? t then 1 else 0) + turns t es'
  | _ :: es' => turns t es'
  end.
