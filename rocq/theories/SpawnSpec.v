From Verif Require Import Base Buffer BufferSpec.

(** A NUL-free string of 16-bit characters. *)
Definition text (s : list Z) : Prop := Forall (fun c => 0 < c < 65536) s.

(** The environment block holding the given variables, as MSDN describes it. *)
Definition block (vars : list (list Z)) : list Z := flat_map (fun v => v ++ [0]) vars ++ [0].
Definition vars_ok (vars : list (list Z)) : Prop := Forall (fun v => text v /\ v <> []) vars.

(** What CreateProcess must see: MSDN asks for two terminators even when there is
    no variable. *)
Definition block_out (vars : list (list Z)) : list Z :=
  match vars with [] => [0; 0] | _ => block vars end.

(** A NUL-terminated string at the start of some memory, optional. *)
Definition cstr (arg : option (list Z)) (s : option (list Z)) : Prop :=
  match arg, s with
  | None, None => True
  | Some m, Some t => text t /\ exists rest, m = t ++ 0 :: rest
  | _, _ => False
  end.
(** What arrives: null for null and for an empty string. *)
Definition cstr_out (s : option (list Z)) : option (list Z) :=
  match s with None | Some [] => None | Some t => Some (t ++ [0]) end.

Definition fits (pl : plat) (s : list Z) : Prop := zlen s <= p_alloc_limit pl.
Definition opt_text (s : option (list Z)) : list Z := match s with Some t => t | None => [] end.

(** The environment argument: null, or the block followed by whatever memory. *)
Definition env_arg (env : option (list (list Z))) (rest : list Z) : option (list Z) :=
  match env with Some vars => Some (block vars ++ rest) | None => None end.
