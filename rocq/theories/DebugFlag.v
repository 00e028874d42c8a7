(** Model of the WINPTY_DEBUG flags: src/shared/DebugClient.cc:98-154. *)
From Verif Require Import Base Text.

(** GetEnvironmentVariableA(name, buf, 256): for an unset variable 0; for a value of [n]
    bytes [n] when it fits with its NUL, otherwise the size needed, [n + 1].  The buffer
    holds the value only if it fits.  An environment value has no NUL inside. *)
Definition env_var := option (list Z).
Definition getenv (v : env_var) (size : Z) : Z * option (list Z) :=
  match v with
  | None => (0, None)
  | Some s => if zlen s + 1 <=? size then (zlen s, Some s) else (zlen s + 1, None)
  end.

(** getDebugConfig, DebugClient.cc:101-110: the string put in [buf].  [None] in the buffer
    is unspecified content, read only if the length tests let it through (then UB). *)
Definition config_of_env (v : env_var) : res unit (list Z) :=
  let '(actual, buf) := getenv v 256 in
  if (actual =? 0) || (256 <=? actual) then Ok []
  else match buf with Some s => Ok s | None => UB end.

(** std::string::find(pat) != npos *)
Fixpoint is_prefix (p s : list Z) : bool :=
  match p, s with
  | [], _ => true
  | x :: p', y :: s' => (x =? y) && is_prefix p' s'
  | _ :: _, [] => false
  end.
Fixpoint find (p s : list Z) : bool :=
  is_prefix p s || match s with [] => false | _ :: s' => find p s' end.

(** hasDebugFlag, DebugClient.cc:138-154, given what getDebugConfig returned.  abort() for
    a flag containing a comma is [AssertFail]. *)
Definition comma : Z := 44.
Definition flag_in_config (config flag : list Z) : bool :=
  match config with
  | [] => false
  | _ => find (comma :: flag ++ [comma]) (comma :: config ++ [comma])
  end.
Definition flag_ok (flag : list Z) : bool := negb (existsb (Z.eqb comma) flag).

(** *** Threads

    getDebugConfig is called by any number of threads.  Each call is: test the global
    pointer (line 100), read the environment (104), compare-and-swap (111), read the
    pointer (118).  The environment may be changed by the program at any moment. *)
Inductive pc :=
| PStart
| PMiss
| PHave (mine : list Z)
| PSwapped
| PDone (result : list Z).
Record dstate := mkD { d_global : option (list Z); d_env : env_var; d_threads : list pc }.
Inductive dev :=
| DCall
| DStep (t : Z)
| DSetEnv (v : env_var).

(** One step of a thread.  Deleting the losing copy (113-115) is not modelled. *)
Definition thread_step (g : option (list Z)) (env : env_var) (p : pc) : res unit (option (list Z) * pc) :=
  match p with
  | PStart => Ok (g, match g with None => PMiss | Some _ => PSwapped end)
  | PMiss => let! c := config_of_env env in Ok (g, PHave c)
  | PHave c => Ok (match g with None => Some c | Some x => Some x end, PSwapped)
  | PSwapped => match g with Some c => Ok (g, PDone c) | None => UB end
  | PDone c => Ok (g, PDone c)
  end.
Definition dstep (s : dstate) (e : dev) : res unit dstate :=
  match e with
  | DCall => Ok (mkD (d_global s) (d_env s) (d_threads s ++ [PStart]))
  | DSetEnv v => Ok (mkD (d_global s) v (d_threads s))
  | DStep t =>
      match znth (d_threads s) t with
      | None => Ok s
      | Some p =>
          let! (g, p') := thread_step (d_global s) (d_env s) p in
          match zupd (d_threads s) t p' with
          | Some l => Ok (mkD g (d_env s) l)
          | None => UB
          end
      end
  end.
Fixpoint drun (es : list dev) (s : dstate) : res unit dstate :=
  match es with
  | [] => Ok s
  | e :: es' => let! s' := dstep s e in drun es' s'
  end.
Definition dinit (v : env_var) : dstate := mkD None v [].

(** hasDebugFlag in a thread whose getDebugConfig returned [c]; isTracingEnabled
    (DebugClient.cc:121-136) without its caching. *)
Definition hasDebugFlag (c flag : list Z) : res unit bool :=
  let! _ := assert_ (flag_ok flag) in Ok (flag_in_config c flag).
Definition tracing (c : list Z) : bool := flag_in_config c (str "trace") || flag_in_config c (str "1").

(** A run with no other thread: the configuration a lone caller sees. *)
Definition lone_flag (v : env_var) (flag : list Z) : res unit bool :=
  let! c := config_of_env v in hasDebugFlag c flag.
