(** C29: environment blocks; with the other strings of winpty_spawn. *)
From Verif Require Import Base BaseLemmas Buffer BufferSpec BufferProps Spawn SpawnSpec SpawnProofs.

(** C29: the copy taken by winpty_spawn_config_new.  [rest] is arbitrary, so in
    particular nothing beyond the block's terminator is read. *)
Theorem C29_block_copied : forall vars rest, vars_ok vars ->
  @wstringFromEnvBlock exc (Some (block vars ++ rest)) = Ok (block_out vars).
Proof. exact env_ok. Qed.
Print Assumptions C29_block_copied.

(** C29: end to end, the block CreateProcess receives in the agent is the caller's,
    for all other arguments; null stays null. *)
Theorem C29_block_reaches_CreateProcess :
  forall pl flags app a cmd c cwd d env rest desktop wp wt ce,
  plat_ok pl -> Z.land flags 3 = flags ->
  cstr app a -> cstr cmd c -> cstr cwd d -> (forall vars, env = Some vars -> vars_ok vars) -> text desktop ->
  Forall (fits pl) [opt_text a; opt_text c; opt_text d; desktop] ->
  (forall vars, env = Some vars -> fits pl (block_out vars)) ->
  spawn_path pl flags app cmd cwd (env_arg env rest) wp wt ce desktop =
    Ok (mkCP (cstr_out a) (cstr_out c) (cstr_out d) (option_map block_out env) (cstr_out (Some desktop)) ce).
Proof. exact spawn_path_ok. Qed.
Print Assumptions C29_block_reaches_CreateProcess.

(** Two variables, "A=B" and "C=", with no readable memory after the block. *)
Example C29_example :
  let vars := [[65; 61; 66]; [67; 61]] in
  vars_ok vars /\ block vars = [65; 61; 66; 0; 67; 61; 0; 0] /\
  spawn_path win64 1 None (Some [120; 0; 7]) None (env_arg (Some vars) []) true false false [] =
    Ok (mkCP None (Some [120; 0]) None (Some (block vars)) None false) /\
  @wstringFromEnvBlock exc (Some [0]) = Ok [0; 0].
Proof.
  cbv zeta. split.
  - repeat (constructor; try lia); discriminate.
  - vm_compute. auto.
Qed.

(** A block without its terminator is over-read: the precondition matters. *)
Example C29_unterminated : @wstringFromEnvBlock exc (Some [65; 0; 66]) = UB.
Proof. reflexivity. Qed.
