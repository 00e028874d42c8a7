From Verif Require Import Base BaseLemmas Buffer BufferSpec BufferProofs Spawn SpawnSpec.
From Verif Require NamedPipeProofs.
Ltac splits := repeat match goal with |- _ /\ _ => split end.

Lemma ld_at {E} pre c rest : @ld E (pre ++ c :: rest) (zlen pre) = Ok c.
Proof. unfold ld. rewrite znth_app_r by lia. now rewrite Z.sub_diag, znth_0. Qed.

Lemma wcslen_ok {E} t : forall fuel pre rest, text t -> (length t < fuel)%nat ->
  @wcslen E fuel (pre ++ t ++ 0 :: rest) (zlen pre) = Ok (zlen t).
Proof.
  induction t as [|c t IH]; intros fuel pre rest Ht Hf; (destruct fuel as [|fuel]; [cbn in Hf; lia|]); cbn [wcslen app].
  - rewrite ld_at. reflexivity.
  - rewrite ld_at. cbn [bind]. inversion Ht as [|? ? H1 H2]; subst. replace (c =? 0) with false by lia.
    replace (zlen pre + 1) with (zlen (pre ++ [c])) by (rewrite zlen_app; reflexivity).
    replace (pre ++ c :: t ++ 0 :: rest) with ((pre ++ [c]) ++ t ++ 0 :: rest) by (rewrite <- app_assoc; reflexivity).
    rewrite IH by (auto; cbn in Hf; lia). cbn [bind]. rewrite zlen_cons. f_equal. lia.
Qed.

Lemma env_end_ok {E} vars : forall fuel pre rest, vars_ok vars -> (length vars < fuel)%nat ->
  @env_end E fuel (pre ++ block vars ++ rest) (zlen pre) = Ok (zlen pre + zlen (block vars) - 1).
Proof.
  induction vars as [|v vars IH]; intros fuel pre rest Hv Hf; (destruct fuel as [|fuel]; [cbn in Hf; lia|]); cbn [env_end].
  - unfold block. cbn [flat_map app]. rewrite ld_at. cbn [bind Z.eqb]. change (zlen [0]) with 1. f_equal. lia.
  - inversion Hv as [|? ? (Ht & Hne) Hv']; subst. destruct v as [|c v]; [congruence|].
    assert (Hm : pre ++ block ((c :: v) :: vars) ++ rest = pre ++ (c :: v) ++ 0 :: (block vars ++ rest)).
    { unfold block. cbn [flat_map]. rewrite <- !app_assoc. reflexivity. }
    rewrite Hm. cbn [app]. rewrite ld_at. cbn [bind].
    inversion Ht as [|? ? H1 H2]; subst. replace (c =? 0) with false by lia.
    change (pre ++ c :: v ++ 0 :: block vars ++ rest) with (pre ++ (c :: v) ++ 0 :: block vars ++ rest).
    rewrite wcslen_ok; [|exact Ht|rewrite !app_length; cbn [length]; lia]. cbn [bind].
    replace (zlen pre + zlen (c :: v) + 1) with (zlen (pre ++ (c :: v) ++ [0])) by (rewrite !zlen_app; change (zlen [0]) with 1; lia).
    replace (pre ++ (c :: v) ++ 0 :: block vars ++ rest) with ((pre ++ (c :: v) ++ [0]) ++ block vars ++ rest)
      by (rewrite <- !app_assoc; reflexivity).
    rewrite IH by (auto; cbn in Hf; lia).
    replace (block ((c :: v) :: vars)) with ((c :: v) ++ [0] ++ block vars)
      by (unfold block; cbn [flat_map]; rewrite <- !app_assoc; reflexivity).
    rewrite !zlen_app. f_equal. lia.
Qed.

Lemma block_len vars : (length vars < length (block vars))%nat.
Proof.
  unfold block. rewrite app_length. cbn [length]. induction vars as [|v vars IH]; [cbn; lia|].
  cbn [flat_map length]. rewrite !app_length. cbn [length]. lia.
Qed.

(** A non-empty block ends in a non-NUL character and two NULs. *)
Lemma block_tail vars : vars_ok vars -> vars <> [] ->
  exists p c, block vars = p ++ [c; 0; 0] /\ c <> 0.
Proof.
  intros Hv Hn. destruct (exists_last Hn) as (vs & v & ->). unfold vars_ok in Hv. rewrite Forall_app in Hv.
  destruct Hv as (_ & Hl). inversion Hl as [|? ? (Ht & Hne) _]; subst. destruct (exists_last Hne) as (w & c & ->).
  exists (flat_map (fun v => v ++ [0]) vs ++ w), c. split.
  - unfold block. rewrite flat_map_app. cbn [flat_map]. rewrite app_nil_r, <- !app_assoc. reflexivity.
  - unfold text in Ht. rewrite Forall_app in Ht. destruct Ht as (_ & Hc). inversion Hc; subst. lia.
Qed.

Lemma str_at_in s i : 0 <= i < zlen s -> str_at s i = znth s i.
Proof. intros H. unfold str_at. replace (i =? zlen s) with false by lia. reflexivity. Qed.

Lemma env_ok {E} vars rest : vars_ok vars ->
  @wstringFromEnvBlock E (Some (block vars ++ rest)) = Ok (block_out vars).
Proof.
  intros Hv. cbn [wstringFromEnvBlock].
  pose proof (@env_end_ok E vars (S (length (block vars ++ rest))) [] rest Hv) as He.
  cbn [app] in He. change (zlen (@nil Z)) with 0 in He.
  rewrite He by (pose proof (block_len vars); rewrite app_length; lia). cbn [bind].
  rewrite zfirstn_app_exact by lia. destruct vars as [|v vars].
  - reflexivity.
  - destruct (block_tail (v :: vars) Hv ltac:(discriminate)) as (p & c & Hb & Hc).
    unfold block_out. rewrite Hb. pose proof (zlen_nonneg p).
    rewrite zlen_app. change (zlen [c; 0; 0]) with 3. replace (zlen p + 3 =? 1) with false by lia.
    replace (3 <=? zlen p + 3) with true by lia. cbn [assert_ bind]. unfold str_is.
    rewrite !str_at_in by (rewrite zlen_app; change (zlen [c; 0; 0]) with 3; lia).
    rewrite !znth_app_r by lia.
    replace (zlen p + 3 - 3 - zlen p) with 0 by lia. replace (zlen p + 3 - 2 - zlen p) with 1 by lia.
    replace (zlen p + 3 - 1 - zlen p) with 2 by lia. change (znth [c; 0; 0] 0) with (Some c).
    change (znth [c; 0; 0] 1) with (Some 0). change (znth [c; 0; 0] 2) with (Some 0).
    cbv beta iota. replace (c =? 0) with false by lia. reflexivity.
Qed.

Lemma copy_ok {E} arg s : cstr arg s -> @copy_cstr E arg = Ok (opt_text s).
Proof.
  destruct arg as [m|], s as [t|]; cbn [cstr copy_cstr opt_text]; try contradiction; [|reflexivity].
  intros (Ht & rest & ->). pose proof (@wcslen_ok E t (S (length (t ++ 0 :: rest))) [] rest Ht) as W.
  cbn [app] in W. change (zlen (@nil Z)) with 0 in W. rewrite W by (rewrite app_length; lia). cbn [bind].
  now rewrite zfirstn_app_exact.
Qed.

Lemma text_units s : text s -> Forall (fun u => 0 <= u < 2 ^ 16) s.
Proof. intros H. eapply Forall_impl; [|exact H]. intros a. cbv beta. lia. Qed.

Lemma cstr_text arg s : cstr arg s -> text (opt_text s).
Proof. destruct arg, s; cbn; try contradiction; [tauto|constructor]. Qed.

Lemma block_units vars : vars_ok vars -> Forall (fun u => 0 <= u < 2 ^ 16) (block_out vars).
Proof.
  intros Hv. assert (Hb : Forall (fun u => 0 <= u < 2 ^ 16) (block vars)).
  { unfold block. apply Forall_app. split; [|constructor; [lia|constructor]].
    induction Hv as [|v vs (Ht & _) Hv IH]; [constructor|]. cbn [flat_map]. rewrite !Forall_app.
    splits; [now apply text_units|constructor; [lia|constructor]|exact IH]. }
  destruct vars; [|exact Hb]. repeat constructor; lia.
Qed.

Lemma flags_mask f : Z.land f 3 = f -> 0 <= f < 2 ^ 64.
Proof.
  intros H. rewrite <- H. change 3 with (Z.ones 2). rewrite Z.land_ones by lia.
  pose proof (Z.mod_pos_bound f (2 ^ 2) ltac:(lia)). lia.
Qed.

Lemma ptr_nul_out s : ptr_nul (opt_text s) = cstr_out s.
Proof. destruct s as [[|]|]; reflexivity. Qed.

Lemma spawn_path_ok pl flags app a cmd c cwd d env rest desktop wp wt ce :
  plat_ok pl -> Z.land flags 3 = flags ->
  cstr app a -> cstr cmd c -> cstr cwd d -> (forall vars, env = Some vars -> vars_ok vars) -> text desktop ->
  Forall (fits pl) [opt_text a; opt_text c; opt_text d; desktop] ->
  (forall vars, env = Some vars -> fits pl (block_out vars)) ->
  spawn_path pl flags app cmd cwd (env_arg env rest) wp wt ce desktop =
    Ok (mkCP (cstr_out a) (cstr_out c) (cstr_out d) (option_map block_out env) (cstr_out (Some desktop)) ce).
Proof.
  intros Hpl Hf Ha Hc Hd Hv Hdesk Hfit Henv.
  assert (Hw : @wstringFromEnvBlock exc (env_arg env rest) =
               Ok (match env with Some vars => block_out vars | None => [] end)).
  { destruct env as [vars|]; [|reflexivity]. cbn [env_arg]. apply env_ok. auto. }
  unfold spawn_path, spawn_config_new. change WINPTY_SPAWN_FLAG_MASK with 3. rewrite Hf, Z.eqb_refl. cbn [assert_ bind].
  rewrite (copy_ok app a Ha), (copy_ok cmd c Hc), (copy_ok cwd d Hd). cbn [bind]. rewrite Hw. cbn [bind].
  set (rq := RqStart _). destruct (send_total rq RpSetSize) as ((b & Hb) & _). rewrite Hb. cbn [bind].
  rewrite (request_roundtrip pl rq b Hpl); [|  |exact Hb].
  - cbn [bind]. unfold rq, create_process_args, spawn_request. cbn. rewrite !ptr_nul_out. change (cstr_out (Some desktop)) with (ptr_nul desktop). do 2 f_equal.
    destruct env as [[|v vars]|]; try reflexivity. cbn [option_map].
    unfold block_out. destruct (block (v :: vars)) eqn:E; [|reflexivity].
    unfold block in E. apply app_eq_nil in E. destruct E as (_ & E). discriminate.
  - unfold rq, sendable, spawn_request. cbn [sr_flags sr_appname sr_cmdline sr_cwd sr_env sr_desktop sc_flags sc_app sc_cmd sc_cwd sc_env].
    split; [now apply flags_mask|].
    inversion Hfit as [|? ? F1 Hfit1]; subst. inversion Hfit1 as [|? ? F2 Hfit2]; subst.
    inversion Hfit2 as [|? ? F3 Hfit3]; subst. inversion Hfit3 as [|? ? F4 _]; subst.
    repeat constructor; cbn [representable storable]; auto;
      try (apply text_units; solve [eauto using cstr_text]).
    + destruct env as [vars|]; [apply block_units; auto|constructor].
    + destruct env as [vars|]; [apply Henv; reflexivity|]. destruct Hpl as (_ & Hp). change (zlen (@nil Z)) with 0. lia.
Qed.

Lemma spawn_flags_rejected flags app cmd cwd env :
  Z.land flags 3 <> flags -> @spawn_config_new exc flags app cmd cwd env = AssertFail.
Proof. intros H. unfold spawn_config_new. change WINPTY_SPAWN_FLAG_MASK with 3. apply Z.eqb_neq in H. now rewrite H. Qed.
