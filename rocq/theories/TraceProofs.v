(** Proofs about Trace.v. *)
From Verif Require Import Base BaseLemmas Text Strings StringsSpec StringsProofs DebugFlag DebugFlagSpec DebugFlagProofs Trace TraceSpec.
From Coq Require Import Lia.

Ltac splits := repeat match goal with |- _ /\ _ => split end.

(** *** Numbers *)
Lemma digits_ok fuel : forall v acc, 0 <= v < 10 ^ Z.of_nat fuel -> (0 < fuel)%nat ->
  exists d, digits fuel v acc = d ++ acc /\ canonical 10 d v.
Proof.
  induction fuel as [|k IH]; intros v acc Hv Hk; [lia|]. cbn [digits].
  destruct (Z.ltb_spec v 10) as [L|L].
  - exists [48 + v]. split; [reflexivity|].
    pose proof (dval_dec v ltac:(lia)) as D. rewrite <- D at 2. apply canonical_digit; [lia|rewrite D; lia].
  - assert (Hk' : (0 < k)%nat).
    { destruct k; [|lia]. cbn in Hv. lia. }
    rewrite Nat2Z.inj_succ, Z.pow_succ_r in Hv by lia.
    assert (Hd : 0 <= v / 10 < 10 ^ Z.of_nat k).
    { split; [apply Z.div_pos; lia|]. apply Z.div_lt_upper_bound; lia. }
    destruct (IH (v / 10) ((48 + v mod 10) :: acc) Hd Hk') as (d & E & C).
    exists (d ++ [48 + v mod 10]). split; [rewrite E, <- app_assoc; reflexivity|].
    pose proof (Z.mod_pos_bound v 10 ltac:(lia)) as M.
    pose proof (dval_dec (v mod 10) M) as D.
    pose proof (canonical_snoc 10 d (v / 10) (48 + v mod 10) ltac:(lia) C) as X.
    rewrite D in X. replace (v / 10 * 10 + v mod 10) with v in X by (pose proof (Z.div_mod v 10); lia).
    apply X; [apply Z.div_str_pos; lia|lia].
Qed.
Lemma zeros_numeral k s v : numeral 10 s v -> numeral 10 (repeat 48 k ++ s) v.
Proof.
  intros H. induction k as [|k IH]; cbn [repeat app]; [exact H|].
  destruct IH as (N' & F' & V'). unfold numeral. splits; [discriminate| |].
  - constructor; [change (dval 48) with 0; lia|exact F'].
  - rewrite value_cons, V'. change (dval 48) with 0. lia.
Qed.
Lemma padded_ok w v : 1 <= w -> 0 <= v < 2 ^ 31 -> padded w (print_d w v) v.
Proof.
  intros Hw Hv. unfold print_d. rewrite (proj2 (Z.ltb_ge v 0)) by lia.
  destruct (digits_ok 20 v [] ltac:(change (10 ^ Z.of_nat 20) with 100000000000000000000; lia) ltac:(lia)) as (d & E & C).
  rewrite E, app_nil_r. unfold zero_pad, padded. destruct C as [Nu Hz].
  pose proof (zlen_nonneg d) as L. splits.
  - unfold zrepeat. apply zeros_numeral. exact Nu.
  - rewrite zlen_app, zlen_repeat. lia.
  - rewrite zlen_app, zlen_repeat.
    destruct (Z_le_gt_dec w (zlen d)) as [G|G].
    + unfold zrepeat. replace (Z.to_nat (w - zlen d)) with 0%nat by lia. cbn [repeat app].
      destruct (Z.eq_dec (hd 0 d) 48) as [E48|N48]; [|right; exact N48].
      specialize (Hz E48). subst d. left. cbn in G |- *. change (zlen [48]) with 1 in *. lia.
    + left. lia.
Qed.
Lemma numeral_len s v n : 0 <= n -> numeral 10 s v -> zlen s <= n \/ hd 0 s = 48 \/ 10 ^ n <= v.
Proof.
  intros Hn (N & F & V). destruct s as [|c s]; [congruence|].
  inversion F as [|x y Fc Fs]; subst x y. cbn [hd].
  destruct (Z.eq_dec c 48) as [->|Nc]; [right; left; reflexivity|].
  destruct (Z_le_gt_dec (zlen (c :: s)) n) as [G|G]; [left; exact G|right; right].
  rewrite value_cons in V. rewrite zlen_cons in G. pose proof (value_bounds 10 s ltac:(lia) Fs) as B.
  assert (D : 1 <= dval c). { assert (dval c <> 0); [|lia]. intros D0. apply Nc. exact (dval_48 c D0). }
  pose proof (Z.pow_le_mono_r 10 n (zlen s) ltac:(lia) ltac:(lia)) as P. nia.
Qed.
Lemma padded_fixed w s v : 0 <= w -> padded w s v -> v < 10 ^ w -> zlen s = w.
Proof.
  intros Hw (N & L & [E|H]) Hv; [exact E|]. destruct (numeral_len s v w Hw N) as [G|[G|G]]; [lia|contradiction|lia].
Qed.

(** *** The program's name *)
Lemma after_last_some c s : forall r, after_last c s = Some r -> ~ In c r /\ exists d, s = d ++ [c] ++ r.
Proof.
  induction s as [|x s IH]; cbn [after_last]; intros r H; [discriminate|].
  destruct (after_last c s) as [r'|] eqn:E.
  - injection H as <-. destruct (IH r' eq_refl) as [N (d & ->)]. split; [exact N|]. exists (x :: d). reflexivity.
  - destruct (Z.eqb_spec x c) as [->|]; [|discriminate]. injection H as <-. split; [|exists []; reflexivity].
    clear -E. induction s as [|y s IH]; [intros []|]. cbn [after_last] in E.
    destruct (after_last c s) eqn:E'; [discriminate|]. destruct (Z.eqb_spec y c) as [|N]; [discriminate|].
    intros [->|H]; [congruence|]. exact (IH eq_refl H).
Qed.
Lemma after_last_none c s : after_last c s = None -> ~ In c s.
Proof.
  induction s as [|y s IH]; cbn [after_last]; [intros _ []|].
  destruct (after_last c s) eqn:E'; [discriminate|]. destruct (Z.eqb_spec y c) as [|N]; [discriminate|].
  intros _ [->|H]; [congruence|]. exact (IH eq_refl H).
Qed.
Lemma base_name_ok p : file_name p (base_name p).
Proof.
  unfold base_name, file_name. destruct (after_last 92 p) as [r|] eqn:E.
  - apply after_last_some in E. destruct E as [N (d & E)]. split; [exact N|right; exists d; exact E].
  - apply after_last_none in E. split; [exact E|left; reflexivity].
Qed.

(** *** The line *)
Lemma heading_ok os : ordinary os ->
  unixTimeMillis os = Ok (unix_ms os) /\
  module_name os = Ok (match to_module os with Some x => x | None => [] end) /\
  heading os ([91] ++ print_d 5 (Z.quot (Z.rem (unix_ms os) (100000 * 1000)) 1000) ++ [46] ++
    print_d 3 (Z.rem (Z.rem (unix_ms os) (100000 * 1000)) 1000) ++ [32] ++
    base_name (match to_module os with Some x => x | None => [] end) ++ str ",p" ++
    print_d 4 (s32 (to_pid os)) ++ str ",t" ++ print_d 4 (s32 (to_tid os)) ++ str "]: ").
Proof.
  intros (Hl & Hh & Hu & Hp & Ht & Hm). splits.
  - unfold unixTimeMillis. rewrite (proj2 (Z.leb_gt (2 ^ 31) (to_high os))) by lia. f_equal. unfold unix_ms.
    unfold unix_ms in Hu.
    assert (0 <= to_high os * 2 ^ 32 + to_low os).
    { pose proof (Z.div_lt (to_high os * 2 ^ 32 + to_low os) 10000) as Q.
      destruct (Z_lt_le_dec (to_high os * 2 ^ 32 + to_low os) 0) as [G|G]; [|exact G].
      pose proof (Z.div_lt_upper_bound (to_high os * 2 ^ 32 + to_low os) 10000 0 ltac:(lia) ltac:(lia)). lia. }
    rewrite Z.quot_div_nonneg by lia. lia.
  - unfold module_name. destruct (to_module os) as [x|]; [|reflexivity].
    rewrite (proj2 (Z.ltb_lt (zlen x) 1024)) by (apply Hm; reflexivity). reflexivity.
  - rewrite (Z.rem_mod_nonneg (unix_ms os)) by lia.
    pose proof (Z.mod_pos_bound (unix_ms os) (100000 * 1000) ltac:(lia)) as M0.
    rewrite Z.rem_mod_nonneg by lia.
    rewrite Z.quot_div_nonneg by lia.
    change (100000 * 1000) with 100000000.
    assert (E1 : unix_ms os mod 100000000 / 1000 = unix_ms os / 1000 mod 100000).
    { change 100000000 with (1000 * 100000). rewrite Z.rem_mul_r by lia.
      rewrite (Z.mul_comm 1000 (_ mod 100000)), Z.div_add by lia.
      rewrite (Z.div_small (unix_ms os mod 1000) 1000) by (apply Z.mod_pos_bound; lia). lia. }
    assert (E2 : (unix_ms os mod 100000000) mod 1000 = unix_ms os mod 1000).
    { change 100000000 with (1000 * 100000). rewrite Z.rem_mul_r by lia.
      rewrite (Z.mul_comm 1000 (_ mod 100000)), Z.mod_add by lia. apply Z.mod_mod. lia. }
    rewrite E1, E2.
    assert (E3 : s32 (to_pid os) = to_pid os) by (apply (wraps_small 32); lia).
    assert (E4 : s32 (to_tid os) = to_tid os) by (apply (wraps_small 32); lia).
    rewrite E3, E4.
    pose proof (Z.mod_pos_bound (unix_ms os / 1000) 100000 ltac:(lia)) as M1.
    pose proof (Z.mod_pos_bound (unix_ms os) 1000 ltac:(lia)) as M2.
    assert (P1 := padded_ok 5 (unix_ms os / 1000 mod 100000) ltac:(lia) ltac:(lia)).
    assert (P2 := padded_ok 3 (unix_ms os mod 1000) ltac:(lia) ltac:(lia)).
    do 5 eexists. splits; [exact P1|apply (padded_fixed 5 _ _ ltac:(lia) P1); lia|exact P2|
      apply (padded_fixed 3 _ _ ltac:(lia) P2); lia|apply base_name_ok|
      apply (padded_ok 4); lia|apply (padded_ok 4); lia|].
    reflexivity.
Qed.
Lemma cut_twice (h t : list Z) : zfirstn 1023 (h ++ zfirstn 1023 t) = zfirstn 1023 (h ++ t).
Proof.
  unfold zfirstn. set (n := Z.to_nat 1023). rewrite !firstn_app. rewrite firstn_firstn.
  f_equal. f_equal. lia.
Qed.

(** *** Whether tracing is on *)
Lemma config_flag env f : flag_ok f = true -> exists c, config_of_env env = Ok c /\
  (flag_in_config c f = true <-> In f (flags_of env)).
Proof.
  intros Hf. pose proof (proj1 (flag_ok_spec f) Hf) as N. destruct (lone env f N) as (b & E & Hb).
  unfold lone_flag, hasDebugFlag in E. destruct (config_of_env env) as [c| | | |]; cbn [bind] in E; try discriminate.
  rewrite Hf in E. cbn [assert_ bind] in E. injection E as <-. exists c. split; [reflexivity|exact Hb].
Qed.

(** The states of a process: undecided, or decided by what the environment said. *)
Definition decided (env : env_var) (le : Z) (s : tstate) : Prop :=
  exists c v, config_of_env env = Ok c /\ s = mkT le (negb v) v (Some c) /\ (v = true <-> wants_trace env).
Lemma enabled_fresh env clob le : exists v s, isTracingEnabled env clob (mkT le false false None) = Ok (v, s) /\
  decided env le s /\ (v = true <-> wants_trace env).
Proof.
  destruct (config_flag env (str "trace") eq_refl) as (c & Ec & H1).
  destruct (config_flag env (str "1") eq_refl) as (c' & Ec' & H2).
  assert (c' = c) by congruence. subst c'.
  set (v := flag_in_config c (str "trace") || flag_in_config c (str "1")).
  assert (Hv : v = true <-> wants_trace env).
  { unfold v, wants_trace. rewrite Bool.orb_true_iff, H1, H2. reflexivity. }
  assert (K : forall s f, flag_ok f = true -> t_config s = Some c ->
    hasFlag env clob f s = Ok (flag_in_config c f, s)).
  { intros s f Hf Hs. unfold hasFlag. rewrite Hf. cbn [assert_ bind]. unfold getDebugConfig. rewrite Hs. cbn [bind].
    destruct c as [|x c]; [reflexivity|]. unfold preserving. cbn [bind]. f_equal. f_equal.
    destruct s; reflexivity. }
  assert (K0 : hasFlag env clob (str "trace") (mkT le false false None) =
    Ok (flag_in_config c (str "trace"), mkT le false false (Some c))).
  { unfold hasFlag. change (flag_ok (str "trace")) with true. cbn [assert_ bind].
    unfold getDebugConfig. cbn [t_config]. unfold preserving. cbn [set_le t_le t_disabled t_enabled t_config].
    rewrite Ec. cbn [bind set_le t_le t_disabled t_enabled t_config]. destruct c as [|x c0]; reflexivity. }
  exists v, (mkT le (negb v) v (Some c)). splits.
  - unfold isTracingEnabled. cbn [t_disabled t_enabled]. unfold preserving at 1. rewrite K0. cbn [bind].
    unfold v. destruct (flag_in_config c (str "trace")); cbn [orb negb bind].
    + reflexivity.
    + rewrite K by reflexivity. cbn [bind]. reflexivity.
  - exists c, v. splits; [exact Ec|reflexivity|exact Hv].
  - exact Hv.
Qed.
Lemma enabled_decided env0 env clob le s : decided env0 le s ->
  exists v, isTracingEnabled env clob s = Ok (v, s) /\ (v = true <-> wants_trace env0).
Proof.
  intros (c & v & _ & -> & Hv). exists v. split; [|exact Hv]. destruct v; reflexivity.
Qed.

Lemma open_reached l : reached l <-> open_loop l = Some true.
Proof.
  induction l as [|a l IH]; cbn [reached open_loop]; [split; [intros []|discriminate]|].
  destruct a as [|[|]|]; [split; reflexivity|exact IH|split; [intros []|discriminate]..].
Qed.

(** *** One message *)
Lemma trace_from env0 env clob os text le s v s1 : ordinary os ->
  isTracingEnabled env clob s = Ok (v, s1) -> decided env0 le s1 -> (v = true <-> wants_trace env0) ->
  exists r, trace env clob os text s = Ok (r, s1) /\ as_told env0 os text r.
Proof.
  intros Ho Ee Hd Hv. unfold trace. rewrite Ee. cbn [bind]. destruct v; cbn [negb].
  - destruct (heading_ok os Ho) as (Et & Em & Hh). unfold preserving. cbv zeta. rewrite Et. cbn [bind]. rewrite Em. cbn [bind].
    assert (Es : set_le (set_le s1 clob) (t_le s1) = s1) by (destruct s1; reflexivity). rewrite Es.
    eexists. split; [reflexivity|]. destruct (open_loop (to_opens os)) as [[|]|] eqn:El.
    + right; left. splits; [apply Hv; reflexivity|apply open_reached; exact El|]. eexists. split; [exact Hh|].
      eapply (f_equal Sent). unfold snprintf_1024. rewrite <- (cut_twice _ text). f_equal. rewrite <- !app_assoc. reflexivity.
    + right; right. splits; [apply Hv; reflexivity| |left; reflexivity]. rewrite open_reached, El. discriminate.
    + right; right. splits; [apply Hv; reflexivity| |right; reflexivity]. rewrite open_reached, El. discriminate.
  - exists Silent. split; [reflexivity|]. left. split; [|reflexivity]. intros W. apply Hv in W. discriminate.
Qed.

(** *** A process that traces again and again *)
Lemma all_from env0 le cs : Forall (fun c => ordinary (k_os c)) cs -> forall s, decided env0 le s ->
  exists rs, trace_all cs s = Ok (rs, s) /\ Forall2 (fun c r => as_told env0 (k_os c) (k_text c) r) cs rs.
Proof.
  induction cs as [|c cs IH]; intros F s Hd; cbn [trace_all].
  - exists []. split; [reflexivity|constructor].
  - inversion F as [|x y Fc Fr]; subst x y.
    destruct (enabled_decided env0 (k_env c) (k_clob c) le s Hd) as (v & Ee & Hv).
    destruct (trace_from env0 (k_env c) (k_clob c) (k_os c) (k_text c) le s v s Fc Ee Hd Hv) as (r & Er & Hr).
    rewrite Er. cbn [bind]. destruct (IH Fr s Hd) as (rs & Ers & Hrs). rewrite Ers. cbn [bind].
    exists (r :: rs). split; [reflexivity|constructor; assumption].
Qed.
Lemma all_messages c cs le : Forall (fun c => ordinary (k_os c)) (c :: cs) ->
  exists rs s, trace_all (c :: cs) (mkT le false false None) = Ok (rs, s) /\ t_le s = le /\
    Forall2 (fun x r => as_told (k_env c) (k_os x) (k_text x) r) (c :: cs) rs.
Proof.
  intros F. inversion F as [|x y Fc Fr]; subst x y.
  destruct (enabled_fresh (k_env c) (k_clob c) le) as (v & s & Ee & Hd & Hv).
  destruct (trace_from (k_env c) (k_env c) (k_clob c) (k_os c) (k_text c) le _ v s Fc Ee Hd Hv) as (r & Er & Hr).
  destruct (all_from (k_env c) le cs Fr s Hd) as (rs & Ers & Hrs).
  exists (r :: rs), s. cbn [trace_all]. rewrite Er. cbn [bind]. rewrite Ers. cbn [bind]. splits; [reflexivity| |].
  - destruct Hd as (x & w & _ & -> & _). reflexivity.
  - constructor; assumption.
Qed.

(** *** The last error *)
Lemma preserving_le {A} (f : tstate -> res unit (A * tstate)) s a s' : preserving f s = Ok (a, s') -> t_le s' = t_le s.
Proof.
  unfold preserving. destruct (f s) as [[x s1]| | | |]; cbn [bind]; try discriminate. intros E. injection E as _ <-. reflexivity.
Qed.
Lemma config_le env clob s c s' : getDebugConfig env clob s = Ok (c, s') -> t_le s' = t_le s.
Proof.
  unfold getDebugConfig. destruct (t_config s); [intros E; injection E as _ <-; reflexivity|]. apply preserving_le.
Qed.
Lemma flag_le env clob f s b s' : hasFlag env clob f s = Ok (b, s') -> t_le s' = t_le s.
Proof.
  unfold hasFlag. destruct (flag_ok f); cbn [assert_ bind]; [|discriminate].
  destruct (getDebugConfig env clob s) as [[c s1]| | | |] eqn:Ec; cbn [bind]; try discriminate.
  apply config_le in Ec. rewrite <- Ec. destruct c; [intros E; injection E as _ <-; reflexivity|apply preserving_le].
Qed.
Lemma enabled_le env clob s b s' : isTracingEnabled env clob s = Ok (b, s') -> t_le s' = t_le s.
Proof.
  unfold isTracingEnabled. destruct (t_disabled s); [intros E; injection E as _ <-; reflexivity|].
  destruct (t_enabled s); [intros E; injection E as _ <-; reflexivity|]. apply preserving_le.
Qed.
Lemma trace_le env clob os text s r s' : trace env clob os text s = Ok (r, s') -> t_le s' = t_le s.
Proof.
  unfold trace. destruct (isTracingEnabled env clob s) as [[b s1]| | | |] eqn:E; cbn [bind]; try discriminate.
  apply enabled_le in E. rewrite <- E. destruct b; cbn [negb]; [apply preserving_le|].
  intros E'. injection E' as _ <-. reflexivity.
Qed.

(** *** The server *)
Lemma read_fits buf m : zlen buf = 4097 -> zlen (fst (readFile buf m)) = 4097.
Proof.
  intros H. unfold readFile. cbn [fst]. rewrite zlen_app, zlen_zskipn, zlen_zfirstn. unfold MSG_SIZE.
  pose proof (zlen_nonneg m). lia.
Qed.
Lemma serve_ok cs : forall buf, zlen buf = 4097 ->
  serve cs buf = Ok (flat_map shown (fst (until_failure cs)), snd (until_failure cs)).
Proof.
  induction cs as [|c cs IH]; intros buf Hb; [reflexivity|]. destruct c as [| |m]; [reflexivity| |].
  - cbn [serve until_failure]. rewrite (IH buf Hb). cbn [bind]. destruct (until_failure cs). reflexivity.
  - cbn [serve until_failure]. pose proof (read_fits buf m Hb) as Hb1. unfold readFile in *. cbn [fst] in Hb1.
    cbv zeta. destruct (Z.leb_spec (zlen m) MSG_SIZE) as [L|L].
    + rewrite (zfirstn_all MSG_SIZE m L) in *. unfold MSG_SIZE in L.
      assert (S : zskipn (zlen m) buf <> []).
      { intros E. pose proof (zlen_zskipn (zlen m) buf) as X. rewrite E, Hb in X. change (zlen (@nil Z)) with 0 in X.
        pose proof (zlen_nonneg m). lia. }
      destruct (zskipn (zlen m) buf) as [|x r] eqn:Er; [congruence|].
      rewrite zupd_app. rewrite (IH (m ++ 10 :: r)).
      2:{ rewrite zlen_app, zlen_cons in Hb1. rewrite zlen_app, zlen_cons. exact Hb1. }
      cbn [bind]. replace (m ++ 10 :: r) with ((m ++ [10]) ++ r) by (rewrite <- app_assoc; reflexivity).
      rewrite (zfirstn_app_exact (m ++ [10]) r) by (rewrite zlen_app; reflexivity).
      destruct (until_failure cs). cbn [fst snd flat_map shown].
      rewrite (proj2 (Z.leb_le (zlen m) 4096) L). reflexivity.
    + rewrite (IH _ Hb1). cbn [bind]. destruct (until_failure cs). cbn [fst snd flat_map shown].
      unfold MSG_SIZE in L. rewrite (proj2 (Z.leb_gt (zlen m) 4096) L). reflexivity.
Qed.
Lemma serve_all_ok cs : serve_all cs = Ok (flat_map shown (fst (until_failure cs)), snd (until_failure cs)).
Proof. unfold serve_all. apply serve_ok. reflexivity. Qed.

Lemma sent_printed env clob os text s m s' : trace env clob os text s = Ok (Sent m, s') ->
  zlen m <= 1023 /\ shown (Message m) = [OPrint (m ++ [10]); OReply].
Proof.
  intros H. assert (L : zlen m <= 1023).
  { unfold trace in H. destruct (isTracingEnabled env clob s) as [[b s1]| | | |]; cbn [bind] in H; try discriminate.
    destruct b; cbn [negb] in H; [|discriminate]. unfold preserving in H. cbv zeta in H.
    destruct (unixTimeMillis os) as [now| | | |]; cbn [bind] in H; try discriminate.
    destruct (module_name os) as [nm| | | |]; cbn [bind] in H; try discriminate.
    destruct (open_loop (to_opens os)) as [[|]|]; try discriminate.
    injection H as <- _. unfold snprintf_1024. rewrite zlen_zfirstn. lia. }
  split; [exact L|]. unfold shown. rewrite (proj2 (Z.leb_le (zlen m) 4096)) by lia. reflexivity.
Qed.
