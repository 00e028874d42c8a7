From Verif Require Import Base BaseLemmas Text CmdLine CmdLineSpec NamedPipeProofs.

Lemma zrepeat_bs n : 0 <= n -> zrepeat BS n = backslashes (Z.to_nat n).
Proof. reflexivity. Qed.

(** *** The reader and runs of backslashes *)
Lemma split_bs m n l inq k cur : split m (backslashes n ++ l) inq k cur = split m l inq (k + n) cur.
Proof.
  revert k. induction n as [|n IH]; intros k; [now rewrite Nat.add_0_r|].
  cbn [backslashes repeat app split]. change (92 =? 92) with true. cbn match. fold (backslashes n).
  rewrite IH. f_equal. lia.
Qed.

Lemma odd_2n1 n : Nat.odd (0 + (2 * n + 1)) = true.
Proof. rewrite Nat.add_0_l, Nat.odd_add, Nat.odd_mul. reflexivity. Qed.
Lemma div2_2n1 n : Nat.div2 (0 + (2 * n + 1)) = n.
Proof. rewrite Nat.add_0_l, Nat.add_1_r. apply Nat.div2_succ_double. Qed.
Lemma odd_2n n : Nat.odd (0 + 2 * n) = false.
Proof. rewrite Nat.add_0_l, Nat.odd_mul. reflexivity. Qed.
Lemma div2_2n n : Nat.div2 (0 + 2 * n) = n.
Proof. rewrite Nat.add_0_l. apply Nat.div2_double. Qed.

Lemma add_add cur x y : add (add cur x) y = add cur (x ++ y).
Proof. unfold add. destruct cur as [a|]; [now rewrite app_assoc|reflexivity]. Qed.
Lemma add_some a x : add (Some a) x = Some (a ++ x).
Proof. reflexivity. Qed.

(** *** What the writer produces *)
Lemma arg_loop_len {E} p : forall bs res0 r b, 0 <= bs -> @arg_loop E p bs res0 = Ok (r, b) -> 0 <= b <= bs + zlen p.
Proof.
  induction p as [|c t IH]; intros bs res0 r b Hb H; cbn [arg_loop] in H.
  - injection H as <- <-. change (zlen (@nil Z)) with 0. lia.
  - rewrite zlen_cons. destruct (c =? BS).
    + unfold ck_int in H. destruct (bs + 1 <=? INT_MAX); cbn [bind] in H; [|discriminate].
      apply IH in H; [lia|lia].
    + destruct (c =? QT).
      * unfold ck_int in H. destruct (bs * 2 + 1 <=? INT_MAX); cbn [bind] in H; [|discriminate]. apply IH in H; [lia|lia].
      * apply IH in H; [lia|lia].
Qed.

(** Reading back the characters of one argument: [bs] pending backslashes are not
    written yet.  In an unquoted argument no character is blank. *)
Lemma arg_loop_split {E} m inq p : forall bs res0, 0 <= bs -> bs + zlen p < 2 ^ 30 ->
  (inq = false -> existsb is_blank p = false) ->
  exists body b, @arg_loop E p bs res0 = Ok (res0 ++ body, b) /\ 0 <= b <= bs + zlen p /\
    forall rest cur, 
      exists txt, (bs = 0 -> txt ++ backslashes (Z.to_nat b) = p) /\
        (txt ++ backslashes (Z.to_nat b) = backslashes (Z.to_nat bs) ++ p) /\
        split m (body ++ rest) inq 0 cur = split m rest inq 0 (match txt with [] => cur | _ => add cur txt end).
Proof.
  induction p as [|c t IH]; intros bs res0 Hb Hl Hq; cbn [arg_loop].
  - exists [], bs. rewrite app_nil_r. change (zlen (@nil Z)) with 0 in *. split; [reflexivity|]. split; [lia|].
    intros rest cur. exists []. cbn [app]. rewrite app_nil_r. splits; [intros ->; reflexivity|reflexivity|reflexivity].
  - rewrite zlen_cons in *.
    assert (Hq' : inq = false -> existsb is_blank t = false).
    { intros H. specialize (Hq H). cbn [existsb] in Hq. now apply orb_false_iff in Hq. }
    pose proof (zlen_nonneg t).
    destruct (Z.eqb_spec c BS) as [->|Hc].
    + unfold ck_int, INT_MAX. replace (bs + 1 <=? 2147483647) with true by lia. cbn [bind].
      destruct (IH (bs + 1) res0) as (body & b & E1 & Hb1 & Hs); [lia|lia|exact Hq'|].
      exists body, b. split; [exact E1|]. split; [lia|]. intros rest cur.
      destruct (Hs rest cur) as (txt & _ & T2 & T3). exists txt.
      assert (T2' : txt ++ backslashes (Z.to_nat b) = backslashes (Z.to_nat bs) ++ BS :: t).
      { rewrite T2. replace (Z.to_nat (bs + 1)) with (S (Z.to_nat bs)) by lia. unfold backslashes, BS. cbn [repeat].
        rewrite repeat_cons, <- app_assoc. reflexivity. }
      splits; [intros ->; exact T2'|exact T2'|exact T3].
    + destruct (Z.eqb_spec c QT) as [->|Hc2].
      * unfold ck_int, INT_MAX. replace (bs * 2 + 1 <=? 2147483647) with true by lia. cbn [bind].
        destruct (IH 0 (res0 ++ zrepeat BS (bs * 2 + 1) ++ [QT])) as (body & b & E1 & Hb1 & Hs); [lia|lia|exact Hq'|].
        exists (zrepeat BS (bs * 2 + 1) ++ [QT] ++ body), b.
        split; [rewrite E1; f_equal; f_equal; now rewrite <- !app_assoc|]. split; [lia|]. intros rest cur.
        destruct (Hs rest (add cur (backslashes (Z.to_nat bs) ++ [34]))) as (txt & T1 & _ & T3).
        exists (backslashes (Z.to_nat bs) ++ [34] ++ txt). specialize (T1 eq_refl).
        assert (T2' : (backslashes (Z.to_nat bs) ++ [34] ++ txt) ++ backslashes (Z.to_nat b) = backslashes (Z.to_nat bs) ++ QT :: t).
        { rewrite <- T1. now rewrite <- !app_assoc. }
        splits; [intros ->; exact T2'|exact T2'|].
        rewrite <- !app_assoc. rewrite zrepeat_bs by lia.
        replace (Z.to_nat (bs * 2 + 1)) with (2 * Z.to_nat bs + 1)%nat by lia.
        rewrite split_bs. cbn [app split]. change (QT =? 92) with false. change (QT =? 34) with true. cbn match.
        rewrite odd_2n1, div2_2n1, add_add, T3.
        destruct (backslashes (Z.to_nat bs) ++ 34 :: txt) eqn:Ed; [destruct (backslashes (Z.to_nat bs)); discriminate|].
        rewrite <- Ed. destruct txt as [|x txt]; [reflexivity|]. rewrite add_add, <- app_assoc. reflexivity.
      * destruct (IH 0 (res0 ++ zrepeat BS bs ++ [c])) as (body & b & E1 & Hb1 & Hs); [lia|lia|exact Hq'|].
        exists (zrepeat BS bs ++ [c] ++ body), b.
        split; [rewrite E1; f_equal; f_equal; now rewrite <- !app_assoc|]. split; [lia|]. intros rest cur.
        destruct (Hs rest (add cur (backslashes (Z.to_nat bs) ++ [c]))) as (txt & T1 & _ & T3).
        exists (backslashes (Z.to_nat bs) ++ [c] ++ txt). specialize (T1 eq_refl).
        assert (T2' : (backslashes (Z.to_nat bs) ++ [c] ++ txt) ++ backslashes (Z.to_nat b) = backslashes (Z.to_nat bs) ++ c :: t).
        { rewrite <- T1. now rewrite <- !app_assoc. }
        splits; [intros ->; exact T2'|exact T2'|].
        rewrite <- !app_assoc. rewrite zrepeat_bs by lia. rewrite split_bs. cbn [app split].
        unfold BS, QT in *. replace (c =? 92) with false by lia. replace (c =? 34) with false by lia.
        assert (Hbl : is_blank c && negb inq = false).
        { destruct inq; [now rewrite andb_false_r|]. specialize (Hq eq_refl). cbn [existsb] in Hq.
          apply orb_false_iff in Hq. destruct Hq as (-> & _). reflexivity. }
        rewrite Hbl, Nat.add_0_l, T3.
        destruct (backslashes (Z.to_nat bs) ++ c :: txt) eqn:Ed; [destruct (backslashes (Z.to_nat bs)); discriminate|].
        rewrite <- Ed. destruct txt as [|x txt]; [reflexivity|]. rewrite add_add, <- app_assoc. reflexivity.
Qed.

Lemma quote_needed_blank a : quote_needed a = existsb is_blank a || (zlen a =? 0).
Proof.
  unfold quote_needed. f_equal. clear. induction a as [|c a IH]; [reflexivity|].
  cbn [existsb]. rewrite <- IH. unfold is_blank, SP, TAB. rewrite (Z.eqb_sym 32 c), (Z.eqb_sym 9 c).
  destruct (c =? 32), (c =? 9), (existsb (Z.eqb 32) a), (existsb (Z.eqb 9) a); reflexivity.
Qed.

(** [rest] is the end of the line or a blank. *)
Definition delimited (rest : list Z) : Prop := rest = [] \/ exists t, rest = SP :: t.

Lemma one_arg_split {E} m a res0 : zlen a < 2 ^ 30 ->
  exists enc, @one_arg E a res0 = Ok (res0 ++ enc) /\
    forall rest, delimited rest ->
      split m (enc ++ rest) false 0 None = a :: match rest with [] => [] | _ :: t => split m t false 0 None end.
Proof.
  intros Hl. unfold one_arg. rewrite quote_needed_blank. pose proof (zlen_nonneg a) as Ha.
  destruct (existsb is_blank a || (zlen a =? 0)) eqn:Eq; cbv zeta.
  - destruct (@arg_loop_split E m true a 0 (res0 ++ [QT])) as (body & b & E1 & Hb & Hs); [lia|lia|discriminate|].
    rewrite E1. cbn [bind]. unfold ck_int, INT_MAX. replace (b * 2 <=? 2147483647) with true by lia. cbn [bind].
    exists ([QT] ++ body ++ zrepeat BS (b * 2) ++ [QT]). split; [f_equal; now rewrite <- !app_assoc|].
    intros rest Hr. rewrite <- !app_assoc. cbn [app split]. change (QT =? 92) with false. change (QT =? 34) with true.
    cbn match. cbn [Nat.odd Nat.even negb Nat.div2 backslashes repeat].
    assert (Hcur : add None [] = Some (@nil Z)) by reflexivity. 
    destruct (Hs (zrepeat BS (b * 2) ++ QT :: rest) (Some [])) as (txt & T1 & _ & T3). specialize (T1 eq_refl).
    assert (Hgo : forall mm, mm = m -> split m (body ++ zrepeat BS (b * 2) ++ QT :: rest) true 0 (Some []) =
      a :: match rest with [] => [] | _ :: t => split m t false 0 None end).
    { intros _ _. rewrite T3, zrepeat_bs by lia.
      replace (Z.to_nat (b * 2)) with (2 * Z.to_nat b)%nat by lia. rewrite split_bs. cbn [split].
      change (QT =? 92) with false. change (QT =? 34) with true. cbn match. rewrite odd_2n, div2_2n.
      assert (Hadd : add (match txt with [] => Some [] | _ => add (Some []) txt end) (backslashes (Z.to_nat b)) = Some a).
      { rewrite <- T1. destruct txt; reflexivity. }
      rewrite Hadd. cbn [negb].
      destruct Hr as [->|(t & ->)]; destruct m; cbn [split flush add backslashes repeat app];
        rewrite ?app_nil_r; reflexivity. }
    rewrite Hcur. destruct m; apply (Hgo _ eq_refl).
  - apply orb_false_iff in Eq. destruct Eq as (Eb & Ez).
    destruct (@arg_loop_split E m false a 0 res0) as (body & b & E1 & Hb & Hs); [lia|lia|auto|].
    rewrite E1. cbn [bind]. exists (body ++ zrepeat BS b). split; [now rewrite app_assoc|].
    intros rest Hr. rewrite <- app_assoc.
    destruct (Hs (zrepeat BS b ++ rest) None) as (txt & T1 & _ & T3). specialize (T1 eq_refl).
    rewrite T3, zrepeat_bs, split_bs by lia. rewrite Nat.add_0_l.
    assert (Hfl : flush (match txt with [] => None | _ => add None txt end) (Z.to_nat b) = [a]).
    { unfold flush. destruct txt as [|x txt].
      - cbn [app] in T1. destruct (Z.to_nat b) eqn:Eb2; [cbn in T1; subst a; discriminate|]. cbn [add]. now rewrite T1.
      - cbn [add]. now rewrite T1. }
    destruct Hr as [->|(t & ->)]; cbn [split].
    + exact Hfl.
    + change (SP =? 92) with false. change (SP =? 34) with false. change (is_blank SP) with true. cbn [andb negb].
      rewrite Hfl. reflexivity.
Qed.

Lemma argv_loop_split {E} m argv : forall res0, Forall (fun a => zlen a < 2 ^ 30) argv ->
  exists enc, @argv_loop E false argv res0 = Ok (res0 ++ enc) /\
    delimited enc /\ match enc with [] => argv = [] | _ :: t => split m t false 0 None = argv end.
Proof.
  induction argv as [|a argv IH]; intros res0 F; cbn [argv_loop].
  - exists []. rewrite app_nil_r. splits; [reflexivity|left; reflexivity|reflexivity].
  - inversion F as [|? ? Ha F']; subst.
    destruct (@one_arg_split E m a (res0 ++ [SP]) Ha) as (enc1 & E1 & H1). rewrite E1. cbn [bind].
    destruct (IH ((res0 ++ [SP]) ++ enc1) F') as (enc2 & E2 & D2 & H2).
    exists (SP :: enc1 ++ enc2). split; [rewrite E2; f_equal; now rewrite <- !app_assoc|].
    split; [right; eexists; reflexivity|]. rewrite (H1 enc2 D2). f_equal.
    destruct enc2; [now rewrite H2|exact H2].
Qed.

(** *** The program name *)
Lemma arg_loop_prog {E} p : forall bs res0, 0 <= bs -> bs + zlen p < 2 ^ 30 -> ~ In 34 p ->
  exists body b, @arg_loop E p bs res0 = Ok (res0 ++ body, b) /\ 0 <= b <= bs + zlen p /\
    body ++ zrepeat BS b = zrepeat BS bs ++ p /\ (last (zrepeat BS bs ++ p) 0 <> 92 -> b = 0).
Proof.
  induction p as [|c t IH]; intros bs res0 Hb Hl Hn; cbn [arg_loop].
  - exists [], bs. rewrite !app_nil_r. change (zlen (@nil Z)) with 0 in *. splits; try reflexivity; try lia.
    intros Hlast. destruct (Z.eq_dec bs 0) as [->|Hne]; [reflexivity|]. exfalso. apply Hlast.
    unfold zrepeat. replace (Z.to_nat bs) with (S (Z.to_nat (bs - 1))) by lia. cbn [repeat].
    rewrite repeat_cons, last_last. reflexivity.
  - rewrite zlen_cons in *. pose proof (zlen_nonneg t). assert (Hn' : ~ In 34 t) by (intros H0; apply Hn; now right).
    destruct (Z.eqb_spec c BS) as [->|Hc].
    + unfold ck_int, INT_MAX. replace (bs + 1 <=? 2147483647) with true by lia. cbn [bind].
      destruct (IH (bs + 1) res0) as (body & b & E1 & Hb1 & T & L); [lia|lia|exact Hn'|].
      assert (Heq : zrepeat BS (bs + 1) ++ t = zrepeat BS bs ++ BS :: t).
      { unfold zrepeat. replace (Z.to_nat (bs + 1)) with (S (Z.to_nat bs)) by lia. cbn [repeat].
        rewrite repeat_cons, <- app_assoc. reflexivity. }
      exists body, b. rewrite <- Heq. splits; auto; lia.
    + destruct (Z.eqb_spec c QT) as [->|Hc2]; [exfalso; apply Hn; left; reflexivity|].
      destruct (IH 0 (res0 ++ zrepeat BS bs ++ [c])) as (body & b & E1 & Hb1 & T & L); [lia|lia|exact Hn'|].
      exists (zrepeat BS bs ++ [c] ++ body), b. change (zrepeat BS 0) with (@nil Z) in T, L. cbn [app] in T, L.
      splits; [rewrite E1; f_equal; f_equal; now rewrite <- !app_assoc|lia|lia|rewrite <- T; now rewrite <- !app_assoc|].
      intros Hlast. destruct t as [|d t].
      * change (zlen (@nil Z)) with 0 in Hb1. lia.
      * apply L. intros Hx. apply Hlast. rewrite <- Hx. clear.
        change (c :: d :: t) with ([c] ++ d :: t). rewrite app_assoc.
        generalize (zrepeat BS bs ++ [c]). intros l. induction l as [|x l IHl]; [reflexivity|].
        cbn [app last]. rewrite IHl. destruct (l ++ d :: t) eqn:E0; [destruct l; discriminate|reflexivity].
Qed.

Lemma program_name_plain p : forall inq rest acc, ~ In 34 p -> (inq = false -> existsb is_blank p = false) ->
  program_name (p ++ rest) inq acc = program_name rest inq (acc ++ p).
Proof.
  induction p as [|c t IH]; intros inq rest acc Hn Hb; [now rewrite app_nil_r|].
  cbn [app program_name]. replace (c =? 34) with false by (symmetry; apply Z.eqb_neq; intros ->; apply Hn; now left).
  assert (Hbl : is_blank c && negb inq = false).
  { destruct inq; [now rewrite andb_false_r|]. specialize (Hb eq_refl). cbn [existsb] in Hb.
    apply orb_false_iff in Hb. destruct Hb as (-> & _). reflexivity. }
  rewrite Hbl, IH; [now rewrite <- app_assoc|intros H0; apply Hn; now right|].
  intros H0. specialize (Hb H0). cbn [existsb] in Hb. now apply orb_false_iff in Hb.
Qed.

Lemma last_In_92 (p : list Z) : p <> [] -> In (last p 0) p.
Proof.
  intros H. destruct p as [|x p] using rev_ind; [congruence|]. rewrite last_last. apply in_or_app. right. now left.
Qed.

Lemma roundtrip {E} m prog argv :
  program_ok prog -> Forall (fun a => zlen a < 2 ^ 30) (prog :: argv) ->
  exists line, @argvToCommandLine E (prog :: argv) = Ok line /\ windows_argv m line = prog :: argv.
Proof.
  intros (Hq & Hlast) F. inversion F as [|? ? Hp F']; subst. unfold argvToCommandLine. cbn [argv_loop].
  pose proof (zlen_nonneg prog) as Hz.
  assert (H1 : exists enc, @one_arg E prog [] = Ok enc /\ forall rest, delimited rest ->
    program_name (enc ++ rest) false [] = (prog, match rest with [] => [] | _ :: t => t end)).
  { unfold one_arg. rewrite quote_needed_blank. cbv zeta.
    destruct (existsb is_blank prog || (zlen prog =? 0)) eqn:Eq.
    - destruct (@arg_loop_prog E prog 0 ([] ++ [QT])) as (body & b & E1 & Hb & T & L); [lia|lia|exact Hq|].
      rewrite E1. cbn [bind]. unfold ck_int, INT_MAX. replace (b * 2 <=? 2147483647) with true by lia. cbn [bind].
      assert (b = 0) as ->.
      { apply L. change (zrepeat BS 0) with (@nil Z). cbn [app]. apply orb_true_iff in Eq.
        destruct Eq as [Eb|Ez]; [now apply Hlast|]. apply Z.eqb_eq, zlen_0_nil in Ez. subst prog. discriminate. }
      change (zrepeat BS 0) with (@nil Z) in T. change (zrepeat BS (0 * 2)) with (@nil Z). rewrite app_nil_r in T. cbn [app] in T.
      subst body. eexists. split; [reflexivity|]. intros rest Hr. rewrite <- !app_assoc. cbn [app program_name].
      change (QT =? 34) with true. cbn match. cbn [negb]. rewrite program_name_plain by (auto; discriminate).
      cbn [app program_name]. change (QT =? 34) with true. cbn match. cbn [negb].
      destruct Hr as [->|(t & ->)]; reflexivity.
    - apply orb_false_iff in Eq. destruct Eq as (Eb & _).
      destruct (@arg_loop_prog E prog 0 []) as (body & b & E1 & Hb & T & _); [lia|lia|exact Hq|].
      rewrite E1. cbn [bind app] in *. change (zrepeat BS 0) with (@nil Z) in T. cbn [app] in T. rewrite T.
      eexists. split; [reflexivity|]. intros rest Hr. rewrite program_name_plain by auto. cbn [app].
      destruct Hr as [->|(t & ->)]; reflexivity. }
  destruct H1 as (enc & E1 & H1). rewrite E1. cbn [bind].
  destruct (@argv_loop_split E m argv enc F') as (enc2 & E2 & D2 & H2).
  exists (enc ++ enc2). split; [exact E2|]. unfold windows_argv. rewrite (H1 enc2 D2). f_equal.
  destruct enc2; [now rewrite H2|exact H2].
Qed.

(** *** parseArguments *)
Definition set_flags (f : Flags) (opts : list (list Z)) : Flags :=
  mkFlags (mouseInput f || given (str "--mouse") opts)
          (testAllowNonTtys f || given (str "-Xallow-non-tty") opts)
          (testConerr f || given (str "-Xconerr") opts)
          (testPlainOutput f || given (str "-Xplain") opts)
          (testColorEscapes f || given (str "-Xcolor") opts)
          (doShowKeys f || given (str "--showkey") opts).

Lemma parse_opts opts : forall f rest, Forall (fun o => In o flag_options) opts ->
  parse_loop f (opts ++ rest) = parse_loop (set_flags f opts) rest.
Proof.
  induction opts as [|o opts IH]; intros f rest F.
  - cbn [app]. f_equal. unfold set_flags. cbn [given existsb]. rewrite !orb_false_r. now destruct f.
  - inversion F as [|? ? Ho F']; subst. unfold flag_options in Ho. cbn [In] in Ho.
    repeat (destruct Ho as [<-|Ho]); try contradiction;
      cbn [app parse_loop]; cbn -[parse_loop app set_flags]; rewrite IH by exact F'; f_equal;
      unfold set_flags; cbn -[orb given]; f_equal;
      cbn [given existsb]; fold (given (str "--mouse") opts); 
      repeat match goal with |- context [list_eqb ?a ?b] => let v := eval vm_compute in (list_eqb a b) in change (list_eqb a b) with v end;
      cbn [orb]; rewrite ?orb_true_r, ?orb_true_l; reflexivity.
Qed.

Lemma parse_dashdash opts t : Forall (fun o => In o flag_options) opts ->
  parseArguments (opts ++ str "--" :: t) = finish (set_flags noFlags opts) t.
Proof. intros F. unfold parseArguments. rewrite parse_opts by exact F. reflexivity. Qed.

Lemma parse_program opts p t : Forall (fun o => In o flag_options) opts -> starts_dash p = false ->
  parseArguments (opts ++ p :: t) = finish (set_flags noFlags opts) (p :: t).
Proof. intros F H. unfold parseArguments. rewrite parse_opts by exact F. cbn [parse_loop]. now rewrite H. Qed.

Lemma parse_none opts : Forall (fun o => In o flag_options) opts ->
  parseArguments opts = finish (set_flags noFlags opts) [].
Proof. intros F. unfold parseArguments. rewrite <- (app_nil_r opts) at 1. rewrite parse_opts by exact F. reflexivity. Qed.



Lemma parse_unknown opts x t : Forall (fun o => In o flag_options) opts ->
  starts_dash x = true -> ~ In x flag_options -> ~ In x special ->
  parseArguments (opts ++ x :: t) = Unrecognized x.
Proof.
  intros F Hd H1 H2. unfold parseArguments. rewrite parse_opts by exact F. cbn [parse_loop]. rewrite Hd.
  assert (N : forall k, In k flag_options \/ In k special -> list_eqb x k = false).
  { intros k Hk. apply list_eqb_neq. intros ->. tauto. }
  unfold flag_options, special in N. cbn [In] in N.
  repeat match goal with |- context [list_eqb x ?k] => rewrite (N k) by auto 20 end. reflexivity.
Qed.

Lemma parse_help opts x t : Forall (fun o => In o flag_options) opts -> x = str "-h" \/ x = str "--help" ->
  parseArguments (opts ++ x :: t) = ShowHelp.
Proof. intros F Hx. unfold parseArguments. rewrite parse_opts by exact F. destruct Hx as [-> | ->]; reflexivity. Qed.

Lemma parse_version opts t : Forall (fun o => In o flag_options) opts ->
  parseArguments (opts ++ str "--version" :: t) = ShowVersion.
Proof. intros F. unfold parseArguments. rewrite parse_opts by exact F. reflexivity. Qed.

Lemma in_dec_str (x : list Z) l : {In x l} + {~ In x l}.
Proof. apply in_dec. apply list_eq_dec, Z.eq_dec. Qed.

Lemma parse_cases args : exists opts, Forall (fun o => In o flag_options) opts /\
  (args = opts \/
   exists x t, args = opts ++ x :: t /\
     (In x special \/ starts_dash x = false \/ (starts_dash x = true /\ ~ In x flag_options /\ ~ In x special))).
Proof.
  induction args as [|x args IH].
  - exists []. split; [constructor|now left].
  - destruct (in_dec_str x flag_options) as [Hf|Hf].
    + destruct IH as (opts & F & [->|(y & t & -> & Hy)]).
      * exists (x :: opts). split; [now constructor|now left].
      * exists (x :: opts). split; [now constructor|]. right. exists y, t. auto.
    + exists []. split; [constructor|]. right. exists x, args. split; [reflexivity|].
      destruct (in_dec_str x special) as [Hs|Hs]; [now left|].
      destruct (starts_dash x) eqn:Ed; [right; right; auto|right; now left].
Qed.
