From Verif Require Import Base BaseLemmas Text Unicode UnicodeSpec UnicodeProofs InputMap InputMapSpec InputMapProofs
  DefaultInputMap DefaultInputMapSpec DefaultInputMapProofs ConsoleInput ConsoleInputSpec ConsoleInputScan ConsoleInputToken ConsoleInputRun.
Ltac Zify.zify_post_hook ::= Z.div_mod_to_equations.
Ltac splits := repeat match goal with |- _ /\ _ => split end.

(** *** Lengths *)
Lemma documented_len : forallb (fun '(s, _, _) => zlen s <=? 31) documented = true.
Proof. vm_compute. reflexivity. Qed.
Lemma means_key_len s k : means_key s k -> zlen s <= 31.
Proof.
  intros (name & m & Hi & _). pose proof documented_len as H. rewrite forallb_forall in H. specialize (H _ Hi). cbn beta iota in H. lia.
Qed.
Lemma signed_len s v : signed_num s v -> zlen s <= 8.
Proof. intros [d (H & _)|d (H & _)]; rewrite ?zlen_cons; lia. Qed.
Ltac zl := rewrite ?zlen_app, ?zlen_cons; change (zlen (@nil Z)) with 0.
Lemma dsr_len s : dsr_reply s -> 6 <= zlen s <= 18.
Proof. intros (a & b & (Ha & _) & (Hb & _) & ->). zl. lia. Qed.
Lemma mouse_len s r : mouse_seq s r -> 6 <= zlen s <= 29.
Proof.
  assert (P : forall x v, signed_num x v -> 1 <= zlen x <= 8).
  { intros x v [d (H & _)|d (H & _)]; rewrite ?zlen_cons; lia. }
  intros [f x vx y vy c (Hf & _) Hx Hy Hc|f x vx y vy (Hf & _) Hx Hy|f x y Hb]; [| |cbn; lia]; apply P in Hx, Hy; zl; lia.
Qed.
Lemma recognisable_len s : recognisable s -> zlen s <= 31.
Proof.
  intros [s' H|s' r H|s' k H|b t H|b t H].
  - apply dsr_len in H. lia.
  - apply mouse_len in H. lia.
  - now apply means_key_len in H.
  - pose proof (announced_le b). lia.
  - pose proof (announced_le b). rewrite (zlen_cons 27). lia.
Qed.

(** *** Waiting does not depend on the mode *)
Section Ext.
Variables e e' : env.
Hypothesis EO : env_ok e.
Hypothesis EO' : env_ok e'.
Lemma cdigit_ext c : cdigit e c = cdigit e' c.
Proof. unfold cdigit. destruct EO as (_ & D), EO' as (_ & D'). rewrite D, D'. reflexivity. Qed.
Lemma scan_digits_ext m : forall l k out, scan_digits e m k out l = scan_digits e' m k out l.
Proof.
  induction l as [|c t IH]; intros k out; [reflexivity|]. cbn [scan_digits]. destruct (k + 1 <? m); [|reflexivity]. destruct (in_s 32 _); [|reflexivity].
  destruct t as [|d t]; [reflexivity|]. rewrite cdigit_ext. destruct (cdigit e' d); [apply IH|reflexivity].
Qed.
Lemma scan_int_ext m l : scan_int e m l = scan_int e' m l.
Proof. unfold scan_int, pcheck. destruct l as [|c t]; [reflexivity|]. rewrite cdigit_ext. destruct (cdigit e' c); [apply scan_digits_ext|reflexivity]. Qed.
Lemma pbind_ext {A B} (m m' : pr A) (k k' : A -> list Z -> pr B) : m = m' -> (forall a l, k a l = k' a l) -> pbind m k = pbind m' k'.
Proof. intros <- H. destruct m; cbn; auto. Qed.
Lemma scan_signed_ext m l : scan_signed e m l = scan_signed e' m l.
Proof.
  unfold scan_signed. destruct l as [|c t]; [reflexivity|]. destruct (c =? ch "-"); [|apply scan_int_ext].
  apply pbind_ext; [reflexivity|]. intros _ l. apply pbind_ext; [apply scan_int_ext|reflexivity].
Qed.
Lemma matchDsr_ext l : matchDsr e l = matchDsr e' l.
Proof. unfold matchDsr. repeat (apply pbind_ext; [reflexivity || apply scan_int_ext|intros]); reflexivity. Qed.
Lemma matchMouse_ext l : matchMouseRecord e l = matchMouseRecord e' l.
Proof.
  unfold matchMouseRecord.
  replace (matchMouse1006 e l) with (matchMouse1006 e' l) by (symmetry; unfold matchMouse1006; repeat (apply pbind_ext; [reflexivity || apply scan_int_ext || apply scan_signed_ext|intros]); reflexivity).
  replace (matchMouse1015 e l) with (matchMouse1015 e' l) by (symmetry; unfold matchMouse1015; repeat (apply pbind_ext; [reflexivity || apply scan_int_ext || apply scan_signed_ext|intros]); reflexivity).
  reflexivity.
Qed.
Lemma classTable_ext l eof : classTable e l eof = classTable e' l eof.
Proof. unfold classTable. rewrite (e_root_eq e EO), (e_root_eq e' EO'). reflexivity. Qed.
Lemma ctrlc_means : means_key [3] (press KC with_ctrl).
Proof. exists KC, with_ctrl. split; [|reflexivity]. unfold documented. repeat (apply in_or_app; right). left. reflexivity. Qed.
Lemma key_class s k rest eof : means_key s k -> bytes rest -> classTable e (s ++ rest) eof = CTok (zlen s) (TKey k).
Proof.
  intros M Hb. destruct (@default_recognised unit s k rest M Hb) as (root & R & L).
  assert (root = e_root e) by (rewrite (e_root_eq e EO); exact (Ok_inj _ _ (eq_trans (eq_sym R) (eq_trans add_eq droot_eq)))). subst root.
  unfold classTable. rewrite L, andb_false_r. cbv iota. replace (0 <? zlen s) with true; [reflexivity|].
  destruct M as (name & m & Hi & ->). destruct s as [|x s]; [|rewrite zlen_cons; pose proof (zlen_nonneg s); lia].
  exfalso. assert (Hd : In ([], press name m) docs) by (rewrite docs_eq; apply in_map_iff; exists ([], name, m); auto).
  destruct (regs_bytes _ _ _ docs_ok Hd) as (Hne & _). congruence.
Qed.
Lemma waiting_ext l : bytes l -> classify e l false = CMore -> classify e' l false = CMore.
Proof.
  intros Hb. destruct l as [|b t]; [discriminate|]. rewrite !(classify_cons _ _ b t false eq_refl).
  rewrite matchDsr_ext, matchMouse_ext, classTable_ext.
  destruct (Z.eqb_spec b 3) as [->|Hn]; [|auto]. change (3 =? 27) with false. cbn [andb].
  rewrite <- classTable_ext. change (3 :: t) with ([3] ++ t). apply bytes_cons in Hb as (_ & Hb). rewrite (key_class [3] _ t false ctrlc_means Hb).
  destruct (processed e), (processed e'); discriminate.
Qed.
End Ext.

(** *** The invariant *)
Definition inv (c : ci) : Prop :=
  c_records c = [] /\ bytes (c_queue c) /\ zlen (c_queue c) <= 31 /\
  (c_queue c = [] \/ forall e, env_ok e -> classify e (c_queue c) false = CMore).

Lemma rest_inv e rest : env_ok e -> bytes rest -> (rest = [] \/ (rest <> [] /\ classify e rest false = CMore)) ->
  zlen rest <= 31 /\ (rest = [] \/ forall e, env_ok e -> classify e rest false = CMore).
Proof.
  intros EO Hb [->|(Hn & Hc)]; [split; [vm_compute; discriminate|auto]|]. split.
  - pose proof (classify_spec e EO rest false Hb Hn) as Sp. rewrite Hc in Sp. destruct Sp as ((c & _ & _ & R) & _).
    apply recognisable_len in R. rewrite zlen_app in R. pose proof (zlen_nonneg c). lia.
  - right. intros e' EO'. exact (waiting_ext e e' EO EO' _ Hb Hc).
Qed.
Lemma told_nil c : c_records c = [] -> told c = received (c_log c).
Proof. intros H. unfold told. rewrite H. cbn. apply app_nil_r. Qed.
Lemma cfg_core c c' : core c = core c' -> cfg c = cfg c'.
Proof. unfold core, cfg. intros H. injection H. intros. congruence. Qed.
Lemma core_same c c' : core c = core c' -> same_state c c'.
Proof. unfold core, same_state. intros H. injection H. intros. splits; congruence. Qed.

Section E.
Variable e : env.
Hypothesis EO : env_ok e.

(** One doWrite from a state with an empty batch. *)
Lemma doWrite_step {E} eof c : c_records c = [] -> bytes (c_queue c) -> zlen (c_queue c) < 2 ^ 31 ->
  exists ts rest c', eats e eof (c_queue c) ts rest /\ @doWrite E e c eof = Ok c' /\ c_queue c' = rest /\ c_records c' = [] /\
    core c' = core (acts e ts c) /\ told c' = told (acts e ts c) /\ c_lastWrite c' = c_lastWrite c /\
    c_dsrSent c' = (if existsb is_dsr ts then false else c_dsrSent c) /\ queries (c_log c') = queries (c_log c) /\ cfg c' = cfg c.
Proof.
  intros Hr Hb Hl. destruct (eats_total e EO eof _ (c_queue c) (le_n _) Hb) as (ts & rest & He).
  exists ts, rest, (flushInputRecords (set_queue rest (acts e ts (set_out [] (c_log c) c)))).
  assert (Hc : set_out [] (c_log c) c = c) by (destruct c; cbn in *; now subst). rewrite Hc.
  split; [exact He|]. split; [rewrite (doWrite_eats e EO eof c ts rest Hb Hl He), Hc; reflexivity|].
  destruct (flush_keeps (set_queue rest (acts e ts c))) as (K1 & K2 & K3 & K4 & K5).
  destruct (frame2_acts e ts c) as (F1 & F2 & (G1 & G2 & G3 & G4)). splits.
  - rewrite K1. reflexivity.
  - apply flush_records.
  - rewrite flush_core. reflexivity.
  - rewrite flush_told. reflexivity.
  - rewrite K3. exact G2.
  - rewrite K2. apply acts_dsr.
  - rewrite K4. exact G3.
  - rewrite K5. exact G4.
Qed.

Lemma write_step {E} now data c : inv c -> bytes data -> zlen data <= 2 ^ 31 - 64 -> data <> [] ->
  exists ts rest c', eats e false (c_queue c ++ data) ts rest /\ @writeInput E e now data c = Ok c' /\ c_queue c' = rest /\ inv c' /\
    core c' = core (acts e ts c) /\ told c' = told (acts e ts c) /\ c_lastWrite c' = now /\ cfg c' = cfg c /\
    (let sent := if existsb is_dsr ts then false else c_dsrSent c in
     let ask := negb (zlen rest =? 0) && negb sent in
     c_dsrSent c' = sent || ask /\ queries (c_log c') = queries (c_log c) + (if ask then 1 else 0)).
Proof.
  intros (Hr & Hb & Hl & Hq) Hd Hdl Hn. unfold writeInput. pose proof (zlen_pos _ Hn). replace (zlen data =? 0) with false by lia.
  set (c0 := set_queue (c_queue c ++ data) c).
  destruct (@doWrite_step E false c0) as (ts & rest & c1 & He & Hw & Q1 & Q2 & Q3 & Q4 & Q5 & Q6 & Q7 & Q8).
  - exact Hr.
  - apply bytes_app; auto.
  - unfold c0. cbn [set_queue c_queue]. rewrite zlen_app. lia.
  - rewrite Hw. cbn [bind].
    destruct (frame2_acts e ts c0) as (F1 & F2 & _). destruct (frame2_acts e ts c) as (F1' & F2' & _).
    change (core c0) with (core c) in *.
    assert (C1 : core c1 = core (acts e ts c)) by congruence.
    assert (T1 : told c1 = told (acts e ts c)) by (rewrite Q4, F2, F2'; reflexivity).
    set (c' := match c_queue c1 with [] => c1 | _ => if c_dsrSent c1 then c1 else set_dsr true (emit EvDsr c1) end).
    exists ts, rest, (set_last now c').
    assert (Hb0 : bytes (c_queue c0)) by (unfold c0; cbn [set_queue c_queue]; apply bytes_app; auto).
    destruct (eats_pieces e EO _ _ _ _ He Hb0) as (ps & _ & _ & Hcc & Hrest).
    assert (Hbr : bytes rest) by (rewrite <- Hcc in Hb0; now apply bytes_app in Hb0).
    destruct (rest_inv e rest EO Hbr Hrest) as (Hl2 & Hw2).
    assert (D : c_queue c' = rest /\ c_records c' = [] /\ core c' = core c1 /\ told c' = told c1 /\ cfg c' = cfg c1 /\
      (let ask := negb (zlen rest =? 0) && negb (c_dsrSent c1) in c_dsrSent c' = c_dsrSent c1 || ask /\ queries (c_log c') = queries (c_log c1) + (if ask then 1 else 0))).
    { unfold c'. rewrite Q1. destruct rest as [|x l].
      - change (zlen (@nil Z) =? 0) with true. cbn [negb andb]. splits; auto; [rewrite orb_false_r|]; auto; lia.
      - replace (zlen (x :: l) =? 0) with false by (rewrite zlen_cons; pose proof (zlen_nonneg l); lia). cbn [negb andb].
        destruct (c_dsrSent c1) eqn:Hs; cbn [negb orb].
        + splits; auto; lia.
        + cbn [set_dsr emit set_out c_queue c_records c_log c_dsrSent]. splits; auto.
          * unfold told. cbn [set_dsr emit set_out c_records c_log]. rewrite received_app. cbn [received flat_map flat1]. now rewrite app_nil_r.
          * rewrite queries_app. reflexivity. }
    destruct D as (D1 & D2 & D3 & D4 & D5 & D6).
    split; [exact He|]. split; [reflexivity|]. split; [exact D1|]. split.
    { split; [exact D2|]. cbn [set_last c_queue]. rewrite D1. auto. }
    split; [rewrite <- C1; exact D3|]. split; [rewrite <- T1; exact D4|]. split; [reflexivity|].
    split; [transitivity (cfg c1); [exact D5|exact Q8]|].
    change (c_dsrSent c0) with (c_dsrSent c) in Q6. change (c_log c0) with (c_log c) in Q7. rewrite Q6, Q7 in D6. exact D6.
Qed.

Lemma writeInput_nil {E} now c : @writeInput E e now [] c = Ok c.
Proof. reflexivity. Qed.

(** One poll. *)
Lemma poll_flags c : inv c -> inv (updateInputFlags e c).
Proof. intros H. exact H. Qed.
Lemma poll_step {E} now c : inv c ->
  (c_queue c = [] \/ (now - c_lastWrite c) mod 2 ^ 32 <= 1000 -> @flushIncompleteEscapeCode E e now c = Ok c) /\
  (c_queue c <> [] /\ 1000 < (now - c_lastWrite c) mod 2 ^ 32 ->
   exists ts rest c', eats e true (c_queue c) ts rest /\ @flushIncompleteEscapeCode E e now c = Ok c' /\ c_queue c' = [] /\ inv c' /\
     core c' = core (acts e ts c) /\ told c' = told (acts e ts c) /\ cfg c' = cfg c /\ (rest = [] \/ utf8_partial rest) /\
     c_dsrSent c' = (if existsb is_dsr ts then false else c_dsrSent c) /\ queries (c_log c') = queries (c_log c)).
Proof.
  intros (Hr & Hb & Hl & Hq). unfold flushIncompleteEscapeCode, kIncompleteEscapeTimeoutMs. change (u32 (now - c_lastWrite c)) with ((now - c_lastWrite c) mod 2 ^ 32). split.
  - intros [->|H]; [reflexivity|]. destruct (c_queue c); [reflexivity|]. replace (1000 <? (now - c_lastWrite c) mod 2 ^ 32) with false by lia. reflexivity.
  - intros (Hn & Hlate). destruct (@doWrite_step E true c Hr Hb ltac:(lia)) as (ts & rest & c1 & He & Hw & Q1 & Q2 & Q3 & Q4 & Q5 & Q6 & Q7 & Q8).
    exists ts, rest, (set_queue [] c1). split; [exact He|].
    destruct (c_queue c) as [|x l] eqn:Hcq; [congruence|]. replace (1000 <? (now - c_lastWrite c) mod 2 ^ 32) with true by lia. rewrite Hw. cbn [bind].
    splits; auto.
    + split; [exact Q2|]. cbn [set_queue c_queue]. splits; [constructor|vm_compute; discriminate|auto].
    + destruct (eats_pieces e EO _ _ _ _ He Hb) as (ps & _ & _ & Hcc & Hrest). destruct Hrest as [Hz|(Hnz & Hm)]; [auto|]. right.
      assert (Hbr : bytes rest) by (rewrite <- Hcc in Hb; now apply bytes_app in Hb).
      pose proof (classify_spec e EO rest true Hbr Hnz) as Sp. rewrite Hm in Sp. now apply Sp.
Qed.
End E.

Lemma op_inv {E} e o c : env_ok e -> op_ok o -> inv c -> exists c', @run_op E e o c = Ok c' /\ inv c'.
Proof.
  intros EO (Hb & Hl) I. destruct o as [now data|now|l t r b]; cbn [run_op op_data] in *.
  - destruct data as [|x d]; [exists c; auto|]. destruct (@write_step e EO E now (x :: d) c I Hb Hl ltac:(discriminate)) as (ts & rest & c' & _ & Hw & _ & I' & _). eauto.
  - pose proof (poll_flags e c I) as I2. destruct (@poll_step e EO E now (updateInputFlags e c) I2) as (P1 & P2).
    destruct (list_eq_dec Z.eq_dec (c_queue (updateInputFlags e c)) []) as [Hq|Hq]; [rewrite P1 by auto; eauto|].
    destruct (Z_le_gt_dec ((now - c_lastWrite (updateInputFlags e c)) mod 2 ^ 32) 1000) as [Hle|Hgt]; [rewrite P1 by auto; eauto|].
    destruct P2 as (ts & rest & c' & _ & Hw & _ & I' & _); [split; [exact Hq|lia]|]. eauto.
  - eexists. split; [reflexivity|]. exact I.
Qed.
Lemma init_inv e clock : inv (init_ci e clock).
Proof. unfold init_ci, inv. cbn. splits; [reflexivity|constructor|vm_compute; discriminate|auto]. Qed.
Lemma reachable_inv c : reachable c -> inv c.
Proof.
  induction 1 as [e clock EO|e o c c' EO OK R I Hr]; [apply init_inv|].
  destruct (@op_inv unit e o c EO OK I) as (c2 & H2 & I2). assert (c' = c2) by congruence. now subst.
Qed.

(** *** C09 *)
Lemma run_prompt {E} e : env_ok e -> forall ops c, inv c -> modes_read e c -> Forall op_ok ops -> prompt (c_lastWrite c) ops ->
  exists ts rest c', @run E e ops c = Ok c' /\ inv c' /\ eats e false (c_queue c ++ written ops) ts rest /\ c_queue c' = rest /\
    core c' = core (acts e ts c) /\ told c' = told (acts e ts c).
Proof.
  intros EO. induction ops as [|o ops IH]; intros c I M F P.
  - exists [], (c_queue c), c. cbn [run written flat_map acts]. rewrite app_nil_r. splits; auto.
    destruct I as (_ & _ & _ & [Hq|Hq]); [rewrite Hq; constructor|]. destruct (c_queue c) eqn:Hc; [constructor|]. constructor; [discriminate|apply Hq; exact EO].
  - inversion F as [|? ? (Ho1 & Ho2) F']; subst. destruct o as [now data|now|l t r b]; cbn [prompt] in P; [| |contradiction].
    + cbn [op_data] in *. destruct data as [|x d] eqn:Hd.
      * change (zlen (@nil Z) =? 0) with true in P. destruct (IH c I M F' P) as (ts & rest & c' & R). exists ts, rest, c'. exact R.
      * rewrite <- Hd in *. assert (Hn : data <> []) by (rewrite Hd; discriminate). clear Hd x d.
        destruct (@write_step e EO E now data c I Ho1 Ho2 Hn) as (ts & rest & c1 & He & Hw & Q1 & I1 & Q3 & Q4 & Q5 & Q6 & _).
        pose proof (zlen_pos _ Hn). replace (zlen data =? 0) with false in P by lia. rewrite <- Q5 in P.
        assert (M1 : modes_read e c1).
        { unfold modes_read, updateInputFlags, set_modes in *. unfold cfg in Q6. destruct c1. injection Q6. cbn in *. intros. destruct c; cbn in *. injection M. intros. subst. reflexivity. }
        destruct (IH c1 I1 M1 F' P) as (ts2 & rest2 & c2 & Hr2 & I2 & He2 & Q1' & Q3' & Q4').
        exists (ts ++ ts2), rest2, c2. cbn [run run_op]. rewrite Hw. cbn [bind]. splits; auto.
        -- unfold written. cbn [flat_map op_data]. rewrite app_assoc. rewrite Q1 in He2. destruct I as (_ & Hbq & _).
           apply (eats_chunk e EO (c_queue c ++ data) ts rest He); auto; [apply bytes_app; auto|].
           unfold written in He2. clear -F'. induction ops as [|o ops IHo]; [constructor|]. inversion F' as [|? ? (? & ?) ?]; subst. cbn [flat_map]. apply bytes_app. auto.
        -- rewrite acts_app. destruct (frame2_acts e ts2 c1) as (A1 & _). destruct (frame2_acts e ts2 (acts e ts c)) as (B1 & _). congruence.
        -- rewrite acts_app. destruct (frame2_acts e ts2 c1) as (_ & A2 & _). destruct (frame2_acts e ts2 (acts e ts c)) as (_ & B2 & _). congruence.
    + destruct P as (P1 & P2). destruct (IH c I M F' P2) as (ts & rest & c' & R). exists ts, rest, c'. cbn [run run_op].
      rewrite M. destruct (@poll_step e EO E now c I) as (Hp & _). rewrite Hp by auto. cbn [bind]. exact R.
Qed.

Theorem chunking {E} e ops c now : env_ok e -> reachable c -> modes_read e c -> Forall op_ok ops -> prompt (c_lastWrite c) ops ->
  zlen (written ops) <= 2 ^ 31 - 64 ->
  exists c1 c2, @run E e ops c = Ok c1 /\ @run E e [OpWrite now (written ops)] c = Ok c2 /\
    received (c_log c1) = received (c_log c2) /\ c_queue c1 = c_queue c2 /\ same_state c1 c2.
Proof.
  intros EO R M F P L. apply reachable_inv in R. destruct (@run_prompt E e EO ops c R M F P) as (ts & rest & c1 & H1 & I1 & He1 & Q1 & C1 & T1).
  assert (Hbw : bytes (written ops)).
  { unfold written. clear -F. induction ops as [|o ops IHo]; [constructor|]. inversion F as [|? ? (? & ?) ?]; subst. cbn [flat_map]. apply bytes_app. auto. }
  destruct (@run_prompt E e EO [OpWrite now (written ops)] c R M) as (ts2 & rest2 & c2 & H2 & I2 & He2 & Q2 & C2 & T2).
  - constructor; [|constructor]. split; [exact Hbw|exact L].
  - cbn. destruct (zlen (written ops) =? 0); exact I.
  - unfold written at 1 in He2. cbn [flat_map op_data] in He2. rewrite app_nil_r in He2.
    destruct (eats_det e _ _ _ _ He1 _ _ He2) as (-> & ->). exists c1, c2. splits; auto.
    + rewrite <- (told_nil c1), <- (told_nil c2) by (apply I1 || apply I2). congruence.
    + congruence.
    + apply core_same. congruence.
Qed.

(** *** C10 *)
Theorem consumed {E} e now data c : env_ok e -> reachable c -> bytes data -> zlen data <= 2 ^ 31 - 64 ->
  exists ps c' c1, @writeInput E e now data c = Ok c' /\
    Forall (fun p => token (has (e_mode e) ENABLE_PROCESSED_INPUT) (fst p) (snd p)) ps /\
    concat (map fst ps) ++ c_queue c' = c_queue c ++ data /\
    @applyAll E e (map snd ps) c = Ok c1 /\ received (c_log c') = told c1 /\ same_state c' c1 /\
    (c_queue c' = [] \/ exists w, w <> [] /\ recognisable (c_queue c' ++ w)).
Proof.
  intros EO R Hb Hl. apply reachable_inv in R. destruct data as [|x d] eqn:Hd.
  - exists [], c, c. cbn [map concat fst app applyAll]. rewrite app_nil_r. splits; auto; try reflexivity.
    + symmetry. apply told_nil. apply R.
    + unfold same_state. splits; reflexivity.
    + destruct R as (_ & Hbq & _ & [Hq|Hq]); [auto|]. destruct (c_queue c) as [|y q] eqn:Hc; [auto|]. right.
      pose proof (classify_spec e EO (y :: q) false Hbq ltac:(discriminate)) as Sp. rewrite (Hq e EO) in Sp. destruct Sp as ((w & Hw & _ & Rc) & _). eauto.
  - rewrite <- Hd in *. assert (Hn : data <> []) by (rewrite Hd; discriminate). clear Hd x d.
    destruct (@write_step e EO E now data c R Hb Hl Hn) as (ts & rest & c1 & He & Hw & Q1 & I1 & Q3 & Q4 & _).
    assert (Hbq : bytes (c_queue c ++ data)) by (destruct R as (_ & ? & _); apply bytes_app; auto).
    destruct (eats_pieces e EO _ _ _ _ He Hbq) as (ps & Hm & HF & Hcc & Hr). exists ps, c1, (acts e ts c). rewrite Hm, Q1. splits; auto.
    + apply applyAll_acts.
    + rewrite <- Q4. symmetry. apply told_nil. apply I1.
    + now apply core_same.
    + destruct Hr as [Hr|(Hr & Hc)]; [auto|]. right. assert (Hbr : bytes rest) by (rewrite <- Hcc in Hbq; now apply bytes_app in Hbq).
      pose proof (classify_spec e EO rest false Hbr Hr) as Sp. rewrite Hc in Sp. destruct Sp as ((w & ? & _ & ?) & _). eauto.
Qed.

Theorem timed_out {E} e now c : env_ok e -> reachable c -> 1000 < (now - c_lastWrite c) mod 2 ^ 32 ->
  exists ps lost c' c1, @run_op E e (OpPoll now) c = Ok c' /\ c_queue c' = [] /\
    Forall (fun p => token (has (e_mode e) ENABLE_PROCESSED_INPUT) (fst p) (snd p)) ps /\
    concat (map fst ps) ++ lost = c_queue c /\ (lost = [] \/ utf8_partial lost) /\
    @applyAll E e (map snd ps) (updateInputFlags e c) = Ok c1 /\ received (c_log c') = told c1 /\ same_state c' c1.
Proof.
  intros EO R Hlate. apply reachable_inv in R. set (c0 := updateInputFlags e c). assert (I0 : inv c0) by (apply poll_flags; exact R). cbn [run_op]. fold c0.
  destruct (@poll_step e EO E now c0 I0) as (P1 & P2). change (c_queue c) with (c_queue c0). change (c_lastWrite c) with (c_lastWrite c0) in Hlate.
  destruct (list_eq_dec Z.eq_dec (c_queue c0) []) as [Hq|Hq].
  - exists [], [], c0, c0. rewrite P1 by auto. cbn [map concat app applyAll]. splits; auto; [symmetry; apply told_nil; apply R|unfold same_state; splits; reflexivity].
  - destruct P2 as (ts & rest & c1 & He & Hw & Q1 & I1 & Q3 & Q4 & Q5 & Q6 & _); [split; [exact Hq|lia]|].
    assert (Hbq : bytes (c_queue c0)) by apply I0.
    destruct (eats_pieces e EO _ _ _ _ He Hbq) as (ps & Hm & HF & Hcc & _). exists ps, rest, c1, (acts e ts c0). rewrite Hm. splits; auto.
    + apply applyAll_acts.
    + rewrite <- Q4. symmetry. apply told_nil. apply I1.
    + now apply core_same.
Qed.
(** Nothing ever fails, and a poll within the timeout changes nothing that was typed. *)
Theorem never_stuck {E} e o c : env_ok e -> op_ok o -> reachable c -> exists c', @run_op E e o c = Ok c' /\ zlen (c_queue c') <= 31.
Proof. intros EO OK R. destruct (@op_inv E e o c EO OK (reachable_inv c R)) as (c' & H & I). exists c'. split; [exact H|apply I]. Qed.
