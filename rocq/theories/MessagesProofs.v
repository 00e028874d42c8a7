From Verif Require Import Base BaseLemmas Text StringsSpec StringsProofs UnicodeSpec Messages MessagesSpec ShowInputProofs.
Ltac Zify.zify_post_hook ::= Z.div_mod_to_equations.
Ltac splits := repeat match goal with |- _ /\ _ => split end.

Lemma heapWcsToMbs_ok conv text out : conv text = Some out -> zlen out <= 3 * zlen text -> heapWcsToMbs conv text = Some out.
Proof.
  intros E L. unfold heapWcsToMbs, convert. rewrite E. rewrite zfirstn_all by lia. destruct (Z.leb_spec (zlen text * 3 + 1) (zlen out)); [lia|reflexivity].
Qed.
Lemma heapWcsToMbs_none conv text : (forall out, conv text = Some out -> 3 * zlen text < zlen out) -> heapWcsToMbs conv text = None.
Proof.
  intros K. unfold heapWcsToMbs, convert. destruct (conv text) as [out|] eqn:E; [|reflexivity]. specialize (K out eq_refl). pose proof (zlen_nonneg text).
  rewrite zlen_zfirstn. match goal with |- (if ?a <=? ?b then _ else _) = _ => destruct (Z.leb_spec a b) end; [reflexivity|lia].
Qed.
Lemma heapMbsToWcs_ok conv text out : conv text = Some out -> zlen out <= 2 * zlen text -> heapMbsToWcs conv text = Ok out.
Proof.
  intros E L. unfold heapMbsToWcs, convert. rewrite E. rewrite zfirstn_all by lia. destruct (Z.ltb_spec (zlen out) (zlen text * 2 + 1)); [reflexivity|lia].
Qed.
Lemma heapMbsToWcs_bad conv text : (forall out, conv text = Some out -> 2 * zlen text < zlen out) -> heapMbsToWcs conv text = AssertFail.
Proof.
  intros K. unfold heapMbsToWcs, convert. destruct (conv text) as [out|] eqn:E; [|reflexivity]. specialize (K out eq_refl). pose proof (zlen_nonneg text).
  rewrite zlen_zfirstn. match goal with |- (if ?a <? ?b then _ else _) = _ => destruct (Z.ltb_spec a b) end; [lia|reflexivity].
Qed.
Lemma form_lengths c : zlen (utf8_form c) <= 3 * zlen (utf16_form c) /\ zlen (utf16_form c) <= zlen (utf8_form c).
Proof. unfold utf8_form, utf16_form. destruct (Z.ltb_spec c 128), (Z.ltb_spec c 2048), (Z.ltb_spec c 65536); cbn; lia. Qed.
Lemma text_lengths cps : zlen (utf8 cps) <= 3 * zlen (utf16 cps) /\ zlen (utf16 cps) <= zlen (utf8 cps).
Proof.
  unfold utf8, utf16. induction cps as [|c cps IH]; cbn [map concat]; [cbn; lia|]. rewrite !zlen_app. pose proof (form_lengths c). lia.
Qed.

(** Trimming *)
Lemma blank_ok c : blank c = true <-> is_blank c.
Proof. unfold blank, is_blank. rewrite !orb_true_iff, !Z.eqb_eq. lia. Qed.
Lemma findLast_ok : forall s i best,
  (findLastNotBlank s i best = best /\ Forall is_blank s) \/
  (exists u c tail, s = u ++ c :: tail /\ ~ is_blank c /\ Forall is_blank tail /\ findLastNotBlank s i best = Some (i + zlen u)).
Proof.
  induction s as [|x s IH]; intros i best; cbn [findLastNotBlank]; [left; auto|].
  destruct (IH (i + 1) (if blank x then best else Some i)) as [(E & F)|(u & c & tail & -> & N & F & E)].
  - destruct (blank x) eqn:B.
    + left. split; [exact E|]. constructor; [apply blank_ok; exact B|exact F].
    + right. exists [], x, s. splits; auto; [|rewrite E; f_equal; cbn; lia]. intros K. apply blank_ok in K. congruence.
  - right. exists (x :: u), c, tail. splits; auto. rewrite E, zlen_cons. f_equal. lia.
Qed.
Definition trim (msg : list Z) : list Z := match findLastNotBlank msg 0 None with None => [] | Some pos => zfirstn (pos + 1) msg end.
Lemma trim_ok msg : trimmed msg (trim msg).
Proof.
  unfold trim. destruct (findLast_ok msg 0 None) as [(E & F)|(u & c & tail & -> & N & F & E)]; rewrite E.
  - exists msg. splits; auto.
  - exists tail. replace (u ++ c :: tail) with ((u ++ [c]) ++ tail) by (rewrite <- app_assoc; reflexivity).
    replace (0 + zlen u + 1) with (zlen (u ++ [c])) by (rewrite zlen_app; cbn; lia). rewrite zfirstn_app_exact by reflexivity. splits; auto.
    right. exists u, c. auto.
Qed.

(** The code *)
Lemma dval_hexDigit d : 0 <= d < 16 -> dval (hexDigit d) = d.
Proof.
  intros H. unfold hexDigit, dval. destruct (Z.ltb_spec d 10).
  - destruct (Z.leb_spec 48 (48 + d)); [|lia]. destruct (Z.leb_spec (48 + d) 57); [|lia]. cbn [andb]. lia.
  - destruct (Z.leb_spec 48 (87 + d)); [|lia]. destruct (Z.leb_spec (87 + d) 57); [lia|]. cbn [andb].
    destruct (Z.leb_spec 97 (87 + d)); [|lia]. destruct (Z.leb_spec (87 + d) 102); [|lia]. cbn [andb]. lia.
Qed.
Lemma value_snoc b s c : value b (s ++ [c]) = value b s * b + dval c.
Proof. unfold value. rewrite fold_left_app. reflexivity. Qed.
Lemma hexN_ok : forall n v, 0 <= v -> v < 16 ^ Z.of_nat n -> Forall (fun c => 0 <= dval c < 16) (hexN n v) /\ value 16 (hexN n v) = v /\ zlen (hexN n v) = Z.of_nat n.
Proof.
  induction n as [|n IH]; intros v P L.
  - cbn in *. splits; auto. change (value 16 []) with 0. lia.
  - cbn [hexN]. rewrite Nat2Z.inj_succ, Z.pow_succ_r in L by lia. destruct (IH (v / 16)) as (F & V & Z0).
    + apply Z.div_pos; lia.
    + apply Z.div_lt_upper_bound; lia.
    + assert (D : 0 <= v mod 16 < 16) by (apply Z.mod_pos_bound; lia). splits.
      * apply Forall_app. split; [exact F|]. constructor; [|constructor]. rewrite dval_hexDigit by exact D. exact D.
      * rewrite value_snoc, V, dval_hexDigit by exact D. pose proof (Z.div_mod v 16). lia.
      * rewrite zlen_app, Z0. cbn. lia.
Qed.
Lemma dropZeros_ok s : value 16 (dropZeros s) = value 16 s /\ (hd 0 (dropZeros s) = 48 -> False) /\ zlen (dropZeros s) <= zlen s /\
  (Forall (fun c => 0 <= dval c < 16) s -> Forall (fun c => 0 <= dval c < 16) (dropZeros s)).
Proof.
  induction s as [|c s (V & H & L & F)]; cbn [dropZeros].
  - splits; auto. cbn. lia. lia.
  - destruct (Z.eqb_spec c 48) as [->|N].
    + splits; [exact V|exact H|rewrite zlen_cons; lia|]. intros K. apply F. inversion K; auto.
    + splits; auto. lia.
Qed.
Lemma sharp_x_ok v : 0 <= v < 2 ^ 32 -> shown_code v (sharp_x v) /\ zlen (sharp_x v) <= 10.
Proof.
  intros R. unfold sharp_x, shown_code. destruct (Z.eqb_spec v 0) as [->|N]; [split; [left; auto|cbn; lia]|].
  destruct (hexN_ok 8 v) as (F & V & L); [lia|change (16 ^ Z.of_nat 8) with (2 ^ 32); lia|].
  destruct (dropZeros_ok (hexN 8 v)) as (V2 & H2 & L2 & F2). split.
  - right. split; [exact N|]. exists (dropZeros (hexN 8 v)). split; [reflexivity|]. split.
    + unfold numeral. splits; [|exact (F2 F)|congruence]. intros E. rewrite E in V2. change (value 16 []) with 0 in V2. lia.
    + intros E. destruct (H2 E).
  - rewrite zlen_app. change (zlen (str "0x")) with 2. change (Z.of_nat 8) with 8 in L. lia.
Qed.
Lemma shown_code_inj a b s : shown_code a s -> shown_code b s -> a = b.
Proof.
  intros [(-> & E1)|(N1 & h & E1 & C1)] [(-> & E2)|(N2 & k & E2 & C2)]; auto.
  - rewrite E1 in E2. discriminate E2.
  - rewrite E1 in E2. discriminate E2.
  - rewrite E1 in E2. apply app_inv_head in E2. subst k. destruct C1 as ((_ & _ & V1) & _). destruct C2 as ((_ & _ & V2) & _). congruence.
Qed.
Lemma shown_code_clean v s : shown_code v s -> ~ In 32 s.
Proof.
  intros [(_ & ->)|(_ & h & -> & ((_ & F & _) & _))] K; [destruct K as [K|[]]; discriminate K|].
  apply in_app_or in K. destruct K as [K|K]; [change (In 32 [48; 120]) in K; destruct K as [K|[K|[]]]; discriminate K|].
  rewrite Forall_forall in F. specialize (F 32 K). cbn in F. lia.
Qed.
Lemma shown_code_last v s : shown_code v s -> ~ In 41 s.
Proof.
  intros [(_ & ->)|(_ & h & -> & ((_ & F & _) & _))] K; [destruct K as [K|[]]; discriminate K|].
  apply in_app_or in K. destruct K as [K|K]; [change (In 41 [48; 120]) in K; destruct K as [K|[K|[]]]; discriminate K|].
  rewrite Forall_forall in F. specialize (F 41 K). cbn in F. lia.
Qed.
Lemma format_ok conv sys err : 0 <= err < 2 ^ 32 -> exists code, shown_code err code /\
  formatErrorMessage conv sys err = Ok (match errorMessageToString conv sys err with [] => str "error " ++ code | t => t ++ str " (error " ++ code ++ str ")" end).
Proof.
  intros R. destruct (sharp_x_ok err R) as (S & L). exists (sharp_x err). split; [exact S|]. unfold formatErrorMessage.
  rewrite zlen_app. change (zlen (str "error ")) with 6. destruct (Z.ltb_spec 64 (6 + zlen (sharp_x err) + 1)); [lia|].
  destruct (errorMessageToString conv sys err) as [|c t]; [reflexivity|]. reflexivity.
Qed.
(** The last word of a text *)
Lemma last_word (c : Z) (a b u v : list Z) : ~ In c u -> ~ In c v -> a ++ c :: u = b ++ c :: v -> a = b /\ u = v.
Proof.
  intros U V E. assert (R : rev u ++ c :: rev a = rev v ++ c :: rev b).
  { assert (X : rev (a ++ c :: u) = rev (b ++ c :: v)) by (rewrite E; reflexivity). rewrite !rev_app_distr in X. cbn [rev] in X. rewrite <- !app_assoc in X. exact X. }
  destruct (split_first c _ _ _ _ (fun K => U (proj2 (in_rev u c) K)) (fun K => V (proj2 (in_rev v c) K)) R) as (E1 & E2).
  split; [rewrite <- (rev_involutive a), <- (rev_involutive b), E2; reflexivity|rewrite <- (rev_involutive u), <- (rev_involutive v), E1; reflexivity].
Qed.
