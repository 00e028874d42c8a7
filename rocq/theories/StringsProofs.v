From Verif Require Import Base BaseLemmas Strings StringsSpec UnicodeProofs NamedPipeProofs.
Ltac Zify.zify_post_hook ::= Z.div_mod_to_equations.

Lemma zupd_app {A} (l : list A) x r v : zupd (l ++ x :: r) (zlen l) v = Some (l ++ v :: r).
Proof.
  unfold zupd. pose proof (zlen_nonneg l). replace (zlen l <? 0) with false by lia.
  unfold zlen. rewrite Nat2Z.id. clear. induction l as [|a l IH]; [reflexivity|].
  cbn [length app upd_nat]. rewrite IH. reflexivity.
Qed.

Lemma st_app {E} l x r v i : i = zlen l -> @st E (l ++ x :: r) i v = Ok (l ++ v :: r).
Proof. intros ->. unfold st. rewrite zupd_app. reflexivity. Qed.

Lemma zlen_pos_snoc {A} (l : list A) : 0 < zlen l -> exists l' x, l = l' ++ [x] /\ zlen l' = zlen l - 1.
Proof.
  intros H. destruct l as [|a t] using rev_ind; [unfold zlen in H; cbn in H; lia|].
  exists t, a. rewrite zlen_app, zlen_cons. change (zlen (@nil A)) with 0. split; [reflexivity|lia].
Qed.

(** *** Values *)
Lemma value_app b s c : value b (s ++ [c]) = value b s * b + dval c.
Proof. unfold value. rewrite fold_left_app. reflexivity. Qed.

Lemma dval_dec d : 0 <= d < 10 -> dval (48 + d) = d.
Proof. intros H. unfold dval. replace ((48 <=? 48 + d) && (48 + d <=? 57)) with true by lia. lia. Qed.

Lemma dval_hex d : 0 <= d < 16 -> dval (hexdigit d) = d.
Proof.
  intros H. unfold hexdigit. destruct (Z.ltb_spec d 10); [apply dval_dec; lia|].
  unfold dval. replace ((48 <=? 87 + d) && (87 + d <=? 57)) with false by lia.
  replace ((97 <=? 87 + d) && (87 + d <=? 102)) with true by lia. lia.
Qed.

Lemma value_bounds b s : 1 < b -> Forall (fun c => 0 <= dval c < b) s -> 0 <= value b s < b ^ zlen s.
Proof.
  intros Hb. induction s as [|c s IH] using rev_ind; intros H; [cbn; lia|].
  apply Forall_app in H. destruct H as (H1 & H2). inversion H2; subst. specialize (IH H1).
  rewrite value_app, zlen_app, zlen_cons. change (zlen (@nil Z)) with 0.
  rewrite Z.pow_add_r, Z.add_0_l, Z.pow_1_r by (pose proof (zlen_nonneg s); lia). nia.
Qed.

Lemma value_cons b c s : value b (c :: s) = dval c * b ^ zlen s + value b s.
Proof.
  revert c. induction s as [|x s IH] using rev_ind; intros c; [cbn; lia|].
  rewrite app_comm_cons, !value_app, IH, zlen_app, zlen_cons. change (zlen (@nil Z)) with 0.
  rewrite Z.pow_add_r, Z.add_0_l, Z.pow_1_r by (pose proof (zlen_nonneg s); lia). lia.
Qed.

Lemma dval_48 c : dval c = 0 -> c = 48.
Proof.
  unfold dval. destruct ((48 <=? c) && (c <=? 57)) eqn:E1; [lia|].
  destruct ((97 <=? c) && (c <=? 102)) eqn:E2; lia.
Qed.

(** A canonical numeral has at least base^(length-1) as value. *)
Lemma canonical_lower b s v : 1 < b -> canonical b s v -> zlen s = 1 \/ b ^ (zlen s - 1) <= v.
Proof.
  intros Hb ((Hne & Hd & Hv) & Hc). destruct s as [|c s]; [congruence|]. cbn [hd] in Hc.
  inversion Hd; subst. rewrite value_cons, zlen_cons.
  destruct (Z.eq_dec (dval c) 0) as [E|E].
  - apply dval_48 in E. specialize (Hc E). injection Hc as _ ->. left. reflexivity.
  - right. replace (zlen s + 1 - 1) with (zlen s) by lia.
    match goal with H : Forall _ s |- _ => pose proof (value_bounds b s Hb H) end.
    assert (0 < b ^ zlen s) by (apply Z.pow_pos_nonneg; [lia|apply zlen_nonneg]). nia.
Qed.

Lemma canonical_len b s v n : 1 < b -> canonical b s v -> v < b ^ n -> 1 <= n -> zlen s <= n.
Proof.
  intros Hb Hc Hv Hn. destruct (canonical_lower b s v Hb Hc) as [H|H]; [lia|].
  destruct (Z.leb_spec (zlen s) n) as [Hl|Hl]; [exact Hl|].
  assert (b ^ n <= b ^ (zlen s - 1)) by (apply Z.pow_le_mono_r; lia). lia.
Qed.

(** Appending a digit to a canonical numeral of a positive number. *)
Lemma canonical_snoc b s v c : 1 < b -> canonical b s v -> 0 < v -> 0 <= dval c < b -> canonical b (s ++ [c]) (v * b + dval c).
Proof.
  intros Hb ((Hne & Hd & Hv) & Hc) Hpos Hcb. split; [split; [|split]|].
  - destruct s; discriminate.
  - apply Forall_app. auto.
  - rewrite value_app, Hv. reflexivity.
  - destruct s as [|x s]; [congruence|]. cbn [app hd] in *. intros E. specialize (Hc E).
    rewrite Hc in Hv. subst x. injection Hc as ->. cbn in Hv. lia.
Qed.

Lemma canonical_digit b c : 1 < b -> 0 <= dval c < b -> canonical b [c] (dval c).
Proof.
  intros Hb H. split; [split; [discriminate|split; [auto|cbn; lia]]|]. cbn [hd]. intros ->. reflexivity.
Qed.

Lemma numeral_inj b s1 s2 v : 1 < b -> (forall c1 c2, 0 <= dval c1 -> dval c1 = dval c2 -> c1 = c2) ->
  Forall (fun c => 0 <= dval c < b) s1 -> Forall (fun c => 0 <= dval c < b) s2 ->
  value b s1 = v -> value b s2 = v -> zlen s1 = zlen s2 -> s1 = s2.
Proof.
  intros Hb Hinj. revert s2 v. induction s1 as [|c1 s1 IH] using rev_ind; intros s2 v F1 F2 V1 V2 L.
  - symmetry. apply zlen_0_nil. rewrite <- L. reflexivity.
  - destruct (zlen_pos_snoc s2) as (s2' & c2 & -> & L2).
    { rewrite <- L, zlen_app, zlen_cons. pose proof (zlen_nonneg s1). change (zlen (@nil Z)) with 0. lia. }
    rewrite !zlen_app, !zlen_cons in L. change (zlen (@nil Z)) with 0 in L.
    apply Forall_app in F1, F2. destruct F1 as (F1 & G1), F2 as (F2 & G2).
    inversion G1; inversion G2; subst. rewrite !value_app in V2.
    assert (value b s2' = value b s1 /\ dval c2 = dval c1) as (Ev & Ec) by (apply (Z.div_mod_unique b); lia).
    f_equal; [|f_equal; symmetry; apply Hinj; lia].
    eapply IH; eauto. lia.
Qed.

Lemma dval_inj c1 c2 : 0 <= dval c1 -> dval c1 = dval c2 -> c1 = c2.
Proof.
  unfold dval. destruct ((48 <=? c1) && (c1 <=? 57)) eqn:A1, ((97 <=? c1) && (c1 <=? 102)) eqn:A2,
    ((48 <=? c2) && (c2 <=? 57)) eqn:B1, ((97 <=? c2) && (c2 <=? 102)) eqn:B2; lia.
Qed.

Lemma canonical_unique b s1 s2 v : 1 < b -> canonical b s1 v -> canonical b s2 v -> s1 = s2.
Proof.
  intros Hb C1 C2. pose proof C1 as ((N1 & F1 & V1) & _). pose proof C2 as ((N2 & F2 & V2) & _).
  apply (numeral_inj b s1 s2 v Hb dval_inj F1 F2 V1 V2).
  pose proof (value_bounds b s1 Hb F1). pose proof (value_bounds b s2 Hb F2).
  assert (1 <= zlen s1) by (destruct s1; [congruence|rewrite zlen_cons; pose proof (zlen_nonneg s1); lia]).
  assert (1 <= zlen s2) by (destruct s2; [congruence|rewrite zlen_cons; pose proof (zlen_nonneg s2); lia]).
  assert (zlen s1 <= zlen s2) by (eapply (canonical_len b s1 v); eauto; lia).
  assert (zlen s2 <= zlen s1) by (eapply (canonical_len b s2 v); eauto; lia). lia.
Qed.

(** *** gdecOfInt *)
Lemma dec_loop_ok {E} fuel : forall junk tail uns,
  0 <= uns < 10 ^ zlen junk -> 0 < zlen junk -> zlen junk <= Z.of_nat fuel ->
  exists junk' ds, @dec_loop E fuel (junk ++ tail) (zlen junk) uns = Ok (junk' ++ ds ++ tail, zlen junk') /\
    canonical 10 ds uns /\ zlen junk' + zlen ds = zlen junk.
Proof.
  induction fuel as [|k IH]; intros junk tail uns Hu Hj Hf; [lia|].
  destruct (zlen_pos_snoc junk Hj) as (j & x & -> & Hl). rewrite zlen_app, zlen_cons in *.
  change (zlen (@nil Z)) with 0 in *. cbn [dec_loop]. rewrite <- app_assoc. cbn [app].
  rewrite st_app by lia. cbn [bind].
  pose proof (dval_dec (uns mod 10) ltac:(lia)) as Hdv.
  destruct (Z.eqb_spec (uns / 10) 0) as [E0|E0].
  - exists j, [48 + uns mod 10]. split; [f_equal; f_equal; lia|]. split; [|reflexivity].
    replace uns with (dval (48 + uns mod 10)) at 2 by lia. apply canonical_digit; lia.
  - replace (zlen j + (0 + 1) - 1) with (zlen j) by lia.
    assert (Hpow : 10 ^ (zlen j + (0 + 1)) = 10 ^ zlen j * 10).
    { rewrite Z.pow_add_r by (pose proof (zlen_nonneg j); lia). reflexivity. }
    assert (Hzj : 0 < zlen j).
    { destruct (Z.eq_dec (zlen j) 0) as [Z0|]; [|pose proof (zlen_nonneg j); lia].
      rewrite Z0 in Hu. change (10 ^ (0 + (0 + 1))) with 10 in Hu. lia. }
    destruct (IH j ((48 + uns mod 10) :: tail) (uns / 10)) as (junk' & ds & E1 & C1 & L1); [lia|lia|lia|].
    exists junk', (ds ++ [48 + uns mod 10]). split; [|split].
    + rewrite E1, <- app_assoc. reflexivity.
    + replace uns with (uns / 10 * 10 + dval (48 + uns mod 10)) at 2 by lia.
      apply canonical_snoc; [lia|exact C1|lia|lia].
    + rewrite zlen_app, zlen_cons. change (zlen (@nil Z)) with 0. lia.
Qed.

Lemma pow_256_1000 n : 0 <= n -> 2 ^ (8 * n) <= 10 ^ (3 * n).
Proof.
  intros H. rewrite !Z.pow_mul_r by lia. apply Z.pow_le_mono_l. lia.
Qed.

(** |value| as computed with unsigned negation. *)
Lemma uns_abs signed n v : 1 <= n -> int_range signed n v ->
  (if v <? 0 then wrapu (8 * n) (- wrapu (8 * n) v) else wrapu (8 * n) v) = Z.abs v /\ Z.abs v < 2 ^ (8 * n).
Proof.
  intros Hn Hr. unfold int_range in Hr.
  assert (Hp : 2 ^ (8 * n) = 2 * 2 ^ (8 * n - 1)).
  { rewrite <- Z.pow_succ_r by lia. f_equal. lia. }
  assert (0 < 2 ^ (8 * n - 1)) by (apply Z.pow_pos_nonneg; lia).
  assert (Hb : - 2 ^ (8 * n - 1) <= v < 2 ^ (8 * n)) by (destruct signed; lia).
  destruct (Z.ltb_spec v 0).
  - split; [|lia]. unfold wrapu.
    rewrite <- (Z.mod_add v 1) by lia. rewrite (Z.mod_small (v + _)) by lia.
    rewrite <- (Z.mod_add _ 1) by lia. rewrite Z.mod_small by lia. lia.
  - split; [|lia]. rewrite wrapu_small by lia. lia.
Qed.

Lemma gdecOfInt_ok {E} signed n arr v :
  1 <= n -> zlen arr = n * 3 + 1 + 1 -> int_range signed n v ->
  exists vs s, @gdecOfInt E n arr v = Ok vs /\ decimal s v /\ vs_ok vs s.
Proof.
  intros Hn Ha Hv. destruct (uns_abs signed n v Hn Hv) as (Hu & Hlt).
  unfold gdecOfInt. cbv zeta. rewrite Hu.
  destruct (zlen_pos_snoc arr ltac:(lia)) as (j & x & -> & Hl).
  rewrite st_app by lia. cbn [bind].
  pose proof (pow_256_1000 n ltac:(lia)) as Hpw.
  assert (Hd : Z.abs v < 10 ^ (3 * n)) by lia.
  replace (zlen (j ++ [x]) - 1) with (zlen j) by lia.
  destruct (@dec_loop_ok E (S (length (j ++ [0]))) j [0] (Z.abs v)) as (junk' & ds & E1 & C1 & L1).
  { split; [lia|]. eapply Z.lt_le_trans; [exact Hd|]. apply Z.pow_le_mono_r; lia. }
  { lia. } { rewrite app_length. cbn [length]. unfold zlen. lia. }
  rewrite E1. cbn [bind].
  assert (Hlen : zlen ds <= 3 * n) by (eapply (canonical_len 10); eauto; lia).
  pose proof (zlen_nonneg ds).
  assert (Hz1 : zlen (@nil Z) = 0) by reflexivity.
  destruct (Z.ltb_spec v 0) as [Hneg|Hpos].
  - destruct (zlen_pos_snoc junk' ltac:(lia)) as (j2 & y & -> & Hl2).
    rewrite <- app_assoc. cbn [app]. rewrite st_app by lia. cbn [bind].
    eexists; exists (45 :: ds). split; [reflexivity|]. split.
    { unfold decimal. replace (v <? 0) with true by lia. exists ds. split; [reflexivity|].
      replace (- v) with (Z.abs v) by lia. exact C1. }
    unfold vs_ok, vs_str. cbn [vs_array vs_offset vs_size].
    replace (zlen (j2 ++ [y]) - 1) with (zlen j2) by lia.
    replace (zlen (j ++ [x]) - zlen j2 - 1) with (zlen (45 :: ds)) by (rewrite zlen_cons; lia).
    splits.
    + rewrite zskipn_app_exact by reflexivity. rewrite app_comm_cons. now rewrite zfirstn_app_exact.
    + rewrite app_comm_cons, app_assoc. rewrite <- zlen_app, znth_app_r by lia. rewrite Z.sub_diag. reflexivity.
    + apply zlen_nonneg.
    + apply zlen_nonneg.
    + rewrite app_comm_cons, app_assoc, (zlen_app (j2 ++ _)), zlen_app, (zlen_cons 0). lia.
  - eexists; exists ds. split; [reflexivity|]. split.
    { unfold decimal. replace (v <? 0) with false by lia. now replace v with (Z.abs v) by lia. }
    unfold vs_ok, vs_str. cbn [vs_array vs_offset vs_size].
    replace (zlen (j ++ [x]) - zlen junk' - 1) with (zlen ds) by lia.
    splits.
    + rewrite zskipn_app_exact by reflexivity. now rewrite zfirstn_app_exact.
    + rewrite app_assoc. rewrite <- zlen_app, znth_app_r by lia. rewrite Z.sub_diag. reflexivity.
    + apply zlen_nonneg.
    + apply zlen_nonneg.
    + rewrite app_assoc, (zlen_app (junk' ++ _)), zlen_app, (zlen_cons 0). lia.
Qed.

(** *** ghexOfInt *)
Lemma land_F x : Z.land x 0xF = x mod 16.
Proof. change 0xF with (2^4 - 1). rewrite land_mask by lia. reflexivity. Qed.

Lemma shr_ok {E} w x s : 0 <= s < w -> @shr E w x s = Ok (x / 2 ^ s).
Proof.
  intros H. unfold shr. replace ((s <? 0) || (w <=? s)) with false by lia. rewrite Z.shiftr_div_pow2 by lia. reflexivity.
Qed.

(** Output of k digits starting at shift 4(k-1). *)
Lemma hex_loop_ok {E} k : forall w pre arr uns,
  0 <= uns -> Z.of_nat k <= zlen arr -> 4 * Z.of_nat k <= w ->
  exists ds rest, @hex_loop E k w (pre ++ arr) (zlen pre) uns (4 * (Z.of_nat k - 1)) = Ok (pre ++ ds ++ rest, zlen pre + Z.of_nat k) /\
    zlen ds = Z.of_nat k /\ zlen rest = zlen arr - Z.of_nat k /\
    Forall (fun c => 0 <= dval c < 16) ds /\ value 16 ds = uns mod 16 ^ Z.of_nat k /\
    hd 0 ds = (match k with O => 0 | S _ => hexdigit (uns / 16 ^ (Z.of_nat k - 1) mod 16) end).
Proof.
  induction k as [|k IH]; intros w pre arr uns Hu Hk Hw.
  { exists [], arr. cbn [hex_loop app]. splits; try reflexivity; [f_equal; f_equal; lia|lia|constructor|].
    cbn. rewrite Z.mod_1_r. reflexivity. }
  destruct arr as [|x arr]; [unfold zlen in Hk; cbn in Hk; lia|]. rewrite zlen_cons in *.
  cbn [hex_loop]. rewrite shr_ok by lia. cbn [bind]. rewrite st_app by reflexivity. cbn [bind]. rewrite land_F.
  replace (4 * (Z.of_nat (S k) - 1) - 4) with (4 * (Z.of_nat k - 1)) by lia.
  replace (4 * (Z.of_nat (S k) - 1)) with (4 * Z.of_nat k) by lia.
  rewrite Z.pow_mul_r by lia. change (2 ^ 4) with 16.
  set (d := uns / 16 ^ Z.of_nat k mod 16).
  destruct (IH w (pre ++ [hexdigit d]) arr uns Hu ltac:(lia) ltac:(lia)) as (ds & rest & E1 & L1 & L2 & F1 & V1 & _).
  exists (hexdigit d :: ds), rest.
  assert (Hd : 0 <= d < 16) by (unfold d; lia).
  replace (pre ++ hexdigit d :: arr) with ((pre ++ [hexdigit d]) ++ arr) by (now rewrite <- app_assoc).
  replace (zlen pre + 1) with (zlen (pre ++ [hexdigit d])) by (now rewrite zlen_app).
  rewrite E1. splits.
  - f_equal. f_equal; [now rewrite <- app_assoc|]. rewrite zlen_app, zlen_cons. change (zlen (@nil Z)) with 0. lia.
  - rewrite zlen_cons. lia.
  - lia.
  - constructor; [rewrite dval_hex; lia|exact F1].
  - rewrite value_cons, dval_hex, L1, V1 by exact Hd.
    replace (16 ^ Z.of_nat (S k)) with (16 ^ Z.of_nat k * 16).
    2: { rewrite Nat2Z.inj_succ, Z.pow_succ_r by lia. lia. }
    rewrite Z.rem_mul_r by (try lia; apply Z.pow_nonzero; lia). fold d. lia.
  - cbn [hd]. unfold d. replace (Z.of_nat (S k) - 1) with (Z.of_nat k) by lia. reflexivity.
Qed.

(** Where skipping stops. *)
Lemma hex_skip_ok {E} k : forall w uns q,
  0 <= uns < 16 ^ (q + 1) -> Z.of_nat k <= q -> 4 * q < w ->
  exists q', @hex_skip E k w uns (4 * q) = Ok (4 * q') /\ q - Z.of_nat k <= q' <= q /\ uns < 16 ^ (q' + 1) /\
    (q' = q - Z.of_nat k \/ uns / 16 ^ q' mod 16 <> 0).
Proof.
  induction k as [|k IH]; intros w uns q Hu Hk Hw.
  { exists q. cbn [hex_skip]. splits; try lia. reflexivity. }
  cbn [hex_skip]. rewrite shr_ok by lia. cbn [bind]. rewrite land_F, Z.pow_mul_r by lia. change (2 ^ 4) with 16.
  destruct (Z.eqb_spec (uns / 16 ^ q mod 16) 0) as [E0|E0].
  - assert (Hp : 0 < 16 ^ q) by (apply Z.pow_pos_nonneg; lia).
    assert (Hq : uns / 16 ^ q < 16).
    { apply Z.div_lt_upper_bound; [lia|]. rewrite Z.add_1_r, Z.pow_succ_r in Hu by lia. lia. }
    assert (Hq0 : 0 <= uns / 16 ^ q) by (apply Z.div_pos; lia).
    rewrite Z.mod_small in E0 by lia. apply Z.div_small_iff in E0; [|lia].
    replace (4 * q - 4) with (4 * (q - 1)) by lia.
    destruct (IH w uns (q - 1)) as (q' & E1 & R1 & R2 & R3); [replace (q - 1 + 1) with q by lia; lia|lia|lia|].
    exists q'. splits; [exact E1|lia|lia|exact R2|]. destruct R3 as [R3|R3]; [left; lia|right; exact R3].
  - exists q. splits; try lia. reflexivity.
Qed.

Lemma hexdigit_48 d : 0 <= d < 16 -> hexdigit d = 48 -> d = 0.
Proof. unfold hexdigit. destruct (Z.ltb_spec d 10); lia. Qed.

Lemma pow_16 q : 0 <= q -> 16 ^ q = 2 ^ (4 * q).
Proof. intros H. rewrite Z.pow_mul_r by lia. reflexivity. Qed.

Lemma ghexOfInt_ok {E} lz signed n arr v :
  1 <= n -> zlen arr = n * 2 + 1 -> int_range signed n v ->
  exists vs s, @ghexOfInt E lz n arr v = Ok vs /\ vs_ok vs s /\
    (if lz then zlen s = 2 * n /\ numeral 16 s (v mod 2 ^ (8 * n)) else canonical 16 s (v mod 2 ^ (8 * n))).
Proof.
  intros Hn Ha _. unfold ghexOfInt. cbv zeta.
  pose proof (wrapu_range (8 * n) v ltac:(lia)) as Hu. fold (wrapu (8 * n) v).
  set (uns := wrapu (8 * n) v) in *.
  assert (H16 : 2 ^ (8 * n) = 16 ^ (2 * n)) by (rewrite pow_16 by lia; f_equal; lia).
  (* common tail *)
  assert (Tail : forall q, 0 <= q <= 2 * n - 1 -> uns < 16 ^ (q + 1) ->
    exists ds rest, @hex_loop E (Z.to_nat (4 * q / 4 + 1)) (8 * n) arr 0 uns (4 * q) = Ok (ds ++ rest, q + 1) /\
      zlen ds = q + 1 /\ zlen rest = zlen arr - (q + 1) /\ numeral 16 ds uns /\ hd 0 ds = hexdigit (uns / 16 ^ q mod 16)).
  { intros q Hq Hq2. replace (4 * q / 4 + 1) with (q + 1) by lia.
    destruct (@hex_loop_ok E (Z.to_nat (q + 1)) (8 * n) [] arr uns) as (ds & rest & E1 & L1 & L2 & F1 & V1 & Hh); [lia|lia|lia|].
    rewrite Z2Nat.id in * by lia. change (zlen (@nil Z)) with 0 in E1. cbn [app] in E1.
    replace (q + 1 - 1) with q in * by lia. exists ds, rest. splits; auto.
    - split; [intros ->; unfold zlen in L1; cbn in L1; lia|]. split; [exact F1|]. rewrite V1. apply Z.mod_small. lia.
    - rewrite Hh. destruct (Z.to_nat (q + 1)) eqn:Eq; [lia|]. reflexivity. }
  assert (Fin : forall ds rest q, zlen ds = q + 1 -> 0 <= q -> zlen rest = zlen arr - (q + 1) -> q + 1 <= 2 * n ->
    exists vs, (let! arr := @st E (ds ++ rest) (q + 1) 0 in Ok (mkVS arr 0 (q + 1 + 1 - 1))) = Ok vs /\ vs_ok vs ds).
  { intros ds rest q L1 Hq0 L2 Hq. destruct rest as [|y rest]; [unfold zlen in L2; cbn in L2; unfold zlen in *; lia|].
    rewrite st_app by lia. cbn [bind]. eexists. split; [reflexivity|].
    unfold vs_ok, vs_str. cbn [vs_array vs_offset vs_size]. rewrite zskipn_neg by lia.
    rewrite zfirstn_app_exact by lia. rewrite zlen_cons in L2.
    splits; try reflexivity; try lia.
    - rewrite znth_app_r by lia. replace (0 + (q + 1 + 1 - 1) - zlen ds) with 0 by lia. reflexivity.
    - rewrite zlen_app, zlen_cons. lia. }
  destruct lz.
  - cbn [bind]. replace (n * 8 - 4) with (4 * (2 * n - 1)) by lia.
    destruct (Tail (2 * n - 1)) as (ds & rest & E1 & L1 & L2 & N1 & _); [lia|replace (2 * n - 1 + 1) with (2 * n) by lia; lia|].
    rewrite E1. cbn [bind].
    destruct (Fin ds rest (2 * n - 1) L1 ltac:(lia) L2 ltac:(lia)) as (vs & E2 & V2).
    rewrite E2. exists vs, ds. splits; auto. lia.
  - replace (n * 8 - 4) with (4 * (2 * n - 1)) by lia.
    destruct (@hex_skip_ok E (Z.to_nat (n * 2 - 1)) (8 * n) uns (2 * n - 1)) as (q & E0 & R1 & R2 & R3);
      [replace (2 * n - 1 + 1) with (2 * n) by lia; lia|lia|lia|].
    rewrite E0. cbn [bind]. destruct (Tail q) as (ds & rest & E1 & L1 & L2 & N1 & Hh); [lia|exact R2|].
    rewrite E1. cbn [bind].
    destruct (Fin ds rest q L1 ltac:(lia) L2 ltac:(lia)) as (vs & E2 & V2).
    rewrite E2. exists vs, ds. splits; auto. split; [exact N1|].
    intros Hz. rewrite Hh in Hz. apply hexdigit_48 in Hz; [|lia].
    destruct R3 as [R3|R3]; [|contradiction].
    assert (Hq0 : q = 0) by lia. clear R3. subst q. destruct ds as [|c [|c2 ds]]; [discriminate L1| |rewrite !zlen_cons in L1; pose proof (zlen_nonneg ds); lia].
    cbn [hd] in Hh. rewrite Hz in Hh. f_equal. exact Hh.
Qed.

(** *** uniqueName *)
Lemma dval_45 : dval 45 = -1.
Proof. reflexivity. Qed.

(** A digit string is cut off by the first '-'. *)
Lemma digits_split b s1 s2 r1 r2 : 0 < b ->
  Forall (fun c => 0 <= dval c < b) s1 -> Forall (fun c => 0 <= dval c < b) s2 ->
  s1 ++ 45 :: r1 = s2 ++ 45 :: r2 -> s1 = s2 /\ r1 = r2.
Proof.
  intros Hb. revert s2. induction s1 as [|a s1 IH]; intros s2 F1 F2 H.
  - destruct s2 as [|c s2]; cbn [app] in H; [injection H as ->; auto|].
    injection H as <- _. inversion F2 as [|? ? D]; subst. rewrite dval_45 in D. lia.
  - inversion F1 as [|? ? D1 F1']; subst. destruct s2 as [|c s2]; cbn [app] in H.
    + injection H as -> _. rewrite dval_45 in D1. lia.
    + injection H as <- H. inversion F2; subst. destruct (IH s2 F1' ltac:(assumption) H) as (-> & ->). auto.
Qed.

Lemma decimal_split s1 s2 r1 r2 v1 v2 : decimal s1 v1 -> decimal s2 v2 ->
  s1 ++ 45 :: r1 = s2 ++ 45 :: r2 -> v1 = v2 /\ r1 = r2.
Proof.
  unfold decimal. intros D1 D2 H.
  destruct (Z.ltb_spec v1 0) as [N1|N1], (Z.ltb_spec v2 0) as [N2|N2].
  - destruct D1 as (d1 & -> & ((A1 & F1 & V1) & _)), D2 as (d2 & -> & ((A2 & F2 & V2) & _)).
    cbn [app] in H. injection H as H. destruct (digits_split 10 d1 d2 r1 r2 ltac:(lia) F1 F2 H) as (-> & ->).
    split; [lia|reflexivity].
  - destruct D1 as (d1 & -> & _), D2 as ((A2 & F2 & V2) & _). destruct s2 as [|c s2]; [congruence|].
    cbn [app] in H. injection H as <- _. inversion F2 as [|? ? D]; subst. rewrite dval_45 in D. lia.
  - destruct D2 as (d2 & -> & _), D1 as ((A1 & F1 & V1) & _). destruct s1 as [|c s1]; [congruence|].
    cbn [app] in H. injection H as -> _. inversion F1 as [|? ? D]; subst. rewrite dval_45 in D. lia.
  - destruct D1 as ((A1 & F1 & V1) & _), D2 as ((A2 & F2 & V2) & _).
    destruct (digits_split 10 s1 s2 r1 r2 ltac:(lia) F1 F2 H) as (-> & ->). split; [lia|reflexivity].
Qed.

Lemma uninit_len n : 0 <= n -> zlen (uninit n) = n.
Proof. intros H. unfold uninit. rewrite zlen_repeat. lia. Qed.

Lemma uniqueName_shape {E} pid counter time rnd :
  0 <= pid < 2 ^ 32 -> 0 <= time < 2 ^ 64 ->
  exists p c t, @uniqueName E pid counter time rnd =
      Ok (p ++ [45] ++ c ++ [45] ++ t ++ (if zlen (randomHexString rnd) =? 0 then [] else [45] ++ randomHexString rnd),
          s32 (counter + 1)) /\
    decimal p pid /\ decimal c (s32 (counter + 1)) /\ canonical 16 t time.
Proof.
  intros Hp Ht. unfold uniqueName, interlockedIncrement. cbv zeta.
  destruct (@gdecOfInt_ok E false 4 (uninit 14) pid) as (pv & p & -> & Dp & (Sp & _)); [lia|now rewrite uninit_len|exact Hp|].
  destruct (@gdecOfInt_ok E true 4 (uninit 14) (s32 (counter + 1))) as (cv & c & -> & Dc & (Sc & _)); [lia|now rewrite uninit_len|apply (wraps_range 32); lia|].
  destruct (@ghexOfInt_ok E false false 8 (uninit 17) time) as (tv & t & -> & (St & _) & Dt); [lia|now rewrite uninit_len|exact Ht|].
  cbn [bind]. exists p, c, t. rewrite Sp, Sc, St. splits; auto.
  change (8 * 8) with 64 in Dt. rewrite Z.mod_small in Dt by lia. exact Dt.
Qed.

Lemma uniqueName_differ {E} pid1 c1 t1 r1 pid2 c2 t2 r2 n1 n2 k1 k2 :
  0 <= pid1 < 2 ^ 32 -> 0 <= pid2 < 2 ^ 32 -> 0 <= t1 < 2 ^ 64 -> 0 <= t2 < 2 ^ 64 ->
  @uniqueName E pid1 c1 t1 r1 = Ok (n1, k1) -> @uniqueName E pid2 c2 t2 r2 = Ok (n2, k2) ->
  n1 = n2 -> pid1 = pid2 /\ s32 (c1 + 1) = s32 (c2 + 1).
Proof.
  intros P1 P2 T1 T2 E1 E2 ->.
  destruct (@uniqueName_shape E pid1 c1 t1 r1 P1 T1) as (p & c & t & F1 & Dp & Dc & _).
  destruct (@uniqueName_shape E pid2 c2 t2 r2 P2 T2) as (p' & c' & t' & F2 & Dp' & Dc' & _).
  rewrite E1 in F1. rewrite E2 in F2. injection F1 as H1 _. injection F2 as H2 _. rewrite H1 in H2. cbn [app] in H2.
  destruct (decimal_split _ _ _ _ _ _ Dp Dp' H2) as (-> & H3).
  destruct (decimal_split _ _ _ _ _ _ Dc Dc' H3) as (-> & _). auto.
Qed.

(** The counter after k calls. *)
Fixpoint bump (k : nat) (c : Z) : Z := match k with O => c | S k' => interlockedIncrement (bump k' c) end.

Lemma s32_mod x : s32 x mod 2 ^ 32 = x mod 2 ^ 32.
Proof.
  unfold s32, wraps. cbv zeta. destruct (x mod 2 ^ 32 <? 2 ^ (32 - 1)).
  - rewrite Z.mod_mod by lia. reflexivity.
  - replace (x mod 2 ^ 32 - 2 ^ 32) with (x mod 2 ^ 32 + (-1) * 2 ^ 32) by lia.
    rewrite Z.mod_add, Z.mod_mod by lia. reflexivity.
Qed.

Lemma bump_mod k c : bump k c mod 2 ^ 32 = (c + Z.of_nat k) mod 2 ^ 32.
Proof.
  induction k as [|k IH]; [cbn [bump]; f_equal; lia|].
  cbn [bump]. unfold interlockedIncrement. rewrite s32_mod, <- Zplus_mod_idemp_l, IH, Zplus_mod_idemp_l. f_equal. lia.
Qed.

Lemma bump_differ i j c : (i < j)%nat -> Z.of_nat j - Z.of_nat i < 2 ^ 32 ->
  s32 (bump i c + 1) <> s32 (bump j c + 1).
Proof.
  intros Hij Hd H.
  assert (Hm : s32 (bump i c + 1) mod 2 ^ 32 = s32 (bump j c + 1) mod 2 ^ 32) by now rewrite H.
  change (s32 (bump i c + 1)) with (bump (S i) c) in Hm. change (s32 (bump j c + 1)) with (bump (S j) c) in Hm.
  rewrite !bump_mod in Hm. change (2 ^ 32) with 4294967296 in *. lia.
Qed.

Lemma randomHex_len b : zlen (randomHexString (Some b)) = 2 * zlen b.
Proof.
  unfold randomHexString, randomBytes. induction b as [|x b IH]; [reflexivity|].
  cbn [flat_map]. rewrite zlen_app, IH, !zlen_cons. change (zlen (@nil Z)) with 0. lia.
Qed.

Lemma randomHex_value b : Forall (fun x => 0 <= x < 256) b ->
  Forall (fun c => 0 <= dval c < 16) (randomHexString (Some b)) /\
  value 16 (randomHexString (Some b)) = fold_left (fun a x => a * 256 + x) b 0.
Proof.
  unfold randomHexString, randomBytes. induction b as [|x b IH] using rev_ind; intros F; [split; [constructor|reflexivity]|].
  apply Forall_app in F. destruct F as (F1 & F2). inversion F2; subst. destruct (IH F1) as (IF & IV).
  rewrite flat_map_app. cbn [flat_map app]. rewrite land_F, Z.shiftr_div_pow2 by lia. change (2 ^ 4) with 16.
  split.
  - apply Forall_app. split; [exact IF|]. repeat constructor; rewrite dval_hex; lia.
  - rewrite fold_left_app. cbn [fold_left]. rewrite <- IV.
    change [hexdigit (x / 16); hexdigit (x mod 16)] with ([hexdigit (x / 16)] ++ [hexdigit (x mod 16)]).
    rewrite app_assoc, !value_app, !dval_hex by lia. lia.
Qed.

(** *** Bounded copies *)
Lemma ldc_cons {E} pre c r : @ldc E (pre ++ c :: r) (zlen pre) = Ok c.
Proof. unfold ldc. rewrite znth_app_r, Z.sub_diag by lia. reflexivity. Qed.

Lemma fill_loop_ok {E} k : forall pre rest, zlen rest = Z.of_nat k ->
  @fill_loop E k (pre ++ rest) (zlen pre) = Ok (pre ++ zrepeat 0 (Z.of_nat k)).
Proof.
  induction k as [|k IH]; intros pre rest H.
  - apply zlen_0_nil in H. subst. reflexivity.
  - destruct rest as [|x rest]; [unfold zlen in H; cbn in H; lia|]. rewrite zlen_cons in H.
    cbn [fill_loop]. rewrite st_app by reflexivity. cbn [bind].
    replace (pre ++ 0 :: rest) with ((pre ++ [0]) ++ rest) by (now rewrite <- app_assoc).
    replace (zlen pre + 1) with (zlen (pre ++ [0])) by (now rewrite zlen_app).
    rewrite IH by lia. f_equal. rewrite <- app_assoc. f_equal. unfold zrepeat.
    rewrite !Nat2Z.id. reflexivity.
Qed.

Lemma cpy_loop_ok {E} k : forall pre d s, zlen d = Z.of_nat k -> readable s (Z.of_nat k) ->
  exists r, @cpy_loop E k (pre ++ d) (pre ++ s) (zlen pre) =
      Ok (pre ++ zfirstn (Z.of_nat k) (ctext s) ++ r, zlen pre + zlen (zfirstn (Z.of_nat k) (ctext s))) /\
    zlen r = Z.of_nat k - zlen (zfirstn (Z.of_nat k) (ctext s)).
Proof.
  induction k as [|k IH]; intros pre d s Hd Hr.
  { apply zlen_0_nil in Hd. subst. exists []. cbn [cpy_loop]. rewrite zfirstn_neg by lia. cbn [app].
    rewrite Z.add_0_r. auto. }
  destruct s as [|c s].
  { destruct Hr as [[]|Hr]. unfold zlen in Hr. cbn in Hr. lia. }
  cbn [cpy_loop ctext]. rewrite ldc_cons. cbn [bind].
  destruct (Z.eqb_spec c 0) as [Hc|Hc].
  { exists d. rewrite zfirstn_all by (unfold zlen; cbn [length]; lia). cbn [app]. change (zlen (@nil Z)) with 0. split; [f_equal; f_equal; lia|lia]. }
  destruct d as [|x d]; [unfold zlen in Hd; cbn in Hd; lia|]. rewrite zlen_cons in Hd.
  rewrite st_app by reflexivity. cbn [bind].
  destruct (IH (pre ++ [c]) d s) as (r & E1 & L1); [lia|destruct Hr as [[Hr|Hr]|Hr]; [congruence|now left|right; rewrite zlen_cons in Hr; lia]|].
  rewrite <- !app_assoc in E1. cbn [app] in E1.
  replace (zlen (pre ++ [c])) with (zlen pre + 1) in E1 by (now rewrite zlen_app).
  exists r. rewrite E1. unfold zfirstn in *. rewrite !Nat2Z.id in *. cbn [firstn]. rewrite zlen_cons.
  split; [f_equal; f_equal; lia|lia].
Qed.

Lemma wcsncpy_ok {E} d s : readable s (zlen d) ->
  @wcsncpy E d s = Ok (zfirstn (zlen d) (ctext s) ++ zrepeat 0 (zlen d - zlen (ctext s))).
Proof.
  intros Hr. unfold wcsncpy.
  destruct (@cpy_loop_ok E (length d) [] d s eq_refl Hr) as (r & E1 & L1). cbn [app] in E1.
  change (zlen (@nil Z)) with 0 in E1. fold (zlen d) in *. rewrite E1. cbn [bind]. rewrite Z.add_0_l.
  rewrite fill_loop_ok.
  - f_equal. f_equal. rewrite zlen_zfirstn in *. pose proof (zlen_nonneg d). pose proof (zlen_nonneg (ctext s)).
    destruct (Z.leb_spec (zlen d) (zlen (ctext s))).
    + unfold zrepeat. rewrite Z2Nat.id by lia. replace (Z.to_nat (zlen d - zlen (ctext s))) with O by lia.
      replace (Z.to_nat (zlen d - Z.min (Z.max 0 (zlen d)) (zlen (ctext s)))) with O by lia. reflexivity.
    + f_equal. lia.
  - rewrite L1, Z2Nat.id; [reflexivity|]. pose proof (zlen_nonneg r). lia.
Qed.

Lemma st_last {E} l v : 0 < zlen l -> @st E l (zlen l - 1) v = Ok (zfirstn (zlen l - 1) l ++ [v]).
Proof.
  intros H. destruct (zlen_pos_snoc l H) as (l' & x & -> & Hl). rewrite zlen_app, zlen_cons in *.
  change (zlen (@nil Z)) with 0 in *. rewrite st_app by lia.
  rewrite zfirstn_app_exact by lia. reflexivity.
Qed.

Lemma zfirstn_zfirstn {A} a b (l : list A) : zfirstn a (zfirstn b l) = zfirstn (Z.min a b) l.
Proof. unfold zfirstn. rewrite firstn_firstn. f_equal. lia. Qed.

Lemma wcsncpy_nul_ok {E} d s : 0 < zlen d -> readable s (zlen d) ->
  @wcsncpy_nul E d s =
    Ok (zfirstn (zlen d - 1) (ctext s) ++ zrepeat 0 (zlen d - Z.min (zlen d - 1) (zlen (ctext s)))).
Proof.
  intros Hd Hr. unfold wcsncpy_nul. rewrite wcsncpy_ok by exact Hr. cbn [bind].
  set (t := ctext s). pose proof (zlen_nonneg t).
  assert (Hlen : zlen (zfirstn (zlen d) t ++ zrepeat 0 (zlen d - zlen t)) = zlen d).
  { rewrite zlen_app, zlen_zfirstn, zlen_repeat. lia. }
  rewrite st_last by lia. rewrite Hlen. f_equal.
  destruct (Z.leb_spec (zlen d) (zlen t)).
  - replace (zrepeat 0 (zlen d - zlen t)) with (@nil Z) by (unfold zrepeat; replace (Z.to_nat (zlen d - zlen t)) with O by lia; reflexivity).
    rewrite app_nil_r, zfirstn_zfirstn. f_equal; [f_equal; lia|].
    replace (zlen d - Z.min (zlen d - 1) (zlen t)) with 1 by lia. reflexivity.
  - rewrite !(zfirstn_all _ t) by lia.
    replace (zlen d - Z.min (zlen d - 1) (zlen t)) with (zlen d - zlen t) by lia.
    assert (Hz : zrepeat 0 (zlen d - zlen t) = zrepeat 0 (zlen d - zlen t - 1) ++ [0]).
    { unfold zrepeat. replace (Z.to_nat (zlen d - zlen t)) with (S (Z.to_nat (zlen d - zlen t - 1))) by lia.
      cbn [repeat]. apply repeat_cons. }
    rewrite Hz at 1. rewrite app_assoc. rewrite zfirstn_app_exact.
    + rewrite <- app_assoc, <- Hz. reflexivity.
    + rewrite zlen_app, zlen_repeat. lia.
Qed.

Lemma wcsnlen_loop_ok {E} k : forall pre s, readable s (Z.of_nat k) ->
  @wcsnlen_loop E k (pre ++ s) (zlen pre) (zlen pre + Z.of_nat k) = Ok (zlen pre + Z.min (Z.of_nat k) (zlen (ctext s))).
Proof.
  induction k as [|k IH]; intros pre s Hr.
  { cbn [wcsnlen_loop]. f_equal. pose proof (zlen_nonneg (ctext s)). lia. }
  destruct s as [|c s].
  { destruct Hr as [[]|Hr]. unfold zlen in Hr. cbn in Hr. lia. }
  cbn [wcsnlen_loop ctext]. rewrite ldc_cons. cbn [bind].
  destruct (Z.eqb_spec c 0) as [Hc|Hc]; [f_equal; unfold zlen; cbn [length]; lia|].
  replace (pre ++ c :: s) with ((pre ++ [c]) ++ s) by (now rewrite <- app_assoc).
  replace (zlen pre + 1) with (zlen (pre ++ [c])) by (now rewrite zlen_app).
  replace (zlen pre + Z.of_nat (S k)) with (zlen (pre ++ [c]) + Z.of_nat k) by (rewrite zlen_app, zlen_cons; change (zlen (@nil Z)) with 0; lia).
  rewrite IH by (destruct Hr as [[Hr|Hr]|Hr]; [congruence|now left|right; rewrite zlen_cons in Hr; lia]).
  f_equal. rewrite zlen_app, !zlen_cons. change (zlen (@nil Z)) with 0. lia.
Qed.

Lemma wcsnlen_ok {E} s n : 0 <= n -> readable s n -> @wcsnlen E s n = Ok (Z.min n (zlen (ctext s))).
Proof.
  intros Hn Hr. unfold wcsnlen.
  pose proof (@wcsnlen_loop_ok E (Z.to_nat n) [] s) as H. rewrite Z2Nat.id in H by lia. cbn [app] in H.
  change (zlen (@nil Z)) with 0 in H. rewrite !Z.add_0_l in H. apply H, Hr.
Qed.

Lemma split_at (l : list Z) i : 0 <= i < zlen l -> exists x, l = zfirstn i l ++ x :: zskipn (i + 1) l.
Proof.
  intros Hi. destruct (znth_some l i) as (x & Hx); [lia|]. exists x.
  rewrite <- (zfirstn_zskipn i l) at 1. f_equal. unfold znth in Hx. replace (i <? 0) with false in Hx by lia.
  unfold zskipn. replace (Z.to_nat (i + 1)) with (S (Z.to_nat i)) by lia.
  clear - Hx. revert l Hx. induction (Z.to_nat i) as [|m IH]; intros [|a l] Hx; cbn in *; try discriminate; [congruence|now apply IH].
Qed.

Lemma st_at {E} l i v : 0 <= i < zlen l -> @st E l i v = Ok (zfirstn i l ++ v :: zskipn (i + 1) l).
Proof.
  intros Hi. destruct (split_at l i Hi) as (x & Hx).
  transitivity (@st E (zfirstn i l ++ x :: zskipn (i + 1) l) i v); [now rewrite <- Hx|].
  apply st_app. rewrite zlen_zfirstn. lia.
Qed.

Lemma vsnprintf_ok {E} size out lib count : 0 < size < 2 ^ 31 -> zlen out = size -> zlen lib = size ->
  exists buf n, @winpty_vsnprintf E size out (lib, count) = Ok (buf, n) /\ zlen buf = size /\ -1 <= n < size /\
    (0 <= n -> n = count /\ zfirstn n buf = zfirstn n lib /\ znth buf n = Some 0) /\
    (n = -1 -> (count < 0 \/ size <= count) /\ zfirstn (size - 1) buf = zfirstn (size - 1) lib /\ znth buf (size - 1) = Some 0).
Proof.
  intros Hs Ho Hl. unfold winpty_vsnprintf. replace (0 <? size) with true by lia. cbn [assert_ bind].
  destruct out as [|o out]; [unfold zlen in Ho; cbn in Ho; lia|].
  change (o :: out) with ([] ++ o :: out). rewrite st_app by reflexivity. cbn [bind].
  destruct ((count <? 0) || (size <=? count)) eqn:Ec.
  - rewrite st_at by lia. cbn [bind].
    assert (Hlx : zlen (zfirstn (size - 1) lib) = size - 1) by (rewrite zlen_zfirstn; lia).
    set (buf := zfirstn (size - 1) lib ++ 0 :: zskipn (size - 1 + 1) lib).
    exists buf, (-1). assert (zlen (zskipn (size - 1 + 1) lib) = 0) by (rewrite zlen_zskipn; lia).
    split; [reflexivity|]. split; [unfold buf; rewrite zlen_app, zlen_cons; lia|]. split; [lia|]. split; [lia|].
    intros _. split; [lia|]. unfold buf. split; [now rewrite zfirstn_app_exact|].
    rewrite znth_app_r by lia. rewrite Hlx, Z.sub_diag. reflexivity.
  - rewrite st_at by lia. cbn [bind].
    assert (Hlx : zlen (zfirstn count lib) = count) by (rewrite zlen_zfirstn; lia).
    set (buf := zfirstn count lib ++ 0 :: zskipn (count + 1) lib).
    exists buf, count. assert (zlen (zskipn (count + 1) lib) = size - count - 1) by (rewrite zlen_zskipn; lia).
    split; [reflexivity|]. split; [unfold buf; rewrite zlen_app, zlen_cons; lia|]. split; [lia|]. split; [|lia].
    intros _. split; [reflexivity|]. unfold buf. split; [now rewrite zfirstn_app_exact|].
    rewrite znth_app_r by lia. rewrite Hlx, Z.sub_diag. reflexivity.
Qed.

Lemma gen_names_nth pid : forall ins c0 ns i p t r,
  gen_names pid c0 ins = Ok ns -> znth ins (Z.of_nat i) = Some (p, t, r) ->
  exists n k, @uniqueName unit pid (bump i c0) t r = Ok (n, k) /\ znth ns (Z.of_nat i) = Some (p ++ n).
Proof.
  induction ins as [|((q, u), w) ins IH]; intros c0 ns i p t r H Hn.
  { unfold znth in Hn. cbn in Hn. destruct (Z.of_nat i <? 0), (Z.to_nat (Z.of_nat i)); discriminate. }
  cbn [gen_names] in H. unfold pipeName in H.
  destruct (uniqueName pid c0 u w) as [[n c]| | | |] eqn:E1; cbn [bind] in H; try discriminate.
  destruct (gen_names pid c ins) as [ns'| | | |] eqn:E2; cbn [bind] in H; try discriminate. injection H as <-.
  destruct i as [|i].
  - cbn [Z.of_nat] in *. rewrite znth_0 in Hn. injection Hn as -> -> ->. exists n, c. cbn [bump]. auto.
  - rewrite znth_succ in Hn by lia. replace (Z.of_nat (S i) - 1) with (Z.of_nat i) in Hn by lia.
    destruct (IH c ns' i p t r E2 Hn) as (n' & k & E3 & E4). exists n', k.
    split; [|rewrite znth_succ by lia; replace (Z.of_nat (S i) - 1) with (Z.of_nat i) by lia; exact E4].
    assert (Hc : c = interlockedIncrement c0).
    { unfold uniqueName in E1. cbv zeta in E1. 
      destruct (gdecOfInt 4 (uninit 14) pid); cbn [bind] in E1; try discriminate.
      destruct (gdecOfInt 4 (uninit 14) (interlockedIncrement c0)); cbn [bind] in E1; try discriminate.
      destruct (ghexOfInt false 8 (uninit 17) u); cbn [bind] in E1; try discriminate. congruence. }
    rewrite <- E3. f_equal. subst c. clear. induction i as [|i IH]; [reflexivity|]. cbn [bump] in *. now rewrite IH.
Qed.

Lemma gen_names_total pid : forall ins c0, 0 <= pid < 2 ^ 32 ->
  Forall (fun x => 0 <= snd (fst x) < 2 ^ 64) ins -> exists ns, gen_names pid c0 ins = Ok ns.
Proof.
  induction ins as [|((q, u), w) ins IH]; intros c0 Hp F; [eexists; reflexivity|].
  inversion F as [|? ? H1 F']; subst. cbn [fst snd] in H1. cbn [gen_names]. unfold pipeName.
  destruct (@uniqueName_shape unit pid c0 u w Hp H1) as (p & c & t & -> & _). cbn [bind].
  destruct (IH (s32 (c0 + 1)) Hp F') as (ns & ->). cbn [bind]. eexists; reflexivity.
Qed.

Lemma prefix_apart_app p q x y : prefix_apart p q -> p ++ x = q ++ y -> p = q /\ x = y.
Proof.
  intros [->|(i & a & b & Ha & Hb & Hab)] H; [split; [reflexivity|now apply app_inv_head in H]|exfalso].
  pose proof (znth_range _ _ _ Ha). pose proof (znth_range _ _ _ Hb).
  assert (znth (p ++ x) i = Some a) by (now rewrite znth_app_l by lia).
  assert (znth (q ++ y) i = Some b) by (now rewrite znth_app_l by lia). congruence.
Qed.

Lemma names_distinct pid c0 ins ns i j ni nj :
  0 <= pid < 2 ^ 32 -> Forall (fun x => 0 <= snd (fst x) < 2 ^ 64) ins ->
  (forall p q, In p (map (fun x => fst (fst x)) ins) -> In q (map (fun x => fst (fst x)) ins) -> prefix_apart p q) ->
  gen_names pid c0 ins = Ok ns -> 0 <= i < j -> j - i < 2 ^ 32 ->
  znth ns i = Some ni -> znth ns j = Some nj -> ni <> nj.
Proof.
  intros Hp F Hpre H Hij Hd Hi Hj E.
  assert (Hlen : zlen ns = zlen ins).
  { clear - H. revert c0 ns H. induction ins as [|((q, u), w) ins IH]; intros c0 ns H; cbn [gen_names] in H; [injection H as <-; reflexivity|].
    destruct (pipeName q pid c0 u w) as [[n c]| | | |]; cbn [bind] in H; try discriminate.
    destruct (gen_names pid c ins) as [ns'| | | |] eqn:E2; cbn [bind] in H; try discriminate. injection H as <-.
    rewrite !zlen_cons. f_equal. eapply IH, E2. }
  pose proof (znth_range _ _ _ Hi). pose proof (znth_range _ _ _ Hj).
  destruct (znth_some ins i) as (((p & t) & r) & Ii); [lia|]. destruct (znth_some ins j) as (((q & u) & w) & Ij); [lia|].
  assert (Ti : 0 <= t < 2 ^ 64) by (rewrite Forall_forall in F; specialize (F _ (znth_In _ _ _ Ii)); exact F).
  assert (Tj : 0 <= u < 2 ^ 64) by (rewrite Forall_forall in F; specialize (F _ (znth_In _ _ _ Ij)); exact F).
  replace i with (Z.of_nat (Z.to_nat i)) in Ii, Hi by lia. replace j with (Z.of_nat (Z.to_nat j)) in Ij, Hj by lia.
  destruct (gen_names_nth pid ins c0 ns _ _ _ _ H Ii) as (n1 & k1 & U1 & N1).
  destruct (gen_names_nth pid ins c0 ns _ _ _ _ H Ij) as (n2 & k2 & U2 & N2).
  assert (ni = p ++ n1) by congruence. assert (nj = q ++ n2) by congruence. subst ni nj.
  apply znth_In in Ii, Ij.
  destruct (prefix_apart_app p q n1 n2) as (_ & En); [|congruence|].
  { apply Hpre; apply in_map_iff; [exists (p, t, r)|exists (q, u, w)]; auto. }
  destruct (uniqueName_differ _ _ _ _ _ _ _ _ _ _ _ _ Hp Hp Ti Tj U1 U2 En) as (_ & Hc).
  exact (bump_differ (Z.to_nat i) (Z.to_nat j) c0 ltac:(lia) ltac:(lia) Hc).
Qed.

Lemma names_distinct_procs pid1 pid2 c1 c2 t1 t2 r1 r2 p1 p2 n1 n2 k1 k2 :
  0 <= pid1 < 2 ^ 32 -> 0 <= pid2 < 2 ^ 32 -> 0 <= t1 < 2 ^ 64 -> 0 <= t2 < 2 ^ 64 -> prefix_apart p1 p2 ->
  @pipeName unit p1 pid1 c1 t1 r1 = Ok (n1, k1) -> @pipeName unit p2 pid2 c2 t2 r2 = Ok (n2, k2) ->
  pid1 <> pid2 -> n1 <> n2.
Proof.
  intros P1 P2 T1 T2 Hpre E1 E2 Hne E. unfold pipeName in *.
  destruct (uniqueName pid1 c1 t1 r1) as [[a1 b1]| | | |] eqn:U1; cbn [bind] in E1; try discriminate.
  destruct (uniqueName pid2 c2 t2 r2) as [[a2 b2]| | | |] eqn:U2; cbn [bind] in E2; try discriminate.
  injection E1 as <- <-. injection E2 as <- <-.
  destruct (prefix_apart_app _ _ _ _ Hpre E) as (_ & En).
  destruct (uniqueName_differ _ _ _ _ _ _ _ _ _ _ _ _ P1 P2 T1 T2 U1 U2 En) as (Hc & _). contradiction.
Qed.
