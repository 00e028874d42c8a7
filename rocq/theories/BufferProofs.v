From Verif Require Import Base BaseLemmas Buffer BufferSpec.
Ltac Zify.zify_post_hook ::= Z.div_mod_to_equations.

(** ** Little-endian integers *)
Lemma le_bytes_length n x : length (le_bytes n x) = n.
Proof. revert x; induction n as [|n IH]; intros x; cbn [le_bytes length]; [reflexivity|now rewrite IH]. Qed.

Lemma zlen_le_bytes n x : zlen (le_bytes n x) = Z.of_nat n.
Proof. unfold zlen; now rewrite le_bytes_length. Qed.

Lemma le_bytes_byte n x : Forall (fun b => 0 <= b < 256) (le_bytes n x).
Proof.
  revert x; induction n as [|n IH]; intros x; cbn [le_bytes]; constructor; [lia|apply IH].
Qed.

Lemma pow256_S n : 256 ^ Z.of_nat (S n) = 256 * 256 ^ Z.of_nat n.
Proof. rewrite Nat2Z.inj_succ, Z.pow_succ_r by lia. reflexivity. Qed.

Lemma pow256_pos n : 0 < 256 ^ Z.of_nat n.
Proof. apply Z.pow_pos_nonneg; lia. Qed.

Lemma le_value_bytes n x : le_value (le_bytes n x) = x mod 256 ^ Z.of_nat n.
Proof.
  revert x; induction n as [|n IH]; intros x; cbn [le_bytes le_value].
  - symmetry; apply Z.mod_1_r.
  - rewrite IH, pow256_S. pose proof (pow256_pos n) as Hp.
    rewrite Z.rem_mul_r by lia. reflexivity.
Qed.

Lemma le_value_range bs :
  Forall (fun b => 0 <= b < 256) bs -> 0 <= le_value bs < 256 ^ zlen bs.
Proof.
  unfold zlen; induction bs as [|b bs IH]; intros H; cbn [le_value length].
  - cbn; lia.
  - inversion H as [|? ? Hb Hbs]; subst. specialize (IH Hbs). rewrite pow256_S.
    pose proof (pow256_pos (length bs)). nia.
Qed.

Lemma le_bytes_value bs :
  Forall (fun b => 0 <= b < 256) bs -> le_bytes (length bs) (le_value bs) = bs.
Proof.
  induction bs as [|b bs IH]; intros H; cbn [length le_bytes le_value]; [reflexivity|].
  inversion H as [|? ? Hb Hbs]; subst.
  replace ((b + 256 * le_value bs) mod 256) with b by lia.
  replace ((b + 256 * le_value bs) / 256) with (le_value bs) by lia.
  now rewrite IH.
Qed.

Lemma le_bytes_mod n x y :
  (x - y) mod 256 ^ Z.of_nat n = 0 -> le_bytes n x = le_bytes n y.
Proof.
  intros H.
  assert (E : le_value (le_bytes n x) = le_value (le_bytes n y)).
  { rewrite !le_value_bytes. pose proof (pow256_pos n) as Hp.
    replace x with (y + (x - y)) by lia. rewrite Z.add_mod, H, Z.add_0_r, Z.mod_mod by lia. reflexivity. }
  pose proof (le_bytes_value (le_bytes n x) (le_bytes_byte n x)) as Hx.
  pose proof (le_bytes_value (le_bytes n y) (le_bytes_byte n y)) as Hy.
  rewrite le_bytes_length in Hx, Hy. rewrite E in Hx. congruence.
Qed.

Lemma is_le_iff n x bs : is_le n x bs <-> bs = le_bytes n x.
Proof.
  split.
  - intros (Hl & Hb & Hv).
    change (fold_right (fun b acc => b + 256 * acc) 0 bs) with (le_value bs) in Hv.
    apply le_bytes_mod in Hv. rewrite <- Hv, <- Hl. symmetry; now apply le_bytes_value.
  - intros ->. split; [apply le_bytes_length|]. split; [apply le_bytes_byte|].
    change (fold_right (fun b acc => b + 256 * acc) 0 (le_bytes n x)) with (le_value (le_bytes n x)).
    rewrite le_value_bytes. pose proof (pow256_pos n) as Hp.
    rewrite Zminus_mod, Z.mod_mod, Z.sub_diag by lia. apply Z.mod_0_l; lia.
Qed.

(** ** The wire image of a value *)
Definition wire (v : val) : list Z :=
  match v with
  | VInt32 i => 0 :: le_bytes 4 i
  | VInt64 i => 1 :: le_bytes 8 i
  | VStr s => 2 :: le_bytes 8 (zlen s) ++ flat_map (le_bytes 2) s
  end.

Lemma Forall2_le2 s ds : Forall2 (is_le 2) s ds <-> ds = map (le_bytes 2) s.
Proof.
  split.
  - intros H; induction H as [|x d s ds Hx _ IH]; [reflexivity|].
    cbn [map]. apply is_le_iff in Hx. now rewrite Hx, IH.
  - intros ->. induction s as [|x s IH]; cbn [map]; constructor; [now apply is_le_iff|exact IH].
Qed.

Lemma on_wire_iff v bs : on_wire v bs <-> bs = wire v.
Proof.
  destruct v as [i|i|s]; cbn [on_wire wire].
  - split.
    + intros (d & -> & H). apply is_le_iff in H. now rewrite H.
    + intros ->. eexists; split; [reflexivity|]. now apply is_le_iff.
  - split.
    + intros (d & -> & H). apply is_le_iff in H. now rewrite H.
    + intros ->. eexists; split; [reflexivity|]. now apply is_le_iff.
  - split.
    + intros (n & ds & -> & Hn & Hd). apply is_le_iff in Hn. apply Forall2_le2 in Hd.
      subst. now rewrite <- flat_map_concat_map.
    + intros ->. exists (le_bytes 8 (zlen s)), (map (le_bytes 2) s).
      rewrite flat_map_concat_map. split; [reflexivity|].
      split; [now apply is_le_iff|now apply Forall2_le2].
Qed.

Lemma fields_on_wire_iff vs bs : fields_on_wire vs bs <-> bs = flat_map wire vs.
Proof.
  split.
  - intros H; induction H as [|v b vs bss Hv _ IH]; [reflexivity|].
    cbn [flat_map]. apply on_wire_iff in Hv. now rewrite Hv, IH.
  - intros ->. induction vs as [|v vs IH]; cbn [flat_map]; constructor; [now apply on_wire_iff|exact IH].
Qed.

Lemma putVal_wire buf v : putVal buf v = buf ++ wire v.
Proof.
  destruct v as [i|i|s]; cbn [putVal wire];
    unfold putInt32, putInt64, putWString, putRawInt, putRawData;
    rewrite <- !app_assoc; reflexivity.
Qed.

Lemma putVals_wire vs buf : putVals buf vs = buf ++ flat_map wire vs.
Proof.
  revert buf; induction vs as [|v vs IH]; intros buf; unfold putVals in *; cbn [fold_left flat_map].
  - now rewrite app_nil_r.
  - rewrite IH, putVal_wire, <- app_assoc. reflexivity.
Qed.

(** ** Reader position *)
Definition at_ (rb : rbuf) (suf : list Z) : Prop :=
  exists pre, rb_buf rb = pre ++ suf /\ rb_off rb = zlen pre.

Lemma load_n_ok {E} (pre suf : list Z) n :
  (n <= length suf)%nat -> @load_n E (pre ++ suf) (zlen pre) n = Ok (firstn n suf).
Proof.
  revert pre suf; induction n as [|n IH]; intros pre suf H; [reflexivity|].
  destruct suf as [|b suf]; [cbn in H; lia|].
  cbn [load_n firstn]. rewrite znth_app_r by lia. rewrite Z.sub_diag, znth_0.
  replace (pre ++ b :: suf) with ((pre ++ [b]) ++ suf) by (now rewrite <- app_assoc).
  replace (zlen pre + 1) with (zlen (pre ++ [b])) by (rewrite zlen_app, zlen_cons, zlen_nil; lia).
  rewrite IH by (cbn in H; lia). reflexivity.
Qed.

Lemma getRawData_at rb suf len :
  at_ rb suf -> 0 < len ->
  (len <= zlen suf /\ exists rb', getRawData rb len = Ok (zfirstn len suf, rb') /\ at_ rb' (zskipn len suf))
  \/ (zlen suf < len /\ getRawData rb len = Throw EDecode).
Proof.
  intros (pre & Hb & Ho) Hlen. unfold getRawData. rewrite Hb, Ho, zlen_app.
  pose proof (zlen_nonneg pre) as Hp; pose proof (zlen_nonneg suf) as Hs.
  unfold assert_. replace (zlen pre <=? zlen pre + zlen suf) with true by lia. cbn [bind].
  destruct (len <=? zlen pre + zlen suf - zlen pre) eqn:E1.
  - left. split; [lia|]. replace (zlen pre <? zlen pre + zlen suf) with true by lia.
    rewrite load_n_ok by (unfold zlen in *; lia). cbn [bind].
    eexists; split; [reflexivity|].
    exists (pre ++ zfirstn len suf); cbn [rb_buf rb_off].
    rewrite <- app_assoc, zfirstn_zskipn. split; [reflexivity|].
    rewrite zlen_app, zlen_zfirstn; lia.
  - right. split; [lia|reflexivity].
Qed.

Lemma getRawUInt_at rb suf len :
  at_ rb suf -> 0 < len ->
  (len <= zlen suf /\ exists rb', getRawUInt len rb = Ok (le_value (zfirstn len suf), rb') /\ at_ rb' (zskipn len suf))
  \/ (zlen suf < len /\ getRawUInt len rb = Throw EDecode).
Proof.
  intros Hat Hl. unfold getRawUInt.
  destruct (getRawData_at rb suf len Hat Hl) as [(H1 & rb' & H2 & H3)|(H1 & H2)]; rewrite H2; cbn [bind];
    [left; eauto|right; auto].
Qed.

(** Reading back [n] bytes that are there. *)
Lemma getRawUInt_le rb n x suf :
  at_ rb (le_bytes n x ++ suf) -> (0 < n)%nat ->
  exists rb', getRawUInt (Z.of_nat n) rb = Ok (x mod 256 ^ Z.of_nat n, rb') /\ at_ rb' suf.
Proof.
  intros Hat Hn.
  destruct (getRawUInt_at rb _ (Z.of_nat n) Hat) as [(H1 & rb' & H2 & H3)|(H1 & H2)]; [lia| |].
  - rewrite zfirstn_app_exact in H2 by (now rewrite zlen_le_bytes).
    rewrite zskipn_app_exact in H3 by (now rewrite zlen_le_bytes).
    rewrite le_value_bytes in H2. eauto.
  - rewrite zlen_app, zlen_le_bytes in H1. pose proof (zlen_nonneg suf). lia.
Qed.

Lemma s32_mod i : - 2^31 <= i < 2^31 -> s32 (i mod 256 ^ 4) = i.
Proof.
  intros H. unfold s32, wraps. change (256 ^ 4) with (2 ^ 32). rewrite Z.mod_mod by lia.
  apply (wraps_small 32 i); lia.
Qed.

Lemma s64_mod i : - 2^63 <= i < 2^63 -> s64 (i mod 256 ^ 8) = i.
Proof.
  intros H. unfold s64, wraps. change (256 ^ 8) with (2 ^ 64). rewrite Z.mod_mod by lia.
  apply (wraps_small 64 i); lia.
Qed.

Lemma zlen_flat_map2 s : zlen (flat_map (le_bytes 2) s) = 2 * zlen s.
Proof.
  induction s as [|x s IH]; [reflexivity|]. cbn [flat_map].
  rewrite zlen_app, IH, zlen_le_bytes, zlen_cons. lia.
Qed.

Lemma flat2_cons x s :
  flat_map (le_bytes 2) (x :: s) = x mod 256 :: (x / 256) mod 256 :: flat_map (le_bytes 2) s.
Proof. reflexivity. Qed.

Lemma units_of_bytes_flat s :
  Forall (fun u => 0 <= u < 2^16) s -> units_of_bytes (flat_map (le_bytes 2) s) = s.
Proof.
  induction s as [|x s IH]; intros H; [reflexivity|].
  inversion H as [|? ? Hx Hs]; subst. rewrite flat2_cons; cbn [units_of_bytes].
  rewrite IH by exact Hs. f_equal. change (2^16) with 65536 in Hx. lia.
Qed.

(** Forward direction: what was written is read back. *)
Lemma getVal_wire pl v t rb suf :
  plat_ok pl -> representable v -> storable pl v -> has_type v t ->
  at_ rb (wire v ++ suf) ->
  exists rb', getVal pl t rb = Ok (v, rb') /\ at_ rb' suf.
Proof.
  intros Hpl Hr Hs Ht Hat.
  destruct v as [i|i|s]; destruct t; cbn [has_type] in Ht; try contradiction; cbn [wire app] in Hat; cbn [getVal].
  - unfold getInt32.
    change (0 :: le_bytes 4 i ++ suf) with (le_bytes 1 0 ++ (le_bytes 4 i ++ suf)) in Hat.
    destruct (getRawUInt_le rb 1 0 _ Hat) as (rb1 & E1 & Hat1); [lia|]. change (Z.of_nat 1) with 1 in E1.
    rewrite E1. cbn [bind]. change (0 mod 256 ^ 1) with 0. cbn [read_check piece_int32 Z.eqb bind].
    destruct (getRawUInt_le rb1 4 i _ Hat1) as (rb2 & E2 & Hat2); [lia|]. change (Z.of_nat 4) with 4 in E2.
    rewrite E2. cbn [bind]. cbn [representable] in Hr. rewrite s32_mod by exact Hr. eauto.
  - unfold getInt64.
    change (1 :: le_bytes 8 i ++ suf) with (le_bytes 1 1 ++ (le_bytes 8 i ++ suf)) in Hat.
    destruct (getRawUInt_le rb 1 1 _ Hat) as (rb1 & E1 & Hat1); [lia|]. change (Z.of_nat 1) with 1 in E1.
    rewrite E1. cbn [bind]. change (1 mod 256 ^ 1) with 1. cbn [read_check piece_int64 Z.eqb Pos.eqb bind].
    destruct (getRawUInt_le rb1 8 i _ Hat1) as (rb2 & E2 & Hat2); [lia|]. change (Z.of_nat 8) with 8 in E2.
    rewrite E2. cbn [bind]. cbn [representable] in Hr. rewrite s64_mod by exact Hr. eauto.
  - unfold getWString.
    destruct Hpl as (Hsm & Hal). cbn [storable] in Hs. pose proof (zlen_nonneg s) as Hs0.
    change (2 :: (le_bytes 8 (zlen s) ++ flat_map (le_bytes 2) s) ++ suf)
      with (le_bytes 1 2 ++ ((le_bytes 8 (zlen s) ++ flat_map (le_bytes 2) s) ++ suf)) in Hat.
    destruct (getRawUInt_le rb 1 2 _ Hat) as (rb1 & E1 & Hat1); [lia|]. change (Z.of_nat 1) with 1 in E1.
    rewrite E1. cbn [bind]. change (2 mod 256 ^ 1) with 2. cbn [read_check piece_wstring Z.eqb Pos.eqb bind].
    rewrite <- app_assoc in Hat1.
    destruct (getRawUInt_le rb1 8 (zlen s) _ Hat1) as (rb2 & E2 & Hat2); [lia|]. change (Z.of_nat 8) with 8 in E2.
    rewrite E2. cbn [bind]. change (256 ^ 8) with (2 ^ 64).
    rewrite (Z.mod_small (zlen s) (2^64)) by lia.
    unfold read_check. replace (zlen s <=? p_size_max pl / 2) with true by lia. cbn [bind].
    destruct (0 <? zlen s) eqn:E0.
    + rewrite (Z.mod_small (zlen s * 2)) by lia.
      replace (zlen s <=? p_alloc_limit pl) with true by lia.
      destruct (getRawData_at rb2 _ (zlen s * 2) Hat2) as [(H1 & rb3 & E3 & Hat3)|(H1 & _)]; [lia| |].
      * rewrite E3. cbn [bind].
        rewrite zfirstn_app_exact by (rewrite zlen_flat_map2; lia).
        rewrite zlen_flat_map2. replace (2 * zlen s =? zlen s * 2) with true by lia.
        rewrite units_of_bytes_flat by exact Hr. cbn [bind].
        exists rb3; split; [reflexivity|]. rewrite zskipn_app_exact in Hat3 by (rewrite zlen_flat_map2; lia).
        exact Hat3.
      * exfalso. rewrite zlen_app, zlen_flat_map2 in H1. pose proof (zlen_nonneg suf). lia.
    + assert (Hnil : s = []) by (apply zlen_0_nil; lia). subst s. cbn [bind]. eauto.
Qed.

(** Backward direction: whatever is accepted was on the wire. *)
Lemma Forall_zfirstn {A} (P : A -> Prop) n l : Forall P l -> Forall P (zfirstn n l).
Proof.
  intros H. rewrite <- (zfirstn_zskipn n l) in H. apply Forall_app in H. tauto.
Qed.
Lemma Forall_zskipn {A} (P : A -> Prop) n l : Forall P l -> Forall P (zskipn n l).
Proof.
  intros H. rewrite <- (zfirstn_zskipn n l) in H. apply Forall_app in H. tauto.
Qed.

Definition bytes_ok (l : list Z) := Forall (fun b => 0 <= b < 256) l.

Lemma mod_wraps bits x : 0 < bits -> (x - wraps bits x) mod 2 ^ bits = 0.
Proof.
  intros Hb. unfold wraps. assert (Hp : 0 < 2 ^ bits) by (apply Z.pow_pos_nonneg; lia).
  destruct (x mod 2 ^ bits <? 2 ^ (bits - 1)).
  - rewrite Zminus_mod, Z.mod_mod, Z.sub_diag by lia. apply Z.mod_0_l; lia.
  - replace (x - (x mod 2 ^ bits - 2 ^ bits)) with ((x - x mod 2 ^ bits) + 1 * 2 ^ bits) by lia.
    rewrite Z_mod_plus_full, Zminus_mod, Z.mod_mod, Z.sub_diag by lia. apply Z.mod_0_l; lia.
Qed.

Lemma le_bytes_wraps n bits bs :
  bytes_ok bs -> length bs = n -> (0 < n)%nat -> bits = 8 * Z.of_nat n ->
  le_bytes n (wraps bits (le_value bs)) = bs.
Proof.
  intros Hb Hl Hn Hbits. pose proof (le_bytes_value bs Hb) as Hv. rewrite Hl in Hv.
  transitivity (le_bytes n (le_value bs)); [|exact Hv]. symmetry. apply le_bytes_mod.
  replace (256 ^ Z.of_nat n) with (2 ^ bits).
  - apply mod_wraps; lia.
  - subst bits. rewrite Z.pow_mul_r by lia. reflexivity.
Qed.

Lemma units_of_bytes_inv : forall bs n, bytes_ok bs -> (length bs = 2 * n)%nat ->
  flat_map (le_bytes 2) (units_of_bytes bs) = bs /\ length (units_of_bytes bs) = n /\
  Forall (fun u => 0 <= u < 2^16) (units_of_bytes bs).
Proof.
  intros bs n; revert bs; induction n as [|n IH]; intros bs Hb Hl.
  - destruct bs as [|b bs]; [|cbn in Hl; lia]. repeat split; constructor.
  - destruct bs as [|b0 bs]; [cbn in Hl; lia|]. destruct bs as [|b1 bs]; [cbn in Hl; lia|].
    inversion Hb as [|? ? Hb0 Hb']; subst. inversion Hb' as [|? ? Hb1 Hb2]; subst.
    destruct (IH bs Hb2) as (E & L & F); [cbn [length] in Hl; lia|].
    cbn [units_of_bytes length]. rewrite flat2_cons, E, L. repeat split.
    + f_equal; [lia|]. f_equal; lia.
    + constructor; [change (2^16) with 65536; lia|exact F].
Qed.

Lemma read_tag rb suf :
  at_ rb suf -> bytes_ok suf ->
  (exists tg suf1 rb1, suf = tg :: suf1 /\ 0 <= tg < 256 /\ getRawUInt 1 rb = Ok (tg, rb1) /\ at_ rb1 suf1)
  \/ (suf = [] /\ getRawUInt 1 rb = Throw EDecode).
Proof.
  intros Hat Hb. destruct (getRawUInt_at rb suf 1 Hat) as [(H1 & rb1 & E1 & Hat1)|(H1 & E1)]; [lia| |].
  - left. destruct suf as [|tg suf1]; [rewrite zlen_nil in H1; lia|].
    inversion Hb as [|? ? Htg Hb1]; subst.
    exists tg, suf1, rb1. split; [reflexivity|]. split; [exact Htg|]. split; [|exact Hat1].
    rewrite E1. f_equal. f_equal.
    change (le_value (zfirstn 1 (tg :: suf1))) with (tg + 256 * 0). lia.
  - right. split; [apply zlen_0_nil; pose proof (zlen_nonneg suf); lia|exact E1].
Qed.

Definition get_sound (pl : plat) (t : ty) (suf : list Z) (r : res exc (val * rbuf)) : Prop :=
  match r with
  | Ok (v, rb') => has_type v t /\ representable v /\ storable pl v /\
                   exists suf', suf = wire v ++ suf' /\ at_ rb' suf' /\ bytes_ok suf'
  | Throw EDecode => True
  | Throw EAlloc => t = TStr /\ exists n suf', suf = 2 :: le_bytes 8 n ++ suf' /\
                      p_alloc_limit pl < n <= p_size_max pl / 2
  | _ => False
  end.

Lemma getVal_sound pl t rb suf :
  plat_ok pl -> at_ rb suf -> bytes_ok suf -> get_sound pl t suf (getVal pl t rb).
Proof.
  intros Hpl Hat Hb.
  destruct (read_tag rb suf Hat Hb) as [(tg & suf1 & rb1 & -> & Htg & E1 & Hat1)|(-> & E1)].
  2: { destruct t; cbn [getVal]; unfold getInt32, getInt64, getWString; rewrite E1; cbn; exact I. }
  inversion Hb as [|? ? _ Hb1]; subst.
  destruct t; cbn [getVal].
  - unfold getInt32. rewrite E1. cbn [bind]. unfold read_check.
    destruct (tg =? piece_int32) eqn:Et; [|cbn; exact I]. cbn [bind].
    unfold piece_int32 in Et. assert (Htg0 : tg = 0) by lia; subst tg.
    destruct (getRawUInt_at rb1 suf1 4 Hat1) as [(H2 & rb2 & E2 & Hat2)|(H2 & E2)]; [lia| |];
      rewrite E2; cbn [bind]; [|cbn; exact I].
    cbn [get_sound]. split; [exact I|]. cbn [representable storable]. split.
    { pose proof (wraps_range 32 (le_value (zfirstn 4 suf1))). unfold s32. lia. }
    split; [exact I|]. exists (zskipn 4 suf1). split; [|split; [exact Hat2|now apply Forall_zskipn]].
    cbn [wire]. unfold s32. rewrite (le_bytes_wraps 4 32).
    + now rewrite <- app_comm_cons, zfirstn_zskipn.
    + now apply Forall_zfirstn.
    + pose proof (zlen_zfirstn 4 suf1). unfold zlen in *; lia.
    + lia.
    + reflexivity.
  - unfold getInt64. rewrite E1. cbn [bind]. unfold read_check.
    destruct (tg =? piece_int64) eqn:Et; [|cbn; exact I]. cbn [bind].
    unfold piece_int64 in Et. assert (Htg0 : tg = 1) by lia; subst tg.
    destruct (getRawUInt_at rb1 suf1 8 Hat1) as [(H2 & rb2 & E2 & Hat2)|(H2 & E2)]; [lia| |];
      rewrite E2; cbn [bind]; [|cbn; exact I].
    cbn [get_sound]. split; [exact I|]. cbn [representable storable]. split.
    { pose proof (wraps_range 64 (le_value (zfirstn 8 suf1))). unfold s64. lia. }
    split; [exact I|]. exists (zskipn 8 suf1). split; [|split; [exact Hat2|now apply Forall_zskipn]].
    cbn [wire]. unfold s64. rewrite (le_bytes_wraps 8 64).
    + now rewrite <- app_comm_cons, zfirstn_zskipn.
    + now apply Forall_zfirstn.
    + pose proof (zlen_zfirstn 8 suf1). unfold zlen in *; lia.
    + lia.
    + reflexivity.
  - unfold getWString. rewrite E1. cbn [bind]. unfold read_check.
    destruct (tg =? piece_wstring) eqn:Et; [|cbn; exact I]. cbn [bind].
    unfold piece_wstring in Et. assert (Htg0 : tg = 2) by lia; subst tg.
    destruct (getRawUInt_at rb1 suf1 8 Hat1) as [(H2 & rb2 & E2 & Hat2)|(H2 & E2)]; [lia| |];
      rewrite E2; cbn [bind]; [|cbn; exact I].
    set (n8 := zfirstn 8 suf1) in *.
    assert (Hn8 : bytes_ok n8) by (now apply Forall_zfirstn).
    assert (Hl8 : length n8 = 8%nat).
    { pose proof (zlen_zfirstn 8 suf1) as Hz. fold n8 in Hz. unfold zlen in *; lia. }
    assert (Hr8 : 0 <= le_value n8 < 2^64).
    { pose proof (le_value_range n8 Hn8) as Hz. unfold zlen in Hz. rewrite Hl8 in Hz. exact Hz. }
    assert (Hw8 : le_bytes 8 (le_value n8) = n8).
    { rewrite <- (le_bytes_value n8 Hn8) at 2. now rewrite Hl8. }
    assert (Hs1 : suf1 = n8 ++ zskipn 8 suf1) by (unfold n8; now rewrite zfirstn_zskipn).
    assert (Hb2 : bytes_ok (zskipn 8 suf1)) by (now apply Forall_zskipn).
    set (c := le_value n8) in *. destruct Hpl as (Hsm & Hal).
    destruct (c <=? p_size_max pl / 2) eqn:Ec; [|cbn; exact I]. cbn [bind].
    destruct (0 <? c) eqn:E0.
    + rewrite (Z.mod_small (c * 2)) by lia.
      destruct (c <=? p_alloc_limit pl) eqn:El.
      * destruct (getRawData_at rb2 _ (c * 2) Hat2) as [(H3 & rb3 & E3 & Hat3)|(H3 & E3)]; [lia| |];
          rewrite E3; cbn [bind]; [|cbn; exact I].
        assert (Hld : zlen (zfirstn (c * 2) (zskipn 8 suf1)) = c * 2) by (rewrite zlen_zfirstn; lia).
        rewrite Hld, Z.eqb_refl. cbn [bind get_sound].
        set (d := zfirstn (c * 2) (zskipn 8 suf1)) in *.
        destruct (units_of_bytes_inv d (Z.to_nat c)) as (Hf & Hlu & Hu).
        { now apply Forall_zfirstn. }
        { unfold zlen in Hld; lia. }
        assert (Hzu : zlen (units_of_bytes d) = c) by (unfold zlen; lia).
        split; [exact I|]. cbn [representable storable]. split; [exact Hu|]. split; [lia|].
        exists (zskipn (c * 2) (zskipn 8 suf1)).
        split; [|split; [exact Hat3|now apply Forall_zskipn]].
        cbn [wire]. rewrite Hzu, Hw8, Hf. rewrite <- app_comm_cons, <- app_assoc.
        unfold d. rewrite zfirstn_zskipn. unfold n8. now rewrite zfirstn_zskipn.
      * cbn [bind get_sound]. split; [reflexivity|]. exists c, (zskipn 8 suf1).
        rewrite Hw8, <- Hs1. split; [reflexivity|lia].
    + cbn [bind get_sound]. split; [exact I|]. cbn [representable storable].
      assert (Hc0 : c = 0) by lia.
      split; [constructor|]. split; [rewrite zlen_nil; lia|].
      exists (zskipn 8 suf1). split; [|split; [exact Hat2|exact Hb2]].
      cbn [wire]. rewrite zlen_nil, <- Hc0. fold c. rewrite Hw8. cbn [flat_map]. rewrite app_nil_r.
      rewrite <- app_comm_cons. now rewrite <- Hs1.
Qed.

Lemma at_start bytes : at_ (mkReadBuffer bytes) bytes.
Proof. exists []; split; reflexivity. Qed.

Lemma assertEof_at rb suf :
  at_ rb suf -> (suf = [] /\ assertEof rb = Ok tt) \/ (suf <> [] /\ assertEof rb = Throw EDecode).
Proof.
  intros (pre & Hb & Ho). unfold assertEof, read_check. rewrite Hb, Ho, zlen_app.
  destruct suf as [|b suf].
  - left; split; [reflexivity|]. rewrite zlen_nil. replace (zlen pre =? zlen pre + 0) with true by lia. reflexivity.
  - right; split; [discriminate|]. rewrite zlen_cons. pose proof (zlen_nonneg suf).
    replace (zlen pre =? zlen pre + (zlen suf + 1)) with false by lia. reflexivity.
Qed.

Lemma getVals_wire pl vs ts rb suf :
  plat_ok pl -> Forall representable vs -> Forall (storable pl) vs -> Forall2 has_type vs ts ->
  at_ rb (flat_map wire vs ++ suf) ->
  exists rb', getVals pl ts rb = Ok (vs, rb') /\ at_ rb' suf.
Proof.
  intros Hpl Hr Hs Ht; revert rb Hr Hs; induction Ht as [|v t vs ts Hvt _ IH]; intros rb Hr Hs Hat.
  - exists rb; split; [reflexivity|exact Hat].
  - inversion Hr as [|? ? Hr1 Hr2]; inversion Hs as [|? ? Hs1 Hs2]; subst.
    cbn [flat_map] in Hat. rewrite <- app_assoc in Hat.
    destruct (getVal_wire pl v t rb _ Hpl Hr1 Hs1 Hvt Hat) as (rb1 & E1 & Hat1).
    destruct (IH rb1 Hr2 Hs2 Hat1) as (rb2 & E2 & Hat2).
    cbn [getVals]. rewrite E1. cbn [bind]. rewrite E2. cbn [bind]. eauto.
Qed.

Definition gets_sound (pl : plat) (ts : list ty) (suf : list Z) (r : res exc (list val * rbuf)) : Prop :=
  match r with
  | Ok (vs, rb') => Forall2 has_type vs ts /\ Forall representable vs /\ Forall (storable pl) vs /\
                   exists suf', suf = flat_map wire vs ++ suf' /\ at_ rb' suf' /\ bytes_ok suf'
  | Throw _ => True
  | _ => False
  end.

Lemma getVals_sound pl ts rb suf :
  plat_ok pl -> at_ rb suf -> bytes_ok suf -> gets_sound pl ts suf (getVals pl ts rb).
Proof.
  intros Hpl; revert rb suf; induction ts as [|t ts IH]; intros rb suf Hat Hb.
  - cbn [getVals gets_sound]. repeat split; try constructor. exists suf. auto.
  - cbn [getVals]. pose proof (getVal_sound pl t rb suf Hpl Hat Hb) as H1.
    destruct (getVal pl t rb) as [[v rb1]|e| | |]; cbn [get_sound bind] in H1 |- *; try contradiction; try exact I.
    destruct H1 as (Ht & Hr & Hs & suf1 & E & Hat1 & Hb1).
    specialize (IH rb1 suf1 Hat1 Hb1).
    destruct (getVals pl ts rb1) as [[vs rb2]|e| | |]; cbn [gets_sound bind] in IH |- *; try contradiction; try exact I.
    destruct IH as (Ht2 & Hr2 & Hs2 & suf2 & E2 & Hat2 & Hb2).
    repeat split; try (constructor; assumption).
    exists suf2. cbn [flat_map]. rewrite <- app_assoc, <- E2. auto.
Qed.

Lemma decodeFields_iff pl ts bytes vs :
  plat_ok pl -> bytes_ok bytes ->
  (decodeFields pl ts bytes = Ok vs <->
   fields_on_wire vs bytes /\ Forall2 has_type vs ts /\ Forall representable vs /\ Forall (storable pl) vs).
Proof.
  intros Hpl Hb. rewrite fields_on_wire_iff. unfold decodeFields. split.
  - intros H. pose proof (getVals_sound pl ts _ _ Hpl (at_start bytes) Hb) as Hs.
    destruct (getVals pl ts (mkReadBuffer bytes)) as [[vs' rb']|e| | |]; cbn [bind] in H; try discriminate.
    cbn [gets_sound] in Hs. destruct Hs as (H1 & H2 & H3 & suf' & E & Hat & _).
    destruct (assertEof_at rb' suf' Hat) as [(-> & Ee)|(_ & Ee)]; rewrite Ee in H; cbn [bind] in H; [|discriminate].
    injection H as ->. rewrite app_nil_r in E. auto.
  - intros (E & Ht & Hr & Hs).
    destruct (getVals_wire pl vs ts (mkReadBuffer bytes) [] Hpl Hr Hs Ht) as (rb' & E1 & Hat).
    { rewrite app_nil_r, <- E. apply at_start. }
    rewrite E1. cbn [bind]. destruct (assertEof_at rb' [] Hat) as [(_ & Ee)|(Hn & _)]; [|now destruct Hn].
    rewrite Ee. reflexivity.
Qed.

Lemma decodeFields_safe pl ts bytes :
  plat_ok pl -> bytes_ok bytes ->
  match decodeFields pl ts bytes with Ok _ | Throw _ => True | _ => False end.
Proof.
  intros Hpl Hb. unfold decodeFields.
  pose proof (getVals_sound pl ts _ _ Hpl (at_start bytes) Hb) as Hs.
  destruct (getVals pl ts (mkReadBuffer bytes)) as [[vs' rb']|e| | |]; cbn [bind gets_sound] in *; try contradiction; try exact I.
  destruct Hs as (_ & _ & _ & suf' & _ & Hat & _).
  destruct (assertEof_at rb' suf' Hat) as [(_ & Ee)|(_ & Ee)]; rewrite Ee; exact I.
Qed.

Lemma roundtrip pl vs ts :
  plat_ok pl -> Forall representable vs -> Forall (storable pl) vs -> Forall2 has_type vs ts ->
  decodeFields pl ts (putVals [] vs) = Ok vs.
Proof.
  intros Hpl Hr Hs Ht. unfold decodeFields. rewrite putVals_wire. cbn [app].
  destruct (getVals_wire pl vs ts (mkReadBuffer (flat_map wire vs)) [] Hpl Hr Hs Ht) as (rb' & E1 & Hat).
  { rewrite app_nil_r. apply at_start. }
  rewrite E1. cbn [bind]. destruct (assertEof_at rb' [] Hat) as [(_ & Ee)|(Hn & _)]; [|now destruct Hn].
  rewrite Ee. reflexivity.
Qed.

(** ** Packets *)
Lemma store_all_ok {E} (data pre mid suf : list Z) :
  length mid = length data ->
  @store_all E (pre ++ mid ++ suf) (zlen pre) data = Ok (pre ++ data ++ suf).
Proof.
  revert pre mid; induction data as [|b data IH]; intros pre mid H.
  - destruct mid; [reflexivity|discriminate].
  - destruct mid as [|m mid]; [discriminate|].
    cbn [store_all].
    assert (Hz : zupd (pre ++ (m :: mid) ++ suf) (zlen pre) b = Some (pre ++ (b :: mid) ++ suf)).
    { unfold zupd, zlen. destruct (Z.of_nat (length pre) <? 0) eqn:E0; [lia|]. rewrite Nat2Z.id.
      clear. induction pre as [|p pre IH]; [reflexivity|]. cbn [app length upd_nat]. cbn [app] in IH.
      now rewrite IH. }
    rewrite Hz.
    specialize (IH (pre ++ [b]) mid).
    replace (zlen pre + 1) with (zlen (pre ++ [b])) by (rewrite zlen_app, zlen_cons, zlen_nil; lia).
    rewrite <- !app_assoc in IH. cbn [app] in IH |- *. apply IH. cbn in H; lia.
Qed.

Lemma newPacket_eq : newPacket = le_bytes 8 0.
Proof. reflexivity. Qed.

Lemma finishPacket_ok {E} payload :
  @finishPacket E (newPacket ++ payload) = Ok (le_bytes 8 (8 + zlen payload) ++ payload).
Proof.
  unfold finishPacket, replaceRawData.
  assert (Hl : zlen (newPacket ++ payload) = 8 + zlen payload).
  { rewrite zlen_app. reflexivity. }
  pose proof (zlen_nonneg payload). rewrite Hl, zlen_le_bytes.
  unfold assert_. replace ((0 <=? 8 + zlen payload) && (Z.of_nat 8 <=? 8 + zlen payload - 0)) with true by lia.
  cbn [bind].
  change 0 with (zlen (@nil Z)). change (newPacket ++ payload) with ([] ++ newPacket ++ payload).
  rewrite store_all_ok; [reflexivity|]. rewrite newPacket_eq, !le_bytes_length. reflexivity.
Qed.

Lemma putInt32_val buf i : putInt32 buf i = putVal buf (VInt32 i). Proof. reflexivity. Qed.
Lemma putInt64_val buf i : putInt64 buf i = putVal buf (VInt64 i). Proof. reflexivity. Qed.
Lemma putWString_val buf i : putWString buf i = putVal buf (VStr i). Proof. reflexivity. Qed.

Definition request_vals (rq : request) : list val :=
  match rq with
  | RqStart r => [VInt32 msg_start; VInt64 (sr_flags r); VInt32 (Z_of_bool (sr_want_process r));
                  VInt32 (Z_of_bool (sr_want_thread r)); VStr (sr_appname r); VStr (sr_cmdline r);
                  VStr (sr_cwd r); VStr (sr_env r); VStr (sr_desktop r)]
  | RqSetSize c r => [VInt32 msg_set_size; VInt32 c; VInt32 r]
  | RqProcessList => [VInt32 msg_process_list]
  | RqUnknown t => [VInt32 t]
  end.

Lemma buildRequest_vals rq : buildRequest rq = newPacket ++ flat_map wire (request_vals rq).
Proof.
  rewrite <- putVals_wire. destruct rq; reflexivity.
Qed.

Lemma sendRequest_eq rq :
  sendRequest rq = Ok (le_bytes 8 (8 + zlen (flat_map wire (request_vals rq))) ++ flat_map wire (request_vals rq)).
Proof. unfold sendRequest. rewrite buildRequest_vals. apply finishPacket_ok. Qed.

(** ** One field at a time *)
Lemma getInt32_fwd rb i suf :
  - 2^31 <= i < 2^31 -> at_ rb (wire (VInt32 i) ++ suf) ->
  exists rb', getInt32 rb = Ok (i, rb') /\ at_ rb' suf.
Proof.
  intros Hr Hat.
  destruct (getVal_wire {| p_size_max := 2^32 - 1; p_alloc_limit := 0 |} (VInt32 i) TInt32 rb suf)
    as (rb' & E & H); try exact I; try exact Hr; try exact Hat.
  - split; [left; reflexivity|cbn; lia].
  - exists rb'; split; [|exact H]. cbn [getVal] in E. apply bind_Ok in E. destruct E as ((j & rb2) & E1 & E2).
    injection E2 as -> ->. exact E1.
Qed.

Lemma wire_s64 i : wire (VInt64 i) = wire (VInt64 (s64 i)).
Proof.
  cbn [wire]. f_equal. apply le_bytes_mod. change (256 ^ Z.of_nat 8) with (2^64).
  apply mod_wraps; lia.
Qed.
Lemma wire_s32 i : wire (VInt32 i) = wire (VInt32 (s32 i)).
Proof.
  cbn [wire]. f_equal. apply le_bytes_mod. change (256 ^ Z.of_nat 4) with (2^32).
  apply mod_wraps; lia.
Qed.

Lemma getInt32_fwd_any rb i suf :
  at_ rb (wire (VInt32 i) ++ suf) ->
  exists rb', getInt32 rb = Ok (s32 i, rb') /\ at_ rb' suf.
Proof.
  rewrite wire_s32. intros Hat. apply getInt32_fwd; [|exact Hat]. apply (wraps_range 32); lia.
Qed.

Lemma getInt64_fwd_any rb i suf :
  at_ rb (wire (VInt64 i) ++ suf) ->
  exists rb', getInt64 rb = Ok (s64 i, rb') /\ at_ rb' suf.
Proof.
  rewrite wire_s64. intros Hat.
  destruct (getVal_wire {| p_size_max := 2^32 - 1; p_alloc_limit := 0 |} (VInt64 (s64 i)) TInt64 rb suf)
    as (rb' & E & H); try exact I; try exact Hat.
  - split; [left; reflexivity|cbn; lia].
  - apply (wraps_range 64); lia.
  - exists rb'; split; [|exact H]. cbn [getVal] in E. apply bind_Ok in E. destruct E as ((j & rb2) & E1 & E2).
    injection E2 as -> ->. exact E1.
Qed.

Lemma getWString_fwd pl rb s suf :
  plat_ok pl -> representable (VStr s) -> storable pl (VStr s) -> at_ rb (wire (VStr s) ++ suf) ->
  exists rb', getWString pl rb = Ok (s, rb') /\ at_ rb' suf.
Proof.
  intros Hpl Hr Hs Hat.
  destruct (getVal_wire pl (VStr s) TStr rb suf Hpl Hr Hs I Hat) as (rb' & E & H).
  exists rb'; split; [|exact H]. cbn [getVal] in E. apply bind_Ok in E. destruct E as ((j & rb2) & E1 & E2).
  injection E2 as -> ->. exact E1.
Qed.

Lemma u64_s64 x : 0 <= x < 2^64 -> u64 (s64 x) = x.
Proof.
  intros H. unfold u64, s64, wrapu, wraps. change (2^(64-1)) with (2^63). rewrite (Z.mod_small x) by exact H.
  destruct (x <? 2^63) eqn:E; [apply Z.mod_small; lia|].
  rewrite <- (Z_mod_plus_full (x - 2^64) 1). rewrite Z.mod_small; lia.
Qed.

Lemma u32_s32 x : 0 <= x < 2^32 -> u32 (s32 x) = x.
Proof.
  intros H. unfold u32, s32, wrapu, wraps. change (2^(32-1)) with (2^31). rewrite (Z.mod_small x) by exact H.
  destruct (x <? 2^31) eqn:E; [apply Z.mod_small; lia|].
  rewrite <- (Z_mod_plus_full (x - 2^32) 1). rewrite Z.mod_small; lia.
Qed.

Lemma skip_size rb n suf : at_ rb (le_bytes 8 n ++ suf) ->
  exists x rb', getRawUInt 8 rb = Ok (x, rb') /\ at_ rb' suf.
Proof.
  intros H. destruct (getRawUInt_le rb 8 n suf H) as (rb' & E & H'); [lia|]. eauto.
Qed.

Lemma eof_fwd rb : at_ rb [] -> assertEof rb = Ok tt.
Proof. intros H. destruct (assertEof_at rb [] H) as [(_ & E)|(N & _)]; [exact E|now destruct N]. Qed.

Ltac fwd32 Hat E :=
  match type of Hat with at_ ?rb _ =>
    destruct (getInt32_fwd_any rb _ _ Hat) as (? & E & ?); clear Hat; rename H into Hat; rewrite E; cbn [bind]; clear E
  end.

Lemma request_roundtrip pl rq bytes :
  plat_ok pl -> sendable pl rq -> sendRequest rq = Ok bytes -> parseRequest pl bytes = Ok rq.
Proof.
  intros Hpl Hs Hb. rewrite sendRequest_eq in Hb. injection Hb as <-.
  unfold parseRequest.
  match goal with |- context [mkReadBuffer ?b] => pose proof (at_start b) as Hat end.
  destruct (skip_size _ _ _ Hat) as (x & rb1 & E1 & Hat1). rewrite E1. cbn [bind]. clear E1 Hat.
  rewrite <- (app_nil_r (flat_map wire _)) in Hat1.
  destruct rq as [r|c rw| |t]; cbn [request_vals flat_map] in Hat1; rewrite <- ?app_assoc in Hat1; cbn [app] in Hat1.
  - destruct (getInt32_fwd_any _ _ _ Hat1) as (rb2 & E & Hat2). rewrite E. cbn [bind]. clear E.
    change (s32 msg_start) with 0. cbn [Z.eqb msg_start].
    destruct (getInt64_fwd_any _ _ _ Hat2) as (rb3 & E & Hat3). rewrite E. cbn [bind]. clear E.
    destruct (getInt32_fwd_any _ _ _ Hat3) as (rb4 & E & Hat4). rewrite E. cbn [bind]. clear E.
    destruct (getInt32_fwd_any _ _ _ Hat4) as (rb5 & E & Hat5). rewrite E. cbn [bind]. clear E.
    cbn [sendable] in Hs. destruct Hs as (Hfl & Hstr).
    inversion Hstr as [|? ? [Ha1 Ha2] Hstr1]; subst. inversion Hstr1 as [|? ? [Hb1 Hb2] Hstr2]; subst.
    inversion Hstr2 as [|? ? [Hc1 Hc2] Hstr3]; subst. inversion Hstr3 as [|? ? [Hd1 Hd2] Hstr4]; subst.
    inversion Hstr4 as [|? ? [He1 He2] _]; subst.
    destruct (getWString_fwd pl _ _ _ Hpl Ha1 Ha2 Hat5) as (rb6 & E & Hat6). rewrite E. cbn [bind]. clear E.
    destruct (getWString_fwd pl _ _ _ Hpl Hb1 Hb2 Hat6) as (rb7 & E & Hat7). rewrite E. cbn [bind]. clear E.
    destruct (getWString_fwd pl _ _ _ Hpl Hc1 Hc2 Hat7) as (rb8 & E & Hat8). rewrite E. cbn [bind]. clear E.
    destruct (getWString_fwd pl _ _ _ Hpl Hd1 Hd2 Hat8) as (rb9 & E & Hat9). rewrite E. cbn [bind]. clear E.
    destruct (getWString_fwd pl _ _ _ Hpl He1 He2 Hat9) as (rb10 & E & Hat10). rewrite E. cbn [bind]. clear E.
    rewrite (eof_fwd _ Hat10). cbn [bind]. rewrite u64_s64 by exact Hfl.
    destruct r as [fl wpr wth a1 a2 a3 a4 a5]; cbn. destruct wpr, wth; reflexivity.
  - cbn [sendable] in Hs. destruct Hs as (Hc & Hr).
    destruct (getInt32_fwd_any _ _ _ Hat1) as (rb2 & E & Hat2). rewrite E. cbn [bind]. clear E.
    change (s32 msg_set_size) with 1. cbn [Z.eqb msg_start msg_set_size Pos.eqb].
    destruct (getInt32_fwd _ _ _ Hc Hat2) as (rb3 & E & Hat3). rewrite E. cbn [bind]. clear E.
    destruct (getInt32_fwd _ _ _ Hr Hat3) as (rb4 & E & Hat4). rewrite E. cbn [bind]. clear E.
    rewrite (eof_fwd _ Hat4). reflexivity.
  - destruct (getInt32_fwd_any _ _ _ Hat1) as (rb2 & E & Hat2). rewrite E. cbn [bind]. clear E.
    change (s32 msg_process_list) with 2. cbn [Z.eqb msg_start msg_set_size msg_process_list Pos.eqb].
    rewrite (eof_fwd _ Hat2). reflexivity.
  - destruct Hs.
Qed.

(** ** Soundness per field *)
Lemma getInt32_sound rb suf :
  at_ rb suf -> bytes_ok suf ->
  match getInt32 rb with
  | Ok (i, rb') => - 2^31 <= i < 2^31 /\ exists suf', suf = wire (VInt32 i) ++ suf' /\ at_ rb' suf' /\ bytes_ok suf'
  | Throw EDecode => True
  | _ => False
  end.
Proof.
  intros Hat Hb.
  pose proof (getVal_sound {| p_size_max := 2^32 - 1; p_alloc_limit := 0 |} TInt32 rb suf) as H.
  assert (Hpl : plat_ok {| p_size_max := 2^32 - 1; p_alloc_limit := 0 |}) by (split; [left; reflexivity|cbn; lia]).
  specialize (H Hpl Hat Hb). cbn [getVal] in H.
  destruct (getInt32 rb) as [[i rb']|[]| | |]; cbn [bind get_sound] in H; try exact H.
  - destruct H as (_ & Hr & _ & H). auto.
  - destruct H; discriminate.
Qed.

Lemma getInt64_sound rb suf :
  at_ rb suf -> bytes_ok suf ->
  match getInt64 rb with
  | Ok (i, rb') => - 2^63 <= i < 2^63 /\ exists suf', suf = wire (VInt64 i) ++ suf' /\ at_ rb' suf' /\ bytes_ok suf'
  | Throw EDecode => True
  | _ => False
  end.
Proof.
  intros Hat Hb.
  pose proof (getVal_sound {| p_size_max := 2^32 - 1; p_alloc_limit := 0 |} TInt64 rb suf) as H.
  assert (Hpl : plat_ok {| p_size_max := 2^32 - 1; p_alloc_limit := 0 |}) by (split; [left; reflexivity|cbn; lia]).
  specialize (H Hpl Hat Hb). cbn [getVal] in H.
  destruct (getInt64 rb) as [[i rb']|[]| | |]; cbn [bind get_sound] in H; try exact H.
  - destruct H as (_ & Hr & _ & H). auto.
  - destruct H; discriminate.
Qed.

Lemma getWString_sound pl rb suf :
  plat_ok pl -> at_ rb suf -> bytes_ok suf ->
  match getWString pl rb with
  | Ok (s, rb') => representable (VStr s) /\ storable pl (VStr s) /\
       exists suf', suf = wire (VStr s) ++ suf' /\ at_ rb' suf' /\ bytes_ok suf'
  | Throw _ => True
  | _ => False
  end.
Proof.
  intros Hpl Hat Hb.
  pose proof (getVal_sound pl TStr rb suf Hpl Hat Hb) as H. cbn [getVal] in H.
  destruct (getWString pl rb) as [[i rb']|[]| | |]; cbn [bind get_sound] in H; try exact I; try exact H.
  destruct H as (_ & Hr & Hs & H). auto.
Qed.

Ltac snd32 Hat Hb v rb' Hr Hsuf Hat' Hb' :=
  match type of Hat with at_ ?rb ?suf =>
    let H := fresh "Hsound" in
    pose proof (getInt32_sound rb suf Hat Hb) as H;
    destruct (getInt32 rb) as [[v rb']|[]| | |]; cbn [bind] in *; try contradiction; try exact I;
    destruct H as (Hr & ? & Hsuf & Hat' & Hb')
  end.
Ltac snd64 Hat Hb v rb' Hr Hsuf Hat' Hb' :=
  match type of Hat with at_ ?rb ?suf =>
    let H := fresh "Hsound" in
    pose proof (getInt64_sound rb suf Hat Hb) as H;
    destruct (getInt64 rb) as [[v rb']|[]| | |]; cbn [bind] in *; try contradiction; try exact I;
    destruct H as (Hr & ? & Hsuf & Hat' & Hb')
  end.
Ltac sndstr Hpl Hat Hb v rb' Hsuf Hat' Hb' :=
  match type of Hpl with plat_ok ?pl =>
  match type of Hat with at_ ?rb ?suf =>
    let H := fresh "Hsound" in
    pose proof (getWString_sound pl rb suf Hpl Hat Hb) as H;
    destruct (getWString pl rb) as [[v rb']|?| | |]; cbn [bind] in *; try contradiction; try exact I;
    destruct H as (_ & _ & ? & Hsuf & Hat' & Hb')
  end end.
Ltac sndeof Hat Hnil :=
  match type of Hat with at_ ?rb ?suf =>
    let E := fresh "E" in
    destruct (assertEof_at rb suf Hat) as [(Hnil & E)|(_ & E)]; rewrite E; cbn [bind]; [|exact I]
  end.

Lemma parseRequest_sound pl bytes :
  plat_ok pl -> bytes_ok bytes ->
  match parseRequest pl bytes with
  | Ok rq => exists hdr payload, bytes = hdr ++ payload /\ length hdr = 8%nat /\ means_request rq payload
  | Throw _ => True
  | _ => False
  end.
Proof.
  intros Hpl Hb. unfold parseRequest.
  destruct (getRawUInt_at _ _ 8 (at_start bytes)) as [(H1 & rb1 & E1 & Hat1)|(_ & E1)]; [lia| |];
    rewrite E1; cbn [bind]; [|exact I].
  assert (Hb1 : bytes_ok (zskipn 8 bytes)) by (now apply Forall_zskipn).
  assert (Hsplit : bytes = zfirstn 8 bytes ++ zskipn 8 bytes) by (now rewrite zfirstn_zskipn).
  assert (Hl8 : length (zfirstn 8 bytes) = 8%nat).
  { pose proof (zlen_zfirstn 8 bytes) as Hz. unfold zlen in *; lia. }
  set (payload := zskipn 8 bytes) in *.
  snd32 Hat1 Hb1 t rb2 Hr2 Hsuf2 Hat2 Hb2.
  destruct (t =? msg_start) eqn:Et0; [|destruct (t =? msg_set_size) eqn:Et1; [|destruct (t =? msg_process_list) eqn:Et2]].
  - snd64 Hat2 Hb2 flags rb3 Hr3 Hsuf3 Hat3 Hb3.
    snd32 Hat3 Hb3 wp rb4 Hr4 Hsuf4 Hat4 Hb4.
    snd32 Hat4 Hb4 wt rb5 Hr5 Hsuf5 Hat5 Hb5.
    sndstr Hpl Hat5 Hb5 s1 rb6 Hsuf6 Hat6 Hb6.
    sndstr Hpl Hat6 Hb6 s2 rb7 Hsuf7 Hat7 Hb7.
    sndstr Hpl Hat7 Hb7 s3 rb8 Hsuf8 Hat8 Hb8.
    sndstr Hpl Hat8 Hb8 s4 rb9 Hsuf9 Hat9 Hb9.
    sndstr Hpl Hat9 Hb9 s5 rb10 Hsuf10 Hat10 Hb10.
    sndeof Hat10 Hnil.
    exists (zfirstn 8 bytes), payload. split; [exact Hsplit|]. split; [exact Hl8|].
    cbn [means_request sr_appname sr_cmdline sr_cwd sr_env sr_desktop sr_flags sr_want_process sr_want_thread].
    exists flags, wp, wt. split; [|split; [reflexivity|]].
    + apply fields_on_wire_iff. cbn [flat_map]. rewrite app_nil_r.
      assert (Ht : t = 0) by (unfold msg_start in Et0; lia).
      rewrite Hsuf2, Hsuf3, Hsuf4, Hsuf5, Hsuf6, Hsuf7, Hsuf8, Hsuf9, Hsuf10, Hnil, app_nil_r.
      now rewrite Ht.
    + split; [destruct (Z.eqb_spec wp 0)|destruct (Z.eqb_spec wt 0)]; cbn; intuition congruence.
  - snd32 Hat2 Hb2 c rb3 Hr3 Hsuf3 Hat3 Hb3.
    snd32 Hat3 Hb3 r rb4 Hr4 Hsuf4 Hat4 Hb4.
    sndeof Hat4 Hnil.
    exists (zfirstn 8 bytes), payload. split; [exact Hsplit|]. split; [exact Hl8|].
    cbn [means_request]. apply fields_on_wire_iff. cbn [flat_map]. rewrite app_nil_r.
    assert (Ht : t = 1) by (unfold msg_set_size in Et1; lia).
    rewrite Hsuf2, Hsuf3, Hsuf4, Hnil, app_nil_r. now rewrite Ht.
  - sndeof Hat2 Hnil.
    exists (zfirstn 8 bytes), payload. split; [exact Hsplit|]. split; [exact Hl8|].
    cbn [means_request]. apply fields_on_wire_iff. cbn [flat_map].
    assert (Ht : t = 2) by (unfold msg_process_list in Et2; lia).
    rewrite Hsuf2, Hnil. now rewrite Ht.
  - exists (zfirstn 8 bytes), payload. split; [exact Hsplit|]. split; [exact Hl8|].
    cbn [means_request]. unfold msg_start, msg_set_size, msg_process_list in *.
    split; [lia|]. eexists _, _. split; [exact Hsuf2|]. now apply on_wire_iff.
Qed.

(** ** Replies *)
Lemma fold_putInt32 l buf : fold_left putInt32 l buf = buf ++ flat_map wire (map VInt32 l).
Proof.
  revert buf; induction l as [|x l IH]; intros buf; cbn [fold_left map flat_map]; [now rewrite app_nil_r|].
  rewrite IH, putInt32_val, putVal_wire, <- app_assoc. reflexivity.
Qed.

Definition reply_vals (rp : reply) : list val :=
  match rp with
  | RpSpawnFailed e => [VInt32 0; VInt32 e]
  | RpSpawned p t => [VInt32 1; VInt64 p; VInt64 t]
  | RpSetSize => []
  | RpProcessList pids => VInt32 (zlen pids) :: map VInt32 pids
  | RpSetup i o e => [VStr i; VStr o] ++ match e with Some e => [VStr e] | None => [] end
  | RpDesktop n => [VStr n]
  end.

Lemma buildReply_vals rp : buildReply rp = newPacket ++ flat_map wire (reply_vals rp).
Proof.
  destruct rp as [e|p t| |pids|i o e|n];
    try (rewrite <- putVals_wire; reflexivity).
  - cbn [buildReply reply_vals flat_map]. rewrite fold_putInt32, putInt32_val, putVal_wire, <- app_assoc. reflexivity.
  - rewrite <- putVals_wire; destruct e; reflexivity.
Qed.

Lemma sendReply_eq rp :
  sendReply rp = Ok (le_bytes 8 (8 + zlen (flat_map wire (reply_vals rp))) ++ flat_map wire (reply_vals rp)).
Proof. unfold sendReply. rewrite buildReply_vals. apply finishPacket_ok. Qed.

Lemma spawnFailed_roundtrip e :
  0 <= e < 2^32 -> parseSpawnReply (flat_map wire (reply_vals (RpSpawnFailed e))) = Ok (RpSpawnFailed e).
Proof.
  intros He. unfold parseSpawnReply.
  match goal with |- context [mkReadBuffer ?b] => pose proof (at_start b) as Hat end.
  cbn [reply_vals flat_map] in Hat. 
  destruct (getInt32_fwd_any _ _ _ Hat) as (rb2 & E & Hat2). cbn [reply_vals flat_map]. rewrite E. cbn [bind]. clear E.
  change (s32 0) with 0. cbn [Z.eqb].
  destruct (getInt32_fwd_any _ _ _ Hat2) as (rb3 & E & Hat3). rewrite E. cbn [bind]. clear E.
  rewrite (eof_fwd _ Hat3). cbn [bind]. now rewrite u32_s32.
Qed.

Lemma s64_id p : - 2^63 <= p < 2^63 -> s64 p = p.
Proof. intros H; apply (wraps_small 64); lia. Qed.
Lemma s32_id p : - 2^31 <= p < 2^31 -> s32 p = p.
Proof. intros H; apply (wraps_small 32); lia. Qed.

Lemma spawned_roundtrip p t :
  - 2^63 <= p < 2^63 -> - 2^63 <= t < 2^63 ->
  parseSpawnReply (flat_map wire (reply_vals (RpSpawned p t))) = Ok (RpSpawned p t).
Proof.
  intros Hp Ht. unfold parseSpawnReply.
  match goal with |- context [mkReadBuffer ?b] => pose proof (at_start b) as Hat end.
  cbn [reply_vals flat_map] in Hat |- *.
  destruct (getInt32_fwd_any _ _ _ Hat) as (rb2 & E & Hat2). rewrite E. cbn [bind]. clear E.
  change (s32 1) with 1. cbn [Z.eqb Pos.eqb].
  destruct (getInt64_fwd_any _ _ _ Hat2) as (rb3 & E & Hat3). rewrite E. cbn [bind]. clear E.
  destruct (getInt64_fwd_any _ _ _ Hat3) as (rb4 & E & Hat4). rewrite E. cbn [bind]. clear E.
  rewrite (eof_fwd _ Hat4). cbn [bind]. now rewrite !s64_id.
Qed.

Lemma getInt32s_fwd l rb suf :
  at_ rb (flat_map wire (map VInt32 l) ++ suf) ->
  exists rb', getInt32s rb (length l) = Ok (map s32 l, rb') /\ at_ rb' suf.
Proof.
  revert rb; induction l as [|x l IH]; intros rb Hat; cbn [length getInt32s map flat_map] in *.
  - eauto.
  - rewrite <- app_assoc in Hat.
    destruct (getInt32_fwd_any _ _ _ Hat) as (rb2 & E & Hat2). rewrite E. cbn [bind]. clear E.
    destruct (IH _ Hat2) as (rb3 & E & Hat3). rewrite E. cbn [bind]. eauto.
Qed.

Lemma processList_roundtrip cap pids :
  zlen pids < 2^31 -> zlen pids <= cap ->
  parseProcessListReply cap (flat_map wire (reply_vals (RpProcessList pids))) = Ok (zlen pids, map s32 pids).
Proof.
  intros Hl Hc. unfold parseProcessListReply. pose proof (zlen_nonneg pids) as H0.
  match goal with |- context [mkReadBuffer ?b] => pose proof (at_start b) as Hat end.
  cbn [reply_vals flat_map] in Hat |- *.
  destruct (getInt32_fwd _ (zlen pids) _ ltac:(lia) Hat) as (rb2 & E & Hat2). rewrite E. cbn [bind]. clear E.
  replace (zlen pids <=? cap) with true by lia.
  rewrite <- (app_nil_r (flat_map wire (map VInt32 pids))) in Hat2.
  destruct (getInt32s_fwd _ _ _ Hat2) as (rb3 & E & Hat3).
  unfold zlen at 1. rewrite Nat2Z.id, E. cbn [bind]. now rewrite (eof_fwd _ Hat3).
Qed.

Lemma processList_small cap pids :
  cap < zlen pids < 2^31 -> pids <> [] ->
  parseProcessListReply cap (flat_map wire (reply_vals (RpProcessList pids))) = Throw EDecode.
Proof.
  intros Hl Hn. unfold parseProcessListReply. pose proof (zlen_nonneg pids) as H0.
  match goal with |- context [mkReadBuffer ?b] => pose proof (at_start b) as Hat end.
  cbn [reply_vals flat_map] in Hat |- *.
  destruct (getInt32_fwd _ (zlen pids) _ ltac:(lia) Hat) as (rb2 & E & Hat2). rewrite E. cbn [bind]. clear E.
  replace (zlen pids <=? cap) with false by lia. cbn [bind].
  destruct (assertEof_at _ _ Hat2) as [(Hz & _)|(_ & E)]; [|now rewrite E].
  destruct pids; [contradiction|discriminate].
Qed.

Lemma setup_roundtrip pl i o e :
  plat_ok pl ->
  Forall (fun s => representable (VStr s) /\ storable pl (VStr s)) (i :: o :: match e with Some e => [e] | None => [] end) ->
  parseSetup pl (match e with Some _ => true | None => false end)
     (flat_map wire (reply_vals (RpSetup i o e))) = Ok (RpSetup i o e).
Proof.
  intros Hpl Hs. unfold parseSetup.
  match goal with |- context [mkReadBuffer ?b] => pose proof (at_start b) as Hat end.
  inversion Hs as [|? ? [Ha1 Ha2] Hs1]; subst. inversion Hs1 as [|? ? [Hb1 Hb2] Hs2]; subst.
  cbn [reply_vals flat_map app] in Hat |- *.
  destruct (getWString_fwd pl _ _ _ Hpl Ha1 Ha2 Hat) as (rb6 & E & Hat6). rewrite E. cbn [bind]. clear E.
  destruct (getWString_fwd pl _ _ _ Hpl Hb1 Hb2 Hat6) as (rb7 & E & Hat7). rewrite E. cbn [bind]. clear E.
  destruct e as [e|]; cbn [flat_map] in Hat7.
  - inversion Hs2 as [|? ? [Hc1 Hc2] _]; subst.
    destruct (getWString_fwd pl _ _ _ Hpl Hc1 Hc2 Hat7) as (rb8 & E & Hat8). rewrite E. cbn [bind]. clear E.
    now rewrite (eof_fwd _ Hat8).
  - now rewrite (eof_fwd _ Hat7).
Qed.

Lemma desktop_roundtrip pl n :
  plat_ok pl -> representable (VStr n) -> storable pl (VStr n) ->
  parseDesktop pl (flat_map wire (reply_vals (RpDesktop n))) = Ok (RpDesktop n).
Proof.
  intros Hpl Ha1 Ha2. unfold parseDesktop.
  match goal with |- context [mkReadBuffer ?b] => pose proof (at_start b) as Hat end.
  cbn [reply_vals flat_map app] in Hat |- *.
  destruct (getWString_fwd pl _ _ _ Hpl Ha1 Ha2 Hat) as (rb6 & E & Hat6). rewrite E. cbn [bind]. clear E.
  now rewrite (eof_fwd _ Hat6).
Qed.

Lemma map_s32_id l : Forall (fun p => 0 <= p < 2^31) l -> map s32 l = l.
Proof.
  intros H; induction H as [|x l Hx _ IH]; [reflexivity|]. cbn [map]. rewrite IH, s32_id by lia. reflexivity.
Qed.

Lemma reply_payload rp bytes :
  sendReply rp = Ok bytes -> skipn 8 bytes = flat_map wire (reply_vals rp).
Proof.
  rewrite sendReply_eq. intros H.
  assert (E : bytes = le_bytes 8 (8 + zlen (flat_map wire (reply_vals rp))) ++ flat_map wire (reply_vals rp))
    by congruence.
  rewrite E, skipn_app, le_bytes_length, skipn_all2 by (rewrite le_bytes_length; lia). reflexivity.
Qed.

Lemma spawnFailed_reply e bytes :
  0 <= e < 2^32 -> sendReply (RpSpawnFailed e) = Ok bytes ->
  parseSpawnReply (skipn 8 bytes) = Ok (RpSpawnFailed e).
Proof. intros He H; rewrite (reply_payload _ _ H); exact (spawnFailed_roundtrip e He). Qed.

Lemma spawned_reply p t bytes :
  - 2^63 <= p < 2^63 -> - 2^63 <= t < 2^63 -> sendReply (RpSpawned p t) = Ok bytes ->
  parseSpawnReply (skipn 8 bytes) = Ok (RpSpawned p t).
Proof. intros Hp Ht H; rewrite (reply_payload _ _ H); exact (spawned_roundtrip p t Hp Ht). Qed.

Lemma processList_reply cap pids bytes :
  zlen pids < 2^31 -> zlen pids <= cap -> Forall (fun p => 0 <= p < 2^31) pids ->
  sendReply (RpProcessList pids) = Ok bytes ->
  parseProcessListReply cap (skipn 8 bytes) = Ok (zlen pids, pids).
Proof.
  intros Hl Hc Hp H. rewrite (reply_payload _ _ H).
  rewrite processList_roundtrip by assumption. now rewrite map_s32_id.
Qed.

Lemma setup_reply pl i o e bytes :
  plat_ok pl ->
  Forall (fun s => representable (VStr s) /\ storable pl (VStr s)) (i :: o :: match e with Some e => [e] | None => [] end) ->
  sendReply (RpSetup i o e) = Ok bytes ->
  parseSetup pl (match e with Some _ => true | None => false end) (skipn 8 bytes) = Ok (RpSetup i o e).
Proof. intros Hpl Hs H; rewrite (reply_payload _ _ H); exact (setup_roundtrip pl i o e Hpl Hs). Qed.

Lemma desktop_reply pl n bytes :
  plat_ok pl -> representable (VStr n) -> storable pl (VStr n) ->
  sendReply (RpDesktop n) = Ok bytes -> parseDesktop pl (skipn 8 bytes) = Ok (RpDesktop n).
Proof. intros Hpl Hr Hs H; rewrite (reply_payload _ _ H); exact (desktop_roundtrip pl n Hpl Hr Hs). Qed.

Lemma setSize_reply bytes :
  sendReply RpSetSize = Ok bytes -> parseSetSizeReply (skipn 8 bytes) = Ok RpSetSize.
Proof. intros H; rewrite (reply_payload _ _ H); reflexivity. Qed.

Lemma send_total rq rp : (exists b, sendRequest rq = Ok b) /\ (exists b, sendReply rp = Ok b).
Proof. split; eexists; [apply sendRequest_eq|apply sendReply_eq]. Qed.

Lemma writer_wire vs : fields_on_wire vs (putVals [] vs).
Proof. apply fields_on_wire_iff; exact (putVals_wire vs []). Qed.

Lemma getVals_alloc pl ts rb suf :
  plat_ok pl -> at_ rb suf -> bytes_ok suf -> getVals pl ts rb = Throw EAlloc ->
  exists pre n suf', suf = pre ++ 2 :: le_bytes 8 n ++ suf' /\ p_alloc_limit pl < n.
Proof.
  intros Hpl; revert rb suf; induction ts as [|t ts IH]; intros rb suf Hat Hb E; cbn [getVals] in E; [discriminate|].
  pose proof (getVal_sound pl t rb suf Hpl Hat Hb) as H1.
  destruct (getVal pl t rb) as [[v rb1]|[]| | |]; cbn [get_sound bind] in H1, E; try contradiction; try discriminate.
  - destruct H1 as (_ & _ & _ & suf1 & E1 & Hat1 & Hb1).
    destruct (getVals pl ts rb1) as [[vs rb2]|[]| | |] eqn:E2; cbn [bind] in E; try discriminate.
    destruct (IH _ _ Hat1 Hb1 E2) as (pre & n & suf' & E3 & Hn).
    exists (wire v ++ pre), n, suf'. rewrite E1, E3, <- app_assoc. auto.
  - destruct H1 as (_ & n & suf' & E1 & Hn). exists [], n, suf'. split; [exact E1|lia].
Qed.

Lemma decodeFields_alloc pl ts bytes :
  plat_ok pl -> bytes_ok bytes -> decodeFields pl ts bytes = Throw EAlloc ->
  exists pre n suf, bytes = pre ++ 2 :: le_bytes 8 n ++ suf /\ p_alloc_limit pl < n.
Proof.
  intros Hpl Hb H. apply (getVals_alloc pl ts _ _ Hpl (at_start bytes) Hb). unfold decodeFields in H.
  pose proof (getVals_sound pl ts _ _ Hpl (at_start bytes) Hb) as Hs.
  destruct (getVals pl ts (mkReadBuffer bytes)) as [[vs rb']|[]| | |]; cbn [bind] in *; try discriminate; try reflexivity.
  destruct Hs as (_ & _ & _ & suf' & _ & Hat & _).
  destruct (assertEof_at rb' suf' Hat) as [(_ & Ee)|(_ & Ee)]; rewrite Ee in H; discriminate.
Qed.
