From Verif Require Import Base BaseLemmas Unicode UnicodeSpec.
Ltac Zify.zify_post_hook ::= Z.div_mod_to_equations.

(** *** Bit operations as arithmetic *)
Lemma land_mask n x : 0 <= n -> Z.land x (2^n - 1) = x mod 2^n.
Proof. intros H. rewrite <- Z.land_ones by exact H. f_equal. rewrite Z.ones_equiv. lia. Qed.

Lemma lor_disjoint n a b : 0 <= n -> 0 <= b < 2^n -> Z.lor (a * 2^n) b = a * 2^n + b.
Proof.
  intros Hn Hb.
  assert (H0 : Z.land (a * 2^n) b = 0).
  { apply Z.bits_inj'. intros i Hi. rewrite Z.land_spec, Z.bits_0.
    destruct (Z.ltb_spec i n) as [Hlt|Hge].
    - rewrite Z.mul_pow2_bits_low by lia. reflexivity.
    - destruct (Z.eq_dec b 0) as [->|Hb0]; [rewrite Z.bits_0; apply andb_false_r|].
      rewrite (Z.bits_above_log2 b i); [apply andb_false_r|lia|].
      assert (Z.log2 b < n) by (apply Z.log2_lt_pow2; lia). lia. }
  rewrite <- Z.lxor_lor by exact H0. symmetry. apply Z.add_nocarry_lxor. exact H0.
Qed.

(** Finite sweeps over bytes. *)
Fixpoint upto (n : nat) : list Z := match n with O => [] | S k => upto k ++ [Z.of_nat k] end.
Lemma upto_In n x : 0 <= x < Z.of_nat n -> In x (upto n).
Proof.
  induction n as [|n IH]; intros H; [lia|]. cbn [upto]. apply in_or_app.
  destruct (Z.eq_dec x (Z.of_nat n)) as [->|Hn]; [right; now left|left; apply IH; lia].
Qed.
Lemma sweep n (f : Z -> bool) : forallb f (upto n) = true -> forall x, 0 <= x < Z.of_nat n -> f x = true.
Proof. intros H x Hx. rewrite forallb_forall in H. apply H, upto_In, Hx. Qed.

Lemma charLength_announced b : 0 <= b < 256 -> utf8CharLength b = announced b.
Proof.
  intros H. apply Z.eqb_eq. revert b H. apply (sweep 256 (fun b => utf8CharLength b =? announced b)). vm_compute. reflexivity.
Qed.

Lemma is_cont_range b : 0 <= b < 256 -> is_cont b = (128 <=? b) && (b <? 192).
Proof.
  intros H. apply eqb_prop. revert b H.
  apply (sweep 256 (fun b => Bool.eqb (is_cont b) ((128 <=? b) && (b <? 192)))). vm_compute. reflexivity.
Qed.

Lemma b6_eq x : Z.lor (Z.land x 0x3F) 0x80 = cont_of x.
Proof.
  change 0x3F with (2^6 - 1). rewrite land_mask by lia. change 0x80 with (2 * 2^6).
  rewrite Z.lor_comm, lor_disjoint by lia. unfold cont_of. lia.
Qed.

Lemma lead2_eq x : Z.lor (Z.land x 0x1F) 0xC0 = 192 + x mod 32.
Proof.
  change 0x1F with (2^5 - 1). rewrite land_mask by lia. change 0xC0 with (6 * 2^5).
  rewrite Z.lor_comm, lor_disjoint by lia. lia.
Qed.
Lemma lead3_eq x : Z.lor (Z.land x 0x0F) 0xE0 = 224 + x mod 16.
Proof.
  change 0x0F with (2^4 - 1). rewrite land_mask by lia. change 0xE0 with (14 * 2^4).
  rewrite Z.lor_comm, lor_disjoint by lia. lia.
Qed.
Lemma lead4_eq x : Z.lor (Z.land x 0x07) 0xF0 = 240 + x mod 8.
Proof.
  change 0x07 with (2^3 - 1). rewrite land_mask by lia. change 0xF0 with (30 * 2^3).
  rewrite Z.lor_comm, lor_disjoint by lia. lia.
Qed.

(** *** Encoding *)
Lemma encodeUtf8_form c : scalar c -> encodeUtf8 c = utf8_form c.
Proof.
  intros (H & Hs). unfold encodeUtf8, utf8_form. rewrite !b6_eq, lead2_eq, lead3_eq, lead4_eq, !Z.shiftr_div_pow2 by lia.
  change (2^6) with 64. change (2^12) with 4096. change (2^18) with 262144. change (2^0) with 1. rewrite Z.div_1_r.
  change 0x80 with 128. change 0x800 with 2048. change 0x10000 with 65536. change 0x110000 with 1114112.
  destruct (Z.ltb_spec c 128); [reflexivity|].
  destruct (Z.ltb_spec c 2048); [f_equal; lia|].
  destruct (Z.ltb_spec c 65536).
  - replace ((0xD800 <=? c) && (c <=? 0xDFFF)) with false by lia. f_equal. lia.
  - replace (c <? 1114112) with true by lia. f_equal. lia.
Qed.

Lemma encodeUtf8_error c : 0 <= c -> ~ scalar c -> encodeUtf8 c = [].
Proof.
  intros H Hs. unfold scalar in Hs. unfold encodeUtf8.
  replace (c <? 0x80) with false by lia. replace (c <? 0x800) with false by lia.
  destruct (Z.ltb_spec c 0x10000).
  - replace ((0xD800 <=? c) && (c <=? 0xDFFF)) with true by lia. reflexivity.
  - replace (c <? 0x110000) with false by lia. reflexivity.
Qed.

Lemma encodeUtf16_form c : scalar c -> encodeUtf16 c = utf16_form c.
Proof.
  intros (H & Hs). unfold encodeUtf16, utf16_form. change 0x10000 with 65536.
  destruct (Z.ltb_spec c 65536).
  - replace ((0xD800 <=? c) && (c <=? 0xDFFF)) with false by lia. reflexivity.
  - replace (c <? 0x110000) with true by lia. cbv zeta.
    change 0xD800 with (54 * 2^10). change 0xDC00 with (55 * 2^10). change 0x3FF with (2^10 - 1).
    rewrite land_mask, Z.shiftr_div_pow2 by lia. change (2^10) with 1024.
    change (54 * 1024) with (54 * 2^10). change (55 * 1024) with (55 * 2^10).
    rewrite !lor_disjoint by lia. reflexivity.
Qed.

Lemma encodeUtf16_error c : 0 <= c -> ~ scalar c -> encodeUtf16 c = [].
Proof.
  intros H Hs. unfold scalar in Hs. unfold encodeUtf16.
  destruct (Z.ltb_spec c 0x10000).
  - replace ((0xD800 <=? c) && (c <=? 0xDFFF)) with true by lia. reflexivity.
  - replace (c <? 0x110000) with false by lia. reflexivity.
Qed.

Lemma decode_pair c : scalar c -> 65536 <= c ->
  match utf16_form c with [a; b] => decodeSurrogatePair a b = c /\ 0xD800 <= a <= 0xDBFF /\ 0xDC00 <= b <= 0xDFFF | _ => False end.
Proof.
  intros (H & _) Hc. unfold utf16_form. replace (c <? 65536) with false by lia.
  unfold decodeSurrogatePair. rewrite Z.shiftl_mul_pow2 by lia. change (2^10) with 1024.
  split; [|lia]. unfold u32. rewrite wrapu_small; lia.
Qed.

Lemma pair_decode a b : 0xD800 <= a <= 0xDBFF -> 0xDC00 <= b <= 0xDFFF ->
  scalar (decodeSurrogatePair a b) /\ encodeUtf16 (decodeSurrogatePair a b) = [a; b].
Proof.
  intros Ha Hb. unfold decodeSurrogatePair. rewrite Z.shiftl_mul_pow2 by lia. change (2^10) with 1024.
  unfold u32. rewrite wrapu_small by lia.
  set (c := (a - 0xD800) * 1024 + (b - 0xDC00) + 0x10000).
  assert (Hs : scalar c) by (unfold scalar, c; lia). split; [exact Hs|].
  rewrite encodeUtf16_form by exact Hs. unfold utf16_form. replace (c <? 65536) with false by (unfold c; lia).
  f_equal; [unfold c; lia|]. f_equal. unfold c. lia.
Qed.

(** *** Decoding *)
Lemma land_low n b hi : 0 <= n -> 0 <= b - hi * 2^n < 2^n -> Z.land b (2^n - 1) = b - hi * 2^n.
Proof.
  intros Hn Hb. rewrite land_mask by exact Hn. symmetry. apply (Z.mod_unique_pos _ _ hi); lia.
Qed.

Lemma tmp2 b0 b1 : 192 <= b0 < 224 -> 128 <= b1 < 192 ->
  Z.lor (Z.shiftl (Z.land b0 0x1F) 6) (Z.land b1 0x3F) = (b0 - 192) * 64 + (b1 - 128).
Proof.
  intros H0 H1. change 0x1F with (2^5 - 1). change 0x3F with (2^6 - 1).
  rewrite (land_low 5 b0 6), (land_low 6 b1 2), Z.shiftl_mul_pow2, lor_disjoint by lia. lia.
Qed.

Lemma tmp3 b0 b1 b2 : 224 <= b0 < 240 -> 128 <= b1 < 192 -> 128 <= b2 < 192 ->
  Z.lor (Z.lor (Z.shiftl (Z.land b0 0x0F) 12) (Z.shiftl (Z.land b1 0x3F) 6)) (Z.land b2 0x3F)
  = (b0 - 224) * 4096 + (b1 - 128) * 64 + (b2 - 128).
Proof.
  intros H0 H1 H2. change 0x0F with (2^4 - 1). change 0x3F with (2^6 - 1).
  rewrite (land_low 4 b0 14), (land_low 6 b1 2), (land_low 6 b2 2), !Z.shiftl_mul_pow2 by lia.
  rewrite lor_disjoint by lia.
  replace ((b0 - 14 * 2 ^ 4) * 2 ^ 12 + (b1 - 2 * 2 ^ 6) * 2 ^ 6)
    with (((b0 - 14 * 2 ^ 4) * 2 ^ 6 + (b1 - 2 * 2 ^ 6)) * 2 ^ 6) by lia.
  rewrite lor_disjoint by lia. lia.
Qed.

Lemma tmp4 b0 b1 b2 b3 : 240 <= b0 < 248 -> 128 <= b1 < 192 -> 128 <= b2 < 192 -> 128 <= b3 < 192 ->
  Z.lor (Z.lor (Z.lor (Z.shiftl (Z.land b0 0x07) 18) (Z.shiftl (Z.land b1 0x3F) 12))
               (Z.shiftl (Z.land b2 0x3F) 6)) (Z.land b3 0x3F)
  = (b0 - 240) * 262144 + (b1 - 128) * 4096 + (b2 - 128) * 64 + (b3 - 128).
Proof.
  intros H0 H1 H2 H3. change 0x07 with (2^3 - 1). change 0x3F with (2^6 - 1).
  rewrite (land_low 3 b0 30), (land_low 6 b1 2), (land_low 6 b2 2), (land_low 6 b3 2), !Z.shiftl_mul_pow2 by lia.
  rewrite lor_disjoint by lia.
  replace ((b0 - 30 * 2 ^ 3) * 2 ^ 18 + (b1 - 2 * 2 ^ 6) * 2 ^ 12)
    with (((b0 - 30 * 2 ^ 3) * 2 ^ 6 + (b1 - 2 * 2 ^ 6)) * 2 ^ 12) by lia.
  rewrite lor_disjoint by lia.
  replace (((b0 - 30 * 2 ^ 3) * 2 ^ 6 + (b1 - 2 * 2 ^ 6)) * 2 ^ 12 + (b2 - 2 * 2 ^ 6) * 2 ^ 6)
    with ((((b0 - 30 * 2 ^ 3) * 2 ^ 6 + (b1 - 2 * 2 ^ 6)) * 2 ^ 6 + (b2 - 2 * 2 ^ 6)) * 2 ^ 6) by lia.
  rewrite lor_disjoint by lia. lia.
Qed.

(** The decoder as a function of arithmetic conditions. *)
Definition cont (b : Z) : bool := (128 <=? b) && (b <? 192).
Definition decode_arith {E} (l : list Z) : res E Z :=
  match l with
  | [] => UB
  | b0 :: t =>
      if announced b0 =? 1 then Ok b0
      else if announced b0 =? 2 then
        match t with
        | [] => UB
        | b1 :: _ =>
            if negb (cont b1) then Ok kInvalid
            else let c := (b0 - 192) * 64 + (b1 - 128) in Ok (if c <=? 0x7F then kInvalid else c)
        end
      else if announced b0 =? 3 then
        match t with
        | [] => UB
        | b1 :: t => if negb (cont b1) then Ok kInvalid else
          match t with
          | [] => UB
          | b2 :: _ =>
              if negb (cont b2) then Ok kInvalid
              else let c := (b0 - 224) * 4096 + (b1 - 128) * 64 + (b2 - 128) in
                   Ok (if (c <=? 0x7FF) || ((0xD800 <=? c) && (c <=? 0xDFFF)) then kInvalid else c)
          end
        end
      else if announced b0 =? 4 then
        match t with
        | [] => UB
        | b1 :: t => if negb (cont b1) then Ok kInvalid else
          match t with
          | [] => UB
          | b2 :: t => if negb (cont b2) then Ok kInvalid else
            match t with
            | [] => UB
            | b3 :: _ =>
                if negb (cont b3) then Ok kInvalid
                else let c := (b0 - 240) * 262144 + (b1 - 128) * 4096 + (b2 - 128) * 64 + (b3 - 128) in
                     Ok (if (c <=? 0xFFFF) || (0x10FFFF <? c) then kInvalid else c)
            end
          end
        end
      else Ok kInvalid
  end.

Lemma announced_range b n : announced b = n -> 0 <= b < 256 ->
  (n = 1 -> b < 128) /\ (n = 2 -> 192 <= b < 224) /\ (n = 3 -> 224 <= b < 240) /\ (n = 4 -> 240 <= b < 248) /\
  (n = 0 \/ n = 1 \/ n = 2 \/ n = 3 \/ n = 4).
Proof.
  unfold announced. intros <- H.
  destruct (Z.ltb_spec b 128), (Z.ltb_spec b 192), (Z.ltb_spec b 224), (Z.ltb_spec b 240), (Z.ltb_spec b 248); lia.
Qed.

Lemma cont_range b : cont b = true -> 128 <= b < 192.
Proof. unfold cont. rewrite andb_true_iff. lia. Qed.

Lemma decode_eq {E} l : bytes l -> @decodeUtf8 E l = decode_arith l.
Proof.
  intros Hb. destruct l as [|b0 t]; [reflexivity|].
  inversion Hb as [|? ? B0 Bt]; subst. unfold decodeUtf8, decode_arith, ld.
  rewrite znth_0. cbn [bind]. rewrite charLength_announced by exact B0.
  pose proof (announced_range b0 _ eq_refl B0) as (_ & R2 & R3 & R4 & _).
  assert (Z1 : forall l, znth (b0 :: l) 1 = match l with [] => None | x :: _ => Some x end) by (intros [|]; reflexivity).
  assert (Z2 : forall x l, znth (b0 :: x :: l) 2 = match l with [] => None | y :: _ => Some y end) by (intros x [|]; reflexivity).
  assert (Z3 : forall x y l, znth (b0 :: x :: y :: l) 3 = match l with [] => None | z :: _ => Some z end) by (intros x y [|]; reflexivity).
  destruct (announced b0 =? 1); [reflexivity|].
  destruct (announced b0 =? 2) eqn:E2; [|destruct (announced b0 =? 3) eqn:E3; [|destruct (announced b0 =? 4) eqn:E4; [|reflexivity]]].
  - rewrite Z1. destruct t as [|b1 t]; [reflexivity|]. cbn [bind]. inversion Bt as [|? ? B1 Bt1]; subst.
    rewrite is_cont_range by exact B1. fold (cont b1). destruct (cont b1) eqn:C1; cbn [negb]; [|reflexivity].
    apply cont_range in C1. rewrite tmp2 by (auto; lia). reflexivity.
  - rewrite Z1. destruct t as [|b1 t]; [reflexivity|]. cbn [bind]. inversion Bt as [|? ? B1 Bt1]; subst.
    rewrite is_cont_range by exact B1. fold (cont b1). destruct (cont b1) eqn:C1; cbn [negb]; [|reflexivity].
    rewrite Z2. destruct t as [|b2 t]; [reflexivity|]. cbn [bind]. inversion Bt1 as [|? ? B2 Bt2]; subst.
    rewrite is_cont_range by exact B2. fold (cont b2). destruct (cont b2) eqn:C2; cbn [negb]; [|reflexivity].
    apply cont_range in C1, C2. rewrite tmp3 by (auto; lia). reflexivity.
  - rewrite Z1. destruct t as [|b1 t]; [reflexivity|]. cbn [bind]. inversion Bt as [|? ? B1 Bt1]; subst.
    rewrite is_cont_range by exact B1. fold (cont b1). destruct (cont b1) eqn:C1; cbn [negb]; [|reflexivity].
    rewrite Z2. destruct t as [|b2 t]; [reflexivity|]. cbn [bind]. inversion Bt1 as [|? ? B2 Bt2]; subst.
    rewrite is_cont_range by exact B2. fold (cont b2). destruct (cont b2) eqn:C2; cbn [negb]; [|reflexivity].
    rewrite Z3. destruct t as [|b3 t]; [reflexivity|]. cbn [bind]. inversion Bt2 as [|? ? B3 Bt3]; subst.
    rewrite is_cont_range by exact B3. fold (cont b3). destruct (cont b3) eqn:C3; cbn [negb]; [|reflexivity].
    apply cont_range in C1, C2, C3. rewrite tmp4 by (auto; lia). reflexivity.
Qed.

Lemma form_bytes c : scalar c -> bytes (utf8_form c).
Proof.
  intros (H & _). unfold utf8_form, cont_of, bytes.
  destruct (Z.ltb_spec c 128); [repeat constructor; lia|].
  destruct (Z.ltb_spec c 2048); [repeat constructor; lia|].
  destruct (Z.ltb_spec c 65536); repeat constructor; lia.
Qed.

Lemma announced_eq b n : (n = 1 /\ b < 128) \/ (n = 2 /\ 192 <= b < 224) \/ (n = 3 /\ 224 <= b < 240) \/ (n = 4 /\ 240 <= b < 248) ->
  announced b = n.
Proof.
  unfold announced. intros H.
  destruct (Z.ltb_spec b 128), (Z.ltb_spec b 192), (Z.ltb_spec b 224), (Z.ltb_spec b 240), (Z.ltb_spec b 248); lia.
Qed.

Lemma cont_cont_of x : cont (cont_of x) = true.
Proof. unfold cont, cont_of. lia. Qed.

Lemma form_lead c b0 : scalar c -> znth (utf8_form c) 0 = Some b0 -> announced b0 = zlen (utf8_form c).
Proof.
  intros (H & _). unfold utf8_form.
  destruct (Z.ltb_spec c 128); [|destruct (Z.ltb_spec c 2048); [|destruct (Z.ltb_spec c 65536)]];
    rewrite znth_0; intros E; apply announced_eq; unfold zlen; cbn [length].
  - assert (c = b0) by congruence. lia.
  - assert (192 + c / 64 = b0) by congruence. lia.
  - assert (224 + c / 4096 = b0) by congruence. lia.
  - assert (240 + c / 262144 = b0) by congruence. lia.
Qed.

Lemma decode_form {E} c rest : scalar c -> bytes rest -> @decodeUtf8 E (utf8_form c ++ rest) = Ok c.
Proof.
  intros Hs Hr. rewrite decode_eq.
  2: { apply Forall_app. split; [now apply form_bytes|exact Hr]. }
  destruct Hs as (H & Hs). unfold utf8_form.
  destruct (Z.ltb_spec c 128); [|destruct (Z.ltb_spec c 2048); [|destruct (Z.ltb_spec c 65536)]]; cbn [app decode_arith].
  - rewrite (announced_eq c 1) by lia. reflexivity.
  - rewrite (announced_eq _ 2) by lia. cbn [Z.eqb Pos.eqb]. rewrite cont_cont_of. cbn [negb]. cbv zeta.
    unfold cont_of.
    replace ((192 + c / 64 - 192) * 64 + (128 + c mod 64 - 128)) with c by lia.
    replace (c <=? 0x7F) with false by lia. reflexivity.
  - rewrite (announced_eq _ 3) by lia. cbn [Z.eqb Pos.eqb]. rewrite !cont_cont_of. cbn [negb]. cbv zeta.
    unfold cont_of.
    replace ((224 + c / 4096 - 224) * 4096 + (128 + (c / 64) mod 64 - 128) * 64 + (128 + c mod 64 - 128)) with c by lia.
    replace ((c <=? 0x7FF) || ((0xD800 <=? c) && (c <=? 0xDFFF))) with false by lia. reflexivity.
  - rewrite (announced_eq _ 4) by lia. cbn [Z.eqb Pos.eqb]. rewrite !cont_cont_of. cbn [negb]. cbv zeta.
    unfold cont_of.
    replace ((240 + c / 262144 - 240) * 262144 + (128 + (c / 4096) mod 64 - 128) * 4096 +
             (128 + (c / 64) mod 64 - 128) * 64 + (128 + c mod 64 - 128)) with c by lia.
    replace ((c <=? 0xFFFF) || (0x10FFFF <? c)) with false by lia. reflexivity.
Qed.

(** Everything accepted is a shortest form. *)
Lemma decode_sound {E} l c : bytes l -> @decodeUtf8 E l = Ok c -> c <> kInvalid ->
  scalar c /\ exists rest, l = utf8_form c ++ rest.
Proof.
  intros Hb H Hc. rewrite decode_eq in H by exact Hb. destruct l as [|b0 t]; [discriminate|].
  inversion Hb as [|? ? B0 Bt]; subst. cbn [decode_arith] in H.
  pose proof (announced_range b0 _ eq_refl B0) as (R1 & R2 & R3 & R4 & R5).
  destruct (announced b0 =? 1) eqn:E1.
  { injection H as <-. apply Z.eqb_eq in E1. specialize (R1 E1). split; [unfold scalar; lia|].
    exists t. unfold utf8_form. replace (b0 <? 128) with true by lia. reflexivity. }
  destruct (announced b0 =? 2) eqn:E2.
  { destruct t as [|b1 t]; [discriminate|]. destruct (cont b1) eqn:C1; cbn [negb] in H; [|congruence].
    apply cont_range in C1. apply Z.eqb_eq in E2. specialize (R2 E2). cbv zeta in H.
    destruct (Z.leb_spec ((b0 - 192) * 64 + (b1 - 128)) 0x7F) as [|Hlo]; [congruence|]. injection H as <-.
    split; [unfold scalar; lia|]. exists t. unfold utf8_form, cont_of.
    set (c := (b0 - 192) * 64 + (b1 - 128)) in *.
    replace (c <? 128) with false by lia. replace (c <? 2048) with true by lia.
    cbn [app]. f_equal; [lia|]. f_equal. lia. }
  destruct (announced b0 =? 3) eqn:E3.
  { destruct t as [|b1 t]; [discriminate|]. destruct (cont b1) eqn:C1; cbn [negb] in H; [|congruence].
    destruct t as [|b2 t]; [discriminate|]. destruct (cont b2) eqn:C2; cbn [negb] in H; [|congruence].
    apply cont_range in C1, C2. apply Z.eqb_eq in E3. specialize (R3 E3). cbv zeta in H.
    set (c0 := (b0 - 224) * 4096 + (b1 - 128) * 64 + (b2 - 128)) in *.
    destruct ((c0 <=? 0x7FF) || ((0xD800 <=? c0) && (c0 <=? 0xDFFF))) eqn:Ec; [congruence|]. injection H as <-.
    rewrite orb_false_iff, andb_false_iff in Ec.
    split; [unfold scalar, c0 in *; lia|]. exists t. unfold utf8_form, cont_of.
    replace (c0 <? 128) with false by lia. replace (c0 <? 2048) with false by lia.
    replace (c0 <? 65536) with true by (unfold c0; lia).
    cbn [app]. unfold c0. f_equal; [lia|]. f_equal; [lia|]. f_equal. lia. }
  destruct (announced b0 =? 4) eqn:E4; [|congruence].
  { destruct t as [|b1 t]; [discriminate|]. destruct (cont b1) eqn:C1; cbn [negb] in H; [|congruence].
    destruct t as [|b2 t]; [discriminate|]. destruct (cont b2) eqn:C2; cbn [negb] in H; [|congruence].
    destruct t as [|b3 t]; [discriminate|]. destruct (cont b3) eqn:C3; cbn [negb] in H; [|congruence].
    apply cont_range in C1, C2, C3. apply Z.eqb_eq in E4. specialize (R4 E4). cbv zeta in H.
    set (c0 := (b0 - 240) * 262144 + (b1 - 128) * 4096 + (b2 - 128) * 64 + (b3 - 128)) in *.
    destruct ((c0 <=? 0xFFFF) || (0x10FFFF <? c0)) eqn:Ec; [congruence|]. injection H as <-.
    rewrite orb_false_iff in Ec.
    split; [unfold scalar; lia|]. exists t. unfold utf8_form, cont_of.
    replace (c0 <? 128) with false by lia. replace (c0 <? 2048) with false by lia.
    replace (c0 <? 65536) with false by lia.
    cbn [app]. unfold c0. f_equal; [lia|]. f_equal; [lia|]. f_equal; [lia|]. f_equal. lia. }
Qed.

(** Only the announced bytes are read. *)
Lemma decode_local {E} b0 t rest : bytes (b0 :: t) -> bytes rest -> announced b0 <= zlen (b0 :: t) ->
  @decodeUtf8 E (b0 :: t ++ rest) = decodeUtf8 (b0 :: t) /\ exists c, @decodeUtf8 E (b0 :: t) = Ok c.
Proof.
  intros Hb Hr Hl.
  assert (Hb' : bytes (b0 :: t ++ rest)) by (inversion Hb; subst; constructor; [assumption|apply Forall_app; auto]).
  rewrite !decode_eq by assumption. inversion Hb as [|? ? B0 Bt]; subst.
  pose proof (announced_range b0 _ eq_refl B0) as (R1 & R2 & R3 & R4 & R5).
  rewrite zlen_cons in Hl. cbn [decode_arith].
  destruct (announced b0 =? 1) eqn:E1; [split; eauto|].
  destruct (announced b0 =? 2) eqn:E2.
  { destruct t as [|b1 t]; [unfold zlen in Hl; cbn in Hl; lia|]. cbn [app]. destruct (cont b1); cbn [negb]; cbv zeta; split; eauto. }
  destruct (announced b0 =? 3) eqn:E3.
  { destruct t as [|b1 [|b2 t]]; try (unfold zlen in Hl; cbn in Hl; lia). cbn [app].
    destruct (cont b1); cbn [negb]; [|split; eauto]. destruct (cont b2); cbn [negb]; cbv zeta; split; eauto. }
  destruct (announced b0 =? 4) eqn:E4; [|split; eauto].
  { destruct t as [|b1 [|b2 [|b3 t]]]; try (unfold zlen in Hl; cbn in Hl; lia). cbn [app].
    destruct (cont b1); cbn [negb]; [|split; eauto]. destruct (cont b2); cbn [negb]; [|split; eauto]. destruct (cont b3); cbn [negb]; cbv zeta; split; eauto. }
Qed.

Lemma kInvalid_not_scalar : ~ scalar kInvalid.
Proof. unfold scalar, kInvalid. lia. Qed.
