(** What typed Alt characters, Ctrl+C, a held-back start of a sequence and two quick
    presses of a mouse button lead to (C10-C14, C43). *)
From Verif Require Import Base BaseLemmas Text Unicode UnicodeSpec UnicodeProofs InputMap InputMapSpec InputMapProofs
  DefaultInputMap DefaultInputMapSpec DefaultInputMapProofs ConsoleInput ConsoleInputSpec ConsoleInputKeysSpec ConsoleInputMouseSpec
  ConsoleInputScan ConsoleInputToken ConsoleInputRun ConsoleInputProofs ConsoleInputDsr ConsoleInputKeys ConsoleInputMouse.
Ltac Zify.zify_post_hook ::= Z.div_mod_to_equations.
Ltac splits := repeat match goal with |- _ /\ _ => split end.

(** *** ESC and a character *)
Definition second_ok (s : list Z) : bool :=
  match s with [] => false | b :: t => negb (b =? 27) || match t with [] => false | c :: _ => isin c [27; 79; 91; 127] end end.
Lemma documented_second : forallb (fun '(s, _, _) => second_ok s) documented = true.
Proof. vm_compute. reflexivity. Qed.
Lemma key_second t k : means_key (27 :: t) k -> exists c u, t = c :: u /\ (c = 27 \/ c = 79 \/ c = 91 \/ c = 127).
Proof.
  intros (name & m & Hi & _). pose proof documented_second as H. rewrite forallb_forall in H. specialize (H _ Hi). cbn beta iota in H.
  unfold second_ok in H. change (27 =? 27) with true in H. cbn [negb orb] in H. destruct t as [|c u]; [discriminate|]. exists c, u. split; [reflexivity|].
  apply isin_iff in H. cbn in H. intuition.
Qed.

Section E.
Variable e : env.
Hypothesis EO : env_ok e.
Lemma no_alt_table b y : b <> 27 -> b <> 79 -> b <> 91 -> b <> 127 -> bytes (27 :: b :: y) -> forall eof, classTable e (27 :: b :: y) eof = classAlt (27 :: b :: y).
Proof.
  intros N1 N2 N3 N4 By eof. unfold classTable. destruct (@look e EO unit (27 :: b :: y) By) as (n & k & inc & L & D). rewrite L.
  assert (inc = false) as ->.
  { destruct inc; [|reflexivity]. exfalso. destruct D as (_ & I). destruct (proj1 I eq_refl) as (s & ks & Hi & c & Hc & Hs).
    destruct (found_lookup _ _ _ _ calls_found Hi) as (L2 & IK). destruct (regs_bytes _ _ _ calls_ok Hi) as (Hne & Hbs).
    destruct (@look_poly e EO unit s _ _ _ Hbs ltac:(rewrite (e_root_eq e EO); exact L2)) as (_ & D2).
    pose proof (zlen_pos _ Hne). pose proof (dlook_means e EO _ _ _ _ Hbs D2 ltac:(lia)) as M. rewrite zfirstn_all in M by lia.
    rewrite Hs in M. cbn [app] in M. apply key_second in M as (c1 & u & Hu & Hc1). injection Hu as <- _. lia. }
  rewrite andb_false_r. destruct (Z.ltb_spec 0 n) as [Hn|Hn]; [|reflexivity]. exfalso.
  pose proof (dlook_means e EO _ _ _ _ By D Hn) as M.
  assert (exists t2, zfirstn n (27 :: b :: y) = 27 :: t2 /\ (t2 = [] \/ exists t3, t2 = b :: t3)) as (t2 & Ht2 & Ht3).
  { unfold zfirstn. destruct (Z.to_nat n) as [|[|j]] eqn:En; [lia|cbn; eauto|cbn; eauto]. }
  rewrite Ht2 in M. apply key_second in M as (c1 & u & Hu & Hc1). destruct Ht3 as [->|(t3 & ->)]; [discriminate|]. injection Hu as <- _. lia.
Qed.
Lemma alt_class cp Q : scalar cp -> 32 <= cp -> ~ In cp [79; 91; 127] -> bytes Q ->
  classify e ((27 :: utf8_form cp) ++ Q) false = CTok (1 + zlen (utf8_form cp)) (TChar cp true).
Proof.
  intros S H32 NI HQ. destruct (form_first cp S) as (b & t & Hf & F1 & F2). pose proof (form_bytes cp S) as Hb.
  assert (cp <> 79 /\ cp <> 91 /\ cp <> 127) as (M1 & M2 & M3) by (splits; intros ->; apply NI; cbn; tauto).
  assert (b <> 27 /\ b <> 79 /\ b <> 91 /\ b <> 127) as (N1 & N2 & N3 & N4) by (destruct (Z_lt_ge_dec cp 128); [rewrite F1 by lia|specialize (F2 ltac:(lia))]; lia).
  assert (Hin : (27 :: utf8_form cp) ++ Q = 27 :: b :: t ++ Q) by (rewrite Hf; reflexivity). rewrite Hin.
  assert (Hbb : bytes (27 :: b :: t ++ Q)). { rewrite <- Hin. apply bytes_app. split; [apply bytes_cons; split; [lia|exact Hb]|exact HQ]. }
  rewrite (classify_cons e _ 27 (b :: t ++ Q) false) by reflexivity. change (27 =? 3) with false. change (27 =? 27) with true. cbn [andb].
  assert (CA : forall (m : list Z -> pr unit), checkAdv (ch "[") (b :: t ++ Q) = Fail).
  { intros _. change (ch "[") with 91. apply (checkAdv_no e EO); lia. }
  assert (matchDsr e (27 :: b :: t ++ Q) = Fail) as ->.
  { unfold matchDsr. rewrite checkAdv_all. cbn [pbind]. rewrite (CA (fun _ => Fail)). reflexivity. }
  assert (matchMouseRecord e (27 :: b :: t ++ Q) = Fail) as ->.
  { unfold matchMouseRecord, matchMouse1006, matchMouse1015, matchMouseDefault. rewrite checkAdv_all. cbn [pbind]. rewrite (CA (fun _ => Fail)). reflexivity. }
  rewrite no_alt_table by auto. cbn [classAlt]. change (27 =? 27) with true. replace (b =? 27) with false by lia. cbn [negb andb].
  assert (A : announced b = zlen (utf8_form cp)) by (apply (form_lead cp b S); rewrite Hf; apply znth_0).
  assert (Lp : 1 <= zlen (utf8_form cp)) by (apply zlen_pos; rewrite Hf; discriminate).
  replace (0 <? announced b) with true by lia.
  assert (HQl : b :: t ++ Q = utf8_form cp ++ Q) by (rewrite Hf; reflexivity). rewrite HQl, zlen_app. pose proof (zlen_nonneg Q).
  replace (zlen (utf8_form cp) + zlen Q <? announced b) with false by lia. rewrite (decode_form cp Q S HQ).
  unfold charTok. destruct (Z.eqb_spec cp kInvalid) as [Hk|Hk]; [exfalso; apply kInvalid_not_scalar; now rewrite <- Hk|]. rewrite A. reflexivity.
Qed.
End E.
Lemma write_one {E} e now s t c : env_ok e -> reachable c -> c_queue c = [] -> bytes s -> zlen s <= 2 ^ 31 - 64 -> s <> [] ->
  classify e s false = CTok (zlen s) t -> exists c' c1, @writeInput E e now s c = Ok c' /\ c_queue c' = [] /\ @applyTok E e t c = Ok c1 /\ received (c_log c') = told c1.
Proof.
  intros EO R Hq Hb Hl Hn Hc. destruct (@write_tokens E e now s [t] c EO R Hq Hb Hl) as (c' & H1 & H2 & H3).
  - apply (eat_tok e false s (zlen s)); auto. rewrite zskipn_all by lia. constructor.
  - exists c', (act e t c). splits; auto. apply applyTok_act.
Qed.
Theorem alt_char {E} e now cp c : env_ok e -> reachable c -> c_queue c = [] -> scalar cp -> 32 <= cp -> ~ In cp [79; 91; 127] ->
  exists c' c1, @writeInput E e now (27 :: utf8_form cp) c = Ok c' /\ c_queue c' = [] /\ @applyTok E e (TChar cp true) c = Ok c1 /\ received (c_log c') = told c1.
Proof.
  intros EO R Hq S H32 NI. pose proof (form_bytes cp S) as Hb. pose proof (alt_class e EO cp [] S H32 NI (Forall_nil _)) as AC. rewrite app_nil_r in AC.
  apply write_one; auto.
  - apply bytes_cons. split; [lia|exact Hb].
  - rewrite zlen_cons. destruct (form_first cp S) as (b & t & Hf & _).
    assert (A : announced b = zlen (utf8_form cp)) by (apply (form_lead cp b S); rewrite Hf; apply znth_0). pose proof (announced_le b). lia.
  - discriminate.
  - rewrite AC. f_equal. rewrite zlen_cons. lia.
Qed.
Theorem ctrl_c {E} e now c : env_ok e -> reachable c -> c_queue c = [] -> has (e_mode e) ENABLE_PROCESSED_INPUT = true ->
  exists c', @writeInput E e now [3] c = Ok c' /\ c_queue c' = [] /\ received (c_log c') = received (c_log c) ++ [OCtrlC].
Proof.
  intros EO R Hq Hp. destruct (@write_one E e now [3] TCtrlC c EO R Hq) as (c' & c1 & H1 & H2 & H3 & H4).
  - repeat constructor; lia.
  - vm_compute. discriminate.
  - discriminate.
  - cbn [classify]. change (3 =? 3) with true. unfold processed. rewrite Hp. reflexivity.
  - exists c'. splits; auto. rewrite H4. cbn [applyTok] in H3. injection H3 as <-. unfold told. cbn [emit set_out c_log c_records].
    assert (c_records c = []) as Hr by (apply reachable_inv in R; apply R).
    unfold flushInputRecords. rewrite Hr. rewrite Hr, received_app. cbn. now rewrite app_nil_r.
Qed.

(** *** VT input mode: characters *)
Theorem vt_char {E} e cp alt c : scalar cp -> 32 <= cp -> c_esc c = true -> plain_layout e ->
  exists c' rs, @applyTok E e (TChar cp alt) c = Ok c' /\ told c' = told c ++ map ORec rs /\ vt_read rs = (if alt then [27] else []) ++ utf16_form cp.
Proof.
  intros S H32 He PL. destruct (char_scalars e cp alt S) as (Sd & Su).
  assert (V : escapeCode (layout_key e cp) = EscNone /\ layout_key e cp <> VK_BACK /\ layout_key e cp <> VK_TAB).
  { unfold layout_key, on_layout. destruct (cp <=? 65535); cbn [andb]; [|splits; [reflexivity|discriminate|discriminate]].
    destruct (Z.eqb_spec (e_vkscan e cp) (-1)) as [Hn|Hn]; cbn [negb]; [splits; [reflexivity|discriminate|discriminate]|].
    pose proof (PL cp H32 Hn) as P. cbv zeta in P. change 255 with (Z.ones 8) in P. rewrite Z.land_ones in P by lia. exact P. }
  destruct V as (V1 & V2 & V3). cbn [applyTok]. rewrite charpress_shape. eexists. eexists. split; [reflexivity|].
  rewrite keypress_pushes; auto.
  - rewrite told_pushes. split; [reflexivity|]. rewrite He. unfold body. rewrite vt_read_nested. unfold vt_chars. rewrite V1.
    replace (layout_key e cp =? VK_BACK) with false by lia. replace (layout_key e cp =? VK_TAB) with false by lia. replace (cp =? 0) with false by lia.
    rewrite filter_app, (units_nonzero cp) by (auto; lia). destruct alt; reflexivity.
  - rewrite He. cbn [andb]. unfold vt_message.
    assert (existsb (Z.eqb (layout_key e cp)) [VK_UP; VK_DOWN; VK_LEFT; VK_RIGHT; VK_HOME; VK_END] = false) as ->; [|reflexivity].
    cbn [existsb]. unfold escapeCode in V1. repeat match type of V1 with (if ?b then _ else _) = _ => destruct b eqn:?; [discriminate|] end.
    unfold VK_UP, VK_DOWN, VK_LEFT, VK_RIGHT, VK_HOME, VK_END in *. lia.
Qed.

(** *** The terminal is asked *)
Theorem asked {E} e now data c : env_ok e -> reachable c -> bytes data -> zlen data <= 2 ^ 31 - 64 -> data <> [] ->
  exists c', @writeInput E e now data c = Ok c' /\
    (c_queue c' <> [] -> c_dsrSent c' = true /\ (c_dsrSent c = false -> queries (c_log c') = queries (c_log c) + 1)) /\
    (c_queue c' = [] -> queries (c_log c') = queries (c_log c)) /\ queries (c_log c') <= queries (c_log c) + 1.
Proof.
  intros EO R Hb Hl Hn. apply reachable_inv in R. destruct (@write_step e EO E now data c R Hb Hl Hn) as (ts & rest & c' & _ & Hw & Hr & _ & _ & _ & _ & _ & D).
  cbv zeta in D. destruct D as (D1 & D2). exists c'. split; [exact Hw|]. rewrite Hr, D1, D2. splits.
  - intros Hne. pose proof (zlen_pos _ Hne). replace (zlen rest =? 0) with false by lia. cbn [negb andb]. split.
    + destruct (if existsb is_dsr ts then false else c_dsrSent c); reflexivity.
    + intros ->. destruct (existsb is_dsr ts); reflexivity.
  - intros ->. change (zlen (@nil Z) =? 0) with true. cbn [negb andb]. lia.
  - destruct (negb (zlen rest =? 0) && negb (if existsb is_dsr ts then false else c_dsrSent c)); lia.
Qed.

(** *** Double clicks are noticed *)
Lemma told_push r c : told (push r c) = told c ++ [ORec r].
Proof. unfold told, push. cbn [set_out c_log c_records]. rewrite map_app, app_assoc. reflexivity. Qed.
Theorem double_click_seen e r r' r2 c c1 c2 c3 x y b k f :
  new_press c r = true -> @applyTok unit e (TMouse r) c = Ok c1 -> told c1 = told c ++ [ORec (MouseRec x y b k f)] -> has f DOUBLE_CLICK = false ->
  is_wheel r' = false -> button_of r' = 3 \/ (mr_release r' = true /\ button_of r' = button_of r) -> @applyTok unit e (TMouse r') c1 = Ok c2 ->
  new_press c2 r2 = true -> button_of r2 = button_of r -> mr_x r2 = mr_x r -> mr_y r2 = mr_y r ->
  (forall t, In t (firstn 2 (c_clock c)) -> (hd 0 (c_clock c2) - t) mod 2 ^ 32 < e_dcTime e) -> (2 <= length (c_clock c))%nat ->
  @applyTok unit e (TMouse r2) c2 = Ok c3 ->
  exists x' y' b' k' f', told c3 = told c2 ++ [ORec (MouseRec x' y' b' k' f')] /\ has f' DOUBLE_CLICK = true.
Proof.
  intros NP A1 T1 F1 W2 B2 A2 NP3 B3 X3 Y3 TM LC A3. rewrite applyTok_act in A1, A2, A3. cbn [act] in *.
  assert (c1 = mouseEv e r c) by congruence. assert (c2 = mouseEv e r' c1) by congruence. assert (c3 = mouseEv e r2 c2) by congruence. clear A1 A2 A3.
  destruct (mouseEv_cases e r c) as (_ & M1 & D1). cbv zeta in M1, D1. rewrite NP in D1, M1. cbn [andb] in D1, M1.
  assert (W1 : is_wheel r = false) by (unfold new_press in NP; destruct (is_wheel r); [discriminate|reflexivity]).
  rewrite W1 in M1. cbn [andb negb] in M1. rewrite andb_true_r in M1.
  assert (CM : c_mouse c && negb (c_quick c) = true).
  { destruct (c_mouse c && negb (c_quick c)); [reflexivity|]. exfalso. apply (f_equal (@length _)) in T1. rewrite app_length in T1. assert (told c1 = told c) as E1 by (rewrite H, M1; reflexivity). rewrite E1 in T1. cbn in T1. lia. }
  rewrite CM in M1. set (dd1 := c_dc (mouseEv e r c)) in *. set (kk1 := c_clock (mouseEv e r c)) in *.
  match type of M1 with _ = push ?rec ?st => assert (E1 : told c1 = told c ++ [ORec rec]) by (rewrite H, M1, told_push; reflexivity) end.
  rewrite E1 in T1. apply app_inv_head in T1. injection T1 as _ _ _ _ Ef.
  assert (DC1 : c_dc c1 = dd1) by (rewrite H; reflexivity).
  assert (CM1 : c_mouse c1 && negb (c_quick c1) = true) by (rewrite H, M1; exact CM).
  assert (DD : dc_button dd1 = button_bit (button_of r) /\ dc_x dd1 = mr_x r /\ dc_y dd1 = mr_y r /\ In (dc_tick dd1) (firstn 2 (c_clock c))).
  { destruct (c_clock c) as [|t0 [|t1 tl0]] eqn:Ck; cbn [length] in LC; try lia. cbn [firstn hd tl] in *.
    destruct ((dc_button (c_dc c) =? button_bit (button_of r)) && (dc_x (c_dc c) =? mr_x r) && (dc_y (c_dc c) =? mr_y r)); cbn [andb] in D1, Ef.
    - destruct (u32 (t0 - dc_tick (c_dc c)) <? e_dcTime e).
      + exfalso. rewrite <- Ef in F1. destruct (has (mr_flags r) 32); discriminate.
      + injection D1 as D1 _. rewrite D1. cbn [dc_button dc_x dc_y dc_tick]. splits; auto. cbn. auto.
    - injection D1 as D1 _. rewrite D1. cbn [dc_button dc_x dc_y dc_tick]. splits; auto. cbn. auto. }
  clear M1 D1 E1 Ef. destruct DD as (DB & DX & DY & DT).
  destruct (mouseEv_cases e r' c1) as (_ & M2 & D2). cbv zeta in M2, D2.
  assert (NP2 : new_press c1 r' = false).
  { unfold new_press. destruct B2 as [->|(-> & _)]; [rewrite W2; reflexivity|]. rewrite andb_false_r. reflexivity. }
  rewrite NP2, W2 in D2. cbn [orb] in D2.
  assert (negb (mr_release r') && negb (button_of r' =? 3) = false) as Hz by (destruct B2 as [->|(-> & _)]; [apply andb_false_r|reflexivity]). rewrite Hz in D2.
  assert ((button_of r' =? 3) || (button_bit (button_of r') =? dc_button (c_dc c1)) = true) as Hz2.
  { destruct B2 as [->|(_ & ->)]; [reflexivity|]. rewrite DC1, DB, Z.eqb_refl. apply orb_true_r. }
  rewrite Hz2 in D2. rewrite <- H0 in D2. injection D2 as D2 _.
  assert (CM2 : c_mouse c2 && negb (c_quick c2) = true).
  { rewrite <- CM1, H0, M2. match goal with |- context [(if ?q then _ else _) ?s] => destruct q end; reflexivity. }
  clear M2. destruct (mouseEv_cases e r2 c2) as (_ & M3 & _). cbv zeta in M3.
  assert (W3 : is_wheel r2 = false) by (unfold new_press in NP3; destruct (is_wheel r2); [discriminate|reflexivity]).
  rewrite NP3, W3, CM2 in M3. cbn [andb negb] in M3.
  match type of M3 with context [if ?q && _ then DOUBLE_CLICK else 0] => assert (Q1 : q = true) by (rewrite D2; cbn [dc_button dc_x dc_y]; rewrite B3, X3, Y3, DC1, DB, DX, DY, !Z.eqb_refl; reflexivity) end.
  match type of M3 with context [if _ && ?q then DOUBLE_CLICK else 0] => assert (Q2 : q = true) end.
  { apply Z.ltb_lt. rewrite D2. cbn [dc_tick]. rewrite DC1. exact (TM _ DT). }
  rewrite Q1, Q2 in M3. cbn [andb] in M3. rewrite H1, M3. do 5 eexists. rewrite told_push. split; [reflexivity|].
  destruct (has (mr_flags r2) 32); reflexivity.
Qed.
Theorem triple_click e r r' r2 c c1 c2 c3 x y b k f x2 y2 b2 k2 f2 :
  @applyTok unit e (TMouse r) c = Ok c1 -> told c1 = told c ++ [ORec (MouseRec x y b k f)] -> has f DOUBLE_CLICK = true ->
  new_press c1 r' = false -> @applyTok unit e (TMouse r') c1 = Ok c2 ->
  @applyTok unit e (TMouse r2) c2 = Ok c3 -> told c3 = told c2 ++ [ORec (MouseRec x2 y2 b2 k2 f2)] -> has f2 DOUBLE_CLICK = false.
Proof.
  intros A1 T1 F1 NP2 A2 A3 T3. rewrite applyTok_act in A1, A2, A3. cbn [act] in *.
  assert (H : c1 = mouseEv e r c) by congruence. assert (H0 : c2 = mouseEv e r' c1) by congruence. assert (H1 : c3 = mouseEv e r2 c2) by congruence. clear A1 A2 A3.
  assert (G : forall e r c c' x y b k f, c' = mouseEv e r c -> told c' = told c ++ [ORec (MouseRec x y b k f)] ->
    has f DOUBLE_CLICK = negb (is_wheel r) && (new_press c r && ((dc_button (c_dc c) =? button_bit (button_of r)) && (dc_x (c_dc c) =? mr_x r) && (dc_y (c_dc c) =? mr_y r)) && (u32 (hd 0 (c_clock c) - dc_tick (c_dc c)) <? e_dcTime e))).
  { clear. intros e r c c' x y b k f -> T. destruct (mouseEv_cases e r c) as (_ & M & _). cbv zeta in M.
    match type of M with _ = (if ?q then _ else _) ?st => destruct q; [|exfalso; assert (told (mouseEv e r c) = told c) as E1 by (rewrite M; reflexivity); rewrite E1 in T; apply (f_equal (@length _)) in T; rewrite app_length in T; cbn in T; lia] end.
    match type of M with _ = push ?rec ?st => assert (E1 : told (mouseEv e r c) = told c ++ [ORec rec]) by (rewrite M, told_push; reflexivity) end.
    rewrite E1 in T. apply app_inv_head in T. injection T as _ _ _ _ Ef. rewrite <- Ef. destruct (is_wheel r); cbn [negb andb]; [reflexivity|].
    match goal with |- context [if ?q then DOUBLE_CLICK else 0] => destruct q end; destruct (has (mr_flags r) 32); reflexivity. }
  rewrite (G _ _ _ _ _ _ _ _ _ H T1) in F1. apply andb_true_iff in F1 as (F0 & F1). apply andb_true_iff in F1 as (F1 & F3). apply andb_true_iff in F1 as (F1 & F2).
  rewrite (G _ _ _ _ _ _ _ _ _ H1 T3).
  destruct (mouseEv_cases e r c) as (_ & _ & D1). cbv zeta in D1. rewrite F1, F2, F3 in D1. cbn [andb] in D1. rewrite <- H in D1. injection D1 as D1 _.
  destruct (mouseEv_cases e r' c1) as (_ & _ & D2). cbv zeta in D2. rewrite NP2, D1 in D2. rewrite <- H0 in D2.
  assert (B : dc_button (c_dc c2) = 0).
  { destruct (is_wheel r' || _); [injection D2 as -> _; reflexivity|]. destruct ((button_of r' =? 3) || _); injection D2 as -> _; reflexivity. }
  rewrite B. pose proof (bit_nonzero (button_of r2)). replace (0 =? button_bit (button_of r2)) with false by lia. cbn [andb]. rewrite andb_false_r. apply andb_false_r.
Qed.

(** *** The modes *)
Definition bit_modes (e : env) (c : ci) : Prop :=
  c_esc c = Z.testbit (e_mode e) 9 /\ c_mouse c = Z.testbit (e_mode e) 4 /\ c_quick c = Z.testbit (e_mode e) 6 /\ c_ext c = Z.testbit (e_mode e) 7.
Lemma flags_bits e c : bit_modes e (updateInputFlags e c).
Proof. unfold bit_modes, updateInputFlags. cbn [set_modes c_esc c_mouse c_quick c_ext]. splits; [exact (has_testbit (e_mode e) 9 ltac:(lia))|exact (has_testbit (e_mode e) 4 ltac:(lia))|exact (has_testbit (e_mode e) 6 ltac:(lia))|exact (has_testbit (e_mode e) 7 ltac:(lia))]. Qed.
Lemma cfg_modes c c' : cfg c = cfg c' -> c_esc c = c_esc c' /\ c_mouse c = c_mouse c' /\ c_quick c = c_quick c' /\ c_ext c = c_ext c'.
Proof. unfold cfg. intros H. injection H as ? ? ? ? ? ? ? ?. auto. Qed.
Theorem modes_followed {E} e o c c' : env_ok e -> op_ok o -> reachable c -> @run_op E e o c = Ok c' ->
  match o with
  | OpPoll _ => bit_modes e c'
  | _ => c_esc c' = c_esc c /\ c_mouse c' = c_mouse c /\ c_quick c' = c_quick c /\ c_ext c' = c_ext c
  end.
Proof.
  intros EO (Hb & Hl) R Hr. apply reachable_inv in R. destruct o as [now data|now|l t r b]; cbn [run_op op_data] in *.
  - destruct data as [|x d]; [injection Hr as <-; auto|]. destruct (@write_step e EO E now (x :: d) c R Hb Hl ltac:(discriminate)) as (ts & rest & c1 & _ & Hw & _ & _ & _ & _ & _ & C & _).
    assert (c1 = c') by congruence. subst c1. now apply cfg_modes.
  - pose proof (poll_flags e c R) as I. destruct (@poll_step e EO E now (updateInputFlags e c) I) as (P1 & P2). pose proof (flags_bits e c) as F.
    destruct (list_eq_dec Z.eq_dec (c_queue (updateInputFlags e c)) []) as [Hq|Hq]; [rewrite P1 in Hr by auto; injection Hr as <-; exact F|].
    destruct (Z_le_gt_dec ((now - c_lastWrite (updateInputFlags e c)) mod 2 ^ 32) 1000) as [Hle|Hgt]; [rewrite P1 in Hr by auto; injection Hr as <-; exact F|].
    destruct P2 as (ts & rest & c1 & _ & Hw & _ & _ & _ & _ & C & _); [split; [exact Hq|lia]|]. assert (c1 = c') by congruence. subst c1.
    apply cfg_modes in C as (C1 & C2 & C3 & C4). unfold bit_modes in *. rewrite C1, C2, C3, C4. exact F.
  - injection Hr as <-. auto.
Qed.
