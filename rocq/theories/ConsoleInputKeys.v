(** What a recognised key or character makes the console receive (C11, C12, C43). *)
From Verif Require Import Base BaseLemmas Text Unicode UnicodeSpec UnicodeProofs InputMap InputMapSpec InputMapProofs
  DefaultInputMap DefaultInputMapSpec DefaultInputMapProofs ConsoleInput ConsoleInputSpec ConsoleInputKeysSpec ConsoleInputScan ConsoleInputToken ConsoleInputRun ConsoleInputProofs ConsoleInputDsr.
Ltac Zify.zify_post_hook ::= Z.div_mod_to_equations.
Ltac splits := repeat match goal with |- _ /\ _ => split end.

(** *** Batches of records *)
Definition pushes (rs : list irec) (c : ci) : ci := set_out (c_records c ++ rs) (c_log c) c.
Lemma pushes_pushes a b c : pushes b (pushes a c) = pushes (a ++ b) c.
Proof. unfold pushes. cbn [set_out c_records c_log]. rewrite <- app_assoc. reflexivity. Qed.
Lemma pushes_nil c : pushes [] c = c.
Proof. unfold pushes. rewrite app_nil_r. destruct c. reflexivity. Qed.
Lemma told_pushes rs c : told (pushes rs c) = told c ++ map ORec rs.
Proof. unfold told, pushes. cbn [set_out c_records c_log]. rewrite map_app, app_assoc. reflexivity. Qed.
Lemma esc_pushes rs c : c_esc (pushes rs c) = c_esc c. Proof. reflexivity. Qed.
Lemma append_pushes e down vk ch ks c : appendInputRecord e c down vk ch ks = pushes [krec e down vk ch ks] c.
Proof. reflexivity. Qed.
Lemma ctrl_pushes e on down vk ks c : ctrl_step e c on down vk ks = pushes (if on then [krec e down vk 0 ks] else []) c.
Proof. destruct on; [reflexivity|symmetry; apply pushes_nil]. Qed.
Lemma cp_pushes e down vk cp ks c : scalar cp -> appendCPInputRecords e c down vk cp ks = pushes (units e down vk cp ks) c.
Proof.
  intros S. unfold appendCPInputRecords. rewrite encodeUtf16_form by exact S. unfold units, utf16_form. destruct (cp <? 65536); cbn [map].
  - reflexivity.
  - rewrite !append_pushes, pushes_pushes. reflexivity.
Qed.
Definition down0 (e : env) (ch : Z) : irec := krec e true 0 ch 0.
Lemma outs_pushes e s : forall c, outs e c s = pushes (map (down0 e) s) c.
Proof. induction s as [|x s IH]; intros c; cbn [outs map]; [symmetry; apply pushes_nil|]. rewrite IH. unfold outch. rewrite append_pushes, pushes_pushes. reflexivity. Qed.
(** the characters reencodeEscapedKeyPress writes *)
Definition vt_chars (vk codePoint ks : Z) : list Z :=
  let flags := Z.lor (Z.lor (if has ks SHIFT_PRESSED then 1 else 0) (if has ks LEFT_ALT_PRESSED then 2 else 0))
                     (if has ks LEFT_CTRL_PRESSED then 4 else 0) in
  let mods := if flags =? 0 then [] else [ch ";"; 49 + flags] in
  let plain := if codePoint =? 0 then [] else (if has ks LEFT_ALT_PRESSED then [27] else []) ++ utf16_form codePoint in
  match escapeCode vk with
  | EscNumeric s => [27; ch "["] ++ s ++ mods ++ [ch "~"]
  | EscLetter l => [27; ch "["] ++ (if flags =? 0 then [] else [ch "1"]) ++ mods ++ [l]
  | EscNone =>
      if vk =? VK_BACK then (if has ks LEFT_ALT_PRESSED then [27] else []) ++ [127]
      else if vk =? VK_TAB then (if has ks SHIFT_PRESSED then [27; ch "["; ch "Z"] else plain)
      else plain
  end.
Lemma reenc_pushes e vk cp ks c : scalar cp -> reencodeEscapedKeyPress e c vk cp ks = pushes (map (down0 e) (vt_chars vk cp ks)) c.
Proof.
  intros S. unfold reencodeEscapedKeyPress, vt_chars. set (flags := Z.lor _ _).
  assert (P : (if cp =? 0 then c else appendCPInputRecords e (if has ks LEFT_ALT_PRESSED then outch e c 27 else c) true 0 cp 0) =
    pushes (map (down0 e) (if cp =? 0 then [] else (if has ks LEFT_ALT_PRESSED then [27] else []) ++ utf16_form cp)) c).
  { destruct (cp =? 0); [symmetry; apply pushes_nil|]. rewrite cp_pushes by exact S. destruct (has ks LEFT_ALT_PRESSED).
    - unfold outch. rewrite append_pushes, pushes_pushes. reflexivity.
    - reflexivity. }
  destruct (escapeCode vk); [|apply outs_pushes|apply outs_pushes].
  destruct (vk =? VK_BACK); [|destruct (vk =? VK_TAB); [destruct (has ks SHIFT_PRESSED); [apply outs_pushes|exact P]|exact P]].
  destruct (has ks LEFT_ALT_PRESSED); unfold outch; rewrite !append_pushes, ?pushes_pushes; reflexivity.
Qed.

(** *** One key press *)
Definition vt_message (vk ks : Z) : bool :=
  existsb (Z.eqb vk) [VK_UP; VK_DOWN; VK_LEFT; VK_RIGHT; VK_HOME; VK_END]
  && negb (has ks LEFT_CTRL_PRESSED) && negb (has ks LEFT_ALT_PRESSED) && negb (has ks RIGHT_ALT_PRESSED) && negb (has ks SHIFT_PRESSED).
Definition body (e : env) (esc : bool) (vk dn up cp vks ks held : Z) : list irec :=
  let held := held + (if has ks ENHANCED_KEY then ENHANCED_KEY else 0) in
  (if esc then map (down0 e) (vt_chars vk cp vks) else units e true vk dn held) ++ units e false vk up held.
Lemma keypress_pushes e c vk dn up ks cp vks : scalar dn -> scalar up -> scalar cp -> c_esc c && vt_message vk ks = false ->
  appendKeyPress e c vk dn up ks cp vks = pushes (nested e 0 (wanted ks) (body e (c_esc c) vk dn up cp vks ks)) c.
Proof.
  intros Sd Su Sc H. unfold appendKeyPress. cbv zeta. match goal with |- (if ?b then _ else _) = _ => assert (b = false) as -> by (rewrite <- H; unfold vt_message; now rewrite !andb_assoc) end.
  unfold wanted, modifier_keys, body. cbn [filter fst]. clear H.
  assert (R : forall c vk, reencodeEscapedKeyPress e c vk cp vks = pushes (map (down0 e) (vt_chars vk cp vks)) c) by (intros; now apply reenc_pushes).
  destruct (has ks LEFT_CTRL_PRESSED), (has ks LEFT_ALT_PRESSED), (has ks RIGHT_ALT_PRESSED), (has ks SHIFT_PRESSED), (has ks ENHANCED_KEY);
    rewrite !ctrl_pushes; rewrite ?pushes_pushes, ?esc_pushes; destruct (c_esc c);
    rewrite ?R, ?(cp_pushes _ _ _ _ _ _ Sd), ?(cp_pushes _ _ _ _ _ _ Su), ?pushes_pushes; f_equal;
    cbn [nested app]; rewrite <- ?app_assoc; cbn [app]; repeat (rewrite <- ?app_assoc; cbn [app]); rewrite ?app_nil_r; reflexivity.
Qed.
Lemma has_lor_r a b f : has (Z.lor a b) f = has a f || has b f.
Proof. unfold has. rewrite Z.land_lor_distr_l. destruct (Z.eqb_spec (Z.land a f) 0) as [Ha|Ha], (Z.eqb_spec (Z.land b f) 0) as [Hb|Hb]; cbn [negb orb].
  - rewrite Ha, Hb. reflexivity.
  - rewrite Ha. cbn. apply negb_true_iff, Z.eqb_neq. exact Hb.
  - rewrite Hb, Z.lor_0_r. apply negb_true_iff, Z.eqb_neq. exact Ha.
  - apply negb_true_iff, Z.eqb_neq. intros H. apply Z.lor_eq_0_iff in H. tauto.
Qed.

(** *** Following the modifiers *)
Lemma follow_app a : forall h b, follow h (a ++ b) = match follow h a with Some h' => follow h' b | None => None end.
Proof.
  induction a as [|r a IH]; intros h b; [reflexivity|]. cbn [app follow]. destruct r as [d vk sc cc ks|]; [|reflexivity].
  destruct (negb _ && _); [reflexivity|]. destruct (Z.ldiff _ _ =? _); [apply IH|reflexivity].
Qed.
Lemma units_follow e d vk cp ks h : modifier_bit vk ks = 0 -> Z.ldiff ks ENHANCED_KEY = h -> follow h (units e d vk cp ks) = Some h.
Proof.
  intros Hm Hk. assert (G : forall us, follow h (map (fun u => krec e d vk u ks) us) = Some h).
  { induction us as [|u us IH]; [reflexivity|]. cbn [map follow krec]. rewrite Hm. cbn [Z.eqb negb andb]. rewrite Hk, Z.eqb_refl. exact IH. }
  apply G.
Qed.
Lemma modifier_bit_0 vk ks : no_modifier vk -> modifier_bit vk ks = 0.
Proof. intros (H1 & H2 & H3). unfold modifier_bit. rewrite !(proj2 (Z.eqb_neq _ _)) by assumption. reflexivity. Qed.
Lemma nest_follow e held bit vk extra r bd :
  modifier_bit vk (held + bit + extra) = bit -> bit <> 0 -> has held bit = false -> Z.ldiff (held + bit + extra) ENHANCED_KEY = held + bit ->
  modifier_bit vk (held + extra) = bit -> has (held + bit) bit = true -> Z.ldiff (held + extra) ENHANCED_KEY = held ->
  follow (held + bit) (nested e (held + bit) r bd) = Some (held + bit) ->
  follow held (nested e held ((bit, vk, extra) :: r) bd) = Some held.
Proof.
  intros H1 H2 H3 H4 H5 H6 H7 HI. cbn [nested app follow krec]. rewrite H1, H3. replace (bit =? 0) with false by lia. cbn [negb andb Bool.eqb].
  rewrite H4, Z.eqb_refl, follow_app, HI. cbn [follow krec]. rewrite H5, H6. replace (bit =? 0) with false by lia. cbn [negb andb Bool.eqb].
  rewrite H7. replace (held + bit - bit) with held by lia. rewrite Z.eqb_refl. reflexivity.
Qed.
Theorem keystroke_follow e vk dn up ks : no_modifier vk -> follow 0 (keystroke e vk dn up ks) = Some 0.
Proof.
  intros N. unfold keystroke, wanted, modifier_keys. cbn [filter fst].
  destruct (has ks LEFT_CTRL_PRESSED), (has ks LEFT_ALT_PRESSED), (has ks RIGHT_ALT_PRESSED), (has ks SHIFT_PRESSED), (has ks ENHANCED_KEY);
    repeat (apply nest_follow; [reflexivity|discriminate|reflexivity|reflexivity|reflexivity|reflexivity|reflexivity|]);
    cbn [nested]; (rewrite follow_app, units_follow by (first [apply modifier_bit_0; exact N|reflexivity])); apply units_follow; (first [apply modifier_bit_0; exact N|reflexivity]).
Qed.

(** The characters of a key stroke *)
Lemma chars_app a b : chars (a ++ b) = chars a ++ chars b. Proof. apply flat_map_app. Qed.
Lemma chars_nested e ms bd : forall held, (exists h, chars (nested e held ms bd) = chars (bd h)).
Proof.
  induction ms as [|[[bit vk] ex] r IH]; intros held; [now exists held|]. destruct (IH (held + bit)) as (h & H). exists h.
  cbn [nested]. rewrite !chars_app, H. cbn. now rewrite app_nil_r.
Qed.
Lemma chars_units e d vk cp ks : chars (units e d vk cp ks) = map (pair d) (filter (fun u => negb (u =? 0)) (utf16_form cp)).
Proof.
  unfold units, chars. generalize (utf16_form cp). intros us. induction us as [|u us IH]; [reflexivity|]. cbn [map flat_map krec filter]. rewrite IH. destruct (u =? 0); reflexivity.
Qed.
Lemma units_nonzero cp : scalar cp -> cp <> 0 -> filter (fun u => negb (u =? 0)) (utf16_form cp) = utf16_form cp.
Proof.
  intros (S & _) H. unfold utf16_form. destruct (Z.ltb_spec cp 65536) as [Hl|Hl]; cbn [filter].
  - replace (cp =? 0) with false by lia. reflexivity.
  - replace (55296 + (cp - 65536) / 1024 =? 0) with false by lia. replace (56320 + (cp - 65536) mod 1024 =? 0) with false by lia. reflexivity.
Qed.
Lemma keyrecs_nested e ms bd : (forall h, Forall is_keyrec (bd h)) -> forall held, Forall is_keyrec (nested e held ms bd).
Proof.
  intros H. induction ms as [|[[bit vk] ex] r IH]; intros held; [apply H|]. cbn [nested]. apply Forall_app; split; [repeat constructor|]. apply Forall_app; split; [apply IH|repeat constructor].
Qed.
Lemma keyrecs_units e d vk cp ks : Forall is_keyrec (units e d vk cp ks).
Proof. unfold units. apply Forall_map. apply Forall_forall. intros; exact I. Qed.
Lemma keyrecs_body e esc vk dn up cp vks ks h : Forall is_keyrec (body e esc vk dn up cp vks ks h).
Proof.
  unfold body. apply Forall_app. split; [|apply keyrecs_units]. destruct esc; [|apply keyrecs_units]. apply Forall_map, Forall_forall. intros; exact I.
Qed.
Lemma chars_down0 e l : chars (map (down0 e) l) = map (pair true) (filter (fun u => negb (u =? 0)) l).
Proof. unfold chars. induction l as [|u us IH]; [reflexivity|]. cbn [map flat_map down0 krec filter]. rewrite IH. destruct (u =? 0); reflexivity. Qed.
Lemma vt_read_app a b : vt_read (a ++ b) = vt_read a ++ vt_read b. Proof. apply flat_map_app. Qed.
Lemma vt_read_chars l : vt_read l = map snd (filter fst (chars l)).
Proof.
  induction l as [|r l IH]; [reflexivity|]. change (r :: l) with ([r] ++ l). rewrite vt_read_app, chars_app, filter_app, map_app, IH. f_equal.
  destruct r as [d vk sc c ks|]; [|reflexivity]. unfold vt_read, chars. cbn [flat_map app]. destruct (c =? 0), d; reflexivity.
Qed.

(** *** Text *)
Lemma scalar_0 : scalar 0. Proof. split; lia. Qed.
Definition char_event (e : env) (c : ci) (cp : Z) (rs : list irec) : Prop :=
  Forall is_keyrec rs /\ chars rs = map (pair true) (utf16_form cp) ++ map (pair false) (utf16_form cp) /\
  appendCodePoint e c cp false = pushes rs c.
Lemma char_pushes e c cp : scalar cp -> 32 <= cp -> (c_esc c = true -> plain_layout e) -> exists rs, char_event e c cp rs.
Proof.
  intros S H32 PL. unfold char_event, appendCodePoint. set (scan := if 65535 <? cp then -1 else e_vkscan e cp). cbv zeta.
  set (vk := if negb (scan =? -1) then _ else _). set (ks := Z.lor _ _). rewrite !andb_false_r. cbn [andb orb].
  assert (V : c_esc c = true -> escapeCode vk = EscNone /\ vk <> VK_BACK /\ vk <> VK_TAB).
  { intros He. specialize (PL He). unfold vk, scan in *. destruct (Z.ltb_spec 65535 cp) as [Hc|Hc]; [cbn; splits; [reflexivity|discriminate|discriminate]|].
    destruct (Z.eqb_spec (e_vkscan e cp) (-1)) as [Hn|Hn]; cbn [negb]; [splits; [reflexivity|discriminate|discriminate]|]. exact (PL cp H32 Hn). }
  eexists. splits; [| |apply keypress_pushes; auto].
  - apply keyrecs_nested. intros. apply keyrecs_body.
  - match goal with |- chars (nested e 0 ?ms ?bd) = _ => destruct (chars_nested e ms bd 0) as (h & ->) end. unfold body.
    rewrite chars_app, chars_units. rewrite (units_nonzero cp) by (auto; lia). f_equal.
    destruct (c_esc c) eqn:He; [|rewrite chars_units, units_nonzero by (auto; lia); reflexivity].
    destruct (V eq_refl) as (V1 & V2 & V3). unfold vt_chars. rewrite V1. replace (vk =? VK_BACK) with false by lia. replace (vk =? VK_TAB) with false by lia.
    replace (cp =? 0) with false by lia. change (has 0 LEFT_ALT_PRESSED) with false. cbv iota. cbn [app]. rewrite chars_down0, units_nonzero by (auto; lia). reflexivity.
  - destruct (c_esc c) eqn:He; [|reflexivity]. destruct (V eq_refl) as (V1 & _). cbn [andb]. unfold vt_message.
    assert (existsb (Z.eqb vk) [VK_UP; VK_DOWN; VK_LEFT; VK_RIGHT; VK_HOME; VK_END] = false) as ->; [|reflexivity].
    cbn [existsb]. unfold escapeCode in V1. repeat match type of V1 with (if ?b then _ else _) = _ => destruct b eqn:?; [discriminate|] end.
    unfold VK_UP, VK_DOWN, VK_LEFT, VK_RIGHT, VK_HOME, VK_END in *. lia.
Qed.
Definition both (cp : Z) : list (bool * Z) := map (pair true) (utf16_form cp) ++ map (pair false) (utf16_form cp).
Lemma acts_text e : forall cps c, Forall (fun cp => scalar cp /\ 32 <= cp) cps -> (c_esc c = true -> plain_layout e) ->
  exists rs, acts e (map (fun cp => TChar cp false) cps) c = pushes rs c /\ Forall is_keyrec rs /\ chars rs = flat_map both cps.
Proof.
  induction cps as [|cp cps IH]; intros c F PL.
  - exists []. cbn [map acts flat_map]. splits; [symmetry; apply pushes_nil|constructor|reflexivity].
  - inversion F as [|? ? (S & H32) F']; subst. destruct (char_pushes e c cp S H32 PL) as (r1 & K1 & C1 & P1).
    cbn [map acts act]. rewrite P1. destruct (IH (pushes r1 c) F' PL) as (r2 & P2 & K2 & C2). exists (r1 ++ r2). splits.
    + rewrite P2. apply pushes_pushes.
    + apply Forall_app. auto.
    + rewrite chars_app, C1, C2. reflexivity.
Qed.

Section E.
Variable e : env.
Hypothesis EO : env_ok e.
Lemma form_first cp : scalar cp -> exists b t, utf8_form cp = b :: t /\ (cp < 128 -> b = cp) /\ (128 <= cp -> 192 <= b).
Proof.
  intros (S & _). unfold utf8_form. destruct (Z.ltb_spec cp 128); [eexists; eexists; splits; [reflexivity|auto|lia]|].
  destruct (cp <? 2048); [|destruct (cp <? 65536)]; (eexists; eexists; splits; [reflexivity|lia|intros; lia]).
Qed.
Lemma no_key_table b y : b <> 27 -> b <> 127 -> b <> 3 -> bytes (b :: y) -> forall eof, classTable e (b :: y) eof = classAlt (b :: y).
Proof.
  intros N1 N2 N3 By eof. unfold classTable. destruct (@look e EO unit (b :: y) By) as (n & k & inc & L & D). rewrite L.
  assert (inc = false) as ->.
  { destruct inc; [|reflexivity]. exfalso. destruct D as (_ & I). destruct (proj1 I eq_refl) as (s & ks & Hi & c & Hc & Hs).
    destruct (found_lookup _ _ _ _ calls_found Hi) as (L2 & IK). destruct (regs_bytes _ _ _ calls_ok Hi) as (Hne & Hbs).
    destruct (@look_poly e EO unit s _ _ _ Hbs ltac:(rewrite (e_root_eq e EO); exact L2)) as (_ & D2).
    pose proof (zlen_pos _ Hne). pose proof (dlook_means e EO _ _ _ _ Hbs D2 ltac:(lia)) as M. rewrite zfirstn_all in M by lia.
    apply key_ok in M as (_ & _ & _ & _ & _ & _ & b1 & t1 & Hs1 & Hb1 & _). rewrite Hs in Hs1. cbn in Hs1. injection Hs1. lia. }
  rewrite andb_false_r. destruct (Z.ltb_spec 0 n) as [Hn|Hn]; [|reflexivity]. exfalso.
  pose proof (dlook_means e EO _ _ _ _ By D Hn) as M. apply key_ok in M as (_ & _ & _ & _ & _ & _ & b1 & t1 & Hs1 & Hb1 & _).
  assert (exists t2, zfirstn n (b :: y) = b :: t2) as (t2 & Ht2). { unfold zfirstn. destruct (Z.to_nat n) eqn:En; [lia|]. cbn. eauto. }
  rewrite Ht2 in Hs1. injection Hs1. lia.
Qed.
Lemma text_class cp Q : scalar cp -> 32 <= cp -> cp <> 127 -> bytes Q -> classify e (utf8_form cp ++ Q) false = CTok (zlen (utf8_form cp)) (TChar cp false).
Proof.
  intros S H32 H127 HQ. destruct (form_first cp S) as (b & t & Hf & F1 & F2). pose proof (form_bytes cp S) as Hb.
  assert (Hbb : bytes (utf8_form cp ++ Q)) by (apply bytes_app; auto).
  rewrite (classify_cons e _ b (t ++ Q) false) by (rewrite Hf; reflexivity).
  assert (b <> 27 /\ b <> 127 /\ b <> 3) as (N1 & N2 & N3) by (destruct (Z_lt_ge_dec cp 128); [rewrite F1 by lia|specialize (F2 ltac:(lia))]; lia).
  replace (b =? 3) with false by lia. replace (b =? 27) with false by lia. cbn [andb].
  assert (Hin : utf8_form cp ++ Q = b :: t ++ Q) by (rewrite Hf; reflexivity). rewrite Hin in *. rewrite (no_key_table b (t ++ Q) N1 N2 N3 Hbb).
  assert (classAlt (b :: t ++ Q) = classText (b :: t ++ Q)) as ->.
  { cbn [classAlt]. destruct (t ++ Q); [reflexivity|]. replace (b =? 27) with false by lia. reflexivity. }
  cbn [classText].
  assert (A : announced b = zlen (utf8_form cp)) by (apply (form_lead cp b S); rewrite Hf; apply znth_0).
  pose proof (zlen_pos (utf8_form cp)) as Lp. rewrite Hf in Lp at 1. specialize (Lp ltac:(discriminate)).
  replace (announced b =? 0) with false by lia.
  assert (zlen (b :: t ++ Q) = zlen (utf8_form cp) + zlen Q) as HL by (rewrite <- Hin, zlen_app; reflexivity). pose proof (zlen_nonneg Q).
  replace (zlen (b :: t ++ Q) <? announced b) with false by lia. rewrite <- Hin. rewrite (decode_form cp Q S HQ).
  unfold charTok. destruct (Z.eqb_spec cp kInvalid) as [Hk|Hk]; [exfalso; apply kInvalid_not_scalar; now rewrite <- Hk|]. rewrite A. reflexivity.
Qed.
Lemma eats_text cps : Forall (fun cp => scalar cp /\ 32 <= cp /\ cp <> 127) cps -> bytes (flat_map utf8_form cps) /\ eats e false (flat_map utf8_form cps) (map (fun cp => TChar cp false) cps) [].
Proof.
  induction 1 as [|cp cps (S & H32 & H127) F (IB & IH)]; [split; constructor|]. cbn [flat_map map]. split; [apply bytes_app; split; [now apply form_bytes|exact IB]|].
  apply (eat_tok e false _ (zlen (utf8_form cp))).
  - destruct (form_first cp S) as (b & t & -> & _). discriminate.
  - now apply text_class.
  - rewrite zskipn_app_exact by reflexivity. exact IH.
Qed.

(** *** Keys at the start of the input *)
Definition e0 : env := mkEnv 0 (fun _ => -1) (fun v => v) 0 (fun _ => false) droot.
Lemma e0_ok : env_ok e0. Proof. split; [exact (eq_trans add_eq droot_eq)|reflexivity]. Qed.
Definition direct (s : list Z) : bool :=
  match matchDsr e0 s with
  | Fail => match matchMouseRecord e0 s with Fail => true | _ => list_eqb s [27; 91; 77] end
  | Got _ l => (zlen l =? 1)
  | _ => false
  end.
Lemma documented_direct : forallb (fun '(s, _, _) => direct s) documented = true.
Proof. vm_compute. reflexivity. Qed.
Lemma key_first s k rest : means_key s k -> ~ shadowed (processed e) s -> bytes s -> bytes rest -> s <> [] ->
  classify e (s ++ rest) false = CTok (zlen s) (TKey k).
Proof.
  intros M NS Hbs Hbr Hn. pose proof M as (name & m & Hi & _). pose proof documented_direct as H. rewrite forallb_forall in H. specialize (H _ Hi). cbn beta iota in H.
  pose proof (key_class e EO s k rest false M Hbr) as KC. destruct s as [|b t] eqn:Es; [congruence|]. rewrite <- Es in *.
  rewrite (classify_cons e _ b (t ++ rest) false) by (rewrite Es; reflexivity).
  destruct (Z.eqb_spec b 3) as [H3|H3].
  - subst b. pose proof M as M2. apply key_ok in M2 as (_ & _ & _ & _ & _ & _ & b1 & t1 & Hs1 & Hb1 & Hb2). rewrite Es in Hs1. injection Hs1 as <- <-.
    assert (t = []) by (destruct t; [reflexivity|exfalso; specialize (Hb2 ltac:(discriminate)); lia]). subst t.
    destruct (processed e) eqn:Hp; [exfalso; apply NS; right; right; auto|]. cbn [andb]. change (3 =? 27) with false. exact KC.
  - cbn [andb]. destruct (b =? 27); [|exact KC].
    pose proof (dsr_fin e0 (dig_ok e0 e0_ok) s Hbs Hn) as FD. pose proof (mouse_fin e0 (dig_ok e0 e0_ok) s Hbs Hn) as FM.
    rewrite (matchDsr_ext e e0 EO e0_ok), (matchMouse_ext e e0 EO e0_ok). unfold direct in H.
    destruct (matchDsr e0 s) as [| | |a l]; try discriminate.
    + rewrite (FD rest Hbr). destruct (matchMouseRecord e0 s) as [| | |a l]; try (exfalso; apply NS; right; left; now apply list_eqb_eq).
      rewrite (FM rest Hbr). exact KC.
    + exfalso. apply NS. left. destruct FD as (p & x & w & Hs & Hl & Hd & _). rewrite Hl, zlen_cons in H.
      assert (zlen w = 0) as Hw by lia. apply zlen_0_nil in Hw. subst w. now rewrite Hs.
Qed.
End E.

Lemma means_bytes s k : means_key s k -> bytes s /\ s <> [].
Proof.
  intros (name & m & Hi & ->). assert (Hd : In (s, press name m) docs) by (rewrite docs_eq; apply in_map_iff; exists (s, name, m); auto).
  destruct (regs_bytes _ _ _ docs_ok Hd) as (Hne & Hb). auto.
Qed.
Lemma means_scalar s k : means_key s k -> scalar (unicodeChar k).
Proof. intros (name & m & _ & ->). cbn [press unicodeChar]. unfold char_of, scalar. destruct name; try lia; destruct (m_ctrl m); lia. Qed.
Lemma means_no_modifier s k : means_key s k -> no_modifier (virtualKey k).
Proof.
  intros (name & m & Hi & ->). assert (H : forallb (fun '(_, n, _) => negb (vk_of n =? 0x10) && negb (vk_of n =? 0x11) && negb (vk_of n =? 0x12)) documented = true) by (vm_compute; reflexivity).
  rewrite forallb_forall in H. specialize (H _ Hi). cbn beta iota in H. cbn [press virtualKey]. unfold no_modifier, VK_CONTROL, VK_MENU, VK_SHIFT. lia.
Qed.

(** A write of one token's bytes into an empty queue *)
Lemma write_tokens {E} e now data ts c : env_ok e -> reachable c -> c_queue c = [] -> bytes data -> zlen data <= 2 ^ 31 - 64 ->
  eats e false data ts [] -> exists c', @writeInput E e now data c = Ok c' /\ c_queue c' = [] /\ received (c_log c') = told (acts e ts c).
Proof.
  intros EO R Hq Hb Hl He. apply reachable_inv in R. destruct (list_eq_dec Z.eq_dec data []) as [->|Hn].
  - exists c. inversion He; subst; try congruence. splits; auto. rewrite <- told_nil by apply R. reflexivity.
  - destruct (@write_step e EO E now data c R Hb Hl Hn) as (ts1 & rest & c1 & He1 & Hw & Q1 & I1 & C1 & T1 & _).
    rewrite Hq in He1. destruct (eats_det e _ _ _ _ He1 _ _ He) as (-> & ->). exists c1. splits; auto. rewrite <- T1. symmetry. apply told_nil. apply I1.
Qed.

Theorem text_arrives {E} e now cps c : env_ok e -> reachable c -> c_queue c = [] -> (c_esc c = true -> plain_layout e) ->
  Forall (fun cp => scalar cp /\ 32 <= cp /\ cp <> 127) cps -> zlen (flat_map utf8_form cps) <= 2 ^ 31 - 64 ->
  exists c' rs, @writeInput E e now (flat_map utf8_form cps) c = Ok c' /\ c_queue c' = [] /\
    received (c_log c') = received (c_log c) ++ map ORec rs /\ Forall is_keyrec rs /\
    chars rs = flat_map (fun cp => map (pair true) (utf16_form cp) ++ map (pair false) (utf16_form cp)) cps.
Proof.
  intros EO R Hq PL F Hl. destruct (eats_text e EO cps F) as (Hb & He). destruct (@write_tokens E e now _ _ c EO R Hq Hb Hl He) as (c' & Hw & Hq' & HT).
  destruct (acts_text e cps c) as (rs & HA & HK & HC); [eapply Forall_impl; [|exact F]; cbn; tauto|exact PL|].
  exists c', rs. splits; auto. rewrite HT, HA, told_pushes. f_equal. apply told_nil. apply reachable_inv in R. apply R.
Qed.

Definition key_dn (k : Key) : Z := if has (keyState k) LEFT_CTRL_PRESSED && has (keyState k) LEFT_ALT_PRESSED then 0 else unicodeChar k.
Definition key_up (k : Key) : Z := if has (keyState k) LEFT_ALT_PRESSED then 0 else unicodeChar k.
Lemma match_pushes e c k : scalar (unicodeChar k) -> c_esc c && vt_message (virtualKey k) (keyState k) = false ->
  appendMatch e c k = pushes (nested e 0 (wanted (keyState k)) (body e (c_esc c) (virtualKey k) (key_dn k) (key_up k) (unicodeChar k) (keyState k) (keyState k))) c.
Proof.
  intros S H. unfold appendMatch.
  assert ((if has (keyState k) LEFT_ALT_PRESSED then 0 else if has (keyState k) LEFT_CTRL_PRESSED && has (keyState k) LEFT_ALT_PRESSED then 0 else unicodeChar k) = key_up k) as ->
    by (unfold key_up; destruct (has (keyState k) LEFT_ALT_PRESSED); [reflexivity|rewrite andb_false_r; reflexivity]).
  apply keypress_pushes; auto.
  - unfold key_dn. match goal with |- scalar (if ?b then _ else _) => destruct b end; [exact scalar_0|exact S].
  - unfold key_up. match goal with |- scalar (if ?b then _ else _) => destruct b end; [exact scalar_0|exact S].
Qed.
Lemma write_key {E} e now s k c : env_ok e -> reachable c -> c_queue c = [] -> means_key s k -> ~ shadowed (processed e) s ->
  exists c', @writeInput E e now s c = Ok c' /\ c_queue c' = [] /\ received (c_log c') = told (appendMatch e c k).
Proof.
  intros EO R Hq M NS. destruct (means_bytes _ _ M) as (Hb & Hn).
  apply (write_tokens e now s [TKey k] c); auto.
  - apply means_key_len in M. lia.
  - apply (eat_tok e false s (zlen s)); auto.
    + pose proof (key_first e EO s k [] M NS Hb (Forall_nil _) Hn) as H. now rewrite app_nil_r in H.
    + rewrite zskipn_all by lia. constructor.
Qed.
Theorem key_stroke {E} e now s k c : env_ok e -> reachable c -> c_queue c = [] -> c_esc c = false -> means_key s k -> ~ shadowed (processed e) s ->
  let ks := keyState k in
  let dn := if has ks LEFT_CTRL_PRESSED && has ks LEFT_ALT_PRESSED then 0 else unicodeChar k in
  let up := if has ks LEFT_ALT_PRESSED then 0 else unicodeChar k in
  let rs := keystroke e (virtualKey k) dn up ks in
  exists c', @writeInput E e now s c = Ok c' /\ c_queue c' = [] /\ received (c_log c') = received (c_log c) ++ map ORec rs /\ follow 0 rs = Some 0.
Proof.
  intros EO R Hq Hesc M NS ks dn up rs. destruct (@write_key E e now s k c EO R Hq M NS) as (c' & Hw & Hq' & HT). exists c'. splits; auto.
  - rewrite HT, match_pushes; [|eapply means_scalar; eauto|rewrite Hesc; reflexivity]. rewrite Hesc, told_pushes. f_equal. apply told_nil. apply reachable_inv in R. apply R.
  - apply keystroke_follow. eapply means_no_modifier; eauto.
Qed.

(** Characters, with or without Alt *)
Lemma has_testbit a k : 0 <= k -> has a (2 ^ k) = Z.testbit a k.
Proof.
  intros Hk. unfold has. destruct (Z.testbit a k) eqn:T.
  - apply negb_true_iff. apply Z.eqb_neq. intros H. assert (Z.testbit (Z.land a (2 ^ k)) k = true) as X by (rewrite Z.land_spec, T, Z.pow2_bits_true by lia; reflexivity). rewrite H, Z.bits_0 in X. discriminate.
  - apply negb_false_iff. apply Z.eqb_eq. apply Z.bits_inj'. intros q Hq. rewrite Z.land_spec, Z.bits_0, Z.pow2_bits_eqb by lia. destruct (Z.eqb_spec k q); subst; [now rewrite T|apply andb_false_r].
Qed.
Definition char_ks (e : env) (cp : Z) (alt : bool) : Z := layout_mods e cp + (if alt then LEFT_ALT_PRESSED else 0).
Definition char_dn (e : env) (cp : Z) (alt : bool) : Z := if alt && has (layout_mods e cp) LEFT_CTRL_PRESSED then 0 else cp.
Definition char_up (cp : Z) (alt : bool) : Z := if alt then 0 else cp.
Lemma charpress_shape e c cp alt :
  appendCodePoint e c cp alt = appendKeyPress e c (layout_key e cp) (char_dn e cp alt) (char_up cp alt) (char_ks e cp alt) cp (if alt then LEFT_ALT_PRESSED else 0).
Proof.
  unfold appendCodePoint, layout_key, char_dn, char_up, char_ks, layout_mods, on_layout. set (scan := if 65535 <? cp then -1 else e_vkscan e cp). cbv zeta.
  assert (K : (cp <=? 65535) && negb (e_vkscan e cp =? -1) = negb (scan =? -1)).
  { unfold scan. destruct (Z.ltb_spec 65535 cp); [replace (cp <=? 65535) with false by lia; reflexivity|replace (cp <=? 65535) with true by lia; reflexivity]. }
  rewrite K. destruct (Z.eqb_spec scan (-1)) as [Hn|Hn]; cbn [negb andb orb].
  - destruct alt; reflexivity.
  - assert (e_vkscan e cp = scan) as -> by (unfold scan in *; destruct (65535 <? cp); congruence).
    change 0x100 with (2 ^ 8). change 0x200 with (2 ^ 9). change 0x400 with (2 ^ 10). rewrite !has_testbit by lia.
    change 255 with (Z.ones 8). rewrite (Z.land_ones scan 8) by lia. change (2 ^ 8) with 256.
    destruct alt, (Z.testbit scan 8), (Z.testbit scan 9), (Z.testbit scan 10); reflexivity.
Qed.
Lemma char_scalars e cp alt : scalar cp -> scalar (char_dn e cp alt) /\ scalar (char_up cp alt).
Proof. intros S. unfold char_dn, char_up. split; [destruct (alt && _)|destruct alt]; auto using scalar_0. Qed.
Theorem char_stroke {E} e cp alt c : scalar cp -> c_esc c = false ->
  let rs := keystroke e (layout_key e cp) (if alt && has (layout_mods e cp) LEFT_CTRL_PRESSED then 0 else cp) (if alt then 0 else cp)
              (layout_mods e cp + (if alt then LEFT_ALT_PRESSED else 0)) in
  exists c', @applyTok E e (TChar cp alt) c = Ok c' /\ told c' = told c ++ map ORec rs /\
  (no_modifier (layout_key e cp) -> follow 0 rs = Some 0).
Proof.
  intros S He rs. destruct (char_scalars e cp alt S) as (Sd & Su). cbn [applyTok]. eexists.
  split; [reflexivity|]. split; [|apply keystroke_follow].
  rewrite charpress_shape, keypress_pushes by (auto; rewrite He; reflexivity). rewrite told_pushes, He. reflexivity.
Qed.

(** VT input mode *)
Lemma lparam_small sc : 0 <= sc <= 255 -> Z.lor (Z.lor (Z.shiftl sc 16) 1) 0 = 1 + sc * 2 ^ 16 + 0 /\ Z.lor (Z.lor (Z.shiftl sc 16) 1) 0xc0000000 = 1 + sc * 2 ^ 16 + (2 ^ 30 + 2 ^ 31).
Proof.
  intros H.
  assert (F : forallb (fun n => let sc := Z.of_nat n in (Z.lor (Z.lor (Z.shiftl sc 16) 1) 0 =? 1 + sc * 2 ^ 16 + 0) && (Z.lor (Z.lor (Z.shiftl sc 16) 1) 0xc0000000 =? 1 + sc * 2 ^ 16 + (2 ^ 30 + 2 ^ 31))) (List.seq 0 256) = true) by (vm_compute; reflexivity).
  rewrite forallb_forall in F. specialize (F (Z.to_nat sc)). cbv zeta in F. rewrite Z2Nat.id in F by lia. rewrite in_seq in F. specialize (F ltac:(lia)).
  apply andb_true_iff in F as (F1 & F2). apply Z.eqb_eq in F1, F2. auto.
Qed.
Lemma message_told e c vk dn up ks cp vks : c_esc c && vt_message vk ks = true ->
  told (appendKeyPress e c vk dn up ks cp vks) = told c ++ messages e vk.
Proof.
  intros H. unfold appendKeyPress. cbv zeta.
  match goal with |- context [told (if ?b then _ else _)] => assert (b = true) as -> by (rewrite <- H; unfold vt_message; now rewrite !andb_assoc) end.
  unfold sendKeyMessage. rewrite <- (flush_told c). unfold told at 1. cbn [emit set_out c_log c_records]. rewrite flush_records. unfold told.
  rewrite flush_records, !received_app. cbn [map]. rewrite !app_nil_r, <- app_assoc. f_equal. unfold messages, key_lparam. cbn [received flat_map flat1 app].
  assert (S : exists sc, (if 255 <? u32 (e_mapvk e vk) then 0 else u32 (e_mapvk e vk)) = sc /\ (if e_mapvk e vk mod 2 ^ 32 <=? 255 then e_mapvk e vk mod 2 ^ 32 else 0) = sc /\ 0 <= sc <= 255).
  { exists (if e_mapvk e vk mod 2 ^ 32 <=? 255 then e_mapvk e vk mod 2 ^ 32 else 0). unfold u32, wrapu. pose proof (Z.mod_pos_bound (e_mapvk e vk) (2 ^ 32) ltac:(lia)).
    destruct (Z.leb_spec (e_mapvk e vk mod 2 ^ 32) 255); [replace (255 <? e_mapvk e vk mod 2 ^ 32) with false by lia|replace (255 <? e_mapvk e vk mod 2 ^ 32) with true by lia]; splits; auto; lia. }
  destruct S as (sc & S1 & S2 & S3). cbv zeta. rewrite S1, S2. destruct (lparam_small sc S3) as (L1 & L2). rewrite L1, L2. reflexivity.
Qed.
Lemma vt_press e c vk dn up ks cp vks : scalar dn -> scalar up -> scalar cp -> c_esc c = true ->
  exists out, told (appendKeyPress e c vk dn up ks cp vks) = told c ++ out /\ vt_shape e out.
Proof.
  intros Sd Su Sc He. destruct (vt_message vk ks) eqn:Hm.
  - pose proof (message_told e c vk dn up ks cp vks) as H. rewrite He, Hm in H. specialize (H eq_refl). eexists. split; [exact H|]. left. exists vk. split; [|reflexivity].
    unfold vt_message in Hm. rewrite !andb_true_iff in Hm. destruct Hm as ((((Hm & _) & _) & _) & _). apply existsb_exists in Hm as (x & Hx & Hxe).
    apply Z.eqb_eq in Hxe. subst x. exact Hx.
  - rewrite keypress_pushes by (auto; rewrite Hm; apply andb_false_r). rewrite told_pushes. eexists. split; [reflexivity|]. right.
    exists (vt_chars vk cp vks), vk, up, ks. rewrite He. reflexivity.
Qed.
Theorem vt_stroke {E} e t c : c_esc c = true -> (exists s k, t = TKey k /\ means_key s k) \/ (exists cp alt, t = TChar cp alt /\ scalar cp) ->
  exists c' out, @applyTok E e t c = Ok c' /\ told c' = told c ++ out /\ vt_shape e out.
Proof.
  intros He [(s & k & -> & M)|(cp & alt & -> & S)]; cbn [applyTok].
  - pose proof (means_scalar _ _ M) as S. eexists. unfold appendMatch.
    edestruct (vt_press e c (virtualKey k)) as (out & H1 & H2); [| | |exact He|exists out; split; [reflexivity|split; [exact H1|exact H2]]].
    + match goal with |- scalar (if ?b then _ else _) => destruct b end; [exact scalar_0|exact S].
    + repeat match goal with |- scalar (if ?b then _ else _) => destruct b end; try exact scalar_0; exact S.
    + exact S.
  - destruct (char_scalars e cp alt S) as (Sd & Su). rewrite charpress_shape.
    destruct (vt_press e c (layout_key e cp) (char_dn e cp alt) (char_up cp alt) (char_ks e cp alt) cp (if alt then LEFT_ALT_PRESSED else 0) Sd Su S He) as (out & H1 & H2). eexists. exists out. split; [reflexivity|auto].
Qed.

(** *** Re-encoding *)
Definition keq a b := (virtualKey a =? virtualKey b) && (unicodeChar a =? unicodeChar b) && (keyState a =? keyState b).
Lemma keq_eq a b : keq a b = true -> a = b.
Proof. unfold keq. destruct a, b; cbn. intros H. f_equal; lia. Qed.
Definition reencodes (x : encoding) : bool :=
  let '(_, n, m) := x in let k := press n m in let t := vt_chars (virtualKey k) (unicodeChar k) (keyState k) in
  if plain_key n then list_eqb t (if unicodeChar k =? 0 then [] else (if m_alt m then [27] else []) ++ [unicodeChar k])
  else (0 <? zlen t) && forallb (fun b => (0 <? b) && (b <? 256)) t && match @lookupKey unit droot t with Ok (l, k', _) => (l =? zlen t) && keq k k' | _ => false end.
Lemma documented_reencodes : forallb reencodes documented = true.
Proof. vm_compute. reflexivity. Qed.
Lemma vt_read_nested e ks chs vk up : vt_read (nested e 0 (wanted ks) (fun held =>
     map (down0 e) chs ++ units e false vk up (held + (if has ks ENHANCED_KEY then ENHANCED_KEY else 0)))) = filter (fun u => negb (u =? 0)) chs.
Proof.
  rewrite vt_read_chars. match goal with |- context [chars (nested e 0 ?ms ?bd)] => destruct (chars_nested e ms bd 0) as (h & ->) end.
  rewrite chars_app, chars_down0, chars_units, filter_app, map_app.
  assert (A : forall l : list Z, map snd (filter fst (map (pair true) l)) = l) by (induction l as [|x l IH]; cbn; [reflexivity|now rewrite IH]).
  assert (B : forall l : list Z, map snd (filter fst (map (pair false) l)) = []) by (induction l as [|x l IH]; cbn; [reflexivity|exact IH]).
  rewrite A, B. apply app_nil_r.
Qed.
Lemma reenc_told {E} e n m s c : In (s, n, m) documented -> c_esc c = true -> vt_message (virtualKey (press n m)) (keyState (press n m)) = false ->
  exists c' rs, @applyTok E e (TKey (press n m)) c = Ok c' /\ told c' = told c ++ map ORec rs /\
    vt_read rs = filter (fun u => negb (u =? 0)) (vt_chars (virtualKey (press n m)) (unicodeChar (press n m)) (keyState (press n m))).
Proof.
  intros Hi He Hm. assert (M : means_key s (press n m)) by (exists n, m; auto). cbn [applyTok]. eexists. eexists. split; [reflexivity|].
  rewrite match_pushes by (eauto using means_scalar; rewrite Hm; apply andb_false_r). rewrite told_pushes, He. split; [reflexivity|]. apply vt_read_nested.
Qed.
(** the documented sequences of the other keys: decoded again, they are the same key *)
Theorem reencoded {E} e n m s c : env_ok e -> In (s, n, m) documented -> plain_key n = false -> c_esc c = true ->
  (exists c', m = no_mods /\ message_key (vk_of n) /\
     @applyTok E e (TKey (press n m)) c = Ok c' /\ told c' = told c ++ messages e (vk_of n)) \/
  (exists c' rs, @applyTok E e (TKey (press n m)) c = Ok c' /\ told c' = told c ++ map ORec rs /\ means_key (vt_read rs) (press n m)).
Proof.
  intros EO Hi Hp He. destruct (vt_message (virtualKey (press n m)) (keyState (press n m))) eqn:Hm.
  - left. pose proof (message_told e c (virtualKey (press n m)) (key_dn (press n m)) (if has (keyState (press n m)) LEFT_ALT_PRESSED then 0 else key_dn (press n m)) (keyState (press n m)) (unicodeChar (press n m)) (keyState (press n m))) as H.
    rewrite He, Hm in H. specialize (H eq_refl). eexists. splits; [| |reflexivity|exact H].
    + cbn [press keyState] in Hm. destruct m as [sh al ct]. cbn [m_shift m_alt m_ctrl] in *. destruct sh, al, ct, (enhanced n); try reflexivity;
      unfold vt_message in Hm; match type of Hm with _ && negb (has ?a _) && _ && _ && _ = _ => let v := eval vm_compute in a in change a with v in Hm end; cbn in Hm; rewrite ?andb_false_r in Hm; discriminate.
    + unfold vt_message in Hm. rewrite !andb_true_iff in Hm. destruct Hm as ((((Hm & _) & _) & _) & _). apply existsb_exists in Hm as (x & Hx & Hxe).
      apply Z.eqb_eq in Hxe. cbn [press virtualKey] in Hxe. subst x. exact Hx.
  - right. destruct (@reenc_told E e n m s c Hi He Hm) as (c' & rs & H1 & H2 & H3). exists c', rs. splits; auto. rewrite H3.
    pose proof documented_reencodes as HR. rewrite forallb_forall in HR. specialize (HR _ Hi). unfold reencodes in HR. rewrite Hp in HR. set (t := vt_chars _ _ _) in *. clearbody t.
    apply andb_true_iff in HR as (HR & HL). apply andb_true_iff in HR as (Hz & HB).
    assert (Hf : filter (fun u => negb (u =? 0)) t = t).
    { clear - HB. induction t as [|x t IH]; [reflexivity|]. cbn [forallb] in HB. apply andb_true_iff in HB as (Hx & HB). cbn [filter]. replace (x =? 0) with false by lia. cbn [negb]. now rewrite IH. }
    rewrite Hf. assert (Hb : bytes t). { apply Forall_forall. intros x Hx. rewrite forallb_forall in HB. specialize (HB _ Hx). lia. }
    destruct (@lookupKey unit droot t) as [[[l k'] inc]| | | |] eqn:L; try discriminate. apply andb_true_iff in HL as (Hl & Hk). apply keq_eq in Hk.
    destruct (@look_poly e EO unit t _ _ _ Hb ltac:(rewrite (e_root_eq e EO); exact L)) as (_ & D). apply Z.eqb_eq in Hl.
    pose proof (dlook_means e EO _ _ _ _ Hb D ltac:(lia)) as M. rewrite zfirstn_all in M by lia. rewrite Hk. exact M.
Qed.
Theorem reencoded_plain {E} e n m s c : In (s, n, m) documented -> plain_key n = true -> c_esc c = true ->
  exists c' rs, @applyTok E e (TKey (press n m)) c = Ok c' /\ told c' = told c ++ map ORec rs /\
    vt_read rs = if char_of n m =? 0 then [] else (if m_alt m then [27] else []) ++ [char_of n m].
Proof.
  intros Hi Hp He. assert (Hm : vt_message (virtualKey (press n m)) (keyState (press n m)) = false) by (unfold vt_message; destruct n; try discriminate; reflexivity).
  destruct (@reenc_told E e n m s c Hi He Hm) as (c' & rs & H1 & H2 & H3). exists c', rs. splits; auto. rewrite H3.
  pose proof documented_reencodes as HR. rewrite forallb_forall in HR. specialize (HR _ Hi). unfold reencodes in HR. rewrite Hp in HR. apply list_eqb_eq in HR. rewrite HR.
  cbn [press unicodeChar]. destruct (Z.eqb_spec (char_of n m) 0) as [H0|H0]; [reflexivity|]. destruct (m_alt m); cbn [app filter]; replace (char_of n m =? 0) with false by lia; reflexivity.
Qed.
Theorem delivered {E} e now s k c : env_ok e -> reachable c -> c_queue c = [] -> means_key s k ->
  ~ shadowed (processed e) s ->
  exists c' c1, @writeInput E e now s c = Ok c' /\ c_queue c' = [] /\ @applyTok E e (TKey k) c = Ok c1 /\ received (c_log c') = told c1.
Proof.
  intros EO R Hq M NS. destruct (@write_key E e now s k c EO R Hq M NS) as (c' & H1 & H2 & H3). exists c', (appendMatch e c k). splits; auto.
Qed.
