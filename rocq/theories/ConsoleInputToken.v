(** One step of scanInput, separated into what the bytes are (which does not depend on the
    object's state) and what is done about it. *)
From Verif Require Import Base BaseLemmas Text Unicode UnicodeSpec UnicodeProofs InputMap InputMapSpec InputMapProofs
  DefaultInputMap DefaultInputMapSpec DefaultInputMapProofs ConsoleInput ConsoleInputSpec ConsoleInputScan.
Ltac Zify.zify_post_hook ::= Z.div_mod_to_equations.
Ltac splits := repeat match goal with |- _ /\ _ => split end.

Inductive cls := CMore | CUB | CTok (n : Z) (t : tok).

Definition charTok (cp : Z) (alt : bool) : tok := if cp =? kInvalid then TInvalid else TChar cp alt.
Definition classText (input : list Z) : cls :=
  match input with
  | [] => CUB
  | b :: _ =>
      if announced b =? 0 then CTok 1 TInvalid
      else if zlen input <? announced b then CMore
      else match @decodeUtf8 unit input with Ok cp => CTok (announced b) (charTok cp false) | _ => CUB end
  end.
Definition classAlt (input : list Z) : cls :=
  match input with
  | b :: (b1 :: _) as t =>
      if (b =? 27) && negb (b1 =? 27) && (0 <? announced b1) then
        if zlen t <? announced b1 then CMore
        else match @decodeUtf8 unit t with Ok cp => CTok (1 + announced b1) (charTok cp true) | _ => CUB end
      else classText input
  | _ => classText input
  end.
Definition classTable (e : env) (input : list Z) (eof : bool) : cls :=
  match @lookupKey unit (e_root e) input with
  | Ok (n, k, inc) => if negb eof && inc then CMore else if 0 <? n then CTok n (TKey k) else classAlt input
  | _ => CUB
  end.
Definition processed (e : env) : bool := has (e_mode e) ENABLE_PROCESSED_INPUT.
Definition classify (e : env) (input : list Z) (eof : bool) : cls :=
  match input with
  | [] => CUB
  | b :: _ =>
      if (b =? 3) && processed e then CTok 1 TCtrlC
      else if b =? 27 then
        match matchDsr e input with
        | PUB => CUB
        | Got _ l => CTok (mlen input l) TDsr
        | m =>
            if match m with More => negb eof | _ => false end then CMore
            else match matchMouseRecord e input with
                 | PUB => CUB
                 | Got r l => CTok (mlen input l) (TMouse r)
                 | m => if match m with More => negb eof | _ => false end then CMore else classTable e input eof
                 end
        end
      else classTable e input eof
  end.

Lemma zlen_pos {A} (l : list A) : l <> [] -> 1 <= zlen l.
Proof. destruct l; [congruence|]. intros _. rewrite zlen_cons. pose proof (zlen_nonneg l). lia. Qed.
Lemma classify_cons e input b t eof : input = b :: t -> classify e input eof =
      if (b =? 3) && processed e then CTok 1 TCtrlC
      else if b =? 27 then
        match matchDsr e input with
        | PUB => CUB
        | Got _ l => CTok (mlen input l) TDsr
        | m =>
            if match m with More => negb eof | _ => false end then CMore
            else match matchMouseRecord e input with
                 | PUB => CUB
                 | Got r l => CTok (mlen input l) (TMouse r)
                 | m => if match m with More => negb eof | _ => false end then CMore else classTable e input eof
                 end
        end
      else classTable e input eof.
Proof. intros ->. reflexivity. Qed.

Section S.
Variable e : env.
Hypothesis EO : env_ok e.

Lemma e_root_eq : e_root e = droot.
Proof. destruct EO as (H & _). pose proof (eq_trans (eq_sym H) (eq_trans add_eq droot_eq)) as H1. exact (Ok_inj _ _ H1). Qed.
Lemma dig_ok : forall c, e_digit e c = false.
Proof. apply EO. Qed.

Definition dlook (input : list Z) n k inc : Prop :=
  longest_match calls input n k /\ (inc = true <-> exists s k', In (s, k') calls /\ proper_prefix input s).
Lemma look {E} input : bytes input -> exists n k inc, @lookupKey E (e_root e) input = Ok (n, k, inc) /\ dlook input n k inc.
Proof.
  intros Hb. destruct (@lookup_correct E calls input calls_ok Hb) as (r & n & k & i & S & L & M & I).
  pose proof (Ok_inj _ _ (eq_trans (eq_sym S) droot_eq)) as Hr. subst r. rewrite e_root_eq. exists n, k, i. split; [exact L|]. split; assumption.
Qed.
Lemma look_poly {E} input n k inc : bytes input -> @lookupKey unit (e_root e) input = Ok (n, k, inc) -> @lookupKey E (e_root e) input = Ok (n, k, inc) /\ dlook input n k inc.
Proof.
  intros Hb H. split; [exact (lookup_poly _ _ _ _ _ _ H)|]. destruct (@look unit input Hb) as (n' & k' & i' & H' & D).
  assert (n = n' /\ k = k' /\ inc = i') as (-> & -> & ->) by (splits; congruence). exact D.
Qed.
Lemma dlook_det input n k inc n' k' inc' : dlook input n k inc -> dlook input n' k' inc' -> n = n' /\ k = k' /\ inc = inc'.
Proof.
  intros (L1 & I1) (L2 & I2). destruct (longest_unique calls calls _ _ _ _ _ (fun _ => eq_refl) L1 L2) as (-> & ->).
  splits; auto. destruct inc, inc'; auto.
  - exfalso. assert (false = true) by (apply I2, I1; reflexivity). discriminate.
  - exfalso. assert (false = true) by (apply I1, I2; reflexivity). discriminate.
Qed.
Lemma dlook_stable input n k Q : dlook input n k false -> dlook (input ++ Q) n k false.
Proof.
  intros (L & I).
  assert (No : forall s' k', In (s', k') calls -> ~ proper_prefix input s').
  { intros s' k' Hi Hpp. assert (false = true) by (apply I; eauto). discriminate. }
  pose proof (zlen_nonneg Q). destruct L as (B & Z0 & K & M). split; [unfold longest_match; splits|].
  - lia.
  - rewrite zlen_app. lia.
  - exact Z0.
  - intros Hn. rewrite zfirstn_app_le by lia. auto.
  - intros m k' Hm Ha. destruct (Z_le_gt_dec m (zlen input)) as [Hle|Hgt].
    + rewrite zfirstn_app_le in Ha by lia. eapply M; [|exact Ha]. lia.
    + exfalso. apply assigned_in in Ha. apply (No _ _ Ha). exists (zfirstn (m - zlen input) Q). split.
      * intros Hn. apply (f_equal zlen) in Hn. rewrite zlen_zfirstn in Hn. change (zlen (@nil Z)) with 0 in Hn. rewrite zlen_app in Hm. lia.
      * unfold zfirstn, zlen in *. rewrite firstn_app. f_equal; [apply firstn_all2; lia|f_equal; lia].
  - split; [discriminate|]. intros (s' & k' & Hi & c & Hc & ->). exfalso. apply (No _ _ Hi).
    exists (Q ++ c). split; [|now rewrite app_assoc]. intros Hn. apply app_eq_nil in Hn as (_ & Hn). contradiction.
Qed.
Lemma dlook_means input n k inc : bytes input -> dlook input n k inc -> 0 < n -> means_key (zfirstn n input) k.
Proof.
  intros Hb D Hn. destruct (@default_only unit input Hb) as (root & n' & k' & inc' & R & L & B & M).
  assert (root = e_root e) by (rewrite e_root_eq; exact (Ok_inj _ _ (eq_trans (eq_sym R) (eq_trans add_eq droot_eq)))). subst root.
  destruct (look_poly (E := unit) _ _ _ _ Hb L) as (_ & D'). destruct (dlook_det _ _ _ _ _ _ _ D D') as (-> & -> & _). auto.
Qed.

Lemma decode_poly {E E'} l c : @decodeUtf8 E l = Ok c -> @decodeUtf8 E' l = Ok c.
Proof.
  unfold decodeUtf8, ld. destruct (znth l 0) as [b|]; cbn [bind]; [|discriminate].
  destruct (_ =? 1); [congruence|]. destruct (_ =? 2).
  { destruct (znth l 1); cbn [bind]; [|discriminate]. destruct (negb _); congruence. }
  destruct (_ =? 3).
  { destruct (znth l 1); cbn [bind]; [|discriminate]. destruct (negb _); [congruence|]. destruct (znth l 2); cbn [bind]; [|discriminate]. destruct (negb _); congruence. }
  destruct (_ =? 4); [|congruence].
  destruct (znth l 1); cbn [bind]; [|discriminate]. destruct (negb _); [congruence|]. destruct (znth l 2); cbn [bind]; [|discriminate]. destruct (negb _); [congruence|].
  destruct (znth l 3); cbn [bind]; [|discriminate]. destruct (negb _); congruence.
Qed.

(** The text of a character token. *)
Lemma announced_le b : 0 <= announced b <= 4.
Proof. unfold announced. repeat match goal with |- context [if ?x then _ else _] => destruct x end; lia. Qed.
Lemma first_form c rest n b t : b :: t = utf8_form c ++ rest -> scalar c -> n = announced b -> zfirstn n (b :: t) = utf8_form c /\ n = zlen (utf8_form c).
Proof.
  intros H Hs ->. assert (Hz : znth (utf8_form c) 0 = Some b).
  { assert (znth (utf8_form c ++ rest) 0 = Some b) as Hz by (rewrite <- H; apply znth_0). rewrite znth_app_l in Hz; [exact Hz|].
    unfold utf8_form. repeat match goal with |- context [if ?x then _ else _] => destruct x end; reflexivity. }
  pose proof (form_lead _ _ Hs Hz) as L. split; [|exact L]. rewrite H. apply zfirstn_app_exact. exact L.
Qed.
Lemma chartok_spec b t cp : bytes (b :: t) -> announced b <> 0 -> announced b <= zlen (b :: t) ->
  @decodeUtf8 unit (b :: t) = Ok cp ->
  (cp <> kInvalid /\ scalar cp /\ zfirstn (announced b) (b :: t) = utf8_form cp) \/
  (cp = kInvalid /\ exists t', zfirstn (announced b) (b :: t) = b :: t' /\ announced b = zlen (b :: t') /\ forall c, scalar c -> utf8_form c <> b :: t').
Proof.
  intros Hb Ha Hl Hd. destruct (Z.eq_dec cp kInvalid) as [->|Hn].
  - right. split; [reflexivity|]. pose proof (announced_le b).
    assert (exists t', zfirstn (announced b) (b :: t) = b :: t') as (t' & Ht).
    { unfold zfirstn. destruct (Z.to_nat (announced b)) eqn:E; [lia|]. cbn. eauto. }
    exists t'. split; [exact Ht|]. split.
    { rewrite <- Ht, zlen_zfirstn. lia. }
    intros c Hc Hf. assert (b :: t = utf8_form c ++ zskipn (announced b) (b :: t)) as Hs by (rewrite Hf, <- Ht; now rewrite zfirstn_zskipn).
    assert (Hbr : bytes (zskipn (announced b) (b :: t))) by (rewrite Hs in Hb; now apply bytes_app in Hb).
    rewrite Hs in Hd. rewrite (decode_form c _ Hc Hbr) in Hd. assert (c = kInvalid) by congruence. subst c. destruct Hc as (Hc & _). unfold kInvalid in Hc. lia.
  - left. destruct (decode_sound _ _ Hb Hd Hn) as (Hs & rest & Hr). splits; auto. apply (first_form _ _ _ _ _ Hr Hs eq_refl).
Qed.

Lemma partial_recog pre b t : bytes (b :: t) -> pre = [] \/ pre = [27] -> zlen (b :: t) < announced b ->
  exists c, c <> [] /\ bytes c /\ recognisable (pre ++ (b :: t) ++ c).
Proof.
  intros Hb Hp Hl. exists (zrepeat 128 (announced b - zlen (b :: t))). splits.
  - intros H. apply (f_equal zlen) in H. rewrite zlen_repeat in H. change (zlen (@nil Z)) with 0 in H. lia.
  - apply Forall_forall. intros x Hx. apply repeat_spec in Hx. lia.
  - assert (announced b = zlen (b :: t ++ zrepeat 128 (announced b - zlen (b :: t)))) as Hz by (rewrite !zlen_cons, zlen_app, zlen_repeat in *; lia).
    destruct Hp as [-> | ->]; cbn [app]; [now apply rc_char|now apply rc_altchar].
Qed.

Definition tok_ok (p : bool) (input : list Z) (n : Z) (t : tok) : Prop := 1 <= n <= zlen input /\ token p (zfirstn n input) t.

Lemma classText_spec p input : bytes input -> input <> [] ->
  match classText input with
  | CUB => False
  | CMore => utf8_partial input
  | CTok n t => tok_ok p input n t /\ forall Q, bytes Q -> classText (input ++ Q) = CTok n t
  end.
Proof.
  intros Hb Hn. destruct input as [|b t]; [congruence|]. cbn [classText app]. pose proof (announced_le b). pose proof (zlen_nonneg t).
  destruct (Z.eqb_spec (announced b) 0) as [Hz|Hz].
  - split; [|reflexivity]. split; [rewrite zlen_cons; lia|]. change (zfirstn 1 (b :: t)) with [b]. now apply tk_badbyte.
  - destruct (Z.ltb_spec (zlen (b :: t)) (announced b)) as [Hl|Hl].
    + exists [], b, t. auto.
    + destruct (@decode_local unit b t [] Hb (Forall_nil _) Hl) as (_ & cp & Hcp). rewrite Hcp. split.
      * split; [lia|]. unfold charTok. destruct (chartok_spec b t cp Hb Hz Hl Hcp) as [(Hk & Hs & Hf)|(-> & t' & Ht & Hl' & Hno)].
        -- replace (cp =? kInvalid) with false by lia. rewrite Hf. now apply tk_char.
        -- change (kInvalid =? kInvalid) with true. cbv iota. rewrite Ht. now apply tk_bad.
      * intros Q HQ. destruct (@decode_local unit b t Q Hb HQ Hl) as (-> & _). rewrite Hcp.
        replace (zlen (b :: t ++ Q) <? announced b) with false; [reflexivity|]. pose proof (zlen_nonneg Q). rewrite zlen_cons, zlen_app in *. lia.
Qed.

Lemma classAlt_spec p input : bytes input -> input <> [] ->
  match classAlt input with
  | CUB => False
  | CMore => utf8_partial input
  | CTok n t => tok_ok p input n t /\ (input <> [27] -> forall Q, bytes Q -> classAlt (input ++ Q) = CTok n t)
  end.
Proof.
  intros Hb Hn. destruct input as [|b [|b1 t]]; [congruence| |].
  - pose proof (classText_spec p [b] Hb Hn) as H. cbn [classAlt]. destruct (classText [b]) as [| |n k] eqn:Ec; auto.
    destruct H as (H1 & H2). split; [exact H1|]. intros Hne Q HQ. specialize (H2 Q HQ). cbn [app] in *. destruct Q as [|q Q]; [exact Ec|].
    cbn [classAlt]. replace (b =? 27) with false; [exact H2|]. destruct (Z.eqb_spec b 27); congruence.
  - cbn [classAlt app]. destruct ((b =? 27) && negb (b1 =? 27) && (0 <? announced b1)) eqn:Ec.
    + assert (b = 27) by lia. subst b. assert (Hb' := Hb). apply bytes_cons in Hb' as (_ & Hb1). pose proof (announced_le b1). pose proof (zlen_nonneg t).
      destruct (Z.ltb_spec (zlen (b1 :: t)) (announced b1)) as [Hl|Hl].
      * exists [27], b1, t. auto.
      * destruct (@decode_local unit b1 t [] Hb1 (Forall_nil _) Hl) as (_ & cp & Hcp). rewrite Hcp.
        assert (Hz : announced b1 <> 0) by lia.
        assert (Hf1 : zfirstn (1 + announced b1) (27 :: b1 :: t) = 27 :: zfirstn (announced b1) (b1 :: t)).
        { unfold zfirstn. replace (Z.to_nat (1 + announced b1)) with (S (Z.to_nat (announced b1))) by lia. reflexivity. }
        split.
        -- split; [rewrite (zlen_cons 27); lia|]. rewrite Hf1. unfold charTok.
           destruct (chartok_spec b1 t cp Hb1 Hz Hl Hcp) as [(Hk & Hs & Hf)|(-> & t' & Ht & Hl' & Hno)].
           ++ replace (cp =? kInvalid) with false by lia. rewrite Hf. now apply tk_altchar.
           ++ change (kInvalid =? kInvalid) with true. cbv iota. rewrite Ht. now apply tk_altbad.
        -- intros _ Q HQ. destruct (@decode_local unit b1 t Q Hb1 HQ Hl) as (-> & _). rewrite Hcp.
           replace (zlen (b1 :: t ++ Q) <? announced b1) with false; [reflexivity|]. pose proof (zlen_nonneg Q). rewrite zlen_cons, zlen_app in *. lia.
    + pose proof (classText_spec p (b :: b1 :: t) Hb Hn) as H. destruct (classText (b :: b1 :: t)) as [| |n k]; auto.
      destruct H as (H1 & H2). split; [exact H1|]. intros _ Q HQ. exact (H2 Q HQ).
Qed.

Lemma classTable_spec p input eof : bytes input -> input <> [] ->
  match classTable e input eof with
  | CUB => False
  | CMore => utf8_partial input \/ (eof = false /\ exists c k, c <> [] /\ bytes c /\ means_key (input ++ c) k)
  | CTok n t => tok_ok p input n t /\ (input <> [27] -> eof = false -> forall Q, bytes Q -> classTable e (input ++ Q) eof = CTok n t)
  end.
Proof.
  intros Hb Hn. unfold classTable. destruct (@look unit input Hb) as (n & k & inc & L & D). rewrite L.
  destruct (negb eof && inc) eqn:Ei.
  - right. split; [destruct eof; [discriminate|reflexivity]|]. assert (inc = true) by (destruct inc, eof; auto). subst inc.
    destruct D as (_ & I). destruct (proj1 I eq_refl) as (s & k' & Hi & c & Hc & ->).
    destruct (regs_bytes _ _ _ calls_ok Hi) as (Hne & Hbs). exists c.
    destruct (found_lookup _ _ _ _ calls_found Hi) as (L2 & IK).
    destruct (@look_poly unit (input ++ c) _ _ _ Hbs ltac:(rewrite e_root_eq; exact L2)) as (_ & D2).
    pose proof (zlen_pos _ Hne) as Hp. pose proof (dlook_means _ _ _ _ Hbs D2 ltac:(lia)) as M. rewrite zfirstn_all in M by lia.
    exists k'. splits; auto. apply bytes_app in Hbs. apply Hbs.
  - assert (St : eof = false -> forall Q, bytes Q -> @lookupKey unit (e_root e) (input ++ Q) = Ok (n, k, false)).
    { intros -> Q HQ. cbn in Ei. subst inc. assert (HbQ : bytes (input ++ Q)) by (apply bytes_app; auto).
      destruct (@look unit (input ++ Q) HbQ) as (n' & k' & inc' & L' & D'). rewrite L'.
      destruct (dlook_det _ _ _ _ _ _ _ D' (dlook_stable _ _ _ Q D)) as (-> & -> & ->). reflexivity. }
    destruct (Z.ltb_spec 0 n) as [Hp|Hz].
    + split.
      * pose proof D as ((B & _) & _). split; [lia|]. apply tk_key. exact (dlook_means _ _ _ _ Hb D Hp).
      * intros _ He Q HQ. rewrite (St He Q HQ). rewrite andb_false_r. cbv iota. replace (0 <? n) with true by lia. reflexivity.
    + pose proof (classAlt_spec p input Hb Hn) as H. destruct (classAlt input) as [| |n' t']; auto.
      destruct H as (H1 & H2). split; [exact H1|]. intros Hne He Q HQ. rewrite (St He Q HQ). rewrite andb_false_r. cbv iota.
      replace (0 <? n) with false by lia. auto.
Qed.

Theorem classify_spec input eof : bytes input -> input <> [] ->
  match classify e input eof with
  | CUB => False
  | CMore => (exists c, c <> [] /\ bytes c /\ recognisable (input ++ c)) /\ (eof = true -> utf8_partial input)
  | CTok n t => tok_ok (processed e) input n t /\ (eof = false -> forall Q, bytes Q -> classify e (input ++ Q) false = CTok n t)
  end.
Proof.
  intros Hb Hn. destruct input as [|b t0] eqn:Ein; [congruence|]. rewrite <- Ein in *. rewrite (classify_cons e input b t0 eof Ein).
  assert (Hap : forall Q, input ++ Q = b :: (t0 ++ Q)) by (intros Q; rewrite Ein; reflexivity).
  destruct ((b =? 3) && processed e) eqn:E3.
  { assert (b = 3 /\ processed e = true) as (-> & Hp) by (destruct (Z.eqb_spec b 3); auto; discriminate). split.
    - split; [rewrite Ein, zlen_cons; pose proof (zlen_nonneg t0); lia|]. rewrite Ein. change (zfirstn 1 (3 :: t0)) with [3]. now apply tk_ctrlc.
    - intros _ Q HQ. rewrite Hap. unfold classify. rewrite Hp. reflexivity. }
  assert (Tab : (b = 27 -> eof = false -> input <> [27]) -> forall (St : b = 27 -> eof = false -> forall Q, bytes Q -> classify e (input ++ Q) false = classTable e (input ++ Q) false),
    match classTable e input eof with
    | CUB => False
    | CMore => (exists c, c <> [] /\ bytes c /\ recognisable (input ++ c)) /\ (eof = true -> utf8_partial input)
    | CTok n t => tok_ok (processed e) input n t /\ (eof = false -> forall Q, bytes Q -> classify e (input ++ Q) false = CTok n t)
    end).
  { intros H27 St. pose proof (classTable_spec (processed e) input eof Hb Hn) as H. destruct (classTable e input eof) as [| |n t]; auto.
    - destruct H as [H|(He & c & k & Hc & Hbc & M)].
      + split; [|auto]. destruct H as (pre & b' & t' & Hi & Hp & Hl). rewrite Hi in Hb. apply bytes_app in Hb as (_ & Hb').
        destruct (partial_recog pre b' t' Hb' Hp Hl) as (c & Hc & Hbc & R). exists c. splits; auto. rewrite Hi, <- app_assoc. exact R.
      + split; [|congruence]. exists c. splits; auto. exact (rc_key _ _ M).
    - destruct H as (H1 & H2). split; [exact H1|]. intros He Q HQ. subst eof.
      destruct (Z.eq_dec b 27) as [Hb27|Hb27].
      + rewrite (St Hb27 eq_refl Q HQ). apply H2; auto.
      + rewrite <- (H2 ltac:(rewrite Ein; congruence) eq_refl Q HQ). unfold classify. rewrite Hap. rewrite E3. replace (b =? 27) with false by lia. reflexivity. }
  destruct (Z.eqb_spec b 27) as [->|Hb27].
  2:{ apply Tab; [intros; congruence|intros; congruence]. }
  pose proof (dsr_fin e dig_ok input Hb Hn) as FD. pose proof (mouse_fin e dig_ok input Hb Hn) as FM.
  assert (Cl : forall Q, classify e (input ++ Q) false =
    match matchDsr e (input ++ Q) with PUB => CUB | Got _ l => CTok (mlen (input ++ Q) l) TDsr
    | m => if match m with More => negb false | _ => false end then CMore
           else match matchMouseRecord e (input ++ Q) with PUB => CUB | Got r l => CTok (mlen (input ++ Q) l) (TMouse r)
                | m => if match m with More => negb false | _ => false end then CMore else classTable e (input ++ Q) false end end).
  { intros Q. unfold classify. rewrite Hap. reflexivity. }
  assert (N27 : matchDsr e input = Fail -> input <> [27]).
  { intros H Hi. rewrite Hi in H. vm_compute in H. discriminate. }
  assert (Mid : (matchDsr e input = Fail \/ (matchDsr e input = More /\ eof = true)) ->
    match match matchMouseRecord e input with PUB => CUB | Got r l => CTok (mlen input l) (TMouse r)
          | m => if match m with More => negb eof | _ => false end then CMore else classTable e input eof end with
    | CUB => False
    | CMore => (exists c, c <> [] /\ bytes c /\ recognisable (input ++ c)) /\ (eof = true -> utf8_partial input)
    | CTok n t => tok_ok (processed e) input n t /\ (eof = false -> forall Q, bytes Q -> classify e (input ++ Q) false = CTok n t)
    end).
  { intros HD. assert (HDf : eof = false -> matchDsr e input = Fail) by (intros He; destruct HD as [HD|(_ & HD)]; [exact HD|congruence]).
    destruct (matchMouseRecord e input) as [| | |r l].
    - apply Tab; [intros _ He; apply N27; auto|]. intros _ He Q HQ. rewrite Cl. rewrite (HDf He) in FD. rewrite (FD Q HQ), (FM Q HQ). reflexivity.
    - destruct eof; cbn [negb].
      + apply Tab; congruence.
      + split; [|congruence]. destruct FM as (c & a & Hc & Hbc & M). exists c. splits; auto. exact (rc_mouse _ _ M).
    - contradiction.
    - destruct FM as (p & x & t & Hi & -> & M & St). 
      assert (ML : forall Q, mlen (input ++ Q) ((x :: t) ++ Q) = zlen (p ++ [x])).
      { intros Q. unfold mlen. rewrite Hi, !zlen_app, !zlen_cons. change (zlen (@nil Z)) with 0. lia. }
      assert (ML0 : mlen input (x :: t) = zlen (p ++ [x])) by (specialize (ML []); rewrite !app_nil_r in ML; exact ML).
      rewrite ML0. split.
      + assert (Hi2 : input = (p ++ [x]) ++ t) by (rewrite Hi, <- app_assoc; reflexivity). split.
        * pose proof (zlen_nonneg p). pose proof (zlen_nonneg t). rewrite Hi2, !zlen_app, zlen_cons. change (zlen (@nil Z)) with 0. lia.
        * rewrite Hi2, zfirstn_app_exact by reflexivity. now apply tk_mouse.
      + intros He Q HQ. rewrite Cl. rewrite (HDf He) in FD. rewrite (FD Q HQ), (St Q HQ), ML. reflexivity. }
  destruct (matchDsr e input) as [| | |u l] eqn:ED.
  - apply Mid. auto.
  - destruct eof; cbn [negb].
    + apply Mid. auto.
    + split; [|congruence]. destruct FD as (c & a & Hc & Hbc & M). exists c. splits; auto. exact (rc_dsr _ M).
  - contradiction.
  - destruct FD as (p & x & t & Hi & -> & M & St).
    assert (ML : forall Q, mlen (input ++ Q) ((x :: t) ++ Q) = zlen (p ++ [x])).
    { intros Q. unfold mlen. rewrite Hi, !zlen_app, !zlen_cons. change (zlen (@nil Z)) with 0. lia. }
    assert (ML0 : mlen input (x :: t) = zlen (p ++ [x])) by (specialize (ML []); rewrite !app_nil_r in ML; exact ML).
    rewrite ML0. split.
    + assert (Hi2 : input = (p ++ [x]) ++ t) by (rewrite Hi, <- app_assoc; reflexivity). split.
      * pose proof (zlen_nonneg p). pose proof (zlen_nonneg t). rewrite Hi2, !zlen_app, zlen_cons. change (zlen (@nil Z)) with 0. lia.
      * rewrite Hi2, zfirstn_app_exact by reflexivity. now apply tk_dsr.
    + intros He Q HQ. rewrite Cl. rewrite (St Q HQ), ML. reflexivity.
Qed.

(** *** scanInput is classify followed by the token's action *)
Lemma appendUtf8_tok {E} c buf cp alt : @decodeUtf8 unit buf = Ok cp -> @appendUtf8Char E e c buf alt = applyTok e (charTok cp alt) c.
Proof. intros H. unfold appendUtf8Char. rewrite (decode_poly _ _ H). cbn [bind]. unfold charTok. destruct (cp =? kInvalid); reflexivity. Qed.

Definition outcome {E} (c : ci) (k : cls) : res E (Z * ci) :=
  match k with CUB => UB | CMore => Ok (-1, c) | CTok n t => let! c := applyTok e t c in Ok (n, c) end.
Lemma scanText_eq {E} c input : bytes input -> input <> [] -> @scanText E e c input (zlen input) = outcome c (classText input).
Proof.
  intros Hb Hn. pose proof (classText_spec false input Hb Hn) as Sp. destruct input as [|b t]; [congruence|]. apply bytes_cons in Hb as (Hb0 & _).
  unfold scanText, ld. rewrite znth_0. cbn [bind]. rewrite charLength_announced by lia.
  cbn [classText] in *. destruct (announced b =? 0); [reflexivity|]. destruct (zlen (b :: t) <? announced b); [reflexivity|].
  destruct (@decodeUtf8 unit (b :: t)) as [cp| | | |] eqn:Hd; try contradiction. rewrite (appendUtf8_tok _ _ _ _ Hd). reflexivity.
Qed.
Lemma scanAltText_eq {E} c input : bytes input -> input <> [] -> @scanAltText E e c input (zlen input) = outcome c (classAlt input).
Proof.
  intros Hb Hn. pose proof (classAlt_spec false input Hb Hn) as Sp. pose proof (@scanText_eq E c input Hb Hn) as ST.
  destruct input as [|b [|b1 t]]; [congruence| |].
  - unfold scanAltText, ld. rewrite znth_0. cbn [bind]. change (2 <=? zlen [b]) with false. rewrite andb_false_r. exact ST.
  - unfold scanAltText, ld. rewrite znth_0. cbn [bind].
    replace (2 <=? zlen (b :: b1 :: t)) with true by (rewrite !zlen_cons; pose proof (zlen_nonneg t); lia). rewrite andb_true_r.
    change (znth (b :: b1 :: t) 1) with (Some b1). cbn [bind]. apply bytes_cons in Hb as (_ & Hb1). apply bytes_cons in Hb1 as (Hb1 & _).
    rewrite charLength_announced by lia. cbn [classAlt] in *.
    destruct (b =? 27); cbn [andb] in *; [|exact ST]. destruct (b1 =? 27); cbn [negb andb] in *; [exact ST|].
    destruct (0 <? announced b1) eqn:Ha; [|exact ST]. replace (zlen (b :: b1 :: t) <? 1 + announced b1) with (zlen (b1 :: t) <? announced b1) by (rewrite (zlen_cons b); lia).
    destruct (zlen (b1 :: t) <? announced b1); [reflexivity|]. change (zskipn 1 (b :: b1 :: t)) with (b1 :: t).
    destruct (@decodeUtf8 unit (b1 :: t)) as [cp| | | |] eqn:Hd; try contradiction. rewrite (appendUtf8_tok _ _ _ _ Hd). reflexivity.
Qed.
Lemma scanTable_eq {E} c input eof : bytes input -> input <> [] -> @scanTable E e c input (zlen input) eof = outcome c (classTable e input eof).
Proof.
  intros Hb Hn. unfold scanTable, classTable. destruct (@look unit input Hb) as (n & k & inc & L & D). rewrite L.
  destruct (@look_poly E input _ _ _ Hb L) as (-> & _). cbn [bind]. destruct (negb eof && inc); [reflexivity|].
  destruct (0 <? n); [reflexivity|]. now apply scanAltText_eq.
Qed.
Lemma mlen_pos {A} (m : list Z -> pr A) L input a l : finishes m L -> bytes input -> input <> [] -> m input = Got a l -> 0 < mlen input l.
Proof.
  intros F Hb Hn Hg. specialize (F input Hb Hn). rewrite Hg in F. destruct F as (p & x & t & Hi & -> & _).
  unfold mlen. rewrite Hi, zlen_app. pose proof (zlen_nonneg p). lia.
Qed.
Theorem scanInput_eq {E} c input eof : bytes input -> input <> [] -> zlen input < 2 ^ 31 ->
  @scanInput E e c input eof = outcome c (classify e input eof).
Proof.
  intros Hb Hn Hl. unfold scanInput. assert (Hs : s32 (zlen input) = zlen input).
  { unfold s32. apply wraps_small; [lia|]. change (2 ^ (32 - 1)) with (2 ^ 31). pose proof (zlen_nonneg input). lia. }
  rewrite Hs. pose proof (zlen_pos _ Hn). replace (1 <=? zlen input) with true by lia. cbn [assert_ bind].
  assert (Hd : forall c, @scanTable E e c input (zlen input) eof = outcome c (classTable e input eof)) by (intros; now apply scanTable_eq).
  pose proof (classify_spec input eof Hb Hn) as Sp.
  pose proof (fun r l => mlen_pos _ _ input r l (mouse_fin e dig_ok) Hb Hn) as MP.
  destruct input as [|b t]; [congruence|]. unfold ld. rewrite znth_0. cbn [bind]. unfold classify in *. fold (processed e).
  destruct ((b =? 3) && processed e); [reflexivity|]. destruct (b =? 27); [|apply Hd].
  destruct (matchDsr e (b :: t)) as [| | |u l].
  - unfold scanMouseInput. destruct (matchMouseRecord e (b :: t)) as [| | |r l].
    + cbn [bind]. change ((0 <? 0) || (negb eof && (0 =? -1))) with (negb eof && false). rewrite andb_false_r. apply Hd.
    + cbn [bind]. destruct eof; cbn [negb] in *; [apply Hd|reflexivity].
    + contradiction.
    + specialize (MP r l eq_refl). cbn [outcome applyTok]. destruct (mouseEvent e c r) as [c'| | | |]; cbn [bind]; try reflexivity.
      replace (0 <? mlen (b :: t) l) with true by lia. reflexivity.
  - destruct eof; cbn [negb] in *; [|reflexivity].
    unfold scanMouseInput. destruct (matchMouseRecord e (b :: t)) as [| | |r l].
    + cbn [bind]. apply Hd.
    + cbn [bind]. apply Hd.
    + contradiction.
    + specialize (MP r l eq_refl). cbn [outcome applyTok]. destruct (mouseEvent e c r) as [c'| | | |]; cbn [bind]; try reflexivity.
      replace (0 <? mlen (b :: t) l) with true by lia. reflexivity.
  - contradiction.
  - reflexivity.
Qed.
End S.
