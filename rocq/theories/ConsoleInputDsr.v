(** Cursor-position replies (C14). *)
From Verif Require Import Base BaseLemmas Text Unicode UnicodeSpec UnicodeProofs InputMap InputMapSpec InputMapProofs
  DefaultInputMap DefaultInputMapSpec DefaultInputMapProofs ConsoleInput ConsoleInputSpec ConsoleInputScan ConsoleInputToken ConsoleInputRun ConsoleInputProofs.
Ltac Zify.zify_post_hook ::= Z.div_mod_to_equations.
Ltac splits := repeat match goal with |- _ /\ _ => split end.

(** *** Facts about the documented sequences, by computation *)
Definition isin (x : Z) (l : list Z) : bool := existsb (Z.eqb x) l.
Lemma isin_iff x l : isin x l = true <-> In x l.
Proof. unfold isin. rewrite existsb_exists. split; [intros (y & Hy & H); apply Z.eqb_eq in H; now subst|intros H; exists x; split; [exact H|apply Z.eqb_refl]]. Qed.
Definition seq_ok (s : list Z) : bool :=
  negb (isin 27 (skipn 2 s)) && negb (isin 82 (removelast s)) &&
  negb (let b := last s 0 in ((48 <=? b) && (b <=? 57)) || (b =? 59) || (b =? 91) || (b =? 27)) &&
  match s with [] => false | b :: t => ((b =? 27) || (b =? 127) || (b =? 3)) && match t with c :: _ => (b =? 27) | [] => true end end.
Lemma documented_ok : forallb (fun '(s, _, _) => seq_ok s) documented = true.
Proof. vm_compute. reflexivity. Qed.
Lemma key_ok s k : means_key s k ->
  ~ In 27 (skipn 2 s) /\ ~ In 82 (removelast s) /\ ~ 48 <= last s 0 <= 57 /\ last s 0 <> 59 /\ last s 0 <> 91 /\ last s 0 <> 27 /\
  exists b t, s = b :: t /\ (b = 27 \/ b = 127 \/ b = 3) /\ (t <> [] -> b = 27).
Proof.
  intros (name & m & Hi & _). pose proof documented_ok as H. rewrite forallb_forall in H. specialize (H _ Hi). cbn beta iota in H.
  unfold seq_ok in H. rewrite <- !isin_iff. destruct (isin 27 (skipn 2 s)); [discriminate|]. destruct (isin 82 (removelast s)); [discriminate|].
  cbn [negb andb] in H. apply andb_true_iff in H as (H1 & H2). splits; try discriminate; try lia.
  destruct s as [|b t]; [discriminate|]. exists b, t. splits; [reflexivity|lia|]. intros Hn. destruct t; [congruence|lia].
Qed.

(** *** ESC occurs only at the start of a report *)
Lemma digits_no x d : digits d -> ~ 48 <= x <= 57 -> ~ In x d.
Proof. intros (_ & F) Hx Hi. rewrite Forall_forall in F. specialize (F _ Hi). lia. Qed.
Lemma signed_no x s v : signed_num s v -> ~ 48 <= x <= 57 -> x <> 45 -> ~ In x s.
Proof. intros [d D|d D] Hx H45; [now apply digits_no|]. intros [H|H]; [lia|]. revert H. now apply digits_no. Qed.
Lemma notin_app (x : Z) a b : ~ In x a -> ~ In x b -> ~ In x (a ++ b).
Proof. intros Ha Hb H. apply in_app_or in H. tauto. Qed.
Lemma notin_cons (x y : Z) b : x <> y -> ~ In x b -> ~ In x (y :: b).
Proof. intros Ha Hb [H|H]; congruence. Qed.
Lemma dsr_no_esc s : dsr_reply s -> ~ In 27 (tl s).
Proof.
  intros (a & b & Da & Db & ->). cbn [app tl]. apply notin_cons; [lia|]. apply notin_app; [apply digits_no; [assumption|lia]|].
  apply notin_cons; [lia|]. apply notin_app; [apply digits_no; [assumption|lia]|]. apply notin_cons; [lia|intros []].
Qed.
Lemma mouse_no_esc s r : mouse_seq s r -> ~ In 27 (tl s) \/ exists t, s = 27 :: 91 :: 77 :: t.
Proof.
  intros [f x vx y vy c Df Dx Dy Hc|f x vx y vy Df Dx Dy|f x y Hb]; cbn [app tl].
  - left. assert (~ In 27 f) by (apply digits_no; [assumption|lia]). assert (~ In 27 x) by (eapply signed_no; eauto; lia). assert (~ In 27 y) by (eapply signed_no; eauto; lia).
    repeat first [apply notin_cons; [lia|] | apply notin_app; [assumption|]]. intros [].
  - left. assert (~ In 27 f) by (apply digits_no; [assumption|lia]). assert (~ In 27 x) by (eapply signed_no; eauto; lia). assert (~ In 27 y) by (eapply signed_no; eauto; lia).
    repeat first [apply notin_cons; [lia|] | apply notin_app; [assumption|]]. intros [].
  - right. eauto.
Qed.
Lemma prefix_inside s t x r : s ++ t = x ++ 27 :: r -> x <> [] -> ~ In 27 (tl s) -> exists u, x = s ++ u.
Proof.
  intros H Hx Hn. apply app_eq_app in H as (u & [(Hs & Hy)|(Hs & Hy)]); [|eauto].
  destruct u as [|z u].
  - exists []. now rewrite app_nil_r in *.
  - exfalso. apply Hn. cbn in Hy. injection Hy as <- _. subst s. destruct x as [|w x]; [congruence|]. cbn [app tl]. apply in_or_app. right. left. reflexivity.
Qed.

Section E.
Variable e : env.
Hypothesis EO : env_ok e.
Let dok := dig_ok e EO.

(** *** Completeness of the mouse matchers *)
Lemma scan_signed_all s v c Q : signed_num s v -> 0 <= c < 256 -> ~ 48 <= c <= 57 -> scan_signed e 8 (s ++ c :: Q) = Got v (c :: Q).
Proof.
  intros [d D|d D] Hc Hn.
  - destruct d as [|x d]; [destruct D as (D & _); cbn in D; lia|]. unfold scan_signed. cbn [app].
    assert (48 <= x <= 57) by (destruct D as (_ & F); now inversion F). change (ch "-") with 45. replace (x =? 45) with false by lia.
    change (x :: d ++ c :: Q) with ((x :: d) ++ c :: Q). now apply (scan_int_all e dok).
  - unfold scan_signed. cbn [app]. change (45 =? ch "-") with true. cbv iota. destruct d as [|x d]; [destruct D as (D & _); cbn in D; lia|].
    cbn [app advance pbind]. change (x :: d ++ c :: Q) with ((x :: d) ++ c :: Q). rewrite (scan_int_all e dok) by auto. reflexivity.
Qed.
Lemma checkAdv_no x y l : x <> y -> checkAdv x (y :: l) = Fail.
Proof. intros H. unfold checkAdv, pcheck. replace (x =? y) with false by lia. reflexivity. Qed.
Lemma digits_head d : digits d -> exists x t, d = x :: t /\ 48 <= x <= 57.
Proof. intros (L & F). destruct d as [|x t]; [cbn in L; lia|]. inversion F; subst. eauto. Qed.
Lemma signed_head s v : signed_num s v -> exists x t, s = x :: t.
Proof. intros [d D|d D]; [destruct (digits_head _ D) as (x & t & -> & _)|]; eauto. Qed.
Lemma adv_app x s Q : (exists y t, s = y :: t) -> checkAdv x (x :: s ++ Q) = Got tt (s ++ Q).
Proof. intros (y & t & ->). apply checkAdv_all. Qed.
Lemma mouse_complete s r : mouse_seq s r -> exists x, forall Q, matchMouseRecord e (s ++ Q) = Got r (x :: Q).
Proof.
  assert (S1 : 0 <= 59 < 256 /\ ~ 48 <= 59 <= 57) by lia.
  intros [f x vx y vy c Df Dx Dy Hc|f x vx y vy Df Dx Dy|f x y Hb].
  - exists c. intros Q. unfold matchMouseRecord. assert (matchMouse1006 e (([27; 91; 60] ++ f ++ [59] ++ x ++ [59] ++ y ++ [c]) ++ Q) = Got (mkMouse (c =? 109) (decval f) (s16 (vx - 1)) (s16 (vy - 1))) (c :: Q)) as ->; [|reflexivity].
    unfold matchMouse1006. change (ch "[") with 91. change (ch ";") with 59. change (ch "<") with 60. change (ch "M") with 77. change (ch "m") with 109.
    rewrite <- !app_assoc. cbn [app]. rewrite checkAdv_all. cbn [pbind]. rewrite checkAdv_all. cbn [pbind].
    destruct (digits_head _ Df) as (f0 & ft & Hf & _). rewrite adv_app by eauto. cbn [pbind].
    rewrite (scan_int_all e dok) by (auto; lia). cbn [pbind]. rewrite adv_app by (eapply signed_head; eauto). cbn [pbind].
    rewrite (scan_signed_all _ _ _ _ Dx) by lia. cbn [pbind]. rewrite adv_app by (eapply signed_head; eauto). cbn [pbind].
    rewrite (scan_signed_all _ _ _ _ Dy) by lia. cbn [pbind pcheck]. replace ((c =? 77) || (c =? 109)) with true by lia. reflexivity.
  - exists 77. intros Q. unfold matchMouseRecord. destruct (digits_head _ Df) as (f0 & ft & Hf & Hd).
    assert (matchMouse1006 e (([27; 91] ++ f ++ [59] ++ x ++ [59] ++ y ++ [77]) ++ Q) = Fail) as ->.
    { unfold matchMouse1006. rewrite Hf. change (ch "[") with 91. change (ch "<") with 60. rewrite <- !app_assoc. cbn [app].
      rewrite checkAdv_all. cbn [pbind]. rewrite checkAdv_all. cbn [pbind]. rewrite checkAdv_no by lia. reflexivity. }
    cbn [orElse].
    assert (matchMouse1015 e (([27; 91] ++ f ++ [59] ++ x ++ [59] ++ y ++ [77]) ++ Q) = Got (mkMouse false (decval f - 32) (s16 (vx - 1)) (s16 (vy - 1))) (77 :: Q)) as ->; [|reflexivity].
    unfold matchMouse1015. change (ch "[") with 91. change (ch ";") with 59. change (ch "M") with 77.
    rewrite <- !app_assoc. cbn [app]. rewrite checkAdv_all. cbn [pbind]. rewrite adv_app by eauto. cbn [pbind].
    rewrite (scan_int_all e dok) by (auto; lia). cbn [pbind]. rewrite adv_app by (eapply signed_head; eauto). cbn [pbind].
    rewrite (scan_signed_all _ _ _ _ Dx) by lia. cbn [pbind]. rewrite adv_app by (eapply signed_head; eauto). cbn [pbind].
    rewrite (scan_signed_all _ _ _ _ Dy) by lia. reflexivity.
  - exists y. intros Q. unfold matchMouseRecord. cbn [app].
    assert (matchMouse1006 e (27 :: 91 :: 77 :: f :: x :: y :: Q) = Fail) as -> by reflexivity. cbn [orElse].
    assert (matchMouse1015 e (27 :: 91 :: 77 :: f :: x :: y :: Q) = Fail) as -> by reflexivity. cbn [orElse].
    unfold matchMouseDefault. cbn. change 0xFF with 255. rewrite !(land255 e dok). reflexivity.
Qed.

Lemma reply_class r Q : dsr_reply r -> bytes r -> classify e (r ++ Q) false = CTok (zlen r) TDsr.
Proof.
  intros D Hb. pose proof (dsr_complete e dok r Q D) as M. destruct D as (a & b & Da & Db & Hr).
  assert (exists t, r ++ Q = 27 :: t) as (t & Ht) by (rewrite Hr; cbn; eauto).
  rewrite (classify_cons e _ 27 t false Ht). change (27 =? 3) with false. cbn [andb]. change (27 =? 27) with true. cbv iota. rewrite M.
  f_equal. unfold mlen. rewrite zlen_app, zlen_cons. lia.
Qed.
Lemma dsr_bytes r : dsr_reply r -> bytes r.
Proof.
  intros (a & b & (_ & Da) & (_ & Db) & ->). assert (A : forall d, Forall (fun c => 48 <= c <= 57) d -> bytes d) by (intros d F; eapply Forall_impl; [|exact F]; cbn; lia).
  apply bytes_app; split; [repeat constructor; lia|]. apply bytes_app; split; [auto|]. apply bytes_app; split; [repeat constructor; lia|]. apply bytes_app; split; [auto|repeat constructor; lia].
Qed.
Lemma dsr_head r : dsr_reply r -> exists t, r = 27 :: 91 :: t ++ [82] /\ Forall (fun c => 48 <= c <= 57 \/ c = 59) t.
Proof.
  intros (a & b & (_ & Da) & (_ & Db) & ->). exists (a ++ [59] ++ b). split; [cbn [app]; now rewrite <- !app_assoc|].
  apply Forall_app; split; [eapply Forall_impl; [|exact Da]; cbn; lia|]. constructor; [lia|]. eapply Forall_impl; [|exact Db]; cbn; lia.
Qed.

(** *** Whatever was held back, nothing is after a reply *)
Lemma removelast_in (x : Z) a b : b <> [] -> In x a -> In x (removelast (a ++ b)).
Proof. intros Hb Hi. rewrite removelast_app by exact Hb. apply in_or_app. auto. Qed.
Lemma no_wait_over q r : q <> [] -> bytes q -> dsr_reply r -> classify e (q ++ r) false <> CMore.
Proof.
  intros Hq Hb D Hc. assert (Hbr := dsr_bytes _ D). assert (Hbq : bytes (q ++ r)) by (apply bytes_app; auto).
  assert (Hn : q ++ r <> []) by (intros H; apply app_eq_nil in H; tauto).
  pose proof (classify_spec e EO (q ++ r) false Hbq Hn) as Sp. rewrite Hc in Sp. destruct Sp as ((c & Hcn & _ & R) & _).
  destruct (dsr_head _ D) as (t & Hr & _). pose proof (dsr_len _ D). pose proof (zlen_pos _ Hq). pose proof (zlen_pos _ Hcn).
  assert (Esc : In 27 (tl ((q ++ r) ++ c))).
  { destruct q as [|x q]; [congruence|]. cbn [app tl]. rewrite Hr. apply in_or_app. left. apply in_or_app. right. left. reflexivity. }
  assert (HL : forall s, s = (q ++ r) ++ c -> zlen s = zlen q + zlen r + zlen c) by (intros s ->; rewrite !zlen_app; lia).
  remember ((q ++ r) ++ c) as s eqn:Hs. destruct R as [s Hd|s m Hd|s k Hd|b l Hd|b l Hd].
  - now apply dsr_no_esc in Hd.
  - destruct (mouse_no_esc _ _ Hd) as [H2|(u & Hu)]; [contradiction|].
    destruct Hd as [f x vx y vy z Df Dx Dy Hz|f x vx y vy Df Dx Dy|f x y Hxyz].
    + cbn in Hu. discriminate.
    + cbn [app] in Hu. injection Hu as Hu. destruct (digits_head _ Df) as (x0 & t0 & -> & Hx0). cbn in Hu. injection Hu. lia.
    + specialize (HL _ eq_refl). cbn in HL. lia.
  - apply key_ok in Hd as (_ & H82 & _). apply H82. rewrite Hs. apply removelast_in; [exact Hcn|]. apply in_or_app. right. rewrite Hr. right. right. apply in_or_app. right. left. reflexivity.
  - pose proof (announced_le b). specialize (HL _ eq_refl). lia.
  - pose proof (announced_le b). specialize (HL _ eq_refl). rewrite (zlen_cons 27) in HL. lia.
Qed.
Lemma no_wait_in (x : bool) b y : (b = 91 \/ b = 59 \/ b = 82 \/ 48 <= b <= 57) -> bytes (b :: y) -> classify e (b :: y) false <> CMore.
Proof.
  intros Hb By Hc. rewrite (classify_cons e _ b y false eq_refl) in Hc. replace (b =? 3) with false in Hc by lia. replace (b =? 27) with false in Hc by lia. cbn [andb] in Hc.
  pose proof (classTable_spec e EO x (b :: y) false By ltac:(discriminate)) as Sp. rewrite Hc in Sp.
  destruct Sp as [(pre & b1 & t1 & Hi & Hp & Ha)|(_ & c & k & _ & _ & M)].
  - destruct Hp as [-> | ->]; cbn in Hi; [|injection Hi; lia]. injection Hi as <- <-.
    unfold announced in Ha. replace (b <? 128) with true in Ha by lia. rewrite zlen_cons in Ha. pose proof (zlen_nonneg y). lia.
  - apply key_ok in M as (_ & _ & _ & _ & _ & _ & b1 & t1 & Hs & Hb1 & _). cbn in Hs. injection Hs. lia.
Qed.
Lemma released q r ts rest : bytes q -> dsr_reply r -> eats e false (q ++ r) ts rest -> rest = [].
Proof.
  intros Hb D He. assert (Hbr := dsr_bytes _ D). assert (Hbq : bytes (q ++ r)) by (apply bytes_app; auto).
  destruct (eats_pieces e EO _ _ _ _ He Hbq) as (ps & _ & _ & Hcc & Hrest). destruct Hrest as [Hz|(Hn & Hm)]; [exact Hz|]. exfalso.
  apply app_eq_app in Hcc as (u & [(H1 & H2)|(H1 & H2)]).
  - (* rest = is a suffix of r *)
    destruct u as [|x u].
    + cbn in H2. subst rest. pose proof (reply_class r [] D Hbr) as Hc. rewrite app_nil_r in Hc. congruence.
    + destruct (dsr_head _ D) as (t & Hr & Ft). rewrite Hr in H2. injection H2 as <- H2.
      assert (forall b y, rest = b :: y -> b = 91 \/ b = 59 \/ b = 82 \/ 48 <= b <= 57).
      { intros b y ->. assert (Hin : In b (91 :: t ++ [82])) by (rewrite H2; apply in_or_app; right; left; reflexivity).
        destruct Hin as [<-|Hin]; [auto|]. apply in_app_or in Hin as [Hin|[<-|[]]]; [|auto]. rewrite Forall_forall in Ft. specialize (Ft _ Hin). lia. }
      destruct rest as [|b y]; [congruence|]. apply (no_wait_in false b y); [eauto| |exact Hm].
      rewrite Hr in Hbr. apply bytes_cons in Hbr as (_ & Hbr). rewrite H2 in Hbr. now apply bytes_app in Hbr.
  - destruct u as [|x u].
    + cbn in H2. subst rest. pose proof (reply_class r [] D Hbr) as Hc. rewrite app_nil_r in Hc. congruence.
    + subst rest. apply (no_wait_over (x :: u) r); auto; [discriminate|]. rewrite H1 in Hb. now apply bytes_app in Hb.
Qed.

(** *** A reply after held-back ASCII input acts like the timeout, and is swallowed *)
Definition ascii (l : list Z) : Prop := Forall (fun b => 0 <= b < 128) l.
Lemma ascii_bytes l : ascii l -> bytes l.
Proof. intros H. eapply Forall_impl; [|exact H]. cbn. lia. Qed.
Lemma ascii_not_partial x : ascii x -> ~ utf8_partial x.
Proof.
  intros A (pre & b & t & -> & _ & H). apply Forall_app in A as (_ & A). inversion A; subst. unfold announced in H. replace (b <? 128) with true in H by lia.
  rewrite zlen_cons in H. pose proof (zlen_nonneg t). lia.
Qed.
Lemma third_77 x r t u : x <> [] -> ~ In 77 x -> (x ++ 27 :: r) ++ t = 27 :: 91 :: 77 :: u -> False.
Proof.
  intros Hx H77 H. destruct x as [|a [|b [|c x]]]; cbn in H; try congruence; injection H; intros; subst; try congruence. apply H77. cbn. auto.
Qed.
Lemma firstn_prefix n (l : list Z) : exists t, l = zfirstn n l ++ t.
Proof. exists (zskipn n l). symmetry. apply zfirstn_zskipn. Qed.
Lemma last_app_ne (a b : list Z) d : b <> [] -> last (a ++ b) d = last b d.
Proof. intros H. induction a as [|x a IH]; [reflexivity|]. cbn [app]. rewrite <- IH. destruct (a ++ b) eqn:E; [apply app_eq_nil in E; tauto|reflexivity]. Qed.

Lemma class_release x r : x <> [] -> ascii x -> ~ In 77 x -> dsr_reply r -> (x = [27] -> forall k, ~ means_key (27 :: r) k) ->
  classify e (x ++ r) false = classify e x true.
Proof.
  intros Hx Ax H77 D HK. assert (Hb := ascii_bytes _ Ax). assert (Hbr := dsr_bytes _ D). assert (Hbx : bytes (x ++ r)) by (apply bytes_app; auto).
  assert (Hn : x ++ r <> []) by (intros H; apply app_eq_nil in H; tauto).
  destruct (dsr_head _ D) as (t & Hr & Ft). assert (Hr27 : exists r', r = 27 :: r') by eauto. destruct Hr27 as (r' & Hr').
  (* the table *)
  assert (Tab : classTable e (x ++ r) false = classTable e x true).
  { unfold classTable. destruct (@look e EO unit x Hb) as (n & k & inc & L & Dl). destruct (@look e EO unit (x ++ r) Hbx) as (n' & k' & inc' & L' & Dl'). rewrite L, L'.
    assert (inc' = false) as ->.
    { destruct inc'; [|reflexivity]. exfalso. destruct Dl' as (_ & I). destruct (proj1 I eq_refl) as (s & ks & Hi & c & Hc & ->).
      destruct (found_lookup _ _ _ _ calls_found Hi) as (L2 & IK). destruct (regs_bytes _ _ _ calls_ok Hi) as (Hne & Hbs).
      destruct (@look_poly e EO unit ((x ++ r) ++ c) _ _ _ Hbs ltac:(rewrite (e_root_eq e EO); exact L2)) as (_ & D2).
      pose proof (zlen_pos _ Hne). pose proof (dlook_means e EO _ _ _ _ Hbs D2 ltac:(lia)) as M. rewrite zfirstn_all in M by lia.
      apply key_ok in M as (_ & H82 & _). apply H82. apply removelast_in; [exact Hc|]. apply in_or_app. right. rewrite Hr. right. right. apply in_or_app. right. left. reflexivity. }
    assert (Hn' : n' <= zlen x).
    { destruct (Z_le_gt_dec n' (zlen x)) as [H|H]; [exact H|exfalso]. pose proof (zlen_nonneg x). pose proof Dl' as ((B & _) & _).
      pose proof (dlook_means e EO _ _ _ _ Hbx Dl' ltac:(lia)) as M.
      assert (exists s2 t2, zfirstn n' (x ++ r) = x ++ s2 /\ r = s2 ++ t2 /\ s2 <> []) as (s2 & t2 & Hs & Hr2 & Hs2).
      { exists (zfirstn (n' - zlen x) r), (zskipn (n' - zlen x) r). splits.
        - unfold zfirstn, zlen in *. rewrite firstn_app. f_equal; [apply firstn_all2; lia|f_equal; lia].
        - symmetry. apply zfirstn_zskipn.
        - intros Hz0. apply (f_equal zlen) in Hz0. rewrite zlen_zfirstn in Hz0. change (zlen (@nil Z)) with 0 in Hz0. rewrite zlen_app in B. lia. }
      rewrite Hs in M. destruct s2 as [|z s2]; [congruence|]. rewrite Hr' in Hr2. cbn in Hr2. injection Hr2 as <- Hr2.
      pose proof (key_ok _ _ M) as (K27 & _ & Kd & K59 & K91 & Ke & b & tt & Hbt & Hb3 & Hb27).
      destruct x as [|x0 [|x1 x]]; [congruence| |].
      - cbn in Hbt. injection Hbt as <- <-. assert (x0 = 27) by (apply Hb27; discriminate). subst x0.
        destruct t2 as [|z t2].
        + rewrite app_nil_r in Hr2. apply (HK eq_refl k'). rewrite Hr', Hr2. exact M.
        + rewrite last_app_ne in Kd, K59, K91, Ke by discriminate.
          assert (Hin : In (last (27 :: s2) 0) (27 :: s2)).
          { pose proof (@app_removelast_last Z (27 :: s2) 0 ltac:(discriminate)) as HA. rewrite HA at 2. apply in_or_app. right. left. reflexivity. }
          assert (Hall : Forall (fun c => 48 <= c <= 57 \/ c = 59 \/ c = 91 \/ c = 27) (27 :: s2)).
          { assert (exists w, 91 :: t = s2 ++ w) as (w & Hw).
            { rewrite Hr in Hr'. injection Hr' as Hr'. rewrite <- Hr' in Hr2. change (91 :: t ++ [82]) with ((91 :: t) ++ [82]) in Hr2.
              apply app_eq_app in Hr2 as (u & [(E1 & E2)|(E1 & E2)]); [eauto|]. destruct u as [|u0 u]; [exists []; rewrite E1, !app_nil_r; reflexivity|].
              exfalso. cbn in E2. injection E2 as _ E2. destruct u; discriminate. }
            constructor; [auto|]. assert (F91 : Forall (fun c => 48 <= c <= 57 \/ c = 59 \/ c = 91 \/ c = 27) (91 :: t)) by (constructor; [auto|eapply Forall_impl; [|exact Ft]; cbn; lia]).
            rewrite Hw in F91. now apply Forall_app in F91. }
          rewrite Forall_forall in Hall. specialize (Hall _ Hin). lia.
      - apply K27. cbn [app skipn]. apply in_or_app. right. left. reflexivity. }
    assert (n' = n /\ k' = k) as (-> & ->).
    { destruct Dl as (LM & _), Dl' as (LM' & _). apply (longest_unique calls calls x); [reflexivity| |exact LM].
      destruct LM' as (B & Z0 & KK & MM). unfold longest_match. splits; try lia; auto.
      - intros Hp. destruct (KK Hp) as (? & As). rewrite zfirstn_app_le in As by lia. auto.
      - intros m k1 Hm Ha. apply (MM m k1); [rewrite zlen_app; pose proof (zlen_nonneg r); lia|]. rewrite zfirstn_app_le by lia. exact Ha. }
    cbn [negb andb]. destruct (0 <? n); [reflexivity|].
    pose proof (classAlt_spec false x Hb Hx) as Sp. destruct (classAlt x) as [| |m tk] eqn:Ec.
    - exfalso. exact (ascii_not_partial _ Ax Sp).
    - contradiction.
    - destruct Sp as (_ & St). destruct (list_eq_dec Z.eq_dec x [27]) as [->|H27]; [|now apply St].
      rewrite <- Ec. rewrite Hr'. cbn [app classAlt]. change (negb (27 =? 27)) with false. rewrite andb_false_r. cbn [andb].
      pose proof (classText_spec false [27] Hb Hx) as St2. destruct (classText [27]) as [| |m2 tk2] eqn:Ect; [discriminate|discriminate|].
      destruct St2 as (_ & St2). rewrite <- Hr'. apply (St2 r Hbr). }
  destruct x as [|b x0] eqn:Ex; [congruence|]. rewrite <- Ex in *.
  rewrite (classify_cons e (x ++ r) b (x0 ++ r) false) by (rewrite Ex; reflexivity). rewrite (classify_cons e x b x0 true Ex).
  destruct ((b =? 3) && processed e); [reflexivity|]. destruct (Z.eqb_spec b 27) as [Hb27|Hb27]; [|exact Tab].
  pose proof (dsr_fin e dok x Hb Hx) as FD. pose proof (mouse_fin e dok x Hb Hx) as FM.
  pose proof (dsr_fin e dok (x ++ r) Hbx Hn) as GD. pose proof (mouse_fin e dok (x ++ r) Hbx Hn) as GM.
  assert (MD : matchDsr e x = More -> matchDsr e (x ++ r) = Fail).
  { intros HM. destruct (matchDsr e (x ++ r)) as [| | |a l] eqn:Hg; auto; exfalso; [|exact GD|].
    - destruct GD as (c & a & _ & _ & Hd). apply dsr_no_esc in Hd. apply Hd. rewrite Ex, Hr'. cbn [app tl]. apply in_or_app. left. apply in_or_app. right. left. reflexivity.
    - destruct GD as (p & z & w & Hi & _ & Hd & _). pose proof (dsr_no_esc _ Hd) as Hne.
      assert (Hi2 : (p ++ [z]) ++ w = x ++ 27 :: r') by (rewrite <- Hr', Hi, <- app_assoc; reflexivity).
      destruct (prefix_inside _ _ _ _ Hi2 Hx Hne) as (u & Hu). rewrite Hu in HM. rewrite (dsr_complete e dok _ u Hd) in HM. discriminate. }
  assert (MM : matchMouseRecord e x = More -> matchMouseRecord e (x ++ r) = Fail).
  { intros HM. destruct (matchMouseRecord e (x ++ r)) as [| | |a l] eqn:Hg; auto; exfalso; [|exact GM|].
    - destruct GM as (c & a & _ & _ & Hd). destruct (mouse_no_esc _ _ Hd) as [Hne|(u & Hu)].
      + apply Hne. rewrite Ex, Hr'. cbn [app tl]. apply in_or_app. left. apply in_or_app. right. left. reflexivity.
      + rewrite Hr' in Hu. exact (third_77 _ _ _ _ Hx H77 Hu).
    - destruct GM as (p & z & w & Hi & _ & Hd & _).
      assert (Hi2 : (p ++ [z]) ++ w = x ++ 27 :: r') by (rewrite <- Hr', Hi, <- app_assoc; reflexivity).
      destruct (mouse_no_esc _ _ Hd) as [Hne|(u & Hu)].
      + destruct (prefix_inside _ _ _ _ Hi2 Hx Hne) as (u & Hu). destruct (mouse_complete _ _ Hd) as (y & Hy). rewrite Hu in HM. rewrite Hy in HM. discriminate.
      + rewrite Hu in Hi2. apply (third_77 x r' [] (u ++ w) Hx H77). rewrite app_nil_r. symmetry. exact Hi2. }
  assert (ML : forall y w, mlen (x ++ r) (w ++ r) = mlen x w \/ y = tt -> mlen (x ++ r) (w ++ r) = mlen x w) by (intros; unfold mlen; rewrite !zlen_app; lia).
  assert (Mouse : match matchMouseRecord e (x ++ r) with
    | PUB => CUB | Got r0 l => CTok (mlen (x ++ r) l) (TMouse r0)
    | m => if match m with More => negb false | _ => false end then CMore else classTable e (x ++ r) false end =
    match matchMouseRecord e x with
    | PUB => CUB | Got r0 l => CTok (mlen x l) (TMouse r0)
    | m => if match m with More => negb true | _ => false end then CMore else classTable e x true end).
  { destruct (matchMouseRecord e x) as [| | |a l].
    - rewrite (FM r Hbr). exact Tab.
    - rewrite (MM eq_refl). exact Tab.
    - contradiction.
    - destruct FM as (p & z & w & _ & _ & _ & St). rewrite (St r Hbr). f_equal. unfold mlen. rewrite !zlen_app. lia. }
  destruct (matchDsr e x) as [| | |a l].
  - rewrite (FD r Hbr). exact Mouse.
  - rewrite (MD eq_refl). exact Mouse.
  - contradiction.
  - destruct FD as (p & z & w & _ & _ & _ & St). rewrite (St r Hbr). f_equal. unfold mlen. rewrite !zlen_app. lia.
Qed.

Lemma eats_release r : dsr_reply r -> forall k h, (length h <= k)%nat -> ascii h -> ~ In 77 h ->
  ((exists p, h = p ++ [27]) -> forall k, ~ means_key (27 :: r) k) ->
  exists ts, eats e true h ts [] /\ eats e false (h ++ r) (ts ++ [TDsr]) [].
Proof.
  intros D. assert (Hbr := dsr_bytes _ D). induction k as [|k IH]; intros h Hk A H77 HK.
  - destruct h; [|cbn in Hk; lia]. exists []. split; [constructor|]. cbn [app].
    apply (eat_tok e false r (zlen r)); [intros ->; apply dsr_len in D; change (zlen (@nil Z)) with 0 in D; lia| |].
    + pose proof (reply_class r [] D Hbr) as H. now rewrite app_nil_r in H.
    + rewrite zskipn_all by lia. constructor.
  - destruct h as [|b t] eqn:Eh; [destruct (IH [] ltac:(cbn; lia) A H77 HK) as (ts & H); eauto|]. rewrite <- Eh in *.
    assert (Hn : h <> []) by (rewrite Eh; discriminate).
    assert (Hc : classify e (h ++ r) false = classify e h true) by (apply class_release; auto; intros Hh; apply HK; exists []; exact Hh).
    pose proof (classify_spec e EO h true (ascii_bytes _ A) Hn) as Sp.
    destruct (classify e h true) as [| |n tk] eqn:Ec.
    + exfalso. apply (ascii_not_partial _ A). now apply Sp.
    + contradiction.
    + destruct Sp as (((N1 & N2) & _) & _).
      assert (Hsuf : h = zfirstn n h ++ zskipn n h) by (symmetry; apply zfirstn_zskipn).
      destruct (IH (zskipn n h)) as (ts & E1 & E2).
      * unfold zskipn, zlen in *. rewrite skipn_length. lia.
      * unfold ascii in *. rewrite Hsuf in A. now apply Forall_app in A.
      * intros Hi. apply H77. rewrite Hsuf. apply in_or_app. auto.
      * intros (p & Hp). apply HK. exists (zfirstn n h ++ p). rewrite <- app_assoc, <- Hp. exact Hsuf.
      * exists (tk :: ts). split; [apply (eat_tok e true h n); auto|]. cbn [app]. apply (eat_tok e false (h ++ r) n).
        -- intros H. apply app_eq_nil in H. tauto.
        -- exact Hc.
        -- rewrite zskipn_app_le by lia. exact E2.
Qed.
End E.

(** *** The theorems *)
Theorem reply_releases {E} e now r c : env_ok e -> reachable c -> dsr_reply r ->
  exists c', @writeInput E e now r c = Ok c' /\ c_queue c' = [].
Proof.
  intros EO R D. apply reachable_inv in R. pose proof (dsr_len _ D). assert (Hn : r <> []) by (intros ->; change (zlen (@nil Z)) with 0 in *; lia).
  destruct (@write_step e EO E now r c R (dsr_bytes e EO _ D) ltac:(lia) Hn) as (ts & rest & c' & He & Hw & Q1 & _).
  exists c'. split; [exact Hw|]. rewrite Q1. apply (released e EO (c_queue c) r ts rest); auto. apply R.
Qed.

Theorem reply_swallowed {E} e now late r c : env_ok e -> reachable c -> modes_read e c -> dsr_reply r ->
  Forall (fun b => 0 <= b < 128) (c_queue c) -> ~ In 77 (c_queue c) ->
  ((exists p, c_queue c = p ++ [27]) -> forall k, ~ means_key (27 :: r) k) ->
  1000 < (late - c_lastWrite c) mod 2 ^ 32 ->
  exists c1 c2, @writeInput E e now r c = Ok c1 /\ @run_op E e (OpPoll late) c = Ok c2 /\
    received (c_log c1) = received (c_log c2) /\ same_state c1 c2 /\ c_queue c1 = [] /\ c_queue c2 = [] /\ c_dsrSent c1 = false /\
    (c_queue c = [] -> received (c_log c1) = received (c_log c)).
Proof.
  intros EO R M D A H77 HK Hlate. apply reachable_inv in R. pose proof (dsr_len _ D). assert (Hn : r <> []) by (intros ->; change (zlen (@nil Z)) with 0 in *; lia).
  destruct (eats_release e EO r D _ (c_queue c) (le_n _) A H77 HK) as (ts & E1 & E2).
  destruct (@write_step e EO E now r c R (dsr_bytes e EO _ D) ltac:(lia) Hn) as (ts1 & rest & c1 & He & Hw & Q1 & I1 & C1 & T1 & _ & _ & S1 & _).
  destruct (eats_det e _ _ _ _ He _ _ E2) as (-> & ->).
  assert (Ht : told (acts e (ts ++ [TDsr]) c) = told (acts e ts c)).
  { rewrite acts_app. cbn [acts act]. reflexivity. }
  assert (Hcr : core (acts e (ts ++ [TDsr]) c) = core (acts e ts c)) by (rewrite acts_app; reflexivity).
  cbn [run_op]. rewrite M. destruct (@poll_step e EO E late c R) as (P1 & P2).
  destruct (list_eq_dec Z.eq_dec (c_queue c) []) as [Hq|Hq].
  - exists c1, c. rewrite P1 by auto. assert (ts = []) by (rewrite Hq in E1; inversion E1; subst; auto; congruence). subst ts.
    assert (Hrec : received (c_log c1) = received (c_log c)) by (rewrite <- (told_nil c1), <- (told_nil c) by (apply I1 || apply R); rewrite T1, Ht; reflexivity).
    splits; auto.
    + apply core_same. rewrite C1, Hcr. reflexivity.
  - destruct P2 as (ts2 & rest2 & c2 & He2 & Hw2 & Q2 & I2 & C2 & T2 & _); [split; [exact Hq|lia]|].
    destruct (eats_det e _ _ _ _ He2 _ _ E1) as (-> & ->). exists c1, c2. splits; auto.
    + rewrite <- (told_nil c1), <- (told_nil c2) by (apply I1 || apply I2). congruence.
    + apply core_same. congruence.
    + rewrite S1, existsb_app. cbn. rewrite orb_true_r. reflexivity.
    + congruence.
Qed.

(** *** Histories *)
Lemma replies_app a b : replies (a ++ b) = replies a + replies b.
Proof. unfold replies. now rewrite filter_app, zlen_app. Qed.
Lemma replies_nonneg a : 0 <= replies a.
Proof. apply zlen_nonneg. Qed.
Lemma pieces_dsr ps : existsb is_dsr (map snd ps) = true -> 1 <= replies (map (fun p => (fst p, Some (snd p))) ps).
Proof.
  induction ps as [|[s t] ps IH]; cbn [map existsb fst snd]; [discriminate|]. intros H. change ((s, Some t) :: ?l) with ([(s, Some t)] ++ l). rewrite replies_app.
  pose proof (replies_nonneg (map (fun p => (fst p, Some (snd p))) ps)).
  destruct t; cbn [is_dsr orb] in H; try (specialize (IH H)); match goal with |- context [replies [?x]] => let v := eval vm_compute in (replies [x]) in change (replies [x]) with v end; lia.
Qed.
Theorem history_queries {E} h : Forall (fun x => env_ok (fst x) /\ op_ok (snd x)) h -> forall e0 clock, env_ok e0 ->
  exists c ps, @run_history E h (init_ci e0 clock) = Ok c /\ Forall piece_ok ps /\
    concat (map fst ps) ++ c_queue c = flat_map (fun x => op_data (snd x)) h /\
    queries (c_log c) <= replies ps + (if c_dsrSent c then 1 else 0).
Proof.
  intros F e0 clock EO0.
  assert (G : forall h c q ps, inv c -> Forall (fun x => env_ok (fst x) /\ op_ok (snd x)) h -> Forall piece_ok ps -> concat (map fst ps) ++ c_queue c = q ->
    queries (c_log c) <= replies ps + (if c_dsrSent c then 1 else 0) ->
    exists c' ps', @run_history E h c = Ok c' /\ Forall piece_ok ps' /\ concat (map fst ps') ++ c_queue c' = q ++ flat_map (fun x => op_data (snd x)) h /\
      queries (c_log c') <= replies ps' + (if c_dsrSent c' then 1 else 0)).
  { clear. induction h as [|[e o] h IH]; intros c q ps I F P Hq Hs.
    - exists c, ps. cbn. rewrite app_nil_r. splits; auto.
    - inversion F as [|? ? (EO & OK) F']; subst. cbn [fst snd] in *. cbn [run_history flat_map snd].
      assert (Step : exists c1 ps1, @run_op E e o c = Ok c1 /\ inv c1 /\ Forall piece_ok ps1 /\
        concat (map fst ps1) ++ c_queue c1 = (concat (map fst ps) ++ c_queue c) ++ op_data o /\ queries (c_log c1) <= replies ps1 + (if c_dsrSent c1 then 1 else 0)).
      { assert (Conv : forall (xs : list (list Z * tok)), Forall (fun p => token (processed e) (fst p) (snd p)) xs -> Forall piece_ok (map (fun p => (fst p, Some (snd p))) xs)).
        { intros xs FX. apply Forall_map. eapply Forall_impl; [|exact FX]. cbn. intros [s t] Ht. exists (processed e). exact Ht. }
        assert (CM : forall (xs : list (list Z * tok)), map fst (map (fun p => (fst p, Some (snd p))) xs) = map fst xs) by (intros xs; rewrite map_map; reflexivity).
        destruct o as [now data|now|l t r b]; cbn [op_data run_op] in *.
        - destruct data as [|x d] eqn:Ed; [exists c, ps; rewrite app_nil_r; auto|]. rewrite <- Ed in *. destruct OK as (OK1 & OK2). cbn [op_data] in *.
          assert (Hn : data <> []) by (rewrite Ed; discriminate).
          destruct (@write_step e EO E now data c I OK1 OK2 Hn) as (ts & rest & c1 & He & Hw & Q1 & I1 & _ & _ & _ & _ & S1 & S2).
          assert (Hbq : bytes (c_queue c ++ data)) by (apply bytes_app; split; [apply I|auto]).
          destruct (eats_pieces e EO _ _ _ _ He Hbq) as (xs & Hm & HF & Hcc & _).
          exists c1, (ps ++ map (fun p => (fst p, Some (snd p))) xs). splits; auto.
          + apply Forall_app. auto.
          + rewrite map_app, concat_app, CM, Q1, <- !app_assoc, Hcc. reflexivity.
          + rewrite S2, replies_app, S1. pose proof (replies_nonneg (map (fun p => (fst p, Some (snd p))) xs)).
            pose proof (pieces_dsr xs) as PD. rewrite Hm in PD. destruct (existsb is_dsr ts).
            * specialize (PD eq_refl). destruct (c_dsrSent c), (zlen rest =? 0); cbn [negb andb orb]; lia.
            * destruct (c_dsrSent c), (zlen rest =? 0); cbn [negb andb orb]; lia.
        - pose proof (poll_flags e c I) as I0. destruct (@poll_step e EO E now (updateInputFlags e c) I0) as (P1 & P2).
          assert (Same : @flushIncompleteEscapeCode E e now (updateInputFlags e c) = Ok (updateInputFlags e c) -> exists c1 ps1, @flushIncompleteEscapeCode E e now (updateInputFlags e c) = Ok c1 /\ inv c1 /\ Forall piece_ok ps1 /\
        concat (map fst ps1) ++ c_queue c1 = (concat (map fst ps) ++ c_queue c) ++ [] /\ queries (c_log c1) <= replies ps1 + (if c_dsrSent c1 then 1 else 0)).
          { intros Hw. exists (updateInputFlags e c), ps. rewrite app_nil_r. splits; auto. }
          destruct (list_eq_dec Z.eq_dec (c_queue (updateInputFlags e c)) []) as [Hq|Hq]; [apply Same, P1; auto|].
          destruct (Z_le_gt_dec ((now - c_lastWrite (updateInputFlags e c)) mod 2 ^ 32) 1000) as [Hle|Hgt]; [apply Same, P1; auto|].
          destruct P2 as (ts & rest & c1 & He & Hw & Q1 & I1 & _ & _ & _ & Hlost & S1 & S2); [split; [exact Hq|lia]|].
          destruct (eats_pieces e EO _ _ _ _ He (proj1 (proj2 I0))) as (xs & Hm & HF & Hcc & _).
          exists c1, (ps ++ map (fun p => (fst p, Some (snd p))) xs ++ (if zlen rest =? 0 then [] else [(rest, None)])). splits; auto.
          + apply Forall_app. split; [auto|]. apply Forall_app. split; [auto|]. destruct (Z.eqb_spec (zlen rest) 0) as [H0|H0]; [constructor|].
            constructor; [|constructor]. destruct Hlost as [->|Hl]; [change (zlen (@nil Z)) with 0 in H0; lia|exact Hl].
          + rewrite !map_app, !concat_app, CM, Q1, !app_nil_r. f_equal. change (c_queue c) with (c_queue (updateInputFlags e c)). rewrite <- Hcc. f_equal.
            destruct (Z.eqb_spec (zlen rest) 0) as [H0|H0]; [apply zlen_0_nil in H0; now subst|cbn; apply app_nil_r].
          + rewrite S2, !replies_app, S1. change (c_dsrSent (updateInputFlags e c)) with (c_dsrSent c). change (c_log (updateInputFlags e c)) with (c_log c).

            pose proof (pieces_dsr xs) as PD. rewrite Hm in PD. clear - PD Hs.
            match goal with |- context [replies ps + (?a + ?b)] => assert (Ha : 0 <= a) by apply replies_nonneg; assert (Hbb : 0 <= b) by apply replies_nonneg; change (existsb is_dsr ts = true -> 1 <= a) in PD; set (aa := a) in *; set (bb := b) in *; clearbody aa bb end.
            destruct (existsb is_dsr ts); [specialize (PD eq_refl)|]; destruct (c_dsrSent c); lia.
        - exists (set_rect l t r b c), ps. rewrite app_nil_r. splits; auto. }
      destruct Step as (c1 & ps1 & Hr & I1 & P1 & Hq1 & Hs1). rewrite Hr. cbn [bind].
      destruct (IH c1 _ ps1 I1 F' P1 Hq1 Hs1) as (c' & ps' & R' & P' & Hq' & Hs'). exists c', ps'. splits; auto. rewrite Hq', <- !app_assoc. reflexivity. }
  destruct (G h (init_ci e0 clock) [] [] (init_inv e0 clock) F (Forall_nil _) eq_refl) as (c & ps & H1 & H2 & H3 & H4).
  - vm_compute. discriminate.
  - exists c, ps. splits; auto.
Qed.
