From Verif Require Import Base BaseLemmas Text Strings StringsSpec StringsProofs ShowInput ShowInputSpec.

Ltac splits := repeat match goal with |- _ /\ _ => split end.

(** ** Numbers *)
Lemma put_dec_ok signed n v : 1 <= n -> int_range signed n v -> exists s, put_dec n v = Ok s /\ decimal s v.
Proof.
  intros N R. unfold put_dec. destruct (@gdecOfInt_ok unit signed n (uninit (n * 3 + 2)) v N) as (vs & s & E & D & (V & _)); auto.
  - rewrite uninit_len by lia. lia.
  - rewrite E. cbn. exists s. split; [congruence|exact D].
Qed.
Lemma put_hex_ok n v : 1 <= n -> 0 <= v < 2 ^ (8 * n) -> exists s, put_hex n v = Ok s /\ canonical 16 s v.
Proof.
  intros N R. unfold put_hex. destruct (@ghexOfInt_ok unit false false n (uninit (n * 2 + 1)) v N) as (vs & s & E & (V & _) & C); auto.
  - rewrite uninit_len by lia. lia.
  - rewrite E. cbn. exists s. rewrite Z.mod_small in C by lia. split; [congruence|exact C].
Qed.
Lemma c_hex_ok v : 0 <= v < 2 ^ 32 -> exists s, c_hex v = Ok ((if v =? 0 then [] else str "0x") ++ s) /\ canonical 16 s v.
Proof.
  intros R. unfold c_hex. destruct (put_hex_ok 4 v ltac:(lia) R) as (s & -> & C). exists s. cbn [bind]. split; [|exact C].
  destruct (v =? 0); reflexivity.
Qed.

Lemma canonical_avoid b s v c : canonical b s v -> dval c < 0 -> ~ In c s.
Proof. intros ((_ & F & _) & _) D K. rewrite Forall_forall in F. specialize (F c K). cbn in F. lia. Qed.
Lemma decimal_avoid s v c : decimal s v -> dval c < 0 -> c <> 45 -> ~ In c s.
Proof.
  unfold decimal. intros D N M K. destruct (v <? 0).
  - destruct D as (d & -> & C). destruct K as [K|K]; [congruence|]. exact (canonical_avoid 10 d _ c C N K).
  - exact (canonical_avoid 10 s v c D N K).
Qed.
Lemma canonical_value b s v w : canonical b s v -> canonical b s w -> v = w.
Proof. intros ((_ & _ & A) & _) ((_ & _ & B) & _). congruence. Qed.
Lemma decimal_value s v w : decimal s v -> decimal s w -> v = w.
Proof.
  unfold decimal. intros A B. destruct (Z.ltb_spec v 0) as [N|N], (Z.ltb_spec w 0) as [M|M].
  - destruct A as (d & -> & A), B as (e & E & B). injection E as <-. pose proof (canonical_value _ _ _ _ A B). lia.
  - destruct A as (d & -> & A), B as ((_ & F & _) & _). inversion F as [|x y F1 F2]. subst. rewrite dval_45 in F1. lia.
  - destruct B as (d & -> & B), A as ((_ & F & _) & _). inversion F as [|x y F1 F2]. subst. rewrite dval_45 in F1. lia.
  - exact (canonical_value _ _ _ _ A B).
Qed.

(** ** Splitting texts *)
Lemma split_first (c : Z) : forall a b x y, ~ In c a -> ~ In c b -> a ++ c :: x = b ++ c :: y -> a = b /\ x = y.
Proof.
  induction a as [|e a IH]; intros [|f b] x y A B H; cbn [app] in H.
  - injection H as H. auto.
  - injection H as H1 H2. exfalso. apply B. left. auto.
  - injection H as H1 H2. exfalso. apply A. left. auto.
  - injection H as H1 H2. subst f. destruct (IH b x y) as (-> & ->); auto; intros K; [apply A|apply B]; right; exact K.
Qed.
(** c before every item *)
Lemma split_all (c : Z) : forall T U a b, ~ In c a -> ~ In c b -> Forall (fun t => ~ In c t) T -> Forall (fun t => ~ In c t) U ->
  a ++ concat (map (cons c) T) = b ++ concat (map (cons c) U) -> a = b /\ T = U.
Proof.
  induction T as [|t T IH]; intros [|u U] a b A B FT FU H; cbn [map concat] in H.
  - rewrite !app_nil_r in H. auto.
  - rewrite app_nil_r in H. exfalso. apply A. rewrite H. apply in_or_app. right. left. reflexivity.
  - rewrite app_nil_r in H. exfalso. apply B. rewrite <- H. apply in_or_app. right. left. reflexivity.
  - cbn [app] in H. destruct (split_first c a b _ _ A B H) as (-> & H2).
    inversion FT as [|? ? N1 FT1]. inversion FU as [|? ? N2 FU1]. subst.
    destruct (IH U t u N1 N2 FT1 FU1 H2) as (-> & ->). auto.
Qed.
(** c after every item, and something after all *)
Lemma split_end (c : Z) : forall T U a b, ~ In c a -> ~ In c b -> Forall (fun t => ~ In c t) T -> Forall (fun t => ~ In c t) U ->
  concat (map (fun t => t ++ [c]) T) ++ a = concat (map (fun t => t ++ [c]) U) ++ b -> T = U /\ a = b.
Proof.
  induction T as [|t T IH]; intros [|u U] a b A B FT FU H; cbn [map concat app] in H.
  - auto.
  - exfalso. apply A. rewrite H, <- !app_assoc. apply in_or_app. right. left. reflexivity.
  - exfalso. apply B. rewrite <- H, <- !app_assoc. apply in_or_app. right. left. reflexivity.
  - rewrite <- !app_assoc in H. cbn [app] in H.
    inversion FT as [|? ? N1 FT1]. inversion FU as [|? ? N2 FU1]. subst.
    destruct (split_first c t u _ _ N1 N2 H) as (-> & H2).
    destruct (IH U a b A B FT1 FU1 H2) as (-> & ->). auto.
Qed.

(** ** writeFlags *)
Definition hit (flags : Z) (f : Z * list Z) : bool := Z.land (fst f) flags =? fst f.
Definition hits (t : list (Z * list Z)) (flags : Z) : list (Z * list Z) := filter (hit flags) t.
Fixpoint left_of (t : list (Z * list Z)) (flags rem : Z) : Z :=
  match t with [] => rem | f :: r => left_of r flags (if hit flags f then Z.ldiff rem (fst f) else rem) end.
Definition post_of (wrote : bool) (out : list Z) : list Z := if wrote then out ++ [45] else out.

Lemma flag_loop_space flags : forall t out w rem,
  exists w', flag_loop t flags 32 32 out w rem = (out ++ concat (map (cons 32) (map snd (hits t flags))), w', left_of t flags rem).
Proof.
  induction t as [|[v x] t IH]; intros out w rem; cbn [flag_loop hits filter left_of map concat].
  - exists w. rewrite app_nil_r. reflexivity.
  - assert (HH : hit flags (v, x) = (Z.land v flags =? v)) by reflexivity. rewrite !HH. cbn [fst]. fold (hits t flags). destruct (Z.land v flags =? v) eqn:E.
    + assert (sep_before w 32 32 = [32]) as -> by (destruct w; reflexivity).
      destruct (IH (out ++ [32] ++ x) true (Z.ldiff rem v)) as (w' & ->). exists w'.
      cbn [map concat snd app]. rewrite <- !app_assoc. reflexivity.
    + exact (IH out w rem).
Qed.
Lemma flag_loop_dash flags : forall t out w rem, (w = false -> out = []) ->
  exists out' w', flag_loop t flags 0 45 out w rem = (out', w', left_of t flags rem) /\ (w' = false -> out' = []) /\
    post_of w' out' = post_of w out ++ concat (map (fun s => s ++ [45]) (map snd (hits t flags))).
Proof.
  induction t as [|[v x] t IH]; intros out w rem W; cbn [flag_loop hits filter left_of map concat].
  - exists out, w. rewrite app_nil_r. auto.
  - assert (HH : hit flags (v, x) = (Z.land v flags =? v)) by reflexivity. rewrite !HH. cbn [fst]. fold (hits t flags). destruct (Z.land v flags =? v) eqn:E.
    + destruct (IH (out ++ sep_before w 0 45 ++ x) true (Z.ldiff rem v) ltac:(discriminate)) as (o & w' & A & B & C).
      exists o, w'. splits; auto. rewrite C. cbn [map concat snd]. unfold post_of, sep_before. destruct w; cbn [negb andb].
      * change (negb (45 =? 0)) with true. cbv iota. rewrite <- !app_assoc. reflexivity.
      * rewrite (W eq_refl). cbn [app]. change (negb (0 =? 0)) with false. cbv iota. cbn [app]. rewrite <- ?app_assoc. reflexivity.
    + exact (IH out w rem W).
Qed.

(** The words of a value, by the tables of the model *)
Definition toks (t : list (Z * list Z)) (name : list Z) (flags : Z) (ts : list (list Z)) : Prop :=
  exists rest, ts = map snd (hits t flags) ++ rest /\
    ((left_of t flags flags = 0 /\ rest = []) \/
     (left_of t flags flags <> 0 /\ exists h, canonical 16 h (left_of t flags flags) /\ rest = [name ++ str "(0x" ++ h ++ [41]])).

Lemma ldiff_range r v : 0 <= v -> 0 <= r < 2 ^ 32 -> 0 <= Z.ldiff r v < 2 ^ 32.
Proof.
  intros V R. assert (0 <= Z.ldiff r v) by (apply Z.ldiff_nonneg; left; lia). split; [assumption|].
  assert (Z.ldiff r v = Z.ldiff r v mod 2 ^ 32) as ->; [|apply Z.mod_pos_bound; lia].
  rewrite <- Z.land_ones by lia. assert (E : Z.land r (Z.ones 32) = r) by (rewrite Z.land_ones by lia; apply Z.mod_small; exact R).
  rewrite <- E at 1. apply Z.bits_inj'. intros n N. rewrite !Z.ldiff_spec, !Z.land_spec, Z.ldiff_spec.
  destruct (Z.testbit r n), (Z.testbit v n), (Z.testbit (Z.ones 32) n); reflexivity.
Qed.
Lemma left_range flags : forall t rem, Forall (fun f => 0 <= fst f) t -> 0 <= rem < 2 ^ 32 -> 0 <= left_of t flags rem < 2 ^ 32.
Proof.
  induction t as [|f t IH]; intros rem F R; cbn [left_of]; [exact R|]. inversion F as [|? ? F1 F2]. subst.
  apply IH; auto. destruct (hit flags f); auto. apply ldiff_range; auto.
Qed.
Lemma write_space flags name t : Forall (fun f => 0 <= fst f) t -> 0 <= flags < 2 ^ 32 ->
  exists ts, writeFlags flags name t 32 32 0 = Ok (concat (map (cons 32) ts)) /\ toks t name flags ts.
Proof.
  intros F R. unfold writeFlags, toks. destruct (flag_loop_space flags t [] false flags) as (w & ->). cbn [app].
  pose proof (left_range flags t flags F R) as L. destruct (put_hex_ok 4 (left_of t flags flags) ltac:(lia) L) as (h & -> & C). cbn [bind].
  destruct (Z.eqb_spec (left_of t flags flags) 0) as [Z0|Z0]; cbn [negb].
  - eexists. split; [|exists []; rewrite app_nil_r; split; [reflexivity|left; auto]].
    change (negb (0 =? 0)) with false. rewrite andb_false_r. reflexivity.
  - exists (map snd (hits t flags) ++ [name ++ str "(0x" ++ h ++ [41]]).
    split; [|eexists; split; [reflexivity|right; split; [exact Z0|exists h; auto]]].
    change (negb (0 =? 0)) with false. rewrite andb_false_r. rewrite map_app, concat_app.
    assert (sep_before w 32 32 = [32]) as -> by (destruct w; reflexivity).
    cbn [map concat app]. rewrite app_nil_r. reflexivity.
Qed.
Lemma write_dash flags name t : Forall (fun f => 0 <= fst f) t -> 0 <= flags < 2 ^ 32 ->
  exists ts, writeFlags flags name t 0 45 45 = Ok (concat (map (fun s => s ++ [45]) ts)) /\ toks t name flags ts.
Proof.
  intros F R. unfold writeFlags, toks. destruct (flag_loop_dash flags t [] false flags ltac:(reflexivity)) as (o & w & -> & W & P). cbn [app] in P.
  change (post_of false []) with (@nil Z) in P. cbn [app] in P.
  pose proof (left_range flags t flags F R) as L. destruct (put_hex_ok 4 (left_of t flags flags) ltac:(lia) L) as (h & -> & C). cbn [bind].
  change (negb (45 =? 0)) with true. destruct (Z.eqb_spec (left_of t flags flags) 0) as [Z0|Z0]; cbn [negb].
  - eexists. split; [|exists []; rewrite app_nil_r; split; [reflexivity|left; auto]].
    rewrite andb_true_r. f_equal. exact P.
  - exists (map snd (hits t flags) ++ [name ++ str "(0x" ++ h ++ [41]]).
    split; [|eexists; split; [reflexivity|right; split; [exact Z0|exists h; auto]]].
    cbn [andb]. rewrite map_app, concat_app, <- P. f_equal. cbn [map concat]. rewrite app_nil_r. unfold post_of, sep_before.
    change (negb (45 =? 0)) with true. change (negb (0 =? 0)) with false. destruct w; cbn [negb andb].
    + rewrite <- !app_assoc. reflexivity.
    + rewrite (W eq_refl). cbn [app]. reflexivity.
Qed.

(** The bits: what the words say is the value *)
Definition lors (t : list (Z * list Z)) : Z := fold_right (fun f a => Z.lor (fst f) a) 0 t.
Lemma lors_left flags : forall t rem, Z.lor (lors (hits t flags)) (left_of t flags rem) = Z.lor (lors (hits t flags)) rem.
Proof.
  induction t as [|f t IH]; intros rem; cbn [hits filter left_of]; [reflexivity|]. fold (hits t flags). destruct (hit flags f).
  - cbn [lors fold_right]. fold (lors (hits t flags)). rewrite <- !Z.lor_assoc, IH.
    rewrite !(Z.lor_comm (lors (hits t flags))), !Z.lor_assoc. f_equal.
    apply Z.bits_inj'. intros n N. rewrite !Z.lor_spec, Z.ldiff_spec. destruct (Z.testbit (fst f) n), (Z.testbit rem n); reflexivity.
  - apply IH.
Qed.
Lemma lors_flags flags : forall t, Z.lor (lors (hits t flags)) flags = flags.
Proof.
  induction t as [|f t IH]; cbn [hits filter]; [reflexivity|]. fold (hits t flags). destruct (hit flags f) eqn:E; [|exact IH].
  cbn [lors fold_right]. fold (lors (hits t flags)). rewrite <- Z.lor_assoc, IH. apply Z.eqb_eq in E. rewrite <- E.
  apply Z.bits_inj'. intros n N. rewrite Z.lor_spec, Z.land_spec. destruct (Z.testbit (fst f) n), (Z.testbit flags n); reflexivity.
Qed.

(** Reading words back *)
Fixpoint named (t : list (Z * list Z)) (w : list Z) : option Z :=
  match t with [] => None | (v, n) :: r => if list_eqb n w then Some v else named r w end.
Definition starts (p w : list Z) : bool := list_eqb (firstn (length p) w) p.
Definition meaning (t : list (Z * list Z)) (name w : list Z) : Z :=
  match named t w with
  | Some v => v
  | None => if starts (name ++ str "(0x") w then value 16 (removelast (skipn (length (name ++ str "(0x")) w)) else 0
  end.
Definition meanings (t : list (Z * list Z)) (name : list Z) (ws : list (list Z)) : Z :=
  fold_right (fun w a => Z.lor (meaning t name w) a) 0 ws.
Lemma meanings_app t name a b : meanings t name (a ++ b) = Z.lor (meanings t name a) (meanings t name b).
Proof. induction a as [|w a IH]; cbn [app meanings fold_right]; [reflexivity|]. fold (meanings t name (a ++ b)). fold (meanings t name a). rewrite IH. apply Z.lor_assoc. Qed.
Lemma meanings_zero t name ws : Forall (fun w => meaning t name w = 0) ws -> meanings t name ws = 0.
Proof. induction 1 as [|w ws E F IH]; cbn [meanings fold_right]; [reflexivity|]. fold (meanings t name ws). rewrite E, IH. reflexivity. Qed.
Definition own (t : list (Z * list Z)) (name : list Z) : Prop :=
  Forall (fun f => meaning t name (snd f) = fst f) t /\
  forall h, meaning t name (name ++ str "(0x" ++ h ++ [41]) = value 16 h.
Lemma toks_meaning t name flags ts : own t name -> toks t name flags ts -> meanings t name ts = flags.
Proof.
  intros (O1 & O2) (rest & -> & C). rewrite meanings_app.
  assert (meanings t name (map snd (hits t flags)) = lors (hits t flags)) as ->.
  { assert (F : Forall (fun f => meaning t name (snd f) = fst f) (hits t flags)).
    { apply Forall_forall. intros f K. apply filter_In in K. rewrite Forall_forall in O1. apply O1. tauto. }
    clear O1 O2 C. induction F as [|f l E F IH]; cbn [map meanings fold_right lors]; [reflexivity|].
    fold (meanings t name (map snd l)). fold (lors l). rewrite E, IH. reflexivity. }
  assert (meanings t name rest = left_of t flags flags) as ->.
  { destruct C as [(A & ->)|(A & h & Ch & ->)]; [rewrite A; reflexivity|].
    cbn [meanings fold_right]. rewrite O2, Z.lor_0_r. destruct Ch as ((_ & _ & V) & _). exact V. }
  rewrite lors_left. apply lors_flags.
Qed.
Definition alien (t : list (Z * list Z)) (name : list Z) (t' : list (Z * list Z)) (name' : list Z) : Prop :=
  Forall (fun f => meaning t name (snd f) = 0) t' /\ forall h, meaning t name (name' ++ str "(0x" ++ h ++ [41]) = 0.
Lemma toks_alien t name t' name' flags ts : alien t name t' name' -> toks t' name' flags ts -> meanings t name ts = 0.
Proof.
  intros (O1 & O2) (rest & -> & C). apply meanings_zero. apply Forall_app. split.
  - apply Forall_forall. intros w K. apply in_map_iff in K. destruct K as (f & <- & K). apply filter_In in K. rewrite Forall_forall in O1. apply O1. tauto.
  - destruct C as [(_ & ->)|(_ & h & _ & ->)]; repeat constructor. apply O2.
Qed.
Lemma named_own t name h : named t (name ++ str "(0x" ++ h ++ [41]) = None -> meaning t name (name ++ str "(0x" ++ h ++ [41]) = value 16 h.
Proof.
  intros N. unfold meaning. rewrite N. rewrite app_assoc. unfold starts. rewrite firstn_app, Nat.sub_diag, firstn_all. cbn [firstn].
  rewrite app_nil_r, list_eqb_refl. rewrite skipn_app, Nat.sub_diag, skipn_all. cbn [skipn app]. rewrite removelast_last. reflexivity.
Qed.
Lemma own_key : own kControlKeyStates (str "keyState").
Proof. split; [repeat constructor|]. intros h. apply named_own. reflexivity. Qed.
Lemma own_mouse : own kMouseEventFlags (str "flags").
Proof. split; [repeat constructor|]. intros h. apply named_own. reflexivity. Qed.
Lemma own_button : own kButtonStates (str "buttons").
Proof. split; [repeat constructor|]. intros h. apply named_own. reflexivity. Qed.
Ltac aliens := split; [repeat constructor|intros h; reflexivity].
Lemma alien_km : alien kControlKeyStates (str "keyState") kMouseEventFlags (str "flags"). Proof. aliens. Qed.
Lemma alien_kb : alien kControlKeyStates (str "keyState") kButtonStates (str "buttons"). Proof. aliens. Qed.
Lemma alien_mk : alien kMouseEventFlags (str "flags") kControlKeyStates (str "keyState"). Proof. aliens. Qed.
Lemma alien_mb : alien kMouseEventFlags (str "flags") kButtonStates (str "buttons"). Proof. aliens. Qed.
Lemma alien_bk : alien kButtonStates (str "buttons") kControlKeyStates (str "keyState"). Proof. aliens. Qed.
Lemma alien_bm : alien kButtonStates (str "buttons") kMouseEventFlags (str "flags"). Proof. aliens. Qed.

(** No separator in a word *)
Lemma toks_avoid c t name flags ts : dval c < 0 -> c <> 40 -> c <> 41 -> forallb (fun f => negb (existsb (Z.eqb c) (snd f))) t = true ->
  existsb (Z.eqb c) (name ++ str "(0x") = false -> toks t name flags ts -> Forall (fun w => ~ In c w) ts.
Proof.
  intros D P1 P2 A B (rest & -> & C). apply Forall_app. split.
  - apply Forall_forall. intros w K. apply in_map_iff in K. destruct K as (f & <- & K). apply filter_In in K. destruct K as (K & _).
    rewrite forallb_forall in A. specialize (A f K). intros I9. apply negb_true_iff in A.
    assert (existsb (Z.eqb c) (snd f) = true) by (apply existsb_exists; exists c; split; [exact I9|apply Z.eqb_refl]). congruence.
  - destruct C as [(_ & ->)|(_ & h & Ch & ->)]; [constructor|]. constructor; [|constructor]. rewrite app_assoc.
    intros K. apply in_app_or in K. destruct K as [K|K].
    + assert (existsb (Z.eqb c) (name ++ str "(0x") = true) by (apply existsb_exists; exists c; split; [exact K|apply Z.eqb_refl]). congruence.
    + apply in_app_or in K. destruct K as [K|[K|[]]]; [exact (canonical_avoid _ _ _ c Ch D K)|congruence].
Qed.

(** ** The texts of keys *)
Lemma vk_find_in t vk n : vk_find t vk = Some n -> In (vk, n) t.
Proof.
  induction t as [|[v x] t IH]; cbn [vk_find]; [discriminate|]. destruct (Z.eqb_spec v vk) as [->|N].
  - intros [= ->]. left. reflexivity.
  - intros H. right. auto.
Qed.
Lemma names_distinct_vk : forallb (fun a => forallb (fun b => implb (list_eqb (snd a) (snd b)) (fst a =? fst b)) vk_names) vk_names = true.
Proof. vm_compute. reflexivity. Qed.
Definition word_ok (n : list Z) : bool :=
  forallb (fun c => (58 <=? c) || ((48 <=? c) && (c <=? 57))) n && match n with c :: _ :: _ => 58 <=? c | _ => false end.
Lemma names_words : forallb (fun a => word_ok (snd a)) vk_names = true.
Proof. vm_compute. reflexivity. Qed.

Inductive vk_form (vk : Z) : list Z -> Prop :=
| vk_name n : In (vk, n) vk_names -> vk_form vk n
| vk_char : (65 <= vk <= 90 \/ 48 <= vk <= 57) -> vk_form vk [vk]
| vk_zero : vk = 0 -> vk_form vk [48]
| vk_hex h : vk <> 0 -> canonical 16 h vk -> vk_form vk (48 :: 120 :: h).
Lemma canonical_zero h : canonical 16 h 0 -> h = [48].
Proof. intros C. apply (canonical_unique 16 h [48] 0); [lia|exact C|]. exact (canonical_digit 16 48 ltac:(lia) ltac:(cbv; split; congruence)). Qed.
Lemma vkText_ok vk : 0 <= vk < 2 ^ 16 -> exists n, vkText vk = Ok n /\ vk_form vk n.
Proof.
  intros R. unfold vkText, getVirtualKeyString. destruct (vk_find vk_names vk) as [n|] eqn:E.
  - exists n. split; [reflexivity|]. constructor. apply vk_find_in. exact E.
  - destruct (_ || _) eqn:B.
    + exists [vk]. split; [reflexivity|]. constructor 2. lia.
    + destruct (c_hex_ok vk ltac:(lia)) as (h & -> & C). eexists. split; [reflexivity|].
      destruct (Z.eqb_spec vk 0) as [->|N]; cbn [app].
      * rewrite (canonical_zero h C). constructor 3. reflexivity.
      * change (str "0x" ++ h) with (48 :: 120 :: h). constructor 4; auto.
Qed.
Lemma vk_form_word vk n : vk_form vk n -> forall c, c < 48 -> ~ In c n.
Proof.
  intros F c L K. destruct F as [n F|F|F|h N C].
  - pose proof names_words as W. rewrite forallb_forall in W. specialize (W _ F). apply andb_prop in W. destruct W as (W & _).
    rewrite forallb_forall in W. specialize (W c K). lia.
  - destruct K as [K|[]]. lia.
  - destruct K as [K|[]]. lia.
  - destruct K as [K|[K|K]]; [lia|lia|]. apply (canonical_avoid _ _ _ c C); [|exact K].
    unfold dval. rewrite (proj2 (Z.leb_gt 48 c)) by lia. rewrite (proj2 (Z.leb_gt 97 c)) by lia. cbn [andb]. lia.
Qed.
Lemma vk_form_inj v w n : vk_form v n -> vk_form w n -> v = w \/ (v = 0 /\ w = 48) \/ (v = 48 /\ w = 0).
Proof.
  assert (NW : forall x m, In (x, m) vk_names -> match m with c :: _ :: _ => 58 <= c | _ => False end).
  { intros x m K. pose proof names_words as W. rewrite forallb_forall in W. specialize (W _ K). apply andb_prop in W. destruct W as (_ & W).
    cbn [snd] in W. destruct m as [|c [|d m]]; try discriminate W. lia. }
  intros F G. destruct F as [n F|F|F|h N C]; inversion G as [n' G' E1|G' E1|G' E1|h' N' C' E1]; subst; auto;
    try (exfalso; apply NW in F; cbn in F; lia); try (exfalso; apply NW in G'; cbn in G'; lia).
  - left. pose proof names_distinct_vk as D. rewrite forallb_forall in D. specialize (D _ F). rewrite forallb_forall in D. specialize (D _ G').
    cbn [fst snd] in D. rewrite list_eqb_refl in D. cbn in D. apply Z.eqb_eq in D. exact D.
  - left. exact (canonical_value _ _ _ _ C C').
Qed.

Inductive ch_form (ch : Z) : list Z -> Prop :=
| ch_char : 32 <= ch <= 126 -> ch_form ch ([99; 104; 61; 39] ++ [ch; 39])
| ch_hex p h : canonical 16 h ch -> p = [] \/ p = str "0x" -> (ch = 0 <-> p = []) -> ch_form ch ([99; 104; 61] ++ p ++ h).
Lemma chText_ok ch : 0 <= ch < 2 ^ 16 -> exists n, chText ch = Ok (32 :: n) /\ ch_form ch n.
Proof.
  intros R. unfold chText. destruct (_ && _) eqn:B.
  - eexists. split; [reflexivity|]. exact (ch_char ch ltac:(lia)).
  - destruct (c_hex_ok ch ltac:(lia)) as (h & -> & C). eexists. split; [reflexivity|].
    apply (ch_hex ch (if ch =? 0 then [] else str "0x") h C).
    + destruct (ch =? 0); auto.
    + destruct (Z.eqb_spec ch 0); split; try reflexivity; try discriminate; try contradiction; auto.
Qed.
Lemma ch_form_inj a b n : ch_form a n -> ch_form b n -> a = b.
Proof.
  intros F G. destruct F as [F|p h C P Q]; inversion G as [G' E1|p' h' C' P' Q' E1]; subst.
  - reflexivity.
  - exfalso. destruct P' as [-> | ->].
    + cbn [app] in E1. destruct C' as ((_ & D & _) & _). rewrite E1 in D. inversion D as [|? ? D1 D2]. change (dval 39) with (-1) in D1. lia.
    + discriminate E1.
  - exfalso. destruct P as [-> | ->].
    + cbn [app] in E1. destruct C as ((_ & D & _) & _). rewrite <- E1 in D. inversion D as [|? ? D1 D2]. change (dval 39) with (-1) in D1. lia.
    + discriminate E1.
  - destruct P as [-> | ->], P' as [-> | ->].
    + rewrite (proj2 Q eq_refl), (proj2 Q' eq_refl). reflexivity.
    + exfalso. rewrite (proj2 Q eq_refl) in C. rewrite (canonical_zero h C) in E1. discriminate E1.
    + exfalso. rewrite (proj2 Q' eq_refl) in C'. rewrite (canonical_zero h' C') in E1. discriminate E1.
    + change (48 :: 120 :: h' = 48 :: 120 :: h) in E1. injection E1 as ->. exact (canonical_value _ _ _ _ C C').
Qed.
Lemma ch_form_line ch n : ch_form ch n -> ~ In 10 n.
Proof.
  intros F K. destruct F as [F|p h C P Q].
  - cbn in K. intuition lia.
  - apply in_app_or in K. destruct K as [K|K]; [cbn in K; intuition lia|]. apply in_app_or in K. destruct K as [K|K].
    + destruct P as [-> | ->]; [destruct K|cbn in K; intuition lia].
    + exact (canonical_avoid _ _ _ 10 C ltac:(cbv; congruence) K).
Qed.

Lemma key_ok_tab : Forall (fun f : Z * list Z => 0 <= fst f) kControlKeyStates. Proof. repeat constructor; discriminate. Qed.
Lemma mouse_ok_tab : Forall (fun f : Z * list Z => 0 <= fst f) kMouseEventFlags. Proof. repeat constructor; discriminate. Qed.
Lemma button_ok_tab : Forall (fun f : Z * list Z => 0 <= fst f) kButtonStates. Proof. repeat constructor; discriminate. Qed.

(** Key::toString *)
Definition key_form (vk ch st : Z) (t : list Z) : Prop :=
  exists ts k c, toks kControlKeyStates (str "keyState") st ts /\ vk_form vk k /\ ch_form ch c /\
    t = concat (map (fun s => s ++ [45]) ts) ++ k ++ 32 :: c.
Lemma keyToString_ok vk ch st : 0 <= vk < 2 ^ 16 -> 0 <= ch < 2 ^ 16 -> 0 <= st < 2 ^ 32 ->
  exists t, keyToString vk ch st = Ok t /\ key_form vk ch st t.
Proof.
  intros V C S. unfold keyToString, controlKeyStatePrefix.
  destruct (write_dash st (str "keyState") kControlKeyStates key_ok_tab S) as (ts & -> & T). cbn [bind].
  destruct (vkText_ok vk V) as (k & -> & K). cbn [bind]. destruct (chText_ok ch C) as (c & -> & D). cbn [bind].
  eexists. split; [reflexivity|]. exists ts, k, c. auto.
Qed.
Lemma toks_key_avoid c st ts : c = 32 \/ c = 45 \/ c = 10 -> toks kControlKeyStates (str "keyState") st ts -> Forall (fun w => ~ In c w) ts.
Proof. intros [->|[-> | ->]]; apply toks_avoid; try reflexivity; discriminate. Qed.
Lemma concat_avoid (c d : Z) ts : c <> d -> Forall (fun w => ~ In c w) ts -> ~ In c (concat (map (fun s => s ++ [d]) ts)).
Proof.
  intros N F K. induction F as [|w ts A F IH]; cbn [map concat] in K; [destruct K|].
  apply in_app_or in K. destruct K as [K|K]; [|exact (IH K)]. apply in_app_or in K. destruct K as [K|[K|[]]]; [exact (A K)|congruence].
Qed.
Lemma concat_avoid' (c d : Z) ts : c <> d -> Forall (fun w => ~ In c w) ts -> ~ In c (concat (map (cons d) ts)).
Proof.
  intros N F K. induction F as [|w ts A F IH]; cbn [map concat] in K; [destruct K|].
  destruct K as [K|K]; [congruence|]. apply in_app_or in K. destruct K as [K|K]; [exact (A K)|exact (IH K)].
Qed.
Lemma key_form_line vk ch st t : key_form vk ch st t -> ~ In 10 t.
Proof.
  intros (ts & k & c & T & K & C & ->) X. apply in_app_or in X. destruct X as [X|X].
  - exact (concat_avoid 10 45 ts ltac:(discriminate) (toks_key_avoid 10 st ts ltac:(auto) T) X).
  - apply in_app_or in X. destruct X as [X|[X|X]]; [exact (vk_form_word _ _ K 10 ltac:(lia) X)|discriminate X|exact (ch_form_line _ _ C X)].
Qed.
Lemma key_form_inj vk ch st vk' ch' st' t : key_form vk ch st t -> key_form vk' ch' st' t ->
  (vk = vk' \/ (vk = 0 /\ vk' = 48) \/ (vk = 48 /\ vk' = 0)) /\ ch = ch' /\ st = st'.
Proof.
  intros (ts & k & c & T & K & C & E) (ts' & k' & c' & T' & K' & C' & E'). rewrite E in E'. rewrite !app_assoc in E'.
  assert (A : ~ In 32 (concat (map (fun s => s ++ [45]) ts) ++ k)).
  { intros X. apply in_app_or in X. destruct X as [X|X]; [|exact (vk_form_word _ _ K 32 ltac:(lia) X)].
    exact (concat_avoid 32 45 ts ltac:(discriminate) (toks_key_avoid 32 st ts ltac:(auto) T) X). }
  assert (A' : ~ In 32 (concat (map (fun s => s ++ [45]) ts') ++ k')).
  { intros X. apply in_app_or in X. destruct X as [X|X]; [|exact (vk_form_word _ _ K' 32 ltac:(lia) X)].
    exact (concat_avoid 32 45 ts' ltac:(discriminate) (toks_key_avoid 32 st' ts' ltac:(auto) T') X). }
  destruct (split_first 32 _ _ _ _ A A' E') as (E1 & <-).
  destruct (split_end 45 ts ts' k k') as (<- & <-); auto.
  - apply (vk_form_word _ _ K). lia.
  - apply (vk_form_word _ _ K'). lia.
  - apply (toks_key_avoid 45 st); auto.
  - apply (toks_key_avoid 45 st'); auto.
  - splits; [exact (vk_form_inj _ _ _ K K')|exact (ch_form_inj _ _ _ C C')|].
    rewrite <- (toks_meaning _ _ _ _ own_key T), <- (toks_meaning _ _ _ _ own_key T'). reflexivity.
Qed.

(** ** Mouse records *)
Definition wheel_words (wheel : Z) (ws : list (list Z)) : Prop :=
  (wheel = 0 /\ ws = []) \/ (wheel <> 0 /\ exists d, decimal d wheel /\ ws = [str "wheel=" ++ d]).
Definition mouse_form (x y button st fl : Z) (t : list Z) : Prop :=
  exists px py kt ft bt wt, decimal px x /\ decimal py y /\ toks kControlKeyStates (str "keyState") st kt /\
    toks kMouseEventFlags (str "flags") fl ft /\ toks kButtonStates (str "buttons") (button mod 2 ^ 16) bt /\
    wheel_words (s16 (button / 2 ^ 16)) wt /\
    t = str "pos=" ++ px ++ 44 :: py ++ concat (map (cons 32) (kt ++ ft ++ bt ++ wt)).
Lemma int16_range v : - 2 ^ 15 <= v < 2 ^ 15 -> int_range true 2 v.
Proof. intros H. unfold int_range. exact H. Qed.
Lemma s16_range v : - 2 ^ 15 <= s16 v < 2 ^ 15.
Proof. unfold s16, wraps. cbv zeta. pose proof (Z.mod_pos_bound v (2 ^ 16) ltac:(lia)). change (2 ^ (16 - 1)) with (2 ^ 15). destruct (Z.ltb_spec (v mod 2 ^ 16) (2 ^ 15)); lia. Qed.
Lemma mouse_ok x y b st fl : record_ok (IMouse x y b st fl) -> exists t, mouseEventToString x y b st fl = Ok t /\ mouse_form x y b st fl t.
Proof.
  intros (X & Y & B & S & F). unfold mouseEventToString.
  assert (EB : Z.land b 0xFFFF = b mod 2 ^ 16) by (change 0xFFFF with (Z.ones 16); apply Z.land_ones; lia).
  assert (EW : Z.shiftr b 16 = b / 2 ^ 16) by (apply Z.shiftr_div_pow2; lia). rewrite EB, EW.
  destruct (put_dec_ok true 2 x ltac:(lia) (int16_range x X)) as (px & -> & PX). cbn [bind].
  destruct (put_dec_ok true 2 y ltac:(lia) (int16_range y Y)) as (py & -> & PY). cbn [bind].
  destruct (write_space st (str "keyState") kControlKeyStates key_ok_tab S) as (kt & -> & KT). cbn [bind].
  destruct (write_space fl (str "flags") kMouseEventFlags mouse_ok_tab F) as (ft & -> & FT). cbn [bind].
  pose proof (Z.mod_pos_bound b (2 ^ 16) ltac:(lia)) as BM.
  destruct (write_space (b mod 2 ^ 16) (str "buttons") kButtonStates button_ok_tab ltac:(lia)) as (bt & -> & BT). cbn [bind].
  set (w := s16 (b / 2 ^ 16)). destruct (put_dec_ok true 2 w ltac:(lia) (int16_range w (s16_range _))) as (d & -> & D). cbn [bind].
  eexists. split; [reflexivity|]. exists px, py, kt, ft, bt, (if w =? 0 then [] else [str "wheel=" ++ d]). splits; auto.
  - fold w. destruct (Z.eqb_spec w 0) as [E|E]; [left; auto|right]. split; [exact E|]. exists d. auto.
  - rewrite !map_app, !concat_app. destruct (w =? 0); cbn [map concat]; rewrite ?app_nil_r; reflexivity.
Qed.
Lemma wheel_alien t name w ws : (forall d, meaning t name (str "wheel=" ++ d) = 0) -> wheel_words w ws -> meanings t name ws = 0.
Proof. intros A [(_ & ->)|(_ & d & _ & ->)]; [reflexivity|]. cbn [meanings fold_right]. rewrite A. reflexivity. Qed.
Definition is_wheel (w : list Z) : bool := starts (str "wheel=") w.
Lemma toks_not_wheel t name fl ts : forallb (fun f => negb (is_wheel (snd f))) t = true -> (forall h, is_wheel (name ++ str "(0x" ++ h ++ [41]) = false) ->
  toks t name fl ts -> filter is_wheel ts = [].
Proof.
  intros A B (rest & -> & C). rewrite filter_app.
  assert (filter is_wheel (map snd (hits t fl)) = []) as ->.
  { unfold hits. clear B C. induction t as [|f t IH]; [reflexivity|]. cbn [forallb] in A. apply andb_prop in A. destruct A as (A1 & A2).
    cbn [filter]. destruct (hit fl f); auto. cbn [map filter]. apply negb_true_iff in A1. rewrite A1. auto. }
  destruct C as [(_ & ->)|(_ & h & _ & ->)]; [reflexivity|]. cbn [filter app]. rewrite B. reflexivity.
Qed.
Lemma wheel_filter w ws : wheel_words w ws -> filter is_wheel ws = ws.
Proof. intros [(_ & ->)|(_ & d & _ & ->)]; reflexivity. Qed.
Lemma wheel_inj v w ws : wheel_words v ws -> wheel_words w ws -> v = w.
Proof.
  intros [(A & ->)|(A & d & D & ->)] [(B & E)|(B & e & F & E)]; try discriminate E; [congruence|].
  assert (X : str "wheel=" ++ d = str "wheel=" ++ e) by congruence. apply app_inv_head in X. subst e. exact (decimal_value _ _ _ D F).
Qed.
Lemma wheel_avoid c w ws : c = 32 \/ c = 10 -> wheel_words w ws -> Forall (fun s => ~ In c s) ws.
Proof.
  intros C [(_ & ->)|(_ & d & D & ->)]; [constructor|]. constructor; [|constructor]. intros K. apply in_app_or in K. destruct K as [K|K].
  - destruct C as [-> | ->]; cbn in K; intuition discriminate.
  - apply (decimal_avoid _ _ c D); [| |exact K]; destruct C as [-> | ->]; try reflexivity; discriminate.
Qed.
Lemma mouse_words_avoid c st fl b w kt ft bt wt : c = 32 \/ c = 10 -> toks kControlKeyStates (str "keyState") st kt ->
  toks kMouseEventFlags (str "flags") fl ft -> toks kButtonStates (str "buttons") b bt -> wheel_words w wt ->
  Forall (fun s => ~ In c s) (kt ++ ft ++ bt ++ wt).
Proof.
  intros C K F B W. repeat (apply Forall_app; split).
  - destruct C as [-> | ->]; revert K; apply toks_avoid; try reflexivity; discriminate.
  - destruct C as [-> | ->]; revert F; apply toks_avoid; try reflexivity; discriminate.
  - destruct C as [-> | ->]; revert B; apply toks_avoid; try reflexivity; discriminate.
  - exact (wheel_avoid c w wt C W).
Qed.
Lemma mouse_form_line x y b st fl t : mouse_form x y b st fl t -> ~ In 10 t.
Proof.
  intros (px & py & kt & ft & bt & wt & PX & PY & K & F & B & W & ->) X. apply in_app_or in X. destruct X as [X|X]; [cbn in X; intuition discriminate|].
  apply in_app_or in X. destruct X as [X|[X|X]]; [exact (decimal_avoid _ _ 10 PX ltac:(reflexivity) ltac:(discriminate) X)|discriminate X|].
  apply in_app_or in X. destruct X as [X|X]; [exact (decimal_avoid _ _ 10 PY ltac:(reflexivity) ltac:(discriminate) X)|].
  exact (concat_avoid' 10 32 _ ltac:(discriminate) (mouse_words_avoid 10 st fl _ _ kt ft bt wt ltac:(auto) K F B W) X).
Qed.
Lemma button_split b b' : 0 <= b < 2 ^ 32 -> 0 <= b' < 2 ^ 32 -> b mod 2 ^ 16 = b' mod 2 ^ 16 -> s16 (b / 2 ^ 16) = s16 (b' / 2 ^ 16) -> b = b'.
Proof.
  intros B B' L H. assert (D : b / 2 ^ 16 = b' / 2 ^ 16).
  { assert (R : 0 <= b / 2 ^ 16 < 2 ^ 16) by (split; [apply Z.div_pos; lia|apply Z.div_lt_upper_bound; lia]).
    assert (R' : 0 <= b' / 2 ^ 16 < 2 ^ 16) by (split; [apply Z.div_pos; lia|apply Z.div_lt_upper_bound; lia]).
    unfold s16, wraps in H. cbv zeta in H. rewrite !Z.mod_small in H by lia. change (2 ^ (16 - 1)) with (2 ^ 15) in H.
    destruct (Z.ltb_spec (b / 2 ^ 16) (2 ^ 15)), (Z.ltb_spec (b' / 2 ^ 16) (2 ^ 15)); lia. }
  rewrite (Z.div_mod b (2 ^ 16)), (Z.div_mod b' (2 ^ 16)) by lia. congruence.
Qed.
Lemma mouse_form_inj x y b st fl x' y' b' st' fl' t : 0 <= b < 2 ^ 32 -> 0 <= b' < 2 ^ 32 ->
  mouse_form x y b st fl t -> mouse_form x' y' b' st' fl' t ->
  x = x' /\ y = y' /\ b = b' /\ st = st' /\ fl = fl'.
Proof.
  intros Rb Rb' (px & py & kt & ft & bt & wt & PX & PY & K & F & B & W & E) (px' & py' & kt' & ft' & bt' & wt' & PX' & PY' & K' & F' & B' & W' & E').
  rewrite E in E'. apply app_inv_head in E'.
  destruct (split_first 44 px px' _ _ (decimal_avoid _ _ 44 PX ltac:(reflexivity) ltac:(discriminate)) (decimal_avoid _ _ 44 PX' ltac:(reflexivity) ltac:(discriminate)) E') as (<- & E2).
  destruct (split_all 32 _ _ _ _ (decimal_avoid _ _ 32 PY ltac:(reflexivity) ltac:(discriminate)) (decimal_avoid _ _ 32 PY' ltac:(reflexivity) ltac:(discriminate))
    (mouse_words_avoid 32 st fl _ _ kt ft bt wt ltac:(auto) K F B W) (mouse_words_avoid 32 st' fl' _ _ kt' ft' bt' wt' ltac:(auto) K' F' B' W') E2) as (<- & EW).
  assert (MK : meanings kControlKeyStates (str "keyState") (kt ++ ft ++ bt ++ wt) = meanings kControlKeyStates (str "keyState") (kt' ++ ft' ++ bt' ++ wt')) by congruence.
  rewrite !meanings_app, !(toks_meaning _ _ _ _ own_key K), !(toks_meaning _ _ _ _ own_key K'), (toks_alien _ _ _ _ _ _ alien_km F), (toks_alien _ _ _ _ _ _ alien_km F'),
    (toks_alien _ _ _ _ _ _ alien_kb B), (toks_alien _ _ _ _ _ _ alien_kb B'), (wheel_alien kControlKeyStates (str "keyState") _ _ (fun d => eq_refl) W), (wheel_alien kControlKeyStates (str "keyState") _ _ (fun d => eq_refl) W') in MK.
  rewrite !Z.lor_0_l, !Z.lor_0_r in MK.
  assert (MF : meanings kMouseEventFlags (str "flags") (kt ++ ft ++ bt ++ wt) = meanings kMouseEventFlags (str "flags") (kt' ++ ft' ++ bt' ++ wt')) by congruence.
  rewrite !meanings_app, !(toks_meaning _ _ _ _ own_mouse F), !(toks_meaning _ _ _ _ own_mouse F'), (toks_alien _ _ _ _ _ _ alien_mk K), (toks_alien _ _ _ _ _ _ alien_mk K'),
    (toks_alien _ _ _ _ _ _ alien_mb B), (toks_alien _ _ _ _ _ _ alien_mb B'), (wheel_alien kMouseEventFlags (str "flags") _ _ (fun d => eq_refl) W), (wheel_alien kMouseEventFlags (str "flags") _ _ (fun d => eq_refl) W') in MF.
  rewrite !Z.lor_0_l, !Z.lor_0_r in MF.
  assert (MB : meanings kButtonStates (str "buttons") (kt ++ ft ++ bt ++ wt) = meanings kButtonStates (str "buttons") (kt' ++ ft' ++ bt' ++ wt')) by congruence.
  rewrite !meanings_app, !(toks_meaning _ _ _ _ own_button B), !(toks_meaning _ _ _ _ own_button B'), (toks_alien _ _ _ _ _ _ alien_bk K), (toks_alien _ _ _ _ _ _ alien_bk K'),
    (toks_alien _ _ _ _ _ _ alien_bm F), (toks_alien _ _ _ _ _ _ alien_bm F'), (wheel_alien kButtonStates (str "buttons") _ _ (fun d => eq_refl) W), (wheel_alien kButtonStates (str "buttons") _ _ (fun d => eq_refl) W') in MB.
  rewrite !Z.lor_0_l, !Z.lor_0_r in MB.
  assert (MW : filter is_wheel (kt ++ ft ++ bt ++ wt) = filter is_wheel (kt' ++ ft' ++ bt' ++ wt')) by congruence.
  rewrite !filter_app, (wheel_filter _ _ W), (wheel_filter _ _ W') in MW.
  rewrite (toks_not_wheel kControlKeyStates (str "keyState") _ _ ltac:(reflexivity) (fun h => eq_refl) K), (toks_not_wheel kControlKeyStates (str "keyState") _ _ ltac:(reflexivity) (fun h => eq_refl) K'),
    (toks_not_wheel kMouseEventFlags (str "flags") _ _ ltac:(reflexivity) (fun h => eq_refl) F), (toks_not_wheel kMouseEventFlags (str "flags") _ _ ltac:(reflexivity) (fun h => eq_refl) F'),
    (toks_not_wheel kButtonStates (str "buttons") _ _ ltac:(reflexivity) (fun h => eq_refl) B), (toks_not_wheel kButtonStates (str "buttons") _ _ ltac:(reflexivity) (fun h => eq_refl) B') in MW. cbn [app] in MW. subst wt'.
  splits; auto.
  - exact (decimal_value _ _ _ PX PX').
  - exact (decimal_value _ _ _ PY PY').
  - apply button_split; auto. exact (wheel_inj _ _ _ W W').
Qed.

(** ** Lines *)
Inductive line_form : irec -> list Z -> Prop :=
| lf_key down rpt vk scan ch st n c p k : decimal n rpt -> canonical 16 c scan -> p = [] \/ p = str "0x" -> (scan = 0 <-> p = []) ->
    key_form vk ch (st mod 2 ^ 16) k ->
    line_form (IKey down rpt vk scan ch st)
      (str "key: " ++ (if down then str "dn" else str "up") ++ str " rpt=" ++ n ++ 32 :: str "scn=" ++ (p ++ c) ++ 32 :: k)
| lf_mouse x y b st fl m : 0 <= b < 2 ^ 32 -> mouse_form x y b st fl m -> line_form (IMouse x y b st fl) (str "mouse: " ++ m)
| lf_resize x y px py : decimal px x -> decimal py y -> line_form (IResize x y) (str "buffer-resized: dwSize=(" ++ px ++ 44 :: py ++ [41])
| lf_menu id h : canonical 16 h id -> line_form (IMenu id) (str "menu-event: commandId=0x" ++ h)
| lf_focus g : line_form (IFocus g) (str "focus: " ++ (if g : bool then str "gained" else str "lost")).
Lemma recordText_ok r : record_ok r -> r <> IOther -> exists t, recordText r = Ok (t ++ [10]) /\ line_form r t.
Proof.
  intros R N. destruct r as [down rpt vk scan ch st|x y b st fl|x y|id|g|]; [| | | | |congruence].
  - destruct R as (R1 & R2 & R3 & R4 & R5). cbn [recordText].
    destruct (put_dec_ok false 2 rpt ltac:(lia)) as (n & -> & Dn); [exact R1|]. cbn [bind].
    destruct (put_hex_ok 2 scan ltac:(lia)) as (c & -> & Cc); [exact R3|]. cbn [bind].
    pose proof (Z.mod_pos_bound st (2 ^ 16) ltac:(lia)) as SM.
    destruct (keyToString_ok vk ch (st mod 2 ^ 16) R2 R4 ltac:(lia)) as (k & Ek & K).
    assert (Eu : u16 st = st mod 2 ^ 16) by reflexivity. rewrite Eu, Ek. cbn [bind].
    exists (str "key: " ++ (if down then str "dn" else str "up") ++ str " rpt=" ++ n ++ 32 :: str "scn=" ++ ((if scan =? 0 then [] else str "0x") ++ c) ++ 32 :: k).
    split.
    + f_equal. rewrite <- !app_assoc. change (str " scn=") with (32 :: str "scn="). cbn [app]. rewrite <- ?app_assoc. cbn [app]. rewrite <- ?app_assoc. reflexivity.
    + constructor; auto; destruct (Z.eqb_spec scan 0); auto; split; try reflexivity; try discriminate; try contradiction; auto.
  - cbn [recordText]. destruct (mouse_ok x y b st fl R) as (m & -> & M). cbn [bind]. eexists. rewrite app_assoc. split; [reflexivity|].
    constructor; [cbn in R; tauto|exact M].
  - destruct R as (R1 & R2). cbn [recordText].
    destruct (put_dec_ok true 2 x ltac:(lia) (int16_range x R1)) as (px & -> & PX). cbn [bind].
    destruct (put_dec_ok true 2 y ltac:(lia) (int16_range y R2)) as (py & -> & PY). cbn [bind].
    exists (str "buffer-resized: dwSize=(" ++ px ++ 44 :: py ++ [41]). split; [|constructor; auto].
    f_equal. rewrite <- !app_assoc. cbn [app]. rewrite <- !app_assoc. reflexivity.
  - cbn [recordText]. destruct (put_hex_ok 4 id ltac:(lia)) as (h & -> & C); [exact R|]. cbn [bind].
    eexists. rewrite app_assoc. split; [reflexivity|]. constructor. exact C.
  - cbn [recordText]. eexists. rewrite app_assoc. split; [reflexivity|]. constructor.
Qed.
Ltac here := cbn; intuition discriminate.
Lemma scan_avoid p c scan d : p = [] \/ p = str "0x" -> canonical 16 c scan -> dval d < 0 -> d <> 120 -> ~ In d (p ++ c).
Proof.
  intros P C D N K. apply in_app_or in K. destruct K as [K|K]; [|exact (canonical_avoid _ _ _ d C D K)].
  destruct P as [-> | ->]; [destruct K|]. change (In d [48; 120]) in K. destruct K as [K|[K|[]]]; subst d; [discriminate D|congruence].
Qed.
Lemma line_one r t : line_form r t -> ~ In 10 t.
Proof.
  intros F X. destruct F as [down rpt vk scan ch st n c p k Dn Cc P Q K|x y b st fl m B M|x y px py PX PY|id h C|g].
  - apply in_app_or in X. destruct X as [X|X]; [revert X; here|]. apply in_app_or in X. destruct X as [X|X]; [destruct down; revert X; here|].
    apply in_app_or in X. destruct X as [X|X]; [revert X; here|]. apply in_app_or in X. destruct X as [X|[X|X]]; [|discriminate X|].
    { exact (decimal_avoid _ _ 10 Dn ltac:(reflexivity) ltac:(discriminate) X). }
    apply in_app_or in X. destruct X as [X|X]; [revert X; here|]. apply in_app_or in X. destruct X as [X|[X|X]]; [|discriminate X|].
    { exact (scan_avoid p c scan 10 P Cc ltac:(reflexivity) ltac:(discriminate) X). }
    exact (key_form_line _ _ _ _ K X).
  - apply in_app_or in X. destruct X as [X|X]; [revert X; here|]. exact (mouse_form_line _ _ _ _ _ _ M X).
  - apply in_app_or in X. destruct X as [X|X]; [revert X; here|]. apply in_app_or in X. destruct X as [X|[X|X]]; [|discriminate X|].
    { exact (decimal_avoid _ _ 10 PX ltac:(reflexivity) ltac:(discriminate) X). }
    apply in_app_or in X. destruct X as [X|[X|[]]]; [|discriminate X]. exact (decimal_avoid _ _ 10 PY ltac:(reflexivity) ltac:(discriminate) X).
  - apply in_app_or in X. destruct X as [X|X]; [revert X; here|]. exact (canonical_avoid _ _ _ 10 C ltac:(reflexivity) X).
  - destruct g; revert X; here.
Qed.
Lemma scan_inj p c v p' c' w : p = [] \/ p = str "0x" -> (v = 0 <-> p = []) -> canonical 16 c v ->
  p' = [] \/ p' = str "0x" -> (w = 0 <-> p' = []) -> canonical 16 c' w -> p ++ c = p' ++ c' -> v = w.
Proof.
  intros P Q C P' Q' C' E1. destruct P as [-> | ->], P' as [-> | ->].
  - rewrite (proj2 Q eq_refl), (proj2 Q' eq_refl). reflexivity.
  - exfalso. rewrite (proj2 Q eq_refl) in C. rewrite (canonical_zero c C) in E1. discriminate E1.
  - exfalso. rewrite (proj2 Q' eq_refl) in C'. rewrite (canonical_zero c' C') in E1. discriminate E1.
  - apply app_inv_head in E1. subst. exact (canonical_value _ _ _ _ C C').
Qed.
Lemma line_inj r s t : line_form r t -> line_form s t -> same_event r s.
Proof.
  intros F G. remember t as u eqn:E in G.
  destruct F as [down rpt vk scan ch st n c p k Dn Cc P Q K|x y b st fl m B M|x y px py PX PY|id h C|g];
  destruct G as [down' rpt' vk' scan' ch' st' n' c' p' k' Dn' Cc' P' Q' K'|x' y' b' st' fl' m' B' M'|x' y' px' py' PX' PY'|id' h' C'|g'];
  try discriminate E.
  - apply app_inv_head in E. assert (down' = down) as -> by (destruct down, down'; try reflexivity; discriminate E).
    apply app_inv_head in E. apply app_inv_head in E.
    destruct (split_first 32 _ _ _ _ (decimal_avoid _ _ 32 Dn' ltac:(reflexivity) ltac:(discriminate)) (decimal_avoid _ _ 32 Dn ltac:(reflexivity) ltac:(discriminate)) E) as (-> & E2).
    apply app_inv_head in E2.
    destruct (split_first 32 _ _ _ _ (scan_avoid p' c' scan' 32 P' Cc' ltac:(reflexivity) ltac:(discriminate)) (scan_avoid p c scan 32 P Cc ltac:(reflexivity) ltac:(discriminate)) E2) as (E3 & ->).
    destruct (key_form_inj _ _ _ _ _ _ _ K K') as (V & H & S). cbn [same_event]. splits; auto.
    + exact (decimal_value _ _ _ Dn Dn').
    + exact (scan_inj p c scan p' c' scan' P Q Cc P' Q' Cc' (eq_sym E3)).
  - apply app_inv_head in E. subst m'. destruct (mouse_form_inj _ _ _ _ _ _ _ _ _ _ _ B B' M M') as (-> & -> & -> & -> & ->). reflexivity.
  - apply app_inv_head in E.
    destruct (split_first 44 _ _ _ _ (decimal_avoid _ _ 44 PX' ltac:(reflexivity) ltac:(discriminate)) (decimal_avoid _ _ 44 PX ltac:(reflexivity) ltac:(discriminate)) E) as (-> & E2).
    apply app_inj_tail in E2. destruct E2 as (-> & _). cbn. rewrite (decimal_value _ _ _ PX PX'), (decimal_value _ _ _ PY PY'). reflexivity.
  - apply app_inv_head in E. subst h'. cbn. rewrite (canonical_value _ _ _ _ C C'). reflexivity.
  - destruct g, g'; try discriminate E; reflexivity.
Qed.

(** ** The words, by bit numbers *)
Definition by_bits (names : list (Z * list Z)) : list (Z * list Z) := map (fun n => (2 ^ fst n, snd n)) names.
Lemma hit_bit flags i x : 0 <= i -> hit flags (2 ^ i, x) = Z.testbit flags i.
Proof.
  intros I0. unfold hit. cbn [fst]. destruct (Z.testbit flags i) eqn:T.
  - apply Z.eqb_eq. apply Z.bits_inj'. intros n N. rewrite Z.land_spec, Z.pow2_bits_eqb by lia.
    destruct (Z.eqb_spec i n) as [<-|K]; [rewrite T|]; reflexivity.
  - apply Z.eqb_neq. intros K. apply (f_equal (fun z => Z.testbit z i)) in K. rewrite Z.land_spec, Z.pow2_bits_true, T in K by lia. discriminate K.
Qed.
Lemma hits_bits flags : forall names, Forall (fun n => 0 <= fst n) names -> map snd (hits (by_bits names) flags) = set_names names flags.
Proof.
  unfold set_names. induction names as [|[i x] names IH]; intros F; [reflexivity|]. inversion F as [|? ? F1 F2]. subst.
  cbn [by_bits map hits filter fst snd]. rewrite (hit_bit flags i x F1). fold (by_bits names) (hits (by_bits names) flags).
  destruct (Z.testbit flags i); cbn [map snd]; rewrite IH by assumption; reflexivity.
Qed.
Lemma left_bits flags i : 0 <= i -> forall names rem, Forall (fun n => 0 <= fst n) names ->
  Z.testbit (left_of (by_bits names) flags rem) i = Z.testbit rem i && negb (existsb (fun n => (i =? n) && Z.testbit flags n) (map fst names)).
Proof.
  intros I0. induction names as [|[n x] names IH]; intros rem F; cbn [by_bits map left_of existsb fst snd]; [rewrite andb_true_r; reflexivity|].
  inversion F as [|? ? F1 F2]. subst. cbn [fst] in F1. fold (by_bits names). rewrite IH by assumption. rewrite (hit_bit flags n x F1).
  destruct (Z.testbit flags n) eqn:T; cbn [andb orb].
  - rewrite Z.ldiff_spec, Z.pow2_bits_eqb by lia. rewrite (Z.eqb_sym n i). destruct (i =? n); cbn [andb orb negb]; rewrite ?andb_false_r, ?andb_true_r; reflexivity.
  - rewrite andb_false_r. reflexivity.
Qed.
Lemma words_of t names label v ts : t = by_bits names -> Forall (fun n => 0 <= fst n) names -> 0 <= v < 2 ^ 32 -> toks t label v ts -> words names label v ts.
Proof.
  intros -> F R (rest & -> & C). exists (left_of (by_bits names) v v), rest. splits.
  - apply left_range; [|exact R]. apply Forall_forall. intros f K. apply in_map_iff in K. destruct K as (n & <- & K). cbn [fst].
    rewrite Forall_forall in F. apply Z.pow_nonneg. lia.
  - intros i I0. rewrite left_bits by assumption. destruct (Z.testbit v i) eqn:T; [|reflexivity]. cbn [andb]. f_equal.
    generalize (map fst names) as l. induction l as [|n l IH]; [reflexivity|]. cbn [existsb]. rewrite IH. f_equal.
    destruct (Z.eqb_spec i n) as [<-|N]; [rewrite T|]; reflexivity.
  - rewrite hits_bits by assumption. reflexivity.
  - exact C.
Qed.

(** ** The session *)
Lemma classic_other r : r = IOther \/ r <> IOther.
Proof. destruct r; auto; right; discriminate. Qed.
Lemma isCtrlD_iff r : isCtrlD r = true <-> ends_it r.
Proof.
  destruct r as [down rpt vk scan ch st|x y b st fl|x y|id|g|]; cbn [isCtrlD ends_it]; try (split; [discriminate|contradiction]).
  rewrite orb_true_iff, !andb_true_iff, negb_true_iff, !Z.eqb_eq, Z.eqb_neq.
  assert (B : Z.land st 0xC <> 0 <-> Z.testbit st 2 = true \/ Z.testbit st 3 = true).
  { assert (E : Z.land st 0xC = Z.land (Z.land st (Z.ones 4)) 0xC) by (rewrite <- Z.land_assoc; reflexivity).
    assert (E2 : Z.testbit st 2 = Z.testbit (Z.land st (Z.ones 4)) 2) by (rewrite Z.land_spec; change (Z.testbit (Z.ones 4) 2) with true; rewrite andb_true_r; reflexivity).
    assert (E3 : Z.testbit st 3 = Z.testbit (Z.land st (Z.ones 4)) 3) by (rewrite Z.land_spec; change (Z.testbit (Z.ones 4) 3) with true; rewrite andb_true_r; reflexivity).
    rewrite E, E2, E3. rewrite Z.land_ones by lia. pose proof (Z.mod_pos_bound st (2 ^ 4) ltac:(lia)) as M. remember (st mod 2 ^ 4) as m eqn:Em. clear Em E E2 E3.
    change (2 ^ 4) with 16 in M.
    assert (C : forallb (fun k => Bool.eqb (negb (Z.land k 0xC =? 0)) (Z.testbit k 2 || Z.testbit k 3)) (map Z.of_nat (List.seq 0 16)) = true) by reflexivity.
    rewrite forallb_forall in C. specialize (C m). assert (K : In m (map Z.of_nat (List.seq 0 16))).
    { apply in_map_iff. exists (Z.to_nat m). split; [lia|]. apply in_seq. lia. }
    specialize (C K). apply Bool.eqb_prop in C. rewrite <- orb_true_iff, <- C, negb_true_iff, Z.eqb_neq. reflexivity. }
  rewrite B. tauto.
Qed.

Definition texts (seen : list irec) (ts : list (list Z)) : Prop := Forall2 (fun r t => recordText r = Ok t) seen ts.
Lemma batch_ok : forall rs out, Forall record_ok rs -> exists seen ts fin, batchText rs out = Ok (out ++ concat ts, fin) /\
  texts seen ts /\ (fin = true -> forall more, shown (rs ++ more) seen) /\
  (fin = false -> forall more seen', shown more seen' -> shown (rs ++ more) (seen ++ seen')).
Proof.
  induction rs as [|r rs IH]; intros out F; cbn [batchText].
  - exists [], [], false. cbn [concat]. rewrite app_nil_r. splits; auto; [constructor|discriminate].
  - inversion F as [|? ? F1 F2]. subst. assert (X : exists t, recordText r = Ok t /\ (r = IOther -> t = [])).
    { destruct (classic_other r) as [->|N]; [exists []; auto|]. destruct (recordText_ok r F1 N) as (t & -> & _). eexists. split; [reflexivity|contradiction]. }
    destruct X as (t & E & O). rewrite E. cbn [bind]. destruct (isCtrlD r) eqn:D.
    + apply isCtrlD_iff in D. exists [r], [t], true. cbn [concat]. rewrite app_nil_r. splits; auto.
      * repeat constructor. exact E.
      * intros _ more. apply shown_end. exact D.
      * discriminate.
    + assert (ND : ~ ends_it r) by (rewrite <- isCtrlD_iff, D; discriminate).
      destruct (IH (out ++ t) F2) as (seen & ts & fin & E2 & T & S1 & S2). rewrite E2.
      destruct (classic_other r) as [->|N].
      * rewrite (O eq_refl), app_nil_r in *. exists seen, ts, fin. splits; auto.
        -- intros f more. cbn [app]. apply shown_other. auto.
        -- intros f more seen' S. cbn [app]. apply shown_other. auto.
      * exists (r :: seen), (t :: ts), fin. cbn [concat]. rewrite <- app_assoc. splits; auto.
        -- constructor; assumption.
        -- intros f more. cbn [app]. apply shown_more; auto.
        -- intros f more seen' S. cbn [app]. apply shown_more; auto.
Qed.
Lemma read_ok : forall bs, Forall (Forall record_ok) bs -> Forall (fun b => b <> []) bs ->
  exists l seen ts, readLoop bs = Ok l /\ shown (concat bs) seen /\ texts seen ts /\ printed l = concat ts /\
    Forall (fun e => match e with SPrint _ => True | _ => False end) l.
Proof.
  induction bs as [|b bs IH]; intros F N; cbn [readLoop concat].
  - exists [], [], []. splits; try constructor.
  - inversion F as [|? ? F1 F2]. inversion N as [|? ? N1 N2]. subst. destruct b as [|r b]; [congruence|].
    destruct (batch_ok (r :: b) [] F1) as (seen & ts & fin & E & T & S1 & S2). rewrite E. cbn [bind app]. destruct fin.
    + exists [SPrint (concat ts)], seen, ts. splits; auto.
      * apply S1. reflexivity.
      * cbn. apply app_nil_r.
    + destruct (IH F2 N2) as (l & seen' & ts' & -> & S & T' & P & Q). cbn [bind].
      exists (SPrint (concat ts) :: l), (seen ++ seen'), (ts ++ ts'). splits; auto.
      * apply (S2 eq_refl). exact S.
      * apply Forall2_app; assumption.
      * unfold printed in *. cbn [map concat]. rewrite P, concat_app. reflexivity.
Qed.

Lemma shown_sub all seen : shown all seen -> Forall record_ok all -> Forall (fun r => record_ok r /\ r <> IOther) seen.
Proof.
  induction 1 as [|r rest D|rest seen S IH|r rest seen N D S IH]; intros F; [constructor| | |]; inversion F as [|? ? F1 F2]; subst; auto.
  - constructor; [|constructor]. split; [exact F1|]. intros ->. exact D.
Qed.
Lemma texts_lines seen ts : texts seen ts -> Forall (fun r => record_ok r /\ r <> IOther) seen ->
  exists bodies, ts = map (fun b => b ++ [10]) bodies /\ Forall2 line_form seen bodies.
Proof.
  induction 1 as [|r t seen ts E T IH]; intros F; [exists []; split; [reflexivity|constructor]|].
  inversion F as [|? ? (F1 & F3) F2]. subst. destruct (IH F2) as (bs & -> & L). destruct (recordText_ok r F1 F3) as (b & E2 & Lb).
  exists (b :: bs). assert (t = b ++ [10]) as -> by congruence. split; [reflexivity|]. constructor; assumption.
Qed.
Lemma texts_inj s1 t1 s2 t2 : texts s1 t1 -> texts s2 t2 -> Forall (fun r => record_ok r /\ r <> IOther) s1 -> Forall (fun r => record_ok r /\ r <> IOther) s2 ->
  concat t1 = concat t2 -> Forall2 same_event s1 s2.
Proof.
  intros T1 T2 F1 F2 E. destruct (texts_lines _ _ T1 F1) as (b1 & -> & L1). destruct (texts_lines _ _ T2 F2) as (b2 & -> & L2).
  assert (N : forall s b, Forall2 line_form s b -> Forall (fun t => ~ In 10 t) b).
  { intros s b L. induction L as [|r t s b K L IH]; constructor; [exact (line_one _ _ K)|exact IH]. }
  destruct (split_end 10 b1 b2 [] []) as (<- & _).
  - intros [].
  - intros [].
  - exact (N _ _ L1).
  - exact (N _ _ L2).
  - rewrite !app_nil_r. exact E.
  - clear -L1 L2. revert s2 L2. induction L1 as [|r t s1 b K L IH]; intros s2 L2; inversion L2 as [|r2 ? s2' ? K2 L2' ]; subst; constructor; [exact (line_inj _ _ _ K K2)|auto].
Qed.
Lemma vkText_plain vk : (65 <= vk <= 90 \/ 48 <= vk <= 57) -> vkText vk = Ok [vk].
Proof.
  intros H. unfold vkText, getVirtualKeyString.
  assert (C : forallb (fun k => match vk_find vk_names k with None => true | _ => false end) (map Z.of_nat (List.seq 48 10 ++ List.seq 65 26)) = true) by reflexivity.
  rewrite forallb_forall in C. specialize (C vk). assert (K : In vk (map Z.of_nat (List.seq 48 10 ++ List.seq 65 26))).
  { apply in_map_iff. exists (Z.to_nat vk). split; [lia|]. apply in_or_app. rewrite !in_seq. lia. }
  specialize (C K). destruct (vk_find vk_names vk); [discriminate C|].
  assert (((65 <=? vk) && (vk <=? 90)) || ((48 <=? vk) && (vk <=? 57)) = true) as -> by lia. reflexivity.
Qed.

Lemma options_ok : forall args m e, 
  match showInputOptions args m e with
  | Some (m', e') => (forall a, In a args -> a = str "--with-mouse" \/ a = str "--escape-input") /\
      (m' = true <-> m = true \/ In (str "--with-mouse") args) /\ (e' = true <-> e = true \/ In (str "--escape-input") args)
  | None => exists a, In a args /\ a <> str "--with-mouse" /\ a <> str "--escape-input"
  end.
Proof.
  induction args as [|a args IH]; intros m e.
  - cbn [showInputOptions In]. splits; [contradiction|tauto|tauto].
  - cbn [showInputOptions]. destruct (list_eqb a (str "--with-mouse")) eqn:A.
    + apply list_eqb_eq in A. subst a. specialize (IH true e). destruct (showInputOptions args true e) as [(m' & e')|].
      * destruct IH as (I1 & I2 & I3). splits.
        -- intros a [<-|K]; auto.
        -- split; [intros _; right; left; reflexivity|intros _; apply I2; left; reflexivity].
        -- rewrite I3. split; [intros [K|K]; [left|right; right]; exact K|intros [K|[K|K]]; [left; exact K|discriminate K|right; exact K]].
      * destruct IH as (a & K & N). exists a. split; [right; exact K|exact N].
    + apply list_eqb_neq in A. destruct (list_eqb a (str "--escape-input")) eqn:B.
      * apply list_eqb_eq in B. subst a. specialize (IH m true). destruct (showInputOptions args m true) as [(m' & e')|].
        -- destruct IH as (I1 & I2 & I3). splits.
           ++ intros a [<-|K]; auto.
           ++ rewrite I2. split; [intros [K|K]; [left|right; right]; exact K|intros [K|[K|K]]; [left; exact K|discriminate K|right; exact K]].
           ++ split; [intros _; right; left; reflexivity|intros _; apply I3; left; reflexivity].
        -- destruct IH as (a & K & N). exists a. split; [right; exact K|exact N].
      * apply list_eqb_neq in B. exists a. splits; auto. left. reflexivity.
Qed.
Lemma bit_80 orig : (Z.land orig 0x80 =? 0) = negb (Z.testbit orig 7).
Proof.
  pose proof (hit_bit orig 7 [] ltac:(lia)) as H. unfold hit in H. cbn [fst] in H. change (2 ^ 7) with 0x80 in H. rewrite Z.land_comm in H.
  destruct (Z.testbit orig 7) eqn:T; cbn [negb].
  - apply Z.eqb_eq in H. rewrite H. reflexivity.
  - apply Z.eqb_eq. apply Z.bits_inj'. intros n N. rewrite Z.land_spec, Z.bits_0. change 0x80 with (2 ^ 7). rewrite Z.pow2_bits_eqb by lia.
    destruct (Z.eqb_spec 7 n) as [<-|K]; [rewrite T; reflexivity|apply andb_false_r].
Qed.

(** The names of keys against the runs of codes *)
Fixpoint run_find (t : list (Z * list (list Z))) (vk : Z) : option (list Z) :=
  match t with
  | [] => None
  | (f, names) :: r => if (f <=? vk) && (vk <? f + zlen names) then znth names (vk - f) else run_find r vk
  end.
Lemma run_find_some t vk n : run_find t vk = Some n -> exists f names, In (f, names) t /\ f <= vk /\ znth names (vk - f) = Some n.
Proof.
  induction t as [|(f & names) t IH]; cbn [run_find]; [discriminate|]. destruct ((f <=? vk) && (vk <? f + zlen names)) eqn:E; intros K.
  - exists f, names. splits; auto; [left; reflexivity|]. apply andb_prop in E. lia.
  - destruct (IH K) as (f' & n' & I9 & L & Z0). exists f', n'. splits; auto. right. exact I9.
Qed.
Lemma run_find_none t vk : run_find t vk = None -> forall f names, In (f, names) t -> vk < f \/ f + zlen names <= vk.
Proof.
  induction t as [|(f & names) t IH]; cbn [run_find]; intros K g ns I9; [destruct I9|]. destruct ((f <=? vk) && (vk <? f + zlen names)) eqn:E.
  - exfalso. apply andb_prop in E. destruct E as (E1 & E2). apply Z.leb_le in E1. apply Z.ltb_lt in E2.
    destruct (znth_some names (vk - f)) as (x & X); [lia|]. congruence.
  - destruct I9 as [I9|I9]; [|exact (IH K g ns I9)]. assert (g = f /\ ns = names) as (-> & ->) by (split; congruence).
    apply andb_false_iff in E. destruct E as [E|E]; [left; apply Z.leb_gt in E; lia|right; apply Z.ltb_ge in E; lia].
Qed.
Definition key_named (vk : Z) : option (list Z) :=
  match vk_find vk_names vk with
  | Some n => Some n
  | None => if ((65 <=? vk) && (vk <=? 90)) || ((48 <=? vk) && (vk <=? 57)) then Some [vk] else None
  end.
Lemma named_run vk : 0 <= vk -> run_find key_runs vk = key_named vk.
Proof.
  intros R. destruct (Z_lt_le_dec vk 256) as [L|L].
  - assert (C : forallb (fun k => match run_find key_runs k, key_named k with Some a, Some b => list_eqb a b | None, None => true | _, _ => false end)
                  (map Z.of_nat (List.seq 0 256)) = true) by (vm_compute; reflexivity).
    rewrite forallb_forall in C. specialize (C vk). destruct (run_find key_runs vk) as [a|], (key_named vk) as [b|]; try reflexivity;
      (assert (I9 : In vk (map Z.of_nat (List.seq 0 256))) by (apply in_map_iff; exists (Z.to_nat vk); split; [lia|apply in_seq; lia])); specialize (C I9); try discriminate C.
    apply list_eqb_eq in C. congruence.
  - assert (A : key_named vk = None).
    { unfold key_named. assert (vk_find vk_names vk = None) as ->.
      { assert (C : forallb (fun e => fst e <? 256) vk_names = true) by (vm_compute; reflexivity). revert C. generalize vk_names. intros t C.
        induction t as [|(v & n) t IH]; cbn [vk_find]; [reflexivity|]. cbn [forallb fst] in C. apply andb_prop in C. destruct C as (C1 & C2).
        destruct (Z.eqb_spec v vk); [lia|exact (IH C2)]. }
      assert (((65 <=? vk) && (vk <=? 90)) || ((48 <=? vk) && (vk <=? 57)) = false) as -> by lia. reflexivity. }
    rewrite A. assert (C : forallb (fun e => fst e + zlen (snd e) <=? 256) key_runs = true) by (vm_compute; reflexivity). revert C. generalize key_runs. intros t C.
    induction t as [|(f & n) t IH]; cbn [run_find]; [reflexivity|]. cbn [forallb fst snd] in C. apply andb_prop in C. destruct C as (C1 & C2).
    assert ((f <=? vk) && (vk <? f + zlen n) = false) as -> by lia. exact (IH C2).
Qed.
Lemma vkText_runs vk : 0 <= vk < 2 ^ 16 -> exists s, vkText vk = Ok s /\ key_text vk s.
Proof.
  intros R. pose proof (named_run vk ltac:(lia)) as E. unfold key_named in E. unfold vkText, getVirtualKeyString.
  destruct (vk_find vk_names vk) as [n|].
  - exists n. split; [reflexivity|]. left. exact (run_find_some _ _ _ E).
  - destruct (((65 <=? vk) && (vk <=? 90)) || ((48 <=? vk) && (vk <=? 57))).
    + exists [vk]. split; [reflexivity|]. left. exact (run_find_some _ _ _ E).
    + destruct (c_hex_ok vk ltac:(lia)) as (h & -> & C). eexists. split; [reflexivity|]. right. split; [exact (run_find_none _ _ E)|]. exists h. auto.
Qed.
Lemma chText_runs ch : 0 <= ch < 2 ^ 16 -> exists s, chText ch = Ok (str " " ++ s) /\ char_text ch s.
Proof.
  intros R. unfold chText, char_text. destruct ((32 <=? ch) && (ch <=? 126)) eqn:E.
  - exists (str "ch='" ++ [ch] ++ str "'"). split; [reflexivity|]. left. split; [lia|reflexivity].
  - destruct (c_hex_ok ch ltac:(lia)) as (h & -> & C). cbn [bind]. eexists (str "ch=" ++ _). split; [reflexivity|]. right. split; [lia|].
    eexists. split; [exists h; split; [exact C|reflexivity]|reflexivity].
Qed.
