(** The matchers of ConsoleInput.cc recognise their grammars, incrementally. *)
From Verif Require Import Base BaseLemmas Text Unicode UnicodeSpec UnicodeProofs InputMap InputMapSpec InputMapProofs
  DefaultInputMap DefaultInputMapSpec DefaultInputMapProofs ConsoleInput ConsoleInputSpec.
Ltac Zify.zify_post_hook ::= Z.div_mod_to_equations.
Ltac splits := repeat match goal with |- _ /\ _ => split end.

Notation bytes := InputMapSpec.bytes.
Lemma bytes_cons b t : bytes (b :: t) <-> 0 <= b < 256 /\ bytes t.
Proof. unfold bytes. split; [intros H; inversion H; auto|intros (? & ?); now constructor]. Qed.

Section Matchers.
Variable e : env.
Hypothesis digit_ok : forall c, e_digit e c = false.

Definition lang A := list Z -> A -> Prop.
(** An incremental recogniser of a language: what it has consumed when it succeeds is in
    the language, it asks for more only if the language can be reached, and more input
    never changes an answer. *)
Definition recog {A} (m : list Z -> pr A) (L : lang A) : Prop :=
  forall l, bytes l -> l <> [] ->
  match m l with
  | PUB => False
  | Fail => forall Q, bytes Q -> m (l ++ Q) = Fail
  | More => exists c a, bytes c /\ L (l ++ c) a
  | Got a r => r <> [] /\ (exists p, l = p ++ r /\ L p a) /\ (forall Q, bytes Q -> m (l ++ Q) = Got a (r ++ Q))
  end.
Definition seq {A B} (L : lang A) (K : A -> lang B) : lang B :=
  fun s b => exists s1 a s2, s = s1 ++ s2 /\ L s1 a /\ K a s2 b.
Definition inhab {B} (K : lang B) : Prop := exists s b, bytes s /\ K s b.

Lemma recog_bind {A B} (m : list Z -> pr A) (k : A -> list Z -> pr B) L K :
  recog m L -> (forall a, recog (k a) (K a)) -> (forall a, inhab (K a)) ->
  recog (fun l => pbind (m l) k) (seq L K).
Proof.
  intros Hm Hk Hi l Hb Hn. specialize (Hm l Hb Hn). destruct (m l) as [| | |a r] eqn:Em; cbn [pbind]; [| |contradiction|].
  - intros Q HQ. now rewrite (Hm Q HQ).
  - destruct Hm as (c & a & Hc & HL). destruct (Hi a) as (s & b & Hs & HK). exists (c ++ s), b. split; [apply bytes_app; auto|].
    exists (l ++ c), a, s. splits; auto. now rewrite app_assoc.
  - destruct Hm as (Hr & (p & Hp & HL) & St). assert (Hbr : bytes r) by (rewrite Hp in Hb; now apply bytes_app in Hb).
    specialize (Hk a r Hbr Hr). destruct (k a r) as [| | |b r2] eqn:Ek; [| |contradiction|].
    + intros Q HQ. rewrite (St Q HQ). cbn [pbind]. now apply Hk.
    + destruct Hk as (c & b & Hc & HK). exists c, b. split; [exact Hc|]. exists p, a, (r ++ c). splits; auto. rewrite Hp. now rewrite <- app_assoc.
    + destruct Hk as (Hr2 & (p2 & Hp2 & HK) & St2). splits; auto.
      * exists (p ++ p2). split; [rewrite Hp, Hp2; now rewrite <- app_assoc|]. exists p, a, p2. auto.
      * intros Q HQ. rewrite (St Q HQ). cbn [pbind]. now apply St2.
Qed.

Lemma recog_weaken {A} (m : list Z -> pr A) (L K : lang A) : recog m L -> (forall s a, L s a -> K s a) -> recog m K.
Proof.
  intros H HL l Hb Hn. specialize (H l Hb Hn). destruct (m l) as [| | |a r]; auto.
  - destruct H as (c & a & Hc & H). exists c, a. auto.
  - destruct H as (Hr & (p & Hp & H) & St). splits; auto. exists p. auto.
Qed.

(** the empty language element: consume nothing *)
Definition nil_lang {A} (P : A -> Prop) : lang A := fun s a => s = [] /\ P a.
Definition char_lang (x : Z) : lang unit := fun s _ => s = [x].

Lemma recog_checkAdv x : 0 <= x < 256 -> recog (checkAdv x) (char_lang x).
Proof.
  intros Hx [|c l] Hb Hn; [congruence|]. unfold checkAdv, pcheck. cbn [pbind advance app].
  destruct (Z.eqb_spec x c) as [->|Hne]; cbn [pbind].
  - destruct l as [|d t]; cbn [advance app].
    + exists [], tt. split; [constructor|reflexivity].
    + splits; [discriminate| |].
      * exists [c]. split; reflexivity.
      * reflexivity.
  - reflexivity.
Qed.

Lemma cdigit_iff c : 0 <= c < 256 -> cdigit e c = (48 <=? c) && (c <=? 57).
Proof. intros H. unfold cdigit. destruct (Z.ltb_spec c 128); [reflexivity|]. rewrite digit_ok. lia. Qed.

(** the digits still to read, when k have been read with value out *)
Definition rest_digits (k out : Z) : lang Z := fun s v =>
  1 <= zlen s /\ k + zlen s <= 7 /\ Forall (fun c => 48 <= c <= 57) s /\ v = fold_left (fun a c => a * 10 + (c - 48)) s out.

Lemma scan_digits_recog l : forall k out, bytes l -> l <> [] -> cdigit e (hd 0 l) = true -> 0 <= k -> 0 <= out < 10 ^ k ->
  k <= 7 ->
  match scan_digits e 8 k out l with
  | PUB => False
  | Fail => forall Q, bytes Q -> scan_digits e 8 k out (l ++ Q) = Fail
  | More => exists c a, bytes c /\ rest_digits k out (l ++ c) a
  | Got a r => r <> [] /\ (exists p, l = p ++ r /\ rest_digits k out p a) /\
               (forall Q, bytes Q -> scan_digits e 8 k out (l ++ Q) = Got a (r ++ Q))
  end.
Proof.
  induction l as [|c t IH]; intros k out Hb Hn Hd Hk Ho Hk7; [congruence|].
  apply bytes_cons in Hb as (Hc & Hbt). cbn [hd] in Hd. rewrite cdigit_iff in Hd by exact Hc.
  cbn [scan_digits app]. destruct (Z.ltb_spec (k + 1) 8) as [Hlt|Hge]; [|reflexivity].
  assert (Hs : schar c = c) by (unfold schar; destruct (Z.ltb_spec c 128); lia). rewrite Hs.
  set (out' := out * 10 + c - 48). assert (Ho' : 0 <= out' < 10 ^ (k + 1)).
  { rewrite Z.pow_add_r by lia. change (10 ^ 1) with 10. unfold out'. lia. }
  assert (P7 : 10 ^ (k + 1) <= 10 ^ 7) by (apply Z.pow_le_mono_r; lia). change (10 ^ 7) with 10000000 in P7.
  replace (in_s 32 out') with true.
  2:{ unfold in_s. change (2 ^ (32 - 1)) with 2147483648. lia. }
  destruct t as [|d t].
  - exists [], out'. split; [constructor|]. unfold rest_digits. cbn. splits; try lia.
    repeat constructor; lia.
  - apply bytes_cons in Hbt as Hbt'. destruct Hbt' as (Hdd & Hbt').
    destruct (cdigit e d) eqn:Ed.
    + specialize (IH (k + 1) out' Hbt ltac:(discriminate) Ed ltac:(lia) Ho' ltac:(lia)).
      cbn [app] in *. rewrite Ed. destruct (scan_digits e 8 (k + 1) out' (d :: t)) as [| | |a r] eqn:Es; auto.
      * destruct IH as (c2 & a & Hc2 & (R1 & R2 & R3 & R4)). exists c2, a. split; [exact Hc2|].
        unfold rest_digits. rewrite zlen_cons. splits; try lia.
        -- constructor; [lia|exact R3].
        -- rewrite R4. cbn [fold_left]. f_equal. unfold out'. lia.
      * destruct IH as (Hr & (p & Hp & (R1 & R2 & R3 & R4)) & St). splits; auto.
        exists (c :: p). split; [now rewrite Hp|]. unfold rest_digits. rewrite zlen_cons. splits; try lia.
        -- constructor; [lia|exact R3].
        -- rewrite R4. cbn [fold_left]. f_equal. unfold out'. lia.
    + cbn [app]. rewrite Ed. splits; [discriminate| |reflexivity].
      exists [c]. split; [reflexivity|]. unfold rest_digits. cbn. splits; try lia. repeat constructor; lia.
Qed.

Definition int_lang : lang Z := fun s v => digits s /\ v = decval s.
Lemma recog_int : recog (scan_int e 8) int_lang.
Proof.
  intros [|c t] Hb Hn; [congruence|]. unfold scan_int, pcheck. cbn [pbind app].
  destruct (cdigit e c) eqn:Ed; cbn [pbind]; [|reflexivity].
  pose proof (scan_digits_recog (c :: t) 0 0 Hb Hn Ed ltac:(lia) ltac:(change (10 ^ 0) with 1; lia) ltac:(lia)) as H.
  cbn [app] in *.
  assert (X : forall s v, rest_digits 0 0 s v -> int_lang s v).
  { intros s v (R1 & R2 & R3 & R4). split; [split; [lia|exact R3]|exact R4]. }
  destruct (scan_digits e 8 0 0 (c :: t)) as [| | |a r]; auto.
  - destruct H as (c2 & a & H1 & H2). exists c2, a. auto.
  - destruct H as (Hr & (p & Hp & H2) & St). splits; auto. exists p. auto.
Qed.

Lemma recog_signed : recog (scan_signed e 8) signed_num.
Proof.
  intros l Hb Hn. destruct l as [|c t]; [congruence|].
  assert (St : forall Q, scan_signed e 8 ((c :: t) ++ Q) =
    (if c =? ch "-" then pbind (advance ((c :: t) ++ Q)) (fun _ l => pbind (scan_int e 8 l) (fun n l => Got (- n) l))
     else scan_int e 8 ((c :: t) ++ Q))) by reflexivity.
  unfold scan_signed at 1. destruct (Z.eqb_spec c (ch "-")) as [Hc|Hc].
  - apply bytes_cons in Hb as (Hcb & Hbt). destruct t as [|d t]; cbn [advance pbind].
    + exists [49], (- decval [49]). split; [repeat constructor; lia|]. cbn [app]. rewrite Hc. apply sn_neg. split; [cbn; lia|repeat constructor; lia].
    + pose proof (recog_int (d :: t) Hbt ltac:(discriminate)) as H. destruct (scan_int e 8 (d :: t)) as [| | |a r] eqn:Es; cbn [pbind].
      * intros Q HQ. rewrite St. cbn [app advance pbind]. rewrite app_comm_cons, (H Q HQ). reflexivity.
      * destruct H as (c2 & a & H1 & (D & ->)). exists c2, (- decval ((d :: t) ++ c2)). split; [exact H1|]. cbn [app]. rewrite Hc. now apply sn_neg.
      * exact H.
      * destruct H as (Hr & (p & Hp & (D & ->)) & S). splits; auto.
        -- exists (c :: p). split; [now rewrite Hp|]. rewrite Hc. now apply sn_neg.
        -- intros Q HQ. rewrite St. cbn [app advance pbind]. rewrite app_comm_cons, (S Q HQ). reflexivity.
  - pose proof (recog_int (c :: t) Hb Hn) as H. cbn [app] in St. destruct (scan_int e 8 (c :: t)) as [| | |a r] eqn:Es; auto.
    + intros Q HQ. cbn [app]. rewrite St. exact (H Q HQ).
    + destruct H as (c2 & a & H1 & (D & ->)). exists c2, (decval ((c :: t) ++ c2)). split; [exact H1|]. now apply sn_pos.
    + destruct H as (Hr & (p & Hp & (D & ->)) & S). splits; auto.
      * exists p. split; [exact Hp|]. now apply sn_pos.
      * intros Q HQ. cbn [app]. rewrite St. exact (S Q HQ).
Qed.

Lemma inhab_char x : 0 <= x < 256 -> inhab (char_lang x).
Proof. intros H. exists [x], tt. split; [now repeat constructor|reflexivity]. Qed.
Lemma digits_1 : digits [49].
Proof. split; [cbn; lia|repeat constructor; lia]. Qed.
Lemma inhab_int : inhab int_lang.
Proof. exists [49], 1. split; [repeat constructor; lia|]. split; [exact digits_1|reflexivity]. Qed.
Lemma inhab_signed : inhab signed_num.
Proof. exists [49], 1. split; [repeat constructor; lia|]. apply (sn_pos [49]). exact digits_1. Qed.
Lemma inhab_seq {A B} (L : lang A) (K : A -> lang B) : inhab L -> (forall a, inhab (K a)) -> inhab (seq L K).
Proof.
  intros (s & a & Hs & HL) HK. destruct (HK a) as (s2 & b & Hs2 & H). exists (s ++ s2), b. split; [apply bytes_app; auto|].
  exists s, a, s2. auto.
Qed.

(** *** A whole matcher: consumed up to, but not including, the final character.
    [complete] is a recogniser whose result is read off the final character. *)
Definition finishes {A} (m : list Z -> pr A) (L : lang A) : Prop :=
  forall l, bytes l -> l <> [] ->
  match m l with
  | PUB => False
  | Fail => forall Q, bytes Q -> m (l ++ Q) = Fail
  | More => exists c a, c <> [] /\ bytes c /\ L (l ++ c) a
  | Got a r => exists p x t, l = p ++ x :: t /\ r = x :: t /\ L (p ++ [x]) a /\
               forall Q, bytes Q -> m (l ++ Q) = Got a (r ++ Q)
  end.
Lemma finishes_bind {A B} (m : list Z -> pr A) (k : A -> list Z -> pr B) L (K : A -> lang B) :
  recog m L -> (forall a, finishes (k a) (K a)) -> (forall a, exists s b, s <> [] /\ bytes s /\ K a s b) ->
  finishes (fun l => pbind (m l) k) (seq L K).
Proof.
  intros Hm Hk Hi l Hb Hn. specialize (Hm l Hb Hn). destruct (m l) as [| | |a r] eqn:Em; cbn [pbind]; [| |contradiction|].
  - intros Q HQ. now rewrite (Hm Q HQ).
  - destruct Hm as (c & a & Hc & HL). destruct (Hi a) as (s & b & Hne & Hs & HK). exists (c ++ s), b. splits.
    + intros H. apply app_eq_nil in H as (_ & H). contradiction.
    + apply bytes_app; auto.
    + exists (l ++ c), a, s. splits; auto. now rewrite app_assoc.
  - destruct Hm as (Hr & (p & Hp & HL) & St). assert (Hbr : bytes r) by (rewrite Hp in Hb; now apply bytes_app in Hb).
    specialize (Hk a r Hbr Hr). destruct (k a r) as [| | |b r2] eqn:Ek; [| |contradiction|].
    + intros Q HQ. rewrite (St Q HQ). cbn [pbind]. now apply Hk.
    + destruct Hk as (c & b & Hc & Hbc & HK). exists c, b. splits; auto. exists p, a, (r ++ c). splits; auto. rewrite Hp. now rewrite <- app_assoc.
    + destruct Hk as (p2 & x & t & Hp2 & Hr2 & HK & St2). exists (p ++ p2), x, t. splits; auto.
      * rewrite Hp, Hp2. now rewrite <- app_assoc.
      * exists p, a, (p2 ++ [x]). splits; auto. now rewrite <- app_assoc.
      * intros Q HQ. rewrite (St Q HQ). cbn [pbind]. now apply St2.
Qed.
Lemma finishes_weaken {A} (m : list Z -> pr A) (L K : lang A) : finishes m L -> (forall s a, L s a -> K s a) -> finishes m K.
Proof.
  intros H HL l Hb Hn. specialize (H l Hb Hn). destruct (m l) as [| | |a r]; auto.
  - destruct H as (c & a & H1 & H2 & H). exists c, a. auto.
  - destruct H as (p & x & t & H1 & H2 & H & St). exists p, x, t. auto.
Qed.
Lemma finishes_ne {A} (m : list Z -> pr A) (L : lang A) s a : L s a -> s <> [] -> bytes s -> exists s b, s <> [] /\ bytes s /\ L s b.
Proof. eauto. Qed.

(** the last step: test the final character, and compute a value *)
Lemma finishes_last {A} (p : Z -> bool) (f : Z -> A) :
  finishes (fun l => match l with [] => PUB | c :: _ => if p c then Got (f c) l else Fail end)
           (fun s a => exists c, s = [c] /\ p c = true /\ a = f c).
Proof.
  intros [|c t] Hb Hn; [congruence|]. cbn [app]. destruct (p c) eqn:Hp; [|reflexivity].
  exists [], c, t. splits; auto. exists c. auto.
Qed.
Lemma finishes_ext {A} (m m' : list Z -> pr A) L : (forall l, m l = m' l) -> finishes m L -> finishes m' L.
Proof. intros E H l Hb Hn. specialize (H l Hb Hn). rewrite E in H. destruct (m' l); auto; [intros Q HQ; rewrite <- E; auto|].
  destruct H as (p & x & t & H1 & H2 & H3 & H4). exists p, x, t. splits; auto. intros Q HQ. rewrite <- E. auto. Qed.

Definition ne_inhab {B} (K : lang B) : Prop := exists s b, s <> [] /\ bytes s /\ K s b.
Lemma ne_seq {A B} (L : lang A) (K : A -> lang B) : inhab L -> (forall a, ne_inhab (K a)) -> ne_inhab (seq L K).
Proof.
  intros (s & a & Hs & HL) HK. destruct (HK a) as (s2 & b & Hn & Hs2 & H). exists (s ++ s2), b. splits.
  - intros H0. apply app_eq_nil in H0 as (_ & H0). contradiction.
  - apply bytes_app; auto.
  - exists s, a, s2. auto.
Qed.
Definition last_lang {A} (p : Z -> bool) (f : Z -> A) : lang A := fun s a => exists c, s = [c] /\ p c = true /\ a = f c.
Lemma ne_last {A} (p : Z -> bool) (f : Z -> A) c : 0 <= c < 256 -> p c = true -> ne_inhab (last_lang p f).
Proof. intros Hc Hp. exists [c], (f c). splits; [discriminate|now repeat constructor|]. exists c. auto. Qed.

Ltac byte_range := vm_compute; split; congruence.

Definition dsr_lang : lang unit :=
  seq (char_lang 27) (fun _ => seq (char_lang 91) (fun _ => seq int_lang (fun _ => seq (char_lang 59) (fun _ =>
  seq int_lang (fun _ => last_lang (Z.eqb 82) (fun _ => tt)))))).
Lemma dsr_finishes : finishes (matchDsr e) dsr_lang.
Proof.
  assert (I6 : ne_inhab (last_lang (Z.eqb 82) (fun _ => tt))) by (apply (ne_last _ _ 82); [lia|reflexivity]).
  assert (C1 : inhab (char_lang 91)) by (apply inhab_char; lia).
  assert (C2 : inhab (char_lang 59)) by (apply inhab_char; lia).
  unfold matchDsr, dsr_lang. change (ch "[") with 91. change (ch ";") with 59. change (ch "R") with 82.
  apply finishes_bind with (L := char_lang 27); [apply recog_checkAdv; lia| |].
  2:{ intros _. apply ne_seq; auto. intros _. apply ne_seq; [exact inhab_int|]. intros _. apply ne_seq; auto. intros _. apply ne_seq; auto. exact inhab_int. }
  intros _. apply finishes_bind; [apply recog_checkAdv; lia| |].
  2:{ intros _. apply ne_seq; [exact inhab_int|]. intros _. apply ne_seq; auto. intros _. apply ne_seq; auto. exact inhab_int. }
  intros _. apply finishes_bind; [exact recog_int| |].
  2:{ intros _. apply ne_seq; auto. intros _. apply ne_seq; auto. exact inhab_int. }
  intros _. apply finishes_bind; [apply recog_checkAdv; lia| |].
  2:{ intros _. apply ne_seq; auto. exact inhab_int. }
  intros _. apply finishes_bind; [exact recog_int| |intros _; exact I6].
  intros _. apply (finishes_last (Z.eqb 82) (fun _ => tt)).
Qed.

Definition sgr_lang : lang mouse :=
  seq (char_lang 27) (fun _ => seq (char_lang 91) (fun _ => seq (char_lang 60) (fun _ => seq int_lang (fun f => seq (char_lang 59) (fun _ =>
  seq signed_num (fun x => seq (char_lang 59) (fun _ => seq signed_num (fun y =>
  last_lang (fun c => (c =? 77) || (c =? 109)) (fun c => mkMouse (c =? 109) f (s16 (x - 1)) (s16 (y - 1))))))))))).
Lemma sgr_finishes : finishes (matchMouse1006 e) sgr_lang.
Proof.
  assert (C1 : inhab (char_lang 91)) by (apply inhab_char; lia).
  assert (C2 : inhab (char_lang 59)) by (apply inhab_char; lia).
  assert (C3 : inhab (char_lang 60)) by (apply inhab_char; lia).
  pose proof inhab_int as II. pose proof inhab_signed as IS.
  assert (N1 : forall f x y, ne_inhab (last_lang (fun c => (c =? 77) || (c =? 109)) (fun c => mkMouse (c =? 109) f (s16 (x - 1)) (s16 (y - 1)))))
    by (intros; apply (ne_last _ _ 77); [lia|reflexivity]).
  assert (N2 := fun f x => ne_seq signed_num _ IS (N1 f x)).
  assert (N3 := fun f x => ne_seq (char_lang 59) _ C2 (fun _ => N2 f x)).
  assert (N4 := fun f => ne_seq signed_num _ IS (N3 f)).
  assert (N5 := fun f => ne_seq (char_lang 59) _ C2 (fun _ => N4 f)).
  assert (N6 := ne_seq int_lang _ II N5).
  assert (N7 := ne_seq (char_lang 60) _ C3 (fun _ => N6)).
  assert (N8 := ne_seq (char_lang 91) _ C1 (fun _ => N7)).
  unfold matchMouse1006, sgr_lang. change (ch "[") with 91. change (ch ";") with 59. change (ch "<") with 60. change (ch "M") with 77. change (ch "m") with 109.
  apply finishes_bind; [apply recog_checkAdv; lia| |intros _; exact N8].
  intros _. apply finishes_bind; [apply recog_checkAdv; lia| |intros _; exact N7].
  intros _. apply finishes_bind; [apply recog_checkAdv; lia| |intros _; exact N6].
  intros _. apply finishes_bind; [exact recog_int| |exact N5].
  intros f. apply finishes_bind; [apply recog_checkAdv; lia| |intros _; exact (N4 f)].
  intros _. apply finishes_bind; [exact recog_signed| |exact (N3 f)].
  intros x. apply finishes_bind; [apply recog_checkAdv; lia| |intros _; exact (N2 f x)].
  intros _. apply finishes_bind; [exact recog_signed| |exact (N1 f x)].
  intros y. refine (finishes_ext _ _ _ _ (finishes_last (fun c => (c =? 77) || (c =? 109)) (fun c => mkMouse (c =? 109) f (s16 (x - 1)) (s16 (y - 1))))).
  intros [|c t]; [reflexivity|]. cbn [pcheck]. destruct ((c =? 77) || (c =? 109)); reflexivity.
Qed.

Definition urxvt_lang : lang mouse :=
  seq (char_lang 27) (fun _ => seq (char_lang 91) (fun _ => seq int_lang (fun f => seq (char_lang 59) (fun _ =>
  seq signed_num (fun x => seq (char_lang 59) (fun _ => seq signed_num (fun y =>
  last_lang (Z.eqb 77) (fun _ => mkMouse false (f - 32) (s16 (x - 1)) (s16 (y - 1)))))))))).
Lemma urxvt_finishes : finishes (matchMouse1015 e) urxvt_lang.
Proof.
  assert (C1 : inhab (char_lang 91)) by (apply inhab_char; lia).
  assert (C2 : inhab (char_lang 59)) by (apply inhab_char; lia).
  pose proof inhab_int as II. pose proof inhab_signed as IS.
  assert (N1 : forall f x y, ne_inhab (last_lang (Z.eqb 77) (fun _ => mkMouse false (f - 32) (s16 (x - 1)) (s16 (y - 1)))))
    by (intros; apply (ne_last _ _ 77); [lia|reflexivity]).
  assert (N2 := fun f x => ne_seq signed_num _ IS (N1 f x)).
  assert (N3 := fun f x => ne_seq (char_lang 59) _ C2 (fun _ => N2 f x)).
  assert (N4 := fun f => ne_seq signed_num _ IS (N3 f)).
  assert (N5 := fun f => ne_seq (char_lang 59) _ C2 (fun _ => N4 f)).
  assert (N6 := ne_seq int_lang _ II N5).
  assert (N8 := ne_seq (char_lang 91) _ C1 (fun _ => N6)).
  unfold matchMouse1015, urxvt_lang. change (ch "[") with 91. change (ch ";") with 59. change (ch "M") with 77.
  apply finishes_bind; [apply recog_checkAdv; lia| |intros _; exact N8].
  intros _. apply finishes_bind; [apply recog_checkAdv; lia| |intros _; exact N6].
  intros _. apply finishes_bind; [exact recog_int| |exact N5].
  intros f. apply finishes_bind; [apply recog_checkAdv; lia| |intros _; exact (N4 f)].
  intros _. apply finishes_bind; [exact recog_signed| |exact (N3 f)].
  intros x. apply finishes_bind; [apply recog_checkAdv; lia| |intros _; exact (N2 f x)].
  intros _. apply finishes_bind; [exact recog_signed| |exact (N1 f x)].
  intros y. refine (finishes_ext _ _ _ _ (finishes_last (Z.eqb 77) (fun _ => mkMouse false (f - 32) (s16 (x - 1)) (s16 (y - 1))))).
  intros [|c t]; [reflexivity|]. cbn [pcheck]. destruct (77 =? c); reflexivity.
Qed.

Definition any_lang : lang Z := fun s c => s = [c] /\ 0 <= c < 256.
Definition anyAdv (l : list Z) : pr Z := pbind (cur l) (fun f l => pbind (advance l) (fun _ l => Got f l)).
Lemma recog_any : recog anyAdv any_lang.
Proof.
  intros [|c [|d t]] Hb Hn; [congruence| |]; apply bytes_cons in Hb as (Hc & _); cbn.
  - exists [], c. split; [constructor|]. split; [reflexivity|exact Hc].
  - splits; [discriminate| |reflexivity]. exists [c]. split; [reflexivity|]. split; [reflexivity|exact Hc].
Qed.
Lemma finishes_any {A} (f : Z -> A) :
  finishes (fun l => match l with [] => PUB | c :: _ => Got (f c) l end) (fun s a => exists c, s = [c] /\ 0 <= c < 256 /\ a = f c).
Proof.
  intros [|c t] Hb Hn; [congruence|]. cbn [app]. apply bytes_cons in Hb as (Hc & _).
  exists [], c, t. splits; auto. exists c. auto.
Qed.
Definition x10_lang : lang mouse :=
  seq (char_lang 27) (fun _ => seq (char_lang 91) (fun _ => seq (char_lang 77) (fun _ => seq any_lang (fun f => seq any_lang (fun x =>
  (fun s a => exists y, s = [y] /\ 0 <= y < 256 /\
     a = mkMouse false (Z.land (schar f - 32) 255) (Z.land (schar x - 33) 255) (Z.land (schar y - 33) 255))))))).
Lemma x10_finishes : finishes matchMouseDefault x10_lang.
Proof.
  assert (C1 : inhab (char_lang 91)) by (apply inhab_char; lia).
  assert (C2 : inhab (char_lang 77)) by (apply inhab_char; lia).
  assert (IA : inhab any_lang) by (exists [49], 49; split; [repeat constructor; lia|split; [reflexivity|lia]]).
  assert (N1 : forall f x, ne_inhab (fun s a => exists y, s = [y] /\ 0 <= y < 256 /\
     a = mkMouse false (Z.land (schar f - 32) 255) (Z.land (schar x - 33) 255) (Z.land (schar y - 33) 255))).
  { intros f x. exists [49]. eexists. splits; [discriminate|repeat constructor; lia|]. exists 49. splits; try reflexivity; lia. }
  assert (N2 := fun f => ne_seq any_lang _ IA (N1 f)).
  assert (N3 := ne_seq any_lang _ IA N2).
  assert (N4 := ne_seq (char_lang 77) _ C2 (fun _ => N3)).
  assert (N5 := ne_seq (char_lang 91) _ C1 (fun _ => N4)).
  unfold matchMouseDefault, x10_lang. change (ch "[") with 91. change (ch "M") with 77. change 0xFF with 255.
  apply finishes_bind; [apply recog_checkAdv; lia| |intros _; exact N5].
  intros _. apply finishes_bind; [apply recog_checkAdv; lia| |intros _; exact N4].
  intros _. apply finishes_bind; [apply recog_checkAdv; lia| |intros _; exact N3].
  intros _. refine (finishes_ext _ _ _ _ (finishes_bind anyAdv (fun f l => pbind (anyAdv l) (fun x l => match l with [] => PUB | y :: _ =>
      Got (mkMouse false (Z.land (schar f - 32) 255) (Z.land (schar x - 33) 255) (Z.land (schar y - 33) 255)) l end)) any_lang _ recog_any _ N2)).
  - intros [|f [|x [|y t]]]; reflexivity.
  - intros f. apply finishes_bind; [exact recog_any| |exact (N1 f)]. intros x. apply finishes_any.
Qed.

Lemma dsr_lang_ok s u : dsr_lang s u -> dsr_reply s.
Proof.
  intros (s1 & a1 & t1 & -> & -> & s2 & a2 & t2 & -> & -> & s3 & a3 & t3 & -> & (D1 & _) & s4 & a4 & t4 & -> & -> & s5 & a5 & t5 & -> & (D2 & _) & c & -> & Hc & _).
  apply Z.eqb_eq in Hc. subst c. exists s3, s5. splits; auto.
Qed.
Lemma sgr_lang_ok s r : sgr_lang s r -> mouse_seq s r.
Proof.
  intros (s1 & a1 & t1 & -> & -> & s2 & a2 & t2 & -> & -> & s3 & a3 & t3 & -> & -> & s4 & f & t4 & -> & (D1 & ->) & s5 & a5 & t5 & -> & -> &
    s6 & x & t6 & -> & X & s7 & a7 & t7 & -> & -> & s8 & y & t8 & -> & Y & c & -> & Hc & ->).
  refine (ms_sgr s4 s6 x s8 y c D1 X Y _). apply orb_true_iff in Hc. rewrite !Z.eqb_eq in Hc. exact Hc.
Qed.
Lemma urxvt_lang_ok s r : urxvt_lang s r -> mouse_seq s r.
Proof.
  intros (s1 & a1 & t1 & -> & -> & s2 & a2 & t2 & -> & -> & s4 & f & t4 & -> & (D1 & ->) & s5 & a5 & t5 & -> & -> &
    s6 & x & t6 & -> & X & s7 & a7 & t7 & -> & -> & s8 & y & t8 & -> & Y & c & -> & Hc & ->).
  apply Z.eqb_eq in Hc. subst c. exact (ms_urxvt s4 s6 x s8 y D1 X Y).
Qed.
Lemma land255 a b : Z.land (schar a - b) 255 = (a - b) mod 256.
Proof.
  change 255 with (2 ^ 8 - 1). rewrite land_mask by lia. change (2 ^ 8) with 256. unfold schar. destruct (a <? 128); [reflexivity|].
  replace (a - 256 - b) with (a - b + (-1) * 256) by lia. apply Z_mod_plus_full.
Qed.
Lemma x10_lang_ok s r : x10_lang s r -> mouse_seq s r.
Proof.
  intros (s1 & a1 & t1 & -> & -> & s2 & a2 & t2 & -> & -> & s3 & a3 & t3 & -> & -> & s4 & f & t4 & -> & (-> & Hf) & s5 & x & t5 & -> & (-> & Hx) & y & -> & Hy & ->).
  rewrite !land255. cbn [app]. apply (ms_x10 f x y). repeat constructor; lia.
Qed.

Lemma dsr_fin : finishes (matchDsr e) (fun s _ => dsr_reply s).
Proof. exact (finishes_weaken _ _ _ dsr_finishes dsr_lang_ok). Qed.
Lemma finishes_orElse {A} (m n : list Z -> pr A) L : finishes m L -> finishes n L -> finishes (fun l => orElse (m l) (n l)) L.
Proof.
  intros Hm Hn l Hb Hne. specialize (Hm l Hb Hne). specialize (Hn l Hb Hne). destruct (m l) as [| | |a r] eqn:Em; cbn [orElse]; auto.
  - destruct (n l) as [| | |a r] eqn:En; auto.
    + intros Q HQ. rewrite (Hm Q HQ). cbn. auto.
    + destruct Hn as (p & x & t & H1 & H2 & H3 & H4). exists p, x, t. splits; auto. intros Q HQ. rewrite (Hm Q HQ). cbn. auto.
  - destruct Hm as (p & x & t & H1 & H2 & H3 & H4). exists p, x, t. splits; auto. intros Q HQ. rewrite (H4 Q HQ). reflexivity.
Qed.
Lemma mouse_fin : finishes (matchMouseRecord e) mouse_seq.
Proof.
  unfold matchMouseRecord. apply finishes_orElse; [exact (finishes_weaken _ _ _ sgr_finishes sgr_lang_ok)|].
  apply finishes_orElse; [exact (finishes_weaken _ _ _ urxvt_finishes urxvt_lang_ok)|exact (finishes_weaken _ _ _ x10_finishes x10_lang_ok)].
Qed.

(** *** Completeness: a sequence of the grammar is matched *)
Lemma scan_digits_all d : forall k out c Q, Forall (fun c => 48 <= c <= 57) d -> d <> [] -> 0 <= k -> k + zlen d <= 7 -> 0 <= out < 10 ^ k ->
  0 <= c < 256 -> ~ 48 <= c <= 57 ->
  scan_digits e 8 k out (d ++ c :: Q) = Got (fold_left (fun a c => a * 10 + (c - 48)) d out) (c :: Q).
Proof.
  induction d as [|x d IH]; intros k out c Q F Hn Hk Hl Ho Hc Hnd; [congruence|]. inversion F as [|? ? Hx F']; subst. rewrite zlen_cons in Hl.
  pose proof (zlen_nonneg d). cbn [scan_digits app]. replace (k + 1 <? 8) with true by lia.
  replace (schar x) with x by (unfold schar; destruct (Z.ltb_spec x 128); lia).
  assert (Ho' : 0 <= out * 10 + x - 48 < 10 ^ (k + 1)).
  { rewrite Z.pow_add_r by lia. change (10 ^ 1) with 10. lia. }
  assert (P7 : 10 ^ (k + 1) <= 10 ^ 7) by (apply Z.pow_le_mono_r; lia). change (10 ^ 7) with 10000000 in P7.
  replace (in_s 32 (out * 10 + x - 48)) with true by (unfold in_s; change (2 ^ (32 - 1)) with 2147483648; lia).
  cbn [fold_left]. replace (out * 10 + (x - 48)) with (out * 10 + x - 48) by lia.
  destruct d as [|y d].
  - cbn [app fold_left]. rewrite cdigit_iff by exact Hc. replace ((48 <=? c) && (c <=? 57)) with false by lia. reflexivity.
  - inversion F' as [|? ? Hy F2]; subst. cbn [app]. rewrite cdigit_iff by lia. replace ((48 <=? y) && (y <=? 57)) with true by lia.
    change (y :: d ++ c :: Q) with ((y :: d) ++ c :: Q). apply IH; auto; try lia. discriminate.
Qed.
Lemma scan_int_all d c Q : digits d -> 0 <= c < 256 -> ~ 48 <= c <= 57 -> scan_int e 8 (d ++ c :: Q) = Got (decval d) (c :: Q).
Proof.
  intros (Hl & F) Hc Hn. destruct d as [|x d]; [cbn in Hl; lia|]. inversion F as [|? ? Hx F']; subst.
  unfold scan_int. cbn [app pcheck]. rewrite cdigit_iff by lia. replace ((48 <=? x) && (x <=? 57)) with true by lia. cbn [pbind].
  change (x :: d ++ c :: Q) with ((x :: d) ++ c :: Q). apply scan_digits_all; auto; try lia; discriminate.
Qed.
Lemma checkAdv_all x c Q : checkAdv x (x :: c :: Q) = Got tt (c :: Q).
Proof. unfold checkAdv, pcheck. rewrite Z.eqb_refl. reflexivity. Qed.
Lemma dsr_complete s Q : dsr_reply s -> matchDsr e (s ++ Q) = Got tt (82 :: Q).
Proof.
  intros (a & b & Da & Db & ->). unfold matchDsr. change (ch "[") with 91. change (ch ";") with 59. change (ch "R") with 82.
  rewrite <- !app_assoc. cbn [app]. rewrite checkAdv_all. cbn [pbind].
  destruct a as [|a0 a']; [destruct Da as (Da & _); cbn in Da; lia|]. cbn [app]. rewrite checkAdv_all. cbn [pbind].
  change (a0 :: a' ++ 59 :: b ++ 82 :: Q) with ((a0 :: a') ++ 59 :: b ++ 82 :: Q). rewrite scan_int_all by (auto; lia). cbn [pbind].
  destruct b as [|b0 b']; [destruct Db as (Db & _); cbn in Db; lia|]. cbn [app]. rewrite checkAdv_all. cbn [pbind].
  change (b0 :: b' ++ 82 :: Q) with ((b0 :: b') ++ 82 :: Q). rewrite scan_int_all by (auto; lia). reflexivity.
Qed.

End Matchers.
