From Coq Require Import Permutation.
From Verif Require Import Base BaseLemmas ConsoleFont ConsoleFontSpec.
Ltac Zify.zify_post_hook ::= Z.div_mod_to_equations.
Ltac splits := repeat match goal with |- _ /\ _ => split end.

Definition halfcols (c : Z) : Z := Z.min c (Z.max 40 (Z.quot c 2)).
Definition sc (c : Z) (f : fsize) : Z * Z :=
  if (160 <=? pixels f c) && (160 <=? pixels f (halfcols c)) then (2, - pixels f c)
  else if 160 <=? pixels f c then (1, - pixels f c) else (0, pixels f c).
Definition fits (c : Z) (f : fsize) : Prop := 1 <= f_width f <= 43.
Definition cols_ok (c : Z) : Prop := 1 <= c <= 49000000.

Lemma half_range c : cols_ok c -> 1 <= halfcols c <= c.
Proof. unfold cols_ok, halfcols. intros H. rewrite Z.quot_div_nonneg by lia. lia. Qed.
Lemma score_ok c f : cols_ok c -> fits c f -> score f c = Ok (sc c f).
Proof.
  intros C F. pose proof (half_range c C) as Hh. unfold cols_ok, fits in *. unfold score, imul, sc, pixels. fold (halfcols c).
  assert (A : forall d, 1 <= d <= 49000000 -> in_s 32 (f_width f * d) = true).
  { intros d D. unfold in_s. change (2 ^ (32 - 1)) with 2147483648. apply andb_true_iff. split; nia. }
  rewrite (A c) by lia. cbn [bind]. rewrite (A (halfcols c)) by lia. cbn [bind]. reflexivity.
Qed.
Definition ge (a b : Z * Z) : Prop := tuple_gt b a = false.
Lemma ge_refl a : ge a a.
Proof. unfold ge, tuple_gt. lia. Qed.
Lemma ge_trans a b c : ge a b -> ge b c -> ge a c.
Proof. unfold ge, tuple_gt. destruct a, b, c; cbn. lia. Qed.
Lemma gt_ge a b : tuple_gt a b = true -> ge a b.
Proof. unfold ge, tuple_gt. destruct a, b; cbn. lia. Qed.
Lemma best_of_spec c l : cols_ok c -> Forall (fits c) l -> forall o s,
  exists o' s', best_of l c (o, s) = Ok (o', s') /\ ge s' s /\ Forall (fun g => ge s' (sc c g)) l /\
    ((o' = o /\ s' = s) \/ exists f, o' = Some f /\ In f l /\ s' = sc c f).
Proof.
  intros C. induction l as [|f l IH]; intros F o s; cbn [best_of].
  - exists o, s. splits; auto using ge_refl.
  - apply Forall_cons_iff in F as (F1 & F2). rewrite (score_ok c f C F1). cbn [bind snd]. destruct (tuple_gt (sc c f) s) eqn:E.
    + destruct (IH F2 (Some f) (sc c f)) as (o' & s' & H1 & H2 & H3 & H4). exists o', s'. splits; auto.
      * eapply ge_trans; [exact H2|now apply gt_ge].
      * right. destruct H4 as [(-> & ->)|(g & -> & G1 & G2)]; [exists f; splits; auto; now left|exists g; splits; auto; now right].
    + destruct (IH F2 o s) as (o' & s' & H1 & H2 & H3 & H4). exists o', s'. splits; auto.
      * constructor; [|exact H3]. eapply ge_trans; [exact H2|exact E].
      * destruct H4 as [H4|(g & -> & G1 & G2)]; [now left|right; exists g; splits; auto; now right].
Qed.

(** In every table wider means larger *)
Definition mono (t : list fsize) : Prop := forall f g, In f t -> In g t -> f_width f <= f_width g -> f_size f <= f_size g.
Definition monob (t : list fsize) : bool := forallb (fun f => forallb (fun g => negb (f_width f <=? f_width g) || (f_size f <=? f_size g)) t) t.
Lemma monob_ok t : monob t = true -> mono t.
Proof.
  unfold monob, mono. intros H f g Hf Hg L. rewrite forallb_forall in H. specialize (H f Hf). rewrite forallb_forall in H. specialize (H g Hg). lia.
Qed.
Definition fitsb (t : list fsize) : bool := forallb (fun f => (1 <=? f_width f) && (f_width f <=? 43)) t.
Lemma table_ok cp n w : let t := snd (font_table cp n w) in t <> [] /\ mono t /\ forall c, Forall (fits c) t.
Proof.
  assert (A : forall t, t <> [] -> monob t = true -> fitsb t = true -> t <> [] /\ mono t /\ forall c, Forall (fits c) t).
  { intros t N M Fb. splits; auto using monob_ok. intros c. apply Forall_forall. intros f Hf. unfold fitsb in Fb. rewrite forallb_forall in Fb. specialize (Fb f Hf). unfold fits. lia. }
  unfold font_table. cbv zeta. destruct (cp =? 932), (cp =? 936), (cp =? 949), (cp =? 950), n, w; cbn [snd]; apply A; try discriminate; vm_compute; reflexivity.
Qed.

Lemma select cp c n w : cols_ok c -> exists f,
  selectSmallFont cp c n w = Ok (fst (font_table cp n w), f) /\
  let t := snd (font_table cp n w) in
  (forall g, In g t -> wide g c -> wide_halved g c -> smallest (fun h => wide h c /\ wide_halved h c) t f) /\
  ((forall g, In g t -> ~ (wide g c /\ wide_halved g c)) -> forall g, In g t -> wide g c -> smallest (fun h => wide h c) t f) /\
  ((forall g, In g t -> ~ wide g c) -> largest t f).
Proof.
  intros C. pose proof (table_ok cp n w) as T. cbv zeta in *. unfold selectSmallFont. destruct (font_table cp n w) as (fc, t). cbn [fst snd] in *. destruct T as (T1 & T2 & T3).
  destruct (best_of_spec c t C (T3 c) None (-1, -1)) as (o' & s' & -> & H1 & H2 & H3). cbn [bind].
  destruct H3 as [(-> & ->)|(f & -> & Hf & ->)].
  - exfalso. destruct t as [|f t]; [congruence|]. apply Forall_inv in H2. unfold ge, tuple_gt, sc in H2. pose proof (Forall_inv (T3 c)) as F1. unfold fits in F1. unfold cols_ok in C.
    repeat match type of H2 with context [if ?b then _ else _] => destruct b end; cbn in H2; lia.
  - exists f. split; [reflexivity|]. rewrite Forall_forall in H2.
    assert (W : forall g, In g t -> pixels f c <= pixels g c -> f_size f <= f_size g).
    { intros g Hg L. apply T2; auto. unfold pixels, cols_ok in *. nia. }
    assert (W' : forall g, In g t -> pixels g c <= pixels f c -> f_size g <= f_size f).
    { intros g Hg L. apply T2; auto. unfold pixels, cols_ok in *. nia. }
    unfold smallest, largest, wide, wide_halved. fold (halfcols c).
    assert (Hn : forall g, In g t -> 0 <= pixels g c). { intros g Hg. specialize (T3 c). rewrite Forall_forall in T3. specialize (T3 g Hg). unfold fits, pixels, cols_ok in *. nia. }
    splits.
    + intros g Hg G1 G2. pose proof (H2 g Hg) as S. unfold ge, tuple_gt, sc in S.
      assert (P : 160 <= pixels f c /\ 160 <= pixels f (halfcols c)).
      { destruct ((160 <=? pixels g c) && (160 <=? pixels g (halfcols c))) eqn:Eg; [|lia].
        destruct ((160 <=? pixels f c) && (160 <=? pixels f (halfcols c))) eqn:Ef; [lia|]. destruct (160 <=? pixels f c); cbn in S; lia. }
      splits; try tauto. intros h Hh (K1 & K2). apply W; auto. pose proof (H2 h Hh) as S'. unfold ge, tuple_gt, sc in S'.
      rewrite (proj2 (andb_true_iff (160 <=? pixels h c) (160 <=? pixels h (halfcols c)))) in S' by lia. rewrite (proj2 (andb_true_iff (160 <=? pixels f c) (160 <=? pixels f (halfcols c)))) in S' by lia. cbn in S'. lia.
    + intros No g Hg G1.
      assert (Nb : forall h, In h t -> (160 <=? pixels h c) && (160 <=? pixels h (halfcols c)) = false). { intros h Hh. specialize (No h Hh). lia. }
      assert (S0 : forall h, In h t -> 160 <= pixels h c -> 160 <= pixels f c /\ pixels f c <= pixels h c).
      { intros h Hh K. pose proof (H2 h Hh) as S. unfold ge, tuple_gt, sc in S. rewrite (Nb h Hh), (Nb f Hf) in S. destruct (160 <=? pixels h c) eqn:E1; [|lia]. destruct (160 <=? pixels f c) eqn:E2; cbn in S; lia. }
      splits; auto. { now apply (S0 g). } intros h Hh K. apply W; auto. now apply S0.
    + intros No. split; [auto|]. intros g Hg. apply W'; auto. pose proof (H2 g Hg) as S. unfold ge, tuple_gt, sc in S.
      pose proof (No g Hg). pose proof (No f Hf). destruct (160 <=? pixels g c) eqn:E1; [lia|]. destruct (160 <=? pixels f c) eqn:E2; [lia|]. cbn in S. lia.
Qed.

(** *** Fallback *)
Lemma vista accept cp c n w : cols_ok c -> exists asked cur, setSmallFontVista accept cp c n w = Ok (asked, cur) /\
  exists fc f, selectSmallFont cp c n w = Ok (fc, f) /\
  (accept fc (f_size f) = true -> asked = [(fc, f_size f)] /\ cur = Some (fc, f_size f)) /\
  (accept fc (f_size f) = false -> ~ In cp [932; 936; 949; 950] -> asked = [(fc, f_size f)] /\ cur = None) /\
  (accept fc (f_size f) = false -> In cp [932; 936; 949; 950] -> exists g, selectSmallFont 0 c n w = Ok (LucidaConsole, g) /\
     asked = [(fc, f_size f); (LucidaConsole, f_size g)] /\ cur = if accept LucidaConsole (f_size g) then Some (LucidaConsole, f_size g) else None).
Proof.
  intros C. destruct (select cp c n w C) as (f & E & _). destruct (select 0 c n w C) as (g & E' & _). unfold setSmallFontVista. rewrite E. cbn [bind].
  change (fst (font_table 0 n w)) with LucidaConsole in E'. rewrite E'. cbn [bind].
  assert (D : (cp =? 932) || (cp =? 936) || (cp =? 949) || (cp =? 950) = true <-> In cp [932; 936; 949; 950]) by (cbn; lia).
  destruct (accept (fst (font_table cp n w)) (f_size f)) eqn:Ea.
  - do 2 eexists. split; [reflexivity|]. do 2 eexists. split; [reflexivity|]. splits; intros; auto; congruence.
  - destruct ((cp =? 932) || (cp =? 936) || (cp =? 949) || (cp =? 950)) eqn:Ec.
    + do 2 eexists. split; [reflexivity|]. do 2 eexists. split; [reflexivity|]. splits; [congruence| |eauto]. intros _ N. exfalso. apply N, D. reflexivity.
    + do 2 eexists. split; [reflexivity|]. do 2 eexists. split; [reflexivity|]. splits; [congruence|auto|]. intros _ Y. exfalso. apply D in Y. discriminate.
Qed.

(** *** XP *)
Lemma read_in sz n : forall i e, In e (readFontTable sz i n) -> exists j, i <= j < i + Z.of_nat n /\ e = (j, sz j).
Proof.
  induction n as [|n IH]; intros i e H; cbn [readFontTable] in H; [contradiction|]. destruct ((fst (sz i) =? 0) && (snd (sz i) =? 0)); [contradiction|].
  destruct H as [<-|H]; [exists i; split; [lia|reflexivity]|]. destruct (IH _ _ H) as (j & Hj & ->). exists j. split; [lia|reflexivity].
Qed.
Lemma try_in reply l : forall t r, tryFonts reply l = (t, r) ->
  (forall i, In i t -> exists s, In (i, s) l /\ 4 <= fst s) /\
  match r with
  | Some i => reply i = XSet /\ exists t', t = t' ++ [i] /\ Forall (fun j => reply j = XSetFailed \/ reply j = XOther) t'
  | None => Forall (fun j => reply j <> XSet) t
  end.
Proof.
  induction l as [|(i & x & y) l IH]; intros t r; cbn [tryFonts]; [intros [= <- <-]; split; [contradiction|constructor]|].
  destruct (x <? 4) eqn:E.
  - intros H. destruct (IH _ _ H) as (A & B). split; [|exact B]. intros j Hj. destruct (A j Hj) as (s & S1 & S2). exists s. split; [now right|exact S2].
  - destruct (tryFonts reply l) as (t0 & r0) eqn:Et. destruct (IH _ _ eq_refl) as (A & B).
    assert (H0 : forall j, In j (i :: t0) -> exists s, In (j, s) ((i, (x, y)) :: l) /\ 4 <= fst s).
    { intros j [<-|Hj]; [exists (x, y); split; [now left|cbn; lia]|]. destruct (A j Hj) as (s & S1 & S2). exists s. split; [now right|exact S2]. }
    destruct (reply i) eqn:Er.
    + intros [= <- <-]. split; [exact H0|]. destruct r0 as [k|]; [|constructor; [congruence|exact B]]. destruct B as (B1 & t' & -> & B2). split; [exact B1|]. exists (i :: t'). split; [reflexivity|]. constructor; auto.
    + intros [= <- <-]. split; [|constructor; [congruence|constructor]]. intros j [<-|[]]. apply H0. now left.
    + intros [= <- <-]. split; [exact H0|]. destruct r0 as [k|]; [|constructor; [congruence|exact B]]. destruct B as (B1 & t' & -> & B2). split; [exact B1|]. exists (i :: t'). split; [reflexivity|]. constructor; auto.
    + intros [= <- <-]. split; [intros j [<-|[]]; apply H0; now left|]. split; [exact Er|]. exists []. split; [reflexivity|constructor].
Qed.
(** The accepted font is no larger than any acceptable font of the table, unless a query failed before *)
Lemma try_smallest reply l : nondecreasing l -> forall t i, tryFonts reply l = (t, Some i) ->
  exists s, In (i, s) l /\ 4 <= fst s /\ forall j u, In (j, u) l -> 4 <= fst u -> reply j = XSet -> fst s + snd s <= fst u + snd u.
Proof.
  induction l as [|(k & x & y) l IH]; intros M t i; cbn [tryFonts]; [discriminate|]. destruct M as (M1 & M2). rewrite Forall_forall in M1.
  destruct (x <? 4) eqn:E.
  - intros H. destruct (IH M2 _ _ H) as (s & S1 & S2 & S3). exists s. splits; auto; [now right|]. intros j u [X|X] U R; [injection X as <- <-; cbn in U; lia|eauto].
  - destruct (reply k) eqn:Er.
    + destruct (tryFonts reply l) as (t0 & r0). intros [= <- ->]. destruct (IH M2 _ _ eq_refl) as (s & S1 & S2 & S3). exists s. splits; auto; [now right|]. intros j u [X|X] U R; [injection X as <- <-; congruence|eauto].
    + discriminate.
    + destruct (tryFonts reply l) as (t0 & r0). intros [= <- ->]. destruct (IH M2 _ _ eq_refl) as (s & S1 & S2 & S3). exists s. splits; auto; [now right|]. intros j u [X|X] U R; [injection X as <- <-; congruence|eauto].
    + intros [= <- <-]. exists (x, y). splits; [now left|cbn; lia|]. intros j u [X|X] U R; [injection X as <- <-; cbn; lia|]. apply (M1 (j, u) X).
Qed.
Lemma try_none reply l t : tryFonts reply l = (t, None) -> (forall j, reply j <> XGetFailed) -> forall j u, In (j, u) l -> 4 <= fst u -> reply j <> XSet.
Proof.
  revert t; induction l as [|(k & x & y) l IH]; intros t H G j u Hj U; [contradiction|]. cbn [tryFonts] in H. destruct (x <? 4) eqn:E.
  - destruct Hj as [X|X]; [injection X as <- <-; cbn in U; lia|eauto].
  - destruct (reply k) eqn:Er; [| |destruct (tryFonts reply l) as (t0 & r0) eqn:Et|]; [destruct (tryFonts reply l) as (t0 & r0) eqn:Et| | |]; try discriminate.
    + injection H as <- ->. destruct Hj as [X|X]; [injection X as <- <-; congruence|eauto].
    + exfalso. exact (G k Er).
    + injection H as <- ->. destruct Hj as [X|X]; [injection X as <- <-; congruence|eauto].
Qed.

Lemma face_ok cp n w : fst (font_table cp n w) = face_for cp.
Proof.
  unfold font_table, face_for. cbn [find fst]. rewrite !(Z.eqb_sym _ cp). destruct (cp =? 932); [reflexivity|]. destruct (cp =? 936); [reflexivity|].
  destruct (cp =? 949); [reflexivity|]. destruct (cp =? 950); reflexivity.
Qed.
Lemma table_has_four cp n w : exists g, In g (snd (font_table cp n w)) /\ f_width g = 4 /\ f_size g <= 8.
Proof.
  assert (A : forall t, existsb (fun g => (f_width g =? 4) && (f_size g <=? 8)) t = true -> exists g, In g t /\ f_width g = 4 /\ f_size g <= 8).
  { intros t H. apply existsb_exists in H as (g & H1 & H2). exists g. split; [exact H1|lia]. }
  unfold font_table. destruct (cp =? 932), (cp =? 936), (cp =? 949), (cp =? 950), n, w; cbn [snd]; apply A; vm_compute; reflexivity.
Qed.
Lemma read_table sz n : forall i j s, In (j, s) (readFontTable sz i n) <-> (i <= j < i + Z.of_nat n /\ forall k, i <= k <= j -> sz k <> (0, 0)) /\ s = sz j.
Proof.
  induction n as [|n IH]; intros i j s; cbn [readFontTable].
  - split; [intros []|intros ((H & _) & _); lia].
  - cbv zeta. destruct ((fst (sz i) =? 0) && (snd (sz i) =? 0)) eqn:E.
    + split; [intros []|]. intros ((H1 & H2) & _). exfalso. apply (H2 i ltac:(lia)). destruct (sz i). cbn in E. f_equal; lia.
    + assert (N : sz i <> (0, 0)) by (intros Q; rewrite Q in E; discriminate). cbn [In]. rewrite IH. split.
      * intros [H|((H1 & H2) & H3)].
        -- injection H as <- <-. splits; [lia|lia|intros k Hk; replace k with i by lia; exact N|reflexivity].
        -- splits; auto; try lia. intros k Hk. destruct (Z.eq_dec k i) as [->|]; [exact N|]. apply H2. lia.
      * intros ((H1 & H2) & H3). destruct (Z.eq_dec j i) as [->|]; [left; congruence|]. right. splits; auto; try lia. intros k Hk. apply H2. lia.
Qed.
