(** Facts about [Base]. *)
From Verif Require Import Base.
Ltac Zify.zify_post_hook ::= Z.div_mod_to_equations.

Lemma zlen_nonneg {A} (l : list A) : 0 <= zlen l.
Proof. unfold zlen; lia. Qed.

Lemma zlen_nil {A} : zlen (@nil A) = 0.
Proof. reflexivity. Qed.

Lemma zlen_cons {A} (a : A) l : zlen (a :: l) = zlen l + 1.
Proof. unfold zlen; cbn [length]; lia. Qed.

Lemma zlen_app {A} (l1 l2 : list A) : zlen (l1 ++ l2) = zlen l1 + zlen l2.
Proof. unfold zlen; rewrite app_length; lia. Qed.

Lemma zlen_map {A B} (f : A -> B) l : zlen (map f l) = zlen l.
Proof. unfold zlen; now rewrite map_length. Qed.

Lemma zlen_repeat {A} (a : A) n : zlen (zrepeat a n) = Z.max 0 n.
Proof. unfold zlen, zrepeat; rewrite repeat_length; lia. Qed.

Lemma zlen_rev {A} (l : list A) : zlen (rev l) = zlen l.
Proof. unfold zlen; now rewrite rev_length. Qed.

Lemma zlen_0_nil {A} (l : list A) : zlen l = 0 -> l = [].
Proof. destruct l; [reflexivity|]. rewrite zlen_cons; pose proof (zlen_nonneg l); lia. Qed.

Lemma zlen_zfirstn {A} n (l : list A) : zlen (zfirstn n l) = Z.min (Z.max 0 n) (zlen l).
Proof. unfold zlen, zfirstn; rewrite firstn_length; lia. Qed.

Lemma zlen_zskipn {A} n (l : list A) : zlen (zskipn n l) = zlen l - Z.min (Z.max 0 n) (zlen l).
Proof. unfold zlen, zskipn; rewrite skipn_length; lia. Qed.

Lemma zfirstn_zskipn {A} n (l : list A) : zfirstn n l ++ zskipn n l = l.
Proof. apply firstn_skipn. Qed.

Lemma zfirstn_all {A} n (l : list A) : zlen l <= n -> zfirstn n l = l.
Proof. unfold zlen, zfirstn; intros H; apply firstn_all2; lia. Qed.

Lemma zskipn_all {A} n (l : list A) : zlen l <= n -> zskipn n l = [].
Proof. unfold zlen, zskipn; intros H; apply skipn_all2; lia. Qed.

Lemma zfirstn_neg {A} n (l : list A) : n <= 0 -> zfirstn n l = [].
Proof. unfold zfirstn; intros H; replace (Z.to_nat n) with O by lia; reflexivity. Qed.

Lemma zskipn_neg {A} n (l : list A) : n <= 0 -> zskipn n l = l.
Proof. unfold zskipn; intros H; replace (Z.to_nat n) with O by lia; reflexivity. Qed.

Lemma zfirstn_app_exact {A} (l1 l2 : list A) n : n = zlen l1 -> zfirstn n (l1 ++ l2) = l1.
Proof.
  intros ->; unfold zfirstn, zlen; rewrite Nat2Z.id, firstn_app, Nat.sub_diag, firstn_all, firstn_O.
  apply app_nil_r.
Qed.

Lemma zskipn_app_exact {A} (l1 l2 : list A) n : n = zlen l1 -> zskipn n (l1 ++ l2) = l2.
Proof.
  intros ->; unfold zskipn, zlen; rewrite Nat2Z.id, skipn_app, Nat.sub_diag, skipn_all; reflexivity.
Qed.

Lemma zfirstn_app_le {A} n (l1 l2 : list A) : n <= zlen l1 -> zfirstn n (l1 ++ l2) = zfirstn n l1.
Proof.
  unfold zfirstn, zlen; intros H; rewrite firstn_app.
  replace (Z.to_nat n - length l1)%nat with O by lia. now rewrite firstn_O, app_nil_r.
Qed.

Lemma zskipn_app_le {A} n (l1 l2 : list A) : n <= zlen l1 -> zskipn n (l1 ++ l2) = zskipn n l1 ++ l2.
Proof.
  unfold zskipn, zlen; intros H; rewrite skipn_app.
  replace (Z.to_nat n - length l1)%nat with O by lia. reflexivity.
Qed.

Lemma zskipn_zskipn {A} a b (l : list A) :
  0 <= a -> 0 <= b -> zskipn a (zskipn b l) = zskipn (b + a) l.
Proof.
  unfold zskipn; intros Ha Hb.
  rewrite Z2Nat.inj_add by lia.
  generalize (Z.to_nat a) as x, (Z.to_nat b) as y; intros x y; revert l.
  induction y as [|y IH]; intros l; [reflexivity|].
  destruct l as [|h t]; cbn [skipn Nat.add]; [now rewrite skipn_nil|apply IH].
Qed.

Lemma znth_app_l {A} (l1 l2 : list A) i : i < zlen l1 -> znth (l1 ++ l2) i = znth l1 i.
Proof.
  unfold znth, zlen; intros H; destruct (i <? 0) eqn:E; [reflexivity|].
  apply nth_error_app1; lia.
Qed.

Lemma znth_app_r {A} (l1 l2 : list A) i : zlen l1 <= i -> znth (l1 ++ l2) i = znth l2 (i - zlen l1).
Proof.
  unfold znth, zlen; intros H.
  destruct (i <? 0) eqn:E1; destruct (i - Z.of_nat (length l1) <? 0) eqn:E2; try lia.
  rewrite nth_error_app2 by lia. f_equal; lia.
Qed.

Lemma znth_some {A} (l : list A) i : 0 <= i < zlen l -> exists a, znth l i = Some a.
Proof.
  unfold znth, zlen; intros H. destruct (i <? 0) eqn:E; [lia|].
  destruct (nth_error l (Z.to_nat i)) eqn:E2; [eauto|].
  apply nth_error_None in E2; lia.
Qed.

Lemma znth_none {A} (l : list A) i : zlen l <= i -> znth l i = None.
Proof.
  unfold znth, zlen; intros H. destruct (i <? 0) eqn:E; [reflexivity|].
  apply nth_error_None; lia.
Qed.

Lemma znth_range {A} (l : list A) i a : znth l i = Some a -> 0 <= i < zlen l.
Proof.
  unfold znth, zlen. destruct (i <? 0) eqn:E; [discriminate|]. intros H.
  assert (Hn : nth_error l (Z.to_nat i) <> None) by congruence.
  apply nth_error_Some in Hn; lia.
Qed.

Lemma znth_In {A} (l : list A) i a : znth l i = Some a -> In a l.
Proof. unfold znth. destruct (i <? 0); [discriminate|]. apply nth_error_In. Qed.

Lemma znth_0 {A} (a : A) l : znth (a :: l) 0 = Some a.
Proof. reflexivity. Qed.

Lemma znth_succ {A} (a : A) l i : 0 < i -> znth (a :: l) i = znth l (i - 1).
Proof.
  intros H. change (a :: l) with ([a] ++ l).
  apply znth_app_r. unfold zlen; cbn [length]; lia.
Qed.

Lemma znth_ext {A} (l1 l2 : list A) :
  zlen l1 = zlen l2 -> (forall i, 0 <= i < zlen l1 -> znth l1 i = znth l2 i) -> l1 = l2.
Proof.
  revert l2; induction l1 as [|a l1 IH]; intros l2 Hlen Hnth.
  - symmetry; apply zlen_0_nil; rewrite <- Hlen; reflexivity.
  - destruct l2 as [|b l2].
    { rewrite zlen_cons in Hlen; pose proof (zlen_nonneg l1); rewrite zlen_nil in Hlen; lia. }
    rewrite !zlen_cons in Hlen. pose proof (zlen_nonneg l1) as Hl1.
    assert (Hab : znth (a :: l1) 0 = znth (b :: l2) 0) by (apply Hnth; rewrite zlen_cons; lia).
    cbn in Hab; injection Hab as ->. f_equal. apply IH; [lia|].
    intros i Hi. specialize (Hnth (i + 1)). rewrite !znth_succ in Hnth by lia.
    replace (i + 1 - 1) with i in Hnth by lia. apply Hnth; rewrite zlen_cons; lia.
Qed.

Lemma znth_zfirstn {A} (l : list A) n i : i < n -> znth (zfirstn n l) i = znth l i.
Proof.
  unfold znth, zfirstn; intros H. destruct (i <? 0) eqn:E; [reflexivity|].
  assert (Hlt : (Z.to_nat i < Z.to_nat n)%nat) by lia. clear H E.
  revert l Hlt; generalize (Z.to_nat i) (Z.to_nat n); intros x y; revert x.
  induction y as [|y IH]; intros x l Hlt; [lia|].
  destruct l as [|a l]; [reflexivity|]. destruct x as [|x]; [reflexivity|].
  cbn [firstn nth_error]. apply IH; lia.
Qed.

Lemma znth_zskipn {A} (l : list A) n i : 0 <= n -> 0 <= i -> znth (zskipn n l) i = znth l (n + i).
Proof.
  intros Hn Hi.
  destruct (Z.le_gt_cases (zlen l) n) as [Hle|Hgt].
  - rewrite zskipn_all by lia. rewrite (znth_none l) by lia.
    apply znth_none; rewrite zlen_nil; lia.
  - rewrite <- (zfirstn_zskipn n l) at 2. rewrite znth_app_r.
    + rewrite zlen_zfirstn. f_equal; lia.
    + rewrite zlen_zfirstn; lia.
Qed.

Lemma znth_map {A B} (f : A -> B) l i : znth (map f l) i = option_map f (znth l i).
Proof. unfold znth; destruct (i <? 0); [reflexivity|]. apply nth_error_map. Qed.

Lemma znth_repeat {A} (a : A) n i : 0 <= i < n -> znth (zrepeat a n) i = Some a.
Proof.
  intros H. destruct (znth_some (zrepeat a n) i) as [b Hb].
  { rewrite zlen_repeat; lia. }
  rewrite Hb; f_equal. apply znth_In in Hb. now apply repeat_spec in Hb.
Qed.

Lemma upd_nat_some {A} (l : list A) i a :
  (i < length l)%nat -> exists l', upd_nat l i a = Some l' /\ length l' = length l /\
    forall j, nth_error l' j = if Nat.eqb j i then Some a else nth_error l j.
Proof.
  revert i; induction l as [|x l IH]; intros i H; [cbn in H; lia|].
  destruct i as [|i]; cbn [upd_nat].
  - eexists; split; [reflexivity|]. split; [reflexivity|]. intros [|j]; reflexivity.
  - destruct (IH i) as (l' & E & Hl & Hn); [cbn in H; lia|]. rewrite E.
    eexists; split; [reflexivity|]. split; [cbn; lia|]. intros [|j]; [reflexivity|]. apply Hn.
Qed.

Lemma upd_nat_none {A} (l : list A) i a : (length l <= i)%nat -> upd_nat l i a = None.
Proof.
  revert i; induction l as [|x l IH]; intros i H; [destruct i; reflexivity|].
  destruct i as [|i]; [cbn in H; lia|]. cbn [upd_nat]. rewrite IH; [reflexivity|cbn in H; lia].
Qed.

Lemma zupd_some {A} (l : list A) i a :
  0 <= i < zlen l -> exists l', zupd l i a = Some l' /\ zlen l' = zlen l /\
    forall j, znth l' j = if j =? i then Some a else znth l j.
Proof.
  unfold zupd, zlen; intros H. destruct (i <? 0) eqn:E; [lia|].
  destruct (upd_nat_some l (Z.to_nat i) a) as (l' & E' & Hl & Hn); [lia|].
  exists l'; split; [exact E'|]. split; [lia|].
  intros j; unfold znth. destruct (j <? 0) eqn:Ej.
  - destruct (j =? i) eqn:Eji; [lia|reflexivity].
  - rewrite Hn. destruct (Nat.eqb_spec (Z.to_nat j) (Z.to_nat i)); destruct (j =? i) eqn:Eji;
      try lia; reflexivity.
Qed.

Lemma zupd_none {A} (l : list A) i a : i < 0 \/ zlen l <= i -> zupd l i a = None.
Proof.
  unfold zupd, zlen; intros H. destruct (i <? 0) eqn:E; [reflexivity|].
  apply upd_nat_none; lia.
Qed.

Lemma wrapu_small bits x : 0 <= x < 2 ^ bits -> wrapu bits x = x.
Proof. intros H; unfold wrapu; apply Z.mod_small; exact H. Qed.

Lemma wrapu_range bits x : 0 <= bits -> 0 <= wrapu bits x < 2 ^ bits.
Proof. intros H; unfold wrapu; apply Z.mod_pos_bound; apply Z.pow_pos_nonneg; lia. Qed.

Lemma wraps_small bits x : 0 < bits -> - 2 ^ (bits - 1) <= x < 2 ^ (bits - 1) -> wraps bits x = x.
Proof.
  intros Hb H; unfold wraps.
  assert (Hp : 2 ^ bits = 2 * 2 ^ (bits - 1)).
  { replace bits with (Z.succ (bits - 1)) at 1 by lia. apply Z.pow_succ_r; lia. }
  assert (Hpos : 0 < 2 ^ (bits - 1)) by (apply Z.pow_pos_nonneg; lia).
  rewrite Hp. set (p := 2 ^ (bits - 1)) in *.
  destruct (Z.le_gt_cases 0 x) as [Hx|Hx].
  - rewrite Z.mod_small by lia. destruct (x <? p) eqn:E; lia.
  - assert (Hm : x mod (2 * p) = x + 2 * p).
    { rewrite <- (Z_mod_plus_full x 1 (2 * p)). rewrite Z.mod_small; lia. }
    rewrite Hm. destruct (x + 2 * p <? p) eqn:E; lia.
Qed.

Lemma wraps_range bits x : 0 < bits -> - 2 ^ (bits - 1) <= wraps bits x < 2 ^ (bits - 1).
Proof.
  intros Hb; unfold wraps.
  assert (Hp : 2 ^ bits = 2 * 2 ^ (bits - 1)).
  { replace bits with (Z.succ (bits - 1)) at 1 by lia. apply Z.pow_succ_r; lia. }
  assert (Hpos : 0 < 2 ^ (bits - 1)) by (apply Z.pow_pos_nonneg; lia).
  rewrite Hp. set (p := 2 ^ (bits - 1)) in *.
  pose proof (Z.mod_pos_bound x (2 * p)) as Hm.
  destruct (x mod (2 * p) <? p) eqn:E; lia.
Qed.

Lemma bind_Ok {E A B} (m : res E A) (k : A -> res E B) b :
  bind m k = Ok b -> exists a, m = Ok a /\ k a = Ok b.
Proof. destruct m; cbn; intros H; try discriminate; eauto. Qed.
