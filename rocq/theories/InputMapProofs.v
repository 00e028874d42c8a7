From Verif Require Import Base BaseLemmas Text InputMap InputMapSpec.
Ltac Zify.zify_post_hook ::= Z.div_mod_to_equations.
Ltac splits := repeat match goal with |- _ /\ _ => split end.

(** *** Nodes as finite maps *)
Fixpoint assoc (l : list (Z * node)) (ch : Z) : option node :=
  match l with [] => None | (v, n) :: t => if v =? ch then Some n else assoc t ch end.
Definition child (n : node) (ch : Z) : option node :=
  let (_, _, u) := n in
  match u with Tiny l => assoc l ch | Branch a => match znth a ch with Some c => c | None => None end end.

Definition local (n : node) : Prop :=
  let (_, cnt, u) := n in
  match u with
  | Tiny l => cnt = zlen l /\ cnt <= 8 /\ Forall (fun p => 0 <= fst p < 256) l /\ NoDup (map fst l)
  | Branch a => zlen a = 256 /\ 8 < cnt /\ exists ch c, 0 <= ch < 256 /\ znth a ch = Some (Some c)
  end.

Lemma tiny_find_ok {E} l : forall ch, @tiny_find E (length l) l ch = Ok (assoc l ch).
Proof. induction l as [|[v n] t IH]; intros ch; cbn; [reflexivity|]. destruct (v =? ch); auto. Qed.

Lemma getChild_ok {E} n ch : local n -> 0 <= ch < 256 -> @getChild E n ch = Ok (child n ch).
Proof.
  destruct n as [k cnt [l|a]]; cbn [local getChild child]; unfold kTinyCount.
  - intros (-> & Hc & _) Hch. replace (zlen l <=? 8) with true by lia. unfold zlen. rewrite Nat2Z.id. apply tiny_find_ok.
  - intros (Ha & Hc & _) Hch. replace (cnt <=? 8) with false by lia.
    destruct (znth_some a ch ltac:(lia)) as (c & ->). reflexivity.
Qed.

Lemma assoc_app l1 l2 ch : assoc (l1 ++ l2) ch = match assoc l1 ch with Some n => Some n | None => assoc l2 ch end.
Proof. induction l1 as [|[v n] t IH]; cbn; [reflexivity|]. destruct (v =? ch); auto. Qed.
Lemma assoc_none l ch : assoc l ch = None <-> ~ In ch (map fst l).
Proof.
  induction l as [|[v n] t IH]; cbn; [tauto|]. destruct (Z.eqb_spec v ch) as [E|E].
  - split; [discriminate|]. intros H. contradict H. auto.
  - rewrite IH. intuition.
Qed.
Lemma NoDup_insert (a b : list Z) x : NoDup (a ++ b) -> ~ In x (a ++ b) -> NoDup (a ++ x :: b).
Proof. intros H N. apply NoDup_Add with (a := x) (l := a ++ b); [apply Add_app|auto]. Qed.

Lemma zupd_some' {A} (l : list A) i a : 0 <= i < zlen l ->
  exists l', zupd l i a = Some l' /\ zlen l' = zlen l /\ znth l' i = Some a /\ forall j, j <> i -> znth l' j = znth l j.
Proof.
  intros H. destruct (zupd_some l i a H) as (l' & H1 & H2 & H3). exists l'. splits; auto.
  - rewrite H3, Z.eqb_refl. reflexivity.
  - intros j Hj. rewrite H3. now replace (j =? i) with false by lia.
Qed.
Lemma fill_branch_ok {E} l : forall a, zlen a = 256 -> Forall (fun p => 0 <= fst p < 256) l -> NoDup (map fst l) ->
  exists a', @fill_branch E l a = Ok a' /\ zlen a' = 256 /\
    forall ch, 0 <= ch < 256 -> znth a' ch = match assoc l ch with Some n => Some (Some n) | None => znth a ch end.
Proof.
  induction l as [|[v n] t IH]; intros a Ha F N; cbn [fill_branch assoc].
  - exists a. auto.
  - inversion F as [|? ? Hv F']; subst. inversion N as [|? ? Hn N']; subst. cbn in Hv.
    destruct (zupd_some' a v (Some n) ltac:(lia)) as (a1 & -> & L1 & G1 & O1).
    destruct (IH a1 ltac:(lia) F' N') as (a' & -> & L' & H'). exists a'. splits; auto. intros ch Hch. rewrite H' by exact Hch.
    destruct (Z.eqb_spec v ch) as [Ev|Ev].
    + subst ch. replace (assoc t v) with (@None node); [exact G1|]. symmetry. now apply assoc_none.
    + destruct (assoc t ch); [reflexivity|]. apply O1. lia.
Qed.

Lemma create_ok {E} n ch : local n -> 0 <= ch < 256 ->
  exists n' c, @getOrCreateChild E n ch = Ok (n', c) /\ local n' /\ node_key n' = node_key n /\
    child n' ch = Some c /\ (child n ch = Some c \/ child n ch = None /\ c = empty_node) /\
    (forall x, 0 <= x < 256 -> x <> ch -> child n' x = child n x).
Proof.
  intros L Hch. unfold getOrCreateChild. rewrite getChild_ok by auto. cbn [bind].
  destruct (child n ch) as [c|] eqn:Ec; [exists n, c; splits; auto|].
  destruct n as [k cnt [l|a]]; cbn [local child] in *; unfold kTinyCount.
  - destruct L as (-> & Hc & F & N). apply assoc_none in Ec. destruct (Z.ltb_spec (zlen l) 8) as [Hlt|Hge].
    + set (i := insert_index l ch 0). eexists _, _. split; [reflexivity|].
      pose proof (zfirstn_zskipn i l) as S. cbn [local child node_key].
      assert (Hn : ~ In ch (map fst (zfirstn i l ++ zskipn i l))) by now rewrite S.
      rewrite map_app in Hn. splits; auto.
      * rewrite zlen_app, zlen_cons. rewrite <- S at 1. rewrite zlen_app. lia.
      * lia.
      * rewrite <- S in F. apply Forall_app in F. apply Forall_app. split; [apply F|]. constructor; [cbn; lia|apply F].
      * rewrite map_app. cbn [map fst]. apply NoDup_insert; [|exact Hn]. rewrite <- map_app, S. exact N.
      * rewrite assoc_app. replace (assoc (zfirstn i l) ch) with (@None node).
        2:{ symmetry. apply assoc_none. intros H. apply Hn. apply in_or_app. auto. }
        cbn [assoc]. now rewrite Z.eqb_refl.
      * intros x Hx Hne. rewrite <- S at 3. rewrite !assoc_app. cbn [assoc]. replace (ch =? x) with false by lia. reflexivity.
    + assert (zlen l = 8) as E8 by lia. rewrite E8. change (8 =? 8) with true. cbn match.
      destruct (@fill_branch_ok E l (zrepeat None 256)) as (a & -> & La & Ha); [now rewrite zlen_repeat|exact F|exact N|].
      cbn [bind]. destruct (zupd_some' a ch (Some empty_node) ltac:(lia)) as (a' & -> & L' & G' & O').
      eexists _, _. split; [reflexivity|]. cbn [local child node_key]. splits; auto; try lia.
      * exists ch, empty_node. split; [lia|exact G'].
      * rewrite G'. reflexivity.
      * intros x Hx Hne. rewrite O' by lia. rewrite Ha by lia. destruct (assoc l x); [reflexivity|].
        rewrite znth_repeat by lia. reflexivity.
  - destruct L as (La & Hc & Hex). replace (cnt <? 8) with false by lia. replace (cnt =? 8) with false by lia. cbn [bind].
    destruct (zupd_some' a ch (Some empty_node) ltac:(lia)) as (a' & -> & L' & G' & O').
    eexists _, _. split; [reflexivity|]. cbn [local child node_key]. splits; auto; try lia.
    + exists ch, empty_node. split; [lia|exact G'].
    + rewrite G'. reflexivity.
    + intros x Hx Hne. rewrite O' by lia. reflexivity.
Qed.

Lemma tiny_put_fst l ch c : map fst (tiny_put l ch c) = map fst l.
Proof. induction l as [|[v n] t IH]; cbn; [reflexivity|]. destruct (v =? ch); cbn; congruence. Qed.
Lemma tiny_put_assoc l ch c x : assoc (tiny_put l ch c) x = if x =? ch then match assoc l ch with Some _ => Some c | None => None end else assoc l x.
Proof.
  induction l as [|[v n] t IH]; cbn; [now destruct (x =? ch)|]. destruct (Z.eqb_spec v ch) as [E|E]; cbn.
  - subst v. rewrite (Z.eqb_sym x ch). destruct (ch =? x); reflexivity.
  - rewrite IH. destruct (Z.eqb_spec x ch) as [Ex|Ex]; [|reflexivity]. subst x. replace (v =? ch) with false by lia. reflexivity.
Qed.

Lemma put_ok n ch c : local n -> 0 <= ch < 256 -> child n ch <> None ->
  local (putChild n ch c) /\ node_key (putChild n ch c) = node_key n /\
  child (putChild n ch c) ch = Some c /\ (forall x, 0 <= x < 256 -> x <> ch -> child (putChild n ch c) x = child n x).
Proof.
  destruct n as [k cnt [l|a]]; cbn [local child node_key putChild]; intros L Hch Hc.
  - destruct L as (-> & H8 & F & N). splits; auto.
    + pose proof (tiny_put_fst l ch c) as T. apply (f_equal zlen) in T. rewrite !zlen_map in T. lia.
    + apply (Forall_map fst (fun v => 0 <= v < 256)). rewrite tiny_put_fst. now apply (Forall_map fst (fun v => 0 <= v < 256)).
    + rewrite tiny_put_fst. exact N.
    + rewrite tiny_put_assoc, Z.eqb_refl. destruct (assoc l ch); congruence.
    + intros x Hx Hne. rewrite tiny_put_assoc. now replace (x =? ch) with false by lia.
  - destruct L as (La & H8 & ex). destruct (zupd_some' a ch (Some c) ltac:(lia)) as (a' & -> & L' & G' & O'). splits; auto; try lia.
    + exists ch, c. split; [lia|exact G'].
    + now rewrite G'.
    + intros x Hx Hne. now rewrite O' by lia.
Qed.

(** *** Paths *)
Fixpoint find (n : node) (p : list Z) : option node :=
  match p with [] => Some n | ch :: t => match child n ch with Some c => find c t | None => None end end.
Definition wf (n : node) : Prop := forall p m, bytes p -> find n p = Some m -> local m.

Lemma wf_local n : wf n -> local n.
Proof. intros H. apply (H []); [constructor|reflexivity]. Qed.
Lemma wf_child n ch c : wf n -> 0 <= ch < 256 -> child n ch = Some c -> wf c.
Proof. intros H Hc E p m Hp Hf. apply (H (ch :: p)); [now constructor|]. cbn. now rewrite E. Qed.
Lemma wf_empty : wf empty_node.
Proof.
  intros [|ch t] m _ H; cbn in H; [|discriminate]. injection H as <-. cbn. splits; [reflexivity|lia|constructor|constructor].
Qed.

(** What setting a key does to every path. *)
Lemma set_ok {E} s : forall n k, wf n -> bytes s ->
  exists n', @setHelper E n s k = Ok n' /\ wf n' /\
    (forall p, bytes p -> (find n' p <> None <-> find n p <> None \/ exists c, s = p ++ c)) /\
    (forall p m', bytes p -> find n' p = Some m' ->
        node_key m' = if list_eqb p s then k else match find n p with Some m => node_key m | None => kKeyZero end).
Proof.
  induction s as [|ch t IH]; intros n k W Hb; cbn [setHelper].
  - destruct n as [k0 cnt u]. eexists. split; [reflexivity|].
    assert (F : forall p m, find (Node k cnt u) p = Some m ->
              (p = [] /\ m = Node k cnt u) \/ (p <> [] /\ find (Node k0 cnt u) p = Some m)).
    { intros [|c p] m H; cbn in *; [left; split; congruence|right; split; [discriminate|exact H]]. }
    assert (G : forall p, p <> [] -> find (Node k cnt u) p = find (Node k0 cnt u) p) by (intros [|c p] Hp; [congruence|reflexivity]).
    splits.
    + intros p m Hp Hf. destruct (F p m Hf) as [(-> & ->)|(_ & H)]; [exact (wf_local _ W)|exact (W p m Hp H)].
    + intros p Hp. destruct p as [|c p].
      * cbn. split; [intros _; left; discriminate|discriminate].
      * rewrite G by discriminate. split; [auto|]. intros [H|(x & Hx)]; [exact H|discriminate].
    + intros p m' Hp Hf. destruct (F p m' Hf) as [(-> & ->)|(Hne & H)]; [reflexivity|].
      rewrite H. replace (list_eqb p []) with false; [reflexivity|]. symmetry. now apply list_eqb_neq.
  - inversion Hb as [|? ? Hch Ht]; subst.
    destruct (@create_ok E n ch (wf_local _ W) Hch) as (n1 & c & -> & L1 & K1 & C1 & Cn & O1). cbn [bind].
    assert (Wc : wf c) by (destruct Cn as [Cn|(_ & ->)]; [exact (wf_child _ _ _ W Hch Cn)|exact wf_empty]).
    destruct (IH c k Wc Ht) as (c' & -> & Wc' & D & KK). cbn [bind].
    destruct (put_ok n1 ch c' L1 Hch ltac:(congruence)) as (L2 & K2 & C2 & O2).
    eexists. split; [reflexivity|]. set (n' := putChild n1 ch c') in *. clearbody n'.
    assert (X : forall x, 0 <= x < 256 -> x <> ch -> child n' x = child n x) by (intros x Hx Hne; now rewrite O2, O1).
    splits.
    + intros p m Hp Hf. destruct p as [|x p]; cbn [find] in Hf; [now injection Hf as <-|].
      inversion Hp as [|? ? Hx Hp']; subst. destruct (Z.eq_dec x ch) as [->|Hne].
      * rewrite C2 in Hf. exact (Wc' p m Hp' Hf).
      * rewrite X in Hf by auto. destruct (child n x) as [y|] eqn:Ey; [|discriminate]. exact (wf_child _ _ _ W Hx Ey p m Hp' Hf).
    + intros p Hp. destruct p as [|x p]; cbn [find].
      { split; [left; discriminate|discriminate]. }
      inversion Hp as [|? ? Hx Hp']; subst. destruct (Z.eq_dec x ch) as [->|Hne].
      * rewrite C2. rewrite (D p Hp'). split.
        -- intros [H|(y & Hy)]; [|right; exists y; cbn; congruence].
           destruct Cn as [->|(Cn & ->)]; [auto|]. destruct p as [|z p]; [|cbn in H; congruence]. right. exists t. reflexivity.
        -- intros [H|(y & Hy)]; [|right; exists y; cbn in Hy; congruence].
           left. destruct Cn as [Cn|(Cn & _)]; rewrite Cn in H; [exact H|congruence].
      * rewrite X by auto. split; [auto|]. intros [H|(y & Hy)]; [exact H|cbn in Hy; congruence].
    + intros p m' Hp Hf. destruct p as [|x p]; cbn [find] in *.
      { injection Hf as <-. cbn. congruence. }
      inversion Hp as [|? ? Hx Hp']; subst. cbn [list_eqb]. destruct (Z.eqb_spec x ch) as [->|Hne]; cbn [andb].
      * rewrite C2 in Hf. rewrite (KK p m' Hp' Hf). destruct (list_eqb p t); [reflexivity|].
        destruct Cn as [->|(-> & ->)]; [reflexivity|]. destruct p; reflexivity.
      * rewrite X in Hf by auto. destruct (child n x); [|discriminate]. now rewrite Hf.
Qed.

Definition means (n : node) (regs : list (list Z * Key)) : Prop :=
  (forall p, bytes p -> (find n p <> None <-> p = [] \/ exists s k c, In (s, k) regs /\ s = p ++ c)) /\
  (forall p m, bytes p -> find n p = Some m -> node_key m = match assigned regs p with Some k => k | None => kKeyZero end).

Lemma assigned_app r1 r2 s : assigned (r1 ++ r2) s = match assigned r2 s with Some k => Some k | None => assigned r1 s end.
Proof.
  induction r1 as [|[s' k] t IH]; cbn; [now destruct (assigned r2 s)|]. rewrite IH. destruct (assigned r2 s); reflexivity.
Qed.
Lemma assigned_none_notin regs s : assigned regs s = None -> forall k, ~ In (s, k) regs.
Proof.
  induction regs as [|[s' k'] t IH]; cbn; [auto|]. destruct (assigned t s); [discriminate|].
  destruct (list_eqb s' s) eqn:E; [discriminate|]. intros _ k [[= -> ->]|H]; [|exact (IH eq_refl k H)].
  rewrite list_eqb_refl in E. discriminate.
Qed.
Lemma assigned_in regs s k : assigned regs s = Some k -> In (s, k) regs.
Proof.
  induction regs as [|[s' k'] t IH]; cbn; [discriminate|]. destruct (assigned t s) as [k1|].
  - intros [= ->]. right. auto.
  - destruct (list_eqb s' s) eqn:E; [|discriminate]. intros [= ->]. left. f_equal. now apply list_eqb_eq.
Qed.

Lemma set_all_ok {E} new : forall n regs, wf n -> means n regs -> regs_ok new ->
  exists n', @set_all E n new = Ok n' /\ wf n' /\ means n' (regs ++ new).
Proof.
  induction new as [|[s k] t IH]; intros n regs W M R; cbn [set_all].
  - exists n. rewrite app_nil_r. auto.
  - inversion R as [|? ? (Hne & Hb) R']; subst. cbn [fst] in *.
    unfold set. replace (0 <? zlen s) with true.
    2:{ symmetry. apply Z.ltb_lt. destruct s; [congruence|]. rewrite zlen_cons. pose proof (zlen_nonneg s). lia. }
    cbn [assert_ bind]. destruct (@set_ok E s n k W Hb) as (n1 & -> & W1 & D & KK). cbn [bind].
    destruct M as (M1 & M2).
    destruct (IH n1 (regs ++ [(s, k)]) W1) as (n' & E1 & W' & M'); [|exact R'|].
    + split.
      * intros p Hp. rewrite (D p Hp). rewrite (M1 p Hp). split.
        -- intros [[H|(s' & k' & c & Hi & He)]|(c & Hc)]; [auto| |].
           ++ right. exists s', k', c. split; [apply in_or_app; auto|exact He].
           ++ right. exists s, k, c. split; [apply in_or_app; right; now left|exact Hc].
        -- intros [H|(s' & k' & c & Hi & He)]; [auto|]. apply in_app_or in Hi. destruct Hi as [Hi|[[= <- <-]|[]]].
           ++ left. right. eauto.
           ++ right. eauto.
      * intros p m Hp Hf. rewrite (KK p m Hp Hf). rewrite assigned_app. cbn [assigned].
        destruct (list_eqb p s) eqn:Eq.
        -- apply list_eqb_eq in Eq. subst p. now rewrite list_eqb_refl.
        -- replace (list_eqb s p) with false.
           2:{ symmetry. apply list_eqb_neq. apply list_eqb_neq in Eq. congruence. }
           destruct (find n p) as [m0|] eqn:Ef; [exact (M2 p m0 Hp Ef)|].
           destruct (assigned regs p) as [k0|] eqn:Ea; [|reflexivity]. exfalso.
           apply assigned_in in Ea. assert (H : find n p <> None); [|congruence]. apply (M1 p Hp). right.
           exists p, k0, []. split; [exact Ea|now rewrite app_nil_r].
    + exists n'. rewrite <- app_assoc in M'. auto.
Qed.

Lemma means_empty : means empty_node [].
Proof.
  split.
  - intros [|c p] _; cbn; split; auto; try discriminate; try congruence. intros [H|(? & ? & ? & [] & _)]. discriminate.
  - intros [|c p] m _ H; cbn in H; [|discriminate]. now injection H as <-.
Qed.

(** *** Lookup *)
Lemma hasKey_iff n : hasKey n = true <-> is_key (node_key n).
Proof.
  unfold hasKey, is_key. rewrite orb_true_iff, !negb_true_iff, !Z.eqb_neq. reflexivity.
Qed.

Lemma find_app p q : forall n, find n (p ++ q) = match find n p with Some m => find m q | None => None end.
Proof. induction p as [|c p IH]; intros n; cbn; [reflexivity|]. destruct (child n c); auto. Qed.

Lemma zfirstn_snoc_full (pre : list Z) c t : zfirstn (zlen pre + 1) (pre ++ c :: t) = pre ++ [c].
Proof.
  replace (pre ++ c :: t) with ((pre ++ [c]) ++ t) by now rewrite <- app_assoc. apply zfirstn_app_exact. now rewrite zlen_app.
Qed.


Lemma bytes_app p q : bytes (p ++ q) <-> bytes p /\ bytes q.
Proof. unfold bytes. apply Forall_app. Qed.
Lemma regs_bytes regs s k : regs_ok regs -> In (s, k) regs -> s <> [] /\ bytes s.
Proof. intros R Hi. unfold regs_ok in R. rewrite Forall_forall in R. exact (R _ Hi). Qed.

Lemma lookup_ok {E} root regs : wf root -> means root regs -> regs_ok regs -> forall input pre n len key,
  bytes (pre ++ input) -> find root pre = Some n ->
  0 <= len <= zlen pre -> (len = 0 -> key = kKeyZero) ->
  (0 < len -> is_key key /\ assigned regs (zfirstn len pre) = Some key) ->
  (forall m k', len < m <= zlen pre -> assigned regs (zfirstn m pre) = Some k' -> ~ is_key k') ->
  exists len' key' inc, @lookup_loop E n input (zlen pre) len key = Ok (len', key', inc) /\
    longest_match regs (pre ++ input) len' key' /\
    (inc = true <-> exists s k, In (s, k) regs /\ proper_prefix (pre ++ input) s).
Proof.
  intros W M R. pose proof M as (M1 & M2).
  induction input as [|ch t IH]; intros pre n len key Hb Hf Hl H0 Hk Hm; cbn [lookup_loop].
  - rewrite app_nil_r in *. eexists _, _, _. split; [reflexivity|]. split; [unfold longest_match; splits; auto; lia|].
    pose proof (W pre n Hb Hf) as L. rewrite Z.ltb_lt. split.
    + intros Hc. assert (X : exists ch c, 0 <= ch < 256 /\ child n ch = Some c).
      { destruct n as [k0 cnt [l|a]]; cbn [local node_count child] in *.
        - destruct L as (-> & _ & F & N). destruct l as [|[v c] l]; [cbn in Hc; lia|].
          exists v, c. inversion F; subst. cbn [fst] in *. split; [auto|]. cbn. now rewrite Z.eqb_refl.
        - destruct L as (_ & _ & ch & c & Hch & Hz). exists ch, c. split; [exact Hch|]. now rewrite Hz. }
      destruct X as (ch & c & Hch & Hc'). assert (Hfc : find root (pre ++ [ch]) <> None).
      { rewrite find_app, Hf. cbn. rewrite Hc'. discriminate. }
      apply M1 in Hfc; [|apply bytes_app; split; [exact Hb|now repeat constructor]].
      destruct Hfc as [H|(s & k & c2 & Hi & ->)]; [destruct pre; discriminate|].
      exists ((pre ++ [ch]) ++ c2), k. split; [exact Hi|]. exists (ch :: c2). split; [discriminate|]. now rewrite <- app_assoc.
    + intros (s & k & Hi & c & Hne & ->). destruct c as [|x c]; [congruence|].
      destruct (Z.ltb_spec 0 (node_count n)) as [|Hz]; [auto|exfalso].
      assert (Hx : child n x = None).
      { destruct n as [k0 cnt [l|a]]; cbn [local node_count child] in *.
        - destruct L as (-> & _). pose proof (zlen_nonneg l). assert (zlen l = 0) as E0 by lia. apply zlen_0_nil in E0. now subst.
        - lia. }
      destruct (regs_bytes _ _ _ R Hi) as (_ & Hbs). apply bytes_app in Hbs as (_ & Hbs). inversion Hbs; subst.
      assert (Hfc : find root (pre ++ [x]) <> None).
      { apply M1; [apply bytes_app; split; [exact Hb|now repeat constructor]|]. right. exists (pre ++ x :: c), k, c.
        split; [exact Hi|now rewrite <- app_assoc]. }
      apply Hfc. rewrite find_app, Hf. cbn. now rewrite Hx.
  - apply bytes_app in Hb as (Hbp & Hbt). inversion Hbt as [|? ? Hch Hbt']; subst.
    pose proof (W pre n Hbp Hf) as L. rewrite getChild_ok by auto. cbn [bind].
    replace (pre ++ ch :: t) with ((pre ++ [ch]) ++ t) by now rewrite <- app_assoc.
    assert (Hb1 : bytes (pre ++ [ch])) by (apply bytes_app; split; [exact Hbp|now repeat constructor]).
    assert (Fc : find root (pre ++ [ch]) = child n ch).
    { rewrite find_app, Hf. cbn. now destruct (child n ch). }
    assert (Z1 : zlen (pre ++ [ch]) = zlen pre + 1) by now rewrite zlen_app.
    pose proof (zlen_nonneg t) as Zt. pose proof (zlen_nonneg pre) as Zp.
    destruct (child n ch) as [c|] eqn:Ec.
    + assert (Kc : node_key c = match assigned regs (pre ++ [ch]) with Some k => k | None => kKeyZero end) by (apply M2; auto).
      rewrite <- Z1. destruct (hasKey c) eqn:Hh.
      * apply hasKey_iff in Hh. apply IH; auto.
        -- apply bytes_app. auto.
        -- lia.
        -- lia.
        -- intros _. split; [exact Hh|]. rewrite zfirstn_all by lia.
           destruct (assigned regs (pre ++ [ch])) as [k1|]; [congruence|]. exfalso. rewrite Kc in Hh. destruct Hh as [H|H]; apply H; reflexivity.
        -- lia.
      * apply IH; auto.
        -- apply bytes_app. auto.
        -- lia.
        -- intros Hl'. destruct (Hk Hl') as (A & B). split; [exact A|]. rewrite zfirstn_app_le by lia. exact B.
        -- intros m k' Hmm. destruct (Z.eq_dec m (zlen pre + 1)) as [->|Hne].
           ++ rewrite zfirstn_all by lia. intros Ha Hk'. rewrite Ha in Kc. rewrite <- Kc in Hk'. apply hasKey_iff in Hk'. congruence.
           ++ rewrite zfirstn_app_le by lia. apply Hm. lia.
    + assert (NoExt : forall s k c2, In (s, k) regs -> s <> (pre ++ [ch]) ++ c2).
      { intros s k c2 Hi ->. assert (H : find root (pre ++ [ch]) <> None); [|congruence].
        apply M1; [exact Hb1|]. right. eauto. }
      eexists _, _, _. split; [reflexivity|]. split.
      * unfold longest_match. splits.
        -- lia.
        -- rewrite zlen_app. lia.
        -- exact H0.
        -- intros Hl'. destruct (Hk Hl') as (A & B). split; [exact A|]. rewrite zfirstn_app_le by lia. rewrite zfirstn_app_le by lia. exact B.
        -- intros m k' Hmm. destruct (Z_le_gt_dec m (zlen pre)) as [Hle|Hgt].
           ++ rewrite zfirstn_app_le by lia. rewrite zfirstn_app_le by lia. apply Hm. lia.
           ++ intros Ha. exfalso. apply assigned_in in Ha.
              refine (NoExt _ _ (zfirstn (m - zlen (pre ++ [ch])) t) Ha _).
              unfold zfirstn, zlen in *. rewrite firstn_app. f_equal.
              ** apply firstn_all2. lia.
              ** f_equal. lia.
      * split; [discriminate|]. intros (s & k & Hi & c2 & _ & ->). exfalso.
        apply (NoExt _ _ (t ++ c2) Hi). now rewrite <- app_assoc.
Qed.

Theorem lookup_correct {E} regs input : regs_ok regs -> bytes input ->
  exists root n k inc, @set_all E empty_node regs = Ok root /\ @lookupKey E root input = Ok (n, k, inc) /\
    longest_match regs input n k /\
    (inc = true <-> exists s k', In (s, k') regs /\ proper_prefix input s).
Proof.
  intros R Hb. destruct (@set_all_ok E regs empty_node [] wf_empty means_empty R) as (root & Hs & W & M). cbn [app] in M.
  destruct (@lookup_ok E root regs W M R input [] root 0 kKeyZero) as (n & k & inc & Hl & HL & HI); auto.
  - change (zlen (@nil Z)) with 0. lia.
  - lia.
  - intros m k' Hm. change (zlen (@nil Z)) with 0 in Hm. lia.
  - exists root, n, k, inc. auto.
Qed.

(** The longest match is unique, so lookup depends only on what is assigned. *)
Lemma longest_unique regs1 regs2 input n1 k1 n2 k2 :
  (forall s, assigned regs1 s = assigned regs2 s) ->
  longest_match regs1 input n1 k1 -> longest_match regs2 input n2 k2 -> n1 = n2 /\ k1 = k2.
Proof.
  intros A (B1 & Z1 & K1 & M1) (B2 & Z2 & K2 & M2).
  assert (n1 = n2) as E.
  { destruct (Z_lt_le_dec n1 n2) as [H|H].
    - exfalso. destruct (K2 ltac:(lia)) as (I & Ha). rewrite <- A in Ha. exact (M1 n2 k2 ltac:(lia) Ha I).
    - destruct (Z.eq_dec n1 n2) as [|Hn]; [auto|]. exfalso. destruct (K1 ltac:(lia)) as (I & Ha). rewrite A in Ha. exact (M2 n1 k1 ltac:(lia) Ha I). }
  split; [exact E|]. destruct (Z.eq_dec n1 0) as [Hz|Hn].
  - rewrite Z1, Z2 by lia. reflexivity.
  - destruct (K1 ltac:(lia)) as (_ & X). destruct (K2 ltac:(lia)) as (_ & Y). rewrite A, E in X. congruence.
Qed.

Lemma assigned_iff regs s : (exists k, In (s, k) regs) <-> assigned regs s <> None.
Proof.
  split.
  - intros (k & Hi) Hn. exact (assigned_none_notin _ _ Hn k Hi).
  - destruct (assigned regs s) as [k|] eqn:Ea; [|congruence]. intros _. exists k. now apply assigned_in.
Qed.

Theorem lookup_order {E} regs1 regs2 input : regs_ok regs1 -> regs_ok regs2 -> bytes input ->
  (forall s, assigned regs1 s = assigned regs2 s) ->
  exists r1 r2 ans, @set_all E empty_node regs1 = Ok r1 /\ @set_all E empty_node regs2 = Ok r2 /\
    @lookupKey E r1 input = Ok ans /\ @lookupKey E r2 input = Ok ans.
Proof.
  intros R1 R2 Hb A.
  destruct (@lookup_correct E regs1 input R1 Hb) as (r1 & n1 & k1 & i1 & S1 & L1 & M1 & I1).
  destruct (@lookup_correct E regs2 input R2 Hb) as (r2 & n2 & k2 & i2 & S2 & L2 & M2 & I2).
  destruct (longest_unique _ _ _ _ _ _ _ A M1 M2) as (-> & ->).
  assert (X : forall ra rb, (forall s, assigned ra s = assigned rb s) ->
    (exists s k', In (s, k') ra /\ proper_prefix input s) -> exists s k', In (s, k') rb /\ proper_prefix input s).
  { intros ra rb HA (s & k' & Hi & Hp). assert (H : exists k, In (s, k) rb).
    { apply assigned_iff. rewrite <- HA. apply assigned_iff. eauto. }
    destruct H as (k & H). eauto. }
  assert (i1 = i2) as ->.
  { destruct i1, i2; auto.
    - symmetry. apply I2. apply (X regs1 regs2 A). now apply I1.
    - apply I1. apply (X regs2 regs1 (fun s => eq_sym (A s))). now apply I2. }
  exists r1, r2, (n2, k2, i2). auto.
Qed.
