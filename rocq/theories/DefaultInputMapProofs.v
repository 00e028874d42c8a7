From Verif Require Import Base BaseLemmas Text InputMap InputMapSpec InputMapProofs DefaultInputMap DefaultInputMapSpec.
Ltac Zify.zify_post_hook ::= Z.div_mod_to_equations.
Ltac splits := repeat match goal with |- _ /\ _ => split end.

Definition keqb (a b : Key) := (virtualKey a =? virtualKey b) && (unicodeChar a =? unicodeChar b) && (keyState a =? keyState b).
Lemma keqb_eq a b : keqb a b = true -> a = b.
Proof. destruct a, b. unfold keqb. cbn. rewrite !andb_true_iff, !Z.eqb_eq. intros ((-> & ->) & ->). reflexivity. Qed.

Definition regs_okb (regs : list (list Z * Key)) : bool :=
  forallb (fun r => negb (zlen (fst r) =? 0) && forallb (fun c => (0 <=? c) && (c <? 256)) (fst r)) regs.
Lemma regs_okb_ok regs : regs_okb regs = true -> regs_ok regs.
Proof.
  unfold regs_okb, regs_ok. rewrite forallb_forall, Forall_forall. intros H x Hx. specialize (H x Hx).
  apply andb_true_iff in H as (H1 & H2). split.
  - intros Hn. rewrite Hn in H1. discriminate.
  - unfold bytes. rewrite forallb_forall in H2. rewrite Forall_forall. intros c Hc. specialize (H2 c Hc). lia.
Qed.
Definition all_found (root : node) (l : list (list Z * Key)) : bool :=
  forallb (fun '(s, k) => match @lookupKey unit root s with
                          | Ok (n, k', false) => (n =? zlen s) && keqb k k' && negb ((virtualKey k =? 0) && (unicodeChar k =? 0))
                          | _ => false end) l.

Lemma bytes_okb s : forallb (fun c => (0 <=? c) && (c <? 256)) s = true -> bytes s.
Proof. rewrite forallb_forall. unfold bytes. rewrite Forall_forall. intros H c Hc. specialize (H c Hc). lia. Qed.

(** A complete match that nothing extends stays the match whatever follows. *)
Lemma lookup_then {E} regs root s k rest : regs_ok regs -> @set_all E empty_node regs = Ok root ->
  bytes s -> bytes rest -> 0 < zlen s -> @lookupKey E root s = Ok (zlen s, k, false) ->
  @lookupKey E root (s ++ rest) = Ok (zlen s, k, false).
Proof.
  intros R S Hs Hr Hp L.
  destruct (@lookup_correct E regs s R Hs) as (r1 & n1 & k1 & i1 & S1 & L1 & M1 & I1).
  assert (r1 = root) by congruence. subst r1. rewrite L in L1. injection L1 as <- <- <-.
  assert (Hb : bytes (s ++ rest)) by (apply bytes_app; auto).
  destruct (@lookup_correct E regs (s ++ rest) R Hb) as (r2 & n2 & k2 & i2 & S2 & L2 & M2 & I2).
  assert (r2 = root) by congruence. subst r2. rewrite L2.
  assert (No : forall s' k', In (s', k') regs -> ~ proper_prefix s s').
  { intros s' k' Hi Hpp. assert (false = true) by (apply I1; eauto). discriminate. }
  destruct M1 as (_ & _ & K1 & _). destruct (K1 Hp) as (IK & As). rewrite zfirstn_all in As by lia.
  assert (LM : longest_match regs (s ++ rest) (zlen s) k).
  { pose proof (zlen_nonneg rest). unfold longest_match. splits.
    - lia.
    - rewrite zlen_app. lia.
    - lia.
    - intros _. split; [exact IK|]. now rewrite zfirstn_app_exact.
    - intros m k' Hm Ha. exfalso. apply assigned_in in Ha. apply (No _ _ Ha). exists (zfirstn (m - zlen s) rest). split.
      + intros Hn. apply (f_equal zlen) in Hn. rewrite zlen_zfirstn in Hn. change (zlen (@nil Z)) with 0 in Hn. rewrite zlen_app in Hm. lia.
      + unfold zfirstn, zlen in *. rewrite firstn_app. f_equal; [apply firstn_all2; lia|f_equal; lia]. }
  destruct (longest_unique regs regs _ _ _ _ _ (fun _ => eq_refl) M2 LM) as (-> & ->).
  destruct i2; [|reflexivity]. exfalso.
  destruct (proj1 I2 eq_refl) as (s' & k' & Hi & c & Hc & ->). apply (No _ _ Hi).
  exists (rest ++ c). split; [|now rewrite app_assoc]. intros Hn. apply app_eq_nil in Hn as (_ & Hn). contradiction.
Qed.

(** *** The table, computed *)
Definition calls := Eval vm_compute in match @default_calls unit with Ok l => l | _ => [] end.
Definition droot := Eval vm_compute in match @set_all unit empty_node calls with Ok l => l | _ => empty_node end.
Definition docs := Eval vm_compute in map (fun '(s, k, m) => (s, press k m)) documented.
Definition docroot := Eval vm_compute in match @set_all unit empty_node docs with Ok l => l | _ => empty_node end.

Lemma calls_eq {E} : @default_calls E = Ok calls.
Proof. vm_compute. reflexivity. Qed.
Lemma droot_eq {E} : @set_all E empty_node calls = Ok droot.
Proof. vm_compute. reflexivity. Qed.
Lemma docs_eq : docs = map (fun '(s, k, m) => (s, press k m)) documented.
Proof. vm_compute. reflexivity. Qed.
Lemma docroot_eq : @set_all unit empty_node docs = Ok docroot.
Proof. vm_compute. reflexivity. Qed.
Lemma calls_ok : regs_ok calls.
Proof. apply regs_okb_ok. vm_compute. reflexivity. Qed.
Lemma docs_ok : regs_ok docs.
Proof. apply regs_okb_ok. vm_compute. reflexivity. Qed.
Lemma calls_found : all_found droot calls = true.
Proof. vm_compute. reflexivity. Qed.
Lemma docs_found : all_found droot docs = true.
Proof. vm_compute. reflexivity. Qed.
Lemma calls_documented : all_found docroot calls = true.
Proof. vm_compute. reflexivity. Qed.

Global Opaque calls droot docs docroot.

Lemma Ok_inj {E A} (a b : A) : @Ok E A a = Ok b -> a = b.
Proof. congruence. Qed.
Lemma bind_eq {E A B} (m : res E A) a (f : A -> res E B) : m = Ok a -> bind m f = f a.
Proof. intros ->. reflexivity. Qed.
Lemma add_eq {E} : @addDefaultEntriesToInputMap E empty_node = @set_all E empty_node calls.
Proof. exact (bind_eq _ _ _ calls_eq). Qed.

Lemma found_lookup root l s k : all_found root l = true -> In (s, k) l -> @lookupKey unit root s = Ok (zlen s, k, false) /\ is_key k.
Proof.
  unfold all_found. rewrite forallb_forall. intros H Hi. specialize (H _ Hi). cbn beta iota in H.
  destruct (@lookupKey unit root s) as [[[n k'] [|]]| | | |]; try discriminate.
  apply andb_true_iff in H as (H & H1). apply andb_true_iff in H as (H & H2). apply keqb_eq in H2. subst k'.
  apply Z.eqb_eq in H. subst n. split; [reflexivity|]. unfold is_key.
  destruct (Z.eqb_spec (virtualKey k) 0); [|auto]. destruct (Z.eqb_spec (unicodeChar k) 0); [discriminate|auto].
Qed.

(** lookups do not depend on the exception type (they never throw) *)
Lemma tiny_find_poly {E E'} cnt : forall l ch r, @tiny_find E cnt l ch = Ok r -> @tiny_find E' cnt l ch = Ok r.
Proof.
  induction cnt as [|k IH]; intros [|[v n] t] ch r; cbn; try congruence. destruct (v =? ch); [congruence|auto].
Qed.
Lemma getChild_poly {E E'} n ch r : @getChild E n ch = Ok r -> @getChild E' n ch = Ok r.
Proof.
  destruct n as [k cnt [l|a]]; cbn; destruct (cnt <=? kTinyCount); try congruence; [apply tiny_find_poly|].
  destruct (znth a ch); congruence.
Qed.
Lemma lookup_poly {E E'} input : forall n i len key r, @lookup_loop E n input i len key = Ok r -> @lookup_loop E' n input i len key = Ok r.
Proof.
  induction input as [|ch t IH]; intros n i len key r; cbn [lookup_loop]; [congruence|].
  destruct (@getChild E n ch) as [o| | | |] eqn:Hg; cbn [bind]; try discriminate.
  rewrite (getChild_poly _ _ _ Hg). cbn [bind]. destruct o as [c|]; [|congruence]. destruct (hasKey c); apply IH.
Qed.

Theorem default_built {E} : exists cs, @default_calls E = Ok cs /\
  @addDefaultEntriesToInputMap E empty_node = @set_all E empty_node cs /\
  exists root, @set_all E empty_node cs = Ok root /\
  (forall s k, In (s, k) cs -> assigned cs s = Some k /\ is_key k).
Proof.
  exists calls. split; [exact calls_eq|]. split.
  - exact add_eq.
  - exists droot. split; [exact droot_eq|]. intros s k Hi. destruct (found_lookup _ _ _ _ calls_found Hi) as (L & K).
    split; [|exact K].
    destruct (regs_bytes _ _ _ calls_ok Hi) as (Hne & Hb).
    destruct (@lookup_correct unit calls s calls_ok Hb) as (r & n & k1 & i & S & L1 & M & _).
    pose proof (Ok_inj _ _ (eq_trans (eq_sym S) droot_eq)) as Hr. subst r. rewrite L in L1. injection L1 as <- <- <-.
    destruct M as (_ & _ & KK & _). destruct KK as (_ & As).
    { destruct s; [congruence|]. rewrite zlen_cons. pose proof (zlen_nonneg s). lia. }
    now rewrite zfirstn_all in As by lia.
Qed.

Theorem default_recognised {E} s k rest : means_key s k -> bytes rest ->
  exists root, @addDefaultEntriesToInputMap E empty_node = Ok root /\
    @lookupKey E root (s ++ rest) = Ok (zlen s, k, false).
Proof.
  intros (name & m & Hi & ->) Hr. exists droot. split.
  { exact (eq_trans add_eq droot_eq). }
  assert (Hd : In (s, press name m) docs).
  { rewrite docs_eq. apply in_map_iff. exists (s, name, m). auto. }
  destruct (found_lookup _ _ _ _ docs_found Hd) as (L & K). destruct (regs_bytes _ _ _ docs_ok Hd) as (Hne & Hb).
  unfold lookupKey. apply (@lookup_poly unit E).
  apply (@lookup_then unit calls droot s (press name m) rest calls_ok droot_eq Hb Hr); [|exact L].
  destruct s; [congruence|]. rewrite zlen_cons. pose proof (zlen_nonneg s). lia.
Qed.

Theorem default_only {E} input : bytes input ->
  exists root n k inc, @addDefaultEntriesToInputMap E empty_node = Ok root /\
    @lookupKey E root input = Ok (n, k, inc) /\ 0 <= n <= zlen input /\ (0 < n -> means_key (zfirstn n input) k).
Proof.
  intros Hb. destruct (@lookup_correct E calls input calls_ok Hb) as (r & n & k & i & S & L & M & I).
  exists r, n, k, i. split; [exact (eq_trans add_eq S)|]. split; [exact L|]. split; [apply M|].
  intros Hn. destruct M as (_ & _ & KK & _). destruct (KK Hn) as (IK & As). apply assigned_in in As.
    destruct (found_lookup _ _ _ _ calls_documented As) as (L2 & _).
    destruct (regs_bytes _ _ _ calls_ok As) as (Hne & Hb2).
    destruct (@lookup_correct unit docs _ docs_ok Hb2) as (r2 & n2 & k2 & i2 & S2 & L3 & M2 & _).
    pose proof (Ok_inj _ _ (eq_trans (eq_sym S2) docroot_eq)) as Hr. subst r2. rewrite L2 in L3. injection L3 as <- <- <-.
    destruct M2 as (_ & _ & KK2 & _). destruct KK2 as (_ & As2).
    { destruct (zfirstn n input) as [|z l]; [congruence|]. rewrite zlen_cons. pose proof (zlen_nonneg l). lia. }
    rewrite (zfirstn_all (zlen (zfirstn n input))) in As2 by lia. apply assigned_in in As2. rewrite docs_eq in As2.
    apply in_map_iff in As2. destruct As2 as ([[s0 name] m] & [= <- <-] & Hi). exists name, m. auto.
Qed.
