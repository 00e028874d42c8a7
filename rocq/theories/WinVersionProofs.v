From Verif Require Import Base BaseLemmas Text StringsSpec StringsProofs ShowInput ShowInputProofs WinVersion WinVersionSpec.
Ltac splits := repeat match goal with |- _ /\ _ => split end.

Lemma version_ge_ok a b c d : version_ge (a, b) (c, d) = true <-> at_least a b c d.
Proof.
  unfold version_ge, at_least. cbn [fst snd]. destruct (Z.ltb_spec a c); [split; [discriminate|lia]|]. destruct (Z.ltb_spec c a); [split; [lia|reflexivity]|].
  rewrite Z.leb_le. lia.
Qed.

Lemma used_app l : forall open r, well_used [] l -> well_used open r -> well_used open (l ++ r).
Proof.
  assert (G : forall l extra open r, well_used extra l -> well_used open r -> well_used (extra ++ open) (l ++ r)).
  { clear l. induction l as [|e l IH]; intros extra open r A B; cbn [app].
    - cbn in A. subst extra. exact B.
    - destruct e as [p [|]|p n|p|t]; cbn [well_used] in *.
      + exact (IH (p :: extra) open r A B).
      + exact (IH extra open r A B).
      + destruct A as (A1 & A2). split; [apply in_or_app; left; exact A1|exact (IH extra open r A2 B)].
      + destruct extra as [|q extra]; [destruct A|]. destruct A as (A1 & A2). cbn [app]. split; [exact A1|exact (IH extra open r A2 B)].
      + exact (IH extra open r A B). }
  intros open r A B. exact (G l [] open r A B).
Qed.
Lemma query_used os dll path r l : query_dll os dll path = (r, l) -> forall o k, well_used (dll :: o) k -> well_used (dll :: o) (l ++ k).
Proof.
  unfold query_dll. intros E o k W. destruct (negb (v_proc os nSize) || negb (v_proc os nGet) || negb (v_proc os nQuery)); [inversion E; subst; exact W|].
  destruct (v_size os path) as [size err]. destruct (size =? 0); [inversion E; subst; cbn; auto|]. destruct (negb (v_get os path)); inversion E; subst; cbn; auto 10.
Qed.
Lemma fixed_used os path r l : getFixedFileInfo os path = (r, l) -> well_used [] l.
Proof.
  unfold getFixedFileInfo. intros E. destruct (getSystemDirectory os) as [d|]; [|inversion E; subst; reflexivity].
  destruct (v_load os (d ++ str "\version.dll")); cbn [negb] in E; [|inversion E; subst; reflexivity].
  destruct (query_dll os (d ++ str "\version.dll") path) as [r0 l0] eqn:Q. inversion E; subst. cbn [app well_used].
  apply (query_used _ _ _ _ _ Q). cbn [well_used]. auto.
Qed.
Lemma query_loads os dll path r l : query_dll os dll path = (r, l) -> forall p ok, ~ In (MLoad p ok) l.
Proof.
  unfold query_dll. intros E p ok. destruct (negb (v_proc os nSize) || negb (v_proc os nGet) || negb (v_proc os nQuery)); [inversion E; subst; intros []|].
  destruct (v_size os path) as [size err]. destruct (size =? 0); [inversion E; subst; intros [K|[]]; discriminate K|].
  destruct (negb (v_get os path)); inversion E; subst; cbn [In]; intros K; intuition discriminate.
Qed.
Lemma fixed_loads os path r l : getFixedFileInfo os path = (r, l) -> safe_loads os l.
Proof.
  unfold getFixedFileInfo, getSystemDirectory. intros E. destruct (v_sysdir os) as [d|] eqn:S; [|inversion E; subst; intros p ok []].
  destruct (zlen d <? MAX_PATH); [|inversion E; subst; intros p ok []].
  destruct (v_load os (d ++ str "\version.dll")); cbn [negb] in E.
  - destruct (query_dll os (d ++ str "\version.dll") path) as [r0 l0] eqn:Q. inversion E; subst. intros p ok K. right. exists d. split; [exact S|].
    cbn [app In] in K. destruct K as [K|K]; [congruence|]. apply in_app_or in K. destruct K as [K|[K|[]]]; [destruct (query_loads _ _ _ _ _ Q _ _ K)|discriminate K].
  - inversion E; subst. intros p ok [K|[]]. right. exists d. split; [exact S|congruence].
Qed.
Lemma fixed_cases os path r l : getFixedFileInfo os path = (r, l) ->
  match r with
  | FOk i => readable os path i
  | FNotFound => missing os path
  | FError => (forall i, ~ readable os path i) /\ ~ missing os path
  end.
Proof.
  unfold getFixedFileInfo, getSystemDirectory. intros E. destruct (v_sysdir os) as [d|] eqn:S.
  2: { assert (r = FError) as -> by congruence. split; [intros i ((d & K & _) & _)|intros ((d & K & _) & _)]; congruence. }
  assert (U : library os -> zlen d < 260 /\ v_load os (d ++ str "\version.dll") = true /\ v_proc os nSize = true /\ v_proc os nGet = true /\ v_proc os nQuery = true).
  { intros (d' & K & K1 & K2 & K3). assert (d' = d) as -> by congruence. auto. }
  destruct (Z.ltb_spec (zlen d) MAX_PATH) as [B|B].
  2: { assert (r = FError) as -> by congruence. unfold MAX_PATH in B. split; [intros i (K & _)|intros (K & _)]; apply U in K; lia. }
  destruct (v_load os (d ++ str "\version.dll")) eqn:L; cbn [negb] in E.
  2: { assert (r = FError) as -> by congruence. split; [intros i (K & _)|intros (K & _)]; apply U in K; destruct K as (_ & K & _); discriminate K. }
  destruct (query_dll os (d ++ str "\version.dll") path) as [r0 l0] eqn:Q. assert (r0 = r) as -> by congruence. clear E. unfold query_dll in Q.
  destruct (v_proc os nSize) eqn:P1; cbn [negb orb] in Q; [|assert (r = FError) as -> by congruence; split; [intros i (K & _)|intros (K & _)]; apply U in K; destruct K as (_ & _ & K & _); discriminate K].
  destruct (v_proc os nGet) eqn:P2; cbn [negb orb] in Q; [|assert (r = FError) as -> by congruence; split; [intros i (K & _)|intros (K & _)]; apply U in K; destruct K as (_ & _ & _ & K & _); discriminate K].
  destruct (v_proc os nQuery) eqn:P3; cbn [negb orb] in Q; [|assert (r = FError) as -> by congruence; split; [intros i (K & _)|intros (K & _)]; apply U in K; destruct K as (_ & _ & _ & _ & K); discriminate K].
  assert (Lib : library os) by (exists d; unfold MAX_PATH in B; splits; auto). clear U.
  destruct (v_size os path) as [size err] eqn:Z0. unfold readable, missing. rewrite Z0. cbn [fst snd].
  destruct (Z.eqb_spec size 0) as [N|N].
  - destruct (Z.eqb_spec err ERROR_FILE_NOT_FOUND) as [E1|E1]; [assert (r = FNotFound) as -> by (cbn [orb] in Q; congruence); splits; auto|].
    destruct (Z.eqb_spec err ERROR_RESOURCE_DATA_NOT_FOUND) as [E2|E2]; [assert (r = FNotFound) as -> by (cbn [orb] in Q; congruence); splits; auto|].
    cbn [orb] in Q. assert (r = FError) as -> by congruence. unfold ERROR_FILE_NOT_FOUND, ERROR_RESOURCE_DATA_NOT_FOUND in *. split; [intros i (_ & K & _); exact (K N)|intros (_ & _ & [K|K]); congruence].
  - destruct (v_get os path) eqn:G; cbn [negb] in Q; [|assert (r = FError) as -> by congruence; split; [intros i (_ & _ & K & _); discriminate K|intros (_ & K & _); exact (N K)]].
    destruct (v_query os path) as [(n & j)|] eqn:V; [|assert (r = FError) as -> by congruence; split; [intros i (_ & _ & _ & K & _); discriminate K|intros (_ & K & _); exact (N K)]].
    destruct (Z.eqb_spec n sizeof_VS_FIXEDFILEINFO) as [E1|E1]; cbn [negb orb] in Q; [|assert (r = FError) as -> by congruence; unfold sizeof_VS_FIXEDFILEINFO in E1; split; [intros i (_ & _ & _ & K & _); congruence|intros (_ & K & _); exact (N K)]].
    destruct (Z.eqb_spec (fi_sig j) 0xFEEF04BD) as [E2|E2]; cbn [negb orb] in Q; [|assert (r = FError) as -> by congruence; split; [intros i (_ & _ & _ & K & K2); assert (i = j) as -> by congruence; exact (E2 K2)|intros (_ & K & _); exact (N K)]].
    assert (r = FOk j) as -> by congruence. unfold sizeof_VS_FIXEDFILEINFO in E1. subst n. splits; auto.
Qed.
(** Numbers *)
Lemma dec16 v : 0 <= v < 2 ^ 16 -> exists s, put_dec 2 v = Ok s /\ canonical 10 s v.
Proof.
  intros R. destruct (put_dec_ok false 2 v ltac:(lia) R) as (s & E & D). exists s. split; [exact E|]. unfold decimal in D. destruct (Z.ltb_spec v 0); [lia|exact D].
Qed.
Lemma dec32 v : dword v -> exists s, put_dec 4 v = Ok s /\ canonical 10 s v.
Proof.
  intros R. destruct (put_dec_ok false 4 v ltac:(lia) R) as (s & E & D). exists s. split; [exact E|]. unfold decimal in D. destruct (Z.ltb_spec v 0); [unfold dword in R; lia|exact D].
Qed.
Lemma dec8 v : 0 <= v < 2 ^ 8 -> exists s, put_dec 1 v = Ok s /\ canonical 10 s v.
Proof.
  intros R. destruct (put_dec_ok false 1 v ltac:(lia) R) as (s & E & D). exists s. split; [exact E|]. unfold decimal in D. destruct (Z.ltb_spec v 0); [lia|exact D].
Qed.
Lemma version64_eq ms ls : dword ms -> dword ls -> version64 ms ls = ms * 2 ^ 32 + ls.
Proof.
  unfold dword. intros M L. unfold version64. rewrite Z.shiftl_mul_pow2 by lia. unfold wrapu. rewrite Z.mod_small by (change (2 ^ 64) with (2 ^ 32 * 2 ^ 32); nia).
  exact (UnicodeProofs.lor_disjoint 32 ms ls ltac:(lia) L).
Qed.
Lemma fields ms ls : dword ms -> dword ls -> forall v, v = ms * 2 ^ 32 + ls ->
  wrapu 16 (Z.shiftr v 48) = ms / 2 ^ 16 /\ wrapu 16 (Z.shiftr v 32) = ms mod 2 ^ 16 /\ wrapu 16 (Z.shiftr v 16) = ls / 2 ^ 16 /\ wrapu 16 v = ls mod 2 ^ 16.
Proof.
  unfold dword. intros M L v V. unfold wrapu. rewrite !Z.shiftr_div_pow2 by lia.
  assert (A : v / 2 ^ 32 = ms) by (rewrite V, Z.div_add_l by lia; rewrite Z.div_small by lia; lia).
  assert (B : v / 2 ^ 48 = ms / 2 ^ 16) by (change (2 ^ 48) with (2 ^ 32 * 2 ^ 16); rewrite <- Z.div_div by lia; rewrite A; reflexivity).
  assert (C : v / 2 ^ 16 = ms * 2 ^ 16 + ls / 2 ^ 16).
  { rewrite V. change (2 ^ 32) with (2 ^ 16 * 2 ^ 16). rewrite Z.mul_assoc. rewrite Z.div_add_l by lia. reflexivity. }
  splits.
  - rewrite B. apply Z.mod_small. split; [apply Z.div_pos; lia|apply Z.div_lt_upper_bound; lia].
  - rewrite A. reflexivity.
  - rewrite C. rewrite Z.add_comm, Z.mod_add by lia. apply Z.mod_small. split; [apply Z.div_pos; lia|apply Z.div_lt_upper_bound; lia].
  - rewrite V. change (2 ^ 32) with (2 ^ 16 * 2 ^ 16). rewrite Z.mul_assoc, Z.add_comm, Z.mod_add by lia. reflexivity.
Qed.
Lemma versionToString_ok ms ls : dword ms -> dword ls -> exists s, versionToString (version64 ms ls) = Ok s /\ dotted ms ls s.
Proof.
  intros M L. rewrite (version64_eq ms ls M L). destruct (fields ms ls M L _ eq_refl) as (A & B & C & D). unfold versionToString. rewrite A, B, C, D. unfold dword in M, L.
  destruct (dec16 (ms / 2 ^ 16)) as (a & -> & Ca); [split; [apply Z.div_pos; lia|apply Z.div_lt_upper_bound; lia]|].
  destruct (dec16 (ms mod 2 ^ 16)) as (b & -> & Cb); [apply Z.mod_pos_bound; lia|].
  destruct (dec16 (ls / 2 ^ 16)) as (c & -> & Cc); [split; [apply Z.div_pos; lia|apply Z.div_lt_upper_bound; lia]|].
  destruct (dec16 (ls mod 2 ^ 16)) as (d & -> & Cd); [apply Z.mod_pos_bound; lia|].
  cbn [bind]. eexists. split; [reflexivity|]. exists a, b, c, d. splits; auto.
Qed.
Lemma dllVersion_ok os path : answers_ok os -> exists s l, dllVersion os path = Ok (s, l) /\ reported os path s /\ well_used [] l /\ safe_loads os l.
Proof.
  intros (_ & Q). unfold dllVersion. destruct (getFixedFileInfo os path) as [r l] eqn:E. pose proof (fixed_used _ _ _ _ E) as U. pose proof (fixed_loads _ _ _ _ E) as L.
  pose proof (fixed_cases _ _ _ _ E) as C. destruct r as [i| |].
  - destruct (Q _ _ _ (proj1 (proj2 (proj2 (proj2 C))))) as (F1 & F2 & F3 & F4).
    destruct (versionToString_ok _ _ F1 F2) as (f & -> & Df). cbn [bind]. destruct (versionToString_ok _ _ F3 F4) as (p & -> & Dp). cbn [bind].
    eexists. exists l. split; [reflexivity|]. split; [|auto]. left. exists i, f, p. split; [exact C|]. auto.
  - eexists. exists l. split; [reflexivity|]. split; [|auto]. right. left. auto.
  - eexists. eexists. split; [reflexivity|]. split; [right; right; destruct C; auto|]. split.
    + apply used_app; [exact U|reflexivity].
    + intros p ok K. apply in_app_or in K. destruct K as [K|[K|[]]]; [exact (L p ok K)|discriminate K].
Qed.
Lemma arch_ok os : (v_ia32 os = true -> v_load os (str "kernel32.dll") = true) ->
  exists t l c, archText os = Ok (t, l, c) /\ (forall k, well_used [] k -> well_used [] (l ++ k ++ c)) /\ safe_loads os l /\ safe_loads os c /\ arch_text os t /\ forall x, ~ In (MTrace x) (l ++ c).
Proof.
  intros H. unfold archText, arch_text. destruct (v_ia32 os).
  - unfold kernel32. rewrite (H eq_refl). cbn [assert_ bind]. change (str "IsWow64Process") with nWow64. destruct (v_proc os nWow64).
    + eexists. eexists. eexists. split; [reflexivity|]. splits.
      * intros k W. cbn [app well_used]. split; [left; reflexivity|]. apply used_app; [exact W|]. cbn. auto.
      * intros p ok [K|[K|[]]]; [left; congruence|discriminate K].
      * intros p ok [K|[]]; discriminate K.
      * destruct (v_wow64 os) as [[|]|]; cbn; tauto.
      * intros x [K|[K|[K|[]]]]; discriminate K.
    + eexists. eexists. eexists. split; [reflexivity|]. splits.
      * intros k W. cbn [app well_used]. apply used_app; [exact W|]. cbn. auto.
      * intros p ok [K|[]]; left; congruence.
      * intros p ok [K|[]]; discriminate K.
      * right. left. auto.
      * intros x [K|[K|[]]]; discriminate K.
  - eexists. eexists. eexists. split; [reflexivity|]. splits; [|intros p ok []|intros p ok []|auto|intros x []]. intros k W. cbn [app]. rewrite app_nil_r. exact W.
Qed.
Lemma product_ok t : 0 <= t < 2 ^ 8 -> exists s, productText t = Ok s /\ product_text t s.
Proof.
  intros R. unfold productText, product_text. destruct (Z.eqb_spec t VER_NT_WORKSTATION); [eexists; split; [reflexivity|tauto]|].
  destruct (Z.eqb_spec t VER_NT_DOMAIN_CONTROLLER); [eexists; split; [reflexivity|tauto]|]. destruct (Z.eqb_spec t VER_NT_SERVER); [eexists; split; [reflexivity|tauto]|].
  destruct (dec32 t) as (s & -> & C); [unfold dword; lia|]. cbn [bind]. eexists. split; [reflexivity|]. right. right. right. splits; auto. exists s. auto.
Qed.
Lemma safe_app os a b : safe_loads os a -> safe_loads os b -> safe_loads os (a ++ b).
Proof. intros A B p ok K. apply in_app_or in K. destruct K as [K|K]; [exact (A p ok K)|exact (B p ok K)]. Qed.
Lemma dump_ok os i : answers_ok os -> v_info os = Some i -> (v_ia32 os = true -> v_load os (str "kernel32.dll") = true) ->
  exists l t c, dumpWindowsVersion true os = Ok (l ++ [MTrace t] ++ c) /\ summary os i t /\ (forall x, ~ In (MTrace x) c) /\
    well_used [] (l ++ [MTrace t] ++ c) /\ safe_loads os (l ++ [MTrace t] ++ c).
Proof.
  intros A I K. pose proof A as (A1 & _). destruct (A1 i I) as (R1 & R2 & R3 & R4 & R5 & R6). unfold dumpWindowsVersion. cbn [negb]. rewrite I.
  destruct (dec32 _ R1) as (ma & -> & C1). destruct (dec32 _ R2) as (mi & -> & C2). destruct (dec32 _ R3) as (bu & -> & C3).
  destruct (dec16 _ R4) as (s1 & -> & C4). destruct (dec16 _ R5) as (s2 & -> & C5). destruct (product_ok _ R6) as (pr & -> & C6). cbn [bind].
  destruct (arch_ok os K) as (ar & la & c & -> & W & S1 & S2 & C7 & T). cbn [bind fst snd].
  destruct (dllVersion_ok os kernel32 A) as (k & lk & -> & C8 & Wk & Sk). cbn [bind].
  destruct (dllVersion_ok os (if v_ia32 os then str "ConEmuHk.dll" else str "ConEmuHk64.dll") A) as (h & lc & -> & C9 & Wc & Sc). cbn [bind].
  eexists (la ++ lk ++ lc). eexists. exists c. split; [f_equal; rewrite <- !app_assoc; reflexivity|]. split; [|split; [|split]].
  - exists ma, mi, bu, s1, s2, pr, ar, k, h. split; [reflexivity|]. splits; auto.
  - intros x X. apply (T x). apply in_or_app. right. exact X.
  - rewrite <- !app_assoc. rewrite (app_assoc lk), (app_assoc (lk ++ lc)). apply W. apply used_app; [apply used_app; auto|]. cbn. reflexivity.
  - apply safe_app; [repeat apply safe_app; auto|]. apply safe_app; [|auto]. intros p ok [X|[]]. discriminate X.
Qed.

Lemma bind_ok {E A B} (m : res E A) (f : A -> res E B) b : bind m f = Ok b -> exists a, m = Ok a /\ f a = Ok b.
Proof. destruct m; cbn; intros K; try discriminate K. eauto. Qed.
Lemma dump_loaded os l i : answers_ok os -> v_info os = Some i -> dumpWindowsVersion true os = Ok l -> v_ia32 os = true -> v_load os (str "kernel32.dll") = true.
Proof.
  intros A I E V. pose proof A as (A1 & _). destruct (A1 i I) as (R1 & R2 & R3 & R4 & R5 & R6). unfold dumpWindowsVersion in E. cbn [negb] in E. rewrite I in E.
  do 6 (apply bind_ok in E; destruct E as (? & _ & E)). apply bind_ok in E. destruct E as (y0 & X & _). unfold archText in X. rewrite V in X.
  apply bind_ok in X. destruct X as (u & X & _). unfold kernel32, assert_ in X. destruct (v_load os (str "kernel32.dll")); [reflexivity|discriminate X].
Qed.

(** The text of a version tells the version. *)
Lemma no_point s v : canonical 10 s v -> ~ In 46 s.
Proof. intros C. apply (canonical_avoid 10 s v 46 C). vm_compute. reflexivity. Qed.
Lemma same_value s v w : canonical 10 s v -> canonical 10 s w -> v = w.
Proof. intros ((_ & _ & A) & _) ((_ & _ & B) & _). congruence. Qed.
Lemma dotted_tells m1 l1 m2 l2 s : dotted m1 l1 s -> dotted m2 l2 s -> m1 = m2 /\ l1 = l2.
Proof.
  intros (a & b & c & d & -> & A & B & C & D) (a' & b' & c' & d' & E & A' & B' & C' & D').
  change (str ".") with [46] in E. cbn [app] in E.
  apply split_first in E; [|exact (no_point _ _ A)|exact (no_point _ _ A')]. destruct E as (-> & E).
  apply split_first in E; [|exact (no_point _ _ B)|exact (no_point _ _ B')]. destruct E as (-> & E).
  apply split_first in E; [|exact (no_point _ _ C)|exact (no_point _ _ C')]. destruct E as (-> & ->).
  pose proof (same_value _ _ _ A A'). pose proof (same_value _ _ _ B B'). pose proof (same_value _ _ _ C C'). pose proof (same_value _ _ _ D D').
  pose proof (Z.div_mod m1 (2 ^ 16) ltac:(lia)). pose proof (Z.div_mod m2 (2 ^ 16) ltac:(lia)). pose proof (Z.div_mod l1 (2 ^ 16) ltac:(lia)). pose proof (Z.div_mod l2 (2 ^ 16) ltac:(lia)).
  split; lia.
Qed.

(** Random bytes *)
Lemma random_ok os n : r_load os = true -> exists b l, oneRandom os n = Ok (b, l) /\ well_kept Gnone l /\
  (r_rtl os = true -> b = (if fst (r_rtlFill os n) then snd (r_rtlFill os n) else []) /\ forall ok, ~ In (GAcquire ok) l) /\
  (r_rtl os = false -> b = (if r_acquire os && fst (r_cryptFill os n) then snd (r_cryptFill os n) else [])).
Proof.
  intros L. unfold oneRandom, newGenRandom. rewrite L. cbn [assert_ bind]. destruct (r_rtl os); cbn [bind fst snd].
  - unfold randomBytes, fillBuffer. eexists. eexists. split; [reflexivity|]. splits; [cbn; auto 10| |discriminate].
    intros _. split; [destruct (fst (r_rtlFill os n)); reflexivity|]. intros ok. cbn. intuition discriminate.
  - unfold randomBytes, fillBuffer. destruct (r_acquire os).
    + eexists. eexists. split; [reflexivity|]. splits; [cbn; auto 10|discriminate|]. intros _. destruct (fst (r_cryptFill os n)); reflexivity.
    + eexists. eexists. split; [reflexivity|]. splits; [cbn; auto 10|discriminate|]. intros _. reflexivity.
Qed.
