From Verif Require Import Base BaseLemmas Text CmdLine CmdLineSpec CmdLineProofs AdapterMain AdapterMainSpec.
Ltac splits := repeat match goal with |- _ /\ _ => split end.

(** *** The PATH *)
Lemma path_dirs_cons l : exists d ds, path_dirs l = d :: ds.
Proof.
  induction l as [|c t (d & ds & IH)]; cbn [path_dirs]; [eauto|].
  destruct (c =? 58); [eauto|]. rewrite IH. eauto.
Qed.

Lemma find_dirs s : forall pos,
  match find_nat COLON s pos with
  | None => path_dirs s = [s]
  | Some e => pos <= e < pos + zlen s /\
      path_dirs s = zfirstn (e - pos) s :: path_dirs (zskipn (e + 1 - pos) s)
  end.
Proof.
  induction s as [|c t IH]; intros pos; cbn [find_nat path_dirs]; [reflexivity|].
  unfold COLON in *. destruct (c =? 58) eqn:Ec.
  - rewrite zlen_cons. pose proof (zlen_nonneg t). split; [lia|].
    replace (pos - pos) with 0 by lia. replace (pos + 1 - pos) with 1 by lia.
    rewrite zfirstn_neg by lia. reflexivity.
  - specialize (IH (pos + 1)). destruct (find_nat 58 t (pos + 1)) as [e|].
    + destruct IH as (Hr & IH). rewrite zlen_cons. split; [lia|].
      rewrite IH. unfold zfirstn, zskipn.
      replace (Z.to_nat (e - pos)) with (S (Z.to_nat (e - (pos + 1)))) by lia.
      replace (Z.to_nat (e + 1 - pos)) with (S (Z.to_nat (e + 1 - (pos + 1)))) by lia. reflexivity.
    + rewrite IH. reflexivity.
Qed.

Fixpoint first_some {A B} (f : A -> option B) (l : list A) : option B :=
  match l with [] => None | a :: t => match f a with Some b => Some b | None => first_some f t end end.

Lemma search_spec {E} fuel : forall fs msys path prog elpos,
  0 <= elpos <= zlen path -> (length (zskipn elpos path) < fuel)%nat ->
  @search E fuel fs msys path prog elpos =
    Ok (first_some (fun d => try_element fs msys d prog) (path_dirs (zskipn elpos path))).
Proof.
  induction fuel as [|fuel IH]; intros fs msys path prog elpos Hp Hf; [lia|].
  cbn [search]. replace (zlen path <? elpos) with false by lia. unfold find.
  pose proof (find_dirs (zskipn elpos path) elpos) as D.
  destruct (find_nat COLON (zskipn elpos path) elpos) as [e|].
  - destruct D as (Hr & D). rewrite D. cbn [first_some].
    destruct (try_element fs msys (zfirstn (e - elpos) (zskipn elpos path)) prog) as [c|]; [reflexivity|].
    assert (Hl : zlen (zskipn elpos path) = zlen path - elpos) by (rewrite zlen_zskipn; lia).
    assert (Hs : zskipn (e + 1 - elpos) (zskipn elpos path) = zskipn (e + 1) path)
      by (rewrite zskipn_zskipn by lia; f_equal; lia).
    rewrite Hs. apply IH; [lia|].
    assert (zlen (zskipn (e + 1) path) < zlen (zskipn elpos path)) by (rewrite !zlen_zskipn; lia).
    unfold zlen in *. lia.
  - rewrite D. cbn [first_some]. destruct (try_element fs msys (zskipn elpos path) prog); reflexivity.
Qed.

Lemma endsWith_ext fs p suf : endsWith fs p suf = true <-> has_ext fs suf p.
Proof.
  unfold endsWith, has_ext. split.
  - destruct (zlen p <? zlen suf) eqn:El; [discriminate|]. intros H. apply list_eqb_eq in H.
    exists (zfirstn (zlen p - zlen suf) p), (zskipn (zlen p - zlen suf) p).
    split; [symmetry; apply zfirstn_zskipn|exact H].
  - intros (base & e & -> & <-). rewrite zlen_app, zlen_map. pose proof (zlen_nonneg base).
    replace (zlen base + zlen e <? zlen e) with false by lia.
    rewrite zskipn_app_exact by lia. apply list_eqb_refl.
Qed.

Lemma in_dir_eq d prog :
  (if negb (zlen d =? 0) && negb (last d 0 =? SLASH) then d ++ [SLASH] else d) ++ prog = in_dir d prog.
Proof.
  unfold in_dir, SLASH. destruct d as [|c d]; [reflexivity|].
  rewrite zlen_cons. pose proof (zlen_nonneg d). replace (zlen d + 1 =? 0) with false by lia. cbn [negb andb].
  destruct (last (c :: d) 0 =? 47); cbn [negb]; [reflexivity|now rewrite <- app_assoc].
Qed.

Lemma try_element_usable fs msys d prog file :
  try_element fs msys d prog = Some file <-> usable fs msys d prog file.
Proof.
  unfold try_element, usable. cbv zeta. rewrite in_dir_eq. unfold resolvePath, batch, binary.
  destruct (realpath fs (in_dir d prog)) as [p|].
  2:{ change (zlen (@nil Z) =? 0) with true. cbn match. split; [discriminate|]. intros (p & H & _). discriminate. }
  destruct (zlen p =? 0) eqn:Ep.
  { split; [discriminate|]. intros (q & [= <-] & Hq & _). exfalso. apply Hq. apply zlen_0_nil. lia. }
  assert (Hp : p <> []) by (intros ->; discriminate Ep).
  pose proof (endsWith_ext fs p (str ".bat")) as B1. pose proof (endsWith_ext fs p (str ".cmd")) as B2.
  pose proof (endsWith_ext fs p (str ".com")) as B3. pose proof (endsWith_ext fs p (str ".exe")) as B4.
  set (b := endsWith fs p (str ".bat")) in *. set (c := endsWith fs p (str ".cmd")) in *.
  set (e := endsWith fs p (str ".com")) in *. set (x := endsWith fs p (str ".exe")) in *.
  split.
  - intros H. exists p. split; [reflexivity|]. split; [exact Hp|].
    rewrite <- B1, <- B2, <- B3, <- B4.
    destruct b, c; cbn [orb andb] in H; try (left; destruct msys;
      [destruct (can_read fs p) eqn:Er|destruct (can_run fs p) eqn:Er]; try discriminate H; injection H as <-; auto; fail).
    right. destruct e, x; cbn [orb] in H; try (left; destruct (can_run fs p) eqn:Er; [injection H as <-|discriminate H];
      splits; auto; intros [D|D]; discriminate D).
    right. destruct (can_run fs (p ++ str ".exe")) eqn:Er; [injection H as <-|discriminate H].
    splits; auto; intros [D|D]; discriminate D.
  - intros (q & [= <-] & _ & H). rewrite <- B1, <- B2, <- B3, <- B4 in H.
    destruct b, c; cbn [orb andb];
      [ | | | ]; try (destruct H as [(_ & -> & H)|[(H & _)|(H & _)]];
        [destruct msys; rewrite H; reflexivity|exfalso; apply H; auto|exfalso; apply H; auto]).
    destruct H as [([D|D] & _)|H]; [discriminate D|discriminate D|].
    destruct e, x; cbn [orb]; try (destruct H as [(_ & _ & -> & H)|(_ & H & _)];
        [rewrite H; reflexivity|exfalso; apply H; auto]).
    destruct H as [(_ & [D|D] & _)|(_ & _ & -> & H)]; [discriminate D|discriminate D|rewrite H; reflexivity].
Qed.

Lemma first_some_split {A B} (f : A -> option B) l :
  match first_some f l with
  | Some b => exists before a after, l = before ++ a :: after /\ f a = Some b /\ forall x, In x before -> f x = None
  | None => forall x, In x l -> f x = None
  end.
Proof.
  induction l as [|a t IH]; cbn [first_some]; [intros x []|].
  destruct (f a) as [b|] eqn:Ea.
  - exists [], a, t. split; [reflexivity|]. split; [exact Ea|intros x []].
  - destruct (first_some f t) as [b|].
    + destruct IH as (bf & a' & af & -> & Hb & Hn). exists (a :: bf), a', af. split; [reflexivity|]. split; [exact Hb|].
      intros x [<-|Hx]; auto.
    + intros x [<-|Hx]; auto.
Qed.

Lemma find_nat_none c s : forall pos, find_nat c s pos = None <-> ~ In c s.
Proof.
  induction s as [|x t IH]; intros pos; cbn [find_nat In]; [intuition|].
  destruct (x =? c) eqn:E.
  - split; [discriminate|]. intros H. exfalso. apply H. left. lia.
  - rewrite IH. split; [intros H [D|D]; [lia|auto]|auto].
Qed.
Lemma find_none s c : find s c 0 = None <-> ~ In c s.
Proof. unfold find. rewrite zskipn_neg by lia. apply find_nat_none. Qed.

Lemma convert_name fs file : windows_name fs file (convertPosixPathToWin fs file).
Proof.
  unfold windows_name, convertPosixPathToWin. destruct (win_path fs file) as [p|]; [|exact Logic.I].
  unfold backslashed, SLASH, BS. induction p as [|c p IH]; cbn [map]; constructor; [|exact IH].
  destruct (c =? 47) eqn:E; [left; lia|right; lia].
Qed.

(** The result of a lookup that chose [file]. *)
Definition chosen {E} (fs : files) (file : list Z) (r : res E (option (list Z))) : Prop :=
  exists q, windows_name fs file q /\ r = match q with Some q => Ok (Some q) | None => AssertFail end.

Lemma findProgram_plain {E} fs msys path prog : plain_name prog ->
  let r := @findProgram E fs msys path prog in
  (exists before d after file, path_dirs (path_given path) = before ++ d :: after /\
     (forall e f, In e before -> ~ usable fs msys e prog f) /\ usable fs msys d prog file /\
     exists q, windows_name fs file q /\ r = match q with Some q => Ok (Some q) | None => AssertFail end) \/
  ((forall e f, In e (path_dirs (path_given path)) -> ~ usable fs msys e prog f) /\ r = Ok None).
Proof.
  intros (H1 & H2). cbv zeta. unfold findProgram.
  apply find_none in H1. apply find_none in H2. unfold SLASH, BS. rewrite H1, H2.
  change (match path with Some p => p | None => [] end) with (path_given path).
  rewrite search_spec; [|pose proof (zlen_nonneg (path_given path)); lia|rewrite zskipn_neg by lia; lia].
  rewrite zskipn_neg by lia. cbn [bind].
  pose proof (first_some_split (fun d => try_element fs msys d prog) (path_dirs (path_given path))) as F.
  destruct (first_some (fun d => try_element fs msys d prog) (path_dirs (path_given path))) as [file|].
  - left. destruct F as (bf & d & af & E1 & E2 & E3). exists bf, d, af, file.
    split; [exact E1|]. split; [|split].
    + intros e f He Hu. apply try_element_usable in Hu. rewrite (E3 e He) in Hu. discriminate.
    + now apply try_element_usable.
    + exists (convertPosixPathToWin fs file). split; [apply convert_name|]. destruct (convertPosixPathToWin fs file); reflexivity.
  - right. split; [|reflexivity]. intros e f He Hu. apply try_element_usable in Hu. rewrite (F e He) in Hu. discriminate.
Qed.

Lemma findProgram_named {E} fs msys path prog : ~ plain_name prog ->
  let r := @findProgram E fs msys path prog in
  match realpath fs prog with
  | Some (c :: p) => exists q, windows_name fs (c :: p) q /\ r = match q with Some q => Ok (Some q) | None => AssertFail end
  | _ => r = Ok None
  end.
Proof.
  intros H. cbv zeta. unfold findProgram.
  assert (Hc : find prog SLASH 0 <> None \/ find prog BS 0 <> None).
  { destruct (find prog SLASH 0) eqn:E1; [left; congruence|].
    destruct (find prog BS 0) eqn:E2; [right; congruence|].
    exfalso. apply H. split; apply find_none; assumption. }
  assert (Hg : match find prog SLASH 0, find prog BS 0 with
               | None, None => @search E (S (length (match path with Some p => p | None => [] end))) fs msys
                                 (match path with Some p => p | None => [] end) prog 0
               | _, _ => Ok (if zlen (resolvePath fs prog) =? 0 then None else Some (resolvePath fs prog))
               end = Ok (if zlen (resolvePath fs prog) =? 0 then None else Some (resolvePath fs prog))).
  { destruct (find prog SLASH 0); [reflexivity|]. destruct (find prog BS 0); [reflexivity|]. destruct Hc; congruence. }
  cbv zeta. rewrite Hg. cbn [bind]. unfold resolvePath.
  destruct (realpath fs prog) as [[|c p]|]; try reflexivity.
  rewrite zlen_cons. pose proof (zlen_nonneg p). replace (zlen p + 1 =? 0) with false by lia.
  exists (convertPosixPathToWin fs (c :: p)). split; [apply convert_name|].
  destruct (convertPosixPathToWin fs (c :: p)); reflexivity.
Qed.

(** What is found through the PATH is never a script. *)
Lemma usable_ext fs msys d prog file : map (lower fs) (str ".exe") = str ".exe" ->
  usable fs msys d prog file -> batch fs file \/ binary fs file.
Proof.
  intros Hl (p & _ & _ & [(H & -> & _)|[(_ & H & -> & _)|(_ & _ & -> & _)]]); auto.
  right. right. exists p, (str ".exe"). auto.
Qed.

(** *** Terminal modes *)
Lemma save_modes_go T allow fds : forall w s w1, save_modes T allow fds w = Go s w1 ->
  (forall t, modes w1 t = modes w t) /\ acts w1 = acts w /\
  Forall (fun e => exists u, tty_of T (fst e) = Some u /\ snd e = modes w u) s /\
  map fst s = filter (fun fd => match tty_of T fd with Some _ => true | None => false end) fds.
Proof.
  induction fds as [|fd rest IH]; intros w s w1 H; cbn [save_modes] in H.
  - injection H as <- <-. splits; auto.
  - cbn [filter]. destruct (tty_of T fd) as [u|] eqn:Et.
    + unfold tcgetattr in H. rewrite Et in H.
      destruct (fails T (calls w)); [discriminate|].
      destruct (save_modes T allow rest (mkWorld (modes w) (calls w + 1) (acts w))) as [s' w'| | | |] eqn:Es;
        try discriminate. cbn [andthen] in H. injection H as <- <-.
      apply IH in Es. cbn [modes acts] in Es. destruct Es as (E1 & E2 & E3 & E4).
      splits; auto.
      * constructor; [exists u; auto|exact E3].
      * cbn [map fst]. now rewrite E4.
    + destruct allow; [|discriminate]. exact (IH w s w1 H).
Qed.

Lemma save_modes_outcome T allow fds : forall w,
  match save_modes T allow fds w with
  | Go _ _ => allow = false -> forall fd, In fd fds -> exists u, tty_of T fd = Some u
  | Exit c w1 => c = 1 /\ (forall t, modes w1 t = modes w t) /\
      (exists a, acts w1 = acts w ++ [a] /\ forall t m, a <> AMode t m) /\
      ((allow = false /\ exists fd, In fd fds /\ tty_of T fd = None) \/ exists n, calls w <= n /\ fails T n = true)
  | _ => False
  end.
Proof.
  induction fds as [|fd rest IH]; intros w; cbn [save_modes].
  - intros _ fd [].
  - destruct (tty_of T fd) as [u|] eqn:Et.
    + unfold tcgetattr. rewrite Et. destruct (fails T (calls w)) eqn:Ef.
      * cbn [did modes acts]. splits; auto.
        -- exists ATermError. splits; auto; discriminate.
        -- right. exists (calls w). split; [lia|exact Ef].
      * specialize (IH (mkWorld (modes w) (calls w + 1) (acts w))).
        destruct (save_modes T allow rest (mkWorld (modes w) (calls w + 1) (acts w))) as [s' w'|c w'| | |];
          cbn [andthen modes acts calls] in *; try contradiction.
        -- intros Ha x [<-|Hx]; [eauto|auto].
        -- destruct IH as (E1 & E2 & E3 & E4). splits; auto.
           destruct E4 as [(Ha & x & Hx & E)|(n & Hn & E)]; [left; split; [exact Ha|exists x; split; [now right|exact E]]|right; exists n; split; [lia|exact E]].
    + destruct allow.
      * specialize (IH w). destruct (save_modes T true rest w) as [s' w'|c w'| | |]; try contradiction.
        -- discriminate.
        -- destruct IH as (E1 & E2 & E3 & E4). splits; auto.
           destruct E4 as [(Ha & _)|E4]; [discriminate Ha|auto].
      * cbn [did modes acts]. splits; auto.
        -- exists (ANotTty fd). splits; auto; discriminate.
        -- left. split; [reflexivity|]. exists fd. split; [now left|exact Et].
Qed.

Definition rawf (B : bits) (fd : Z) : termios -> termios := if fd =? 0 then raw_input B else raw_output B.
Definition only_modes (l : list act) : Prop := Forall (fun a => exists t m, a = AMode t m) l.

Lemma change_modes_outcome B T s : forall w,
  Forall (fun e => exists u, tty_of T (fst e) = Some u) s ->
  match change_modes B T s w with
  | Go _ w1 =>
      (forall t, modes w1 t = fold_left (fun m e => if on T (fst e) t then rawf B (fst e) m else m) s (modes w t)) /\
      exists l, acts w1 = acts w ++ l /\ only_modes l
  | Exit c w1 => c = 1 /\ exists n, calls w <= n /\ fails T n = true
  | _ => False
  end.
Proof.
  induction s as [|[fd m] rest IH]; intros w F; cbn [change_modes].
  - cbn [fold_left]. split; [auto|]. exists []. rewrite app_nil_r. split; [reflexivity|constructor].
  - pose proof (Forall_inv F) as (u & Hu). cbn [fst] in Hu. apply Forall_inv_tail in F.
    unfold change_mode, tcgetattr. rewrite Hu.
    destruct (fails T (calls w)) eqn:Ef; cbn [andthen].
    { split; [reflexivity|]. exists (calls w). split; [lia|exact Ef]. }
    unfold tcsetattr. rewrite Hu. cbn [calls modes acts].
    destruct (fails T (calls w + 1)) eqn:Ef1; cbn [andthen].
    { split; [reflexivity|]. exists (calls w + 1). split; [lia|exact Ef1]. }
    fold (rawf B fd).
    match goal with |- context [change_modes B T rest ?x] => set (w2 := x) end.
    specialize (IH w2 F). destruct (change_modes B T rest w2) as [a w1|c w1| | |]; try contradiction.
    + destruct IH as (E1 & l & E2 & E3). split.
      * intros t. rewrite E1. unfold w2. cbn [fold_left modes fst]. assert (Hon : on T fd t = (u =? t)) by (unfold on; now rewrite Hu). rewrite Hon.
        rewrite (Z.eqb_sym u t). destruct (t =? u) eqn:Et; [|reflexivity]. now replace t with u by lia.
      * unfold w2 in E2. cbn [acts] in E2. exists (AMode u (rawf B fd (modes w u)) :: l).
        rewrite E2, <- app_assoc. split; [reflexivity|]. constructor; [eauto|exact E3].
    + destruct IH as (E1 & n & Hn & E2). split; [exact E1|]. exists n. unfold w2 in Hn. cbn [calls] in Hn. split; [lia|exact E2].
Qed.

Lemma restore_outcome T w0 s : forall w,
  Forall (fun e => exists u, tty_of T (fst e) = Some u /\ snd e = modes w0 u) s ->
  match restoreTerminalMode T s w with
  | Go _ w1 =>
      (forall t, modes w1 t = if existsb (fun e => on T (fst e) t) s then modes w0 t else modes w t) /\
      exists l, acts w1 = acts w ++ l /\ only_modes l
  | Exit c w1 => c = 1 /\ exists n, calls w <= n /\ fails T n = true
  | _ => False
  end.
Proof.
  induction s as [|[fd m] rest IH]; intros w F; cbn [restoreTerminalMode].
  - cbn [existsb]. split; [auto|]. exists []. rewrite app_nil_r. split; [reflexivity|constructor].
  - pose proof (Forall_inv F) as (u & Hu & Hm). cbn [fst snd] in Hu, Hm. apply Forall_inv_tail in F.
    unfold tcsetattr. rewrite Hu. destruct (fails T (calls w)) eqn:Ef.
    { split; [reflexivity|]. exists (calls w). split; [lia|exact Ef]. }
    match goal with |- context [restoreTerminalMode T rest ?x] => set (w2 := x) end.
    specialize (IH w2 F). destruct (restoreTerminalMode T rest w2) as [a w1|c w1| | |]; try contradiction.
    + destruct IH as (E1 & l & E2 & E3). split.
      * intros t. rewrite E1. unfold w2. cbn [existsb modes fst]. assert (Hon : on T fd t = (u =? t)) by (unfold on; now rewrite Hu). rewrite Hon.
        rewrite (Z.eqb_sym u t). destruct (t =? u) eqn:Et; cbn [orb]; [|reflexivity].
        replace t with u by lia. rewrite Hm. destruct (existsb _ rest); reflexivity.
      * unfold w2 in E2. cbn [acts] in E2. exists (AMode u m :: l).
        rewrite E2, <- app_assoc. split; [reflexivity|]. constructor; [eauto|exact E3].
    + destruct IH as (E1 & n & Hn & E2). split; [exact E1|]. exists n. unfold w2 in Hn. cbn [calls] in Hn. split; [lia|exact E2].
Qed.

Definition wanted (out err : bool) : list Z := [0] ++ (if out then [1] else []) ++ (if err then [2] else []).

Lemma uses_wanted T out err t s :
  map fst s = filter (fun fd => match tty_of T fd with Some _ => true | None => false end) (wanted out err) ->
  existsb (fun e : Z * termios => on T (fst e) t) s = uses T out err t.
Proof.
  intros H.
  assert (E : existsb (fun e : Z * termios => on T (fst e) t) s = existsb (fun fd => on T fd t) (map fst s)).
  { clear H. induction s as [|e s IH]; [reflexivity|]. cbn [existsb map]. now rewrite IH. }
  rewrite E, H.
  assert (G : forall l, existsb (fun fd => on T fd t)
                (filter (fun fd => match tty_of T fd with Some _ => true | None => false end) l) =
              existsb (fun fd => on T fd t) l).
  { clear. induction l as [|fd l IH]; [reflexivity|]. cbn [filter existsb].
    destruct (tty_of T fd) as [u|] eqn:Eu; cbn [existsb]; rewrite IH; [reflexivity|].
    assert (Hon : on T fd t = false) by (unfold on; now rewrite Eu). now rewrite Hon. }
  rewrite G. unfold wanted, uses, uses_out.
  destruct out, err; cbn [app existsb andb]; rewrite ?orb_false_r; reflexivity.
Qed.

Lemma bit_without l f k : 0 <= k ->
  Z.testbit (clear f (fold_left Z.lor l 0)) k = without l f k.
Proof.
  intros Hk. unfold clear, without. rewrite Z.land_spec, Z.lnot_spec by exact Hk. f_equal. f_equal.
  assert (G : forall l a, Z.testbit (fold_left Z.lor l a) k = Z.testbit a k || existsb (fun b => Z.testbit b k) l).
  { clear. induction l as [|b l IH]; intros a; cbn [fold_left existsb]; [now rewrite orb_false_r|].
    rewrite IH, Z.lor_spec. now rewrite orb_assoc. }
  rewrite G, Z.bits_0. reflexivity.
Qed.

Lemma is_raw_refl B m : is_raw B false false m m.
Proof. unfold is_raw. cbn [orb]. splits; auto. Qed.

Lemma is_raw_input B i o m r : is_raw B i o m r -> is_raw B true o m (raw_input B r).
Proof.
  intros (H & H1 & H2 & H3). unfold is_raw. split; [|cbn [raw_input vmin vtime others]; auto].
  intros k Hk. destruct (H k Hk) as (A1 & A2 & A3 & A4). cbn [raw_input c_lflag c_iflag c_oflag c_cflag orb].
  unfold clear. rewrite !Z.lor_spec, !Z.land_spec, !Z.lnot_spec, !Z.lor_spec by exact Hk.
  rewrite A1, A2, A3, A4. unfold without. cbn [existsb].
  splits; [destruct i|destruct i|reflexivity|destruct i, o; cbn [orb]];
    repeat match goal with |- context [Z.testbit ?a k] => destruct (Z.testbit a k) end; reflexivity.
Qed.

Lemma is_raw_output B i o m r : is_raw B i o m r -> is_raw B i true m (raw_output B r).
Proof.
  intros (H & H1 & H2 & H3). unfold is_raw. split; [|cbn [raw_output vmin vtime others]; auto].
  intros k Hk. destruct (H k Hk) as (A1 & A2 & A3 & A4). cbn [raw_output c_lflag c_iflag c_oflag c_cflag].
  rewrite orb_true_r.
  unfold clear. rewrite !Z.lor_spec, !Z.land_spec, !Z.lnot_spec, !Z.lor_spec by exact Hk.
  rewrite A1, A2, A3, A4. unfold without. cbn [existsb].
  splits; [reflexivity|reflexivity|destruct o|destruct i, o; cbn [orb]];
    repeat match goal with |- context [Z.testbit ?a k] => destruct (Z.testbit a k) end; reflexivity.
Qed.

Lemma raw_all B T out err t s m :
  map fst s = filter (fun fd => match tty_of T fd with Some _ => true | None => false end) (wanted out err) ->
  is_raw B (on T 0 t) (uses_out T out err t) m
    (fold_left (fun m (e : Z * termios) => if on T (fst e) t then rawf B (fst e) m else m) s m).
Proof.
  intros H.
  assert (E : fold_left (fun m (e : Z * termios) => if on T (fst e) t then rawf B (fst e) m else m) s m =
              fold_left (fun m fd => if on T fd t then rawf B fd m else m) (map fst s) m).
  { clear H. revert m. induction s as [|e s IH]; intros m; [reflexivity|]. cbn [fold_left map]. now rewrite IH. }
  rewrite E, H.
  assert (G : fold_left (fun m fd => if on T fd t then rawf B fd m else m)
                (filter (fun fd => match tty_of T fd with Some _ => true | None => false end) (wanted out err)) m =
              fold_left (fun m fd => if on T fd t then rawf B fd m else m) (wanted out err) m).
  { generalize (wanted out err) as l. clear. intros l. revert m.
    induction l as [|fd l IH]; intros m; [reflexivity|]. cbn [filter fold_left].
    destruct (tty_of T fd) as [u|] eqn:Eu; cbn [fold_left]; rewrite IH; [reflexivity|].
    assert (Hon : on T fd t = false) by (unfold on; now rewrite Eu). now rewrite Hon. }
  rewrite G. unfold wanted. rewrite !fold_left_app. cbn [fold_left].
  assert (S0 : is_raw B (on T 0 t) false m (if on T 0 t then rawf B 0 m else m)).
  { destruct (on T 0 t); [apply is_raw_input with (i := false)|]; apply is_raw_refl. }
  set (m0 := if on T 0 t then rawf B 0 m else m) in *. clearbody m0.
  assert (S1 : is_raw B (on T 0 t) (out && on T 1 t) m
                 (fold_left (fun m fd => if on T fd t then rawf B fd m else m) (if out then [1] else []) m0)).
  { destruct out; cbn [fold_left andb]; [|exact S0].
    destruct (on T 1 t); [exact (is_raw_output _ _ _ _ _ S0)|exact S0]. }
  set (m1 := fold_left _ (if out then [1] else []) m0) in *. clearbody m1.
  unfold uses_out. destruct err; cbn [fold_left andb]; [|rewrite orb_false_r; exact S1].
  destruct (on T 2 t); [rewrite orb_true_r; exact (is_raw_output _ _ _ _ _ S1)|rewrite orb_false_r; exact S1].
Qed.

(** setRawTerminalMode *)
Lemma setRaw_outcome B T allow out err w :
  match setRawTerminalMode B T allow out err w with
  | Go s w1 =>
      (forall t, is_raw B (on T 0 t) (uses_out T out err t) (modes w t) (modes w1 t)) /\
      Forall (fun e => exists u, tty_of T (fst e) = Some u /\ snd e = modes w u) s /\
      (forall t, existsb (fun e => on T (fst e) t) s = uses T out err t) /\
      (exists l, acts w1 = acts w ++ l /\ only_modes l) /\
      (allow = false -> forall fd, In fd (wanted out err) -> exists u, tty_of T fd = Some u)
  | Exit c w1 => c = 1 /\
      ((same_modes w w1 /\ (exists a, acts w1 = acts w ++ [a] /\ forall t m, a <> AMode t m) /\
        allow = false /\ exists fd, In fd (wanted out err) /\ tty_of T fd = None) \/
       exists n, calls w <= n /\ fails T n = true)
  | _ => False
  end.
Proof.
  unfold setRawTerminalMode. cbv zeta. fold (wanted out err).
  pose proof (save_modes_outcome T allow (wanted out err) w) as O1.
  pose proof (fun s w1 => save_modes_go T allow (wanted out err) w s w1) as G1.
  assert (Cm : forall s w1, save_modes T allow (wanted out err) w = Go s w1 -> calls w <= calls w1).
  { generalize (wanted out err) as fds. clear. intros fds. revert w.
    induction fds as [|fd rest IH]; intros w s w1 H; cbn [save_modes] in H; [injection H as <- <-; lia|].
    destruct (tty_of T fd) eqn:Et.
    - unfold tcgetattr in H. rewrite Et in H. destruct (fails T (calls w)); [discriminate|].
      destruct (save_modes T allow rest _) as [s' w'| | | |] eqn:Es in H; try discriminate.
      cbn [andthen] in H. injection H as <- <-. apply IH in Es. cbn [calls] in Es. lia.
    - destruct allow; [exact (IH w s w1 H)|discriminate]. }
  destruct (save_modes T allow (wanted out err) w) as [s w1|c w1| | |]; cbn [andthen]; try contradiction.
  - destruct (G1 s w1 eq_refl) as (E1 & E2 & E3 & E4). specialize (Cm s w1 eq_refl).
    assert (F : Forall (fun e : Z * termios => exists u, tty_of T (fst e) = Some u) s)
      by (eapply Forall_impl; [|exact E3]; intros e (u & Hu & _); eauto).
    pose proof (change_modes_outcome B T s w1 F) as O2.
    destruct (change_modes B T s w1) as [a w2|c w2| | |]; cbn [andthen]; try contradiction.
    + destruct O2 as (M & l & L1 & L2). splits.
      * intros t. rewrite M, E1. apply raw_all. exact E4.
      * exact E3.
      * intros t. apply uses_wanted. exact E4.
      * exists l. rewrite L1, E2. auto.
      * exact O1.
    + destruct O2 as (-> & n & Hn & E). split; [reflexivity|]. right. exists n. split; [lia|exact E].
  - destruct O1 as (-> & E1 & E2 & E3). split; [reflexivity|].
    destruct E3 as [(Ha & E3)|E3]; [left|right; exact E3]. splits; auto.
Qed.

(** Setting raw mode and restoring, with anything in between. *)
Lemma set_restore B T allow out err w s w1 w2 w3 :
  setRawTerminalMode B T allow out err w = Go s w1 -> restoreTerminalMode T s w2 = Go tt w3 ->
  forall t, modes w3 t = if uses T out err t then modes w t else modes w2 t.
Proof.
  intros H1 H2 t. pose proof (setRaw_outcome B T allow out err w) as O. rewrite H1 in O.
  destruct O as (_ & F & U & _). pose proof (restore_outcome T w s w2 F) as R. rewrite H2 in R.
  destruct R as (R & _). now rewrite R, U.
Qed.

Lemma is_raw_unused B m r : is_raw B false false m r ->
  forall k, 0 <= k -> Z.testbit (c_lflag r) k = Z.testbit (c_lflag m) k.
Proof. intros (H & _) k Hk. apply H. exact Hk. Qed.

Lemma termios_ext B m r : is_raw B false false m r -> r = m.
Proof.
  intros (H & H1 & H2 & H3). destruct m, r. cbn [orb] in *. cbn in H1, H2, H3. subst.
  f_equal; apply Z.bits_inj'; intros k Hk; destruct (H k Hk) as (A1 & A2 & A3 & A4); assumption.
Qed.

(** *** main *)
Lemma findProgram_outcome {E} fs msys path prog :
  match @findProgram E fs msys path prog with
  | Ok _ => True
  | AssertFail => exists file, win_path fs file = None
  | _ => False
  end.
Proof.
  assert (C : forall (r : res E (option (list Z))) file q, windows_name fs file q ->
    r = match q with Some q => Ok (Some q) | None => AssertFail end ->
    match r with Ok _ => True | AssertFail => exists file, win_path fs file = None | _ => False end).
  { intros r file q Hq ->. destruct q as [q|]; [exact Logic.I|]. exists file.
    unfold windows_name in Hq. destruct (win_path fs file); [contradiction|reflexivity]. }
  destruct (in_dec Z.eq_dec 47 prog) as [H1|H1]; [|destruct (in_dec Z.eq_dec 92 prog) as [H2|H2]].
  - assert (H : ~ plain_name prog) by (intros (H & _); auto).
    pose proof (@findProgram_named E fs msys path prog H) as R. cbv zeta in R.
    destruct (realpath fs prog) as [[|c p]|]; [rewrite R; exact Logic.I| |rewrite R; exact Logic.I].
    destruct R as (q & Hq & R). exact (C _ _ _ Hq R).
  - assert (H : ~ plain_name prog) by (intros (_ & H); auto).
    pose proof (@findProgram_named E fs msys path prog H) as R. cbv zeta in R.
    destruct (realpath fs prog) as [[|c p]|]; [rewrite R; exact Logic.I| |rewrite R; exact Logic.I].
    destruct R as (q & Hq & R). exact (C _ _ _ Hq R).
  - pose proof (@findProgram_plain E fs msys path prog (conj H1 H2)) as R. cbv zeta in R.
    destruct R as [(bf & d & af & file & _ & _ & _ & q & Hq & R)|(_ & R)]; [exact (C _ _ _ Hq R)|rewrite R; exact Logic.I].
Qed.

Lemma argvToCommandLine_ok {E} argv : Forall (fun a => zlen a < 2 ^ 30) argv ->
  exists line, @argvToCommandLine E argv = Ok line.
Proof.
  intros F. unfold argvToCommandLine. destruct argv as [|a t]; [eexists; reflexivity|].
  cbn [argv_loop]. destruct (@one_arg_split E Plain a [] (Forall_inv F)) as (enc & -> & _). cbn [bind].
  destruct (@argv_loop_split E Plain t ([] ++ enc) (Forall_inv_tail F)) as (enc' & -> & _). eauto.
Qed.

Lemma positive_iff s : positive s <-> (0 <? ws_col s) && (0 <? ws_row s) = true.
Proof. unfold positive. rewrite andb_true_iff, !Z.ltb_lt. reflexivity. Qed.
Lemma first_positive o : positive (first_size o) \/ exists s, o_size o = Some s /\ ~ positive s.
Proof.
  unfold first_size. destruct (o_size o) as [s|]; [|left; split; reflexivity].
  destruct ((0 <? ws_col s) && (0 <? ws_row s)) eqn:E; [left; now apply positive_iff|].
  right. exists s. split; [reflexivity|]. rewrite positive_iff. congruence.
Qed.

Definition pipes (f : Flags) : list act := [APipe 0; APipe 1] ++ (if testConerr f then [APipe 2] else []).
Definition threads (f : Flags) : list act := [AThread 0; AThread 1] ++ (if testConerr f then [AThread 2] else []).
Definition closing (f : Flags) : list act :=
  [AFree; AJoined 0; AJoined 1; AClosed 0; AClosed 1] ++ (if testConerr f then [AJoined 2; AClosed 2] else []).
Definition opened (o : outside) (f : Flags) : act :=
  AOpened (agentFlags f) (ws_col (first_size o)) (ws_row (first_size o)) (mouseInput f).

Lemma acts_did w a : acts (did w a) = acts w ++ [a].
Proof. reflexivity. Qed.
Lemma modes_did w a : modes (did w a) = modes w.
Proof. reflexivity. Qed.
Lemma calls_did w a : calls (did w a) = calls w.
Proof. reflexivity. Qed.

Lemma main_open_outcome o f w cmd :
  match main_open o f w with
  | Go _ w1 => acts w1 = acts w ++ opened o f :: pipes f /\ modes w1 = modes w /\ o_open o = true /\ positive (first_size o)
  | Exit c w1 => c = 1 /\ o_open o = false /\ acts w1 = acts w ++ [AOpenFailed] /\ modes w1 = modes w
  | Abort w1 => crash_cause o f cmd /\ modes w1 = modes w
  | _ => False
  end.
Proof.
  unfold main_open. cbv zeta. destruct (first_positive o) as [Hp|Hp].
  - assert (E : (0 <? ws_col (first_size o)) && (0 <? ws_row (first_size o)) = true) by now apply positive_iff.
    rewrite E. cbn [negb]. destruct (o_open o); cbn [negb]; [|splits; reflexivity].
    destruct (o_pipe o 0) eqn:E0; cbn [negb orb];
      [|split; [unfold crash_cause; auto|reflexivity]].
    destruct (o_pipe o 1) eqn:E1; cbn [negb orb];
      [|split; [unfold crash_cause; auto|reflexivity]].
    unfold pipes. destruct (testConerr f) eqn:Ec.
    + destruct (o_pipe o 2) eqn:E2; cbn [negb].
      * rewrite !acts_did, <- !app_assoc. splits; auto.
      * split; [unfold crash_cause; auto 10|reflexivity].
    + rewrite !acts_did, <- !app_assoc. splits; auto.
  - destruct Hp as (s & Es & Hn).
    assert (E : (0 <? ws_col (first_size o)) && (0 <? ws_row (first_size o)) = false).
    { unfold first_size. rewrite Es. apply not_true_is_false. rewrite <- positive_iff. exact Hn. }
    rewrite E. cbn [negb]. split; [unfold crash_cause; right; left; eauto|reflexivity].
Qed.

Lemma main_spawn_outcome o f cmd w : cmd <> [] ->
  match main_spawn o cmd w with
  | Go _ w1 => exists lineW, command_line o cmd lineW /\ o_spawn o = true /\
                 acts w1 = acts w ++ [ASpawned lineW] /\ modes w1 = modes w
  | Exit c w1 => c = 1 /\ modes w1 = modes w /\
      ((@findProgram unit (o_files o) (o_msys o) (o_path o) (hd [] cmd) = Ok None /\ acts w1 = acts w ++ [ANotFound]) \/
       (o_spawn o = false /\ acts w1 = acts w ++ [ASpawnFailed]))
  | Abort w1 => crash_cause o f cmd /\ modes w1 = modes w
  | Undef w1 => exists p, @findProgram unit (o_files o) (o_msys o) (o_path o) (hd [] cmd) = Ok (Some p) /\
                  ~ Forall (fun a => zlen a < 2 ^ 30) (p :: tl cmd)
  | _ => False
  end.
Proof.
  intros Hc. unfold main_spawn. destruct cmd as [|prog args]; [congruence|]. cbn [hd tl].
  pose proof (@findProgram_outcome unit (o_files o) (o_msys o) (o_path o) prog) as F.
  destruct (@findProgram unit (o_files o) (o_msys o) (o_path o) prog) as [[p|]| | | |] eqn:Ep; try contradiction.
  - destruct (@argvToCommandLine unit (p :: args)) as [line| | | |] eqn:El.
    + destruct (o_wide o line) as [lineW|] eqn:Ew.
      * destruct (o_spawn o) eqn:Es.
        -- exists lineW. splits; try reflexivity. exists prog, args, p, line. auto.
        -- splits; try reflexivity. right. auto.
      * split; [|reflexivity]. unfold crash_cause. do 6 right. left. eauto.
    + exists p. split; [reflexivity|]. intros H. destruct (@argvToCommandLine_ok unit _ H) as (l & Hl). congruence.
    + exists p. split; [reflexivity|]. intros H. destruct (@argvToCommandLine_ok unit _ H) as (l & Hl). congruence.
    + exists p. split; [reflexivity|]. intros H. destruct (@argvToCommandLine_ok unit _ H) as (l & Hl). congruence.
    + exists p. split; [reflexivity|]. intros H. destruct (@argvToCommandLine_ok unit _ H) as (l & Hl). congruence.
  - splits; try reflexivity. left. auto.
  - split; [|reflexivity]. unfold crash_cause. do 5 right. left. exact F.
Qed.

Lemma same_size_eq a b : same_size a b = size_eqb a b.
Proof.
  unfold same_size, size_eqb. destruct (ws_col a =? ws_col b), (ws_row a =? ws_row b); reflexivity.
Qed.
Lemma size_eqb_eq a b : size_eqb a b = true -> a = b.
Proof.
  unfold size_eqb. destruct a as [a1 a2 a3 a4], b as [b1 b2 b3 b4]. cbn [ws_row ws_col ws_xpixel ws_ypixel]. rewrite !andb_true_iff, !Z.eqb_eq.
  intros (((-> & ->) & ->) & ->). reflexivity.
Qed.

Lemma main_loop_outcome wakes : forall sz w,
  match main_loop wakes sz w with
  | Go _ w1 => exists reports, ends_with wakes reports /\ acts w1 = acts w ++ told sz reports /\
                 modes w1 = modes w /\ calls w1 = calls w
  | Abort w1 => exists s b, In (Some s, b) wakes /\ ~ positive s
  | Undef w1 => exists b, In (None, b) wakes
  | Waiting w1 => Forall (fun x => snd x = false) wakes
  | Exit _ _ => False
  end.
Proof.
  induction wakes as [|[[sz2|] complete] rest IH]; intros sz w; cbn [main_loop]; [constructor| |exists complete; now left].
  assert (Hend : forall a w1 acts0 modes0 calls0, 
    (exists reports, ends_with rest reports /\ acts w1 = acts0 ++ a ++ told sz2 reports /\ modes w1 = modes0 /\ calls w1 = calls0) ->
    (if same_size sz sz2 then [] else [ASetSize (ws_col sz2) (ws_row sz2)]) = a ->
    exists reports, ends_with ((Some sz2, false) :: rest) reports /\ acts w1 = acts0 ++ told sz reports /\
      modes w1 = modes0 /\ calls w1 = calls0).
  { intros a w1 acts0 modes0 calls0 (reports & (bf & last & af & E1 & E2) & E3 & E4 & E5) Ha.
    exists (sz2 :: reports). splits; auto.
    - exists (sz2 :: bf), last, af. rewrite E1, E2. split; reflexivity.
    - cbn [told]. rewrite Ha. exact E3. }
  assert (Hstop : forall a, (if same_size sz sz2 then [] else [ASetSize (ws_col sz2) (ws_row sz2)]) = a ->
     exists reports, ends_with ((Some sz2, true) :: rest) reports /\ told sz reports = a).
  { intros a Ha. exists [sz2]. split; [exists [], sz2, rest; split; reflexivity|].
    cbn [told]. rewrite Ha. apply app_nil_r. }
  rewrite same_size_eq in Hend, Hstop.
  destruct (size_eqb sz sz2) eqn:Es.
  - apply size_eqb_eq in Es. subst sz2. destruct complete.
    + destruct (Hstop [] eq_refl) as (reports & E1 & E2). exists reports. rewrite E2, app_nil_r. auto.
    + specialize (IH sz w). destruct (main_loop rest sz w) as [a w1|c w1|w1|w1|w1]; try contradiction.
      * exact (Hend [] w1 _ _ _ IH eq_refl).
      * destruct IH as (s & b & Hi & Hn). exists s, b. split; [now right|exact Hn].
      * destruct IH as (b & Hi). exists b. now right.
      * constructor; [reflexivity|exact IH].
  - destruct ((0 <? ws_col sz2) && (0 <? ws_row sz2)) eqn:Ep.
    2:{ exists sz2, complete. split; [now left|]. rewrite positive_iff. congruence. }
    destruct complete.
    + destruct (Hstop _ eq_refl) as (reports & E1 & E2). exists reports. rewrite E2. auto.
    + specialize (IH sz2 (did w (ASetSize (ws_col sz2) (ws_row sz2)))).
      destruct (main_loop rest sz2 (did w (ASetSize (ws_col sz2) (ws_row sz2)))) as [a w1|c w1|w1|w1|w1]; try contradiction.
      * rewrite acts_did, modes_did, calls_did in IH. eapply Hend; [|reflexivity].
        destruct IH as (reports & E1 & E2 & E3). exists reports. rewrite E2, <- app_assoc. auto.
      * destruct IH as (s & b & Hi & Hn). exists s, b. split; [now right|exact Hn].
      * destruct IH as (b & Hi). exists b. now right.
      * constructor; [reflexivity|exact IH].
Qed.

Lemma ends_with_inj wakes r1 r2 : ends_with wakes r1 -> ends_with wakes r2 -> r1 = r2.
Proof.
  intros (b1 & l1 & a1 & E1 & ->) (b2 & l2 & a2 & E2 & ->). rewrite E1 in E2. clear wakes E1.
  revert b2 E2. induction b1 as [|s b1 IH]; intros [|s2 b2] E2; cbn [map app] in *.
  - now injection E2 as -> _.
  - discriminate.
  - discriminate.
  - injection E2 as -> E2. now rewrite (IH _ E2).
Qed.

Lemma main_loop_ends wakes reports : ends_with wakes reports -> Forall positive reports ->
  forall sz w, exists w1, main_loop wakes sz w = Go tt w1.
Proof.
  intros (bf & last & af & -> & ->). induction bf as [|s bf IH]; intros F sz w; cbn [map app main_loop].
  - pose proof (Forall_inv F) as P. apply positive_iff in P. rewrite P.
    destruct (size_eqb sz last); eauto.
  - pose proof (Forall_inv F) as P. apply positive_iff in P. rewrite P.
    destruct (size_eqb sz s); apply IH; exact (Forall_inv_tail F).
Qed.

Lemma uses_false T out err t : uses T out err t = false -> on T 0 t = false /\ uses_out T out err t = false.
Proof. unfold uses. rewrite orb_false_iff. auto. Qed.

Lemma main_session_outcome o f w :
  match main_session o f (first_size o) w with
  | Exit c w1 =>
      (terminals_work (o_ttys o) -> same_modes w w1) /\
      (exists l, acts w1 = acts w ++ l) /\
      ((c = 1 /\ exists l, acts w1 = acts w ++ l /\ ~ In AFree l) \/
       (c = 1 /\ exists n, fails (o_ttys o) n = true) \/
       (c = (match o_exit o with Some c => c | None => 1 end) /\
        exists reports raw back, ends_with (o_wakes o) reports /\ only_modes raw /\ only_modes back /\
          acts w1 = acts w ++ raw ++ threads f ++ told (first_size o) reports ++ closing f ++ back))
  | Abort w1 => exists s b, In (Some s, b) (o_wakes o) /\ ~ positive s
  | Undef w1 => exists b, In (None, b) (o_wakes o)
  | Waiting w1 => Forall (fun x => snd x = false) (o_wakes o)
  | Go _ _ => False
  end.
Proof.
  unfold main_session. cbv zeta.
  pose proof (setRaw_outcome (o_bits o) (o_ttys o) (testAllowNonTtys f) true (testConerr f) w) as S.
  assert (Sx : forall c w1, setRawTerminalMode (o_bits o) (o_ttys o) (testAllowNonTtys f) true (testConerr f) w = Exit c w1 ->
     exists l, acts w1 = acts w ++ l /\ ~ In AFree l).
  { intros c w1 H. clear S. unfold setRawTerminalMode in H. cbv zeta in H.
    fold (wanted true (testConerr f)) in H.
    pose proof (save_modes_outcome (o_ttys o) (testAllowNonTtys f) (wanted true (testConerr f)) w) as O1.
    assert (O1x : forall fds w c w1, save_modes (o_ttys o) (testAllowNonTtys f) fds w = Exit c w1 -> exists a, acts w1 = acts w ++ [a] /\ a <> AFree).
    { clear. induction fds as [|fd rest IH]; intros w c w1 H; cbn [save_modes] in H; [discriminate|].
      destruct (tty_of (o_ttys o) fd) eqn:Et.
      - unfold tcgetattr in H. rewrite Et in H. destruct (fails (o_ttys o) (calls w)).
        + injection H as <- <-. exists ATermError. split; [reflexivity|discriminate].
        + destruct (save_modes _ _ rest _) as [s' w'|c' w'| | |] eqn:Es in H; try discriminate.
          cbn [andthen] in H. injection H as <- <-. exact (IH _ _ _ Es).
      - destruct (testAllowNonTtys f); [exact (IH _ _ _ H)|]. injection H as <- <-.
        exists (ANotTty fd). split; [reflexivity|discriminate]. }
    assert (O2x : forall s w c w1, change_modes (o_bits o) (o_ttys o) s w = Exit c w1 -> exists l, acts w1 = acts w ++ l /\ ~ In AFree l).
    { clear. induction s as [|[fd m] rest IH]; intros w c w1 H; cbn [change_modes] in H; [discriminate|].
      unfold change_mode, tcgetattr in H. destruct (tty_of (o_ttys o) fd) as [u|] eqn:Et.
      - destruct (fails (o_ttys o) (calls w)); cbn [andthen] in H.
        { injection H as <- <-. exists [ATermError]. split; [reflexivity|]. intros [D|[]]; discriminate D. }
        unfold tcsetattr in H. rewrite Et in H. cbn [calls modes acts] in H.
        destruct (fails (o_ttys o) (calls w + 1)); cbn [andthen] in H.
        { injection H as <- <-. exists [ATermError]. split; [reflexivity|]. intros [D|[]]; discriminate D. }
        apply IH in H. destruct H as (l & E & Hn). cbn [acts] in E.
        eexists (_ :: l). rewrite E, <- app_assoc. split; [reflexivity|]. intros [D|D]; [discriminate D|auto].
      - cbn [andthen] in H. injection H as <- <-. exists [ATermError]. split; [reflexivity|]. intros [D|[]]; discriminate D. }
    destruct (save_modes (o_ttys o) (testAllowNonTtys f) (wanted true (testConerr f)) w) as [s w'|c' w'| | |] eqn:Es;
      cbn [andthen] in H; try discriminate.
    - apply save_modes_go in Es. destruct Es as (_ & Ea & _).
      destruct (change_modes (o_bits o) (o_ttys o) s w') as [a w2|c2 w2| | |] eqn:Ec; cbn [andthen] in H; try discriminate.
      injection H as <- <-. apply O2x in Ec. rewrite Ea in Ec. exact Ec.
    - injection H as <- <-. destruct (O1x _ _ _ _ Es) as (a & Ha & Hn). exists [a]. split; [exact Ha|].
      intros [D|[]]. exact (Hn D). }
  destruct (setRawTerminalMode (o_bits o) (o_ttys o) (testAllowNonTtys f) true (testConerr f) w) as [s w1|c w1| | |];
    cbn [andthen]; try contradiction.
  2:{ destruct S as (-> & S). destruct (Sx _ _ eq_refl) as (l & El & Hl). splits.
      - intros HT. destruct S as [(S & _)|(n & _ & S)]; [exact S|]. rewrite HT in S. discriminate.
      - exists l. exact El.
      - left. split; [reflexivity|]. exists l. auto. }
  clear Sx. destruct S as (R & F & U & (raw & Er & Hr) & _).
  set (w2 := if testConerr f then did (did (did w1 (AThread 0)) (AThread 1)) (AThread 2) else did (did w1 (AThread 0)) (AThread 1)).
  assert (A2 : acts w2 = acts w1 ++ threads f).
  { unfold w2, threads. destruct (testConerr f); rewrite !acts_did, <- !app_assoc; reflexivity. }
  assert (M2 : modes w2 = modes w1) by (unfold w2; destruct (testConerr f); reflexivity).
  clearbody w2.
  pose proof (main_loop_outcome (o_wakes o) (first_size o) w2) as L.
  destruct (main_loop (o_wakes o) (first_size o) w2) as [x w3|c w3|w3|w3|w3]; cbn [andthen]; try contradiction; try exact L.
  destruct L as (reports & L1 & L2 & L3 & L4).
  match goal with |- context [restoreTerminalMode _ s ?x] => set (w4 := x) end.
  assert (A4 : acts w4 = acts w3 ++ closing f).
  { unfold w4, closing. destruct (testConerr f); rewrite !acts_did, <- !app_assoc; reflexivity. }
  assert (M4 : modes w4 = modes w3) by (unfold w4; destruct (testConerr f); reflexivity).
  clearbody w4.
  pose proof (restore_outcome (o_ttys o) w s w4 F) as B.
  destruct (restoreTerminalMode (o_ttys o) s w4) as [y w5|c w5| | |] eqn:Eb; cbn [andthen]; try contradiction.
  - destruct B as (B & back & B1 & B2).
    assert (Ea : acts w5 = acts w ++ raw ++ threads f ++ told (first_size o) reports ++ closing f ++ back).
    { rewrite B1, A4, L2, A2, Er, <- !app_assoc. reflexivity. }
    splits.
    + intros _ t. rewrite B, U. destruct (uses (o_ttys o) true (testConerr f) t) eqn:Eu; [reflexivity|].
      rewrite M4, L3, M2. apply uses_false in Eu. destruct Eu as (U1 & U2).
      specialize (R t). rewrite U1, U2 in R. exact (termios_ext _ _ _ R).
    + eexists. exact Ea.
    + right. right. split; [reflexivity|]. exists reports, raw, back. auto.
  - destruct B as (-> & n & _ & Hn).
    assert (Bx : forall s w c w1, restoreTerminalMode (o_ttys o) s w = Exit c w1 -> exists l, acts w1 = acts w ++ l).
    { clear. induction s as [|[fd m] rest IH]; intros w c w1 H; cbn [restoreTerminalMode] in H; [discriminate|].
      unfold tcsetattr in H. destruct (tty_of (o_ttys o) fd).
      - destruct (fails (o_ttys o) (calls w)); [injection H as <- <-; eexists; reflexivity|].
        apply IH in H. destruct H as (l & E). cbn [acts] in E. rewrite E, <- app_assoc. eauto.
      - injection H as <- <-. eexists. reflexivity. }
    splits.
    + intros HT. rewrite HT in Hn. discriminate.
    + destruct (Bx _ _ _ _ Eb) as (l & E). rewrite E, A4, L2, A2, Er, <- !app_assoc. eauto.
    + right. left. eauto.
Qed.

Lemma main_run_eq o argv f cmd w : parseArguments argv = Run f cmd -> o_env o = true ->
  adapter_main o argv w =
    go! (_, w) := main_open o f w in go! (_, w) := main_spawn o cmd w in main_session o f (first_size o) w.
Proof. intros H1 H2. unfold adapter_main. now rewrite H1, H2. Qed.

Lemma parse_cmd argv f cmd : parseArguments argv = Run f cmd -> cmd <> [].
Proof.
  unfold parseArguments. generalize noFlags as g.
  assert (Fin : forall g c, finish g c = Run f cmd -> cmd <> []).
  { intros g c H. unfold finish in H. destruct (doShowKeys g); [discriminate|].
    destruct (zlen c =? 0) eqn:E; [discriminate|]. injection H as _ <-. intros ->. discriminate E. }
  induction argv as [|a t IH]; intros g H; cbn [parse_loop] in H; [exact (Fin _ _ H)|].
  repeat match type of H with (if ?b then _ else _) = _ => destruct b end;
    try discriminate; try exact (IH _ H); try exact (Fin _ _ H).
Qed.

(** Whenever the adapter exits, the terminals are as they were. *)
Lemma main_restores o argv w c w1 : terminals_work (o_ttys o) -> adapter_main o argv w = Exit c w1 -> same_modes w w1.
Proof.
  intros HT H. unfold adapter_main in H.
  destruct (parseArguments argv) as [f cmd| | |a|allow|] eqn:Ep; try (injection H as <- <-; intros t; reflexivity).
  - destruct (o_env o) eqn:Ee; cbn [negb] in H; [|discriminate].
    pose proof (main_open_outcome o f w cmd) as O. destruct (main_open o f w) as [x1 w2|c2 w2| | |]; cbn [andthen] in H; try discriminate; try contradiction.
    2:{ injection H as <- <-. destruct O as (_ & _ & _ & E). intros t. now rewrite E. }
    destruct O as (_ & M1 & _).
    pose proof (main_spawn_outcome o f cmd w2 (parse_cmd _ _ _ Ep)) as S.
    destruct (main_spawn o cmd w2) as [x2 w3|c3 w3| | |]; cbn [andthen] in H; try discriminate; try contradiction.
    2:{ injection H as <- <-. destruct S as (_ & E & _). intros t. now rewrite E, M1. }
    destruct S as (l & _ & _ & _ & M2).
    pose proof (main_session_outcome o f w3) as T. rewrite H in T. destruct T as (T & _).
    intros t. rewrite (T HT t), M2, M1. reflexivity.
  - unfold debugShowKey in H.
    pose proof (setRaw_outcome (o_bits o) (o_ttys o) allow false false w) as S.
    pose proof (set_restore (o_bits o) (o_ttys o) allow false false w) as SR.
    destruct (setRawTerminalMode (o_bits o) (o_ttys o) allow false false w) as [s w2|c2 w2| | |]; cbn [andthen] in H; try contradiction.
    + destruct S as (R & F & _). pose proof (restore_outcome (o_ttys o) w s w2 F) as B.
      destruct (restoreTerminalMode (o_ttys o) s w2) as [[] w3|c3 w3| | |] eqn:Eb; cbn [andthen] in H; try contradiction; try discriminate.
      * injection H as <- <-. intros t. rewrite (SR s w2 w2 w3 eq_refl Eb t).
        destruct (uses (o_ttys o) false false t) eqn:Eu; [reflexivity|].
        apply uses_false in Eu. destruct Eu as (U1 & U2). specialize (R t). rewrite U1, U2 in R. exact (termios_ext _ _ _ R).
      * destruct B as (_ & n & _ & Hn). rewrite HT in Hn. discriminate.
    + injection H as <- <-. destruct S as (_ & [(S & _)|(n & _ & Hn)]); [exact S|]. rewrite HT in Hn. discriminate.
Qed.

Lemma no_spawn_modes l : only_modes l -> forall line, ~ In (ASpawned line) l.
Proof.
  intros H line Hi. unfold only_modes in H. rewrite Forall_forall in H. destruct (H _ Hi) as (t & m & D). discriminate.
Qed.

(** A run that never started a program. *)
Lemma main_no_child o argv f cmd w c w1 : parseArguments argv = Run f cmd ->
  adapter_main o argv w = Exit c w1 -> ~ started w1 ->
  c = 1 /\ same_modes w w1 /\ (forall t m, In (AMode t m) (acts w1) -> In (AMode t m) (acts w)).
Proof.
  intros Ep H Hs. unfold adapter_main in H. rewrite Ep in H.
  destruct (o_env o) eqn:Ee; cbn [negb] in H; [|discriminate].
  pose proof (main_open_outcome o f w cmd) as O. destruct (main_open o f w) as [x1 w2|c2 w2| | |]; cbn [andthen] in H; try discriminate; try contradiction.
  2:{ injection H as <- <-. destruct O as (E0 & _ & A & E). splits; [exact E0|intros t; now rewrite E|].
      rewrite A. intros t m Hi. apply in_app_or in Hi. destruct Hi as [Hi|[D|[]]]; [exact Hi|discriminate]. }
  destruct O as (A1 & M1 & _).
  pose proof (main_spawn_outcome o f cmd w2 (parse_cmd _ _ _ Ep)) as S.
  destruct (main_spawn o cmd w2) as [x2 w3|c3 w3| | |]; cbn [andthen] in H; try discriminate; try contradiction.
  2:{ injection H as <- <-. destruct S as (E0 & E & S). splits; [exact E0|intros t; now rewrite E, M1|].
      assert (P : forall t m, In (AMode t m) (acts w2) -> In (AMode t m) (acts w)).
      { rewrite A1. intros t m Hi. apply in_app_or in Hi. destruct Hi as [Hi|[D|Hi]]; [exact Hi|discriminate|].
        unfold pipes in Hi. destruct (testConerr f); cbn in Hi;
          repeat destruct Hi as [Hi|Hi]; try discriminate Hi; contradiction. }
      intros t m Hi. apply P. destruct S as [(_ & S)|(_ & S)]; rewrite S in Hi; apply in_app_or in Hi;
        destruct Hi as [Hi|[D|[]]]; auto; discriminate. }
  exfalso. destruct S as (l & _ & _ & A2 & _).
  pose proof (main_session_outcome o f w3) as T. rewrite H in T. destruct T as (_ & (l3 & A3) & _).
  apply Hs. exists l. rewrite A3, A2. apply in_or_app. left. apply in_or_app. right. now left.
Qed.

(** A complete session. *)
Lemma main_session_full o argv f cmd lineW reports w :
  parseArguments argv = Run f cmd -> o_env o = true -> positive (first_size o) -> o_open o = true ->
  (forall fd, o_pipe o fd = true) -> command_line o cmd lineW -> o_spawn o = true ->
  terminals_work (o_ttys o) ->
  (testAllowNonTtys f = true \/ forall fd, In fd (wanted true (testConerr f)) -> exists t, tty_of (o_ttys o) fd = Some t) ->
  ends_with (o_wakes o) reports -> Forall positive reports ->
  exists raw back w1, only_modes raw /\ only_modes back /\
    adapter_main o argv w = Exit (match o_exit o with Some c => c | None => 1 end) w1 /\
    acts w1 = acts w ++ [opened o f] ++ pipes f ++ [ASpawned lineW] ++ raw ++ threads f ++
                told (first_size o) reports ++ closing f ++ back.
Proof.
  intros Ep Ee Hp Ho Hpi Hc Hs HT Ht He Hr. rewrite (main_run_eq o argv f cmd w Ep Ee).
  assert (E1 : exists w1, main_open o f w = Go tt w1 /\ acts w1 = acts w ++ opened o f :: pipes f).
  { unfold main_open. cbv zeta. apply positive_iff in Hp. rewrite Hp, Ho, !Hpi. cbn [negb orb].
    unfold pipes. destruct (testConerr f); eexists; (split; [reflexivity|]); rewrite !acts_did, <- !app_assoc; reflexivity. }
  destruct E1 as (w1 & E1 & A1). rewrite E1. cbn [andthen].
  assert (E2 : main_spawn o cmd w1 = Go tt (did w1 (ASpawned lineW))).
  { destruct Hc as (prog & args & p & line & -> & C1 & C2 & C3). unfold main_spawn. rewrite C1, C2, C3, Hs. reflexivity. }
  rewrite E2. cbn [andthen]. set (w2 := did w1 (ASpawned lineW)).
  assert (A2 : acts w2 = acts w ++ [opened o f] ++ pipes f ++ [ASpawned lineW]).
  { unfold w2. rewrite acts_did, A1, <- app_assoc. reflexivity. }
  clearbody w2. unfold main_session. cbv zeta.
  pose proof (setRaw_outcome (o_bits o) (o_ttys o) (testAllowNonTtys f) true (testConerr f) w2) as S.
  destruct (setRawTerminalMode (o_bits o) (o_ttys o) (testAllowNonTtys f) true (testConerr f) w2) as [s w3|c w3| | |];
    cbn [andthen]; try contradiction.
  2:{ exfalso. destruct S as (_ & [(_ & _ & Ha & fd & Hi & E)|(n & _ & Hn)]); [|rewrite HT in Hn; discriminate].
      destruct Ht as [Ht|Ht]; [congruence|]. destruct (Ht fd Hi) as (t & Et). congruence. }
  destruct S as (_ & F & _ & (raw & Er & Hraw) & _).
  set (w4 := if testConerr f then did (did (did w3 (AThread 0)) (AThread 1)) (AThread 2) else did (did w3 (AThread 0)) (AThread 1)).
  assert (A4 : acts w4 = acts w3 ++ threads f).
  { unfold w4, threads. destruct (testConerr f); rewrite !acts_did, <- !app_assoc; reflexivity. }
  clearbody w4.
  pose proof (main_loop_outcome (o_wakes o) (first_size o) w4) as L.
  destruct (main_loop_ends (o_wakes o) reports He Hr (first_size o) w4) as (w5 & E5). rewrite E5 in *. cbn [andthen].
  destruct L as (reports' & L1 & L2 & _). rewrite (ends_with_inj _ _ _ L1 He) in L2.
  match goal with |- context [restoreTerminalMode _ s ?x] => set (w6 := x) end.
  assert (A6 : acts w6 = acts w5 ++ closing f).
  { unfold w6, closing. destruct (testConerr f); rewrite !acts_did, <- !app_assoc; reflexivity. }
  clearbody w6.
  pose proof (restore_outcome (o_ttys o) w2 s w6 F) as B.
  destruct (restoreTerminalMode (o_ttys o) s w6) as [y w7|c w7| | |]; cbn [andthen]; try contradiction.
  - destruct B as (_ & back & B1 & B2). exists raw, back, w7. splits; auto.
    rewrite B1, A6, L2, A4, Er, A2, <- !app_assoc. reflexivity.
  - destruct B as (_ & n & _ & Hn). rewrite HT in Hn. discriminate.
Qed.

(** What can make the adapter crash. *)
Lemma main_crashes o argv f cmd w : parseArguments argv = Run f cmd ->
  match adapter_main o argv w with
  | Abort _ => crash_cause o f cmd
  | Undef _ => (exists b, In (None, b) (o_wakes o)) \/
      exists p, @findProgram unit (o_files o) (o_msys o) (o_path o) (hd [] cmd) = Ok (Some p) /\
        ~ Forall (fun a => zlen a < 2 ^ 30) (p :: tl cmd)
  | Waiting _ => Forall (fun x => snd x = false) (o_wakes o)
  | Exit _ _ => True
  | Go _ _ => False
  end.
Proof.
  intros Ep. unfold adapter_main. rewrite Ep. destruct (o_env o) eqn:Ee; cbn [negb]; [|left; exact Ee].
  pose proof (main_open_outcome o f w cmd) as O.
  destruct (main_open o f w) as [x1 w2|c2 w2|w2|w2|w2]; cbn [andthen]; try contradiction; [|exact Logic.I|exact (proj1 O)].
  pose proof (main_spawn_outcome o f cmd w2 (parse_cmd _ _ _ Ep)) as S.
  destruct (main_spawn o cmd w2) as [x2 w3|c3 w3|w3|w3|w3]; cbn [andthen]; try contradiction;
    [|exact Logic.I|exact (proj1 S)|right; exact S].
  pose proof (main_session_outcome o f w3) as T.
  destruct (main_session o f (first_size o) w3) as [x4 w4|c4 w4|w4|w4|w4]; try contradiction; auto.
  destruct T as (s & b & Hi & Hn). unfold crash_cause. do 7 right. eauto.
Qed.

(** The failures that end in a message and exit status 1. *)
Lemma main_open_fails o argv f cmd w : parseArguments argv = Run f cmd -> o_env o = true -> positive (first_size o) ->
  o_open o = false -> adapter_main o argv w = Exit 1 (did w AOpenFailed).
Proof.
  intros Ep Ee Hp Ho. rewrite (main_run_eq o argv f cmd w Ep Ee). unfold main_open. cbv zeta.
  apply positive_iff in Hp. rewrite Hp, Ho. reflexivity.
Qed.

Lemma main_start_fails o argv f cmd w : parseArguments argv = Run f cmd -> o_env o = true -> positive (first_size o) ->
  o_open o = true -> (forall fd, o_pipe o fd = true) ->
  (@findProgram unit (o_files o) (o_msys o) (o_path o) (hd [] cmd) = Ok None \/
   (exists lineW, command_line o cmd lineW) /\ o_spawn o = false) ->
  exists w1 a, adapter_main o argv w = Exit 1 w1 /\ acts w1 = acts w ++ [opened o f] ++ pipes f ++ [a] /\
    (a = ANotFound \/ a = ASpawnFailed).
Proof.
  intros Ep Ee Hp Ho Hpi Hc. rewrite (main_run_eq o argv f cmd w Ep Ee).
  assert (E1 : exists w1, main_open o f w = Go tt w1 /\ acts w1 = acts w ++ opened o f :: pipes f).
  { unfold main_open. cbv zeta. apply positive_iff in Hp. rewrite Hp, Ho, !Hpi. cbn [negb orb].
    unfold pipes. destruct (testConerr f); eexists; (split; [reflexivity|]); rewrite !acts_did, <- !app_assoc; reflexivity. }
  destruct E1 as (w1 & E1 & A1). rewrite E1. cbn [andthen].
  pose proof (parse_cmd _ _ _ Ep) as Hn.
  destruct Hc as [Hf|((lineW & prog & args & p & line & -> & C1 & C2 & C3) & Hs)].
  - exists (did w1 ANotFound), ANotFound. unfold main_spawn. destruct cmd as [|prog args]; [congruence|].
    cbn [hd] in Hf. rewrite Hf. cbn [andthen]. splits; auto. rewrite acts_did, A1, <- app_assoc. reflexivity.
  - exists (did w1 ASpawnFailed), ASpawnFailed. unfold main_spawn. rewrite C1, C2, C3, Hs. cbn [andthen].
    splits; auto. rewrite acts_did, A1, <- app_assoc. reflexivity.
Qed.

(** *** The environment *)
Lemma set_var_eq e n v : set_var e n v n = v.
Proof. unfold set_var. now rewrite list_eqb_refl. Qed.
Lemma set_var_neq e n v x : x <> n -> set_var e n v x = e x.
Proof. intros H. unfold set_var. now replace (list_eqb x n) with false by (symmetry; now apply list_eqb_neq). Qed.

Definition copied (wide : list Z -> option (list Z)) (unix synced e : environment) (n : list Z) : Prop :=
  match unix n with
  | Some (c :: t) => exists v, wide (c :: t) = Some v /\ e n = Some v
  | _ => e n = synced n
  end.
Lemma environment_set wide unix synced e : setupWin32Environment wide unix synced = Some e ->
  copied wide unix synced e (str "WINPTY_DEBUG") /\ copied wide unix synced e (str "WINPTY_SHOW_CONSOLE") /\
  e (str "TERM") = None /\
  (forall n, n <> str "WINPTY_DEBUG" -> n <> str "WINPTY_SHOW_CONSOLE" -> n <> str "TERM" -> e n = synced n).
Proof.
  unfold setupWin32Environment, copied. cbv zeta.
  set (D := str "WINPTY_DEBUG"). set (C := str "WINPTY_SHOW_CONSOLE"). set (Tm := str "TERM").
  assert (N1 : D <> Tm) by discriminate. assert (N2 : C <> Tm) by discriminate. assert (N3 : C <> D) by discriminate.
  assert (N4 : D <> C) by discriminate.
  clearbody D C Tm.
  destruct (unix D) as [[|c1 t1]|] eqn:U1; [| destruct (wide (c1 :: t1)) as [v1|] eqn:W1; [|discriminate] | ];
    (destruct (unix C) as [[|c2 t2]|] eqn:U2; [| destruct (wide (c2 :: t2)) as [v2|] eqn:W2; [|discriminate] | ]);
    intros [= <-]; rewrite ?set_var_eq; splits;
    try (eexists; split; [reflexivity|]);
    repeat first [rewrite set_var_eq | rewrite set_var_neq by assumption]; try reflexivity;
    intros n Hn1 Hn2 Hn3; rewrite !set_var_neq by assumption; reflexivity.
Qed.
Lemma environment_fails wide unix synced : setupWin32Environment wide unix synced = None <->
  exists n v, (n = str "WINPTY_DEBUG" \/ n = str "WINPTY_SHOW_CONSOLE") /\ unix n = Some v /\ v <> [] /\ wide v = None.
Proof.
  unfold setupWin32Environment. cbv zeta.
  set (D := str "WINPTY_DEBUG"). set (C := str "WINPTY_SHOW_CONSOLE"). set (Tm := str "TERM").
  clearbody D C Tm.
  destruct (unix D) as [[|c1 t1]|] eqn:U1; [| destruct (wide (c1 :: t1)) as [v1|] eqn:W1 | ];
    (destruct (unix C) as [[|c2 t2]|] eqn:U2; [| destruct (wide (c2 :: t2)) as [v2|] eqn:W2 | ]);
    (split; intros H; [first [discriminate H | clear H]|try reflexivity; exfalso;
       destruct H as (n & v & [Hn|Hn] & Hv & Hne & Hw); subst n; congruence]);
    first [exists D, (c1 :: t1); splits; auto; discriminate | exists C, (c2 :: t2); splits; auto; discriminate].
Qed.
