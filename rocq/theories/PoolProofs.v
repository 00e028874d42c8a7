(** Proofs for Pool.v. *)
From Verif Require Import Base BaseLemmas Pool PoolSpec.
Ltac splits := repeat match goal with |- _ /\ _ => split end.

(** The places 0 .. n-1, the last first. *)
Fixpoint upto (n : nat) : list Z := match n with O => [] | S k => Z.of_nat k :: upto k end.
Definition block_of (cs : Z) (c : chunk) : block := mkB (ck_data c) cs (upto (Z.to_nat (ck_count c))).

Lemma upto_in n i : In i (upto n) <-> 0 <= i < Z.of_nat n.
Proof.
  induction n as [|n IH]; cbn [upto In]; [lia|]. rewrite IH. lia.
Qed.
Lemma upto_free n : existsb (Z.eqb (Z.of_nat n)) (upto n) = false.
Proof.
  destruct (existsb (Z.eqb (Z.of_nat n)) (upto n)) eqn:E; [|reflexivity].
  apply existsb_exists in E. destruct E as (x & I & Q). apply upto_in in I. lia.
Qed.
Lemma after_app l1 l2 h : after (l1 ++ l2) h = match after l1 h with Some h => after l2 h | None => None end.
Proof.
  revert h. induction l1 as [|e l1 IH]; intros h; cbn [app after]; [reflexivity|]. destruct (allowed h e); [apply IH|reflexivity].
Qed.

Section P.
Variable cs : Z.
Hypothesis Hcs : 0 < cs.

Definition inv (s : pool) : Prop :=
  after (pl_log s) [] = Some (map (block_of cs) (pl_chunks s)) /\
  NoDup (map ck_data (pl_chunks s)) /\
  (forall c, In c (pl_chunks s) -> 1 <= ck_count c <= cs) /\
  (forall c, In c (tl (pl_chunks s)) -> ck_count c = cs).

Lemma names l : map b_name (map (block_of cs) l) = map ck_data l.
Proof. rewrite map_map. reflexivity. Qed.

Lemma inv0 : inv pool0.
Proof. unfold inv, pool0. cbn. splits; [reflexivity|constructor|intros c []|intros c []]. Qed.

Lemma construct_ok c t l : 0 <= ck_count c < cs -> after l [] = Some (map (block_of cs) (c :: t)) ->
  after (l ++ [EConstruct (ck_data c, ck_count c)]) [] = Some (map (block_of cs) (mkK (ck_count c + 1) (ck_data c) :: t)).
Proof.
  intros B E. rewrite after_app, E. cbn [map after allowed with_block block_of b_name b_room b_live]. rewrite Z.eqb_refl.
  rewrite <- (Z2Nat.id (ck_count c)) at 3 by lia. rewrite upto_free.
  replace ((0 <=? ck_count c) && (ck_count c <? cs)) with true by lia. cbn [negb andb app].
  unfold block_of at 2. cbn [ck_data ck_count]. replace (Z.to_nat (ck_count c + 1)) with (S (Z.to_nat (ck_count c))) by lia.
  cbn [upto]. rewrite Z2Nat.id by lia. reflexivity.
Qed.

Lemma alloc_ok malloc s : honest malloc -> inv s ->
  (exists p s', palloc malloc cs s = Ok (p, s') /\ inv s' /\ exists l, pl_log s' = pl_log s ++ l /\ (l = [EConstruct p] \/ exists b, l = [EMalloc b cs; EConstruct p])) \/
  (palloc malloc cs s = AssertFail /\ malloc (pl_log s) = None /\ Forall (fun c => ck_count c = cs) (pl_chunks s)).
Proof.
  intros Hm (A & N & B & T). unfold palloc. cbv zeta. destruct s as [ch lg]. cbn [pl_chunks pl_log] in *.
  destruct ch as [|c t].
  - destruct (malloc lg) as [b|] eqn:E; [|right; splits; auto]. left. cbn [bind pl_chunks pl_log ck_data ck_count].
    eexists. eexists. split; [reflexivity|]. split.
    + unfold inv. cbn [pl_chunks pl_log]. splits.
      * apply (construct_ok (mkK 0 b)); [cbn; lia|]. rewrite after_app, A. reflexivity.
      * repeat constructor. intros [].
      * intros c [<-|[]]. cbn. lia.
      * intros c [].
    + eexists. split; [cbn [pl_log]; rewrite <- app_assoc; reflexivity|]. right. exists b. reflexivity.
  - destruct (Z.eqb_spec (ck_count c) cs) as [e|n].
    + destruct (malloc lg) as [b|] eqn:E.
      2: { right. splits; auto. constructor; [exact e|]. apply Forall_forall. intros x I. now apply T. }
      pose proof (Hm lg _ b A E) as F. rewrite names in F.
      left. cbn [bind pl_chunks pl_log ck_data ck_count]. eexists. eexists. split; [reflexivity|]. split.
      * unfold inv. cbn [pl_chunks pl_log]. splits.
        -- apply (construct_ok (mkK 0 b)); [cbn; lia|]. rewrite after_app, A. cbn [after allowed].
           destruct (existsb (fun k => b_name k =? b) (map (block_of cs) (c :: t))) eqn:X; [|reflexivity].
           exfalso. apply existsb_exists in X. destruct X as (k & I & Q). apply F. rewrite <- (names (c :: t)). apply in_map_iff. exists k. split; [lia|exact I].
        -- constructor; [exact F|exact N].
        -- intros x [<-|I]; [cbn; lia|now apply B].
        -- cbn [tl]. intros x [<-|I]; [exact e|now apply T].
      * eexists. split; [cbn [pl_log]; rewrite <- app_assoc; reflexivity|]. right. exists b. reflexivity.
    + left. cbn [bind pl_chunks pl_log]. pose proof (B c (or_introl eq_refl)) as Bc. eexists. eexists. split; [reflexivity|]. split.
      * unfold inv. cbn [pl_chunks pl_log]. splits.
        -- apply construct_ok; [lia|exact A].
        -- exact N.
        -- intros x [<-|I]; [cbn; lia|apply B; now right].
        -- exact T.
      * eexists. split; [reflexivity|]. now left.
Qed.

(** Clearing *)
Lemma with_block_end b f h k : ~ In b (map b_name h) -> b_name k = b ->
  with_block b f (h ++ [k]) = match f k with Some l => Some (h ++ l) | None => None end.
Proof.
  intros N E. induction h as [|x h IH]; cbn [app with_block map In] in *.
  - rewrite E, Z.eqb_refl. destruct (f k); [|reflexivity]. now rewrite app_nil_r.
  - destruct (Z.eqb_spec (b_name x) b) as [q|q]; [destruct N; now left|]. rewrite IH by tauto. destruct (f k); reflexivity.
Qed.

(** The places i .. n-1, the last first. *)
Fixpoint from (i : Z) (k : nat) : list Z := match k with O => [] | S k => (i + Z.of_nat k) :: from i k end.
Lemma upto_from n : upto n = from 0 n.
Proof. induction n as [|n IH]; [reflexivity|]. cbn [upto from]. f_equal. exact IH. Qed.
Lemma take_first k i : take i (from i (S k)) = Some (from (i + 1) k).
Proof.
  induction k as [|k IH].
  - cbn [from take]. replace (i + Z.of_nat 0 =? i) with true by lia. reflexivity.
  - change (from i (S (S k))) with ((i + Z.of_nat (S k)) :: from i (S k)). cbn [take].
    replace (i + Z.of_nat (S k) =? i) with false by lia. rewrite IH. cbn [from]. do 2 f_equal. lia.
Qed.
Lemma destroy_ok c h : ~ In (ck_data c) (map b_name h) -> forall k i, i + Z.of_nat k = ck_count c ->
  after (destroy_from k i c ++ [EFree (ck_data c)]) (h ++ [mkB (ck_data c) cs (from i k)]) = Some h.
Proof.
  intros N. induction k as [|k IH]; intros i E.
  - cbn [destroy_from app after allowed]. rewrite with_block_end by (try exact N; reflexivity). cbn [b_live from]. now rewrite app_nil_r.
  - cbn [destroy_from]. replace (i <? ck_count c) with true by lia. cbn [app after allowed].
    rewrite with_block_end by (try exact N; reflexivity). cbn [b_live b_room]. rewrite take_first. apply IH. lia.
Qed.
Lemma clear_events : forall l, NoDup (map ck_data l) -> (forall c, In c l -> 0 <= ck_count c) ->
  after (flat_map (fun c => destroy_from (Z.to_nat (ck_count c)) 0 c ++ [EFree (ck_data c)]) l) (map (block_of cs) (rev l)) = Some [].
Proof.
  induction l as [|c l IH]; intros N B; [reflexivity|]. cbn [flat_map rev]. rewrite map_app, after_app. cbn [map].
  inversion N as [|? ? N1 N2]; subst. unfold block_of at 2. rewrite upto_from. rewrite destroy_ok.
  - apply IH; [exact N2|]. intros x I. apply B. now right.
  - rewrite names. intros I. apply N1. rewrite map_rev in I. now apply in_rev in I.
  - rewrite Z2Nat.id by (apply B; now left). lia.
Qed.
Lemma clear_ok s : inv s -> inv (pclear s) /\ after (pl_log (pclear s)) [] = Some [].
Proof.
  intros (A & N & B & T). assert (E : after (pl_log (pclear s)) [] = Some []).
  { unfold pclear. cbn [pl_log]. rewrite after_app, A. rewrite <- (rev_involutive (pl_chunks s)) at 2. apply clear_events.
    - rewrite map_rev. now apply NoDup_rev.
    - intros c I. apply in_rev in I. apply B in I. lia. }
  split; [|exact E]. unfold inv. splits; [rewrite E; reflexivity|constructor|intros c []|intros c []].
Qed.
End P.

(** Runs *)
Lemma run_inv malloc cs ops : 0 < cs -> honest malloc -> forall s, inv cs s ->
  (exists ps s', pool_run malloc cs ops s = Ok (ps, s') /\ inv cs s') \/
  (pool_run malloc cs ops s = AssertFail /\ exists l h, after l [] = Some h /\ malloc l = None).
Proof.
  intros Hc Hm. induction ops as [|o ops IH]; intros s I; cbn [pool_run]; [left; eauto|].
  destruct o.
  - destruct (alloc_ok cs Hc malloc s Hm I) as [(p & s1 & E & I1 & _)|(E & N & _)]; rewrite E; cbn [bind].
    + destruct (IH s1 I1) as [(ps & s2 & E2 & I2)|(E2 & X)]; rewrite E2; cbn [bind]; [left; eauto|right; auto].
    + right. split; [reflexivity|]. destruct I as (A & _). eauto.
  - apply IH. apply (clear_ok cs s I).
Qed.
Lemma run_app malloc cs o1 o2 s : pool_run malloc cs (o1 ++ o2) s =
  (let! (l1, s1) := pool_run malloc cs o1 s in let! (l2, s2) := pool_run malloc cs o2 s1 in Ok (l1 ++ l2, s2)).
Proof.
  revert s. induction o1 as [|o o1 IH]; intros s; cbn [app pool_run bind].
  - destruct (pool_run malloc cs o2 s) as [[l2 s2]| | | |]; reflexivity.
  - destruct o; [|apply IH]. destruct (palloc malloc cs s) as [[p s1]| | | |]; cbn [bind]; try reflexivity. rewrite IH.
    destruct (pool_run malloc cs o1 s1) as [[l2 s2]| | | |]; cbn [bind]; try reflexivity.
    destruct (pool_run malloc cs o2 s2) as [[l3 s3]| | | |]; reflexivity.
Qed.

Lemma zlen_upto n : zlen (upto n) = Z.of_nat n.
Proof. induction n as [|n IHn]; [reflexivity|]. cbn [upto]. rewrite zlen_cons, IHn. lia. Qed.
Lemma full_objects cs l : 0 < cs -> (forall c, In c l -> ck_count c = cs) -> zlen (objects (map (block_of cs) l)) = cs * zlen l.
Proof.
  intros Hc. induction l as [|c l IH]; intros F; [unfold zlen; cbn; lia|]. cbn [map objects flat_map]. rewrite zlen_app, zlen_cons. fold (objects (map (block_of cs) l)).
  rewrite IH by (intros x I; apply F; now right). rewrite zlen_map. cbn [b_live block_of]. rewrite (F c) by now left.
  rewrite zlen_upto. lia.
Qed.

Lemma run_state malloc cs ops ps s : 0 < cs -> honest malloc -> pool_run malloc cs ops pool0 = Ok (ps, s) -> inv cs s.
Proof.
  intros Hc Hm E. destruct (run_inv malloc cs ops Hc Hm pool0 (inv0 cs)) as [(ps' & s' & E' & I)|(E' & _)]; [|congruence].
  assert (s' = s) as -> by congruence. exact I.
Qed.
Lemma pool_correct malloc cs ops ps s : 0 < cs -> honest malloc -> pool_run malloc cs ops pool0 = Ok (ps, s) ->
  exists h, after (pl_log s) [] = Some h /\ Forall (fun k => b_room k = cs) h /\ cs * zlen h < zlen (objects h) + cs /\
    after (pl_log (pclear s)) [] = Some [].
Proof.
  intros Hc Hm E. pose proof (run_state malloc cs ops ps s Hc Hm E) as I.
  pose proof (clear_ok cs s I) as (_ & C). destruct I as (A & N & B & T).
  exists (map (block_of cs) (pl_chunks s)). splits; auto.
  - apply Forall_forall. intros k I. apply in_map_iff in I. destruct I as (c & <- & _). reflexivity.
  - destruct (pl_chunks s) as [|c t] eqn:Ec; [unfold zlen; cbn; lia|]. cbn [tl] in T.
    cbn [map objects flat_map]. rewrite zlen_app, !zlen_cons. fold (objects (map (block_of cs) t)). rewrite (full_objects cs t Hc T), !zlen_map.
    cbn [b_live block_of]. rewrite zlen_upto. pose proof (B c (or_introl eq_refl)). lia.
Qed.

(** The objects are the places given out since the last clearing. *)
Definition live_in (cs : Z) (s : pool) : list place := objects (map (block_of cs) (pl_chunks s)).
Lemma alloc_live malloc cs s p s' : 0 < cs -> inv cs s -> palloc malloc cs s = Ok (p, s') -> live_in cs s' = p :: live_in cs s.
Proof.
  intros Hc (A & N & B & T) E. unfold palloc in E. cbv zeta in E. unfold live_in. destruct s as [ch lg]. cbn [pl_chunks pl_log] in *.
  assert (G : forall c t, 0 <= ck_count c -> objects (map (block_of cs) (mkK (ck_count c + 1) (ck_data c) :: t)) = (ck_data c, ck_count c) :: objects (map (block_of cs) (c :: t))).
  { intros c t H. cbn [map objects flat_map b_name b_live block_of ck_count ck_data]. replace (Z.to_nat (ck_count c + 1)) with (S (Z.to_nat (ck_count c))) by lia.
    cbn [upto map app]. rewrite Z2Nat.id by lia. reflexivity. }
  destruct ch as [|c t].
  - destruct (malloc lg) as [b|]; [|discriminate]. cbn [bind pl_chunks] in E. injection E as <- <-. cbn [pl_chunks].
    exact (G (mkK 0 b) [] ltac:(cbn; lia)).
  - destruct (ck_count c =? cs).
    + destruct (malloc lg) as [b|]; [|discriminate]. cbn [bind pl_chunks] in E. injection E as <- <-. cbn [pl_chunks].
      exact (G (mkK 0 b) (c :: t) ltac:(cbn; lia)).
    + cbn [bind pl_chunks] in E. injection E as <- <-. cbn [pl_chunks]. rewrite G; [reflexivity|]. pose proof (B c (or_introl eq_refl)). lia.
Qed.
Lemma allocs_live malloc cs n : 0 < cs -> honest malloc -> forall s ps s', inv cs s -> pool_run malloc cs (repeat PAlloc n) s = Ok (ps, s') ->
  length ps = n /\ live_in cs s' = rev ps ++ live_in cs s.
Proof.
  intros Hc Hm. induction n as [|n IH]; intros s ps s' I E; cbn [repeat pool_run] in E.
  - injection E as <- <-. auto.
  - destruct (alloc_ok cs Hc malloc s Hm I) as [(p & s1 & E1 & I1 & _)|(E1 & _)]; rewrite E1 in E; cbn [bind] in E; [|discriminate].
    destruct (pool_run malloc cs (repeat PAlloc n) s1) as [[l s2]| | | |] eqn:E2; try discriminate. cbn [bind] in E. injection E as <- <-.
    destruct (IH s1 l s2 I1 E2) as (L & V). rewrite (alloc_live malloc cs s p s1 Hc I E1) in V. cbn [length rev]. rewrite <- app_assoc. auto.
Qed.
Lemma NoDup_live cs s : inv cs s -> NoDup (live_in cs s).
Proof.
  intros (_ & N & _). unfold live_in. induction (pl_chunks s) as [|c t IH]; [constructor|].
  cbn [map] in N. inversion N as [|? ? N1 N2]; subst. cbn [map objects flat_map b_name b_live block_of].
  fold (objects (map (block_of cs) t)).
  assert (U : forall n, NoDup (map (fun i => (ck_data c, i)) (upto n))).
  { induction n as [|n IHn]; [constructor|]. cbn [upto map]. constructor; [|exact IHn]. intros I. apply in_map_iff in I. destruct I as (x & Q & I).
    injection Q as ->. apply upto_in in I. lia. }
  generalize (U (Z.to_nat (ck_count c))). generalize (upto (Z.to_nat (ck_count c))). intros l Ul.
  induction l as [|i l IHl]; [exact (IH N2)|]. cbn [map app] in *. inversion Ul as [|? ? U1 U2]; subst. constructor; [|exact (IHl U2)].
  intros I. apply in_app_or in I. destruct I as [I|I]; [exact (U1 I)|].
  unfold objects in I. apply in_flat_map in I. destruct I as (k & Ik & I). apply in_map_iff in Ik. destruct Ik as (c' & <- & Ic).
  apply in_map_iff in I. destruct I as (j & Q & _). injection Q as Q _. apply N1. rewrite <- Q. now apply in_map.
Qed.
Lemma given_out malloc cs ops n ps s : 0 < cs -> honest malloc ->
  pool_run malloc cs (ops ++ PClear :: repeat PAlloc n) pool0 = Ok (ps, s) ->
  exists old new h, ps = old ++ new /\ length new = n /\ NoDup new /\ after (pl_log s) [] = Some h /\ objects h = rev new.
Proof.
  intros Hc Hm E. pose proof (run_state malloc cs _ ps s Hc Hm E) as I. rewrite run_app in E.
  destruct (pool_run malloc cs ops pool0) as [[old s1]| | | |] eqn:E1; try discriminate. cbn [bind pool_run] in E.
  pose proof (run_state malloc cs _ _ _ Hc Hm E1) as I1. destruct (clear_ok cs s1 I1) as (I2 & _).
  destruct (pool_run malloc cs (repeat PAlloc n) (pclear s1)) as [[new s2]| | | |] eqn:E2; try discriminate. cbn [bind] in E. injection E as <- <-.
  destruct (allocs_live malloc cs n Hc Hm _ _ _ I2 E2) as (L & V). unfold live_in at 2 in V. cbn [pclear pl_chunks map objects flat_map] in V. rewrite app_nil_r in V.
  exists old, new, (map (block_of cs) (pl_chunks s2)). splits; auto.
  - rewrite <- (rev_involutive new). apply NoDup_rev. rewrite <- V. now apply NoDup_live.
  - apply I.
Qed.
Lemma run_total malloc cs ops : 0 < cs -> honest malloc ->
  (exists ps s, pool_run malloc cs ops pool0 = Ok (ps, s)) \/
  (pool_run malloc cs ops pool0 = AssertFail /\ exists l h, after l [] = Some h /\ malloc l = None).
Proof.
  intros Hc Hm. destruct (run_inv malloc cs ops Hc Hm pool0 (inv0 cs)) as [(ps & s & E & _)|X]; [left; eauto|right; exact X].
Qed.

(** The blocks there are were allocated. *)
Lemma with_block_names b f : (forall k l, f k = Some l -> forall x, In x (map b_name l) -> x = b) ->
  forall h h', with_block b f h = Some h' -> forall x, In x (map b_name h') -> In x (map b_name h).
Proof.
  intros F. induction h as [|k h IH]; intros h' E x I; cbn [with_block] in E; [discriminate|].
  destruct (Z.eqb_spec (b_name k) b) as [q|q].
  - destruct (f k) as [l|] eqn:Ef; [|discriminate]. injection E as <-. rewrite map_app in I. apply in_app_or in I.
    destruct I as [I|I]; [left; rewrite (F k l Ef x I); exact q|right; exact I].
  - destruct (with_block b f h) as [t|] eqn:Et; [|discriminate]. injection E as <-. destruct I as [I|I]; [left; exact I|right; exact (IH t eq_refl x I)].
Qed.
Lemma malloced : forall l h0 h b, after l h0 = Some h -> In b (map b_name h) -> In b (map b_name h0) \/ exists n, In (EMalloc b n) l.
Proof.
  induction l as [|e l IH]; intros h0 h b E I; cbn [after] in E; [injection E as <-; auto|].
  destruct (allowed h0 e) as [h1|] eqn:E1; [|discriminate]. destruct (IH h1 h b E I) as [J|(n & J)]; [|right; exists n; now right].
  destruct e as [b' n'|[b' i]|[b' i]|b']; cbn [allowed] in E1.
  - destruct (existsb _ _); [discriminate|]. injection E1 as <-. destruct J as [<-|J]; [right; exists n'; now left|left; exact J].
  - left. refine (with_block_names _ _ _ _ _ E1 _ J). intros k l0 Hk y Hy. destruct (_ && _); [|discriminate]. injection Hk as <-. destruct Hy as [<-|[]]. reflexivity.
  - left. refine (with_block_names _ _ _ _ _ E1 _ J). intros k l0 Hk y Hy. destruct (take _ _); [|discriminate]. injection Hk as <-. destruct Hy as [<-|[]]. reflexivity.
  - left. refine (with_block_names _ _ _ _ _ E1 _ J). intros k l0 Hk y Hy. destruct (b_live k); [|discriminate]. injection Hk as <-. destruct Hy.
Qed.
