From Coq Require Import Permutation.
From Verif Require Import Base BaseLemmas Buffer BufferSpec BufferProofs Spawn Rpc RpcSpec.
Ltac splits := repeat match goal with |- _ /\ _ => split end.
Ltac Zify.zify_post_hook ::= Z.div_mod_to_equations.

(** *** Running programs *)
Lemma run_pbind {A B} ag (p : prog A) : forall w (k : A -> prog B),
  run ag w (pbind p k) = let (w', a) := run ag w p in run ag w' (k a).
Proof.
  induction p as [a|o f IH]; intros w k; cbn [pbind run]; [reflexivity|].
  destruct (wstep ag w o) as (w', a). apply IH.
Qed.

Definition tcont {A B} (k : A -> prog (res lexc B)) (r : res lexc A) : prog (res lexc B) :=
  match r with
  | Ok a => k a | Throw e => Ret (Throw e) | AssertFail => Ret AssertFail | UB => Ret UB | OutOfFuel => Ret OutOfFuel
  end.
Lemma run_tbind {A B} ag (p : prog (res lexc A)) w (k : A -> prog (res lexc B)) :
  run ag w (tbind p k) = let (w', r) := run ag w p in run ag w' (tcont k r).
Proof. unfold tbind. rewrite run_pbind. destruct (run ag w p) as (w', r). reflexivity. Qed.

(** *** I/O *)
Lemma io_result_kind a :
  match io_result a with
  | Ok _ => True
  | Throw e => e <> XLib 2
  | AssertFail => True
  | _ => False
  end.
Proof.
  unfold io_result, handlePendingIo, handleReadWriteErrors.
  destruct a as [ok err n|[| | | |] ok err n]; cbn [bind fst snd]; try discriminate; try exact I;
    (destruct ok; [exact I|]; destruct ((err =? 109) || (err =? 232) || (err =? 233)); discriminate).
Qed.

(** What reading and failing writes leave alone. *)
Definition io_entry (x : op * ans) : Prop := match fst x with OWrite _ | ORead _ => True | _ => False end.
Definition same (w w' : world) : Prop :=
  w_pipe w' = w_pipe w /\ w_handles w' = w_handles w /\ w_dup w' = w_dup w /\
  exists l, w_log w' = w_log w ++ l /\ Forall io_entry l.
Lemma same_refl w : same w w.
Proof. unfold same. splits; try reflexivity. exists []. now rewrite app_nil_r. Qed.
Lemma same_trans a b c : same a b -> same b c -> same a c.
Proof.
  unfold same. intros (H1 & H2 & H3 & l1 & L1 & F1) (H4 & H5 & H6 & l2 & L2 & F2). splits; try congruence.
  exists (l1 ++ l2). rewrite L2, L1, app_assoc. split; [reflexivity|]. apply Forall_app. auto.
Qed.

Lemma run_writeData ag w d w' r : run ag w (writeData d) = (w', r) ->
  same w w' /\
  (r = Ok tt -> w_sent w' = w_sent w ++ [d] /\ w_in w' = w_in w ++ ag (w_sent w ++ [d])) /\
  (w_sent w' = w_sent w \/ w_sent w' = w_sent w ++ [d]) /\
  (match r with Ok _ => True | Throw e => e <> XLib 2 | AssertFail => True | _ => False end).
Proof.
  unfold writeData. cbn [run]. unfold wstep. cbn [weffect]. destruct (next_io w) as (a, t).
  pose proof (io_result_kind a) as K.
  destruct (moved a =? zlen d) eqn:Em; cbn [run w_pipe w_sent w_in w_io w_dup w_handles w_log];
    intros H; injection H as <- <-; unfold same; cbn [w_pipe w_sent w_in w_io w_dup w_handles w_log];
    rewrite ?Em; (splits; [reflexivity|reflexivity|reflexivity| | | | ]);
    try (eexists; split; [reflexivity|repeat constructor]).
  - auto.
  - now right.
  - destruct (io_result a) as [[]|e| | |]; cbn [bind assert_]; auto.
  - destruct (io_result a) as [[]|e| | |]; cbn [bind assert_]; try discriminate.
  - now left.
  - destruct (io_result a) as [[]|e| | |]; cbn [bind assert_]; auto.
Qed.

Lemma run_readData ag w n w' r : 0 < n -> run ag w (readData n) = (w', r) ->
  same w w' /\ w_sent w' = w_sent w /\
  match r with
  | Ok d => w_in w = d ++ w_in w' /\ zlen d <= n
  | Throw e => e <> XLib 2
  | AssertFail => True
  | _ => False
  end.
Proof.
  intros Hn. unfold readData. cbn [run]. unfold wstep. cbn [weffect]. destruct (next_io w) as (a, t).
  cbn [run w_pipe w_sent w_in w_io w_dup w_handles w_log]. intros H; injection H as <- <-.
  unfold same. cbn [w_pipe w_sent w_in w_io w_dup w_handles w_log]. splits; try reflexivity.
  - eexists; split; [reflexivity|repeat constructor].
  - pose proof (io_result_kind a) as K. destruct (io_result a) as [[]|e| | |]; cbn [bind]; auto.
    split; [now rewrite zfirstn_zskipn|]. rewrite zlen_zfirstn. lia.
Qed.

Lemma run_readAll ag fuel : forall w n w' r, run ag w (readAll fuel n) = (w', r) ->
  same w w' /\ w_sent w' = w_sent w /\
  match r with
  | Ok d => w_in w = d ++ w_in w' /\ zlen d = Z.max 0 n
  | Throw e => e <> XLib 2
  | UB => False
  | _ => True
  end.
Proof.
  induction fuel as [|fuel IH]; intros w n w' r; cbn [readAll]; (destruct (Z.ltb_spec 0 n) as [Hn|Hn]).
  - cbn [run]. intros H; injection H as <- <-. splits; auto; apply same_refl.
  - cbn [run]. intros H; injection H as <- <-. splits; auto; try apply same_refl. change (zlen (@nil Z)) with 0. lia.
  - rewrite run_tbind. destruct (run ag w (readData n)) as (w1, r1) eqn:E1.
    apply run_readData in E1; [|exact Hn]. destruct E1 as (S1 & T1 & R1).
    destruct r1 as [d|e| | |]; cbn [tcont run]; try (intros H; injection H as <- <-; splits; auto; fail); try contradiction.
    destruct R1 as (I1 & L1). replace (zlen d <=? n) with true by lia.
    rewrite run_tbind. destruct (run ag w1 (readAll fuel (n - zlen d))) as (w2, r2) eqn:E2.
    apply IH in E2. destruct E2 as (S2 & T2 & R2).
    destruct r2 as [d2|e| | |]; cbn [tcont run]; intros H; injection H as <- <-;
      (split; [eapply same_trans; eauto|split; [congruence|]]); auto.
    destruct R2 as (I2 & L2). rewrite I1, I2, <- app_assoc, zlen_app. split; [reflexivity|lia].
  - cbn [run]. intros H; injection H as <- <-. splits; auto; try apply same_refl. change (zlen (@nil Z)) with 0. lia.
Qed.

Lemma run_readPacket ag fuel pl w w' r : run ag w (readPacket fuel pl) = (w', r) ->
  same w w' /\ w_sent w' = w_sent w /\
  match r with
  | Ok payload => exists hdr, w_in w = hdr ++ payload ++ w_in w' /\ zlen hdr = 8 /\ le_value hdr = 8 + zlen payload
  | Throw e => e <> XLib 2
  | UB => False
  | _ => True
  end.
Proof.
  unfold readPacket. rewrite run_tbind. destruct (run ag w (readAll fuel 8)) as (w1, r1) eqn:E1.
  apply run_readAll in E1. destruct E1 as (S1 & T1 & R1).
  destruct r1 as [hdr|e| | |]; cbn [tcont run]; try (intros H; injection H as <- <-; splits; auto; fail); try contradiction.
  destruct R1 as (I1 & L1). destruct ((le_value hdr <? 8) || (p_size_max pl <? le_value hdr)) eqn:Ec.
  - cbn [run]. intros H; injection H as <- <-. splits; auto. discriminate.
  - destruct (p_alloc_limit pl <? le_value hdr - 8).
    + cbn [run]. intros H; injection H as <- <-. splits; auto. discriminate.
    + intros E2. apply run_readAll in E2. destruct E2 as (S2 & T2 & R2).
      split; [eapply same_trans; eauto|split; [congruence|]].
      destruct r as [d|e| | |]; auto. destruct R2 as (I2 & L2). exists hdr. rewrite I1, I2. splits; auto; lia.
Qed.

(** The packet a request becomes. *)
Lemma run_writePacket ag w rq w' r : run ag w (writePacket (buildRequest rq)) = (w', r) ->
  exists b, sendRequest rq = Ok b /\ same w w' /\
  (r = Ok tt -> w_sent w' = w_sent w ++ [b] /\ w_in w' = w_in w ++ ag (w_sent w ++ [b])) /\
  (w_sent w' = w_sent w \/ w_sent w' = w_sent w ++ [b]) /\
  (match r with Ok _ => True | Throw e => e <> XLib 2 | AssertFail => True | _ => False end).
Proof.
  rewrite sendRequest_eq. unfold writePacket. rewrite buildRequest_vals, finishPacket_ok.
  intros H. eexists. split; [reflexivity|]. now apply run_writeData.
Qed.

(** Stage one of every call: request out, reply in. *)
Definition exchange fuel pl rq : prog (res lexc (list Z)) :=
  tbind (writePacket (buildRequest rq)) (fun _ => readPacket fuel pl).

Lemma run_exchange ag fuel pl w rq w' r : run ag w (exchange fuel pl rq) = (w', r) ->
  same w w' /\
  exists b, sendRequest rq = Ok b /\ (w_sent w' = w_sent w \/ w_sent w' = w_sent w ++ [b]) /\
  match r with
  | Ok got => w_sent w' = w_sent w ++ [b] /\
      (plat_ok pl -> w_in w = [] -> forall payload, carries pl (ag (w_sent w ++ [b])) payload ->
         got = payload /\ w_in w' = [])
  | Throw e => e <> XLib 2
  | UB => False
  | _ => True
  end.
Proof.
  unfold exchange. rewrite run_tbind. destruct (run ag w (writePacket (buildRequest rq))) as (w1, r1) eqn:E1.
  apply run_writePacket in E1. destruct E1 as (b & Hb & S1 & Hok & Hs & K).
  destruct r1 as [[]|e| | |]; cbn [tcont run];
    try (intros H; injection H as <- <-; split; [exact S1|exists b; auto]; fail).
  destruct (Hok eq_refl) as (T1 & I1). intros E2. apply run_readPacket in E2. destruct E2 as (S2 & T2 & R2).
  split; [eapply same_trans; eauto|]. exists b. split; [exact Hb|]. split; [right; congruence|].
  destruct r as [got|e| | |]; auto. destruct R2 as (hdr & I2 & L2 & V2). split; [congruence|].
  intros ([Hm|Hm] & Hal) Hin payload (hdr' & Hc & Hle & Hs1 & Hs2 & Hby);
    rewrite Hin in I1; cbn [app] in I1; rewrite I1, Hc in I2;
    (assert (Hl : zlen hdr' = 8) by (destruct Hle as (Hl & _); unfold zlen; rewrite Hl; reflexivity));
    (apply (f_equal (fun l => (zfirstn 8 l, zskipn 8 l))) in I2;
     rewrite !zfirstn_app_exact, !zskipn_app_exact in I2 by lia; injection I2 as I2 I3; subst hdr');
    apply is_le_iff in Hle; rewrite Hle, le_value_bytes in V2; change (256 ^ Z.of_nat 8) with (2 ^ 64) in V2;
    pose proof (zlen_nonneg payload) as Hn; rewrite Z.mod_small in V2 by lia;
    apply (f_equal zlen) in I3 as I4; rewrite zlen_app in I4;
    (assert (Hnil : w_in w' = []) by (apply zlen_0_nil; lia)); rewrite Hnil, app_nil_r in I3; auto.
Qed.

(** *** The three bodies *)
Definition spawn_k pl rq (r : res lexc (list Z)) : prog (bool * (outs * res lexc unit)) :=
  let fail (r : res lexc unit) : prog (bool * (outs * res lexc unit)) := Ret (false, (no_outs, r)) in
  match r with
  | Ok payload =>
      match lift_exc (parseSpawnReply payload) with
      | Ok (RpSpawnFailed e) =>
          Ret (true, (mkOuts 0 0 e, Throw (XLib ERR_SPAWN_CREATE_PROCESS_FAILED)))
      | Ok (RpSpawned p t) =>
          pbind (steal (handleFromInt64 pl p)) (fun rp =>
          match rp with
          | Ok hp =>
              pbind (steal (handleFromInt64 pl t)) (fun rt =>
              match rt with
              | Ok ht =>
                  let op_ := if sr_want_process rq then hp else 0 in
                  let ot := if sr_want_thread rq then ht else 0 in
                  dtor (if sr_want_thread rq then 0 else ht)
                    (dtor (if sr_want_process rq then 0 else hp)
                       (Ret (true, (mkOuts op_ ot 0, Ok tt))))
              | Throw e => dtor hp (fail (Throw e))
              | _ => fail AssertFail
              end)
          | Throw e => fail (Throw e)
          | _ => fail AssertFail
          end)
      | Ok _ => fail AssertFail
      | Throw e => fail (Throw e)
      | AssertFail => fail AssertFail | UB => fail UB | OutOfFuel => fail OutOfFuel
      end
  | Throw e => fail (Throw e)
  | AssertFail => fail AssertFail | UB => fail UB | OutOfFuel => fail OutOfFuel
  end.

Lemma run_spawn_body ag fuel pl w rq :
  run ag w (spawn_body fuel pl rq) = let (w1, r) := run ag w (exchange fuel pl (RqStart rq)) in run ag w1 (spawn_k pl rq r).
Proof.
  unfold spawn_body, exchange. rewrite run_pbind, run_tbind.
  destruct (run ag w (writePacket (buildRequest (RqStart rq)))) as (w1, [[]|e| | |]); cbn [tcont run]; try reflexivity.
  rewrite run_pbind. destruct (run ag w1 (readPacket fuel pl)) as (w2, r2). reflexivity.
Qed.

Definition list_k cap (r : res lexc (list Z)) : list Z * res lexc Z :=
  match r with
  | Ok payload => let (ids, x) := process_list_reply cap payload in (ids, lift_exc x)
  | Throw e => ([], Throw e)
  | AssertFail => ([], AssertFail) | UB => ([], UB) | OutOfFuel => ([], OutOfFuel)
  end.
Lemma run_list_body ag fuel pl w cap :
  run ag w (process_list_body fuel pl cap) =
  let (w1, r) := run ag w (exchange fuel pl RqProcessList) in (w1, list_k cap r).
Proof.
  unfold process_list_body, exchange. rewrite run_pbind, run_tbind.
  destruct (run ag w (writePacket (buildRequest RqProcessList))) as (w1, [[]|e| | |]); cbn [tcont run]; try reflexivity.
  rewrite run_pbind. destruct (run ag w1 (readPacket fuel pl)) as (w2, [r2|e| | |]); cbn [run list_k]; try reflexivity.
  destruct (process_list_reply cap r2); reflexivity.
Qed.

Definition size_k (r : res lexc (list Z)) : res lexc Z :=
  let! payload := r in let! _ := lift_exc (parseSetSizeReply payload) in Ok 1.
Lemma run_size_body ag fuel pl w c r :
  run ag w (set_size_body fuel pl c r) =
  let (w1, x) := run ag w (exchange fuel pl (RqSetSize c r)) in (w1, size_k x).
Proof.
  unfold set_size_body, exchange. rewrite !run_tbind.
  destruct (run ag w (writePacket (buildRequest (RqSetSize c r)))) as (w1, [[]|e| | |]); cbn [tcont run]; try reflexivity.
  rewrite run_tbind. destruct (run ag w1 (readPacket fuel pl)) as (w2, [r2|e| | |]); reflexivity.
Qed.

(** *** Handles *)
Lemma remove_one_perm h l : In h l -> Permutation (h :: remove_one h l) l.
Proof.
  induction l as [|x l IH]; intros H; [destruct H|]. cbn [remove_one].
  destruct (Z.eqb_spec x h) as [->|Hn]; [reflexivity|]. destruct H as [H|H]; [contradiction|].
  rewrite perm_swap. now rewrite (IH H).
Qed.
Lemma slot_nz h : h <> 0 -> slot h = [h].
Proof. unfold slot. intros H. destruct (Z.eqb_spec h 0); [contradiction|reflexivity]. Qed.

Lemma duplicated_app a b : duplicated (a ++ b) = duplicated a ++ duplicated b.
Proof. unfold duplicated. apply flat_map_app. Qed.
Lemma duplicated_io l : Forall io_entry l -> duplicated l = [].
Proof.
  induction 1 as [|(o, a) l Hx _ IH]; [reflexivity|]. unfold duplicated in *. cbn [flat_map]. rewrite IH.
  destruct o; cbn [io_entry fst] in Hx; try contradiction; reflexivity.
Qed.

(** What handle operations leave alone. *)
Definition same_io (w w' : world) : Prop :=
  w_pipe w' = w_pipe w /\ w_sent w' = w_sent w /\ w_in w' = w_in w /\ w_io w' = w_io w.
Lemma same_io_refl w : same_io w w. Proof. now unfold same_io. Qed.
Lemma same_io_trans a b c : same_io a b -> same_io b c -> same_io a c.
Proof. unfold same_io. intros (H1 & H2 & H3 & H4) (H5 & H6 & H7 & H8). splits; congruence. Qed.

Lemma run_steal ag w h w' r : run ag w (steal h) = (w', r) -> dups_ok w ->
  same_io w w' /\ dups_ok w' /\ exists l, w_log w' = w_log w ++ l /\
  match r with
  | Ok d => w_handles w' = slot d ++ w_handles w /\ duplicated l = (if h =? 0 then [] else [(h, Some d)]) /\
            (h = 0 -> d = 0) /\ (h <> 0 -> d <> 0)
  | Throw e => e = XWinpty /\ w_handles w' = w_handles w
  | _ => False
  end.
Proof.
  unfold steal. intros H Hd. destruct (Z.eqb_spec h 0) as [->|Hn].
  - cbn [run] in H. injection H as <- <-. splits; try apply same_io_refl; auto.
    exists []. rewrite app_nil_r. splits; auto.
  - cbn [run] in H. unfold wstep in H. cbn [weffect] in H. unfold next_dup in H. unfold dups_ok in Hd.
    destruct (w_dup w) as [|a t] eqn:Ed.
    + cbn [run w_pipe w_sent w_in w_io w_dup w_handles w_log] in H. injection H as <- <-.
      unfold same_io, dups_ok. cbn [w_pipe w_sent w_in w_io w_dup w_handles w_log]. splits; auto.
      eexists. split; [reflexivity|]. auto.
    + inversion Hd as [|? ? Ha Ht]; subst.
      cbn [run w_pipe w_sent w_in w_io w_dup w_handles w_log] in H. injection H as <- <-.
      unfold same_io, dups_ok. cbn [w_pipe w_sent w_in w_io w_dup w_handles w_log]. splits; auto.
      eexists. split; [reflexivity|]. destruct a as [d|]; [|auto].
      assert (d <> 0) by congruence. rewrite slot_nz by assumption. splits; auto; contradiction.
Qed.

Lemma run_dtor {A} ag w h (k : prog A) :
  run ag w (dtor h k) =
  if h =? 0 then run ag w k
  else run ag (mkW (w_pipe w) (w_sent w) (w_in w) (w_io w) (w_dup w) (remove_one h (w_handles w))
                   (w_log w ++ [(OCloseHandle h, AUnit)])) k.
Proof. unfold dtor. destruct (h =? 0); reflexivity. Qed.

(** The possible ends of winpty_spawn's body. *)
Definition spawn_end pl rq (r : res lexc (list Z)) (w w' : world) (s : bool) (o : outs) (x : res lexc unit) : Prop :=
  (s = true /\ x = Ok tt /\ exists payload p t l dp dt,
     r = Ok payload /\ parseSpawnReply payload = Ok (RpSpawned p t) /\
     o = mkOuts (if sr_want_process rq then dp else 0) (if sr_want_thread rq then dt else 0) 0 /\
     Permutation (w_handles w') (slot (o_process o) ++ slot (o_thread o) ++ w_handles w) /\
     w_log w' = w_log w ++ l /\
     duplicated l = (if handleFromInt64 pl p =? 0 then [] else [(handleFromInt64 pl p, Some dp)]) ++
                    (if handleFromInt64 pl t =? 0 then [] else [(handleFromInt64 pl t, Some dt)]) /\
     (handleFromInt64 pl p = 0 -> dp = 0) /\ (handleFromInt64 pl p <> 0 -> dp <> 0) /\
     (handleFromInt64 pl t = 0 -> dt = 0) /\ (handleFromInt64 pl t <> 0 -> dt <> 0)) \/
  (s = true /\ x = Throw (XLib 2) /\ w' = w /\ exists payload e,
     r = Ok payload /\ parseSpawnReply payload = Ok (RpSpawnFailed e) /\ o = mkOuts 0 0 e) \/
  (s = false /\ o = no_outs /\ x <> Ok tt /\ x <> Throw (XLib 2) /\ Permutation (w_handles w') (w_handles w)).

Lemma run_spawn_k ag pl rq w r w' s o x : run ag w (spawn_k pl rq r) = (w', (s, (o, x))) -> dups_ok w ->
  r <> Throw (XLib 2) ->
  same_io w w' /\ dups_ok w' /\ spawn_end pl rq r w w' s o x.
Proof.
  intros H Hd Hr. unfold spawn_k in H.
  assert (Hfail : forall y : res lexc unit, (w, (false, (no_outs, y))) = (w', (s, (o, x))) -> y <> Ok tt -> y <> Throw (XLib 2) ->
            same_io w w' /\ dups_ok w' /\ spawn_end pl rq r w w' s o x).
  { intros y E H1 H2. injection E as <- <- <- <-. splits; [now apply same_io_refl|exact Hd|].
    right. right. splits; auto. }
  destruct r as [payload|e| | |]; cbn [run] in H; try (eapply Hfail; [exact H|discriminate|congruence]; fail).
  destruct (parseSpawnReply payload) as [rp|[]| | |] eqn:Ep; cbn [lift_exc] in H; cbn [run] in H;
    try (eapply Hfail; [exact H|discriminate|congruence]; fail).
  destruct rp as [e|p t| |pids|i o' e|n]; cbn [run] in H; try (eapply Hfail; [exact H|discriminate|congruence]; fail).
  - injection H as <- <- <- <-. splits; [apply same_io_refl|exact Hd|]. right. left. splits; auto. exists payload, e. auto.
  - rewrite run_pbind in H. destruct (run ag w (steal (handleFromInt64 pl p))) as (w1, r1) eqn:E1.
    destruct (run_steal _ _ _ _ _ E1 Hd) as (S1 & D1 & l1 & L1 & R1).
    destruct r1 as [dp|e| | |]; try contradiction; cbn [run] in H.
    + rewrite run_pbind in H. destruct (run ag w1 (steal (handleFromInt64 pl t))) as (w2, r2) eqn:E2.
      destruct (run_steal _ _ _ _ _ E2 D1) as (S2 & D2 & l2 & L2 & R2).
      destruct R1 as (H1 & U1 & Z1 & N1).
      destruct r2 as [dt|e| | |]; try contradiction.
      * destruct R2 as (H2 & U2 & Z2 & N2). rewrite run_dtor, !run_dtor in H. cbn [run] in H.
        assert (Hgoal : exists l3 hs,
           w' = mkW (w_pipe w2) (w_sent w2) (w_in w2) (w_io w2) (w_dup w2) hs (w_log w2 ++ l3) /\ duplicated l3 = [] /\
           s = true /\ x = Ok tt /\ o = mkOuts (if sr_want_process rq then dp else 0) (if sr_want_thread rq then dt else 0) 0 /\
           Permutation hs (slot (o_process o) ++ slot (o_thread o) ++ w_handles w)).
        { rewrite H1 in H2.
          destruct w2 as [pp2 se2 in2 io2 du2 ha2 lo2]. cbn [w_pipe w_sent w_in w_io w_dup w_handles w_log] in *.
          subst ha2. destruct (sr_want_thread rq), (sr_want_process rq); cbn [Z.eqb] in H.
          - injection H as <- <- <- <-. eexists [], _. rewrite app_nil_r. splits; try reflexivity.
            cbn [o_process o_thread]. rewrite !app_assoc. apply Permutation_app_tail, Permutation_app_comm.
          - destruct (Z.eqb_spec dp 0) as [->|Hn]; injection H as <- <- <- <-.
            + eexists [], _. rewrite app_nil_r. splits; try reflexivity.
            + eexists [_], _. splits; try reflexivity. cbn [o_process o_thread].
              rewrite (slot_nz dp) by exact Hn. change (slot 0) with (@nil Z). cbn [app].
              apply (Permutation_cons_inv (a := dp)). rewrite remove_one_perm; [|apply in_or_app; right; now left].
              now rewrite Permutation_middle.
          - destruct (Z.eqb_spec dt 0) as [Hz|Hn]; [subst dt|]; injection H as <- <- <- <-.
            + eexists [], _. rewrite app_nil_r. splits; try reflexivity.
            + eexists [_], _. splits; try reflexivity. cbn [o_process o_thread].
              rewrite (slot_nz dt) by exact Hn. change (slot 0) with (@nil Z). cbn [app remove_one].
              now rewrite Z.eqb_refl.
          - destruct (Z.eqb_spec dt 0) as [Hz|Hn]; [subst dt|]; (destruct (Z.eqb_spec dp 0) as [Hz2|Hn2]; [subst dp|]);
              injection H as <- <- <- <-; change (slot 0) with (@nil Z); rewrite ?slot_nz by assumption;
              cbn [app w_handles w_pipe w_sent w_in w_io w_dup w_log].
            + eexists [], _. rewrite app_nil_r. splits; try reflexivity.
            + eexists [_], _. splits; try reflexivity. cbn [o_process o_thread slot Z.eqb app remove_one].
              now rewrite Z.eqb_refl.
            + eexists [_], _. splits; try reflexivity. cbn [o_process o_thread slot Z.eqb app remove_one].
              now rewrite Z.eqb_refl.
            + eexists [_; _], _. rewrite <- app_assoc. splits; try reflexivity.
              cbn [o_process o_thread slot Z.eqb app remove_one].
              rewrite Z.eqb_refl. cbn [remove_one]. now rewrite Z.eqb_refl. }
        destruct Hgoal as (l3 & hs & -> & D3 & -> & -> & -> & Hperm).
        splits.
        -- eapply same_io_trans; [exact S1|]. eapply same_io_trans; [exact S2|].
           unfold same_io. cbn [w_pipe w_sent w_in w_io]. auto.
        -- exact D2.
        -- left. splits; auto. exists payload, p, t, ((l1 ++ l2) ++ l3), dp, dt. cbn [w_handles w_log]. splits; auto.
           ++ rewrite L2, L1. now rewrite !app_assoc.
           ++ rewrite !duplicated_app, U1, U2, D3. now rewrite app_nil_r.
      * destruct R2 as (-> & H2). rewrite run_dtor in H. cbn [run] in H.
        destruct (Z.eqb_spec dp 0) as [->|Hn]; injection H as <- <- <- <-.
        -- splits; [eapply same_io_trans; eauto|exact D2|]. right. right. splits; auto; try discriminate.
           rewrite H2, H1. reflexivity.
        -- splits; [|exact D2|].
           ++ eapply same_io_trans; [exact S1|]. eapply same_io_trans; [exact S2|].
              unfold same_io. cbn [w_pipe w_sent w_in w_io]. auto.
           ++ right. right. splits; auto; try discriminate. cbn [w_handles].
              rewrite H2, H1, slot_nz by exact Hn. cbn [app remove_one]. now rewrite Z.eqb_refl.
    + destruct R1 as (-> & H1). injection H as <- <- <- <-. splits; auto. right. right. splits; auto; try discriminate.
      rewrite H1. reflexivity.
Qed.

(** *** What accepted replies look like *)
Lemma spawn_reply_sound payload : bytes_ok payload ->
  match parseSpawnReply payload with
  | Ok (RpSpawnFailed e) => exists e', fields_on_wire [VInt32 0; VInt32 e'] payload /\ e = e' mod 2 ^ 32
  | Ok (RpSpawned p t) => fields_on_wire [VInt32 1; VInt64 p; VInt64 t] payload
  | Throw _ => True
  | _ => False
  end.
Proof.
  intros Hb. unfold parseSpawnReply. pose proof (at_start payload) as Hat.
  snd32 Hat Hb v rb1 Hr1 Hs1 Hat1 Hb1.
  destruct (Z.eqb_spec v 0) as [->|_]; [|destruct (Z.eqb_spec v 1) as [->|_]; [|exact I]].
  - snd32 Hat1 Hb1 e rb2 Hr2 Hs2 Hat2 Hb2. sndeof Hat2 Hnil.
    exists e. split; [|reflexivity]. apply fields_on_wire_iff. cbn [flat_map]. rewrite Hs1, Hs2, Hnil. reflexivity.
  - snd64 Hat1 Hb1 p rb2 Hr2 Hs2 Hat2 Hb2. snd64 Hat2 Hb2 t rb3 Hr3 Hs3 Hat3 Hb3. sndeof Hat3 Hnil.
    apply fields_on_wire_iff. cbn [flat_map]. rewrite Hs1, Hs2, Hs3, Hnil. reflexivity.
Qed.

Lemma store_ids_sound n : forall rb suf, at_ rb suf -> bytes_ok suf ->
  match store_ids rb n with
  | (ids, Ok rb') => length ids = n /\ Forall (fun i => - 2 ^ 31 <= i < 2 ^ 31) ids /\
      exists suf', suf = flat_map wire (map VInt32 ids) ++ suf' /\ at_ rb' suf' /\ bytes_ok suf'
  | (ids, Throw EDecode) => (length ids < n)%nat
  | _ => False
  end.
Proof.
  induction n as [|n IH]; intros rb suf Hat Hb; cbn [store_ids].
  - splits; auto. exists suf. auto.
  - pose proof (getInt32_sound rb suf Hat Hb) as H.
    destruct (getInt32 rb) as [[v rb1]|[]| | |]; try contradiction; [|cbn [length]; lia].
    destruct H as (Hr & suf1 & Hs & Hat1 & Hb1). specialize (IH rb1 suf1 Hat1 Hb1).
    destruct (store_ids rb1 n) as (l, [rb2|[]| | |]); try contradiction.
    + destruct IH as (Hl & Hf & suf2 & Hs2 & Hat2 & Hb2). splits; [cbn [length]; lia|now constructor|].
      exists suf2. cbn [map flat_map]. rewrite Hs, Hs2, <- app_assoc. auto.
    + cbn [length]. lia.
Qed.

Lemma process_list_reply_sound cap payload : bytes_ok payload ->
  match process_list_reply cap payload with
  | (ids, Ok n) => fields_on_wire (VInt32 n :: map VInt32 ids) payload /\
                   (zlen ids = Z.max 0 n \/ (cap < n /\ ids = []))
  | (_, Throw EDecode) => True
  | _ => False
  end.
Proof.
  intros Hb. unfold process_list_reply. pose proof (at_start payload) as Hat.
  pose proof (getInt32_sound _ _ Hat Hb) as H.
  destruct (getInt32 (mkReadBuffer payload)) as [[n rb1]|[]| | |]; try contradiction; [|exact I].
  destruct H as (Hr & suf1 & Hs & Hat1 & Hb1). destruct (Z.leb_spec n cap) as [Hc|Hc].
  - pose proof (store_ids_sound (Z.to_nat n) rb1 suf1 Hat1 Hb1) as H.
    destruct (store_ids rb1 (Z.to_nat n)) as (ids, [rb2|[]| | |]); try contradiction; cbn [bind]; [|exact I].
    destruct H as (Hl & Hf & suf2 & Hs2 & Hat2 & Hb2). sndeof Hat2 Hnil. split.
    + apply fields_on_wire_iff. cbn [flat_map]. rewrite Hs, Hs2, Hnil, app_nil_r. reflexivity.
    + left. unfold zlen. lia.
  - cbn [bind]. sndeof Hat1 Hnil. split; [|right; auto].
    apply fields_on_wire_iff. cbn [flat_map map]. rewrite Hs, Hnil. reflexivity.
Qed.

Lemma set_size_reply_sound payload rp : parseSetSizeReply payload = Ok rp -> payload = [].
Proof.
  unfold parseSetSizeReply. intros H. destruct (assertEof_at _ _ (at_start payload)) as [(Hn & _)|(_ & E)]; [exact Hn|].
  rewrite E in H. discriminate.
Qed.
Lemma set_size_reply_total payload :
  match parseSetSizeReply payload with Ok _ | Throw EDecode => True | _ => False end.
Proof.
  unfold parseSetSizeReply. destruct (assertEof_at _ _ (at_start payload)) as [(_ & E)|(_ & E)]; rewrite E; exact I.
Qed.

(** *** A call *)
Definition logged (w : world) : world :=
  mkW (w_pipe w) (w_sent w) (w_in w) (w_io w) (w_dup w) (w_handles w) (w_log w ++ [(OIsOpen, ABool (w_pipe w))]).
Definition closed (w : world) : world :=
  mkW false (w_sent w) (w_in w) (w_io w) (w_dup w) (w_handles w) (w_log w ++ [(OClosePipe, AUnit)]).

Lemma docall_closed ag fuel pl w c : w_pipe w = false -> docall ag fuel pl w c = (logged w, closed_res).
Proof.
  intros H. unfold docall, section, with_rpc. cbn [run]. unfold wstep. cbn [weffect]. unfold logged.
  rewrite H. reflexivity.
Qed.

(** An open call: the exchange, then what the call makes of it. *)
Definition call_k pl (c : call) (w : world) (r : res lexc (list Z)) (ag : list (list Z) -> list Z) : world * (bool * cres) :=
  match c with
  | CSpawn rq => let '(w', (s, (o, x))) := run ag w (spawn_k pl rq r) in (w', (s, mkR o [] (let! _ := x in Ok 1)))
  | CSetSize _ _ => let x := size_k r in (w, (succeeded x, mkR no_outs [] x))
  | CProcessList cap => let (l, x) := list_k cap r in (w, (succeeded x, mkR no_outs l x))
  end.

Lemma docall_open ag fuel pl w c : w_pipe w = true ->
  docall ag fuel pl w c =
  let (w1, r) := run ag (logged w) (exchange fuel pl (request_of c)) in
  let '(w2, (s, res)) := call_k pl c w1 r ag in
  if s || fatal_res (r_ret res) then (w2, res) else (closed w2, res).
Proof.
  intros H. unfold docall, section, with_rpc. cbn [run]. unfold wstep at 1. cbn [weffect]. rewrite H.
  replace (mkW _ _ _ _ _ _ _) with (logged w) by (unfold logged; now rewrite H).
  rewrite run_pbind. destruct c as [rq|c r|cap]; cbn [request_of call_k].
  - rewrite run_pbind, run_spawn_body. destruct (run ag (logged w) (exchange fuel pl (RqStart rq))) as (w1, x).
    destruct (run ag w1 (spawn_k pl rq x)) as (w2, (s, (o, y))). cbn [run].
    destruct (s || _); reflexivity.
  - rewrite run_pbind, run_size_body. destruct (run ag (logged w) (exchange fuel pl (RqSetSize c r))) as (w1, x).
    cbn [run]. destruct (_ || _); reflexivity.
  - rewrite run_pbind, run_list_body. destruct (run ag (logged w) (exchange fuel pl RqProcessList)) as (w1, x).
    destruct (list_k cap x) as (l, y). cbn [run]. destruct (_ || _); reflexivity.
Qed.

(** Success was reported exactly by usable results. *)
Lemma call_k_end pl c w r ag w' s res : call_k pl c w r ag = (w', (s, res)) -> dups_ok w -> r <> Throw (XLib 2) ->
  same_io w w' /\ dups_ok w' /\ (s = true <-> usable res) /\ (fatal_res (r_ret res) = true <-> dead res).
Proof.
  intros H Hd Hr. assert (Hf : fatal_res (r_ret res) = true <-> dead res).
  { unfold dead, fatal_res. destruct (r_ret res); split; intros; auto; try discriminate; contradiction. }
  assert (Hx : forall x : Base.res lexc Z, x <> Throw (XLib 2) -> (succeeded x = true <-> usable (mkR no_outs [] x))).
  { intros [z|[|[|[[]|[]|]|]| | |]| | |] Hn; unfold usable, succeeded; cbn [r_ret]; split; intros; auto; try discriminate; try contradiction. }
  destruct c as [rq|c rw|cap]; cbn [call_k] in H.
  - destruct (run ag w (spawn_k pl rq r)) as (w2, (s2, (o, x))) eqn:E. injection H as <- <- <-.
    destruct (run_spawn_k _ _ _ _ _ _ _ _ _ E Hd Hr) as (S2 & D2 & End). splits; auto; try apply Hf.
    unfold usable. cbn [r_ret]. destruct End as [(-> & -> & _)|[(-> & -> & _)|(-> & -> & N1 & N2 & _)]]; cbn [bind].
    + now auto.
    + now auto.
    + destruct x as [[]|[|[|[[]|[]|]|]| | |]| | |]; cbn [bind]; split; intros; auto; try discriminate; try contradiction.
  - injection H as <- <- <-.
    assert (Hk : size_k r <> Throw (XLib 2)).
    { intros Hk. unfold size_k in Hk; destruct r as [p|e| | |]; cbn [bind] in Hk; try discriminate; try congruence.
      pose proof (set_size_reply_total p) as Ht; destruct (parseSetSizeReply p) as [rp|[]| | |]; cbn [lift_exc bind] in Hk; try contradiction; discriminate. }
    splits; auto; try apply same_io_refl; try apply Hf; now apply Hx.
  - destruct (list_k cap r) as (l, x) eqn:El. injection H as <- <- <-.
    assert (Hk : x <> Throw (XLib 2)).
    { intros ->. unfold list_k in El. destruct r as [p|e| | |]; try congruence.
      destruct (process_list_reply cap p) as (ids, [n|[]| | |]); cbn [lift_exc] in El; congruence. }
    splits; auto; try apply same_io_refl; try apply Hf; now apply Hx.
Qed.

(** An understood reply. *)
Lemma call_k_answers pl c w r ag w' s res : call_k pl c w r ag = (w', (s, res)) -> dups_ok w -> r <> Throw (XLib 2) ->
  usable res -> exists payload, r = Ok payload /\ (bytes_ok payload -> answers c payload res).
Proof.
  intros H Hd Hr Hu. destruct c as [rq|c rw|cap]; cbn [call_k] in H.
  - destruct (run ag w (spawn_k pl rq r)) as (w2, (s2, (o, x))) eqn:E. injection H as <- <- <-.
    destruct (run_spawn_k _ _ _ _ _ _ _ _ _ E Hd Hr) as (_ & _ & End). unfold usable in Hu. cbn [r_ret] in Hu.
    destruct End as [(-> & -> & payload & p & t & l & dp & dt & -> & Ep & _)|[(-> & -> & _ & payload & e & -> & Ep & ->)|(-> & -> & N1 & N2 & _)]].
    + exists payload. split; [reflexivity|]. intros Hb. pose proof (spawn_reply_sound payload Hb) as Hs. rewrite Ep in Hs.
      cbn [answers r_ret bind]. right. exists p, t. auto.
    + exists payload. split; [reflexivity|]. intros Hb. pose proof (spawn_reply_sound payload Hb) as Hs. rewrite Ep in Hs.
      destruct Hs as (e' & Hw & ->). cbn [answers r_ret r_outs bind]. left. exists e'. auto.
    + exfalso. destruct x as [[]|[|[|[[]|[]|]|]| | |]| | |]; cbn [bind] in Hu; try contradiction; now apply N1 || now apply N2.
  - injection H as <- <- <-. unfold usable in Hu. cbn [r_ret] in Hu. unfold size_k in *.
    destruct r as [p|[|[|[[]|[]|]|]| | |]| | |]; cbn [bind] in Hu; try contradiction.
    exists p. split; [reflexivity|]. intros _. cbn [answers r_ret bind].
    pose proof (set_size_reply_total p) as Ht. pose proof (set_size_reply_sound p) as Hs.
    destruct (parseSetSizeReply p) as [rp|[]| | |]; cbn [lift_exc bind] in Hu |- *; try contradiction.
    split; [now apply (Hs rp)|reflexivity].
  - destruct (list_k cap r) as (l, x) eqn:El. injection H as <- <- <-. unfold usable in Hu. cbn [r_ret] in Hu.
    unfold list_k in El. destruct r as [p|e| | |]; try (injection El as <- <-; contradiction).
    + exists p. split; [reflexivity|]. intros Hb. pose proof (process_list_reply_sound cap p Hb) as Hs.
      destruct (process_list_reply cap p) as (ids, [n|[]| | |]); cbn [lift_exc] in El; injection El as <- <-; try contradiction.
      cbn [answers r_ret r_ids]. exists n, ids. destruct Hs. auto.
    + injection El as <- <-. exfalso. destruct e as [|[|[[]|[]|]|]| | |]; try contradiction.
Qed.

(** ** C26 *)
Lemma docall_open_cases ag fuel pl w c w' r : docall ag fuel pl w c = (w', r) -> w_pipe w = true -> dups_ok w ->
  exists b, sendRequest (request_of c) = Ok b /\
  (w_sent w' = w_sent w \/ w_sent w' = w_sent w ++ [b]) /\ dups_ok w' /\
  (dead r \/
   (~ dead r /\ usable r /\ w_pipe w' = true /\ w_sent w' = w_sent w ++ [b] /\
    exists got, (bytes_ok got -> answers c got r) /\
      (plat_ok pl -> w_in w = [] -> forall payload, carries pl (ag (w_sent w ++ [b])) payload -> got = payload /\ w_in w' = [])) \/
   (~ dead r /\ ~ usable r /\ w_pipe w' = false)).
Proof.
  intros H Hp Hd. rewrite docall_open in H by exact Hp.
  destruct (run ag (logged w) (exchange fuel pl (request_of c))) as (w1, x) eqn:E1.
  apply run_exchange in E1. destruct E1 as ((P1 & H1 & D1 & _) & b & Hb & Hs & K).
  destruct (call_k pl c w1 x ag) as (w2, (s, res)) eqn:E2.
  assert (Hd1 : dups_ok w1) by (unfold dups_ok; rewrite D1; exact Hd).
  assert (Hx : x <> Throw (XLib 2)) by (intros ->; now apply K).
  destruct (call_k_end _ _ _ _ _ _ _ _ E2 Hd1 Hx) as ((Pp & Ps & Pi & _) & D2 & Hu & Hf).
  pose proof (call_k_answers _ _ _ _ _ _ _ _ E2 Hd1 Hx) as Ha.
  change (w_sent (logged w)) with (w_sent w) in *. change (w_in (logged w)) with (w_in w) in *.
  change (w_pipe (logged w)) with (w_pipe w) in *.
  exists b. split; [exact Hb|].
  destruct s; cbn [orb] in H.
  - injection H as <- <-. rewrite Ps. splits; auto. right. left.
    assert (Hus : usable res) by (apply Hu; reflexivity).
    assert (Hnd : ~ dead res).
    { unfold usable, dead in *. destruct (r_ret res); auto. }
    destruct (Ha Hus) as (got & -> & Hans). destruct K as (K1 & K2). splits; auto; try congruence.
    exists got. split; [exact Hans|]. rewrite Pi. exact K2.
  - assert (Hnu : ~ usable res) by (intros Hc; apply Hu in Hc; discriminate).
    destruct (fatal_res (r_ret res)) eqn:Ef.
    + injection H as <- <-. rewrite Ps. splits; auto. left. now apply Hf.
    + injection H as <- <-. change (w_sent (closed w2)) with (w_sent w2). rewrite Ps. splits; auto.
      right. right. splits; auto. intros Hc. apply Hf in Hc. discriminate.
Qed.

Lemma calls_closed ag fuel pl cs : forall w w' rs, calls ag fuel pl w cs = (w', rs) -> w_pipe w = false ->
  rs = map (fun _ => closed_res) cs /\ w_sent w' = w_sent w /\ w_in w' = w_in w /\ w_io w' = w_io w /\
  w_pipe w' = false /\ w_handles w' = w_handles w.
Proof.
  induction cs as [|c cs IH]; intros w w' rs H Hp; cbn [calls] in H.
  - injection H as <- <-. splits; auto.
  - rewrite docall_closed in H by exact Hp. destruct (calls ag fuel pl (logged w) cs) as (w2, rs2) eqn:E.
    injection H as <- <-. destruct (IH _ _ _ E Hp) as (-> & R). auto.
Qed.

Lemma calls_in_step ag fuel pl cs : forall w w' rs, plat_ok pl -> one_reply_each pl ag -> dups_ok w ->
  w_pipe w = true -> w_in w = [] -> calls ag fuel pl w cs = (w', rs) ->
  in_step pl ag (w_sent w) cs rs (w_sent w').
Proof.
  induction cs as [|c cs IH]; intros w w' rs Hpl Hag Hd Hp Hin H; cbn [calls] in H.
  - injection H as <- <-. constructor.
  - destruct (docall ag fuel pl w c) as (w1, r) eqn:E1. destruct (calls ag fuel pl w1 cs) as (w2, rs2) eqn:E2.
    injection H as <- <-.
    destruct (docall_open_cases _ _ _ _ _ _ _ E1 Hp Hd) as (b & Hb & Hs & D1 & [Hdead|[(_ & Hu & Hp1 & Hs1 & got & Ha & Hg)|(Hnd & Hnu & Hp1)]]).
    + now apply is_dead.
    + destruct (Hag (w_sent w ++ [b])) as (payload & Hc). destruct (Hg Hpl Hin payload Hc) as (-> & Hin1).
      apply (is_ok pl ag _ c cs r rs2 b payload); auto.
      * apply Ha. destruct Hc as (? & _ & _ & _ & _ & Hby). exact Hby.
      * rewrite <- Hs1. now apply IH.
    + destruct (calls_closed _ _ _ _ _ _ _ E2 Hp1) as (-> & Hs2 & _). apply is_broken; auto.
      rewrite Hs2. destruct Hs as [Hs|Hs]; [now left|right; eauto].
Qed.

(** For any agent, however malicious. *)
Lemma poison ag fuel pl w c w' r : docall ag fuel pl w c = (w', r) -> w_pipe w = true -> dups_ok w -> ~ dead r ->
  (usable r -> w_pipe w' = true) /\
  (~ usable r -> forall cs w2 rs, calls ag fuel pl w' cs = (w2, rs) ->
     rs = map (fun _ => closed_res) cs /\ w_sent w2 = w_sent w' /\ w_io w2 = w_io w').
Proof.
  intros H Hp Hd Hnd. destruct (docall_open_cases _ _ _ _ _ _ _ H Hp Hd) as (b & Hb & Hs & D1 & Hc).
  destruct Hc as [Hc|[(_ & Hu & Hp1 & _)|(_ & Hnu & Hp1)]]; [contradiction| |].
  - split; [auto|contradiction].
  - split; [contradiction|]. intros _ cs w2 rs E. destruct (calls_closed _ _ _ _ _ _ _ E Hp1) as (A & B & _ & C & _). auto.
Qed.

(** ** C27 *)
Lemma spawn_outputs ag fuel pl w rq w' r : docall ag fuel pl w (CSpawn rq) = (w', r) -> dups_ok w -> ~ dead r ->
  let o := r_outs r in
  match r_ret r with
  | Ok v => v = 1 /\ o_error o = 0 /\
            (sr_want_process rq = false -> o_process o = 0) /\ (sr_want_thread rq = false -> o_thread o = 0) /\
            Permutation (w_handles w') (slot (o_process o) ++ slot (o_thread o) ++ w_handles w)
  | Throw e => o_process o = 0 /\ o_thread o = 0 /\ Permutation (w_handles w') (w_handles w) /\
               (o_error o <> 0 -> e = XLib ERR_SPAWN_CREATE_PROCESS_FAILED)
  | _ => False
  end.
Proof.
  intros H Hd Hnd. cbv zeta. destruct (w_pipe w) eqn:Hp.
  2:{ rewrite docall_closed in H by exact Hp. injection H as <- <-. cbn. splits; auto. intros X; now destruct X. }
  rewrite docall_open in H by exact Hp. cbn [request_of] in H.
  destruct (run ag (logged w) (exchange fuel pl (RqStart rq))) as (w1, x) eqn:E1.
  apply run_exchange in E1. destruct E1 as ((P1 & H1 & D1 & _) & b & Hb & Hs & K).
  cbn [call_k] in H. destruct (run ag w1 (spawn_k pl rq x)) as (w2, (s, (o, y))) eqn:E2.
  assert (Hd1 : dups_ok w1) by (unfold dups_ok; rewrite D1; exact Hd).
  assert (Hx : x <> Throw (XLib 2)) by (intros ->; now apply K).
  change (w_handles (logged w)) with (w_handles w) in *.
  destruct (run_spawn_k _ _ _ _ _ _ _ _ _ E2 Hd1 Hx) as (_ & _ & [End|[End|End]]).
  - destruct End as (-> & -> & payload & p & t & l & dp & dt & _ & _ & -> & Hperm & _). cbn [orb bind] in H.
    injection H as <- <-. cbn [r_ret r_outs o_process o_thread o_error] in *. rewrite H1 in Hperm. splits; auto.
    + now intros ->.
    + now intros ->.
  - destruct End as (-> & -> & -> & payload & e & _ & _ & ->). cbn [orb bind] in H. injection H as <- <-.
    cbn [r_ret r_outs o_process o_thread o_error]. splits; auto. now rewrite H1.
  - destruct End as (-> & -> & N1 & N2 & Hperm). cbn [orb r_ret] in H.
    destruct y as [[]|e| | |]; cbn [bind fatal_res] in H; [now destruct N1| |injection H as <- <-; now destruct Hnd; exact I..].
    injection H as <- <-. cbn [r_ret r_outs o_process o_thread o_error no_outs bind].
    splits; auto; [|intros X; now destruct X].
    change (w_handles (closed w2)) with (w_handles w2). now rewrite Hperm, H1.
Qed.

Lemma handle_ok_id pl h : plat_ok pl -> handle_ok pl h -> handleFromInt64 pl (s64 h) = h /\ handleFromInt64 pl h = h /\ - 2 ^ 63 <= h < 2 ^ 63.
Proof.
  intros Hpl (_ & H). unfold handleFromInt64. destruct (p_size_max pl =? 2 ^ 32 - 1).
  - rewrite (s64_id h) by lia. rewrite s32_id by lia. splits; auto; lia.
  - rewrite (s64_id h) by lia. splits; auto; try lia; apply s64_id; lia.
Qed.

Lemma carried_by pl rp bs : plat_ok pl -> receivable pl rp -> sendReply rp = Ok bs ->
  carries pl bs (flat_map wire (reply_vals rp)).
Proof.
  intros Hpl Hr H. destruct (Hr bs H) as (Hm & Ha). rewrite sendReply_eq in H.
  assert (E : bs = le_bytes 8 (8 + zlen (flat_map wire (reply_vals rp))) ++ flat_map wire (reply_vals rp)) by congruence.
  exists (le_bytes 8 (8 + zlen (flat_map wire (reply_vals rp)))).
  rewrite E, zlen_app, zlen_le_bytes in Hm, Ha. change (Z.of_nat 8) with 8 in *.
  splits; auto; try lia; [now apply is_le_iff|].
  clear. induction (reply_vals rp) as [|v vs IH]; [constructor|]. cbn [flat_map]. apply Forall_app. split; [|exact IH].
  destruct v as [i|i|s]; cbn [wire]; constructor; try lia; try apply le_bytes_byte.
  apply Forall_app. split; [apply le_bytes_byte|].
  induction s as [|u s IHs]; cbn [flat_map]; [constructor|]. apply Forall_app. split; [apply le_bytes_byte|exact IHs].
Qed.

(** The reply the exchange hands over. *)
Lemma exchange_payload ag fuel pl w c w1 x rp : run ag (logged w) (exchange fuel pl (request_of c)) = (w1, x) ->
  plat_ok pl -> w_in w = [] -> agent_replies ag w c rp -> receivable pl rp ->
  match x with Ok got => got = flat_map wire (reply_vals rp) | Throw e => e <> XLib 2 | _ => True end.
Proof.
  intros E Hpl Hin Hag Hrc. apply run_exchange in E. destruct E as (_ & b & Hb & _ & K).
  destruct x as [got|e| | |]; auto. destruct K as (_ & K).
  apply (K Hpl Hin). change (w_sent (logged w)) with (w_sent w). apply carried_by; auto.
Qed.

Lemma spawn_honest ag fuel pl w rq w' r created :
  docall ag fuel pl w (CSpawn rq) = (w', r) -> dups_ok w -> plat_ok pl -> w_pipe w = true -> w_in w = [] ->
  agent_replies ag w (CSpawn rq) (spawn_reply rq created) -> receivable pl (spawn_reply rq created) ->
  match created with
  | inl (hp, ht) => handle_ok pl hp /\ handle_ok pl ht
  | inr e => 0 <= e < 2 ^ 32
  end ->
  (forall v, r_ret r = Ok v -> exists hp ht l, created = inl (hp, ht) /\ w_log w' = w_log w ++ l /\
     duplicated l = (if sr_want_process rq then [(hp, Some (o_process (r_outs r)))] else []) ++
                    (if sr_want_thread rq then [(ht, Some (o_thread (r_outs r)))] else []) /\
     (sr_want_process rq = true -> o_process (r_outs r) <> 0) /\
     (sr_want_thread rq = true -> o_thread (r_outs r) <> 0)) /\
  (r_ret r = Throw (XLib ERR_SPAWN_CREATE_PROCESS_FAILED) -> exists e, created = inr e /\ r_outs r = mkOuts 0 0 e).
Proof.
  intros H Hd Hpl Hp Hin Hag Hrc Hcr. rewrite docall_open in H by exact Hp.
  destruct (run ag (logged w) (exchange fuel pl (request_of (CSpawn rq)))) as (w1, x) eqn:E1.
  pose proof (exchange_payload _ _ _ _ _ _ _ _ E1 Hpl Hin Hag Hrc) as Hgot.
  apply run_exchange in E1. destruct E1 as ((P1 & H1 & D1 & l0 & L0 & F0) & b & Hb & Hs & K).
  cbn [call_k] in H. destruct (run ag w1 (spawn_k pl rq x)) as (w2, (s, (o, y))) eqn:E2.
  assert (Hd1 : dups_ok w1) by (unfold dups_ok; rewrite D1; exact Hd).
  assert (Hx : x <> Throw (XLib 2)) by (intros ->; now apply Hgot).
  destruct (run_spawn_k _ _ _ _ _ _ _ _ _ E2 Hd1 Hx) as (_ & _ & [End|[End|End]]).
  - destruct End as (-> & -> & payload & p & t & l & dp & dt & -> & Ep & -> & Hperm & Hl & Hdup & Zp & Np & Zt & Nt).
    cbn [orb bind] in H. injection H as <- <-. cbn [r_ret r_outs o_process o_thread o_error]. split; [|discriminate].
    intros v _. subst payload. destruct created as [(hp, ht)|e]; cbn [spawn_reply] in Ep.
    2:{ rewrite spawnFailed_roundtrip in Ep by exact Hcr. discriminate. }
    destruct Hcr as (Ha & Hb').
    destruct (handle_ok_id pl hp Hpl Ha) as (_ & Ip & Rp). destruct (handle_ok_id pl ht Hpl Hb') as (_ & It & Rt).
    rewrite spawned_roundtrip in Ep by (destruct (sr_want_process rq), (sr_want_thread rq); lia).
    injection Ep as Ep Et.
    assert (I0 : handleFromInt64 pl 0 = 0) by (unfold handleFromInt64; destruct (p_size_max pl =? 2 ^ 32 - 1); reflexivity).
    exists hp, ht, ([(OIsOpen, ABool (w_pipe w))] ++ l0 ++ l). splits; auto.
    + rewrite Hl, L0. unfold logged. cbn [w_log]. now rewrite <- !app_assoc.
    + rewrite duplicated_app, duplicated_app, (duplicated_io l0 F0), Hdup. cbn [duplicated flat_map app].
      destruct Ha as (Hhp & _), Hb' as (Hht & _). subst p t.
      f_equal.
      * destruct (sr_want_process rq); [|rewrite I0; reflexivity]. rewrite Ip. destruct (Z.eqb_spec hp 0); [contradiction|reflexivity].
      * destruct (sr_want_thread rq); [|rewrite I0; reflexivity]. rewrite It. destruct (Z.eqb_spec ht 0); [contradiction|reflexivity].
    + intros Hw. rewrite Hw in *. apply Np. rewrite <- Ep, Ip. apply Ha.
    + intros Hw. rewrite Hw in *. apply Nt. rewrite <- Et, It. apply Hb'.
  - destruct End as (-> & -> & -> & payload & e & -> & Ep & ->). cbn [orb bind] in H. injection H as <- <-.
    cbn [r_ret r_outs]. split; [discriminate|]. intros _. subst payload. destruct created as [(hp, ht)|e']; cbn [spawn_reply] in Ep.
    + exfalso. destruct Hcr as (Ha & Hb'). destruct (handle_ok_id pl hp Hpl Ha) as (_ & Ip & Rp).
      destruct (handle_ok_id pl ht Hpl Hb') as (_ & It & Rt).
      rewrite spawned_roundtrip in Ep by (destruct (sr_want_process rq), (sr_want_thread rq); lia). discriminate.
    + rewrite spawnFailed_roundtrip in Ep by exact Hcr. injection Ep as ->. eauto.
  - destruct End as (-> & -> & N1 & N2 & Hperm). cbn [orb r_ret] in H.
    assert (Hr : r_ret r = let! _ := y in Ok 1) by (destruct (fatal_res _); injection H as _ <-; reflexivity).
    rewrite Hr. split.
    + intros v Hv. apply bind_Ok in Hv. destruct Hv as ([] & Hv & _). now destruct N1.
    + intros Hv. exfalso. destruct y as [[]|e| | |]; cbn [bind] in Hv; try discriminate. apply N2. now injection Hv as ->.
Qed.

(** ** Healthy connections *)
Lemma readAll_ok ag fuel : forall w n, 
  Forall (fun a => io_result a = Ok tt /\ 1 <= moved a) (w_io w) ->
  0 <= n <= zlen (w_in w) -> n <= zlen (w_io w) -> n <= Z.of_nat fuel ->
  exists w' d, run ag w (readAll fuel n) = (w', Ok d) /\
    Forall (fun a => io_result a = Ok tt /\ 1 <= moved a) (w_io w') /\ zlen (w_io w) - n <= zlen (w_io w').
Proof.
  induction fuel as [|fuel IH]; intros w n Hf Hn Hio Hfu; cbn [readAll]; (destruct (Z.ltb_spec 0 n) as [Hl|Hl]).
  - lia.
  - cbn [run]. do 2 eexists. splits; [reflexivity|exact Hf|lia].
  - rewrite run_tbind. unfold readData. cbn [run]. unfold wstep. cbn [weffect]. unfold next_io.
    destruct (w_io w) as [|a t] eqn:Ea; [change (zlen (@nil ioans)) with 0 in Hio; lia|].
    inversion Hf as [|? ? (Ha & Hm) Ht]; subst.
    cbn [run w_pipe w_sent w_in w_io w_dup w_handles w_log]. rewrite Ha. cbn [bind tcont].
    set (k := Z.max 0 (Z.min (moved a) (Z.min n (zlen (w_in w))))).
    assert (Hk : 1 <= k <= n) by (unfold k; lia). clearbody k.
    rewrite zlen_zfirstn. replace (Z.min (Z.max 0 k) (zlen (w_in w))) with k by lia.
    replace (k <=? n) with true by lia. rewrite run_tbind. rewrite zlen_cons in Hio.
    match goal with |- context [run ag ?w1 (readAll fuel (n - k))] =>
      destruct (IH w1 (n - k)) as (w' & d & E & Hf' & Hl') end.
    + exact Ht.
    + cbn [w_in]. rewrite zlen_zskipn. lia.
    + cbn [w_io]. lia.
    + lia.
    + rewrite E. cbn [tcont run]. do 2 eexists. splits; [reflexivity|exact Hf'|]. cbn [w_io] in Hl'. rewrite zlen_cons. lia.
  - cbn [run]. do 2 eexists. splits; [reflexivity|exact Hf|lia].
Qed.

Lemma exchange_ok ag fuel pl w c rp : plat_ok pl -> w_in w = [] -> agent_replies ag w c rp -> receivable pl rp ->
  healthy fuel w c rp ->
  exists w', run ag (logged w) (exchange fuel pl (request_of c)) = (w', Ok (flat_map wire (reply_vals rp))).
Proof.
  intros Hpl Hin Hag Hrc (b & bs & reads & Hb & Hbs & Hio & Hf & Hlr & Hfu).
  pose proof (Hag b Hb) as Hag'. assert (Eag : ag (w_sent w ++ [b]) = bs) by congruence.
  destruct (Hrc bs Hbs) as (Hm & Ha). pose proof Hbs as Hbs'. rewrite sendReply_eq in Hbs'.
  set (pay := flat_map wire (reply_vals rp)) in *.
  assert (Ebs : bs = le_bytes 8 (8 + zlen pay) ++ pay) by congruence. clear Hbs'.
  assert (Hlb : zlen bs = 8 + zlen pay) by (rewrite Ebs, zlen_app, zlen_le_bytes; reflexivity).
  pose proof (zlen_nonneg pay) as Hp0.
  assert (Hx : exists w' got, run ag (logged w) (exchange fuel pl (request_of c)) = (w', Ok got)).
  { unfold exchange. rewrite run_tbind. unfold writePacket. rewrite sendRequest_eq in Hb. rewrite buildRequest_vals, finishPacket_ok.
    assert (Eb : le_bytes 8 (8 + zlen (flat_map wire (request_vals (request_of c)))) ++ flat_map wire (request_vals (request_of c)) = b) by congruence.
    rewrite Eb. unfold writeData. cbn [run]. unfold wstep. cbn [weffect]. unfold next_io, logged.
    cbn [w_io]. rewrite Hio. cbn [moved]. rewrite Z.eqb_refl.
    cbn [run w_pipe w_sent w_in w_io w_dup w_handles w_log]. unfold io_result. cbn [handlePendingIo bind handleReadWriteErrors fst].
    cbn [moved]. rewrite Z.eqb_refl. cbn [assert_ tcont]. rewrite Hin. cbn [app]. rewrite Eag.
    match goal with |- context [run ag ?ww (readPacket fuel pl)] => set (w1 := ww) end.
    unfold readPacket. rewrite run_tbind.
    destruct (readAll_ok ag fuel w1 8) as (w2 & hdr & E2 & Hf2 & Hl2).
    { exact Hf. } { unfold w1. cbn [w_in]. lia. } { unfold w1. cbn [w_io]. lia. } { unfold zlen in Hlb. lia. }
    rewrite E2. cbn [tcont]. pose proof (run_readAll _ _ _ _ _ _ E2) as (_ & _ & Hi2 & Hl3).
    assert (Hhdr : hdr = le_bytes 8 (8 + zlen pay) /\ w_in w2 = pay).
    { unfold w1 in Hi2. cbn [w_in] in Hi2. rewrite Ebs in Hi2. apply (f_equal (fun l => (zfirstn 8 l, zskipn 8 l))) in Hi2.
      rewrite !zfirstn_app_exact, !zskipn_app_exact in Hi2 by (rewrite ?zlen_le_bytes; lia). split; congruence. }
    destruct Hhdr as (-> & Hin2). rewrite le_value_bytes. change (256 ^ Z.of_nat 8) with (2 ^ 64).
    rewrite Z.mod_small by (destruct Hpl as ([X|X] & _); lia).
    replace ((8 + zlen pay <? 8) || (p_size_max pl <? 8 + zlen pay)) with false by lia.
    replace (p_alloc_limit pl <? 8 + zlen pay - 8) with false by lia.
    destruct (readAll_ok ag fuel w2 (8 + zlen pay - 8)) as (w3 & d & E3 & _).
    { exact Hf2. } { rewrite Hin2. lia. } { unfold w1 in Hl2. cbn [w_io] in Hl2. lia. } { unfold zlen in Hlb |- *. lia. }
    exists w3, d. exact E3. }
  destruct Hx as (w' & got & E). exists w'. rewrite E. f_equal. f_equal.
  exact (exchange_payload _ _ _ _ _ _ _ _ E Hpl Hin Hag Hrc).
Qed.

(** ** C32 *)
Lemma store_ids_fwd l : forall rb suf, at_ rb (flat_map wire (map VInt32 l) ++ suf) ->
  exists rb', store_ids rb (length l) = (map s32 l, Ok rb') /\ at_ rb' suf.
Proof.
  induction l as [|x l IH]; intros rb suf Hat; cbn [length store_ids map flat_map] in *.
  - eauto.
  - rewrite <- app_assoc in Hat.
    destruct (getInt32_fwd_any _ _ _ Hat) as (rb2 & E & Hat2). rewrite E.
    destruct (IH _ _ Hat2) as (rb3 & E3 & Hat3). rewrite E3. eauto.
Qed.

Lemma process_list_reply_fwd cap ps : zlen ps < 2 ^ 31 ->
  process_list_reply cap (flat_map wire (reply_vals (RpProcessList ps))) =
  if zlen ps <=? cap then (map s32 ps, Ok (zlen ps)) else ([], if zlen ps =? 0 then Ok 0 else Throw EDecode).
Proof.
  intros Hl. unfold process_list_reply. pose proof (zlen_nonneg ps) as H0.
  match goal with |- context [mkReadBuffer ?b] => pose proof (at_start b) as Hat end.
  cbn [reply_vals flat_map] in Hat |- *.
  destruct (getInt32_fwd _ (zlen ps) _ ltac:(lia) Hat) as (rb2 & E & Hat2). rewrite E. clear E.
  destruct (Z.leb_spec (zlen ps) cap) as [Hc|Hc].
  - rewrite <- (app_nil_r (flat_map wire (map VInt32 ps))) in Hat2.
    destruct (store_ids_fwd _ _ _ Hat2) as (rb3 & E & Hat3).
    unfold zlen at 1. rewrite Nat2Z.id, E. cbn [bind]. now rewrite (eof_fwd _ Hat3).
  - cbn [bind]. destruct (Z.eqb_spec (zlen ps) 0) as [Hz|Hz].
    + rewrite (zlen_0_nil ps Hz) in Hat2 |- *. cbn [map flat_map] in Hat2. now rewrite (eof_fwd _ Hat2).
    + destruct (assertEof_at _ _ Hat2) as [(Hn & _)|(_ & E)]; [|now rewrite E].
      destruct ps; [now destruct Hz|discriminate].
Qed.

Lemma list_ok ag fuel pl w cap ps : plat_ok pl -> w_pipe w = true -> w_in w = [] ->
  agent_replies ag w (CProcessList cap) (RpProcessList ps) -> receivable pl (RpProcessList ps) ->
  healthy fuel w (CProcessList cap) (RpProcessList ps) ->
  zlen ps <= cap -> zlen ps < 2 ^ 31 -> Forall (fun p => 0 <= p < 2 ^ 31) ps ->
  exists w', docall ag fuel pl w (CProcessList cap) = (w', mkR no_outs ps (Ok (zlen ps))) /\ w_pipe w' = true.
Proof.
  intros Hpl Hp Hin Hag Hrc Hh Hcap Hl Hps. rewrite docall_open by exact Hp.
  destruct (exchange_ok _ _ _ _ _ _ Hpl Hin Hag Hrc Hh) as (w' & E). rewrite E.
  cbn [call_k list_k]. rewrite process_list_reply_fwd by exact Hl. replace (zlen ps <=? cap) with true by lia.
  cbn [lift_exc succeeded orb]. exists w'. rewrite map_s32_id by exact Hps. split; [reflexivity|].
  apply run_exchange in E. destruct E as ((P & _) & _). rewrite P. exact Hp.
Qed.

Lemma list_small ag fuel pl w cap ps w' r : plat_ok pl -> w_pipe w = true -> w_in w = [] ->
  agent_replies ag w (CProcessList cap) (RpProcessList ps) -> receivable pl (RpProcessList ps) ->
  0 <= cap < zlen ps -> zlen ps < 2 ^ 31 -> docall ag fuel pl w (CProcessList cap) = (w', r) ->
  r_ids r = [] /\ succeeded (r_ret r) = false /\
  (dead r \/ w_pipe w' = false) /\
  (healthy fuel w (CProcessList cap) (RpProcessList ps) -> r_ret r = Throw XDecode /\ w_pipe w' = false).
Proof.
  intros Hpl Hp Hin Hag Hrc Hcap Hl H. rewrite docall_open in H by exact Hp.
  assert (Hh : healthy fuel w (CProcessList cap) (RpProcessList ps) ->
    exists w', run ag (logged w) (exchange fuel pl (request_of (CProcessList cap))) = (w', Ok (flat_map wire (reply_vals (RpProcessList ps))))).
  { intros Hh. exact (exchange_ok _ _ _ _ _ _ Hpl Hin Hag Hrc Hh). }
  destruct (run ag (logged w) (exchange fuel pl (request_of (CProcessList cap)))) as (w1, x) eqn:E1.
  pose proof (exchange_payload _ _ _ _ _ _ _ _ E1 Hpl Hin Hag Hrc) as Hgot.
  assert (Hx : x = Ok (flat_map wire (reply_vals (RpProcessList ps))) \/ list_k cap x = ([], match x with Throw e => Throw e | AssertFail => AssertFail | UB => UB | _ => OutOfFuel end) /\ succeeded (snd (list_k cap x)) = false).
  { destruct x; auto; left; now rewrite Hgot. }
  destruct Hx as [->|(Ek & Es)].
  - cbn [call_k list_k] in H. rewrite process_list_reply_fwd in H by exact Hl.
    replace (zlen ps <=? cap) with false in H by lia. replace (zlen ps =? 0) with false in H by lia.
    cbn [lift_exc succeeded orb r_ret fatal_res] in H. injection H as <- <-. cbn [r_ids r_ret succeeded]. splits; auto.
  - cbn [call_k] in H. rewrite Ek in H, Es. cbn [snd] in Es. rewrite Es in H. cbn [orb r_ret] in H.
    assert (Hn : forall p, x = Ok p -> False) by (intros p ->; cbn [list_k] in Ek; clear - Ek Es Hgot Hl Hcap;
      subst p; rewrite process_list_reply_fwd in Ek by exact Hl; replace (zlen ps <=? cap) with false in Ek by lia;
      replace (zlen ps =? 0) with false in Ek by lia; discriminate).
    destruct (fatal_res _) eqn:Ef; injection H as <- <-; cbn [r_ids r_ret]; splits; auto.
    + left. unfold dead. cbn [r_ret]. destruct x; auto; discriminate.
    + intros X. destruct (Hh X) as (w9 & E9). injection E9 as _ ->. now destruct (Hn _ eq_refl).
    + intros X. destruct (Hh X) as (w9 & E9). injection E9 as _ ->. now destruct (Hn _ eq_refl).
Qed.

(** The agent's loop ends: the size doubles. *)
Lemma loop_ends : forall os size k, Forall (fun ps => zlen ps < 2 ^ 31) os -> 64 <= size < 2 ^ 32 ->
  2 ^ 31 <= size * 2 ^ Z.of_nat k -> (k < length os)%nat ->
  exists ps, In ps os /\ process_list_loop os size = Some ps.
Proof.
  induction os as [|ps os IH]; intros size k Hos Hs Hk Hl; [cbn in Hl; lia|].
  inversion Hos as [|? ? Hps Hos']; subst. cbn [process_list_loop].
  destruct (Z.ltb_spec size (zlen ps)) as [Hc|Hc].
  - destruct k as [|k]; [rewrite Z.mul_1_r in Hk; lia|].
    destruct (IH (Z.max (u32 (size * 2)) (zlen ps)) k) as (q & Hin & Hq); auto.
    + unfold u32, wrapu. rewrite Z.mod_small by lia. lia.
    + unfold u32, wrapu. rewrite Z.mod_small by lia. rewrite Nat2Z.inj_succ, Z.pow_succ_r in Hk by lia.
      pose proof (Z.pow_pos_nonneg 2 (Z.of_nat k)). nia.
    + cbn [length] in Hl. lia.
    + exists q. split; [now right|exact Hq].
  - exists ps. split; [now left|reflexivity].
Qed.
Lemma process_list_ends os : Forall (fun ps => zlen ps < 2 ^ 31) os -> (26 <= length os)%nat ->
  exists ps, In ps os /\ process_list os = Some ps.
Proof. intros H1 H2. apply (loop_ends os 64 25); auto; [lia|vm_compute; discriminate]. Qed.

(** ** C45 *)
Lemma of_thread_app {A} t (a b : list (nat * A)) : of_thread t (a ++ b) = of_thread t a ++ of_thread t b.
Proof. unfold of_thread. rewrite filter_app. apply map_app. Qed.
Lemma of_thread_one {A} t t' (x : A) : of_thread t [(t', x)] = if Nat.eqb t' t then [x] else [].
Proof. unfold of_thread. cbn. destruct (Nat.eqb t' t); reflexivity. Qed.
Lemma seq_calls_snoc ag fuel pl order t c : forall w w1 rs w2 r,
  seq_calls ag fuel pl w order = (w1, rs) -> docall ag fuel pl w1 c = (w2, r) ->
  seq_calls ag fuel pl w (order ++ [(t, c)]) = (w2, rs ++ [(t, r)]).
Proof.
  induction order as [|(t', c') order IH]; intros w w1 rs w2 r H1 H2; cbn [seq_calls app] in *.
  - injection H1 as <- <-. rewrite H2. reflexivity.
  - destruct (docall ag fuel pl w c') as (w', r'). destruct (seq_calls ag fuel pl w' order) as (w'', rs') eqn:E.
    injection H1 as <- <-. now rewrite (IH _ _ _ _ _ E H2).
Qed.
Lemma set_thread_nth s t th t' : nth_error (c_threads s) t <> None ->
  nth_error (set_thread s t th) t' = if Nat.eqb t t' then Some th else nth_error (c_threads s) t'.
Proof.
  intros H. apply nth_error_Some in H. unfold set_thread.
  assert (Hu : forall (l : list thread) t t', (t < length l)%nat ->
    match upd_nat l t th with Some l' => nth_error l' t' | None => None end = if Nat.eqb t t' then Some th else nth_error l t').
  { clear. induction l as [|x l IH]; intros t t' Hl; cbn [length] in Hl; [lia|].
    destruct t as [|t]; cbn [upd_nat].
    - destruct t'; reflexivity.
    - specialize (IH t). destruct t' as [|t']; cbn [nth_error].
      + specialize (IH 0%nat ltac:(lia)). destruct (upd_nat l t th) eqn:E; [reflexivity|]. exfalso.
        clear IH. revert t E Hl. induction l as [|y l IHl]; intros t E Hl; cbn [length] in Hl; [lia|].
        destruct t; cbn [upd_nat] in E; [discriminate|]. destruct (upd_nat l t th) eqn:E2; [discriminate|]. apply (IHl t E2). lia.
      + specialize (IH t' ltac:(lia)). destruct (upd_nat l t th); cbn [nth_error]; exact IH. }
  specialize (Hu (c_threads s) t t' H). destruct (upd_nat (c_threads s) t th) eqn:E; [exact Hu|].
  exfalso. revert E H. clear. revert t. induction (c_threads s) as [|y l IHl]; intros t E Hl; cbn [length] in Hl; [lia|].
  destruct t; cbn [upd_nat] in E; [discriminate|]. destruct (upd_nat l t th) eqn:E2; [discriminate|]. apply (IHl t E2). lia.
Qed.

Definition serial_inv ag fuel pl (w : world) (todo : list (list call)) (s : conc) : Prop :=
  exists order w1 rs, seq_calls ag fuel pl w order = (w1, rs) /\ length (c_threads s) = length todo /\
  match c_lock s with
  | None => c_world s = w1 /\
      forall t th, nth_error (c_threads s) t = Some th ->
        t_cur th = None /\ t_done th = of_thread t rs /\ nth_error todo t = Some (of_thread t order ++ t_todo th)
  | Some h => exists c p, run ag (c_world s) p = docall ag fuel pl w1 c /\
      forall t th, nth_error (c_threads s) t = Some th ->
        t_done th = of_thread t rs /\
        (if Nat.eqb t h then t_cur th = Some p /\ nth_error todo t = Some (of_thread t order ++ c :: t_todo th)
         else t_cur th = None /\ nth_error todo t = Some (of_thread t order ++ t_todo th))
  end.

Lemma set_thread_length s t th : length (set_thread s t th) = length (c_threads s).
Proof.
  unfold set_thread. destruct (upd_nat (c_threads s) t th) as [l|] eqn:E; [|reflexivity].
  revert t l E. induction (c_threads s) as [|x xs IH]; intros [|t] l E; cbn [upd_nat] in E; try discriminate.
  - injection E as <-. reflexivity.
  - destruct (upd_nat xs t th) eqn:E2; [|discriminate]. injection E as <-. cbn [length]. f_equal. eauto.
Qed.

Lemma serial_step ag fuel pl w todo s e : serial_inv ag fuel pl w todo s -> serial_inv ag fuel pl w todo (cstep ag fuel pl s e).
Proof.
  intros Hinv. pose proof Hinv as (order & w1 & rs & Hseq & Hlen & Hl). destruct e as [t|t]; cbn [cstep].
  - destruct (c_lock s) as [h|] eqn:El; [exact Hinv|]. destruct Hl as (Hw & Hth).
    destruct (nth_error (c_threads s) t) as [th|] eqn:Et; [|exact Hinv].
    destruct (t_todo th) as [|c rest] eqn:Etd; [exact Hinv|]. destruct (t_cur th) eqn:Ec; [exact Hinv|].
    exists order, w1, rs. cbn [c_lock c_world c_threads]. rewrite set_thread_length. splits; auto.
    exists c, (section fuel pl c). split; [rewrite Hw; reflexivity|].
    intros t' th' Ht'. rewrite set_thread_nth in Ht' by congruence.
    destruct (Nat.eqb_spec t t') as [->|Hn].
    + injection Ht' as <-. cbn [t_done t_cur t_todo]. destruct (Hth _ _ Et) as (_ & Hd & Hto).
      rewrite Nat.eqb_refl, Etd in *. auto.
    + destruct (Hth _ _ Ht') as (A & B & C). destruct (Nat.eqb_spec t' t); [congruence|]. auto.
  - destruct (nth_error (c_threads s) t) as [th|] eqn:Et; [|exact Hinv].
    destruct (t_cur th) as [[r|o k]|] eqn:Ec; [| |exact Hinv].
    + (* the section ends *)
      destruct (c_lock s) as [h|] eqn:El.
      2:{ destruct Hl as (_ & Hth). destruct (Hth _ _ Et). congruence. }
      destruct Hl as (c & p & Hrun & Hth). pose proof (Hth _ _ Et) as (Hd & Hcase).
      destruct (Nat.eqb_spec t h) as [->|Hn]; [|destruct Hcase; congruence].
      destruct Hcase as (Hp & Hto). assert (p = Ret r) by congruence. subst p. cbn [run] in Hrun. symmetry in Hrun.
      exists (order ++ [(h, c)]), (c_world s), (rs ++ [(h, r)]). cbn [c_lock c_world c_threads]. rewrite set_thread_length.
      splits; auto; [eapply seq_calls_snoc; eauto|].
      intros t' th' Ht'. rewrite set_thread_nth in Ht' by congruence. rewrite !of_thread_app, !of_thread_one.
      destruct (Nat.eqb_spec h t') as [->|Hn].
      * injection Ht' as <-. cbn [t_done t_cur t_todo]. rewrite Hd, Hto, <- app_assoc. auto.
      * destruct (Hth _ _ Ht') as (A & B). destruct (Nat.eqb_spec t' h); [congruence|]. rewrite !app_nil_r. destruct B. auto.
    + destruct (c_lock s) as [h|] eqn:El.
      2:{ destruct Hl as (_ & Hth). destruct (Hth _ _ Et). congruence. }
      destruct Hl as (c & p & Hrun & Hth). pose proof (Hth _ _ Et) as (Hd & Hcase).
      destruct (Nat.eqb_spec t h) as [->|Hn]; [|destruct Hcase; congruence].
      destruct Hcase as (Hp & Hto). assert (p = Do o k) by congruence. subst p. cbn [run] in Hrun.
      destruct (wstep ag (c_world s) o) as (w2, a).
      exists order, w1, rs. cbn [c_lock c_world c_threads]. rewrite set_thread_length. splits; auto.
      exists c, (k a). split; [exact Hrun|].
      intros t' th' Ht'. rewrite set_thread_nth in Ht' by congruence.
      destruct (Nat.eqb_spec h t') as [->|Hn].
      * injection Ht' as <-. cbn [t_done t_cur t_todo]. rewrite Nat.eqb_refl. auto.
      * destruct (Hth _ _ Ht') as (A & B). destruct (Nat.eqb_spec t' h); [congruence|]. auto.
Qed.

Lemma serial ag fuel pl w todo es : serial_inv ag fuel pl w todo (crun ag fuel pl (cinit w todo) es).
Proof.
  unfold crun. assert (H : serial_inv ag fuel pl w todo (cinit w todo)).
  { exists [], w, []. cbn [c_lock cinit c_world c_threads]. rewrite map_length. splits; auto.
    intros t th Ht. rewrite nth_error_map in Ht. destruct (nth_error todo t) as [cs|] eqn:E; [|discriminate].
    injection Ht as <-. cbn. auto. }
  revert H. generalize (cinit w todo). induction es as [|e es IH]; intros s H; cbn [fold_left]; [exact H|].
  apply IH. now apply serial_step.
Qed.

(** ** Successful calls *)
Lemma size_ok ag fuel pl w c r : plat_ok pl -> w_pipe w = true -> w_in w = [] ->
  agent_replies ag w (CSetSize c r) RpSetSize -> receivable pl RpSetSize ->
  healthy fuel w (CSetSize c r) RpSetSize ->
  exists w', docall ag fuel pl w (CSetSize c r) = (w', mkR no_outs [] (Ok 1)) /\ w_pipe w' = true.
Proof.
  intros Hpl Hp Hin Hag Hrc Hh. rewrite docall_open by exact Hp.
  destruct (exchange_ok _ _ _ _ _ _ Hpl Hin Hag Hrc Hh) as (w' & E). rewrite E.
  cbn [call_k size_k reply_vals flat_map bind]. unfold parseSetSizeReply.
  rewrite (eof_fwd _ (at_start [])). cbn [bind lift_exc succeeded orb].
  exists w'. split; [reflexivity|]. apply run_exchange in E. destruct E as ((P & _) & _). rewrite P. exact Hp.
Qed.

Lemma steal_ok ag w h d t : w_dup w = Some d :: t ->
  exists w', run ag w (steal h) = (w', Ok (if h =? 0 then 0 else d)) /\ w_pipe w' = w_pipe w /\
             w_dup w' = (if h =? 0 then w_dup w else t).
Proof.
  intros Hd. unfold steal. destruct (h =? 0); cbn [run]; [eauto|].
  unfold wstep. cbn [weffect]. unfold next_dup. rewrite Hd.
  cbn [run w_pipe w_sent w_in w_io w_dup w_handles w_log]. eexists. splits; reflexivity.
Qed.

Lemma spawn_ok ag fuel pl w rq hp ht d1 d2 t : plat_ok pl -> w_pipe w = true -> w_in w = [] ->
  agent_replies ag w (CSpawn rq) (spawn_reply rq (inl (hp, ht))) -> receivable pl (spawn_reply rq (inl (hp, ht))) ->
  healthy fuel w (CSpawn rq) (spawn_reply rq (inl (hp, ht))) -> handle_ok pl hp -> handle_ok pl ht ->
  w_dup w = Some d1 :: Some d2 :: t ->
  exists w', docall ag fuel pl w (CSpawn rq) =
    (w', mkR (mkOuts (if sr_want_process rq then d1 else 0)
                     (if sr_want_thread rq then if sr_want_process rq then d2 else d1 else 0) 0) [] (Ok 1)) /\
    w_pipe w' = true.
Proof.
  intros Hpl Hp Hin Hag Hrc Hh Ha Hb Hd. rewrite docall_open by exact Hp.
  destruct (exchange_ok _ _ _ _ _ _ Hpl Hin Hag Hrc Hh) as (w1 & E). rewrite E.
  apply run_exchange in E. destruct E as ((P1 & _ & D1 & _) & _).
  change (w_pipe (logged w)) with (w_pipe w) in P1. change (w_dup (logged w)) with (w_dup w) in D1.
  destruct (handle_ok_id pl hp Hpl Ha) as (_ & Ip & Rp). destruct (handle_ok_id pl ht Hpl Hb) as (_ & It & Rt).
  assert (I0 : handleFromInt64 pl 0 = 0) by (unfold handleFromInt64; destruct (p_size_max pl =? 2 ^ 32 - 1); reflexivity).
  destruct Ha as (Na & _), Hb as (Nb & _).
  assert (Ep : parseSpawnReply (flat_map wire (reply_vals (spawn_reply rq (inl (hp, ht))))) =
    Ok (RpSpawned (if sr_want_process rq then hp else 0) (if sr_want_thread rq then ht else 0))).
  { cbn [spawn_reply]. apply spawned_roundtrip; destruct (sr_want_process rq), (sr_want_thread rq); lia. }
  set (pay := flat_map wire (reply_vals (spawn_reply rq (inl (hp, ht))))) in *. clearbody pay.
  cbn [call_k]. unfold spawn_k. rewrite Ep. cbn [lift_exc]. rewrite run_pbind.
  set (h1 := handleFromInt64 pl (if sr_want_process rq then hp else 0)).
  set (h2 := handleFromInt64 pl (if sr_want_thread rq then ht else 0)).
  assert (Z1 : (h1 =? 0) = negb (sr_want_process rq)).
  { unfold h1. destruct (sr_want_process rq); [rewrite Ip|rewrite I0]; cbn [negb]; lia. }
  assert (Z2 : (h2 =? 0) = negb (sr_want_thread rq)).
  { unfold h2. destruct (sr_want_thread rq); [rewrite It|rewrite I0]; cbn [negb]; lia. }
  clearbody h1 h2. rewrite <- D1 in Hd.
  destruct (steal_ok ag w1 h1 _ _ Hd) as (w2 & E2 & P2 & D2). rewrite E2. rewrite run_pbind.
  rewrite Z1 in D2 |- *.
  assert (X : exists a t', w_dup w2 = Some a :: t' /\ (if sr_want_process rq then d2 else d1) = a).
  { destruct (sr_want_process rq); cbn [negb] in D2; rewrite D2; [|rewrite Hd]; eauto. }
  destruct X as (a & t' & Hd2 & <-).
  destruct (steal_ok ag w2 h2 _ _ Hd2) as (w3 & E3 & P3 & _). rewrite E3, Z2.
  rewrite run_dtor.
  destruct (sr_want_process rq), (sr_want_thread rq); cbn [negb]; rewrite ?Z.eqb_refl, ?run_dtor, ?Z.eqb_refl;
    cbn [run bind orb]; (eexists; split; [reflexivity|congruence]).
Qed.

Lemma spawn_fails ag fuel pl w rq e : plat_ok pl -> w_pipe w = true -> w_in w = [] ->
  agent_replies ag w (CSpawn rq) (spawn_reply rq (inr e)) -> receivable pl (spawn_reply rq (inr e)) ->
  healthy fuel w (CSpawn rq) (spawn_reply rq (inr e)) -> 0 <= e < 2 ^ 32 ->
  exists w', docall ag fuel pl w (CSpawn rq) = (w', mkR (mkOuts 0 0 e) [] (Throw (XLib 2))) /\ w_pipe w' = true.
Proof.
  intros Hpl Hp Hin Hag Hrc Hh He. rewrite docall_open by exact Hp.
  destruct (exchange_ok _ _ _ _ _ _ Hpl Hin Hag Hrc Hh) as (w1 & E). rewrite E.
  apply run_exchange in E. destruct E as ((P1 & _) & _).
  cbn [call_k]. unfold spawn_k. cbn [spawn_reply]. rewrite spawnFailed_roundtrip by exact He.
  cbn [lift_exc run bind orb]. eexists. split; [reflexivity|]. rewrite P1. exact Hp.
Qed.

(** ** Which error *)
Definition explained {A} (l : list (op * ans)) (x : res lexc A) : Prop :=
  forall o a d e, In (o, AIo a d) l -> io_failure a = Some e -> x = Throw e.
Lemma io_failure_result a e : io_failure a = Some e -> io_result a = Throw e.
Proof.
  unfold io_failure, io_result, handlePendingIo, handleReadWriteErrors. cbn [existsb].
  destruct a as [[|] err n|[| | | |] [|] err n]; cbn [bind fst snd]; try discriminate; intros H; injection H as <-;
    try reflexivity; rewrite orb_false_r, orb_assoc; destruct ((err =? 109) || (err =? 232) || (err =? 233)); reflexivity.
Qed.
Definition run_explains {A} ag w (p : prog (res lexc A)) : Prop :=
  forall w' x, run ag w p = (w', x) -> exists l, w_log w' = w_log w ++ l /\ explained l x.
Lemma explained_nil {A} (x : res lexc A) : explained [] x.
Proof. intros o a d e []. Qed.
Lemma explained_one {A} o a d (x : res lexc A) : (forall e, io_failure a = Some e -> x = Throw e) -> explained [(o, AIo a d)] x.
Proof. intros H o' a' d' e [E|[]]. injection E as <- <- <-. apply H. Qed.
Lemma run_explains_tbind {A B} ag w (p : prog (res lexc A)) (k : A -> prog (res lexc B)) :
  run_explains ag w p -> (forall w' v, run_explains ag w' (k v)) -> run_explains ag w (tbind p k).
Proof.
  intros Hp Hk w' x. rewrite run_tbind. destruct (run ag w p) as (w1, r1) eqn:E1.
  destruct (Hp _ _ E1) as (l1 & L1 & X1). destruct r1 as [v|e1| | |]; cbn [tcont run];
    try (intros H; injection H as <- <-; exists l1; split; [exact L1|];
         intros o a d e Hi He; specialize (X1 o a d e Hi He); congruence).
  intros E2. destruct (Hk _ _ _ _ E2) as (l2 & L2 & X2). exists (l1 ++ l2).
  split; [rewrite L2, L1, app_assoc; reflexivity|]. intros o a d e Hi He. apply in_app_or in Hi. destruct Hi as [Hi|Hi].
  - specialize (X1 _ _ _ _ Hi He). discriminate.
  - eauto.
Qed.
Lemma run_explains_ret {A} ag w (x : res lexc A) : run_explains ag w (Ret x).
Proof. intros w' y H. cbn [run] in H. injection H as <- <-. exists []. rewrite app_nil_r. split; [reflexivity|apply explained_nil]. Qed.
Lemma run_explains_write ag w d : run_explains ag w (writeData d).
Proof.
  intros w' x. unfold writeData. cbn [run]. unfold wstep. cbn [weffect]. destruct (next_io w) as (a, t).
  destruct (moved a =? zlen d); cbn [run w_pipe w_sent w_in w_io w_dup w_handles w_log]; intros H; injection H as <- <-;
    (eexists; split; [cbn [w_log]; reflexivity|]); apply explained_one; intros e He;
    rewrite (io_failure_result _ _ He); reflexivity.
Qed.
Lemma run_explains_read ag w n : run_explains ag w (readData n).
Proof.
  intros w' x. unfold readData. cbn [run]. unfold wstep. cbn [weffect]. destruct (next_io w) as (a, t).
  cbn [run w_pipe w_sent w_in w_io w_dup w_handles w_log]. intros H; injection H as <- <-.
  eexists; split; [cbn [w_log]; reflexivity|]. apply explained_one. intros e He.
  rewrite (io_failure_result _ _ He). reflexivity.
Qed.
Lemma run_explains_readAll ag fuel : forall w n, run_explains ag w (readAll fuel n).
Proof.
  induction fuel as [|fuel IH]; intros w n; cbn [readAll]; (destruct (0 <? n); [|apply run_explains_ret]).
  - apply run_explains_ret.
  - apply run_explains_tbind; [apply run_explains_read|]. intros w1 d. destruct (zlen d <=? n); [|apply run_explains_ret].
    apply run_explains_tbind; [apply IH|]. intros w2 d2. apply run_explains_ret.
Qed.
Lemma run_explains_exchange ag fuel pl w rq : run_explains ag w (exchange fuel pl rq).
Proof.
  unfold exchange. apply run_explains_tbind.
  - unfold writePacket. rewrite buildRequest_vals, finishPacket_ok. apply run_explains_write.
  - intros w1 _. unfold readPacket. apply run_explains_tbind; [apply run_explains_readAll|].
    intros w2 hdr. destruct (_ || _); [apply run_explains_ret|]. destruct (_ <? _); [apply run_explains_ret|].
    apply run_explains_readAll.
Qed.

(** After the exchange nothing more goes over the pipe. *)
Definition no_io (l : list (op * ans)) : Prop := forall o a d, ~ In (o, AIo a d) l.
Lemma no_io_app a b : no_io a -> no_io b -> no_io (a ++ b).
Proof. intros H1 H2 o x d Hi. apply in_app_or in Hi. destruct Hi as [Hi|Hi]; [eapply H1|eapply H2]; eauto. Qed.
Lemma steal_no_io ag w h w' r : run ag w (steal h) = (w', r) -> exists l, w_log w' = w_log w ++ l /\ no_io l.
Proof.
  unfold steal. destruct (h =? 0); cbn [run].
  - intros H; injection H as <- <-. exists []. rewrite app_nil_r. split; [reflexivity|intros o a d []].
  - unfold wstep. cbn [weffect]. destruct (next_dup w) as (a, t). cbn [run w_log].
    intros H; injection H as <- <-. eexists; split; [cbn [w_log]; reflexivity|]. intros o a' d [E|[]]. discriminate.
Qed.
Lemma dtor_no_io {A} ag w h (k : prog A) w' r : run ag w (dtor h k) = (w', r) ->
  (forall w1, run ag w1 k = (w', r) -> exists l, w_log w' = w_log w1 ++ l /\ no_io l) ->
  exists l, w_log w' = w_log w ++ l /\ no_io l.
Proof.
  rewrite run_dtor. destruct (h =? 0); [auto|]. intros H Hk. destruct (Hk _ H) as (l & L & N). cbn [w_log] in L.
  exists ([(OCloseHandle h, AUnit)] ++ l). split; [rewrite L, app_assoc; reflexivity|]. apply no_io_app; [|exact N].
  intros o a d [E|[]]. discriminate.
Qed.
Lemma ret_no_io {A} ag w (x : A) w' r : run ag w (Ret x) = (w', r) -> exists l, w_log w' = w_log w ++ l /\ no_io l.
Proof. cbn [run]. intros H; injection H as <- <-. exists []. rewrite app_nil_r. split; [reflexivity|intros o a d []]. Qed.
Lemma log_trans (a b c : world) : (exists l, w_log b = w_log a ++ l /\ no_io l) -> (exists l, w_log c = w_log b ++ l /\ no_io l) ->
  exists l, w_log c = w_log a ++ l /\ no_io l.
Proof.
  intros (l1 & L1 & N1) (l2 & L2 & N2). exists (l1 ++ l2). split; [rewrite L2, L1, app_assoc; reflexivity|now apply no_io_app].
Qed.
Lemma spawn_k_no_io ag pl rq w r w' y : run ag w (spawn_k pl rq r) = (w', y) -> exists l, w_log w' = w_log w ++ l /\ no_io l.
Proof.
  unfold spawn_k. destruct r as [payload|e| | |]; try apply ret_no_io.
  destruct (lift_exc (parseSpawnReply payload)) as [rp|e| | |]; try apply ret_no_io.
  destruct rp; try apply ret_no_io.
  rewrite run_pbind. destruct (run ag w (steal _)) as (w1, r1) eqn:E1. apply steal_no_io in E1.
  intros H. eapply log_trans; [exact E1|]. revert H. destruct r1 as [hp|e| | |]; try apply ret_no_io.
  rewrite run_pbind. destruct (run ag w1 (steal _)) as (w2, r2) eqn:E2. apply steal_no_io in E2.
  intros H. eapply log_trans; [exact E2|]. revert H. destruct r2 as [ht|e| | |]; try apply ret_no_io.
  - intros H. eapply dtor_no_io; [exact H|]. intros w3 H3. eapply dtor_no_io; [exact H3|]. intros w4. apply ret_no_io.
  - intros H. eapply dtor_no_io; [exact H|]. intros w3. apply ret_no_io.
Qed.

Lemma error_explained ag fuel pl w c w' r : docall ag fuel pl w c = (w', r) ->
  exists l, w_log w' = w_log w ++ l /\ forall o a d e, In (o, AIo a d) l -> io_failure a = Some e -> r_ret r = Throw e.
Proof.
  intros H. destruct (w_pipe w) eqn:Hp.
  2:{ rewrite docall_closed in H by exact Hp. injection H as <- <-. unfold logged. cbn [w_log]. eexists. split; [reflexivity|].
      intros o a d e [E|[]]. discriminate. }
  rewrite docall_open in H by exact Hp.
  destruct (run ag (logged w) (exchange fuel pl (request_of c))) as (w1, x) eqn:E1.
  destruct (run_explains_exchange _ _ _ _ _ _ _ E1) as (l1 & L1 & X1).
  destruct (call_k pl c w1 x ag) as (w2, (s, res)) eqn:E2.
  assert (K : (exists l, w_log w2 = w_log w1 ++ l /\ no_io l) /\ forall e, x = Throw e -> r_ret res = Throw e).
  { destruct c as [rq|cc rr|cap]; cbn [call_k] in E2.
    - destruct (run ag w1 (spawn_k pl rq x)) as (w3, (s3, (o3, x3))) eqn:E3. pose proof (spawn_k_no_io _ _ _ _ _ _ _ E3) as N.
      injection E2 as <- <- <-. split; [exact N|]. intros e ->. cbn [spawn_k run] in E3. injection E3 as _ _ _ <-. reflexivity.
    - injection E2 as <- <- <-. split; [exists []; rewrite app_nil_r; split; [reflexivity|intros o a d []]|]. intros e ->. reflexivity.
    - destruct (list_k cap x) as (li, y) eqn:El. injection E2 as <- <- <-.
      split; [exists []; rewrite app_nil_r; split; [reflexivity|intros o a d []]|]. intros e ->. cbn [list_k] in El. now injection El as _ <-. }
  destruct K as ((l2 & L2 & N2) & K).
  assert (Z : exists l3, w_log w' = w_log w2 ++ l3 /\ no_io l3 /\ r = res).
  { destruct (s || _); injection H as <- <-.
    - exists []. rewrite app_nil_r. splits; auto. intros o a d [].
    - unfold closed. cbn [w_log]. eexists. splits; [reflexivity| |reflexivity]. intros o a d [E|[]]. discriminate. }
  destruct Z as (l3 & L3 & N3 & ->).
  exists ([(OIsOpen, ABool (w_pipe w))] ++ l1 ++ l2 ++ l3). split.
  - rewrite L3, L2, L1. unfold logged. cbn [w_log]. now rewrite <- !app_assoc.
  - intros o a d e Hi He. apply K. apply in_app_or in Hi. destruct Hi as [[E|[]]|Hi]; [discriminate|].
    apply in_app_or in Hi. destruct Hi as [Hi|Hi]; [eapply X1; eauto|].
    apply in_app_or in Hi. destruct Hi as [Hi|Hi]; [now apply N2 in Hi|now apply N3 in Hi].
Qed.

(** ** A usable result is read off one well-formed packet, whatever the agent sends. *)
Lemma exchange_packet ag fuel pl w rq w' got : run ag w (exchange fuel pl rq) = (w', Ok got) ->
  exists b hdr, sendRequest rq = Ok b /\ w_in w ++ ag (w_sent w ++ [b]) = hdr ++ got ++ w_in w' /\
    zlen hdr = 8 /\ le_value hdr = 8 + zlen got.
Proof.
  unfold exchange. rewrite run_tbind. destruct (run ag w (writePacket (buildRequest rq))) as (w1, r1) eqn:E1.
  apply run_writePacket in E1. destruct E1 as (b & Hb & S1 & Hok & Hs & K).
  destruct r1 as [[]|e| | |]; cbn [tcont run]; try discriminate.
  destruct (Hok eq_refl) as (T1 & I1). intros E2. apply run_readPacket in E2. destruct E2 as (_ & _ & hdr & I2 & L2 & V2).
  exists b, hdr. rewrite <- I1. auto.
Qed.

Lemma le_value_fold l : le_value l = fold_right (fun b acc => b + 256 * acc) 0 l.
Proof. induction l as [|x l IH]; [reflexivity|]. cbn [le_value fold_right]. now rewrite IH. Qed.

Lemma only_from_packet ag fuel pl w c w' r : docall ag fuel pl w c = (w', r) -> w_pipe w = true -> dups_ok w ->
  (forall sent, Forall (fun b => 0 <= b < 256) (ag sent)) -> Forall (fun b => 0 <= b < 256) (w_in w) -> usable r ->
  exists b hdr payload, sendRequest (request_of c) = Ok b /\ w_in w ++ ag (w_sent w ++ [b]) = hdr ++ payload ++ w_in w' /\
    is_le 8 (8 + zlen payload) hdr /\ answers c payload r.
Proof.
  intros H Hp Hd Hag Hin Hu. rewrite docall_open in H by exact Hp.
  destruct (run ag (logged w) (exchange fuel pl (request_of c))) as (w1, x) eqn:E1.
  pose proof E1 as E1'. apply run_exchange in E1. destruct E1 as ((P1 & H1 & D1 & _) & b' & Hb & Hs & K).
  destruct (call_k pl c w1 x ag) as (w2, (s, res)) eqn:E2.
  assert (Hd1 : dups_ok w1) by (unfold dups_ok; rewrite D1; exact Hd).
  assert (Hx : x <> Throw (XLib 2)) by (intros ->; now apply K).
  destruct (call_k_end _ _ _ _ _ _ _ _ E2 Hd1 Hx) as ((Pp & Ps & Pi & _) & D2 & Hus & Hf).
  pose proof (call_k_answers _ _ _ _ _ _ _ _ E2 Hd1 Hx) as Ha.
  assert (Er : res = r /\ w_in w' = w_in w2).
  { destruct (s || fatal_res (r_ret res)); injection H as <- <-; auto. }
  destruct Er as (-> & Ei). destruct (Ha Hu) as (got & -> & Hans).
  destruct (exchange_packet _ _ _ _ _ _ _ E1') as (b & hdr & Hb' & I & L & V).
  change (w_in (logged w)) with (w_in w) in I. change (w_sent (logged w)) with (w_sent w) in I.
  assert (F : Forall (fun b => 0 <= b < 256) (hdr ++ got ++ w_in w1)) by (rewrite <- I; apply Forall_app; auto).
  apply Forall_app in F. destruct F as (F1 & F). apply Forall_app in F. destruct F as (F2 & _).
  exists b, hdr, got. splits; auto.
  - rewrite Ei, Pi. exact I.
  - split; [unfold zlen in L; lia|]. split; [exact F1|]. rewrite <- le_value_fold, V, Z.sub_diag. reflexivity.
Qed.
