From Verif Require Import Base BaseLemmas Buffer BufferSpec BufferProofs NamedPipe NamedPipeSpec NamedPipeProofs
  Framing FramingSpec.
Ltac Zify.zify_post_hook ::= Z.div_mod_to_equations.

Lemma lift_Ok {A} (m : res unit A) a : lift m = Ok a -> m = Ok a.
Proof. destruct m; cbn; congruence. Qed.

(** *** What servicing does to the receive side *)
Lemma in_loop_noprog ans p pr r q : in_loop ans p pr = Ok (r, q) -> pr = Progress -> r <> NoProgress.
Proof.
  revert p pr; induction ans as [|a ans IH]; intros p pr H E; cbn [in_loop] in H;
    destruct (in_should_issue p) as [[|]| | | |]; cbn [bind] in H; try discriminate; try congruence.
  destruct a; try congruence. eapply IH; [exact H|reflexivity].
Qed.

Lemma in_loop_same ans p r q : in_loop ans p NoProgress = Ok (r, q) -> r = NoProgress -> np_inq q = np_inq p.
Proof.
  intros H E. destruct ans as [|a ans]; cbn [in_loop] in H;
    destruct (in_should_issue p) as [[|]| | | |]; cbn [bind] in H; try discriminate;
    try (injection H as <- <-; reflexivity).
  destruct a; try (injection H as <- <-; reflexivity).
  eapply in_loop_noprog in H; [|reflexivity]. congruence.
Qed.

Lemma in_service_same ans p w r q : in_service ans p w = Ok (r, q) -> r = NoProgress -> np_inq q = np_inq p.
Proof.
  intros H E. unfold in_service in H. destruct (w_pending w).
  - destruct ans as [|[s| |] ans]; try (injection H as <- <-; reflexivity).
    eapply in_loop_noprog in H; [|reflexivity]. congruence.
  - eapply in_loop_same; eassumption.
Qed.

Lemma serviceIo_recv a p b q :
  wf p -> serviceIo a p = Ok (b, q) ->
  np_rbs q = np_rbs p /\ (b = false -> np_inq q = np_inq p /\ np_open q = np_open p) /\ is_prefix (np_inq p) (np_inq q).
Proof.
  intros Hwf H. unfold serviceIo in H.
  destruct (np_open p) eqn:Eo; cbn [negb] in H.
  2: { injection H as <- <-. rewrite Eo. split; [reflexivity|]. split; [auto|]. apply is_prefix_refl. }
  apply bind_Ok in H. destruct H as ((just & p1) & H1 & H).
  assert (A1 : np_rbs p1 = np_rbs p /\ np_inq p1 = np_inq p /\ np_open p1 = true /\ pend_ok (np_out p1) = true).
  { destruct (np_connecting p) eqn:Ec.
    - destruct (proj1 Hwf Ec) as (Hin & Hout).
      destruct (sv_conn a); [| |discriminate]; injection H1 as <- <-; splits; auto; try apply Hwf.
      unfold startPipeWorkers; cbn. rewrite Hout. destruct (np_writing p); reflexivity.
    - injection H1 as <- <-. splits; auto. apply Hwf. }
  clear H1. destruct A1 as (R1 & I1 & O1 & K1).
  apply bind_Ok in H. destruct H as ((rp & p2) & H1 & H).
  assert (A2 : np_rbs p2 = np_rbs p /\ (rp = NoProgress -> np_inq p2 = np_inq p) /\ np_open p2 = true /\
               np_out p2 = np_out p1 /\ is_prefix (np_inq p) (np_inq p2)).
  { destruct (np_in p1) as [w|] eqn:Ew.
    - pose proof (in_service_frame _ _ _ _ _ Ew H1) as (F1&F2&F3&F4&F5&F6&F7&F8&F9&F10).
      splits; try congruence.
      intros E. rewrite (in_service_same _ _ _ _ _ H1 E). exact I1.
    - injection H1 as <- <-. rewrite I1. splits; auto using is_prefix_refl. }
  clear H1. destruct A2 as (R2 & I2 & O2 & E2 & P2).
  apply bind_Ok in H. destruct H as ((wp & p3) & H1 & H).
  assert (A3 : np_rbs p3 = np_rbs p /\ np_inq p3 = np_inq p2 /\ np_open p3 = true).
  { destruct (np_out p2) as [w|] eqn:Ew.
    - assert (Hk : pend_ok (np_out p2) = true) by (rewrite Ew, E2; exact K1).
      destruct (out_service_spec _ _ _ _ _ Ew Hk H1) as ((G1&G2&G3&G4&G5&_) & _). splits; congruence.
    - injection H1 as <- <-. splits; auto. }
  clear H1. destruct A3 as (R3 & I3 & O3).
  destruct (is_serror rp || is_serror wp) eqn:Ee.
  - injection H as <- <-. unfold closePipe. rewrite O3. cbn. splits; [exact R3|discriminate|rewrite I3; exact P2].
  - injection H as <- <-. splits; [exact R3| |rewrite I3; exact P2].
    intros E. split; [|exact O3]. rewrite I3. apply I2. destruct rp; [reflexivity| |]; destruct just, wp; cbn in E, Ee; discriminate.
Qed.

(** *** Packets *)
Definition bytes_ok (l : list Z) : Prop := Forall (fun b => 0 <= b < 256) l.

Lemma firstn_z8 {A} (l : list A) : firstn 8 l = zfirstn 8 l.
Proof. reflexivity. Qed.

Lemma le_value_8 l : zlen l = 8 -> bytes_ok l -> 0 <= le_value l < 2^64.
Proof.
  intros Hl Hb. pose proof (le_value_range l Hb) as H. rewrite Hl in H. exact H.
Qed.

Lemma packet_header pk : packet pk -> le_value (zfirstn 8 pk) = zlen pk.
Proof.
  intros ((H1 & H2) & H). apply is_le_iff in H. rewrite firstn_z8 in H. rewrite H, le_value_bytes.
  change (256 ^ Z.of_nat 8) with (2^64). apply Z.mod_small. lia.
Qed.

Lemma packet_intro pk : 8 <= zlen pk -> bytes_ok pk -> le_value (zfirstn 8 pk) = zlen pk -> packet pk.
Proof.
  intros H1 Hb H.
  assert (H8 : zlen (zfirstn 8 pk) = 8) by (rewrite zlen_zfirstn; lia).
  assert (Hb8 : bytes_ok (zfirstn 8 pk)) by (apply Forall_zfirstn; exact Hb).
  pose proof (le_value_8 _ H8 Hb8). split; [lia|].
  apply is_le_iff. rewrite firstn_z8. rewrite <- H. symmetry.
  pose proof (le_bytes_value _ Hb8) as E. unfold zlen in H8. assert (El : length (zfirstn 8 pk) = 8%nat) by lia.
  rewrite El in E. exact E.
Qed.

Lemma packet_same a b x y : packet a -> packet b -> a ++ x = b ++ y -> a = b /\ x = y.
Proof.
  intros Ha Hb E.
  assert (H : zlen a = zlen b).
  { rewrite <- (packet_header _ Ha), <- (packet_header _ Hb). f_equal.
    destruct Ha as ((Ha & _) & _), Hb as ((Hb & _) & _).
    rewrite <- (zfirstn_app_le 8 a x) by lia. rewrite <- (zfirstn_app_le 8 b y) by lia. now rewrite E. }
  assert (Ea : a = b).
  { rewrite <- (zfirstn_app_exact a x (zlen a) eq_refl), E, H. now apply zfirstn_app_exact. }
  subst b. split; [reflexivity|]. now apply app_inv_head in E.
Qed.

(** Packet streams parse uniquely. *)
Lemma packets_prefix ps qs x y : Forall packet ps -> Forall packet qs ->
  concat ps ++ x = concat qs -> (forall pk r, packet pk -> x ++ y <> pk ++ r) \/ True ->
  exists rest, qs = ps ++ rest /\ x = concat rest.
Proof.
  intros Hp Hq E _. revert qs Hq E. induction Hp as [|p ps P1 P2 IH]; intros qs Hq E.
  - exists qs. split; [reflexivity|exact E].
  - cbn [concat] in E. rewrite <- app_assoc in E.
    destruct Hq as [|q qs Q1 Q2].
    + cbn in E. apply app_eq_nil in E. destruct E as (-> & _). destruct P1 as ((P1 & _) & _). cbv in P1. congruence.
    + cbn [concat] in E. destruct (packet_same _ _ _ _ P1 Q1 E) as (-> & E').
      destruct (IH _ Q2 E') as (rest & -> & ->). exists rest. split; reflexivity.
Qed.

Lemma packets_prefix2 ps qs x y : Forall packet ps -> Forall packet qs ->
  concat ps ++ x ++ y = concat qs -> exists rest, qs = ps ++ rest /\ x ++ y = concat rest.
Proof.
  intros Hp Hq E. apply (packets_prefix ps qs (x ++ y) [] Hp Hq); [exact E|now right].
Qed.

(** No whole packet at the head. *)
Definition no_packet (q : list Z) : Prop := forall pk r, packet pk -> q <> pk ++ r.

Lemma no_packet_intro q : zlen q < 8 \/ zlen q < le_value (zfirstn 8 q) -> no_packet q.
Proof.
  intros H pk r Hp ->. pose proof (packet_header _ Hp) as E. destruct Hp as ((H1 & H2) & _).
  rewrite zfirstn_app_le, E, zlen_app in H by lia. pose proof (zlen_nonneg r). lia.
Qed.

(** *** The poll loop *)
Definition same_but_queues (p q : pipe) : Prop :=
  np_open q = np_open p /\ np_connecting q = np_connecting p /\ np_reading q = np_reading p /\
  np_writing q = np_writing p /\ np_in q = np_in p /\ np_out q = np_out p /\ np_peer q = np_peer p /\
  np_sent q = np_sent p.

Lemma sbq_refl p : same_but_queues p p.
Proof. unfold same_but_queues; splits; reflexivity. Qed.
Lemma sbq_trans p q r : same_but_queues p q -> same_but_queues q r -> same_but_queues p r.
Proof. unfold same_but_queues. intros (A1&A2&A3&A4&A5&A6&A7&A8) (B1&B2&B3&B4&B5&B6&B7&B8). splits; congruence. Qed.
Lemma sbq_wf p q : same_but_queues p q -> wf p -> wf q.
Proof. unfold same_but_queues, wf. intros (A1&A2&A3&A4&A5&A6&A7&A8) H. rewrite A1, A2, A3, A4, A5, A6. exact H. Qed.

Definition gpacket (pl : plat) (pk : list Z) : Prop := packet pk /\ zlen pk <= p_size_max pl.

Lemma gpacket_packet pl pks : Forall (gpacket pl) pks -> Forall packet pks.
Proof. intros H; eapply Forall_impl; [|exact H]. intros a (A & _); exact A. Qed.

Lemma poll_loop_spec fuel pl h p exec q exec' :
  np_reading p = true -> np_writing p = true -> bytes_ok (np_inq p) -> 65536 <= np_rbs p ->
  poll_loop fuel pl h p exec = Ok (q, exec') ->
  exists pks rqs, np_inq p = concat pks ++ np_inq q /\ Forall (gpacket pl) pks /\ exec' = exec ++ rqs /\
    Forall2 (fun pk rq => parseRequest pl pk = Ok rq) pks rqs /\ no_packet (np_inq q) /\
    65536 <= np_rbs q /\ zlen (np_inq q) < np_rbs q /\ same_but_queues p q.
Proof.
  revert p exec. induction fuel as [|fuel IH]; intros p exec Hr Hw Hb Hs H; [discriminate|].
  cbn [poll_loop] in H. unfold np_peek in H at 1. rewrite Hr in H. cbn [assert_ bind lift] in H.
  set (q0 := np_inq p) in *.
  assert (Eh : zlen (zfirstn (Z.min 8 (zlen q0)) q0) = Z.min 8 (zlen q0)).
  { rewrite zlen_zfirstn. pose proof (zlen_nonneg q0). lia. }
  rewrite Eh in H.
  destruct (Z.min 8 (zlen q0) <? 8) eqn:E8.
  - injection H as <- <-. exists [], []. rewrite !app_nil_r. cbn [concat app].
    splits; auto using sbq_refl; [apply no_packet_intro; left; fold q0; lia|fold q0; lia].
  - replace (Z.min 8 (zlen q0)) with 8 in H by lia.
    set (ps := le_value (zfirstn 8 q0)) in *.
    destruct ((8 <=? ps) && (ps <=? p_size_max pl)) eqn:Ea; cbn [assert_ bind] in H; [|discriminate].
    rewrite andb_true_iff in Ea. destruct Ea as (Ea1 & Ea2).
    destruct (zlen q0 <? ps) eqn:El.
    + assert (Hn : no_packet q0) by (apply no_packet_intro; right; fold ps; lia).
      destruct (np_rbs p <? ps) eqn:Eb.
      * unfold setReadBufferSize in H. rewrite Hr in H. cbn [assert_ bind lift] in H. injection H as <- <-.
        exists [], []. cbn [np_inq np_rbs concat app]. rewrite !app_nil_r. fold q0.
        splits; auto; try lia. unfold same_but_queues; cbn. splits; congruence.
      * injection H as <- <-. exists [], []. cbn [concat app]. rewrite !app_nil_r. fold q0.
        splits; auto using sbq_refl; lia.
    + unfold np_read, np_peek in H. rewrite Hr in H. cbn [assert_ bind lift] in H.
      fold q0 in H. replace (Z.min ps (zlen q0)) with ps in H by lia.
      set (pk := zfirstn ps q0) in *.
      assert (Elp : zlen pk = ps) by (unfold pk; rewrite zlen_zfirstn; lia).
      rewrite Elp in H. destruct (ps =? ps) eqn:Eq; cbn [assert_ bind] in H; [|discriminate].
      assert (Hbp : bytes_ok pk) by (apply Forall_zfirstn; exact Hb).
      assert (Hpk : packet pk).
      { apply packet_intro; [lia|exact Hbp|]. rewrite Elp. unfold pk, ps.
        rewrite <- (zfirstn_app_le 8 (zfirstn (le_value (zfirstn 8 q0)) q0) (zskipn (le_value (zfirstn 8 q0)) q0)).
        - rewrite zfirstn_zskipn. reflexivity.
        - rewrite zlen_zfirstn. fold ps. lia. }
      unfold handlePacket in H.
      destruct (parseRequest pl pk) as [rq|e| | |] eqn:Epr; cbn [bind] in H; try discriminate.
      2: { destruct e; discriminate. }
      destruct (h (exec ++ [rq])) as [reply|] eqn:Ehh; [|discriminate].
      unfold np_write in H. cbn [with_inq np_writing] in H. rewrite Hw in H. cbn [assert_ bind lift] in H.
      eapply IH in H; [| | | |]; cbn [np_reading np_writing np_inq np_rbs with_inq]; auto.
      2: { apply Forall_zskipn; exact Hb. }
      destruct H as (pks & rqs & A1 & A2 & A3 & A4 & A5 & A6 & A7 & A8).
      cbn [np_inq with_inq] in A1.
      exists (pk :: pks), (rq :: rqs). assert (Hg : gpacket pl pk) by (split; [exact Hpk|lia]). splits; auto.
      * cbn [concat]. rewrite <- app_assoc, <- A1. unfold pk. now rewrite zfirstn_zskipn.
      * rewrite A3, <- app_assoc. reflexivity.
      * eapply sbq_trans; [|exact A8]. unfold same_but_queues; cbn. splits; congruence.
Qed.

Lemma poll_loop_total fuel pl h p exec pks :
  np_reading p = true -> np_writing p = true ->
  (length (np_inq p) < fuel)%nat -> is_prefix (np_inq p) (concat pks) -> Forall packet pks ->
  Forall (fun pk => zlen pk <= p_size_max pl /\ exists rq, parseRequest pl pk = Ok rq) pks ->
  (forall e, h e <> None) ->
  exists r, poll_loop fuel pl h p exec = Ok r.
Proof.
  revert p exec pks. induction fuel as [|fuel IH]; intros p exec pks Hr Hw Hf Hp Hpk Hgood Hh; [lia|].
  cbn [poll_loop]. unfold np_peek at 1. rewrite Hr. cbn [assert_ bind lift].
  set (q0 := np_inq p) in *. pose proof (zlen_nonneg q0) as Hq0.
  assert (Eh : zlen (zfirstn (Z.min 8 (zlen q0)) q0) = Z.min 8 (zlen q0)) by (rewrite zlen_zfirstn; lia).
  rewrite Eh. destruct (Z.min 8 (zlen q0) <? 8) eqn:E8; [eauto|].
  replace (Z.min 8 (zlen q0)) with 8 by lia.
  destruct Hp as (r & Hp).
  destruct pks as [|pk pks]; [cbn in Hp; symmetry in Hp; apply app_eq_nil in Hp; destruct Hp as (E & _);
    rewrite E in E8; cbv in E8; discriminate|].
  inversion Hpk as [|? ? P1 P2]; subst. inversion Hgood as [|? ? G1 G2]; subst. destruct G1 as (G0 & rq & G1).
  cbn [concat] in Hp.
  assert (Ehd : le_value (zfirstn 8 q0) = zlen pk).
  { rewrite <- (packet_header _ P1). f_equal. destruct P1 as ((P1 & _) & _).
    rewrite <- (zfirstn_app_le 8 q0 r) by lia. rewrite <- Hp. apply zfirstn_app_le. lia. }
  rewrite Ehd. replace ((8 <=? zlen pk) && (zlen pk <=? p_size_max pl)) with true
    by (symmetry; rewrite andb_true_iff; destruct P1 as ((P1 & _) & _); lia).
  cbn [assert_ bind].
  destruct (zlen q0 <? zlen pk) eqn:El.
  - destruct (np_rbs p <? zlen pk); [|eauto]. unfold setReadBufferSize. rewrite Hr. cbn. eauto.
  - unfold np_read, np_peek. rewrite Hr. cbn [assert_ bind lift]. fold q0.
    replace (Z.min (zlen pk) (zlen q0)) with (zlen pk) by lia.
    assert (Eq : exists r', q0 = pk ++ r' /\ concat pks = r' ++ r).
    { assert (E1 : zfirstn (zlen pk) q0 = pk).
      { rewrite <- (zfirstn_app_le (zlen pk) q0 r) by lia. rewrite <- Hp. now apply zfirstn_app_exact. }
      exists (zskipn (zlen pk) q0). split.
      - rewrite <- E1 at 1. symmetry. apply zfirstn_zskipn.
      - rewrite <- (zskipn_app_exact pk (concat pks) (zlen pk) eq_refl), Hp. apply zskipn_app_le. lia. }
    destruct Eq as (r' & Eq1 & Eq2).
    assert (E1 : zfirstn (zlen pk) q0 = pk) by (rewrite Eq1; now apply zfirstn_app_exact).
    rewrite E1. replace (zlen pk =? zlen pk) with true by lia. cbn [assert_ bind].
    unfold handlePacket. rewrite G1. cbn [bind].
    destruct (h (exec ++ [rq])) as [reply|] eqn:Ehh; [|exfalso; eapply Hh; exact Ehh].
    unfold np_write. cbn [with_inq np_writing]. rewrite Hw. cbn [assert_ bind lift].
    apply (IH _ _ pks); cbn [np_reading np_writing np_inq with_inq]; auto.
    + rewrite Eq1, zskipn_app_exact by reflexivity.
      rewrite Eq1, app_length in Hf. destruct P1 as ((P1 & _) & _). unfold zlen in P1. lia.
    + rewrite Eq1, zskipn_app_exact by reflexivity. exists r. exact Eq2.
Qed.

(** *** The invariant of a run *)
Definition cinv (pl : plat) (total : list Z) (s : cstate) : Prop :=
  wf (c_pipe s) /\ np_reading (c_pipe s) = true /\ np_writing (c_pipe s) = true /\
  65536 <= np_rbs (c_pipe s) /\ (c_exit s = true <-> np_open (c_pipe s) = false) /\
  exists pks, Forall (gpacket pl) pks /\ Forall2 (fun pk rq => parseRequest pl pk = Ok rq) pks (c_exec s) /\
    (np_open (c_pipe s) = true ->
       concat pks ++ np_inq (c_pipe s) ++ np_peer (c_pipe s) = total /\
       no_packet (np_inq (c_pipe s)) /\ zlen (np_inq (c_pipe s)) < np_rbs (c_pipe s)) /\
    (np_open (c_pipe s) = false -> is_prefix (concat pks ++ np_inq (c_pipe s)) total).

Lemma cinit_inv pl setup : cinv pl [] (cinit setup).
Proof.
  unfold cinv, cinit; cbn. splits; auto; try lia; try (split; discriminate).
  - unfold wf; cbn. splits; intros; try discriminate; auto.
  - exists []. splits; auto; intros H; try discriminate. splits; auto; [|reflexivity].
    apply no_packet_intro. left. reflexivity.
Qed.

Lemma peer_write_wf d p : wf p -> wf (peer_write d p).
Proof. intros H; exact H. Qed.

Lemma cstep_inv pl h total s it s' :
  bytes_ok (total ++ fst it) -> cinv pl total s -> cstep pl h s it = Ok s' ->
  cinv pl (total ++ fst it) s' /\ is_prefix (c_exec s) (c_exec s').
Proof.
  intros Hbt (W & R & Wr & B & X & pks & P1 & P2 & P3 & P4) H. unfold cstep in H.
  destruct it as (d & a). cbn [fst snd] in *. cbn [c_exit c_pipe c_exec] in H.
  destruct (c_exit s) eqn:Ex.
  - injection H as <-. split; [|apply is_prefix_refl].
    assert (Ho : np_open (c_pipe s) = false) by (apply X; reflexivity).
    unfold cinv; cbn [c_pipe c_exit c_exec peer_write np_open np_reading np_writing np_rbs np_inq np_peer]. splits; auto.
    exists pks. splits; auto; [congruence|]. intros _. eapply is_prefix_trans; [apply P4; exact Ho|apply is_prefix_app].
  - assert (Ho : np_open (c_pipe s) = true) by (destruct (np_open (c_pipe s)); [reflexivity|apply X; reflexivity]).
    destruct (P3 Ho) as (E & N & L).
    apply bind_Ok in H. destruct H as ((b & p1) & H1 & H). apply lift_Ok in H1.
    set (p0 := peer_write d (c_pipe s)) in *.
    assert (I0 : in_inv p0 (concat pks) (total ++ d)).
    { unfold in_inv, p0; cbn [peer_write np_open np_inq np_peer]. rewrite Ho, <- E, <- !app_assoc. reflexivity. }
    assert (O0 : out_inv p0 (out_all p0)).
    { unfold out_inv, p0; cbn [peer_write np_open]. rewrite Ho. reflexivity. }
    destruct (serviceIo_inv _ _ _ _ _ _ _ (peer_write_wf d _ W) O0 I0 H1) as (W1 & _ & I1 & (M1 & M2) & _ & _).
    destruct (serviceIo_recv _ _ _ _ (peer_write_wf d _ W) H1) as (B1 & F1 & _).
    cbn [peer_write np_reading np_writing np_rbs np_open np_inq] in M1, M2, B1, F1.
    assert (Hbq : bytes_ok (np_inq p1)).
    { unfold in_inv in I1. destruct (np_open p1).
      - rewrite <- I1 in Hbt. apply Forall_app in Hbt. destruct Hbt as (_ & Hbt). apply Forall_app in Hbt. apply Hbt.
      - destruct I1 as (r & I1). rewrite I1 in Hbt. apply Forall_app in Hbt. destruct Hbt as (Hbt & _).
        apply Forall_app in Hbt. apply Hbt. }
    destruct b.
    + unfold pollControlPipe in H. cbn [c_pipe c_exit c_exec] in H.
      destruct (np_open p1) eqn:Ho1; cbn [negb] in H.
      * apply bind_Ok in H. destruct H as ((p2 & e2) & H2 & H). injection H as <-.
        unfold in_inv in I1; rewrite Ho1 in I1.
        eapply poll_loop_spec in H2; [|congruence|congruence|exact Hbq|cbn in B1; lia].
        destruct H2 as (pks2 & rqs & A1 & A2 & A3 & A4 & A5 & A6 & A7 & A8).
        split; [|rewrite A3; apply is_prefix_app].
        pose proof (sbq_wf _ _ A8 W1) as W2. destruct A8 as (S1&S2&S3&S4&S5&S6&S7&S8).
        unfold cinv; cbn [c_pipe c_exit c_exec]. rewrite S1, Ho1. splits; auto; try congruence; try (split; congruence).
        -- exists (pks ++ pks2). splits.
           ++ apply Forall_app; auto.
           ++ rewrite A3. apply Forall2_app; assumption.
           ++ intros _. splits; auto. rewrite <- I1, A1, S7, concat_app, <- !app_assoc. reflexivity.
           ++ discriminate.
      * injection H as <-. split; [|apply is_prefix_refl].
        unfold in_inv in I1; rewrite Ho1 in I1.
        unfold cinv; cbn [c_pipe c_exit c_exec]. rewrite Ho1. splits; auto; try congruence; try (cbn in B1; lia); try (split; congruence).
        -- exists pks. splits; auto. discriminate.
    + destruct (F1 eq_refl) as (F2 & F3). injection H as <-. split; [|apply is_prefix_refl].
      cbn [c_pipe c_exit c_exec].
      assert (Ho1 : np_open p1 = true) by (rewrite F3; exact Ho).
      unfold in_inv in I1; rewrite Ho1 in I1.
      unfold cinv; cbn [c_pipe c_exit c_exec]. rewrite Ho1. splits; auto; try congruence; try (cbn in B1; lia); try (split; congruence).
      -- exists pks. splits; auto; [|discriminate]. intros _. cbn in F2, B1. rewrite F2, B1. rewrite F2 in I1. auto.
Qed.

Lemma crun_inv pl h its total s s' :
  bytes_ok (total ++ arrived its) -> cinv pl total s -> crun pl h its s = Ok s' ->
  cinv pl (total ++ arrived its) s' /\ is_prefix (c_exec s) (c_exec s').
Proof.
  revert total s; induction its as [|it its IH]; intros total s Hb Hi H; cbn [crun] in H.
  - injection H as <-. unfold arrived; cbn. rewrite app_nil_r. split; [exact Hi|apply is_prefix_refl].
  - apply bind_Ok in H. destruct H as (s1 & H1 & H).
    unfold arrived in *; cbn [map concat] in *. rewrite app_assoc in Hb |- *.
    assert (Hb1 : bytes_ok (total ++ fst it)) by (apply Forall_app in Hb; apply Hb).
    destruct (cstep_inv _ _ _ _ _ _ Hb1 Hi H1) as (I1 & P1).
    destruct (IH _ _ Hb I1 H) as (I2 & P2). split; [exact I2|]. eapply is_prefix_trans; eassumption.
Qed.

(** *** Requests *)
Lemma sendRequest_packet pl rq b : plat_ok pl -> zlen b <= p_size_max pl -> sendRequest rq = Ok b -> gpacket pl b.
Proof.
  intros [[Hp|Hp] _] Hl H; (split; [|exact Hl]); rewrite sendRequest_eq in H; rewrite Hp in Hl;
    (assert (E : b = le_bytes 8 (8 + zlen (flat_map wire (request_vals rq))) ++ flat_map wire (request_vals rq)) by congruence);
    subst b; rewrite zlen_app, zlen_le_bytes in *; change (Z.of_nat 8) with 8 in *;
    pose proof (zlen_nonneg (flat_map wire (request_vals rq)));
    (split; [rewrite zlen_app, zlen_le_bytes; lia|]); apply is_le_iff;
    rewrite zlen_app, zlen_le_bytes; change (Z.of_nat 8) with 8;
    rewrite firstn_z8; apply zfirstn_app_exact; rewrite zlen_le_bytes; reflexivity.
Qed.

Lemma sends_good pl rqs bs : plat_ok pl -> sends rqs bs -> Forall (sendable pl) rqs ->
  Forall (fun b => zlen b <= p_size_max pl) bs ->
  Forall (gpacket pl) bs /\ Forall2 (fun b rq => parseRequest pl b = Ok rq) bs rqs.
Proof.
  intros Hp H. induction H as [|rq b rqs bs H1 H2 IH]; intros Hs Hl; [split; constructor|].
  inversion Hs as [|? ? S1 S2]; subst. inversion Hl as [|? ? L1 L2]; subst.
  destruct (IH S2 L2) as (A & B). split; constructor; auto.
  - eapply sendRequest_packet; eassumption.
  - eapply request_roundtrip; eassumption.
Qed.

Lemma Forall2_det {A B} (R : A -> B -> Prop) l l1 l2 :
  (forall a b c, R a b -> R a c -> b = c) -> Forall2 R l l1 -> Forall2 R l l2 -> l1 = l2.
Proof.
  intros HR H. revert l2. induction H as [|a b l l1 H1 H2 IH]; intros l2 G; inversion G; subst; [reflexivity|].
  f_equal; [eapply HR; eassumption|apply IH; assumption].
Qed.

Lemma Forall2_firstn {A B} (R : A -> B -> Prop) n l1 l2 : Forall2 R l1 l2 -> Forall2 R (firstn n l1) (firstn n l2).
Proof.
  intros H. revert n. induction H; intros [|n]; cbn; constructor; auto.
Qed.

Lemma Forall2_length {A B} (R : A -> B -> Prop) l1 l2 : Forall2 R l1 l2 -> length l1 = length l2.
Proof. intros H; induction H; cbn; auto. Qed.

Lemma bytes_of_sends rqs bs : sends rqs bs -> bytes_ok (concat bs).
Proof.
  intros H. induction H as [|rq b rqs bs H1 H2 IH]; [constructor|]. cbn [concat]. apply Forall_app. split; [|exact IH].
  rewrite sendRequest_eq in H1.
  assert (E : b = le_bytes 8 (8 + zlen (flat_map wire (request_vals rq))) ++ flat_map wire (request_vals rq)) by congruence.
  subst b. apply Forall_app. split; [apply le_bytes_byte|].
  generalize (request_vals rq) as l. clear. induction l as [|v l IH]; [constructor|]. cbn [flat_map]. apply Forall_app.
  split; [|exact IH]. destruct v as [i|i|s]; cbn [wire].
  - constructor; [unfold piece_int32; lia|apply le_bytes_byte].
  - constructor; [unfold piece_int64; lia|apply le_bytes_byte].
  - constructor; [unfold piece_wstring; lia|]. apply Forall_app. split; [apply le_bytes_byte|].
    induction s as [|x s IHs]; [constructor|]. rewrite flat2_cons. constructor; [lia|]. constructor; [lia|exact IHs].
Qed.

Lemma is_prefix_bytes a b : is_prefix a b -> bytes_ok b -> bytes_ok a.
Proof. intros (r & ->) H. apply Forall_app in H. apply H. Qed.

Lemma is_prefix_firstn {A} n (l : list A) : is_prefix (firstn n l) l.
Proof. exists (skipn n l). now rewrite firstn_skipn. Qed.

Lemma firstn_prefix_eq {A} (a b : list A) : is_prefix a b -> a = firstn (length a) b.
Proof. intros (r & ->). rewrite firstn_app, Nat.sub_diag, firstn_all. cbn. now rewrite app_nil_r. Qed.

(** Packets wholly contained in a prefix of a packet stream. *)
Lemma stream_prefix ps bs x T : Forall packet ps -> Forall packet bs ->
  concat ps ++ x = T -> is_prefix T (concat bs) -> is_prefix ps bs.
Proof.
  intros Hp Hb <- (r & E). rewrite <- app_assoc in E. symmetry in E.
  destruct (packets_prefix2 _ _ _ _ Hp Hb E) as (rest & -> & _). apply is_prefix_app.
Qed.

Lemma executed_prefix pl h setup its s rqs bs :
  plat_ok pl -> sends rqs bs -> Forall (sendable pl) rqs -> Forall (fun b => zlen b <= p_size_max pl) bs ->
  is_prefix (arrived its) (concat bs) ->
  crun pl h its (cinit setup) = Ok s ->
  exists k, c_exec s = firstn k rqs /\ is_prefix (concat (firstn k bs)) (arrived its).
Proof.
  intros Hp Hs Hsd Hl Ha H.
  destruct (sends_good _ _ _ Hp Hs Hsd Hl) as (G1 & G2).
  assert (Hb : bytes_ok ([] ++ arrived its)) by (cbn; eapply is_prefix_bytes; [exact Ha|eapply bytes_of_sends; exact Hs]).
  destruct (crun_inv _ _ _ _ _ _ Hb (cinit_inv pl setup) H) as (I & _). cbn [app] in I.
  destruct I as (W & R & Wr & B & X & pks & P1 & P2 & P3 & P4).
  assert (E : exists x, concat pks ++ x = arrived its).
  { destruct (np_open (c_pipe s)).
    - destruct (P3 eq_refl) as (E & _). eauto.
    - destruct (P4 eq_refl) as (r & E). exists (np_inq (c_pipe s) ++ r). now rewrite E, app_assoc. }
  destruct E as (x & E).
  pose proof (stream_prefix _ _ _ _ (gpacket_packet _ _ P1) (gpacket_packet _ _ G1) E Ha) as Hpre.
  exists (length pks). pose proof (firstn_prefix_eq _ _ Hpre) as Ef. rewrite <- Ef. split.
  - eapply Forall2_det; [|exact P2|].
    + cbn. intros a b c E1 E2. congruence.
    + pose proof (Forall2_firstn _ (length pks) _ _ G2) as G3. rewrite <- Ef in G3. exact G3.
  - rewrite <- E. apply is_prefix_app.
Qed.

(** While the agent is running, everything that has arrived whole has been
    executed: what is left over is shorter than the next packet, apart from
    bytes still in the kernel. *)
Lemma executed_all pl h setup its s rqs bs :
  plat_ok pl -> sends rqs bs -> Forall (sendable pl) rqs -> Forall (fun b => zlen b <= p_size_max pl) bs ->
  is_prefix (arrived its) (concat bs) ->
  crun pl h its (cinit setup) = Ok s -> c_exit s = false -> np_peer (c_pipe s) = [] ->
  forall k, is_prefix (concat (firstn k bs)) (arrived its) -> is_prefix (firstn k rqs) (c_exec s).
Proof.
  intros Hp Hs Hsd Hl Ha H Hx Hpe k Hk.
  destruct (sends_good _ _ _ Hp Hs Hsd Hl) as (G1 & G2).
  assert (Hb : bytes_ok ([] ++ arrived its)) by (cbn; eapply is_prefix_bytes; [exact Ha|eapply bytes_of_sends; exact Hs]).
  destruct (crun_inv _ _ _ _ _ _ Hb (cinit_inv pl setup) H) as (I & _). cbn [app] in I.
  destruct I as (W & R & Wr & B & X & pks & P1 & P2 & P3 & P4).
  assert (Ho : np_open (c_pipe s) = true).
  { destruct (np_open (c_pipe s)); [reflexivity|]. rewrite (proj2 X eq_refl) in Hx. discriminate. }
  destruct (P3 Ho) as (E & N & L). rewrite Hpe, app_nil_r in E.
  pose proof (stream_prefix _ _ _ _ (gpacket_packet _ _ P1) (gpacket_packet _ _ G1) E Ha) as Hpre.
  assert (Hlen : (length (firstn k bs) <= length pks)%nat).
  { destruct (Nat.le_gt_cases (length (firstn k bs)) (length pks)) as [Hle|Hgt]; [exact Hle|exfalso].
    destruct Hpre as (rest & Hpre).
    assert (Hrest : exists pk more, firstn k bs = pks ++ pk :: more /\ packet pk).
    { subst bs. rewrite firstn_app in Hgt |- *. rewrite app_length in Hgt.
      destruct (firstn (k - length pks) rest) as [|pk more] eqn:Er.
      - cbn in Hgt. rewrite firstn_length in Hgt. lia.
      - exists pk, more. split.
        + rewrite firstn_all2; [reflexivity|]. destruct (Nat.le_gt_cases k (length pks)) as [Hle|Hgt'].
          * replace (k - length pks)%nat with O in Er by lia. discriminate.
          * lia.
        + assert (Hin : In pk rest).
          { assert (Hi : In pk (firstn (k - length pks) rest)) by (rewrite Er; now left).
            rewrite <- (firstn_skipn (k - length pks) rest). apply in_or_app. now left. }
          apply (gpacket_packet pl) in G1. rewrite Forall_forall in G1. apply G1. apply in_or_app. now right. }
    destruct Hrest as (pk & more & Ef & Hpk). rewrite Ef, concat_app in Hk. cbn [concat] in Hk.
    destruct Hk as (r & Hk). rewrite <- E in Hk. rewrite <- !app_assoc in Hk. apply app_inv_head in Hk.
    exact (N pk (concat more ++ r) Hpk Hk). }
  pose proof (firstn_prefix_eq _ _ Hpre) as Ef.
  assert (Ex : c_exec s = firstn (length pks) rqs).
  { eapply Forall2_det; [|exact P2|].
    - cbn. intros a b c E1 E2. congruence.
    - pose proof (Forall2_firstn _ (length pks) _ _ G2) as G3. rewrite <- Ef in G3. exact G3. }
  rewrite Ex. exists (skipn k (firstn (length pks) rqs)).
  assert (Hkk : (k <= length pks)%nat \/ (length bs <= length pks)%nat).
  { rewrite firstn_length in Hlen. lia. }
  assert (Hll : length bs = length rqs) by (eapply Forall2_length; exact G2).
  destruct Hkk as [Hkk|Hkk].
  - rewrite <- (firstn_skipn k (firstn (length pks) rqs)) at 1. rewrite firstn_firstn, Nat.min_l by lia. reflexivity.
  - rewrite (firstn_all2 rqs) by lia.
    rewrite <- (firstn_skipn k rqs) at 1. reflexivity.
Qed.

(** There is always room for the rest of the packet being received. *)
Lemma always_room pl h setup its s :
  bytes_ok (arrived its) -> crun pl h its (cinit setup) = Ok s -> c_exit s = false ->
  np_open (c_pipe s) = true /\ zlen (np_inq (c_pipe s)) < np_rbs (c_pipe s).
Proof.
  intros Hb H Hx. destruct (crun_inv _ _ _ [] _ _ Hb (cinit_inv pl setup) H) as (I & _).
  destruct I as (W & R & Wr & B & X & pks & P1 & P2 & P3 & P4).
  destruct (np_open (c_pipe s)) eqn:Ho.
  - split; [reflexivity|]. apply P3. reflexivity.
  - rewrite (proj2 X eq_refl) in Hx. discriminate.
Qed.

(** No abort and no crash on well-formed traffic. *)
Lemma crun_total_gen pl h its total s bs :
  Forall (gpacket pl) bs -> Forall (fun b => exists rq, parseRequest pl b = Ok rq) bs -> bytes_ok (concat bs) ->
  (forall e, h e <> None) -> Forall (fun it => full_writes (snd it)) its ->
  is_prefix (total ++ arrived its) (concat bs) -> cinv pl total s ->
  exists s', crun pl h its s = Ok s'.
Proof.
  intros G1 G2 Hby Hh. revert total s. induction its as [|it its IH]; intros total s Hf Ha Hi; cbn [crun]; [eauto|].
  inversion Hf as [|? ? F1 F2]; subst.
  unfold arrived in *; cbn [map concat] in *. rewrite app_assoc in Ha.
  assert (Hpre : is_prefix (total ++ fst it) (concat bs)) by (eapply is_prefix_trans; [apply is_prefix_app|exact Ha]).
  assert (Hstep : exists s1, cstep pl h s it = Ok s1).
  { pose proof Hi as (W & R & Wr & B & X & pks & P1 & P2 & P3 & P4).
    unfold cstep. destruct it as (d & a). cbn [fst snd c_exit c_pipe c_exec] in *.
    destruct (c_exit s) eqn:Ex; [eauto|].
    assert (Ho : np_open (c_pipe s) = true) by (destruct (np_open (c_pipe s)); [reflexivity|apply X; reflexivity]).
    destruct (P3 Ho) as (E & N & L).
    set (p0 := peer_write d (c_pipe s)).
    destruct (serviceIo_ok a p0 (peer_write_wf d _ W) F1) as ((b & p1) & H1). rewrite H1. cbn [lift bind].
    destruct b; [|eauto]. unfold pollControlPipe; cbn [c_pipe c_exit c_exec].
    destruct (np_open p1) eqn:Ho1; cbn [negb]; [|eauto].
    assert (I0 : in_inv p0 (concat pks) (total ++ d)).
    { unfold in_inv, p0; cbn [peer_write np_open np_inq np_peer]. rewrite Ho, <- E, <- !app_assoc. reflexivity. }
    assert (O0 : out_inv p0 (out_all p0)).
    { unfold out_inv, p0; cbn [peer_write np_open]. rewrite Ho. reflexivity. }
    destruct (serviceIo_inv _ _ _ _ _ _ _ (peer_write_wf d _ W) O0 I0 H1) as (W1 & _ & I1 & (M1 & M2) & _ & _).
    unfold in_inv in I1. rewrite Ho1 in I1.
    destruct Hpre as (r & Hpre). rewrite <- I1, <- !app_assoc in Hpre. symmetry in Hpre.
    destruct (packets_prefix2 _ _ _ _ (gpacket_packet _ _ P1) (gpacket_packet _ _ G1) Hpre) as (rest & Er & Es).
    assert (Hsub : forall b, In b rest -> In b bs) by (intros b Hbin; rewrite Er; apply in_or_app; now right).
    destruct (poll_loop_total (S (length (np_inq p1))) pl h p1 (c_exec s) rest) as ((p2 & e2) & H2).
    - rewrite M1; exact R.
    - rewrite M2; exact Wr.
    - lia.
    - rewrite <- Es. apply is_prefix_app.
    - apply Forall_forall. intros b Hbin. apply (gpacket_packet pl) in G1. rewrite Forall_forall in G1. auto.
    - apply Forall_forall. intros b Hbin. rewrite Forall_forall in G1, G2. split; [apply (G1 b); auto|apply G2; auto].
    - exact Hh.
    - rewrite H2. cbn [bind]. eauto. }
  destruct Hstep as (s1 & Hstep). rewrite Hstep. cbn [bind].
  assert (Hb1 : bytes_ok (total ++ fst it)) by (eapply is_prefix_bytes; [exact Hpre|exact Hby]).
  destruct (cstep_inv _ _ _ _ _ _ Hb1 Hi Hstep) as (I1 & _).
  apply (IH (total ++ fst it) s1 F2); [|exact I1]. exact Ha.
Qed.

Lemma no_abort pl h setup its rqs bs :
  plat_ok pl -> sends rqs bs -> Forall (sendable pl) rqs -> Forall (fun b => zlen b <= p_size_max pl) bs ->
  is_prefix (arrived its) (concat bs) ->
  (forall e, h e <> None) -> Forall (fun it => full_writes (snd it)) its ->
  exists s, crun pl h its (cinit setup) = Ok s.
Proof.
  intros Hp Hs Hsd Hl Ha Hh Hf. destruct (sends_good _ _ _ Hp Hs Hsd Hl) as (G1 & G2).
  eapply (crun_total_gen pl h its [] _ bs G1); auto using cinit_inv.
  - clear -G2. induction G2; constructor; eauto.
  - eapply bytes_of_sends; exact Hs.
Qed.

(** Liveness. *)
Lemma supply_rounds pl h its total s s' :
  bytes_ok total -> cinv pl total s -> c_exit s = false ->
  Forall (fun it => fst it = [] /\ supplying (snd it)) its -> zlen (np_peer (c_pipe s)) <= zlen its ->
  crun pl h its s = Ok s' ->
  cinv pl total s' /\ c_exit s' = false /\ np_peer (c_pipe s') = [].
Proof.
  intros Hb. revert s. induction its as [|it its IH]; intros s Hi Hx Hf Hl H; cbn [crun] in H.
  - injection H as <-. splits; auto. apply zlen_0_nil. pose proof (zlen_nonneg (np_peer (c_pipe s))). change (zlen (@nil (list Z * svc))) with 0 in Hl. lia.
  - inversion Hf as [|? ? (F0 & F1) F2]; subst. apply bind_Ok in H. destruct H as (s1 & H1 & H).
    destruct it as (d & a). cbn [fst snd] in *. subst d.
    assert (Hb1 : bytes_ok (total ++ fst (@nil Z, a))) by (cbn; now rewrite app_nil_r).
    destruct (cstep_inv _ _ _ _ _ _ Hb1 Hi H1) as (I1 & _). cbn [fst] in I1. rewrite app_nil_r in I1.
    assert (Hs1 : c_exit s1 = false /\ zlen (np_peer (c_pipe s1)) <= Z.max 0 (zlen (np_peer (c_pipe s)) - 1)).
    { destruct Hi as (W & R & Wr & B & X & pks & P1 & P2 & P3 & P4).
      unfold cstep in H1. cbn [fst snd c_exit c_pipe c_exec] in H1. rewrite Hx in H1.
      assert (Ho : np_open (c_pipe s) = true).
      { destruct (np_open (c_pipe s)); [reflexivity|]. rewrite (proj2 X eq_refl) in Hx. discriminate. }
      destruct (P3 Ho) as (E & N & L).
      apply bind_Ok in H1. destruct H1 as ((b & p1) & H1 & H2). apply lift_Ok in H1.
      assert (E0 : peer_write [] (c_pipe s) = c_pipe s).
      { unfold peer_write. rewrite app_nil_r. destruct (c_pipe s); reflexivity. }
      rewrite E0 in H1.
      destruct (supply_step _ _ _ _ W Ho R L F1 H1) as (S1 & S2 & S3 & S4 & S5 & S6).
      destruct b.
      - unfold pollControlPipe in H2. cbn [c_pipe c_exit c_exec] in H2. rewrite S1 in H2. cbn [negb] in H2.
        apply bind_Ok in H2. destruct H2 as ((p2 & e2) & H2 & H3). injection H3 as <-. cbn [c_exit c_pipe].
        split; [reflexivity|]. 
        assert (Hq : bytes_ok (np_inq p1)).
        { rewrite <- E, <- S5 in Hb. apply Forall_app in Hb. destruct Hb as (_ & Hb). apply Forall_app in Hb. apply Hb. }
        assert (Hm : np_writing p1 = true).
        { assert (I0 : in_inv (c_pipe s) (concat pks) total) by (unfold in_inv; rewrite Ho; exact E).
          assert (O0 : out_inv (c_pipe s) (out_all (c_pipe s))) by (unfold out_inv; rewrite Ho; reflexivity).
          destruct (serviceIo_inv _ _ _ _ _ _ _ W O0 I0 H1) as (_ & _ & _ & (_ & M2) & _ & _). congruence. }
        eapply poll_loop_spec in H2; [|exact S2|exact Hm|exact Hq|lia].
        destruct H2 as (pks2 & rqs & A1 & A2 & A3 & A4 & A5 & A6 & A7 & (_&_&_&_&_&_&A8&_)). rewrite A8. exact S6.
      - injection H2 as <-. cbn [c_exit c_pipe]. split; [reflexivity|exact S6]. }
    destruct Hs1 as (Hx1 & Hl1). apply (IH s1 I1 Hx1 F2); [|exact H].
    rewrite zlen_cons in Hl. pose proof (zlen_nonneg its). lia.
Qed.

Lemma arrived_app a b : arrived (a ++ b) = arrived a ++ arrived b.
Proof. unfold arrived. now rewrite map_app, concat_app. Qed.

Lemma arrived_silent its : Forall (fun it => fst it = [] /\ supplying (snd it)) its -> arrived its = [].
Proof. intros H. induction H as [|it its (H1 & _) H2 IH]; [reflexivity|]. unfold arrived in *; cbn. rewrite H1. exact IH. Qed.

Lemma crun_app pl h a b s : crun pl h (a ++ b) s = let! s := crun pl h a s in crun pl h b s.
Proof.
  revert s; induction a as [|it a IH]; intros s; cbn [app crun bind]; [reflexivity|].
  destruct (cstep pl h s it); cbn [bind]; auto.
Qed.

Lemma eventually_executed pl h setup its its2 s s2 rqs bs :
  plat_ok pl -> sends rqs bs -> Forall (sendable pl) rqs -> Forall (fun b => zlen b <= p_size_max pl) bs ->
  arrived its = concat bs -> crun pl h its (cinit setup) = Ok s -> c_exit s = false ->
  Forall (fun it => fst it = [] /\ supplying (snd it)) its2 -> zlen (concat bs) <= zlen its2 ->
  crun pl h its2 s = Ok s2 ->
  c_exec s2 = rqs.
Proof.
  intros Hp Hs Hsd Hl Ha H Hx Hf Hn H2.
  assert (Hb : bytes_ok (arrived its)) by (rewrite Ha; eapply bytes_of_sends; exact Hs).
  destruct (crun_inv _ _ _ [] _ _ Hb (cinit_inv pl setup) H) as (I & _). cbn [app] in I.
  assert (Hpl : zlen (np_peer (c_pipe s)) <= zlen its2).
  { pose proof I as (W & R & Wr & B & X & pks & P1 & P2 & P3 & P4).
    assert (Ho : np_open (c_pipe s) = true).
    { destruct (np_open (c_pipe s)); [reflexivity|]. rewrite (proj2 X eq_refl) in Hx. discriminate. }
    destruct (P3 Ho) as (E & _ & _). rewrite <- Ha, <- E, !zlen_app in Hn.
    pose proof (zlen_nonneg (concat pks)); pose proof (zlen_nonneg (np_inq (c_pipe s))). lia. }
  destruct (supply_rounds _ _ _ _ _ _ Hb I Hx Hf Hpl H2) as (I2 & Hx2 & Hp2).
  assert (Hrun : crun pl h (its ++ its2) (cinit setup) = Ok s2) by (rewrite crun_app, H; exact H2).
  assert (Ha2 : arrived (its ++ its2) = concat bs) by (rewrite arrived_app, (arrived_silent its2 Hf), app_nil_r; exact Ha).
  assert (Hpre : is_prefix (arrived (its ++ its2)) (concat bs)) by (rewrite Ha2; apply is_prefix_refl).
  pose proof (executed_all pl h setup _ s2 rqs bs Hp Hs Hsd Hl Hpre Hrun Hx2 Hp2 (length bs)) as G.
  destruct (executed_prefix pl h setup _ s2 rqs bs Hp Hs Hsd Hl Hpre Hrun) as (k & Ek & _).
  destruct (sends_good _ _ _ Hp Hs Hsd Hl) as (_ & G2). pose proof (Forall2_length _ _ _ G2) as Hll.
  rewrite Hll, firstn_all, Ha2 in G.
  assert (Hfull : is_prefix (concat (firstn (length rqs) bs)) (concat bs)).
  { rewrite <- Hll, firstn_all. apply is_prefix_refl. }
  destruct (G Hfull) as (r & Er). rewrite Ek in Er |- *.
  pose proof (f_equal (@length _) Er) as El. rewrite app_length, firstn_length in El.
  assert (r = []) by (destruct r; [reflexivity|cbn in El; lia]). subst r. now rewrite app_nil_r in Er.
Qed.

(** A bad header blocks everything after it. *)
Lemma bad_header pl h setup its s pks hdr rest :
  plat_ok pl -> Forall packet pks -> zlen hdr = 8 -> bytes_ok (arrived its) ->
  ~ (8 <= le_value hdr <= p_size_max pl) ->
  is_prefix (arrived its) (concat pks ++ hdr ++ rest) ->
  crun pl h its (cinit setup) = Ok s ->
  exists k, Forall2 (fun pk rq => parseRequest pl pk = Ok rq) (firstn k pks) (c_exec s).
Proof.
  intros Hp Hpk H8 Hb Hbad Ha H.
  destruct (crun_inv _ _ _ [] _ _ Hb (cinit_inv pl setup) H) as (I & _). cbn [app] in I.
  destruct I as (W & R & Wr & B & X & ps & P1 & P2 & P3 & P4).
  assert (E : exists x, concat ps ++ x = concat pks ++ hdr ++ rest).
  { destruct Ha as (r & Ha). rewrite Ha. destruct (np_open (c_pipe s)).
    - destruct (P3 eq_refl) as (E & _). rewrite <- E, <- app_assoc. eauto.
    - destruct (P4 eq_refl) as (r' & E). rewrite E, <- !app_assoc. eauto. }
  destruct E as (x & E). clear P3 P4 X Ha Hb H.
  assert (Hpre : is_prefix ps pks).
  { clear P2 W R Wr B. revert pks Hpk E. induction P1 as [|q ps Q1 Q2 IH]; intros pks Hpk E.
    - exists pks. reflexivity.
    - destruct Hpk as [|p pks p1 p2].
      + exfalso. cbn [concat app] in E. rewrite <- app_assoc in E. destruct Q1 as (Q1 & Q1').
        pose proof (packet_header _ Q1) as Hh. destruct Q1 as ((Q0 & _) & _).
        assert (Eh : zfirstn 8 q = hdr).
        { rewrite <- (zfirstn_app_le 8 q (concat ps ++ x)) by lia. rewrite E. apply zfirstn_app_exact. lia. }
        rewrite Eh in Hh. lia.
      + cbn [concat] in E. rewrite <- !app_assoc in E. destruct (packet_same _ _ _ _ (proj1 Q1) p1 E) as (-> & E').
        destruct (IH _ p2 E') as (r & ->). exists r. reflexivity. }
  exists (length ps). rewrite <- (firstn_prefix_eq _ _ Hpre). exact P2.
Qed.
