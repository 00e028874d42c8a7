(** Proofs for Helper.v. *)
From Verif Require Import Base BaseLemmas Text Buffer BufferSpec BufferProofs NamedPipe NamedPipeSpec NamedPipeProofs Rpc Open OpenSpec Helper HelperSpec.
Ltac splits := repeat match goal with |- _ /\ _ => split end.

Lemma ans_dec (x y : io_ans) : {x = y} + {x <> y}.
Proof. decide equality; apply Z.eq_dec. Qed.

Section Pipe.
Variable pk : list Z.

Definition K (p : pipe) (pw : list Z) : Prop :=
  wf p /\ np_open p = true /\ np_connecting p = false /\ np_reading p = true /\ np_writing p = true /\
  np_rbs p = 65536 /\ out_inv p pk /\ in_inv p [] pw.

Lemma in_loop_wait ans p pr q : in_loop ans p pr = Ok (NoProgress, q) -> np_in p <> None -> np_open p = true ->
  pr = NoProgress /\ ((exists w, np_in q = Some w /\ w_pending w = true) \/ np_rbs p <= zlen (np_inq q)).
Proof.
  assert (P : forall ans p q, in_loop ans p Progress = Ok (NoProgress, q) -> False).
  { clear. induction ans as [|a ans IH]; intros p q H; cbn [in_loop] in H; destruct (in_should_issue p) as [[|]| | | |]; cbn [bind] in H; try discriminate.
    destruct a; [|discriminate|discriminate]. exact (IH _ _ H). }
  intros H N O. destruct ans as [|a ans]; cbn [in_loop] in H; unfold in_should_issue in H; rewrite O in H; destruct (np_connecting p); cbn [negb assert_ bind] in H; try discriminate;
    destruct (np_reading p); cbn [assert_ bind] in H; try discriminate; destruct (Z.ltb_spec (zlen (np_inq p)) (np_rbs p)) as [l|l].
  - injection H as <- <-. split; [reflexivity|]. left. eexists. split; reflexivity.
  - injection H as <- <-. auto.
  - destruct a; [exfalso; exact (P _ _ _ H)| |discriminate]. injection H as <- <-. split; [reflexivity|]. left. eexists. split; reflexivity.
  - injection H as <- <-. auto.
Qed.
Lemma in_service_wait ans p w q : in_service ans p w = Ok (NoProgress, q) -> np_in p = Some w -> np_open p = true ->
  (exists w', np_in q = Some w' /\ w_pending w' = true) \/ np_rbs p <= zlen (np_inq q).
Proof.
  intros H W O. unfold in_service in H. destruct (w_pending w) eqn:E.
  - destruct ans as [|[s| |] ans]; try discriminate.
    + injection H as <-. left. exists w. auto.
    + apply in_loop_wait in H; [destruct H; discriminate|discriminate|exact O].
    + injection H as <-. left. exists w. auto.
  - apply in_loop_wait in H; [apply H|congruence|exact O].
Qed.

Lemma round_ok a p b q pw : K p pw -> serviceIo a p = Ok (b, q) ->
  is_prefix (np_sent p) (np_sent q) /\ is_prefix (np_sent q) pk /\
  (np_open q = true -> K q pw /\ (b = false -> zlen pw < 65536 -> has_wait q = true)) /\
  (np_open q = false -> b = true /\ gone (HRound a)).
Proof.
  intros (W & O & C & R & Wr & B & Oi & Ii) H.
  destruct (serviceIo_inv a p b q [] pk pw W Oi Ii H) as (Wq & Oq & Iq & (Mr & Mw) & _ & Sq).
  split; [exact Sq|]. split.
  { unfold out_inv in Oq. destruct (np_open q); [|exact Oq]. rewrite <- Oq. apply is_prefix_app. }
  unfold serviceIo in H. rewrite O, C in H. cbn [negb bind] in H.
  assert (Ni : np_in p <> None) by (apply W; assumption).
  destruct (np_in p) as [wi|] eqn:Ei; [|congruence].
  apply bind_Ok in H. destruct H as ((rp & p2) & Hr & H).
  pose proof (in_service_frame _ _ _ _ _ Ei Hr) as F. pose proof F as F0. destruct F as (F1&F2&(F3&F3')&F4&F5&F6&F7&F8&F9&F10).
  assert (W2 : wf p2). { eapply in_frame_wf; [| | |exact W|exact F0]; [congruence|exact C|exact O]. }
  assert (No : np_out p2 <> None) by (apply W2; congruence).
  destruct (np_out p2) as [wo|] eqn:Eo; [|congruence].
  apply bind_Ok in H. destruct H as ((wp & p3) & Hw & H).
  destruct (out_service_spec _ _ _ _ _ Eo ltac:(apply W2) Hw) as ((G1&G2&(G3&G3')&G4&G5&G6&G7&G8&G9) & _).
  destruct (is_serror rp || is_serror wp) eqn:Ee.
  - injection H as <- <-. pose proof (closePipe_closes (sv_kr a) (sv_kw a) p3) as Cl. split; [congruence|]. intros _. split; [reflexivity|].
    cbn [gone]. apply Bool.orb_true_iff in Ee. destruct Ee as [e|e].
    + destruct rp; try discriminate. left. destruct (in_dec ans_dec IoError (sv_read a)) as [i|n]; [exact i|].
      destruct (in_service_noerr _ _ _ _ _ n Hr eq_refl).
    + destruct wp; try discriminate. right. destruct (in_dec ans_dec IoError (sv_write a)) as [i|n]; [exact i|].
      destruct (out_service_noerr _ _ _ _ _ n Hw eq_refl).
  - injection H as <- <-. split; [|congruence]. intros _. split.
    + unfold K. splits; try congruence. all: assumption.
    + intros Nb L. cbn [orb] in Nb. apply Bool.orb_false_iff in Nb. destruct Nb as (N1 & N2).
      assert (rp = NoProgress) as -> by (destruct rp; try discriminate; reflexivity).
      destruct (in_service_wait _ _ _ _ Hr Ei O) as [(w' & Q1 & Q2)|Q].
      * unfold has_wait. rewrite G6, Q1, Q2. reflexivity.
      * exfalso. unfold in_inv in Ii. rewrite O in Ii. cbn [app] in Ii. rewrite <- Ii in L.
        rewrite <- F9 in L. rewrite zlen_app in L. pose proof (zlen_nonneg (np_peer p2)). lia.
Qed.

Lemma peer_ok d p pw : K p pw -> K (peer_write d p) (pw ++ d).
Proof.
  intros (W & O & C & R & Wr & B & Oi & Ii). unfold K.
  destruct (pstep_inv p (PPeer d) (peer_write d p) [] [] pk pw W Oi Ii eq_refl) as (Q1 & Q2 & Q3 & _ & _).
  cbn [written_by peer_by app] in Q2, Q3. rewrite app_nil_r in Q2. splits; auto.
Qed.

Lemma newly p q : is_prefix (np_sent p) (np_sent q) -> np_sent p ++ sent (newly_sent p q) = np_sent q.
Proof.
  intros (r & E). unfold newly_sent. rewrite E. rewrite zskipn_app_exact by reflexivity. destruct r; cbn [sent flat_map]; now rewrite ?app_nil_r.
Qed.
Lemma newly_events p q e : In e (newly_sent p q) -> exists d, e = HSent d.
Proof. unfold newly_sent. destruct (zskipn _ _); [intros []|]. intros [h|[]]. eauto. Qed.
Lemma sent_app l1 l2 : sent (l1 ++ l2) = sent l1 ++ sent l2.
Proof. apply flat_map_app. Qed.

(** The loop's log, by its outcome. *)
Lemma hloop_ok : forall ins p pw l o, K p pw -> hloop ins p = (l, o) ->
  is_prefix (np_sent p ++ sent l) pk /\
  match o with
  | Ok true => exists l', l = l' ++ [HClosed] /\ Forall (fun e => exists d, e = HSent d) l' /\ Exists gone ins
  | _ => Forall (fun e => exists d, e = HSent d) l
  end /\
  (Forall sound ins -> zlen (pw ++ received ins) < 65536 -> exists b, o = Ok b).
Proof.
  induction ins as [|i ins IH]; intros p pw l o Kp H; cbn [hloop] in H.
  { injection H as <- <-. splits; [|constructor|eauto]. cbn [sent flat_map]. rewrite app_nil_r.
    destruct Kp as (_ & O & _ & _ & _ & _ & Oi & _). unfold out_inv in Oi. rewrite O in Oi. rewrite <- Oi. apply is_prefix_app. }
  destruct i as [a|d].
  2: { destruct (IH _ _ _ _ (peer_ok d p pw Kp) H) as (A & B & C). splits.
       - exact A.
       - destruct o as [[|]| | | |]; try exact B. destruct B as (l' & B1 & B2 & B3). exists l'. splits; auto.
       - intros S L. inversion S; subst. apply C; [assumption|]. cbn [received flat_map] in L. rewrite app_assoc in L. exact L. }
  assert (P0 : is_prefix (np_sent p) pk).
  { destruct Kp as (_ & O & _ & _ & _ & _ & Oi & _). unfold out_inv in Oi. rewrite O in Oi. rewrite <- Oi. apply is_prefix_app. }
  destruct (serviceIo a p) as [[b q]|e| | |] eqn:E.
  2,3,4,5: injection H as <- <-; splits; [cbn [sent flat_map]; rewrite app_nil_r; exact P0|constructor|];
    intros S _; inversion S as [|? ? S1 _]; subst; destruct (serviceIo_ok a p (proj1 Kp) S1) as (x & X); congruence.
  destruct (round_ok a p b q pw Kp E) as (S1 & S2 & S3 & S4). pose proof (newly p q S1) as Nw.
  assert (Ne : Forall (fun e => exists d, e = HSent d) (newly_sent p q)) by (apply Forall_forall; apply newly_events).
  assert (More : np_open q = true -> (let (l0, o0) := hloop ins q in (newly_sent p q ++ l0, o0)) = (l, o) ->
     is_prefix (np_sent p ++ sent l) pk /\
     match o with
     | Ok true => exists l', l = l' ++ [HClosed] /\ Forall (fun e => exists d, e = HSent d) l' /\ Exists gone (HRound a :: ins)
     | _ => Forall (fun e => exists d, e = HSent d) l
     end /\
     (Forall sound (HRound a :: ins) -> zlen (pw ++ received (HRound a :: ins)) < 65536 -> exists b, o = Ok b)).
  { intros Oq Hl. destruct (hloop ins q) as (l0, o0) eqn:E0. injection Hl as <- <-.
    destruct (IH q pw l0 o0 (proj1 (S3 Oq)) E0) as (A & B & C). splits.
    - rewrite sent_app, app_assoc, Nw. exact A.
    - destruct o0 as [[|]| | | |]; try (apply Forall_app; split; [exact Ne|exact B]).
      destruct B as (l' & -> & B2 & B3). exists (newly_sent p q ++ l'). splits; [now rewrite app_assoc|apply Forall_app; auto|now right].
    - intros S L. inversion S; subst. now apply C. }
  destruct b; [destruct (np_open q) eqn:Oq|].
  - now apply More.
  - injection H as <- <-. destruct (S4 eq_refl) as (_ & G). splits.
    + rewrite sent_app. cbn [sent flat_map]. rewrite app_nil_r. fold (sent (newly_sent p q)). rewrite Nw. exact S2.
    + exists (newly_sent p q). splits; auto.
    + eauto.
  - assert (Oq : np_open q = true). { destruct (np_open q) eqn:X; [reflexivity|]. destruct (S4 eq_refl). discriminate. }
    destruct (has_wait q) eqn:Hw; [now apply More|]. injection H as <- <-. splits.
    + rewrite Nw. exact S2.
    + exact Ne.
    + intros S L. cbn [received flat_map app] in L.
      assert (L' : zlen pw < 65536). { rewrite zlen_app in L. pose proof (zlen_nonneg (received ins)) as Nn. unfold received in Nn. lia. }
      pose proof (proj2 (S3 Oq) eq_refl L'). congruence.
Qed.

(** Draining rounds send everything. *)
Lemma hloop_sends : forall svcs p pw l o, K p pw -> Forall draining svcs -> unsent p <= zlen svcs -> zlen pw < 65536 ->
  hloop (map HRound svcs) p = (l, o) -> o = Ok false /\ np_sent p ++ sent l = pk.
Proof.
  induction svcs as [|a svcs IH]; intros p pw l o Kp D U L H; cbn [map hloop] in H.
  - injection H as <- <-. split; [reflexivity|]. cbn [sent flat_map]. rewrite app_nil_r.
    destruct Kp as (W & O & _ & _ & _ & _ & Oi & _). unfold out_inv in Oi. rewrite O in Oi. rewrite <- Oi.
    change (zlen (@nil svc)) with 0 in U. unfold unsent in U.
    pose proof (zlen_nonneg (inflight p)). pose proof (zlen_nonneg (np_outq p)).
    assert (inflight p = [] /\ np_outq p = []) as (-> & ->). { split; apply zlen_0_nil; lia. } now rewrite app_nil_r.
  - inversion D as [|? ? Da Ds]; subst.
    assert (Fw : full_writes a). { destruct Da as (_ & A & _ & _ & B). split; [exact A|]. rewrite B. discriminate. }
    destruct (serviceIo_ok a p (proj1 Kp) Fw) as ((b & q) & E). rewrite E in H.
    destruct (round_ok a p b q pw Kp E) as (S1 & S2 & S3 & S4).
    destruct (draining_step a p b q) as (O' & _ & _ & U' & _); try assumption; try apply Kp.
    destruct (S3 O') as (Kq & Hw). rewrite O' in H.
    assert (G : (let (l0, o0) := hloop (map HRound svcs) q in (newly_sent p q ++ l0, o0)) = (l, o)).
    { destruct b; [exact H|]. rewrite Hw in H by auto. exact H. }
    destruct (hloop (map HRound svcs) q) as (l0, o0) eqn:E0. injection G as <- <-.
    rewrite zlen_cons in U. destruct (IH q pw l0 o0 Kq Ds) as (R1 & R2); [pose proof (zlen_nonneg svcs); lia|exact L|exact E0|].
    split; [exact R1|]. rewrite sent_app, app_assoc, (newly p q S1). exact R2.
Qed.

(** An error on the first read of a round ends the loop. *)
Lemma hloop_ends : forall ins p pw l a rest, K p pw -> zlen (pw ++ received ins) < 65536 -> full_writes a ->
  hloop ins p = (l, Ok false) -> sv_read a = IoError :: rest -> exists l', hloop (ins ++ [HRound a]) p = (l', Ok true).
Proof.
  induction ins as [|i ins IH]; intros p pw l a rest Kp L Fw H Er.
  - cbn [app hloop]. destruct (serviceIo_ok a p (proj1 Kp) Fw) as ((b & q) & E). rewrite E.
    destruct (round_ok a p b q pw Kp E) as (_ & _ & S3 & S4).
    assert (Cl : np_open q = false).
    { destruct Kp as (W & O & C & R & Wr & B & Oi & Ii). unfold serviceIo in E. rewrite O, C in E. cbn [negb bind] in E.
      destruct (np_in p) as [w|] eqn:Ei. 2: { destruct W as (_ & _ & _ & _ & _ & _ & W7). destruct (W7 O C R Ei). }
      rewrite Er in E. rewrite in_service_err in E.
      - cbn [bind] in E. apply bind_Ok in E. destruct E as ((wp & p3) & _ & E). cbn [is_serror orb] in E. injection E as <- <-. apply closePipe_closes.
      - exact O.
      - exact C.
      - exact R.
      - unfold in_inv in Ii. rewrite O in Ii. cbn [app] in Ii. rewrite <- Ii in L. rewrite !zlen_app in L. rewrite B. pose proof (zlen_nonneg (np_peer p)). pose proof (zlen_nonneg (received [])). lia. }
    destruct (S4 Cl) as (-> & _). rewrite Cl. eauto.
  - cbn [app hloop] in *. destruct i as [a0|d].
    + destruct (serviceIo a0 p) as [[b q]|e| | |] eqn:E; try discriminate.
      destruct (round_ok a0 p b q pw Kp E) as (_ & _ & S3 & S4).
      assert (Oq : np_open q = true). { destruct b; [destruct (np_open q); [reflexivity|discriminate]|]. destruct (np_open q); [reflexivity|]. destruct (S4 eq_refl). discriminate. }
      rewrite Oq in *. destruct (hloop ins q) as (l0, o0) eqn:E0.
      assert (o0 = Ok false) as -> by (destruct b; [congruence|]; destruct (has_wait q); congruence).
      destruct (IH q pw l0 a rest (proj1 (S3 eq_refl)) L Fw E0 Er) as (l' & E').
      rewrite E'. destruct b; [eauto|]. destruct (has_wait q); [eauto|discriminate].
    + apply (IH _ (pw ++ d) l a rest (peer_ok d p pw Kp)); auto. cbn [received flat_map] in L. rewrite app_assoc in L. exact L.
Qed.
End Pipe.

Lemma start_K pk p : np_write pk (fresh_pipe false true true) = Ok p -> K pk p [].
Proof.
  intros H. destruct (fresh_inv false true true) as (F1 & F2).
  assert (Hp : pstep (fresh_pipe false true true) (PWrite pk) = Ok (p, [])) by (cbn [pstep]; rewrite H; reflexivity).
  destruct (pstep_inv _ _ _ _ _ _ _ (fresh_wf false true true) F1 F2 Hp) as (A & B & C & D & _).
  unfold np_write in H. cbn [fresh_pipe startPipeWorkers np_writing assert_ bind] in H. unfold K.
  assert (E : np_open p = true /\ np_connecting p = false /\ np_reading p = true /\ np_writing p = true /\ np_rbs p = 65536) by (injection H as <-; splits; reflexivity).
  destruct E as (E1 & E2 & E3 & E4 & E5). splits; auto.
Qed.

Lemma desktop_parts os :
  match can_make os with
  | Some n => backgroundDesktop os = ([EvOpen OStation; EvStation true; EvOpen ODesktop], Ok n)
  | None => exists l, backgroundDesktop os = (l, Throw XWinpty) /\ live l [] = Some [] /\ on_background l false = false
  end.
Proof.
  unfold can_make, backgroundDesktop. destruct os as [o s t d n]. cbn.
  destruct o; cbn; [|eexists; split; [reflexivity|split; reflexivity]].
  destruct s; cbn; [|eexists; split; [reflexivity|split; reflexivity]].
  destruct t; cbn; [|eexists; split; [reflexivity|split; reflexivity]].
  destruct d; cbn; [|eexists; split; [reflexivity|split; reflexivity]].
  destruct n; cbn; [reflexivity|eexists; split; [reflexivity|split; reflexivity]].
Qed.

Lemma dlog_sends l : Forall (fun e => exists d, e = HSent d) l -> desktop_log l = [].
Proof. induction 1 as [|e l (d & ->) _ IH]; [reflexivity|exact IH]. Qed.
Lemma dlog_app a b : desktop_log (a ++ b) = desktop_log a ++ desktop_log b.
Proof. apply flat_map_app. Qed.
Lemma dlog_HD l : desktop_log (map HD l) = l.
Proof. induction l as [|e l IH]; [reflexivity|]. cbn. f_equal. exact IH. Qed.
Lemma sent_HD l : sent (map HD l) = [].
Proof. induction l as [|e l IH]; [reflexivity|exact IH]. Qed.

Definition made : list ev := [EvOpen OStation; EvStation true; EvOpen ODesktop].
Definition unmade : list ev := [EvStation false; EvClose ODesktop; EvClose OStation].
Definition packet_of (name : list Z) : list Z :=
  le_bytes 8 (8 + zlen (flat_map wire (reply_vals (RpDesktop name)))) ++ flat_map wire (reply_vals (RpDesktop name)).

Lemma size_eq l : fold_right (fun x a => x + 256 * a) 0 l = le_value l.
Proof. induction l as [|x l IH]; [reflexivity|]. cbn [fold_right le_value]. now rewrite IH. Qed.
Lemma zlen_units s : zlen (flat_map (le_bytes 2) s) = 2 * zlen s.
Proof. induction s as [|x s IH]; [reflexivity|]. cbn [flat_map]. rewrite zlen_app, zlen_le_bytes, zlen_cons, IH. lia. Qed.

Lemma packet_ok pl name : plat_ok pl -> representable (VStr name) -> storable pl (VStr name) -> zlen name < 2 ^ 31 ->
  tells pl (packet_of name) name.
Proof.
  intros P R S L. split.
  - unfold packet_size, packet_of. set (pay := flat_map wire _).
    assert (F : firstn 8 (le_bytes 8 (8 + zlen pay) ++ pay) = le_bytes 8 (8 + zlen pay)).
    { rewrite firstn_app, le_bytes_length, Nat.sub_diag, firstn_O, app_nil_r. apply firstn_all2. rewrite le_bytes_length. lia. }
    rewrite F, size_eq, le_value_bytes. rewrite zlen_app, zlen_le_bytes. change (Z.of_nat 8) with 8.
    assert (zlen pay < 2 ^ 40).
    { unfold pay. cbn [reply_vals flat_map]. rewrite app_nil_r. unfold wire. rewrite zlen_cons, zlen_app, zlen_le_bytes, zlen_units. lia. }
    pose proof (zlen_nonneg pay). apply Z.mod_small. lia.
  - apply (desktop_reply pl name (packet_of name) P R S). apply sendReply_eq.
Qed.

(** The shape of every run. *)
Lemma shape_none os connects ins : can_make os = None ->
  exists l, handleCreateDesktop os connects ins = (l, Ok true) /\ sent l = [] /\ nothing_left l.
Proof.
  intros N. pose proof (desktop_parts os) as D. rewrite N in D. destruct D as (l & E & L1 & L2).
  unfold handleCreateDesktop. rewrite E. exists (map HD l). splits; [reflexivity|apply sent_HD|]. split; now rewrite dlog_HD.
Qed.
Lemma shape_some os ins name l r : can_make os = Some name -> handleCreateDesktop os true ins = (l, r) ->
  exists p mid, np_write (packet_of name) (fresh_pipe false true true) = Ok p /\ K (packet_of name) p [] /\ np_sent p = [] /\ hloop ins p = (mid, r) /\
    l = map HD made ++ [HConnect] ++ mid ++ match r with Ok true => map HD unmade | _ => [] end.
Proof.
  intros C H. pose proof (desktop_parts os) as D. rewrite C in D. unfold handleCreateDesktop in H. rewrite D in H. cbn [negb] in H.
  rewrite sendReply_eq in H. fold (packet_of name) in H.
  destruct (np_write (packet_of name) (fresh_pipe false true true)) as [p|e| | |] eqn:E; try discriminate.
  destruct (hloop ins p) as (mid, o) eqn:Eh. injection H as <- <-. exists p, mid. splits; auto.
  - now apply start_K.
  - unfold np_write in E. cbn [fresh_pipe startPipeWorkers np_writing assert_ bind] in E. injection E as <-. reflexivity.
Qed.
Lemma no_connection os ins name : can_make os = Some name -> handleCreateDesktop os false ins = (map HD made, AssertFail).
Proof. intros C. pose proof (desktop_parts os) as D. rewrite C in D. unfold handleCreateDesktop. now rewrite D. Qed.

Lemma report pl os connects ins l r name :
  plat_ok pl -> representable (VStr name) -> storable pl (VStr name) -> zlen name < 2 ^ 31 ->
  can_make os = Some name -> handleCreateDesktop os connects ins = (l, r) ->
  exists packet, tells pl packet name /\ is_prefix (sent l) packet.
Proof.
  intros P R S L C H. exists (packet_of name). split; [now apply packet_ok|].
  destruct connects.
  2: { rewrite (no_connection os ins name C) in H. assert (l = map HD made) as -> by congruence. rewrite sent_HD. now exists (packet_of name). }
  destruct (shape_some os ins name l r C H) as (p & mid & Ew & Kp & S0 & Eh & ->).
  destruct (hloop_ok _ ins p [] mid r Kp Eh) as (A & _). rewrite S0 in A. cbn [app] in A.
  rewrite sent_app, sent_HD. cbn [app]. change (sent (HConnect :: ?x)) with (sent x).
  assert (E : sent (match r with Ok true => map HD unmade | _ => [] end) = []) by (destruct r as [[|]| | | |]; reflexivity).
  change (sent (HConnect :: mid ++ match r with Ok true => map HD unmade | _ => [] end)) with (sent (mid ++ match r with Ok true => map HD unmade | _ => [] end)).
  rewrite sent_app, E, app_nil_r. exact A.
Qed.

Lemma split_sends (mid l1 l2 : list hev) x tail :
  Forall (fun e => exists d, e = HSent d) mid -> mid ++ tail = l1 ++ x :: l2 ->
  (exists m1 m2, mid = m1 ++ x :: m2 /\ l1 = m1) \/ (exists t1, l1 = mid ++ t1 /\ tail = t1 ++ x :: l2).
Proof.
  revert l1. induction mid as [|e mid IH]; intros l1 F E.
  - right. exists l1. split; [reflexivity|exact E].
  - inversion F as [|? ? Fe Fm]; subst. destruct l1 as [|y l1]; cbn [app] in E.
    + injection E as <- E. left. exists [], mid. auto.
    + injection E as <- E. destruct (IH l1 Fm E) as [(m1 & m2 & -> & ->)|(t1 & -> & ->)].
      * left. exists (e :: m1), m2. auto.
      * right. exists t1. auto.
Qed.

(** The sends of the loop, then perhaps the closing. *)
Lemma mid_parts os ins name l r : can_make os = Some name -> handleCreateDesktop os true ins = (l, r) ->
  exists sends tail, Forall (fun e => exists d, e = HSent d) sends /\ l = map HD made ++ [HConnect] ++ sends ++ tail /\
    ((r = Ok true /\ tail = HClosed :: map HD unmade /\ Exists gone ins) \/ (r <> Ok true /\ tail = [])).
Proof.
  intros C H. destruct (shape_some os ins name l r C H) as (p & mid & Ew & Kp & S0 & Eh & ->).
  destruct (hloop_ok _ ins p [] mid r Kp Eh) as (_ & B & _).
  destruct r as [[|]| | | |].
  - destruct B as (l' & -> & B2 & B3). exists l', (HClosed :: map HD unmade). splits; auto. cbn [app]. now rewrite <- !app_assoc.
  - exists mid, []. splits; auto. right. split; [discriminate|reflexivity].
  - exists mid, []. splits; auto. right. split; [discriminate|reflexivity].
  - exists mid, []. splits; auto. right. split; [discriminate|reflexivity].
  - exists mid, []. splits; auto. right. split; [discriminate|reflexivity].
  - exists mid, []. splits; auto. right. split; [discriminate|reflexivity].
Qed.

Lemma alive os connects ins l r l1 d l2 : handleCreateDesktop os connects ins = (l, r) -> l = l1 ++ HSent d :: l2 -> desktop_exists l1.
Proof.
  intros H E. destruct (can_make os) as [name|] eqn:C.
  2: { exfalso. destruct (shape_none os connects ins C) as (l' & E' & S & _). pose proof (desktop_parts os) as D. rewrite C in D. destruct D as (l0 & D & _).
       unfold handleCreateDesktop in H. rewrite D in H. assert (l = map HD l0) as -> by congruence. symmetry in E. assert (I : In (HSent d) (map HD l0)) by (rewrite <- E; apply in_elt).
       apply in_map_iff in I. destruct I as (x & I & _). discriminate. }
  destruct connects.
  2: { exfalso. rewrite (no_connection os ins name C) in H. assert (l = map HD made) as -> by congruence. assert (I : In (HSent d) (map HD made)) by (rewrite E; apply in_elt).
       apply in_map_iff in I. destruct I as (x & I & _). discriminate. }
  destruct (mid_parts os ins name l r C H) as (sends & tail & F & El & T). rewrite El in E. clear El.
  assert (E2 : sends ++ tail = skipn 4 l1 ++ HSent d :: l2 /\ firstn 4 l1 = map HD made ++ [HConnect]).
  { destruct l1 as [|x1 [|x2 [|x3 [|x4 l1]]]]; cbn [app made map] in E; try discriminate. injection E as <- <- <- <- E. split; [exact E|reflexivity]. }
  destruct E2 as (E2 & E1). rewrite <- (firstn_skipn 4 l1), E1.
  destruct (split_sends _ _ _ _ _ F E2) as [(m1 & m2 & Em & ->)|(t1 & -> & Et)].
  - rewrite Em in F. apply Forall_app in F. destruct F as (F1 & _). unfold desktop_exists. rewrite !dlog_app, (dlog_sends m1 F1). split; reflexivity.
  - exfalso. destruct T as [(_ & -> & _)|(_ & ->)]; [|destruct t1; discriminate].
    assert (I : In (HSent d) (HClosed :: map HD unmade)) by (rewrite Et; apply in_elt). cbn in I. intuition discriminate.
Qed.

Lemma kept os connects ins l r name l1 o l2 : can_make os = Some name -> handleCreateDesktop os connects ins = (l, r) ->
  l = l1 ++ HD (EvClose o) :: l2 -> In HClosed l1 /\ Exists gone ins.
Proof.
  intros C H E. destruct connects.
  2: { exfalso. rewrite (no_connection os ins name C) in H. assert (l = map HD made) as -> by congruence. assert (I : In (HD (EvClose o)) (map HD made)) by (rewrite E; apply in_elt). cbn in I. intuition discriminate. }
  destruct (mid_parts os ins name l r C H) as (sends & tail & F & El & T). rewrite El in E. clear El.
  destruct l1 as [|x1 [|x2 [|x3 [|x4 l1]]]]; cbn [app made map] in E; try discriminate. injection E as <- <- <- <- E.
  destruct (split_sends _ _ _ _ _ F E) as [(m1 & m2 & Em & ->)|(t1 & -> & Et)].
  - exfalso. rewrite Em in F. apply Forall_app in F. destruct F as (_ & F). inversion F as [|? ? (d & h) _]. discriminate.
  - destruct T as [(_ & -> & G)|(_ & ->)]; [|destruct t1; discriminate]. split; [|exact G].
    destruct t1 as [|x t1]; cbn [app] in Et; [discriminate|]. injection Et as <- _. do 4 right. apply in_or_app. right. now left.
Qed.

Lemma clean os connects ins l : handleCreateDesktop os connects ins = (l, Ok true) -> nothing_left l.
Proof.
  intros H. destruct (can_make os) as [name|] eqn:C.
  2: { destruct (shape_none os connects ins C) as (l' & E' & _ & N). rewrite E' in H. injection H as <-. exact N. }
  destruct connects; [|rewrite (no_connection os ins name C) in H; discriminate].
  destruct (mid_parts os ins name l _ C H) as (sends & tail & F & -> & [(_ & -> & _)|(X & _)]); [|now destruct X].
  unfold nothing_left. rewrite !dlog_app, (dlog_sends sends F). split; reflexivity.
Qed.

Lemma ends os ins l a rest name : can_make os = Some name -> Forall sound ins -> zlen (received ins) < 65536 -> full_writes a ->
  handleCreateDesktop os true ins = (l, Ok false) -> sv_read a = IoError :: rest ->
  exists l', handleCreateDesktop os true (ins ++ [HRound a]) = (l', Ok true).
Proof.
  intros C S L Fw H Er. destruct (shape_some os ins name l _ C H) as (p & mid & Ew & Kp & S0 & Eh & _).
  destruct (hloop_ends _ ins p [] mid a rest Kp L Fw Eh Er) as (l' & E').
  unfold handleCreateDesktop in *. pose proof (desktop_parts os) as D. rewrite C in D. rewrite D in *. cbn [negb] in *. rewrite sendReply_eq in *. fold (packet_of name) in *.
  rewrite Ew. rewrite E'. eexists. reflexivity.
Qed.

Lemma no_failure os ins l r : Forall sound ins -> zlen (received ins) < 65536 -> handleCreateDesktop os true ins = (l, r) ->
  exists b, r = Ok b.
Proof.
  intros S L H. destruct (can_make os) as [name|] eqn:C.
  - destruct (shape_some os ins name l r C H) as (p & mid & Ew & Kp & S0 & Eh & _). exact (proj2 (proj2 (hloop_ok _ ins p [] mid r Kp Eh)) S L).
  - destruct (shape_none os true ins C) as (l' & E' & _). exists true. congruence.
Qed.

Lemma goes_out pl os svcs l r name :
  plat_ok pl -> representable (VStr name) -> storable pl (VStr name) -> zlen name < 2 ^ 31 -> can_make os = Some name ->
  Forall draining svcs -> 2 * zlen name + 17 <= zlen svcs -> handleCreateDesktop os true (map HRound svcs) = (l, r) ->
  r = Ok false /\ tells pl (sent l) name.
Proof.
  intros P R S L C D N H. destruct (shape_some os _ name l r C H) as (p & mid & Ew & Kp & S0 & Eh & ->).
  assert (U : unsent p <= zlen svcs).
  { unfold np_write in Ew. cbn [fresh_pipe startPipeWorkers np_writing assert_ bind] in Ew. injection Ew as <-. unfold unsent. cbn [inflight np_out np_outq app new_worker w_pending].
    unfold packet_of. rewrite zlen_app, zlen_le_bytes. cbn [reply_vals flat_map]. rewrite app_nil_r. unfold wire. rewrite zlen_cons, zlen_app, zlen_le_bytes, zlen_units. change (zlen []) with 0. lia. }
  destruct (hloop_sends _ svcs p [] mid r Kp D U) as (-> & E); [reflexivity|exact Eh|]. split; [reflexivity|].
  rewrite S0 in E. cbn [app] in E. rewrite app_nil_r. change (sent (map HD made ++ [HConnect] ++ mid)) with (sent mid). rewrite E. now apply packet_ok.
Qed.
