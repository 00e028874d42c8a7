From Verif Require Import Base BaseLemmas NamedPipe NamedPipeSpec.

Definition inflight (p : pipe) : list Z :=
  match np_out p with Some w => if w_pending w then w_buf w else [] | None => [] end.

Definition pend_ok (o : option worker) : bool :=
  match o with
  | Some w => if w_pending w then (w_size w =? zlen (w_buf w)) && (0 <? w_size w) else true
  | None => true
  end.

Lemma pend_ok_buf w : pend_ok (Some w) = true -> w_pending w = true -> w_size w = zlen (w_buf w) /\ 0 < w_size w.
Proof. cbn. intros H E. rewrite E, andb_true_iff in H. lia. Qed.

Lemma pend_ok_chunk (b : Z) bq n : n = Z.min (zlen (b :: bq)) kIoSize ->
  pend_ok (Some {| w_pending := true; w_size := n; w_buf := zfirstn n (b :: bq) |}) = true.
Proof.
  intros ->. cbn [pend_ok w_pending w_size w_buf]. rewrite zlen_zfirstn, zlen_cons.
  pose proof (zlen_nonneg bq). unfold kIoSize. lia.
Qed.

(** Structural invariant of the workers. *)
Definition wf (p : pipe) : Prop :=
  (np_connecting p = true -> np_in p = None /\ np_out p = None) /\
  (np_open p = false -> np_in p = None /\ np_out p = None /\ np_connecting p = false) /\
  pend_ok (np_out p) = true /\
  (forall w, np_in p = Some w -> np_reading p = true) /\
  (forall w, np_out p = Some w -> np_writing p = true) /\
  (np_open p = true -> np_connecting p = false -> np_writing p = true -> np_out p <> None) /\
  (np_open p = true -> np_connecting p = false -> np_reading p = true -> np_in p <> None).

(** Stream invariants relative to the history. *)
Definition out_inv (p : pipe) (wr : list Z) : Prop :=
  if np_open p then np_sent p ++ inflight p ++ np_outq p = wr
  else is_prefix (np_sent p) wr.
Definition in_inv (p : pipe) (dl pw : list Z) : Prop :=
  if np_open p then dl ++ np_inq p ++ np_peer p = pw
  else is_prefix (dl ++ np_inq p) pw.

Definition same_mode (p q : pipe) : Prop :=
  np_reading q = np_reading p /\ np_writing q = np_writing p.

(** *** Input worker *)
Definition in_frame (p q : pipe) : Prop :=
  np_open q = np_open p /\ np_connecting q = np_connecting p /\ same_mode p q /\
  np_rbs q = np_rbs p /\ np_outq q = np_outq p /\ np_out q = np_out p /\ np_sent q = np_sent p /\
  np_in q <> None /\ np_inq q ++ np_peer q = np_inq p ++ np_peer p /\ is_prefix (np_inq p) (np_inq q).

Lemma in_frame_set p w q peer :
  q ++ peer = np_inq p ++ np_peer p -> is_prefix (np_inq p) q -> in_frame p (set_inq p q peer w).
Proof.
  intros H H2. unfold in_frame, same_mode, set_inq; cbn. repeat split; try discriminate; auto.
Qed.

Lemma is_prefix_refl {A} (l : list A) : is_prefix l l.
Proof. exists []; now rewrite app_nil_r. Qed.
Lemma is_prefix_trans {A} (a b c : list A) : is_prefix a b -> is_prefix b c -> is_prefix a c.
Proof. intros [x ->] [y ->]. exists (x ++ y). now rewrite app_assoc. Qed.
Lemma is_prefix_app {A} (a b : list A) : is_prefix a (a ++ b).
Proof. now exists b. Qed.

Lemma in_frame_trans p q r : in_frame p q -> in_frame q r -> in_frame p r.
Proof.
  unfold in_frame, same_mode. intros (A1&A2&(A3&A3')&A4&A5&A6&A7&A8&A9&A10) (B1&B2&(B3&B3')&B4&B5&B6&B7&B8&B9&B10).
  repeat split; try congruence. eapply is_prefix_trans; eassumption.
Qed.

Lemma in_loop_frame ans p pr r q :
  np_in p <> None -> in_loop ans p pr = Ok (r, q) -> in_frame p q.
Proof.
  revert p pr; induction ans as [|a ans IH]; intros p pr Hw H; cbn [in_loop] in H;
    destruct (in_should_issue p) as [[|]| | | |]; cbn [bind] in H; try discriminate.
  - injection H as <- <-. apply in_frame_set; [reflexivity|apply is_prefix_refl].
  - injection H as <- <-. repeat split; auto using is_prefix_refl.
  - destruct a as [s| |].
    + eapply in_frame_trans; [|eapply IH; [|exact H]; cbn; discriminate].
      apply in_frame_set; [rewrite <- app_assoc, zfirstn_zskipn; reflexivity|apply is_prefix_app].
    + injection H as <- <-. apply in_frame_set; [reflexivity|apply is_prefix_refl].
    + injection H as <- <-. repeat split; auto using is_prefix_refl.
  - injection H as <- <-. repeat split; auto using is_prefix_refl.
Qed.

Lemma in_service_frame ans p w r q :
  np_in p = Some w -> in_service ans p w = Ok (r, q) -> in_frame p q.
Proof.
  intros Hw H. assert (Hn : np_in p <> None) by congruence. unfold in_service in H.
  destruct (w_pending w).
  - destruct ans as [|[s| |] ans].
    + injection H as <- <-. repeat split; auto using is_prefix_refl.
    + eapply in_frame_trans; [|eapply in_loop_frame; [|exact H]; cbn; discriminate].
      apply in_frame_set; [rewrite <- app_assoc, zfirstn_zskipn; reflexivity|apply is_prefix_app].
    + injection H as <- <-. repeat split; auto using is_prefix_refl.
    + injection H as <- <-. repeat split; auto using is_prefix_refl.
  - eapply in_loop_frame; eassumption.
Qed.

(** *** Output worker *)
Definition out_frame (p q : pipe) : Prop :=
  np_open q = np_open p /\ np_connecting q = np_connecting p /\ same_mode p q /\
  np_rbs q = np_rbs p /\ np_inq q = np_inq p /\ np_in q = np_in p /\ np_peer q = np_peer p /\
  np_out q <> None /\
  pend_ok (np_out q) = true.

Definition out_all (p : pipe) : list Z := np_sent p ++ inflight p ++ np_outq p.

Lemma out_loop_spec ans p pr r q :
  np_out p <> None -> inflight p = [] ->
  pend_ok (np_out p) = true ->
  out_loop ans p pr = Ok (r, q) ->
  out_frame p q /\ (r <> SError -> out_all q = out_all p) /\ is_prefix (np_sent q ++ inflight q) (out_all p) /\
  is_prefix (np_sent p) (np_sent q).
Proof.
  revert p pr; induction ans as [|a ans IH]; intros p pr Hw Hi Hs H; cbn [out_loop] in H.
  - destruct (np_outq p) as [|b bq] eqn:Eq.
    + injection H as <- <-. repeat split; auto using is_prefix_refl.
      unfold out_all. rewrite app_assoc. apply is_prefix_app.
    + injection H as <- <-.
      assert (Ha : np_sent p ++ zfirstn (Z.min (zlen (b :: bq)) kIoSize) (b :: bq) ++
                   zskipn (Z.min (zlen (b :: bq)) kIoSize) (b :: bq) = out_all p).
      { rewrite zfirstn_zskipn. unfold out_all. rewrite Hi, Eq. reflexivity. }
      repeat split; try (cbn; discriminate); auto.
      * apply pend_ok_chunk; reflexivity.
      * exists (zskipn (Z.min (zlen (b :: bq)) kIoSize) (b :: bq)). cbn [set_outq np_sent np_outq np_out inflight w_pending w_buf].
        rewrite <- app_assoc. symmetry. exact Ha.
      * cbn. apply is_prefix_refl.
  - destruct (np_outq p) as [|b bq] eqn:Eq.
    + injection H as <- <-. repeat split; auto using is_prefix_refl.
      unfold out_all. rewrite app_assoc. apply is_prefix_app.
    + set (n := Z.min (zlen (b :: bq)) kIoSize) in *.
      set (buf := zfirstn n (b :: bq)) in *. set (rest := zskipn n (b :: bq)) in *.
      assert (Ha : np_sent p ++ buf ++ rest = out_all p).
      { unfold buf, rest. rewrite zfirstn_zskipn. unfold out_all. rewrite Hi, Eq. reflexivity. }
      destruct a as [s| |].
      * unfold out_complete in H.
        destruct (Z.max 0 (zlen buf - Z.max 0 s) =? zlen buf) eqn:En; cbn [assert_ bind] in H; [|discriminate].
        assert (En' : zfirstn (Z.max 0 (zlen buf - Z.max 0 s)) buf = buf) by (apply zfirstn_all; lia).
        rewrite En' in H. 
        specialize (IH (set_outq (set_outq p rest (np_sent p) {| w_pending := false; w_size := n; w_buf := buf |})
                        rest (np_sent p ++ buf) new_worker) Progress).
        destruct IH as (F & A & P & P2); [cbn; discriminate|reflexivity|reflexivity|exact H|].
        assert (Eall : out_all (set_outq (set_outq p rest (np_sent p) {| w_pending := false; w_size := n; w_buf := buf |})
                        rest (np_sent p ++ buf) new_worker) = out_all p).
        { rewrite <- Ha. unfold out_all; cbn. now rewrite <- app_assoc. }
        rewrite Eall in *. repeat split.
        -- destruct F as (F1&_); exact F1.
        -- destruct F as (_&F1&_); exact F1.
        -- destruct F as (_&_&(F1&_)&_); exact F1.
        -- destruct F as (_&_&(_&F1)&_); exact F1.
        -- destruct F as (_&_&_&F1&_); exact F1.
        -- destruct F as (_&_&_&_&F1&_); exact F1.
        -- destruct F as (_&_&_&_&_&F1&_); exact F1.
        -- destruct F as (_&_&_&_&_&_&F1&_); exact F1.
        -- destruct F as (_&_&_&_&_&_&_&F1&_); exact F1.
        -- destruct F as (_&_&_&_&_&_&_&_&F1); exact F1.
        -- exact A.
        -- exact P.
        -- eapply is_prefix_trans; [|exact P2]. cbn. apply is_prefix_app.
      * injection H as <- <-. repeat split; try (cbn; discriminate); auto.
        -- apply pend_ok_chunk; reflexivity.
        -- exists rest. cbn [set_outq np_sent np_outq np_out inflight w_pending w_buf].
           rewrite <- app_assoc. symmetry. exact Ha.
        -- cbn. apply is_prefix_refl.
      * injection H as <- <-. repeat split; try (cbn; discriminate); auto.
        -- congruence.
        -- exists (buf ++ rest). cbn. rewrite app_nil_r. symmetry. exact Ha.
        -- cbn. apply is_prefix_refl.
Qed.

Lemma out_service_spec ans p w r q :
  np_out p = Some w ->
  pend_ok (np_out p) = true ->
  out_service ans p w = Ok (r, q) ->
  out_frame p q /\ (r <> SError -> out_all q = out_all p) /\ is_prefix (np_sent q ++ inflight q) (out_all p) /\
  is_prefix (np_sent p) (np_sent q).
Proof.
  intros Hw Hs H. assert (Hn : np_out p <> None) by congruence.
  assert (Hself : out_frame p p /\ (r <> SError -> out_all p = out_all p) /\ is_prefix (np_sent p ++ inflight p) (out_all p) /\
    is_prefix (np_sent p) (np_sent p)).
  { repeat split; auto using is_prefix_refl. unfold out_all. rewrite app_assoc. apply is_prefix_app. }
  unfold out_service in H.
  destruct (w_pending w) eqn:Ep.
  - destruct ans as [|[s| |] ans].
    + injection H as <- <-. exact Hself.
    + unfold out_complete in H.
      destruct (Z.max 0 (zlen (w_buf w) - Z.max 0 s) =? zlen (w_buf w)) eqn:En; cbn [assert_ bind] in H; [|discriminate].
      rewrite zfirstn_all in H by lia.
      destruct (out_loop_spec _ (set_outq p (np_outq p) (np_sent p ++ w_buf w) new_worker) _ _ _ ltac:(cbn; discriminate) eq_refl eq_refl H) as (F & A & P & P2).
      assert (Eall : out_all (set_outq p (np_outq p) (np_sent p ++ w_buf w) new_worker) = out_all p).
      { unfold out_all, inflight; cbn. rewrite Hw, Ep. now rewrite <- app_assoc. }
      rewrite Eall in *.
      split; [exact F|]. split; [exact A|]. split; [exact P|].
      eapply is_prefix_trans; [|exact P2]. cbn. apply is_prefix_app.
    + injection H as <- <-. exact Hself.
    + injection H as <- <-. exact Hself.
  - eapply out_loop_spec; [exact Hn| |exact Hs|exact H]. unfold inflight. now rewrite Hw, Ep.
Qed.

(** *** The whole service call *)
Lemma closePipe_inv kr kw p dl wr pw :
  np_open p = true -> wf p ->
  is_prefix (np_sent p ++ inflight p) wr -> dl ++ np_inq p ++ np_peer p = pw ->
  wf (closePipe kr kw p) /\ out_inv (closePipe kr kw p) wr /\ in_inv (closePipe kr kw p) dl pw.
Proof.
  intros Ho Hwf Hp Hd. unfold closePipe. rewrite Ho. cbn [negb].
  split; [|split].
  - repeat split; try (cbn; intros; discriminate); cbn; intros; discriminate.
  - unfold out_inv; cbn [np_open np_sent]. unfold inflight in Hp.
    destruct (np_out p) as [w|]; [destruct (w_pending w)|]; rewrite ?app_nil_r in *; try exact Hp.
    eapply is_prefix_trans; [|exact Hp]. rewrite <- (zfirstn_zskipn kw (w_buf w)) at 2.
    rewrite app_assoc. apply is_prefix_app.
  - unfold in_inv; cbn [np_open np_inq]. exists (np_peer p). now rewrite <- app_assoc.
Qed.

Lemma closePipe_closed kr kw p : np_open p = false -> closePipe kr kw p = p.
Proof. intros H; unfold closePipe; now rewrite H. Qed.

Lemma in_frame_wf p q : np_in p <> None -> np_connecting p = false -> np_open p = true -> wf p -> in_frame p q -> wf q.
Proof.
  intros Hn Hc Ho (W1&W2&W3&W4&W5&W6&W7) (F1&F2&(F3&F3')&F4&F5&F6&F7&F8&F9&F10).
  unfold wf. rewrite F1, F2, F3, F3', F6. repeat split; try congruence.
  - intros w _. destruct (np_in p) as [w'|] eqn:E; [|congruence]. exact (W4 w' eq_refl).
  - exact W5.
  - exact W6.
Qed.

Lemma out_frame_wf p q : np_out p <> None -> np_connecting p = false -> np_open p = true -> wf p -> out_frame p q -> wf q.
Proof.
  intros Hn Hc Ho (W1&W2&W3&W4&W5&W6&W7) (F1&F2&(F3&F3')&F4&F5&F6&F7&F8&F9).
  unfold wf. rewrite F1, F2, F3, F3', F6. repeat split; try congruence.
  - exact W4.
  - intros w _. destruct (np_out p) as [w'|] eqn:E; [|congruence]. exact (W5 w' eq_refl).
  - exact W7.
Qed.

Lemma startPipeWorkers_wf p : np_open p = true -> np_in p = None -> np_out p = None -> wf (startPipeWorkers p).
Proof.
  intros Ho Hi Hu. unfold wf, startPipeWorkers; cbn. rewrite Ho, Hi, Hu.
  repeat split; try discriminate.
  - destruct (np_writing p); reflexivity.
  - intros w E. destruct (np_reading p); [reflexivity|discriminate].
  - intros w E. destruct (np_writing p); [reflexivity|discriminate].
  - intros _ _ H. rewrite H. discriminate.
  - intros _ _ H. rewrite H. discriminate.
Qed.

Lemma same_mode_refl p : same_mode p p.
Proof. split; reflexivity. Qed.
#[local] Hint Resolve same_mode_refl is_prefix_refl : core.
Ltac splits := repeat match goal with |- _ /\ _ => split end.

(** What one service call does to the streams. *)
Lemma serviceIo_inv a p b q dl wr pw :
  wf p -> out_inv p wr -> in_inv p dl pw -> serviceIo a p = Ok (b, q) ->
  wf q /\ out_inv q wr /\ in_inv q dl pw /\ same_mode p q /\
  (np_open p = false -> q = p) /\ is_prefix (np_sent p) (np_sent q).
Proof.
  intros Hwf Ho Hi H. unfold serviceIo in H.
  destruct (np_open p) eqn:Eo; cbn [negb] in H.
  2: { injection H as <- <-. splits; auto using is_prefix_refl. }
  unfold out_inv in Ho; unfold in_inv in Hi. rewrite Eo in Ho, Hi.
  (* connection *)
  apply bind_Ok in H. destruct H as ((just & p1) & Hc & H).
  assert (H1 : wf p1 /\ np_open p1 = true /\ out_all p1 = wr /\ dl ++ np_inq p1 ++ np_peer p1 = pw /\
               same_mode p p1 /\ np_sent p1 = np_sent p /\
               (np_in p1 <> None -> np_connecting p1 = false) /\ (np_out p1 <> None -> np_connecting p1 = false)).
  { destruct (np_connecting p) eqn:Ec.
    - destruct (proj1 Hwf Ec) as (Hin & Hout).
      destruct (sv_conn a); [| |discriminate]; injection Hc as <- <-.
      + split; [now apply startPipeWorkers_wf|].
        split; [exact Eo|]. split.
        { rewrite <- Ho. unfold out_all, inflight, startPipeWorkers; cbn. rewrite Hout.
          destruct (np_writing p); reflexivity. }
        split; [exact Hi|]. splits; auto; split; reflexivity.
      + splits; auto; congruence.
    - injection Hc as <- <-. splits; auto. }
  clear Hc Ho Hi Hwf. destruct H1 as (W1 & O1 & A1 & I1 & M1 & S1 & Ci1 & Co1).
  (* input *)
  apply bind_Ok in H. destruct H as ((rp & p2) & Hr & H).
  assert (H2 : wf p2 /\ np_open p2 = true /\ out_all p2 = wr /\ dl ++ np_inq p2 ++ np_peer p2 = pw /\
               same_mode p p2 /\ np_sent p2 = np_sent p /\ (np_out p2 <> None -> np_connecting p2 = false)).
  { destruct (np_in p1) as [w|] eqn:Ew.
    - pose proof (in_service_frame _ _ _ _ _ Ew Hr) as F.
      split; [eapply in_frame_wf; [| | |exact W1|exact F]; [congruence|apply Ci1; congruence|exact O1]|].
      destruct F as (F1&F2&(F3&F3')&F4&F5&F6&F7&F8&F9&F10).
      split; [congruence|]. split; [unfold out_all, inflight in *; rewrite F5, F6, F7; exact A1|].
      split; [rewrite F9; exact I1|]. destruct M1 as (M1 & M1').
      split; [split; congruence|]. split; [congruence|].
      rewrite F6, F2. exact Co1.
    - injection Hr as <- <-. splits; auto. }
  clear Hr W1 O1 A1 I1 M1 S1 Ci1 Co1. destruct H2 as (W2 & O2 & A2 & I2 & M2 & S2 & Co2).
  (* output *)
  apply bind_Ok in H. destruct H as ((wp & p3) & Hw & H).
  assert (H3 : wf p3 /\ np_open p3 = true /\ (wp <> SError -> out_all p3 = wr) /\
               is_prefix (np_sent p3 ++ inflight p3) wr /\ dl ++ np_inq p3 ++ np_peer p3 = pw /\
               same_mode p p3 /\ is_prefix (np_sent p) (np_sent p3)).
  { destruct (np_out p2) as [w|] eqn:Ew.
    - destruct (out_service_spec _ _ _ _ _ Ew ltac:(apply W2) Hw) as (F & A & P & P2).
      split; [eapply out_frame_wf; [| | |exact W2|exact F]; [congruence|apply Co2; congruence|exact O2]|].
      destruct F as (F1&F2&(F3&F3')&F4&F5&F6&F7&F8&F9).
      split; [congruence|]. rewrite A2 in *. split; [exact A|]. split; [exact P|].
      split; [rewrite F5, F7; exact I2|]. destruct M2 as (M2 & M2').
      split; [split; congruence|]. rewrite <- S2. exact P2.
    - injection Hw as <- <-. splits; auto.
      + rewrite <- A2. unfold out_all. rewrite app_assoc. apply is_prefix_app.
      + rewrite S2. apply is_prefix_refl. }
  clear Hw W2 O2 A2 I2 M2 S2 Co2. destruct H3 as (W3 & O3 & A3 & P3 & I3 & M3 & S3).
  destruct (is_serror rp || is_serror wp) eqn:Ee.
  - injection H as <- <-.
    destruct (closePipe_inv (sv_kr a) (sv_kw a) p3 dl wr pw O3 W3 P3 I3) as (C1 & C2 & C3).
    split; [exact C1|]. split; [exact C2|]. split; [exact C3|].
    split; [unfold closePipe; rewrite O3; exact M3|]. split; [congruence|].
    eapply is_prefix_trans; [exact S3|]. unfold closePipe; rewrite O3; cbn. apply is_prefix_app.
  - injection H as <- <-. split; [exact W3|]. unfold out_inv, in_inv. rewrite O3.
    split; [apply A3; destruct wp; [discriminate|discriminate|destruct rp; discriminate]|].
    split; [exact I3|]. split; [exact M3|]. split; [congruence|exact S3].
Qed.

Lemma pstep_inv p o q d dl wr pw :
  wf p -> out_inv p wr -> in_inv p dl pw -> pstep p o = Ok (q, d) ->
  wf q /\ out_inv q (wr ++ written_by o) /\ in_inv q (dl ++ d) (pw ++ peer_by o) /\ same_mode p q /\
  is_prefix (np_sent p) (np_sent q).
Proof.
  intros Hwf Ho Hi H. destruct o as [a|w|n| |n|kr kw|w]; cbn [pstep written_by peer_by] in *; rewrite ?app_nil_r.
  - apply bind_Ok in H. destruct H as ((b & p1) & H1 & H2). injection H2 as <- <-.
    destruct (serviceIo_inv _ _ _ _ _ _ _ Hwf Ho Hi H1) as (A & B & C & D & _ & E). rewrite app_nil_r. auto.
  - apply bind_Ok in H. destruct H as (p1 & H1 & H2). injection H2 as <- <-. rewrite app_nil_r.
    unfold np_write in H1. destruct (np_writing p) eqn:Ew; cbn [assert_ bind] in H1; [|discriminate].
    injection H1 as <-. split; [|split; [|split; [|split]]].
    + unfold wf in *; cbn; rewrite Ew in Hwf; exact Hwf.
    + unfold out_inv in *; cbn. unfold inflight in *; cbn. destruct (np_open p).
      * rewrite <- Ho, <- !app_assoc. reflexivity.
      * eapply is_prefix_trans; [exact Ho|apply is_prefix_app].
    + exact Hi.
    + split; cbn; congruence.
    + cbn. apply is_prefix_refl.
  - apply bind_Ok in H. destruct H as ((d1 & p1) & H1 & H2). injection H2 as <- <-.
    unfold np_read, np_peek in H1. destruct (np_reading p) eqn:Er; cbn [assert_ bind] in H1; [|discriminate].
    injection H1 as <- <-. split; [|split; [|split; [|split]]].
    + unfold wf in *; cbn; first [exact Hwf | rewrite Er in Hwf; exact Hwf].
    + exact Ho.
    + set (k := Z.min n (zlen (np_inq p))).
      assert (Hsplit : zfirstn k (np_inq p) ++ zskipn (zlen (zfirstn k (np_inq p))) (np_inq p) = np_inq p).
      { destruct (Z.le_gt_cases k 0) as [Hk|Hk].
        - rewrite (zfirstn_neg k) by lia. rewrite zlen_nil, zskipn_neg by lia. reflexivity.
        - rewrite zlen_zfirstn. replace (Z.min (Z.max 0 k) (zlen (np_inq p))) with k by lia.
          apply zfirstn_zskipn. }
      unfold in_inv in *; cbn. destruct (np_open p).
      * rewrite <- Hi, <- !app_assoc. f_equal. rewrite app_assoc, Hsplit. reflexivity.
      * rewrite <- app_assoc, Hsplit. exact Hi.
    + split; reflexivity.
    + cbn. apply is_prefix_refl.
  - apply bind_Ok in H. destruct H as ((d1 & p1) & H1 & H2). injection H2 as <- <-.
    unfold np_readAll in H1. destruct (np_reading p) eqn:Er; cbn [assert_ bind] in H1; [|discriminate].
    injection H1 as <- <-. split; [|split; [|split; [|split]]].
    + unfold wf in *; cbn; first [exact Hwf | rewrite Er in Hwf; exact Hwf].
    + exact Ho.
    + unfold in_inv in *; cbn. destruct (np_open p).
      * rewrite <- Hi, <- !app_assoc. reflexivity.
      * rewrite app_nil_r. exact Hi.
    + split; reflexivity.
    + cbn. apply is_prefix_refl.
  - apply bind_Ok in H. destruct H as (p1 & H1 & H2). injection H2 as <- <-. rewrite app_nil_r.
    unfold setReadBufferSize in H1. destruct (np_reading p) eqn:Er; cbn [assert_ bind] in H1; [|discriminate].
    injection H1 as <-. split; [|split; [|split; [|split]]].
    + unfold wf in *; cbn; first [exact Hwf | rewrite Er in Hwf; exact Hwf].
    + exact Ho.
    + exact Hi.
    + split; cbn; congruence.
    + cbn. apply is_prefix_refl.
  - injection H as <- <-. rewrite app_nil_r.
    destruct (np_open p) eqn:Eo.
    + unfold out_inv in Ho; unfold in_inv in Hi; rewrite Eo in Ho, Hi.
      assert (Hp : is_prefix (np_sent p ++ inflight p) wr).
      { rewrite <- Ho, app_assoc. apply is_prefix_app. }
      destruct (closePipe_inv kr kw p dl wr pw Eo Hwf Hp Hi) as (C1 & C2 & C3).
      split; [exact C1|]. split; [exact C2|]. split; [exact C3|].
      unfold closePipe; rewrite Eo; cbn. split; [split; reflexivity|apply is_prefix_app].
    + rewrite closePipe_closed by exact Eo. splits; auto using is_prefix_refl.
  - injection H as <- <-. rewrite app_nil_r. split; [|split; [|split; [|split]]].
    + exact Hwf.
    + exact Ho.
    + unfold in_inv in *; cbn. destruct (np_open p).
      * rewrite <- Hi, <- !app_assoc. reflexivity.
      * eapply is_prefix_trans; [exact Hi|apply is_prefix_app].
    + split; reflexivity.
    + cbn. apply is_prefix_refl.
Qed.

Lemma prun_inv ops p q d dl wr pw :
  wf p -> out_inv p wr -> in_inv p dl pw -> prun ops p = Ok (q, d) ->
  wf q /\ out_inv q (wr ++ written ops) /\ in_inv q (dl ++ d) (pw ++ peer_written ops) /\ same_mode p q /\
  is_prefix (np_sent p) (np_sent q).
Proof.
  revert p d dl wr pw; induction ops as [|o ops IH]; intros p d dl wr pw Hwf Ho Hi H; cbn [prun] in H.
  - injection H as <- <-. unfold written, peer_written; cbn. rewrite !app_nil_r.
    splits; auto using is_prefix_refl.
  - apply bind_Ok in H. destruct H as ((p1 & d1) & H1 & H).
    apply bind_Ok in H. destruct H as ((p2 & d2) & H2 & H3). injection H3 as <- <-.
    destruct (pstep_inv _ _ _ _ _ _ _ Hwf Ho Hi H1) as (A1 & A2 & A3 & (A4 & A4') & A5).
    destruct (IH _ _ _ _ _ A1 A2 A3 H2) as (B1 & B2 & B3 & (B4 & B4') & B5).
    unfold written, peer_written in *; cbn [flat_map].
    rewrite !app_assoc. splits; try assumption; try congruence.
    { split; congruence. } eapply is_prefix_trans; eassumption.
Qed.

Lemma fresh_wf c r w : wf (fresh_pipe c r w).
Proof.
  destruct c, r, w; unfold wf, fresh_pipe, startPipeWorkers, new_worker; cbn;
    (repeat split; intros; try congruence; try reflexivity; try discriminate).
  all: repeat match goal with H : Some _ = Some _ |- _ => injection H as <- end; try discriminate; try reflexivity.
Qed.

Lemma fresh_inv c r w : out_inv (fresh_pipe c r w) [] /\ in_inv (fresh_pipe c r w) [] [].
Proof. destruct c, r, w; split; reflexivity. Qed.

Lemma prun_fresh ops c r w q d :
  prun ops (fresh_pipe c r w) = Ok (q, d) ->
  wf q /\ out_inv q (written ops) /\ in_inv q d (peer_written ops) /\ same_mode (fresh_pipe c r w) q.
Proof.
  intros H. destruct (fresh_inv c r w) as (F1 & F2).
  destruct (prun_inv _ _ _ _ _ _ _ (fresh_wf c r w) F1 F2 H) as (A & B & C & D & _). auto.
Qed.

(** *** Property lemmas *)
Lemma reader_prefix ops c r w q d :
  prun ops (fresh_pipe c r w) = Ok (q, d) -> is_prefix d (peer_written ops).
Proof.
  intros H. destruct (prun_fresh _ _ _ _ _ _ H) as (_ & _ & Hi & _). unfold in_inv in Hi.
  destruct (np_open q).
  - rewrite <- Hi. apply is_prefix_app.
  - eapply is_prefix_trans; [apply is_prefix_app|exact Hi].
Qed.

Lemma reader_nothing_lost ops c r w q d :
  prun ops (fresh_pipe c r w) = Ok (q, d) -> np_open q = true ->
  d ++ np_inq q ++ np_peer q = peer_written ops.
Proof.
  intros H Ho. destruct (prun_fresh _ _ _ _ _ _ H) as (_ & _ & Hi & _). unfold in_inv in Hi. now rewrite Ho in Hi.
Qed.

Lemma writer_prefix ops c r w q d :
  prun ops (fresh_pipe c r w) = Ok (q, d) -> is_prefix (np_sent q) (written ops).
Proof.
  intros H. destruct (prun_fresh _ _ _ _ _ _ H) as (_ & Ho & _ & _). unfold out_inv in Ho.
  destruct (np_open q); [|exact Ho]. rewrite <- Ho. apply is_prefix_app.
Qed.

Lemma bytesToSend_eq p wr n : wf p -> np_open p = true -> out_inv p wr -> bytesToSend p = Ok n ->
  n = zlen wr - zlen (np_sent p).
Proof.
  intros Hwf Ho Hi H. unfold bytesToSend in H. destruct (np_writing p); cbn [assert_ bind] in H; [|discriminate].
  injection H as <-. unfold out_inv in Hi; rewrite Ho in Hi. rewrite <- Hi, !zlen_app. unfold inflight.
  destruct Hwf as (_ & _ & W3 & _). destruct (np_out p) as [w|]; [|unfold zlen; cbn [length]; lia].
  destruct (w_pending w) eqn:Ep; [rewrite (proj1 (pend_ok_buf _ W3 Ep)); lia|unfold zlen; cbn [length]; lia].
Qed.

Lemma bytesToSend_exact ops c r q d n :
  prun ops (fresh_pipe c r true) = Ok (q, d) -> np_open q = true -> bytesToSend q = Ok n ->
  n = zlen (written ops) - zlen (np_sent q) /\ (n = 0 <-> np_sent q = written ops).
Proof.
  intros H Ho Hn. destruct (prun_fresh _ _ _ _ _ _ H) as (Hwf & Hi & _ & _).
  pose proof (bytesToSend_eq _ _ _ Hwf Ho Hi Hn) as E. split; [exact E|].
  split; intros Hz.
  - unfold out_inv in Hi; rewrite Ho in Hi. rewrite <- Hi in E. rewrite !zlen_app in E.
    pose proof (zlen_nonneg (inflight q)); pose proof (zlen_nonneg (np_outq q)).
    assert (E1 : inflight q = []) by (apply zlen_0_nil; lia).
    assert (E2 : np_outq q = []) by (apply zlen_0_nil; lia).
    rewrite E1, E2, !app_nil_r in Hi. exact Hi.
  - rewrite Hz in E. lia.
Qed.

(** After closing, nothing more is sent, and reads only return what had
    already been received. *)
Lemma closed_stays ops p q d : np_open p = false -> wf p -> prun ops p = Ok (q, d) ->
  np_open q = false /\ np_sent q = np_sent p /\ d ++ np_inq q = np_inq p.
Proof.
  revert p d; induction ops as [|o ops IH]; intros p d Hc Hwf H; cbn [prun] in H.
  - injection H as <- <-. auto.
  - apply bind_Ok in H. destruct H as ((p1 & d1) & H1 & H).
    apply bind_Ok in H. destruct H as ((p2 & d2) & H2 & H3). injection H3 as <- <-.
    assert (Hs : np_open p1 = false /\ np_sent p1 = np_sent p /\ d1 ++ np_inq p1 = np_inq p /\ wf p1).
    { pose proof (pstep_inv p o p1 d1 [] (np_sent p) (np_inq p) Hwf) as HI.
      assert (H0 : wf p1).
      { apply HI; [unfold out_inv; rewrite Hc; apply is_prefix_refl|unfold in_inv; rewrite Hc; apply is_prefix_refl|exact H1]. }
      clear HI.
      destruct o as [a|w|n| |n|kr kw|w]; cbn [pstep] in H1.
      - apply bind_Ok in H1. destruct H1 as ((b & p1') & H1 & H1'). injection H1' as <- <-.
        unfold serviceIo in H1. rewrite Hc in H1. cbn [negb] in H1. injection H1 as <- <-. auto.
      - apply bind_Ok in H1. destruct H1 as (p1' & H1 & H1'). injection H1' as <- <-.
        unfold np_write in H1. destruct (np_writing p); cbn [assert_ bind] in H1; [|discriminate]. injection H1 as <-. cbn. auto.
      - apply bind_Ok in H1. destruct H1 as ((b & p1') & H1 & H1'). injection H1' as <- <-.
        unfold np_read, np_peek in H1. destruct (np_reading p); cbn [assert_ bind] in H1; [|discriminate]. injection H1 as <- <-. cbn.
        split; [exact Hc|]. split; [reflexivity|]. split; [|exact H0].
        set (k := Z.min n (zlen (np_inq p))).
        destruct (Z.le_gt_cases k 0) as [Hk|Hk].
        + rewrite (zfirstn_neg k) by lia. rewrite zlen_nil, zskipn_neg by lia. reflexivity.
        + rewrite zlen_zfirstn. replace (Z.min (Z.max 0 k) (zlen (np_inq p))) with k by lia.
          apply zfirstn_zskipn.
      - apply bind_Ok in H1. destruct H1 as ((b & p1') & H1 & H1'). injection H1' as <- <-.
        unfold np_readAll in H1. destruct (np_reading p); cbn [assert_ bind] in H1; [|discriminate]. injection H1 as <- <-. cbn.
        rewrite app_nil_r. auto.
      - apply bind_Ok in H1. destruct H1 as (p1' & H1 & H1'). injection H1' as <- <-.
        unfold setReadBufferSize in H1. destruct (np_reading p); cbn [assert_ bind] in H1; [|discriminate]. injection H1 as <-. cbn. auto.
      - injection H1 as <- <-. rewrite closePipe_closed in * by exact Hc. auto.
      - injection H1 as <- <-. cbn. auto. }
    destruct Hs as (A & B & C & D). destruct (IH _ _ A D H2) as (E & F & G).
    split; [exact E|]. split; [congruence|]. rewrite <- app_assoc, G. exact C.
Qed.

(** *** No assertion failure under the OS contract *)
Lemma in_should_issue_ok p : np_connecting p = false -> np_reading p = true -> exists b, in_should_issue p = Ok b.
Proof.
  intros Hc Hr. unfold in_should_issue. rewrite Hc. cbn [negb assert_ bind].
  destruct (np_open p); cbn [negb]; [rewrite Hr; cbn; eauto|eauto].
Qed.

Lemma in_loop_ok ans p pr : np_connecting p = false -> np_reading p = true -> exists x, in_loop ans p pr = Ok x.
Proof.
  revert p pr; induction ans as [|a ans IH]; intros p pr Hc Hr; cbn [in_loop];
    destruct (in_should_issue_ok p Hc Hr) as ([|] & E); rewrite E; cbn [bind]; eauto.
  destruct a; eauto.
Qed.

Lemma out_loop_ok ans p pr : (forall s, In (IoDone s) ans -> s <= 0) -> exists x, out_loop ans p pr = Ok x.
Proof.
  revert p pr; induction ans as [|a ans IH]; intros p pr Hf; cbn [out_loop]; destruct (np_outq p) as [|b bq]; eauto.
  destruct a as [s| |]; eauto.
  assert (Hs : s <= 0) by (apply Hf; now left).
  unfold out_complete. set (buf := zfirstn _ _). pose proof (zlen_nonneg buf).
  replace (Z.max 0 (zlen buf - Z.max 0 s) =? zlen buf) with true by lia. cbn [assert_ bind].
  apply IH. intros s' Hs'. apply Hf. now right.
Qed.

Lemma serviceIo_ok a p : wf p -> full_writes a -> exists x, serviceIo a p = Ok x.
Proof.
  intros Hwf (Hf & Hc). unfold serviceIo. destruct (np_open p) eqn:Eo; cbn [negb]; [|eauto].
  assert (H1 : exists just p1, (if np_connecting p then match sv_conn a with
             | ConnDone => Ok (true, startPipeWorkers p) | ConnPending => Ok (false, p) | ConnError => AssertFail end
             else Ok (false, p)) = @Ok unit _ (just, p1) /\ wf p1 /\ (np_in p1 <> None -> np_connecting p1 = false)).
  { destruct (np_connecting p) eqn:Ec.
    - destruct (proj1 Hwf Ec) as (Hin & Hout).
      destruct (sv_conn a); [| |congruence]; eexists _, _; (split; [reflexivity|]).
      + split; [now apply startPipeWorkers_wf|reflexivity].
      + split; [exact Hwf|congruence].
    - eexists _, _; split; [reflexivity|]. auto. }
  destruct H1 as (just & p1 & -> & W1 & C1). cbn [bind].
  assert (H2 : exists rp p2, (match np_in p1 with Some w => in_service (sv_read a) p1 w | None => Ok (NoProgress, p1) end)
               = @Ok unit _ (rp, p2)).
  { destruct (np_in p1) as [w|] eqn:Ew; [|eauto].
    assert (Hc1 : np_connecting p1 = false) by (apply C1; congruence).
    assert (Hr1 : np_reading p1 = true) by (apply W1 with (w := w); exact Ew).
    unfold in_service. destruct (w_pending w).
    - destruct (sv_read a) as [|[s| |] ans]; eauto.
      destruct (in_loop_ok ans (set_inq p1 (np_inq p1 ++ zfirstn (read_amount s (np_peer p1)) (np_peer p1))
         (zskipn (read_amount s (np_peer p1)) (np_peer p1)) new_worker) Progress Hc1 Hr1) as ((? & ?) & E).
      rewrite E. eauto.
    - destruct (in_loop_ok (sv_read a) p1 NoProgress Hc1 Hr1) as ((? & ?) & E). rewrite E. eauto. }
  destruct H2 as (rp & p2 & ->). cbn [bind].
  assert (H3 : exists wp p3, (match np_out p2 with Some w => out_service (sv_write a) p2 w | None => Ok (NoProgress, p2) end)
               = @Ok unit _ (wp, p3)).
  { destruct (np_out p2) as [w|]; [|eauto]. unfold out_service. destruct (w_pending w).
    - destruct (sv_write a) as [|[s| |] ans] eqn:Ea; eauto.
      assert (Hs : s <= 0) by (apply Hf; now left). unfold out_complete. pose proof (zlen_nonneg (w_buf w)).
      replace (Z.max 0 (zlen (w_buf w) - Z.max 0 s) =? zlen (w_buf w)) with true by lia. cbn [assert_ bind].
      destruct (out_loop_ok ans (set_outq p2 (np_outq p2) (np_sent p2 ++ zfirstn (Z.max 0 (zlen (w_buf w) - Z.max 0 s)) (w_buf w)) new_worker) Progress) as ((? & ?) & E).
      { intros s' Hs'. apply Hf. now right. }
      rewrite E. eauto.
    - destruct (out_loop_ok (sv_write a) p2 NoProgress Hf) as ((? & ?) & E). rewrite E. eauto. }
  destruct H3 as (wp & p3 & ->). cbn [bind].
  destruct (is_serror rp || is_serror wp); eauto.
Qed.

Lemma pstep_ok p o : wf p -> legal (np_reading p) (np_writing p) o -> exists x, pstep p o = Ok x.
Proof.
  intros Hwf Hl. destruct o as [a|w|n| |n|kr kw|w]; cbn [pstep legal] in *; eauto.
  - destruct (serviceIo_ok a p Hwf Hl) as ((b & q) & ->). cbn. eauto.
  - unfold np_write. rewrite Hl. cbn. eauto.
  - unfold np_read, np_peek. rewrite Hl. cbn. eauto.
  - unfold np_readAll. rewrite Hl. cbn. eauto.
  - unfold setReadBufferSize. rewrite Hl. cbn. eauto.
Qed.

Lemma no_assert ops c r w : Forall (legal r w) ops -> exists x, prun ops (fresh_pipe c r w) = Ok x.
Proof.
  assert (G : forall ops p, wf p -> Forall (legal (np_reading p) (np_writing p)) ops -> exists x, prun ops p = Ok x).
  { clear. induction ops as [|o ops IH]; intros p Hwf Hl; cbn [prun]; [eauto|].
    inversion Hl as [|? ? Ho Hl']; subst.
    destruct (pstep_ok p o Hwf Ho) as ((p1 & d1) & E). rewrite E. cbn [bind].
    assert (HI : wf p1 /\ same_mode p p1).
    { destruct (pstep_inv p o p1 d1 [] (if np_open p then out_all p else np_sent p)
           (if np_open p then np_inq p ++ np_peer p else np_inq p) Hwf) as (A & _ & _ & B & _); auto.
      - unfold out_inv. destruct (np_open p); [reflexivity|apply is_prefix_refl].
      - unfold in_inv. destruct (np_open p); [reflexivity|apply is_prefix_refl]. }
    destruct HI as (W & (M1 & M2)).
    destruct (IH p1 W) as ((q & d2) & E2); [now rewrite M1, M2|]. rewrite E2. cbn. eauto. }
  intros H. apply G; [apply fresh_wf|]. destruct c, r, w; exact H.
Qed.

(** *** Everything is eventually sent *)
Definition unsent (p : pipe) : Z := zlen (inflight p) + zlen (np_outq p).

Lemma out_loop_drains ans p pr r q :
  inflight p = [] -> (forall s, In (IoDone s) ans -> s <= 0) -> ~ In IoError ans ->
  out_loop ans p pr = Ok (r, q) -> pr <> SError ->
  r <> SError /\ unsent q <= zlen (np_outq p) /\
  ((exists s ans', ans = IoDone s :: ans') -> np_outq p <> [] -> unsent q < zlen (np_outq p)).
Proof.
  revert p pr; induction ans as [|a ans IH]; intros p pr Hi Hf He H Hp; cbn [out_loop] in H;
    destruct (np_outq p) as [|b bq] eqn:Eq.
  - injection H as <- <-. split; [exact Hp|]. unfold unsent. rewrite Hi, Eq. unfold zlen; cbn [length]. split; [lia|congruence].
  - injection H as <- <-. split; [exact Hp|]. unfold unsent, inflight; cbn [set_outq np_out np_outq w_pending w_buf].
    rewrite <- zlen_app, zfirstn_zskipn. split; [lia|]. intros (s & ans' & E); discriminate.
  - injection H as <- <-. split; [exact Hp|]. unfold unsent. rewrite Hi, Eq. unfold zlen; cbn [length]. split; [lia|congruence].
  - destruct a as [s| |].
    + unfold out_complete in H.
      set (n := Z.min (zlen (b :: bq)) kIoSize) in *. set (buf := zfirstn n (b :: bq)) in *.
      destruct (Z.max 0 (zlen buf - Z.max 0 s) =? zlen buf); cbn [assert_ bind] in H; [|discriminate].
      eapply IH in H; [|reflexivity| | |discriminate].
      * destruct H as (A & B & _). split; [exact A|]. cbn [set_outq np_outq] in B.
        rewrite zlen_zskipn in B. pose proof (zlen_nonneg bq). unfold n, kIoSize in B. rewrite zlen_cons in B |- *. split; intros; lia.
      * intros s' Hs. apply Hf. now right.
      * intros Hs. apply He. now right.
    + injection H as <- <-. split; [exact Hp|]. unfold unsent, inflight; cbn [set_outq np_out np_outq w_pending w_buf].
      rewrite <- zlen_app, zfirstn_zskipn. split; [lia|]. intros (s & ans' & E); discriminate.
    + exfalso. apply He. now left.
Qed.

Lemma out_service_drains ans p w r q :
  np_out p = Some w -> pend_ok (np_out p) = true ->
  (forall s, In (IoDone s) ans -> s <= 0) -> ~ In IoError ans ->
  (exists s ans', ans = IoDone s :: ans') ->
  out_service ans p w = Ok (r, q) ->
  r <> SError /\ unsent q <= Z.max 0 (unsent p - 1).
Proof.
  intros Hw Hk Hf He Hh H. unfold out_service in H. pose proof (zlen_nonneg (np_outq p)) as Hl.
  destruct (w_pending w) eqn:Ep.
  - destruct Hh as (s & ans' & ->). unfold out_complete in H.
    destruct (Z.max 0 (zlen (w_buf w) - Z.max 0 s) =? zlen (w_buf w)); cbn [assert_ bind] in H; [|discriminate].
    eapply out_loop_drains in H; [|reflexivity| | |discriminate].
    + destruct H as (A & B & _). split; [exact A|]. cbn [set_outq np_outq] in B.
      rewrite Hw in Hk. pose proof (pend_ok_buf _ Hk Ep). unfold unsent, inflight in *. rewrite Hw, Ep. lia.
    + intros s' Hs. apply Hf. now right.
    + intros Hs. apply He. now right.
  - assert (Hi : inflight p = []) by (unfold inflight; now rewrite Hw, Ep).
    eapply out_loop_drains in H; [|exact Hi|exact Hf|exact He|discriminate].
    destruct H as (A & B & C). split; [exact A|]. specialize (C Hh).
    unfold unsent in *. rewrite Hi. change (zlen (@nil Z)) with 0.
    destruct (np_outq p) as [|b bq]; [change (zlen (@nil Z)) with 0 in *; lia|].
    specialize (C ltac:(discriminate)). lia.
Qed.

Lemma in_loop_noerr ans p pr r q : ~ In IoError ans -> pr <> SError -> in_loop ans p pr = Ok (r, q) -> r <> SError.
Proof.
  revert p pr; induction ans as [|a ans IH]; intros p pr He Hp H; cbn [in_loop] in H;
    destruct (in_should_issue p) as [[|]| | | |]; cbn [bind] in H; try discriminate; try congruence.
  destruct a; [|congruence|exfalso; apply He; now left].
  eapply IH; [| |exact H]; [intros Hs; apply He; now right|discriminate].
Qed.

Lemma in_service_noerr ans p w r q : ~ In IoError ans -> in_service ans p w = Ok (r, q) -> r <> SError.
Proof.
  intros He H. unfold in_service in H. destruct (w_pending w).
  - destruct ans as [|[s| |] ans]; try congruence; [|exfalso; apply He; now left].
    eapply in_loop_noerr; [| |exact H]; [intros Hs; apply He; now right|discriminate].
  - eapply in_loop_noerr; [exact He| |exact H]. discriminate.
Qed.

(** A draining service keeps the pipe open and sends at least one more byte. *)
Lemma draining_step a p b q :
  wf p -> np_open p = true -> np_writing p = true -> draining a -> serviceIo a p = Ok (b, q) ->
  np_open q = true /\ np_writing q = true /\ wf q /\ unsent q <= Z.max 0 (unsent p - 1) /\ out_all q = out_all p.
Proof.
  intros Hwf Ho Hw ((rest & Er) & Hf & He1 & He2 & Hc) H.
  pose proof (serviceIo_inv a p b q [] (out_all p) (np_inq p ++ np_peer p) Hwf) as HI.
  unfold out_inv in HI at 1; unfold in_inv in HI at 1; rewrite Ho in HI.
  destruct (HI eq_refl eq_refl H) as (Q1 & Q2 & _ & (_ & Q3) & _ & _). clear HI.
  assert (G : np_open q = true /\ unsent q <= Z.max 0 (unsent p - 1)).
  { unfold serviceIo in H. rewrite Ho in H. cbn [negb] in H.
    apply bind_Ok in H. destruct H as ((just & p1) & H1 & H).
    assert (A1 : wf p1 /\ np_open p1 = true /\ unsent p1 = unsent p /\ np_out p1 <> None /\ np_connecting p1 = false).
    { destruct (np_connecting p) eqn:Ec.
      - destruct (proj1 Hwf Ec) as (Hin & Hout). rewrite Hc in H1. injection H1 as <- <-.
        splits; [now apply startPipeWorkers_wf|exact Ho| | |reflexivity].
        + unfold unsent, inflight, startPipeWorkers; cbn. rewrite Hw, Hout. reflexivity.
        + unfold startPipeWorkers; cbn. rewrite Hw. discriminate.
      - injection H1 as <- <-. splits; auto. apply Hwf; assumption. }
    clear H1. destruct A1 as (W1 & O1 & U1 & N1 & C1).
    apply bind_Ok in H. destruct H as ((rp & p2) & H1 & H).
    assert (A2 : rp <> SError /\ np_open p2 = true /\ unsent p2 = unsent p /\ np_out p2 = np_out p1).
    { destruct (np_in p1) as [w|] eqn:Ew.
      - pose proof (in_service_noerr _ _ _ _ _ He2 H1) as A. pose proof (in_service_frame _ _ _ _ _ Ew H1) as F.
        destruct F as (F1&F2&(F3&F3')&F4&F5&F6&F7&F8&F9&F10).
        splits; [exact A|congruence| |exact F6]. rewrite <- U1. unfold unsent, inflight. now rewrite F5, F6.
      - injection H1 as <- <-. splits; auto. discriminate. }
    clear H1. destruct A2 as (R2 & O2 & U2 & E2).
    apply bind_Ok in H. destruct H as ((wp & p3) & H1 & H).
    destruct (np_out p2) as [w|] eqn:Ew; [|congruence].
    assert (Hk : pend_ok (np_out p2) = true) by (rewrite Ew, E2; apply W1).
    destruct (out_service_drains _ _ _ _ _ Ew Hk Hf He1 ltac:(rewrite Er; eauto) H1) as (A & B).
    destruct (out_service_spec _ _ _ _ _ Ew Hk H1) as ((F1 & _) & _).
    replace (is_serror rp || is_serror wp) with false in H
      by (destruct rp, wp; try reflexivity; congruence).
    injection H as <- <-. split; [congruence|lia]. }
  destruct G as (G1 & G2). splits; auto; [congruence|].
  unfold out_inv in Q2. rewrite G1 in Q2. exact Q2.
Qed.

Lemma drain_all svcs p q d :
  wf p -> np_open p = true -> np_writing p = true -> Forall draining svcs ->
  unsent p <= zlen svcs ->
  prun (map PService svcs) p = Ok (q, d) ->
  np_open q = true /\ np_sent q = out_all p /\ bytesToSend q = Ok 0.
Proof.
  revert p d; induction svcs as [|a svcs IH]; intros p d Hwf Ho Hw Hd Hu H; cbn [map prun] in H.
  - injection H as <- <-. rewrite zlen_nil in Hu. unfold unsent in Hu.
    pose proof (zlen_nonneg (inflight p)); pose proof (zlen_nonneg (np_outq p)).
    assert (E1 : inflight p = []) by (apply zlen_0_nil; lia).
    assert (E2 : np_outq p = []) by (apply zlen_0_nil; lia).
    split; [exact Ho|]. split; [unfold out_all; now rewrite E1, E2, !app_nil_r|].
    unfold bytesToSend. rewrite Hw, E2. cbn [assert_ bind]. rewrite zlen_nil. f_equal.
    destruct (np_out p) as [w|] eqn:Ew; [|reflexivity]. destruct (w_pending w) eqn:Ep; [|reflexivity].
    assert (Hk : pend_ok (Some w) = true) by (rewrite <- Ew; apply Hwf).
    pose proof (pend_ok_buf _ Hk Ep). unfold inflight in E1. rewrite Ew, Ep in E1. rewrite E1 in *. change (zlen (@nil Z)) with 0 in *. lia.
  - inversion Hd as [|? ? Ha Hd']; subst.
    apply bind_Ok in H. destruct H as ((p1 & d1) & H1 & H).
    apply bind_Ok in H. destruct H as ((p2 & d2) & H2 & H3). injection H3 as <- <-.
    cbn [pstep] in H1. apply bind_Ok in H1. destruct H1 as ((b & p1') & H1 & H1'). injection H1' as <- <-.
    destruct (draining_step _ _ _ _ Hwf Ho Hw Ha H1) as (A & B & C & D & E). rewrite <- E.
    eapply IH; [exact C|exact A|exact B|exact Hd'| |exact H2]. rewrite zlen_cons in Hu. pose proof (zlen_nonneg svcs). lia.
Qed.

Lemma eventually_sent ops svcs c r q d q2 d2 :
  prun ops (fresh_pipe c r true) = Ok (q, d) -> np_open q = true ->
  Forall draining svcs -> zlen (written ops) <= zlen svcs ->
  prun (map PService svcs) q = Ok (q2, d2) ->
  np_open q2 = true /\ np_sent q2 = written ops /\ bytesToSend q2 = Ok 0.
Proof.
  intros H Ho Hd Hl H2. destruct (prun_fresh _ _ _ _ _ _ H) as (Hwf & Hi & _ & (_ & Hm)).
  unfold out_inv in Hi. rewrite Ho in Hi.
  assert (Hw : np_writing q = true) by (rewrite Hm; destruct c; reflexivity).
  rewrite <- Hi. apply (drain_all svcs q q2 d2 Hwf Ho Hw Hd); [|exact H2].
  rewrite <- Hi in Hl. rewrite !zlen_app in Hl. unfold unsent. pose proof (zlen_nonneg (np_sent q)). lia.
Qed.

(** *** Everything is eventually received *)
Lemma out_service_noerr ans p w r q : ~ In IoError ans -> out_service ans p w = Ok (r, q) -> r <> SError.
Proof.
  assert (L : forall ans p pr r q, ~ In IoError ans -> pr <> SError -> out_loop ans p pr = Ok (r, q) -> r <> SError).
  { clear. induction ans as [|a ans IH]; intros p pr r q He Hp H; cbn [out_loop] in H;
      destruct (np_outq p) as [|b bq]; try congruence.
    destruct a; [|congruence|exfalso; apply He; now left].
    apply bind_Ok in H. destruct H as (p2 & _ & H).
    eapply IH; [| |exact H]; [intros Hs; apply He; now right|discriminate]. }
  intros He H. unfold out_service in H. destruct (w_pending w).
  - destruct ans as [|[s| |] ans]; try congruence; [|exfalso; apply He; now left].
    apply bind_Ok in H. destruct H as (p2 & _ & H).
    eapply L; [| |exact H]; [intros Hs; apply He; now right|discriminate].
  - eapply L; [exact He| |exact H]. discriminate.
Qed.

Lemma in_loop_peer ans p pr r q : in_loop ans p pr = Ok (r, q) -> zlen (np_peer q) <= zlen (np_peer p).
Proof.
  revert p pr; induction ans as [|a ans IH]; intros p pr H; cbn [in_loop] in H;
    destruct (in_should_issue p) as [[|]| | | |]; cbn [bind] in H; try discriminate.
  1,2,4: injection H as <- <-; cbn; lia.
  destruct a; [|injection H as <- <-; cbn; lia..].
  apply IH in H. cbn [set_inq np_peer] in H. rewrite zlen_zskipn in H. pose proof (zlen_nonneg (np_peer p)). lia.
Qed.

Lemma supply_step a p b q :
  wf p -> np_open p = true -> np_reading p = true -> zlen (np_inq p) < np_rbs p -> supplying a ->
  serviceIo a p = Ok (b, q) ->
  np_open q = true /\ np_reading q = true /\ wf q /\ np_rbs q = np_rbs p /\ np_inq q ++ np_peer q = np_inq p ++ np_peer p /\
  zlen (np_peer q) <= Z.max 0 (zlen (np_peer p) - 1).
Proof.
  intros Hwf Ho Hr Hq ((rest & Er) & Hf & He1 & He2 & Hc) H.
  pose proof (serviceIo_inv a p b q [] (out_all p) (np_inq p ++ np_peer p) Hwf) as HI.
  unfold out_inv in HI at 1; unfold in_inv in HI at 1; rewrite Ho in HI.
  destruct (HI eq_refl eq_refl H) as (Q1 & _ & Q2 & (Q3 & _) & _ & _). clear HI.
  assert (G : np_open q = true /\ np_rbs q = np_rbs p /\ zlen (np_peer q) <= Z.max 0 (zlen (np_peer p) - 1)).
  { unfold serviceIo in H. rewrite Ho in H. cbn [negb] in H.
    apply bind_Ok in H. destruct H as ((just & p1) & H1 & H).
    assert (A1 : wf p1 /\ np_open p1 = true /\ np_peer p1 = np_peer p /\ np_inq p1 = np_inq p /\ np_rbs p1 = np_rbs p /\
                 np_in p1 <> None /\ np_connecting p1 = false /\ np_reading p1 = true).
    { destruct (np_connecting p) eqn:Ec.
      - destruct (proj1 Hwf Ec) as (Hin & Hout). rewrite Hc in H1. injection H1 as <- <-.
        splits; auto; [now apply startPipeWorkers_wf|].
        unfold startPipeWorkers; cbn. rewrite Hr. discriminate.
      - injection H1 as <- <-. splits; auto. apply Hwf; assumption. }
    clear H1. destruct A1 as (W1 & O1 & P1 & I1 & B1 & N1 & C1 & R1).
    apply bind_Ok in H. destruct H as ((rp & p2) & H1 & H).
    destruct (np_in p1) as [w|] eqn:Ew; [|congruence].
    pose proof (in_service_noerr _ _ _ _ _ He2 H1) as A. pose proof (in_service_frame _ _ _ _ _ Ew H1) as F.
    assert (Hpeer : zlen (np_peer p2) <= Z.max 0 (zlen (np_peer p) - 1)).
    { assert (K : forall x, zlen (np_peer x) <= zlen (zskipn (read_amount 0 (np_peer p)) (np_peer p)) ->
                  zlen (np_peer x) <= Z.max 0 (zlen (np_peer p) - 1)).
      { intros x Hx. rewrite zlen_zskipn in Hx. unfold read_amount, kIoSize in Hx.
        pose proof (zlen_nonneg (np_peer p)). lia. }
      apply K. unfold in_service in H1. rewrite Er in H1. destruct (w_pending w).
      - apply in_loop_peer in H1. cbn [set_inq np_peer] in H1. rewrite P1 in H1. exact H1.
      - cbn [in_loop] in H1. unfold in_should_issue in H1. rewrite C1, O1, R1, I1, B1 in H1. cbn [negb assert_ bind] in H1.
        replace (zlen (np_inq p) <? np_rbs p) with true in H1 by lia.
        apply in_loop_peer in H1. cbn [set_inq np_peer] in H1. rewrite P1 in H1. exact H1. }
    destruct F as (F1&F2&(F3&F3')&F4&F5&F6&F7&F8&F9&F10).
    apply bind_Ok in H. destruct H as ((wp & p3) & H2 & H).
    assert (A3 : wp <> SError /\ np_open p3 = true /\ np_peer p3 = np_peer p2 /\ np_rbs p3 = np_rbs p2).
    { destruct (np_out p2) as [w2|] eqn:Ew2.
      - assert (Hk : pend_ok (np_out p2) = true) by (rewrite Ew2, F6; apply W1).
        destruct (out_service_spec _ _ _ _ _ Ew2 Hk H2) as ((G1&G2&G3&G4&G5&G6&G7&_) & _).
        splits; [eapply out_service_noerr; [exact He1|exact H2]|congruence|congruence|congruence].
      - injection H2 as <- <-. splits; auto; try congruence; try discriminate. }
    destruct A3 as (X1 & X2 & X3 & X4).
    replace (is_serror rp || is_serror wp) with false in H
      by (destruct rp, wp; try reflexivity; congruence).
    injection H as <- <-. splits; [congruence|congruence|]. rewrite X3. exact Hpeer. }
  destruct G as (G1 & G2 & G3). splits; auto; [congruence|].
  unfold in_inv in Q2. rewrite G1 in Q2. exact Q2.
Qed.

Lemma rounds_receive l p q d :
  wf p -> np_open p = true -> np_reading p = true -> 0 < np_rbs p -> Forall supplying l ->
  zlen (np_peer p) <= zlen l -> prun (read_rounds l) p = Ok (q, d) ->
  d = np_inq p ++ np_peer p.
Proof.
  revert p d; induction l as [|a l IH]; intros p d Hwf Ho Hr Hb Hs Hl H; cbn [read_rounds prun pstep] in H.
  - unfold np_readAll in H. rewrite Hr in H. cbn [assert_ bind] in H. injection H as <- <-.
    change (zlen (@nil svc)) with 0 in Hl. pose proof (zlen_nonneg (np_peer p)).
    rewrite (zlen_0_nil (np_peer p)) by lia. reflexivity.
  - inversion Hs as [|? ? Ha Hs']; subst.
    unfold np_readAll in H. rewrite Hr in H. cbn [assert_ bind] in H.
    apply bind_Ok in H. destruct H as ((q' & d') & H & Hd). injection Hd as <- <-.
    apply bind_Ok in H. destruct H as ((p1 & d1) & H1 & H).
    apply bind_Ok in H1. destruct H1 as ((b & p1') & H1 & H1'). injection H1' as <- <-.
    apply bind_Ok in H. destruct H as ((q'' & d'') & H & Hd). injection Hd as <- <-.
    assert (W0 : wf (with_inq p [])) by exact Hwf.
    destruct (supply_step _ _ _ _ W0 Ho Hr Hb Ha H1) as (A & B & C & D & E & F).
    cbn [with_inq np_rbs] in D. rewrite <- D in Hb.
    cbn [with_inq np_inq np_peer app] in E, F. rewrite <- E. f_equal. cbn [app].
    apply (IH _ _ C A B Hb Hs'); [|exact H]. rewrite zlen_cons in Hl. pose proof (zlen_nonneg l). lia.
Qed.

Lemma eventually_received ops l c w q d q2 d2 :
  prun ops (fresh_pipe c true w) = Ok (q, d) -> np_open q = true -> 0 < np_rbs q ->
  Forall supplying l -> zlen (peer_written ops) <= zlen l ->
  prun (read_rounds l) q = Ok (q2, d2) ->
  d ++ d2 = peer_written ops.
Proof.
  intros H Ho Hb Hs Hl H2. destruct (prun_fresh _ _ _ _ _ _ H) as (Hwf & _ & Hi & (Hm & _)).
  unfold in_inv in Hi. rewrite Ho in Hi.
  assert (Hr : np_reading q = true) by (rewrite Hm; destruct c; reflexivity).
  rewrite <- Hi. f_equal. apply (rounds_receive l q q2 d2 Hwf Ho Hr Hb Hs); [|exact H2].
  rewrite <- Hi, !zlen_app in Hl. pose proof (zlen_nonneg d). pose proof (zlen_nonneg (np_inq q)). lia.
Qed.

(** An error closes the pipe. *)
Lemma closePipe_closes kr kw p : np_open (closePipe kr kw p) = false.
Proof. unfold closePipe. destruct (np_open p) eqn:E; [reflexivity|exact E]. Qed.
Lemma in_service_err ans p w : np_open p = true -> np_connecting p = false -> np_reading p = true -> zlen (np_inq p) < np_rbs p ->
  in_service (IoError :: ans) p w = Ok (SError, p).
Proof.
  intros Ho Hc Hr Hz. unfold in_service. destruct (w_pending w); [reflexivity|]. cbn [in_loop]. unfold in_should_issue. rewrite Hc, Ho, Hr. cbn [negb assert_ bind].
  replace (zlen (np_inq p) <? np_rbs p) with true by lia. reflexivity.
Qed.
Lemma out_service_err ans p w : np_out p = Some w -> pend_ok (np_out p) = true -> inflight p ++ np_outq p <> [] ->
  exists q, out_service (IoError :: ans) p w = Ok (SError, q).
Proof.
  intros Hw Hp Hn. unfold out_service. unfold inflight in Hn. rewrite Hw in *. destruct (w_pending w) eqn:E; [eexists; reflexivity|]. cbn [app] in Hn. cbn [out_loop].
  destruct (np_outq p); [congruence|]. eexists. reflexivity.
Qed.
Lemma error_closes ops a c r w q d b q2 : prun ops (fresh_pipe c r w) = Ok (q, d) -> np_open q = true -> np_connecting q = false -> serviceIo a q = Ok (b, q2) ->
  (r = true /\ zlen (np_inq q) < np_rbs q /\ (exists l, sv_read a = IoError :: l)) \/ (w = true /\ np_sent q <> written ops /\ (exists l, sv_write a = IoError :: l)) ->
  b = true /\ np_open q2 = false.
Proof.
  intros H Ho Hc Hs Hor. destruct (prun_fresh _ _ _ _ _ _ H) as (Hwf & Hi & _ & M1 & M2).
  assert (Fr : np_reading (fresh_pipe c r w) = r /\ np_writing (fresh_pipe c r w) = w) by (destruct c; split; reflexivity). destruct Fr as (F1 & F2). rewrite F1 in M1. rewrite F2 in M2.
  unfold serviceIo in Hs. rewrite Ho, Hc in Hs. cbn [negb bind] in Hs. destruct Hwf as (W1 & W2 & W3 & W4 & W5 & W6 & W7).
  destruct Hor as [(-> & Hz & l & El)|(-> & Hz & l & El)].
  - destruct (np_in q) as [wi|] eqn:Ei; [|destruct (W7 Ho Hc M1 eq_refl)]. rewrite El, in_service_err in Hs by auto. cbn [bind] in Hs.
    match type of Hs with bind ?m _ = _ => destruct m as [[wp p3]| | | |] end; try discriminate. cbn [bind is_serror orb] in Hs. injection Hs as <- <-. split; [reflexivity|apply closePipe_closes].
  - destruct (match np_in q with Some w => in_service (sv_read a) q w | None => Ok (NoProgress, q) end) as [[rp p2]| | | |] eqn:E2; try discriminate. cbn [bind] in Hs.
    assert (F : np_outq p2 = np_outq q /\ np_out p2 = np_out q).
    { destruct (np_in q) as [wi|] eqn:Ei; [|injection E2 as _ <-; auto]. destruct (in_service_frame _ _ _ _ _ Ei E2) as (_ & _ & _ & _ & A & B & _). auto. }
    destruct F as (Fq & Fo). destruct (np_out q) as [wo|] eqn:Eo; [|destruct (W6 Ho Hc M2 eq_refl)]. rewrite Fo in Hs.
    assert (Hn : inflight p2 ++ np_outq p2 <> []).
    { intros E0. apply Hz. unfold out_inv in Hi. rewrite Ho in Hi. unfold inflight in *. rewrite Fo, Fq in E0. rewrite Eo in Hi. rewrite E0, app_nil_r in Hi. exact Hi. }
    rewrite El in Hs. destruct (out_service_err l p2 wo Fo ltac:(rewrite Fo; exact W3) Hn) as (p3 & E3). rewrite E3 in Hs. cbn [bind is_serror] in Hs. rewrite Bool.orb_true_r in Hs. injection Hs as <- <-.
    split; [reflexivity|apply closePipe_closes].
Qed.
(** A read returns the bytes asked for, as far as they have arrived. *)
Lemma read_size ops n c r w q d q2 d2 : prun ops (fresh_pipe c r w) = Ok (q, d) -> prun [PRead n] q = Ok (q2, d2) ->
  zlen d2 = Z.max 0 (Z.min n (zlen (np_inq q))) /\ np_inq q = d2 ++ np_inq q2.
Proof.
  intros _ H. cbn [prun pstep] in H. unfold np_read, np_peek in H. destruct (np_reading q); cbn [assert_ bind] in H; [|discriminate]. injection H as <- <-. cbn [np_inq with_inq]. rewrite app_nil_r.
  rewrite zlen_zfirstn. pose proof (zlen_nonneg (np_inq q)). split; [lia|].
  rewrite <- (zfirstn_zskipn (Z.max 0 (Z.min n (zlen (np_inq q)))) (np_inq q)) at 1. f_equal.
  - unfold zfirstn. f_equal. lia.
  - unfold zskipn. f_equal. lia.
Qed.
