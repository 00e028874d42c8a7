From Verif Require Import Base BaseLemmas Adapter AdapterSpec.
From Verif Require NamedPipeProofs.
Ltac splits := repeat match goal with |- _ /\ _ => split end.

(** *** writeAll *)
Lemma writeAll_loop_ok {E} os : forall buf written fd,
  0 <= written <= zlen buf -> zlen buf < 2 ^ 31 -> answers_ok os (zlen buf - written) ->
  match @writeAll_loop E os buf written fd with
  | Ok (ok, fd', _) => exists p, fd' = fd ++ p /\ is_prefix p (zskipn written buf) /\
                         (ok = true <-> p = zskipn written buf)
  | OutOfFuel => True
  | _ => False
  end.
Proof.
  induction os as [|o os IH]; intros buf written fd Hw Hl Ha; cbn [writeAll_loop];
    (destruct (Z.ltb_spec written (zlen buf)) as [Hlt|Hge];
     [|replace (written =? zlen buf) with true by lia; cbn [assert_ bind]; exists [];
       rewrite app_nil_r, zskipn_all by lia; splits; [reflexivity|exists []; reflexivity|tauto]]).
  - exact I.
  - assert (Hne : zskipn written buf <> []).
    { intros E0. pose proof (zlen_zskipn written buf) as E1. rewrite E0 in E1. change (zlen (@nil Z)) with 0 in E1. lia. }
    destruct o as [| |n].
    + inversion Ha; subst. apply IH; assumption.
    + exists []. rewrite app_nil_r. splits; [reflexivity|now exists (zskipn written buf)|].
      split; [discriminate|]. intros E0. congruence.
    + inversion Ha as [| | |? ? ? Hn Ha']; subst.
      assert (Hs : s32 n = n) by (apply (wraps_small 32); lia). rewrite Hs.
      replace (n <=? 0) with false by lia. replace (n <=? zlen buf - written) with true by lia. cbn [assert_ bind].
      specialize (IH buf (written + n) (fd ++ zfirstn n (zskipn written buf))).
      assert (Ha2 : answers_ok os (zlen buf - (written + n))) by (replace (zlen buf - (written + n)) with (zlen buf - written - n) by lia; exact Ha').
      specialize (IH ltac:(lia) Hl Ha2).
      assert (Hcut : zskipn written buf = zfirstn n (zskipn written buf) ++ zskipn (written + n) buf).
      { rewrite <- (zfirstn_zskipn n (zskipn written buf)) at 1. f_equal. rewrite zskipn_zskipn by lia. f_equal. }
      destruct (@writeAll_loop E os buf (written + n) _) as [[[ok fd'] os']| | | |]; try contradiction; [|exact I].
      destruct IH as (p & -> & (r & Hp) & Hiff). exists (zfirstn n (zskipn written buf) ++ p).
      splits; [now rewrite app_assoc|exists r; rewrite <- app_assoc, <- Hp; exact Hcut|].
      rewrite Hiff. split; [intros ->; now rewrite <- Hcut|].
      intros E0. rewrite Hcut in E0 at 2. now apply app_inv_head in E0.
Qed.

Lemma writeAll_live {E} os : forall buf written fd,
  0 <= written <= zlen buf -> zlen buf < 2 ^ 31 -> answers_ok os (zlen buf - written) -> no_fail os ->
  zlen buf - written <= accepted os ->
  exists fd' os', @writeAll_loop E os buf written fd = Ok (true, fd', os').
Proof.
  induction os as [|o os IH]; intros buf written fd Hw Hl Ha Hn Hacc; cbn [writeAll_loop];
    (destruct (Z.ltb_spec written (zlen buf)) as [Hlt|Hge];
     [|replace (written =? zlen buf) with true by lia; cbn [assert_ bind]; eauto]).
  - cbn in Hacc. lia.
  - inversion Hn as [|? ? H1 H2]; subst. destruct o as [| |n]; [|congruence|].
    + inversion Ha; subst. apply IH; auto.
    + inversion Ha as [| | |? ? ? Hk Ha']; subst. cbn [accepted fold_right] in Hacc. fold (accepted os) in Hacc.
      assert (Hs : s32 n = n) by (apply (wraps_small 32); lia). rewrite Hs.
      replace (n <=? 0) with false by lia. replace (n <=? zlen buf - written) with true by lia. cbn [assert_ bind].
      apply IH; auto; [lia| |lia]. now replace (zlen buf - (written + n)) with (zlen buf - written - n) by lia.
Qed.

(** *** The output thread: answers stay within each request. *)
Lemma writeAll_used {E} os : forall buf written fd ok fd' os', 0 <= written <= zlen buf -> zlen buf < 2 ^ 31 ->
  answers_ok os (zlen buf - written) -> @writeAll_loop E os buf written fd = Ok (ok, fd', os') ->
  exists used, os = used ++ os' /\ (ok = false -> In WFail used).
Proof.
  induction os as [|o os IH]; intros buf written fd ok fd' os' Hw Hl Ha H; cbn [writeAll_loop] in H.
  - destruct (written <? zlen buf); [discriminate|]. destruct (assert_ (written =? zlen buf)); cbn [bind] in H; try discriminate.
    injection H as <- _ <-. exists []. split; [reflexivity|discriminate].
  - destruct (Z.ltb_spec written (zlen buf)) as [Hlt|Hge].
    2: { destruct (assert_ (written =? zlen buf)); cbn [bind] in H; try discriminate.
         injection H as <- _ <-. exists []. split; [reflexivity|discriminate]. }
    destruct o as [| |n].
    + inversion Ha; subst. destruct (IH _ _ _ _ _ _ Hw Hl ltac:(eassumption) H) as (u & -> & Hu). exists (WIntr :: u).
      split; [reflexivity|]. intros E0. right. auto.
    + injection H as <- _ <-. exists [WFail]. split; [reflexivity|]. intros _. now left.
    + inversion Ha as [| | |k os0 m Hk Ha' E1 E2]; subst.
      assert (Es : s32 n = n) by (apply (wraps_small 32); lia).
      rewrite Es in H. destruct (Z.leb_spec n 0); [lia|]. unfold assert_ in H.
      destruct (Z.leb_spec n (zlen buf - written)) as [Hn|Hn]; cbn [bind] in H; [|discriminate].
      destruct (IH buf (written + n) _ _ _ _ ltac:(lia) Hl ltac:(replace (zlen buf - (written + n)) with (zlen buf - written - n) by lia; exact Ha') H) as (u & -> & Hu).
      exists (WSome n :: u). split; [reflexivity|]. intros E0. right. auto.
Qed.

Lemma output_fails_only rs : forall os fd fd', thread_ok rs os ->
  @output_thread unit rs os fd = Ok (false, fd') -> In WFail os.
Proof.
  induction rs as [|r rs IH]; intros os fd fd' H Ho; cbn [output_thread] in Ho; [discriminate|].
  destruct r as [b|]; [|discriminate]. destruct (Z.eqb_spec (zlen b) 0) as [E0|E0]; [discriminate|].
  inversion H as [| |? ? ? Hb Ha Hrest]; subst. pose proof (zlen_nonneg b).
  destruct (@writeAll unit os b fd) as [[[ok fd1] os1]| | | |] eqn:EW; cbn [bind] in Ho; try discriminate.
  destruct (@writeAll_used unit os b 0 fd ok fd1 os1 ltac:(lia) Hb ltac:(rewrite Z.sub_0_r; exact Ha) EW) as (u & -> & Hu). destruct ok.
  - specialize (IH os1 fd1 fd' (Hrest _ _ _ EW) Ho). apply in_or_app. now right.
  - apply in_or_app. left. auto.
Qed.

Lemma output_thread_ok rs : forall os fd, thread_ok rs os ->
  match @output_thread unit rs os fd with
  | Ok (ok, fd') => exists p, fd' = fd ++ p /\ is_prefix p (read_bytes rs) /\
        (ok = true -> exists k, p = read_bytes (firstn k rs) /\ (nth_error rs k = Some RFail \/ nth_error rs k = Some (RData [])))
  | OutOfFuel => True
  | _ => False
  end.
Proof.
  induction rs as [|r rs IH]; intros os fd H; cbn [output_thread]; [exact I|].
  destruct r as [b|].
  - destruct (Z.eqb_spec (zlen b) 0) as [E0|E0].
    + apply zlen_0_nil in E0. subst b. exists []. rewrite app_nil_r. splits; [reflexivity|eexists; reflexivity|].
      intros _. exists O. split; [reflexivity|now right].
    + inversion H as [| |? ? ? Hb Ha Hrest]; subst. pose proof (zlen_nonneg b).
      pose proof (@writeAll_loop_ok unit os b 0 fd ltac:(lia) Hb) as W. rewrite Z.sub_0_r in W. specialize (W Ha).
      unfold writeAll. destruct (@writeAll_loop unit os b 0 fd) as [[[ok fd'] os']| | | |] eqn:EW; cbn [bind]; try contradiction; [|exact I].
      destruct W as (p & -> & Hp & Hiff). rewrite zskipn_neg in Hp, Hiff by lia. destruct ok.
      * specialize (IH os' (fd ++ p) (Hrest _ _ _ EW)). destruct Hiff as (Hiff & _). rewrite (Hiff eq_refl) in *.
        destruct (@output_thread unit rs os' (fd ++ b)) as [[ok2 fd2]| | | |]; try contradiction; [|exact I].
        destruct IH as (q & -> & (r & Hq) & Hk). exists (b ++ q). splits; [now rewrite app_assoc|exists r; cbn [read_bytes flat_map]; fold (read_bytes rs); rewrite Hq, app_assoc; reflexivity|].
        intros E1. destruct (Hk E1) as (k & -> & Hn). exists (S k). split; [reflexivity|exact Hn].
      * exists p. splits; [reflexivity| |discriminate]. destruct Hp as (r & ->). exists (r ++ read_bytes rs).
        cbn [read_bytes flat_map]. fold (read_bytes rs). now rewrite app_assoc.
  - exists []. rewrite app_nil_r. splits; [reflexivity|eexists; reflexivity|]. intros _. exists O. split; [reflexivity|now left].
Qed.

(** *** The input thread *)
Lemma input_thread_ok rs : forall conin,
  match @input_thread unit rs conin with
  | Ok c => exists p, c = conin ++ p /\ is_prefix p (input_bytes rs)
  | OutOfFuel => True
  | _ => False
  end.
Proof.
  induction rs as [|r rs IH]; intros conin; cbn [input_thread]; [exact I|].
  destruct r as [| | | |b ok w].
  - exists []. rewrite app_nil_r. split; [reflexivity|eexists; reflexivity].
  - apply IH.
  - apply IH.
  - exists []. rewrite app_nil_r. split; [reflexivity|eexists; reflexivity].
  - destruct (zlen b <=? 0).
    + exists []. rewrite app_nil_r. split; [reflexivity|eexists; reflexivity].
    + destruct (negb ok || negb (w =? zlen b)) eqn:Eo.
      * exists (zfirstn w b). split; [reflexivity|]. exists (zskipn w b ++ input_bytes rs).
        cbn [input_bytes flat_map]. fold (input_bytes rs). rewrite app_assoc, zfirstn_zskipn. reflexivity.
      * apply orb_false_iff in Eo. destruct Eo as (_ & Ew). apply negb_false_iff, Z.eqb_eq in Ew. subst w.
        rewrite zfirstn_all by lia. specialize (IH (conin ++ b)).
        destruct (@input_thread unit rs (conin ++ b)) as [c| | | |]; try contradiction; [|exact I].
        destruct IH as (p & -> & (r & Hr)). exists (b ++ p). split; [now rewrite app_assoc|]. exists r.
        cbn [input_bytes flat_map]. fold (input_bytes rs). now rewrite Hr, app_assoc.
Qed.

Lemma input_thread_all rs : forall conin tail,
  Forall round_ok rs ->
  @input_thread unit (rs ++ tail) conin = input_thread tail (conin ++ input_bytes rs).
Proof.
  induction rs as [|r rs IH]; intros conin tail F; [now rewrite app_nil_r|].
  inversion F as [|? ? H1 F']; subst. cbn [app input_thread]. destruct r as [| | | |b ok w]; try contradiction.
  - rewrite IH by exact F'. reflexivity.
  - rewrite IH by exact F'. reflexivity.
  - destruct H1 as (-> & -> & Hb). replace (zlen b <=? 0) with false by lia. rewrite Z.eqb_refl. cbn [negb orb].
    rewrite zfirstn_all, IH by (auto; lia). rewrite <- app_assoc. reflexivity.
Qed.

(** *** Wake-ups of main *)
Definition minv (s : mstate) : Prop :=
  0 <= pipe s /\ reg s = true /\ pc s <> Start /\
  (pc s = Select \/ pc s = CheckDone -> sz s <> term s -> pend s = true \/ 0 < pipe s) /\
  (pc s = Select -> In HNotified (hs s) -> 0 < pipe s).

Lemma wake_pos cap n : 0 < cap -> 0 <= n -> 0 < wake cap n.
Proof. unfold wake. lia. Qed.
Lemma drain_nonneg n : 0 <= n -> 0 <= drain n /\ (0 < n -> drain n < n).
Proof. unfold drain. lia. Qed.

Lemma existsb_notified l : In HNotified l -> existsb complete l = true.
Proof. intros H. apply existsb_exists. exists HNotified. auto. Qed.

Lemma upd_flag_notified l i l' : upd_nat l i HFlagged = Some l' -> In HNotified l' -> In HNotified l.
Proof.
  revert i l'. induction l as [|x l IH]; intros [|i] l' H Hin; cbn in H; try discriminate.
  - injection H as <-. destruct Hin as [H|H]; [discriminate|now right].
  - destruct (upd_nat l i HFlagged) eqn:E; [|discriminate]. injection H as <-.
    destruct Hin as [H|H]; [now left|right; eapply IH; eauto].
Qed.

Lemma mstep_inv cap s e : 0 < cap -> minv s -> minv (mstep cap s e).
Proof.
  intros Hc (H0 & H1 & H2 & H3 & H4). destruct e as [v| |i|i| |]; cbn [mstep].
  - unfold minv. cbn [pipe pc term sz reg pend hs]. rewrite H1, orb_true_r. splits; auto.
  - destruct (pend s) eqn:Ep; [|unfold minv; splits; auto; rewrite Ep; auto].
    pose proof (wake_pos cap (pipe s) Hc H0). unfold minv. cbn [pipe pc term sz reg pend hs]. splits; auto; lia.
  - destruct (pc s) eqn:Epc; [congruence| | | | |]; 
      (destruct (nth_error (hs s) i) as [[| |]|]; [|unfold minv; rewrite Epc; splits; auto..]);
      unfold minv; cbn [pipe pc term sz reg pend hs]; rewrite ?Epc; splits; auto;
      intros Hq Hin; apply (H4 Hq);
      (destruct (upd_nat (hs s) i HFlagged) eqn:Eu; [eapply upd_flag_notified; eauto|exact Hin]).
  - destruct (nth_error (hs s) i) as [[| |]|]; [unfold minv; splits; auto| |unfold minv; splits; auto..].
    pose proof (wake_pos cap (pipe s) Hc H0). unfold minv. cbn [pipe pc term sz reg pend hs]. splits; auto; lia.
  - destruct (pc s) eqn:Epc; [congruence| | | | |].
    + destruct (Z.ltb_spec 0 (pipe s)); [|unfold minv; rewrite Epc; splits; auto].
      unfold minv, with_pc. cbn [pipe pc term sz reg pend hs]. splits; auto; try discriminate; try (intros [|]; discriminate).
    + destruct (Z.eqb_spec (pipe s) 0).
      * unfold minv, with_pc. cbn [pipe pc term sz reg pend hs]. splits; auto; try discriminate; try (intros [|]; discriminate).
      * pose proof (drain_nonneg (pipe s) H0) as (D & _). unfold minv, with_pipe. cbn [pipe pc term sz reg pend hs]. rewrite Epc.
        splits; auto; try discriminate; try (intros [|]; discriminate).
    + unfold minv. cbn [pipe pc term sz reg pend hs]. splits; auto; try discriminate; try congruence.
    + destruct (existsb complete (hs s)) eqn:Ex; unfold minv, with_pc; cbn [pipe pc term sz reg pend hs].
      * splits; auto; try discriminate; try (intros [|]; discriminate).
      * splits; auto; try discriminate. intros _ Hin. apply existsb_notified in Hin. congruence.
    + unfold minv. rewrite Epc. splits; auto.
  - destruct (pc s) eqn:Epc; try (unfold minv; rewrite Epc; splits; auto; fail).
    unfold minv, with_pc. cbn [pipe pc term sz reg pend hs]. splits; auto; try discriminate; try (intros [|]; discriminate).
Qed.

Lemma mrun_inv cap es : forall s, 0 < cap -> minv s -> minv (mrun cap s es).
Proof.
  induction es as [|e es IH]; intros s Hc H; [exact H|]. cbn [mrun fold_left]. apply IH; [exact Hc|]. now apply mstep_inv.
Qed.

(** After registration, having seen no resize before it. *)
Lemma minit_reg cap v n : minv (mstep cap (minit v n) EvMain).
Proof.
  unfold minv, minit, mstep. cbn [pipe pc term sz reg pend hs]. splits; auto; try discriminate; try lia; try congruence.
  intros _ H. apply repeat_spec in H. discriminate.
Qed.

(** Events before registration that are not resizes change nothing. *)
Lemma mrun_before cap v n : forall es, Forall (fun e => is_resize e = false /\ is_main e = false) es ->
  mrun cap (minit v n) es = minit v n.
Proof.
  induction es as [|e es IH]; intros F; [reflexivity|]. inversion F as [|? ? (H1 & H2) F']; subst.
  cbn [mrun fold_left]. replace (mstep cap (minit v n) e) with (minit v n); [now apply IH|].
  destruct e as [w| |i|i| |]; try discriminate; cbn [mstep minit pend pc hs]; try reflexivity.
  destruct (nth_error (repeat HRunning n) i) as [h|] eqn:E; [|reflexivity].
  apply nth_error_In, repeat_spec in E. subst h. reflexivity.
Qed.

Lemma no_lost cap v n es :
  0 < cap -> let s := mrun cap (mstart cap v n) es in
  pc s = Select -> ~ wake_coming s -> sz s = term s /\ Forall (fun h => h = HRunning) (hs s).
Proof.
  intros Hc s Hpc Hw. assert (Hi : minv s) by (apply mrun_inv; [exact Hc|apply minit_reg]).
  destruct Hi as (H0 & H1 & H2 & H3 & H4). unfold wake_coming in Hw. split.
  - destruct (Z.eq_dec (sz s) (term s)) as [|Hne]; [assumption|]. destruct (H3 (or_introl Hpc) Hne); tauto.
  - apply Forall_forall. intros h Hh. destruct h; [reflexivity|exfalso; tauto|].
    exfalso. apply Hw. right. left. auto.
Qed.

(** Main steps needed before it notices a finished thread. *)
Definition mu (s : mstate) : Z :=
  match pc s with
  | Start => 5 + pipe s | Select => 4 + pipe s | Reset => 3 + pipe s | CheckSize => 2 | CheckDone => 1 | Exited => 0
  end.

Definition notified (s : mstate) : Prop := In HNotified (hs s).

Lemma upd_keep l i h l' : upd_nat l i h = Some l' -> nth_error l i <> Some HNotified -> In HNotified l -> In HNotified l'.
Proof.
  revert i l'. induction l as [|x l IH]; intros [|i] l' H Hn Hin; cbn in *; try discriminate.
  - injection H as <-. destruct Hin as [->|H]; [congruence|now right].
  - destruct (upd_nat l i h) eqn:E; [|discriminate]. injection H as <-. destruct Hin as [H|H]; [now left|right; eapply IH; eauto].
Qed.

Lemma notified_step cap s e : notified s -> notified (mstep cap s e).
Proof.
  unfold notified. intros H. destruct e as [v| |i|i| |]; cbn [mstep].
  - exact H.
  - now destruct (pend s).
  - destruct (pc s), (nth_error (hs s) i) as [[| |]|] eqn:En; try exact H; cbn [hs];
      (destruct (upd_nat (hs s) i HFlagged) eqn:Eu; [eapply upd_keep; eauto; congruence|exact H]).
  - destruct (nth_error (hs s) i) as [[| |]|] eqn:En; try exact H; cbn [hs];
      (destruct (upd_nat (hs s) i HNotified) eqn:Eu; [eapply upd_keep; eauto; congruence|exact H]).
  - destruct (pc s); try exact H; [destruct (0 <? pipe s)|destruct (pipe s =? 0)|destruct (existsb complete (hs s))]; exact H.
  - destruct (pc s); exact H.
Qed.

Lemma mu_step cap s e : 0 < cap -> minv s -> notified s ->
  mu (mstep cap s e) <= mu s + (if is_set e then 1 else 0) - (if is_main e then (if mu s =? 0 then 0 else 1) else 0).
Proof.
  intros Hc (H0 & H1 & H2 & H3 & H4) Hn. unfold notified in Hn.
  destruct e as [v| |i|i| |]; cbn [mstep is_set is_main].
  - unfold mu. cbn [pc pipe]. lia.
  - destruct (pend s); [|lia]. unfold mu, wake. cbn [pc pipe]. destruct (pc s); lia.
  - destruct (pc s) eqn:Epc, (nth_error (hs s) i) as [[| |]|]; unfold mu; cbn [pc pipe]; rewrite ?Epc; lia.
  - destruct (nth_error (hs s) i) as [[| |]|]; try lia. unfold mu, wake. cbn [pc pipe]. destruct (pc s); lia.
  - unfold mu at 2 3. destruct (pc s) eqn:Epc; [congruence| | | | |].
    + specialize (H4 eq_refl Hn). replace (0 <? pipe s) with true by lia.
      unfold mu, with_pc. cbn [pc pipe]. replace (4 + pipe s =? 0) with false by lia. lia.
    + replace (3 + pipe s =? 0) with false by lia. destruct (Z.eqb_spec (pipe s) 0).
      * unfold mu, with_pc. cbn [pc pipe]. lia.
      * pose proof (drain_nonneg (pipe s) H0) as (D1 & D2). unfold mu, with_pipe. cbn [pc pipe]. rewrite Epc. lia.
    + unfold mu. cbn [pc pipe]. change (2 =? 0) with false. lia.
    + rewrite (existsb_notified _ Hn). unfold mu, with_pc. cbn [pc pipe]. change (1 =? 0) with false. lia.
    + unfold mu. rewrite Epc. change (0 =? 0) with true. lia.
  - unfold mu. destruct (pc s) eqn:Epc; unfold with_pc; cbn [pc pipe]; rewrite ?Epc; lia.
Qed.

Lemma count_cons {A} f (a : A) l : count f (a :: l) = (if f a then 1 else 0) + count f l.
Proof. unfold count. cbn [filter]. destruct (f a); rewrite ?zlen_cons; lia. Qed.

Lemma mu_nonneg s : 0 <= pipe s -> 0 <= mu s.
Proof. unfold mu. destruct (pc s); lia. Qed.
Lemma mu_zero s : 0 <= pipe s -> mu s = 0 -> pc s = Exited.
Proof. unfold mu. destruct (pc s); intros; try reflexivity; lia. Qed.

Lemma exits cap es : forall s, 0 < cap -> minv s -> notified s ->
  mu s + count is_set es < count is_main es + 1 -> pc (mrun cap s es) = Exited.
Proof.
  induction es as [|e es IH]; intros s Hc Hi Hn H.
  - cbn [mrun fold_left]. unfold count in H. cbn in H. destruct Hi as (H0 & _). apply mu_zero; [exact H0|].
    pose proof (mu_nonneg s H0). lia.
  - cbn [mrun fold_left]. rewrite !count_cons in H.
    pose proof (mu_step cap s e Hc Hi Hn) as M.
    destruct (Z.eqb_spec (mu s) 0) as [Ez|Ez].
    + (* already exited: stays *)
      destruct Hi as (H0 & _). pose proof (mu_zero s H0 Ez) as Hex. clear - Hex.
      assert (Hst : forall e s, pc s = Exited -> pc (mstep cap s e) = Exited).
      { clear. intros e s Hex. destruct e as [v| |i|i| |]; cbn [mstep]; rewrite ?Hex; auto; try (now destruct (pend s));
          destruct (nth_error (hs s) i) as [[| |]|]; auto. }
      pose proof (Hst e s Hex) as H1. clear Hex. revert H1. generalize (mstep cap s e). clear s e.
      induction es as [|e es IH]; intros s H1; [exact H1|]. cbn [fold_left]. apply IH. now apply Hst.
    + apply IH; [exact Hc|now apply mstep_inv|now apply notified_step|].
      destruct (is_main e), (is_set e); lia.
Qed.

(** Main steps needed before it notices a size change. *)
Definition nu (s : mstate) : Z :=
  match pc s with
  | Start => 5 + pipe s | CheckDone => 4 + pipe s | Select => 3 + pipe s | Reset => 2 + pipe s | CheckSize => 1 | Exited => 0
  end.

Lemma settled_step cap s e : is_resize e = false -> sz s = term s -> sz (mstep cap s e) = term (mstep cap s e).
Proof.
  intros Hr H. destruct e as [v| |i|i| |]; try discriminate; cbn [mstep].
  - now destruct (pend s).
  - destruct (pc s), (nth_error (hs s) i) as [[| |]|]; exact H.
  - destruct (nth_error (hs s) i) as [[| |]|]; exact H.
  - destruct (pc s); try exact H; try reflexivity; [destruct (0 <? pipe s)|destruct (pipe s =? 0)|destruct (existsb complete (hs s))]; exact H.
  - destruct (pc s); exact H.
Qed.

Lemma nu_step cap s e : 0 < cap -> minv s -> is_resize e = false -> pend s = false ->
  let s' := mstep cap s e in
  pend s' = false /\
  (sz s' = term s' \/ pc s' = Exited \/
   (sz s <> term s -> nu s' <= nu s + (if is_set e then 1 else 0) - (if is_main e then 1 else 0))).
Proof.
  intros Hc (H0 & H1 & H2 & H3 & H4) Hr Hp. destruct e as [v| |i|i| |]; try discriminate; cbn [mstep is_set is_main].
  - rewrite Hp. split; [exact Hp|]. right. right. lia.
  - destruct (pc s) eqn:Epc, (nth_error (hs s) i) as [[| |]|]; (split; [exact Hp|]); right; right; unfold nu; cbn [pc pipe]; rewrite ?Epc; lia.
  - destruct (nth_error (hs s) i) as [[| |]|]; (split; [exact Hp|]); right; right; try lia.
    unfold nu, wake. cbn [pc pipe]. destruct (pc s); lia.
  - unfold nu at 2. destruct (pc s) eqn:Epc; [congruence| | | | |].
    + destruct (Z.ltb_spec 0 (pipe s)).
      * split; [exact Hp|]. right. right. unfold nu, with_pc. cbn [pc pipe]. lia.
      * split; [exact Hp|]. right. right. intros Hne. destruct (H3 (or_introl eq_refl) Hne) as [Hx|Hx]; [congruence|lia].
    + destruct (Z.eqb_spec (pipe s) 0).
      * split; [exact Hp|]. right. right. unfold nu, with_pc. cbn [pc pipe]. lia.
      * split; [exact Hp|]. right. right. pose proof (drain_nonneg (pipe s) H0) as (D1 & D2).
        unfold nu, with_pipe. cbn [pc pipe]. rewrite Epc. lia.
    + split; [exact Hp|]. left. reflexivity.
    + destruct (existsb complete (hs s)); (split; [exact Hp|]); [right; left; reflexivity|right; right].
      unfold nu, with_pc. cbn [pc pipe]. lia.
    + split; [exact Hp|]. right. left. exact Epc.
  - destruct (pc s) eqn:Epc; (split; [exact Hp|]); right; right; unfold nu, with_pc; cbn [pc pipe]; rewrite ?Epc; lia.
Qed.

Lemma exited_stays cap s e : pc s = Exited -> pc (mstep cap s e) = Exited.
Proof.
  intros Hex. destruct e as [v| |i|i| |]; cbn [mstep]; rewrite ?Hex; auto; try (now destruct (pend s));
    destruct (nth_error (hs s) i) as [[| |]|]; auto.
Qed.

Lemma notices cap es : forall s, 0 < cap -> minv s -> pend s = false -> Forall (fun e => is_resize e = false) es ->
  nu s + count is_set es < count is_main es \/ sz s = term s \/ pc s = Exited ->
  let s' := mrun cap s es in sz s' = term s' \/ pc s' = Exited.
Proof.
  induction es as [|e es IH]; intros s Hc Hi Hp F H.
  - cbn [mrun fold_left]. destruct H as [H|H]; [|exact H]. unfold count in H. cbn in H.
    destruct Hi as (H0 & _). unfold nu in H. destruct (pc s); lia.
  - inversion F as [|? ? Hr F']; subst. cbn [mrun fold_left].
    destruct (nu_step cap s e Hc Hi Hr Hp) as (Hp' & Hd). pose proof (mstep_inv cap s e Hc Hi) as Hi'.
    apply (IH (mstep cap s e) Hc Hi' Hp' F'). rewrite !count_cons in H.
    destruct (Z.eq_dec (sz s) (term s)) as [Es|Es]; [right; left; now apply settled_step|].
    destruct H as [H|[H|H]]; [|contradiction|right; right; now apply exited_stays].
    destruct Hd as [Hd|[Hd|Hd]]; [right; now left|right; now right|]. specialize (Hd Es). left.
    destruct (is_main e), (is_set e); lia.
Qed.

(** *** The input thread's shutdown *)
Definition iinv (s : istate) : Prop :=
  0 <= ipipe s /\ (isetdone s = true -> ishould s = true) /\ (ip s = ISelect -> isetdone s = true -> 0 < ipipe s) /\
  (ip s = IDone -> ishould s = true).

Lemma istep_inv cap s e : 0 < cap -> iinv s -> iinv (istep cap s e).
Proof.
  intros Hc (H0 & H1 & H2 & H3). pose proof (wake_pos cap (ipipe s) Hc H0). pose proof (drain_nonneg (ipipe s) H0) as (D & _).
  destruct e; cbn [istep].
  - unfold iinv; cbn; splits; auto.
  - destruct (ishould s && negb (isetdone s)) eqn:E; [|unfold iinv; splits; auto]. unfold iinv; cbn; splits; auto; lia.
  - destruct (ip s) eqn:Ep.
    + destruct (ipipe s =? 0); unfold iinv; cbn; splits; auto; try discriminate; lia.
    + unfold iinv; cbn. destruct (ishould s) eqn:Es; splits; auto; try discriminate. intros _ Hx. specialize (H1 Hx). discriminate.
    + destruct (0 <? ipipe s); unfold iinv; cbn; rewrite ?Ep; splits; auto; discriminate.
    + unfold iinv; cbn; splits; auto; discriminate.
    + unfold iinv; rewrite Ep; splits; auto.
  - destruct (ip s) eqn:Ep; try (unfold iinv; rewrite Ep; splits; auto; fail). unfold iinv; cbn; splits; auto; discriminate.
  - destruct (ip s) eqn:Ep; try (unfold iinv; rewrite Ep; splits; auto; fail). unfold iinv; cbn; splits; auto; discriminate.
Qed.

Definition imu (s : istate) : Z :=
  match ip s with IDone => 0 | ICheck => 1 | IReset => 2 + ipipe s | ISelect => 4 + ipipe s | IWork => 3 + ipipe s end.

Lemma imu_step cap s e : 0 < cap -> iinv s -> isetdone s = true ->
  isetdone (istep cap s e) = true /\
  imu (istep cap s e) <= imu s - (if is_istep e then (if imu s =? 0 then 0 else 1) else 0).
Proof.
  intros Hc (H0 & H1 & H2 & H3) Hd. specialize (H1 Hd). pose proof (drain_nonneg (ipipe s) H0) as (D & D2).
  destruct e; cbn [istep is_istep].
  - split; [exact Hd|]. unfold imu. cbn [ip ipipe]. lia.
  - rewrite Hd. cbn [negb]. rewrite andb_false_r. split; [exact Hd|lia].
  - unfold imu at 2 3. destruct (ip s) eqn:Ep.
    + replace (2 + ipipe s =? 0) with false by lia.
      destruct (Z.eqb_spec (ipipe s) 0); (split; [exact Hd|]); unfold imu; cbn [ip ipipe]; lia.
    + rewrite H1. split; [exact Hd|]. unfold imu; cbn [ip ipipe]; change (1 =? 0) with false. lia.
    + specialize (H2 eq_refl Hd). replace (0 <? ipipe s) with true by lia. replace (4 + ipipe s =? 0) with false by lia.
      split; [exact Hd|]. unfold imu; cbn [ip ipipe]; lia.
    + replace (3 + ipipe s =? 0) with false by lia. split; [exact Hd|]. unfold imu; cbn [ip ipipe]; lia.
    + split; [exact Hd|]. unfold imu. rewrite Ep. change (0 =? 0) with true. lia.
  - unfold imu. destruct (ip s) eqn:Ep; (split; [exact Hd|]); cbn [ip ipipe]; rewrite ?Ep; lia.
  - unfold imu. destruct (ip s) eqn:Ep; (split; [exact Hd|]); cbn [ip ipipe]; rewrite ?Ep; lia.
Qed.

Lemma irun_inv cap es : forall s, 0 < cap -> iinv s -> iinv (irun cap s es).
Proof. induction es as [|e es IH]; intros s Hc H; [exact H|]. apply (IH (istep cap s e)); [exact Hc|now apply istep_inv]. Qed.

Lemma input_stops cap es : forall s, 0 < cap -> iinv s -> isetdone s = true ->
  imu s <= count is_istep es -> ip (irun cap s es) = IDone.
Proof.
  induction es as [|e es IH]; intros s Hc Hi Hd H.
  - cbn [irun fold_left]. unfold count in H. cbn in H. destruct Hi as (H0 & _). unfold imu in H. destruct (ip s); try lia. reflexivity.
  - cbn [irun fold_left]. destruct (imu_step cap s e Hc Hi Hd) as (Hd' & Hm). rewrite count_cons in H.
    apply (IH (istep cap s e)); [exact Hc|now apply istep_inv|exact Hd'|].
    destruct (is_istep e), (Z.eqb_spec (imu s) 0); unfold count in *; pose proof (zlen_nonneg (filter is_istep es)); lia.
Qed.

Lemma iinit_inv : iinv iinit.
Proof. unfold iinv, iinit. cbn. splits; try lia; discriminate. Qed.

Lemma exits5 cap v n pre es : 0 < cap -> let s := mrun cap (mstart cap v n) pre in
  In HNotified (hs s) -> 5 + pipe s + count is_set es <= count is_main es -> pc (mrun cap s es) = Exited.
Proof.
  intros Hc s Hn H. assert (Hi : minv s) by (apply mrun_inv; [exact Hc|apply minit_reg]).
  apply exits; auto. destruct Hi as (H0 & _). assert (mu s <= 5 + pipe s) by (unfold mu; destruct (pc s); lia). lia.
Qed.

Lemma notices6 cap v n pre es : 0 < cap -> let s := mrun cap (mstart cap v n) pre in
  pend s = false -> Forall (fun e => is_resize e = false) es ->
  6 + pipe s + count is_set es <= count is_main es ->
  sz (mrun cap s es) = term s \/ pc (mrun cap s es) = Exited.
Proof.
  intros Hc s Hp F H. assert (Hi : minv s) by (apply mrun_inv; [exact Hc|apply minit_reg]).
  assert (Ht : term (mrun cap s es) = term s).
  { clear - F. clearbody s. revert s. induction es as [|e es IH]; intros s; [reflexivity|]. inversion F as [|? ? Hr F']; subst.
    cbn [mrun fold_left]. transitivity (term (mstep cap s e)); [exact (IH F' (mstep cap s e))|].
    destruct e as [w| |i|i| |]; try discriminate; cbn [mstep].
    - now destruct (pend s).
    - destruct (pc s), (nth_error (hs s) i) as [[| |]|]; reflexivity.
    - destruct (nth_error (hs s) i) as [[| |]|]; reflexivity.
    - destruct (pc s); try reflexivity; [destruct (0 <? pipe s)|destruct (pipe s =? 0)|destruct (existsb complete (hs s))]; reflexivity.
    - destruct (pc s); reflexivity. }
  rewrite <- Ht. apply notices; auto. left. destruct Hi as (H0 & _).
  assert (nu s <= 5 + pipe s) by (unfold nu; destruct (pc s); lia). lia.
Qed.

Lemma input_stops4 cap pre es : 0 < cap -> let s := irun cap iinit pre in
  isetdone s = true -> 4 + ipipe s <= count is_istep es -> ip (irun cap s es) = IDone.
Proof.
  intros Hc s Hd H. assert (Hi : iinv s) by (apply irun_inv; [exact Hc|apply iinit_inv]).
  apply input_stops; auto. destruct Hi as (H0 & _). unfold imu. destruct (ip s); lia.
Qed.

Lemma done_only_if cap es : 0 < cap -> ip (irun cap iinit es) = IDone -> ishould (irun cap iinit es) = true.
Proof. intros Hc. apply (irun_inv cap es iinit Hc iinit_inv). Qed.

(** *** The same in terms of the events alone *)
Definition rank (h : hstate) : Z := match h with HRunning => 0 | HFlagged => 1 | HNotified => 2 end.

Lemma upd_reads (l l' : list hstate) j h i : upd_nat l j h = Some l' -> (j < length l)%nat ->
  nth_error l' i = if Nat.eqb i j then Some h else nth_error l i.
Proof. intros E Hj. destruct (upd_nat_some l j h Hj) as (l2 & E2 & _ & H). rewrite E in E2. injection E2 as ->. apply H. Qed.

Lemma rank_step cap s e i h : nth_error (hs s) i = Some h ->
  exists h', nth_error (hs (mstep cap s e)) i = Some h' /\ rank h <= rank h' /\
    (e = EvComplete i -> pc s <> Start -> 1 <= rank h') /\ (e = EvNotify i -> 1 <= rank h -> rank h' = 2).
Proof.
  intros Hi. assert (Same : forall s', hs s' = hs s ->
    (e = EvComplete i -> pc s <> Start -> 1 <= rank h) -> (e = EvNotify i -> 1 <= rank h -> rank h = 2) ->
    exists h', nth_error (hs s') i = Some h' /\ rank h <= rank h' /\
    (e = EvComplete i -> pc s <> Start -> 1 <= rank h') /\ (e = EvNotify i -> 1 <= rank h -> rank h' = 2)).
  { intros s' E A B. exists h. rewrite E. splits; auto. lia. }
  destruct e as [v| |j|j| |]; cbn [mstep].
  - apply Same; [reflexivity|discriminate|discriminate].
  - apply Same; [now destruct (pend s)|discriminate|discriminate].
  - destruct (nth_error (hs s) j) as [hj|] eqn:Ej.
    2: { apply Same; [now destruct (pc s)| |discriminate]. intros E. injection E as ->. congruence. }
    assert (Hl : (j < length (hs s))%nat) by (apply nth_error_Some; congruence).
    destruct hj.
    2,3: apply Same; [now destruct (pc s)| |discriminate]; intros E _; injection E as ->; rewrite Hi in Ej; injection Ej as ->; cbn; lia.
    destruct (upd_nat_some (hs s) j HFlagged Hl) as (l' & El & _ & Hr). rewrite El.
    destruct (pc s) eqn:Ep; [apply Same; [reflexivity|congruence|discriminate]|..]; cbn [hs]; rewrite Hr;
      (destruct (Nat.eqb_spec i j) as [->|Hne];
       [exists HFlagged; rewrite Hi in Ej; injection Ej as ->; cbn [rank]; splits; auto; try lia; discriminate
       |exists h; splits; auto; [lia|intros E; injection E as ->; congruence|discriminate]]).
  - destruct (nth_error (hs s) j) as [hj|] eqn:Ej.
    2: { apply Same; [reflexivity|discriminate|]. intros E. injection E as ->. congruence. }
    assert (Hl : (j < length (hs s))%nat) by (apply nth_error_Some; congruence).
    destruct hj.
    1,3: apply Same; [reflexivity|discriminate|]; intros E; injection E as ->; rewrite Hi in Ej; injection Ej as ->; cbn; lia.
    destruct (upd_nat_some (hs s) j HNotified Hl) as (l' & El & _ & Hr). rewrite El. cbn [hs]. rewrite Hr.
    destruct (Nat.eqb_spec i j) as [->|Hne].
    + exists HNotified. rewrite Hi in Ej; injection Ej as ->; cbn [rank]; splits; auto; try lia; discriminate.
    + exists h; splits; auto; [lia|discriminate|intros E; injection E as ->; congruence].
  - apply Same; [|discriminate|discriminate].
    destruct (pc s); try reflexivity; [destruct (0 <? pipe s)|destruct (pipe s =? 0)|destruct (existsb complete (hs s))]; reflexivity.
  - apply Same; [destruct (pc s); reflexivity|discriminate|discriminate].
Qed.

Lemma rank_run cap es : forall s i h, nth_error (hs s) i = Some h ->
  exists h', nth_error (hs (mrun cap s es)) i = Some h' /\ rank h <= rank h' /\ (In (EvNotify i) es -> 1 <= rank h -> rank h' = 2).
Proof.
  induction es as [|e es IH]; intros s i h H; cbn [mrun fold_left].
  - exists h. splits; auto; [lia|intros []].
  - destruct (rank_step cap s e i h H) as (h1 & H1 & R1 & _ & N1).
    destruct (IH (mstep cap s e) i h1 H1) as (h2 & H2 & R2 & N2). exists h2. splits; auto; [lia|].
    intros [->|Hin] Hr; [|apply N2; auto; lia]. specialize (N1 eq_refl Hr). destruct h2; cbn [rank] in *; lia.
Qed.

Lemma mrun_app cap a b s : mrun cap s (a ++ b) = mrun cap (mrun cap s a) b.
Proof. apply fold_left_app. Qed.

Lemma signalled cap v n i a b : 0 < cap -> (i < n)%nat -> In (EvNotify i) b ->
  In HNotified (hs (mrun cap (mstart cap v n) (a ++ EvComplete i :: b))).
Proof.
  intros Hc Hi Hb. rewrite mrun_app. set (s := mrun cap (mstart cap v n) a).
  assert (Hp : pc s <> Start) by (apply mrun_inv; [exact Hc|apply minit_reg]).
  assert (E0 : nth_error (hs (mstart cap v n)) i = Some HRunning) by (cbn; now apply nth_error_repeat).
  destruct (rank_run cap a _ i _ E0) as (h1 & H1 & _). fold s in H1.
  destruct (rank_step cap s (EvComplete i) i h1 H1) as (h2 & H2 & _ & C2 & _). specialize (C2 eq_refl Hp).
  destruct (rank_run cap b _ i _ H2) as (h3 & H3 & _ & N3). specialize (N3 Hb C2).
  change (mrun cap s (EvComplete i :: b)) with (mrun cap (mstep cap s (EvComplete i)) b).
  apply nth_error_In in H3. destruct h3; cbn [rank] in N3; try lia. exact H3.
Qed.

Lemma main_exits cap v n i a b es : 0 < cap -> (i < n)%nat -> In (EvNotify i) b ->
  let s := mrun cap (mstart cap v n) (a ++ EvComplete i :: b) in
  5 + pipe s + count is_set es <= count is_main es -> pc (mrun cap s es) = Exited.
Proof. intros Hc Hi Hb s H. apply exits5; auto. now apply signalled. Qed.

Lemma quiet_step cap s e : is_resize e = false ->
  term (mstep cap s e) = term s /\ (pend s = false \/ e = EvDeliver -> pend (mstep cap s e) = false).
Proof.
  intros He. destruct e as [v| |j|j| |]; try discriminate; cbn [mstep].
  - destruct (pend s) eqn:Ep; cbn [term pend]; auto.
  - destruct (pc s), (nth_error (hs s) j) as [[| |]|]; cbn [term pend]; split; auto; intros [H|H]; auto; discriminate.
  - destruct (nth_error (hs s) j) as [[| |]|]; cbn [term pend]; split; auto; intros [H|H]; auto; discriminate.
  - destruct (pc s); [|destruct (0 <? pipe s)|destruct (pipe s =? 0)| |destruct (existsb complete (hs s))|]; cbn [term pend with_pc with_pipe];
      split; auto; intros [H|H]; auto; discriminate.
  - destruct (pc s); cbn [term pend with_pc]; split; auto; intros [H|H]; auto; discriminate.
Qed.

Lemma quiet_run cap es : Forall (fun e => is_resize e = false) es -> forall s,
  term (mrun cap s es) = term s /\ (pend s = false \/ In EvDeliver es -> pend (mrun cap s es) = false).
Proof.
  induction 1 as [|e es He F IH]; intros s; [split; [reflexivity|intros [H|[]]; exact H]|].
  destruct (quiet_step cap s e He) as (T & P). destruct (IH (mstep cap s e)) as (T' & P').
  change (mrun cap s (e :: es)) with (mrun cap (mstep cap s e) es). split; [congruence|]. intros [H|[H|H]]; apply P'; auto.
Qed.

Lemma resize_acted cap v n w a b es : 0 < cap -> Forall (fun e => is_resize e = false) (b ++ es) -> In EvDeliver b ->
  let s := mrun cap (mstart cap v n) (a ++ EvResize w :: b) in
  6 + pipe s + count is_set es <= count is_main es ->
  sz (mrun cap s es) = w \/ pc (mrun cap s es) = Exited.
Proof.
  intros Hc F Hb s H. apply Forall_app in F. destruct F as (Fb & Fe).
  assert (Hs : s = mrun cap (mstep cap (mrun cap (mstart cap v n) a) (EvResize w)) b) by (unfold s; now rewrite mrun_app).
  destruct (quiet_run cap b Fb (mstep cap (mrun cap (mstart cap v n) a) (EvResize w))) as (T & P).
  rewrite <- Hs in T, P. cbn [mstep term] in T.
  destruct (notices6 cap v n (a ++ EvResize w :: b) es Hc (P (or_intror Hb)) Fe H) as [E|E]; [left|now right].
  fold s in E. congruence.
Qed.

(** Main leaves its loop only if a thread has finished. *)
Lemma running_step cap s e : Forall (fun h => h = HRunning) (hs s) -> pc s <> Exited ->
  (forall i, e <> EvComplete i) -> Forall (fun h => h = HRunning) (hs (mstep cap s e)) /\ pc (mstep cap s e) <> Exited.
Proof.
  intros F Hp He. destruct e as [v| |j|j| |]; cbn [mstep].
  - auto.
  - destruct (pend s); auto.
  - now destruct (He j).
  - destruct (nth_error (hs s) j) as [hj|] eqn:Ej; [|auto]. rewrite Forall_forall in F.
    rewrite (F hj (nth_error_In _ _ Ej)). rewrite Forall_forall. auto.
  - assert (Ex : existsb complete (hs s) = false).
    { destruct (existsb complete (hs s)) eqn:E; [|reflexivity]. apply existsb_exists in E. destruct E as (h & Hh & C).
      rewrite Forall_forall in F. rewrite (F h Hh) in C. discriminate. }
    rewrite Ex. destruct (pc s) eqn:Epc; cbn [pc hs]; try (split; [exact F|discriminate]).
    + destruct (0 <? pipe s); cbn [with_pc hs pc]; rewrite ?Epc; split; auto; discriminate.
    + destruct (pipe s =? 0); cbn [with_pc with_pipe hs pc]; rewrite ?Epc; split; auto; discriminate.
    + congruence.
  - destruct (pc s) eqn:Epc; cbn [with_pc hs pc]; rewrite ?Epc; split; auto; discriminate.
Qed.

Lemma exits_only cap v n es : pc (mrun cap (mstart cap v n) es) = Exited -> exists i, In (EvComplete i) es.
Proof.
  assert (F0 : Forall (fun h => h = HRunning) (hs (mstart cap v n))).
  { apply Forall_forall. cbn. intros h Hh. now apply repeat_spec in Hh. }
  assert (P0 : pc (mstart cap v n) <> Exited) by (cbn; discriminate).
  revert F0 P0. generalize (mstart cap v n). induction es as [|e es IH]; intros s F0 P0 H; [now destruct P0|].
  assert (D : (exists i, e = EvComplete i) \/ forall i, e <> EvComplete i).
  { destruct e; try (right; intros; discriminate). left. eauto. }
  destruct D as [(i & ->)|D]; [exists i; now left|].
  destruct (running_step cap s e F0 P0 D) as (F1 & P1). destruct (IH _ F1 P1 H) as (i & Hi). exists i. now right.
Qed.

Lemma should_stays cap es : forall s, ishould s = true -> ishould (irun cap s es) = true.
Proof.
  induction es as [|e es IH]; intros s H; [exact H|]. apply (IH (istep cap s e)). destruct e; cbn [istep]; auto.
  - destruct (ishould s && negb (isetdone s)); auto.
  - destruct (ip s); auto; [destruct (ipipe s =? 0)|destruct (0 <? ipipe s)]; auto.
  - destruct (ip s); auto.
  - destruct (ip s); auto.
Qed.

Lemma setdone_comes cap es : forall s, ishould s = true -> isetdone s = true \/ In IvSet es -> isetdone (irun cap s es) = true.
Proof.
  induction es as [|e es IH]; intros s H D; [now destruct D as [D|[]]|]. apply (IH (istep cap s e)).
  - now apply (should_stays cap [e]).
  - destruct D as [D|[->|D]]; [left|left|now right].
    + destruct e; cbn [istep]; auto.
      * rewrite D, andb_false_r. exact D.
      * destruct (ip s); auto; [destruct (ipipe s =? 0)|destruct (0 <? ipipe s)]; auto.
      * destruct (ip s); auto.
      * destruct (ip s); auto.
    + cbn [istep]. rewrite H. destruct (isetdone s) eqn:Ed; cbn; auto.
Qed.

Lemma input_asked cap a b es : 0 < cap -> In IvSet b ->
  let s := irun cap iinit (a ++ IvShould :: b) in
  4 + ipipe s <= count is_istep es -> ip (irun cap s es) = IDone.
Proof.
  intros Hc Hb s H. apply input_stops4; auto. unfold irun. rewrite fold_left_app. cbn [fold_left].
  apply (setdone_comes cap b); [reflexivity|now right].
Qed.

Lemma not_asked cap es : forall s, ishould s = false -> ip s <> IDone -> ~ In IvShould es -> ip (irun cap s es) <> IDone.
Proof.
  induction es as [|e es IH]; intros s H P Hn; [exact P|].
  assert (D : ishould (istep cap s e) = false /\ ip (istep cap s e) <> IDone).
  { destruct e; cbn [istep].
    - destruct Hn. now left.
    - rewrite H. auto.
    - destruct (ip s) eqn:Ep; [destruct (ipipe s =? 0)|rewrite H|destruct (0 <? ipipe s)|..]; cbn [ishould ip]; rewrite ?Ep;
        split; auto; discriminate.
    - destruct (ip s) eqn:Ep; cbn [ishould ip]; rewrite ?Ep; split; auto; discriminate.
    - destruct (ip s) eqn:Ep; cbn [ishould ip]; rewrite ?Ep; split; auto; discriminate. }
  destruct D as (D1 & D2). apply (IH (istep cap s e) D1 D2). intros Hin. apply Hn. now right.
Qed.

Lemma iev_dec : forall x y : iev, {x = y} + {x <> y}.
Proof. decide equality. Qed.

Lemma asked_only cap es : ip (irun cap iinit es) = IDone -> In IvShould es.
Proof.
  intros H. destruct (in_dec iev_dec IvShould es) as [|Hn]; [assumption|].
  destruct (not_asked cap es iinit eq_refl); [discriminate|exact Hn|exact H].
Qed.

Lemma writeAll_ok {E} os buf fd : zlen buf < 2 ^ 31 -> answers_ok os (zlen buf) ->
  match @writeAll E os buf fd with
  | Ok (true, fd', _) => fd' = fd ++ buf
  | Ok (false, fd', _) => exists p, fd' = fd ++ p /\ is_prefix p buf /\ p <> buf
  | OutOfFuel => True
  | _ => False
  end.
Proof.
  intros Hl Ha. pose proof (zlen_nonneg buf). pose proof (@writeAll_loop_ok E os buf 0 fd ltac:(lia) Hl) as W.
  rewrite Z.sub_0_r in W. specialize (W Ha). unfold writeAll. rewrite zskipn_neg in W by lia.
  destruct (@writeAll_loop E os buf 0 fd) as [[[[|] fd'] os']| | | |]; try contradiction; try exact I.
  - destruct W as (p & -> & _ & (Hp & _)). now rewrite (Hp eq_refl).
  - destruct W as (p & -> & Hp & (_ & Hq)). exists p. splits; auto. intros ->. specialize (Hq eq_refl). discriminate.
Qed.

Lemma writeAll_finishes {E} os buf fd : zlen buf < 2 ^ 31 -> answers_ok os (zlen buf) -> no_fail os ->
  zlen buf <= accepted os -> exists os', @writeAll E os buf fd = Ok (true, fd ++ buf, os').
Proof.
  intros Hl Ha Hn Hc. pose proof (zlen_nonneg buf).
  destruct (@writeAll_live E os buf 0 fd) as (fd' & os' & W); rewrite ?Z.sub_0_r; auto; [lia|].
  exists os'. pose proof (@writeAll_ok E os buf fd Hl Ha) as K. unfold writeAll in *. rewrite W in K |- *. now rewrite K.
Qed.
