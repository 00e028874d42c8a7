(** Proofs about Security.v. *)
From Verif Require Import Base Text Security SecuritySpec.
From Coq Require Import Lia.

Ltac splits := repeat match goal with |- _ /\ _ => split end.

Lemma sid_eqb_eq a b : sid_eqb a b = true <-> a = b.
Proof.
  destruct a as [a1 a2], b as [b1 b2]. unfold sid_eqb. cbn [sid_authority sid_subs].
  rewrite Bool.andb_true_iff. split.
  - intros [H1 H2]. apply list_eqb_eq in H1. apply list_eqb_eq in H2. congruence.
  - intros E. injection E as -> ->. split; apply list_eqb_refl.
Qed.
Lemma sid_eqb_neq a b : a <> b -> sid_eqb a b = false.
Proof.
  intros H. destruct (sid_eqb a b) eqn:E; [|reflexivity]. apply sid_eqb_eq in E. contradiction.
Qed.
Lemma sid_dec (a b : sid) : a = b \/ a <> b.
Proof.
  destruct (sid_eqb a b) eqn:E; [left; apply sid_eqb_eq; exact E|right; intros ->].
  rewrite (proj2 (sid_eqb_eq b b) eq_refl) in E. discriminate.
Qed.
Lemma in_sid_dec (a : sid) l : In a l \/ ~ In a l.
Proof.
  induction l as [|b l IH]; [right; intros []|]. destruct (sid_dec b a) as [->|N].
  - left; left; reflexivity.
  - destruct IH as [H|H]; [left; right; exact H|right; intros [E|H']; [contradiction|contradiction]].
Qed.

(** *** Masks *)
Lemma all_bits n : Z.testbit 0x1F01FF n = true <-> pipe_right n.
Proof.
  unfold pipe_right. destruct (Z_lt_le_dec n 0) as [L|L].
  - rewrite Z.testbit_neg_r by lia. split; [discriminate|lia].
  - destruct (Z_lt_le_dec n 21) as [L2|L2].
    + assert (E : In n (map Z.of_nat (List.seq 0 21))).
      { apply in_map_iff. exists (Z.to_nat n). split; [lia|]. apply in_seq. lia. }
      cbn [map List.seq] in E. repeat (destruct E as [E|E]; [subst n; vm_compute; intuition (try discriminate; try lia)|]).
      destruct E.
    + rewrite Z.bits_above_log2; [split; [discriminate|lia]|lia|].
      change (Z.log2 0x1F01FF) with 20. lia.
Qed.
Lemma covers_all n : covers GENERIC_ALL n <-> pipe_right n.
Proof.
  unfold covers. rewrite <- all_bits. split.
  - intros [[L H]|[[_ H]|[[H _]|[[H _]|[H _]]]]]; try (vm_compute in H; discriminate H).
    + exfalso. change GENERIC_ALL with (2 ^ 28) in H. rewrite Z.pow2_bits_false in H by lia. discriminate.
    + exact H.
  - intros H. right; left. split; [reflexivity|exact H].
Qed.
Lemma covers_public n : covers everyone_rights n <-> public_right n.
Proof.
  unfold covers, public_right. split.
  - intros [[L H]|[[H _]|[[H _]|[[H _]|[H _]]]]]; try (vm_compute in H; discriminate H).
    destruct (Z_lt_le_dec n 0) as [L0|L0]; [rewrite Z.testbit_neg_r in H by lia; discriminate|].
    assert (E : In n (map Z.of_nat (List.seq 0 28))).
    { apply in_map_iff. exists (Z.to_nat n). split; [lia|]. apply in_seq. lia. }
    cbn [map List.seq] in E.
    repeat (destruct E as [E|E]; [subst n; first [vm_compute in H; discriminate H|cbn; tauto]|]). destruct E.
  - intros E. left. cbn in E.
    repeat (destruct E as [E|E]; [subst n; split; [lia|reflexivity]|]). destruct E.
Qed.
Lemma pipe_right_dec n : pipe_right n \/ ~ pipe_right n.
Proof. unfold pipe_right. lia. Qed.
Lemma public_dec n : public_right n \/ ~ public_right n.
Proof. destruct (in_dec Z.eq_dec n [0; 1; 3; 4; 7; 8; 17; 20]) as [H|H]; [left|right]; exact H. Qed.
Lemma public_pipe n : public_right n -> pipe_right n.
Proof. unfold public_right, pipe_right. cbn. lia. Qed.

(** *** Lists that only allow *)
Lemma granted_allow acl who n :
  Forall (fun a => a_allow a = true) acl ->
  (granted acl who n <-> exists a, In a acl /\ In (a_sid a) who /\ covers (a_rights a) n).
Proof.
  induction acl as [|a l IH]; intros F; cbn [granted].
  - split; [intros []|intros (a & [] & _)].
  - inversion F as [|x y Fa Fl]; subst. specialize (IH Fl). split.
    + intros [[[H1 H2] _]|[_ H]].
      * exists a. splits; [left; reflexivity|exact H1|exact H2].
      * apply IH in H. destruct H as (b & Hb & H). exists b. split; [right; exact Hb|exact H].
    + intros (b & [<-|Hb] & H1 & H2); [left; tauto|].
      assert (D : (In (a_sid a) who /\ covers (a_rights a) n) \/ ~ (In (a_sid a) who /\ covers (a_rights a) n)).
      { destruct (in_sid_dec (a_sid a) who) as [Ha|Ha]; [|right; tauto].
        assert (C : covers (a_rights a) n \/ ~ covers (a_rights a) n).
        { unfold covers. destruct (Z.testbit (a_rights a) n), (Z.testbit (a_rights a) 28), (Z.testbit (a_rights a) 29),
            (Z.testbit (a_rights a) 30), (Z.testbit (a_rights a) 31), (Z.testbit 0x1F01FF n), (Z.testbit 0x1200A0 n),
            (Z.testbit 0x120116 n), (Z.testbit 0x120089 n), (Z_lt_le_dec n 28);
          first [left; tauto|right; intuition (try discriminate; try lia)]. }
        tauto. }
      destruct D as [D|D]; [left; tauto|right]. split; [exact D|]. apply IH. exists b. tauto.
Qed.

Lemma in_others s acl a : In a (others s acl) <-> In a acl /\ a_sid a <> s.
Proof.
  unfold others. rewrite filter_In. split; intros [H1 H2]; (split; [exact H1|]).
  - intros E. rewrite (proj2 (sid_eqb_eq _ _) E) in H2. discriminate.
  - rewrite (sid_eqb_neq _ _ H2). reflexivity.
Qed.

(** Entries that only set: for each trustee the last one counts. *)
Lemma set_entries_in es : Forall (fun e => e_mode e = SET_ACCESS) es -> forall acl a,
  In a (fold_left apply_entry es acl) <->
  (In a acl /\ (forall e, In e es -> e_trustee e <> a_sid a)) \/
  (exists l e r, es = l ++ e :: r /\ a = mkAce true (e_rights e) (e_inherit e) (e_trustee e) /\
     forall e', In e' r -> e_trustee e' <> a_sid a).
Proof.
  induction es as [|e es IH]; intros F acl a; cbn [fold_left].
  - split; [intros H; left; split; [exact H|intros e []]|].
    intros [[H _]|(l & e & r & E & _)]; [exact H|destruct l; discriminate].
  - inversion F as [|x y Fe Fr]; subst. rewrite (IH Fr). unfold apply_entry at 1. rewrite Fe. cbv zeta.
    rewrite in_app_iff, in_others. split.
    + intros [[[[H1 H2]|[H|[]]] H3]|(l & e1 & r & -> & Ea & H)].
      * left. split; [exact H1|]. intros e1 [<-|H1']; [congruence|exact (H3 e1 H1')].
      * right. exists [], e, es. splits; [reflexivity|symmetry; exact H|exact H3].
      * right. exists (e :: l), e1, r. splits; [reflexivity|exact Ea|exact H].
    + intros [[H1 H2]|([|b l] & e1 & r & E & Ea & H)].
      * left. split; [left; split; [exact H1|]|intros e1 H1'; exact (H2 e1 (or_intror H1'))].
        intros E. exact (H2 e (or_introl eq_refl) (eq_sym E)).
      * injection E as -> ->. left. split; [right; left; symmetry; exact Ea|exact H].
      * injection E as -> ->. right. exists l, e1, r. splits; [reflexivity|exact Ea|exact H].
Qed.
Lemma set_entries_allow es : Forall (fun e => e_mode e = SET_ACCESS) es -> forall acl,
  Forall (fun a => a_allow a = true) acl -> Forall (fun a => a_allow a = true) (fold_left apply_entry es acl).
Proof.
  induction es as [|e es IH]; intros F acl Fa; [exact Fa|]. cbn [fold_left].
  inversion F as [|x y Fe Fr]; subst. apply (IH Fr). unfold apply_entry. rewrite Fe. cbv zeta.
  apply Forall_app. split; [|repeat constructor].
  apply Forall_forall. intros a Ha. apply in_others in Ha. exact (proj1 (Forall_forall _ _) Fa a (proj1 Ha)).
Qed.

(** Who gets what from such a list. *)
Lemma granted_set es who n : Forall (fun e => e_mode e = SET_ACCESS) es ->
  (granted (SetEntriesInAcl es) who n <->
   exists l e r, es = l ++ e :: r /\ In (e_trustee e) who /\ covers (e_rights e) n /\
     forall e', In e' r -> e_trustee e' <> e_trustee e).
Proof.
  intros F. unfold SetEntriesInAcl.
  rewrite (granted_allow _ _ _ (set_entries_allow es F [] (Forall_nil _))). split.
  - intros (a & Ha & H1 & H2). apply (set_entries_in es F) in Ha.
    destruct Ha as [[[] _]|(l & e & r & E & -> & H)]. exists l, e, r. splits; assumption.
  - intros (l & e & r & E & H1 & H2 & H).
    exists (mkAce true (e_rights e) (e_inherit e) (e_trustee e)). splits; [|exact H1|exact H2].
    apply (set_entries_in es F). right. exists l, e, r. splits; [exact E|reflexivity|exact H].
Qed.

(** The last of the equal trustees of a list of entries. *)
Lemma last_such (s : sid) es : (exists e, In e es /\ e_trustee e = s) ->
  exists l e r, es = l ++ e :: r /\ e_trustee e = s /\ forall e', In e' r -> e_trustee e' <> s.
Proof.
  induction es as [|e es IH]; intros (x & Hx & E); [destruct Hx|].
  assert (D : (exists e', In e' es /\ e_trustee e' = s) \/ ~ exists e', In e' es /\ e_trustee e' = s).
  { clear. induction es as [|b es IH]; [right; intros (e' & [] & _)|].
    destruct (sid_dec (e_trustee b) s) as [Eb|Nb]; [left; exists b; split; [left; reflexivity|exact Eb]|].
    destruct IH as [(e' & H & E)|N]; [left; exists e'; split; [right; exact H|exact E]|].
    right. intros (e' & [<-|H] & E); [contradiction|]. apply N. exists e'. tauto. }
  destruct D as [D|D].
  - destruct (IH D) as (l & e1 & r & -> & E1 & H). exists (e :: l), e1, r. splits; [reflexivity|exact E1|exact H].
  - destruct Hx as [->|Hx]; [|exfalso; apply D; exists x; tauto].
    exists [], x, es. splits; [reflexivity|exact E|]. intros e' He' E'. apply D. exists e'. tauto.
Qed.

Lemma granted_full a b c who n :
  granted (SetEntriesInAcl [full_control a; full_control b; full_control c]) who n <->
  pipe_right n /\ (In a who \/ In b who \/ In c who).
Proof.
  rewrite granted_set by (repeat constructor). split.
  - intros (l & e & r & E & H1 & H2 & _).
    assert (He : In e [full_control a; full_control b; full_control c]) by (rewrite E; apply in_elt).
    destruct He as [<-|[<-|[<-|[]]]]; cbn [full_control e_rights e_trustee] in H1, H2;
      apply covers_all in H2; tauto.
  - intros [Hn Hw].
    assert (X : exists s, In s who /\ exists e, In e [full_control a; full_control b; full_control c] /\ e_trustee e = s).
    { destruct Hw as [H|[H|H]]; [exists a; split; [exact H|exists (full_control a)]|exists b; split; [exact H|exists (full_control b)]|exists c; split; [exact H|exists (full_control c)]];
        (split; [cbn; tauto|reflexivity]). }
    destruct X as (s & Hs & He). destruct (last_such s _ He) as (l & e & r & E & Et & H).
    exists l, e, r. splits; [exact E|rewrite Et; exact Hs| |intros e' He'; rewrite Et; exact (H e' He')].
    assert (Hi : In e [full_control a; full_control b; full_control c]) by (rewrite E; apply in_elt).
    destruct Hi as [<-|[<-|[<-|[]]]]; apply covers_all; exact Hn.
Qed.

Lemma granted_public a b c who n : a <> everyone -> b <> everyone -> c <> everyone ->
  (granted (SetEntriesInAcl [full_control a; full_control b; full_control c;
      mkE everyone_rights SET_ACCESS NO_INHERITANCE everyone]) who n <->
   (pipe_right n /\ (In a who \/ In b who \/ In c who)) \/ (public_right n /\ In everyone who)).
Proof.
  intros Na Nb Nc. set (w := mkE everyone_rights SET_ACCESS NO_INHERITANCE everyone).
  rewrite granted_set by (repeat constructor). split.
  - intros (l & e & r & E & H1 & H2 & _).
    assert (He : In e [full_control a; full_control b; full_control c; w]) by (rewrite E; apply in_elt).
    destruct He as [<-|[<-|[<-|[<-|[]]]]]; cbn [full_control w e_rights e_trustee] in H1, H2;
      first [apply covers_all in H2|apply covers_public in H2]; tauto.
  - intros [[Hn Hw]|[Hn Hw]].
    + assert (X : exists s, In s who /\ s <> everyone /\ exists e, In e [full_control a; full_control b; full_control c; w] /\ e_trustee e = s).
      { destruct Hw as [H|[H|H]]; [exists a; splits; [exact H|exact Na|exists (full_control a)]|exists b; splits; [exact H|exact Nb|exists (full_control b)]|exists c; splits; [exact H|exact Nc|exists (full_control c)]];
        (split; [cbn; tauto|reflexivity]). }
      destruct X as (s & Hs & Ns & He). destruct (last_such s _ He) as (l & e & r & E & Et & H).
      exists l, e, r. splits; [exact E|rewrite Et; exact Hs| |intros e' He'; rewrite Et; exact (H e' He')].
      assert (Hi : In e [full_control a; full_control b; full_control c; w]) by (rewrite E; apply in_elt).
      destruct Hi as [<-|[<-|[<-|[<-|[]]]]]; try (apply covers_all; exact Hn).
      exfalso. apply Ns. rewrite <- Et. reflexivity.
    + exists [full_control a; full_control b; full_control c], w, []. splits; [reflexivity|exact Hw|apply covers_public; exact Hn|].
      intros e' [].
Qed.

(** *** The calls *)
Lemma token_ok os t : openSecurityTokenForQuery os = Ok t -> acts_for os t.
Proof.
  unfold openSecurityTokenForQuery, acts_for. destruct (o_thread os) as [[x|]|e] eqn:Et; cbn [bind].
  - intros E. injection E as ->. left. reflexivity.
  - discriminate.
  - destruct (Z.eqb_spec e ERROR_NO_TOKEN) as [->|N]; cbn [negb bind]; [|discriminate].
    destruct (o_process os) as [[x|]|e] eqn:Ep; cbn [bind]; try discriminate.
    intros E. injection E as ->. right. split; reflexivity.
Qed.
Lemma token_ok_conv os t : acts_for os t -> openSecurityTokenForQuery os = Ok t.
Proof.
  unfold openSecurityTokenForQuery, acts_for. intros [->|[-> ->]]; reflexivity.
Qed.
Lemma acts_for_unique os t t' : acts_for os t -> acts_for os t' -> t = t'.
Proof. intros H H'. apply token_ok_conv in H. apply token_ok_conv in H'. congruence. Qed.

Lemma owner_ok os s : getOwnerSid os = Ok s <-> exists t, acts_for os t /\ token_usable t /\ s = tok_owner t.
Proof.
  unfold getOwnerSid, token_usable. split.
  - destruct (openSecurityTokenForQuery os) as [t| | | |] eqn:Et; cbn [bind]; try discriminate.
    apply token_ok in Et. destruct (tok_size t) as [n|e] eqn:Es; [discriminate|].
    destruct (Z.eqb_spec e ERROR_INSUFFICIENT_BUFFER) as [->|N]; cbn [negb]; [|discriminate].
    destruct (tok_info t) as [n|e] eqn:Ei; [|discriminate].
    destruct (n >=? sizeof_TOKEN_OWNER) eqn:En; [|discriminate]. intros E. injection E as <-.
    exists t. splits; [exact Et|exact Es| |reflexivity]. exists n. split; [exact Ei|].
    unfold sizeof_TOKEN_OWNER in En. apply Z.geb_le in En. lia.
  - intros (t & Ha & [Hs (n & Hi & Hn)] & ->). rewrite (token_ok_conv os t Ha). cbn [bind]. rewrite Hs.
    change (122 =? ERROR_INSUFFICIENT_BUFFER) with true. cbn [negb]. rewrite Hi.
    destruct (n >=? sizeof_TOKEN_OWNER) eqn:En; [reflexivity|].
    exfalso. unfold sizeof_TOKEN_OWNER in En. rewrite Z.geb_leb in En. apply Z.leb_gt in En. lia.
Qed.

(** How a call sequence may go wrong. *)
Definition bad {A} (os : sec_os) (r : res why A) : Prop :=
  match r with Ok _ => True | Throw e => failed os e | AssertFail => absurd_answer os | UB => False | OutOfFuel => False end.
Lemma bad_bind {A B} os (m : res why A) (k : A -> res why B) :
  bad os m -> (forall a, m = Ok a -> bad os (k a)) -> bad os (bind m k).
Proof. intros H K. destruct m; cbn [bind]; try exact H. exact (K a eq_refl). Qed.

Lemma bad_token os : bad os (openSecurityTokenForQuery os).
Proof.
  unfold openSecurityTokenForQuery, bad, failed, absurd_answer.
  destruct (o_thread os) as [[x|]|e] eqn:Et; cbn [bind]; [exact Logic.I|left; reflexivity|].
  destruct (Z.eqb_spec e ERROR_NO_TOKEN) as [->|N]; cbn [negb bind].
  - destruct (o_process os) as [[x|]|e'] eqn:Ep; cbn [bind]; [exact Logic.I|right; left; split; reflexivity|].
    split; reflexivity.
  - split; [reflexivity|exact N].
Qed.
Lemma bad_owner os : bad os (getOwnerSid os).
Proof.
  unfold getOwnerSid. apply bad_bind; [apply bad_token|]. intros t Et. apply token_ok in Et.
  destruct (tok_size t) as [n|e] eqn:Es.
  { cbn. exists t. split; [exact Et|]. right. split; [exists n; exact Es|reflexivity]. }
  destruct (Z.eqb_spec e ERROR_INSUFFICIENT_BUFFER) as [->|N]; cbn [negb].
  2:{ cbn. exists t. split; [exact Et|]. left. split; [exact Es|exact N]. }
  destruct (tok_info t) as [n|e'] eqn:Ei.
  - destruct (n >=? sizeof_TOKEN_OWNER) eqn:En; [exact Logic.I|].
    cbn. unfold absurd_answer. right; right; left. exists t, n. splits; [exact Et|exact Ei|].
    unfold sizeof_TOKEN_OWNER in En. rewrite Z.geb_leb in En. apply Z.leb_gt in En. lia.
  - cbn. exists t. split; [exact Et|exact Ei].
Qed.
Lemma bad_sid os n a c x y : bad os (wellKnownSid os n a c x y).
Proof.
  unfold wellKnownSid. destruct (o_alloc_sid os n) as [e|] eqn:E; [|exact Logic.I]. cbn. exists n. exact E.
Qed.
Lemma bad_finish os es : bad os (finishSecurityDescriptor os es).
Proof.
  unfold finishSecurityDescriptor. destruct (Z.eqb_spec (o_set_entries os) ERROR_SUCCESS) as [E|N]; cbn [negb].
  2:{ cbn. split; [reflexivity|exact N]. }
  destruct (o_local_alloc os) eqn:El; cbn [negb]; [|exact El].
  destruct (o_initialize os) as [e|] eqn:Ei; [exact Ei|].
  destruct (o_set_dacl os) as [e|] eqn:Ed; [exact Ed|exact Logic.I].
Qed.
Lemma bad_descriptor os : bad os (ownerFullControl os).
Proof.
  unfold ownerFullControl, localSystemSid, builtinAdminsSid.
  apply bad_bind; [apply bad_sid|intros s1 _]. apply bad_bind; [apply bad_sid|intros s2 _].
  apply bad_bind; [apply bad_owner|intros s3 _]. apply bad_finish.
Qed.
Lemma bad_descriptor2 os : bad os (ownerFullControlEveryoneWrite os).
Proof.
  unfold ownerFullControlEveryoneWrite, localSystemSid, builtinAdminsSid, everyoneSid.
  apply bad_bind; [apply bad_sid|intros s1 _]. apply bad_bind; [apply bad_sid|intros s2 _].
  apply bad_bind; [apply bad_owner|intros s3 _]. apply bad_bind; [apply bad_sid|intros s4 _]. apply bad_finish.
Qed.
Lemma bad_reject os : bad os (rejectRemoteClientsPipeFlag os).
Proof.
  unfold rejectRemoteClientsPipeFlag, isAtLeastWindowsVista. destruct (o_version os) as [[a b]|] eqn:E; cbn [bind].
  - exact Logic.I.
  - cbn. right; right; right. exact E.
Qed.

(** *** The descriptors *)
Definition set_up (os : sec_os) : Prop :=
  o_set_entries os = 0 /\ o_local_alloc os = true /\ o_initialize os = None /\ o_set_dacl os = None.
Lemma finish_ok os es d : finishSecurityDescriptor os es = Ok d <-> set_up os /\ d = Dacl (SetEntriesInAcl es).
Proof.
  unfold finishSecurityDescriptor, set_up.
  destruct (Z.eqb_spec (o_set_entries os) ERROR_SUCCESS) as [E|N]; cbn [negb].
  2:{ split; [discriminate|]. intros [(E & _) _]. exfalso. exact (N E). }
  destruct (o_local_alloc os) eqn:El; cbn [negb].
  2:{ split; [discriminate|]. intros [(_ & E' & _) _]. discriminate. }
  destruct (o_initialize os) as [e|] eqn:Ei.
  { split; [discriminate|]. intros [(_ & _ & E' & _) _]. discriminate. }
  destruct (o_set_dacl os) as [e|] eqn:Ed.
  { split; [discriminate|]. intros [(_ & _ & _ & E') _]. discriminate. }
  split.
  - intros H. injection H as <-. splits; [exact E|reflexivity..].
  - intros [_ ->]. reflexivity.
Qed.

Lemma system_ok os n s : localSystemSid os n = Ok s <-> o_alloc_sid os n = None /\ s = system.
Proof.
  unfold localSystemSid, wellKnownSid. destruct (o_alloc_sid os n) as [e|].
  - split; [discriminate|intros [H _]; discriminate].
  - split; [intros H; injection H as <-; split; reflexivity|intros [_ ->]; reflexivity].
Qed.
Lemma admins_ok os n s : builtinAdminsSid os n = Ok s <-> o_alloc_sid os n = None /\ s = administrators.
Proof.
  unfold builtinAdminsSid, wellKnownSid. destruct (o_alloc_sid os n) as [e|].
  - split; [discriminate|intros [H _]; discriminate].
  - split; [intros H; injection H as <-; split; reflexivity|intros [_ ->]; reflexivity].
Qed.
Lemma everyone_ok os n s : everyoneSid os n = Ok s <-> o_alloc_sid os n = None /\ s = everyone.
Proof.
  unfold everyoneSid, wellKnownSid. destruct (o_alloc_sid os n) as [e|].
  - split; [discriminate|intros [H _]; discriminate].
  - split; [intros H; injection H as <-; split; reflexivity|intros [_ ->]; reflexivity].
Qed.

Lemma descriptor_ok os d : ownerFullControl os = Ok d <->
  o_alloc_sid os 0 = None /\ o_alloc_sid os 1 = None /\ set_up os /\
  exists t, acts_for os t /\ token_usable t /\
    d = Dacl (SetEntriesInAcl [full_control system; full_control administrators; full_control (tok_owner t)]).
Proof.
  unfold ownerFullControl. split.
  - destruct (localSystemSid os 0) as [s1| | | |] eqn:E1; cbn [bind]; try discriminate.
    destruct (builtinAdminsSid os 1) as [s2| | | |] eqn:E2; cbn [bind]; try discriminate.
    destruct (getOwnerSid os) as [s3| | | |] eqn:E3; cbn [bind]; try discriminate.
    apply system_ok in E1. apply admins_ok in E2. apply owner_ok in E3.
    destruct E1 as [A1 ->], E2 as [A2 ->], E3 as (t & Ht & Hu & ->).
    rewrite finish_ok. intros [Hs ->]. splits; [exact A1|exact A2|exact Hs|]. exists t. splits; [exact Ht|exact Hu|reflexivity].
  - intros (A1 & A2 & Hs & t & Ht & Hu & ->).
    rewrite (proj2 (system_ok os 0 system) (conj A1 eq_refl)). cbn [bind].
    rewrite (proj2 (admins_ok os 1 administrators) (conj A2 eq_refl)). cbn [bind].
    rewrite (proj2 (owner_ok os (tok_owner t)) (ex_intro _ t (conj Ht (conj Hu eq_refl)))). cbn [bind].
    apply finish_ok. split; [exact Hs|reflexivity].
Qed.
Lemma descriptor2_ok os d : ownerFullControlEveryoneWrite os = Ok d <->
  o_alloc_sid os 0 = None /\ o_alloc_sid os 1 = None /\ o_alloc_sid os 2 = None /\ set_up os /\
  exists t, acts_for os t /\ token_usable t /\
    d = Dacl (SetEntriesInAcl [full_control system; full_control administrators; full_control (tok_owner t);
          mkE everyone_rights SET_ACCESS NO_INHERITANCE everyone]).
Proof.
  unfold ownerFullControlEveryoneWrite. split.
  - destruct (localSystemSid os 0) as [s1| | | |] eqn:E1; cbn [bind]; try discriminate.
    destruct (builtinAdminsSid os 1) as [s2| | | |] eqn:E2; cbn [bind]; try discriminate.
    destruct (getOwnerSid os) as [s3| | | |] eqn:E3; cbn [bind]; try discriminate.
    destruct (everyoneSid os 2) as [s4| | | |] eqn:E4; cbn [bind]; try discriminate.
    apply system_ok in E1. apply admins_ok in E2. apply owner_ok in E3. apply everyone_ok in E4.
    destruct E1 as [A1 ->], E2 as [A2 ->], E3 as (t & Ht & Hu & ->), E4 as [A4 ->].
    rewrite finish_ok. intros [Hs ->]. splits; [exact A1|exact A2|exact A4|exact Hs|]. exists t. splits; [exact Ht|exact Hu|reflexivity].
  - intros (A1 & A2 & A4 & Hs & t & Ht & Hu & ->).
    rewrite (proj2 (system_ok os 0 system) (conj A1 eq_refl)). cbn [bind].
    rewrite (proj2 (admins_ok os 1 administrators) (conj A2 eq_refl)). cbn [bind].
    rewrite (proj2 (owner_ok os (tok_owner t)) (ex_intro _ t (conj Ht (conj Hu eq_refl)))). cbn [bind].
    rewrite (proj2 (everyone_ok os 2 everyone) (conj A4 eq_refl)). cbn [bind].
    apply finish_ok. split; [exact Hs|reflexivity].
Qed.

Lemma reject_ok os f : version_sane os -> rejectRemoteClientsPipeFlag os = Ok f ->
  (f = 8 /\ vista os) \/ (f = 0 /\ ~ vista os).
Proof.
  intros V. unfold rejectRemoteClientsPipeFlag, isAtLeastWindowsVista, vista.
  destruct (o_version os) as [[a b]|] eqn:E; cbn [bind]; [|discriminate].
  pose proof (V a b E) as Vb. intros H. injection H as <-.
  destruct (Z.ltb_spec 6 a) as [L|L]; cbn [orb].
  - left. split; [reflexivity|]. exists a, b. split; [reflexivity|lia].
  - destruct (Z.eqb_spec a 6) as [->|N]; cbn [andb].
    + rewrite (proj2 (Z.leb_le 0 b) Vb). left. split; [reflexivity|]. exists 6, b. split; [reflexivity|lia].
    + right. split; [reflexivity|]. intros (x & y & Exy & Hx). injection Exy as <- <-. lia.
Qed.
Lemma reject_some os : o_version os <> None -> exists f, rejectRemoteClientsPipeFlag os = Ok f.
Proof.
  unfold rejectRemoteClientsPipeFlag, isAtLeastWindowsVista. destruct (o_version os) as [[a b]|]; [|congruence].
  intros _. eexists. reflexivity.
Qed.
Lemma reject_version os f : rejectRemoteClientsPipeFlag os = Ok f -> o_version os <> None.
Proof.
  unfold rejectRemoteClientsPipeFlag, isAtLeastWindowsVista. destruct (o_version os) as [[a b]|]; [discriminate|].
  discriminate.
Qed.

(** *** The pipes *)
Lemma calm_in {A B} (m : res why A) (k : A -> made B) r :
  In r (fst (calm m k)) -> exists a, m = Ok a /\ In r (fst (k a)).
Proof. destruct m; cbn [calm fst]; try (intros []). intros H. exists a. split; [reflexivity|exact H]. Qed.
Lemma calm_ok {A B} (m : res why A) (k : A -> made B) b :
  snd (calm m k) = Ok b -> exists a, m = Ok a /\ snd (k a) = Ok b.
Proof. destruct m; cbn [calm snd]; try discriminate. intros H. exists a. split; [reflexivity|exact H]. Qed.
Lemma calm_bad {A B} os (m : res why A) (k : A -> made B) :
  bad os m -> (forall a, m = Ok a -> bad os (snd (k a))) -> bad os (snd (calm m k)).
Proof. intros H K. destruct m; cbn [calm snd]; try exact H. exact (K a eq_refl). Qed.

Definition session_request (os : sec_os) (r : request) : Prop :=
  exists sd f, ownerFullControl os = Ok sd /\ rejectRemoteClientsPipeFlag os = Ok f /\
    rq_mode r = f /\ rq_max r = 1 /\ rq_sd r = Some sd.
Lemma control_in os name r : In r (fst (createControlPipe os name)) ->
  session_request os r /\ rq_name r = name /\ rq_open r = 0x40080003 /\ rq_out r = 8192 /\ rq_in r = 256.
Proof.
  unfold createControlPipe. intros H. apply calm_in in H. destruct H as (sd & E1 & H).
  apply calm_in in H. destruct H as (f & E2 & H). cbn [fst] in H. destruct H as [<-|[]].
  splits; try reflexivity. exists sd, f. splits; [exact E1|exact E2|reflexivity..].
Qed.
Lemma server_in os name m o i r : In r (fst (openServerPipe os name m o i)) ->
  session_request os r /\ rq_name r = name /\ rq_out r = o /\ rq_in r = i /\
  Z.testbit (rq_open r) 19 = true /\ Z.testbit (rq_open r) 0 = Z.testbit m 0 /\ Z.testbit (rq_open r) 1 = Z.testbit m 1.
Proof.
  unfold openServerPipe. destruct (Z.land m 3 =? 0); [intros []|]. intros H.
  apply calm_in in H. destruct H as (sd & E1 & H).
  apply calm_in in H. destruct H as (f & E2 & H). cbn [fst] in H. destruct H as [<-|[]].
  split; [exists sd, f; splits; [exact E1|exact E2|reflexivity..]|].
  cbn [rq_name rq_open rq_out rq_in].
  assert (E0 : (Z.land m 1 =? 0) = negb (Z.testbit m 0)).
  { change 1 with (Z.ones 1). rewrite Z.land_ones by lia. rewrite (Z.testbit_spec' m 0 ltac:(lia)) || idtac.
    change (2 ^ 1) with 2. rewrite Z.bit0_odd, Zmod_odd. destruct (Z.odd m); reflexivity. }
  assert (E1' : (Z.land m 2 =? 0) = negb (Z.testbit m 1)).
  { destruct (Z.testbit m 1) eqn:Eb; cbn [negb].
    - apply Z.eqb_neq. intros E. assert (T : Z.testbit (Z.land m 2) 1 = true) by (rewrite Z.land_spec, Eb; reflexivity).
      rewrite E in T. discriminate.
    - apply Z.eqb_eq. apply Z.bits_inj'. intros n Hn. rewrite Z.land_spec, Z.bits_0.
      destruct (Z.eq_dec n 1) as [->|N]; [rewrite Eb; reflexivity|].
      change 2 with (2 ^ 1). rewrite (Z.pow2_bits_false 1 n) by lia. apply Bool.andb_false_r. }
  rewrite E0, E1'. destruct (Z.testbit m 0), (Z.testbit m 1); cbn [negb]; repeat split; reflexivity.
Qed.
Lemma debug_in os everyone r : In r (fst (debugServerPipe os everyone)) ->
  exists sd f, (if everyone then exists d, ownerFullControlEveryoneWrite os = Ok d /\ sd = Some d else sd = None) /\
    rejectRemoteClientsPipeFlag os = Ok f /\
    rq_mode r = Z.lor 6 f /\ rq_max r = 1 /\ rq_sd r = sd /\ rq_open r = 0x80003 /\ rq_out r = 4096 /\ rq_in r = 4096.
Proof.
  unfold debugServerPipe. intros H. apply calm_in in H. destruct H as (sd & E1 & H).
  apply calm_in in H. destruct H as (f & E2 & H). cbn [fst] in H. destruct H as [<-|[]].
  exists sd, f. splits; [|exact E2|reflexivity..]. destruct everyone.
  - destruct (ownerFullControlEveryoneWrite os) as [d| | | |]; cbn [bind] in E1; try discriminate.
    injection E1 as <-. exists d. split; reflexivity.
  - injection E1 as <-. reflexivity.
Qed.

Lemma session_may os r : session_request os r -> exists t, acts_for os t /\
  forall who n, may (rq_sd r) who n <-> pipe_right n /\ trusted (tok_owner t) who.
Proof.
  intros (sd & f & E1 & _ & _ & _ & Es). apply descriptor_ok in E1. destruct E1 as (_ & _ & _ & t & Ht & _ & ->).
  exists t. split; [exact Ht|]. intros who n. rewrite Es. cbn [may]. unfold trusted. apply granted_full.
Qed.
Lemma session_pipes os name m o i r :
  In r (fst (createControlPipe os name)) \/ In r (fst (openServerPipe os name m o i)) ->
  exists t, acts_for os t /\
    forall who n, may (rq_sd r) who n <-> pipe_right n /\ trusted (tok_owner t) who.
Proof.
  intros [H|H]; [apply control_in in H|apply server_in in H]; apply session_may; exact (proj1 H).
Qed.

Lemma session_exclusive os r : version_sane os -> session_request os r ->
  rq_max r = 1 /\ (Z.testbit (rq_mode r) 3 = true <-> vista os).
Proof.
  intros V (sd & f & _ & E2 & Em & Ex & _). split; [exact Ex|]. rewrite Em.
  destruct (reject_ok os f V E2) as [[-> H]|[-> H]]; cbn; split; intros X; [exact H|reflexivity|discriminate|contradiction].
Qed.
Lemma pipes_exclusive os name : version_sane os ->
  (forall r, In r (fst (createControlPipe os name)) -> rq_name r = name /\ exclusive os true true r) /\
  (forall m o i r, In r (fst (openServerPipe os name m o i)) ->
     rq_name r = name /\ rq_out r = o /\ rq_in r = i /\ exclusive os (Z.testbit m 0) (Z.testbit m 1) r) /\
  (forall everyone r, In r (fst (debugServerPipe os everyone)) -> exclusive os true true r).
Proof.
  intros V. unfold exclusive. splits.
  - intros r H. apply control_in in H. destruct H as (Hs & En & Eo & _). rewrite Eo.
    destruct (session_exclusive os r V Hs) as [Hx Hv]. splits; [exact En|reflexivity|exact Hx|exact Hv|reflexivity|reflexivity].
  - intros m o i r H. apply server_in in H. destruct H as (Hs & En & Eo & Ei & B19 & B0 & B1).
    destruct (session_exclusive os r V Hs) as [Hx Hv]. splits; assumption.
  - intros ev r H. apply debug_in in H. destruct H as (sd & f & _ & E2 & Em & Ex & _ & Eo & _). rewrite Eo, Em.
    destruct (reject_ok os f V E2) as [[-> H]|[-> H]]; splits; try reflexivity; try exact Ex;
      split; intros X; first [exact H|reflexivity|discriminate X|contradiction].
Qed.

Lemma debug_everyone os r t : In r (fst (debugServerPipe os true)) -> acts_for os t -> tok_owner t <> everyone ->
  forall who n, may (rq_sd r) who n <->
    (pipe_right n /\ trusted (tok_owner t) who) \/ (public_right n /\ In everyone who).
Proof.
  intros H Ht N who n. apply debug_in in H. destruct H as (sd & f & (d & E1 & ->) & _ & _ & _ & Es & _).
  apply descriptor2_ok in E1. destruct E1 as (_ & _ & _ & _ & t' & Ht' & _ & ->).
  pose proof (acts_for_unique os t' t Ht' Ht) as Et. rewrite Es, Et. cbn [may]. unfold trusted.
  apply granted_public; [discriminate|discriminate|exact N].
Qed.

(** *** When a pipe is made *)
Lemma descriptor_fine os : o_version os <> None ->
  ((exists d, ownerFullControl os = Ok d) <-> calls_fine os 2).
Proof.
  intros V. split.
  - intros (d & E). apply descriptor_ok in E. destruct E as (A0 & A1 & (S1 & S2 & S3 & S4) & t & Ht & Hu & _).
    unfold calls_fine. splits; try assumption; [exists t; split; assumption|].
    intros n Hn. assert (E : n = 0 \/ n = 1) by lia. destruct E as [->| ->]; assumption.
  - intros ((t & Ht & Hu) & A & S1 & S2 & S3 & S4 & _). eexists. apply descriptor_ok. splits.
    + apply A; lia. + apply A; lia. + unfold set_up. splits; assumption.
    + exists t. splits; [exact Ht|exact Hu|reflexivity].
Qed.
Lemma descriptor2_fine os : o_version os <> None ->
  ((exists d, ownerFullControlEveryoneWrite os = Ok d) <-> calls_fine os 3).
Proof.
  intros V. split.
  - intros (d & E). apply descriptor2_ok in E. destruct E as (A0 & A1 & A2 & (S1 & S2 & S3 & S4) & t & Ht & Hu & _).
    unfold calls_fine. splits; try assumption; [exists t; split; assumption|].
    intros n Hn. assert (E : n = 0 \/ n = 1 \/ n = 2) by lia. destruct E as [->|[->| ->]]; assumption.
  - intros ((t & Ht & Hu) & A & S1 & S2 & S3 & S4 & _). eexists. apply descriptor2_ok. splits.
    + apply A; lia. + apply A; lia. + apply A; lia. + unfold set_up. splits; assumption.
    + exists t. splits; [exact Ht|exact Hu|reflexivity].
Qed.

Lemma control_fine os name : (fst (createControlPipe os name) <> [] <-> calls_fine os 2) /\
  (forall h, snd (createControlPipe os name) = Ok h <-> calls_fine os 2 /\ o_create os = inl h) /\
  bad os (snd (createControlPipe os name)).
Proof.
  unfold createControlPipe. splits; [split|intros h; split|].
  - intros H. destruct (ownerFullControl os) as [d| | | |] eqn:Ed; cbn [calm fst] in H; try congruence.
    destruct (rejectRemoteClientsPipeFlag os) as [f| | | |] eqn:Ef; cbn [calm fst] in H; try congruence.
    apply (descriptor_fine os (reject_version os f Ef)). exists d. exact Ed.
  - intros C. assert (V : o_version os <> None) by (destruct C as (_ & _ & _ & _ & _ & _ & V); exact V).
    destruct (proj2 (descriptor_fine os V) C) as (d & Ed). destruct (reject_some os V) as (f & Ef).
    rewrite Ed, Ef. cbn [calm fst]. discriminate.
  - intros H. apply calm_ok in H. destruct H as (d & Ed & H). apply calm_ok in H. destruct H as (f & Ef & H).
    cbn [snd] in H. destruct (o_create os) as [x|e]; [|discriminate]. split; [|congruence].
    apply (descriptor_fine os (reject_version os f Ef)). exists d. exact Ed.
  - intros [C Eh]. assert (V : o_version os <> None) by (destruct C as (_ & _ & _ & _ & _ & _ & V); exact V).
    destruct (proj2 (descriptor_fine os V) C) as (d & Ed). destruct (reject_some os V) as (f & Ef).
    rewrite Ed, Ef. cbn [calm snd]. rewrite Eh. reflexivity.
  - apply calm_bad; [apply bad_descriptor|intros d _]. apply calm_bad; [apply bad_reject|intros f _].
    cbn [snd]. destruct (o_create os) as [h|e] eqn:E; [exact Logic.I|exact E].
Qed.
Lemma debug_fine os : (fst (debugServerPipe os true) <> [] <-> calls_fine os 3) /\
  (forall h, snd (debugServerPipe os true) = Ok h <-> calls_fine os 3 /\ o_create os = inl h) /\
  bad os (snd (debugServerPipe os true)).
Proof.
  unfold debugServerPipe. cbv iota. splits; [split|intros h; split|].
  - intros H. destruct (ownerFullControlEveryoneWrite os) as [d| | | |] eqn:Ed; cbn [bind calm fst] in H; try congruence.
    destruct (rejectRemoteClientsPipeFlag os) as [f| | | |] eqn:Ef; cbn [calm fst] in H; try congruence.
    apply (descriptor2_fine os (reject_version os f Ef)). exists d. exact Ed.
  - intros C. assert (V : o_version os <> None) by (destruct C as (_ & _ & _ & _ & _ & _ & V); exact V).
    destruct (proj2 (descriptor2_fine os V) C) as (d & Ed). destruct (reject_some os V) as (f & Ef).
    rewrite Ed, Ef. cbn [bind calm fst]. discriminate.
  - intros H. apply calm_ok in H. destruct H as (d & Ed & H). apply calm_ok in H. destruct H as (f & Ef & H).
    cbn [snd] in H. destruct (o_create os) as [x|e]; [|discriminate]. split; [|congruence].
    destruct (ownerFullControlEveryoneWrite os) as [d'| | | |] eqn:Ed'; cbn [bind] in Ed; try discriminate.
    apply (descriptor2_fine os (reject_version os f Ef)). exists d'. exact Ed'.
  - intros [C Eh]. assert (V : o_version os <> None) by (destruct C as (_ & _ & _ & _ & _ & _ & V); exact V).
    destruct (proj2 (descriptor2_fine os V) C) as (d & Ed). destruct (reject_some os V) as (f & Ef).
    rewrite Ed, Ef. cbn [bind calm snd]. rewrite Eh. reflexivity.
  - apply calm_bad; [apply bad_bind; [apply bad_descriptor2|intros; exact Logic.I]|intros d _].
    apply calm_bad; [apply bad_reject|intros f _].
    cbn [snd]. destruct (o_create os) as [h|e] eqn:E; [exact Logic.I|exact E].
Qed.
(** A data pipe that cannot be made stops the agent by an assertion. *)
Lemma server_fine os name m o i : 1 <= m <= 3 ->
  (fst (openServerPipe os name m o i) <> [] <-> calls_fine os 2) /\
  (forall h, snd (openServerPipe os name m o i) = Ok h <-> calls_fine os 2 /\ o_create os = inl h) /\
  (forall e, snd (openServerPipe os name m o i) = Throw e -> failed os e) /\
  (snd (openServerPipe os name m o i) = AssertFail -> absurd_answer os \/ exists e, o_create os = inr e).
Proof.
  intros Hm. unfold openServerPipe.
  assert (E0 : (Z.land m 3 =? 0) = false) by (assert (E : m = 1 \/ m = 2 \/ m = 3) by lia; destruct E as [->|[->| ->]]; reflexivity).
  rewrite E0. cbv iota zeta. splits; [split|intros h; split| |].
  - intros H. destruct (ownerFullControl os) as [d| | | |] eqn:Ed; cbn [calm fst] in H; try congruence.
    destruct (rejectRemoteClientsPipeFlag os) as [f| | | |] eqn:Ef; cbn [calm fst] in H; try congruence.
    apply (descriptor_fine os (reject_version os f Ef)). exists d. exact Ed.
  - intros C. assert (V : o_version os <> None) by (destruct C as (_ & _ & _ & _ & _ & _ & V); exact V).
    destruct (proj2 (descriptor_fine os V) C) as (d & Ed). destruct (reject_some os V) as (f & Ef).
    rewrite Ed, Ef. cbn [calm fst]. discriminate.
  - intros H. apply calm_ok in H. destruct H as (d & Ed & H). apply calm_ok in H. destruct H as (f & Ef & H).
    cbn [snd] in H. destruct (o_create os) as [x|e]; [|discriminate]. split; [|congruence].
    apply (descriptor_fine os (reject_version os f Ef)). exists d. exact Ed.
  - intros [C Eh]. assert (V : o_version os <> None) by (destruct C as (_ & _ & _ & _ & _ & _ & V); exact V).
    destruct (proj2 (descriptor_fine os V) C) as (d & Ed). destruct (reject_some os V) as (f & Ef).
    rewrite Ed, Ef. cbn [calm snd]. rewrite Eh. reflexivity.
  - intros e H. pose proof (bad_descriptor os) as B1. pose proof (bad_reject os) as B2.
    destruct (ownerFullControl os) as [d|x| | |] eqn:Ed; cbn [calm snd] in H; try discriminate; [|injection H as <-; exact B1].
    destruct (rejectRemoteClientsPipeFlag os) as [f|x| | |] eqn:Ef; cbn [calm snd] in H; try discriminate; [|injection H as <-; exact B2].
    destruct (o_create os); discriminate.
  - intros H. pose proof (bad_descriptor os) as B1. pose proof (bad_reject os) as B2.
    destruct (ownerFullControl os) as [d|x| | |] eqn:Ed; cbn [calm snd] in H; try discriminate; [|left; exact B1].
    destruct (rejectRemoteClientsPipeFlag os) as [f|x| | |] eqn:Ef; cbn [calm snd] in H; try discriminate; [|left; exact B2].
    right. destruct (o_create os) as [h|e]; [discriminate|]. exists e. reflexivity.
Qed.
