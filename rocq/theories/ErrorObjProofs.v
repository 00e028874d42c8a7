From Coq Require Import Permutation.
From Verif Require Import Base BaseLemmas Text ErrorObj ErrorObjSpec.
Ltac splits := repeat match goal with |- _ /\ _ => split end.

(** *** Heap *)
Definition keys (l : list (nat * block)) := map fst l.
Definition gwf (n : nat) (l : list (nat * block)) : Prop := NoDup (keys l) /\ Forall (fun p => (fst p < n)%nat) l.

Lemma find_In l i b : NoDup (keys l) -> In (i, b) l -> find l i = Some b.
Proof.
  induction l as [|(j, c) l IH]; intros Hn Hi; [destruct Hi|]. cbn [keys map fst] in Hn.
  inversion Hn as [|? ? Hx Hn']; subst. cbn [find]. destruct Hi as [Hi|Hi].
  - injection Hi as -> ->. now rewrite Nat.eqb_refl.
  - destruct (Nat.eqb_spec j i) as [->|_]; [|auto]. exfalso. apply Hx. apply (in_map fst) in Hi. exact Hi.
Qed.
Lemma remove_perm l i b : NoDup (keys l) -> In (i, b) l -> Permutation l ((i, b) :: remove l i).
Proof.
  induction l as [|(j, c) l IH]; intros Hn Hi; [destruct Hi|]. cbn [keys map fst] in Hn.
  inversion Hn as [|? ? Hx Hn']; subst. cbn [remove]. destruct Hi as [Hi|Hi].
  - injection Hi as -> ->. now rewrite Nat.eqb_refl.
  - destruct (Nat.eqb_spec j i) as [->|_].
    + exfalso. apply Hx. apply (in_map fst) in Hi. exact Hi.
    + rewrite perm_swap. constructor. auto.
Qed.
Lemma gwf_perm n l l' : Permutation l l' -> gwf n l -> gwf n l'.
Proof.
  intros H (A & B). split; [eapply Permutation_NoDup; [|exact A]; now apply Permutation_map|].
  eapply Permutation_Forall; eauto.
Qed.
Lemma gwf_tail n x l : gwf n (x :: l) -> gwf n l.
Proof. intros (A & B). inversion A; inversion B; subst. split; assumption. Qed.
Lemma gwf_cons n i b l : gwf n l -> (n <= i)%nat -> gwf (S i) ((i, b) :: l).
Proof.
  intros (A & B) Hi. split.
  - cbn [keys map fst]. constructor; [|exact A]. intros H. apply in_map_iff in H. destruct H as ((j, c) & <- & H).
    rewrite Forall_forall in B. specialize (B _ H). cbn [fst] in *. lia.
  - constructor; [cbn; lia|]. eapply Forall_impl; [|exact B]. cbn. intros; lia.
Qed.
Lemma gwf_le n n' l : gwf n l -> (n <= n')%nat -> gwf n' l.
Proof. intros (A & B) H. split; [exact A|]. eapply Forall_impl; [|exact B]. cbn. intros; lia. Qed.

(** *** What an error object owns *)
Inductive owns : eptr -> Z -> list Z -> list (nat * block) -> Prop :=
| own_null : owns ENull 0 (str "Success") []
| own_static s : owns (EStatic s) (static_code s) (static_msg s) []
| own_heap i d s c t : owns (EHeap i) c t [(i, BErr c None (Some d)); (d, BPtr s); (s, BStr t 1)].

Lemma owns_read p c t bs m rest : owns p c t bs -> NoDup (keys (m_blocks m)) -> Permutation (m_blocks m) (bs ++ rest) ->
  error_code m p = Ok c /\ error_msg m p = Ok t.
Proof.
  intros Ho Hn Hp. destruct Ho as [|s|i d s c t]; cbn [error_code error_msg]; auto.
  assert (H1 : find (m_blocks m) i = Some (BErr c None (Some d))) by (apply find_In; [exact Hn|]; rewrite Hp; now left).
  assert (H2 : find (m_blocks m) d = Some (BPtr s)) by (apply find_In; [exact Hn|]; rewrite Hp; right; now left).
  assert (H3 : find (m_blocks m) s = Some (BStr t 1)) by (apply find_In; [exact Hn|]; rewrite Hp; right; right; now left).
  rewrite H1, H2, H3. auto.
Qed.

Lemma delete_perm m i b rest : gwf (m_next m) (m_blocks m) -> Permutation (m_blocks m) ((i, b) :: rest) ->
  exists l, delete m i = Ok (mkM (m_next m) l (m_oracle m)) /\ Permutation l rest /\ gwf (m_next m) l.
Proof.
  intros Hw Hp. unfold delete. destruct Hw as (Hn & Hf).
  assert (Hi : In (i, b) (m_blocks m)) by (rewrite Hp; now left).
  rewrite (find_In _ _ _ Hn Hi). eexists. split; [reflexivity|].
  pose proof (remove_perm _ _ _ Hn Hi) as Hr.
  split.
  - apply (Permutation_cons_inv (a := (i, b))). now rewrite <- Hr.
  - eapply gwf_tail, gwf_perm; [exact Hr|]. split; assumption.
Qed.

Lemma owns_free p c t bs m rest : owns p c t bs -> gwf (m_next m) (m_blocks m) -> Permutation (m_blocks m) (bs ++ rest) ->
  exists m', error_free m p = Ok m' /\ Permutation (m_blocks m') rest /\ gwf (m_next m') (m_blocks m').
Proof.
  intros Ho Hw Hp. destruct Ho as [|s|i d s c t]; cbn [error_free].
  - exists m. auto.
  - exists m. auto.
  - cbn [app] in Hp. pose proof (proj1 Hw) as Hn.
    assert (H1 : find (m_blocks m) i = Some (BErr c None (Some d))) by (apply find_In; [exact Hn|]; rewrite Hp; now left).
    assert (H2 : find (m_blocks m) d = Some (BPtr s)) by (apply find_In; [exact Hn|]; rewrite Hp; right; now left).
    assert (H3 : find (m_blocks m) s = Some (BStr t 1)) by (apply find_In; [exact Hn|]; rewrite Hp; right; right; now left).
    rewrite H1, H2. unfold release. rewrite H3. cbn [Z.eqb Pos.eqb].
    destruct (delete_perm m s (BStr t 1) ((i, BErr c None (Some d)) :: (d, BPtr s) :: rest)) as (l1 & E1 & P1 & W1); [exact Hw| |].
    { rewrite Hp. etransitivity; [apply perm_skip, perm_swap|]. apply perm_swap. }
    rewrite E1. cbn [bind].
    destruct (delete_perm (mkM (m_next m) l1 (m_oracle m)) d (BPtr s) ((i, BErr c None (Some d)) :: rest)) as (l2 & E2 & P2 & W2); [exact W1| |].
    { cbn [m_blocks]. rewrite P1. apply perm_swap. }
    rewrite E2. cbn [bind m_next m_oracle] in *.
    destruct (delete_perm (mkM (m_next m) l2 (m_oracle m)) i (BErr c None (Some d)) rest) as (l3 & E3 & P3 & W3); [exact W2|exact P2|].
    rewrite E3. cbn [m_next m_oracle] in *. eexists. split; [reflexivity|]. split; [exact P3|exact W3].
Qed.

(** *** Building one *)
Ltac fresh_ids := repeat first [rewrite Nat.eqb_refl | match goal with
  | |- context [Nat.eqb ?a ?b] => let H := fresh in assert (H : Nat.eqb a b = false) by (apply Nat.eqb_neq; lia); rewrite H; clear H
  end].
Ltac heap := cbn [m_next m_blocks m_oracle find remove replace bind];
  repeat (progress fresh_ids; cbn [m_next m_blocks m_oracle find remove replace bind]).

(** The outcome of an API call that throws: an error object on top of the old heap. *)
Definition doc (e : exn) (p : eptr) (c : Z) (t : list Z) : Prop :=
  (c = documented_code e /\ (forall w, own_message e = Some w -> t = w) /\ (own_message e = None -> t <> [])) \/
  p = EStatic KOutOfMemory.

Lemma alloc_cases m b :
  (exists o, alloc m b = (Some (m_next m), mkM (S (m_next m)) ((m_next m, b) :: m_blocks m) o)) \/
  ((exists x, In x (m_oracle m) /\ x = false) /\ exists o, alloc m b = (None, mkM (m_next m) (m_blocks m) o)).
Proof.
  unfold alloc. destruct (m_oracle m) as [|[] t]; [left; eauto|left; eauto|right].
  split; [exists false; split; [now left|reflexivity]|eauto].
Qed.


Lemma alloc_true m b : Forall (fun x => x = true) (m_oracle m) ->
  exists o, Forall (fun x => x = true) o /\ alloc m b = (Some (m_next m), mkM (S (m_next m)) ((m_next m, b) :: m_blocks m) o).
Proof.
  unfold alloc. intros H. destruct (m_oracle m) as [|x t]; [eauto|]. inversion H; subst. eauto.
Qed.

(** The final blocks, in one of the shapes below, and the number of ids used. *)
Definition built (m : mem) (p : eptr) (c : Z) (x : list Z) (m' : mem) : Prop :=
  exists own, owns p c x own /\ Permutation (m_blocks m') (own ++ m_blocks m) /\
    (gwf (m_next m) (m_blocks m) -> gwf (m_next m') (m_blocks m')) /\ (m_next m <= m_next m')%nat.

Lemma built_static m s m' : m_blocks m' = m_blocks m -> (m_next m <= m_next m')%nat ->
  built m (EStatic s) (static_code s) (static_msg s) m'.
Proof.
  intros H1 H2. exists []. splits; [constructor|now rewrite H1| |exact H2].
  intros Hw. rewrite H1. eapply gwf_le; eauto.
Qed.

Ltac stepalloc A o := match goal with |- context [alloc ?m ?b] =>
  destruct (alloc_cases m b) as [(o & A)|(_ & o & A)]; rewrite A; clear A end.

Ltac oom := left; exists (EStatic KOutOfMemory), 1, (static_msg KOutOfMemory); eexists; splits;
  [reflexivity|apply (built_static _ KOutOfMemory); cbn [m_blocks m_next]; [reflexivity|lia]|now right|].

Lemma api_wanted m e : exists p c x m', api m true true (Some e) = Ok (Some p, m') /\ built m p c x m' /\ doc e p c x /\ p <> ENull.
Proof.
  unfold api, translate. destruct e as [|code w|w| |]; cbn [raise].
  - exists (EStatic KBadRpcPacket), 5, (str "Bad RPC packet"), m. splits; try reflexivity; try discriminate.
    + now apply built_static.
    + left. splits; try reflexivity; discriminate.
  - stepalloc A o1.
    + cbn [build]. stepalloc A o2; heap.
      * unfold set_block at 1. heap. stepalloc A o3; heap.
        -- unfold retain. heap. unfold set_block at 1. heap. unfold set_block at 1. heap.
           cbn [error_code error_msg]. heap. cbn [drop]. unfold release. heap.
           change (1 + 1 =? 1) with false. cbn [bind]. unfold set_block. heap. change (1 + 1 - 1) with 1.
           exists (EHeap (S (m_next m))), code, w. eexists. splits; [reflexivity| |left; splits; [reflexivity|cbn; congruence|discriminate]|discriminate].
           exists [(S (m_next m), BErr code None (Some (S (S (m_next m))))); (S (S (m_next m)), BPtr (m_next m)); (m_next m, BStr w 1)].
           splits; [constructor|cbn [m_blocks app]; apply perm_swap| |cbn [m_next]; lia].
           intros Hw. cbn [m_next m_blocks]. repeat (eapply gwf_cons; [|apply Nat.le_refl]). exact Hw.
        -- unfold delete at 1. heap. cbn [error_code error_msg bind drop]. unfold release. heap. cbn [Z.eqb Pos.eqb]. unfold delete. heap.
           exists (EStatic KOutOfMemory), 1, (static_msg KOutOfMemory). eexists.
           splits; [reflexivity|apply (built_static _ KOutOfMemory); [reflexivity|cbn; lia]|now right|discriminate].
      * cbn [error_code error_msg bind drop]. unfold release. heap. cbn [Z.eqb Pos.eqb]. unfold delete. heap.
        exists (EStatic KOutOfMemory), 1, (static_msg KOutOfMemory). eexists.
        splits; [reflexivity|apply (built_static _ KOutOfMemory); [reflexivity|cbn; lia]|now right|discriminate].
    + cbn [build error_code error_msg bind drop].
      exists (EStatic KOutOfMemory), 1, (static_msg KOutOfMemory). eexists.
      splits; [reflexivity|apply (built_static _ KOutOfMemory); [reflexivity|cbn; lia]|now right|discriminate].
  - stepalloc A o1.
    + cbn [build]. stepalloc A o2; heap.
      * stepalloc A o3; heap.
        -- unfold set_block at 1. heap. stepalloc A o4; heap.
           ++ unfold retain. heap. unfold set_block at 1. heap. unfold set_block at 1. heap. unfold release at 1. heap.
              change (1 + 1 =? 1) with false. cbn [bind]. unfold set_block at 1. heap.
              cbn [error_code error_msg]. heap. cbn [drop]. unfold release. heap. cbn [Z.eqb Pos.eqb]. unfold delete. heap.
              change (1 + 1 - 1) with 1.
              exists (EHeap (S (m_next m))), 5, w. eexists. splits; [reflexivity| |left; splits; [reflexivity|cbn; congruence|discriminate]|discriminate].
              exists [(S (m_next m), BErr 5 None (Some (S (S (S (m_next m)))))); (S (S (S (m_next m))), BPtr (S (S (m_next m)))); (S (S (m_next m)), BStr w 1)].
              splits; [constructor| | |cbn [m_next]; lia].
              ** cbn [m_blocks app]. etransitivity; [apply perm_skip, perm_swap|]. apply perm_swap.
              ** intros Hw. cbn [m_next m_blocks]. eapply gwf_cons; [|apply Nat.le_refl]. eapply gwf_cons; [|apply Nat.le_refl].
                 eapply gwf_cons; [exact Hw|lia].
           ++ unfold release at 1. heap. cbn [Z.eqb Pos.eqb]. unfold delete at 1. heap. unfold delete at 1. heap.
              cbn [error_code error_msg bind drop]. unfold release. heap. cbn [Z.eqb Pos.eqb]. unfold delete. heap.
              exists (EStatic KOutOfMemory), 1, (static_msg KOutOfMemory). eexists.
              splits; [reflexivity|apply (built_static _ KOutOfMemory); [reflexivity|cbn; lia]|now right|discriminate].
        -- unfold delete at 1. heap.
           cbn [error_code error_msg bind drop]. unfold release. heap. cbn [Z.eqb Pos.eqb]. unfold delete. heap.
           exists (EStatic KOutOfMemory), 1, (static_msg KOutOfMemory). eexists.
           splits; [reflexivity|apply (built_static _ KOutOfMemory); [reflexivity|cbn; lia]|now right|discriminate].
      * cbn [error_code error_msg bind drop]. unfold release. heap. cbn [Z.eqb Pos.eqb]. unfold delete. heap.
        exists (EStatic KOutOfMemory), 1, (static_msg KOutOfMemory). eexists.
        splits; [reflexivity|apply (built_static _ KOutOfMemory); [reflexivity|cbn; lia]|now right|discriminate].
    + cbn [build error_code error_msg bind drop].
      exists (EStatic KOutOfMemory), 1, (static_msg KOutOfMemory). eexists.
      splits; [reflexivity|apply (built_static _ KOutOfMemory); [reflexivity|cbn; lia]|now right|discriminate].
  - exists (EStatic KOutOfMemory), 1, (str "Out of memory"), m. splits; try reflexivity; try discriminate.
    + now apply built_static.
    + now right.
  - exists (EStatic KUncaughtException), 5, (str "Uncaught C++ exception"), m. splits; try reflexivity; try discriminate.
    + now apply built_static.
    + left. splits; try reflexivity; discriminate.
Qed.

Lemma api_unwanted m e : exists m', api m false true (Some e) = Ok (None, m') /\ m_blocks m' = m_blocks m /\ (m_next m <= m_next m')%nat.
Proof.
  unfold api, translate. destruct e as [|code w|w| |]; cbn [raise].
  - cbn. eauto.
  - stepalloc A o1.
    + cbn [build]. stepalloc A o2; heap.
      * unfold set_block at 1. heap. stepalloc A o3; heap.
        -- unfold retain. heap. unfold set_block at 1. heap. unfold set_block at 1. heap.
           cbn [error_code error_msg error_free]. heap. unfold release at 1. heap. change (1 + 1 =? 1) with false. cbn [bind].
           unfold set_block at 1. heap. change (1 + 1 - 1) with 1. unfold delete at 1. heap. unfold delete at 1. heap.
           cbn [drop]. unfold release. heap. cbn [Z.eqb Pos.eqb]. unfold delete. heap. eexists. splits; [reflexivity|reflexivity|cbn; lia].
        -- unfold delete at 1. heap. cbn [error_code error_msg error_free bind drop]. unfold release. heap. cbn [Z.eqb Pos.eqb]. unfold delete. heap.
           eexists. splits; [reflexivity|reflexivity|cbn; lia].
      * cbn [error_code error_msg error_free bind drop]. unfold release. heap. cbn [Z.eqb Pos.eqb]. unfold delete. heap.
        eexists. splits; [reflexivity|reflexivity|cbn; lia].
    + cbn [build error_code error_msg error_free bind drop]. eexists. splits; [reflexivity|reflexivity|cbn; lia].
  - stepalloc A o1.
    + cbn [build]. stepalloc A o2; heap.
      * stepalloc A o3; heap.
        -- unfold set_block at 1. heap. stepalloc A o4; heap.
           ++ unfold retain. heap. unfold set_block at 1. heap. unfold set_block at 1. heap. unfold release at 1. heap.
              change (1 + 1 =? 1) with false. cbn [bind]. unfold set_block at 1. heap.
              cbn [error_code error_msg error_free]. heap. unfold release at 1. heap. change (1 + 1 - 1) with 1. cbn [Z.eqb Pos.eqb].
              unfold delete at 1. heap. unfold delete at 1. heap. unfold delete at 1. heap.
              cbn [drop]. unfold release. heap. cbn [Z.eqb Pos.eqb]. unfold delete. heap. eexists. splits; [reflexivity|reflexivity|cbn; lia].
           ++ unfold release at 1. heap. cbn [Z.eqb Pos.eqb]. unfold delete at 1. heap. unfold delete at 1. heap.
              cbn [error_code error_msg error_free bind drop]. unfold release. heap. cbn [Z.eqb Pos.eqb]. unfold delete. heap.
              eexists. splits; [reflexivity|reflexivity|cbn; lia].
        -- unfold delete at 1. heap.
           cbn [error_code error_msg error_free bind drop]. unfold release. heap. cbn [Z.eqb Pos.eqb]. unfold delete. heap.
           eexists. splits; [reflexivity|reflexivity|cbn; lia].
      * cbn [error_code error_msg error_free bind drop]. unfold release. heap. cbn [Z.eqb Pos.eqb]. unfold delete. heap.
        eexists. splits; [reflexivity|reflexivity|cbn; lia].
    + cbn [build error_code error_msg error_free bind drop]. eexists. splits; [reflexivity|reflexivity|cbn; lia].
  - cbn. eauto.
  - cbn. eauto.
Qed.

(** Out of memory is reported only if an allocation failed or the call itself ran out
    of memory. *)
Lemma api_no_failure m e : Forall (fun x => x = true) (m_oracle m) -> e <> EBadAlloc ->
  exists p m', api m true true (Some e) = Ok (Some p, m') /\ p <> EStatic KOutOfMemory.
Proof.
  intros Ho He. unfold api, translate. destruct e as [|code w|w| |]; cbn [raise].
  - cbn. do 2 eexists. split; [reflexivity|discriminate].
  - destruct (alloc_true m (BStr w 1) Ho) as (o1 & Ho1 & ->). cbn [build].
    match goal with |- context [alloc ?m ?b] => destruct (alloc_true m b Ho1) as (o2 & Ho2 & ->) end. heap.
    unfold set_block at 1. heap.
    match goal with |- context [alloc ?m ?b] => destruct (alloc_true m b Ho2) as (o3 & Ho3 & ->) end. heap.
    unfold retain. heap. unfold set_block at 1. heap. unfold set_block at 1. heap.
    cbn [error_code error_msg]. heap. cbn [drop]. unfold release. heap.
    change (1 + 1 =? 1) with false. cbn [bind]. unfold set_block. heap. do 2 eexists. split; [reflexivity|discriminate].
  - destruct (alloc_true m (BStr w 1) Ho) as (o1 & Ho1 & ->). cbn [build].
    match goal with |- context [alloc ?m ?b] => destruct (alloc_true m b Ho1) as (o2 & Ho2 & ->) end. heap.
    match goal with |- context [alloc ?m ?b] => destruct (alloc_true m b Ho2) as (o3 & Ho3 & ->) end. heap.
    unfold set_block at 1. heap.
    match goal with |- context [alloc ?m ?b] => destruct (alloc_true m b Ho3) as (o4 & Ho4 & ->) end. heap.
    unfold retain. heap. unfold set_block at 1. heap. unfold set_block at 1. heap. unfold release at 1. heap.
    change (1 + 1 =? 1) with false. cbn [bind]. unfold set_block at 1. heap.
    cbn [error_code error_msg]. heap. cbn [drop]. unfold release. heap. cbn [Z.eqb Pos.eqb]. unfold delete. heap.
    do 2 eexists. split; [reflexivity|discriminate].
  - now destruct He.
  - cbn. do 2 eexists. split; [reflexivity|discriminate].
Qed.

Lemma owned_code e p c x own : owns p c x own -> doc e p c x -> p <> ENull -> lib_code e ->
  c <> 0 /\ ((c = documented_code e /\ forall w, own_message e = Some w -> x = w) \/ p = EStatic KOutOfMemory /\ c = 1).
Proof.
  intros Ho Hd Hp Hl. destruct Hd as [(Hc & Hm & _)|Hp2].
  - split; [|left; auto]. destruct e; cbn [documented_code lib_code In] in *; lia.
  - subst p; inversion Ho; subst. cbn. split; [discriminate|right; auto].
Qed.

(** ** C28, one call *)
Lemma error_object m e : wf m -> lib_code e ->
  exists p c x m1 m2, api m true true (Some e) = Ok (Some p, m1) /\
    error_code m1 p = Ok c /\ c <> 0 /\ error_msg m1 p = Ok x /\
    ((c = documented_code e /\ forall w, own_message e = Some w -> x = w) \/ (p = EStatic KOutOfMemory /\ c = 1)) /\
    error_free m1 p = Ok m2 /\ Permutation (m_blocks m2) (m_blocks m).
Proof.
  intros Hw Hl. destruct (api_wanted m e) as (p & c & x & m1 & E & (own & Ho & Hp & Hwf & Hn) & Hd & Hnn).
  destruct (owned_code e p c x own Ho Hd Hnn Hl) as (Hc & Hdoc). specialize (Hwf Hw).
  destruct (owns_read _ _ _ _ m1 (m_blocks m) Ho (proj1 Hwf) Hp) as (R1 & R2).
  destruct (owns_free _ _ _ _ m1 (m_blocks m) Ho Hwf Hp) as (m2 & F & P2 & _).
  exists p, c, x, m1, m2. splits; auto.
Qed.

Lemma error_object_exact m e : Forall (fun x => x = true) (m_oracle m) -> e <> EBadAlloc -> wf m -> lib_code e ->
  exists p m1 x, api m true true (Some e) = Ok (Some p, m1) /\ error_code m1 p = Ok (documented_code e) /\
    error_msg m1 p = Ok x /\ (forall w, own_message e = Some w -> x = w).
Proof.
  intros Ho He Hw Hl. destruct (error_object m e Hw Hl) as (p & c & x & m1 & m2 & E & Hc & _ & Hx & Hd & _).
  destruct (api_no_failure m e Ho He) as (p' & m1' & E' & Hn). rewrite E in E'.
  assert (p' = p) by congruence. subst p'.
  destruct Hd as [(Hcd & Hm)|(Hpp & _)]; [subst c|contradiction]. exists p, m1, x. auto.
Qed.

Lemma no_error_object m e : exists m1, api m false true (Some e) = Ok (None, m1) /\ m_blocks m1 = m_blocks m.
Proof. destruct (api_unwanted m e) as (m1 & E & H & _). eauto. Qed.

(** ** C28, a client's whole life *)
Definition holds (held : list eptr) (m0 m : mem) : Prop :=
  exists owned, Forall2 (fun p o => exists c x, owns p c x o) held owned /\
    Permutation (m_blocks m) (concat owned ++ m_blocks m0) /\ gwf (m_next m) (m_blocks m) /\
    Permutation (m_blocks m) (concat owned ++ m_blocks m0).

Lemma Forall2_drop {A B} (R : A -> B -> Prop) k : forall l l' x, Forall2 R l l' -> nth_error l k = Some x ->
  exists y, nth_error l' k = Some y /\ R x y /\ Forall2 R (drop_nth l k) (drop_nth l' k).
Proof.
  induction k as [|k IH]; intros l l' x H Hx; destruct H as [|a b l l' Hab H]; try discriminate; cbn [nth_error drop_nth] in *.
  - injection Hx as ->. eauto.
  - destruct (IH _ _ _ H Hx) as (y & H1 & H2 & H3). exists y. auto.
Qed.
Lemma concat_drop {A} k : forall (l : list (list A)) x, nth_error l k = Some x ->
  Permutation (concat l) (x ++ concat (drop_nth l k)).
Proof.
  induction k as [|k IH]; intros l x Hx; destruct l as [|a l]; try discriminate; cbn [nth_error drop_nth concat] in *.
  - now injection Hx as ->.
  - rewrite (IH _ _ Hx). rewrite !app_assoc. apply Permutation_app_tail, Permutation_app_comm.
Qed.

Lemma client_ok es : forall m0 m held, calls_ok es -> holds held m0 m ->
  exists m' held', client m held es = Ok (m', held') /\ holds held' m0 m'.
Proof.
  induction es as [|e es IH]; intros m0 m held Hc Hh; cbn [client]; [eauto|].
  inversion Hc as [|? ? He Hes]; subst. pose proof Hh as (owned & Ho & Hp & Hw & _). destruct e as [want tr body|k].
  - destruct body as [x|].
    + destruct He as (-> & Hl). destruct want.
      * destruct (api_wanted m x) as (p & c & t & m1 & E & (own & Hown & Hpm & Hwf & Hn) & _ & _). rewrite E. cbn [bind].
        apply IH; [exact Hes|]. 
        assert (Hperm : Permutation (m_blocks m1) (concat (owned ++ [own]) ++ m_blocks m0)).
        { rewrite Hpm, Hp, concat_app. cbn [concat]. rewrite app_nil_r. rewrite !app_assoc.
          apply Permutation_app_tail, Permutation_app_comm. }
        exists (owned ++ [own]). splits; auto. apply Forall2_app; [exact Ho|]. constructor; eauto.
      * destruct (api_unwanted m x) as (m1 & E & H1 & H2). rewrite E. cbn [bind]. apply IH; [exact Hes|].
        exists owned. rewrite H1. splits; auto. eapply gwf_le; eauto.
    + cbn [api bind]. apply IH; [exact Hes|]. destruct want; [|exact Hh].
      exists (owned ++ [[]]). rewrite concat_app. cbn [concat]. rewrite !app_nil_r. splits; auto.
      apply Forall2_app; [exact Ho|]. constructor; [|constructor]. exists 0, (str "Success"). constructor.
  - destruct (nth_error held k) as [p|] eqn:Ek; [|now apply IH].
    destruct (Forall2_drop _ _ _ _ _ Ho Ek) as (own & Hk & (c & x & Hown) & Ho').
    pose proof (concat_drop _ _ _ Hk) as Hcd.
    destruct (owns_free p c x own m (concat (drop_nth owned k) ++ m_blocks m0) Hown Hw) as (m1 & E & P1 & W1).
    { rewrite Hp, Hcd, <- app_assoc. reflexivity. }
    rewrite E. cbn [bind]. apply IH; [exact Hes|]. exists (drop_nth owned k). splits; auto.
Qed.

Lemma client_safe m es : wf m -> calls_ok es ->
  exists m' held, client m [] es = Ok (m', held) /\
    Forall (fun p => exists c x, error_code m' p = Ok c /\ error_msg m' p = Ok x) held /\
    (held = [] -> Permutation (m_blocks m') (m_blocks m)).
Proof.
  intros Hw Hc. destruct (client_ok es m m [] Hc) as (m' & held & E & owned & Ho & Hp & Hw' & _).
  { exists []. splits; auto; constructor. }
  exists m', held. splits; [exact E| |].
  - clear E Hc. assert (Hgen : forall hd ow, Forall2 (fun p o => exists c x, owns p c x o) hd ow ->
      (forall o, In o ow -> exists rest, Permutation (m_blocks m') (o ++ rest)) ->
      Forall (fun p => exists c x, error_code m' p = Ok c /\ error_msg m' p = Ok x) hd).
    { intros hd ow H. induction H as [|p o hd ow (c & x & H1) _ IH]; intros Hin; constructor.
      - destruct (Hin o) as (rest & Hr); [now left|]. destruct (owns_read _ _ _ _ m' rest H1 (proj1 Hw') Hr). eauto.
      - apply IH. intros o' Ho'. apply Hin. now right. }
    apply (Hgen held owned Ho). intros o Hin. apply In_nth_error in Hin. destruct Hin as (k & Hk).
    exists (concat (drop_nth owned k) ++ m_blocks m). rewrite Hp, (concat_drop _ _ _ Hk), <- app_assoc. reflexivity.
  - intros ->. inversion Ho; subst. exact Hp.
Qed.
