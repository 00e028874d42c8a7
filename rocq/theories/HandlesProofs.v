From Verif Require Import Base BaseLemmas Handles HandlesSpec.

Definition held1 (o : option Z) : list Z := match o with Some h => if real h then [h] else [] | None => [] end.
Lemma times_app h a b : times h (a ++ b) = (times h a + times h b)%nat.
Proof. unfold times. apply count_occ_app. Qed.
Lemma times_cons h x l : times h (x :: l) = ((if Z.eq_dec x h then 1 else 0) + times h l)%nat.
Proof. unfold times. cbn [count_occ]. destruct (Z.eq_dec x h); reflexivity. Qed.

Lemma held_upd l i o o' l' h : nth_error l i = Some o -> upd_nat l i o' = Some l' ->
  (times h (flat_map held1 l') + times h (held1 o) = times h (flat_map held1 l) + times h (held1 o'))%nat.
Proof.
  revert i l'; induction l as [|x l IH]; intros [|i] l' Hn Hu; try discriminate.
  - cbn in Hn, Hu. injection Hn as ->. injection Hu as <-. cbn [flat_map]. rewrite !times_app. lia.
  - cbn [nth_error] in Hn. cbn [upd_nat] in Hu. destruct (upd_nat l i o') as [l1|] eqn:E; [|discriminate].
    injection Hu as <-. cbn [flat_map]. rewrite !times_app. specialize (IH i l1 Hn E). lia.
Qed.
Lemma owner_nth s i h : owner s i = Some h -> nth_error (h_owners s) i = Some (Some h).
Proof. unfold owner. destruct (nth_error (h_owners s) i) as [o|]; [intros ->; reflexivity|discriminate]. Qed.

Lemma set_owner_held s i h o' x : owner s i = Some h ->
  (times x (held (set_owner s i o')) + times x (held1 (Some h)) = times x (held s) + times x (held1 o'))%nat.
Proof.
  intros Ho. pose proof (owner_nth _ _ _ Ho) as Hn. unfold held, set_owner. cbn [h_owners].
  destruct (upd_nat_some (h_owners s) i o') as (l' & E & _ & _).
  { apply nth_error_Some. congruence. }
  rewrite E. exact (held_upd _ _ _ _ _ _ Hn E).
Qed.
Lemma set_owner_owner s i o o' : nth_error (h_owners s) i = Some o -> owner (set_owner s i o') i = o' /\
  nth_error (h_owners (set_owner s i o')) i = Some o'.
Proof.
  intros Hn. unfold owner, set_owner. cbn [h_owners].
  destruct (upd_nat_some (h_owners s) i o') as (l' & E & _ & Hl).
  { apply nth_error_Some. congruence. }
  rewrite E. rewrite (Hl i). rewrite Nat.eqb_refl. auto.
Qed.
Lemma set_owner_other s i j o' : i <> j -> owner (set_owner s i o') j = owner s j.
Proof.
  intros H. unfold owner, set_owner. cbn [h_owners].
  destruct (upd_nat (h_owners s) i o') as [l'|] eqn:E; [|reflexivity].
  assert (Hi : (i < length (h_owners s))%nat).
  { destruct (Nat.lt_ge_cases i (length (h_owners s))) as [L|L]; [assumption|]. rewrite upd_nat_none in E by assumption. discriminate. }
  destruct (upd_nat_some (h_owners s) i o' Hi) as (l2 & E2 & _ & Hl). rewrite E in E2. injection E2 as ->.
  rewrite (Hl j). destruct (Nat.eqb j i) eqn:Ej; [apply Nat.eqb_eq in Ej; congruence|reflexivity].
Qed.
Lemma held1_times h x : real h = true -> times x (held1 (Some h)) = (if Z.eq_dec h x then 1 else 0)%nat.
Proof. intros H. unfold held1. rewrite H. rewrite times_cons. cbn. destruct (Z.eq_dec h x); reflexivity. Qed.
Lemma held1_zero x : times x (held1 (Some 0)) = 0%nat. Proof. reflexivity. Qed.
Lemma held1_none x : times x (held1 None) = 0%nat. Proof. reflexivity. Qed.
Lemma held1_unreal h x : real h = false -> times x (held1 (Some h)) = 0%nat.
Proof. intros H. unfold held1. now rewrite H. Qed.

Lemma times_remove h l x : times x (remove Z.eq_dec h l) = if Z.eq_dec h x then 0%nat else times x l.
Proof.
  induction l as [|y l IH]; [cbn; destruct (Z.eq_dec h x); reflexivity|].
  cbn [remove]. destruct (Z.eq_dec h y) as [->|N].
  - rewrite IH, times_cons. destruct (Z.eq_dec y x); lia.
  - rewrite !times_cons, IH. destruct (Z.eq_dec h x) as [->|]; [destruct (Z.eq_dec y x); [congruence|lia]|lia].
Qed.
Lemma exists_times h l : existsb (Z.eqb h) l = true <-> (1 <= times h l)%nat.
Proof.
  induction l as [|y l IH]; [cbn; split; [discriminate|lia]|].
  cbn [existsb]. rewrite times_cons. destruct (Z.eq_dec y h) as [->|N].
  - rewrite Z.eqb_refl. split; [lia|reflexivity].
  - destruct (h =? y) eqn:E; [lia|]. exact IH.
Qed.

(** The pieces of [accounted], per handle *)
Definition acc1 (s : hstate) (x : Z) : Prop :=
  (times x (held s) + times x (h_released s) + times x (h_lost s) = times x (h_open s) /\ times x (h_open s) <= 1)%nat.
Lemma accounted_iff s : accounted s <-> (forall x, acc1 s x) /\ h_bad s = [].
Proof.
  unfold accounted, acc1, responsible. split; intros [H1 H2]; (split; [intros x; specialize (H1 x)|assumption]);
    rewrite ?times_app in *; lia.
Qed.

Lemma close_acc s h ok i : accounted s -> owner s i = Some h -> real h = true ->
  let (closed, s') := closeHandle s h ok in
  h_bad s' = [] /\ h_owners s' = h_owners s /\ h_released s' = h_released s /\ h_lost s' = h_lost s /\
  (forall x, times x (h_open s') = if closed then if Z.eq_dec h x then 0%nat else times x (h_open s) else times x (h_open s)) /\
  closed = ok.
Proof.
  intros Ha Ho Hr. apply accounted_iff in Ha as [H1 H2].
  assert (Ho1 : times h (h_open s) = 1%nat).
  { pose proof (set_owner_held s i h (Some 0) h Ho) as E. rewrite held1_times in E by assumption. rewrite held1_zero in E.
    destruct (Z.eq_dec h h); [|congruence]. destruct (H1 h) as [A B]. lia. }
  unfold closeHandle. destruct (existsb (Z.eqb h) (h_open s)) eqn:E; [|rewrite (proj2 (exists_times h (h_open s))) in E by lia; discriminate].
  destruct ok; cbn [h_owners h_bad h_released h_lost h_open];
    (split; [assumption|]; split; [reflexivity|]; split; [reflexivity|]; split; [reflexivity|]; split; [|reflexivity]); intros x.
  - apply times_remove.
  - reflexivity.
Qed.

Lemma dispose_acc s i nothrow ok h : accounted s -> owner s i = Some h ->
  let (threw, s') := dispose s i nothrow ok in
  accounted s' /\ (forall j, i <> j -> owner s' j = owner s j) /\
  (if threw then h_owners s' = h_owners s else owner s' i = Some 0) /\
  (ok = true -> threw = false /\ h_lost s' = h_lost s) /\ (nothrow = true -> threw = false).
Proof.
  intros Ha Ho. pose proof Ha as Ha'. apply accounted_iff in Ha' as [H1 H2]. unfold dispose. rewrite Ho.
  destruct (real h) eqn:Er.
  - pose proof (close_acc s h ok i Ha Ho Er) as Hc. destruct (closeHandle s h ok) as [closed s1].
    destruct Hc as (B1 & B2 & B3 & B4 & B5 & ->).
    assert (Ho' : owner s1 i = Some h) by (unfold owner in *; now rewrite B2).
    assert (Hs : forall o' x, (times x (held (set_owner s1 i o')) + (if Z.eq_dec h x then 1 else 0) = times x (held s) + times x (held1 o'))%nat).
    { intros o' x. pose proof (set_owner_held s1 i h o' x Ho') as E. rewrite held1_times in E by assumption.
      replace (held s1) with (held s) in E by (unfold held; now rewrite B2). exact E. }
    assert (Hoth : forall j o', i <> j -> owner (set_owner s1 i o') j = owner s j).
    { intros j o' N. rewrite set_owner_other by assumption. unfold owner. now rewrite B2. }
    destruct ok; [|destruct nothrow].
    + split; [|split; [auto|split; [eapply set_owner_owner, owner_nth, Ho'|split; [intros _; split; [reflexivity|exact B4]|reflexivity]]]].
      apply accounted_iff. split; [|exact B1]. intros x. specialize (H1 x). unfold acc1 in *.
      specialize (Hs (Some 0) x). rewrite held1_zero in Hs.
      cbn [h_released h_lost h_open set_owner]. rewrite B3, B4, B5.
      destruct (Z.eq_dec h x); lia.
    + split; [|split; [|split; [|split; [discriminate|reflexivity]]]].
      * apply accounted_iff. split; [|exact B1]. intros x. specialize (H1 x). unfold acc1 in *.
        specialize (Hs (Some 0) x). rewrite held1_zero in Hs.
        cbn [h_released h_lost h_open set_owner]. rewrite times_cons, B3, B4, B5.
        unfold held in *. cbn [h_owners set_owner] in *. lia.
      * intros j N. exact (Hoth j (Some 0) N).
      * exact (proj1 (set_owner_owner s1 i _ (Some 0) (owner_nth _ _ _ Ho'))).
    + split; [|split; [|split; [assumption|split; [discriminate|discriminate]]]].
      * apply accounted_iff. split; [|exact B1]. intros x. specialize (H1 x). unfold acc1 in *. rewrite B3, B4, B5. unfold held in *. now rewrite B2.
      * intros j N. unfold owner. now rewrite B2.
  - split; [|split; [|split; [|split; [intros _; split; reflexivity|reflexivity]]]].
    + apply accounted_iff. split; [|exact H2]. intros x. specialize (H1 x). unfold acc1 in *.
      pose proof (set_owner_held s i h (Some 0) x Ho) as E. rewrite held1_zero, held1_unreal in E by assumption.
      cbn [h_released h_lost h_open set_owner]. lia.
    + intros j N. now apply set_owner_other.
    + exact (proj1 (set_owner_owner s i _ (Some 0) (owner_nth _ _ _ Ho))).
Qed.

Lemma acc_open s h : accounted s -> accounted (hstep s (HOpen h)).
Proof.
  intros Ha. apply accounted_iff in Ha as [H1 H2]. cbn [hstep].
  destruct (real h && existsb (Z.eqb h) (h_open s)) eqn:E; [apply accounted_iff; auto|].
  apply accounted_iff. split; [|exact H2]. intros x. specialize (H1 x). unfold acc1, held in *.
  cbn [h_owners h_open h_released h_lost]. rewrite flat_map_app, times_app. cbn [flat_map].
  destruct (real h) eqn:Er.
  - cbn [andb] in E. assert (times h (h_open s) = 0%nat).
    { destruct (times h (h_open s)) eqn:T; [reflexivity|]. rewrite (proj2 (exists_times h (h_open s))) in E by lia. discriminate. }
    cbn [app]. rewrite !times_cons. change (times x []) with 0%nat. destruct (Z.eq_dec h x) as [->|]; lia.
  - change (times x ([] ++ [])) with 0%nat. lia.
Qed.

Lemma acc_move s j h : accounted s -> owner s j = Some h ->
  accounted (mkH (h_owners (set_owner s j (Some 0)) ++ [Some h]) (h_open s) (h_bad s) (h_released s) (h_lost s)).
Proof.
  intros Ha Ho. apply accounted_iff in Ha as [H1 H2]. apply accounted_iff. split; [|exact H2].
  intros x. specialize (H1 x). pose proof (set_owner_held s j h (Some 0) x Ho) as E. rewrite held1_zero in E.
  unfold acc1, held in *. cbn [h_owners h_open h_released h_lost].
  rewrite flat_map_app, times_app. cbn [flat_map]. rewrite app_nil_r. fold (held1 (Some h)). lia.
Qed.
(** a handle moves between two owners, the second of which holds nothing *)
Lemma acc_transfer s i j h : accounted s -> owner s j = Some h -> owner s i = Some 0 ->
  accounted (set_owner (set_owner s j (Some 0)) i (Some h)).
Proof.
  intros Ha Ho Hi. apply accounted_iff in Ha as [H1 H2]. apply accounted_iff. split; [|exact H2].
  intros x. specialize (H1 x). pose proof (set_owner_held s j h (Some 0) x Ho) as E. rewrite held1_zero in E.
  assert (Hi' : owner (set_owner s j (Some 0)) i = Some 0).
  { destruct (Nat.eq_dec j i) as [->|N]; [exact (proj1 (set_owner_owner s i _ (Some 0) (owner_nth _ _ _ Ho)))|].
    rewrite set_owner_other by assumption. exact Hi. }
  pose proof (set_owner_held _ i 0 (Some h) x Hi') as E2. rewrite held1_zero in E2.
  unfold acc1 in *. cbn [h_owners h_open h_released h_lost set_owner] in *. lia.
Qed.
Lemma acc_clear s i : accounted s -> owner s i = Some 0 -> accounted (set_owner s i None).
Proof.
  intros Ha Ho. apply accounted_iff in Ha as [H1 H2]. apply accounted_iff. split; [|exact H2].
  intros x. specialize (H1 x). pose proof (set_owner_held s i 0 None x Ho) as E. rewrite held1_zero, held1_none in E.
  unfold acc1 in *. cbn [h_owners h_open h_released h_lost set_owner] in *. lia.
Qed.

Lemma hstep_acc s o : accounted s -> accounted (hstep s o).
Proof.
  intros Ha. destruct o as [h|j|i j ok|i nothrow ok|i|i ok].
  - now apply acc_open.
  - cbn [hstep]. destruct (owner s j) as [h|] eqn:Ej; [|assumption].
    unfold release. rewrite Ej. cbn [h_open h_bad h_released h_lost set_owner]. now apply acc_move.
  - cbn [hstep]. destruct (owner s i) as [hi|] eqn:Ei; [|assumption]. destruct (owner s j) as [hj|] eqn:Ej; [|assumption].
    pose proof (dispose_acc s i false ok hi Ha Ei) as Hd. destruct (dispose s i false ok) as [threw s1].
    destruct Hd as (A & B & C & _ & _). destruct threw; [assumption|].
    unfold release. destruct (Nat.eq_dec i j) as [->|N].
    + rewrite C. apply acc_transfer; assumption.
    + rewrite (B j N), Ej. apply acc_transfer; [assumption|now rewrite (B j N)|assumption].
  - cbn [hstep]. destruct (owner s i) as [h|] eqn:Ei.
    + pose proof (dispose_acc s i nothrow ok h Ha Ei) as Hd. destruct (dispose s i nothrow ok). apply Hd.
    + unfold dispose. now rewrite Ei.
  - cbn [hstep]. destruct (owner s i) as [h|] eqn:Ei; [|assumption]. unfold release. rewrite Ei.
    apply accounted_iff in Ha as [H1 H2]. apply accounted_iff. split; [|exact H2].
    intros x. specialize (H1 x). pose proof (set_owner_held s i h (Some 0) x Ei) as E. rewrite held1_zero in E.
    unfold acc1, held in *. cbn [h_owners h_open h_released h_lost set_owner] in *.
    destruct (real h) eqn:Er.
    + rewrite held1_times in E by assumption. rewrite times_cons. lia.
    + rewrite held1_unreal in E by assumption. lia.
  - cbn [hstep]. destruct (owner s i) as [h|] eqn:Ei; [|assumption].
    pose proof (dispose_acc s i true ok h Ha Ei) as Hd. destruct (dispose s i true ok) as [threw s1].
    destruct Hd as (A & _ & C & _ & D). rewrite (D eq_refl) in C. cbn [snd]. now apply acc_clear.
Qed.
Lemma hrun_acc os s : accounted s -> accounted (hrun s os).
Proof. revert s. induction os as [|o os IH]; intros s H; [exact H|]. apply (IH (hstep s o)). now apply hstep_acc. Qed.
Lemma init_acc : accounted hinit.
Proof. split; [|reflexivity]. intros h. cbn. auto. Qed.

(** Nothing is lost unless the OS refuses to close. *)
Lemma hstep_lost s o : accounted s -> all_ok o = true -> h_lost (hstep s o) = h_lost s.
Proof.
  intros Ha Hk. destruct o as [h|j|i j ok|i nothrow ok|i|i ok]; cbn [hstep all_ok] in *.
  - destruct (real h && _); reflexivity.
  - destruct (owner s j) eqn:Ej; [|reflexivity]. unfold release. now rewrite Ej.
  - destruct (owner s i) as [hi|] eqn:Ei; [|reflexivity]. destruct (owner s j) as [hj|] eqn:Ej; [|reflexivity].
    pose proof (dispose_acc s i false ok hi Ha Ei) as Hd. destruct (dispose s i false ok) as [threw s1].
    destruct Hd as (_ & _ & _ & D & _). destruct (D Hk) as [-> E]. unfold release.
    destruct (owner s1 j); exact E.
  - destruct (owner s i) as [h|] eqn:Ei; [|unfold dispose; now rewrite Ei].
    pose proof (dispose_acc s i nothrow ok h Ha Ei) as Hd. destruct (dispose s i nothrow ok) as [threw s1]. apply Hd, Hk.
  - destruct (owner s i) eqn:Ei; [|reflexivity]. unfold release. now rewrite Ei.
  - destruct (owner s i) as [h|] eqn:Ei; [|reflexivity].
    pose proof (dispose_acc s i true ok h Ha Ei) as Hd. destruct (dispose s i true ok) as [threw s1]. apply Hd, Hk.
Qed.
Lemma hrun_lost os s : accounted s -> forallb all_ok os = true -> h_lost (hrun s os) = h_lost s.
Proof.
  revert s. induction os as [|o os IH]; intros s Ha H; [reflexivity|]. cbn [forallb] in H. apply andb_prop in H as [H1 H2].
  change (hrun s (o :: os)) with (hrun (hstep s o) os). rewrite IH; [|now apply hstep_acc|assumption]. now apply hstep_lost.
Qed.

Lemma destroyed_held s : destroyed s -> held s = [].
Proof. unfold destroyed, held. intros H. induction H as [|o l Ho Hl IH]; [reflexivity|]. subst o. exact IH. Qed.
Lemma final os : let s := hrun hinit os in forallb all_ok os = true -> destroyed s ->
  forall h, times h (h_open s) = times h (h_released s).
Proof.
  cbv zeta. intros Hk Hd h. destruct (hrun_acc os hinit init_acc) as [H1 _]. destruct (H1 h) as [A _].
  unfold responsible in A. rewrite (destroyed_held _ Hd), hrun_lost in A by (assumption || exact init_acc).
  cbn [app h_lost hinit] in A. rewrite app_nil_r in A. lia.
Qed.
