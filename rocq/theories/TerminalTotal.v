(** Nothing the console holds makes the terminal's operations fail. *)
From Verif Require Import Base BaseLemmas Unicode ConsoleLine Terminal TerminalSpec.

Section Total.
Context {E : Type}.
Lemma at_total (data : list cell) i : 0 <= i < zlen data -> exists d, @at_ E data i = Ok d.
Proof. intros H. unfold at_. destruct (znth_some data i H) as (d & ->). eauto. Qed.
Lemma full_total (data : list cell) width : width = zlen data -> exists b, @isFullWidthCharacter E data width = Ok b /\ (b = true -> 2 <= width).
Proof.
  intros Hw. unfold isFullWidthCharacter. destruct (width <? 2) eqn:E1; [exists false; split; [reflexivity|discriminate]|].
  destruct (at_total data 0 ltac:(lia)) as (d0 & ->). cbn [bind]. destruct (tb (cl_attr d0) LVB_LEADING); [|exists false; split; [reflexivity|discriminate]].
  destruct (at_total data 1 ltac:(lia)) as (d1 & ->). cbn [bind]. eexists. split; [reflexivity|]. lia.
Qed.
Lemma scan_total (data : list cell) width : width = zlen data -> 1 <= width -> exists n ch, @scanUnicodeScalarValue E data width = Ok (n, ch) /\ 1 <= n <= width.
Proof.
  intros Hw H1. unfold scanUnicodeScalarValue. rewrite (proj2 (Z.leb_le 1 width) H1). cbn [assert_ bind].
  destruct (full_total data width Hw) as (f & -> & Hf). cbn [bind]. cbv zeta.
  destruct (at_total data 0 ltac:(lia)) as (d0 & ->). cbn [bind].
  set (w1 := if f then 2 else 1). assert (W1 : 1 <= w1 <= width) by (unfold w1; destruct f; [specialize (Hf eq_refl); lia|lia]). clearbody w1.
  destruct (Z.land (cl_ch d0) 0xF800 =? 0xD800); [|exists w1, (cl_ch d0); auto].
  destruct (negb (Z.land (cl_ch d0) 0xFC00 =? 0xD800) || (width <=? w1)) eqn:E1; [exists w1, 63; auto|].
  apply Bool.orb_false_iff in E1 as (_ & E1). destruct (at_total data w1 ltac:(lia)) as (d1 & ->). cbn [bind].
  destruct (negb _); [exists w1, 63; auto|].
  destruct (full_total (zskipn w1 data) (width - w1)) as (f2 & -> & Hf2); [rewrite zlen_zskipn; lia|]. cbn [bind].
  eexists. eexists. split; [reflexivity|]. destruct f2; [specialize (Hf2 eq_refl); lia|lia].
Qed.
Lemma loop_total plain uc data width : width = zlen data -> forall fuel i s, 0 <= i <= width -> width - i < Z.of_nat fuel -> sl_cells s <= i ->
  exists s', @send_loop E fuel plain uc data width i s = Ok s' /\ sl_cells s <= sl_cells s' <= width.
Proof.
  intros Hw. induction fuel as [|fuel IH]; intros i s Hi Hf Hs; [lia|]. cbn [send_loop].
  destruct (negb (i <? width)) eqn:E1; [exists s; split; [reflexivity|lia]|]. apply Bool.negb_false_iff in E1.
  destruct (at_total data i ltac:(lia)) as (d & ->). cbn [bind]. cbv zeta.
  set (s1 := if uc && negb (Z.land (cl_attr d) COLOR_ATTRIBUTE_MASK =? sl_color s) then _ else s).
  assert (H1 : sl_cells s <= sl_cells s1 <= i) by (unfold s1; destruct (uc && _); cbn [sl_cells]; lia). clearbody s1.
  destruct (scan_total (zskipn i data) (width - i)) as (n & ch & -> & Hn); [rewrite zlen_zskipn; lia|lia|]. cbn [bind].
  match goal with |- context [send_loop fuel plain uc data width (i + n) ?x] => set (s2 := x) end.
  assert (H2 : sl_cells s1 <= sl_cells s2 <= i + n) by (unfold s2; destruct (ch =? 32); cbn [sl_cells]; lia). clearbody s2.
  destruct (IH (i + n) s2 ltac:(lia) ltac:(lia) ltac:(lia)) as (s' & -> & H3). exists s'. split; [reflexivity|lia].
Qed.

(** The bookkeeping that sendLine asserts *)
Definition fine (t : term) : Prop := t_valid t = true -> zlen (t_data t) = t_col t.
Lemma fine_hide t : fine t -> fine (hideTerminalCursor t).
Proof. unfold fine, hideTerminalCursor. destruct (t_plain t), (t_hidden t); auto. Qed.
Lemma hide_data t : t_data (hideTerminalCursor t) = t_data t /\ t_col (hideTerminalCursor t) = t_col t.
Proof. unfold hideTerminalCursor. destruct (t_plain t), (t_hidden t); auto. Qed.
Lemma fine_move line t : fine t -> fine (moveTerminalToLine line t).
Proof. unfold moveTerminalToLine. destruct (line =? t_line t); [auto|]. intros _ _. reflexivity. Qed.
Lemma fine_send line data cc t : fine t -> 1 <= zlen data -> exists t', @sendLine E line data (zlen data) cc t = Ok t' /\ fine t'.
Proof.
  intros F H. unfold sendLine. rewrite (proj2 (Z.leb_le 1 (zlen data)) H). cbn [assert_ bind]. cbv zeta.
  pose proof (fine_move line t F) as F1. set (t1 := moveTerminalToLine line t) in *. clearbody t1.
  (* whether the rest of the line can be appended *)
  match goal with |- exists t', bind ?m _ = _ /\ _ => assert (V : exists b, m = Ok b /\ (b = true -> zlen (t_data t1) <= zlen data)) end.
  { destruct (t_valid t1) eqn:Ev; [|exists false; split; [reflexivity|discriminate]]. rewrite (F1 Ev), Z.eqb_refl. cbn [assert_ bind].
    destruct (0 <? t_col t1) eqn:E0; [|exists true; split; [reflexivity|lia]].
    match goal with |- context [negb ?x] => destruct x eqn:Eo end; cbn [negb]; [|exists false; split; [reflexivity|discriminate]].
    assert (L : t_col t1 <= zlen data) by (destruct (t_plain t1); lia).
    destruct (zlen data <? t_col t1) eqn:E2; [lia|]. eexists. split; [reflexivity|intros _; lia]. }
  destruct V as (b & -> & Hb). cbn [bind].
  set (t2 := if b then t1 else _). assert (L2 : 0 <= zlen (t_data t2) <= zlen data).
  { split; [unfold zlen; lia|]. unfold t2. destruct b; [auto|]. cbn. change (zlen (@nil cell)) with 0. lia. }
  clearbody t2.
  destruct (loop_total (t_plain t2) (t_useColor t2) data (zlen data) eq_refl (Z.to_nat (zlen data) + 1) (zlen (t_data t2)) (mkSl [] 0 (zlen (t_data t2)) false (t_color t2)))
    as (s & -> & Hs); [lia|lia|cbn; lia|]. cbn [bind sl_cells] in *.
  match goal with |- context [set_pos (t_line ?x) (sl_cells s)] => set (t3 := x) end.
  assert (D3 : t_data t3 = t_data t2).
  { unfold t3. repeat match goal with |- context [if ?c then _ else _] => destruct c end; cbn [t_data write set_color]; try reflexivity; exact (proj1 (hide_data _)). }
  clearbody t3. destruct (sl_cells s <=? zlen data) eqn:E3; [|lia]. cbn [assert_ bind]. rewrite D3.
  destruct (sl_cells s <? zlen (t_data t2)) eqn:E4; [lia|]. eexists. split; [reflexivity|]. unfold fine. cbn. intros _.
  rewrite zlen_app, zlen_zskipn, zlen_zfirstn. lia.
Qed.
Lemma fine_op o t : fine t -> top_sized o -> exists t', run_top (E := E) o t = Ok t' /\ fine t'.
Proof.
  intros F S. destruct o as [c l|l d cc|c l| |b]; cbn [run_top].
  - eexists. split; [reflexivity|]. unfold reset, fine. destruct (c && _); cbn; auto.
  - apply fine_send; auto.
  - eexists. split; [reflexivity|]. unfold showTerminalCursor. pose proof (fine_move l t F) as F1. set (t1 := moveTerminalToLine l t) in *. clearbody t1.
    destruct (t_plain t1); [exact F1|]. set (t2 := if t_col t1 =? c then t1 else _).
    assert (F2 : fine t2). { unfold t2. destruct (t_col t1 =? c); [exact F1|]. unfold fine. cbn. intros H. apply Z.eqb_eq in H. subst c. reflexivity. }
    clearbody t2. destruct (t_hidden t2); exact F2.
  - eexists. split; [reflexivity|]. apply fine_hide. exact F.
  - eexists. split; [reflexivity|]. unfold enableMouseMode. destruct (_ || _); exact F.
Qed.
Theorem ops_total ops : forall t, fine t -> Forall top_sized ops -> exists t', run_tops (E := E) ops t = Ok t' /\ fine t'.
Proof.
  induction ops as [|o ops IH]; intros t F H; [exists t; auto|]. inversion H; subst. destruct (fine_op o t F) as (t1 & E1 & F1); [assumption|].
  cbn [run_tops]. rewrite E1. cbn [bind]. apply IH; assumption.
Qed.
Lemma new_fine plain uc : fine (new_term plain uc).
Proof. intros _. reflexivity. Qed.
Lemma new_total plain uc ops : Forall top_sized ops -> exists t', run_tops (E := E) ops (new_term plain uc) = Ok t'.
Proof. intros H. destruct (ops_total ops _ (new_fine plain uc) H) as (t & R & _). eauto. Qed.
End Total.
Lemma sized_carried ops : Forall top_sized ops -> carried_out ops.
Proof.
  intros H plain uc all E. apply new_total. subst ops. unfold without_mouse in H. induction all as [|o all IH]; [constructor|].
  cbn [filter] in H. destruct o; cbn [is_mouse negb] in H; try (inversion H; subst); constructor; auto; exact I.
Qed.
