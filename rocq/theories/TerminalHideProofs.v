(** The cursor is hidden before a line is drawn past it. *)
From Verif Require Import Base BaseLemmas ConsoleLine Terminal TerminalSpec TerminalProofs.

Ltac splits := repeat match goal with |- _ /\ _ => split end.

Definition grows (t t' : term) : Prop := exists a, t_out t' = t_out t ++ a.
Lemma grows_refl t : grows t t.
Proof. exists []. symmetry. apply app_nil_r. Qed.
Lemma grows_trans a b c : grows a b -> grows b c -> grows a c.
Proof. intros (x & X) (y & Y). exists (x ++ y). rewrite Y, X. symmetry. apply app_assoc. Qed.
Lemma grows_write bs t : grows t (write bs t).
Proof. exists bs. reflexivity. Qed.
Lemma grows_hide t : grows t (hideTerminalCursor t).
Proof. unfold hideTerminalCursor. destruct (t_plain t); [apply grows_refl|]. destruct (t_hidden t); [apply grows_refl|]. exists hide_seq. reflexivity. Qed.
Lemma grows_move line t : grows t (moveTerminalToLine line t).
Proof.
  unfold moveTerminalToLine. destruct (line =? t_line t); [apply grows_refl|]. apply (grows_trans _ _ _ (grows_hide t)).
  destruct (line <? t_line (hideTerminalCursor t)); [destruct (t_plain (hideTerminalCursor t))|]; eexists; reflexivity.
Qed.

Section Hide.
Variables (te : tenv) (s0 : scr) (uc : bool).
Hypothesis Hte : tenv_ok te.

Lemma send_hides off t line data cc t' : inv te s0 uc true off t -> s_top (screen te s0 t) <= off + line -> t_line t - line < 2 ^ 32 ->
  sendLine (E := unit) line data (zlen data) cc t = Ok t' -> cc <> -1 -> cc < t_col t' ->
  t_hidden t' = true /\ exists a b, t_out t' = t_out t ++ a ++ b /\ s_mode (feed te s0 (t_out t ++ a)) 25 = false /\ s_cell (feed te s0 (t_out t ++ a)) = s_cell (screen te s0 t).
Proof using Hte.
  intros Hi Ht Hd E Hc Hp. unfold sendLine in E. destruct (assert_ (1 <=? zlen data)) as [u| | | |]; cbn [bind] in E; try discriminate E.
  destruct (move_inv te Hte s0 uc true off t line Hi Ht Hd) as (M1 & _ & M2 & _). pose proof (grows_move line t) as G1.
  set (t1 := moveTerminalToLine line t) in *. clearbody t1.
  match type of E with bind ?x _ = _ => destruct x as [valid| | | |]; cbn [bind] in E; try discriminate E end.
  match type of E with context [send_loop _ (t_plain ?x) _ _ _ _ _] => assert (G2 : grows t1 x /\ inv te s0 uc true off x /\ s_cell (screen te s0 x) = s_cell (screen te s0 t1)); [|set (t2 := x) in *] end.
  { destruct valid; [splits; auto; apply grows_refl|]. destruct (hide_inv te s0 uc true off t1 M1) as (H1 & _ & H3 & _). pose proof (grows_hide t1) as GH.
    set (h := hideTerminalCursor t1) in *. clearbody h. assert (P : t_plain h = false) by apply H1. rewrite P. destruct (cr_inv te Hte s0 uc true off h H1) as (C1 & C2 & _).
    splits; [apply (grows_trans _ h); [exact GH|exists [13]; reflexivity]|exact C1|congruence]. }
  clearbody t2. destruct G2 as (G2 & I2 & S2).
  match type of E with bind ?x _ = _ => destruct x as [s| | | |]; cbn [bind] in E; try discriminate E end.
  assert (Hcells : cc < sl_cells s).
  { destruct (assert_ (sl_cells s <=? zlen data)); cbn [bind] in E; try discriminate E. match type of E with (if ?c then _ else _) = _ => destruct c; [discriminate E|] end.
    match type of E with Ok ?x = Ok _ => assert (X : t' = x) by congruence end. rewrite X in Hp. exact Hp. }
  assert (B1 : negb (cc =? -1) && (cc <? sl_cells s) = true).
  { destruct (Z.eqb_spec cc (-1)); [congruence|]. destruct (Z.ltb_spec cc (sl_cells s)); [reflexivity|lia]. }
  rewrite B1 in E. destruct (hide_inv te s0 uc true off t2 I2) as (H1 & H2 & H3 & _).
  assert (O : t_out (hideTerminalCursor (set_color (sl_color s) t2)) = t_out (hideTerminalCursor t2)).
  { unfold hideTerminalCursor. cbn [set_color t_plain t_hidden]. destruct (t_plain t2); [reflexivity|]. destruct (t_hidden t2); reflexivity. }
  assert (Hh : t_hidden (hideTerminalCursor (set_color (sl_color s) t2)) = true).
  { assert (P : t_plain t2 = false) by apply I2. unfold hideTerminalCursor. cbn [set_color t_plain t_hidden]. rewrite P. destruct (t_hidden t2) eqn:Q; [exact Q|reflexivity]. }
  destruct (grows_trans _ _ _ (grows_trans _ _ _ G1 G2) (grows_hide t2)) as (a & A). split.
  { destruct (assert_ (sl_cells s <=? zlen data)); cbn [bind] in E; try discriminate E. match type of E with (if ?c then _ else _) = _ => destruct c; [discriminate E|] end.
    match type of E with Ok ?x = Ok _ => assert (X : t' = x) by congruence end. rewrite X. cbn [set_pos t_hidden].
    match goal with |- context [if ?c then _ else _] => destruct c end; exact Hh. }
  exists a.
  assert (F : exists b, t_out t' = t_out (hideTerminalCursor t2) ++ b).
  { destruct (assert_ (sl_cells s <=? zlen data)); cbn [bind] in E; try discriminate E. match type of E with (if ?c then _ else _) = _ => destruct c; [discriminate E|] end.
    match type of E with Ok ?x = Ok _ => assert (X : t' = x) by congruence end. rewrite X. cbn [set_pos t_out]. rewrite <- O.
    match goal with |- context [if ?c then _ else _] => destruct c end; cbn [write t_out]; [|eexists; reflexivity]. eexists. rewrite <- app_assoc. reflexivity. }
  destruct F as (b & F). exists b. rewrite F, A, <- app_assoc. split; [reflexivity|]. rewrite <- A. change (feed te s0 (t_out (hideTerminalCursor t2))) with (screen te s0 (hideTerminalCursor t2)).
  destruct H1 as (_ & _ & _ & _ & _ & I6 & _). rewrite (I6 eq_refl), H2. split; [reflexivity|]. congruence.
Qed.
End Hide.
