From Verif Require Import Base BaseLemmas Text NamedPipe NamedPipeSpec NamedPipeProofs ConsoleLine Terminal TerminalSpec AgentLoop AgentLoopSpec.
Ltac splits := repeat match goal with |- _ /\ _ => split end.

(** *** Pipes *)
Definition pok (p : pipe) (wr : list Z) : Prop := wf p /\ out_inv p wr /\ in_inv p [] [] /\ np_writing p = true.

Lemma pok_step p o q d wr : pok p wr -> pstep p o = Ok (q, d) -> d = [] -> peer_by o = [] -> pok q (wr ++ written_by o).
Proof.
  intros (A & B & C & D) H -> Hp. destruct (pstep_inv _ _ _ _ _ _ _ A B C H) as (A' & B' & C' & (_ & D') & _).
  rewrite Hp in C'. unfold pok. splits; auto. congruence.
Qed.
Lemma pok_write p d q wr : pok p wr -> np_write d p = Ok q ->
  pok q (wr ++ d) /\ np_open q = np_open p /\ np_connecting q = np_connecting p /\ np_sent q = np_sent p.
Proof.
  intros H Hw. split.
  - apply (pok_step p (PWrite d) q [] wr H); auto. cbn [pstep]. now rewrite Hw.
  - unfold np_write in Hw. apply bind_Ok in Hw. destruct Hw as (u & _ & E). injection E as <-. cbn. auto.
Qed.
Lemma np_write_ok p d : np_writing p = true -> exists q, np_write d p = Ok q.
Proof. intros H. unfold np_write. rewrite H. cbn. eauto. Qed.
Lemma pok_service p s b q wr : pok p wr -> serviceIo s p = Ok (b, q) -> pok q wr.
Proof.
  intros H Hs. replace wr with (wr ++ written_by (PService s)) by apply app_nil_r.
  apply (pok_step p (PService s) q []); auto. cbn [pstep]. now rewrite Hs.
Qed.
Lemma service_closed p s b q : np_open p = false -> serviceIo s p = Ok (b, q) -> q = p.
Proof. intros H. unfold serviceIo. rewrite H. cbn. intros [= _ <-]. reflexivity. Qed.
Lemma pok_close p kr kw wr : pok p wr -> pok (closePipe kr kw p) wr.
Proof.
  intros H. replace wr with (wr ++ written_by (PClose kr kw)) by apply app_nil_r.
  apply (pok_step p (PClose kr kw) (closePipe kr kw p) []); auto.
Qed.
Lemma close_closes p kr kw : np_open (closePipe kr kw p) = false.
Proof. unfold closePipe. destruct (np_open p) eqn:E; cbn; auto. Qed.

Lemma autoClose1_spec k p q wr : pok p wr -> autoClose1 k p = Ok q ->
  pok q wr /\ (np_open p = false -> q = p) /\
  (np_open p = true -> np_open q = false -> np_connecting p = false /\ np_sent p = wr /\ np_sent q = wr) /\
  (np_open p = true -> np_connecting p = false -> np_sent p = wr -> np_open q = false).
Proof.
  intros H. unfold autoClose1, isConnected. destruct (np_open p) eqn:Eo; cbn [andb].
  2: { intros [= <-]. splits; auto; discriminate. }
  destruct (np_connecting p) eqn:Ec; cbn [negb].
  { intros [= <-]. splits; auto; try congruence. }
  intros Hb. apply bind_Ok in Hb. destruct Hb as (n & Hn & E). injection E as <-.
  pose proof H as (W & O & I & Wr). pose proof (bytesToSend_eq _ _ _ W Eo O Hn) as En.
  assert (Hpre : is_prefix (np_sent p) wr).
  { unfold out_inv in O. rewrite Eo in O. exists (inflight p ++ np_outq p). auto. }
  assert (Heq : n = 0 -> np_sent p = wr).
  { intros Z0. destruct Hpre as (r & ->). rewrite zlen_app in En. assert (zlen r = 0) by lia.
    rewrite (zlen_0_nil r) by assumption. now rewrite app_nil_r. }
  destruct (n =? 0) eqn:E0.
  - apply Z.eqb_eq in E0. pose proof (pok_close p (fst k) (snd k) wr H) as Hc. splits; auto; try congruence.
    + intros _ Hcl. splits; auto. destruct Hc as (_ & O' & _). unfold out_inv in O'. rewrite Hcl in O'.
      destruct (pstep_inv p (PClose (fst k) (snd k)) (closePipe (fst k) (snd k) p) [] [] wr [] W O I eq_refl) as (_ & _ & _ & _ & (r1 & P)).
      destruct O' as (r2 & Q). rewrite (Heq E0) in P. rewrite P in Q |- *. rewrite <- app_assoc in Q.
      assert (L : zlen (r1 ++ r2) = 0) by (apply (f_equal zlen) in Q; rewrite zlen_app in Q; lia).
      rewrite zlen_app in L. pose proof (zlen_nonneg r1); pose proof (zlen_nonneg r2).
      rewrite (zlen_0_nil r1) by lia. now rewrite app_nil_r.
    + intros. apply close_closes.
  - splits; auto; try congruence. intros _ _ Hs. rewrite Hs in En. lia.
Qed.

(** *** Terminal output only grows *)
Definition grows (t t' : term) : Prop := is_prefix (t_out t) (t_out t').
Lemma grows_refl t : grows t t. Proof. apply is_prefix_refl. Qed.
Lemma grows_trans a b c : grows a b -> grows b c -> grows a c. Proof. apply is_prefix_trans. Qed.
Lemma grows_write bs t : grows t (write bs t). Proof. unfold grows. cbn. apply is_prefix_app. Qed.
Lemma grows_hide t : grows t (hideTerminalCursor t).
Proof.
  unfold hideTerminalCursor. destruct (t_plain t); [apply grows_refl|]. destruct (t_hidden t); [apply grows_refl|]. apply grows_write.
Qed.
Lemma grows_move l t : grows t (moveTerminalToLine l t).
Proof.
  unfold moveTerminalToLine. destruct (l =? t_line t); [apply grows_refl|]. eapply grows_trans; [apply grows_hide|].
  set (u := hideTerminalCursor t). clearbody u.
  match goal with |- grows _ (set_pos ?a ?b ?c ?d ?x) => change (grows u x) end.
  destruct (l <? t_line u); [destruct (t_plain u)|]; apply grows_write.
Qed.
Definition mp (t : term) := (t_mouse t, t_plain t).
Lemma mouse_hide t : mp (hideTerminalCursor t) = mp t.
Proof. unfold hideTerminalCursor. destruct (t_plain t) eqn:E; [reflexivity|]. destruct (t_hidden t); reflexivity. Qed.
Lemma mouse_move l t : mp (moveTerminalToLine l t) = mp t.
Proof.
  unfold moveTerminalToLine. destruct (l =? t_line t); [reflexivity|]. rewrite <- (mouse_hide t). set (u := hideTerminalCursor t). clearbody u.
  destruct (l <? t_line u); [destruct (t_plain u)|]; reflexivity.
Qed.
Lemma send_frame {E} line data width cc t t' : sendLine (E := E) line data width cc t = Ok t' -> grows t t' /\ mp t' = mp t.
Proof.
  unfold sendLine. destruct (assert_ (E := E) (1 <=? width)); try discriminate. cbn [bind]. cbv zeta.
  pose proof (grows_move line t) as G1. pose proof (mouse_move line t) as M1. set (t1 := moveTerminalToLine line t) in *. clearbody t1.
  match goal with |- bind ?m _ = _ -> _ => destruct m as [valid| | | |] end; try discriminate. cbn [bind].
  match goal with |- context [send_loop _ (t_plain ?x)] => set (t2 := x) end.
  assert (H2 : grows t t2 /\ mp t2 = mp t).
  { unfold t2. destruct valid; [auto|]. split.
    - match goal with |- grows _ (set_pos ?a ?b ?c ?d ?x) => change (grows t x) end.
      eapply grows_trans; [exact G1|]. eapply grows_trans; [apply grows_hide|apply grows_write].
    - rewrite <- M1, <- (mouse_hide t1). reflexivity. }
  clearbody t2. destruct H2 as (G2 & M2).
  match goal with |- bind ?m _ = _ -> _ => destruct m as [s| | | |] eqn:El end; try discriminate. cbn [bind].
  set (t3 := if negb (cc =? -1) && _ then _ else _).
  assert (H3 : grows t t3 /\ mp t3 = mp t).
  { unfold t3. destruct (_ && _); [|auto]. split; [eapply grows_trans; [exact G2|]; apply (grows_hide (set_color (sl_color s) t2))|rewrite mouse_hide; exact M2]. }
  clearbody t3. destruct H3 as (G3 & M3).
  set (t4 := if negb (sl_erased s) && _ then _ else _).
  assert (H4 : grows t t4 /\ mp t4 = mp t).
  { unfold t4. destruct (_ && _); (split; [eapply grows_trans; [exact G3|]|exact M3]); [|apply grows_write].
    eapply grows_trans; apply grows_write. }
  clearbody t4. match goal with |- bind ?m _ = _ -> _ => destruct m end; try discriminate. cbn [bind].
  destruct (_ <? _); [discriminate|]. intros [= <-]. exact H4.
Qed.
Lemma top_frame {E} o t t' : run_top (E := E) o t = Ok t' -> grows t t' /\ t_plain t' = t_plain t /\ (is_mouse o = false \/ t_plain t = true -> t_mouse t' = t_mouse t).
Proof.
  destruct o as [c l|l d cc|c l| |b]; cbn [run_top is_mouse].
  - intros [= <-]. unfold reset. match goal with |- context [set_pos _ _ _ _ ?x] => set (u := x) end.
    change (grows t u /\ t_plain u = t_plain t /\ (false = false \/ t_plain t = true -> t_mouse u = t_mouse t)). unfold u. destruct (c && negb (t_plain t)); splits; auto using grows_write, grows_refl.
  - intros H. apply send_frame in H as (A & B). injection B as B1 B2. auto.
  - intros [= <-]. unfold showTerminalCursor. cbv zeta. pose proof (grows_move l t) as G1. pose proof (mouse_move l t) as M1. set (t1 := moveTerminalToLine l t) in *. clearbody t1.
    assert (G : forall u, grows t u /\ mp u = mp t -> grows t u /\ t_plain u = t_plain t /\ (false = false \/ t_plain t = true -> t_mouse u = t_mouse t)) by (intros u (A & B); injection B as B1 B2; auto).
    apply G. clear G.
    destruct (t_plain t1) eqn:Ep; [auto|]. set (t2 := if t_col t1 =? c then t1 else _).
    assert (H2 : grows t t2 /\ mp t2 = mp t).
    { unfold t2. destruct (t_col t1 =? c); [auto|]. split; [|exact M1]. eapply grows_trans; [exact G1|]. apply (grows_write (col_seq c) t1). }
    clearbody t2. destruct H2 as (G2 & M2). destruct (t_hidden t2); [|auto]. split; [|exact M2]. eapply grows_trans; [eassumption|]. apply (grows_write show_seq t2).
  - intros [= <-]. pose proof (mouse_hide t) as M. injection M as M1 M2. splits; auto using grows_hide.
  - intros [= <-]. unfold enableMouseMode. destruct (t_plain t) eqn:Ep; [rewrite orb_true_r; splits; auto using grows_refl|]. rewrite orb_false_r.
    destruct (Bool.eqb _ _); [splits; auto using grows_refl|]. splits; [unfold grows; cbn; apply is_prefix_app|exact Ep|intros [X|X]; discriminate].
Qed.
Lemma tops_frame {E} ops : forall t t', run_tops (E := E) ops t = Ok t' ->
  grows t t' /\ t_plain t' = t_plain t /\ (Forall (fun o => is_mouse o = false) ops \/ t_plain t = true -> t_mouse t' = t_mouse t).
Proof.
  induction ops as [|o ops IH]; intros t t'; cbn [run_tops].
  - intros [= <-]. splits; auto using grows_refl.
  - intros H. apply bind_Ok in H. destruct H as (t1 & H1 & H2). destruct (top_frame _ _ _ H1) as (A & A2 & B). destruct (IH _ _ H2) as (C & C2 & D).
    splits; [eapply grows_trans; eauto|congruence|]. intros [F|F]; [inversion F; subst|]; rewrite D by (rewrite ?A2; auto); auto.
Qed.
Lemma new_output_spec t t' : grows t t' -> t_out t' = t_out t ++ new_output t t'.
Proof. intros (r & E). unfold new_output. rewrite E. f_equal. now rewrite zskipn_app_exact. Qed.
Lemma tops_app {E} ops1 ops2 (t : term) : run_tops (E := E) (ops1 ++ ops2) t = bind (run_tops ops1 t) (run_tops ops2).
Proof.
  revert t; induction ops1 as [|o ops1 IH]; intros t; cbn [app run_tops bind]; [reflexivity|].
  destruct (run_top o t); cbn [bind]; auto.
Qed.

(** *** The agent: what every operation keeps *)
Definition flags (a : agent) := (a_plain a, a_child a, a_auto a, a_exitAfter a, a_closing a, a_exiting a).
Definition oopen (o : option pipe) : bool := match o with Some q => np_open q | None => false end.
Definition st (a : agent) : Prop :=
  pok (a_conout a) (conout_bytes a) /\ match a_conerr a with Some q => pok q (a_err a) | None => True end /\
  concat (segments SrcTerm a) = t_out (a_term a) /\ (a_conerr a <> None -> a_err a = t_out (a_eterm a)).

Lemma conout_bytes_app a p segs : conout_bytes (with_out a p segs) = conout_bytes a ++ concat (map snd segs).
Proof. unfold conout_bytes. cbn. now rewrite map_app, concat_app. Qed.
Lemma segments_app k a p segs : segments k (with_out a p segs) = segments k a ++ map snd (filter (fun s => src_eqb (fst s) k) segs).
Proof. unfold segments. cbn. now rewrite filter_app, map_app. Qed.

(** Output operations *)
Definition outop (a a' : agent) : Prop :=
  flags a' = flags a /\ np_open (a_conout a') = np_open (a_conout a) /\ np_connecting (a_conout a') = np_connecting (a_conout a) /\
  np_sent (a_conout a') = np_sent (a_conout a) /\
  match a_conerr a, a_conerr a' with
  | Some q, Some q' => np_open q' = np_open q /\ np_connecting q' = np_connecting q /\ np_sent q' = np_sent q
  | None, None => True
  | _, _ => False
  end.
Lemma outop_refl a : outop a a.
Proof. unfold outop. splits; auto. destruct (a_conerr a); auto. Qed.
Lemma outop_trans a b c : outop a b -> outop b c -> outop a c.
Proof.
  unfold outop. intros (A1 & A2 & A3 & A4 & A5) (B1 & B2 & B3 & B4 & B5). splits; try congruence.
  destruct (a_conerr a), (a_conerr b), (a_conerr c); auto; try contradiction.
  destruct A5 as (? & ? & ?), B5 as (? & ? & ?). splits; congruence.
Qed.

Lemma term_ops_spec ops a a' : st a -> term_ops ops a = Ok a' ->
  exists t', run_tops (E := unit) ops (a_term a) = Ok t' /\ st a' /\ outop a a' /\ a_term a' = t' /\ a_eterm a' = a_eterm a /\ a_title a' = a_title a /\
  a_out a' = a_out a ++ [(SrcTerm, new_output (a_term a) t')] /\ a_err a' = a_err a.
Proof.
  intros (S1 & S2 & S3 & S4) H. unfold term_ops, write_out in H. apply bind_Ok in H. destruct H as (t' & Ht & H).
  apply bind_Ok in H. destruct H as (a1 & Hw & E). injection E as <-. apply bind_Ok in Hw. destruct Hw as (p & Hp & E). injection E as <-.
  destruct (pok_write _ _ _ _ S1 Hp) as (P1 & P2 & P3 & P4). destruct (tops_frame _ _ _ Ht) as (G & _).
  exists t'. splits; auto.
  - unfold st. splits; auto.
    + unfold conout_bytes. cbn. rewrite map_app, concat_app. cbn. rewrite app_nil_r. exact P1.
    + unfold segments in *. cbn. rewrite filter_app, map_app, concat_app. cbn. rewrite app_nil_r. rewrite (new_output_spec _ _ G). now f_equal.
  - unfold outop. cbn. splits; auto. destruct (a_conerr a); auto.
Qed.
Lemma eterm_ops_spec ops a a' : st a -> eterm_ops ops a = Ok a' ->
  st a' /\ outop a a' /\ a_term a' = a_term a /\ a_title a' = a_title a /\ a_out a' = a_out a /\
  match a_conerr a with None => a' = a
  | Some _ => run_tops (E := unit) ops (a_eterm a) = Ok (a_eterm a') /\ a_err a' = a_err a ++ new_output (a_eterm a) (a_eterm a') end.
Proof.
  intros (S1 & S2 & S3 & S4) H. unfold eterm_ops in H. destruct (a_conerr a) as [q|] eqn:Eq.
  2: { injection H as <-. splits; auto using outop_refl. unfold st. rewrite Eq. splits; auto. }
  apply bind_Ok in H. destruct H as (t' & Ht & H). cbv zeta in H. apply bind_Ok in H. destruct H as (p & Hp & E). injection E as <-.
  destruct (pok_write _ _ _ _ S2 Hp) as (P1 & P2 & P3 & P4). destruct (tops_frame _ _ _ Ht) as (G & _).
  splits; auto.
  - unfold st. cbn. splits; auto. intros _. rewrite (new_output_spec _ _ G). f_equal. apply S4. discriminate.
  - unfold outop. cbn. rewrite Eq. splits; auto.
Qed.
Lemma write_out_spec src bs a a' : st a -> src <> SrcTerm -> write_out src bs a = Ok a' ->
  st a' /\ outop a a' /\ a_term a' = a_term a /\ a_eterm a' = a_eterm a /\ a_title a' = a_title a /\ a_out a' = a_out a ++ [(src, bs)] /\ a_err a' = a_err a.
Proof.
  intros (S1 & S2 & S3 & S4) Hn H. unfold write_out in H. apply bind_Ok in H. destruct H as (p & Hp & E). injection E as <-.
  destruct (pok_write _ _ _ _ S1 Hp) as (P1 & P2 & P3 & P4). splits; auto.
  - unfold st. rewrite conout_bytes_app, segments_app. cbn. rewrite app_nil_r. splits; auto.
    replace (src_eqb src SrcTerm) with false by (destruct src; auto; congruence). cbn. now rewrite app_nil_r.
  - unfold outop. cbn. splits; auto. destruct (a_conerr a); auto.
Qed.

Lemma title_segs_filter nt a : map snd (filter (fun s => src_eqb (fst s) SrcTitle) (title_segs nt a)) = map snd (title_segs nt a).
Proof. unfold title_segs. destruct (list_eqb nt (a_title a)); [reflexivity|]. destruct (negb (a_plain a) && np_open (a_conout a)); reflexivity. Qed.
Lemma list_eqb_true x y : list_eqb x y = true -> x = y.
Proof. apply list_eqb_eq. Qed.
Lemma title_spec nt a a' : st a -> syncConsoleTitle nt a = Ok a' ->
  st a' /\ outop a a' /\ a_term a' = a_term a /\ a_eterm a' = a_eterm a /\ a_title a' = nt /\ a_out a' = a_out a ++ title_segs nt a /\ a_err a' = a_err a.
Proof.
  intros S H. unfold syncConsoleTitle, title_segs in *. destruct (list_eqb nt (a_title a)) eqn:Et.
  - injection H as <-. rewrite app_nil_r. apply list_eqb_true in Et. splits; auto using outop_refl.
  - apply bind_Ok in H. destruct H as (a1 & H & E). injection E as <-. destruct (_ && _).
    + assert (Nt : SrcTitle <> SrcTerm) by discriminate. destruct (write_out_spec _ _ _ _ S Nt H) as (A1 & A2 & A3 & A4 & A5 & A6 & A7). splits; auto.
    + injection H as <-. rewrite app_nil_r. splits; auto. exact (outop_refl a).
Qed.

(** *** Closing *)
Definition out_closed (a : agent) : Prop := np_open (a_conout a) = false /\ oopen (a_conerr a) = false.
Definition right_close (closing : bool) (p q : pipe) (wr : list Z) : Prop :=
  np_open p = true -> np_open q = false -> closing = true /\ np_connecting p = false /\ np_sent q = wr.
Definition rest_same (a a' : agent) : Prop :=
  a_term a' = a_term a /\ a_eterm a' = a_eterm a /\ a_title a' = a_title a /\ a_out a' = a_out a /\ a_err a' = a_err a /\
  a_plain a' = a_plain a /\ a_child a' = a_child a /\ a_auto a' = a_auto a /\ a_exitAfter a' = a_exitAfter a /\ a_closing a' = a_closing a.
Definition conerr_rel (R : pipe -> pipe -> Prop) (a a' : agent) : Prop :=
  match a_conerr a, a_conerr a' with Some q, Some q' => R q q' | None, None => True | _, _ => False end.
Lemma auto_spec k a a' : st a -> autoClosePipesForShutdown k a = Ok a' ->
  st a' /\ rest_same a a' /\
  right_close (a_closing a) (a_conout a) (a_conout a') (conout_bytes a) /\
  conerr_rel (fun q q' => right_close (a_closing a) q q' (a_err a)) a a' /\
  (np_open (a_conout a) = false -> a_conout a' = a_conout a) /\
  conerr_rel (fun q q' => np_open q = false -> q' = q) a a' /\
  (a_exiting a' = true -> a_exiting a = true \/ (a_closing a = true /\ a_exitAfter a = true /\ out_closed a')) /\
  (a_closing a = true -> np_open (a_conout a) = true -> np_connecting (a_conout a) = false -> np_sent (a_conout a) = conout_bytes a ->
     np_open (a_conout a') = false) /\
  (a_closing a = true -> a_exitAfter a = true -> out_closed a' -> a_exiting a' = true) /\
  (a_exiting a = true -> a_exiting a' = true).
Proof.
  intros S H. pose proof S as (S1 & S2 & S3 & S4). unfold autoClosePipesForShutdown in H. destruct (a_closing a) eqn:Ec.
  2: { injection H as <-. unfold rest_same, right_close, conerr_rel. splits; auto; try congruence; destruct (a_conerr a); auto; congruence. }
  apply bind_Ok in H. destruct H as (p & Hp & H). destruct (autoClose1_spec _ _ _ _ S1 Hp) as (P1 & P2 & P3 & P4).
  apply bind_Ok in H. destruct H as (a1 & He & H). cbn [with_out a_conerr] in He.
  assert (HA : exists q', a1 = mkA (a_plain a) p q' (a_term a) (a_eterm a) (a_title a) (a_child a) (a_auto a) (a_exitAfter a) (a_closing a) (a_exiting a) (a_out a) (a_err a)
     /\ match a_conerr a, q' with
        | Some q, Some q' => pok q' (a_err a) /\ (np_open q = false -> q' = q) /\ right_close true q q' (a_err a)
        | None, None => True | _, _ => False end).
  { destruct (a_conerr a) as [q|] eqn:Eq.
    - apply bind_Ok in He. destruct He as (q' & Hq & E). injection E as <-. destruct (autoClose1_spec _ _ _ _ S2 Hq) as (Q1 & Q2 & Q3 & Q4).
      exists (Some q'). unfold with_err, with_out. cbn. rewrite !app_nil_r. splits; auto. intros X Y. destruct (Q3 X Y) as (? & ? & ?). auto.
    - injection He as <-. exists None. unfold with_out. cbn. rewrite app_nil_r, Eq. auto. }
  clear He. destruct HA as (q' & -> & HQ). cbn [a_exitAfter a_conout a_conerr] in H. injection H as <-.
  match goal with |- context [if ?c then with_exiting ?x else ?x] => set (ex := c) in *;
    assert (E : (if ex then with_exiting x else x) = mkA (a_plain a) p q' (a_term a) (a_eterm a) (a_title a) (a_child a) (a_auto a) (a_exitAfter a) (a_closing a) (ex || a_exiting a) (a_out a) (a_err a)) by (destruct ex; reflexivity) end.
  rewrite E. clear E. unfold rest_same, right_close, conerr_rel, out_closed, st, conout_bytes, segments. cbn [a_conout a_conerr a_term a_eterm a_title a_out a_err a_plain a_child a_auto a_exitAfter a_closing a_exiting].
  splits; auto.
  - destruct (a_conerr a), q'; auto; tauto.
  - intros Hn. apply S4. destruct (a_conerr a), q'; auto; try congruence; contradiction.
  - intros X Y. destruct (P3 X Y) as (? & ? & ?). auto.
  - destruct (a_conerr a), q'; auto. exact (proj2 (proj2 HQ)).
  - destruct (a_conerr a), q'; auto. exact (proj1 (proj2 HQ)).
  - intros X. apply orb_true_iff in X as [X|X]; [right|now left]. unfold ex in X. apply andb_true_iff in X as (X & X3). apply andb_true_iff in X as (X1 & X2).
    splits; auto; [now apply negb_true_iff|]. destruct q'; cbn; auto. now apply negb_true_iff.
  - intros _ X (Y & Y2). unfold ex. rewrite X, Y. destruct q' as [q'|]; cbn in *; [now rewrite Y2|reflexivity].
  - intros X. rewrite X. apply orb_true_r.
Qed.

(** *** One poll *)
Definition poll_closing (i : poll_in) (a : agent) : bool := a_closing a || (a_auto a && a_child a && pi_exited i).
Definition poll_scrape (i : poll_in) (a a' : agent) : Prop :=
  run_tops (E := unit) (pi_ops i ++ [TMouse (pi_mouse i && negb (poll_closing i a))]) (a_term a) = Ok (a_term a') /\
  conout_bytes a' = conout_bytes a ++ concat (map snd (title_segs (pi_title i) a)) ++ new_output (a_term a) (a_term a') /\
  segments SrcTitle a' = segments SrcTitle a ++ map snd (title_segs (pi_title i) a) /\ a_title a' = pi_title i /\
  (a_conerr a <> None -> run_tops (E := unit) (pi_eops i) (a_eterm a) = Ok (a_eterm a') /\ a_err a' = a_err a ++ new_output (a_eterm a) (a_eterm a')).
Definition poll_quiet (i : poll_in) (a a' : agent) : Prop :=
  a_term a' = enableMouseMode false (a_term a) /\ conout_bytes a' = conout_bytes a ++ new_output (a_term a) (a_term a') /\
  segments SrcTitle a' = segments SrcTitle a /\ a_title a' = a_title a /\ a_err a' = a_err a.

Lemma new_output_trans a b c : grows a b -> grows b c -> new_output a b ++ new_output b c = new_output a c.
Proof.
  intros H1 H2. apply (app_inv_head (t_out a)). rewrite app_assoc, <- (new_output_spec _ _ H1), <- (new_output_spec _ _ H2), <- new_output_spec; [reflexivity|].
  eapply grows_trans; eauto.
Qed.

Lemma poll_spec i a a' : st a -> onPollTimeout i a = Ok a' ->
  st a' /\ a_plain a' = a_plain a /\ a_closing a' = poll_closing i a /\ a_auto a' = a_auto a /\ a_exitAfter a' = a_exitAfter a /\
  a_child a' = (a_child a && negb (a_auto a && pi_exited i)) /\
  right_close (poll_closing i a) (a_conout a) (a_conout a') (conout_bytes a') /\
  conerr_rel (fun q q' => right_close (poll_closing i a) q q' (a_err a')) a a' /\
  (np_open (a_conout a) = false -> np_open (a_conout a') = false) /\
  conerr_rel (fun q q' => np_open q = false -> np_open q' = false) a a' /\
  (a_exiting a' = true -> a_exiting a = true \/ (poll_closing i a = true /\ a_exitAfter a = true /\ out_closed a')) /\
  (poll_closing i a = true -> np_open (a_conout a) = true -> np_connecting (a_conout a) = false -> np_sent (a_conout a) = conout_bytes a' ->
     np_open (a_conout a') = false) /\
  (poll_closing i a = true -> a_exitAfter a = true -> out_closed a' -> a_exiting a' = true) /\
  (if a_closing a then poll_quiet i a a' else poll_scrape i a a') /\
  t_plain (a_term a') = t_plain (a_term a) /\ t_mouse (a_term a') = (if t_plain (a_term a) then t_mouse (a_term a) else pi_mouse i && negb (poll_closing i a)).
Proof.
  intros S H. unfold onPollTimeout in H. cbv zeta in H.
  match type of H with context [if negb (a_closing a) then _ else Ok ?x] => set (a0 := x) in * end.
  assert (S0 : st a0) by (unfold a0; destruct (_ && _); exact S).
  assert (H0 : a_plain a0 = a_plain a /\ a_closing a0 = poll_closing i a /\ a_auto a0 = a_auto a /\ a_exitAfter a0 = a_exitAfter a /\
     a_child a0 = (a_child a && negb (a_auto a && pi_exited i)) /\ a_exiting a0 = a_exiting a /\
     a_conout a0 = a_conout a /\ a_conerr a0 = a_conerr a /\ a_term a0 = a_term a /\ a_eterm a0 = a_eterm a /\ a_title a0 = a_title a /\ a_out a0 = a_out a /\ a_err a0 = a_err a).
  { unfold a0, poll_closing. destruct (a_auto a) eqn:X1, (a_child a) eqn:X2, (pi_exited i) eqn:X3, (a_closing a) eqn:X4; cbn; rewrite ?X1, ?X2, ?X4; splits; auto. }
  clearbody a0. destruct H0 as (Z1 & Z2 & Z3 & Z4 & Z5 & Z6 & Z7 & Z8 & Z9 & Z10 & Z11 & Z12 & Z13).
  apply bind_Ok in H. destruct H as (a1 & H1 & H). apply bind_Ok in H. destruct H as (a2 & H2 & H).
  assert (A1 : st a1 /\ outop a0 a1 /\ (if a_closing a then a1 = a0 else
     exists t1, run_tops (E := unit) (pi_ops i) (a_term a0) = Ok t1 /\ a_term a1 = t1 /\ a_title a1 = pi_title i /\
       a_out a1 = a_out a0 ++ title_segs (pi_title i) a0 ++ [(SrcTerm, new_output (a_term a0) t1)] /\
       (a_conerr a0 <> None -> run_tops (E := unit) (pi_eops i) (a_eterm a0) = Ok (a_eterm a1) /\ a_err a1 = a_err a0 ++ new_output (a_eterm a0) (a_eterm a1)))).
  { destruct (a_closing a); cbn [negb] in H1; [injection H1 as <-; splits; auto using outop_refl|].
    apply bind_Ok in H1. destruct H1 as (b1 & T1 & H1). apply bind_Ok in H1. destruct H1 as (b2 & T2 & T3).
    destruct (title_spec _ _ _ S0 T1) as (B1 & B2 & B3 & B4 & B5 & B6 & B7).
    destruct (term_ops_spec _ _ _ B1 T2) as (t1 & C0 & C1 & C2 & C3 & C4 & C5 & C6 & C7).
    destruct (eterm_ops_spec _ _ _ C1 T3) as (D1 & D2 & D3 & D4 & D5 & D6).
    splits; auto; [eapply outop_trans; [exact B2|]; eapply outop_trans; eauto|].
    exists t1. rewrite B3 in C0. splits; auto; try congruence.
    - rewrite D5, C6, B6, B3. now rewrite app_assoc.
    - intros Hn. pose proof (outop_trans _ _ _ B2 C2) as (_ & _ & _ & _ & O). destruct (a_conerr a0); [|congruence]. destruct (a_conerr b2); [|contradiction].
      destruct D6 as (D6 & D7). rewrite C4, B4 in D6, D7. rewrite C7, B7 in D7. auto. }
  destruct A1 as (S1 & O1 & R1).
  destruct (term_ops_spec _ _ _ S1 H2) as (t2 & C0 & S2 & O2 & C3 & C4 & C5 & C6 & C7).
  pose proof (outop_trans _ _ _ O1 O2) as O. destruct (auto_spec _ _ _ S2 H) as (S3 & Q1 & Q2 & Q3 & Q4 & Q5 & Q6 & Q7 & Q8 & Q9).
  assert (Hcl : a_closing a1 = poll_closing i a) by (destruct O1 as (F & _); unfold flags in F; congruence).
  destruct O as (F & O3 & O4 & O5 & O6). unfold flags in F. injection F as F1 F2 F3 F4 F5 F6.
  destruct Q1 as (R2 & R3 & R4 & R5 & R6 & R7 & R8 & R9 & R10 & R11).
  assert (Eb : conout_bytes a' = conout_bytes a2) by (unfold conout_bytes; now rewrite R5).
  rewrite Hcl in C0. cbn [run_tops run_top bind] in C0. assert (Et2 : enableMouseMode (pi_mouse i && negb (poll_closing i a)) (a_term a1) = t2) by (cbn [run_tops run_top bind] in C0; congruence).
  rewrite F5 in Q2, Q3, Q6, Q7, Q8. rewrite F4 in Q6, Q8. rewrite Z2 in Q2, Q3, Q6, Q7, Q8. rewrite Z4 in Q6, Q8.
  unfold conerr_rel in *. rewrite Z7 in O3, O4, O5. rewrite Z8 in O6.
  assert (Gt : grows (a_term a1) t2 /\ t_plain t2 = t_plain (a_term a1)).
  { rewrite <- Et2. destruct (top_frame (E := unit) (TMouse (pi_mouse i && negb (poll_closing i a))) (a_term a1) _ eq_refl) as (G & G2 & _). auto. }
  destruct Gt as (Gt & Gp).
  assert (Ep : t_plain (a_term a1) = t_plain (a_term a) /\ (t_plain (a_term a) = true -> t_mouse (a_term a1) = t_mouse (a_term a))).
  { destruct (a_closing a); [subst a1; rewrite Z9; auto|]. destruct R1 as (t1 & R & <- & _). rewrite Z9 in R. destruct (tops_frame _ _ _ R) as (_ & P & M). auto. }
  destruct Ep as (Ep & Em).
  splits; auto; try congruence.
  - rewrite Eb. intros X Y. rewrite <- O3 in X. destruct (Q2 X Y) as (q1 & q2 & q3). splits; auto. congruence.
  - destruct (a_conerr a) as [q|], (a_conerr a2) as [q2|]; try contradiction; destruct (a_conerr a') as [q3|]; try contradiction; auto.
    destruct O6 as (E1 & E2 & E3). rewrite R6. intros X Y. rewrite <- E1 in X. destruct (Q3 X Y) as (q1' & q2' & q3'). splits; auto. congruence.
  - intros X. rewrite <- O3 in X. rewrite (Q4 X). exact X.
  - destruct (a_conerr a) as [q|], (a_conerr a2) as [q2|]; try contradiction; destruct (a_conerr a') as [q3|]; try contradiction; auto.
    destruct O6 as (E1 & E2 & E3). intros X. rewrite <- E1 in X. rewrite (Q5 X). exact X.
  - intros X. destruct (Q6 X) as [Y|Y]; [left; congruence|right; exact Y].
  - intros X X2 X3 X4. apply Q7; auto; congruence.
  - assert (Eo : conout_bytes a' = conout_bytes a1 ++ new_output (a_term a1) t2) by (rewrite Eb; unfold conout_bytes; rewrite C6, map_app, concat_app; cbn; now rewrite app_nil_r).
    assert (Eg : segments SrcTitle a' = segments SrcTitle a1) by (unfold segments; rewrite R5, C6, filter_app, map_app; cbn; apply app_nil_r).
    destruct (a_closing a) eqn:Ec.
    + subst a1. unfold poll_quiet. assert (Epc : poll_closing i a = true) by (unfold poll_closing; now rewrite Ec).
      rewrite Epc, andb_false_r in Et2. splits; try congruence.
      * rewrite Eo. unfold conout_bytes. rewrite Z12. f_equal. f_equal; congruence.
      * rewrite Eg. unfold segments. now rewrite Z12.
    + destruct R1 as (t1 & K1 & K2 & K3 & K4 & K5). unfold poll_scrape. rewrite Z9 in K1. destruct (tops_frame _ _ _ K1) as (G1 & _). 
      assert (Ett : title_segs (pi_title i) a0 = title_segs (pi_title i) a) by (unfold title_segs; now rewrite Z11, Z1, Z7).
      splits.
      * rewrite tops_app, K1. cbn [bind run_tops run_top]. rewrite <- K2, Et2. congruence.
      * rewrite Eo. unfold conout_bytes. rewrite K4, Z12, !map_app, !concat_app. cbn. rewrite app_nil_r, <- !app_assoc. f_equal. rewrite Ett. f_equal.
        rewrite Z9, R2, C3, K2 in *. now apply new_output_trans.
      * rewrite Eg. unfold segments. rewrite K4, Z12, !filter_app, !map_app, Ett. cbn. rewrite app_nil_r. f_equal. apply title_segs_filter.
      * congruence.
      * intros Hn. rewrite Z8, Z10, Z13 in K5. destruct (K5 Hn) as (k1 & k2). rewrite R3, C4, R6, C7. auto.
  - rewrite R2, C3, <- Et2. unfold enableMouseMode. rewrite Ep. destruct (t_plain (a_term a)) eqn:Epl; [rewrite orb_true_r; auto|]. rewrite orb_false_r.
    destruct (Bool.eqb _ _) eqn:Eb2; [now apply Bool.eqb_prop|reflexivity].
Qed.

(** *** Histories *)
Definition inv (es : list aev) (a : agent) : Prop :=
  st a /\ t_plain (a_term a) = a_plain a /\ (a_plain a = true -> t_mouse (a_term a) = false) /\
  (a_closing a = true -> shutting_down es (a_exitAfter a) /\ t_mouse (a_term a) = false) /\
  (a_child a = true -> In (AStart true (a_auto a) (a_exitAfter a)) es) /\
  (a_exiting a = true -> In AControlLost es \/ (a_closing a = true /\ a_exitAfter a = true /\ out_closed a)).
Definition closes_ok (es : list aev) (e : aev) (a a' : agent) : Prop :=
  (np_open (a_conout a) = true -> np_open (a_conout a') = false ->
     io_failed (out_svc e) (a_conout a) \/
     (shutting_down (es ++ [e]) (a_exitAfter a') /\ has_client (out_svc e) (a_conout a) /\ np_sent (a_conout a') = conout_bytes a' /\ t_mouse (a_term a') = false)) /\
  conerr_rel (fun q q' => np_open q = true -> np_open q' = false ->
     io_failed (err_svc e) q \/
     (shutting_down (es ++ [e]) (a_exitAfter a') /\ has_client (err_svc e) q /\ np_sent q' = a_err a')) a a' /\
  (np_open (a_conout a) = false -> np_open (a_conout a') = false) /\
  conerr_rel (fun q q' => np_open q = false -> np_open q' = false) a a'.

Lemma shutting_down_app es x es' : shutting_down es x -> shutting_down (es ++ es') x.
Proof.
  intros (e1 & e2 & i & e3 & -> & H). exists e1, e2, i, (e3 ++ es'). split; [|exact H].
  rewrite <- app_assoc. cbn. rewrite <- app_assoc. reflexivity.
Qed.
Definition stays (a a' : agent) : Prop := (np_open (a_conout a) = false -> np_open (a_conout a') = false) /\
  conerr_rel (fun q q' => np_open q = false -> np_open q' = false) a a'.
Lemma out_closed_mono a a' : stays a a' -> out_closed a -> out_closed a'.
Proof.
  intros (H1 & H2) (C1 & C2). split; auto. unfold conerr_rel, oopen in *.
  destruct (a_conerr a), (a_conerr a'); try contradiction; auto.
Qed.
Lemma is_connected p : np_open p = true -> np_connecting p = false -> connected p.
Proof. split; assumption. Qed.

Lemma outop_stays a a' : outop a a' -> stays a a'.
Proof.
  intros (_ & A & _ & _ & B). split; [congruence|]. unfold conerr_rel. destruct (a_conerr a), (a_conerr a'); auto. destruct B as (B & _). congruence.
Qed.
Lemma outop_closes es e a a' : outop a a' -> closes_ok es e a a'.
Proof.
  intros H. pose proof (outop_stays _ _ H) as (S1 & S2). destruct H as (_ & A & _ & _ & B). unfold closes_ok. splits; auto; [congruence|].
  unfold conerr_rel in *. destruct (a_conerr a), (a_conerr a'); auto. destruct B as (B & _). congruence.
Qed.
(** Output operations keep the invariant. *)
Lemma inv_outop es e a a' : inv es a -> outop a a' -> st a' -> t_plain (a_term a') = t_plain (a_term a) -> t_mouse (a_term a') = t_mouse (a_term a) -> inv (es ++ [e]) a'.
Proof.
  intros (I1 & I2 & I3 & I4 & I5 & I6) O S Hp Hm. pose proof (outop_stays _ _ O) as St. destruct O as (F & _). unfold flags in F. injection F as F1 F2 F3 F4 F5 F6.
  unfold inv. rewrite F1, F2, F3, F4, F5, F6, Hp, Hm. splits; auto.
  - intros C. destruct (I4 C). split; auto using shutting_down_app.
  - intros C. apply in_or_app. auto.
  - intros C. destruct (I6 C) as [X|(X1 & X2 & X3)]; [left; apply in_or_app; auto|right]. splits; auto. eapply out_closed_mono; eauto.
Qed.

(** Servicing a pipe, then closing *)
Lemma inv_auto es e k a a' : inv (es ++ [e]) a -> autoClosePipesForShutdown k a = Ok a' -> inv (es ++ [e]) a' /\
  right_close (a_closing a) (a_conout a) (a_conout a') (conout_bytes a) /\
  conerr_rel (fun q q' => right_close (a_closing a) q q' (a_err a)) a a' /\ stays a a' /\ rest_same a a'.
Proof.
  intros (I1 & I2 & I3 & I4 & I5 & I6) H. destruct (auto_spec _ _ _ I1 H) as (S & R & C1 & C2 & D1 & D2 & X & _).
  pose proof R as (R1 & R2 & R3 & R4 & R5 & R6 & R7 & R8 & R9 & R10).
  assert (St : stays a a').
  { split; [intros Y; rewrite (D1 Y); exact Y|]. unfold conerr_rel in *. destruct (a_conerr a), (a_conerr a'); auto. intros Y. rewrite (D2 Y). exact Y. }
  splits; auto. unfold inv. rewrite R1, R6, R7, R8, R9, R10. splits; auto.
  intros Y. destruct (X Y) as [Z|Z]; [|right; exact Z]. destruct (I6 Z) as [Z2|(Z1 & Z2 & Z3)]; [now left|right]. splits; auto. eapply out_closed_mono; eauto.
Qed.

Lemma step_ok es e a a' : inv es a -> scraper_only e -> astep a e = Ok a' -> inv (es ++ [e]) a' /\ closes_ok es e a a'.
Proof.
  intros I Hs H. pose proof I as (I1 & I2 & I3 & I4 & I5 & I6). destruct e as [i|s k|s k|cr au ex|ops eops| |]; cbn [astep scraper_only] in *.
  - destruct (poll_spec _ _ _ I1 H) as (S & P1 & P2 & P3 & P4 & P5 & C1 & C2 & D1 & D2 & X & _ & _ & _ & M1 & M2).
    assert (Hsd : poll_closing i a = true -> shutting_down (es ++ [APoll i]) (a_exitAfter a)).
    { unfold poll_closing. intros Y. apply orb_true_iff in Y as [Y|Y]; [apply shutting_down_app, I4, Y|].
      apply andb_true_iff in Y as (Y & Y3). apply andb_true_iff in Y as (Y1 & Y2). specialize (I5 Y2). rewrite Y1 in I5. apply in_split in I5 as (l1 & l2 & ->).
      exists l1, l2, i, []. split; [|exact Y3]. rewrite <- app_assoc. reflexivity. }
    assert (Hm : poll_closing i a = true -> t_mouse (a_term a') = false).
    { intros Y. rewrite M2, Y, andb_false_r. destruct (t_plain (a_term a)) eqn:Ep; [|reflexivity]. apply I3. congruence. }
    split; [|unfold closes_ok; splits; auto].
    + unfold inv. rewrite P1, P2, P3, P4, M1. splits; auto.
      * intros Y. rewrite M2, I2, Y. auto.
      * intros Y. apply in_or_app. left. apply I5. rewrite P5 in Y. now apply andb_true_iff in Y.
      * intros Y. destruct (X Y) as [Z|Z]; [|right; exact Z]. destruct (I6 Z) as [Z2|(Z1 & Z2 & Z3)]; [left; apply in_or_app; auto|right].
        splits; auto; [unfold poll_closing; now rewrite Z1|]. apply (out_closed_mono a); [split; auto|exact Z3].
    + intros O C. right. destruct (C1 O C) as (Y1 & Y2 & Y3). cbn. rewrite P4. splits; auto using is_connected.
    + unfold conerr_rel in *. destruct (a_conerr a), (a_conerr a'); auto. intros O C. right. destruct (C2 O C) as (Y1 & Y2 & Y3). cbn. rewrite P4. splits; auto using is_connected.
  - apply bind_Ok in H. destruct H as ((did & p) & Hv & H). set (a1 := with_out a p []) in *. cbv zeta in H.
    pose proof (pok_service _ _ _ _ _ (proj1 I1) Hv) as Pk.
    assert (St1 : stays a a1).
    { split; [|unfold conerr_rel; cbn; destruct (a_conerr a); auto]. intros Y. cbn. rewrite (service_closed _ _ _ _ Y Hv). exact Y. }
    assert (I' : inv (es ++ [AOutIo s k]) a1).
    { unfold inv. cbn. splits; auto.
      - destruct I1 as (A1 & A2 & A3 & A4). unfold st, a1. rewrite conout_bytes_app, segments_app. cbn. rewrite !app_nil_r. splits; auto.
      - intros C. destruct (I4 C). split; auto using shutting_down_app.
      - intros C. apply in_or_app; auto.
      - intros C. destruct (I6 C) as [Z|(Z1 & Z2 & Z3)]; [left; apply in_or_app; auto|right]. splits; auto. exact (out_closed_mono a a1 St1 Z3). }
    assert (Hcb : conout_bytes a1 = conout_bytes a) by (unfold a1; rewrite conout_bytes_app; cbn; apply app_nil_r).
    destruct did.
    + destruct (inv_auto _ _ _ _ _ I' H) as (J & C1 & C2 & St2 & R1 & R2 & R3 & R4 & R5 & R6 & R7 & R8 & R9 & R10). split; [exact J|]. unfold closes_ok. splits.
      * intros O C. destruct (np_open p) eqn:Ep.
        -- right. destruct (C1 Ep C) as (Y1 & Y2 & Y3). destruct J as (_ & _ & _ & J4 & _). rewrite R10 in J4. destruct (J4 Y1) as (J5 & J6).
           splits; auto; [|unfold conout_bytes in *; rewrite R4; exact Y3]. cbn. exists true, p. split; auto using is_connected.
        -- left. cbn. split; [exact O|]. eauto.
      * unfold conerr_rel in *. cbn [a1 with_out a_conerr] in *. destruct (a_conerr a), (a_conerr a'); auto. intros O C. right. destruct (C2 O C) as (Y1 & Y2 & Y3).
        destruct J as (_ & _ & _ & J4 & _). rewrite R10 in J4. destruct (J4 Y1) as (J5 & J6). rewrite R5. splits; auto. cbn. auto using is_connected.
      * intros Y. apply (proj1 St2), (proj1 St1), Y.
      * destruct St2 as (_ & St2). unfold conerr_rel in *. cbn [a1 with_out a_conerr] in St2. exact St2.
    + injection H as <-. split; [exact I'|]. unfold closes_ok. splits; try apply St1.
      * intros O C. left. cbn. split; [exact O|]. eauto.
      * unfold conerr_rel. cbn. destruct (a_conerr a); auto. congruence.
  - destruct (a_conerr a) as [q|] eqn:Eq.
    2: { injection H as <-. split; [apply (inv_outop es _ a a); auto using outop_refl|apply outop_closes, outop_refl]. }
    apply bind_Ok in H. destruct H as ((did & p) & Hv & H). set (a1 := with_err a (Some p) (a_eterm a) []) in *. cbv zeta in H.
    pose proof I1 as (A1 & A2 & A3 & A4). rewrite Eq in A2, A4. pose proof (pok_service _ _ _ _ _ A2 Hv) as Pk.
    assert (St1 : stays a a1).
    { split; [auto|]. unfold conerr_rel. cbn. rewrite Eq. intros Y. rewrite (service_closed _ _ _ _ Y Hv). exact Y. }
    assert (I' : inv (es ++ [AErrIo s k]) a1).
    { unfold inv. cbn. splits; auto.
      - unfold st. cbn. rewrite !app_nil_r. splits; auto. intros _. apply A4. discriminate.
      - intros C. destruct (I4 C). split; auto using shutting_down_app.
      - intros C. apply in_or_app; auto.
      - intros C. destruct (I6 C) as [Z|(Z1 & Z2 & Z3)]; [left; apply in_or_app; auto|right]. splits; auto. exact (out_closed_mono a a1 St1 Z3). }
    destruct did.
    + destruct (inv_auto _ _ _ _ _ I' H) as (J & C1 & C2 & St2 & R1 & R2 & R3 & R4 & R5 & R6 & R7 & R8 & R9 & R10). split; [exact J|]. unfold closes_ok. splits.
      * intros O C. right. destruct (C1 O C) as (Y1 & Y2 & Y3). destruct J as (_ & _ & _ & J4 & _). rewrite R10 in J4. destruct (J4 Y1) as (J5 & J6).
        splits; auto; [cbn; auto using is_connected|]. unfold conout_bytes in *. rewrite R4. exact Y3.
      * unfold conerr_rel in *. rewrite Eq. cbn [a1 with_err a_conerr] in *. destruct (a_conerr a'); auto. intros O C. destruct (np_open p) eqn:Ep.
        -- right. destruct (C2 Ep C) as (Y1 & Y2 & Y3). destruct J as (_ & _ & _ & J4 & _). rewrite R10 in J4. destruct (J4 Y1) as (J5 & J6).
           splits; auto; [|rewrite R5; exact Y3]. cbn. exists true, p. split; auto using is_connected.
        -- left. cbn. split; [exact O|]. eauto.
      * intros Y. apply (proj1 St2), (proj1 St1), Y.
      * destruct St2 as (_ & St2). destruct St1 as (_ & St1). unfold conerr_rel in *. rewrite Eq in *. cbn [a1 with_err a_conerr] in *. destruct (a_conerr a'); auto.
    + injection H as <-. split; [exact I'|]. unfold closes_ok. splits; try apply St1.
      * cbn. congruence.
      * unfold conerr_rel. cbn. rewrite Eq. intros O C. left. cbn. split; [exact O|]. eauto.
  - apply bind_Ok in H. destruct H as (u1 & H1 & H). apply bind_Ok in H. destruct H as (u2 & H2 & H). injection H as <-.
    destruct (a_child a) eqn:Ech; [discriminate|]. destruct (a_closing a) eqn:Ecl; [discriminate|]. clear H1 H2. destruct cr.
    + split.
      * unfold inv. cbn. splits; auto; try congruence.
        -- intros _. apply in_or_app. right. now left.
        -- intros C. destruct (I6 C) as [Z|(Z1 & Z2 & Z3)]; [left; apply in_or_app; auto|congruence].
      * unfold closes_ok. splits; cbn; try congruence; unfold conerr_rel; cbn; destruct (a_conerr a); auto; congruence.
    + split; [apply (inv_outop es _ a a); auto using outop_refl|apply outop_closes, outop_refl].
  - apply bind_Ok in H. destruct H as (a1 & H1 & H2). destruct (term_ops_spec _ _ _ I1 H1) as (t' & T1 & S1 & O1 & T2 & _).
    destruct (eterm_ops_spec _ _ _ S1 H2) as (S2 & O2 & T3 & _). destruct (tops_frame _ _ _ T1) as (_ & Fp & Fm).
    assert (O : outop a a') by (eapply outop_trans; eauto). split; [|now apply outop_closes].
    apply (inv_outop es _ a a'); auto; rewrite T3, T2; auto.
  - unfold sendDsr in H. destruct (negb (a_plain a) && np_open (a_conout a)).
    + assert (Nt : SrcDsr <> SrcTerm) by discriminate. destruct (write_out_spec _ _ _ _ I1 Nt H) as (S & O & T & _). split; [|now apply outop_closes].
      apply (inv_outop es _ a a'); auto; now rewrite T.
    + injection H as <-. split; [apply (inv_outop es _ a a); auto using outop_refl|apply outop_closes, outop_refl].
  - injection H as <-. split.
    + unfold inv. cbn. splits; auto.
      * intros C. destruct (I4 C). split; auto using shutting_down_app.
      * intros C. apply in_or_app; auto.
      * intros _. left. apply in_or_app. right. now left.
    + unfold closes_ok. splits; cbn; try congruence; unfold conerr_rel; cbn; destruct (a_conerr a); auto; congruence.
Qed.

Lemma arun_app es1 es2 a : arun (es1 ++ es2) a = bind (arun es1 a) (arun es2).
Proof. revert a; induction es1 as [|e es1 IH]; intros a; cbn [app arun bind]; [reflexivity|]. destruct (astep a e); cbn [bind]; auto. Qed.
Lemma arun_snoc es e a a2 : arun (es ++ [e]) a = Ok a2 -> exists a1, arun es a = Ok a1 /\ astep a1 e = Ok a2.
Proof.
  rewrite arun_app. intros H. apply bind_Ok in H. destruct H as (a1 & H1 & H2). exists a1. split; [exact H1|]. cbn [arun] in H2.
  apply bind_Ok in H2. destruct H2 as (a3 & H2 & H3). congruence.
Qed.
Lemma fresh_pok c : pok (fresh_pipe c false true) [].
Proof. unfold pok. destruct (fresh_inv c false true). splits; auto using fresh_wf. destruct c; reflexivity. Qed.
Lemma init_inv pl uc ce c1 c2 : inv [] (ainit pl uc ce c1 c2).
Proof.
  unfold inv, ainit, st. cbn. splits; auto using fresh_pok; try discriminate. destruct ce; auto using fresh_pok.
Qed.
Lemma run_inv pl uc ce c1 c2 es a : Forall scraper_only es -> arun es (ainit pl uc ce c1 c2) = Ok a -> inv es a.
Proof.
  revert a; induction es as [|e es IH] using rev_ind; intros a F H; [injection H as <-; apply init_inv|].
  apply Forall_app in F as (F1 & F2). apply Forall_inv in F2. destruct (arun_snoc _ _ _ _ H) as (a1 & H1 & H2).
  exact (proj1 (step_ok _ _ _ _ (IH _ F1 H1) F2 H2)).
Qed.

Theorem conout_close pl uc ce c1 c2 es e a a' : Forall scraper_only (es ++ [e]) -> arun es (ainit pl uc ce c1 c2) = Ok a -> astep a e = Ok a' ->
  closes_ok es e a a'.
Proof.
  intros F H1 H2. apply Forall_app in F as (F1 & F2). apply Forall_inv in F2. exact (proj2 (step_ok _ _ _ _ (run_inv _ _ _ _ _ _ _ F1 H1) F2 H2)).
Qed.

Lemma not_shutting es x : ~ auto_started es -> ~ shutting_down es x.
Proof. intros H (e1 & e2 & i & e3 & -> & _). apply H. exists x. apply in_or_app. right. now left. Qed.
Theorem no_flag pl uc ce c1 c2 es a : Forall scraper_only es -> arun es (ainit pl uc ce c1 c2) = Ok a -> ~ auto_started es ->
  (np_open (a_conout a) = false -> exists es1 s k es2 a1, es = es1 ++ AOutIo s k :: es2 /\ arun es1 (ainit pl uc ce c1 c2) = Ok a1 /\ io_closes s (a_conout a1)) /\
  (forall q, a_conerr a = Some q -> np_open q = false ->
     exists es1 s k es2 a1 q1, es = es1 ++ AErrIo s k :: es2 /\ arun es1 (ainit pl uc ce c1 c2) = Ok a1 /\ a_conerr a1 = Some q1 /\ io_closes s q1).
Proof.
  revert a; induction es as [|e es IH] using rev_ind; intros a F H N.
  { injection H as <-. split; [cbn; destruct c1; discriminate|]. intros q. cbn. destruct ce; [|discriminate]. intros [= <-]. destruct c2; discriminate. }
  destruct (arun_snoc _ _ _ _ H) as (a1 & H1 & H2). pose proof (conout_close _ _ _ _ _ _ _ _ _ F H1 H2) as (C1 & C2 & C3 & C4).
  apply Forall_app in F as (F1 & _). assert (N1 : ~ auto_started es) by (intros (x & Hx); apply N; exists x; apply in_or_app; now left).
  destruct (IH _ F1 H1 N1) as (IH1 & IH2). split.
  - intros O. destruct (np_open (a_conout a1)) eqn:E1.
    + destruct (C1 eq_refl O) as [X|(X & _)]; [|exact (False_ind _ (not_shutting _ _ N X))]. destruct e; cbn in X; try contradiction. exists es, s, k, [], a1. splits; [reflexivity|exact H1|exact X].
    + destruct (IH1 eq_refl) as (es1 & s & k & es2 & a2 & -> & X). exists es1, s, k, (es2 ++ [e]), a2. split; [now rewrite <- app_assoc|exact X].
  - intros q Eq O. unfold conerr_rel in *. rewrite Eq in *. destruct (a_conerr a1) as [q1|] eqn:E1; [|contradiction]. destruct (np_open q1) eqn:E2.
    + destruct (C2 eq_refl O) as [X|(X & _)]; [|exact (False_ind _ (not_shutting _ _ N X))]. destruct e; cbn in X; try contradiction. exists es, s, k, [], a1, q1. splits; [reflexivity|exact H1|exact E1|exact X].
    + destruct (IH2 q1 eq_refl E2) as (es1 & s & k & es2 & a2 & q2 & -> & X). exists es1, s, k, (es2 ++ [e]), a2, q2. split; [now rewrite <- app_assoc|exact X].
Qed.

Theorem exits pl uc ce c1 c2 es a : Forall scraper_only es -> arun es (ainit pl uc ce c1 c2) = Ok a -> a_exiting a = true ->
  In AControlLost es \/ (shutting_down es true /\ np_open (a_conout a) = false /\ (forall q, a_conerr a = Some q -> np_open q = false)).
Proof.
  intros F H X. destruct (run_inv _ _ _ _ _ _ _ F H) as (_ & _ & _ & I4 & _ & I6). destruct (I6 X) as [Y|(Y1 & Y2 & Y3 & Y4)]; [now left|right].
  destruct (I4 Y1) as (Z & _). rewrite Y2 in Z. splits; auto. intros q Eq. now rewrite Eq in Y4.
Qed.

(** *** The final scrape *)
Theorem poll_scrapes pl uc ce c1 c2 es a i a' : Forall scraper_only es -> arun es (ainit pl uc ce c1 c2) = Ok a -> astep a (APoll i) = Ok a' -> a_closing a = false ->
  poll_scrape i a a' /\ a_closing a' = poll_closing i a.
Proof.
  intros F H H2 C. destruct (run_inv _ _ _ _ _ _ _ F H) as (I1 & _). destruct (poll_spec _ _ _ I1 H2) as (_ & _ & P2 & _ & _ & _ & _ & _ & _ & _ & _ & _ & _ & P & _).
  rewrite C in P. auto.
Qed.
Lemma quiet_nothing i a a' : t_mouse (a_term a) = false -> poll_quiet i a a' -> a_term a' = a_term a /\ conout_bytes a' = conout_bytes a.
Proof.
  intros M (Q1 & Q2 & _). assert (E : a_term a' = a_term a) by (rewrite Q1; unfold enableMouseMode; now rewrite M). split; [exact E|].
  rewrite Q2, E. unfold new_output. rewrite zskipn_all by lia. apply app_nil_r.
Qed.
Theorem poll_quiets pl uc ce c1 c2 es a i a' : Forall scraper_only es -> arun es (ainit pl uc ce c1 c2) = Ok a -> astep a (APoll i) = Ok a' -> a_closing a = true ->
  conout_bytes a' = conout_bytes a /\ a_err a' = a_err a.
Proof.
  intros F H H2 C. destruct (run_inv _ _ _ _ _ _ _ F H) as (I1 & _ & _ & I4 & _). destruct (poll_spec _ _ _ I1 H2) as (_ & _ & _ & _ & _ & _ & _ & _ & _ & _ & _ & _ & _ & P & _).
  rewrite C in P. split; [|apply P]. exact (proj2 (quiet_nothing _ _ _ (proj2 (I4 C)) P)).
Qed.

(** *** Shutdown makes progress *)
Lemma service_connected s p b q : wf p -> sv_conn s = ConnDone -> serviceIo s p = Ok (b, q) -> np_connecting q = false.
Proof.
  intros W Hc H. unfold serviceIo in H. destruct (np_open p) eqn:Eo; cbn [negb] in H; [|injection H as _ <-; now apply W].
  apply bind_Ok in H. destruct H as ((just & p1) & H1 & H).
  assert (C1 : np_connecting p1 = false) by (destruct (np_connecting p) eqn:Ec; [rewrite Hc in H1; injection H1 as _ <-; reflexivity|injection H1 as _ <-; exact Ec]).
  assert (K1 : pend_ok (np_out p1) = true).
  { destruct (np_connecting p) eqn:Ec; [rewrite Hc in H1|]; injection H1 as _ <-; [|apply W]. destruct (proj1 W Ec) as (_ & Eo2). unfold startPipeWorkers. cbn [np_out]. rewrite Eo2. destruct (np_writing p); reflexivity. }
  apply bind_Ok in H. destruct H as ((rp & p2) & H2 & H).
  assert (C2 : np_connecting p2 = false /\ pend_ok (np_out p2) = true).
  { destruct (np_in p1) as [w|] eqn:Ew; [|injection H2 as _ <-; auto]. destruct (in_service_frame _ _ _ _ _ Ew H2) as (_ & F & _ & _ & _ & F2 & _). rewrite F, F2. auto. }
  destruct C2 as (C2 & K2). apply bind_Ok in H. destruct H as ((wp & p3) & H3 & H).
  assert (C3 : np_connecting p3 = false).
  { destruct (np_out p2) as [w|] eqn:Ew; [|injection H3 as _ <-; auto]. destruct (out_service_spec _ _ _ _ _ Ew ltac:(rewrite Ew; exact K2) H3) as ((_ & F & _) & _). congruence. }
  destruct (_ || _); injection H as _ <-; [|exact C3]. unfold closePipe. destruct (np_open p3); cbn; auto.
Qed.

Definition drained (a : agent) : Prop := np_open (a_conout a) = true -> np_connecting (a_conout a) = false /\ unsent (a_conout a) <= 0.
Lemma service_frame s k a a' : astep a (AOutIo s k) = Ok a' -> st a -> conout_bytes a' = conout_bytes a /\ a_closing a' = a_closing a /\ a_exitAfter a' = a_exitAfter a /\ a_title a' = a_title a /\ segments SrcTitle a' = segments SrcTitle a /\ a_plain a' = a_plain a.
Proof.
  cbn [astep]. intros H I1. apply bind_Ok in H. destruct H as ((did & p) & Hv & H). cbv zeta in H. set (a1 := with_out a p []) in *.
  assert (S1 : st a1).
  { destruct I1 as (A1 & A2 & A3 & A4). unfold st, a1. rewrite conout_bytes_app, segments_app. cbn. rewrite !app_nil_r. splits; auto. eapply pok_service; eauto. }
  assert (Hcb : conout_bytes a1 = conout_bytes a /\ segments SrcTitle a1 = segments SrcTitle a) by (unfold a1; rewrite conout_bytes_app, segments_app; cbn; rewrite !app_nil_r; auto).
  destruct Hcb as (Hcb & Hsg). destruct did; [|injection H as <-; auto 8].
  destruct (auto_spec _ _ _ S1 H) as (_ & (R1 & R2 & R3 & R4 & R5 & R6 & R7 & R8 & R9 & R10) & _). unfold conout_bytes, segments in *. rewrite R3, R4, R6, R9, R10. auto 8.
Qed.
Lemma drain_one es s k a a' : inv es a -> a_closing a = true -> draining s -> astep a (AOutIo s k) = Ok a' ->
  np_open (a_conout a') = true -> np_open (a_conout a) = true /\ np_connecting (a_conout a') = false /\ unsent (a_conout a') <= Z.max 0 (unsent (a_conout a) - 1).
Proof.
  intros I C D H O. destruct (step_ok _ (AOutIo s k) _ _ I Logic.I H) as (I' & (_ & _ & St & _)).
  assert (Oa : np_open (a_conout a) = true) by (destruct (np_open (a_conout a)); auto; rewrite St in O by reflexivity; discriminate).
  split; [exact Oa|]. destruct I as (((W & _ & _ & Wr) & _) & _). cbn [astep] in H. apply bind_Ok in H. destruct H as ((did & p) & Hv & H). cbv zeta in H.
  destruct (draining_step _ _ _ _ W Oa Wr D Hv) as (D1 & D2 & D3 & D4 & D5). pose proof (service_connected _ _ _ _ W (proj2 (proj2 (proj2 (proj2 D)))) Hv) as Dc.
  destruct did; [|injection H as <-; split; [exact Dc|exact D4]]. unfold autoClosePipesForShutdown in H. cbn [with_out a_closing a_conout] in H. rewrite C in H.
  apply bind_Ok in H. destruct H as (q & Hq & H). apply bind_Ok in H. destruct H as (a2 & H2 & H). injection H as <-.
  assert (Eq : a_conout a2 = q). { cbn in H2. destruct (a_conerr a); [|injection H2 as <-; reflexivity]. apply bind_Ok in H2. destruct H2 as (q2 & _ & E2). injection E2 as <-. reflexivity. }
  assert (Ea : forall x : bool, a_conout (if x then with_exiting a2 else a2) = q) by (intros []; exact Eq). rewrite Ea in *.
  assert (q = p). { unfold autoClose1, isConnected in Hq. rewrite D1, Dc in Hq. cbn in Hq. apply bind_Ok in Hq. destruct Hq as (n & _ & E). injection E as <-. destruct (n =? 0); [|reflexivity]. rewrite close_closes in O. discriminate. }
  rewrite H. split; [exact Dc|exact D4].
Qed.
Lemma drain_many es svcs k a a' : inv es a -> a_closing a = true -> Forall draining svcs -> arun (map (fun s => AOutIo s k) svcs) a = Ok a' ->
  inv (es ++ map (fun s => AOutIo s k) svcs) a' /\ a_closing a' = true /\ a_exitAfter a' = a_exitAfter a /\ conout_bytes a' = conout_bytes a /\
  (np_open (a_conout a') = true -> np_open (a_conout a) = true /\ (svcs <> [] -> np_connecting (a_conout a') = false) /\ unsent (a_conout a') <= Z.max 0 (unsent (a_conout a) - zlen svcs)) /\
  stays a a' /\ (np_open (a_conout a) = true -> np_open (a_conout a') = false -> np_sent (a_conout a') = conout_bytes a).
Proof.
  revert es a; induction svcs as [|s svcs IH]; intros es a I C D H; cbn [map arun] in *.
  - injection H as <-. rewrite app_nil_r. splits; auto; try congruence.
    + intros O. change (zlen (@nil svc)) with 0. splits; auto; [congruence|]. unfold unsent. lia.
    + split; auto. unfold conerr_rel. destruct (a_conerr a); auto.
  - inversion D as [|? ? D1 D2]; subst. apply bind_Ok in H. destruct H as (a1 & H1 & H2).
    destruct (step_ok _ (AOutIo s k) _ _ I Logic.I H1) as (I1 & K1 & K2 & K3 & K4).
    destruct (service_frame _ _ _ _ H1 (proj1 I)) as (F1 & F2 & F3 & _). rewrite C in F2.
    destruct (IH _ _ I1 F2 D2 H2) as (J1 & J2 & J3 & J4 & J5 & (J6 & J6') & J7). rewrite <- app_assoc in J1. cbn [app] in J1.
    splits; auto; try congruence.
    + intros O. destruct (J5 O) as (O1 & O2 & O3). destruct (drain_one _ _ _ _ _ I C D1 H1 O1) as (P1 & P2 & P3). splits; auto.
      * intros _. destruct svcs; [|apply O2; discriminate]. cbn in H2. injection H2 as <-. exact P2.
      * rewrite zlen_cons. pose proof (zlen_nonneg svcs). lia.
    + split; [auto|]. unfold conerr_rel in *. destruct (a_conerr a), (a_conerr a1), (a_conerr a'); auto; contradiction.
    + intros O O2. destruct (np_open (a_conout a1)) eqn:E1; [rewrite <- F1; auto|]. destruct (K1 O eq_refl) as [(_ & b & q & X1 & X2)|(_ & _ & X & _)].
      * exfalso. destruct I as (((W & _ & _ & Wr) & _) & _). destruct (draining_step _ _ _ _ W O Wr D1 X1) as (Y & _). congruence.
      * assert (E : np_sent (a_conout a') = np_sent (a_conout a1)).
        { clear - H2 E1. revert a1 H2 E1. induction svcs as [|s2 svcs IHs]; intros a1 H2 E1; cbn [map arun] in H2; [injection H2 as <-; reflexivity|].
          apply bind_Ok in H2. destruct H2 as (a2 & H3 & H4).
          assert (E2 : a_conout a2 = a_conout a1).
          { cbn [astep] in H3. apply bind_Ok in H3. destruct H3 as ((did & p) & Hv & H3). pose proof (service_closed _ _ _ _ E1 Hv) as ->.
            cbv zeta in H3. destruct did; [|injection H3 as <-; reflexivity]. unfold autoClosePipesForShutdown in H3. destruct (a_closing _); [|injection H3 as <-; reflexivity].
            cbn [with_out a_conout] in H3. unfold autoClose1 at 1 in H3. unfold isConnected in H3 at 1. rewrite E1 in H3. cbn [andb bind] in H3. cbn [a_conerr] in H3.
            apply bind_Ok in H3. destruct H3 as (a3 & H5 & H6). injection H6 as <-.
            assert (Eq : a_conout a3 = a_conout a1). { cbn in H5. destruct (a_conerr a1); [|injection H5 as <-; reflexivity]. apply bind_Ok in H5. destruct H5 as (q2 & _ & E2). injection E2 as <-. reflexivity. }
            match goal with |- a_conout (if ?x then _ else _) = _ => destruct x end; exact Eq. }
          rewrite (IHs a2 H4) by congruence. now rewrite E2. }
        congruence.
Qed.
Lemma unsent_sent p wr : pok p wr -> np_open p = true -> unsent p <= 0 -> np_sent p = wr.
Proof.
  intros (_ & O & _) Ho U. unfold out_inv in O. rewrite Ho in O. unfold unsent in U.
  pose proof (zlen_nonneg (inflight p)); pose proof (zlen_nonneg (np_outq p)). rewrite <- O, (zlen_0_nil (inflight p)), (zlen_0_nil (np_outq p)) by lia. now rewrite !app_nil_r.
Qed.
Theorem closes_eventually pl uc ce c1 c2 es a svcs k i a' : Forall scraper_only es -> arun es (ainit pl uc ce c1 c2) = Ok a -> a_closing a = true -> np_open (a_conout a) = true ->
  Forall draining svcs -> zlen (conout_bytes a) < zlen svcs -> arun (map (fun s => AOutIo s k) svcs ++ [APoll i]) a = Ok a' ->
  np_open (a_conout a') = false /\ np_sent (a_conout a') = conout_bytes a /\
  (a_exitAfter a = true -> oopen (a_conerr a) = false -> a_exiting a' = true).
Proof.
  intros F H C O D L H2. pose proof (run_inv _ _ _ _ _ _ _ F H) as I. destruct (arun_snoc _ _ _ _ H2) as (a1 & R & P).
  destruct (drain_many _ _ _ _ _ I C D R) as (J1 & J2 & J3 & J4 & J5 & J6 & J7). cbn [astep] in P.
  pose proof J1 as (S1 & _ & _ & I4 & _). destruct (poll_spec _ _ _ S1 P) as (_ & _ & _ & _ & _ & _ & C1 & _ & C3 & C4 & _ & C5 & C6 & Q & _).
  assert (Epc : poll_closing i a1 = true) by (unfold poll_closing; now rewrite J2).
  rewrite J2 in Q. pose proof (proj2 (quiet_nothing _ _ _ (proj2 (I4 J2)) Q)) as Eb.
  assert (Hcl : np_open (a_conout a') = false /\ np_sent (a_conout a') = conout_bytes a).
  { destruct (np_open (a_conout a1)) eqn:E1.
    - destruct (J5 eq_refl) as (_ & X1 & X2). assert (Hn : svcs <> []) by (intros ->; rewrite zlen_nil in L; pose proof (zlen_nonneg (conout_bytes a)); lia).
      assert (U : unsent (a_conout a) <= zlen (conout_bytes a)).
      { destruct I as (((_ & Oi & _) & _) & _). unfold out_inv in Oi. rewrite O in Oi. rewrite <- Oi, !zlen_app. unfold unsent. pose proof (zlen_nonneg (np_sent (a_conout a))). lia. }
      assert (Hs : np_sent (a_conout a1) = conout_bytes a1) by (apply unsent_sent; auto; [apply S1|lia]).
      assert (Hc : np_open (a_conout a') = false) by (apply C5; auto; congruence). split; [exact Hc|]. destruct (C1 E1 Hc) as (_ & _ & X). congruence.
    - pose proof (C3 eq_refl) as Hc. split; [exact Hc|]. rewrite <- (J7 O eq_refl). clear - P E1 S1.
      assert (Hx : forall x y, st x -> onPollTimeout i x = Ok y -> np_open (a_conout x) = false -> np_sent (a_conout y) = np_sent (a_conout x)).
      { intros x y Sx Hxy Ox. unfold onPollTimeout in Hxy. cbv zeta in Hxy.
        match type of Hxy with context [if negb (a_closing x) then _ else Ok ?z] => set (x0 := z) in * end.
        assert (S0 : st x0 /\ a_conout x0 = a_conout x) by (unfold x0; destruct (a_auto x && a_child x && pi_exited i); split; auto; exact Sx). clearbody x0. destruct S0 as (S0 & E0). rewrite <- E0 in *. clear E0.
        apply bind_Ok in Hxy. destruct Hxy as (x1 & H1 & Hxy). apply bind_Ok in Hxy. destruct Hxy as (x2 & H2 & H3).
        assert (O1 : st x1 /\ outop x0 x1).
        { destruct (negb (a_closing x)); [|injection H1 as <-; auto using outop_refl]. apply bind_Ok in H1. destruct H1 as (y1 & T1 & H1). apply bind_Ok in H1. destruct H1 as (y2 & T2 & T3).
          destruct (title_spec _ _ _ S0 T1) as (B1 & B2 & _). destruct (term_ops_spec _ _ _ B1 T2) as (t1 & _ & D1 & D2 & _). destruct (eterm_ops_spec _ _ _ D1 T3) as (G1 & G2 & _).
          split; auto. eapply outop_trans; [exact B2|]. eapply outop_trans; eauto. }
        destruct O1 as (S2 & O1). destruct (term_ops_spec _ _ _ S2 H2) as (t1 & _ & S3 & O2 & _). pose proof (outop_trans _ _ _ O1 O2) as (_ & Oo & _ & Os & _).
        destruct (auto_spec _ _ _ S3 H3) as (_ & _ & _ & _ & Y & _). rewrite Y by congruence. exact Os. }
      exact (Hx _ _ S1 P E1). }
  destruct Hcl as (Hc1 & Hc2). splits; auto. intros X1 X2. apply C6; auto; [congruence|]. split; auto.
  destruct J6 as (_ & J6). unfold conerr_rel in *. destruct (a_conerr a), (a_conerr a1), (a_conerr a'); cbn in *; try contradiction; auto.
Qed.
