(** Mouse reports (C13). *)
From Verif Require Import Base BaseLemmas Text Unicode UnicodeSpec UnicodeProofs InputMap InputMapSpec InputMapProofs
  DefaultInputMap DefaultInputMapSpec DefaultInputMapProofs ConsoleInput ConsoleInputSpec ConsoleInputMouseSpec ConsoleInputKeysSpec ConsoleInputScan ConsoleInputToken ConsoleInputRun ConsoleInputProofs ConsoleInputDsr ConsoleInputKeys.
Ltac Zify.zify_post_hook ::= Z.div_mod_to_equations.
Ltac splits := repeat match goal with |- _ /\ _ => split end.

Lemma digits_bytes d : digits d -> bytes d.
Proof. intros (_ & F). eapply Forall_impl; [|exact F]. cbn. lia. Qed.
Lemma signed_bytes s v : signed_num s v -> bytes s.
Proof. intros [d D|d D]; [now apply digits_bytes|]. apply bytes_cons. split; [lia|now apply digits_bytes]. Qed.
Lemma mouse_bytes s r : mouse_seq s r -> bytes s.
Proof.
  assert (L : forall l, forallb (fun b => (0 <=? b) && (b <? 256)) l = true -> bytes l).
  { intros l H. apply Forall_forall. intros x Hx. rewrite forallb_forall in H. specialize (H _ Hx). lia. }
  intros [f x vx y vy c Df Dx Dy Hc|f x vx y vy Df Dx Dy|f x y Hb].
  - pose proof (digits_bytes _ Df). pose proof (signed_bytes _ _ Dx). pose proof (signed_bytes _ _ Dy). repeat (apply bytes_app; split; auto). repeat constructor; lia.
  - pose proof (digits_bytes _ Df). pose proof (signed_bytes _ _ Dx). pose proof (signed_bytes _ _ Dy). repeat (apply bytes_app; split; auto).
  - inversion Hb as [|? ? H1 Hb1]; subst. inversion Hb1 as [|? ? H2 Hb2]; subst. inversion Hb2; subst. repeat constructor; lia.
Qed.

Section E.
Variable e : env.
Hypothesis EO : env_ok e.
Let dok := dig_ok e EO.
Lemma mouse_not_dsr s r Q : mouse_seq s r -> matchDsr e (s ++ Q) = Fail.
Proof.
  unfold matchDsr. change (ch "[") with 91. change (ch ";") with 59. change (ch "R") with 82.
  intros [f x vx y vy c Df Dx Dy Hc|f x vx y vy Df Dx Dy|f x y Hb].
  - cbn [app]. rewrite !checkAdv_all. cbn [pbind]. rewrite checkAdv_all. cbn [pbind]. reflexivity.
  - destruct (digits_head _ Df) as (f0 & ft & Hf & Hd). rewrite <- !app_assoc. cbn [app]. rewrite checkAdv_all. cbn [pbind]. rewrite adv_app by eauto. cbn [pbind].
    rewrite (scan_int_all e dok) by (auto; lia). cbn [pbind]. rewrite adv_app by (eapply signed_head; eauto). cbn [pbind].
    destruct Dx as [d D|d D].
    + rewrite (scan_int_all e dok) by (auto; lia). reflexivity.
    + unfold scan_int. cbn [app pcheck]. unfold cdigit. change (45 <? 128) with true. reflexivity.
  - reflexivity.
Qed.
Lemma mouse_class s r Q : mouse_seq s r -> bytes Q -> classify e (s ++ Q) false = CTok (zlen s) (TMouse r).
Proof.
  intros M HQ. destruct (mouse_complete e EO s r M) as (x & Hx).
  assert (exists t, s ++ Q = 27 :: t) as (t & Ht) by (destruct M; cbn; eauto).
  rewrite (classify_cons e _ 27 t false Ht). change (27 =? 3) with false. change (27 =? 27) with true. cbn [andb]. rewrite (mouse_not_dsr s r Q M). rewrite Hx.
  f_equal. unfold mlen. rewrite zlen_app, zlen_cons. lia.
Qed.
End E.

(** *** Position, buttons, flags *)
Lemma land3 n : Z.land n 3 = n mod 4.
Proof. change 3 with (Z.ones 2). rewrite Z.land_ones by lia. reflexivity. Qed.
Lemma s16_small x : -32768 <= x <= 32767 -> s16 x = x.
Proof. intros H. apply wraps_small; [lia|]. change (2 ^ (16 - 1)) with 32768. lia. Qed.
Lemma clamp_in lo hi w m : -32768 <= lo <= hi -> hi <= 32767 -> hi - lo < 32767 -> w = s16 (hi - lo + 1) -> lo <= s16 (lo + Z.max 0 (Z.min m (w - 1))) <= hi.
Proof. intros H1 H2 H3 ->. rewrite (s16_small (hi - lo + 1)) by lia. rewrite s16_small by lia. lia. Qed.

Lemma lor_bit n k : 0 <= k -> Z.land n (2 ^ k) <> 0 -> Z.lor n (2 ^ k) = n.
Proof.
  intros Hk H. apply Z.bits_inj'. intros m Hm. rewrite Z.lor_spec. destruct (Z.eq_dec m k) as [->|N].
  - rewrite Z.pow2_bits_true by lia. rewrite orb_true_r. symmetry. destruct (Z.testbit n k) eqn:E; auto. exfalso. apply H. apply Z.bits_inj'. intros q Hq. rewrite Z.land_spec, Z.bits_0, Z.pow2_bits_eqb by lia. destruct (Z.eqb_spec k q); subst; [now rewrite E|apply andb_false_r].
  - rewrite Z.pow2_bits_false by lia. apply orb_false_r.
Qed.
Lemma lor_held n f : (f = 1 \/ f = 2 \/ f = 4) -> (Z.land n f =? 0) = false -> Z.lor n f = n.
Proof. intros Hf H. apply Z.eqb_neq in H. destruct Hf as [->|[->| ->]]; [apply (lor_bit n 0)|apply (lor_bit n 1)|apply (lor_bit n 2)]; auto; lia. Qed.
Lemma set_same c : set_mstate (c_buttons c) (c_dc c) (c_clock c) c = c.
Proof. now destruct c. Qed.
(** What one report does, all cases *)
Lemma mouseEv_cases e r c : let c' := mouseEv e r c in
  let b' := if is_wheel r then c_buttons c else if button_of r =? 3 then 0
            else if mr_release r then Z.ldiff (c_buttons c) (button_bit (button_of r)) else Z.lor (c_buttons c) (button_bit (button_of r)) in
  let x := s16 (c_left c + Z.max 0 (Z.min (mr_x r) (rect_width c - 1))) in
  let y := s16 (c_top c + Z.max 0 (Z.min (mr_y r) (rect_height c - 1))) in
  let k := Z.lor (Z.lor (if has (mr_flags r) 4 then SHIFT_PRESSED else 0) (if has (mr_flags r) 8 then LEFT_ALT_PRESSED else 0)) (if has (mr_flags r) 16 then LEFT_CTRL_PRESSED else 0) in
  let dbl := new_press c r && ((dc_button (c_dc c) =? button_bit (button_of r)) && (dc_x (c_dc c) =? mr_x r) && (dc_y (c_dc c) =? mr_y r)) && (u32 (hd 0 (c_clock c) - dc_tick (c_dc c)) <? e_dcTime e) in
  let f := if is_wheel r then MOUSE_WHEELED else Z.lor (if has (mr_flags r) 0x20 then MOUSE_MOVED else 0) (if dbl then DOUBLE_CLICK else 0) in
  let bs := if is_wheel r then (if button_of r =? 0 then 0x00780000 else 0xff880000) else 0 in
  c_buttons c' = b' /\
  c' = (if (c_mouse c && negb (c_quick c)) && negb (is_wheel r && (2 <=? button_of r)) then push (MouseRec x y (Z.lor bs b') k f) else (fun c => c)) (set_mstate b' (c_dc c') (c_clock c') c) /\
  (c_dc c', c_clock c') =
    (if new_press c r then
       if (dc_button (c_dc c) =? button_bit (button_of r)) && (dc_x (c_dc c) =? mr_x r) && (dc_y (c_dc c) =? mr_y r) then
         if dbl then (dc0, tl (c_clock c))
         else (mkDc (button_bit (button_of r)) (mr_x r) (mr_y r) (hd 0 (tl (c_clock c))) (dc_released (c_dc c)), tl (tl (c_clock c)))
       else (mkDc (button_bit (button_of r)) (mr_x r) (mr_y r) (hd 0 (c_clock c)) (dc_released (c_dc c)), tl (c_clock c))
     else if is_wheel r || (negb (mr_release r) && negb (button_of r =? 3)) then (c_dc c, c_clock c)
     else if (button_of r =? 3) || (button_bit (button_of r) =? dc_button (c_dc c)) then (mkDc (dc_button (c_dc c)) (dc_x (c_dc c)) (dc_y (c_dc c)) (dc_tick (c_dc c)) true, c_clock c)
     else (dc0, c_clock c)).
Proof.
  cbv zeta. unfold new_press, is_wheel, button_of. rewrite <- land3. unfold mouseEv, mouseEvent, tick, FROM_LEFT_1ST_BUTTON_PRESSED, FROM_LEFT_2ND_BUTTON_PRESSED, RIGHTMOST_BUTTON_PRESSED.
  assert (NL : forall f, negb (has (c_buttons c) f) = (Z.land (c_buttons c) f =? 0)) by (intros; unfold has; apply negb_involutive). rewrite NL.
  destruct (button_cases (mr_flags r)) as [H|[H|[H|H]]]; rewrite H; unfold button_bit; cbn [Z.eqb Pos.eqb assert_ bind negb Z.leb Z.compare Pos.compare Pos.compare_cont];
    cbn [c_left c_right c_top c_bottom c_buttons c_dc c_clock c_mouse c_quick set_mstate];
    destruct (has (mr_flags r) 64); cbn [negb andb orb];
    destruct (mr_release r); cbn [negb andb orb];
    try match goal with |- context [Z.land ?a ?b =? 0] => destruct (Z.land a b =? 0) eqn:? end; cbn [negb andb orb];
    try match goal with |- context [(dc_button (c_dc c) =? ?b) && ?y && ?z] => destruct ((dc_button (c_dc c) =? b) && y && z) eqn:? end; cbn [negb andb orb];
    try match goal with |- context [if ?a <? ?b then _ else _] => destruct (a <? b) eqn:? end; cbn [negb andb orb];
    try match goal with |- context [?a =? dc_button (c_dc c)] => destruct (a =? dc_button (c_dc c)) eqn:? end; cbn [negb andb orb];
    destruct (c_mouse c && negb (c_quick c)); cbn [negb andb orb]; unfold push; cbn [c_buttons c_dc c_clock set_mstate set_out]; try (match goal with H : (Z.land ?a ?b =? 0) = false |- _ => rewrite ?(lor_held a b) by auto end); rewrite ?Z.lor_0_r, ?Z.lor_0_l, ?set_same; splits; try reflexivity; match goal with |- (if ?b then _ else _, _) = _ => destruct b; reflexivity end.
Qed.

Lemma nearest_s16 m lo hi w : -32768 <= lo <= hi -> hi <= 32767 -> hi - lo < 32767 -> w = s16 (hi - lo + 1) ->
  s16 (lo + Z.max 0 (Z.min m (w - 1))) = nearest m lo hi /\ lo <= nearest m lo hi <= hi.
Proof. intros H1 H2 H3 ->. unfold nearest. rewrite (s16_small (hi - lo + 1)) by lia. rewrite s16_small by lia. split; [f_equal; f_equal; f_equal; lia|lia]. Qed.

Theorem mouse_arrives {E} e now s r c : env_ok e -> reachable c -> c_queue c = [] -> rect_ok c -> mouse_seq s r -> zlen s <= 2 ^ 31 - 64 ->
  exists c', @writeInput E e now s c = Ok c' /\ c_queue c' = [] /\ c_buttons c' = buttons_after r (c_buttons c) /\
    (reports c r = false -> received (c_log c') = received (c_log c)) /\
    (reports c r = true -> exists f,
       let x := nearest (mr_x r) (c_left c) (c_right c) in let y := nearest (mr_y r) (c_top c) (c_bottom c) in
       received (c_log c') = received (c_log c) ++ [ORec (MouseRec x y (Z.lor (wheel_delta r) (c_buttons c')) (mouse_keys r) f)] /\
       c_left c <= x <= c_right c /\ c_top c <= y <= c_bottom c /\
       (is_wheel r = true -> f = MOUSE_WHEELED) /\
       (is_wheel r = false -> has f MOUSE_WHEELED = false /\ has f MOUSE_MOVED = has (mr_flags r) 32)).
Proof.
  intros EO R Hq (H1 & H2 & H3 & H4 & H5 & H6) M Hl. pose proof (reachable_inv c R) as I. pose proof (mouse_bytes _ _ M) as Hb.
  assert (Hn : s <> []) by (destruct M; discriminate).
  assert (He : eats e false s [TMouse r] []).
  { apply (eat_tok e false s (zlen s)); auto.
    - pose proof (mouse_class e EO s r [] M (Forall_nil _)) as H. now rewrite app_nil_r in H.
    - rewrite zskipn_all by lia. constructor. }
  destruct (@write_step e EO E now s c I Hb Hl Hn) as (ts1 & rest & c1 & He1 & Hw & Q1 & I1 & C1 & T1 & _).
  rewrite Hq in He1. destruct (eats_det e _ _ _ _ He1 _ _ He) as (-> & ->). cbn [acts act] in C1, T1. exists c1.
  rewrite (told_nil c1) in T1 by apply I1.
  destruct (mouseEv_cases e r c) as (M1 & M2 & _). cbv zeta in M1, M2.
  assert (B1 : c_buttons c1 = buttons_after r (c_buttons c)).
  { unfold buttons_after. rewrite <- M1. unfold core in C1. injection C1. intros. congruence. }
  destruct (nearest_s16 (mr_x r) (c_left c) (c_right c) (rect_width c) H1 H2 H3 eq_refl) as (X1 & X2).
  destruct (nearest_s16 (mr_y r) (c_top c) (c_bottom c) (rect_height c) H4 H5 H6 eq_refl) as (Y1 & Y2).
  rewrite X1, Y1 in M2. fold (buttons_after r (c_buttons c)) in M2. fold (reports c r) in M2.
  match type of M2 with _ = (if _ then push ?rec else _) ?st => set (mrec := rec) in *; set (st0 := st) in * end.
  assert (ST : told st0 = received (c_log c)) by (subst st0; unfold told; cbn [set_mstate c_log c_records]; destruct I as (Hr & _); rewrite Hr; apply app_nil_r).
  splits; auto.
  - intros RP. rewrite T1, M2, RP. exact ST.
  - intros RP. rewrite T1, M2, RP, B1.
    assert (exists f, mrec = MouseRec (nearest (mr_x r) (c_left c) (c_right c)) (nearest (mr_y r) (c_top c) (c_bottom c)) (Z.lor (wheel_delta r) (buttons_after r (c_buttons c))) (mouse_keys r) f /\
       (is_wheel r = true -> f = MOUSE_WHEELED) /\ (is_wheel r = false -> has f MOUSE_WHEELED = false /\ has f MOUSE_MOVED = has (mr_flags r) 32)) as (f & Hf & F1 & F2).
    { subst mrec. eexists. splits.
      - f_equal.
        + f_equal. unfold wheel_delta. unfold reports in RP. destruct (is_wheel r); [|reflexivity]. destruct (button_of r =? 0); reflexivity.
        + unfold mouse_keys. destruct (has (mr_flags r) 4), (has (mr_flags r) 8), (has (mr_flags r) 16); reflexivity.
      - intros ->. reflexivity.
      - intros ->. destruct (has (mr_flags r) 32), (new_press c r && ((dc_button (c_dc c) =? button_bit (button_of r)) && (dc_x (c_dc c) =? mr_x r) && (dc_y (c_dc c) =? mr_y r)) && (u32 (hd 0 (c_clock c) - dc_tick (c_dc c)) <? e_dcTime e)); split; reflexivity. }
    exists f. cbv zeta. splits; auto; try lia. rewrite Hf. unfold told, push. cbn [set_out c_log c_records]. rewrite map_app, app_assoc. unfold told in ST. rewrite ST. reflexivity.
Qed.

(** *** Double clicks *)
Definition dcinv (c : ci) (l : presslog) : Prop :=
  dc_button (c_dc c) = 0 \/ exists ts l', l = (dc_button (c_dc c), dc_x (c_dc c), dc_y (c_dc c), ts) :: l' /\ In (dc_tick (c_dc c)) ts.
Definition mst (c : ci) := (c_buttons c, c_dc c, c_clock c).
Lemma m_app e d v x k c : mst (appendInputRecord e c d v x k) = mst c. Proof. reflexivity. Qed.
Lemma m_out e x c : mst (outch e c x) = mst c. Proof. reflexivity. Qed.
Lemma m_cp e d v cp k c : mst (appendCPInputRecords e c d v cp k) = mst c.
Proof. unfold appendCPInputRecords. destruct (encodeUtf16 cp) as [|a [|b [|q l]]]; reflexivity. Qed.
Lemma m_outs e s : forall c, mst (outs e c s) = mst c.
Proof. induction s as [|x t IH]; intros c; [reflexivity|]. cbn [outs]. rewrite IH. apply m_out. Qed.
Lemma m_ctrl e on d v k c : mst (ctrl_step e c on d v k) = mst c. Proof. now destruct on. Qed.
Lemma m_flush c : mst (flushInputRecords c) = mst c. Proof. unfold flushInputRecords. now destruct (c_records c). Qed.
Lemma m_reenc e vk cp ks c : mst (reencodeEscapedKeyPress e c vk cp ks) = mst c.
Proof.
  unfold reencodeEscapedKeyPress. destruct (escapeCode vk); rewrite ?m_outs; auto.
  destruct (vk =? VK_BACK); [destruct (has ks LEFT_ALT_PRESSED); reflexivity|].
  destruct (vk =? VK_TAB), (has ks SHIFT_PRESSED), (cp =? 0), (has ks LEFT_ALT_PRESSED); rewrite ?m_outs, ?m_cp; reflexivity.
Qed.
Lemma m_key e vk dn up wks cp vks c : mst (appendKeyPress e c vk dn up wks cp vks) = mst c.
Proof.
  unfold appendKeyPress. cbv zeta. set (q := existsb (Z.eqb vk) _). clearbody q.
  match goal with |- mst (if ?b then _ else _) = _ => destruct b end; [exact (m_flush c)|].
  rewrite !m_ctrl, m_cp. match goal with |- mst (if ?b then _ else _) = _ => destruct b end; rewrite ?m_reenc, ?m_cp, !m_ctrl; reflexivity.
Qed.
Lemma act_mst e t c : match t with TMouse _ => True | _ => mst (act e t c) = mst c end.
Proof. destruct t; auto; cbn [act]; try reflexivity; [exact (m_flush c)| |]; apply m_key. Qed.

Lemma history_acts e ts : forall c l, mouse_history c l -> exists l', mouse_history (acts e ts c) l'.
Proof.
  induction ts as [|t ts IH]; intros c l H; [eauto|]. cbn [acts].
  eapply IH. eapply mh_tok; [exact H|]. apply applyTok_act.
Qed.
Lemma core_mst c c' : core c = core c' -> mst c = mst c'.
Proof. unfold core, mst. intros H. injection H. intros. congruence. Qed.
Theorem reachable_history c : reachable c -> exists l, mouse_history c l.
Proof.
  induction 1 as [e clock EO|e o c c' EO OK R (l & IH) Hr]; [exists []; constructor|].
  pose proof (reachable_inv c R) as I. destruct OK as (Hb & Hl). destruct o as [now data|now|l0 t r b]; cbn [run_op op_data] in *.
  - destruct data as [|x d]; [exists l; cbn in Hr; now injection Hr as <-|].
    destruct (@write_step e EO unit now (x :: d) c I Hb Hl ltac:(discriminate)) as (ts & rest & c1 & _ & Hw & _ & _ & C1 & _).
    assert (c1 = c') by congruence. subst c1. destruct (history_acts e ts c l IH) as (l' & H'). exists l'. eapply mh_other; [exact H'|]. apply (core_mst _ _ C1).
  - pose proof (poll_flags e c I) as I2. assert (IH2 : mouse_history (updateInputFlags e c) l) by (eapply mh_other; [exact IH|reflexivity]).
    destruct (@poll_step e EO unit now (updateInputFlags e c) I2) as (P1 & P2).
    destruct (list_eq_dec Z.eq_dec (c_queue (updateInputFlags e c)) []) as [Hq|Hq]; [rewrite P1 in Hr by auto; injection Hr as <-; eauto|].
    destruct (Z_le_gt_dec ((now - c_lastWrite (updateInputFlags e c)) mod 2 ^ 32) 1000) as [Hle|Hgt]; [rewrite P1 in Hr by auto; injection Hr as <-; eauto|].
    destruct P2 as (ts & rest & c1 & _ & Hw & _ & _ & C1 & _); [split; [exact Hq|lia]|]. assert (c1 = c') by congruence. subst c1.
    destruct (history_acts e ts _ l IH2) as (l' & H'). exists l'. eapply mh_other; [exact H'|]. apply (core_mst _ _ C1).
  - injection Hr as <-. exists l. eapply mh_other; [exact IH|reflexivity].
Qed.
Lemma bit_nonzero b : button_bit b <> 0.
Proof. unfold button_bit. destruct (b =? 0); [discriminate|]. destruct (b =? 1); discriminate. Qed.
Lemma history_dc c l : mouse_history c l -> dcinv c l.
Proof.
  induction 1 as [e clock|e t c c' l H IH Ha|c c' l H IH Hm]; [now left| |].
  - rewrite applyTok_act in Ha. assert (c' = act e t c) by congruence. subst c'. pose proof (act_mst e t c) as A. unfold dcinv in *.
    destruct t as [| |r|k|cp alt|]; try (apply (f_equal (fun z => snd (fst z))) in A; unfold mst in A; cbn [fst snd] in A; rewrite A; exact IH). clear A Ha. cbn [act].
    destruct (mouseEv_cases e r c) as (_ & _ & D). cbv zeta in D.
    set (dd := c_dc (mouseEv e r c)) in *. set (kk := c_clock (mouseEv e r c)) in *. clearbody dd kk.
    destruct (new_press c r).
    + cbn [andb] in D. destruct ((dc_button (c_dc c) =? button_bit (button_of r)) && (dc_x (c_dc c) =? mr_x r) && (dc_y (c_dc c) =? mr_y r)); cbn [andb] in D; [destruct (u32 _ <? _)|]; injection D as -> ->.
      * now left.
      * right. cbn [dc_button dc_x dc_y dc_tick]. do 2 eexists. split; [reflexivity|]. cbn. auto.
      * right. cbn [dc_button dc_x dc_y dc_tick]. do 2 eexists. split; [reflexivity|]. cbn. auto.
    + destruct (is_wheel r || _); [injection D as -> ->; exact IH|]. destruct ((button_of r =? 3) || _); injection D as -> ->; [exact IH|now left].
  - injection Hm as _ Hd _. unfold dcinv in *. now rewrite Hd.
Qed.
Theorem double_click e r c c' l x y b k f : mouse_history c l -> @applyTok unit e (TMouse r) c = Ok c' ->
  told c' = told c ++ [ORec (MouseRec x y b k f)] -> has f DOUBLE_CLICK = true ->
  new_press c r = true /\
  exists ts t0 l', l = (button_bit (button_of r), mr_x r, mr_y r, ts) :: l' /\ In t0 ts /\ (hd 0 (c_clock c) - t0) mod 2 ^ 32 < e_dcTime e.
Proof.
  intros H Ha HT Hf. rewrite applyTok_act in Ha. cbn [act] in Ha. assert (c' = mouseEv e r c) by congruence. subst c'. clear Ha.
  destruct (mouseEv_cases e r c) as (_ & M & _). cbv zeta in M.
  match type of M with _ = (if ?b then _ else _) ?st => destruct b; [|assert (told (mouseEv e r c) = told c) as E1 by (rewrite M; reflexivity); rewrite E1 in HT; apply (f_equal (@length _)) in HT; rewrite app_length in HT; cbn in HT; lia] end.
  match type of M with _ = push (MouseRec ?x0 ?y0 ?b0 ?k0 ?f0) ?st => assert (told (mouseEv e r c) = told c ++ [ORec (MouseRec x0 y0 b0 k0 f0)]) as E1 by (rewrite M; unfold told, push; cbn [set_out set_mstate c_log c_records]; rewrite map_app, app_assoc; reflexivity);
    rewrite E1 in HT; apply app_inv_head in HT; assert (Ef : f = f0) by congruence end.
  clear M E1 HT. rewrite Ef in Hf. clear Ef. destruct (is_wheel r); [discriminate|].
  assert (has (Z.lor (if has (mr_flags r) 32 then MOUSE_MOVED else 0) 0) DOUBLE_CLICK = false) as N by (destruct (has (mr_flags r) 32); reflexivity).
  destruct (new_press c r); cbn [andb] in Hf; [|congruence]. split; [reflexivity|].
  destruct ((dc_button (c_dc c) =? button_bit (button_of r)) && (dc_x (c_dc c) =? mr_x r) && (dc_y (c_dc c) =? mr_y r)) eqn:Q; cbn [andb] in Hf; [|congruence].
  destruct (u32 (hd 0 (c_clock c) - dc_tick (c_dc c)) <? e_dcTime e) eqn:Q2; [|congruence].
  apply andb_true_iff in Q as (Q & Qy). apply andb_true_iff in Q as (Qb & Qx). apply Z.eqb_eq in Qb, Qx, Qy. apply Z.ltb_lt in Q2.
  destruct (history_dc c l H) as [Z0|(ts & l' & -> & Hin)]; [exfalso; apply (bit_nonzero (button_of r)); congruence|].
  exists ts, (dc_tick (c_dc c)), l'. rewrite Qb, Qx, Qy. splits; auto.
Qed.
