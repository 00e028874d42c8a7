(** C64: --show-input shows every input event, unambiguously, and leaves the console as it
    found it. *)
From Verif Require Import Base BaseLemmas Text StringsSpec ShowInput ShowInputSpec ShowInputProofs.

(** However the input is split over reads: the mode is set, everything up to Ctrl-D is
    shown, one text per record, and the mode is set back last. *)
Theorem C64_session : forall mouse escape orig bs, Forall (Forall record_ok) bs -> Forall (fun b => b <> []) bs ->
  exists during after mid seen ts,
    debugShowInput mouse escape (Some orig) true bs = Ok (SMode during :: mid ++ [SMode after]) /\
    Forall (fun e => exists t, e = SPrint t) mid /\ shown (concat bs) seen /\
    Forall2 (fun r t => recordText r = Ok t) seen ts /\
    printed mid = [10] ++ str "Press any keys -- Ctrl-D exits" ++ [10; 10] ++ concat ts.
Proof.
  intros mouse escape orig bs F N. destruct (read_ok bs F N) as (l & seen & ts & E & S & T & P & Q).
  unfold debugShowInput. rewrite E. cbn [negb bind]. eexists _, _, (SPrint _ :: l), seen, ts. split; [reflexivity|].
  split; [|split; [exact S|split; [exact T|]]].
  - constructor; [eexists; reflexivity|]. eapply Forall_impl; [|exact Q]. intros [m|t|] K; try contradiction. eexists. reflexivity.
  - unfold printed in *. cbn [map concat]. rewrite P. rewrite <- !app_assoc. reflexivity.
Qed.
Print Assumptions C64_session.

(** The modes, bit by bit.  Afterwards it is the old one; only if the extended flags were
    not in force and the mouse was wanted are they, quick edit and insert mode switched
    on.  In between: no processed input, lines or echo; window events; mouse events (and
    no quick edit) as wanted. *)
Theorem C64_modes : forall mouse escape orig bs l, debugShowInput mouse escape (Some orig) true bs = Ok l ->
  exists during after mid, l = SMode during :: mid ++ [SMode after] /\
    (forall i, 0 <= i -> Z.testbit after i = Z.testbit orig i || (mouse && negb (Z.testbit orig 7) && ((5 <=? i) && (i <=? 7)))) /\
    (forall i, 0 <= i -> Z.testbit during i =
       if i <=? 2 then false else if i =? 3 then true else if i =? 4 then mouse
       else if (i =? 6) && mouse then false else Z.testbit after i || (escape && (i =? 9))).
Proof.
  intros mouse escape orig bs l H. unfold debugShowInput in H. cbn [negb] in H. destruct (readLoop bs) as [r| | | |]; try discriminate H. cbn [bind] in H.
  injection H as <-. rewrite bit_80. eexists _, _, (SPrint _ :: r). split; [reflexivity|]. split.
  - intros i I0. destruct mouse; cbn [andb orb]; [|rewrite orb_false_r; reflexivity]. destruct (Z.testbit orig 7) eqn:T; cbn [negb andb orb]; [rewrite orb_false_r; reflexivity|].
    rewrite !Z.lor_spec. change 0x80 with (2 ^ 7). change 0x40 with (2 ^ 6). change 0x20 with (2 ^ 5). rewrite !Z.pow2_bits_eqb by lia.
    rewrite <- !orb_assoc. f_equal.
    destruct (Z.eqb_spec 7 i), (Z.eqb_spec 6 i), (Z.eqb_spec 5 i), (Z.leb_spec 5 i), (Z.leb_spec i 7); try reflexivity; lia.
  - intros i I0. set (after := if mouse && negb (Z.testbit orig 7) then _ else orig). clearbody after.
    pose proof (Z.pow2_bits_eqb 9 i ltac:(lia)) as B9. change (2 ^ 9) with 0x200 in B9. pose proof (Z.pow2_bits_eqb 6 i ltac:(lia)) as B6. change (2 ^ 6) with 0x40 in B6.
    pose proof (Z.pow2_bits_eqb 4 i ltac:(lia)) as B4. change (2 ^ 4) with 0x10 in B4. pose proof (Z.pow2_bits_eqb 3 i ltac:(lia)) as B3. change (2 ^ 3) with 0x8 in B3.
    pose proof (Z.pow2_bits_eqb 2 i ltac:(lia)) as B2. change (2 ^ 2) with 0x4 in B2. pose proof (Z.pow2_bits_eqb 1 i ltac:(lia)) as B1. change (2 ^ 1) with 0x2 in B1.
    pose proof (Z.pow2_bits_eqb 0 i ltac:(lia)) as B0. change (2 ^ 0) with 0x1 in B0.
    destruct mouse, escape; repeat rewrite ?Z.lor_spec, ?Z.ldiff_spec; rewrite ?B9, ?B6, B4, B3, B2, B1, B0; clear B9 B6 B4 B3 B2 B1 B0; cbn [andb];
    (destruct (Z.leb_spec i 2) as [L|L];
     [destruct (Z.eqb_spec 0 i) as [<-|N0]; [cbn; rewrite ?andb_false_r; reflexivity|];
      destruct (Z.eqb_spec 1 i) as [<-|N1]; [cbn; rewrite ?andb_false_r; reflexivity|];
      assert (i = 2) as -> by lia; cbn; rewrite ?andb_false_r; reflexivity|]);
    (destruct (Z.eqb_spec i 3) as [->|N3]; [cbn; rewrite ?orb_true_r, ?andb_true_r; reflexivity|]);
    (destruct (Z.eqb_spec i 4) as [->|N4]; [cbn; rewrite ?orb_true_r, ?andb_false_r; reflexivity|]);
    (destruct (Z.eqb_spec i 6) as [->|N6]; [cbn; rewrite ?andb_true_r, ?andb_false_r, ?orb_false_r; reflexivity|]);
    (destruct (Z.eqb_spec i 9) as [->|N9]; [cbn; rewrite ?andb_true_r, ?orb_false_r, ?orb_true_r; reflexivity|]);
    rewrite (proj2 (Z.eqb_neq 0 i)), (proj2 (Z.eqb_neq 1 i)), (proj2 (Z.eqb_neq 2 i)), (proj2 (Z.eqb_neq 3 i)), (proj2 (Z.eqb_neq 4 i)) by lia;
    rewrite ?(proj2 (Z.eqb_neq 6 i)), ?(proj2 (Z.eqb_neq 9 i)) by lia; cbn [negb andb orb]; rewrite ?andb_true_r, ?orb_false_r; reflexivity.
Qed.
Print Assumptions C64_modes.

(** If the console cannot be asked or does not obey, nothing else is tried. *)
Theorem C64_refused : forall mouse escape mode ok bs, mode = None \/ ok = false ->
  debugShowInput mouse escape mode ok bs = Ok [SError].
Proof. intros mouse escape [m|] ok bs [H|H]; try discriminate H; try reflexivity. subst ok. reflexivity. Qed.
Print Assumptions C64_refused.

(** Every record of a known type is one line. *)
Theorem C64_line : forall r, record_ok r -> r <> IOther -> exists t, recordText r = Ok (t ++ [10]) /\ ~ In 10 t.
Proof. intros r R N. destruct (recordText_ok r R N) as (t & E & L). exists t. split; [exact E|exact (line_one r t L)]. Qed.
Print Assumptions C64_line.

(** The output tells what happened: two sessions, whatever their options and however their
    input was split, that print the same have seen the same events. *)
Theorem C64_faithful : forall m1 e1 o1 b1 l1 m2 e2 o2 b2 l2,
  Forall (Forall record_ok) b1 -> Forall (fun b => b <> []) b1 -> Forall (Forall record_ok) b2 -> Forall (fun b => b <> []) b2 ->
  debugShowInput m1 e1 (Some o1) true b1 = Ok l1 -> debugShowInput m2 e2 (Some o2) true b2 = Ok l2 -> printed l1 = printed l2 ->
  exists s1 s2, shown (concat b1) s1 /\ shown (concat b2) s2 /\ Forall2 same_event s1 s2.
Proof.
  intros m1 e1 o1 b1 l1 m2 e2 o2 b2 l2 F1 N1 F2 N2 E1 E2 P.
  destruct (read_ok b1 F1 N1) as (k1 & s1 & t1 & R1 & S1 & T1 & P1 & _). destruct (read_ok b2 F2 N2) as (k2 & s2 & t2 & R2 & S2 & T2 & P2 & _).
  unfold debugShowInput in E1, E2. rewrite R1 in E1. rewrite R2 in E2. cbn [negb bind] in E1, E2. injection E1 as <-. injection E2 as <-.
  exists s1, s2. split; [exact S1|split; [exact S2|]].
  assert (C : forall b, Forall (Forall record_ok) b -> Forall record_ok (concat b)).
  { intros b F. induction F as [|x b X F IH]; cbn [concat]; [constructor|apply Forall_app; auto]. }
  apply (texts_inj s1 t1 s2 t2 T1 T2 (shown_sub _ _ S1 (C _ F1)) (shown_sub _ _ S2 (C _ F2))).
  unfold printed in P, P1, P2. cbn [map concat] in P. rewrite !map_app, !concat_app in P. cbn [map concat] in P. rewrite !app_nil_r in P.
  rewrite P1, P2 in P. cbn [app] in P. injection P as P. exact P.
Qed.
Print Assumptions C64_faithful.

(** The words in it: a key's state by the names of its bits, the rest in hexadecimal ... *)
Theorem C64_key_text : forall vk ch st, 65 <= vk <= 90 \/ 48 <= vk <= 57 -> 32 <= ch <= 126 -> 0 <= st < 2 ^ 32 ->
  exists ws, words state_names (str "keyState") st ws /\
    keyToString vk ch st = Ok (concat (map (fun w => w ++ str "-") ws) ++ [vk] ++ str " ch='" ++ [ch] ++ str "'").
Proof.
  intros vk ch st V C S. unfold keyToString, controlKeyStatePrefix.
  destruct (write_dash st (str "keyState") kControlKeyStates key_ok_tab S) as (ts & -> & T). cbn [bind].
  exists ts. split; [apply (words_of kControlKeyStates); auto; repeat constructor; discriminate|].
  rewrite (vkText_plain vk V). cbn [bind]. unfold chText. assert ((32 <=? ch) && (ch <=? 126) = true) as -> by lia. cbn [bind]. reflexivity.
Qed.
Print Assumptions C64_key_text.

(** ... every key by its name if it has one and else by its number, and the character ... *)
Theorem C64_key_words : forall vk ch st, 0 <= vk < 2 ^ 16 -> 0 <= ch < 2 ^ 16 -> 0 <= st < 2 ^ 32 ->
  exists ws k c, words state_names (str "keyState") st ws /\ key_text vk k /\ char_text ch c /\
    keyToString vk ch st = Ok (concat (map (fun w => w ++ str "-") ws) ++ k ++ str " " ++ c).
Proof.
  intros vk ch st V C S. unfold keyToString, controlKeyStatePrefix.
  destruct (write_dash st (str "keyState") kControlKeyStates key_ok_tab S) as (ts & -> & T). cbn [bind].
  destruct (vkText_runs vk V) as (k & -> & K). cbn [bind]. destruct (chText_runs ch C) as (c & -> & D). cbn [bind].
  exists ts, k, c. split; [apply (words_of kControlKeyStates); auto; repeat constructor; discriminate|]. split; [exact K|]. split; [exact D|reflexivity].
Qed.
Print Assumptions C64_key_words.

(** ... and a mouse record: position, state, kind of event, buttons, wheel. *)
Theorem C64_mouse_text : forall x y b st fl, record_ok (IMouse x y b st fl) ->
  exists px py w1 w2 w3 w4, decimal px x /\ decimal py y /\ words state_names (str "keyState") st w1 /\
    words mouse_names (str "flags") fl w2 /\ words button_names (str "buttons") (b mod 2 ^ 16) w3 /\
    (let wheel := if b / 2 ^ 16 <? 2 ^ 15 then b / 2 ^ 16 else b / 2 ^ 16 - 2 ^ 16 in
     (wheel = 0 /\ w4 = []) \/ (wheel <> 0 /\ exists d, decimal d wheel /\ w4 = [str "wheel=" ++ d])) /\
    mouseEventToString x y b st fl =
      Ok (str "pos=" ++ px ++ str "," ++ py ++ concat (map (fun w => str " " ++ w) (w1 ++ w2 ++ w3 ++ w4))).
Proof.
  intros x y b st fl R. destruct (mouse_ok x y b st fl R) as (t & E & (px & py & kt & ft & bt & wt & PX & PY & K & F & B & W & ->)).
  destruct R as (R1 & R2 & R3 & R4 & R5). pose proof (Z.mod_pos_bound b (2 ^ 16) ltac:(lia)) as BM.
  exists px, py, kt, ft, bt, wt. splits; auto.
  - apply (words_of kControlKeyStates); auto; repeat constructor; discriminate.
  - apply (words_of kMouseEventFlags); auto; repeat constructor; discriminate.
  - apply (words_of kButtonStates); [reflexivity|repeat constructor; discriminate|lia|exact B].
  - cbv zeta. assert (D : 0 <= b / 2 ^ 16 < 2 ^ 16) by (split; [apply Z.div_pos; lia|apply Z.div_lt_upper_bound; lia]).
    assert (s16 (b / 2 ^ 16) = if b / 2 ^ 16 <? 2 ^ 15 then b / 2 ^ 16 else b / 2 ^ 16 - 2 ^ 16) as <-; [|exact W].
    unfold s16, wraps. cbv zeta. rewrite Z.mod_small by lia. change (2 ^ (16 - 1)) with (2 ^ 15). destruct (_ <? _); lia.
Qed.
Print Assumptions C64_mouse_text.

(** The options: each may be given, in any order, any number of times, and nothing else. *)
Theorem C64_options : forall args,
  match showInputOptions args false false with
  | Some (m, e) => (forall a, In a args -> a = str "--with-mouse" \/ a = str "--escape-input") /\
      (m = true <-> In (str "--with-mouse") args) /\ (e = true <-> In (str "--escape-input") args)
  | None => exists a, In a args /\ a <> str "--with-mouse" /\ a <> str "--escape-input"
  end.
Proof.
  intros args. pose proof (options_ok args false false) as H. destruct (showInputOptions args false false) as [(m & e)|]; [|exact H].
  destruct H as (A & B & C). splits; auto; [rewrite B|rewrite C]; intuition discriminate.
Qed.
Print Assumptions C64_options.

(** The exception in [same_event] is real: printf's %#x of 0 has no prefix, so a record
    without a virtual key, as escape sequences typed into the console produce, looks like
    one of the key 0. *)
Theorem C64_vk_zero_refuted : exists r1 r2, record_ok r1 /\ record_ok r2 /\ r1 <> r2 /\
  recordText r1 = Ok (str "key: dn rpt=1 scn=0 0 ch='0'" ++ [10]) /\ recordText r2 = recordText r1.
Proof.
  exists (IKey true 1 0 0 48 0), (IKey true 1 48 0 48 0). splits; try (cbn; lia); try discriminate; vm_compute; reflexivity.
Qed.
Print Assumptions C64_vk_zero_refuted.

Example C64_holds_somewhere :
  let bs := [[IKey true 1 65 30 97 0x118; IMouse 3 (-1) 0xFF880001 0x10000 1]; [IOther; IFocus true; IKey true 1 68 32 4 8; IFocus false]; [IMenu 255]] in
  Forall (Forall record_ok) bs /\ Forall (fun b => b <> []) bs /\
  debugShowInput true false (Some 0x1F7) true bs =
    Ok [SMode 0x1B8; SPrint ([10] ++ str "Press any keys -- Ctrl-D exits" ++ [10; 10]);
        SPrint (str "key: dn rpt=1 scn=0x1e Enhanced-LCtrl-Shift-A ch='a'" ++ [10] ++
                str "mouse: pos=3,-1 keyState(0x10000) Move 1 wheel=-120" ++ [10]);
        SPrint (str "focus: gained" ++ [10] ++ str "key: dn rpt=1 scn=0x20 LCtrl-D ch=0x4" ++ [10]);
        SMode 0x1F7].
Proof.
  cbv zeta. splits; [|repeat constructor; discriminate|vm_compute; reflexivity].
  repeat (apply Forall_cons; [repeat (apply Forall_cons; [cbn; lia|]); apply Forall_nil|]). apply Forall_nil.
Qed.
