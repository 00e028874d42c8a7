(** Proofs about the terminal output: colours, the emulator's reading of the agent's
    sequences, lines and cursor (C16-C19, C41). *)
From Verif Require Import Base BaseLemmas Text Unicode UnicodeSpec UnicodeProofs ConsoleLine ConsoleLineProofs Terminal TerminalSpec.
Ltac Zify.zify_post_hook ::= Z.div_mod_to_equations.
Ltac splits := repeat match goal with |- _ /\ _ => split end.

Lemma feed_app te s a b : feed te s (a ++ b) = feed te (feed te s a) b.
Proof. apply fold_left_app. Qed.
Lemma feed_cons te s a b : feed te s (a :: b) = feed te (step te s a) b.
Proof. reflexivity. Qed.
Lemma scr_eta s : mkScr (s_top s) (s_row s) (s_col s) (s_cell s) (s_rend s) (s_mode s) (s_ps s) = s.
Proof. now destruct s. Qed.
Lemma set_ps_set_ps p q s : set_ps p (set_ps q s) = set_ps p s. Proof. reflexivity. Qed.
Lemma set_ps_same s : s_ps s = PGround -> set_ps PGround s = s.
Proof. intros H. unfold set_ps. rewrite <- H. apply scr_eta. Qed.

(** *** Numbers and control sequences *)
Lemma feed_csi0 te s rest : s_ps s = PGround -> feed te s (CSI ++ rest) = feed te (set_ps (PCsi false [] 0) s) rest.
Proof. intros H. unfold CSI. cbn [app]. rewrite !feed_cons. unfold step at 2. rewrite H. reflexivity. Qed.
Lemma step_digit te s p d cur x : s_ps s = PCsi p d cur -> 0 <= x <= 9 -> step te s (48 + x) = set_ps (PCsi p d (cur * 10 + x)) s.
Proof. intros H Hx. unfold step. rewrite H. replace ((48 <=? 48 + x) && (48 + x <=? 57)) with true by lia. do 2 f_equal. lia. Qed.
Lemma feed_udec_loop te p d : forall fuel n s, s_ps s = PCsi p d 0 -> 0 <= n < 10 ^ Z.of_nat fuel -> feed te s (udec_loop fuel n) = set_ps (PCsi p d n) s.
Proof.
  induction fuel as [|f IH]; intros n s H Hn; [change (10 ^ Z.of_nat 0) with 1 in Hn; cbn; assert (n = 0) as -> by lia; rewrite <- H; symmetry; apply scr_eta|].
  cbn [udec_loop]. rewrite Nat2Z.inj_succ, Z.pow_succ_r in Hn by lia. destruct (n / 10 =? 0) eqn:E.
  - cbn [feed fold_left]. rewrite (step_digit te s p d 0) by (auto; lia). do 2 f_equal. lia.
  - rewrite feed_app, (IH (n / 10) s H) by lia. cbn [feed fold_left]. rewrite (step_digit te _ p d (n / 10)) by (auto; lia). rewrite set_ps_set_ps. do 2 f_equal. lia.
Qed.
Lemma feed_udec te p d n s : s_ps s = PCsi p d 0 -> 0 <= n < 10 ^ 20 -> feed te s (udec n) = set_ps (PCsi p d n) s.
Proof. apply (feed_udec_loop te p d 20). Qed.
Lemma feed_final te s p d cur b : s_ps s = PCsi p d cur -> 64 <= b <= 126 -> feed te s [b] = dispatch te p (d ++ [cur]) b (set_ps PGround s).
Proof.
  intros H Hb. cbn [feed fold_left]. unfold step. rewrite H. replace ((48 <=? b) && (b <=? 57)) with false by lia. replace (b =? 59) with false by lia.
  replace (b =? 63) with false by lia. replace ((64 <=? b) && (b <=? 126)) with true by lia. reflexivity.
Qed.
(** ESC [ number letter *)
Lemma feed_csi1 te s n b : s_ps s = PGround -> 0 <= n < 10 ^ 20 -> 64 <= b <= 126 -> feed te s (CSI ++ udec n ++ [b]) = dispatch te false [n] b s.
Proof.
  intros H Hn Hb. rewrite feed_csi0 by exact H. rewrite feed_app, (feed_udec te false []) by auto. rewrite (feed_final te _ false [] n) by auto.
  rewrite !set_ps_set_ps. now rewrite set_ps_same.
Qed.
Lemma sgr_params_sound te : forall bs done cur ps s,
  (fix go (bs : list Z) (done : list Z) (cur : Z) : option (list Z) :=
     match bs with
     | [] => None
     | b :: t => if (48 <=? b) && (b <=? 57) then go t done (cur * 10 + (b - 48)) else if b =? 59 then go t (done ++ [cur]) 0
                 else if b =? 109 then match t with [] => Some (done ++ [cur]) | _ => None end else None
     end) bs done cur = Some ps ->
  s_ps s = PCsi false done cur -> feed te s bs = set_rend (fold_left sgr1 ps (s_rend s)) (set_ps PGround s).
Proof.
  induction bs as [|b t IH]; intros done cur ps s H Hs; [discriminate|]. rewrite feed_cons. unfold step. rewrite Hs.
  destruct ((48 <=? b) && (b <=? 57)); [rewrite (IH _ _ _ _ H) by reflexivity; reflexivity|].
  destruct (b =? 59); [rewrite (IH _ _ _ _ H) by reflexivity; reflexivity|].
  destruct (Z.eqb_spec b 109) as [->|]; [|discriminate]. destruct t; [|discriminate]. injection H as <-. reflexivity.
Qed.
Definition rend_eqb (a b : rend) : bool :=
  (r_fg a =? r_fg b) && (r_bg a =? r_bg b) && Bool.eqb (r_bold a) (r_bold b) && Bool.eqb (r_under a) (r_under b) && Bool.eqb (r_inverse a) (r_inverse b) && Bool.eqb (r_conceal a) (r_conceal b).
Lemma rend_eqb_eq a b : rend_eqb a b = true -> a = b.
Proof.
  destruct a, b. unfold rend_eqb. cbn. rewrite !andb_true_iff, !Z.eqb_eq, !Bool.eqb_true_iff. intros (((((-> & ->) & ->) & ->) & ->) & ->). reflexivity.
Qed.
Definition sgr_parse := fix go (bs : list Z) (done : list Z) (cur : Z) : option (list Z) :=
     match bs with
     | [] => None
     | b :: t => if (48 <=? b) && (b <=? 57) then go t done (cur * 10 + (b - 48)) else if b =? 59 then go t (done ++ [cur]) 0
                 else if b =? 109 then match t with [] => Some (done ++ [cur]) | _ => None end else None
     end.
Definition color_check (a : Z) : bool :=
  match outputSetColor (Z.land a COLOR_ATTRIBUTE_MASK) with
  | 27 :: 91 :: bs => match sgr_parse bs [] 0 with Some (0 :: ps) => rend_eqb (fold_left sgr1 ps rend0) (rend_of a) | _ => false end
  | _ => false end.
Lemma color_sweep : forallb (fun h => forallb (fun l => color_check (h * 256 + l)) (upto 256)) (upto 256) = true.
Proof. vm_compute. reflexivity. Qed.
Lemma color_checked a : 0 <= a < 65536 -> color_check a = true.
Proof.
  intros H. pose proof (sweep 256 _ color_sweep (a / 256) ltac:(lia)) as H1. cbn beta in H1.
  pose proof (sweep 256 _ H1 (a mod 256) ltac:(lia)) as H2. cbn beta in H2. now replace (a / 256 * 256 + a mod 256) with a in H2 by lia.
Qed.
Lemma outputSetColor_head c : exists bs, outputSetColor c = 27 :: 91 :: bs.
Proof.
  unfold outputSetColor, csi, CSI.
  match goal with |- context [if ?b then (?x, ?y) else ?z] => destruct (if b then (x, y) else z) as (fo, ba) end. cbn [app]. eexists. reflexivity.
Qed.
Theorem color_feed te s a : 0 <= a < 65536 -> s_ps s = PGround -> feed te s (outputSetColor (Z.land a COLOR_ATTRIBUTE_MASK)) = set_rend (rend_of a) s.
Proof.
  intros Ha Hs. pose proof (color_checked a Ha) as H. unfold color_check in H.
  destruct (outputSetColor_head (Z.land a COLOR_ATTRIBUTE_MASK)) as (bs & E). rewrite E in H |- *. cbv beta iota in H.
  destruct (sgr_parse bs [] 0) as [[|[|p|p] ps]|] eqn:P; try discriminate. apply rend_eqb_eq in H.
  change (27 :: 91 :: bs) with (CSI ++ bs). rewrite feed_csi0 by exact Hs.
  rewrite (sgr_params_sound te bs [] 0 _ _ P) by reflexivity. rewrite set_ps_set_ps, set_ps_same by exact Hs.
  cbn [fold_left]. replace (sgr1 (s_rend (set_ps (PCsi false [] 0) s)) 0) with rend0 by (unfold sgr1; now destruct (s_rend _)). now rewrite H.
Qed.

(** *** Fixed sequences *)
Lemma feed_hide te s : s_ps s = PGround -> feed te s hide_seq = set_mode 25 false s.
Proof. destruct s as [tp rw cl ce re mo ps]; cbn [s_ps]; intros ->. reflexivity. Qed.
Lemma feed_show te s : s_ps s = PGround -> feed te s show_seq = set_mode 25 true s.
Proof. destruct s as [tp rw cl ce re mo ps]; cbn [s_ps]; intros ->. reflexivity. Qed.
Lemma feed_eol te s : s_ps s = PGround -> feed te s eol_seq = fill (s_row s) (clamp_col te (s_col s)) (te_w te) (fun _ => (Blank, s_rend s)) s.
Proof. destruct s as [tp rw cl ce re mo ps]; cbn [s_ps]; intros ->. reflexivity. Qed.
Lemma feed_cr te s : s_ps s = PGround -> feed te s [13] = set_at (s_row s) 0 s.
Proof. destruct s as [tp rw cl ce re mo ps]; cbn [s_ps]; intros ->. reflexivity. Qed.
Lemma feed_crlf te s : s_ps s = PGround -> feed te s crlf = linefeed te (set_at (s_row s) 0 s).
Proof. destruct s as [tp rw cl ce re mo ps]; cbn [s_ps]; intros ->. reflexivity. Qed.
Definition cleared te s := set_cells (fun r c => if (s_top s <=? r) && (r <? s_top s + te_h te) then (Blank, rend0) else s_cell s r c)
  (set_at (s_top s + Z.min 0 (te_h te - 1)) (clamp_col te 0) (set_rend rend0 s)).
Lemma feed_clear te s : s_ps s = PGround -> feed te s clear_seq = cleared te s.
Proof. destruct s as [tp rw cl ce [f b bo u i c] mo ps]; cbn [s_ps]; intros ->. reflexivity. Qed.
Definition mouse_modes (on : bool) s :=
  if on then set_mode 1006 true (set_mode 1015 true (set_mode 1003 true (set_mode 1002 true (set_mode 1000 true (set_mode 1005 false s)))))
  else set_mode 1000 false (set_mode 1002 false (set_mode 1003 false (set_mode 1015 false (set_mode 1006 false s)))).
Lemma feed_mouse te (on : bool) s : s_ps s = PGround -> feed te s (if on then mouse_on_seq else mouse_off_seq) = mouse_modes on s.
Proof. destruct s as [tp rw cl ce re mo ps]; cbn [s_ps]; intros ->. destruct on; reflexivity. Qed.

(** *** Characters *)
Lemma print_ps te ch s p : set_ps p (print te ch s) = print te ch (set_ps p s).
Proof. unfold print. cbn [set_ps s_col s_row s_rend]. destruct (te_w te <? s_col s + te_wid te ch); reflexivity. Qed.
Lemma feed_utf8 te s ch : s_ps s = PGround -> 32 <= ch <= 0x10FFFF -> ch <> 127 -> feed te s (utf8_form ch) = print te ch s.
Proof.
  intros Hs H H7. unfold utf8_form, cont_of.
  destruct (Z.ltb_spec ch 128); [|destruct (Z.ltb_spec ch 2048); [|destruct (Z.ltb_spec ch 65536)]].
  - cbn [feed fold_left]. unfold step. rewrite Hs. replace (ch =? 27) with false by lia. replace (ch =? 13) with false by lia. replace (ch =? 10) with false by lia.
    replace ((ch <? 32) || (ch =? 127)) with false by lia. replace (ch <? 128) with true by lia. reflexivity.
  - set (b1 := 192 + ch / 64). set (b2 := 128 + ch mod 64). cbn [feed fold_left].
    replace (step te s b1) with (set_ps (PUtf 1 (b1 - 192)) s).
    2: { unfold step. rewrite Hs. replace (b1 =? 27) with false by lia. replace (b1 =? 13) with false by lia. replace (b1 =? 10) with false by lia.
         replace ((b1 <? 32) || (b1 =? 127)) with false by lia. replace (b1 <? 128) with false by lia. replace (b1 <? 192) with false by lia. now replace (b1 <? 224) with true by lia. }
    unfold step. cbn [s_ps set_ps]. rewrite set_ps_set_ps, set_ps_same by exact Hs. f_equal. lia.
  - set (b1 := 224 + ch / 4096). set (b2 := 128 + (ch / 64) mod 64). set (b3 := 128 + ch mod 64). cbn [feed fold_left].
    replace (step te s b1) with (set_ps (PUtf 2 (b1 - 224)) s).
    2: { unfold step. rewrite Hs. replace (b1 =? 27) with false by lia. replace (b1 =? 13) with false by lia. replace (b1 =? 10) with false by lia.
         replace ((b1 <? 32) || (b1 =? 127)) with false by lia. replace (b1 <? 128) with false by lia. replace (b1 <? 192) with false by lia. replace (b1 <? 224) with false by lia. now replace (b1 <? 240) with true by lia. }
    unfold step. cbn [s_ps set_ps]. rewrite !set_ps_set_ps, set_ps_same by exact Hs. f_equal. lia.
  - set (b1 := 240 + ch / 262144). set (b2 := 128 + (ch / 4096) mod 64). set (b3 := 128 + (ch / 64) mod 64). set (b4 := 128 + ch mod 64). cbn [feed fold_left].
    replace (step te s b1) with (set_ps (PUtf 3 (b1 - 240)) s).
    2: { unfold step. rewrite Hs. replace (b1 =? 27) with false by lia. replace (b1 =? 13) with false by lia. replace (b1 =? 10) with false by lia.
         replace ((b1 <? 32) || (b1 =? 127)) with false by lia. replace (b1 <? 128) with false by lia. replace (b1 <? 192) with false by lia. replace (b1 <? 224) with false by lia. now replace (b1 <? 240) with false by lia. }
    unfold step. cbn [s_ps set_ps]. rewrite !set_ps_set_ps, set_ps_same by exact Hs. f_equal. lia.
Qed.
Lemma print_fits te ch s : s_col s + te_wid te ch <= te_w te ->
  print te ch s = set_at (s_row s) (s_col s + te_wid te ch) (fill (s_row s) (s_col s) (s_col s + te_wid te ch) (fun c => (glyph_at ch (c =? s_col s), s_rend s)) s).
Proof. intros H. unfold print. now replace (te_w te <? s_col s + te_wid te ch) with false by lia. Qed.
