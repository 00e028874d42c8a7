(** C16-C19, C41: what a terminal shows after reading the agent's output. *)
From Verif Require Import Base BaseLemmas Text ConsoleLine Terminal TerminalSpec TerminalFeed TerminalProofs TerminalInject TerminalTotal.

(** A small terminal for the examples: ten columns, three rows, every character one
    column wide except two. *)
Definition ex_te := mkTenv 10 3 (fun ch => if (ch =? 0x4E00) || (ch =? 0x1F600) then 2 else 1).
Definition ex_s0 := mkScr 0 0 0 (fun _ _ => (Glyph 88, rend0)) rend0 (fun m => m =? 25) PGround.
Example ex_te_ok : tenv_ok ex_te /\ start_ok ex_te ex_s0.
Proof. split; [unfold tenv_ok; cbn; lia|]. unfold start_ok. cbn. intuition (subst; auto); lia. Qed.

(** C16.  A line sent is shown, and nothing else changes; the operation cannot fail. *)
Theorem C16_send te s0 uc strict off t line data cc txt : tenv_ok te -> start_ok te s0 -> reach te s0 uc strict off t ->
  reachable_row te s0 off t line -> 1 <= zlen data <= te_w te -> line_text data txt -> Forall (showable te) txt ->
  exists t', run_top (E := unit) (TSend line data cc) t = Ok t' /\ reach te s0 uc strict off t'
    /\ row_shows te uc (s_rend (screen te s0 t)) txt (screen te s0 t') (off + line)
    /\ (forall r c, r <> off + line -> s_cell (screen te s0 t') r c = s_cell (screen te s0 t) r c)
    /\ s_row (screen te s0 t') = off + line.
Proof. intros Hte Hs0. exact (send_shows te s0 uc strict Hte Hs0 off t line data cc txt). Qed.
(** The terminal's cursor is where the agent believes, on the screen. *)
Theorem C16_position te s0 uc strict off t : tenv_ok te -> start_ok te s0 -> reach te s0 uc strict off t ->
  s_row (screen te s0 t) = off + t_line t /\ s_col (screen te s0 t) = t_col t
  /\ s_top (screen te s0 t) <= s_row (screen te s0 t) < s_top (screen te s0 t) + te_h te.
Proof. intros Hte Hs0. exact (position te s0 uc strict Hte Hs0 off t). Qed.
(** Showing the cursor moves it to the place asked for and changes no cell. *)
Theorem C16_cursor te s0 uc strict off t column line : tenv_ok te -> start_ok te s0 -> reach te s0 uc strict off t ->
  reachable_row te s0 off t line -> 0 <= column < te_w te ->
  let t' := showTerminalCursor column line t in
  s_row (screen te s0 t') = off + line /\ s_col (screen te s0 t') = column /\ s_cell (screen te s0 t') = s_cell (screen te s0 t).
Proof. intros Hte Hs0. exact (show_places te s0 uc strict Hte Hs0 off t column line). Qed.
(** A reset with clearing leaves a blank screen. *)
Theorem C16_reset te s0 uc strict off t line : tenv_ok te -> start_ok te s0 -> reach te s0 uc strict off t ->
  let s := screen te s0 (reset true line t) in
  s_row s = s_top s /\ s_col s = 0 /\ forall r c, s_top s <= r < s_top s + te_h te -> s_cell s r c = (Blank, rend0).
Proof. exact (reset_clears te s0 uc strict off t line). Qed.
Print Assumptions C16_send. Print Assumptions C16_position. Print Assumptions C16_cursor. Print Assumptions C16_reset.

(** A history: two lines, then the second one again with more text, a wide character and
    colours. *)
Definition ex_line1 := [mkCell 97 7; mkCell 98 7; mkCell 32 7; mkCell 32 7; mkCell 32 7].
Definition ex_line2 := [mkCell 97 7; mkCell 98 7; mkCell 0x4E00 0x107; mkCell 0x4E00 0x207; mkCell 99 0x4F; mkCell 32 7].
Definition ex_txt2 := [(1, 97, 7); (1, 98, 7); (2, 0x4E00, 0x107); (1, 99, 0x4F); (1, 32, 7)].
Example C16_example_text : line_text ex_line2 ex_txt2 /\ Forall (showable ex_te) ex_txt2.
Proof.
  split.
  - apply (lt_bmp [mkCell 97 7] 97 7); [lia|unfold surrogate; lia|left; eexists; split; [reflexivity|split; reflexivity]|reflexivity|].
    apply (lt_bmp [mkCell 98 7] 98 7); [lia|unfold surrogate; lia|left; eexists; split; [reflexivity|split; reflexivity]|reflexivity|].
    apply (lt_bmp [mkCell 0x4E00 0x107; mkCell 0x4E00 0x207] 0x4E00 0x107); [lia|unfold surrogate; lia|right; do 2 eexists; split; [reflexivity|split; [reflexivity|unfold wide; cbn; auto]]|reflexivity|].
    apply (lt_bmp [mkCell 99 0x4F] 99 0x4F); [lia|unfold surrogate; lia|left; eexists; split; [reflexivity|split; reflexivity]|reflexivity|].
    apply (lt_bmp [mkCell 32 7] 32 7); [lia|unfold surrogate; lia|left; eexists; split; [reflexivity|split; reflexivity]|reflexivity|]. constructor.
  - unfold ex_txt2. repeat constructor; cbn; lia.
Qed.
Example C16_example :
  match run_tops (E := unit) [TSend 0 ex_line1 (-1); TSend 1 ex_line1 (-1); TSend 1 ex_line2 2] (new_term false true) with
  | Ok t => let s := screen ex_te ex_s0 t in
      map (fun c => fst (s_cell s 1 c)) [0; 1; 2; 3; 4; 5; 6; 9] = [Glyph 97; Glyph 98; Glyph 0x4E00; Right_part; Glyph 99; Blank; Blank; Blank]
      /\ snd (s_cell s 1 4) = mkRend 15 1 false false false false /\ s_row s = 1 /\ s_col s = 5 /\ s_mode s 25 = false
      /\ map (fun c => fst (s_cell s 0 c)) [0; 1; 2; 9] = [Glyph 97; Glyph 98; Blank; Blank] /\ fst (s_cell s 2 0) = Glyph 88
  | _ => False end.
Proof. vm_compute. auto 10. Qed.
(** Nothing the console holds makes an operation fail: halves of wide characters, single
    surrogates and characters no terminal can show included. *)
Theorem C16_total plain useColor ops : Forall top_sized ops -> exists t, run_tops (E := unit) ops (new_term plain useColor) = Ok t.
Proof. apply new_total. Qed.
Print Assumptions C16_total.
Example C16_total_example : let l := [mkCell 0xDC00 0x207; mkCell 0xD83D 0x107; mkCell 0xD83D 0x107] in
  Forall top_sized [TSend 3 l 5; TShow 700 0; TSend 0 l (-1)] /\
  match run_tops (E := unit) [TSend 3 l 5; TShow 700 0; TSend 0 l (-1)] (new_term false false) with Ok t => zlen (t_out t) = 50 | _ => False end.
Proof. cbv zeta. split; [|vm_compute; reflexivity]. constructor; [vm_compute; discriminate|]. constructor; [exact I|]. constructor; [vm_compute; discriminate|]. constructor. Qed.

(** Two limits of C16.  A control character other than 1-6 and ESC is sent as it is: the
    terminal shows nothing, and its cursor is not where the agent believes. *)
Theorem C16_control_refuted : exists t, run_tops (E := unit) [TSend 0 [mkCell 7 7; mkCell 97 7; mkCell 98 7] (-1)] (new_term false true) = Ok t
  /\ t_col t = 3 /\ s_col (screen ex_te ex_s0 t) = 2.
Proof.
  destruct (run_tops (E := unit) [TSend 0 [mkCell 7 7; mkCell 97 7; mkCell 98 7] (-1)] (new_term false true)) as [t| | | |] eqn:Et; try (vm_compute in Et; discriminate Et).
  exists t. split; [reflexivity|]. vm_compute in Et. injection Et as <-. vm_compute. auto.
Qed.
(** If the first half of a surrogate pair is sent and then the line with both halves, the
    terminal is left with two question marks instead of the character. *)
Theorem C16_surrogate_refuted : let both := [mkCell 0xD83D 7; mkCell 0xDE00 7; mkCell 32 7] in
  line_text both [(2, 0x1F600, 7); (1, 32, 7)] /\ Forall (showable ex_te) [(2, 0x1F600, 7); (1, 32, 7)] /\
  exists t, run_tops (E := unit) [TSend 0 [mkCell 0xD83D 7; mkCell 32 7; mkCell 32 7] (-1); TSend 0 both (-1)] (new_term false true) = Ok t
  /\ map (fun c => fst (s_cell (screen ex_te ex_s0 t) 0 c)) [0; 1] = [Glyph 63; Glyph 63].
Proof.
  cbv zeta. split; [|split].
  - apply (lt_pair [mkCell 0xD83D 7] 0xD83D [mkCell 0xDE00 7] 0xDE00 7); [lia|lia|left; eexists; split; [reflexivity|split; reflexivity]|left; eexists; split; [reflexivity|split; reflexivity]|reflexivity|].
    apply (lt_bmp [mkCell 32 7] 32 7); [lia|unfold surrogate; lia|left; eexists; split; [reflexivity|split; reflexivity]|reflexivity|]. constructor.
  - repeat constructor; cbn; lia.
  - destruct (run_tops (E := unit) [TSend 0 [mkCell 0xD83D 7; mkCell 32 7; mkCell 32 7] (-1); TSend 0 [mkCell 0xD83D 7; mkCell 0xDE00 7; mkCell 32 7] (-1)] (new_term false true)) as [t| | | |] eqn:Et; try (vm_compute in Et; discriminate Et).
    exists t. split; [reflexivity|]. vm_compute in Et. injection Et as <-. vm_compute. auto.
Qed.
Print Assumptions C16_control_refuted. Print Assumptions C16_surrogate_refuted.

(** C17.  Whatever the cells hold, ESC occurs only in the agent's own control sequences,
    each complete; in plain mode only colour sequences, and only if asked for. *)
Theorem C17_clean plain useColor ops t' : Forall top_wf ops -> run_tops (E := unit) ops (new_term plain useColor) = Ok t' ->
  clean_stream (finals plain useColor) (t_out t').
Proof. exact (ops_clean plain useColor ops t'). Qed.
Theorem C17_plain ops t' : Forall top_wf ops -> run_tops (E := unit) ops (new_term true false) = Ok t' -> ~ In 27 (t_out t').
Proof. exact (plain_no_esc ops t'). Qed.
Print Assumptions C17_clean. Print Assumptions C17_plain.
(** Cells holding an escape sequence *)
Example C17_example :
  let l := [mkCell 27 7; mkCell 91 7; mkCell 109 7] in Forall top_wf [TSend 0 l (-1)] /\
  match run_tops (E := unit) [TSend 0 l (-1)] (new_term false true) with Ok t => t_out t = csi (str "0m") ++ str "?[" ++ csi (str "0K") ++ str "m" | _ => False end /\
  match run_tops (E := unit) [TSend 0 l (-1)] (new_term true false) with Ok t => t_out t = str "?[m" | _ => False end.
Proof. split; [repeat constructor; cbn; lia|]. split; vm_compute; reflexivity. Qed.

(** C18.  The colour sequence of an attribute word selects its documented rendition
    whatever the rendition was before. *)
Theorem C18_color te s a : 0 <= a < 65536 -> s_ps s = PGround -> feed te s (outputSetColor (Z.land a COLOR_ATTRIBUTE_MASK)) = set_rend (rend_of a) s.
Proof. exact (color_feed te s a). Qed.
Print Assumptions C18_color.
(** Bright red on blue, underlined, over an inverted rendition *)
Example C18_example : outputSetColor (Z.land 0x801C COLOR_ATTRIBUTE_MASK) = csi (str "0;31;91;44;4m")
  /\ s_rend (feed ex_te (set_rend (mkRend 3 4 true false true true) ex_s0) (csi (str "0;31;91;44;4m"))) = mkRend 9 4 false true false false
  /\ rend_of 0x801C = mkRend 9 4 false true false false.
Proof. vm_compute. auto. Qed.

(** C19.  In histories where no reset happens while the cursor is hidden: a show leaves
    the cursor visible at the position given, a hide leaves it invisible, and repeating
    either sends nothing. *)
Theorem C19_show te s0 uc off t column line : tenv_ok te -> start_ok te s0 -> reach te s0 uc true off t -> reachable_row te s0 off t line -> 0 <= column < te_w te ->
  let s := screen te s0 (showTerminalCursor column line t) in s_mode s 25 = true /\ s_row s = off + line /\ s_col s = column.
Proof.
  intros Hte Hs0 Hr Hrow Hc. split; [exact (show_visible te s0 uc true Hte Hs0 off t column line eq_refl Hr Hrow Hc)|].
  destruct (show_places te s0 uc true Hte Hs0 off t column line Hr Hrow Hc) as (H1 & H2 & _). split; assumption.
Qed.
Theorem C19_hide te s0 uc off t : tenv_ok te -> start_ok te s0 -> reach te s0 uc true off t ->
  let s := screen te s0 (hideTerminalCursor t) in
  s_mode s 25 = false /\ s_cell s = s_cell (screen te s0 t) /\ s_row s = s_row (screen te s0 t) /\ s_col s = s_col (screen te s0 t).
Proof. intros Hte Hs0. exact (hide_hides te s0 uc true Hte Hs0 off t eq_refl). Qed.
Theorem C19_redundant te s0 uc off t : tenv_ok te -> start_ok te s0 -> reach te s0 uc true off t ->
  (s_mode (screen te s0 t) 25 = false -> hideTerminalCursor t = t) /\
  (forall column line, s_mode (screen te s0 t) 25 = true -> s_row (screen te s0 t) = off + line -> s_col (screen te s0 t) = column -> showTerminalCursor column line t = t).
Proof.
  intros Hte Hs0 Hr. split; [exact (hide_again te s0 uc true Hte Hs0 off t eq_refl Hr)|].
  intros column line. exact (show_again te s0 uc true Hte Hs0 off t column line eq_refl Hr).
Qed.
(** A reset while the cursor is hidden forgets that: a later show leaves it hidden. *)
Theorem C19_reset_refuted : exists t, run_tops (E := unit) [THide; TReset true 0; TShow 3 0] (new_term false true) = Ok t
  /\ s_mode (screen ex_te ex_s0 t) 25 = false /\ s_col (screen ex_te ex_s0 t) = 3.
Proof.
  destruct (run_tops (E := unit) [THide; TReset true 0; TShow 3 0] (new_term false true)) as [t| | | |] eqn:Et; try (vm_compute in Et; discriminate Et).
  exists t. split; [reflexivity|]. vm_compute in Et. injection Et as <-. vm_compute. auto.
Qed.
Print Assumptions C19_show. Print Assumptions C19_hide. Print Assumptions C19_redundant. Print Assumptions C19_reset_refuted.
(** Such a history, with a hidden cursor *)
Example C19_example : reach ex_te ex_s0 true true 0 (hideTerminalCursor (new_term false true)) /\ s_mode (screen ex_te ex_s0 (hideTerminalCursor (new_term false true))) 25 = false
  /\ reachable_row ex_te ex_s0 0 (hideTerminalCursor (new_term false true)) 2.
Proof.
  split; [|split; [reflexivity|split; vm_compute; congruence]].
  apply (reach_op ex_te ex_s0 true true 0 (new_term false true) THide); [exact (reach_new ex_te ex_s0 true true)|exact I|reflexivity|reflexivity|intros _; exact I].
Qed.

(** C41.  The terminal's mouse modes change only by switching operations, to the value
    asked for; a switch to the mode in effect sends nothing, and in plain mode nothing is
    ever sent. *)
Theorem C41_modes te s0 uc strict off t o t' m : tenv_ok te -> start_ok te s0 -> reach te s0 uc strict off t -> op_ok te s0 off t o -> run_top (E := unit) o t = Ok t' ->
  In m mouse_reporting -> (strict = true -> match o with TReset _ _ => t_hidden t = false | _ => True end) ->
  s_mode (screen te s0 t') m = match o with TMouse b => b | _ => s_mode (screen te s0 t) m end.
Proof. intros Hte Hs0. exact (mouse_follows te s0 uc strict Hte Hs0 off t o t' m). Qed.
Theorem C41_redundant te s0 uc strict off t b : tenv_ok te -> start_ok te s0 -> reach te s0 uc strict off t ->
  s_mode (screen te s0 t) 1000 = b -> enableMouseMode b t = t.
Proof.
  intros Hte Hs0 Hr Hm. destruct (reach_inv te Hte s0 uc strict Hs0 off t Hr) as (_ & _ & _ & _ & _ & _ & I7). rewrite (I7 1000) in Hm by (cbn; auto). 
  unfold enableMouseMode. rewrite Hm, Bool.eqb_reflx. reflexivity.
Qed.
Theorem C41_plain useColor ops t b : Forall top_wf ops -> run_tops (E := unit) ops (new_term true useColor) = Ok t -> t_out (enableMouseMode b t) = t_out t.
Proof. exact (plain_mouse useColor ops t b). Qed.
Print Assumptions C41_modes. Print Assumptions C41_redundant. Print Assumptions C41_plain.
Example C41_example :
  match run_tops (E := unit) [TMouse true; TMouse true; TSend 0 ex_line1 (-1); TMouse false] (new_term false false) with
  | Ok t => t_out t = mouse_on_seq ++ str "ab" ++ eol_seq ++ mouse_off_seq | _ => False end
  /\ match run_tops (E := unit) [TMouse true] (new_term false false) with Ok t => s_mode (screen ex_te ex_s0 t) 1003 = true | _ => False end.
Proof. split; vm_compute; reflexivity. Qed.
