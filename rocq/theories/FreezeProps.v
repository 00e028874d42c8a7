(** C36: the console is never left frozen.  C49: the new Windows 10 console is recognised.

    [w_sel] is whether the console really is in selection mode, [w_frozen] what the agent
    believes, [w_esc] how many ESC keys were typed into programs because there was no
    selection to end. *)
From Verif Require Import Base SmallRect ConsoleLine Console LargeRead TerminalSpec Scraper AgentConsole Freeze ScraperSpec ScraperExamples ScraperProofs FreezeProofs.

Definition same_freeze (w w' : world) : Prop := w_frozen w' = w_frozen w /\ w_sel w' = w_sel w /\ w_esc w' = w_esc w.
Lemma settled_same w w' : w_sel w = w_frozen w -> settled (w_esc w, w_env w) w' -> w_frozen w' = w_frozen w -> same_freeze w w'.
Proof. intros A (B & C & _) D. cbn [fst] in C. unfold same_freeze. split; [exact D|]. split; congruence. Qed.

(** A poll, whatever happens meanwhile *)
Theorem C36_scrape : forall c a w r a' w', w_sel w = w_frozen w -> agentScrape c a w = Ok (r, a', w') -> same_freeze w w'.
Proof.
  intros c a w r a' w' H E. pose proof (agentScrape_inv (w_esc w, w_env w) c a w (conj H (conj eq_refl (incl_refl _)))) as Q. rewrite E in Q. destruct Q. apply settled_same; assumption.
Qed.
Print Assumptions C36_scrape.
(** A resize *)
Theorem C36_resize : forall c cols rows a w r z a' w', w_sel w = w_frozen w -> agentResize c cols rows a w = Ok (r, z, a', w') -> same_freeze w w'.
Proof.
  intros c x y a w r z a' w' H E. pose proof (agentResize_inv (w_esc w, w_env w) c x y a w (conj H (conj eq_refl (incl_refl _)))) as Q. rewrite E in Q. destruct Q. apply settled_same; assumption.
Qed.
Print Assumptions C36_resize.
(** Any history *)
Theorem C36_history : forall c ks a w a' w', w_sel w = w_frozen w -> run_calls c ks a w = Ok (a', w') -> same_freeze w w'.
Proof.
  intros c ks a w a' w' H E. pose proof (calls_inv (w_esc w, w_env w) c ks a w (conj H (conj eq_refl (incl_refl _)))) as Q. rewrite E in Q. destruct Q. apply settled_same; assumption.
Qed.
Print Assumptions C36_history.
(** Guards, with any code inside, nested to any depth *)
Theorem C36_guard : forall b body w, w_sel w = w_frozen w -> same_freeze w (run_code (CGuard b body) w).
Proof. intros b body w H. destruct (guard_restores (w_esc w, w_env w) b body w (conj H (conj eq_refl (incl_refl _)))). apply settled_same; assumption. Qed.
Print Assumptions C36_guard.

Example guard_example : w_frozen (run_code (CGuard true (CSeq (CGuard false (CSeq CCall (CSet true))) (CSet false))) (world0 (wait 5))) = false.
Proof. vm_compute. reflexivity. Qed.
(** A run in which the console is really frozen: an old console, with the error buffer *)
Example scrape_example : match agentNew (cfg0 false false) 20 25 (Some buf0) (world0 (wait 50)) with
  | Ok (a, w) => match agentScrape (cfg0 false false) a w with
                 | Ok (_, _, w') => w_frozen (setFrozen true w) = true /\ same_freeze w w'
                 | _ => False end
  | _ => False end.
Proof. vm_compute. auto. Qed.

(** C49.  At the agent's start no other program is in the console.  On Windows 8 and later
    the agent's conclusion is right; on earlier ones it is "not new".  Afterwards the console
    is not frozen, is frozen by Select All from then on, and has had no ESC typed. *)
Theorem C49_detect : forall E w8 new w,
  w_env w = [] -> console_ok (w_buf w) -> w_sel w = false -> w_frozen w = false -> w_mark w = false ->
  (rLeft (b_win (w_buf w)) < rRight (b_win (w_buf w)) \/ rTop (b_win (w_buf w)) < rBottom (b_win (w_buf w))) ->
  exists w', @detectNewWindows10Console E w8 new w = Ok (w8 && new, w') /\
    w_frozen w' = false /\ w_sel w' = false /\ w_mark w' = false /\ w_esc w' = w_esc w /\ b_win (w_buf w') = b_win (w_buf w).
Proof.
  intros E w8 new w He C Hs Hf Hm Hw. destruct (@detect_right E w8 new w He C Hs Hf Hw) as (w' & Q & T). exists w'. split; [exact Q|].
  destruct w8; [destruct T as (T1 & T2 & T3 & T4 & _ & T6); auto|]. subst w'. auto.
Qed.
Print Assumptions C49_detect.
(** A window of a single cell is first made larger; that works if calls do not fail and the
    screen has room for two columns. *)
Theorem C49_single_cell : forall E new w,
  w_env w = [] -> w_fail w = [] -> console_ok (w_buf w) -> w_sel w = false -> w_frozen w = false ->
  rLeft (b_win (w_buf w)) = rRight (b_win (w_buf w)) -> rTop (b_win (w_buf w)) = rBottom (b_win (w_buf w)) -> 2 <= co_x (b_largest (w_buf w)) ->
  exists w', @detectNewWindows10Console E true new w = Ok (new, w') /\ w_frozen w' = false /\ w_sel w' = false /\ w_mark w' = false /\ w_esc w' = w_esc w.
Proof. intros E. exact (@detect_1x1 E). Qed.
Print Assumptions C49_single_cell.
Example detect_example : forall new, match @detectNewWindows10Console unit true new (world0 []) with Ok (r, w') => r = new /\ w_frozen w' = false | _ => False end.
Proof. intros []; vm_compute; auto. Qed.
