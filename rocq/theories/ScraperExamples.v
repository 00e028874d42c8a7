(** Concrete consoles and programs for ScraperProps.v and FreezeProps.v. *)
From Coq Require Import Lia.
From Verif Require Import Base SmallRect ConsoleLine Console LargeRead Scraper AgentConsole ScraperSpec.

Definition console_okb (b : cbuf) : bool :=
  (1 <=? b_w b) && (b_w b <=? 32767) && (1 <=? b_h b) && (b_h b <=? 32767) &&
  (0 <=? rLeft (b_win b)) && (rLeft (b_win b) <=? rRight (b_win b)) && (rRight (b_win b) <? b_w b) &&
  (0 <=? rTop (b_win b)) && (rTop (b_win b) <=? rBottom (b_win b)) && (rBottom (b_win b) <? b_h b) &&
  (0 <=? co_x (b_cur b)) && (co_x (b_cur b) <? b_w b) && (0 <=? co_y (b_cur b)) && (co_y (b_cur b) <? b_h b) &&
  (1 <=? co_x (b_largest b)) && (co_x (b_largest b) <=? 32767) && (1 <=? co_y (b_largest b)) && (co_y (b_largest b) <=? 32767).
Lemma console_okb_ok b : console_okb b = true -> console_ok b.
Proof. unfold console_okb, console_ok. lia. Qed.
(** A program that does [f], if the result is a console *)
Definition safely (f : cbuf -> cbuf) (b : cbuf) : cbuf := if console_okb (f b) then f b else b.
Lemma safely_ok fs : programs_ok (map safely fs).
Proof.
  unfold programs_ok. apply Forall_forall. intros g Hg. apply in_map_iff in Hg as (f & <- & _). intros b Hb. unfold safely. destruct (console_okb (f b)) eqn:E; [apply console_okb_ok; exact E|exact Hb].
Qed.

(** Programs: do nothing for [n] turns; move the window; scroll everything up; a new size *)
Definition wait (n : Z) : list (cbuf -> cbuf) := zrepeat (fun b => b) n.
Definition window_to (l t r bt : Z) (b : cbuf) : cbuf := set_cur (mkCoord l t) (set_win (mkRect l t r bt) b).
Definition scroll_by (n : Z) (b : cbuf) : cbuf := set_cells (fun y x => b_cells b (y + n) x) b.
Definition buffer_size (w h : Z) (win : srect) (b : cbuf) : cbuf := set_cur (mkCoord (rLeft win) (rTop win)) (set_win win (set_size w h b)).

Definition buf0 : cbuf := mkBuf 80 25 (mkRect 0 0 79 24) (mkCoord 0 0) (fun _ _ => mkCell 32 7) (mkCoord 200 1000) 437 3 true.
Definition cfg0 (new strict : bool) : cfg := mkCfg new true (fun _ => zrepeat (mkCell 0 0) 3000) strict.
Definition world0 (fs : list (cbuf -> cbuf)) : world := mkW buf0 false false false 0 (map safely fs) [] [].
Lemma cfg0_ok new strict : cfg_ok (cfg0 new strict).
Proof. intros w. vm_compute. reflexivity. Qed.
Lemma world0_ok fs : world_ok (world0 fs).
Proof. split; [apply console_okb_ok; reflexivity|]. split; [apply safely_ok|split; reflexivity]. Qed.

(** How many turns the programs have had *)
Definition turns (fs : list (cbuf -> cbuf)) (r : res broken (agent * world)) : Z :=
  match r with Ok (_, w) => zlen fs - zlen (w_env w) | _ => -1 end.
Definition show (r : res broken (agent * world)) :=
  match r with
  | Ok (a, w) => Ok (s_syncRow (a_prim a), s_scrolled (a_prim a), s_scraped (a_prim a), s_direct (a_prim a), b_win (w_buf w), (b_w (w_buf w), b_h (w_buf w)), w_frozen w)
  | Throw e => Throw e | AssertFail => AssertFail | UB => UB | OutOfFuel => OutOfFuel
  end.
