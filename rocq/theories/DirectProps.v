(** C22: in full-screen mode the terminal shows the visible part of the window, and only
    what changed is sent.

    DirectSpec.v says what a terminal does with what it is sent ([replay]) and what a
    history of full-screen mode is ([full_screen]); ConsoleLineSpec.v says when a terminal
    row shows a console line ([shows], and [fills] if nothing else is in the row).  The screen buffer reads happen while other programs
    run, except where the console is frozen. *)
From Coq Require Import Lia.
From Verif Require Import Base BaseLemmas SmallRect SmallRectSpec SmallRectProofs TerminalSpec ConsoleLine ConsoleLineSpec Console LargeRead LargeReadSpec Scraper AgentConsole ScraperSpec ScraperExamples DirectSpec ScraperProofs DirectProofs.

(** The scrapers of a running agent, and its console, are as the theorems below ask. *)
Theorem C22_reachable : forall c cols rows eb ks w a w', world_ok w -> (forall b, eb = Some b -> console_ok b) -> run_agent c cols rows eb ks w = Ok (a, w') ->
  scraper_ok (a_prim a) /\ (forall es eb', a_err a = Some (es, eb') -> scraper_ok es /\ console_ok eb') /\ at_rest w'.
Proof. exact reachable_ok. Qed.
Print Assumptions C22_reachable.

(** After any history of polls, the terminal shows every line as it was last seen.  (The
    Windows 8 condition: the new console of Windows 10 is later than Windows 8.) *)
Theorem C22_screen : forall c s t last, (c_new c = true -> c_w8 c = true) -> full_screen c s t last ->
  forall k l, last k = Some l -> fills (cut (co_x (s_pty s)) (t k)) l.
Proof. intros c s t last Hc H. exact (full_shows c Hc s t last H). Qed.
Print Assumptions C22_screen.

(** A poll in full-screen mode.  It looks at every row of the visible part of the window;
    the rows it sends, with all their columns, are sent in order, at most once each.  A row
    that is not sent is shown already, and a row that is unchanged since it was last seen is
    not sent.  What is seen is what the console holds at the end of the poll: always if the
    console is frozen meanwhile, as all but new consoles are, and otherwise if the window's
    place has not left the screen buffer at the time. *)
Theorem C22_poll : forall c s t last w i s' w', (c_new c = true -> c_w8 c = true) -> full_screen c s t last -> at_rest w ->
  scrapeBuffer c s w = Ok (i, s', w') -> s_direct s' = true ->
  let r := shown_rect i (s_pty s') in
  exists sent visible,
    new_ops s s' = poll_ops i s' sent visible /\
    1 <= width_of r <= co_x (s_pty s') /\ 1 <= height_of r <= co_y (s_pty s') /\
    (forall k, 0 <= k < height_of r -> zlen (seen i s' k) = width_of r /\
       (sent k = false -> fills (cut (co_x (s_pty s')) (t k)) (seen i s' k)) /\
       (last k = Some (seen i s' k) -> sent k = false)) /\
    (c_new c = false -> i = info_of (w_buf w') /\ visible = b_visible (w_buf w')) /\
    (c_new c = false \/ in_buf (w_buf w') r = true -> words (w_buf w') -> exists mask, In mask masks /\
       forall k, 0 <= k < height_of r -> seen i s' k = expected_row (w_buf w') mask r (rTop r + k)).
Proof.
  intros c s t last w i s' w' Hc H W E Hd r. destruct (full_viewed c Hc s t last H) as (A & B & C & D).
  pose proof (sync_direct c false t s w W A Hc ltac:(intros _ _; exact C)) as Q. unfold scrapeBuffer in E. rewrite E in Q. cbn [ends] in Q.
  destruct (Q Hd) as (info & vis & s1 & Io & Sc & P1 & Ei & O1 & L1 & Ex). specialize (Ei eq_refl). subst info. destruct (Ex eq_refl) as (Ex1 & Ex2). clear Ex. rewrite B in *. cbn [orb negb] in L1.
  destruct Sc as (sd & S1 & S2 & S3 & S4 & S5 & S6). exists sd, vis. destruct S2 as ((S2 & S2' & _) & _).
  destruct (scrape_rect i (s_pty s') Io S2 S2') as (_ & _ & _ & R1 & R2). rewrite app_nil_r in O1.
  split; [apply new_ops_app; rewrite S1, O1; reflexivity|]. split; [exact R1|]. split; [exact R2|]. split; [|split; [exact Ex2|]].
  - intros k Hk. destruct (S5 k Hk) as (Z1 & bl & bl' & B1 & B2 & B3 & B4 & B5 & B6 & B7). split; [exact Z1|]. split; [exact B7|].
    intros Hl. destruct (D k _ Hl) as (bl0 & D1 & _ & D3). rewrite L1 in B1. apply B5. congruence.
  - intros Hin Hwd. apply Ex1; [|exact Hwd]. destruct Hin as [Hn|Hin]; [|exact Hin]. destruct (Ex2 Hn) as (Hi & _). subst i. unfold r, info_ok in *. cbn [info_of i_size i_win i_cur co_x co_y] in Io.
    destruct Io as (I1 & I2 & I3 & I4 & I5 & I6 & _). unfold in_buf, shown_rect, width_of, height_of in *. cbn [info_of i_win rLeft rTop rRight rBottom] in *. rewrite !Bool.andb_true_iff, !Z.leb_le, !Z.ltb_lt. lia.
Qed.
Print Assumptions C22_poll.

(** The start of full-screen mode: the terminal is cleared, and every row of the visible
    part of the window is sent. *)
Theorem C22_enter : forall c s w i s' w', (c_new c = true -> c_w8 c = true) -> scraper_ok s -> at_rest w ->
  scrapeBuffer c s w = Ok (i, s', w') -> s_direct s = false -> s_direct s' = true ->
  exists visible, new_ops s s' = [TReset true 0] ++ poll_ops i s' (fun _ => true) visible.
Proof.
  intros c s w i s' w' Hc A W E Hd0 Hd.
  pose proof (sync_direct c false (fun _ => mkRow nothing 7) s w W A Hc ltac:(intros _ Hx; congruence)) as Q. unfold scrapeBuffer in E. rewrite E in Q. cbn [ends] in Q.
  destruct (Q Hd) as (info & vis & s1 & Io & Sc & P1 & Ei & O1 & L1 & _). specialize (Ei eq_refl). subst info. rewrite Hd0 in *. cbn [orb negb] in L1.
  destruct Sc as (sd & S1 & S2 & S3 & S4 & S5 & S6). exists vis. apply new_ops_app. rewrite S1, O1, <- app_assoc. do 2 f_equal.
  assert (All : forall k, 0 <= k < height_of (shown_rect i (s_pty s')) -> sd k = true).
  { intros k Hk. destruct (S5 k Hk) as (_ & bl & bl' & B1 & _ & B3 & B4 & B5 & B6 & _). apply B6. unfold all_reset in L1. rewrite Forall_forall in L1.
    apply (L1 bl). unfold znth in B1. destruct (k <? 0); [discriminate|]. apply nth_error_In in B1. exact B1. }
  assert (Same : forall col line, sends i s' sd col line = sends i s' (fun _ => true) col line).
  { intros col line. unfold sends. rewrite !flat_map_concat_map. f_equal. apply map_ext_in. intros k Hk. apply LargeReadProofs.zseq_in in Hk. rewrite All by lia. reflexivity. }
  unfold poll_ops. cbv zeta. rewrite !Same. reflexivity.
Qed.
Print Assumptions C22_enter.

(** The cursor is shown at its place in the window, on a row and column that were sent. *)
Theorem C22_cursor : forall i s sent visible column line, In (TShow column line) (poll_ops i s sent visible) ->
  let r := shown_rect i (s_pty s) in
  column = co_x (i_cur i) - rLeft (i_win i) /\ line = co_y (i_cur i) - rTop (i_win i) /\
  0 <= column < width_of r /\ 0 <= line < height_of r /\ visible = true.
Proof.
  intros i s sent visible column line H r.
  assert (No : forall a b, ~ In (TShow column line) (sends i s sent a b)).
  { intros a b Hs. unfold sends in Hs. apply in_flat_map in Hs as (k & _ & Hs). destruct (sent k); [|destruct Hs]. destruct Hs as [Hs|[]]. discriminate. }
  unfold poll_ops in H. cbv zeta in H. destruct (cursor_seen i (s_pty s) visible) eqn:Ec.
  - apply in_app_or in H as [H|[H|[]]]; [destruct (No _ _ H)|]. injection H as <- <-. unfold cursor_seen in Ec. apply Bool.andb_true_iff in Ec as (Ev & Ec).
    apply contains_coord_spec in Ec. unfold cell_in in Ec. fold r in Ec |- *. unfold width_of, height_of. change (rLeft (i_win i)) with (rLeft r). change (rTop (i_win i)) with (rTop r).
    split; [reflexivity|]. split; [reflexivity|]. split; [lia|]. split; [lia|exact Ev].
  - apply in_app_or in H as [[H|[]]|H]; [discriminate|destruct (No _ _ H)].
Qed.
Print Assumptions C22_cursor.

(** An example: a program makes the screen buffer 30 x 4; the agent polls, the program
    changes one cell of the third row, and the agent polls again. *)
Definition small : cbuf -> cbuf := buffer_size 30 4 (mkRect 0 0 29 3).
Definition write_x : cbuf -> cbuf := fun b => set_cells (fun y x => if (y =? 2) && (x =? 5) then mkCell 88 7 else b_cells b y x) b.
Definition cfg1 : cfg := cfg0 false false.
Definition start1 : sst := fst (newScraper cfg1 (mkCoord 20 10) (world0 [])).
Definition console1 (f : cbuf -> cbuf) : world := mkW (f (small buf0)) false false false 0 [] [] [].
Definition poll_s (s : sst) (f : cbuf -> cbuf) : sst := match scrapeBuffer cfg1 s (console1 f) with Ok (_, s', _) => s' | _ => s end.
Definition poll_i (s : sst) (f : cbuf -> cbuf) : cinfo := match scrapeBuffer cfg1 s (console1 f) with Ok (i, _, _) => i | _ => info_of buf0 end.
Definition polled (s : sst) (f : cbuf -> cbuf) : bool := match scrapeBuffer cfg1 s (console1 f) with Ok _ => true | _ => false end.
Definition sst1 : sst := poll_s start1 (fun b => b).
Definition sst2 : sst := poll_s sst1 write_x.
Example two_polls : (exists t last, full_screen cfg1 sst2 t last /\ last 2 = Some (seen (poll_i sst1 write_x) sst2 2)) /\
  width_of (shown_rect (poll_i sst1 write_x) (s_pty sst2)) = 20 /\ height_of (shown_rect (poll_i sst1 write_x) (s_pty sst2)) = 4 /\
  zlen (new_ops start1 sst1) = 6 /\
  new_ops sst1 sst2 = [TSend 2 (zrepeat (mkCell 32 7) 5 ++ [mkCell 88 7] ++ zrepeat (mkCell 32 7) 14) (-1); TShow 0 0].
Proof.
  assert (P : forall s f s', s' = poll_s s f -> polled s f = true -> exists w', scrapeBuffer cfg1 s (console1 f) = Ok (poll_i s f, s', w')).
  { intros s f s'' ->. unfold polled, poll_i, poll_s. destruct (scrapeBuffer cfg1 s (console1 f)) as [[[i s'] w']| | | |]; try discriminate. intros _. exists w'. reflexivity. }
  assert (R : forall f, console_okb (f (small buf0)) = true -> at_rest (console1 f)).
  { intros f Hf. split; [apply console_okb_ok; exact Hf|]. split; [constructor|reflexivity]. }
  assert (Q1 : sst1 = poll_s start1 (fun b => b)) by (unfold sst1; reflexivity). assert (Q2 : sst2 = poll_s sst1 write_x) by (unfold sst2; reflexivity).
  destruct (P start1 (fun b => b) sst1 Q1 ltac:(vm_compute; reflexivity)) as (w1 & E1). destruct (P sst1 write_x sst2 Q2 ltac:(vm_compute; reflexivity)) as (w2 & E2).
  split; [|vm_compute; auto].
  assert (D1 : s_direct sst1 = true) by (vm_compute; reflexivity). assert (D2 : s_direct sst2 = true) by (vm_compute; reflexivity).
  assert (O1 : scraper_ok start1) by (vm_compute; intuition discriminate).
  pose proof (fs_enter cfg1 start1 (console1 (fun b => b)) (poll_i start1 (fun b => b)) sst1 w1 (fun _ => mkRow nothing 7) O1 (R (fun b => b) eq_refl) eq_refl E1 D1) as F1.
  pose proof (fs_poll cfg1 sst1 _ _ (console1 write_x) (poll_i sst1 write_x) sst2 w2 F1 (R write_x eq_refl) E2 D2) as F2.
  exists (replay (new_ops sst1 sst2) (replay (new_ops start1 sst1) (fun _ => mkRow nothing 7))), (look (poll_i sst1 write_x) sst2 (look (poll_i start1 (fun b => b)) sst1 (fun _ => None))).
  split; [exact F2|]. unfold look at 1. replace (height_of _) with 4 by (vm_compute; reflexivity). reflexivity.
Qed.
