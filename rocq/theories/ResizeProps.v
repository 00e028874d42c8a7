(** C33: window resizing stays within the console's limits.

    [w_log] records every window and buffer size the agent asks the console for, together
    with the screen buffer at that moment. *)
From Verif Require Import Base BaseLemmas SmallRect ConsoleLine Console LargeRead Scraper AgentConsole ScraperSpec ScraperExamples ResizeSpec ScraperProofs ResizeProofs StreamSpec SetupProofs.

(** Every request made while an agent starts, in any console, whatever other programs do *)
Theorem C33_start : forall c cols rows eb w a w', world_ok w -> (forall b, eb = Some b -> console_ok b) -> agentNew c cols rows eb w = Ok (a, w') ->
  exists l, w_log w' = w_log w ++ l /\ Forall start_request_ok l.
Proof.
  intros c cols rows eb w a w' Hw Hb E.
  assert (W : winv w) by (destruct Hw as (A & B & C & D); exact (conj A (conj B (eq_trans C (eq_sym D))))).
  pose proof (agentNew_linv (w_log w) c cols rows eb w Hb (conj W (log_start _ _))) as Q.
  rewrite E in Q. apply Q.
Qed.
Print Assumptions C33_start.

(** What the start does when no other program interferes and no call fails, for the primary
    screen buffer and for that of stderr *)
Theorem C33_setup : forall c cols rows eb w, world_ok w -> (forall b, eb = Some b -> console_ok b) -> w_env w = [] -> w_fail w = [] -> 1 <= cols -> 1 <= rows ->
  exists a w', agentNew c cols rows eb w = Ok (a, w') /\ prepared (Z.min cols 2500) (Z.min rows 2000) (w_buf w) (w_buf w') /\
    match eb, a_err a with None, None => True | Some b, Some (_, b') => prepared (Z.min cols 2500) (Z.min rows 2000) b b' | _, _ => False end.
Proof.
  intros c cols rows eb w Hw Hb He Hf Hc Hr. destruct (start_up c cols rows eb w Hw Hb He Hf Hc Hr) as (a & w' & E & P & _ & _ & _ & _ & Q). exists a, w'. auto.
Qed.
Print Assumptions C33_setup.

(** Every request made afterwards: in any history of polls and resizes, to any sizes, with
    programs changing the console at any moment and calls failing at random *)
Theorem C33_requests : forall c cols rows eb ks w a w1 a' w', world_ok w -> (forall b, eb = Some b -> console_ok b) ->
  agentNew c cols rows eb w = Ok (a, w1) -> run_calls c ks a w1 = Ok (a', w') ->
  exists l, w_log w' = w_log w1 ++ l /\ Forall request_ok l.
Proof.
  intros c cols rows eb ks w a w1 a' w' Hw Hb E E2.
  assert (W : winv w) by (destruct Hw as (A & B & C & D); exact (conj A (conj B (eq_trans C (eq_sym D))))).
  pose proof (agentNew_linv (w_log w) c cols rows eb w Hb (conj W (log_start _ _))) as Q.
  rewrite E in Q. destruct Q as (Q1 & Q2 & _).
  pose proof (calls_linv (w_log w1) c ks a w1 Q1 (conj Q2 (log_start _ _))) as R. rewrite E2 in R. apply R.
Qed.
Print Assumptions C33_requests.

(** The effect of a resize when no other program interferes and no call fails, for the
    primary screen buffer and for that of stderr.  The reported window and size are those
    that result.  (Excluded: a window as high as a 3000 line buffer, which is higher than
    any the agent sets up.) *)
Theorem C33_effect : forall c cols0 rows0 eb ks w a0 w0 a w1 cols rows r z a' w',
  world_ok w -> (forall b, eb = Some b -> console_ok b) -> agentNew c cols0 rows0 eb w = Ok (a0, w0) -> run_calls c ks a0 w0 = Ok (a, w1) ->
  w_env w1 = [] -> w_fail w1 = [] ->
  (forall b, b = w_buf w1 \/ (exists es, a_err a = Some (es, b)) -> b_h b = 3000 -> rows_of (b_win b) < 3000) ->
  agentResize c cols rows a w1 = Ok (r, z, a', w') ->
  resized (Z.min cols 2500) (Z.min rows 2000) (w_buf w1) (w_buf w') /\
  match a_err a, a_err a' with None, None => True | Some (_, eb), Some (_, eb') => resized (Z.min cols 2500) (Z.min rows 2000) eb eb' | _, _ => False end /\
  r = b_win (w_buf w') /\ z = mkCoord (b_w (w_buf w')) (b_h (w_buf w')).
Proof.
  intros c cols0 rows0 eb ks w a0 w0 a w1 cols rows r z a' w' Hw Hb E E2 He Hf Hr E3.
  assert (W : winv w) by (destruct Hw as (A & B & C & D); exact (conj A (conj B (eq_trans C (eq_sym D))))).
  pose proof (agentNew_linv (w_log w) c cols0 rows0 eb w Hb (conj W (log_start _ _))) as Q.
  rewrite E in Q. destruct Q as (Q1 & Q2 & _).
  pose proof (calls_linv (w_log w0) c ks a0 w0 Q1 (conj Q2 (log_start _ _))) as R. rewrite E2 in R. destruct R as (R1 & R2 & _).
  pose proof (agentResize_effect c cols rows a w1 (conj R2 (conj He Hf)) R1 (Hr _ (or_introl eq_refl))) as P. rewrite E3 in P. apply P.
  intros es b Es. exact (Hr b (or_intror (ex_intro _ es Es))).
Qed.
Print Assumptions C33_effect.

(** Sizes below 1 are refused, by a deliberate abort, before the console is touched. *)
Theorem C33_zero : forall c cols rows a w, cols < 1 \/ rows < 1 -> agentResize c cols rows a w = AssertFail.
Proof.
  intros c x y a w H. unfold agentResize. replace ((1 <=? x) && (1 <=? y)) with false; [reflexivity|]. symmetry. apply Bool.andb_false_iff. rewrite !Z.leb_gt. exact H.
Qed.
Print Assumptions C33_zero.

(** "Always fits" does not hold without the exceptions in [window_ok]: if the console refuses
    the new buffer size, the agent still asks for the new window (the call then fails). *)
Definition refusing (fails : list bool) : world := mkW buf0 false false false 0 [] fails [].
Definition does_not_fit (q : request) : bool := match q with RMoveWindow r b => negb (valid_window b r) | _ => false end.
Theorem C33_fit_refuted : exists w, world_ok w /\
  match run_agent (cfg0 true false) 80 25 None [SetSize 100 30] w with Ok (_, w') => existsb does_not_fit (w_log w') = true | _ => False end.
Proof.
  exists (refusing [false; false; false; false; true]). split; [split; [apply console_okb_ok; reflexivity|split; [constructor|split; reflexivity]]|]. vm_compute. reflexivity.
Qed.
Print Assumptions C33_fit_refuted.

(** A request for 70000 x 70000 on a screen of 200 x 1000 cells *)
Definition is_size (q : request) : bool := match q with RRead _ => false | _ => true end.
Example huge : match run_agent (cfg0 false false) 20 25 (Some buf0) [Poll; SetSize 70000 70000] (world0 []) with
  | Ok (a, w) => cols_of (b_win (w_buf w)) = 200 /\ rows_of (b_win (w_buf w)) = 1000 /\ b_w (w_buf w) = 2500 /\ 10 <= zlen (filter is_size (w_log w))
  | _ => False end.
Proof. vm_compute. repeat split; discriminate. Qed.
Example zero : agentResize (cfg0 true false) 0 25 (mkAgent (fst (newScraper (cfg0 true false) (mkCoord 80 25) (world0 []))) None) (world0 []) = AssertFail.
Proof. apply C33_zero. left. reflexivity. Qed.
Example set_up : match agentNew (cfg0 false false) 300 25 (Some buf0) (world0 []) with
  | Ok (a, w) => b_w (w_buf w) = 300 /\ b_h (w_buf w) = 3000 /\ b_win (w_buf w) = mkRect 0 0 199 24
  | _ => False end.
Proof. vm_compute. auto. Qed.
