(** Property C69. *)
From Verif Require Import Base BaseLemmas Text ConsoleFont ConsoleFontSpec ConsoleFontProofs WinVersion WinVersionSpec FontApi FontApiSpec FontApiProofs.

(** C69: making the font small never fails an assertion, never calls a function the system
    does not have, loads only kernel32 and frees it as often, used only while loaded. *)
Theorem C69_safe : forall os columns isNewW10, fo_load os = true -> 1 <= columns <= 49000000 ->
  exists l, setSmallFont os columns isNewW10 = Ok l /\ only_existing os l /\ only_kernel32 l /\ well_used [] (modules l).
Proof.
  intros os c n L C. assert (G : exists l, setSmallFont os c n = Ok l /\ closed os l).
  { destruct (vistaValid os) eqn:V; [destruct (small_vista os c n L C V) as (l & _ & _ & E & K & _); eauto|].
    destruct (xpValid os) eqn:X; [destruct (small_xp os c n L V X) as (l & E & K & _); eauto|destruct (small_none os c n L V X) as (l & E & K & _); eauto]. }
  destruct G as (l & E & A & B & W). exists l. splits; auto. specialize (W [] [] eq_refl). rewrite app_nil_r in W. exact W.
Qed.
Print Assumptions C69_safe.

(** C69: the newer functions are used where they exist, then never the undocumented ones;
    where neither kind is complete the font is left alone. *)
Theorem C69_which : forall os columns isNewW10 l, fo_load os = true -> 1 <= columns <= 49000000 -> setSmallFont os columns isNewW10 = Ok l ->
  (has_vista os -> asks l <> [] /\ tries l = [] /\ ~ calls (str "SetConsoleFont") l) /\
  (~ has_vista os -> asks l = []) /\
  (~ has_vista os -> ~ has_xp os -> tries l = []).
Proof.
  intros os c n l L C E. rewrite has_vista_valid, has_xp_valid. destruct (vistaValid os) eqn:V.
  - destruct (small_vista os c n L C V) as (l' & asked & cur & E' & _ & S & A & T & N). assert (l' = l) as -> by congruence. split; [|split; intros K; destruct (K eq_refl)].
    intros _. split; [|split; [exact T|exact N]]. rewrite A. destruct (vista (accepted os) (fo_codePage os) c n (fo_w8 os) C) as (a1 & c1 & E1 & fc & f & _ & K1 & K2 & K3).
    assert (a1 = asked) as -> by congruence. destruct (accepted os fc (f_size f)).
    + destruct (K1 eq_refl) as (-> & _). discriminate.
    + destruct (in_dec Z.eq_dec (fo_codePage os) [932; 936; 949; 950]) as [I0|I0]; [destruct (K3 eq_refl I0) as (g & _ & -> & _); discriminate|destruct (K2 eq_refl I0) as (-> & _); discriminate].
  - split; [discriminate|]. destruct (xpValid os) eqn:X.
    + destruct (small_xp os c n L V X) as (l' & E' & _ & A & T). assert (l' = l) as -> by congruence. split; [intros _; exact A|intros _ K; destruct (K eq_refl)].
    + destruct (small_none os c n L V X) as (l' & E' & _ & A & T). assert (l' = l) as -> by congruence. split; intros; assumption.
Qed.
Print Assumptions C69_which.

(** C69: the console is asked for the selected font by a well-formed request; only if it
    does not confirm it, and only with an East Asian code page, it is asked for Lucida
    Console next; nothing else is asked for. *)
Theorem C69_requests : forall os columns isNewW10 l, fo_load os = true -> 1 <= columns <= 49000000 -> has_vista os ->
  (forall r got, fo_get os r = Some got -> zlen got = 32) -> setSmallFont os columns isNewW10 = Ok l ->
  exists fc f r, selectSmallFont (fo_codePage os) columns isNewW10 (fo_w8 os) = Ok (fc, f) /\ request fc (f_size f) r /\
    (confirmed os fc r -> asks l = [r]) /\
    (~ In (fo_codePage os) [932; 936; 949; 950] -> asks l = [r]) /\
    (~ confirmed os fc r -> In (fo_codePage os) [932; 936; 949; 950] -> exists g r2,
       selectSmallFont 0 columns isNewW10 (fo_w8 os) = Ok (LucidaConsole, g) /\ request LucidaConsole (f_size g) r2 /\ asks l = [r; r2]).
Proof.
  intros os c n l L C H W E. apply has_vista_valid in H. destruct (small_vista os c n L C H) as (l' & asked & cur & E' & _ & S & A & _). assert (l' = l) as -> by congruence.
  destruct (vista (accepted os) (fo_codePage os) c n (fo_w8 os) C) as (a1 & c1 & E1 & fc & f & Sel & K1 & K2 & K3). assert (a1 = asked) as -> by congruence.
  assert (Acc : accepted os fc (f_size f) = true <-> confirmed os fc (req fc (f_size f))).
  { destruct (setFont_ok os fc (f_size f) H) as (b & l1 & F & _ & _ & _ & _ & B). unfold accepted. rewrite F. exact (B W). }
  exists fc, f, (req fc (f_size f)). split; [exact Sel|]. split; [apply req_ok|]. rewrite A. destruct (accepted os fc (f_size f)).
  - destruct (K1 eq_refl) as (-> & _). splits; try reflexivity. intros N _. destruct N. apply Acc. reflexivity.
  - splits.
    + intros K. apply Acc in K. discriminate K.
    + intros N. destruct (K2 eq_refl N) as (-> & _). reflexivity.
    + intros _ I0. destruct (K3 eq_refl I0) as (g & G1 & -> & _). exists g, (req LucidaConsole (f_size g)). split; [exact G1|]. split; [apply req_ok|reflexivity].
Qed.
Print Assumptions C69_requests.

(** C69: on older systems only fonts the console lists and that are at least 4 pixels wide
    are tried. *)
Theorem C69_tries : forall os columns isNewW10 l, fo_load os = true -> 1 <= columns <= 49000000 -> ~ has_vista os -> has_xp os ->
  sorted_table (readFontTable (fo_size os) 0 (fo_count os)) (fo_sort os (readFontTable (fo_size os) 0 (fo_count os))) -> setSmallFont os columns isNewW10 = Ok l ->
  forall i, In i (tries l) -> listed (fo_size os) (Z.of_nat (fo_count os)) i /\ 4 <= fst (fo_size os i).
Proof.
  intros os c n l L C NV X (P & _) E i I0. rewrite has_vista_valid in NV. apply has_xp_valid in X. assert (V : vistaValid os = false) by (destruct (vistaValid os); [destruct (NV eq_refl)|reflexivity]).
  destruct (small_xp os c n L V X) as (l' & E' & _ & _ & T). assert (l' = l) as -> by congruence. rewrite T in I0.
  destruct (tryFonts (fo_reply os) (fo_sort os (readFontTable (fo_size os) 0 (fo_count os)))) as [tried cur] eqn:Y. destruct (try_in _ _ _ _ Y) as (Q & _). destruct (Q i I0) as (s & In1 & W).
  apply (Permutation.Permutation_in _ (Permutation.Permutation_sym P)) in In1. apply read_table in In1. destruct In1 as ((R & Z0) & ->). split; [|exact W]. split; [lia|]. intros j J. apply Z0. lia.
Qed.
Print Assumptions C69_tries.

(** C69: without tracing nothing is called but what sets the font and checks it: one call and
    at most one check for each font. *)
Theorem C69_untraced : forall os columns isNewW10 l, fo_load os = true -> 1 <= columns <= 49000000 -> fo_tracing os = false -> setSmallFont os columns isNewW10 = Ok l ->
  (has_vista os -> Forall (fun n => n = str "SetCurrentConsoleFontEx" \/ n = str "GetCurrentConsoleFontEx") (names l) /\
     times (str "SetCurrentConsoleFontEx") l = zlen (asks l) /\ times (str "GetCurrentConsoleFontEx") l <= zlen (asks l)) /\
  (~ has_vista os -> has_xp os -> times (str "SetConsoleFont") l = zlen (tries l) /\ times (str "GetCurrentConsoleFont") l <= zlen (tries l)) /\
  (~ has_vista os -> ~ has_xp os -> names l = []).
Proof.
  intros os c n l L C T E. destruct (untraced_ok os c n l L C T E) as (A & B & D). rewrite has_vista_valid, has_xp_valid. split; [exact A|].
  split; intros V X; destruct (vistaValid os); try (destruct (V eq_refl)); [exact (B eq_refl X)|]. apply (D eq_refl). destruct (xpValid os); [destruct (X eq_refl)|reflexivity].
Qed.
Print Assumptions C69_untraced.

(** C69: tracing does not change which fonts are asked for or tried. *)
Theorem C69_tracing : forall os columns isNewW10, fo_load os = true -> 1 <= columns <= 49000000 ->
  exists l1 l2, setSmallFont (with_tracing true os) columns isNewW10 = Ok l1 /\ setSmallFont (with_tracing false os) columns isNewW10 = Ok l2 /\
    asks l1 = asks l2 /\ tries l1 = tries l2.
Proof. exact tracing_ok. Qed.
Print Assumptions C69_tracing.

(** A Japanese Windows whose console refuses MS Gothic, with tracing *)
Definition japanese : font_os :=
  mkFont true true (fun n => negb (list_eqb n (str "SetConsoleFont"))) (fun i => if i <? 2 then (8, 12) else (0, 0)) 5
    (fun _ => true) (fun _ => Some (str "Lucida Console" ++ zrepeat 0 18)) (fun _ => XSet) (fun l => l) 932 true.
Example C69_holds_somewhere :
  fo_load japanese = true /\ has_vista japanese /\ (forall r got, fo_get japanese r = Some got -> zlen got = 32) /\
  exists l, setSmallFont japanese 80 false = Ok l /\ map q_y (asks l) = [7; 6].
Proof.
  splits; try reflexivity.
  - repeat split.
  - intros r got K. assert (got = str "Lucida Console" ++ zrepeat 0 18) as -> by (cbn [fo_get japanese] in K; congruence). reflexivity.
  - eexists. split; [vm_compute; reflexivity|vm_compute; reflexivity].
Qed.
