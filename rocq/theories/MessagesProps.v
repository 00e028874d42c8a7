(** C66: the adapter's error messages are complete or absent, and always tell the code. *)
From Verif Require Import Base BaseLemmas Text StringsSpec UnicodeSpec Messages MessagesSpec MessagesProofs.

(** Converting a text for the terminal: the whole text, or nothing - never a part of it -
    and the whole text whenever the locale can express it in three bytes per unit. *)
Theorem C66_whole_or_nothing : forall conv text,
  (wcsToMbs conv text = [] \/ conv text = Some (wcsToMbs conv text)) /\
  (forall out, conv text = Some out -> zlen out <= 3 * zlen text -> wcsToMbs conv text = out).
Proof.
  intros conv text. split.
  - destruct (conv text) as [out|] eqn:E.
    + destruct (Z_le_gt_dec (zlen out) (3 * zlen text)) as [L|L].
      * right. unfold wcsToMbs. rewrite (heapWcsToMbs_ok _ _ _ E L). reflexivity.
      * left. unfold wcsToMbs. rewrite heapWcsToMbs_none; [reflexivity|]. intros o Eo. assert (o = out) by congruence. subst o. lia.
    + left. unfold wcsToMbs. rewrite heapWcsToMbs_none; [reflexivity|]. intros o Eo. congruence.
  - intros out E L. unfold wcsToMbs. rewrite (heapWcsToMbs_ok _ _ _ E L). reflexivity.
Qed.
Print Assumptions C66_whole_or_nothing.

(** In a UTF-8 locale every Unicode text fits, in both directions. *)
Theorem C66_utf8_fits : forall down up cps, Forall scalar cps ->
  down (utf16 cps) = Some (utf8 cps) -> up (utf8 cps) = Some (utf16 cps) ->
  wcsToMbs down (utf16 cps) = utf8 cps /\ heapMbsToWcs up (utf8 cps) = Ok (utf16 cps).
Proof.
  intros down up cps F D U. pose proof (text_lengths cps) as (L1 & L2). pose proof (zlen_nonneg (utf8 cps)). split.
  - unfold wcsToMbs. rewrite (heapWcsToMbs_ok down _ _ D) by lia. reflexivity.
  - apply (heapMbsToWcs_ok up _ _ U). lia.
Qed.
Print Assumptions C66_utf8_fits.

(** Converting for Windows: the whole text or an assertion failure. *)
Theorem C66_arguments_whole : forall conv text,
  heapMbsToWcs conv text = AssertFail /\ (forall out, conv text = Some out -> 2 * zlen text < zlen out) \/
  exists out, conv text = Some out /\ zlen out <= 2 * zlen text /\ heapMbsToWcs conv text = Ok out.
Proof.
  intros conv text. destruct (conv text) as [out|] eqn:E.
  - destruct (Z_le_gt_dec (zlen out) (2 * zlen text)) as [L|L].
    + right. exists out. splits; auto. apply heapMbsToWcs_ok; auto.
    + left. split; [|intros o Eo; assert (o = out) by congruence; subst o; lia]. apply heapMbsToWcs_bad. intros o Eo. assert (o = out) by congruence. subst o. lia.
  - left. split; [|intros o Eo; congruence]. apply heapMbsToWcs_bad. intros o Eo. congruence.
Qed.
Print Assumptions C66_arguments_whole.

(** A failed start: the program's name, the command line, the system's text without
    trailing blanks if there is one, and the code; or the library's message. *)
Theorem C66_spawn_message : forall conv sys argv0 cmdLine spawnCode lastError errorMsg, 0 <= lastError < 2 ^ 32 ->
  exists reason, spawnMessage conv sys argv0 cmdLine spawnCode lastError errorMsg =
      Ok (argv0 ++ str ": error: cannot start '" ++ cmdLine ++ str "': " ++ reason ++ [10]) /\
    (spawnCode <> 2 -> reason = str "internal error: " ++ wcsToMbs conv errorMsg) /\
    (spawnCode = 2 -> exists text code, shown_code lastError code /\
       match sys lastError with Some w => trimmed (wcsToMbs conv w) text | None => text = [] end /\
       (text = [] /\ reason = str "error " ++ code \/ text <> [] /\ reason = text ++ str " (error " ++ code ++ str ")")).
Proof.
  intros conv sys argv0 cmdLine spawnCode lastError errorMsg R. unfold spawnMessage. destruct (Z.eqb_spec spawnCode SPAWN_CREATE_PROCESS_FAILED) as [->|N].
  - destruct (format_ok conv sys lastError R) as (code & S & ->). cbn [bind]. eexists. split; [reflexivity|]. split; [intros K; unfold SPAWN_CREATE_PROCESS_FAILED in K; congruence|].
    intros _. exists (errorMessageToString conv sys lastError), code. splits; auto.
    + unfold errorMessageToString. destruct (sys lastError) as [w|]; [|reflexivity]. exact (trim_ok (wcsToMbs conv w)).
    + destruct (errorMessageToString conv sys lastError); [left; auto|right; split; [discriminate|reflexivity]].
  - exists (str "internal error: " ++ wcsToMbs conv errorMsg). split; [rewrite <- (app_assoc (str "internal error: ")); reflexivity|]. split; [reflexivity|]. intros K. unfold SPAWN_CREATE_PROCESS_FAILED in N. congruence.
Qed.
Print Assumptions C66_spawn_message.

(** Whatever the system's texts, the message of a failed start tells the code. *)
Theorem C66_code_told : forall conv1 sys1 conv2 sys2 argv0 cmdLine e1 e2 m1 m2 t, 0 <= e1 < 2 ^ 32 -> 0 <= e2 < 2 ^ 32 ->
  spawnMessage conv1 sys1 argv0 cmdLine 2 e1 m1 = Ok t -> spawnMessage conv2 sys2 argv0 cmdLine 2 e2 m2 = Ok t -> e1 = e2.
Proof.
  intros conv1 sys1 conv2 sys2 argv0 cmdLine e1 e2 m1 m2 t R1 R2 E1 E2.
  destruct (C66_spawn_message conv1 sys1 argv0 cmdLine 2 e1 m1 R1) as (r1 & F1 & _ & G1). destruct (G1 eq_refl) as (t1 & c1 & S1 & _ & K1).
  destruct (C66_spawn_message conv2 sys2 argv0 cmdLine 2 e2 m2 R2) as (r2 & F2 & _ & G2). destruct (G2 eq_refl) as (t2 & c2 & S2 & _ & K2).
  rewrite F1 in E1. rewrite F2 in E2. rewrite <- E2 in E1.
  assert (X : argv0 ++ str ": error: cannot start '" ++ cmdLine ++ str "': " ++ r1 ++ [10] = argv0 ++ str ": error: cannot start '" ++ cmdLine ++ str "': " ++ r2 ++ [10]) by congruence.
  repeat apply app_inv_head in X. apply app_inv_tail in X. clear E1 E2 F1 F2 G1 G2.
  assert (Z : forall r (tx c : list Z) v, shown_code v c -> (tx = [] /\ r = str "error " ++ c \/ tx <> [] /\ r = tx ++ str " (error " ++ c ++ str ")") ->
     exists a u, r = a ++ 32 :: u /\ ~ In 32 u /\ (u = c \/ u = c ++ [41])).
  { intros r tx c v S [(-> & ->)|(_ & ->)].
    - exists (str "error"), c. splits; [reflexivity|exact (shown_code_clean v c S)|left; reflexivity].
    - exists (tx ++ str " (error"), (c ++ [41]). splits; [rewrite <- app_assoc; reflexivity| |right; reflexivity].
      intros K. apply in_app_or in K. destruct K as [K|[K|[]]]; [exact (shown_code_clean v c S K)|discriminate K]. }
  destruct (Z r1 t1 c1 e1 S1 K1) as (a1 & u1 & -> & N1 & U1). destruct (Z r2 t2 c2 e2 S2 K2) as (a2 & u2 & -> & N2 & U2). destruct (last_word 32 _ _ _ _ N1 N2 X) as (_ & ->).
  apply (shown_code_inj e1 e2 c1 S1). replace c1 with c2; [exact S2|].
  destruct U1 as [U1|U1], U2 as [U2|U2].
  - congruence.
  - exfalso. apply (shown_code_last e1 c1 S1). rewrite <- U1, U2. apply in_or_app. right. left. reflexivity.
  - exfalso. apply (shown_code_last e2 c2 S2). rewrite <- U2, U1. apply in_or_app. right. left. reflexivity.
  - rewrite U1 in U2. apply app_inv_tail in U2. congruence.
Qed.
Print Assumptions C66_code_told.

(** A failed winpty_open *)
Theorem C66_open_message : forall conv errorMsg, exists m, openMessage conv errorMsg = str "Error creating winpty: " ++ m ++ [10] /\
  (m = [] \/ conv errorMsg = Some m) /\ (forall out, conv errorMsg = Some out -> zlen out <= 3 * zlen errorMsg -> m = out).
Proof. intros conv errorMsg. exists (wcsToMbs conv errorMsg). split; [reflexivity|]. exact (C66_whole_or_nothing conv errorMsg). Qed.
Print Assumptions C66_open_message.

Definition ascii_only (l : list Z) : option (list Z) := if forallb (fun c => c <? 128) l then Some l else None.
Example C66_holds_somewhere :
  spawnMessage ascii_only (fun e => if e =? 2 then Some (str "The system cannot find the file specified." ++ [13; 10]) else None) (str "winpty") (str "a.exe b") 2 2 [] =
    Ok (str "winpty: error: cannot start 'a.exe b': The system cannot find the file specified. (error 0x2)" ++ [10]) /\
  spawnMessage ascii_only (fun _ => Some [0xE9]) (str "winpty") (str "x") 2 0xC0000142 [] = Ok (str "winpty: error: cannot start 'x': error 0xc0000142" ++ [10]) /\
  spawnMessage ascii_only (fun _ => None) (str "w") (str "x") 4 0 (str "lost connection") = Ok (str "w: error: cannot start 'x': internal error: lost connection" ++ [10]) /\
  utf16 [0x1F600; 233] = [0xD83D; 0xDE00; 233] /\ wcsToMbs (fun _ => Some (utf8 [0x1F600; 233])) (utf16 [0x1F600; 233]) = [0xF0; 0x9F; 0x98; 0x80; 0xC3; 0xA9] /\
  wcsToMbs (fun _ => Some [1; 2; 3; 4]) [5] = [].
Proof. splits; vm_compute; reflexivity. Qed.
