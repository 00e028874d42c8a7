(** C65: the adapter's --showkey shows every byte typed, unambiguously. *)
From Verif Require Import Base BaseLemmas Text StringsSpec ShowKey ShowKeySpec ShowKeyProofs.

(** What is printed: for every read, its bytes in caret notation and then a line for each
    with its value in three bases. *)
Theorem C65_output : forall rs, reads_ok rs -> exists seen lines, taken rs seen /\ Forall2 (Forall2 three_ways) seen lines /\
  debugShowKeyText rs = Ok ([10] ++ str "Press any keys -- Ctrl-D exits" ++ [10; 10] ++
    concat (map (fun x => concat (map caret (fst x)) ++ concat (snd x)) (combine seen lines))).
Proof.
  intros rs F. destruct (showKeys_ok rs F) as (seen & T & E). exists seen, (map (map byteLine) seen). split; [exact T|]. pose proof (taken_sub rs seen T F) as G. split.
  - clear -G. induction G as [|r seen (N & B) G IH]; cbn [map]; constructor; [|exact IH].
    clear N. induction B as [|b r B1 B IHB]; cbn [map]; constructor; [exact (byteLine_ok b B1)|exact IHB].
  - unfold debugShowKeyText. rewrite E. cbn [bind]. do 5 f_equal. clear. induction seen as [|r seen IH]; [reflexivity|]. cbn [map combine concat fst snd]. rewrite IH. reflexivity.
Qed.
Print Assumptions C65_output.

(** Two sessions that print the same have read the same bytes, in the same pieces. *)
Theorem C65_faithful : forall r1 r2 t, reads_ok r1 -> reads_ok r2 -> debugShowKeyText r1 = Ok t -> debugShowKeyText r2 = Ok t ->
  exists seen, taken r1 seen /\ taken r2 seen.
Proof.
  intros r1 r2 t F1 F2 E1 E2. destruct (showKeys_ok r1 F1) as (s1 & T1 & K1). destruct (showKeys_ok r2 F2) as (s2 & T2 & K2).
  unfold debugShowKeyText in E1, E2. rewrite K1 in E1. rewrite K2 in E2. cbn [bind] in E1, E2. rewrite <- E2 in E1.
  assert (E : concat (map readText s1) = concat (map readText s2)) by (injection E1 as E1; exact E1).
  exists s1. split; [exact T1|]. rewrite (readTexts_inj s1 s2 (taken_sub _ _ T1 F1) (taken_sub _ _ T2 F2) E). exact T2.
Qed.
Print Assumptions C65_faithful.

(** "Ctrl-D exits" holds only for a Ctrl-D at the beginning of a read: one that arrives
    together with an earlier byte is shown but does not end the mode. *)
Theorem C65_ctrl_d_refuted : exists rs t, reads_ok rs /\ In 4 (hd [] rs) /\ debugShowKeyText rs = Ok t /\
  forall rs' t', rs' = firstn 1 rs -> debugShowKeyText rs' = Ok t' -> t <> t'.
Proof.
  exists [[97; 4]; [98]]. eexists. splits; [|right; left; reflexivity|vm_compute; reflexivity|].
  - repeat (apply Forall_cons; [split; [discriminate|repeat (apply Forall_cons; [lia|]); apply Forall_nil]|]). apply Forall_nil.
  - intros rs' t' -> E K. vm_compute in E. rewrite <- K in E. discriminate E.
Qed.
Print Assumptions C65_ctrl_d_refuted.

Example C65_holds_somewhere :
  reads_ok [[27; 91; 65]; [200]; [4; 97]; [98]] /\
  debugShowKeyText [[27; 91; 65]; [200]; [4; 97]; [98]] =
    Ok ([10] ++ str "Press any keys -- Ctrl-D exits" ++ [10; 10] ++
        str "^[[A" ++ [9] ++ str " 27 0033 0x1b" ++ [10; 9] ++ str " 91 0133 0x5b" ++ [10; 9] ++ str " 65 0101 0x41" ++ [10] ++
        [200; 9] ++ str "200 0310 0xc8" ++ [10] ++
        str "^Da" ++ [9] ++ str "  4 0004 0x04" ++ [10; 9] ++ str " 97 0141 0x61" ++ [10]).
Proof.
  split; [|vm_compute; reflexivity].
  repeat (apply Forall_cons; [split; [discriminate|repeat (apply Forall_cons; [lia|]); apply Forall_nil]|]). apply Forall_nil.
Qed.
