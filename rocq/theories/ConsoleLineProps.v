(** C15: changed lines are detected. *)
From Verif Require Import Base ConsoleLine ConsoleLineSpec ConsoleLineProofs.

(** For any history and any new line: the comparison does not fail, records the new line,
    reports 'unchanged' only if the terminal's row already shows the line, and does
    report 'unchanged' for a line equal to the recorded one. *)
Theorem C15_detect (E : Type) s r line : line_history s r -> 1 <= zlen line ->
  exists b s', @detectChangeAndSetLine E s line (zlen line) = Ok (b, s') /\ recorded s' = line /\
    (b = false -> shows r line) /\ (recorded s = line -> b = false).
Proof. exact (@detect_correct E s r line). Qed.
Print Assumptions C15_detect.
(** At every moment of every history the row shows the recorded line. *)
Theorem C15_shows s r : line_history s r -> shows r (recorded s).
Proof. exact (history_shows s r). Qed.
Print Assumptions C15_shows.
(** Stale cells: a line of four cells, shortened to two, then widened again with blanks:
    the two obscured cells reappear on a terminal that kept them, so the line must be,
    and is, sent again. *)
Example C15_example : let l4 := map (fun c => mkCell c 7) [65; 66; 67; 68] in let l2 := map (fun c => mkCell c 7) [65; 66] in
  exists s r, line_history s r /\ recorded s = l2 /\ holds r 3 = mkCell 68 7 /\
  match @detectChangeAndSetLine unit s (l2 ++ [mkCell 32 7; mkCell 32 7]) 4 with Ok (b, _) => b = true | _ => False end.
Proof.
  cbv zeta. set (l4 := map (fun c => mkCell c 7) [65; 66; 67; 68]). set (l2 := map (fun c => mkCell c 7) [65; 66]).
  exists (mkCline 2 l4), (sent l2 (sent l4 (mkRow nothing 7))). split; [|repeat split; vm_compute; reflexivity].
  apply (h_detect (mkCline 4 l4) (sent l4 (mkRow nothing 7)) l2 true); [|vm_compute; discriminate|vm_compute; reflexivity].
  apply (h_detect newLine (mkRow nothing 7) l4 true); [apply (h_new 7)|vm_compute; discriminate|vm_compute; reflexivity].
Qed.
