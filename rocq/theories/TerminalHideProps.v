(** C19: the cursor does not run over the text while a line is drawn. *)
From Verif Require Import Base BaseLemmas Text ConsoleLine Terminal TerminalSpec TerminalFeed TerminalProofs TerminalProps TerminalHideProofs.

(** C19: if a line is sent whose text runs past the place where the cursor belongs, the
    cursor is switched off before the first cell changes, and is off afterwards. *)
Theorem C19_past te s0 uc off t line data cc txt : tenv_ok te -> start_ok te s0 -> reach te s0 uc true off t ->
  reachable_row te s0 off t line -> 1 <= zlen data <= te_w te -> line_text data txt -> Forall (showable te) txt -> cc <> -1 ->
  exists t', run_top (E := unit) (TSend line data cc) t = Ok t' /\
    (cc < s_col (screen te s0 t') -> s_mode (screen te s0 t') 25 = false /\
     exists a b, t_out t' = t_out t ++ a ++ b /\ s_mode (feed te s0 (t_out t ++ a)) 25 = false /\ s_cell (feed te s0 (t_out t ++ a)) = s_cell (screen te s0 t)).
Proof.
  intros Hte Hs0 Hr Hrow Hlen Hl Hs Hc. destruct (send_shows te s0 uc true Hte Hs0 off t line data cc txt Hr Hrow Hlen Hl Hs) as (t' & E & Hr' & _).
  exists t'. split; [exact E|]. intros Hp. destruct (position te s0 uc true Hte Hs0 off t' Hr') as (_ & P & _). rewrite P in Hp. destruct Hrow as (R1 & R2).
  destruct (send_hides te s0 uc Hte off t line data cc t' (reach_inv te Hte s0 uc true Hs0 off t Hr) R1 R2 E Hc Hp) as (H & D).
  destruct (reach_inv te Hte s0 uc true Hs0 off t' Hr') as (_ & _ & _ & _ & _ & I6 & _). rewrite (I6 eq_refl), H. split; [reflexivity|exact D].
Qed.
Print Assumptions C19_past.

(** A line of six cells while the cursor belongs into column 1: the cursor goes off first.
    With the cursor behind the text it stays visible. *)
Example C19_past_example : line_text ex_line2 ex_txt2 /\ Forall (showable ex_te) ex_txt2 /\
  match run_top (E := unit) (TSend 0 ex_line2 1) (new_term false false) with
  | Ok t => firstn 7 (t_out t) = csi (str "?25l") ++ str "a" /\ s_col (screen ex_te ex_s0 t) = 5 /\ s_mode (screen ex_te ex_s0 t) 25 = false
  | _ => False end /\
  match run_top (E := unit) (TSend 0 ex_line2 5) (new_term false false) with
  | Ok t => firstn 2 (t_out t) = str "ab" /\ s_mode (screen ex_te ex_s0 t) 25 = true
  | _ => False end.
Proof. split; [apply C16_example_text|]. split; [apply C16_example_text|]. vm_compute. repeat split; reflexivity. Qed.
