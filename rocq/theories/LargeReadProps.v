From Verif Require Import Base SmallRect ConsoleLine Console LargeRead LargeReadSpec LargeReadProofs.

(** Reading any rectangle inside the buffer, in one request or in several, delivers for
    each of its rows exactly the cells the console holds, with the attribute mask applied;
    the requests divide the rectangle into bands of whole rows, every row in exactly one of
    them, and when requests are split none asks for more than 2500 cells (a row of at most
    2500 cells is always allowed).  Split reads happen with the console frozen. *)
Theorem C37_exact : forall (newW10 w8 : bool) (area : srect) (mask : Z) (l : lread) (w : world),
  let b := w_buf (interfere w) in
  readable b area -> words b -> (w8 = false -> w_sel w = true) ->
  exists l' w' rs, @largeConsoleRead unit newW10 w8 area mask l w = Ok (l', w') /\
    (forall y, rTop area <= y <= rBottom area ->
       exists rest, @lineData unit l' y = Ok (expected_row b mask area y ++ rest)) /\
    w_buf w' = b /\ w_log w' = w_log w ++ map RRead rs /\ bands area rs /\
    (w8 = true -> rs = [area]) /\
    (w8 = false -> Forall (fun s => cells_in s <= 2500) rs).
Proof.
  intros nw w8 area mask l w b R W S. destruct (@large_read unit nw w8 area mask l w R W S) as (d & rs & H1 & H2 & H3 & H4 & H5 & H6).
  exists (mkLr area (rRight area - rLeft area + 1) d), (add_reads rs (interfere w)), rs.
  split; [exact H1|]. split; [intros y Hy; exact (line_at b mask area d y R H2 H3 Hy)|]. split; [reflexivity|]. split; [|auto].
  cbn. f_equal. unfold interfere. destruct (w_sel w); [reflexivity|]. destruct (w_env w); reflexivity.
Qed.
Print Assumptions C37_exact.

(** Rows outside the rectangle that was read cannot be asked for. *)
Theorem C37_bounds : forall (area : srect) (wd : Z) (d : list cell) (y : Z),
  ~ (rTop area <= y <= rBottom area) -> @lineData unit (mkLr area wd d) y = AssertFail.
Proof.
  intros area wd d y H. unfold lineData, line_index. cbn [lr_rect].
  replace ((y <? rTop area) || (rBottom area <? y)) with true by (symmetry; apply Bool.orb_true_iff; rewrite !Z.ltb_lt; lia). reflexivity.
Qed.
Print Assumptions C37_bounds.

(** A console of 1000 by 9 cells read in four bands. *)
Definition wide : world := mkW (mkBuf 1000 9 (mkRect 0 0 79 8) (mkCoord 0 0) (fun y x => mkCell (y * 1000 + x) ((65536 - 9 + y) mod 65536)) (mkCoord 100 100) 437 0 true) true true false 0 [] [] [].
Example C37_example : readable (w_buf (interfere wide)) (mkRect 1 1 999 7) /\ words (w_buf (interfere wide)) /\
  match @largeConsoleRead unit false false (mkRect 1 1 999 7) 0xFF (mkLr (mkRect 0 0 0 0) 0 []) wide with
  | Ok (l, w) => w_log w = map RRead [mkRect 1 1 999 2; mkRect 1 3 999 4; mkRect 1 5 999 6; mkRect 1 7 999 7] /\
      match @lineData unit l 6 with Ok (a :: b :: _) => a = mkCell 6001 253 /\ b = mkCell 6002 253 | _ => False end
  | _ => False end.
Proof.
  split; [vm_compute; repeat split; try discriminate; reflexivity|]. split; [intros y x; apply Z.mod_pos_bound; reflexivity|]. vm_compute. repeat split; reflexivity.
Qed.
