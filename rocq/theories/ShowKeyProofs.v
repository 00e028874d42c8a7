From Verif Require Import Base BaseLemmas Text StringsSpec StringsProofs ShowKey ShowKeySpec ShowInputProofs.

Ltac splits := repeat match goal with |- _ /\ _ => split end.
Definition bytes : list Z := map Z.of_nat (List.seq 0 256).
Lemma in_bytes b : 0 <= b < 256 -> In b bytes.
Proof. intros H. apply in_map_iff. exists (Z.to_nat b). split; [lia|]. apply in_seq. lia. Qed.

Lemma charText_ok b : 0 <= b < 256 -> charText b = Ok (caret b).
Proof.
  intros H. assert (C : forallb (fun k => match charText k with Ok t => list_eqb t (caret k) | _ => false end) bytes = true) by (vm_compute; reflexivity).
  rewrite forallb_forall in C. specialize (C b (in_bytes b H)). destruct (charText b) as [t| | | |]; try discriminate C. apply list_eqb_eq in C. congruence.
Qed.
Lemma charsText_ok bs : Forall (fun b => 0 <= b < 256) bs -> charsText bs = Ok (concat (map caret bs)).
Proof. induction 1 as [|b bs B F IH]; cbn [charsText map concat]; [reflexivity|]. rewrite (charText_ok b B). cbn [bind]. rewrite IH. reflexivity. Qed.

Definition num_ok (base : Z) (s : list Z) (v : Z) : bool :=
  match s with [] => false | _ => true end && forallb (fun c => (0 <=? dval c) && (dval c <? base)) s && (value base s =? v).
Lemma num_ok_ok base s v : num_ok base s v = true -> numeral base s v.
Proof.
  unfold num_ok, numeral. intros H. apply andb_prop in H. destruct H as (H & H3). apply andb_prop in H. destruct H as (H1 & H2). splits.
  - destruct s; [discriminate H1|discriminate].
  - apply Forall_forall. intros c K. rewrite forallb_forall in H2. specialize (H2 c K). lia.
  - lia.
Qed.
Definition pads (v : Z) : list Z := if v <? 10 then [32; 32] else if v <? 100 then [32] else [].
Definition decs (v : Z) : list Z := if v <? 10 then [dig v] else if v <? 100 then [dig (v / 10); dig (v mod 10)] else [dig (v / 100); dig (v / 10 mod 10); dig (v mod 10)].
Lemma pct_3d_eq v : pct_3d v = pads v ++ decs v.
Proof. unfold pct_3d, pads, decs. destruct (v <? 10); [reflexivity|]. destruct (v <? 100); reflexivity. Qed.
Lemma byteLine_ok b : 0 <= b < 256 -> three_ways b (byteLine b).
Proof.
  intros H. exists (pads b), (decs b), (pct_04o b), (pct_02x b). splits.
  - unfold byteLine. rewrite pct_3d_eq. rewrite <- !app_assoc. reflexivity.
  - unfold pads. destruct (b <? 10); [|destruct (b <? 100)]; repeat constructor.
  - unfold pads, decs. destruct (b <? 10); [|destruct (b <? 100)]; reflexivity.
  - assert (C : forallb (fun k => num_ok 10 (decs k) k && (negb (hd 0 (decs k) =? 48) || list_eqb (decs k) [48])) bytes = true) by (vm_compute; reflexivity).
    rewrite forallb_forall in C. specialize (C b (in_bytes b H)). apply andb_prop in C. destruct C as (C1 & C2). split; [exact (num_ok_ok _ _ _ C1)|].
    intros E. rewrite E in C2. cbn in C2. apply list_eqb_eq in C2. exact C2.
  - reflexivity.
  - assert (C : forallb (fun k => num_ok 8 (pct_04o k) k) bytes = true) by (vm_compute; reflexivity).
    rewrite forallb_forall in C. exact (num_ok_ok _ _ _ (C b (in_bytes b H))).
  - reflexivity.
  - assert (C : forallb (fun k => num_ok 16 (pct_02x k) k) bytes = true) by (vm_compute; reflexivity).
    rewrite forallb_forall in C. exact (num_ok_ok _ _ _ (C b (in_bytes b H))).
Qed.

(** The texts of a read *)
Definition body (b : Z) : list Z := pct_3d b ++ [32] ++ pct_04o b ++ str " 0x" ++ pct_02x b.
Lemma byteLine_body b : byteLine b = 9 :: body b ++ [10].
Proof. unfold byteLine, body. cbn [app]. rewrite <- !app_assoc. reflexivity. Qed.
Lemma body_facts b : 0 <= b < 256 -> ~ In 10 (body b).
Proof.
  intros H. assert (C : forallb (fun k => negb (existsb (Z.eqb 10) (body k))) bytes = true) by (vm_compute; reflexivity).
  rewrite forallb_forall in C. specialize (C b (in_bytes b H)). intros K. apply negb_true_iff in C.
  assert (existsb (Z.eqb 10) (body b) = true) by (apply existsb_exists; exists 10; auto). congruence.
Qed.
Lemma body_inj a b : 0 <= a < 256 -> 0 <= b < 256 -> body a = body b -> a = b.
Proof.
  intros A B E. assert (V : forall k, 0 <= k < 256 -> value 16 (skipn 11 (body k)) = k).
  { intros k K. assert (C : forallb (fun k => value 16 (skipn 11 (body k)) =? k) bytes = true) by (vm_compute; reflexivity).
    rewrite forallb_forall in C. specialize (C k (in_bytes k K)). lia. }
  rewrite <- (V a A), <- (V b B), E. reflexivity.
Qed.
Lemma caret_clean b c : 0 <= b < 256 -> c = 9 \/ c = 10 -> ~ In c (caret b).
Proof.
  intros H E K. unfold caret in K. destruct (Z.ltb_spec b 32); [destruct K as [K|[K|[]]]; lia|]. destruct (b =? 127); [destruct K as [K|[K|[]]]; lia|]. destruct K as [K|[]]. lia.
Qed.
Lemma carets_clean bs c : Forall (fun b => 0 <= b < 256) bs -> c = 9 \/ c = 10 -> ~ In c (concat (map caret bs)).
Proof.
  intros F E K. induction F as [|b bs B F IH]; cbn [map concat] in K; [destruct K|]. apply in_app_or in K. destruct K as [K|K]; [exact (caret_clean b c B E K)|exact (IH K)].
Qed.

(** A read as pairs: the text of all of it goes with the first byte *)
Definition seg (x : list Z * Z) : list Z := fst x ++ 9 :: body (snd x).
Definition segs (r : list Z) : list (list Z * Z) :=
  match r with [] => [] | b :: bs => (concat (map caret (b :: bs)), b) :: map (pair []) bs end.
Definition readText (r : list Z) : list Z := concat (map caret r) ++ concat (map byteLine r).
Lemma lines_segs bs : concat (map byteLine bs) = concat (map (fun s => s ++ [10]) (map seg (map (pair []) bs))).
Proof. induction bs as [|b bs IH]; [reflexivity|]. cbn [map concat]. rewrite IH, byteLine_body. unfold seg at 2. cbn [fst snd app]. reflexivity. Qed.
Lemma readText_segs r : r <> [] -> readText r = concat (map (fun s => s ++ [10]) (map seg (segs r))).
Proof.
  destruct r as [|b bs]; [congruence|]. intros _. unfold readText, segs. cbn [map concat]. rewrite <- lines_segs, byteLine_body. unfold seg. cbn [fst snd].
  cbn [map concat]. rewrite <- !app_assoc. cbn [app]. rewrite <- !app_assoc. reflexivity.
Qed.
Lemma showKeys_ok rs : reads_ok rs -> exists seen, taken rs seen /\ showKeys rs = Ok (concat (map readText seen)).
Proof.
  induction 1 as [|r rs (N & B) F IH]; cbn [showKeys].
  - exists []. split; [constructor|reflexivity].
  - destruct r as [|b bs]; [congruence|]. rewrite (charsText_ok _ B). cbn [bind]. fold (readText (b :: bs)). destruct (Z.eqb_spec b 4) as [->|N4].
    + exists [4 :: bs]. split; [constructor|]. cbn [map concat]. rewrite app_nil_r. reflexivity.
    + destruct IH as (seen & T & E). exists ((b :: bs) :: seen). split; [constructor; assumption|]. rewrite E. cbn [bind map concat]. reflexivity.
Qed.
Lemma taken_sub rs seen : taken rs seen -> reads_ok rs -> reads_ok seen.
Proof.
  induction 1 as [|r rest|b r rest seen N T IH]; intros F; inversion F as [|? ? F1 F2]; subst.
  - constructor.
  - apply Forall_cons; [exact F1|apply Forall_nil].
  - apply Forall_cons; [exact F1|exact (IH F2)].
Qed.

Lemma segs_ok r : r <> [] -> Forall (fun b => 0 <= b < 256) r -> Forall (fun x => ~ In 9 (fst x) /\ ~ In 10 (fst x) /\ 0 <= snd x < 256) (segs r).
Proof.
  intros N F. destruct r as [|b bs]; [constructor|]. constructor.
  - cbn [fst snd]. split; [apply carets_clean; auto|]. split; [apply carets_clean; auto|]. inversion F; subst; lia.
  - inversion F as [|? ? F1 F2]. subst. clear -F2. induction F2 as [|x l X F IH]; constructor; cbn [fst snd]; auto.
Qed.
Lemma all_segs_ok rs : reads_ok rs -> Forall (fun x => ~ In 9 (fst x) /\ ~ In 10 (fst x) /\ 0 <= snd x < 256) (concat (map segs rs)).
Proof. induction 1 as [|r rs (N & B) F IH]; cbn [map concat]; [constructor|]. apply Forall_app. split; [apply segs_ok; assumption|exact IH]. Qed.
Lemma seg_inj x y : ~ In 9 (fst x) -> 0 <= snd x < 256 -> ~ In 9 (fst y) -> 0 <= snd y < 256 -> seg x = seg y -> x = y.
Proof.
  destruct x as [a b], y as [c d]. cbn [fst snd]. intros A B C D E. unfold seg in E. cbn [fst snd] in E. destruct (split_first 9 _ _ _ _ A C E) as (-> & E2).
  rewrite (body_inj b d B D E2). reflexivity.
Qed.
Lemma map_seg_inj : forall l m, Forall (fun x => ~ In 9 (fst x) /\ ~ In 10 (fst x) /\ 0 <= snd x < 256) l ->
  Forall (fun x => ~ In 9 (fst x) /\ ~ In 10 (fst x) /\ 0 <= snd x < 256) m -> map seg l = map seg m -> l = m.
Proof.
  induction l as [|x l IH]; intros [|y m] F G E; try discriminate E; [reflexivity|]. cbn [map] in E.
  assert (E1 : seg x = seg y) by congruence. assert (E2 : map seg l = map seg m) by congruence.
  inversion F as [|? ? (F1 & _ & F3) F2]. inversion G as [|? ? (G1 & _ & G3) G2]. subst. rewrite (seg_inj x y F1 F3 G1 G3 E1), (IH m F2 G2 E2). reflexivity.
Qed.
Lemma caret_nonempty b bs : concat (map caret (b :: bs)) <> [].
Proof. cbn [map concat]. unfold caret at 1. destruct (b <? 32); [discriminate|]. destruct (b =? 127); discriminate. Qed.
Lemma starts_read rs : reads_ok rs -> match concat (map segs rs) with (p, _) :: _ => p <> [] | [] => rs = [] end.
Proof. intros F. destruct F as [|r rs (N & _) F]; [reflexivity|]. destruct r as [|b bs]; [congruence|]. cbn [map concat segs app]. apply caret_nonempty. Qed.
Lemma split_reads : forall a b x y, match x with (p, _) :: _ => p <> [] | [] => True end -> match y with (p, _) :: _ => p <> [] | [] => True end ->
  map (@pair (list Z) Z []) a ++ x = map (pair []) b ++ y -> a = b /\ x = y.
Proof.
  induction a as [|u a IH]; intros [|v b] x y X Y E; cbn [map app] in E.
  - auto.
  - subst x. congruence.
  - subst y. congruence.
  - assert (u = v) as -> by congruence. assert (E2 : map (@pair (list Z) Z []) a ++ x = map (pair []) b ++ y) by congruence.
    destruct (IH b x y X Y E2) as (-> & ->). auto.
Qed.
Lemma segs_inj : forall r s, reads_ok r -> reads_ok s -> concat (map segs r) = concat (map segs s) -> r = s.
Proof.
  induction r as [|a r IH]; intros s F G E.
  - pose proof (starts_read s G) as K. rewrite <- E in K. cbn in K. auto.
  - inversion F as [|? ? (N & B) F2]. subst. destruct a as [|u a]; [congruence|].
    destruct s as [|c s]; [cbn [map concat segs app] in E; discriminate E|]. inversion G as [|? ? (N' & B') G2]. subst. destruct c as [|v c]; [congruence|].
    cbn [map concat segs app] in E. assert (u = v) as -> by congruence.
    assert (E2 : map (@pair (list Z) Z []) a ++ concat (map segs r) = map (pair []) c ++ concat (map segs s)) by congruence.
    pose proof (starts_read r F2) as K1. pose proof (starts_read s G2) as K2.
    destruct (split_reads a c (concat (map segs r)) (concat (map segs s))) as (-> & E3); auto.
    + destruct (concat (map segs r)) as [|(p & q) l]; auto.
    + destruct (concat (map segs s)) as [|(p & q) l]; auto.
    + rewrite (IH s F2 G2 E3). reflexivity.
Qed.
Lemma readTexts_inj r s : reads_ok r -> reads_ok s -> concat (map readText r) = concat (map readText s) -> r = s.
Proof.
  intros F G E. apply segs_inj; auto. apply map_seg_inj; [apply all_segs_ok; auto|apply all_segs_ok; auto|].
  assert (T : forall q, reads_ok q -> concat (map readText q) = concat (map (fun t => t ++ [10]) (map seg (concat (map segs q))))).
  { intros q Q. induction Q as [|x q (N & B) Q IH]; [reflexivity|]. cbn [map concat]. rewrite IH, (readText_segs x N), !map_app, concat_app. reflexivity. }
  assert (D : forall q, reads_ok q -> Forall (fun t => ~ In 10 t) (map seg (concat (map segs q)))).
  { intros q Q. pose proof (all_segs_ok q Q) as A. induction A as [|x l (X1 & X2 & X3) A IH]; cbn [map]; constructor; [|exact IH].
    intros K. unfold seg in K. apply in_app_or in K. destruct K as [K|[K|K]]; [exact (X2 K)|discriminate K|exact (body_facts _ X3 K)]. }
  rewrite (T r F), (T s G) in E. destruct (split_end 10 (map seg (concat (map segs r))) (map seg (concat (map segs s))) [] []) as (E2 & _).
  - intros [].
  - intros [].
  - exact (D r F).
  - exact (D s G).
  - rewrite !app_nil_r. exact E.
  - exact E2.
Qed.
