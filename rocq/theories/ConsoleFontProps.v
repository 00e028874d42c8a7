(** C38: font selection. *)
From Coq Require Import Permutation.
From Verif Require Import Base ConsoleFont ConsoleFontSpec ConsoleFontProofs.

(** C38: for every code page and console kind, and every number of columns a console can
    have (and far more), a font is chosen from the table for that code page: the smallest
    that is wide enough even with half the columns, failing that the smallest that is wide
    enough, failing that the largest. *)
Theorem C38_selected codePage columns isNewW10 w8 : 1 <= columns <= 49000000 -> exists f,
  selectSmallFont codePage columns isNewW10 w8 = Ok (fst (font_table codePage isNewW10 w8), f) /\
  let t := snd (font_table codePage isNewW10 w8) in
  (forall g, In g t -> wide g columns -> wide_halved g columns -> smallest (fun h => wide h columns /\ wide_halved h columns) t f) /\
  ((forall g, In g t -> ~ (wide g columns /\ wide_halved g columns)) -> forall g, In g t -> wide g columns -> smallest (fun h => wide h columns) t f) /\
  ((forall g, In g t -> ~ wide g columns) -> largest t f).
Proof. exact (select codePage columns isNewW10 w8). Qed.
Print Assumptions C38_selected.

(** C38: so if some listed size gives at least 160 pixels, the chosen one does. *)
Theorem C38_wide codePage columns isNewW10 w8 fc f g : 1 <= columns <= 49000000 ->
  selectSmallFont codePage columns isNewW10 w8 = Ok (fc, f) -> In g (snd (font_table codePage isNewW10 w8)) ->
  160 <= f_width g * columns -> 160 <= f_width f * columns.
Proof.
  intros C H Hg W. destruct (select codePage columns isNewW10 w8 C) as (f' & E & S1 & S2 & _). rewrite E in H. injection H as _ <-.
  set (t := snd (font_table codePage isNewW10 w8)) in *.
  destruct (existsb (fun h => (160 <=? pixels h columns) && (160 <=? pixels h (Z.min columns (Z.max 40 (Z.quot columns 2))))) t) eqn:Ex.
  - apply existsb_exists in Ex as (h & Hh & Eh). apply andb_prop in Eh as (E1 & E2). apply Z.leb_le in E1, E2. destruct (S1 h Hh E1 E2) as (_ & (X & _) & _). exact X.
  - destruct (S2) with (g := g) as (_ & X & _); auto. intros h Hh (X1 & X2).
    assert (existsb (fun h => (160 <=? pixels h columns) && (160 <=? pixels h (Z.min columns (Z.max 40 (Z.quot columns 2))))) t = true); [|congruence].
    apply existsb_exists. exists h. split; [exact Hh|]. apply andb_true_iff. split; apply Z.leb_le; assumption.
Qed.
Print Assumptions C38_wide.

(** C38: the font asked for first is the one for the code page; only if the console refuses
    it and the code page is an East Asian one, the one for the default code page. *)
Theorem C38_fallback accept codePage columns isNewW10 w8 : 1 <= columns <= 49000000 ->
  exists asked cur, setSmallFontVista accept codePage columns isNewW10 w8 = Ok (asked, cur) /\
  exists fc f, selectSmallFont codePage columns isNewW10 w8 = Ok (fc, f) /\
  (accept fc (f_size f) = true -> asked = [(fc, f_size f)] /\ cur = Some (fc, f_size f)) /\
  (accept fc (f_size f) = false -> ~ In codePage [932; 936; 949; 950] -> asked = [(fc, f_size f)] /\ cur = None) /\
  (accept fc (f_size f) = false -> In codePage [932; 936; 949; 950] -> exists g, selectSmallFont 0 columns isNewW10 w8 = Ok (LucidaConsole, g) /\
     asked = [(fc, f_size f); (LucidaConsole, f_size g)] /\ cur = if accept LucidaConsole (f_size g) then Some (LucidaConsole, f_size g) else None).
Proof. exact (vista accept codePage columns isNewW10 w8). Qed.
Print Assumptions C38_fallback.

(** C38, Windows XP: whatever order sorting gives equal sizes, only fonts the console
    listed and at least 4 pixels wide are tried; the one set is the smallest the console
    accepts; and one is set if the console accepts any. *)
Theorem C38_xp sz count reply l tried r : sorted_table (readFontTable sz 0 count) l -> tryFonts reply l = (tried, r) ->
  (forall i, In i tried -> 0 <= i < Z.of_nat count /\ 4 <= fst (sz i)) /\
  (forall i, r = Some i -> reply i = XSet /\
     forall j, In (j, sz j) (readFontTable sz 0 count) -> 4 <= fst (sz j) -> reply j = XSet -> fst (sz i) + snd (sz i) <= fst (sz j) + snd (sz j)) /\
  (r = None -> (forall j, reply j <> XGetFailed) -> forall j, In (j, sz j) (readFontTable sz 0 count) -> 4 <= fst (sz j) -> reply j <> XSet).
Proof.
  intros (P & M) H. destruct (try_in _ _ _ _ H) as (A & B).
  assert (L : forall i s, In (i, s) l -> 0 <= i < Z.of_nat count /\ s = sz i).
  { intros i s X. apply (Permutation_in _ (Permutation_sym P)) in X. destruct (read_in _ _ _ _ X) as (j & Hj & E). injection E as -> ->. split; [exact Hj|reflexivity]. }
  split; [|split].
  - intros i Hi. destruct (A i Hi) as (s & S1 & S2). destruct (L _ _ S1) as (L1 & ->). auto.
  - intros i ->. split; [apply B|]. intros j J1 J2 J3. destruct (try_smallest _ _ M _ _ H) as (s & S1 & S2 & S3). destruct (L _ _ S1) as (L1 & ->). apply (S3 j (sz j)); auto. now apply (Permutation_in _ P).
  - intros -> G j J1 J2. apply (try_none _ _ _ H G j (sz j)); auto. now apply (Permutation_in _ P).
Qed.
Print Assumptions C38_xp.

(** C38: the table for a code page is that of the font made for it. *)
Theorem C38_face codePage isNewW10 w8 : fst (font_table codePage isNewW10 w8) = face_for codePage.
Proof. exact (face_ok codePage isNewW10 w8). Qed.
Print Assumptions C38_face.

(** C38: with 80 columns or more the font chosen is at most 8 pixels high, and the window is
    at least 160 pixels wide with half the columns. *)
Theorem C38_usual codePage columns isNewW10 w8 fc f : 80 <= columns <= 49000000 ->
  selectSmallFont codePage columns isNewW10 w8 = Ok (fc, f) ->
  f_size f <= 8 /\ 160 <= f_width f * columns /\ 160 <= f_width f * (columns / 2).
Proof.
  intros Hc Hs. destruct (C38_selected codePage columns isNewW10 w8 ltac:(lia)) as (f' & E & A & _). rewrite Hs in E. injection E as _ <-.
  destruct (table_has_four codePage isNewW10 w8) as (g & Hg & G1 & G2).
  assert (Q : Z.min columns (Z.max 40 (Z.quot columns 2)) = columns / 2) by (rewrite Z.quot_div_nonneg by lia; lia).
  assert (W1 : ConsoleFontSpec.wide g columns) by (unfold ConsoleFontSpec.wide, pixels; rewrite G1; lia).
  assert (W2 : wide_halved g columns) by (unfold wide_halved, pixels; rewrite Q, G1; lia).
  destruct (A g Hg W1 W2) as (_ & (B1 & B2) & B3). unfold wide_halved, ConsoleFontSpec.wide, pixels in *. rewrite Q in B2.
  split; [|auto]. specialize (B3 g Hg (conj W1 W2)). lia.
Qed.
Print Assumptions C38_usual.

(** C38, Windows XP: the fonts the console is taken to have are those up to the first index
    without a size, with their sizes. *)
Theorem C38_xp_listed sz count j s : In (j, s) (readFontTable sz 0 count) <-> listed sz (Z.of_nat count) j /\ s = sz j.
Proof. exact (read_table sz count 0 j s). Qed.
Print Assumptions C38_xp_listed.

(** C38: the fonts there are to choose from, with the proportions they have *)
Theorem C38_tables codePage isNewW10 w8 :
  map f_size (snd (font_table codePage isNewW10 w8)) = heights codePage isNewW10 w8 /\
  forall f, In f (snd (font_table codePage isNewW10 w8)) -> f_width f = char_width codePage (f_size f).
Proof.
  unfold font_table, heights, char_width, face_for. cbn [find fst]. rewrite !(Z.eqb_sym _ codePage).
  repeat match goal with |- context [if codePage =? ?k then _ else _] => destruct (codePage =? k) end; destruct isNewW10, w8; cbn [snd];
    (split; [reflexivity|]; apply Forall_forall; repeat (apply Forall_cons; [reflexivity|]); apply Forall_nil).
Qed.
Print Assumptions C38_tables.

Example C38_example :
  selectSmallFont 437 80 false true = Ok (LucidaConsole, mkF 6 4) /\
  selectSmallFont 437 30 false true = Ok (LucidaConsole, mkF 10 6) /\
  selectSmallFont 437 2 false true = Ok (LucidaConsole, mkF 72 43) /\
  selectSmallFont 932 10 false false = Ok (MSGothic, mkF 21 11) /\
  selectSmallFont 936 100 true true = Ok (NSimSun, mkF 8 4) /\
  selectSmallFont 437 60000000 false true = UB /\
  setSmallFontVista (fun f _ => match f with LucidaConsole => true | _ => false end) 949 80 false true = Ok ([(GulimChe, 8); (LucidaConsole, 6)], Some (LucidaConsole, 6)) /\
  tryFonts (fun i => if i =? 2 then XSetFailed else XSet) [(1, (3, 5)); (2, (4, 6)); (0, (8, 8))] = ([2; 0], Some 0) /\
  sorted_table (readFontTable (fun i => if i =? 0 then (8, 8) else if i =? 1 then (3, 5) else if i =? 2 then (4, 6) else (0, 0)) 0 5) [(1, (3, 5)); (2, (4, 6)); (0, (8, 8))].
Proof.
  vm_compute. repeat (split; [reflexivity|]). split.
  - apply Permutation_sym. change [(1, (3, 5)); (2, (4, 6)); (0, (8, 8))] with ([(1, (3, 5)); (2, (4, 6))] ++ [(0, (8, 8))]). apply Permutation_sym, Permutation_cons_append.
  - repeat (split || constructor); discriminate.
Qed.
