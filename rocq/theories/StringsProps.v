(** C05 integer formatting, C06 pipe names, C47 bounded string copies. *)
From Verif Require Import Base BaseLemmas Strings StringsSpec StringsProofs.

(** Decimal: for every width [n] bytes, either signedness, any initial array
    contents of the declared size. *)
Theorem C05_decimal : forall signed n arr v,
  1 <= n -> zlen arr = n * 3 + 1 + 1 -> int_range signed n v ->
  exists vs s, @gdecOfInt unit n arr v = Ok vs /\ decimal s v /\ vs_ok vs s.
Proof. exact gdecOfInt_ok. Qed.
Print Assumptions C05_decimal.

(** Hexadecimal of the value's unsigned representation. *)
Theorem C05_hexadecimal : forall leadingZeros signed n arr v,
  1 <= n -> zlen arr = n * 2 + 1 -> int_range signed n v ->
  exists vs s, @ghexOfInt unit leadingZeros n arr v = Ok vs /\ vs_ok vs s /\
    (if leadingZeros then zlen s = 2 * n /\ numeral 16 s (v mod 2 ^ (8 * n))
     else canonical 16 s (v mod 2 ^ (8 * n))).
Proof. exact ghexOfInt_ok. Qed.
Print Assumptions C05_hexadecimal.

(** The specification determines the text. *)
Theorem C05_canonical_unique : forall base s1 s2 v,
  1 < base -> canonical base s1 v -> canonical base s2 v -> s1 = s2.
Proof. exact canonical_unique. Qed.
Print Assumptions C05_canonical_unique.

Example C05_cases :
  int_range true 8 (- 2 ^ 63) /\
  match @gdecOfInt unit 8 (uninit 26) (- 2 ^ 63) with
  | Ok v => vs_str v = [45; 57;50;50;51;51;55;50;48;51;54;56;53;52;55;55;53;56;48;56] | _ => False end /\
  match @gdecOfInt unit 1 (uninit 5) (-128) with Ok v => vs_str v = [45; 49; 50; 56] | _ => False end /\
  match @ghexOfInt unit false 4 (uninit 9) 0 with Ok v => vs_str v = [48] | _ => False end /\
  match @ghexOfInt unit true 1 (uninit 3) 10 with Ok v => vs_str v = [48; 97] | _ => False end /\
  (* one slot fewer would overrun *)
  @gdecOfInt unit 1 (uninit 4) (-128) = UB.
Proof. split; [cbn; lia|]. vm_compute. repeat split. Qed.

(** Any two names one process generates are different, for every clock and
    every random generator, and whatever mixture of name prefixes in use. *)
Theorem C06_same_process : forall pid c0 ins ns i j ni nj,
  0 <= pid < 2 ^ 32 -> Forall (fun x => 0 <= snd (fst x) < 2 ^ 64) ins ->
  (forall p q, In p (map (fun x => fst (fst x)) ins) -> In q (map (fun x => fst (fst x)) ins) -> prefix_apart p q) ->
  gen_names pid c0 ins = Ok ns -> 0 <= i < j -> j - i < 2 ^ 32 ->
  znth ns i = Some ni -> znth ns j = Some nj -> ni <> nj.
Proof. exact names_distinct. Qed.
Print Assumptions C06_same_process.

Theorem C06_total : forall pid ins c0, 0 <= pid < 2 ^ 32 ->
  Forall (fun x => 0 <= snd (fst x) < 2 ^ 64) ins -> exists ns, gen_names pid c0 ins = Ok ns.
Proof. exact gen_names_total. Qed.
Print Assumptions C06_total.

Theorem C06_different_processes : forall pid1 pid2 c1 c2 t1 t2 r1 r2 p1 p2 n1 n2 k1 k2,
  0 <= pid1 < 2 ^ 32 -> 0 <= pid2 < 2 ^ 32 -> 0 <= t1 < 2 ^ 64 -> 0 <= t2 < 2 ^ 64 -> prefix_apart p1 p2 ->
  @pipeName unit p1 pid1 c1 t1 r1 = Ok (n1, k1) -> @pipeName unit p2 pid2 c2 t2 r2 = Ok (n2, k2) ->
  pid1 <> pid2 -> n1 <> n2.
Proof. exact names_distinct_procs. Qed.
Print Assumptions C06_different_processes.

(** The 16 random bytes end the name, as 32 hexadecimal digits of their value. *)
Theorem C06_random_suffix : forall pid counter time rnd,
  0 <= pid < 2 ^ 32 -> 0 <= time < 2 ^ 64 -> zlen rnd = 16 -> Forall (fun x => 0 <= x < 256) rnd ->
  exists front hex k, @uniqueName unit pid counter time (Some rnd) = Ok (front ++ 45 :: hex, k) /\
    zlen hex = 32 /\ numeral 16 hex (fold_left (fun a x => a * 256 + x) rnd 0).
Proof.
  intros pid counter time rnd Hp Ht Hl Hb.
  destruct (@uniqueName_shape unit pid counter time (Some rnd) Hp Ht) as (p & c & t & E & _).
  pose proof (randomHex_len rnd) as HL. destruct (randomHex_value rnd Hb) as (HF & HV).
  replace (zlen (randomHexString (Some rnd)) =? 0) with false in E by lia.
  exists (p ++ [45] ++ c ++ [45] ++ t), (randomHexString (Some rnd)), (s32 (counter + 1)).
  split; [rewrite E; f_equal; f_equal; rewrite <- !app_assoc; reflexivity|]. split; [lia|].
  split; [intros H0; rewrite H0 in HL; unfold zlen in *; cbn [length] in HL; lia|]. split; assumption.
Qed.
Print Assumptions C06_random_suffix.

(** The four prefixes in use (winpty.cc:554, Agent.cc:173-176 and 256-259):
    \\.\pipe\winpty-{control,conin,conout,conerr}- *)
Definition pfx (kind : list Z) : list Z := [92;92;46;92;112;105;112;101;92;119;105;110;112;116;121;45] ++ kind ++ [45].
Definition prefixes : list (list Z) :=
  [pfx [99;111;110;116;114;111;108]; pfx [99;111;110;105;110]; pfx [99;111;110;111;117;116]; pfx [99;111;110;101;114;114]].
Example C06_prefixes : forall p q, In p prefixes -> In q prefixes -> prefix_apart p q.
Proof.
  intros p q Hp Hq. unfold prefixes in *. cbn [In] in Hp, Hq.
  repeat match goal with H : _ \/ _ |- _ => destruct H end; try contradiction; subst; try (left; reflexivity); right.
  all: exists 19; eexists; eexists; (split; [vm_compute; reflexivity|]); (split; [vm_compute; reflexivity|discriminate]).
Qed.

(** A constant clock and a failing generator, counter about to wrap. *)
Example C06_case :
  match gen_names 1234 (2 ^ 31 - 2) [(pfx [97], 255, None); (pfx [97], 255, None)] with
  | Ok [a; b] => a = pfx [97] ++ [49;50;51;52;45; 50;49;52;55;52;56;51;54;52;55; 45;102;102] /\
                 b = pfx [97] ++ [49;50;51;52;45; 45;50;49;52;55;52;56;51;54;52;56; 45;102;102]
  | _ => False end.
Proof. vm_compute. split; reflexivity. Qed.

Theorem C47_wcsncpy : forall d s, readable s (zlen d) ->
  @wcsncpy unit d s = Ok (zfirstn (zlen d) (ctext s) ++ zrepeat 0 (zlen d - zlen (ctext s))).
Proof. exact wcsncpy_ok. Qed.
Print Assumptions C47_wcsncpy.

(** The terminating variant: longest prefix that fits beside a NUL, the rest of
    the buffer (at least one unit) is NUL. *)
Theorem C47_wcsncpy_nul : forall d s, 0 < zlen d -> readable s (zlen d) ->
  @wcsncpy_nul unit d s =
    Ok (zfirstn (zlen d - 1) (ctext s) ++ zrepeat 0 (zlen d - Z.min (zlen d - 1) (zlen (ctext s)))).
Proof. exact wcsncpy_nul_ok. Qed.
Print Assumptions C47_wcsncpy_nul.

Theorem C47_wcsnlen : forall s n, 0 <= n -> readable s n -> @wcsnlen unit s n = Ok (Z.min n (zlen (ctext s))).
Proof. exact wcsnlen_ok. Qed.
Print Assumptions C47_wcsnlen.

(** Formatted output, for every answer of the C library: terminated, in bounds,
    and a result of -1 exactly when it did not fit. *)
Theorem C47_snprintf : forall size out lib count,
  0 < size < 2 ^ 31 -> zlen out = size -> zlen lib = size ->
  exists buf n, @winpty_vsnprintf unit size out (lib, count) = Ok (buf, n) /\ zlen buf = size /\ -1 <= n < size /\
    (0 <= n -> n = count /\ zfirstn n buf = zfirstn n lib /\ znth buf n = Some 0) /\
    (n = -1 -> (count < 0 \/ size <= count) /\ zfirstn (size - 1) buf = zfirstn (size - 1) lib /\ znth buf (size - 1) = Some 0).
Proof. exact vsnprintf_ok. Qed.
Print Assumptions C47_snprintf.

Example C47_cases :
  @wcsncpy_nul unit [9;9;9] [65;66;67;68;0] = Ok [65;66;0] /\
  @wcsncpy_nul unit [9;9;9] [65;0] = Ok [65;0;0] /\
  @wcsncpy unit [9;9;9] [65;66;67] = Ok [65;66;67] /\ readable [65;66;67] 3 /\
  @wcsnlen unit [65;66;67] 2 = Ok 2 /\ @wcsncpy unit [9;9;9] [65;66] = UB.
Proof. split; [|split; [|split; [|split; [right; cbn; lia|split]]]]; vm_compute; reflexivity. Qed.
