From Verif Require Import Base BaseLemmas Text Strings ConsoleFont ConsoleFontSpec ConsoleFontProofs WinVersion WinVersionSpec FontApi FontApiSpec.
Ltac splits := repeat match goal with |- _ /\ _ => split end.

Ltac isplits := red; splits.
(** ** Modules *)
Definition inner (os : font_os) (l : list fev) : Prop :=
  only_existing os l /\ only_kernel32 l /\ forall o r, In kernel32 o -> well_used o r -> well_used o (modules l ++ r).
Lemma modules_app a b : modules (a ++ b) = modules a ++ modules b.
Proof. apply flat_map_app. Qed.
Lemma inner_nil os : inner os [].
Proof. isplits; [intros p n []|intros p k []|intros o r _ W; exact W]. Qed.
Lemma inner_app os a b : inner os a -> inner os b -> inner os (a ++ b).
Proof.
  intros (A1 & A2 & A3) (B1 & B2 & B3). isplits.
  - intros p n K. apply in_app_or in K. destruct K as [K|K]; [exact (A1 p n K)|exact (B1 p n K)].
  - intros p n K. apply in_app_or in K. destruct K as [K|K]; [exact (A2 p n K)|exact (B2 p n K)].
  - intros o r K W. rewrite modules_app, <- app_assoc. apply A3; [exact K|]. apply B3; auto.
Qed.
Lemma inner_use os n : fo_proc os n = true -> inner os [use n].
Proof.
  intros P. isplits.
  - intros p m [K|[]]. unfold use in K. assert (m = n) as -> by congruence. exact P.
  - intros p k [K|[]]. discriminate K.
  - intros o r K W. cbn [modules flat_map use app well_used]. auto.
Qed.
Lemma inner_ask os q : inner os [FAsk q].
Proof. isplits; [intros p n [K|[]]; discriminate K|intros p n [K|[]]; discriminate K|intros o r _ W; exact W]. Qed.
Lemma inner_try os i : inner os [FTry i].
Proof. isplits; [intros p n [K|[]]; discriminate K|intros p n [K|[]]; discriminate K|intros o r _ W; exact W]. Qed.
(** Loading around: also where nothing is loaded *)
Definition closed (os : font_os) (l : list fev) : Prop :=
  only_existing os l /\ only_kernel32 l /\ forall o r, well_used o r -> well_used o (modules l ++ r).
Lemma closed_inner os l : closed os l -> inner os l.
Proof. intros (A & B & C). isplits; auto. Qed.
Lemma wrap os l : inner os l -> closed os ([loaded] ++ l ++ [freed]).
Proof.
  intros (A & B & C). isplits.
  - intros p n K. cbn [app] in K. destruct K as [K|K]; [discriminate K|]. apply in_app_or in K. destruct K as [K|[K|[]]]; [exact (A p n K)|discriminate K].
  - intros p n K. cbn [app] in K. destruct K as [K|K]; [unfold loaded, kernel32 in K; congruence|]. apply in_app_or in K. destruct K as [K|[K|[]]]; [exact (B p n K)|discriminate K].
  - intros o r W. rewrite !modules_app, <- !app_assoc. cbn [modules flat_map loaded freed app well_used]. apply C; [left; reflexivity|]. cbn [well_used]. auto.
Qed.
Lemma inner_calls os sz : fo_proc os nGetSize = true -> forall n i, inner os (tableCalls sz i n).
Proof.
  intros P. induction n as [|n IH]; intros i; cbn [tableCalls]; [apply inner_nil|].
  apply (inner_app os [use nGetSize]); [exact (inner_use os _ P)|]. destruct ((fst (sz i) =? 0) && (snd (sz i) =? 0)); [apply inner_nil|apply IH].
Qed.
Lemma base_procs os : baseValid os = true -> fo_proc os nGetCurrent = true /\ fo_proc os nGetSize = true.
Proof. unfold baseValid. intros B. apply andb_prop in B. exact B. Qed.
Lemma table_ok os : fo_load os = true -> exists l, dumpFontTable os = Ok l /\ closed os l /\ asks l = [] /\ tries l = [] /\ (forall n, n <> nGetSize -> ~ In (use n) l).
Proof.
  intros L. unfold dumpFontTable. destruct (fo_tracing os); cbn [negb].
  2: { exists []. splits; try reflexivity; [split; [intros p n []|split; [intros p k []|auto]]|intros n _ []]. }
  rewrite L. cbn [assert_ bind]. destruct (baseValid os) eqn:B; cbn [negb].
  2: { exists [loaded; freed]. splits; try reflexivity; [exact (wrap os [] (inner_nil os))|intros n _ [K|[K|[]]]; discriminate K]. }
  destruct (base_procs os B) as (_ & P). eexists. split; [reflexivity|]. generalize 1000%nat 0. intros n i. split; [apply wrap; apply inner_calls; exact P|].
  assert (G : asks (tableCalls (fo_size os) i n) = [] /\ tries (tableCalls (fo_size os) i n) = [] /\ forall m, m <> nGetSize -> ~ In (use m) (tableCalls (fo_size os) i n)).
  { revert i. induction n as [|n IH]; intros i; cbn [tableCalls]; [splits; try reflexivity; intros m _ []|]. destruct (IH (i + 1)) as (I1 & I2 & I3).
    destruct ((fst (fo_size os i) =? 0) && (snd (fo_size os i) =? 0)).
    - splits; try reflexivity. intros m N [K|[]]. unfold use in K. congruence.
    - splits; [exact I1|exact I2|]. intros m N [K|K]; [unfold use in K; congruence|exact (I3 m N K)]. }
  destruct G as (G1 & G2 & G3). unfold asks, tries in *. rewrite !flat_map_app, G1, G2. splits; try reflexivity.
  intros m N K. cbn [app] in K. destruct K as [K|K]; [discriminate K|]. apply in_app_or in K. destruct K as [K|[K|[]]]; [exact (G3 m N K)|discriminate K].
Qed.

(** ** setFontVista *)
Lemma vista_procs os : vistaValid os = true -> fo_proc os nGetCurrent = true /\ fo_proc os nGetSize = true /\ fo_proc os nGetEx = true /\ fo_proc os nSetEx = true.
Proof. unfold vistaValid, baseValid. intros B. repeat (apply andb_prop in B; destruct B as (B & ?)). auto. Qed.
Lemma xp_procs os : xpValid os = true -> fo_proc os nGetCurrent = true /\ fo_proc os nGetSize = true /\ fo_proc os nSetFont = true /\ fo_proc os nNumber = true.
Proof. unfold xpValid, baseValid. intros B. repeat (apply andb_prop in B; destruct B as (B & ?)). auto. Qed.
Lemma has_vista_valid os : has_vista os <-> vistaValid os = true.
Proof. split; [|exact (vista_procs os)]. intros (A & B & C & D). unfold vistaValid, baseValid, nGetCurrent, nGetSize, nGetEx, nSetEx. rewrite A, B, C, D. reflexivity. Qed.
Lemma has_xp_valid os : has_xp os <-> xpValid os = true.
Proof. split; [|exact (xp_procs os)]. intros (A & B & C & D). unfold xpValid, baseValid, nGetCurrent, nGetSize, nSetFont, nNumber. rewrite A, B, C, D. reflexivity. Qed.
Lemma name_native fc : native_name fc (faceText fc).
Proof. unfold native_name. destruct fc; vm_compute; tauto. Qed.
Lemma native_is fc s : native_name fc s -> s = faceText fc.
Proof. unfold native_name. intros K. repeat (destruct K as [K|K]; [inversion K; reflexivity|]). destruct K. Qed.
Definition req (fc : face) (size : Z) : freq := mkReq 84 0 0 size 0x36 400 (faceText fc ++ zrepeat 0 (32 - zlen (faceText fc))).
Lemma req_ok fc size : request fc size (req fc size).
Proof.
  unfold request, req. cbn [q_cb q_nFont q_x q_y q_family q_weight q_face]. splits; try reflexivity; [destruct fc; reflexivity|]. exists (faceText fc). split; [apply name_native|reflexivity].
Qed.
Lemma cmp_ok name : Forall (fun c => c <> 0) name -> forall n got, (length name < n)%nat -> length got = n ->
  wcsncmp_eq n got (name ++ [0]) = true <-> exists rest, got = name ++ 0 :: rest.
Proof.
  induction 1 as [|c name C F IH]; intros n got L G; (destruct n as [|n]; [cbn in L; lia|]); (destruct got as [|g got]; [discriminate G|]); cbn [wcsncmp_eq app hd tl].
  - destruct (Z.eqb_spec g 0) as [->|N]; cbn [negb]; [cbn [Z.eqb]; split; [intros _; exists got; reflexivity|reflexivity]|]. split; [discriminate|]. intros (rest & K). congruence.
  - destruct (Z.eqb_spec g c) as [->|N]; cbn [negb]; [|split; [discriminate|intros (rest & K); congruence]].
    destruct (Z.eqb_spec c 0) as [|_]; [contradiction|]. cbn [length] in L, G. rewrite (IH n got) by lia. split; intros (rest & K); exists rest; congruence.
Qed.
Lemma face_props fc : Forall (fun c => c <> 0) (faceText fc) /\ (length (faceText fc) < 32)%nat.
Proof. split; [apply Forall_forall; intros c K; destruct fc; vm_compute in K; intuition lia|destruct fc; vm_compute; lia]. Qed.
Lemma copied fc : @wcsncpy_nul unit (zrepeat 0 LF_FACESIZE) (faceText fc ++ [0]) = Ok (faceText fc ++ zrepeat 0 (32 - zlen (faceText fc))).
Proof. destruct fc; vm_compute; reflexivity. Qed.
Definition answers32 (os : font_os) : Prop := forall r got, fo_get os r = Some got -> zlen got = 32.
Lemma setFont_ok os fc size : vistaValid os = true -> exists b l, setFontVista os fc size = Ok (b, l) /\ inner os l /\ asks l = [req fc size] /\ tries l = [] /\ ~ In (use nSetFont) l /\
  (answers32 os -> b = true <-> confirmed os fc (req fc size)).
Proof.
  intros V. destruct (vista_procs os V) as (_ & _ & P1 & P2). unfold setFontVista. rewrite copied. cbn [bind]. rewrite V. cbn [assert_ bind]. fold (req fc size).
  assert (I2 : inner os [use nSetEx; FAsk (req fc size)]) by (apply (inner_app os [use nSetEx]); [exact (inner_use os _ P2)|apply inner_ask]).
  assert (I3 : inner os [use nSetEx; FAsk (req fc size); use nGetEx]) by (apply (inner_app os [use nSetEx; FAsk (req fc size)] [use nGetEx]); [exact I2|exact (inner_use os _ P1)]).
  destruct (fo_set os (req fc size)) eqn:S; cbn [negb].
  2: { eexists. eexists. split; [reflexivity|]. splits; try reflexivity; [exact I2|intros [K|[K|[]]]; vm_compute in K; discriminate K|]. intros _. split; [discriminate|]. intros (K & _). congruence. }
  destruct (fo_get os (req fc size)) as [got|] eqn:G.
  2: { eexists. eexists. split; [reflexivity|]. splits; try reflexivity; [exact I3|intros [K|[K|[K|[]]]]; vm_compute in K; discriminate K|]. intros _. split; [discriminate|]. intros (_ & g & n & r & K & _). congruence. }
  eexists. eexists. split; [reflexivity|]. splits; try reflexivity; [exact I3|intros [K|[K|[K|[]]]]; vm_compute in K; discriminate K|].
  intros A. destruct (face_props fc) as (F1 & F2). specialize (A _ _ G). unfold LF_FACESIZE. rewrite (cmp_ok _ F1 (Z.to_nat 32) got); [|change (Z.to_nat 32) with 32%nat; exact F2|unfold zlen in A; lia].
  split.
  - intros (rest & ->). split; [exact S|]. exists (faceText fc ++ 0 :: rest), (faceText fc), rest. splits; auto. apply name_native.
  - intros (_ & g & n & rest & K & N & E). rewrite (native_is _ _ N) in E. exists rest. congruence.
Qed.
Lemma askAll_ok os l : vistaValid os = true -> exists e, askAll os l = Ok e /\ inner os e /\ asks e = map (fun p => req (fst p) (snd p)) l /\ tries e = [] /\ ~ In (use nSetFont) e.
Proof.
  intros V. induction l as [|(fc & s) l IH]; cbn [askAll map]; [exists []; splits; try reflexivity; [apply inner_nil|intros []]|].
  destruct (setFont_ok os fc s V) as (b & l1 & -> & I1 & A1 & T1 & N1 & _). cbn [bind]. destruct IH as (e & -> & I2 & A2 & T2 & N2). cbn [bind].
  eexists. split; [reflexivity|]. split; [apply inner_app; auto|]. unfold asks, tries in *. rewrite !flat_map_app, A1, A2, T1, T2. splits; try reflexivity.
  intros K. apply in_app_or in K. tauto.
Qed.
Lemma dumpV_ok os : vistaValid os = true -> exists l, dumpVistaFont os = Ok l /\ inner os l /\ asks l = [] /\ tries l = [] /\ ~ In (use nSetFont) l.
Proof.
  intros V. unfold dumpVistaFont. destruct (fo_tracing os); cbn [negb]; [|exists []; splits; try reflexivity; [apply inner_nil|intros []]]. rewrite V. cbn [assert_ bind].
  destruct (vista_procs os V) as (_ & _ & P & _). eexists. split; [reflexivity|]. splits; try reflexivity; [exact (inner_use os _ P)|]. intros [K|[]]. vm_compute in K. discriminate K.
Qed.
Lemma dumpX_ok os : baseValid os = true -> exists l, dumpXPFont os = Ok l /\ inner os l /\ asks l = [] /\ tries l = [].
Proof.
  intros V. unfold dumpXPFont. destruct (fo_tracing os); cbn [negb]; [|exists []; splits; try reflexivity; apply inner_nil]. rewrite V. cbn [assert_ bind].
  destruct (base_procs os V) as (P & _). eexists. split; [reflexivity|]. splits; try reflexivity. exact (inner_use os _ P).
Qed.
Lemma calls_quiet sz n : forall i, asks (tableCalls sz i n) = [] /\ tries (tableCalls sz i n) = [].
Proof.
  induction n as [|n IH]; intros i; cbn [tableCalls]; [split; reflexivity|]. destruct (IH (i + 1)) as (A & B). destruct ((fst (sz i) =? 0) && (snd (sz i) =? 0)); [split; reflexivity|split; [exact A|exact B]].
Qed.
Lemma try_ok os l : xpValid os = true -> inner os (flat_map (tryCalls os) l) /\ asks (flat_map (tryCalls os) l) = [] /\ tries (flat_map (tryCalls os) l) = l.
Proof.
  intros X. destruct (xp_procs os X) as (P1 & _ & P2 & _). induction l as [|i l (A & B & C)]; cbn [flat_map]; [splits; try reflexivity; apply inner_nil|].
  assert (G : inner os (tryCalls os i) /\ asks (tryCalls os i) = [] /\ tries (tryCalls os i) = [i]).
  { unfold tryCalls. assert (I2 : inner os [use nSetFont; FTry i]) by (apply (inner_app os [use nSetFont]); [exact (inner_use os _ P2)|apply inner_try]).
    assert (I1 : inner os [use nGetCurrent]) by exact (inner_use os _ P1).
    destruct (fo_reply os i); [| |destruct (fo_tracing os)|]; (split; [repeat (apply inner_app; auto); try apply inner_nil; auto|split; reflexivity]). }
  destruct G as (G1 & G2 & G3). split; [apply inner_app; auto|]. unfold asks, tries in *. rewrite !flat_map_app, G2, G3, B, C. split; reflexivity.
Qed.
(** ** setSmallFont *)
Lemma wrap2 os l : inner os l -> closed os ([loaded; loaded] ++ l ++ [freed; freed]).
Proof.
  intros I0. pose proof (wrap os _ (closed_inner os _ (wrap os l I0))) as W. cbn [app] in *. rewrite <- app_assoc in W. exact W.
Qed.
Lemma wrap4 os l : inner os l -> closed os ([loaded; loaded; loaded; loaded] ++ l ++ [freed; freed; freed; freed]).
Proof.
  intros I0. pose proof (wrap2 os _ (closed_inner os _ (wrap2 os l I0))) as W. cbn [app] in *. rewrite <- app_assoc in W. exact W.
Qed.
Lemma asks_app a b : asks (a ++ b) = asks a ++ asks b.
Proof. apply flat_map_app. Qed.
Lemma tries_app a b : tries (a ++ b) = tries a ++ tries b.
Proof. apply flat_map_app. Qed.
Lemma small_vista os c n : fo_load os = true -> cols_ok c -> vistaValid os = true ->
  exists l asked cur, setSmallFont os c n = Ok l /\ closed os l /\ setSmallFontVista (accepted os) (fo_codePage os) c n (fo_w8 os) = Ok (asked, cur) /\
    asks l = map (fun p => req (fst p) (snd p)) asked /\ tries l = [] /\ ~ In (use nSetFont) l.
Proof.
  intros L C V. unfold setSmallFont. rewrite L, V. cbn [assert_ bind]. destruct (dumpV_ok os V) as (d & -> & D1 & D2 & D3 & D4). destruct (table_ok os L) as (t & -> & T1 & T2 & T3 & T4). cbn [bind].
  destruct (vista (accepted os) (fo_codePage os) c n (fo_w8 os) C) as (asked & cur & -> & _). cbn [bind]. destruct (askAll_ok os asked V) as (a & -> & A1 & A2 & A3 & A4). cbn [bind].
  eexists. exists asked, cur. split; [reflexivity|]. split.
  { pose proof (wrap2 os (d ++ t ++ a ++ d ++ t)) as W. rewrite <- !app_assoc in W. apply W. apply closed_inner in T1. repeat (apply inner_app; auto). }
  split; [reflexivity|]. rewrite !asks_app, !tries_app, D2, D3, T2, T3, A2, A3. cbn [app asks tries flat_map loaded freed]. rewrite !app_nil_r. splits; try reflexivity.
  specialize (T4 nSetFont ltac:(vm_compute; discriminate)). intros K. destruct K as [K|[K|K]]; [discriminate K|discriminate K|]. rewrite !in_app_iff in K. destruct K as [K|[K|[K|[K|[K|K]]]]]; try tauto; destruct K as [K|[K|[]]]; discriminate K.
Qed.
Lemma small_xp os c n : fo_load os = true -> vistaValid os = false -> xpValid os = true ->
  exists l, setSmallFont os c n = Ok l /\ closed os l /\ asks l = [] /\ tries l = fst (tryFonts (fo_reply os) (fo_sort os (readFontTable (fo_size os) 0 (fo_count os)))).
Proof.
  intros L V X. unfold setSmallFont. rewrite L, V, X. cbn [assert_ bind]. pose proof (xp_procs os X) as (P1 & P2 & P3 & P4).
  assert (B : baseValid os = true) by (unfold baseValid; rewrite P1, P2; reflexivity).
  destruct (dumpX_ok os B) as (d & -> & D1 & D2 & D3). destruct (table_ok os L) as (t & -> & T1 & T2 & T3 & _). cbn [bind].
  destruct (tryFonts (fo_reply os) (fo_sort os (readFontTable (fo_size os) 0 (fo_count os)))) as [tried cur]. cbn [bind fst].
  destruct (try_ok os tried X) as (Y1 & Y2 & Y3). destruct (calls_quiet (fo_size os) (fo_count os) 0) as (Q1 & Q2).
  eexists. split; [reflexivity|]. split.
  { pose proof (wrap4 os (d ++ t ++ [use nNumber] ++ tableCalls (fo_size os) 0 (fo_count os) ++ flat_map (tryCalls os) tried ++ d ++ t)) as W. rewrite <- !app_assoc in W. apply W.
    apply closed_inner in T1. pose proof (inner_use os _ P4) as U. pose proof (inner_calls os (fo_size os) P2 (fo_count os) 0). repeat (apply inner_app; auto). }
  rewrite !asks_app, !tries_app, D2, D3, T2, T3, Y2, Y3, Q1, Q2. cbn [app asks tries flat_map loaded freed use]. rewrite !app_nil_r. split; reflexivity.
Qed.
Lemma small_none os c n : fo_load os = true -> vistaValid os = false -> xpValid os = false ->
  exists l, setSmallFont os c n = Ok l /\ closed os l /\ asks l = [] /\ tries l = [].
Proof.
  intros L V X. unfold setSmallFont. rewrite L, V, X. cbn [assert_ bind]. destruct (table_ok os L) as (t & -> & T1 & T2 & T3 & _). cbn [bind].
  eexists. split; [reflexivity|]. split; [apply wrap4; apply closed_inner; exact T1|]. rewrite !asks_app, !tries_app, T2, T3. split; reflexivity.
Qed.
(** ** Tracing *)
Lemma names_app a b : names (a ++ b) = names a ++ names b.
Proof. apply flat_map_app. Qed.
Lemma times_app n a b : times n (a ++ b) = times n a + times n b.
Proof. unfold times. rewrite names_app, filter_app. unfold zlen. rewrite app_length. lia. Qed.
Lemma ok_pair (a a' : bool) (b b' : list fev) : Ok (E := unit) (a, b) = Ok (a', b') -> b = b'.
Proof. congruence. Qed.
Lemma ask_times os l e : askAll os l = Ok e ->
  Forall (fun n => n = str "SetCurrentConsoleFontEx" \/ n = str "GetCurrentConsoleFontEx") (names e) /\
  times (str "SetCurrentConsoleFontEx") e = zlen (asks e) /\ times (str "GetCurrentConsoleFontEx") e <= zlen (asks e).
Proof.
  revert e. induction l as [|(fc & s) l IH]; intros e; cbn [askAll].
  - intros E. assert (e = []) as -> by congruence. splits; [constructor|reflexivity|cbn; lia].
  - destruct (setFontVista os fc s) as [[b l1]| | | |] eqn:E1; cbn [bind]; try discriminate. destruct (askAll os l) as [l2| | | |]; cbn [bind]; try discriminate.
    intros E. assert (e = l1 ++ l2) as -> by congruence. destruct (IH l2 eq_refl) as (A & B & C).
    assert (G : exists r, l1 = [use nSetEx; FAsk r] \/ l1 = [use nSetEx; FAsk r; use nGetEx]).
    { unfold setFontVista in E1. destruct (wcsncpy_nul _ _) as [name| | | |]; cbn [bind] in E1; try discriminate. destruct (assert_ _) as [u| | | |]; cbn [bind] in E1; try discriminate.
      match type of E1 with context [fo_set os ?q] => set (r := q) in E1; exists r end.
      destruct (negb (fo_set os r)); [left; symmetry; exact (ok_pair _ _ _ _ E1)|]. destruct (fo_get os r); right; symmetry; exact (ok_pair _ _ _ _ E1). }
    destruct G as (r & G). rewrite names_app, !times_app, asks_app. unfold zlen in *. rewrite app_length.
    destruct G as [-> | ->].
    + splits; [constructor; [left; reflexivity|exact A]|change (times (str "SetCurrentConsoleFontEx") [use nSetEx; FAsk r]) with 1; change (length (asks [use nSetEx; FAsk r])) with 1%nat; lia|].
      change (times (str "GetCurrentConsoleFontEx") [use nSetEx; FAsk r]) with 0. change (length (asks [use nSetEx; FAsk r])) with 1%nat. lia.
    + splits; [constructor; [left; reflexivity|constructor; [right; reflexivity|exact A]]|change (times (str "SetCurrentConsoleFontEx") [use nSetEx; FAsk r; use nGetEx]) with 1; change (length (asks [use nSetEx; FAsk r; use nGetEx])) with 1%nat; lia|].
      change (times (str "GetCurrentConsoleFontEx") [use nSetEx; FAsk r; use nGetEx]) with 1. change (length (asks [use nSetEx; FAsk r; use nGetEx])) with 1%nat. lia.
Qed.
Lemma try_times os l : fo_tracing os = false ->
  times (str "SetConsoleFont") (flat_map (tryCalls os) l) = zlen l /\ times (str "GetCurrentConsoleFont") (flat_map (tryCalls os) l) <= zlen l.
Proof.
  intros T. induction l as [|i l (A & B)]; [split; [reflexivity|cbn; lia]|]. cbn [flat_map]. rewrite !times_app.
  assert (G : times (str "SetConsoleFont") (tryCalls os i) = 1 /\ times (str "GetCurrentConsoleFont") (tryCalls os i) <= 1).
  { unfold tryCalls. rewrite T. destruct (fo_reply os i); split; vm_compute; try reflexivity; discriminate. }
  unfold zlen in *. cbn [length]. lia.
Qed.
Lemma table_times sz c n : list_eqb n nGetSize = false -> forall i, times n (tableCalls sz i c) = 0.
Proof.
  intros N. induction c as [|c IH]; intros i; cbn [tableCalls]; [reflexivity|].
  assert (U : forall r, times n (use nGetSize :: r) = times n r) by (intros r; unfold times; cbn [names flat_map use app filter]; rewrite N; reflexivity).
  rewrite U. destruct (_ && _); [reflexivity|apply IH].
Qed.
Lemma untraced_ok os c n l : fo_load os = true -> cols_ok c -> fo_tracing os = false -> setSmallFont os c n = Ok l ->
  (vistaValid os = true -> Forall (fun m => m = str "SetCurrentConsoleFontEx" \/ m = str "GetCurrentConsoleFontEx") (names l) /\
     times (str "SetCurrentConsoleFontEx") l = zlen (asks l) /\ times (str "GetCurrentConsoleFontEx") l <= zlen (asks l)) /\
  (vistaValid os = false -> xpValid os = true -> times (str "SetConsoleFont") l = zlen (tries l) /\ times (str "GetCurrentConsoleFont") l <= zlen (tries l)) /\
  (vistaValid os = false -> xpValid os = false -> names l = []).
Proof.
  intros L C T. unfold setSmallFont, dumpVistaFont, dumpXPFont, dumpFontTable. rewrite L, T. cbn [assert_ bind negb].
  destruct (vistaValid os) eqn:V; [|destruct (xpValid os) eqn:X].
  - destruct (setSmallFontVista _ _ _ _ _) as [[asked cur]| | | |]; cbn [bind]; try discriminate. destruct (askAll os asked) as [a| | | |] eqn:A; cbn [bind]; try discriminate.
    intros E. assert (l = [loaded; loaded] ++ a ++ [freed; freed]) as -> by (cbn [app] in *; congruence). splits; try discriminate; intros _.
    destruct (ask_times os asked a A) as (A1 & A2 & A3). rewrite !names_app, !times_app, !asks_app. change (names [loaded; loaded]) with (@nil (list Z)). change (names [freed; freed]) with (@nil (list Z)).
    change (asks [loaded; loaded]) with (@nil freq). change (asks [freed; freed]) with (@nil freq). cbn [app]. rewrite !app_nil_r.
    change (times (str "SetCurrentConsoleFontEx") [loaded; loaded]) with 0. change (times (str "SetCurrentConsoleFontEx") [freed; freed]) with 0.
    change (times (str "GetCurrentConsoleFontEx") [loaded; loaded]) with 0. change (times (str "GetCurrentConsoleFontEx") [freed; freed]) with 0. splits; [exact A1|lia|lia].
  - destruct (tryFonts _ _) as [tried cur]. cbn [bind]. intros E.
    assert (l = [loaded; loaded; loaded; loaded] ++ [use nNumber] ++ tableCalls (fo_size os) 0 (fo_count os) ++ flat_map (tryCalls os) tried ++ [freed; freed; freed; freed]) as -> by (cbn [app] in *; congruence).
    splits; try discriminate; intros _ _; split; destruct (try_ok os tried X) as (_ & _ & Y); destruct (calls_quiet (fo_size os) (fo_count os) 0) as (_ & Q); destruct (try_times os tried T) as (A & B);
      rewrite !times_app, !tries_app, Y, Q, (table_times (fo_size os) (fo_count os)) by reflexivity;
      change (tries [loaded; loaded; loaded; loaded]) with (@nil Z); change (tries [freed; freed; freed; freed]) with (@nil Z); change (tries [use nNumber]) with (@nil Z); cbn [app]; rewrite app_nil_r.
    + change (times (str "SetConsoleFont") [loaded; loaded; loaded; loaded]) with 0. change (times (str "SetConsoleFont") [freed; freed; freed; freed]) with 0. change (times (str "SetConsoleFont") [use nNumber]) with 0. lia.
    + change (times (str "GetCurrentConsoleFont") [loaded; loaded; loaded; loaded]) with 0. change (times (str "GetCurrentConsoleFont") [freed; freed; freed; freed]) with 0. change (times (str "GetCurrentConsoleFont") [use nNumber]) with 0. lia.
  - intros E. assert (l = [loaded; loaded; loaded; loaded; freed; freed; freed; freed]) as -> by (cbn [app] in *; congruence). splits; try discriminate. reflexivity.
Qed.
Lemma tracing_ok os c n : fo_load os = true -> cols_ok c -> exists l1 l2, setSmallFont (with_tracing true os) c n = Ok l1 /\ setSmallFont (with_tracing false os) c n = Ok l2 /\
  asks l1 = asks l2 /\ tries l1 = tries l2.
Proof.
  intros L C. assert (L1 : fo_load (with_tracing true os) = true) by exact L. assert (L2 : fo_load (with_tracing false os) = true) by exact L.
  destruct (vistaValid os) eqn:V; [|destruct (xpValid os) eqn:X].
  - destruct (small_vista (with_tracing true os) c n L1 C V) as (l1 & a1 & c1 & E1 & _ & S1 & A1 & T1 & _).
    destruct (small_vista (with_tracing false os) c n L2 C V) as (l2 & a2 & c2 & E2 & _ & S2 & A2 & T2 & _).
    exists l1, l2. rewrite E1, E2, T1, T2, A1, A2. change (accepted (with_tracing true os)) with (accepted (with_tracing false os)) in S1.
    change (fo_codePage (with_tracing true os)) with (fo_codePage (with_tracing false os)) in S1. change (fo_w8 (with_tracing true os)) with (fo_w8 (with_tracing false os)) in S1.
    rewrite S1 in S2. assert (a1 = a2) as -> by congruence. splits; reflexivity.
  - destruct (small_xp (with_tracing true os) c n L1 V X) as (l1 & E1 & _ & A1 & T1). destruct (small_xp (with_tracing false os) c n L2 V X) as (l2 & E2 & _ & A2 & T2).
    exists l1, l2. rewrite E1, E2, A1, A2, T1, T2. splits; reflexivity.
  - destruct (small_none (with_tracing true os) c n L1 V X) as (l1 & E1 & _ & A1 & T1). destruct (small_none (with_tracing false os) c n L2 V X) as (l2 & E2 & _ & A2 & T2).
    exists l1, l2. rewrite E1, E2, A1, A2, T1, T2. splits; reflexivity.
Qed.
