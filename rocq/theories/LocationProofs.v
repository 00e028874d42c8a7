(** Proofs for Location.v. *)
From Verif Require Import Base BaseLemmas Text Strings StringsSpec StringsProofs DebugFlag DebugFlagSpec DebugFlagProofs CmdLineSpec Rpc Open Location LocationSpec.
Ltac splits := repeat match goal with |- _ /\ _ => split end.

Lemma cstr_ok p t : ~ In 0 p -> cstr (p ++ [0] ++ t) = Ok p.
Proof.
  induction p as [|c p IH]; intros H; cbn [app cstr].
  - reflexivity.
  - destruct (Z.eqb_spec c 0) as [->|n]; [destruct H; now left|].
    change ((0 :: t)) with ([0] ++ t). rewrite IH by (intros h; apply H; now right). reflexivity.
Qed.

Definition seps : list Z := [92; 47].
Lemma sep_true c : existsb (Z.eqb c) seps = true <-> c = 92 \/ c = 47.
Proof.
  unfold seps. cbn [existsb]. rewrite !Bool.orb_true_iff, !Z.eqb_eq. intuition discriminate.
Qed.
Lemma last_none s : no_separator s -> find_last_of s seps = None.
Proof.
  unfold no_separator. induction s as [|c s IH]; intros [H1 H2]; cbn [find_last_of]; [reflexivity|].
  rewrite IH by (split; intros h; [apply H1|apply H2]; now right).
  destruct (existsb (Z.eqb c) seps) eqn:E; [|reflexivity].
  apply sep_true in E. destruct E as [->| ->]; [destruct H1|destruct H2]; now left.
Qed.
Lemma last_some dir sep name : sep = 92 \/ sep = 47 -> no_separator name ->
  find_last_of (dir ++ [sep] ++ name) seps = Some (zlen dir).
Proof.
  intros S N. induction dir as [|c dir IH].
  - cbn [app find_last_of]. rewrite last_none by exact N. rewrite (proj2 (sep_true sep) S). reflexivity.
  - cbn [app find_last_of] in *. rewrite IH. f_equal. unfold zlen. cbn [length]. lia.
Qed.
Lemma dirname_ok path dir : directory_of path dir -> dirname path = dir.
Proof.
  intros [(sep & name & -> & S & N)|(-> & N)]; unfold dirname; fold seps.
  - rewrite last_some by assumption. now apply zfirstn_app_exact.
  - rewrite last_none by assumption. reflexivity.
Qed.
Lemma has_directory path : exists dir, directory_of path dir.
Proof.
  induction path as [|c p (dir & [(sep & name & -> & S & N)|(-> & N)])].
  - exists []. right. split; [reflexivity|]. split; intros [].
  - exists (c :: dir). left. exists sep, name. splits; auto.
  - destruct (Z.eq_dec c 92) as [->|n1]; [|destruct (Z.eq_dec c 47) as [->|n2]].
    + exists []. left. exists 92, p. splits; auto.
    + exists []. left. exists 47, p. splits; auto.
    + exists []. right. split; [reflexivity|]. destruct N as [N1 N2]. split; intros [h|h]; auto.
Qed.

Lemma file_name_ok os junk path : library_at os path -> zlen path < 4096 -> getModuleFileName os junk = Ok path.
Proof.
  intros (A & B & C & D) L. unfold getModuleFileName. rewrite A, B. cbn [assert_ bind moduleFileName].
  rewrite (proj2 (Z.ltb_lt _ _) L). rewrite (proj2 (Z.eqb_neq (zlen path) 0)).
  2: { intros h. apply C. destruct path; [reflexivity|]. unfold zlen in h. cbn in h. lia. }
  rewrite (proj2 (Z.eqb_neq (zlen path) 4096)) by lia. cbn [negb andb assert_ bind]. now apply cstr_ok.
Qed.
Lemma file_name_long os junk path : library_at os path -> 4096 <= zlen path -> getModuleFileName os junk = AssertFail.
Proof.
  intros (A & B & C & D) L. unfold getModuleFileName. rewrite A, B. cbn [assert_ bind moduleFileName].
  rewrite (proj2 (Z.ltb_ge _ _) L). reflexivity.
Qed.
Lemma find_ok os junk path dir : library_at os path -> zlen path < 4096 -> directory_of path dir ->
  file_exists os (dir ++ str "\winpty-agent.exe") ->
  findAgentProgram os junk = Ok (dir ++ str "\winpty-agent.exe").
Proof.
  intros A L D X. unfold findAgentProgram. rewrite (file_name_ok os junk path A L). cbn [bind]. cbv zeta. rewrite (dirname_ok path dir D).
  unfold pathExists. change 4294967295 with (2 ^ 32 - 1). rewrite (proj2 (Z.eqb_neq _ _) X). reflexivity.
Qed.
Lemma find_missing os junk path dir : library_at os path -> zlen path < 4096 -> directory_of path dir ->
  ~ file_exists os (dir ++ str "\winpty-agent.exe") ->
  findAgentProgram os junk = Throw (4, str "agent executable does not exist: '" ++ (dir ++ str "\winpty-agent.exe") ++ str "'").
Proof.
  intros A L D X. unfold findAgentProgram. rewrite (file_name_ok os junk path A L). cbn [bind]. cbv zeta. rewrite (dirname_ok path dir D).
  unfold pathExists. change 4294967295 with (2 ^ 32 - 1). unfold file_exists in X.
  destruct (Z.eqb_spec (lo_attrs os (dir ++ str "\winpty-agent.exe")) (2 ^ 32 - 1)) as [e|n]; [reflexivity|]. now destruct X.
Qed.

Lemma show_ok v : shouldShowConsoleWindow v = true <-> ~ (v = None \/ v = Some []).
Proof.
  unfold shouldShowConsoleWindow, getEnvironmentVariableA. rewrite Z.ltb_lt. destruct v as [[|c s]|].
  - change (zlen []) with 0. cbn. split; [lia|]. intros h. destruct h. now right.
  - unfold zlen. cbn [length]. split; [intros _ [h|h]; discriminate|]. intros _. destruct (_ <? 32); lia.
  - split; [lia|]. intros h. destruct h. now left.
Qed.
Lemma hide_ok show dbg : exists b, shouldSpecifyHideFlag show dbg = Ok b /\ (b = true <-> hidden show dbg).
Proof.
  unfold shouldSpecifyHideFlag, hidden.
  destruct (lone dbg (str "force_sw_hide")) as (f & -> & F); [vm_compute; intuition discriminate|].
  destruct (lone dbg (str "no_sw_hide")) as (n & -> & N); [vm_compute; intuition discriminate|].
  cbn [bind]. cbv zeta. pose proof (show_ok show) as S.
  eexists. split; [reflexivity|]. set (F' := In _ _) in F |- *. set (N' := In (str "no_sw_hide") _) in N |- *. clearbody F' N'.
  assert (D : (show = None \/ show = Some []) \/ ~ (show = None \/ show = Some [])).
  { destruct show as [[|c s]|]; [left; now right|right; intros [h|h]; discriminate|left; now left]. }
  destruct f, n, (shouldShowConsoleWindow show); cbn [andb negb]; intuition (try discriminate; auto).
Qed.

Lemma start_ok os junk path dir show dbg desktop pipe params flags answer :
  library_at os path -> zlen path < 4096 -> directory_of path dir -> (forall c e, answer c = inr e -> 0 <= e < 2 ^ 32) ->
  let agent := dir ++ str "\winpty-agent.exe" in
  (file_exists os agent ->
     exists c r, startAgentProcess os junk show dbg desktop pipe params flags answer = (Some c, r) /\
       proper c agent (pipe ++ str " " ++ params) desktop flags show dbg /\ reported c (answer c) r) /\
  (~ file_exists os agent -> is_missing agent (startAgentProcess os junk show dbg desktop pipe params flags answer)).
Proof.
  intros A L D R agent. unfold startAgentProcess. split; intros X.
  - rewrite (find_ok os junk path dir A L D X). fold agent. destruct (hide_ok show dbg) as (b & -> & B). cbv zeta.
    eexists. eexists. split; [reflexivity|]. split.
    + unfold proper. cbn [cp_app cp_cmdline cp_desktop cp_inherit cp_flags cp_hide]. splits; try reflexivity; try apply B.
      * intros ->. reflexivity.
      * intros h. rewrite (proj2 (Z.eqb_neq (zlen desktop) 0)); [reflexivity|]. intros q. apply h. destruct desktop; [reflexivity|]. unfold zlen in q. cbn in q. lia.
    + unfold reported. match goal with |- context [answer ?c] => set (cc := c) end.
      destruct (answer cc) as [pid|e] eqn:E; [reflexivity|].
      pose proof (R cc e E) as Re.
      destruct (@ghexOfInt_ok wexc false false 4 (uninit 9) e) as (vs & s & -> & (V & _) & Q); [lia|reflexivity|exact Re|].
      cbv iota in Q. change (8 * 4) with 32 in Q. rewrite (Z.mod_small e) in Q by lia. exists s. split; [exact Q|]. rewrite V. reflexivity.
  - unfold is_missing. rewrite (find_missing os junk path dir A L D X). reflexivity.
Qed.

(** Whatever the system answers, a process is created only from the library's directory. *)
Lemma cstr_prefix b s : cstr b = Ok s -> ~ In 0 s /\ exists t, b = s ++ [0] ++ t.
Proof.
  revert s. induction b as [|c b IH]; cbn [cstr]; intros s H; [discriminate|].
  destruct (Z.eqb_spec c 0) as [->|n].
  - injection H as <-. split; [intros []|]. exists b. reflexivity.
  - destruct (cstr b) as [r|e| | |]; try discriminate. cbn [bind] in H. injection H as <-.
    destruct (IH r eq_refl) as (I1 & t & ->). split; [intros [h|h]; auto|]. exists t. reflexivity.
Qed.
Lemma nothing_else os junk path show dbg desktop pipe params flags answer c r :
  lo_path os = Some path -> ~ In 0 path ->
  startAgentProcess os junk show dbg desktop pipe params flags answer = (Some c, r) ->
  zlen path < 4096 /\ cp_inherit c = false /\ exists dir, directory_of path dir /\ cp_app c = dir ++ str "\winpty-agent.exe" /\ file_exists os (cp_app c).
Proof.
  intros P N H. unfold startAgentProcess in H.
  destruct (findAgentProgram os junk) as [exe|e| | |] eqn:F; try discriminate.
  destruct (hide_ok show dbg) as (b & B & _). rewrite B in H. cbv zeta in H. apply (f_equal fst) in H. cbn [fst] in H. injection H as <-. cbn [cp_app cp_inherit].
  unfold findAgentProgram, getModuleFileName in F. rewrite P in F. destruct (lo_handle os); [|discriminate]. cbn [assert_ bind moduleFileName] in F.
  destruct (Z.ltb_spec (zlen path) 4096) as [l|l]; [|rewrite Z.eqb_refl, Bool.andb_false_r in F; discriminate].
  destruct (negb (zlen path =? 0) && negb (zlen path =? 4096)); [|discriminate]. cbn [assert_ bind] in F.
  rewrite (cstr_ok path _ N) in F. cbn [bind] in F. cbv zeta in F. destruct (has_directory path) as (dir & D). rewrite (dirname_ok path dir D) in F.
  unfold pathExists in F. destruct (Z.eqb_spec (lo_attrs os (dir ++ str "\winpty-agent.exe")) 4294967295) as [q|q]; [discriminate|].
  cbn [negb] in F. injection F as <-. splits; auto. exists dir. splits; auto.
Qed.
Lemma long_path os junk path show dbg desktop pipe params flags answer :
  library_at os path -> 4096 <= zlen path ->
  startAgentProcess os junk show dbg desktop pipe params flags answer = (None, AssertFail).
Proof. intros A L. unfold startAgentProcess, findAgentProgram. now rewrite (file_name_long os junk path A L). Qed.

(** The agent finds its own path as its first argument. *)
Lemma quoted_program p rest acc : ~ In 34 p -> program_name (p ++ [34; 32] ++ rest) true acc = (acc ++ p, rest).
Proof.
  revert acc. induction p as [|c p IH]; intros acc H; cbn [app program_name].
  - rewrite app_nil_r. reflexivity.
  - destruct (Z.eqb_spec c 34) as [->|n]; [destruct H; now left|]. rewrite Bool.andb_false_r.
    change ([34; 32] ++ rest) with (34 :: 32 :: rest) in IH.
    rewrite IH by (intros h; apply H; now right). rewrite <- app_assoc. reflexivity.
Qed.
Lemma own_path m c agent words desktop console show dbg : ~ In 34 agent -> proper c agent words desktop console show dbg ->
  windows_argv m (cp_cmdline c) = agent :: split m words false 0 None.
Proof.
  intros Q (A & B & _). rewrite B. unfold windows_argv. change (str """") with [34]. change (str """ ") with [34; 32]. cbn [app program_name].
  change (34 =? 34) with true. cbv iota. cbn [negb]. pose proof (quoted_program agent words [] Q) as E. cbn [app] in E. rewrite E. reflexivity.
Qed.

(** Open.v's abstraction of startAgentProcess agrees. *)
Lemma as_open w so os junk path dir show dbg desktop pipe params flags answer :
  library_at os path -> zlen path < 4096 -> directory_of path dir -> (forall c e, answer c = inr e -> 0 <= e < 2 ^ 32) ->
  let agent := dir ++ str "\winpty-agent.exe" in
  (Open.so_exe so = true <-> file_exists os agent) ->
  (forall c, Open.so_pid so = match answer c with inl pid => Some pid | inr _ => None end) ->
  let (l, o) := Open.startAgentProcess w so agent desktop pipe params in
  let (c, r) := startAgentProcess os junk show dbg desktop pipe params flags answer in
  match o, r with
  | Ok pid, Ok pid' => pid = pid'
  | Throw (Rpc.XLib k), Throw (k', _) => k = k'
  | _, _ => False
  end /\
  (forall cmd d, In (Open.EvStart w cmd d) l -> exists c', c = Some c' /\ cp_cmdline c' = cmd /\ d = desktop).
Proof.
  intros A L D R agent X Y. destruct (start_ok os junk path dir show dbg desktop pipe params flags answer A L D R) as (S1 & S2).
  fold agent in S1, S2. unfold Open.startAgentProcess. destruct (Open.so_exe so).
  - destruct (S1 (proj1 X eq_refl)) as (c & r & -> & (P1 & P2 & _) & Q). rewrite (Y c). cbn [negb]. unfold reported in Q.
    destruct (answer c) as [pid|e].
    + subst r. cbn. split; [reflexivity|]. intros cmd d [h|[h|[h|[h|[]]]]]; try discriminate. injection h as <- <-. exists c. splits; auto.
    + destruct Q as (h & _ & ->). cbn. split; [reflexivity|]. intros cmd d [].
  - unfold is_missing in S2. rewrite S2 by (intros h; apply X in h; discriminate). cbn. split; [reflexivity|]. intros cmd d [].
Qed.
