From Verif Require Import BufferSpec BufferProofs Base BaseLemmas Text Buffer Strings StringsSpec StringsProofs Rpc CmdLineSpec CmdLineProofs Spawn SpawnProofs
  Open OpenSpec.
Ltac Zify.zify_post_hook ::= Z.div_mod_to_equations.
Ltac splits := repeat match goal with |- _ /\ _ => split end.

(** *** Configuration *)
Lemma land_mask n flags : 0 <= n -> 0 <= flags -> (Z.land flags (2 ^ n - 1) = flags <-> only_bits n flags).
Proof.
  intros Hn Hf. replace (2 ^ n - 1) with (Z.ones n) by (rewrite Z.ones_equiv; lia). split.
  - intros H i Hi. rewrite <- H in Hi. destruct (Z.ltb_spec i n) as [|Hge]; [lia|].
    rewrite Z.land_spec, Z.ones_spec_high, andb_false_r in Hi by lia. discriminate.
  - intros H. apply Z.bits_inj'. intros i Hi. rewrite Z.land_spec.
    destruct (Z.testbit flags i) eqn:E; [|reflexivity]. specialize (H i E). rewrite Z.ones_spec_low by lia. reflexivity.
Qed.

Lemma config_new_exact {E} flags : 0 <= flags ->
  (only_bits 4 flags /\ @config_new E flags = Ok (mkC flags 80 25 1 30000)) \/
  (~ only_bits 4 flags /\ @config_new E flags = AssertFail).
Proof.
  intros Hf. unfold config_new. change WINPTY_FLAG_MASK with (2 ^ 4 - 1).
  pose proof (land_mask 4 flags ltac:(lia) Hf) as H.
  destruct (Z.eqb_spec (Z.land flags (2 ^ 4 - 1)) flags) as [E1|E1]; cbn [assert_ bind].
  - left. split; [now apply H|reflexivity].
  - right. split; [|reflexivity]. intros Hb. apply E1, H, Hb.
Qed.

Lemma spawn_config_exact flags app cmd cwd env : 0 <= flags ->
  (only_bits 2 flags -> forall a c d e, @copy_cstr exc app = Ok a -> @copy_cstr exc cmd = Ok c -> @copy_cstr exc cwd = Ok d ->
     @wstringFromEnvBlock exc env = Ok e -> @spawn_config_new exc flags app cmd cwd env = Ok (mkCfg flags a c d e)) /\
  (~ only_bits 2 flags -> @spawn_config_new exc flags app cmd cwd env = AssertFail).
Proof.
  intros Hf. unfold spawn_config_new. change WINPTY_SPAWN_FLAG_MASK with (2 ^ 2 - 1).
  pose proof (land_mask 2 flags ltac:(lia) Hf) as H.
  destruct (Z.eqb_spec (Z.land flags (2 ^ 2 - 1)) flags) as [E1|E1]; cbn [assert_ bind]; split; intros Hb.
  - intros a c d e -> -> -> ->. reflexivity.
  - contradict Hb. now apply H.
  - contradict E1. now apply H.
  - reflexivity.
Qed.

Lemma cfg_do_exact c o :
  (documented o /\ exists c', cfg_do c o = Ok c') \/ (~ documented o /\ cfg_do c o = AssertFail).
Proof.
  destruct o as [w h|m|t]; cbn [cfg_do documented];
    unfold set_initial_size, set_mouse_mode, set_agent_timeout.
  - destruct (Z.ltb_spec 0 w), (Z.ltb_spec 0 h); cbn; [left; split; [lia|eauto]|right; split; [lia|auto]..].
  - destruct (Z.leb_spec 0 m), (Z.leb_spec m 2); cbn; [left; split; [lia|eauto]|right; split; [lia|auto]..].
  - destruct (Z.ltb_spec 0 t); cbn; [left; split; [lia|eauto]|right; split; [lia|auto]].
Qed.

Definition valid (c : config) : Prop :=
  0 <= cf_flags c < 16 /\ 1 <= cf_cols c < 2 ^ 31 /\ 1 <= cf_rows c < 2 ^ 31 /\ 0 <= cf_mouse c <= 2 /\ 1 <= cf_timeout c < 2 ^ 32.

Lemma cfg_do_valid c o c' : valid c -> int_args o -> cfg_do c o = Ok c' -> valid c' /\ cf_flags c' = cf_flags c.
Proof.
  intros (V1 & V2 & V3 & V4 & V5) Hi H.
  destruct o as [w h|m|t]; cbn [cfg_do int_args] in *; unfold set_initial_size, set_mouse_mode, set_agent_timeout in H.
  - destruct (Z.ltb_spec 0 w); [|discriminate]; destruct (Z.ltb_spec 0 h); [|discriminate].
    cbn in H. injection H as <-. unfold valid. cbn. splits; auto; lia.
  - destruct (Z.leb_spec 0 m); [|discriminate]; destruct (Z.leb_spec m 2); [|discriminate].
    cbn in H. injection H as <-. unfold valid. cbn. splits; auto; lia.
  - destruct (Z.ltb_spec 0 t); [|discriminate].
    cbn in H. injection H as <-. unfold valid. cbn. splits; auto; lia.
Qed.

Lemma only_bits_range n flags : 0 <= n -> 0 <= flags -> only_bits n flags -> flags < 2 ^ n.
Proof.
  intros Hn Hf H. pose proof (proj2 (land_mask n flags Hn Hf) H) as E.
  pose proof (Z.land_ones flags n Hn) as L. replace (Z.ones n) with (2 ^ n - 1) in L by (rewrite Z.ones_equiv; lia).
  rewrite E in L. rewrite L. apply Z.mod_pos_bound. apply Z.pow_pos_nonneg; lia.
Qed.

Lemma configure_valid os : forall c c', valid c -> Forall int_args os -> configure c os = Ok c' -> valid c' /\ cf_flags c' = cf_flags c.
Proof.
  induction os as [|o os IH]; intros c c' V F H; cbn [configure] in H; [injection H as <-; auto|].
  inversion F as [|? ? Ho F']; subst. destruct (cfg_do c o) as [c1| | | |] eqn:E1; try discriminate. cbn [bind] in H.
  destruct (cfg_do_valid _ _ _ V Ho E1) as (V1 & F1). destruct (IH _ _ V1 F' H) as (V2 & F2). split; [exact V2|congruence].
Qed.

(** *** Numbers on the command line *)
Lemma digits_value s : forall acc, Forall (fun c => 0 <= dval c < 10) s -> digits s acc = fold_left (fun a c => a * 10 + dval c) s acc.
Proof.
  induction s as [|c t IH]; intros acc F; [reflexivity|]. inversion F as [|? ? Hc F']; subst. cbn [digits fold_left].
  assert (Hd : 48 <= c <= 57 /\ dval c = c - 48).
  { revert Hc. unfold dval. destruct (Z.leb_spec 48 c), (Z.leb_spec c 57), (Z.leb_spec 97 c), (Z.leb_spec c 102); cbn [andb]; lia. }
  destruct Hd as (R & Hd). replace ((48 <=? c) && (c <=? 57)) with true by lia. rewrite IH by exact F'. now rewrite Hd.
Qed.

(** A digit string for a number. *)
Definition digit_text (s : list Z) : Prop := s <> [] /\ Forall (fun c => 48 <= c <= 57) s.
Lemma decimal_text s v : 0 <= v -> decimal s v -> digit_text s /\ scan_int s = v.
Proof.
  intros Hv H. unfold decimal in H. replace (v <? 0) with false in H by lia. destruct H as ((Hne & F & Hval) & _).
  assert (F' : Forall (fun c => 48 <= c <= 57) s).
  { eapply Forall_impl; [|exact F]. intros c Hc. cbv beta in *. revert Hc. unfold dval.
    destruct (Z.leb_spec 48 c), (Z.leb_spec c 57), (Z.leb_spec 97 c), (Z.leb_spec c 102); cbn [andb]; lia. }
  split; [now split|]. destruct s as [|c t]; [congruence|]. inversion F' as [|? ? Hc Ft]; subst.
  unfold scan_int. cbn [skip_space]. unfold isspace.
  replace ((c =? 32) || ((9 <=? c) && (c <=? 13))) with false by lia.
  assert (E : digits (c :: t) 0 = value 10 (c :: t)) by (unfold value; now rewrite digits_value).
  rewrite <- E. destruct c as [|p|p]; try reflexivity.
  do 6 (destruct p as [p|p|]; try reflexivity; try lia).
Qed.

Lemma dec64_ok v : 0 <= v < 2 ^ 64 -> exists s, dec64 v = Ok s /\ digit_text s /\ scan_int s = v.
Proof.
  intros H. unfold dec64. destruct (@gdecOfInt_ok lexc false 8 (uninit 26) v) as (vs & s & -> & D & (S & _)); [lia|now rewrite uninit_len|exact H|].
  cbn [bind]. exists s. rewrite S. split; [reflexivity|]. apply decimal_text; [lia|exact D].
Qed.
Lemma dec32_ok v : 0 <= v < 2 ^ 31 -> exists s, dec32 v = Ok s /\ digit_text s /\ scan_int s = v.
Proof.
  intros H. unfold dec32. destruct (@gdecOfInt_ok lexc true 4 (uninit 14) v) as (vs & s & -> & D & (S & _)); [lia|now rewrite uninit_len| |].
  { unfold int_range. change (8 * 4 - 1) with 31. lia. }
  cbn [bind]. exists s. rewrite S. split; [reflexivity|]. apply decimal_text; [lia|exact D].
Qed.

(** *** Splitting the agent's command line *)
Definition word (s : list Z) : Prop := s <> [] /\ Forall (fun c => c <> 32 /\ c <> 9 /\ c <> 34) s.

Lemma word_digits s : digit_text s -> word s.
Proof. intros (H & F). split; [exact H|]. eapply Forall_impl; [|exact F]. cbv beta. lia. Qed.

(** backslashes and the current argument, as text *)
Lemma split_word_aux m rest : delimited rest -> forall s bs cur, Forall (fun c => c <> 32 /\ c <> 9 /\ c <> 34) s ->
  (s <> [] \/ bs <> O \/ cur <> None) ->
  split m (s ++ rest) false bs cur =
  match add cur (backslashes bs ++ s) with Some a => a :: match rest with [] => [] | _ :: t => split m t false 0 None end | None => [] end.
Proof.
  intros Hr. induction s as [|c s IH]; intros bs cur F Hne.
  - cbn [app]. rewrite app_nil_r. destruct Hr as [->|(t & ->)]; cbn [split].
    + unfold flush. destruct cur, bs; cbn; try reflexivity. destruct Hne as [?|[?|?]]; congruence.
    + change (32 =? 92) with false. change (32 =? 34) with false. change (is_blank 32 && negb false) with true. cbn match.
      unfold flush. destruct cur, bs; cbn [add]; try reflexivity. destruct Hne as [?|[?|?]]; congruence.
  - inversion F as [|? ? Hc F']; subst. cbn [app split].
    destruct (Z.eqb_spec c 92) as [H92|H92].
    + rewrite IH by (auto; right; left; congruence). subst c. unfold backslashes. cbn [repeat app].
      replace (repeat 92 bs ++ 92 :: s) with (92 :: repeat 92 bs ++ s); [reflexivity|].
      change (92 :: repeat 92 bs ++ s) with (repeat 92 (S bs) ++ s). rewrite <- Nat.add_1_r, repeat_app, <- app_assoc. reflexivity.
    + replace (c =? 34) with false by lia. unfold is_blank. replace (((c =? 32) || (c =? 9)) && negb false) with false by lia.
      rewrite IH; [|exact F'|right; right; destruct cur; discriminate].
      rewrite add_add. change (backslashes 0) with (@nil Z). rewrite app_nil_l, <- app_assoc. reflexivity.
Qed.

Lemma split_word m s rest : word s -> delimited rest ->
  split m (s ++ rest) false 0 None = s :: match rest with [] => [] | _ :: t => split m t false 0 None end.
Proof. intros (Hne & F) Hr. rewrite split_word_aux by auto. reflexivity. Qed.

Lemma argv_cmdline m exe pipe params : ~ In 34 exe -> word pipe ->
  windows_argv m (agent_cmdline exe pipe params) = exe :: pipe :: split m params false 0 None.
Proof.
  intros He Hp. unfold windows_argv, agent_cmdline. cbn [app program_name]. change (34 =? 34) with true. cbn match. cbn [negb].
  rewrite <- ?app_assoc. rewrite program_name_plain by (auto; discriminate). cbn [app program_name].
  change (34 =? 34) with true. cbn match. cbn [negb]. change (32 =? 34) with false.
  change (is_blank 32 && true) with true. cbn match. f_equal.
  rewrite split_word; [reflexivity|exact Hp|]. right. eexists. reflexivity.
Qed.

Lemma hexdigit_word d : 0 <= d < 16 -> 48 <= hexdigit d /\ hexdigit d <> 92.
Proof. unfold hexdigit. destruct (Z.ltb_spec d 10); lia. Qed.

Lemma decimal_chars s v : decimal s v -> Forall (fun c => 45 <= c) s.
Proof.
  assert (A : forall d x, canonical 10 d x -> Forall (fun c => 45 <= c) d).
  { intros d x ((_ & F & _) & _). eapply Forall_impl; [|exact F]. intros c. cbv beta. unfold dval.
    destruct (Z.leb_spec 48 c), (Z.leb_spec c 57), (Z.leb_spec 97 c), (Z.leb_spec c 102); cbn [andb]; lia. }
  unfold decimal. destruct (v <? 0); [intros (d & -> & C); constructor; [lia|eauto]|apply A].
Qed.
Lemma canonical16_chars s v : canonical 16 s v -> Forall (fun c => 45 <= c) s.
Proof.
  intros ((_ & F & _) & _). eapply Forall_impl; [|exact F]. intros c. cbv beta. unfold dval.
  destruct (Z.leb_spec 48 c), (Z.leb_spec c 57), (Z.leb_spec 97 c), (Z.leb_spec c 102); cbn [andb]; lia.
Qed.
Lemma randomHex_chars rnd : match rnd with Some b => Forall (fun x => 0 <= x < 256) b | None => True end ->
  Forall (fun c => 45 <= c) (randomHexString rnd).
Proof.
  unfold randomHexString, randomBytes. destruct rnd as [b|]; [|constructor]. induction b as [|x b IH]; intros F; [constructor|].
  inversion F as [|? ? Hx F']; subst. cbn [flat_map app].
  assert (H1 : 0 <= Z.shiftr x 4 < 16) by (rewrite Z.shiftr_div_pow2 by lia; change (2 ^ 4) with 16; lia).
  assert (H2 : 0 <= Z.land x 0xF < 16) by (rewrite land_F; lia).
  constructor; [pose proof (hexdigit_word _ H1); lia|]. constructor; [pose proof (hexdigit_word _ H2); lia|]. now apply IH.
Qed.

Lemma pipe_word {E} pid counter os : 0 <= pid < 2 ^ 32 -> sess_ok os ->
  exists n, @pipeName E (str "\\.\pipe\winpty-control-") pid counter (so_time os) (so_rnd os) = Ok (n, s32 (counter + 1)) /\
            word n /\ n <> str "--version" /\ n <> str "--show-input".
Proof.
  intros Hp (Ht & Hr). unfold pipeName.
  destruct (@uniqueName_shape E pid counter (so_time os) (so_rnd os) Hp Ht) as (p & c & t & -> & D1 & D2 & D3).
  cbn [bind]. eexists. split; [reflexivity|]. splits; try (vm_compute; discriminate).
  assert (F : Forall (fun c => 45 <= c) (str "\\.\pipe\winpty-control-" ++ (p ++ [45] ++ c ++ [45] ++ t ++
     (if zlen (randomHexString (so_rnd os)) =? 0 then [] else [45] ++ randomHexString (so_rnd os))))).
  { assert (D : Forall (fun c => 45 <= c) [45]) by (constructor; [lia|constructor]).
    apply Forall_app; split; [apply Forall_forall; intros x Hx; assert (G : forallb (fun c => 45 <=? c) (str "\\.\pipe\winpty-control-") = true) by reflexivity;
      rewrite forallb_forall in G; specialize (G x Hx); lia|].
    apply Forall_app; split; [eapply decimal_chars; eauto|]. apply Forall_app; split; [exact D|].
    apply Forall_app; split; [eapply decimal_chars; eauto|]. apply Forall_app; split; [exact D|].
    apply Forall_app; split; [eapply canonical16_chars; eauto|].
    destruct (_ =? 0); [constructor|]. apply Forall_app; split; [exact D|]. now apply randomHex_chars. }
  split; [vm_compute; discriminate|]. eapply Forall_impl; [|exact F]. cbv beta. lia.
Qed.

Lemma ascii_digits utf8 s : ascii_id utf8 -> digit_text s -> utf8 s = s.
Proof. intros H (_ & F). apply H. eapply Forall_impl; [|exact F]. cbv beta. lia. Qed.

Lemma atoi_ok {E} s v : scan_int s = v -> 0 <= v < 2 ^ 31 -> @atoi E s = Ok v.
Proof. intros H Hv. unfold atoi. cbv zeta. rewrite H. replace ((- 2 ^ 31 <=? v) && (v <? 2 ^ 31)) with true by lia. reflexivity. Qed.

Lemma eqb_false a b : a <> b -> list_eqb a b = false.
Proof. apply list_eqb_neq. Qed.

Lemma main_parses {E} q utf8 exe pipe cfg params : ascii_id utf8 -> ~ In 34 exe -> word pipe ->
  pipe <> str "--version" -> pipe <> str "--show-input" -> valid cfg -> open_params cfg = Ok params ->
  @agent_main E q utf8 (agent_cmdline exe pipe params) = Ok (RunAgent pipe (cf_flags cfg) (cf_mouse cfg) (cf_cols cfg) (cf_rows cfg)).
Proof.
  intros Hu He Hp N1 N2 (V1 & V2 & V3 & V4 & V5) H. unfold open_params in H.
  destruct (dec64_ok (cf_flags cfg) ltac:(lia)) as (f & Ef & Df & Sf).
  destruct (dec32_ok (cf_mouse cfg) ltac:(lia)) as (m & Em & Dm & Sm).
  destruct (dec32_ok (cf_cols cfg) ltac:(lia)) as (c & Ec & Dc & Sc).
  destruct (dec32_ok (cf_rows cfg) ltac:(lia)) as (r & Er & Dr & Sr).
  rewrite Ef, Em, Ec, Er in H. cbn [bind] in H. injection H as <-.
  unfold agent_main. rewrite argv_cmdline by auto.
  assert (D : forall x, delimited (32 :: x)) by (intros x; right; eexists; reflexivity).
  cbn [app]. rewrite (split_word q f) by (auto using word_digits; apply D).
  rewrite (split_word q m) by (auto using word_digits; apply D). cbn [app].
  rewrite (split_word q c) by (auto using word_digits; apply D). cbn [app].
  rewrite <- (app_nil_r r). rewrite (split_word q r) by (auto using word_digits; left; reflexivity).
  rewrite !(ascii_digits utf8) by auto. rewrite (eqb_false pipe) by exact N2.
  rewrite (atoi_ok m _ Sm), (atoi_ok c _ Sc), (atoi_ok r _ Sr) by lia. cbn [bind]. do 2 f_equal.
  unfold winpty_atoi64. rewrite Sf. unfold u64, wrapu. rewrite Z.mod_small; lia.
Qed.

Lemma main_desktop {E} q utf8 exe pipe : ~ In 34 exe -> word pipe -> pipe <> str "--version" -> pipe <> str "--show-input" ->
  @agent_main E q utf8 (agent_cmdline exe pipe (str "--create-desktop")) = Ok (CreateDesktop pipe).
Proof.
  intros He Hp N1 N2. unfold agent_main. rewrite argv_cmdline by auto.
  assert (W : word (str "--create-desktop")) by (split; [discriminate|repeat constructor; discriminate]).
  rewrite <- (app_nil_r (str "--create-desktop")). rewrite (split_word q _ []) by (auto; left; reflexivity).
  rewrite (eqb_false pipe) by exact N2. rewrite app_nil_r. rewrite list_eqb_refl. reflexivity.
Qed.

(** *** Sessions *)
(** What createAgentSession does: start an authentic agent, or undo everything. *)
Definition started_log (w : which) (name exe desktop params : list Z) : list ev :=
  [EvOpen (OEvent w); EvOpen (OPipe w); EvPipe w name; EvOpen (OProcess w); EvOpen (OThread w);
   EvStart w (agent_cmdline exe name params) desktop; EvClose (OThread w)].

Lemma session_cases w gos os counter desktop params l r : 0 <= oo_pid gos < 2 ^ 32 -> sess_ok os ->
  createAgentSession w gos os counter desktop params = (l, r) ->
  exists name, word name /\ name <> str "--version" /\ name <> str "--show-input" /\
  ((exists c, r = Ok c /\ l = started_log w name (oo_exe gos) desktop params /\ authentic os) \/
   (exists e, r = Throw e /\
      (l = [] \/ l = [EvOpen (OEvent w); EvClose (OEvent w)] \/
       l = [EvOpen (OEvent w); EvOpen (OPipe w); EvPipe w name; EvClose (OEvent w); EvClose (OPipe w)] \/
       l = started_log w name (oo_exe gos) desktop params ++ free_session w)) \/
   (r = AssertFail /\ l = started_log w name (oo_exe gos) desktop params)).
Proof.
  intros Hp Ho H. destruct (@pipe_word lexc (oo_pid gos) counter os Hp Ho) as (n & E & W & N1 & N2).
  exists n. splits; auto. unfold createAgentSession in H. rewrite E in H.
  unfold createControlPipe, startAgentProcess, connectControlPipe, verifyPipeClientPid, authentic in *.
  destruct (so_event os); cbn in H; [|injection H as <- <-; eauto 10].
  destruct (so_sd os); cbn in H; [|injection H as <- <-; eauto 10].
  destruct (so_pipe os); cbn in H; [|injection H as <- <-; eauto 10].
  destruct (so_exe os); cbn in H; [|injection H as <- <-; eauto 12].
  destruct (so_pid os) as [pid|]; cbn in H; [|injection H as <- <-; eauto 12].
  destruct (handlePendingIo (so_connect os)) as [[ok err]|e0| | |] eqn:Ec; cbn in H.
  - destruct (ok || (err =? 535)); cbn in H; [|injection H as <- <-; right; left; eauto 10].
    destruct (so_client os) as [| |cp]; cbn in H.
    + injection H as <- <-. left. eexists. splits; reflexivity.
    + injection H as <- <-. right. left. eauto 10.
    + destruct (Z.eqb_spec cp pid) as [Ep|Ep]; cbn in H; injection H as <- <-.
      * left. eexists. splits; [reflexivity..|]. now subst.
      * right. left. eauto 10.
  - injection H as <- <-. right. left. eauto 10.
  - injection H as <- <-. right. right. auto.
  - unfold handlePendingIo in Ec. destruct (so_connect os) as [|[]]; discriminate.
  - unfold handlePendingIo in Ec. destruct (so_connect os) as [|[]]; discriminate.
Qed.

Lemma live_app a : forall b o, live (a ++ b) o = match live a o with Some o' => live b o' | None => None end.
Proof.
  induction a as [|e a IH]; intros b o; [reflexivity|]. cbn [app live]. destruct e; auto. destruct (remove_obj o0 o); auto.
Qed.
Lemma background_app a : forall b x, on_background (a ++ b) x = on_background b (on_background a x).
Proof. induction a as [|e a IH]; intros b x; [reflexivity|]. destruct e; cbn [app on_background]; auto. Qed.

Definition objs (d : agent_desktop) : list obj :=
  match d with
  | NoDesktop => []
  | Direct _ => [ODesktop; OStation]
  | Indirect _ => [OProcess Helper; OPipe Helper; OEvent Helper]
  end.
Definition is_direct (d : agent_desktop) : bool := match d with Direct _ => true | _ => false end.

Definition start_ok (exe : list Z) (cfg : config) (l : list ev) (e : ev) : Prop :=
  match e with
  | EvStart w cmd _ => exists name params, In (EvPipe w name) l /\ word name /\ name <> str "--version" /\ name <> str "--show-input" /\
                         cmd = agent_cmdline exe name params /\
                         (w = Helper /\ params = str "--create-desktop" \/ w = Main /\ open_params cfg = Ok params)
  | _ => True
  end.
Definition starts_ok exe cfg l := Forall (start_ok exe cfg l) l.

Lemma starts_ok_app exe cfg a b : starts_ok exe cfg a -> starts_ok exe cfg b -> starts_ok exe cfg (a ++ b).
Proof.
  intros Ha Hb. unfold starts_ok. apply Forall_app. split; (eapply Forall_impl; [|eassumption]);
    intros [ | | |w cmd d| |]; cbn; auto; intros (n & ps & Hi & H); exists n, ps; (split; [apply in_or_app; auto|exact H]).
Qed.
Lemma starts_none exe cfg l : Forall (fun e => match e with EvStart _ _ _ => False | _ => True end) l -> starts_ok exe cfg l.
Proof. intros H. eapply Forall_impl; [|exact H]. intros []; cbn; tauto. Qed.

Lemma started_ok exe cfg w name desktop params tail : word name -> name <> str "--version" -> name <> str "--show-input" ->
  Forall (fun e => match e with EvStart _ _ _ => False | _ => True end) tail ->
  (w = Helper /\ params = str "--create-desktop" \/ w = Main /\ open_params cfg = Ok params) ->
  starts_ok exe cfg (started_log w name exe desktop params ++ tail).
Proof.
  intros W N1 N2 F H. apply starts_ok_app; [|now apply starts_none].
  unfold starts_ok, started_log. repeat constructor. cbn. exists name, params. splits; auto.
Qed.

Definition after {A} (r : res lexc A) (l : list ev) (o : A -> list obj) (b : A -> bool) : Prop :=
  match r with
  | Ok a => live l [] = Some (o a) /\ on_background l false = b a
  | Throw _ => live l [] = Some [] /\ on_background l false = false
  | _ => True
  end.

Ltac nostart := repeat first [apply Forall_nil | apply Forall_cons; [exact I|]].
Ltac noread := let X := fresh "X" in intros X; cbn in X; repeat (destruct X as [X|X]; [try discriminate X|]); try contradiction.
Ltac nohelper := let X := fresh "X" in intros (? & ? & X); cbn in X; repeat (destruct X as [X|X]; [try discriminate X|]); try contradiction.

Lemma setup_cases os cfg l r : os_ok os -> setupBackgroundDesktop os cfg = (l, r) ->
  after r l (fun dc => objs (fst dc)) (fun dc => is_direct (fst dc)) /\
  starts_ok (oo_exe os) cfg l /\ ~ reads Main l /\ (reads Helper l -> authentic (oo_helper os)) /\
  ((exists a, r = Ok a) -> uses_helper l -> authentic (oo_helper os)).
Proof.
  intros (Hp & _ & Hh & He) H. unfold setupBackgroundDesktop in H.
  destruct (shouldCreateBackgroundDesktop os (Z.land (cf_flags cfg) 8 =? 0)) as [use ag].
  destruct use; cbn [negb] in H.
  2:{ injection H as <- <-. splits; [split; reflexivity|apply starts_none; nostart|noread|noread|intros _; nohelper]. }
  destruct ag.
  - destruct (createAgentSession Helper os (oo_helper os) (oo_counter os) [] (str "--create-desktop")) as [l1 r1] eqn:E1.
    destruct (session_cases _ _ _ _ _ _ _ _ Hp Hh E1) as (n & W & N1 & N2 & C). clear E1.
    destruct C as [(c & -> & -> & Ha)|[(e & -> & C)|(-> & ->)]]; cbn [mbind] in H.
    + assert (S0 : forall tail, Forall (fun e => match e with EvStart _ _ _ => False | _ => True end) tail ->
        starts_ok (oo_exe os) cfg (started_log Helper n (oo_exe os) [] (str "--create-desktop") ++ tail))
        by (intros tail F; apply started_ok; auto).
      set (sl := started_log Helper n (oo_exe os) [] (str "--create-desktop")) in *.
      assert (L : live sl [] = Some [OProcess Helper; OPipe Helper; OEvent Helper]) by reflexivity.
      assert (B : on_background sl false = false) by reflexivity.
      assert (NM : forall tail, ~ In (EvRead Main) tail -> ~ reads Main (sl ++ tail)).
      { intros tail Ht Hr. apply in_app_or in Hr. destruct Hr as [Hr|Hr]; [|now apply Ht].
        unfold sl, started_log in Hr. cbn in Hr. repeat (destruct Hr as [Hr|Hr]; [discriminate Hr|]). contradiction. }
      clearbody sl.
      assert (F : forall tail r', (l, r) = (sl ++ tail, r') ->
         Forall (fun e => match e with EvStart _ _ _ => False | _ => True end) tail -> ~ In (EvRead Main) tail ->
         after r' (sl ++ tail) (fun dc => objs (fst dc)) (fun dc => is_direct (fst dc)) ->
         after r l (fun dc => objs (fst dc)) (fun dc => is_direct (fst dc)) /\
         starts_ok (oo_exe os) cfg l /\ ~ reads Main l /\ (reads Helper l -> authentic (oo_helper os)) /\
         ((exists a, r = Ok a) -> uses_helper l -> authentic (oo_helper os))).
      { intros tail r' [= -> ->] F Hn Hafter. splits; auto. }
      destruct (so_packet (oo_helper os)) as [payload|e| | |] eqn:Ep; cbn in H.
      * destruct (lift_exc (parseDesktop (oo_plat os) payload)) as [rp|e| | |] eqn:Ed; cbn in H;
          try (eapply F; [symmetry; exact H|nostart|intros Hx; cbn in Hx; repeat (destruct Hx as [Hx|Hx]; [discriminate Hx|]); contradiction|];
               unfold after; rewrite ?live_app, ?L, ?background_app, ?B; try exact I; split; reflexivity).
        destruct (zlen _ =? 0) eqn:Ez in H; cbn in H;
          (eapply F; [symmetry; exact H|nostart|intros Hx; cbn in Hx; repeat (destruct Hx as [Hx|Hx]; [discriminate Hx|]); contradiction|];
           unfold after; rewrite ?live_app, ?L, ?background_app, ?B; split; reflexivity).
      * eapply F; [symmetry; exact H|nostart|intros Hx; cbn in Hx; repeat (destruct Hx as [Hx|Hx]; [discriminate Hx|]); contradiction|].
        unfold after. rewrite live_app, L, background_app, B. split; reflexivity.
      * eapply F; [symmetry; exact H|nostart|intros Hx; cbn in Hx; repeat (destruct Hx as [Hx|Hx]; [discriminate Hx|]); contradiction|exact I].
      * eapply F; [symmetry; exact H|nostart|intros Hx; cbn in Hx; repeat (destruct Hx as [Hx|Hx]; [discriminate Hx|]); contradiction|exact I].
      * eapply F; [symmetry; exact H|nostart|intros Hx; cbn in Hx; repeat (destruct Hx as [Hx|Hx]; [discriminate Hx|]); contradiction|exact I].
    + injection H as <- <-. destruct C as [->|[->|[->| ->]]].
      * splits; [split; reflexivity|apply starts_none; nostart|noread|noread|intros (? & ?); discriminate].
      * splits; [split; reflexivity|apply starts_none; nostart|noread|noread|intros (? & ?); discriminate].
      * splits; [split; reflexivity|apply starts_none; nostart|noread|noread|intros (? & ?); discriminate].
      * splits; [split; reflexivity|apply started_ok; auto; nostart|noread|noread|intros (? & ?); discriminate].
    + injection H as <- <-.
      splits; [exact I|rewrite <- (app_nil_r (started_log _ _ _ _ _)); apply started_ok; auto; nostart|noread|noread|intros (? & ?); discriminate].
  - unfold backgroundDesktop in H.
    destruct (do_orig (oo_desk os)), (do_station (oo_desk os)), (do_set (oo_desk os)), (do_desktop (oo_desk os)), (do_name (oo_desk os));
      cbn in H; injection H as <- <-;
      (splits; [split; reflexivity|apply starts_none; nostart|noread|noread|intros _; nohelper]).
Qed.

Lemma open_cases os cfg l r : os_ok os -> valid cfg -> winpty_open os cfg = (l, r) ->
  after r l (fun _ => [OProcess Main; OPipe Main; OEvent Main]) (fun _ => false) /\
  starts_ok (oo_exe os) cfg l /\
  (reads Main l -> authentic (oo_main os)) /\ (reads Helper l -> authentic (oo_helper os)) /\
  ((exists a, r = Ok a) -> authentic (oo_main os) /\ (uses_helper l -> authentic (oo_helper os))).
Proof.
  intros Ho V H. pose proof Ho as (Hp & Hm & _ & He). unfold winpty_open in H.
  destruct (setupBackgroundDesktop os cfg) as [l0 r0] eqn:E0.
  destruct (setup_cases _ _ _ _ Ho E0) as (A0 & S0 & RM & RH & U0). clear E0.
  destruct r0 as [[d c0]|e| | |]; cbn [mbind] in H.
  2:{ injection H as <- <-. splits; auto; try (intros X; contradiction); intros (? & ?); discriminate. }
  2-4: injection H as <- <-; splits; auto; try exact I; try (intros X; contradiction); intros (? & ?); discriminate.
  assert (Hpar : exists ps, open_params cfg = Ok ps).
  { destruct V as (V1 & V2 & V3 & V4 & V5). unfold open_params.
    destruct (dec64_ok (cf_flags cfg) ltac:(lia)) as (f & -> & _).
    destruct (dec32_ok (cf_mouse cfg) ltac:(lia)) as (m & -> & _).
    destruct (dec32_ok (cf_cols cfg) ltac:(lia)) as (cc & -> & _).
    destruct (dec32_ok (cf_rows cfg) ltac:(lia)) as (rr & -> & _). cbn [bind]. eauto. }
  destruct Hpar as (ps & Eps). rewrite Eps in H. cbn [lift mbind] in H.
  destruct (createAgentSession Main os (oo_main os) c0 (desktop_name d) ps) as [l1 r1] eqn:E1.
  destruct (session_cases _ _ _ _ _ _ _ _ Hp Hm E1) as (n & W & N1 & N2 & C). clear E1.
  cbn [after fst] in A0. destruct A0 as (L0 & B0).
  assert (U : uses_helper l0 -> authentic (oo_helper os)) by (apply U0; eauto). clear U0.
  (* everything after the desktop has been set up *)
  assert (F : forall tail r', (l, r) = (l0 ++ tail, r') -> starts_ok (oo_exe os) cfg tail ->
     (reads Main tail -> authentic (oo_main os)) -> ~ reads Helper tail -> ~ uses_helper tail ->
     ((exists a, r' = Ok a) -> authentic (oo_main os)) ->
     match r' with
     | Ok _ => live tail (objs d) = Some [OProcess Main; OPipe Main; OEvent Main] /\ on_background tail (is_direct d) = false
     | Throw _ => live tail (objs d) = Some [] /\ on_background tail (is_direct d) = false
     | _ => True
     end ->
     after r l (fun _ => [OProcess Main; OPipe Main; OEvent Main]) (fun _ => false) /\
     starts_ok (oo_exe os) cfg l /\
     (reads Main l -> authentic (oo_main os)) /\ (reads Helper l -> authentic (oo_helper os)) /\
     ((exists a, r = Ok a) -> authentic (oo_main os) /\ (uses_helper l -> authentic (oo_helper os)))).
  { intros tail r' [= -> ->] St Rm Rh Uh Au Af. splits.
    - unfold after. rewrite live_app, L0, background_app, B0. exact Af.
    - now apply starts_ok_app.
    - intros Hr. apply in_app_or in Hr. destruct Hr as [Hr|Hr]; [contradiction|auto].
    - intros Hr. apply in_app_or in Hr. destruct Hr as [Hr|Hr]; [auto|contradiction].
    - intros Hr. split; [auto|]. intros (cm & dd & Hi). apply in_app_or in Hi. destruct Hi as [Hi|Hi]; [apply U; now exists cm, dd|].
      contradict Uh. now exists cm, dd. }
  clear L0 B0 S0 RM RH U.
  destruct C as [(c & -> & -> & Ha)|[(e & -> & C)|(-> & ->)]]; cbn [mbind unwind] in H.
  - assert (S1 : forall a b, Forall (fun e => match e with EvStart _ _ _ => False | _ => True end) a ->
      Forall (fun e => match e with EvStart _ _ _ => False | _ => True end) b ->
      starts_ok (oo_exe os) cfg ((a ++ started_log Main n (oo_exe os) (desktop_name d) ps) ++ b)).
    { intros a b Fa Fb. rewrite <- app_assoc. apply starts_ok_app; [now apply starts_none|]. apply started_ok; auto. }
    assert (G : forall tail r', (l, r) = (l0 ++ (started_log Main n (oo_exe os) (desktop_name d) ps ++ (free_desktop d ++ tail)), r') ->
      Forall (fun e => match e with EvStart _ _ _ => False | _ => True end) tail -> ~ In (EvRead Helper) tail ->
      match r' with
      | Ok _ => live tail [OProcess Main; OPipe Main; OEvent Main] = Some [OProcess Main; OPipe Main; OEvent Main] /\ on_background tail false = false
      | Throw _ => live tail [OProcess Main; OPipe Main; OEvent Main] = Some [] /\ on_background tail false = false
      | _ => True
      end ->
      after r l (fun _ => [OProcess Main; OPipe Main; OEvent Main]) (fun _ => false) /\
     starts_ok (oo_exe os) cfg l /\
     (reads Main l -> authentic (oo_main os)) /\ (reads Helper l -> authentic (oo_helper os)) /\
     ((exists a, r = Ok a) -> authentic (oo_main os) /\ (uses_helper l -> authentic (oo_helper os)))).
    { intros tail r' E Ft Nh Af. eapply F; [exact E| |auto| | |auto|].
      - rewrite app_assoc. rewrite <- app_assoc. apply started_ok; auto. apply Forall_app. split; [destruct d; nostart|exact Ft].
      - intros Hr. apply in_app_or in Hr. destruct Hr as [Hr|Hr];
          [unfold started_log in Hr; cbn in Hr; repeat (destruct Hr as [Hr|Hr]; [discriminate Hr|]); contradiction|].
        apply in_app_or in Hr. destruct Hr as [Hr|Hr]; [|contradiction].
        destruct d; cbn in Hr; repeat (destruct Hr as [Hr|Hr]; [discriminate Hr|]); contradiction.
      - intros (cm & dd & Hr). apply in_app_or in Hr. destruct Hr as [Hr|Hr];
          [unfold started_log in Hr; cbn in Hr; repeat (destruct Hr as [Hr|Hr]; [discriminate Hr|]); contradiction|].
        apply in_app_or in Hr. destruct Hr as [Hr|Hr]; [destruct d; cbn in Hr; repeat (destruct Hr as [Hr|Hr]; [discriminate Hr|]); contradiction|].
        rewrite Forall_forall in Ft. exact (Ft _ Hr).
      - assert (Q1 : live (started_log Main n (oo_exe os) (desktop_name d) ps ++ free_desktop d ++ tail) (objs d)
                     = live tail [OProcess Main; OPipe Main; OEvent Main]) by (rewrite live_app; destruct d; reflexivity).
        assert (Q2 : on_background (started_log Main n (oo_exe os) (desktop_name d) ps ++ free_desktop d ++ tail) (is_direct d)
                     = on_background tail false) by (rewrite background_app; destruct d; reflexivity).
        rewrite Q1, Q2. exact Af. }
    clear F S1. rewrite ?app_nil_r in H. cbn [tell mbind app] in H.
    set (sl := started_log Main n (oo_exe os) (desktop_name d) ps) in *. clearbody sl.
    set (fd := free_desktop d) in *. clearbody fd.
    assert (Z0 : exists x, (if zlen (desktop_name d) =? 0 then ret [] else match oo_current os with Some n => ret n | None => fail XWinpty end) = x
       /\ (x = fail XWinpty \/ exists y, x = ret y)).
    { destruct (zlen (desktop_name d) =? 0); [eexists; eauto|]. destruct (oo_current os); eexists; eauto. }
    destruct Z0 as (x & Ex & Hx). rewrite Ex in H. clear Ex.
    Ltac fin G H := eapply G; [symmetry; exact H|nostart|
      intros Hx; cbn in Hx; repeat (destruct Hx as [Hx|Hx]; [discriminate Hx|]); contradiction|try exact I; split; reflexivity].
    destruct Hx as [->|(y & ->)]; cbn in H; [fin G H|].
    destruct (so_packet (oo_main os)) as [payload|e| | |]; cbn in H; try fin G H.
    destruct (lift_exc (parseSetup _ _ payload)) as [rp|e| | |]; cbn in H; try fin G H.
    destruct rp; cbn in H; fin G H.
  - assert (E : (l, r) = (l0 ++ (l1 ++ free_desktop d), Throw e)) by (symmetry; exact H). clear H.
    eapply F; [exact E| | | | |intros (? & ?); discriminate|].
    + destruct C as [->|[->|[->| ->]]].
      * apply starts_none. destruct d; nostart.
      * apply starts_none. destruct d; cbn; nostart.
      * apply starts_none. destruct d; cbn; nostart.
      * rewrite <- app_assoc. apply started_ok; auto. destruct d; cbn; nostart.
    + intros Hr. exfalso. destruct C as [->|[->|[->| ->]]]; destruct d; cbn in Hr; repeat (destruct Hr as [Hr|Hr]; [discriminate Hr|]); contradiction.
    + intros Hr. destruct C as [->|[->|[->| ->]]]; destruct d; cbn in Hr; repeat (destruct Hr as [Hr|Hr]; [discriminate Hr|]); contradiction.
    + intros (cm & dd & Hr). destruct C as [->|[->|[->| ->]]]; destruct d; cbn in Hr; repeat (destruct Hr as [Hr|Hr]; [discriminate Hr|]); contradiction.
    + destruct C as [->|[->|[->| ->]]]; destruct d; split; reflexivity.
  - assert (E : (l, r) = (l0 ++ started_log Main n (oo_exe os) (desktop_name d) ps, AssertFail)) by (symmetry; exact H). clear H.
    eapply F; [exact E| | | | |intros (? & ?); discriminate|exact I].
    + rewrite <- (app_nil_r (started_log _ _ _ _ _)). apply started_ok; auto.
    + intros Hr. exfalso. cbn in Hr. repeat (destruct Hr as [Hr|Hr]; [discriminate Hr|]). contradiction.
    + intros Hr. cbn in Hr. repeat (destruct Hr as [Hr|Hr]; [discriminate Hr|]). contradiction.
    + intros (cm & dd & Hr). cbn in Hr. repeat (destruct Hr as [Hr|Hr]; [discriminate Hr|]). contradiction.
Qed.

Lemma built_valid flags ops c0 cfg : 0 <= flags -> @config_new unit flags = Ok c0 -> Forall int_args ops ->
  configure c0 ops = Ok cfg -> valid cfg /\ cf_flags cfg = flags.
Proof.
  intros Hf H0 F H. destruct (@config_new_exact unit flags Hf) as [(Hb & E)|(_ & E)]; [|congruence].
  assert (c0 = mkC flags 80 25 1 30000) as -> by congruence.
  pose proof (only_bits_range 4 flags ltac:(lia) Hf Hb) as R. change (2 ^ 4) with 16 in R.
  eapply configure_valid in H; [exact H| |exact F]. unfold valid. cbn. lia.
Qed.

Lemma configure_exact ops : forall c, (Forall documented ops -> exists cfg, configure c ops = Ok cfg) /\
  (~ Forall documented ops -> configure c ops = AssertFail).
Proof.
  induction ops as [|o ops IH]; intros c; cbn [configure].
  - split; [eauto|]. intros H. contradict H. constructor.
  - destruct (cfg_do_exact c o) as [(D & c' & ->)|(D & ->)]; cbn [bind].
    + destruct (IH c') as (A & B). split.
      * intros F. inversion F; subst. auto.
      * intros F. apply B. contradict F. now constructor.
    + split; [intros F; inversion F; contradiction|auto].
Qed.

Lemma open_authentic os cfg flags ops c0 l s : os_ok os -> 0 <= flags -> @config_new unit flags = Ok c0 -> Forall int_args ops ->
  configure c0 ops = Ok cfg -> winpty_open os cfg = (l, Ok s) ->
  authentic (oo_main os) /\ (uses_helper l -> authentic (oo_helper os)).
Proof.
  intros Ho Hf H0 F Hc H. destruct (built_valid _ _ _ _ Hf H0 F Hc) as (V & _).
  destruct (open_cases _ _ _ _ Ho V H) as (_ & _ & _ & _ & A). apply A. eauto.
Qed.
Lemma open_silent os cfg flags ops c0 l r : os_ok os -> 0 <= flags -> @config_new unit flags = Ok c0 -> Forall int_args ops ->
  configure c0 ops = Ok cfg -> winpty_open os cfg = (l, r) ->
  (reads Main l -> authentic (oo_main os)) /\ (reads Helper l -> authentic (oo_helper os)).
Proof.
  intros Ho Hf H0 F Hc H. destruct (built_valid _ _ _ _ Hf H0 F Hc) as (V & _).
  destruct (open_cases _ _ _ _ Ho V H) as (_ & _ & A & B & _). auto.
Qed.
Lemma open_cmdline q utf8 os cfg flags ops c0 l r w cmd d : ascii_id utf8 -> os_ok os -> 0 <= flags -> @config_new unit flags = Ok c0 ->
  Forall int_args ops -> configure c0 ops = Ok cfg -> winpty_open os cfg = (l, r) -> In (EvStart w cmd d) l ->
  exists name, In (EvPipe w name) l /\
    @agent_main unit q utf8 cmd = Ok match w with
                                     | Main => RunAgent name flags (cf_mouse cfg) (cf_cols cfg) (cf_rows cfg)
                                     | Helper => CreateDesktop name
                                     end.
Proof.
  intros Hu Ho Hf H0 F Hc H Hi. destruct (built_valid _ _ _ _ Hf H0 F Hc) as (V & Ef).
  destruct (open_cases _ _ _ _ Ho V H) as (_ & S & _). destruct Ho as (_ & _ & _ & He).
  unfold starts_ok in S. rewrite Forall_forall in S. specialize (S _ Hi). cbn in S.
  destruct S as (n & ps & Hn & W & N1 & N2 & -> & [(-> & ->)|(-> & E)]); exists n; (split; [exact Hn|]).
  - now apply main_desktop.
  - rewrite <- Ef. now apply main_parses.
Qed.
Lemma agent_sees flags cfg : 0 <= flags < 16 -> 1 <= cf_cols cfg -> 1 <= cf_rows cfg ->
  exists a, @agent_new unit flags (cf_mouse cfg) (cf_cols cfg) (cf_rows cfg) = Ok a /\
    ag_conerr a = Z.testbit flags 0 /\ ag_plain a = Z.testbit flags 1 /\
    ag_color a = (negb (Z.testbit flags 1) || Z.testbit flags 2) /\ ag_mouse a = cf_mouse cfg /\
    ag_cols a = Z.min (cf_cols cfg) 2500 /\ ag_rows a = Z.min (cf_rows cfg) 2000.
Proof.
  intros Hf Hc Hr. unfold agent_new. replace ((1 <=? cf_cols cfg) && (1 <=? cf_rows cfg)) with true by lia. cbn [assert_ bind].
  eexists. split; [reflexivity|]. cbn [ag_conerr ag_plain ag_color ag_mouse ag_cols ag_rows].
  assert (D : In flags (map Z.of_nat (seq 0 16))) by (apply in_map_iff; exists (Z.to_nat flags); split; [lia|apply in_seq; lia]).
  cbn in D. repeat (destruct D as [<-|D]; [vm_compute; auto 10|]). contradiction.
Qed.
Lemma open_balanced os cfg flags ops c0 l r : os_ok os -> 0 <= flags -> @config_new unit flags = Ok c0 -> Forall int_args ops ->
  configure c0 ops = Ok cfg -> winpty_open os cfg = (l, r) ->
  match r with
  | Ok _ => live l [] = Some [OProcess Main; OPipe Main; OEvent Main] /\ live (l ++ winpty_free) [] = Some [] /\ on_background l false = false
  | Throw _ => live l [] = Some [] /\ on_background l false = false
  | _ => True
  end.
Proof.
  intros Ho Hf H0 F Hc H. destruct (built_valid _ _ _ _ Hf H0 F Hc) as (V & _).
  destruct (open_cases _ _ _ _ Ho V H) as (A & _). unfold after in A. destruct r; auto.
  destruct A as (L & B). splits; auto. rewrite live_app, L. reflexivity.
Qed.

(** *** The pipe names *)
Lemma parseSetup_shape pl want payload rp : parseSetup pl want payload = Ok rp ->
  exists i o e, rp = RpSetup i o e /\ (want = false -> e = None) /\ (want = true -> exists x, e = Some x).
Proof.
  unfold parseSetup. intros H.
  destruct (getWString pl (mkReadBuffer payload)) as [[i rb]| | | |]; try discriminate. cbn [bind] in H.
  destruct (getWString pl rb) as [[o rb2]| | | |]; try discriminate. cbn [bind] in H. destruct want.
  - destruct (getWString pl rb2) as [[e rb3]| | | |]; try discriminate. cbn [bind] in H.
    destruct (assertEof rb3); try discriminate. cbn [bind] in H. injection H as <-. eexists _, _, _. splits; eauto; discriminate.
  - destruct (assertEof rb2); try discriminate. cbn [bind] in H. injection H as <-. eexists _, _, _. splits; eauto; discriminate.
Qed.
Lemma open_names os cfg l s : winpty_open os cfg = (l, Ok s) ->
  exists payload e, so_packet (oo_main os) = Ok payload /\
    parseSetup (oo_plat os) (Z.testbit (cf_flags cfg) 0) payload = Ok (RpSetup (ss_conin s) (ss_conout s) e) /\
    ss_conerr s = (match e with Some x => x | None => [] end) /\
    (Z.testbit (cf_flags cfg) 0 = false -> winpty_conerr_name s = None) /\ ss_timeout s = cf_timeout cfg.
Proof.
  intros H. unfold winpty_open in H.
  destruct (setupBackgroundDesktop os cfg) as [l0 [[d c0]| | | |]]; cbn [mbind] in H; try discriminate.
  destruct (open_params cfg) as [ps| | | |]; cbn [lift mbind unwind] in H; try discriminate.
  destruct (createAgentSession Main os (oo_main os) c0 (desktop_name d) ps) as [l1 [c| | | |]]; cbn [mbind unwind] in H; try discriminate.
  cbn [tell mbind] in H.
  assert (Eb : negb (Z.land (cf_flags cfg) 1 =? 0) = Z.testbit (cf_flags cfg) 0).
  { pose proof (Z.bit0_mod (cf_flags cfg)) as Hb. change 1 with (Z.ones 1). rewrite Z.land_ones by lia. change (2 ^ 1) with 2.
    rewrite <- Hb. destruct (Z.testbit (cf_flags cfg) 0); reflexivity. }
  rewrite Eb in H. generalize dependent (Z.testbit (cf_flags cfg) 0). intros bit H _.
  destruct (zlen (desktop_name d) =? 0); [|destruct (oo_current os); [|cbn in H; discriminate]];
  (destruct (so_packet (oo_main os)) as [payload| | | |]; cbn in H; try discriminate;
   destruct (parseSetup (oo_plat os) bit payload) as [rp|[]| | |] eqn:Ep; cbn in H; try discriminate;
   destruct (parseSetup_shape _ _ _ _ Ep) as (i & o & e & -> & E0 & E1); cbn in H; injection H as _ <-;
   exists payload, e; splits; auto; cbn [ss_conerr]; intros Hb; rewrite (E0 Hb); reflexivity).
Qed.

Lemma session_decided w gos os counter desktop params : 0 <= oo_pid gos < 2 ^ 32 -> sess_ok os -> starts_well os ->
  (authentic os -> exists c, snd (createAgentSession w gos os counter desktop params) = Ok c) /\
  (~ authentic os -> snd (createAgentSession w gos os counter desktop params) = Throw XWinpty).
Proof.
  intros Hp Ho (E1 & E2 & E3 & E4 & E5 & E6). destruct (@pipe_word lexc (oo_pid gos) counter os Hp Ho) as (n & E & _).
  unfold createAgentSession. rewrite E.
  unfold createControlPipe, startAgentProcess, connectControlPipe, verifyPipeClientPid, authentic.
  rewrite E1, E2, E3, E4. destruct (so_pid os) as [pid|]; [|congruence]. cbn.
  assert (H : exists ok err, handlePendingIo (so_connect os) = Ok (ok, err) /\ ok || (err =? 535) = true).
  { destruct (so_connect os) as [ok err m|[] ok err m]; try contradiction; exists ok, err; (split; [reflexivity|]);
      destruct E6 as [->| ->]; auto using orb_true_r. }
  destruct H as (ok & err & -> & Hok). cbn. rewrite Hok. cbn.
  destruct (so_client os) as [| |cp]; cbn.
  - split; [eauto|tauto].
  - split; [tauto|reflexivity].
  - destruct (Z.eqb_spec cp pid) as [Hc|Hc]; cbn; split; intros H; eauto; congruence.
Qed.

(** *** What the setters leave *)
Lemma configure_values ops : forall c cfg, configure c ops = Ok cfg ->
  cf_flags cfg = cf_flags c /\
  (cf_cols cfg, cf_rows cfg) = last_set size_of ops (cf_cols c, cf_rows c) /\
  cf_mouse cfg = last_set mouse_of ops (cf_mouse c) /\
  cf_timeout cfg = last_set timeout_of ops (cf_timeout c).
Proof.
  induction ops as [|o ops IH]; intros c cfg H; cbn [configure] in H.
  - injection H as <-. splits; reflexivity.
  - destruct (cfg_do c o) as [c'| | | |] eqn:E; try discriminate. cbn [bind] in H.
    destruct (IH _ _ H) as (A & B & C & D).
    assert (K : cf_flags c' = cf_flags c /\
      (cf_cols c', cf_rows c') = (match size_of o with Some x => x | None => (cf_cols c, cf_rows c) end) /\
      cf_mouse c' = (match mouse_of o with Some x => x | None => cf_mouse c end) /\
      cf_timeout c' = (match timeout_of o with Some x => x | None => cf_timeout c end)).
    { destruct o as [w h|m|t]; cbn [cfg_do] in E; unfold set_initial_size, set_mouse_mode, set_agent_timeout, assert_ in E.
      - destruct ((0 <? w) && (0 <? h)); [|discriminate]. cbn in E. injection E as <-. splits; reflexivity.
      - destruct ((0 <=? m) && (m <=? 2)); [|discriminate]. cbn in E. injection E as <-. splits; reflexivity.
      - destruct (0 <? t); [|discriminate]. cbn in E. injection E as <-. splits; reflexivity. }
    destruct K as (K1 & K2 & K3 & K4).
    unfold last_set in *. cbn [fold_left]. rewrite K1 in A. rewrite K2 in B. rewrite K3 in C. rewrite K4 in D. splits; auto.
Qed.

(** *** Background desktops *)

(** What setting up the background desktop comes to. *)
Definition desk_result (os : open_os) (d : agent_desktop) : Prop :=
  match d with
  | NoDesktop => True
  | Direct n => can_make (oo_desk os) = Some n
  | Indirect n => helper_says os n /\ n <> []
  end.
Definition no_main (l : list ev) : Prop := Forall (fun e => match e with EvStart Main _ _ => False | _ => True end) l.
Definition no_helper (l : list ev) : Prop := Forall (fun e => match e with EvStart Helper _ _ => False | _ => True end) l.

Ltac fa := repeat first [apply Forall_nil | apply Forall_cons; [exact I|]].

Lemma session_quiet w gos os counter desktop params l r : 0 <= oo_pid gos < 2 ^ 32 -> sess_ok os ->
  createAgentSession w gos os counter desktop params = (l, r) -> stays_put l /\
  match w with Main => no_helper l | Helper => no_main l end /\
  (forall l1 w' cmd d l2, l = l1 ++ EvStart w' cmd d :: l2 -> d = desktop /\ no_main l1 /\ no_main l2 /\
     exists o, forall base, live l1 base = Some (o ++ base)).
Proof.
  intros Hp Ho H. destruct (session_cases _ _ _ _ _ _ _ _ Hp Ho H) as (n & _ & _ & _ & C). clear H.
  assert (N : forall l1 w' cmd d l2 (l : list ev), Forall (fun e => match e with EvStart _ _ _ => False | _ => True end) l ->
              l = l1 ++ EvStart w' cmd d :: l2 -> False).
  { intros l1 w' cmd d l2 l0 F ->. apply Forall_app in F. destruct F as (_ & F). inversion F; contradiction. }
  assert (Q : forall tail l1 w' cmd d l2, Forall (fun e => match e with EvStart _ _ _ => False | _ => True end) tail ->
     started_log w n (oo_exe gos) desktop params ++ tail = l1 ++ EvStart w' cmd d :: l2 ->
     d = desktop /\ no_main l1 /\ no_main l2 /\ exists o, forall base, live l1 base = Some (o ++ base)).
  { intros tail l1 w' cmd d l2 F E. unfold started_log in E.
    do 5 (destruct l1 as [|e1 l1]; cbn [app] in E; [discriminate E|injection E as <- E]).
    destruct l1 as [|e1 l1]; cbn [app] in E.
    - injection E as _ _ <- <-. splits; [reflexivity|unfold no_main; fa|unfold no_main; apply Forall_cons; [exact I|];
        eapply Forall_impl; [|exact F]; intros [| | |[]| |]; tauto|].
      exists [OThread w; OProcess w; OPipe w; OEvent w]. intros base. reflexivity.
    - injection E as <- E. exfalso. destruct l1 as [|e1 l1]; cbn [app] in E; [discriminate E|injection E as <- E].
      exact (N _ _ _ _ _ _ F E). }
  destruct C as [(c & -> & -> & _)|[(e & -> & C)|(-> & ->)]].
  - splits; [unfold stays_put; cbn; fa|destruct w; unfold no_main, no_helper; cbn; fa|].
    intros l1 w' cmd d l2 E. apply (Q [] l1 w' cmd d l2); [fa|now rewrite app_nil_r].
  - destruct C as [->|[->|[->| ->]]].
    + splits; [unfold stays_put; cbn; fa|destruct w; unfold no_main, no_helper; cbn; fa|].
      intros l1 w' cmd d l2 E. exfalso. eapply N; [|exact E]. fa.
    + splits; [unfold stays_put; cbn; fa|destruct w; unfold no_main, no_helper; cbn; fa|].
      intros l1 w' cmd d l2 E. exfalso. eapply N; [|exact E]. fa.
    + splits; [unfold stays_put; cbn; fa|destruct w; unfold no_main, no_helper; cbn; fa|].
      intros l1 w' cmd d l2 E. exfalso. eapply N; [|exact E]. fa.
    + splits; [unfold stays_put; cbn; fa|destruct w; unfold no_main, no_helper; cbn; fa|].
      intros l1 w' cmd d l2 E. apply (Q (free_session w) l1 w' cmd d l2); [unfold free_session; fa|exact E].
  - splits; [unfold stays_put; cbn; fa|destruct w; unfold no_main, no_helper; cbn; fa|].
    intros l1 w' cmd d l2 E. apply (Q [] l1 w' cmd d l2); [fa|now rewrite app_nil_r].
Qed.

Lemma bit3 f : (Z.land f 8 =? 0) = negb (Z.testbit f 3).
Proof.
  destruct (Z.testbit f 3) eqn:E.
  - apply Z.eqb_neq. intros H. assert (X : Z.testbit (Z.land f 8) 3 = false) by (rewrite H; apply Z.bits_0).
    rewrite Z.land_spec, E in X. discriminate X.
  - apply Z.eqb_eq. apply Z.bits_inj'. intros i Hi. rewrite Z.land_spec, Z.bits_0.
    destruct (Z.eq_dec i 3) as [->|Hn]; [rewrite E; reflexivity|].
    change 8 with (2 ^ 3). rewrite (Z.pow2_bits_false 3 i) by lia. apply andb_false_r.
Qed.

Lemma should_spec os flags use ag : shouldCreateBackgroundDesktop os (negb (Z.testbit flags 3)) = (use, ag) ->
  (use = true -> wanted os = true) /\ (use = false -> wanted os = false) /\ (use = true -> ag = negb (by_self os flags)).
Proof.
  unfold shouldCreateBackgroundDesktop, wanted, by_self, override_of, needs_desktop.
  destruct (oo_force os), (oo_force_spawn os), (oo_force_curproc os), (oo_suppress os), (oo_show os), (oo_win7 os); cbn; intros E; injection E as <- <-; splits; auto; discriminate.
Qed.

Lemma setup_desktop os cfg l r : os_ok os -> setupBackgroundDesktop os cfg = (l, r) ->
  no_main l /\
  (forall d c, r = Ok (d, c) -> desk_result os d /\ exists o, live l [] = Some o /\
     match d with NoDesktop => True | Direct _ => o = [ODesktop; OStation] | Indirect _ => o = [OProcess Helper; OPipe Helper; OEvent Helper] end) /\
  (
    (wanted os = false -> stays_put l /\ no_helper l /\ exists c, r = Ok (NoDesktop, c)) /\
    (wanted os = true -> by_self os (cf_flags cfg) = true -> no_helper l /\
        forall d c, r = Ok (d, c) -> desktop_name d = match can_make (oo_desk os) with Some n => n | None => [] end) /\
    (wanted os = true -> by_self os (cf_flags cfg) = false -> stays_put l /\
        forall d c, r = Ok (d, c) -> helper_says os (desktop_name d))).
Proof.
  intros Ho H. destruct (setup_cases _ _ _ _ Ho H) as (A & _). destruct Ho as (Hp & _ & Hh & _).
  unfold setupBackgroundDesktop in H.
  rewrite bit3 in H.
  destruct (shouldCreateBackgroundDesktop os (negb (Z.testbit (cf_flags cfg) 3))) as [use ag] eqn:Es.
  destruct (should_spec _ _ _ _ Es) as (S2 & S4 & S3). clear Es. set (fl := by_self os (cf_flags cfg)) in *. clearbody fl.
  destruct use; cbn [negb] in H.
  2:{ injection H as <- <-. splits; [unfold no_main; fa| | | |].
      - intros d c [= <- _]. split; [exact I|]. exists []. split; [reflexivity|exact I].
      - intros _. splits; [unfold stays_put; fa|unfold no_helper; fa|eauto].
      - intros X. rewrite (S4 eq_refl) in X; discriminate X.
      - intros X. rewrite (S4 eq_refl) in X; discriminate X. }
  specialize (S2 eq_refl). specialize (S3 eq_refl).
  destruct ag.
  - (* through a helper agent *)
    destruct (createAgentSession Helper os (oo_helper os) (oo_counter os) [] (str "--create-desktop")) as [l1 r1] eqn:E1.
    destruct (session_quiet _ _ _ _ _ _ _ _ Hp Hh E1) as (Q1 & Q2 & _).
    assert (R : exists tail, l = l1 ++ tail /\ stays_put tail /\ no_main tail /\
                (forall d c, r = Ok (d, c) -> desk_result os d /\ helper_says os (desktop_name d) /\ is_direct d = false)).
    { clear E1 Q1 Q2 A S2 S3. destruct r1 as [c1|e| | |]; cbn [mbind] in H;
        try (injection H as <- <-; exists []; rewrite app_nil_r; splits; [reflexivity|unfold stays_put; fa|unfold no_main; fa|intros; discriminate]).
      unfold helper_says.
      destruct (so_packet (oo_helper os)) as [payload|e| | |] eqn:Ep; cbn in H;
        try (injection H as <- <-; eexists; splits; [reflexivity|unfold stays_put; fa|unfold no_main; fa|intros; discriminate]).
      destruct (parseDesktop (oo_plat os) payload) as [rp|[]| | |] eqn:Ed; cbn in H;
        try (injection H as <- <-; eexists; splits; [reflexivity|unfold stays_put; fa|unfold no_main; fa|intros; discriminate]).
      assert (X : exists n, rp = RpDesktop n).
      { unfold parseDesktop in Ed. destruct (getWString (oo_plat os) (mkReadBuffer payload)) as [[n rb]| | | |]; try discriminate.
        cbn [bind] in Ed. destruct (assertEof rb); try discriminate. cbn [bind] in Ed. injection Ed as <-. eauto. }
      destruct X as (n & ->). destruct (Z.eqb_spec (zlen n) 0) as [En|En]; cbn in H; injection H as <- <-;
        (eexists; splits; [reflexivity|unfold stays_put; fa|unfold no_main; fa|]); intros d c [= <- <-].
      - split; [exact I|]. split; [|reflexivity]. exists payload. split; [reflexivity|]. cbn [desktop_name].
        destruct n; [exact Ed|unfold zlen in En; cbn in En; lia].
      - assert (X : exists payload0, @Ok lexc _ payload = Ok payload0 /\ parseDesktop (oo_plat os) payload0 = Ok (RpDesktop n)) by eauto.
        split; [|split; [exact X|reflexivity]]. cbn [desk_result]. unfold helper_says. rewrite Ep. split; [exact X|].
        intros ->. apply En. reflexivity. }
    destruct R as (tail & -> & T1 & T2 & T3).
    assert (SP : stays_put (l1 ++ tail)) by (apply Forall_app; split; auto).
    assert (NM : no_main (l1 ++ tail)) by (apply Forall_app; split; auto).
    splits; [exact NM| | | |].
    + intros d c ->. destruct (T3 _ _ eq_refl) as (D1 & _ & D3). split; [exact D1|]. cbn [after fst] in A. destruct A as (L & _).
      exists (objs d). split; [exact L|]. destruct d; [exact I|discriminate D3|reflexivity].
    + intros Hx. rewrite S2 in Hx. discriminate Hx.
    + intros _ Hx. rewrite Hx in S3. discriminate S3.
    + intros _ _. split; [exact SP|]. intros d c ->. apply (T3 _ _ eq_refl).
  - (* in this process *)
    assert (R : no_main l /\ no_helper l /\ exists d c, r = Ok (d, c) /\ desk_result os d /\
              desktop_name d = (match can_make (oo_desk os) with Some n => n | None => [] end) /\
              match d with Indirect _ => False | _ => True end).
    { clear A S2 S3. cbn [desk_result]. unfold backgroundDesktop in H. unfold can_make.
      destruct (do_orig (oo_desk os)) eqn:D1, (do_station (oo_desk os)) eqn:D2, (do_set (oo_desk os)) eqn:D3,
               (do_desktop (oo_desk os)) eqn:D4, (do_name (oo_desk os)) eqn:D5;
      cbn in H; injection H as <- <-;
      (splits; [unfold no_main; fa|unfold no_helper; fa|];
       eexists _, _; split; [reflexivity|]; cbn [desk_result desktop_name]; unfold can_make; rewrite ?D1, ?D2, ?D3, ?D4, ?D5; splits; auto). }
    destruct R as (NM & NH & d & c & -> & D1 & D2 & D3). cbn [after fst] in A. destruct A as (L & _). splits; [exact NM| | | |].
    + intros d' c' [= <- <-]. split; [exact D1|]. exists (objs d). split; [exact L|]. destruct d; auto.
    + intros Hx. rewrite S2 in Hx. discriminate Hx.
    + intros _ _. split; [exact NH|]. intros d' c' [= <- <-]. exact D2.
    + intros _ Hx. rewrite Hx in S3. discriminate S3.
Qed.

(** winpty_open as: the desktop, then the agent, then the rest, which starts nothing. *)
Lemma open_shape os cfg l r : os_ok os -> winpty_open os cfg = (l, r) ->
  exists l0 r0, setupBackgroundDesktop os cfg = (l0, r0) /\
  match r0 with
  | Ok (d, c) => exists l1 l2, l = l0 ++ l1 ++ l2 /\
      (l1 = [] \/ exists ps r1, createAgentSession Main os (oo_main os) c (desktop_name d) ps = (l1, r1)) /\
      Forall (fun e => match e with EvOpen _ | EvPipe _ _ | EvStart _ _ _ | EvStation true => False | _ => True end) l2 /\
      (is_direct d = false -> stays_put l2) /\
      (forall s, r = Ok s -> (exists ps c', createAgentSession Main os (oo_main os) c (desktop_name d) ps = (l1, Ok c')) /\
        if zlen (desktop_name d) =? 0 then ss_desktop s = [] else oo_current os = Some (ss_desktop s))
  | _ => l = l0 /\ forall s, r <> Ok s
  end.
Proof.
  intros Ho H. pose proof Ho as (Hp & Hm & _). unfold winpty_open in H.
  destruct (setupBackgroundDesktop os cfg) as [l0 r0] eqn:E0. exists l0, r0. split; [reflexivity|]. clear E0.
  destruct r0 as [[d c]|e| | |]; cbn [mbind] in H; try (injection H as <- <-; split; [reflexivity|discriminate]).
  assert (FD : Forall (fun e => match e with EvOpen _ | EvPipe _ _ | EvStart _ _ _ | EvStation true => False | _ => True end) (free_desktop d) /\
               (is_direct d = false -> stays_put (free_desktop d))).
  { destruct d; cbn [free_desktop is_direct]; unfold free_session, stays_put; (split; [fa|intros X; try discriminate X; fa]). }
  destruct FD as (FD1 & FD2).
  destruct (open_params cfg) as [ps|e| | |]; cbn [lift mbind unwind] in H;
    try (injection H as <- <-; exists [], []; rewrite ?app_nil_r; splits; auto; try discriminate; try (intros _; unfold stays_put; fa); fa; fail).
  2:{ injection H as <- <-. exists [], (free_desktop d). splits; auto. discriminate. }
  destruct (createAgentSession Main os (oo_main os) c (desktop_name d) ps) as [l1 r1] eqn:E1.
  destruct r1 as [c1|e| | |]; cbn [mbind unwind] in H;
    try (injection H as <- <-; exists l1, []; rewrite ?app_nil_r; splits; eauto; try discriminate; try (intros _; unfold stays_put; fa); fa; fail).
  2:{ injection H as <- <-. exists l1, (free_desktop d). splits; eauto. discriminate. }
  cbn [tell mbind] in H.
  assert (K : forall tail r', (l, r) = (l0 ++ l1 ++ (free_desktop d ++ tail), r') ->
     Forall (fun e => match e with EvOpen _ | EvPipe _ _ | EvStart _ _ _ | EvStation true => False | _ => True end) tail ->
     stays_put tail ->
     (forall s, r' = Ok s -> if zlen (desktop_name d) =? 0 then ss_desktop s = [] else oo_current os = Some (ss_desktop s)) ->
     exists l1 l2, l = l0 ++ l1 ++ l2 /\
      (l1 = [] \/ exists ps r1, createAgentSession Main os (oo_main os) c (desktop_name d) ps = (l1, r1)) /\
      Forall (fun e => match e with EvOpen _ | EvPipe _ _ | EvStart _ _ _ | EvStation true => False | _ => True end) l2 /\
      (is_direct d = false -> stays_put l2) /\
      (forall s, r = Ok s -> (exists ps c', createAgentSession Main os (oo_main os) c (desktop_name d) ps = (l1, Ok c')) /\
        if zlen (desktop_name d) =? 0 then ss_desktop s = [] else oo_current os = Some (ss_desktop s))).
  { intros tail r' [= -> ->] T1 T2 T3. exists l1, (free_desktop d ++ tail). splits; eauto.
    - apply Forall_app. auto.
    - intros X. unfold stays_put. apply Forall_app. split; [exact (FD2 X)|exact T2].
    - intros s Es. split; [eauto|]. now apply T3. }
  Ltac fin2 K H := eapply K; [symmetry; exact H|unfold free_session; fa|unfold stays_put, free_session; fa|].
  destruct (zlen (desktop_name d) =? 0) eqn:Ez.
  - destruct (so_packet (oo_main os)) as [payload|e| | |]; cbn in H; try (fin2 K H; discriminate).
    destruct (parseSetup (oo_plat os) (negb (Z.land (cf_flags cfg) 1 =? 0)) payload) as [rp|[]| | |]; cbn in H; try (fin2 K H; discriminate).
    destruct rp; cbn in H; fin2 K H; try discriminate. intros s [= <-]. reflexivity.
  - destruct (oo_current os) as [cur|] eqn:Ec; cbn in H; [|fin2 K H; discriminate].
    destruct (so_packet (oo_main os)) as [payload|e| | |]; cbn in H; try (fin2 K H; discriminate).
    destruct (parseSetup (oo_plat os) (negb (Z.land (cf_flags cfg) 1 =? 0)) payload) as [rp|[]| | |]; cbn in H; try (fin2 K H; discriminate).
    destruct rp; cbn in H; fin2 K H; try discriminate. intros s [= <-]. reflexivity.
Qed.

Lemma app_start_cases (a b l1 l2 : list ev) w cmd d : a ++ b = l1 ++ EvStart w cmd d :: l2 ->
  (exists x, a = l1 ++ EvStart w cmd d :: x /\ l2 = x ++ b) \/ (exists x, l1 = a ++ x /\ b = x ++ EvStart w cmd d :: l2).
Proof.
  revert l1. induction a as [|e a IH]; intros l1 H; cbn [app] in H.
  - right. exists l1. auto.
  - destruct l1 as [|e1 l1]; cbn [app] in H.
    + injection H as -> <-. left. exists a. auto.
    + injection H as <- H. destruct (IH _ H) as [(x & -> & ->)|(x & -> & ->)]; [left|right]; exists x; auto.
Qed.
Lemma no_start l1 l2 w cmd d :
  Forall (fun e => match e with EvOpen _ | EvPipe _ _ | EvStart _ _ _ | EvStation true => False | _ => True end) (l1 ++ EvStart w cmd d :: l2) -> False.
Proof. intros F. apply Forall_app in F. destruct F as (_ & F). inversion F; contradiction. Qed.

(** The agent is started at most once, after the desktop was set up. *)
Lemma open_start os cfg l r l1 cmd d l2 : os_ok os -> winpty_open os cfg = (l, r) -> l = l1 ++ EvStart Main cmd d :: l2 ->
  no_main l1 /\ no_main l2 /\
  exists l0 dk c x o, setupBackgroundDesktop os cfg = (l0, Ok (dk, c)) /\ d = desktop_name dk /\ l1 = l0 ++ x /\
    forall base, live x base = Some (o ++ base).
Proof.
  intros Ho H ->. destruct (open_shape _ _ _ _ Ho H) as (l0 & r0 & E0 & S). pose proof Ho as (Hp & Hm & _).
  destruct (setup_desktop _ _ _ _ Ho E0) as (N0 & _).
  assert (X : forall x, l0 = l1 ++ EvStart Main cmd d :: x -> False).
  { intros x ->. apply Forall_app in N0. destruct N0 as (_ & N0). inversion N0; contradiction. }
  destruct r0 as [[dk c]|e| | |]; try (destruct S as (<- & _); exfalso; eapply X; reflexivity).
  destruct S as (la & lb & E & Ea & Fb & _). symmetry in E.
  apply app_start_cases in E. destruct E as [(x & E & _)|(x & -> & E)]; [exfalso; eapply X; exact E|].
  apply app_start_cases in E. destruct E as [(y & E & ->)|(y & -> & E)]; [|exfalso; rewrite E in Fb; eapply no_start; exact Fb].
  destruct Ea as [->|(ps & r1 & Es)]; [destruct x; discriminate E|].
  destruct (session_quiet _ _ _ _ _ _ _ _ Hp Hm Es) as (_ & _ & Q). destruct (Q _ _ _ _ _ E) as (-> & N1 & N2 & o & L).
  assert (N3 : no_main lb) by (eapply Forall_impl; [|exact Fb]; intros [| | |[]| |]; tauto).
  splits; [apply Forall_app; auto|apply Forall_app; auto|]. exists l0, dk, c, x, o. splits; auto.
Qed.

Lemma open_not_needed os cfg l r : os_ok os -> wanted os = false -> winpty_open os cfg = (l, r) ->
  stays_put l /\ ~ uses_helper l /\ (forall cmd d, In (EvStart Main cmd d) l -> d = []).
Proof.
  intros Ho Hd H. destruct (open_shape _ _ _ _ Ho H) as (l0 & r0 & E0 & S). pose proof Ho as (Hp & Hm & _).
  destruct (setup_desktop _ _ _ _ Ho E0) as (_ & _ & K). destruct (proj1 K Hd) as (P0 & H0 & c & ->).
  destruct S as (la & lb & E & Ea & Fb & Sb & _). specialize (Sb eq_refl).
  assert (Q : stays_put la /\ no_helper la).
  { destruct Ea as [->|(ps & r1 & Es)]; [split; [unfold stays_put; fa|unfold no_helper; fa]|].
    destruct (session_quiet _ _ _ _ _ _ _ _ Hp Hm Es) as (Q1 & Q2 & _). auto. }
  destruct Q as (Q1 & Q2). splits.
  - subst l. apply Forall_app. split; [exact P0|]. apply Forall_app. auto.
  - intros (cmd & d & Hi). assert (NH : no_helper l).
    { subst l. apply Forall_app. split; [exact H0|]. apply Forall_app. split; [exact Q2|].
      eapply Forall_impl; [|exact Fb]. intros [| | |[]| |]; tauto. }
    unfold no_helper in NH. rewrite Forall_forall in NH. exact (NH _ Hi).
  - intros cmd d Hi. apply in_split in Hi. destruct Hi as (l1 & l2 & Hl).
    destruct (open_start _ _ _ _ _ _ _ _ Ho H Hl) as (_ & _ & l0' & dk & c' & x & o & E0' & -> & _).
    rewrite E0 in E0'. injection E0' as _ <- _. reflexivity.
Qed.

Lemma open_who_makes_it os cfg l r : os_ok os -> wanted os = true -> winpty_open os cfg = (l, r) ->
  if by_self os (cf_flags cfg)
  then ~ uses_helper l /\
       forall cmd d, In (EvStart Main cmd d) l -> d = match can_make (oo_desk os) with Some n => n | None => [] end
  else stays_put l /\ forall cmd d, In (EvStart Main cmd d) l -> helper_says os d.
Proof.
  intros Ho Hd H. destruct (open_shape _ _ _ _ Ho H) as (l0 & r0 & E0 & S). pose proof Ho as (Hp & Hm & _).
  destruct (setup_desktop _ _ _ _ Ho E0) as (_ & _ & K). destruct K as (_ & K1 & K2). specialize (K1 Hd). specialize (K2 Hd).
  assert (D : forall cmd d, In (EvStart Main cmd d) l -> exists dk c, r0 = Ok (dk, c) /\ d = desktop_name dk).
  { intros cmd d Hi. apply in_split in Hi. destruct Hi as (l1 & l2 & Hl).
    destruct (open_start _ _ _ _ _ _ _ _ Ho H Hl) as (_ & _ & l0' & dk & c' & x & o & E0' & -> & _).
    rewrite E0 in E0'. injection E0' as _ ->. eauto. }
  assert (T : exists tail, l = l0 ++ tail /\ no_helper tail /\ (forall dk c, r0 = Ok (dk, c) -> is_direct dk = false -> stays_put tail) /\
              ((forall dk c, r0 <> Ok (dk, c)) -> tail = [])).
  { destruct r0 as [[dk c]|e| | |]; try (destruct S as (-> & _); exists []; rewrite app_nil_r; splits; auto; [unfold no_helper; fa|discriminate]).
    destruct S as (la & lb & -> & Ea & Fb & Sb & _). exists (la ++ lb).
    assert (Q : stays_put la /\ no_helper la).
    { destruct Ea as [->|(ps & r1 & Es)]; [split; [unfold stays_put; fa|unfold no_helper; fa]|].
      destruct (session_quiet _ _ _ _ _ _ _ _ Hp Hm Es) as (Q1 & Q2 & _). auto. }
    destruct Q as (Q1 & Q2). splits; [reflexivity| | |].
    - apply Forall_app. split; [exact Q2|]. eapply Forall_impl; [|exact Fb]. intros [| | |[]| |]; tauto.
    - intros dk' c' [= <- <-] X. unfold stays_put. apply Forall_app. split; [exact Q1|exact (Sb X)].
    - intros X. exfalso. apply (X dk c). reflexivity. }
  destruct T as (tail & -> & T1 & T2 & T3).
  destruct (by_self os (cf_flags cfg)).
  - destruct (K1 eq_refl) as (NH & DN). split.
    + intros (cmd & d & Hi). assert (N : no_helper (l0 ++ tail)) by (apply Forall_app; auto).
      unfold no_helper in N. rewrite Forall_forall in N. exact (N _ Hi).
    + intros cmd d Hi. destruct (D _ _ Hi) as (dk & c & Er & ->). exact (DN _ _ Er).
  - destruct (K2 eq_refl) as (SP & DN). split.
    + apply Forall_app. split; [exact SP|]. destruct r0 as [[dk c]|e| | |]; try (rewrite T3; [constructor|discriminate]).
      apply (T2 dk c eq_refl). destruct dk; auto. exfalso.
      destruct (setup_cases _ _ _ _ Ho E0) as ((_ & B) & _). cbn [fst is_direct] in B.
      assert (Z : forall l, stays_put l -> forall b, on_background l b = b).
      { induction l as [|e l IH]; intros Hs b; [reflexivity|]. inversion Hs; subst. destruct e; cbn [on_background]; auto. contradiction. }
      rewrite (Z _ SP) in B. discriminate B.
    + intros cmd d Hi. destruct (D _ _ Hi) as (dk & c & Er & ->). exact (DN _ _ Er).
Qed.

Lemma open_desktop_alive os cfg l r l1 cmd d l2 : os_ok os -> winpty_open os cfg = (l, r) ->
  l = l1 ++ EvStart Main cmd d :: l2 -> d <> [] ->
  exists open, live l1 [] = Some open /\
    ((can_make (oo_desk os) = Some d /\ In ODesktop open /\ In OStation open) \/
     (helper_says os d /\ In (OProcess Helper) open /\ In (OPipe Helper) open)).
Proof.
  intros Ho H Hl Hd. destruct (open_start _ _ _ _ _ _ _ _ Ho H Hl) as (_ & _ & l0 & dk & c & x & o & E0 & -> & -> & L).
  destruct (setup_desktop _ _ _ _ Ho E0) as (_ & K & _). destruct (K _ _ eq_refl) as (D & o0 & L0 & O).
  exists (o ++ o0). split; [now rewrite live_app, L0, L|].
  destruct dk as [|n|n]; cbn [desktop_name desk_result] in *; [contradiction|left|right]; subst o0.
  - splits; auto; apply in_or_app; right; cbn; auto.
  - destruct D as (D & _). splits; auto; apply in_or_app; right; cbn; auto.
Qed.

Lemma open_children os cfg l s : os_ok os -> winpty_open os cfg = (l, Ok s) ->
  exists l1 cmd d l2, l = l1 ++ EvStart Main cmd d :: l2 /\
    (forall cmd' d', ~ In (EvStart Main cmd' d') (l1 ++ l2)) /\
    (d = [] -> ss_desktop s = []) /\ (d <> [] -> oo_current os = Some (ss_desktop s)).
Proof.
  intros Ho H. destruct (open_shape _ _ _ _ Ho H) as (l0 & r0 & E0 & S). pose proof Ho as (Hp & Hm & _).
  destruct r0 as [[dk c]|e| | |]; try (destruct S as (_ & S); exfalso; apply (S s); reflexivity).
  destruct S as (la & lb & E & _ & Fb & _ & S). destruct (S _ eq_refl) as ((ps & c' & Es) & Sd). clear S.
  destruct (session_cases _ _ _ _ _ _ _ _ Hp Hm Es) as (n & _ & _ & _ & [(c1 & _ & El & _)|[(e & X & _)|(X & _)]]); try discriminate.
  assert (Hl : l = (l0 ++ [EvOpen (OEvent Main); EvOpen (OPipe Main); EvPipe Main n; EvOpen (OProcess Main); EvOpen (OThread Main)]) ++
                   EvStart Main (agent_cmdline (oo_exe os) n ps) (desktop_name dk) :: EvClose (OThread Main) :: lb).
  { rewrite E, El. unfold started_log. rewrite <- app_assoc. reflexivity. }
  eexists _, _, _, _. split; [exact Hl|]. destruct (open_start _ _ _ _ _ _ _ _ Ho H Hl) as (N1 & N2 & _).
  splits.
  - intros cmd' d' Hi. assert (N : no_main ((l0 ++ [EvOpen (OEvent Main); EvOpen (OPipe Main); EvPipe Main n; EvOpen (OProcess Main); EvOpen (OThread Main)]) ++
      EvClose (OThread Main) :: lb)) by (apply Forall_app; auto).
    unfold no_main in N. rewrite Forall_forall in N. exact (N _ Hi).
  - intros Hd. rewrite Hd in Sd. exact Sd.
  - intros Hd. destruct (Z.eqb_spec (zlen (desktop_name dk)) 0) as [X|X]; [|exact Sd].
    exfalso. apply Hd. destruct (desktop_name dk); [reflexivity|]. unfold zlen in X. cbn in X. lia.
Qed.

Lemma open_succeeds os cfg flags ops c0 payload rp : os_ok os -> 0 <= flags -> @config_new unit flags = Ok c0 -> Forall int_args ops ->
  configure c0 ops = Ok cfg ->
  starts_well (oo_main os) -> authentic (oo_main os) ->
  so_packet (oo_main os) = Ok payload -> parseSetup (oo_plat os) (Z.testbit flags 0) payload = Ok rp ->
  oo_current os <> None ->
  (wanted os = false \/ by_self os flags = true \/
   starts_well (oo_helper os) /\ authentic (oo_helper os) /\ exists n, helper_says os n) ->
  exists l s, winpty_open os cfg = (l, Ok s).
Proof.
  intros Ho Hf H0 F Hc Wm Am Ep Er Hcur Hh. destruct (built_valid _ _ _ _ Hf H0 F Hc) as (V & Ef).
  pose proof Ho as (Hp & Hm & Hhe & _).
  assert (S : exists l0 d c, setupBackgroundDesktop os cfg = (l0, Ok (d, c))).
  { destruct (setupBackgroundDesktop os cfg) as [l0 r0] eqn:E0. unfold setupBackgroundDesktop in E0.
    rewrite bit3, Ef in E0. destruct (shouldCreateBackgroundDesktop os (negb (Z.testbit flags 3))) as [use ag] eqn:Es.
    destruct use; cbn [negb] in E0; [|injection E0 as <- <-; eauto].
    destruct ag.
    - assert (K : starts_well (oo_helper os) /\ authentic (oo_helper os) /\ exists n, helper_says os n).
      { destruct (should_spec _ _ _ _ Es) as (U1 & _ & U3). specialize (U1 eq_refl). specialize (U3 eq_refl).
        destruct Hh as [X|[X|X]]; [rewrite U1 in X; discriminate X|rewrite X in U3; discriminate U3|exact X]. }
      destruct K as (K1 & K2 & n & pl & Pk & Pp).
      destruct (session_decided Helper os (oo_helper os) (oo_counter os) [] (str "--create-desktop") Hp Hhe K1) as (D & _).
      destruct (D K2) as (c & Ec).
      destruct (createAgentSession Helper os (oo_helper os) (oo_counter os) [] (str "--create-desktop")) as [l1 r1].
      cbn [snd] in Ec. subst r1. cbn [mbind] in E0. rewrite Pk in E0. cbn in E0. rewrite Pp in E0. cbn in E0.
      destruct (zlen n =? 0); cbn in E0; injection E0 as <- <-; eauto.
    - unfold backgroundDesktop in E0.
      destruct (do_orig (oo_desk os)), (do_station (oo_desk os)), (do_set (oo_desk os)), (do_desktop (oo_desk os)), (do_name (oo_desk os));
        cbn in E0; injection E0 as <- <-; eauto. }
  destruct S as (l0 & d & c & E0). unfold winpty_open. rewrite E0. cbn [mbind].
  assert (Hpar : exists ps, open_params cfg = Ok ps).
  { destruct V as (V1 & V2 & V3 & V4 & V5). unfold open_params.
    destruct (dec64_ok (cf_flags cfg) ltac:(lia)) as (f & -> & _).
    destruct (dec32_ok (cf_mouse cfg) ltac:(lia)) as (m & -> & _).
    destruct (dec32_ok (cf_cols cfg) ltac:(lia)) as (cc & -> & _).
    destruct (dec32_ok (cf_rows cfg) ltac:(lia)) as (rr & -> & _). cbn [bind]. eauto. }
  destruct Hpar as (ps & ->). cbn [lift mbind].
  destruct (session_decided Main os (oo_main os) c (desktop_name d) ps Hp Hm Wm) as (D & _). destruct (D Am) as (c' & Ec).
  destruct (createAgentSession Main os (oo_main os) c (desktop_name d) ps) as [l1 r1]. cbn [snd] in Ec. subst r1.
  cbn [unwind mbind tell].
  assert (Eb : negb (Z.land (cf_flags cfg) 1 =? 0) = Z.testbit (cf_flags cfg) 0).
  { pose proof (Z.bit0_mod (cf_flags cfg)) as Hb. change 1 with (Z.ones 1). rewrite Z.land_ones by lia. change (2 ^ 1) with 2.
    rewrite <- Hb. destruct (Z.testbit (cf_flags cfg) 0); reflexivity. }
  rewrite Eb, Ef, Ep. clear Eb. destruct (parseSetup_shape _ _ _ _ Er) as (i & o & e & -> & _).
  cbn [lift mbind]. rewrite Er. destruct (oo_current os) as [cur|]; [|contradiction].
  destruct (zlen (desktop_name d) =? 0); cbn; eauto.
Qed.

(** *** What goes wrong first *)
Lemma parseSetup_total pl want b : plat_ok pl -> bytes_ok b -> match parseSetup pl want b with Ok _ | Throw _ => True | _ => False end.
Proof.
  intros Hpl Hb. unfold parseSetup. pose proof (at_start b) as Hat.
  sndstr Hpl Hat Hb s1 rb1 Hs1 Hat1 Hb1. sndstr Hpl Hat1 Hb1 s2 rb2 Hs2 Hat2 Hb2. destruct want.
  - sndstr Hpl Hat2 Hb2 s3 rb3 Hs3 Hat3 Hb3. sndeof Hat3 Hn. exact I.
  - sndeof Hat2 Hn. exact I.
Qed.

Lemma parseDesktop_total pl b : plat_ok pl -> bytes_ok b ->
  match parseDesktop pl b with Ok rp => exists n, rp = RpDesktop n | Throw _ => True | _ => False end.
Proof.
  intros Hpl Hb. unfold parseDesktop. pose proof (at_start b) as Hat.
  sndstr Hpl Hat Hb s1 rb1 Hs1 Hat1 Hb1. sndeof Hat1 Hn. eauto.
Qed.

Lemma first_app a b : first_failure (a ++ b) = match first_failure a with Some e => Some e | None => first_failure b end.
Proof. induction a as [|[e|] a IH]; cbn; auto. Qed.

Lemma session_outcome w gos os counter desktop params : 0 <= oo_pid gos < 2 ^ 32 -> sess_ok os ->
  (forall ok err m, so_connect os <> Pend WUnknown ok err m) ->
  match first_failure (session_steps os) with
  | Some e => snd (createAgentSession w gos os counter desktop params) = Throw e
  | None => exists c, snd (createAgentSession w gos os counter desktop params) = Ok c
  end.
Proof.
  intros Hp Ho Hc. destruct (@pipe_word lexc (oo_pid gos) counter os Hp Ho) as (n & E & _).
  unfold createAgentSession. rewrite E.
  unfold createControlPipe, startAgentProcess, connectControlPipe, verifyPipeClientPid, session_steps, requires.
  destruct (so_event os); [|reflexivity]. destruct (so_sd os); [|reflexivity]. destruct (so_pipe os); [|reflexivity].
  destruct (so_exe os); [|reflexivity]. destruct (so_pid os) as [pid|]; [|reflexivity]. cbn.
  destruct (so_connect os) as [ok err m|[] ok err m] eqn:Ec; cbn; try reflexivity.
  3: destruct (Hc _ _ _ eq_refl).
  all: destruct (ok || (err =? 535)); [|reflexivity]; destruct (so_client os) as [| |cp]; cbn; eauto;
    destruct (cp =? pid); cbn; eauto.
Qed.

Lemma setup_outcome os cfg : os_ok os -> plat_ok (oo_plat os) -> answers (oo_helper os) ->
  match first_failure (if wanted os && negb (by_self os (cf_flags cfg))
     then session_steps (oo_helper os) ++ [reading (so_packet (oo_helper os)) (parseDesktop (oo_plat os))] else []) with
  | Some e => snd (setupBackgroundDesktop os cfg) = Throw e
  | None => exists d c, snd (setupBackgroundDesktop os cfg) = Ok (d, c) /\ desktop_name d = desktop_for os (cf_flags cfg)
  end.
Proof.
  intros (Hp & _ & Hh & _) Hpl (Ac & Ap). unfold setupBackgroundDesktop. rewrite bit3.
  destruct (shouldCreateBackgroundDesktop os (negb (Z.testbit (cf_flags cfg) 3))) as [use ag] eqn:Es.
  destruct (should_spec _ _ _ _ Es) as (S2 & S4 & S3). unfold desktop_for.
  destruct use; [rewrite (S2 eq_refl); specialize (S3 eq_refl)|rewrite (S4 eq_refl); cbn; eauto].
  cbn [andb negb]. rewrite <- S3. destruct ag.
  - assert (Hb : by_self os (cf_flags cfg) = false) by (destruct (by_self os (cf_flags cfg)); [discriminate S3|reflexivity]). rewrite Hb.
    rewrite first_app. pose proof (session_outcome Helper os (oo_helper os) (oo_counter os) [] (str "--create-desktop") Hp Hh Ac) as So.
    destruct (createAgentSession Helper os (oo_helper os) (oo_counter os) [] (str "--create-desktop")) as [l1 r1]. cbn [snd] in So.
    destruct (first_failure (session_steps (oo_helper os))) as [e|]; [subst r1; reflexivity|]. destruct So as (c & ->).
    unfold reading. destruct (so_packet (oo_helper os)) as [b|e| | |]; cbn; try contradiction; [|reflexivity].
    pose proof (parseDesktop_total (oo_plat os) b Hpl Ap) as T.
    destruct (parseDesktop (oo_plat os) b) as [rp|[]| | |]; cbn; try contradiction; try reflexivity.
    destruct T as (n & ->). destruct (Z.eqb_spec (zlen n) 0) as [En|En]; cbn; eexists _, _; (split; [reflexivity|]); [|reflexivity].
    destruct n; [reflexivity|unfold zlen in En; cbn in En; lia].
  - assert (Hb : by_self os (cf_flags cfg) = true) by (destruct (by_self os (cf_flags cfg)); [reflexivity|discriminate S3]). rewrite Hb.
    cbn [negb first_failure]. unfold backgroundDesktop, can_make.
    destruct (do_orig (oo_desk os)), (do_station (oo_desk os)), (do_set (oo_desk os)), (do_desktop (oo_desk os)), (do_name (oo_desk os));
      cbn; eauto.
Qed.

Lemma open_outcome os cfg flags ops c0 : os_ok os -> plat_ok (oo_plat os) -> answers (oo_main os) -> answers (oo_helper os) ->
  0 <= flags -> @config_new unit flags = Ok c0 -> Forall int_args ops -> configure c0 ops = Ok cfg ->
  match first_failure (open_steps os flags) with
  | Some e => snd (winpty_open os cfg) = Throw e
  | None => exists s, snd (winpty_open os cfg) = Ok s
  end.
Proof.
  intros Ho Hpl (Ac & Ap) Ah Hf H0 F Hc. destruct (built_valid _ _ _ _ Hf H0 F Hc) as (V & Ef).
  pose proof (setup_outcome os cfg Ho Hpl Ah) as S. destruct Ho as (Hp & Hm & _). unfold open_steps. rewrite first_app, <- Ef.
  unfold winpty_open. destruct (setupBackgroundDesktop os cfg) as [l0 r0]. cbn [snd] in S.
  match goal with |- match match ?x with _ => _ end with _ => _ end => destruct x as [e|] end; [subst r0; reflexivity|].
  destruct S as (d & c & -> & Ed). cbn [mbind].
  assert (Hpar : exists ps, open_params cfg = Ok ps).
  { destruct V as (V1 & V2 & V3 & V4 & V5). unfold open_params.
    destruct (dec64_ok (cf_flags cfg) ltac:(lia)) as (f & -> & _).
    destruct (dec32_ok (cf_mouse cfg) ltac:(lia)) as (m & -> & _).
    destruct (dec32_ok (cf_cols cfg) ltac:(lia)) as (cc & -> & _).
    destruct (dec32_ok (cf_rows cfg) ltac:(lia)) as (rr & -> & _). cbn [bind]. eauto. }
  destruct Hpar as (ps & ->). cbn [lift mbind]. rewrite first_app.
  pose proof (session_outcome Main os (oo_main os) c (desktop_name d) ps Hp Hm Ac) as So.
  destruct (createAgentSession Main os (oo_main os) c (desktop_name d) ps) as [l1 r1]. cbn [snd] in So.
  destruct (first_failure (session_steps (oo_main os))) as [e|]; [subst r1; reflexivity|]. destruct So as (c' & ->).
  cbn [unwind mbind tell]. rewrite Ed.
  assert (Eb : negb (Z.land (cf_flags cfg) 1 =? 0) = Z.testbit (cf_flags cfg) 0).
  { pose proof (Z.bit0_mod (cf_flags cfg)) as Hb. change 1 with (Z.ones 1). rewrite Z.land_ones by lia. change (2 ^ 1) with 2.
    rewrite <- Hb. destruct (Z.testbit (cf_flags cfg) 0); reflexivity. }
  rewrite Eb. clear Eb. set (want := Z.testbit (cf_flags cfg) 0). clearbody want.
  assert (Hz : (zlen (desktop_for os (cf_flags cfg)) =? 0) = match desktop_for os (cf_flags cfg) with [] => true | _ => false end).
  { destruct (desktop_for os (cf_flags cfg)) as [|x t]; [reflexivity|]. unfold zlen. cbn [length]. lia. }
  rewrite Hz.
  pose proof (parseSetup_total (oo_plat os)) as T. unfold reading.
  destruct (desktop_for os (cf_flags cfg)) as [|x t], (oo_current os) as [cur|]; cbn; try reflexivity;
    (destruct (so_packet (oo_main os)) as [b|e| | |]; cbn; try contradiction; [|reflexivity];
     specialize (T want b Hpl Ap);
     destruct (parseSetup (oo_plat os) want b) as [rp|[]| | |] eqn:Er; cbn; try contradiction; try reflexivity;
     destruct (parseSetup_shape _ _ _ _ Er) as (i & o & e & -> & _); cbn; eauto).
Qed.
