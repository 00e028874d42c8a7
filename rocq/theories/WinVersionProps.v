(** Properties C67 and C68. *)
From Verif Require Import Base Text StringsSpec WinVersion WinVersionSpec WinVersionProofs.

(** C67: "at least Vista, 7, 8" compares the system's version, major number first; the
    answers never contradict each other. *)
Theorem C67_at_least : forall os i, v_info os = Some i ->
  exists v s e, isAtLeastWindowsVista os = Ok v /\ isAtLeastWindows7 os = Ok s /\ isAtLeastWindows8 os = Ok e /\
    (v = true <-> at_least (vi_major i) (vi_minor i) 6 0) /\ (s = true <-> at_least (vi_major i) (vi_minor i) 6 1) /\ (e = true <-> at_least (vi_major i) (vi_minor i) 6 2) /\
    (e = true -> s = true) /\ (0 <= vi_minor i -> s = true -> v = true).
Proof.
  intros os i I. unfold isAtLeastWindowsVista, isAtLeastWindows7, isAtLeastWindows8, getWindowsVersion. rewrite I. cbn [bind].
  eexists. eexists. eexists. splits; [reflexivity|reflexivity|reflexivity|apply version_ge_ok|apply version_ge_ok|apply version_ge_ok| |];
    intros; rewrite version_ge_ok in *; unfold at_least in *; lia.
Qed.
Print Assumptions C67_at_least.

(** C67: without tracing nothing is asked, loaded or written. *)
Theorem C67_silent : forall os, dumpWindowsVersion false os = Ok [].
Proof. reflexivity. Qed.
Print Assumptions C67_silent.

(** C67: with tracing the report is made whatever goes wrong with version.dll or the
    modules looked at; it says what the system said. *)
Theorem C67_report : forall os i, answers_ok os -> v_info os = Some i -> (v_ia32 os = true -> v_load os (str "kernel32.dll") = true) ->
  exists l t c, dumpWindowsVersion true os = Ok (l ++ [MTrace t] ++ c) /\ summary os i t /\ (forall x, ~ In (MTrace x) c).
Proof. intros os i A I K. destruct (dump_ok os i A I K) as (l & t & c & E & S & N & _). exists l, t, c. auto. Qed.
Print Assumptions C67_report.

(** C67: version.dll is loaded only from the directory of the system; every module loaded
    is freed once, after its last use, also when something fails. *)
Theorem C67_modules : forall os l, answers_ok os -> dumpWindowsVersion true os = Ok l -> well_used [] l /\ safe_loads os l.
Proof.
  intros os l A E. destruct (v_info os) as [i|] eqn:I; [|unfold dumpWindowsVersion in E; rewrite I in E; discriminate E].
  assert (K : v_ia32 os = true -> v_load os (str "kernel32.dll") = true) by exact (dump_loaded os l i A I E).
  destruct (dump_ok os i A I K) as (l1 & t & c & E1 & _ & _ & W & S). rewrite E in E1. injection E1 as ->. auto.
Qed.
Print Assumptions C67_modules.

(** C67: the dotted text of a version determines it. *)
Theorem C67_text_tells : forall ms ls ms' ls' s, dword ms -> dword ls -> dword ms' -> dword ls' ->
  versionToString (version64 ms ls) = Ok s -> versionToString (version64 ms' ls') = Ok s -> ms = ms' /\ ls = ls'.
Proof.
  intros ms ls ms' ls' s M L M' L' E E'. destruct (versionToString_ok ms ls M L) as (s1 & E1 & D1). destruct (versionToString_ok ms' ls' M' L') as (s2 & E2 & D2).
  assert (s1 = s) as -> by congruence. assert (s2 = s) as -> by congruence. exact (dotted_tells _ _ _ _ _ D1 D2).
Qed.
Print Assumptions C67_text_tells.

(** A 64-bit Windows 7 on which ConEmu is missing *)
Definition win7 : ver_os :=
  mkVer (Some (mkVinfo 6 1 7601 1 0 1)) (Some (str "C:\Windows\system32")) (fun _ => true) (fun _ => true)
    (fun p => if list_eqb p (str "kernel32.dll") then (1820, 0) else (0, 2)) (fun _ => true)
    (fun _ => Some (52, mkFinfo 0xFEEF04BD (6 * 65536 + 1) (7601 * 65536 + 17514) (6 * 65536 + 1) (7601 * 65536 + 17514))) None false.
Example C67_holds_somewhere :
  answers_ok win7 /\ v_info win7 = Some (mkVinfo 6 1 7601 1 0 1) /\ isAtLeastWindows7 win7 = Ok true /\ isAtLeastWindows8 win7 = Ok false /\
  exists l, dumpWindowsVersion true win7 = Ok (l ++ [MTrace (str "Windows version: 6.1.7601 SP1.0 Client X64 kernel32.dll:F:6.1.7601.17514/P:6.1.7601.17514 ConEmuHk64.dll:none")]).
Proof.
  splits.
  - split; [intros i I|intros p n i I].
    + assert (i = mkVinfo 6 1 7601 1 0 1) as -> by (cbn in I; congruence). unfold dword. cbn [vi_major vi_minor vi_build vi_spMajor vi_spMinor vi_product]. lia.
    + cbn [v_query win7] in I. injection I as <- <-. unfold finfo_ok, dword. cbn [fi_fileMS fi_fileLS fi_prodMS fi_prodLS]. lia.
  - reflexivity.
  - reflexivity.
  - reflexivity.
  - eexists [_; _; _; _; _; _; _; _]. vm_compute. reflexivity.
Qed.

(** C68: the random part of a name is what a successful call of the system's generator
    delivered; when a call fails there is no random part, never a
    predictable one. *)
Theorem C68_source : forall os n, r_load os = true -> exists b l, oneRandom os n = Ok (b, l) /\
  (r_rtl os = true -> fst (r_rtlFill os n) = true -> b = snd (r_rtlFill os n)) /\
  (r_rtl os = false -> r_acquire os = true -> fst (r_cryptFill os n) = true -> b = snd (r_cryptFill os n)) /\
  (b <> [] -> r_rtl os = true /\ fst (r_rtlFill os n) = true \/ r_rtl os = false /\ r_acquire os = true /\ fst (r_cryptFill os n) = true).
Proof.
  intros os n L. destruct (random_ok os n L) as (b & l & E & _ & R & C). exists b, l. splits; [exact E| | |].
  - intros T F. destruct (R T) as (-> & _). rewrite F. reflexivity.
  - intros T A F. rewrite (C T), A, F. reflexivity.
  - intros N. destruct (r_rtl os).
    + destruct (R eq_refl) as (B & _). left. split; [reflexivity|]. destruct (fst (r_rtlFill os n)); [reflexivity|congruence].
    + specialize (C eq_refl). right. destruct (r_acquire os); [|exfalso; apply N; exact C]. destruct (fst (r_cryptFill os n)); [auto|exfalso; apply N; exact C].
Qed.
Print Assumptions C68_source.

(** C68: a crypto context is acquired only if the fast generator is missing, used only
    while it is valid, and released exactly if it was acquired; then the module is freed. *)
Theorem C68_context : forall os n b l, oneRandom os n = Ok (b, l) -> well_kept Gnone l /\ (r_rtl os = true -> forall ok, ~ In (GAcquire ok) l).
Proof.
  intros os n b l E. assert (L : r_load os = true) by (unfold oneRandom, newGenRandom in E; destruct (r_load os); [reflexivity|discriminate E]).
  destruct (random_ok os n L) as (b1 & l1 & E1 & W & R & _). rewrite E in E1. injection E1 as -> ->. split; [exact W|]. intros T. exact (proj2 (R T)).
Qed.
Print Assumptions C68_context.

Example C68_holds_somewhere :
  oneRandom (mkRng true true false (fun n => (true, zrepeat 7 n)) (fun n => (false, []))) 2 = Ok ([7; 7], [GLoad; GRtl 2; GFree]) /\
  oneRandom (mkRng true false true (fun n => (false, [])) (fun n => (true, zrepeat 9 n))) 2 = Ok ([9; 9], [GLoad; GAcquire true; GCrypt 2; GRelease; GFree]) /\
  oneRandom (mkRng true false false (fun n => (true, [])) (fun n => (true, zrepeat 9 n))) 2 = Ok ([], [GLoad; GAcquire false; GFree]) /\
  oneRandom (mkRng true true true (fun n => (false, zrepeat 0 n)) (fun n => (true, zrepeat 9 n))) 2 = Ok ([], [GLoad; GRtl 2; GFree]).
Proof. repeat split. Qed.
