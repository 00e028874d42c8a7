(** What is relied on when the version of Windows is determined or reported, and when
    random names are made. *)
From Verif Require Import Base Text StringsSpec WinVersion.

(** A version is at least another: the major number decides, then the minor. *)
Definition at_least (major minor a b : Z) : Prop := a < major \/ a = major /\ b <= minor.

(** Modules are used only while loaded, freed once in the opposite order, and none is left. *)
Fixpoint well_used (open : list (list Z)) (l : list mev) : Prop :=
  match l with
  | [] => open = []
  | MLoad p true :: r => well_used (p :: open) r
  | MLoad p false :: r => well_used open r
  | MUse p _ :: r => In p open /\ well_used open r
  | MFree p :: r => match open with q :: o => p = q /\ well_used o r | [] => False end
  | MTrace _ :: r => well_used open r
  end.

(** Four numbers of 16 bits with points between them *)
Definition dotted (ms ls : Z) (s : list Z) : Prop :=
  exists a b c d, s = a ++ str "." ++ b ++ str "." ++ c ++ str "." ++ d /\
    canonical 10 a (ms / 2 ^ 16) /\ canonical 10 b (ms mod 2 ^ 16) /\ canonical 10 c (ls / 2 ^ 16) /\ canonical 10 d (ls mod 2 ^ 16).
Definition dword (v : Z) : Prop := 0 <= v < 2 ^ 32.
Definition finfo_ok (i : finfo) : Prop := dword (fi_fileMS i) /\ dword (fi_fileLS i) /\ dword (fi_prodMS i) /\ dword (fi_prodLS i).
(** The system's answers have the ranges of their types. *)
Definition answers_ok (os : ver_os) : Prop :=
  (forall i, v_info os = Some i -> dword (vi_major i) /\ dword (vi_minor i) /\ dword (vi_build i) /\ 0 <= vi_spMajor i < 2 ^ 16 /\ 0 <= vi_spMinor i < 2 ^ 16 /\ 0 <= vi_product i < 2 ^ 8) /\
  (forall p n i, v_query os p = Some (n, i) -> finfo_ok i).

(** The system's own version.dll can be used. *)
Definition library (os : ver_os) : Prop :=
  exists d, v_sysdir os = Some d /\ zlen d < 260 /\ v_load os (d ++ str "\version.dll") = true /\
    v_proc os (str "GetFileVersionInfoSizeW") = true /\ v_proc os (str "GetFileVersionInfoW") = true /\ v_proc os (str "VerQueryValueW") = true.
(** A module has a version resource of the right size and signature; it is not there. *)
Definition readable (os : ver_os) (path : list Z) (i : finfo) : Prop :=
  library os /\ fst (v_size os path) <> 0 /\ v_get os path = true /\ v_query os path = Some (52, i) /\ fi_sig i = 0xFEEF04BD.
Definition missing (os : ver_os) (path : list Z) : Prop :=
  library os /\ fst (v_size os path) = 0 /\ (snd (v_size os path) = 2 \/ snd (v_size os path) = 1812).
(** The report on one module: its versions, or that it is not there, or an error *)
Definition reported (os : ver_os) (path s : list Z) : Prop :=
  (exists i f p, readable os path i /\
     dotted (fi_fileMS i) (fi_fileLS i) f /\ dotted (fi_prodMS i) (fi_prodLS i) p /\ s = path ++ str ":F:" ++ f ++ str "/P:" ++ p) \/
  (missing os path /\ s = path ++ str ":none") \/
  ((forall i, ~ readable os path i) /\ ~ missing os path /\ s = path ++ str ":error").

(** The kind of system and the architecture *)
Definition product_text (t : Z) (s : list Z) : Prop :=
  (t = 1 /\ s = str "Client") \/ (t = 2 /\ s = str "DomainController") \/ (t = 3 /\ s = str "Server") \/
  (t <> 1 /\ t <> 2 /\ t <> 3 /\ exists d, canonical 10 d t /\ s = str "product=" ++ d).
Definition arch_text (os : ver_os) (s : list Z) : Prop :=
  (v_ia32 os = false /\ s = str "X64") \/
  (v_ia32 os = true /\ v_proc os (str "IsWow64Process") = false /\ s = str "IA32 WOW64:missingapi") \/
  (v_ia32 os = true /\ v_proc os (str "IsWow64Process") = true /\ v_wow64 os = None /\ s = str "IA32 WOW64:error") \/
  (v_ia32 os = true /\ v_proc os (str "IsWow64Process") = true /\ v_wow64 os = Some true /\ s = str "IA32 WOW64") \/
  (v_ia32 os = true /\ v_proc os (str "IsWow64Process") = true /\ v_wow64 os = Some false /\ s = str "IA32").
(** The line in the trace *)
Definition summary (os : ver_os) (i : vinfo) (t : list Z) : Prop :=
  exists ma mi bu s1 s2 pr ar k c,
    t = str "Windows version: " ++ ma ++ str "." ++ mi ++ str "." ++ bu ++ str " SP" ++ s1 ++ str "." ++ s2 ++ str " " ++ pr ++ str " " ++ ar ++ str " " ++ k ++ str " " ++ c /\
    canonical 10 ma (vi_major i) /\ canonical 10 mi (vi_minor i) /\ canonical 10 bu (vi_build i) /\
    canonical 10 s1 (vi_spMajor i) /\ canonical 10 s2 (vi_spMinor i) /\ product_text (vi_product i) pr /\ arch_text os ar /\
    reported os (str "kernel32.dll") k /\ reported os (if v_ia32 os then str "ConEmuHk.dll" else str "ConEmuHk64.dll") c.
(** Modules are loaded by the full path in the directory of the system, except one that
    every process has already. *)
Definition safe_loads (os : ver_os) (l : list mev) : Prop := forall p ok, In (MLoad p ok) l ->
  p = str "kernel32.dll" \/ exists d, v_sysdir os = Some d /\ p = d ++ str "\version.dll".

(** The context of the crypto system is acquired at most once, used only while it is
    there, and released; advapi32 is there throughout. *)
Inductive gstate := Gnone | Gloaded | Gctx | Gdone.
Fixpoint well_kept (s : gstate) (l : list gev) : Prop :=
  match l with
  | [] => s = Gdone
  | GLoad :: r => s = Gnone /\ well_kept Gloaded r
  | GAcquire ok :: r => s = Gloaded /\ well_kept (if ok then Gctx else Gloaded) r
  | GRtl _ :: r => s = Gloaded /\ well_kept s r
  | GCrypt _ :: r => s = Gctx /\ well_kept s r
  | GRelease :: r => s = Gctx /\ well_kept Gloaded r
  | GFree :: r => s = Gloaded /\ well_kept Gdone r
  end.
