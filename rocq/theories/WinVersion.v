(** Model of src/shared/WindowsVersion.cc, src/shared/OsModule.h and the sources of random
    bytes in src/shared/GenRandom.cc (24-97).  The operating system's answers are inputs. *)
From Verif Require Import Base Text ShowInput.

(** Modules loaded, functions called in them, modules freed; trace messages *)
Inductive mev := MLoad (path : list Z) (ok : bool) | MUse (path name : list Z) | MFree (path : list Z) | MTrace (t : list Z).

(** ** WindowsVersion.cc *)

(** OSVERSIONINFOEX *)
Record vinfo := mkVinfo { vi_major : Z; vi_minor : Z; vi_build : Z; vi_spMajor : Z; vi_spMinor : Z; vi_product : Z }.
(** VS_FIXEDFILEINFO, its signature and the versions *)
Record finfo := mkFinfo { fi_sig : Z; fi_fileMS : Z; fi_fileLS : Z; fi_prodMS : Z; fi_prodLS : Z }.
Record ver_os := mkVer {
  v_info : option vinfo;                       (* GetVersionEx *)
  v_sysdir : option (list Z);                  (* GetSystemDirectoryW *)
  v_load : list Z -> bool;                     (* LoadLibraryW *)
  v_proc : list Z -> bool;                     (* GetProcAddress *)
  v_size : list Z -> Z * Z;                    (* GetFileVersionInfoSizeW: size and last error *)
  v_get : list Z -> bool;                      (* GetFileVersionInfoW *)
  v_query : list Z -> option (Z * finfo);      (* VerQueryValueW: size; None if it fails or gives null *)
  v_wow64 : option bool;                       (* IsWow64Process: None if it fails *)
  v_ia32 : bool }.                             (* WINPTY_ARCH == WINPTY_IA32, else X64 *)

(** getWindowsVersionInfo and getWindowsVersion, WindowsVersion.cc:44-68 *)
Definition getWindowsVersion (os : ver_os) : res unit (Z * Z) :=
  match v_info os with None => AssertFail | Some i => Ok (vi_major i, vi_minor i) end.
(** std::tuple's operator>= *)
Definition version_ge (a b : Z * Z) : bool :=
  if fst a <? fst b then false else if fst b <? fst a then true else snd b <=? snd a.
(** isAtLeastWindowsVista, isAtLeastWindows7, isAtLeastWindows8, WindowsVersion.cc:163-176 *)
Definition isAtLeastWindowsVista (os : ver_os) : res unit bool := let! v := getWindowsVersion os in Ok (version_ge v (6, 0)).
Definition isAtLeastWindows7 (os : ver_os) : res unit bool := let! v := getWindowsVersion os in Ok (version_ge v (6, 1)).
Definition isAtLeastWindows8 (os : ver_os) : res unit bool := let! v := getWindowsVersion os in Ok (version_ge v (6, 2)).

Definition MAX_PATH : Z := 260.
(** getSystemDirectory, WindowsVersion.cc:76-87: None is an exception.  A path that does
    not fit with its NUL makes the size at least MAX_PATH. *)
Definition getSystemDirectory (os : ver_os) : option (list Z) :=
  match v_sysdir os with None => None | Some d => if zlen d <? MAX_PATH then Some d else None end.

(** What getFixedFileInfo gives: a result, ModuleNotFound or another WinptyException *)
Inductive fres := FOk (i : finfo) | FNotFound | FError.
Definition ERROR_FILE_NOT_FOUND : Z := 2.
Definition ERROR_RESOURCE_DATA_NOT_FOUND : Z := 1812.
Definition sizeof_VS_FIXEDFILEINFO : Z := 52.
Definition nSize : list Z := str "GetFileVersionInfoSizeW".
Definition nGet : list Z := str "GetFileVersionInfoW".
Definition nQuery : list Z := str "VerQueryValueW".
(** The calls in version.dll, WindowsVersion.cc:89-95, 107-136 *)
Definition query_dll (os : ver_os) (dll path : list Z) : fres * list mev :=
  if negb (v_proc os nSize) || negb (v_proc os nGet) || negb (v_proc os nQuery) then (FError, [])
  else
    let (size, err) := v_size os path in
    if size =? 0 then
      (if (err =? ERROR_FILE_NOT_FOUND) || (err =? ERROR_RESOURCE_DATA_NOT_FOUND) then FNotFound else FError, [MUse dll nSize])
    else if negb (v_get os path) then (FError, [MUse dll nSize; MUse dll nGet])
    else
      (match v_query os path with
       | None => FError
       | Some (n, i) => if negb (n =? sizeof_VS_FIXEDFILEINFO) || negb (fi_sig i =? 0xFEEF04BD) then FError else FOk i
       end, [MUse dll nSize; MUse dll nGet; MUse dll nQuery]).
(** getFixedFileInfo, WindowsVersion.cc:97-137, with OsModule's constructor (Throw) and
    destructor, OsModule.h:36-53 *)
Definition getFixedFileInfo (os : ver_os) (path : list Z) : fres * list mev :=
  match getSystemDirectory os with
  | None => (FError, [])
  | Some d =>
      let dll := d ++ str "\version.dll" in
      if negb (v_load os dll) then (FError, [MLoad dll false])
      else let (r, l) := query_dll os dll path in (r, [MLoad dll true] ++ l ++ [MFree dll])
  end.

(** productVersionFromInfo and fileVersionFromInfo, WindowsVersion.cc:139-147 *)
Definition version64 (ms ls : Z) : Z := Z.lor (wrapu 64 (Z.shiftl ms 32)) ls.
(** versionToString, WindowsVersion.cc:149-159 *)
Definition versionToString (v : Z) : res unit (list Z) :=
  let! a := put_dec 2 (wrapu 16 (Z.shiftr v 48)) in
  let! b := put_dec 2 (wrapu 16 (Z.shiftr v 32)) in
  let! c := put_dec 2 (wrapu 16 (Z.shiftr v 16)) in
  let! d := put_dec 2 (wrapu 16 v) in
  Ok (a ++ [46] ++ b ++ [46] ++ c ++ [46] ++ d).

(** The lambda dllVersion, WindowsVersion.cc:227-242; the text of the exception in the
    trace is left out. *)
Definition dllVersion (os : ver_os) (path : list Z) : res unit (list Z * list mev) :=
  match getFixedFileInfo os path with
  | (FOk i, l) =>
      let! f := versionToString (version64 (fi_fileMS i) (fi_fileLS i)) in
      let! p := versionToString (version64 (fi_prodMS i) (fi_prodLS i)) in
      Ok (path ++ [58] ++ str "F:" ++ f ++ [47] ++ str "P:" ++ p, l)
  | (FNotFound, l) => Ok (path ++ str ":none", l)
  | (FError, l) => Ok (path ++ str ":error", l ++ [MTrace (str "Error getting " ++ path ++ str " version")])
  end.

Definition VER_NT_WORKSTATION : Z := 1.
Definition VER_NT_DOMAIN_CONTROLLER : Z := 2.
Definition VER_NT_SERVER : Z := 3.
(** WindowsVersion.cc:199-205; the BYTE is shown as an int. *)
Definition productText (t : Z) : res unit (list Z) :=
  if t =? VER_NT_WORKSTATION then Ok (str "Client")
  else if t =? VER_NT_DOMAIN_CONTROLLER then Ok (str "DomainController")
  else if t =? VER_NT_SERVER then Ok (str "Server")
  else let! p := put_dec 4 t in Ok (str "product=" ++ p).
Definition kernel32 : list Z := str "kernel32.dll".
Definition nWow64 : list Z := str "IsWow64Process".
(** The architecture, WindowsVersion.cc:207-226: its text, what happens, and what the
    destructor of the module does at the end of the function *)
Definition archText (os : ver_os) : res unit (list Z * list mev * list mev) :=
  if v_ia32 os then
    let! _ := assert_ (v_load os kernel32) in
    let (t, l) :=
      if v_proc os nWow64 then
        (match v_wow64 os with None => str " WOW64:error" | Some true => str " WOW64" | Some false => [] end, [MUse kernel32 nWow64])
      else (str " WOW64:missingapi", []) in
    Ok (str "IA32" ++ t, [MLoad kernel32 true] ++ l, [MFree kernel32])
  else Ok (str "X64", [], []).
(** dumpWindowsVersion, WindowsVersion.cc:189-252 *)
Definition dumpWindowsVersion (enabled : bool) (os : ver_os) : res unit (list mev) :=
  if negb enabled then Ok []
  else
    match v_info os with
    | None => AssertFail
    | Some i =>
        let! ma := put_dec 4 (vi_major i) in
        let! mi := put_dec 4 (vi_minor i) in
        let! bu := put_dec 4 (vi_build i) in
        let! s1 := put_dec 2 (vi_spMajor i) in
        let! s2 := put_dec 2 (vi_spMinor i) in
        let! pr := productText (vi_product i) in
        let! (ar, close) := archText os in
        let! (k, lk) := dllVersion os kernel32 in
        let! (c, lc) := dllVersion os (if v_ia32 os then str "ConEmuHk.dll" else str "ConEmuHk64.dll") in
        Ok (snd ar ++ lk ++ lc ++
            [MTrace (str "Windows version: " ++ ma ++ [46] ++ mi ++ [46] ++ bu ++ [32] ++ str "SP" ++ s1 ++ [46] ++ s2 ++ [32] ++ pr ++ [32] ++
                     fst ar ++ [32] ++ k ++ [32] ++ c)] ++ close)
    end.

(** ** GenRandom.cc *)

Inductive gev := GLoad | GFree | GAcquire (ok : bool) | GRelease | GRtl (n : Z) | GCrypt (n : Z).
(** [r_rtl]: is SystemFunction036 there; [r_rtlFill], [r_cryptFill]: does the call succeed,
    and the buffer after it *)
Record rng_os := mkRng { r_load : bool; r_rtl : bool; r_acquire : bool; r_rtlFill : Z -> bool * list Z; r_cryptFill : Z -> bool * list Z }.
(** The constructor, GenRandom.cc:31-58: m_rtlGenRandom, m_cryptProvIsValid *)
Definition newGenRandom (os : rng_os) : res unit (bool * bool * list gev) :=
  let! _ := assert_ (r_load os) in
  if r_rtl os then Ok (true, false, [GLoad])
  else Ok (false, r_acquire os, [GLoad; GAcquire (r_acquire os)]).
(** The destructor, GenRandom.cc:60-64, and that of the module *)
Definition deleteGenRandom (valid : bool) : list gev := (if valid then [GRelease] else []) ++ [GFree].
(** fillBuffer, GenRandom.cc:67-87, of a buffer of [n] bytes: success and the buffer *)
Definition fillBuffer (os : rng_os) (rtl valid : bool) (n : Z) : bool * list Z * list gev :=
  if rtl then (fst (r_rtlFill os n), snd (r_rtlFill os n), [GRtl n])
  else if valid then (fst (r_cryptFill os n), snd (r_cryptFill os n), [GCrypt n])
  else (false, zrepeat 0 n, []).
(** randomBytes, GenRandom.cc:91-97 *)
Definition randomBytes (os : rng_os) (rtl valid : bool) (n : Z) : list Z * list gev :=
  let '(ok, buf, l) := fillBuffer os rtl valid n in
  (if negb ok then [] else buf, l).
(** A temporary GenRandom asked for bytes, as in GenRandom().uniqueName(), winpty.cc:554
    and Agent.cc:260 *)
Definition oneRandom (os : rng_os) (n : Z) : res unit (list Z * list gev) :=
  let! (fl, l1) := newGenRandom os in
  let (b, l2) := randomBytes os (fst fl) (snd fl) n in
  Ok (b, l1 ++ l2 ++ deleteGenRandom (snd fl)).
