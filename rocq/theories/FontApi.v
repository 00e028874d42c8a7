(** Model of the system calls in src/agent/ConsoleFont.cc: which functions of kernel32 are
    used, setFontVista (473-506) and setSmallFont (672-699).  The selection of fonts is in
    ConsoleFont.v.  The texts of the traces are left out. *)
From Verif Require Import Base Text Strings ConsoleFont WinVersion.

(** AGENT_CONSOLE_FONT_INFOEX, ConsoleFont.cc:250-257: cbSize, nFont, dwFontSize.X and .Y,
    FontFamily, FontWeight, FaceName *)
Record freq := mkReq { q_cb : Z; q_nFont : Z; q_x : Z; q_y : Z; q_family : Z; q_weight : Z; q_face : list Z }.
(** What happens: modules and functions; a font asked for; an index tried *)
Inductive fev := FM (m : mev) | FAsk (r : freq) | FTry (i : Z).
Record font_os := mkFont {
  fo_tracing : bool;
  fo_load : bool;                        (* LoadLibraryW(L"kernel32.dll") *)
  fo_proc : list Z -> bool;              (* GetProcAddress *)
  fo_size : Z -> Z * Z;                  (* GetConsoleFontSize *)
  fo_count : nat;                        (* GetNumberOfConsoleFonts *)
  fo_set : freq -> bool;                 (* SetCurrentConsoleFontEx *)
  fo_get : freq -> option (list Z);      (* GetCurrentConsoleFontEx after it: FaceName *)
  fo_reply : Z -> xp_reply;              (* SetConsoleFont, GetCurrentConsoleFont *)
  fo_sort : list (Z * (Z * Z)) -> list (Z * (Z * Z));   (* std::sort *)
  fo_codePage : Z; fo_w8 : bool }.

Definition use (n : list Z) : fev := FM (MUse kernel32 n).
Definition nGetCurrent : list Z := str "GetCurrentConsoleFont".
Definition nGetSize : list Z := str "GetConsoleFontSize".
Definition nSetFont : list Z := str "SetConsoleFont".
Definition nNumber : list Z := str "GetNumberOfConsoleFonts".
Definition nGetEx : list Z := str "GetCurrentConsoleFontEx".
Definition nSetEx : list Z := str "SetCurrentConsoleFontEx".
(** valid, ConsoleFont.cc:306-309, 327-331, 349-353 *)
Definition baseValid (os : font_os) : bool := fo_proc os nGetCurrent && fo_proc os nGetSize.
Definition xpValid (os : font_os) : bool := baseValid os && fo_proc os nSetFont && fo_proc os nNumber.
Definition vistaValid (os : font_os) : bool := baseValid os && fo_proc os nGetEx && fo_proc os nSetEx.
Definition loaded : fev := FM (MLoad kernel32 true).
Definition freed : fev := FM (MFree kernel32).

(** The calls of readFontTable, ConsoleFont.cc:364-375 *)
Fixpoint tableCalls (sz : Z -> Z * Z) (i : Z) (n : nat) : list fev :=
  match n with
  | O => []
  | S n' => use nGetSize :: (if (fst (sz i) =? 0) && (snd (sz i) =? 0) then [] else tableCalls sz (i + 1) n')
  end.
(** dumpFontTable, ConsoleFont.cc:377-412.  DEFINE_ACCESSOR (293-297) asserts valid(). *)
Definition dumpFontTable (os : font_os) : res unit (list fev) :=
  if negb (fo_tracing os) then Ok []
  else
    let! _ := assert_ (fo_load os) in
    if negb (baseValid os) then Ok [loaded; freed]
    else Ok ([loaded] ++ tableCalls (fo_size os) 0 1000 ++ [freed]).
(** dumpVistaFont and dumpXPFont, ConsoleFont.cc:445-471 *)
Definition dumpVistaFont (os : font_os) : res unit (list fev) :=
  if negb (fo_tracing os) then Ok [] else let! _ := assert_ (vistaValid os) in Ok [use nGetEx].
Definition dumpXPFont (os : font_os) : res unit (list fev) :=
  if negb (fo_tracing os) then Ok [] else let! _ := assert_ (baseValid os) in Ok [use nGetCurrent].

(** The face names, ConsoleFont.cc:46-50 *)
Definition faceText (f : face) : list Z :=
  match f with
  | LucidaConsole => str "Lucida Console"
  | MSGothic => [0xff2d; 0xff33; 0x0020; 0x30b4; 0x30b7; 0x30c3; 0x30af]
  | NSimSun => [0x65b0; 0x5b8b; 0x4f53]
  | GulimChe => [0xad74; 0xb9bc; 0xccb4]
  | MingLight => [0x7d30; 0x660e; 0x9ad4]
  end.
Definition LF_FACESIZE : Z := 32.
(** wcsncmp(a, b, n) == 0 *)
Fixpoint wcsncmp_eq (n : nat) (a b : list Z) : bool :=
  match n with
  | O => true
  | S k => if negb (hd 0 a =? hd 0 b) then false else if hd 0 a =? 0 then true else wcsncmp_eq k (tl a) (tl b)
  end.
(** setFontVista, ConsoleFont.cc:473-506 *)
Definition setFontVista (os : font_os) (fc : face) (size : Z) : res unit (bool * list fev) :=
  let! name := wcsncpy_nul (zrepeat 0 LF_FACESIZE) (faceText fc ++ [0]) in
  let req := mkReq 84 0 0 size 0x36 400 name in
  let! _ := assert_ (vistaValid os) in
  if negb (fo_set os req) then Ok (false, [use nSetEx; FAsk req])
  else
    match fo_get os req with
    | None => Ok (false, [use nSetEx; FAsk req; use nGetEx])
    | Some got => Ok (wcsncmp_eq (Z.to_nat LF_FACESIZE) got (faceText fc ++ [0]), [use nSetEx; FAsk req; use nGetEx])
    end.
Definition accepted (os : font_os) (fc : face) (size : Z) : bool := match setFontVista os fc size with Ok (b, _) => b | _ => false end.
Fixpoint askAll (os : font_os) (l : list (face * Z)) : res unit (list fev) :=
  match l with
  | [] => Ok []
  | (fc, s) :: r => let! (b, l1) := setFontVista os fc s in let! l2 := askAll os r in Ok (l1 ++ l2)
  end.
(** setSmallFontXP's loop, ConsoleFont.cc:640-663: the calls for one index tried *)
Definition tryCalls (os : font_os) (i : Z) : list fev :=
  [use nSetFont; FTry i] ++
  match fo_reply os i with
  | XSetFailed => []
  | XOther => [use nGetCurrent] ++ (if fo_tracing os then [use nGetCurrent] else [])
  | XGetFailed | XSet => [use nGetCurrent]
  end.
(** setSmallFont, ConsoleFont.cc:672-699.  The objects of the API classes live to the end
    of the function; each loads the module for its base class and for itself. *)
Definition setSmallFont (os : font_os) (columns : Z) (isNewW10 : bool) : res unit (list fev) :=
  let! _ := assert_ (fo_load os) in
  if vistaValid os then
    let! d1 := dumpVistaFont os in
    let! t1 := dumpFontTable os in
    let! (asked, cur) := setSmallFontVista (accepted os) (fo_codePage os) columns isNewW10 (fo_w8 os) in
    let! a := askAll os asked in
    let! d2 := dumpVistaFont os in
    let! t2 := dumpFontTable os in
    Ok ([loaded; loaded] ++ d1 ++ t1 ++ a ++ d2 ++ t2 ++ [freed; freed])
  else if xpValid os then
    let! d1 := dumpXPFont os in
    let! t1 := dumpFontTable os in
    let (tried, cur) := tryFonts (fo_reply os) (fo_sort os (readFontTable (fo_size os) 0 (fo_count os))) in
    let! d2 := dumpXPFont os in
    let! t2 := dumpFontTable os in
    Ok ([loaded; loaded; loaded; loaded] ++ d1 ++ t1 ++ [use nNumber] ++ tableCalls (fo_size os) 0 (fo_count os) ++ flat_map (tryCalls os) tried ++
        d2 ++ t2 ++ [freed; freed; freed; freed])
  else
    let! t1 := dumpFontTable os in
    Ok ([loaded; loaded; loaded; loaded] ++ t1 ++ [freed; freed; freed; freed]).
