(** Model of the font selection: src/agent/ConsoleFont.cc:116-240 and 360-373, 508-664. *)
From Verif Require Import Base.

(** FontSize { size, width }, ConsoleFont.cc:52-55 *)
Record fsize := mkF { f_size : Z; f_width : Z }.
Definition tbl (l : list (Z * Z)) : list fsize := map (fun p => mkF (fst p) (snd p)) l.

(** kLucidaFontSizes, ConsoleFont.cc:116-130 *)
Definition lucida := tbl [(5,3);(6,4);(8,5);(10,6);(12,7);(14,8);(16,10);(18,11);(20,12);(36,22);(48,29);(60,36);(72,43)].
(** k932GothicVista, 133-144 *)
Definition gothicVista := tbl [(6,3);(8,4);(10,5);(12,6);(13,7);(15,8);(17,9);(19,10);(21,11)].
(** k932GothicWin8, 147-165 *)
Definition gothicWin8 := tbl [(5,3);(7,4);(9,5);(11,6);(13,7);(15,8);(17,9);(20,10);(22,11);(24,12);(36,18);(48,24);(60,30);(72,36)].
(** k932GothicWin10, k936SimSun, k949GulimChe, k950MingLight, 168-240: the same entries *)
Definition evenSizes := tbl [(6,3);(8,4);(10,5);(12,6);(14,7);(16,8);(18,9);(20,10);(22,11);(24,12);(36,18);(48,24);(60,30);(72,36)].

Inductive face := MSGothic | NSimSun | GulimChe | MingLight | LucidaConsole.

(** selectSmallFont's switch, 517-556.  [w8]: isAtLeastWindows8(). *)
Definition font_table (codePage : Z) (isNewW10 w8 : bool) : face * list fsize :=
  if codePage =? 932 then (MSGothic, if isNewW10 then evenSizes else if w8 then gothicWin8 else gothicVista)
  else if codePage =? 936 then (NSimSun, evenSizes)
  else if codePage =? 949 then (GulimChe, evenSizes)
  else if codePage =? 950 then (MingLight, evenSizes)
  else (LucidaConsole, lucida).

(** int arithmetic: overflow is undefined *)
Definition imul (a b : Z) : res unit Z := let p := a * b in if in_s 32 p then Ok p else UB.

(** The score of one table entry, 568-593.  C++ int division truncates. *)
Definition score (f : fsize) (columns : Z) : res unit (Z * Z) :=
  let! width := imul (f_width f) columns in
  let half := Z.min columns (Z.max 40 (Z.quot columns 2)) in
  let! halfWidth := imul (f_width f) half in
  Ok (if (160 <=? width) && (160 <=? halfWidth) then (2, - width)
      else if 160 <=? width then (1, - width)
      else (0, width)).

(** operator> of std::tuple *)
Definition tuple_gt (a b : Z * Z) : bool := (fst b <? fst a) || ((fst b =? fst a) && (snd b <? snd a)).

(** The loop, 567-598; [best]: bestIndex (as the entry itself) and bestScore *)
Fixpoint best_of (l : list fsize) (columns : Z) (best : option fsize * (Z * Z)) : res unit (option fsize * (Z * Z)) :=
  match l with
  | [] => Ok best
  | f :: l' =>
      let! s := score f columns in
      best_of l' columns (if tuple_gt s (snd best) then (Some f, s) else best)
  end.

(** selectSmallFont, 508-600: the face and the table entry chosen *)
Definition selectSmallFont (codePage columns : Z) (isNewW10 w8 : bool) : res unit (face * fsize) :=
  let '(fc, t) := font_table codePage isNewW10 w8 in
  let! (b, _) := best_of t columns (None, (-1, -1)) in
  match b with
  | Some f => Ok (fc, f)
  | None => AssertFail
  end.

(** setSmallFontVista, 602-620: [accept] is the outcome of setFontVista for a face and
    size.  Result: the fonts asked for, in order, and the one in effect if any. *)
Definition setSmallFontVista (accept : face -> Z -> bool) (codePage columns : Z) (isNewW10 w8 : bool) : res unit (list (face * Z) * option (face * Z)) :=
  let! (fc, f) := selectSmallFont codePage columns isNewW10 w8 in
  if accept fc (f_size f) then Ok ([(fc, f_size f)], Some (fc, f_size f))
  else if (codePage =? 932) || (codePage =? 936) || (codePage =? 949) || (codePage =? 950) then
    let! (fc2, f2) := selectSmallFont 0 columns isNewW10 w8 in
    Ok ([(fc, f_size f); (fc2, f_size f2)], if accept fc2 (f_size f2) then Some (fc2, f_size f2) else None)
  else Ok ([(fc, f_size f)], None).

(** readFontTable, 360-373: [sz] answers GetConsoleFontSize.  The counter is a natural;
    the DWORD bound [maxCount] is its initial value. *)
Fixpoint readFontTable (sz : Z -> Z * Z) (i : Z) (n : nat) : list (Z * (Z * Z)) :=
  match n with
  | O => []
  | S n' => let s := sz i in
            if (fst s =? 0) && (snd s =? 0) then [] else (i, s) :: readFontTable sz (i + 1) n'
  end.

(** What the console does with one font index, setSmallFontXP 646-660 *)
Inductive xp_reply := XSetFailed | XGetFailed | XOther | XSet.
(** The loop of setSmallFontXP, 640-663, over the table as std::sort left it: the indices
    tried and the one accepted. *)
Fixpoint tryFonts (reply : Z -> xp_reply) (l : list (Z * (Z * Z))) : list Z * option Z :=
  match l with
  | [] => ([], None)
  | (i, (x, y)) :: l' =>
      if x <? 4 then tryFonts reply l'
      else match reply i with
           | XSetFailed | XOther => let '(t, r) := tryFonts reply l' in (i :: t, r)
           | XGetFailed => ([i], None)
           | XSet => ([i], Some i)
           end
  end.
