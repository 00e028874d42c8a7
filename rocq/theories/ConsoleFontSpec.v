(** What a suitable font is. *)
From Coq Require Import Permutation.
From Verif Require Import Base ConsoleFont.

(** The window's width in pixels, in full and with the columns cut in half (never below
    40 columns, nor above the present number). *)
Definition pixels (f : fsize) (columns : Z) : Z := f_width f * columns.
Definition wide (f : fsize) (columns : Z) : Prop := 160 <= pixels f columns.
Definition wide_halved (f : fsize) (columns : Z) : Prop := 160 <= pixels f (Z.min columns (Z.max 40 (Z.quot columns 2))).

(** [f] is a smallest of those of [t] that satisfy [P] *)
Definition smallest (P : fsize -> Prop) (t : list fsize) (f : fsize) : Prop :=
  In f t /\ P f /\ forall g, In g t -> P g -> f_size f <= f_size g.
Definition largest (t : list fsize) (f : fsize) : Prop := In f t /\ forall g, In g t -> f_size g <= f_size f.

(** std::sort with FontSizeComparator (ConsoleFont.cc:622-629) leaves some permutation in
    which sizes X+Y do not decrease; which one is not specified for equal sizes. *)
Definition font_sum (e : Z * (Z * Z)) : Z := fst (snd e) + snd (snd e).
Fixpoint nondecreasing (l : list (Z * (Z * Z))) : Prop :=
  match l with
  | [] => True
  | a :: l' => Forall (fun b => font_sum a <= font_sum b) l' /\ nondecreasing l'
  end.
Definition sorted_table (t l : list (Z * (Z * Z))) : Prop := Permutation t l /\ nondecreasing l.

(** The East Asian code pages have their own fonts. *)
Definition face_for (codePage : Z) : face :=
  match find (fun p => fst p =? codePage) [(932, MSGothic); (936, NSimSun); (949, GulimChe); (950, MingLight)] with
  | Some (_, f) => f
  | None => LucidaConsole
  end.
(** The fonts a console of the XP era lists: the indices up to the first one without a size *)
Definition listed (sz : Z -> Z * Z) (count : Z) (i : Z) : Prop := 0 <= i < count /\ forall j, 0 <= j <= i -> sz j <> (0, 0).
(** The width of a character of the given height: half of it, rounded up, for the East Asian
    fonts, and 0.6 of it, rounded, for Lucida Console *)
Definition char_width (codePage size : Z) : Z :=
  match face_for codePage with LucidaConsole => (6 * size + 5) / 10 | _ => (size + 1) / 2 end.
(** The heights winpty knows: which go together with a code page, the new console and
    Windows 8 *)
Definition heights (codePage : Z) (isNewW10 w8 : bool) : list Z :=
  match face_for codePage, isNewW10, w8 with
  | LucidaConsole, _, _ => [5; 6; 8; 10; 12; 14; 16; 18; 20; 36; 48; 60; 72]
  | MSGothic, false, false => [6; 8; 10; 12; 13; 15; 17; 19; 21]
  | MSGothic, false, true => [5; 7; 9; 11; 13; 15; 17; 20; 22; 24; 36; 48; 60; 72]
  | _, _, _ => [6; 8; 10; 12; 14; 16; 18; 20; 22; 24; 36; 48; 60; 72]
  end.
