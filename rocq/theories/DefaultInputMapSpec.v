(** The terminal key encodings winpty documents (the comments of DefaultInputMap.cc and
    the terminals named there), stated by convention and by set of held modifiers,
    without reference to the program's tables. *)
From Verif Require Import Base Text InputMap.

Record mods := mkMods { m_shift : bool; m_alt : bool; m_ctrl : bool }.
Definition no_mods := mkMods false false false.
Definition m_or (a b : mods) := mkMods (m_shift a || m_shift b) (m_alt a || m_alt b) (m_ctrl a || m_ctrl b).
Definition with_shift := mkMods true false false.
Definition with_alt := mkMods false true false.
Definition with_ctrl := mkMods false false true.
(** the seven nonempty combinations *)
Definition some_mods : list mods :=
  [mkMods true false false; mkMods false true false; mkMods true true false; mkMods false false true;
   mkMods true false true; mkMods false true true; mkMods true true true].
(** xterm's modifier parameter: one plus Shift 1, Alt 2, Ctrl 4; one digit *)
Definition mod_digit (m : mods) : Z := 48 + 1 + (Z.b2z (m_shift m) + 2 * Z.b2z (m_alt m) + 4 * Z.b2z (m_ctrl m)).

(** Windows virtual-key codes *)
Inductive keyname := KUp | KDown | KRight | KLeft | KHome | KEnd | KInsert | KDelete | KPageUp | KPageDown
  | KClear | KF (n : Z) | KEnter | KMultiply | KAdd | KSubtract | KDivide | KTab | KBackspace | KC.
Definition vk_of (k : keyname) : Z :=
  match k with
  | KUp => 0x26 | KDown => 0x28 | KRight => 0x27 | KLeft => 0x25 | KHome => 0x24 | KEnd => 0x23
  | KInsert => 0x2D | KDelete => 0x2E | KPageUp => 0x21 | KPageDown => 0x22 | KClear => 0x0C
  | KF n => 0x6F + n | KEnter => 0x0D | KMultiply => 0x6A | KAdd => 0x6B | KSubtract => 0x6D | KDivide => 0x6F
  | KTab => 0x09 | KBackspace => 0x08 | KC => 0x43
  end.
(** the character a key press carries in Windows, given the modifiers *)
Definition char_of (k : keyname) (m : mods) : Z :=
  match k with
  | KEnter => if m_ctrl m then 10 else 13
  | KMultiply => if m_ctrl m then 0 else 42
  | KAdd => if m_ctrl m then 0 else 43
  | KSubtract => if m_ctrl m then 0 else 45
  | KDivide => if m_ctrl m then 0 else 47
  | KTab => 9 | KBackspace => 8 | KC => 3
  | _ => 0
  end.
(** the keys of the separate cursor block, which Windows reports as "enhanced" *)
Definition enhanced (k : keyname) : bool :=
  match k with KUp | KDown | KRight | KLeft | KHome | KEnd | KInsert | KDelete | KPageUp | KPageDown => true | _ => false end.
Definition press (k : keyname) (m : mods) : Key :=
  mkKey (vk_of k) (char_of k m)
        ((if m_alt m then 2 else 0) + (if m_ctrl m then 8 else 0) + (if m_shift m then 16 else 0) + (if enhanced k then 256 else 0)).

Definition encoding := (list Z * keyname * mods)%type.
Definition ESC := 27.
Definition CSI (s : list Z) : list Z := ESC :: 91 :: s.
Definition SS3 (s : list Z) : list Z := ESC :: 79 :: s.

(** ESC-prefix convention: an extra ESC in front means Alt is (also) held *)
Definition alt_prefixed (l : list encoding) : list encoding :=
  l ++ map (fun '(s, k, m) => (ESC :: s, k, m_or m with_alt)) l.

(** A key whose bare form is [intro c]; modified forms [intro "1;" m c] and [intro m c] *)
Definition bare (intro : list Z -> list Z) (c : Z) (k : keyname) : list encoding := [(intro [c], k, no_mods)].
Definition semimod (intro : list Z -> list Z) (c : Z) (k : keyname) : list encoding :=
  map (fun m => (intro (str "1;" ++ [mod_digit m; c]), k, m)) some_mods.
Definition baremod (intro : list Z -> list Z) (c : Z) (k : keyname) : list encoding :=
  map (fun m => (intro [mod_digit m; c], k, m)) some_mods.

Definition arrows := [(65, KUp); (66, KDown); (67, KRight); (68, KLeft)].
Definition homeend := [(72, KHome); (70, KEnd)].
Definition F1to4 := [(80, KF 1); (81, KF 2); (82, KF 3); (83, KF 4)].
Definition keypad :=
  [(77, KEnter); (106, KMultiply); (107, KAdd); (109, KSubtract); (110, KDelete); (111, KDivide); (112, KInsert);
   (113, KEnd); (114, KDown); (115, KPageDown); (116, KLeft); (117, KClear); (118, KRight); (119, KHome); (120, KUp); (121, KPageUp)].
Definition each {A B} (l : list (Z * A)) (f : Z -> A -> list B) : list B := flat_map (fun '(c, k) => f c k) l.

(** VT220-style numbered keys: CSI n ~ , CSI n ; m ~ , and rxvt's other final
    characters: $ Shift, ^ Ctrl, @ both. *)
Definition numbered : list (list Z * keyname * mods) :=
  [(str "1", KHome, no_mods); (str "2", KInsert, no_mods); (str "3", KDelete, no_mods); (str "4", KEnd, no_mods);
   (str "5", KPageUp, no_mods); (str "6", KPageDown, no_mods); (str "7", KHome, no_mods); (str "8", KEnd, no_mods);
   (str "11", KF 1, no_mods); (str "12", KF 2, no_mods); (str "13", KF 3, no_mods); (str "14", KF 4, no_mods);
   (str "15", KF 5, no_mods); (str "17", KF 6, no_mods); (str "18", KF 7, no_mods); (str "19", KF 8, no_mods);
   (str "20", KF 9, no_mods); (str "21", KF 10, no_mods); (str "23", KF 11, no_mods); (str "24", KF 12, no_mods);
   (str "25", KF 3, with_shift); (str "26", KF 4, with_shift); (str "28", KF 5, with_shift); (str "29", KF 6, with_shift);
   (str "31", KF 7, with_shift); (str "32", KF 8, with_shift); (str "33", KF 9, with_shift); (str "34", KF 10, with_shift)].
Definition finals : list (list Z * mods) :=
  [(str "~", no_mods); (str "$", with_shift); (str "^", with_ctrl); (str "@", m_or with_shift with_ctrl)].
Definition numbered_encodings : list encoding :=
  flat_map (fun '(n, k, m0) =>
    flat_map (fun '(f, mf) =>
      (CSI (n ++ f), k, m_or m0 mf) ::
      map (fun m => (CSI (n ++ str ";" ++ [mod_digit m] ++ f), k, m_or m0 (m_or m mf))) some_mods) finals) numbered.

Definition documented : list encoding :=
  (* arrows: xterm and most others; ESC O x: application mode, putty; rxvt's lower case *)
  alt_prefixed (each arrows (fun c k =>
    bare CSI c k ++ semimod CSI c k ++ baremod CSI c k ++ bare SS3 c k ++
    [(CSI [c + 32], k, with_shift); (SS3 [c + 32], k, with_ctrl)])) ++
  (* Home and End *)
  alt_prefixed (each homeend (fun c k => bare CSI c k ++ semimod CSI c k ++ baremod CSI c k ++ bare SS3 c k)) ++
  (* keypad 5 without NumLock *)
  alt_prefixed (bare CSI 69 KClear ++ semimod CSI 69 KClear ++ bare CSI 71 KClear ++ semimod CSI 71 KClear ++ bare SS3 71 KClear) ++
  (* F1-F4: ESC O x and its modified forms (not with an ESC prefix); CSI 1;m x *)
  each F1to4 (fun c k => bare SS3 c k ++ semimod SS3 c k ++ baremod SS3 c k) ++
  alt_prefixed (each F1to4 (fun c k => semimod CSI c k)) ++
  (* keypad in application mode *)
  alt_prefixed (each keypad (fun c k => bare SS3 c k ++ baremod SS3 c k ++ bare CSI c k ++ semimod CSI c k)) ++
  (* back-tab *)
  [(CSI [90], KTab, with_shift)] ++
  alt_prefixed numbered_encodings ++
  (* the Linux console's F1-F5 *)
  alt_prefixed (map (fun n => (CSI [91; 64 + n], KF n, no_mods)) [1; 2; 3; 4; 5]) ++
  alt_prefixed [([127], KBackspace, no_mods)] ++
  [([3], KC, with_ctrl)].

(** The terminal sequence [s] is documented to mean pressing [k] with [m] held. *)
Definition means_key (s : list Z) (k : Key) : Prop := exists name m, In (s, name, m) documented /\ k = press name m.
