(** What is relied on when the console's font is made small. *)
From Verif Require Import Base Text ConsoleFont ConsoleFontSpec WinVersion WinVersionSpec FontApi.

Definition modules (l : list fev) : list mev := flat_map (fun e => match e with FM m => [m] | _ => [] end) l.
(** A function is called only if the system has it. *)
Definition only_existing (os : font_os) (l : list fev) : Prop := forall p n, In (FM (MUse p n)) l -> fo_proc os n = true.
Definition only_kernel32 (l : list fev) : Prop := forall p ok, In (FM (MLoad p ok)) l -> p = str "kernel32.dll".
Definition calls (n : list Z) (l : list fev) : Prop := In (FM (MUse (str "kernel32.dll") n)) l.
Definition asks (l : list fev) : list freq := flat_map (fun e => match e with FAsk r => [r] | _ => [] end) l.
Definition tries (l : list fev) : list Z := flat_map (fun e => match e with FTry i => [i] | _ => [] end) l.
(** The functions of the two generations of systems *)
Definition has_vista (os : font_os) : Prop :=
  fo_proc os (str "GetCurrentConsoleFont") = true /\ fo_proc os (str "GetConsoleFontSize") = true /\
  fo_proc os (str "GetCurrentConsoleFontEx") = true /\ fo_proc os (str "SetCurrentConsoleFontEx") = true.
Definition has_xp (os : font_os) : Prop :=
  fo_proc os (str "GetCurrentConsoleFont") = true /\ fo_proc os (str "GetConsoleFontSize") = true /\
  fo_proc os (str "SetConsoleFont") = true /\ fo_proc os (str "GetNumberOfConsoleFonts") = true.
(** The names of the fonts: MS Gothic, NSimSun, GulimChe and MingLiU by their native names *)
Definition native_name (f : face) (s : list Z) : Prop :=
  In (f, s) [(LucidaConsole, [76; 117; 99; 105; 100; 97; 32; 67; 111; 110; 115; 111; 108; 101]);
             (MSGothic, [65325; 65331; 32; 12468; 12471; 12483; 12463]); (NSimSun, [26032; 23435; 20307]);
             (GulimChe, [44404; 47548; 52404]); (MingLight, [32048; 26126; 39636])].
(** A well-formed request for a font: the structure's size, no index and no width, the
    height, a fixed-pitch TrueType modern font of normal weight, and the name filled with NULs *)
Definition request (f : face) (height : Z) (r : freq) : Prop :=
  q_cb r = 4 + 4 + 2 * 2 + 4 + 4 + 2 * 32 /\ q_nFont r = 0 /\ q_x r = 0 /\ q_y r = height /\ q_family r = 54 /\ q_weight r = 400 /\
  zlen (q_face r) = 32 /\ exists name, native_name f name /\ q_face r = name ++ zrepeat 0 (32 - zlen name).
(** The console says that it has the font: the call succeeded and its own answer begins
    with the name up to the NUL. *)
Definition confirmed (os : font_os) (f : face) (r : freq) : Prop :=
  fo_set os r = true /\ exists got name rest, fo_get os r = Some got /\ native_name f name /\ got = name ++ 0 :: rest.
(** The functions called, in order, and how often one of them *)
Definition names (l : list fev) : list (list Z) := flat_map (fun e => match e with FM (MUse _ n) => [n] | _ => [] end) l.
Definition times (n : list Z) (l : list fev) : Z := zlen (filter (list_eqb n) (names l)).
(** The same system with tracing on or off *)
Definition with_tracing (b : bool) (os : font_os) : font_os :=
  mkFont b (fo_load os) (fo_proc os) (fo_size os) (fo_count os) (fo_set os) (fo_get os) (fo_reply os) (fo_sort os) (fo_codePage os) (fo_w8 os).
