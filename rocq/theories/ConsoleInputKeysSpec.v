(** What key presses should look like to the console. *)
From Verif Require Import Base Text UnicodeSpec InputMap InputMapSpec DefaultInputMap DefaultInputMapSpec ConsoleInput ConsoleInputSpec.

(** *** Key presses *)
(** The modifier keys, in the order they are pressed: control-state bit, virtual key and
    the extra flag of the key's own records. *)
Definition modifier_keys : list (Z * Z * Z) :=
  [(LEFT_CTRL_PRESSED, VK_CONTROL, 0); (LEFT_ALT_PRESSED, VK_MENU, 0);
   (RIGHT_ALT_PRESSED, VK_MENU, ENHANCED_KEY); (SHIFT_PRESSED, VK_SHIFT, 0)].
Definition wanted (ks : Z) : list (Z * Z * Z) := filter (fun m => has ks (fst (fst m))) modifier_keys.
Definition krec (e : env) (down : bool) (vk ch ks : Z) : irec := KeyRec down vk (e_mapvk e vk mod 65536) ch ks.
(** The modifiers [ms] go down one after the other around [body] and up again in reverse
    order; each record shows the modifiers down after it. *)
Fixpoint nested (e : env) (held : Z) (ms : list (Z * Z * Z)) (body : Z -> list irec) : list irec :=
  match ms with
  | [] => body held
  | (bit, vk, extra) :: r =>
      [krec e true vk 0 (held + bit + extra)] ++ nested e (held + bit) r body ++ [krec e false vk 0 (held + extra)]
  end.
(** One record per UTF-16 unit of the character [cp]. *)
Definition units (e : env) (down : bool) (vk cp ks : Z) : list irec := map (fun u => krec e down vk u ks) (utf16_form cp).
Definition keystroke (e : env) (vk dn up ks : Z) : list irec :=
  nested e 0 (wanted ks) (fun held =>
    let held := held + (if has ks ENHANCED_KEY then ENHANCED_KEY else 0) in
    units e true vk dn held ++ units e false vk up held).

(** Following the modifier keys through a list of records: [None] as soon as a record's
    control state (ENHANCED_KEY apart) is not the set of modifiers down after it, or a
    modifier goes down twice or comes up without being down. *)
Definition modifier_bit (vk ks : Z) : Z :=
  if vk =? VK_CONTROL then LEFT_CTRL_PRESSED
  else if vk =? VK_SHIFT then SHIFT_PRESSED
  else if vk =? VK_MENU then (if has ks ENHANCED_KEY then RIGHT_ALT_PRESSED else LEFT_ALT_PRESSED)
  else 0.
Fixpoint follow (held : Z) (rs : list irec) : option Z :=
  match rs with
  | KeyRec down vk _ _ ks :: r =>
      let b := modifier_bit vk ks in
      if negb (b =? 0) && Bool.eqb (has held b) down then None
      else
        let held := if b =? 0 then held else if down then held + b else held - b in
        if Z.ldiff ks ENHANCED_KEY =? held then follow held r else None
  | _ :: _ => None
  | [] => Some held
  end.

(** The characters the records carry, with the direction. *)
Definition chars (rs : list irec) : list (bool * Z) :=
  flat_map (fun r => match r with KeyRec d _ _ c _ => if c =? 0 then [] else [(d, c)] | _ => [] end) rs.
Definition is_keyrec (r : irec) : Prop := match r with KeyRec _ _ _ _ _ => True | _ => False end.
(** What a program reading VT input gets: the characters of the key-downs. *)
Definition vt_read (rs : list irec) : list Z :=
  flat_map (fun r => match r with KeyRec true _ _ c _ => if c =? 0 then [] else [c] | _ => [] end) rs.

(** The keys which console windows in VT input mode are sent as window messages. *)
Definition message_key (vk : Z) : Prop := In vk [VK_UP; VK_DOWN; VK_LEFT; VK_RIGHT; VK_HOME; VK_END].
(** The keyboard layout makes no character of the keys VT re-encoding treats specially. *)
Definition plain_layout (e : env) : Prop :=
  forall c, 32 <= c -> e_vkscan e c <> -1 ->
  let vk := Z.land (e_vkscan e c) 255 in escapeCode vk = EscNone /\ vk <> VK_BACK /\ vk <> VK_TAB.

(** A documented sequence that never reaches the table: a key's encoding that has the
    form of a cursor-position reply, that of the X10 mouse prefix, and Ctrl+C in
    processed mode. *)
Definition shadowed (processed : bool) (s : list Z) : Prop := dsr_reply s \/ s = [27; 91; 77] \/ (s = [3] /\ processed = true).

(** The key the layout types a character with (VkKeyScan: the key in the low byte, then
    bits for Shift, Ctrl and Ctrl+Alt, which is AltGr); characters outside the Basic
    Multilingual Plane have none, and -1 means there is none. *)
Definition on_layout (e : env) (cp : Z) : bool := (cp <=? 65535) && negb (e_vkscan e cp =? -1).
Definition layout_key (e : env) (cp : Z) : Z := if on_layout e cp then e_vkscan e cp mod 256 else 0.
Definition layout_mods (e : env) (cp : Z) : Z :=
  if on_layout e cp then
    (if Z.testbit (e_vkscan e cp) 8 then SHIFT_PRESSED else 0) + (if Z.testbit (e_vkscan e cp) 9 then LEFT_CTRL_PRESSED else 0) +
    (if Z.testbit (e_vkscan e cp) 10 then RIGHT_ALT_PRESSED else 0)
  else 0.
(** The parameter of a key message: repeat count 1, the scan code if it is a byte, and
    for a key coming up the two bits saying that it was down and no longer is. *)
Definition key_lparam (e : env) (down : bool) (vk : Z) : Z :=
  let sc := e_mapvk e vk mod 2 ^ 32 in
  1 + (if sc <=? 255 then sc else 0) * 2 ^ 16 + (if down then 0 else 2 ^ 30 + 2 ^ 31).
Definition messages (e : env) (vk : Z) : list oev := [OKeyMsg true vk (key_lparam e true vk); OKeyMsg false vk (key_lparam e false vk)].

Definition no_modifier (vk : Z) : Prop := vk <> VK_CONTROL /\ vk <> VK_MENU /\ vk <> VK_SHIFT.

(** VT input mode: two window messages, or the modifier keys around key-downs that carry
    nothing but characters (no key code, no control state) and the key-up of the key. *)
Definition vt_shape (e : env) (out : list oev) : Prop :=
  (exists vk, message_key vk /\ out = messages e vk) \/
  (exists chs vk up ks, out = map ORec (nested e 0 (wanted ks) (fun held =>
     map (fun ch => krec e true 0 ch 0) chs ++ units e false vk up (held + (if has ks ENHANCED_KEY then ENHANCED_KEY else 0))))).

(** The keys VT re-encoding delivers as the characters they type. *)
Definition plain_key (n : keyname) : bool := match n with KEnter | KMultiply | KAdd | KSubtract | KDivide => true | _ => false end.
