(** Model of what the adapter's --showkey mode reads and prints: src/unix-adapter/main.cc
    (154-185) and src/shared/UnixCtrlChars.h.  The terminal's mode around it is in
    AdapterMain.v. *)
From Verif Require Import Base Text.

(** The table of decodeUnixCtrlChar, UnixCtrlChars.h:25-34 *)
Definition ctrlKeys : list Z := str "@ABCDEFGHIJKLMNOPQRSTUVWXYZ[\]^_".
(** decodeUnixCtrlChar, UnixCtrlChars.h:24-43, of a byte; 0 is none.  An index outside the
    table would be undefined. *)
Definition decodeUnixCtrlChar (uch : Z) : res unit Z :=
  if uch <? 32 then match znth ctrlKeys uch with Some c => Ok c | None => UB end
  else if uch =? 127 then Ok 63 else Ok 0.

(** One byte as text, main.cc:166-172; putchar writes the byte it is given. *)
Definition charText (b : Z) : res unit (list Z) :=
  let! ctrl := decodeUnixCtrlChar b in
  Ok (if ctrl =? 0 then [b] else [94; ctrl]).
Fixpoint charsText (bs : list Z) : res unit (list Z) :=
  match bs with
  | [] => Ok []
  | b :: r => let! t := charText b in let! u := charsText r in Ok (t ++ u)
  end.

(** printf's %3d, %04o and %02x of an unsigned char, which never exceed their widths *)
Definition dig (d : Z) : Z := if d <? 10 then 48 + d else 87 + d.
Definition pct_3d (v : Z) : list Z :=
  if v <? 10 then [32; 32; dig v]
  else if v <? 100 then [32; dig (v / 10); dig (v mod 10)]
  else [dig (v / 100); dig (v / 10 mod 10); dig (v mod 10)].
Definition pct_04o (v : Z) : list Z := [48; dig (v / 64); dig (v / 8 mod 8); dig (v mod 8)].
Definition pct_02x (v : Z) : list Z := [dig (v / 16); dig (v mod 16)].
(** One line, main.cc:174-178 *)
Definition byteLine (b : Z) : list Z := [9] ++ pct_3d b ++ [32] ++ pct_04o b ++ str " 0x" ++ pct_02x b ++ [10].

(** debugShowKey's loop, main.cc:160-183; each item is what one read of up to 128 bytes
    returns, an empty one (or the end of the list) being the end of file or a failure. *)
Fixpoint showKeys (reads : list (list Z)) : res unit (list Z) :=
  match reads with
  | [] => Ok []
  | [] :: _ => Ok []
  | (b :: r) :: rest =>
      let! t := charsText (b :: r) in
      let out := t ++ concat (map byteLine (b :: r)) in
      if b =? 4 then Ok out else let! u := showKeys rest in Ok (out ++ u)
  end.
(** With the greeting, main.cc:156 *)
Definition debugShowKeyText (reads : list (list Z)) : res unit (list Z) :=
  let! t := showKeys reads in Ok ([10] ++ str "Press any keys -- Ctrl-D exits" ++ [10; 10] ++ t).
