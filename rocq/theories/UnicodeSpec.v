(** The Unicode standard's definitions (chapter 3.9: D76, D91, D92, tables 3-5
    and 3-6), in arithmetic. *)
From Verif Require Import Base.

Definition scalar (c : Z) : Prop := 0 <= c <= 0x10FFFF /\ ~ (0xD800 <= c <= 0xDFFF).

(** A continuation byte carrying the six bits [x]. *)
Definition cont_of (x : Z) : Z := 128 + x mod 64.

(** The UTF-8 form of [c]: the shortest one, by the standard's ranges. *)
Definition utf8_form (c : Z) : list Z :=
  if c <? 128 then [c]
  else if c <? 2048 then [192 + c / 64; cont_of c]
  else if c <? 65536 then [224 + c / 4096; cont_of (c / 64); cont_of c]
  else [240 + c / 262144; cont_of (c / 4096); cont_of (c / 64); cont_of c].

(** The UTF-16 form of [c]. *)
Definition utf16_form (c : Z) : list Z :=
  if c <? 65536 then [c]
  else [55296 + (c - 65536) / 1024; 56320 + (c - 65536) mod 1024].

(** Number of bytes a lead byte announces; 0 for a byte that cannot lead. *)
Definition announced (b : Z) : Z :=
  if b <? 128 then 1 else if b <? 192 then 0 else if b <? 224 then 2
  else if b <? 240 then 3 else if b <? 248 then 4 else 0.

Definition bytes (l : list Z) : Prop := Forall (fun b => 0 <= b < 256) l.
