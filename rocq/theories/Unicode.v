(** Model of src/agent/UnicodeEncoding.h.  [char] values are bytes 0..255: every
    use in the code masks them first, or is on a byte below 0x80. *)
From Verif Require Import Base.

(** encodeUtf8, UnicodeEncoding.h:28-56.  The result is the bytes stored; the
    C return value is their number, so the error return 0 is []. *)
Definition encodeUtf8 (code : Z) : list Z :=
  let b6 n := Z.lor (Z.land (Z.shiftr code n) 0x3F) 0x80 in
  if code <? 0x80 then [code]
  else if code <? 0x800 then
    [Z.lor (Z.land (Z.shiftr code 6) 0x1F) 0xC0; b6 0]
  else if code <? 0x10000 then
    if (0xD800 <=? code) && (code <=? 0xDFFF) then []
    else [Z.lor (Z.land (Z.shiftr code 12) 0x0F) 0xE0; b6 6; b6 0]
  else if code <? 0x110000 then
    [Z.lor (Z.land (Z.shiftr code 18) 0x07) 0xF0; b6 12; b6 6; b6 0]
  else [].

(** encodeUtf16, UnicodeEncoding.h:60-78 *)
Definition encodeUtf16 (code : Z) : list Z :=
  if code <? 0x10000 then
    if (0xD800 <=? code) && (code <=? 0xDFFF) then [] else [code]
  else if code <? 0x110000 then
    let c := code - 0x10000 in
    [Z.lor 0xD800 (Z.shiftr c 10); Z.lor 0xDC00 (Z.land c 0x3FF)]
  else [].

(** utf8CharLength, UnicodeEncoding.h:82-96 *)
Definition utf8CharLength (b : Z) : Z :=
  if Z.land b 0x80 =? 0 then 1
  else if Z.land b 0xE0 =? 0xC0 then 2
  else if Z.land b 0xF0 =? 0xE0 then 3
  else if Z.land b 0xF8 =? 0xF0 then 4
  else 0.

(** static_cast<uint32_t>(-1), UnicodeEncoding.h:101 *)
Definition kInvalid : Z := 0xFFFFFFFF.

(** Checked load of in[i]. *)
Definition ld {E} (l : list Z) (i : Z) : res E Z :=
  match znth l i with Some b => Ok b | None => UB end.

(** Reads in[1], in[2].. only as far as the C code's short-circuit || does. *)
Definition is_cont (b : Z) : bool := Z.land b 0xC0 =? 0x80.

(** decodeUtf8, UnicodeEncoding.h:100-151 *)
Definition decodeUtf8 {E} (l : list Z) : res E Z :=
  let! b0 := ld l 0 in
  let n := utf8CharLength b0 in
  if n =? 1 then Ok b0
  else if n =? 2 then
    let! b1 := ld l 1 in
    if negb (is_cont b1) then Ok kInvalid
    else
      let tmp := Z.lor (Z.shiftl (Z.land b0 0x1F) 6) (Z.land b1 0x3F) in
      Ok (if tmp <=? 0x7F then kInvalid else tmp)
  else if n =? 3 then
    let! b1 := ld l 1 in
    if negb (is_cont b1) then Ok kInvalid
    else
      let! b2 := ld l 2 in
      if negb (is_cont b2) then Ok kInvalid
      else
        let tmp := Z.lor (Z.lor (Z.shiftl (Z.land b0 0x0F) 12) (Z.shiftl (Z.land b1 0x3F) 6))
                         (Z.land b2 0x3F) in
        Ok (if (tmp <=? 0x7FF) || ((0xD800 <=? tmp) && (tmp <=? 0xDFFF)) then kInvalid else tmp)
  else if n =? 4 then
    let! b1 := ld l 1 in
    if negb (is_cont b1) then Ok kInvalid
    else
      let! b2 := ld l 2 in
      if negb (is_cont b2) then Ok kInvalid
      else
        let! b3 := ld l 3 in
        if negb (is_cont b3) then Ok kInvalid
        else
          let tmp := Z.lor (Z.lor (Z.lor (Z.shiftl (Z.land b0 0x07) 18) (Z.shiftl (Z.land b1 0x3F) 12))
                                  (Z.shiftl (Z.land b2 0x3F) 6)) (Z.land b3 0x3F) in
          Ok (if (tmp <=? 0xFFFF) || (0x10FFFF <? tmp) then kInvalid else tmp)
  else Ok kInvalid.

(** decodeSurrogatePair, UnicodeEncoding.h:153-155.  The operands are ints and
    the left operand of the shift is negative for ch1 < 0xD800; the only caller
    (Terminal.cc:289-293) passes surrogates. *)
Definition decodeSurrogatePair (ch1 ch2 : Z) : Z :=
  u32 (Z.shiftl (ch1 - 0xD800) 10 + (ch2 - 0xDC00) + 0x10000).
