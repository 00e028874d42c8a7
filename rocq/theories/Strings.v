(** Model of src/shared/StringBuilder.h (integer formatting), StringUtil.h/.cc
    (bounded copies), winpty_snprintf.h and GenRandom.cc (unique names).
    Characters are their code values. *)
From Verif Require Import Base.

(** Checked store and load through a pointer into an array. *)
Definition st {E} (arr : list Z) (i v : Z) : res E (list Z) :=
  match zupd arr i v with Some a => Ok a | None => UB end.
Definition ldc {E} (arr : list Z) (i : Z) : res E Z :=
  match znth arr i with Some a => Ok a | None => UB end.

(** ValueString, StringBuilder.h:54-66 *)
Record ValueString := mkVS { vs_array : list Z; vs_offset : Z; vs_size : Z }.
(** ValueString::str / operator<<, StringBuilder.h:63-65 and 179-183 *)
Definition vs_str (v : ValueString) : list Z := zfirstn (vs_size v) (zskipn (vs_offset v) (vs_array v)).

(** gdecOfInt's do/while, StringBuilder.h:97-102.  Each round stores before it
    tests, so running out of array is an out-of-bounds store. *)
Fixpoint dec_loop {E} (fuel : nat) (arr : list Z) (outp uns : Z) : res E (list Z * Z) :=
  match fuel with
  | O => OutOfFuel
  | S k =>
      let digit := uns mod 10 in
      let uns := uns / 10 in
      let! arr := st arr (outp - 1) (48 + digit) in
      if uns =? 0 then Ok (arr, outp - 1) else dec_loop k arr (outp - 1) uns
  end.

(** gdecOfInt for an integer type of [n] bytes, StringBuilder.h:84-111.
    [arr] is the uninitialised std::array of n*3+1+1 elements.
    STRING_BUILDER_CHECK is empty in the product (StringBuilder.h:43-48). *)
Definition gdecOfInt {E} (n : Z) (arr : list Z) (value : Z) : res E ValueString :=
  let unsValue := wrapu (8 * n) value in
  let isNegative := value <? 0 in
  let unsValue := if isNegative then wrapu (8 * n) (- unsValue) else unsValue in
  let endp := zlen arr in
  let! arr := st arr (endp - 1) 0 in
  let! (arr, outp) := dec_loop (S (length arr)) arr (endp - 1) unsValue in
  let! (arr, outp) :=
    if isNegative then let! arr := st arr (outp - 1) 45 in Ok (arr, outp - 1) else Ok (arr, outp) in
  Ok (mkVS arr outp (endp - outp - 1)).

(** hex[digit], StringBuilder.h:126-127 and GenRandom.cc:103 *)
Definition hexdigit (d : Z) : Z := if d <? 10 then 48 + d else 87 + d.

(** unsValue >> shift, undefined outside [0, width) *)
Definition shr {E} (width x shift : Z) : res E Z :=
  if (shift <? 0) || (width <=? shift) then UB else Ok (Z.shiftr x shift).

(** The loop skipping leading zero digits, StringBuilder.h:134-142; structural in
    the number of digits still allowed to be skipped. *)
Fixpoint hex_skip {E} (fuel : nat) (width uns shift : Z) : res E Z :=
  match fuel with
  | O => Ok shift
  | S k =>
      let! d := shr width uns shift in
      if Z.land d 0xF =? 0 then hex_skip k width uns (shift - 4) else Ok shift
  end.

(** The output loop, StringBuilder.h:143-147: one digit for every shift down to 0. *)
Fixpoint hex_loop {E} (fuel : nat) (width : Z) (arr : list Z) (outp uns shift : Z) : res E (list Z * Z) :=
  match fuel with
  | O => Ok (arr, outp)
  | S k =>
      let! d := shr width uns shift in
      let! arr := st arr outp (hexdigit (Z.land d 0xF)) in
      hex_loop k width arr (outp + 1) uns (shift - 4)
  end.

(** ghexOfInt, StringBuilder.h:122-153.  [inIndex] and [shift] move together
    (shift = 8n - 4 - 4 inIndex), so only [shift] is kept and the second loop
    runs for shift / 4 + 1 digits. *)
Definition ghexOfInt {E} (leadingZeros : bool) (n : Z) (arr : list Z) (value : Z) : res E ValueString :=
  let unsValue := wrapu (8 * n) value in
  let shift := n * 8 - 4 in
  let len := n * 2 in
  let! shift :=
    if leadingZeros then Ok shift else hex_skip (Z.to_nat (len - 1)) (8 * n) unsValue shift in
  let! (arr, outp) := hex_loop (Z.to_nat (shift / 4 + 1)) (8 * n) arr 0 unsValue shift in
  let! arr := st arr outp 0 in
  Ok (mkVS arr 0 (outp + 1 - 1)).

(** ** GenRandom.cc *)

(** GenRandom::randomBytes, GenRandom.cc:91-97, after fillBuffer (67-87): the OS
    either fails or delivers bytes. *)
Definition randomBytes (rnd : option (list Z)) : list Z :=
  match rnd with Some b => b | None => [] end.

(** GenRandom::randomHexString, GenRandom.cc:99-108 *)
Definition randomHexString (rnd : option (list Z)) : list Z :=
  flat_map (fun b => [hexdigit (Z.shiftr b 4); hexdigit (Z.land b 0xF)]) (randomBytes rnd).

(** InterlockedIncrement(&g_pipeCounter), GenRandom.cc:129: returns the new value. *)
Definition interlockedIncrement (counter : Z) : Z := s32 (counter + 1).

(** The array of a ValueString starts uninitialised; C05 holds for every content. *)
Definition uninit (n : Z) : list Z := zrepeat 0 n.

(** GenRandom::uniqueName, GenRandom.cc:121-138.  pid is a DWORD, the counter a
    LONG, the time a uint64_t.  Returns the name and the new counter. *)
Definition uniqueName {E} (pid counter time : Z) (rnd : option (list Z)) : res E (list Z * Z) :=
  let counter := interlockedIncrement counter in
  let! p := gdecOfInt 4 (uninit 14) pid in
  let! c := gdecOfInt 4 (uninit 14) counter in
  let! t := ghexOfInt false 8 (uninit 17) time in
  let random := randomHexString rnd in
  Ok (vs_str p ++ [45] ++ vs_str c ++ [45] ++ vs_str t ++ (if zlen random =? 0 then [] else [45] ++ random),
      counter).

(** createAgentSession, winpty.cc:553-554, and Agent::createDataServerPipe,
    Agent.cc:256-260: a constant prefix before the unique name. *)
Definition pipeName {E} (prefix : list Z) (pid counter time : Z) (rnd : option (list Z)) : res E (list Z * Z) :=
  let! (name, c) := uniqueName pid counter time rnd in
  Ok (prefix ++ name, c).

(** ** Bounded copies *)

(** First loop of winpty_wcsncpy, StringUtil.h:58-64: structural in N - i. *)
Fixpoint cpy_loop {E} (fuel : nat) (d s : list Z) (i : Z) : res E (list Z * Z) :=
  match fuel with
  | O => Ok (d, i)
  | S k =>
      let! c := ldc s i in
      if c =? 0 then Ok (d, i)
      else let! d := st d i c in cpy_loop k d s (i + 1)
  end.
(** Second loop, StringUtil.h:65-67 *)
Fixpoint fill_loop {E} (fuel : nat) (d : list Z) (i : Z) : res E (list Z) :=
  match fuel with
  | O => Ok d
  | S k => let! d := st d i 0 in fill_loop k d (i + 1)
  end.
(** winpty_wcsncpy, StringUtil.h:55-69.  [s] is the readable memory at the source. *)
Definition wcsncpy {E} (d s : list Z) : res E (list Z) :=
  let N := zlen d in
  let! (d, i) := cpy_loop (length d) d s 0 in
  fill_loop (Z.to_nat (N - i)) d i.
(** winpty_wcsncpy_nul, StringUtil.h:72-78 *)
Definition wcsncpy_nul {E} (d s : list Z) : res E (list Z) :=
  let! d := wcsncpy d s in
  st d (zlen d - 1) 0.

(** winpty_wcsnlen, StringUtil.cc:29-37 *)
Fixpoint wcsnlen_loop {E} (fuel : nat) (s : list Z) (i maxlen : Z) : res E Z :=
  match fuel with
  | O => Ok maxlen
  | S k =>
      let! c := ldc s i in
      if c =? 0 then Ok i else wcsnlen_loop k s (i + 1) maxlen
  end.
Definition wcsnlen {E} (s : list Z) (maxlen : Z) : res E Z := wcsnlen_loop (Z.to_nat maxlen) s 0 maxlen.

(** winpty_vsnprintf, winpty_snprintf.h:44-67.  The C library's answer is an
    oracle: any returned count and any contents of the [size] bytes. *)
Definition winpty_vsnprintf {E} (size : Z) (out : list Z) (lib : list Z * Z) : res E (list Z * Z) :=
  let! _ := assert_ (0 <? size) in
  let! _ := st out 0 0 in
  let (out, count) := lib in
  if (count <? 0) || (size <=? count)
  then let! out := st out (size - 1) 0 in Ok (out, -1)
  else let! out := st out count 0 in Ok (out, count).
