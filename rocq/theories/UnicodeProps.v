(** C04: UTF-8 and UTF-16 conversion is lossless on every Unicode scalar value. *)
From Verif Require Import Base BaseLemmas Unicode UnicodeSpec UnicodeProofs.

Theorem C04_encode_utf8 : forall c, scalar c -> encodeUtf8 c = utf8_form c.
Proof. exact encodeUtf8_form. Qed.
Print Assumptions C04_encode_utf8.

Theorem C04_encode_utf16 : forall c, scalar c -> encodeUtf16 c = utf16_form c.
Proof. exact encodeUtf16_form. Qed.
Print Assumptions C04_encode_utf16.

(** Encoding a 32-bit value that is not a scalar produces nothing. *)
Theorem C04_encode_error : forall c, 0 <= c < 2^32 -> ~ scalar c -> encodeUtf8 c = [] /\ encodeUtf16 c = [].
Proof. exact (fun c H Hs => conj (encodeUtf8_error c (proj1 H) Hs) (encodeUtf16_error c (proj1 H) Hs)). Qed.
Print Assumptions C04_encode_error.

(** Decoding an encoded scalar, whatever follows, gives it back, and the lead
    byte announces exactly the encoded length. *)
Theorem C04_utf8_roundtrip : forall c rest, scalar c -> bytes rest ->
  @decodeUtf8 unit (encodeUtf8 c ++ rest) = Ok c /\
  exists b, znth (encodeUtf8 c) 0 = Some b /\ utf8CharLength b = zlen (encodeUtf8 c).
Proof.
  intros c rest Hs Hr. rewrite encodeUtf8_form by exact Hs. split; [now apply decode_form|].
  pose proof (form_bytes c Hs) as Hb. pose proof (form_lead c) as Hl.
  destruct (utf8_form c) as [|b t] eqn:E.
  - unfold utf8_form in E. destruct (c <? 128), (c <? 2048), (c <? 65536); discriminate.
  - exists b. split; [reflexivity|]. inversion Hb; subst. rewrite charLength_announced by assumption.
    apply Hl; [exact Hs|reflexivity].
Qed.
Print Assumptions C04_utf8_roundtrip.

(** Every accepted byte sequence starts with the unique shortest encoding of a
    scalar value: overlong forms, surrogates, values above U+10FFFF and stray or
    missing continuation bytes are all rejected. *)
Theorem C04_utf8_accepts_only_shortest : forall l c,
  bytes l -> @decodeUtf8 unit l = Ok c -> c <> kInvalid ->
  scalar c /\ exists rest, l = utf8_form c ++ rest.
Proof. exact decode_sound. Qed.
Print Assumptions C04_utf8_accepts_only_shortest.

(** The decoder reads no byte beyond the announced length. *)
Theorem C04_utf8_reads_only_announced : forall b0 t rest,
  bytes (b0 :: t) -> bytes rest -> announced b0 <= zlen (b0 :: t) ->
  @decodeUtf8 unit (b0 :: t ++ rest) = decodeUtf8 (b0 :: t) /\ exists c, @decodeUtf8 unit (b0 :: t) = Ok c.
Proof. exact decode_local. Qed.
Print Assumptions C04_utf8_reads_only_announced.

Theorem C04_char_length : forall b, 0 <= b < 256 -> utf8CharLength b = announced b.
Proof. exact charLength_announced. Qed.
Print Assumptions C04_char_length.

(** Surrogate pairs: both directions. *)
Theorem C04_surrogate_pairs : forall c, scalar c -> 65536 <= c ->
  exists hi lo, encodeUtf16 c = [hi; lo] /\ decodeSurrogatePair hi lo = c /\
    0xD800 <= hi <= 0xDBFF /\ 0xDC00 <= lo <= 0xDFFF.
Proof.
  intros c Hs Hc. pose proof (decode_pair c Hs Hc) as H. rewrite encodeUtf16_form by exact Hs.
  destruct (utf16_form c) as [|a [|b [|]]]; try contradiction. exists a, b. destruct H as (H1 & H2 & H3). auto.
Qed.
Print Assumptions C04_surrogate_pairs.

Theorem C04_surrogate_pairs_inverse : forall hi lo, 0xD800 <= hi <= 0xDBFF -> 0xDC00 <= lo <= 0xDFFF ->
  scalar (decodeSurrogatePair hi lo) /\ encodeUtf16 (decodeSurrogatePair hi lo) = [hi; lo].
Proof. exact pair_decode. Qed.
Print Assumptions C04_surrogate_pairs_inverse.

Example C04_cases :
  scalar 0x1F600 /\ encodeUtf8 0x1F600 = [0xF0; 0x9F; 0x98; 0x80] /\ encodeUtf16 0x1F600 = [0xD83D; 0xDE00] /\
  @decodeUtf8 unit [0xC0; 0x80] = Ok kInvalid /\ @decodeUtf8 unit [0xED; 0xA0; 0x80] = Ok kInvalid /\
  @decodeUtf8 unit [0xF4; 0x90; 0x80; 0x80] = Ok kInvalid /\ @decodeUtf8 unit [0xE2; 0x82] = UB /\
  encodeUtf8 0xD800 = [] /\ encodeUtf8 0x110000 = [].
Proof. split; [unfold scalar; lia|]. vm_compute. repeat split. Qed.
