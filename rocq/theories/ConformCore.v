(** Comparison of the model with the expected bytes of the repository's own tests: the stream, the ASN.1 and the CBOR
    functions and the comparison of object identifiers.

    These are tests, not proofs: they tie the model to /repo on the inputs the repository's authors chose, with the
    expected bytes as they wrote them.  The tables below are copied from /repo/src/core/test (file and line given). *)
From Coq Require Import List NArith ZArith Bool Strings.Byte.
From Coq Require Strings.String.
From Verif Require Import Base Stream SpecStream Asn1 Cbor Oid.
Import ListNotations.
Import Coq.Strings.String.StringSyntax.
Open Scope string_scope.
Open Scope list_scope.
Open Scope N_scope.

Definition text (s : String.string) : list byte := String.list_byte_of_string s.

(** The tests run wherever they are compiled; here each row is run for two widths of [size_t] and two byte orders. *)
Definition conform_envs : list Env :=
  [{| size_width := W64; host_little_endian := true; stray := fun _ => x00 |};
   {| size_width := W32; host_little_endian := false; stray := fun _ => xff |}].

Fixpoint same_bytes (a b : list byte) : bool :=
  match a, b with
  | [], [] => true
  | x :: a', y :: b' => Byte.eqb x y && same_bytes a' b'
  | _, _ => false
  end.

(** Run the function on a stream over a buffer of the size the test uses: no overflow, and the written bytes are the
    expected ones.  Run it without a buffer: the same number of bytes is counted, as the tests of the extensions check. *)
Definition agrees (E : Env) (size : nat) (row : cmd * list byte) : bool :=
  let (f, expected) := row in
  let run s := w_stream (f (mkWorld (Some s) [])) in
  let with_buffer := run (n20_stream_init (Some (repeat x00 size)) (N.of_nat size)) in
  let without := run (n20_stream_init None 0) in
  (if n20_stream_has_buffer_overflow with_buffer then false
   else match with_buffer with Some s => same_bytes (@stream_contents E s) expected | None => false end) &&
  negb (n20_stream_has_write_position_overflow with_buffer) &&
  (n20_stream_byte_count with_buffer =? len expected) &&
  negb (n20_stream_has_write_position_overflow without) &&
  (n20_stream_byte_count without =? len expected).

Definition all_agree (size : nat) (table : Env -> list (cmd * list byte)) : bool :=
  forallb (fun E => forallb (agrees E size) (table E)) conform_envs.

(** ** Stream *)

(** src/core/test/stream.cpp:25-60: buffer size, the pieces prepended one after the other, whether the buffer overflows. *)
Definition null_piece : ptr * N := (None, 0).
Definition piece (l : list N) : ptr * N := (Some (bytes l), len l).
Definition sequence_pieces : list (ptr * N) :=
  [piece [0x6e; 0x65; 0x73; 0x74; 0x65; 0x64]; piece [0x13; 0x06]; piece [0x66; 0x6c; 0x61; 0x74]; piece [0x13; 0x04];
   piece [0xff]; piece [0x01; 0x01]; piece [0x30; 0x09]; piece [0x30; 0x13]].
Definition stream_rows : list (nat * list (ptr * N) * bool) :=
  [(1%nat, [], false); (2%nat, [], false);
   (1%nat, [null_piece], false); (2%nat, [null_piece], false);
   (1%nat, [null_piece; null_piece], false); (2%nat, [null_piece; null_piece], false);
   (1%nat, [piece [0x05; 0x00]], true); (2%nat, [piece [0x05; 0x00]], false); (3%nat, [piece [0x05; 0x00]], false);
   (1%nat, [null_piece; piece [0x05; 0x00]; null_piece], true); (2%nat, [null_piece; piece [0x05; 0x00]; null_piece], false);
   (3%nat, [null_piece; piece [0x05; 0x00]; null_piece], false);
   (1%nat, sequence_pieces, true); (2%nat, sequence_pieces, true); (10%nat, sequence_pieces, true);
   (20%nat, sequence_pieces, true); (21%nat, sequence_pieces, false); (22%nat, sequence_pieces, false)].

(** src/core/test/stream.cpp:62-94 *)
Definition stream_agrees (E : Env) (row : nat * list (ptr * N) * bool) : bool :=
  let '(size, pieces, overflow) := row in
  let f := fold_left (fun (acc : cmd) p => fun w => n20_stream_prepend (fst p) (snd p) (acc w)) pieces (fun w => w) in
  let expected := concat (rev (map (fun p => match fst p with Some l => l | None => [] end) pieces)) in
  let s := w_stream (f (mkWorld (Some (n20_stream_init (Some (repeat x00 size)) (N.of_nat size))) [])) in
  Bool.eqb overflow (n20_stream_has_buffer_overflow s) &&
  negb (n20_stream_has_write_position_overflow s) &&
  (n20_stream_byte_count s =? len expected) &&
  (if overflow then true else match s with Some s => same_bytes (@stream_contents E s) expected | None => false end).
Example stream_prepend_conforms : forallb (fun E => forallb (stream_agrees E) stream_rows) conform_envs = true.
Proof. vm_compute. reflexivity. Qed.

(** src/core/test/stream.cpp:96-117: the two flags after each of four prepends.  The lengths are 2^64 - 1 and 2^64 - 2,
    so the test is about a 64 bit [size_t]. *)
Example stream_counter_conforms :
  let E := hd {| size_width := W64; host_little_endian := true; stray := fun _ => x00 |} conform_envs in
  let flags (ns : list N) :=
    let s := w_stream (fold_left (fun w n => @n20_stream_prepend E None n w) ns
                         (mkWorld (Some (n20_stream_init (Some (repeat x00 128)) 128)) [])) in
    (n20_stream_has_buffer_overflow s, n20_stream_has_write_position_overflow s) in
  flags [18446744073709551615] = (true, false) /\
  flags [18446744073709551615; 1] = (true, true) /\
  flags [18446744073709551615; 1; 18446744073709551614] = (true, true) /\
  flags [18446744073709551615; 1; 18446744073709551614; 1] = (true, true).
Proof. vm_compute. repeat split. Qed.

(** ** ASN.1 *)
(** src/core/test/asn1.cpp:32 *)
Definition ENCODED_CLASS_0_CONSTRUCTED_FALSE_TAG_0_LEN_0 : list byte :=
  bytes [0x00; 0x00].
(** src/core/test/asn1.cpp:33 *)
Definition ENCODED_CLASS_1_CONSTRUCTED_FALSE_TAG_0_LEN_0 : list byte :=
  bytes [0x40; 0x00].
(** src/core/test/asn1.cpp:34 *)
Definition ENCODED_CLASS_0_CONSTRUCTED_TRUE_TAG_0_LEN_0 : list byte :=
  bytes [0x20; 0x00].
(** src/core/test/asn1.cpp:35 *)
Definition ENCODED_CLASS_1_CONSTRUCTED_TRUE_TAG_0_LEN_0 : list byte :=
  bytes [0x60; 0x00].
(** src/core/test/asn1.cpp:37 *)
Definition ENCODED_CLASS_0_CONSTRUCTED_FALSE_TAG_8_LEN_0 : list byte :=
  bytes [0x08; 0x00].
(** src/core/test/asn1.cpp:38 *)
Definition ENCODED_CLASS_0_CONSTRUCTED_FALSE_TAG_500_LEN_0 : list byte :=
  bytes [0x1f; 0x83; 0x74; 0x00].
(** src/core/test/asn1.cpp:40 *)
Definition ENCODED_CLASS_0_CONSTRUCTED_FALSE_TAG_0_LEN_8 : list byte :=
  bytes [0x00; 0x08].
(** src/core/test/asn1.cpp:41 *)
Definition ENCODED_CLASS_0_CONSTRUCTED_FALSE_TAG_0_LEN_500 : list byte :=
  bytes [0x00; 0x82; 0x01; 0xf4].
(** src/core/test/asn1.cpp:44 *)
Definition ENCODED_CLASS_2_CONSTRUCTED_TRUE_TAG_808_LEN_450 : list byte :=
  bytes [0xbf; 0x86; 0x28; 0x82; 0x01; 0xc2].
(** src/core/test/asn1.cpp:100 *)
Definition ENCODED_HEADER_WITH_CONTENT_NOOP : list byte :=
  bytes [0x00; 0x00].
(** src/core/test/asn1.cpp:101 *)
Definition ENCODED_HEADER_WITH_CONTENT_FIVE_ZEROS : list byte :=
  bytes [0x00; 0x05; 0x00; 0x00; 0x00; 0x00; 0x00].
(** src/core/test/asn1.cpp:103 *)
Definition ENCODED_HEADER_WITH_CONTENT_EIGHT_ZEROS : list byte :=
  bytes [0x00; 0x08; 0x00; 0x00; 0x00; 0x00; 0x00; 0x00; 0x00; 0x00].
(** src/core/test/asn1.cpp:105 *)
Definition ENCODED_HEADER_WITH_CONTENT_EIGHT_ZEROS_WITH_IMPLICIT_TAG : list byte :=
  bytes [0x9f; 0x82; 0xd5; 0xaa; 0x55; 0x08; 0x00; 0x00; 0x00; 0x00; 0x00; 0x00; 0x00; 0x00].
(** src/core/test/asn1.cpp:107 *)
Definition ENCODED_HEADER_WITH_CONTENT_EIGHT_ZEROS_WITH_EXPLICIT_TAG : list byte :=
  bytes [0xbf; 0x82; 0xd5; 0xaa; 0x55; 0x0a; 0x00; 0x08; 0x00; 0x00; 0x00; 0x00; 0x00; 0x00; 0x00; 0x00].
(** src/core/test/asn1.cpp:154 *)
Definition ENCODED_NULL : list byte :=
  bytes [0x05; 0x00].
(** src/core/test/asn1.cpp:155 *)
Definition ENCODED_NULL_IMPLICIT_TAG : list byte :=
  bytes [0x87; 0x00].
(** src/core/test/asn1.cpp:156 *)
Definition ENCODED_NULL_EXPLICIT_TAG : list byte :=
  bytes [0xa7; 0x02; 0x05; 0x00].
(** src/core/test/asn1.cpp:196 *)
Definition ENCODED_FALSE : list byte :=
  bytes [0x01; 0x01; 0x00].
(** src/core/test/asn1.cpp:197 *)
Definition ENCODED_TRUE : list byte :=
  bytes [0x01; 0x01; 0xff].
(** src/core/test/asn1.cpp:221 *)
Definition BYTES_EMPTY : list byte :=
  [].
(** src/core/test/asn1.cpp:222 *)
Definition BYTES_0 : list byte :=
  bytes [0x00].
(** src/core/test/asn1.cpp:223 *)
Definition BYTES_1 : list byte :=
  bytes [0x01].
(** src/core/test/asn1.cpp:224 *)
Definition BYTES_127 : list byte :=
  bytes [0x7f].
(** src/core/test/asn1.cpp:225 *)
Definition BYTES_128 : list byte :=
  bytes [0x80].
(** src/core/test/asn1.cpp:226 *)
Definition BYTES_128_PADDED : list byte :=
  bytes [0x00; 0x80].
(** src/core/test/asn1.cpp:227 *)
Definition BYTES_256_BIG_ENDIAN : list byte :=
  bytes [0x01; 0x00].
(** src/core/test/asn1.cpp:228 *)
Definition BYTES_7355608_BIG_ENDIAN : list byte :=
  bytes [0x70; 0x3c; 0xd8].
(** src/core/test/asn1.cpp:229 *)
Definition BYTES_7355608_BIG_ENDIAN_PADDED : list byte :=
  bytes [0x00; 0x70; 0x3c; 0xd8].
(** src/core/test/asn1.cpp:230 *)
Definition BYTES_9223372036854775808_BIG_ENDIAN : list byte :=
  bytes [0x80; 0x00; 0x00; 0x00; 0x00; 0x00; 0x00; 0x00].
(** src/core/test/asn1.cpp:232 *)
Definition BYTES_MINUS_128_BIG_ENDIAN : list byte :=
  bytes [0xff; 0x80].
(** src/core/test/asn1.cpp:233 *)
Definition BYTES_MINUS_129_BIG_ENDIAN : list byte :=
  bytes [0xff; 0x7f].
(** src/core/test/asn1.cpp:234 *)
Definition BYTES_MINUS_129_BIG_ENDIAN_PADDED : list byte :=
  bytes [0xff; 0xff; 0x7f].
(** src/core/test/asn1.cpp:236 *)
Definition ENCODED_0 : list byte :=
  bytes [0x02; 0x01; 0x00].
(** src/core/test/asn1.cpp:237 *)
Definition ENCODED_127 : list byte :=
  bytes [0x02; 0x01; 0x7f].
(** src/core/test/asn1.cpp:238 *)
Definition ENCODED_128 : list byte :=
  bytes [0x02; 0x02; 0x00; 0x80].
(** src/core/test/asn1.cpp:239 *)
Definition ENCODED_256 : list byte :=
  bytes [0x02; 0x02; 0x01; 0x00].
(** src/core/test/asn1.cpp:240 *)
Definition ENCODED_7355608 : list byte :=
  bytes [0x02; 0x03; 0x70; 0x3c; 0xd8].
(** src/core/test/asn1.cpp:241 *)
Definition ENCODED_9223372036854775808 : list byte :=
  bytes [0x02; 0x09; 0x00; 0x80; 0x00; 0x00; 0x00; 0x00; 0x00; 0x00; 0x00].
(** src/core/test/asn1.cpp:243 *)
Definition ENCODED_MINUS_128 : list byte :=
  bytes [0x02; 0x01; 0x80].
(** src/core/test/asn1.cpp:244 *)
Definition ENCODED_MINUS_129 : list byte :=
  bytes [0x02; 0x02; 0xff; 0x7f].
(** src/core/test/asn1.cpp:373 *)
Definition PROTO_BITS_EMPTY : list byte :=
  [].
(** src/core/test/asn1.cpp:374 *)
Definition PROTO_BITS : list byte :=
  bytes [0x6e; 0x5d; 0xc5].
(** src/core/test/asn1.cpp:376 *)
Definition ENCODED_BITS_EMPTY : list byte :=
  bytes [0x03; 0x01; 0x00].
(** src/core/test/asn1.cpp:377 *)
Definition ENCODED_BITS_16 : list byte :=
  bytes [0x03; 0x03; 0x00; 0x6e; 0x5d].
(** src/core/test/asn1.cpp:378 *)
Definition ENCODED_BITS_17 : list byte :=
  bytes [0x03; 0x04; 0x07; 0x6e; 0x5d; 0x80].
(** src/core/test/asn1.cpp:379 *)
Definition ENCODED_BITS_18 : list byte :=
  bytes [0x03; 0x04; 0x06; 0x6e; 0x5d; 0xc0].
(** src/core/test/asn1.cpp:380 *)
Definition ENCODED_BITS_23 : list byte :=
  bytes [0x03; 0x04; 0x01; 0x6e; 0x5d; 0xc4].
(** src/core/test/asn1.cpp:381 *)
Definition ENCODED_BITS_24 : list byte :=
  bytes [0x03; 0x04; 0x00; 0x6e; 0x5d; 0xc5].
(** src/core/test/asn1.cpp:416 *)
Definition BYTES_ZERO : list byte :=
  [].
(** src/core/test/asn1.cpp:417 *)
Definition BYTES_ONE : list byte :=
  bytes [0x03].
(** src/core/test/asn1.cpp:418 *)
Definition BYTES_TWO : list byte :=
  bytes [0x02; 0x01].
(** src/core/test/asn1.cpp:419 *)
Definition BYTES_THREE : list byte :=
  bytes [0xff; 0x00; 0xa1].
(** src/core/test/asn1.cpp:421 *)
Definition ENCODED_BYTES_ZERO : list byte :=
  bytes [0x04; 0x00].
(** src/core/test/asn1.cpp:422 *)
Definition ENCODED_BYTES_ONE : list byte :=
  bytes [0x04; 0x01; 0x03].
(** src/core/test/asn1.cpp:423 *)
Definition ENCODED_BYTES_TWO : list byte :=
  bytes [0x04; 0x02; 0x02; 0x01].
(** src/core/test/asn1.cpp:424 *)
Definition ENCODED_BYTES_THREE : list byte :=
  bytes [0x04; 0x03; 0xff; 0x00; 0xa1].
(** src/core/test/asn1.cpp:461 *)
Definition ENCODED_STRING_EMPTY : list byte :=
  bytes [0x13; 0x00].
(** src/core/test/asn1.cpp:462 *)
Definition ENCODED_STRING_NOT_EMPTY : list byte :=
  bytes [0x13; 0x01; 0x7e].
(** src/core/test/asn1.cpp:463 *)
Definition ENCODED_STRING_FULL_CHARSET : list byte :=
  bytes [0x13; 0x4a; 0x41; 0x42; 0x43; 0x44; 0x45; 0x46; 0x47; 0x48; 0x49; 0x4a; 0x4b; 0x4c; 0x4d; 0x4e;
    0x4f; 0x50; 0x51; 0x52; 0x53; 0x54; 0x55; 0x56; 0x57; 0x58; 0x59; 0x5a; 0x61; 0x62; 0x63; 0x64;
    0x65; 0x66; 0x67; 0x68; 0x69; 0x6a; 0x6b; 0x6c; 0x6d; 0x6e; 0x6f; 0x70; 0x71; 0x72; 0x73; 0x74;
    0x75; 0x76; 0x77; 0x78; 0x79; 0x7a; 0x30; 0x31; 0x32; 0x33; 0x34; 0x35; 0x36; 0x37; 0x38; 0x39;
    0x20; 0x27; 0x28; 0x29; 0x2b; 0x2c; 0x2d; 0x2e; 0x2f; 0x3a; 0x3d; 0x3f].
(** src/core/test/asn1.cpp:512 *)
Definition ENCODED_UTF8_STRING_EMPTY : list byte :=
  bytes [0x0c; 0x00].
(** src/core/test/asn1.cpp:513 *)
Definition ENCODED_UTF8_STRING_NOT_EMPTY : list byte :=
  bytes [0x0c; 0x01; 0x7e].
(** src/core/test/asn1.cpp:514 *)
Definition ENCODED_UTF8_FULL_CHARSET : list byte :=
  bytes [0x0c; 0x4a; 0x41; 0x42; 0x43; 0x44; 0x45; 0x46; 0x47; 0x48; 0x49; 0x4a; 0x4b; 0x4c; 0x4d; 0x4e;
    0x4f; 0x50; 0x51; 0x52; 0x53; 0x54; 0x55; 0x56; 0x57; 0x58; 0x59; 0x5a; 0x61; 0x62; 0x63; 0x64;
    0x65; 0x66; 0x67; 0x68; 0x69; 0x6a; 0x6b; 0x6c; 0x6d; 0x6e; 0x6f; 0x70; 0x71; 0x72; 0x73; 0x74;
    0x75; 0x76; 0x77; 0x78; 0x79; 0x7a; 0x30; 0x31; 0x32; 0x33; 0x34; 0x35; 0x36; 0x37; 0x38; 0x39;
    0x20; 0x27; 0x28; 0x29; 0x2b; 0x2c; 0x2d; 0x2e; 0x2f; 0x3a; 0x3d; 0x3f].
(** src/core/test/asn1.cpp:563 *)
Definition ENCODED_TIME_ZERO : list byte :=
  bytes [0x18; 0x0f; 0x30; 0x30; 0x30; 0x31; 0x30; 0x31; 0x30; 0x31; 0x30; 0x30; 0x30; 0x30; 0x30; 0x30; 0x5a].
(** src/core/test/asn1.cpp:580 *)
Definition ENCODED_TIME_NOT_ZERO : list byte :=
  bytes [0x18; 0x0f; 0x32; 0x30; 0x32; 0x34; 0x31; 0x31; 0x32; 0x37; 0x30; 0x33; 0x31; 0x34; 0x35; 0x38; 0x5a].
(** src/core/test/asn1.cpp:648 *)
Definition ENCODED_SEQUENCE_NULL : list byte :=
  bytes [0x30; 0x00].
(** src/core/test/asn1.cpp:649 *)
Definition ENCODED_SEQUENCE_NOOP : list byte :=
  bytes [0x30; 0x00].
(** src/core/test/asn1.cpp:650 *)
Definition ENCODED_SEQUENCE_FLAT : list byte :=
  bytes [0x30; 0x09; 0x01; 0x01; 0xff; 0x13; 0x04; 0x66; 0x6c; 0x61; 0x74].
(** src/core/test/asn1.cpp:652 *)
Definition ENCODED_SEQUENCE_NESTED : list byte :=
  bytes [0x30; 0x13; 0x30; 0x09; 0x01; 0x01; 0xff; 0x13; 0x04; 0x66; 0x6c; 0x61; 0x74; 0x13; 0x06; 0x6e;
    0x65; 0x73; 0x74; 0x65; 0x64].
(** src/core/test/asn1.cpp:690 *)
Definition ENCODED_OID_SHA256_WITH_RSA_ENC : list byte :=
  bytes [0x06; 0x09; 0x2a; 0x86; 0x48; 0x86; 0xf7; 0x0d; 0x01; 0x01; 0x0b].
(** src/core/test/asn1.cpp:692 *)
Definition ENCODED_OID_GOOGLE : list byte :=
  bytes [0x06; 0x07; 0x2b; 0x06; 0x01; 0x04; 0x01; 0xd6; 0x79].

(** src/core/test/asn1.cpp:47-75 *)
Definition header_rows (E : Env) : list (cmd * list byte) :=
  [(n20_asn1_header 0 false 0 0, ENCODED_CLASS_0_CONSTRUCTED_FALSE_TAG_0_LEN_0);
   (n20_asn1_header 1 false 0 0, ENCODED_CLASS_1_CONSTRUCTED_FALSE_TAG_0_LEN_0);
   (n20_asn1_header 0 true 0 0, ENCODED_CLASS_0_CONSTRUCTED_TRUE_TAG_0_LEN_0);
   (n20_asn1_header 1 true 0 0, ENCODED_CLASS_1_CONSTRUCTED_TRUE_TAG_0_LEN_0);
   (n20_asn1_header 0 false 8 0, ENCODED_CLASS_0_CONSTRUCTED_FALSE_TAG_8_LEN_0);
   (n20_asn1_header 0 false 500 0, ENCODED_CLASS_0_CONSTRUCTED_FALSE_TAG_500_LEN_0);
   (n20_asn1_header 0 false 0 8, ENCODED_CLASS_0_CONSTRUCTED_FALSE_TAG_0_LEN_8);
   (n20_asn1_header 0 false 0 500, ENCODED_CLASS_0_CONSTRUCTED_FALSE_TAG_0_LEN_500);
   (n20_asn1_header 2 true 808 450, ENCODED_CLASS_2_CONSTRUCTED_TRUE_TAG_808_LEN_450)].
Example asn1_header_conforms : all_agree 128 header_rows = true.
Proof. vm_compute. reflexivity. Qed.

(** src/core/test/asn1.cpp:83-150 *)
Definition zeros (E : Env) (n : nat) : cmd := n20_stream_prepend (Some (repeat x00 n)) (N.of_nat n).
Definition header_with_content_rows (E : Env) : list (cmd * list byte) :=
  let no := n20_asn1_tag_info_no_override in
  [(n20_asn1_header_with_content 0 false 0 None no, ENCODED_HEADER_WITH_CONTENT_NOOP);
   (n20_asn1_header_with_content 0 false 0 (Some (fun w => w)) no, ENCODED_HEADER_WITH_CONTENT_NOOP);
   (n20_asn1_header_with_content 0 false 0 (Some (zeros E 5)) no, ENCODED_HEADER_WITH_CONTENT_FIVE_ZEROS);
   (n20_asn1_header_with_content 0 false 0 (Some (zeros E 8)) no, ENCODED_HEADER_WITH_CONTENT_EIGHT_ZEROS);
   (n20_asn1_header_with_content 0 false 0 (Some (zeros E 8)) (n20_asn1_tag_info_implicit 0x555555),
    ENCODED_HEADER_WITH_CONTENT_EIGHT_ZEROS_WITH_IMPLICIT_TAG);
   (n20_asn1_header_with_content 0 false 0 (Some (zeros E 8)) (n20_asn1_tag_info_explicit 0x555555),
    ENCODED_HEADER_WITH_CONTENT_EIGHT_ZEROS_WITH_EXPLICIT_TAG)].
Example asn1_header_with_content_conforms : all_agree 128 header_with_content_rows = true.
Proof. vm_compute. reflexivity. Qed.

(** src/core/test/asn1.cpp:158-216 *)
Definition null_and_boolean_rows (E : Env) : list (cmd * list byte) :=
  [(n20_asn1_null n20_asn1_tag_info_no_override, ENCODED_NULL);
   (n20_asn1_null (n20_asn1_tag_info_implicit 7), ENCODED_NULL_IMPLICIT_TAG);
   (n20_asn1_null (n20_asn1_tag_info_explicit 7), ENCODED_NULL_EXPLICIT_TAG);
   (n20_asn1_boolean false n20_asn1_tag_info_no_override, ENCODED_FALSE);
   (n20_asn1_boolean true n20_asn1_tag_info_no_override, ENCODED_TRUE)].
Example asn1_null_and_boolean_conform : all_agree 128 null_and_boolean_rows = true.
Proof. vm_compute. reflexivity. Qed.

(** src/core/test/asn1.cpp:273-286: what the test expects under an implicit or explicit tag, computed from the encoding
    without one.  An encoding that starts with 0x05 is expected unchanged. *)
Definition tag_patch_encoded (ti : tag_info) (encoded : list byte) : list byte :=
  match ti_type ti, encoded with
  | TI_no_override, _ => encoded
  | _, [] => []
  | TI_implicit, b :: rest =>
      if b2n b =? 0x05 then encoded else n2b (N.lor (N.lor (N.land (b2n b) 0x20) (ti_tag ti)) 0x80) :: rest
  | TI_explicit, b :: rest =>
      if b2n b =? 0x05 then encoded else n2b (N.lor 0xa0 (ti_tag ti)) :: n2b (len encoded) :: encoded
  end.
Definition under_each_tag (rows : list ((tag_info -> cmd) * list byte)) : list (cmd * list byte) :=
  flat_map (fun ti => map (fun r => (fst r ti, tag_patch_encoded ti (snd r))) rows)
    [n20_asn1_tag_info_no_override; n20_asn1_tag_info_explicit 7; n20_asn1_tag_info_implicit 7].

(** What a C++ std::vector hands over as data and size: the data pointer of an empty vector is NULL. *)
Definition vector_ptr (l : list byte) : ptr := match l with [] => None | _ => Some l end.
Definition vector_slice (l : list byte) : slice := mkSlice (len l) (vector_ptr l).

(** src/core/test/asn1.cpp:246-327 *)
Definition integer_table : list (list byte * bool * list byte) :=
  [(BYTES_EMPTY, false, ENCODED_NULL);
   (BYTES_0, false, ENCODED_0);
   (BYTES_127, false, ENCODED_127);
   (BYTES_128, false, ENCODED_128);
   (BYTES_128_PADDED, false, ENCODED_128);
   (BYTES_256_BIG_ENDIAN, false, ENCODED_256);
   (BYTES_7355608_BIG_ENDIAN, false, ENCODED_7355608);
   (BYTES_7355608_BIG_ENDIAN_PADDED, false, ENCODED_7355608);
   (BYTES_9223372036854775808_BIG_ENDIAN, false, ENCODED_9223372036854775808);
   (BYTES_MINUS_128_BIG_ENDIAN, true, ENCODED_MINUS_128);
   (BYTES_MINUS_129_BIG_ENDIAN, true, ENCODED_MINUS_129);
   (BYTES_MINUS_129_BIG_ENDIAN_PADDED, true, ENCODED_MINUS_129)].
Definition integer_rows (E : Env) : list (cmd * list byte) :=
  under_each_tag (map (fun r => let '(b, two, e) := r in (n20_asn1_integer (vector_slice b) false two, e)) integer_table) ++
  under_each_tag (map (fun r => let '(b, two, e) := r in (n20_asn1_integer (vector_slice (rev b)) true two, e)) integer_table).
Example asn1_integer_conforms : all_agree 128 integer_rows = true.
Proof. vm_compute. reflexivity. Qed.

(** src/core/test/asn1.cpp:332-368 *)
Definition int64_rows (E : Env) : list (cmd * list byte) :=
  under_each_tag
    [(n20_asn1_uint64 0, ENCODED_0); (n20_asn1_uint64 127, ENCODED_127); (n20_asn1_uint64 128, ENCODED_128);
     (n20_asn1_uint64 256, ENCODED_256); (n20_asn1_int64 0, ENCODED_0); (n20_asn1_int64 127, ENCODED_127);
     (n20_asn1_int64 128, ENCODED_128); (n20_asn1_int64 256, ENCODED_256); (n20_asn1_int64 (-128), ENCODED_MINUS_128);
     (n20_asn1_int64 (-129), ENCODED_MINUS_129)].
Example asn1_int64_conforms : all_agree 128 int64_rows = true.
Proof. vm_compute. reflexivity. Qed.

(** src/core/test/asn1.cpp:383-412 *)
Definition bitstring_rows (E : Env) : list (cmd * list byte) :=
  under_each_tag
    [(n20_asn1_bitstring (vector_ptr PROTO_BITS_EMPTY) 0, ENCODED_BITS_EMPTY);
     (n20_asn1_bitstring (vector_ptr PROTO_BITS) 0, ENCODED_BITS_EMPTY);
     (n20_asn1_bitstring (vector_ptr PROTO_BITS) 16, ENCODED_BITS_16);
     (n20_asn1_bitstring (vector_ptr PROTO_BITS) 17, ENCODED_BITS_17);
     (n20_asn1_bitstring (vector_ptr PROTO_BITS) 18, ENCODED_BITS_18);
     (n20_asn1_bitstring (vector_ptr PROTO_BITS) 23, ENCODED_BITS_23);
     (n20_asn1_bitstring (vector_ptr PROTO_BITS) 24, ENCODED_BITS_24)].
Example asn1_bitstring_conforms : all_agree 128 bitstring_rows = true.
Proof. vm_compute. reflexivity. Qed.

(** src/core/test/asn1.cpp:427-624 *)
Definition charset : list byte :=
  text "ABCDEFGHIJKLMNOPQRSTUVWXYZabcdefghijklmnopqrstuvwxyz0123456789 '()+,-./:=?".
Definition string_rows (E : Env) : list (cmd * list byte) :=
  under_each_tag
    [(n20_asn1_octetstring (Some (vector_slice BYTES_ZERO)), ENCODED_BYTES_ZERO);
     (n20_asn1_octetstring (Some (vector_slice BYTES_ONE)), ENCODED_BYTES_ONE);
     (n20_asn1_octetstring (Some (vector_slice BYTES_TWO)), ENCODED_BYTES_TWO);
     (n20_asn1_octetstring (Some (vector_slice BYTES_THREE)), ENCODED_BYTES_THREE);
     (n20_asn1_printablestring None, ENCODED_STRING_EMPTY);
     (n20_asn1_printablestring (Some (slice_of (text ""))), ENCODED_STRING_EMPTY);
     (n20_asn1_printablestring (Some (slice_of (text "~"))), ENCODED_STRING_NOT_EMPTY);
     (n20_asn1_printablestring (Some (slice_of charset)), ENCODED_STRING_FULL_CHARSET);
     (n20_asn1_utf8_string None, ENCODED_UTF8_STRING_EMPTY);
     (n20_asn1_utf8_string (Some (slice_of (text ""))), ENCODED_UTF8_STRING_EMPTY);
     (n20_asn1_utf8_string (Some (slice_of (text "~"))), ENCODED_UTF8_STRING_NOT_EMPTY);
     (n20_asn1_utf8_string (Some (slice_of charset)), ENCODED_UTF8_FULL_CHARSET);
     (n20_asn1_generalized_time None, ENCODED_NULL);
     (n20_asn1_generalized_time (Some (slice_of (text "00010101000000Z"))), ENCODED_TIME_ZERO);
     (n20_asn1_generalized_time (Some (slice_of (text "20241127031458Z"))), ENCODED_TIME_NOT_ZERO)].
Example asn1_strings_conform : all_agree 128 string_rows = true.
Proof. vm_compute. reflexivity. Qed.

(** src/core/test/asn1.cpp:635-680 *)
Definition flat_cb (E : Env) : cmd := fun w =>
  n20_asn1_boolean true n20_asn1_tag_info_no_override
    (n20_asn1_printablestring (Some (slice_of (text "flat"))) n20_asn1_tag_info_no_override w).
Definition nested_cb (E : Env) : cmd := fun w =>
  n20_asn1_sequence (Some (flat_cb E)) n20_asn1_tag_info_no_override
    (n20_asn1_printablestring (Some (slice_of (text "nested"))) n20_asn1_tag_info_no_override w).
Definition sequence_rows (E : Env) : list (cmd * list byte) :=
  under_each_tag
    [(n20_asn1_sequence None, ENCODED_SEQUENCE_NULL); (n20_asn1_sequence (Some (fun w => w)), ENCODED_SEQUENCE_NOOP);
     (n20_asn1_sequence (Some (flat_cb E)), ENCODED_SEQUENCE_FLAT);
     (n20_asn1_sequence (Some (nested_cb E)), ENCODED_SEQUENCE_NESTED)].
Example asn1_sequence_conforms : all_agree 128 sequence_rows = true.
Proof. vm_compute. reflexivity. Qed.

(** src/core/test/asn1.cpp:686-727 *)
Definition object_identifier_rows (E : Env) : list (cmd * list byte) :=
  under_each_tag
    [(n20_asn1_object_identifier None, ENCODED_NULL);
     (n20_asn1_object_identifier (Some OID_SHA256_WITH_RSA_ENC), ENCODED_OID_SHA256_WITH_RSA_ENC);
     (n20_asn1_object_identifier (Some (N20_ASN1_OBJECT_ID [1; 3; 6; 1; 4; 1; 11129])), ENCODED_OID_GOOGLE);
     (n20_asn1_object_identifier (Some (mkOid (N20_ASN1_MAX_OID_ELEMENTS + 1) (repeat 0 10))), ENCODED_NULL)].
Example asn1_object_identifier_conforms : all_agree 128 object_identifier_rows = true.
Proof. vm_compute. reflexivity. Qed.

(** src/core/test/oid.cpp:20-54 *)
Example oid_equals_conforms :
  let o := N20_ASN1_OBJECT_ID in
  n20_asn1_oid_equals None None = (true, []) /\
  n20_asn1_oid_equals (Some (o [1; 2])) None = (false, []) /\
  n20_asn1_oid_equals None (Some (o [1; 2])) = (false, []) /\
  n20_asn1_oid_equals (Some (o [1; 2; 3])) (Some (o [1; 2; 3])) = (true, []) /\
  n20_asn1_oid_equals (Some (o [1; 2])) (Some (o [1; 2; 3])) = (false, []) /\
  n20_asn1_oid_equals (Some (o [1; 2; 3])) (Some (o [1; 2; 4])) = (false, []) /\
  n20_asn1_oid_equals (Some OID_RSA_ENCRYPTION) (Some OID_RSA_ENCRYPTION) = (true, []) /\
  n20_asn1_oid_equals (Some OID_RSA_ENCRYPTION) (Some OID_SHA256_WITH_RSA_ENC) = (false, []).
Proof. vm_compute. repeat split. Qed.

(** ** CBOR *)
(** src/core/test/cbor.cpp:30 *)
Definition cbor_header_rows (E : Env) : list (cmd * list byte) :=
  [(n20_cbor_write_header n20_cbor_type_map_e 0, bytes [0xa0]);
   (n20_cbor_write_header n20_cbor_type_map_e 1, bytes [0xa1]);
   (n20_cbor_write_header n20_cbor_type_map_e 23, bytes [0xb7]);
   (n20_cbor_write_header n20_cbor_type_map_e 24, bytes [0xb8; 0x18]);
   (n20_cbor_write_header n20_cbor_type_map_e 255, bytes [0xb8; 0xff]);
   (n20_cbor_write_header n20_cbor_type_map_e 256, bytes [0xb9; 0x01; 0x00]);
   (n20_cbor_write_header n20_cbor_type_map_e 0xffff, bytes [0xb9; 0xff; 0xff]);
   (n20_cbor_write_header n20_cbor_type_map_e 0x10000, bytes [0xba; 0x00; 0x01; 0x00; 0x00]);
   (n20_cbor_write_header n20_cbor_type_map_e 0xffffffff, bytes [0xba; 0xff; 0xff; 0xff; 0xff]);
   (n20_cbor_write_header n20_cbor_type_map_e 0x100000000, bytes [0xbb; 0x00; 0x00; 0x00; 0x01; 0x00; 0x00; 0x00; 0x00]);
   (n20_cbor_write_header n20_cbor_type_map_e 0xffffffffffffffff, bytes [0xbb; 0xff; 0xff; 0xff; 0xff; 0xff; 0xff; 0xff; 0xff]);
   (n20_cbor_write_header n20_cbor_type_none_e 0, bytes [0xf7]);
   (n20_cbor_write_header 8 0, bytes [0xf7])].
Example cbor_header_conform : all_agree 20 cbor_header_rows = true.
Proof. vm_compute. reflexivity. Qed.

(** src/core/test/cbor.cpp:78 *)
Definition cbor_integer_rows (E : Env) : list (cmd * list byte) :=
  [(n20_cbor_write_uint 0, bytes [0x00]);
   (n20_cbor_write_uint 1, bytes [0x01]);
   (n20_cbor_write_uint 23, bytes [0x17]);
   (n20_cbor_write_uint 24, bytes [0x18; 0x18]);
   (n20_cbor_write_uint 255, bytes [0x18; 0xff]);
   (n20_cbor_write_uint 256, bytes [0x19; 0x01; 0x00]);
   (n20_cbor_write_uint 0xffff, bytes [0x19; 0xff; 0xff]);
   (n20_cbor_write_uint 0x10000, bytes [0x1a; 0x00; 0x01; 0x00; 0x00]);
   (n20_cbor_write_uint 0xffffffff, bytes [0x1a; 0xff; 0xff; 0xff; 0xff]);
   (n20_cbor_write_uint 0x100000000, bytes [0x1b; 0x00; 0x00; 0x00; 0x01; 0x00; 0x00; 0x00; 0x00]);
   (n20_cbor_write_uint 0xffffffffffffffff, bytes [0x1b; 0xff; 0xff; 0xff; 0xff; 0xff; 0xff; 0xff; 0xff]);
   (n20_cbor_write_int 0, bytes [0x00]);
   (n20_cbor_write_int 1, bytes [0x01]);
   (n20_cbor_write_int 23, bytes [0x17]);
   (n20_cbor_write_int 24, bytes [0x18; 0x18]);
   (n20_cbor_write_int 255, bytes [0x18; 0xff]);
   (n20_cbor_write_int 256, bytes [0x19; 0x01; 0x00]);
   (n20_cbor_write_int 0xffff, bytes [0x19; 0xff; 0xff]);
   (n20_cbor_write_int 0x10000, bytes [0x1a; 0x00; 0x01; 0x00; 0x00]);
   (n20_cbor_write_int 0xffffffff, bytes [0x1a; 0xff; 0xff; 0xff; 0xff]);
   (n20_cbor_write_int 0x100000000, bytes [0x1b; 0x00; 0x00; 0x00; 0x01; 0x00; 0x00; 0x00; 0x00]);
   (n20_cbor_write_int 9223372036854775807, bytes [0x1b; 0x7f; 0xff; 0xff; 0xff; 0xff; 0xff; 0xff; 0xff]);
   (n20_cbor_write_int (-1), bytes [0x20]);
   (n20_cbor_write_int (-24), bytes [0x37]);
   (n20_cbor_write_int (-25), bytes [0x38; 0x18]);
   (n20_cbor_write_int (-256), bytes [0x38; 0xff]);
   (n20_cbor_write_int (-257), bytes [0x39; 0x01; 0x00]);
   (n20_cbor_write_int (-65536), bytes [0x39; 0xff; 0xff]);
   (n20_cbor_write_int (-65537), bytes [0x3a; 0x00; 0x01; 0x00; 0x00]);
   (n20_cbor_write_int (-4294967296), bytes [0x3a; 0xff; 0xff; 0xff; 0xff]);
   (n20_cbor_write_int (-4294967297), bytes [0x3b; 0x00; 0x00; 0x00; 0x01; 0x00; 0x00; 0x00; 0x00]);
   (n20_cbor_write_int (-9223372036854775808), bytes [0x3b; 0x7f; 0xff; 0xff; 0xff; 0xff; 0xff; 0xff; 0xff]);
   (n20_cbor_write_int (-4670545), bytes [0x3a; 0x00; 0x47; 0x44; 0x50]);
   (n20_cbor_write_int (-4670546), bytes [0x3a; 0x00; 0x47; 0x44; 0x51]);
   (n20_cbor_write_int (-4670547), bytes [0x3a; 0x00; 0x47; 0x44; 0x52]);
   (n20_cbor_write_int (-4670548), bytes [0x3a; 0x00; 0x47; 0x44; 0x53]);
   (n20_cbor_write_int (-4670549), bytes [0x3a; 0x00; 0x47; 0x44; 0x54]);
   (n20_cbor_write_int (-4670550), bytes [0x3a; 0x00; 0x47; 0x44; 0x55]);
   (n20_cbor_write_int (-4670551), bytes [0x3a; 0x00; 0x47; 0x44; 0x56]);
   (n20_cbor_write_int (-4670552), bytes [0x3a; 0x00; 0x47; 0x44; 0x57]);
   (n20_cbor_write_int (-4670553), bytes [0x3a; 0x00; 0x47; 0x44; 0x58]);
   (n20_cbor_write_int (-4670554), bytes [0x3a; 0x00; 0x47; 0x44; 0x59])].
Example cbor_integer_conform : all_agree 20 cbor_integer_rows = true.
Proof. vm_compute. reflexivity. Qed.

(** src/core/test/cbor.cpp:206 *)
Definition cbor_tag_rows (E : Env) : list (cmd * list byte) :=
  [(n20_cbor_write_tag 0, bytes [0xc0]);
   (n20_cbor_write_tag 1, bytes [0xc1]);
   (n20_cbor_write_tag 23, bytes [0xd7]);
   (n20_cbor_write_tag 24, bytes [0xd8; 0x18]);
   (n20_cbor_write_tag 255, bytes [0xd8; 0xff]);
   (n20_cbor_write_tag 256, bytes [0xd9; 0x01; 0x00]);
   (n20_cbor_write_tag 0xffff, bytes [0xd9; 0xff; 0xff]);
   (n20_cbor_write_tag 0x10000, bytes [0xda; 0x00; 0x01; 0x00; 0x00]);
   (n20_cbor_write_tag 0xffffffff, bytes [0xda; 0xff; 0xff; 0xff; 0xff]);
   (n20_cbor_write_tag 0x100000000, bytes [0xdb; 0x00; 0x00; 0x00; 0x01; 0x00; 0x00; 0x00; 0x00]);
   (n20_cbor_write_tag 0xffffffffffffffff, bytes [0xdb; 0xff; 0xff; 0xff; 0xff; 0xff; 0xff; 0xff; 0xff])].
Example cbor_tag_conform : all_agree 20 cbor_tag_rows = true.
Proof. vm_compute. reflexivity. Qed.

(** src/core/test/cbor.cpp:282 *)
Definition cbor_array_rows (E : Env) : list (cmd * list byte) :=
  [(n20_cbor_write_array_header 0, bytes [0x80]);
   (n20_cbor_write_array_header 1, bytes [0x81]);
   (n20_cbor_write_array_header 23, bytes [0x97]);
   (n20_cbor_write_array_header 24, bytes [0x98; 0x18]);
   (n20_cbor_write_array_header 255, bytes [0x98; 0xff]);
   (n20_cbor_write_array_header 256, bytes [0x99; 0x01; 0x00]);
   (n20_cbor_write_array_header 0xffff, bytes [0x99; 0xff; 0xff]);
   (n20_cbor_write_array_header 0x10000, bytes [0x9a; 0x00; 0x01; 0x00; 0x00]);
   (n20_cbor_write_array_header 0xffffffff, bytes [0x9a; 0xff; 0xff; 0xff; 0xff]);
   (n20_cbor_write_array_header 0x100000000, bytes [0x9b; 0x00; 0x00; 0x00; 0x01; 0x00; 0x00; 0x00; 0x00]);
   (n20_cbor_write_array_header 0xffffffffffffffff, bytes [0x9b; 0xff; 0xff; 0xff; 0xff; 0xff; 0xff; 0xff; 0xff])].
Example cbor_array_conform : all_agree 20 cbor_array_rows = true.
Proof. vm_compute. reflexivity. Qed.

(** src/core/test/cbor.cpp:320 *)
Definition cbor_map_rows (E : Env) : list (cmd * list byte) :=
  [(n20_cbor_write_map_header 0, bytes [0xa0]);
   (n20_cbor_write_map_header 1, bytes [0xa1]);
   (n20_cbor_write_map_header 23, bytes [0xb7]);
   (n20_cbor_write_map_header 24, bytes [0xb8; 0x18]);
   (n20_cbor_write_map_header 255, bytes [0xb8; 0xff]);
   (n20_cbor_write_map_header 256, bytes [0xb9; 0x01; 0x00]);
   (n20_cbor_write_map_header 0xffff, bytes [0xb9; 0xff; 0xff]);
   (n20_cbor_write_map_header 0x10000, bytes [0xba; 0x00; 0x01; 0x00; 0x00]);
   (n20_cbor_write_map_header 0xffffffff, bytes [0xba; 0xff; 0xff; 0xff; 0xff]);
   (n20_cbor_write_map_header 0x100000000, bytes [0xbb; 0x00; 0x00; 0x00; 0x01; 0x00; 0x00; 0x00; 0x00]);
   (n20_cbor_write_map_header 0xffffffffffffffff, bytes [0xbb; 0xff; 0xff; 0xff; 0xff; 0xff; 0xff; 0xff; 0xff])].
Example cbor_map_conform : all_agree 20 cbor_map_rows = true.
Proof. vm_compute. reflexivity. Qed.

(** src/core/test/cbor.cpp:159-200, 240-276 *)
Definition cbor_simple_rows (E : Env) : list (cmd * list byte) :=
  [(n20_cbor_write_null, bytes [0xf6]); (n20_cbor_write_bool true, bytes [0xf5]); (n20_cbor_write_bool false, bytes [0xf4]);
   (n20_cbor_write_byte_string (slice_of (bytes [0x01; 0x02; 0x03; 0x04])), bytes [0x44; 0x01; 0x02; 0x03; 0x04]);
   (n20_cbor_write_text_string (slice_of (text "Hello")), bytes [0x65; 0x48; 0x65; 0x6c; 0x6c; 0x6f])].
Example cbor_simple_conform : all_agree 20 cbor_simple_rows = true.
Proof. vm_compute. reflexivity. Qed.

(** The comparison is not vacuous: one wrong byte in a row, one byte too few, or a buffer that is too small, and it fails. *)
Example agrees_detects :
  all_agree 20 (fun E => [(@n20_cbor_write_bool E true, bytes [0xf5])]) = true /\
  all_agree 20 (fun E => [(@n20_cbor_write_bool E true, bytes [0xf4])]) = false /\
  all_agree 20 (fun E => [(@n20_cbor_write_bool E true, [])]) = false /\
  all_agree 0 (fun E => [(@n20_cbor_write_bool E true, bytes [0xf5])]) = false.
Proof. vm_compute. repeat split. Qed.
