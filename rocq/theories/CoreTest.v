(** The tests of the core library: src/core/test/stream.cpp, asn1.cpp, cbor.cpp and oid.cpp.

    A test is its verdict, [true] if it reaches its end without a failing assertion, with the undefined behaviour on the way, latest first.
    Simplified: the messages printed on failure are left out. *)
From Coq Require Import List NArith ZArith Bool Strings.Byte.
From Verif Require Import Base Stream Asn1 Cbor Oid ConformCore CryptoTest.
Import ListNotations.
Open Scope N_scope.

Definition verdict : Type := bool * list ub.
(** The rest of a test after something that may fail. *)
Definition and_then (a b : verdict) : verdict := if fst a then (fst b, snd b ++ snd a) else a.

(** What an array on the stack holds before it is written: [stack_byte i] for the [i]-th array of a test. *)
Class Stack := { stack_byte : N -> nat -> byte }.
Definition array `{Stack} (i size : N) : list byte := map (stack_byte i) (seq 0 (N.to_nat size)).

Section WithEnv.
Context `{E : Env} `{K : Stack} `{X : Cxx}.

(** std::vector(n20_stream_data(&s), n20_stream_data(&s) + n20_stream_byte_count(&s)) *)
Definition got (s : option stream) : list byte * list ub :=
  let n := n20_stream_byte_count s in
  match n20_stream_data s, s with
  | Some off, Some s =>
      match s_begin s with
      | Some m => (takeN n (dropN off m), if off + n <=? len m then [] else [UBReadOob])
      | None => ([], if n =? 0 then [] else [UBNullDeref])
      end
  | _, _ => ([], if n =? 0 then [] else [UBNullDeref])
  end.

(** The body most tests share, for instance src/core/test/asn1.cpp:66-75: a stream over the [i]-th array, with [size] bytes, the call, and the comparison
    with the expected bytes. *)
Definition writes (i size : N) (f : cmd) (expected : list byte) : verdict :=
  let w := f (mkWorld (Some (n20_stream_init (Some (array i size)) size)) []) in
  let s := w_stream w in
  if n20_stream_has_buffer_overflow s then (false, w_ub w)
  else if negb (n20_stream_byte_count s =? len expected) then (false, w_ub w)
  else let '(bytes, u) := got s in (same expected bytes, u ++ w_ub w).

(** The same in src/core/test/cbor.cpp, for instance 60-70, where the vector is made before the only comparison. *)
Definition writes_cbor (i : N) (f : cmd) (expected : list byte) : verdict :=
  let w := f (mkWorld (Some (n20_stream_init (Some (array i 20)) 20)) []) in
  let s := w_stream w in
  if n20_stream_has_buffer_overflow s then (false, w_ub w)
  else let '(bytes, u) := got s in (same bytes expected, u ++ w_ub w).
(** And where the number of bytes is asserted behind that, for instance src/core/test/cbor.cpp:160-172. *)
Definition writes_cbor_sized (i : N) (f : cmd) (size : N) (expected : list byte) : verdict :=
  let w := f (mkWorld (Some (n20_stream_init (Some (array i 20)) 20)) []) in
  let s := w_stream w in
  if n20_stream_has_buffer_overflow s then (false, w_ub w)
  else let '(bytes, u) := got s in
       if negb (n20_stream_byte_count s =? size) then (false, u ++ w_ub w)
       else (same bytes expected, u ++ w_ub w).

(** ** src/core/test/stream.cpp *)

(** src/core/test/stream.cpp:64-92 *)
Definition StreamPrepend (buffer_size : N) (bytes_to_prepend : list (list byte)) (has_overflow : bool) : verdict :=
  let expected := concat (rev bytes_to_prepend) in
  let w := fold_left (fun w b => n20_stream_prepend (data b) (len b) w) bytes_to_prepend
             (mkWorld (Some (n20_stream_init (Some (array 0 buffer_size)) buffer_size)) []) in
  let s := w_stream w in
  if negb (Bool.eqb has_overflow (n20_stream_has_buffer_overflow s)) then (false, w_ub w)
  else if n20_stream_has_write_position_overflow s then (false, w_ub w)
  else if negb (n20_stream_byte_count s =? len expected) then (false, w_ub w)
  else if has_overflow then (true, w_ub w)
  else let '(bytes, u) := got s in (same expected bytes, u ++ w_ub w).

(** src/core/test/stream.cpp:94-114. The 64 bit numbers become a size_t. *)
Definition StreamCounterOverflow : verdict :=
  let prepend n := n20_stream_prepend None (wrap_sz n) in
  let flags w := (n20_stream_has_buffer_overflow (w_stream w), n20_stream_has_write_position_overflow (w_stream w)) in
  let w0 := mkWorld (Some (n20_stream_init (Some (array 0 128)) 128)) [] in
  let w1 := prepend (2 ^ 64 - 1) w0 in
  match flags w1 with
  | (true, false) =>
      let w2 := prepend 1 w1 in
      match flags w2 with
      | (true, true) =>
          let w3 := prepend (2 ^ 64 - 1 - 1) w2 in
          match flags w3 with
          | (true, true) =>
              let w4 := prepend 1 w3 in
              match flags w4 with (true, true) => (true, w_ub w4) | _ => (false, w_ub w4) end
          | _ => (false, w_ub w3)
          end
      | _ => (false, w_ub w2)
      end
  | _ => (false, w_ub w1)
  end.

(** ** src/core/test/asn1.cpp *)

(** src/core/test/asn1.cpp:63-75 *)
Definition HeaderEncoding (class_ : N) (constructed : bool) (tag len_ : N) (expected : list byte) : verdict :=
  writes 0 128 (n20_asn1_header class_ constructed tag len_) expected.

(** src/core/test/asn1.cpp:138-150. The callback with its context is a command. *)
Definition HeaderWithContentEncoding (content_cb : option cmd) (expected : list byte) (ti : tag_info) : verdict :=
  writes 0 128 (n20_asn1_header_with_content 0 false 0 content_cb ti) expected.

(** src/core/test/asn1.cpp:158-168 *)
Definition NullEncoding (expected : list byte) : verdict := writes 0 128 (n20_asn1_null n20_asn1_tag_info_no_override) expected.
(** src/core/test/asn1.cpp:170-180 *)
Definition NullEncodingImplicitTag (expected : list byte) : verdict := writes 0 128 (n20_asn1_null (n20_asn1_tag_info_implicit 7)) expected.
(** src/core/test/asn1.cpp:182-192 *)
Definition NullEncodingExplicitTag (expected : list byte) : verdict := writes 0 128 (n20_asn1_null (n20_asn1_tag_info_explicit 7)) expected.

(** src/core/test/asn1.cpp:204-216 *)
Definition BooleanEncoding (v : bool) (expected : list byte) : verdict := writes 0 128 (n20_asn1_boolean v n20_asn1_tag_info_no_override) expected.

(** src/core/test/asn1.cpp:271-286. Simplified: the first element of an empty vector counts as a stray read and nothing else happens then. *)
Definition tag_patch_encoded (ti : tag_info) (encoded : list byte) : list byte * list ub :=
  match ti_type ti, encoded with
  | TI_no_override, _ => (encoded, [])
  | _, [] => (encoded, [UBReadOob])
  | TI_implicit, b :: rest =>
      (if b2n b =? 0x05 then encoded else n2b (N.lor (N.lor (N.land (b2n b) 0x20) (ti_tag ti)) 0x80) :: rest, [])
  | TI_explicit, b :: _ =>
      (if b2n b =? 0x05 then encoded else n2b (N.lor 0xa0 (ti_tag ti)) :: n2b (len encoded) :: encoded, [])
  end.

(** The loop most tests share, for instance src/core/test/asn1.cpp:291-305. *)
Definition patched (i : N) (f : tag_info -> cmd) (expected : list byte) (ti : tag_info) : verdict :=
  let '(expected_patched, u) := tag_patch_encoded ti expected in
  and_then (true, u) (writes i 128 (f ti) expected_patched).
Definition under_each_tag (f : tag_info -> cmd) (expected : list byte) : verdict :=
  and_then (patched 0 f expected n20_asn1_tag_info_no_override)
    (and_then (patched 1 f expected (n20_asn1_tag_info_explicit 7))
       (patched 2 f expected (n20_asn1_tag_info_implicit 7))).

(** src/core/test/asn1.cpp:288-306 *)
Definition IntegerEncodingBigEndian (bytes : list byte) (two_complement : bool) (expected : list byte) : verdict :=
  under_each_tag (n20_asn1_integer (mkSlice (len bytes) (data bytes)) false two_complement) expected.
(** src/core/test/asn1.cpp:308-327 *)
Definition IntegerEncodingLittleEndian (bytes : list byte) (two_complement : bool) (expected : list byte) : verdict :=
  let bytes_reversed := rev bytes in
  under_each_tag (n20_asn1_integer (mkSlice (len bytes) (data bytes_reversed)) true two_complement) expected.

(** src/core/test/asn1.cpp:345-369. The variant holds an uint64_t or an int64_t. *)
Definition Int64Encoding (n : N + Z) (expected : list byte) : verdict :=
  under_each_tag (match n with inl n => n20_asn1_uint64 n | inr n => n20_asn1_int64 n end) expected.

(** src/core/test/asn1.cpp:393-412 *)
Definition BitStringEncoding (bits : list byte) (bits_size : N) (expected : list byte) : verdict :=
  under_each_tag (n20_asn1_bitstring (data bits) bits_size) expected.

(** src/core/test/asn1.cpp:433-456 *)
Definition OctetStringEncoding (bytes expected : list byte) : verdict :=
  under_each_tag (n20_asn1_octetstring (Some (slice_for bytes))) expected.

(** std::string::c_str has a zero at the end. *)
Definition string_slice (s : list byte) : slice := mkSlice (len s) (Some (literal s)).

(** src/core/test/asn1.cpp:480-505 *)
Definition PrintableStringEncoding (optional_string : option (list byte)) (expected : list byte) : verdict :=
  under_each_tag (n20_asn1_printablestring (option_map string_slice optional_string)) expected.
(** src/core/test/asn1.cpp:531-556 *)
Definition Utf8StringEncoding (optional_string : option (list byte)) (expected : list byte) : verdict :=
  under_each_tag (n20_asn1_utf8_string (option_map string_slice optional_string)) expected.
(** src/core/test/asn1.cpp:604-629 *)
Definition GeneralizedTimeEncoding (optional_string : option (list byte)) (expected : list byte) : verdict :=
  under_each_tag (n20_asn1_generalized_time (option_map string_slice optional_string)) expected.

(** src/core/test/asn1.cpp:663-681 *)
Definition SequenceEncoding (content_cb : option cmd) (expected : list byte) : verdict :=
  under_each_tag (n20_asn1_sequence content_cb) expected.

(** src/core/test/asn1.cpp:703-726 *)
Definition ObjectIdentifierEncoding (optional_oid : option oid) (expected : list byte) : verdict :=
  under_each_tag (n20_asn1_object_identifier optional_oid) expected.

(** ** src/core/test/cbor.cpp *)

(** src/core/test/cbor.cpp:57-71 *)
Definition CborHeaderTest (type_ integer : N) (encoding : list byte) : verdict := writes_cbor 0 (n20_cbor_write_header type_ integer) encoding.
(** src/core/test/cbor.cpp:139-157 *)
Definition CborIntegerTest (integer : N + Z) (encoding : list byte) : verdict :=
  writes_cbor 0 (match integer with inl n => n20_cbor_write_uint n | inr n => n20_cbor_write_int n end) encoding.
(** src/core/test/cbor.cpp:159-173 *)
Definition CborWriteNullTest : verdict := writes_cbor_sized 0 n20_cbor_write_null 1 (bytes [0xf6]).
(** src/core/test/cbor.cpp:175-201. Simplified: the second call gets an array of its own; what the first one left there is as good as anything. *)
Definition CborWriteBoolTest : verdict :=
  and_then (writes_cbor_sized 0 (n20_cbor_write_bool true) 1 (bytes [0xf5]))
    (writes_cbor_sized 1 (n20_cbor_write_bool false) 1 (bytes [0xf4])).
(** src/core/test/cbor.cpp:224-238 *)
Definition CborTagTest (integer : N) (encoding : list byte) : verdict := writes_cbor 0 (n20_cbor_write_tag integer) encoding.
(** src/core/test/cbor.cpp:240-257 *)
Definition CborWriteByteStringTest : verdict :=
  let bytes_ := bytes [0x01; 0x02; 0x03; 0x04] in
  writes_cbor_sized 0 (n20_cbor_write_byte_string (mkSlice (len bytes_) (Some bytes_))) 5 (bytes [0x44; 0x01; 0x02; 0x03; 0x04]).
(** src/core/test/cbor.cpp:259-276 *)
Definition CborWriteStringTest : verdict :=
  let str := string_slice (bytes [0x48; 0x65; 0x6c; 0x6c; 0x6f]) in
  writes_cbor_sized 0 (n20_cbor_write_text_string str) 6 (bytes [0x65; 0x48; 0x65; 0x6c; 0x6c; 0x6f]).
(** src/core/test/cbor.cpp:300-314. The uint64_t of the row becomes the size_t of the call. *)
Definition CborArrayHeaderTest (integer : N) (encoding : list byte) : verdict := writes_cbor 0 (n20_cbor_write_array_header (wrap_sz integer)) encoding.
(** src/core/test/cbor.cpp:338-352 *)
Definition CborMapHeaderTest (integer : N) (encoding : list byte) : verdict := writes_cbor 0 (n20_cbor_write_map_header (wrap_sz integer)) encoding.

(** ** src/core/test/oid.cpp *)

(** EXPECT_TRUE and EXPECT_FALSE note a failure and carry on. *)
Definition expects (want : bool) (r : bool * list ub) : verdict := (Bool.eqb want (fst r), snd r).
Definition also (a b : verdict) : verdict := (fst a && fst b, snd b ++ snd a).
(** src/core/test/oid.cpp:20-54, one after the other. *)
Definition N20OidEqualsTest : list verdict :=
  let oid arcs := Some (N20_ASN1_OBJECT_ID arcs) in
  [expects true (n20_asn1_oid_equals None None);
   also (expects false (n20_asn1_oid_equals (oid [1; 2]) None)) (expects false (n20_asn1_oid_equals None (oid [1; 2])));
   expects true (n20_asn1_oid_equals (oid [1; 2; 3]) (oid [1; 2; 3]));
   expects false (n20_asn1_oid_equals (oid [1; 2]) (oid [1; 2; 3]));
   expects false (n20_asn1_oid_equals (oid [1; 2; 3]) (oid [1; 2; 4]));
   expects true (n20_asn1_oid_equals (Some OID_RSA_ENCRYPTION) (Some OID_RSA_ENCRYPTION));
   expects false (n20_asn1_oid_equals (Some OID_RSA_ENCRYPTION) (Some OID_SHA256_WITH_RSA_ENC))].

(** ** The rows the tests are run with *)

(** src/core/test/stream.cpp:26-62 *)
Definition stream_rows_of : list (N * list (list byte) * bool) :=
  let sequence := map bytes [[0x6e; 0x65; 0x73; 0x74; 0x65; 0x64]; [0x13; 0x06]; [0x66; 0x6c; 0x61; 0x74]; [0x13; 0x04]; [0xff]; [0x01; 0x01];
                             [0x30; 0x09]; [0x30; 0x13]] in
  let null := bytes [0x05; 0x00] in
  [(1, [], false); (2, [], false); (1, [[]], false); (2, [[]], false); (1, [[]; []], false); (2, [[]; []], false);
   (1, [null], true); (2, [null], false); (3, [null], false); (1, [[]; null; []], true); (2, [[]; null; []], false); (3, [[]; null; []], false);
   (1, sequence, true); (2, sequence, true); (10, sequence, true); (20, sequence, true); (21, sequence, false); (22, sequence, false)].

(** src/core/test/asn1.cpp:46-61 *)
Definition header_tests : list verdict :=
  [HeaderEncoding 0 false 0 0 ENCODED_CLASS_0_CONSTRUCTED_FALSE_TAG_0_LEN_0;
   HeaderEncoding 1 false 0 0 ENCODED_CLASS_1_CONSTRUCTED_FALSE_TAG_0_LEN_0;
   HeaderEncoding 0 true 0 0 ENCODED_CLASS_0_CONSTRUCTED_TRUE_TAG_0_LEN_0;
   HeaderEncoding 1 true 0 0 ENCODED_CLASS_1_CONSTRUCTED_TRUE_TAG_0_LEN_0;
   HeaderEncoding 0 false 8 0 ENCODED_CLASS_0_CONSTRUCTED_FALSE_TAG_8_LEN_0;
   HeaderEncoding 0 false 500 0 ENCODED_CLASS_0_CONSTRUCTED_FALSE_TAG_500_LEN_0;
   HeaderEncoding 0 false 0 8 ENCODED_CLASS_0_CONSTRUCTED_FALSE_TAG_0_LEN_8;
   HeaderEncoding 0 false 0 500 ENCODED_CLASS_0_CONSTRUCTED_FALSE_TAG_0_LEN_500;
   HeaderEncoding 2 true 808 450 ENCODED_CLASS_2_CONSTRUCTED_TRUE_TAG_808_LEN_450].

(** src/core/test/asn1.cpp:84-98 *)
Definition noop : cmd := skip.
Definition prepend_zeros (n : N) : cmd := n20_stream_prepend (data (repeat x00 (N.to_nat n))) n.
(** src/core/test/asn1.cpp:110-136 *)
Definition header_with_content_tests : list verdict :=
  let no := n20_asn1_tag_info_no_override in
  [HeaderWithContentEncoding None ENCODED_HEADER_WITH_CONTENT_NOOP no;
   HeaderWithContentEncoding (Some noop) ENCODED_HEADER_WITH_CONTENT_NOOP no;
   HeaderWithContentEncoding (Some (prepend_zeros 5)) ENCODED_HEADER_WITH_CONTENT_FIVE_ZEROS no;
   HeaderWithContentEncoding (Some (prepend_zeros 8)) ENCODED_HEADER_WITH_CONTENT_EIGHT_ZEROS no;
   HeaderWithContentEncoding (Some (prepend_zeros 8)) ENCODED_HEADER_WITH_CONTENT_EIGHT_ZEROS_WITH_IMPLICIT_TAG (n20_asn1_tag_info_implicit 0x555555);
   HeaderWithContentEncoding (Some (prepend_zeros 8)) ENCODED_HEADER_WITH_CONTENT_EIGHT_ZEROS_WITH_EXPLICIT_TAG (n20_asn1_tag_info_explicit 0x555555)].

(** src/core/test/asn1.cpp:158-202 *)
Definition null_and_boolean_tests : list verdict :=
  [NullEncoding ENCODED_NULL; NullEncodingImplicitTag ENCODED_NULL_IMPLICIT_TAG; NullEncodingExplicitTag ENCODED_NULL_EXPLICIT_TAG;
   BooleanEncoding false ENCODED_FALSE; BooleanEncoding true ENCODED_TRUE].

(** src/core/test/asn1.cpp:246-262: [integer_table] of ConformCore.v. *)
Definition integer_tests (table : list (list byte * bool * list byte)) : list verdict :=
  map (fun '(b, two_complement, e) => IntegerEncodingBigEndian b two_complement e) table ++
  map (fun '(b, two_complement, e) => IntegerEncodingLittleEndian b two_complement e) table.

(** src/core/test/asn1.cpp:332-343 *)
Definition int64_tests : list verdict :=
  [Int64Encoding (inl 0) ENCODED_0; Int64Encoding (inl 127) ENCODED_127; Int64Encoding (inl 128) ENCODED_128; Int64Encoding (inl 256) ENCODED_256;
   Int64Encoding (inr 0%Z) ENCODED_0; Int64Encoding (inr 127%Z) ENCODED_127; Int64Encoding (inr 128%Z) ENCODED_128; Int64Encoding (inr 256%Z) ENCODED_256;
   Int64Encoding (inr (-128)%Z) ENCODED_MINUS_128; Int64Encoding (inr (-129)%Z) ENCODED_MINUS_129].

(** src/core/test/asn1.cpp:383-391 *)
Definition bitstring_tests : list verdict :=
  [BitStringEncoding PROTO_BITS_EMPTY 0 ENCODED_BITS_EMPTY; BitStringEncoding PROTO_BITS 0 ENCODED_BITS_EMPTY; BitStringEncoding PROTO_BITS 16 ENCODED_BITS_16;
   BitStringEncoding PROTO_BITS 17 ENCODED_BITS_17; BitStringEncoding PROTO_BITS 18 ENCODED_BITS_18; BitStringEncoding PROTO_BITS 23 ENCODED_BITS_23;
   BitStringEncoding PROTO_BITS 24 ENCODED_BITS_24].

(** src/core/test/asn1.cpp:426-431, 470-478, 521-529, 598-602 *)
Definition string_tests : list verdict :=
  let tilde := bytes [0x7e] in
  [OctetStringEncoding BYTES_ZERO ENCODED_BYTES_ZERO; OctetStringEncoding BYTES_ONE ENCODED_BYTES_ONE; OctetStringEncoding BYTES_TWO ENCODED_BYTES_TWO;
   OctetStringEncoding BYTES_THREE ENCODED_BYTES_THREE;
   PrintableStringEncoding None ENCODED_STRING_EMPTY; PrintableStringEncoding (Some []) ENCODED_STRING_EMPTY;
   PrintableStringEncoding (Some tilde) ENCODED_STRING_NOT_EMPTY; PrintableStringEncoding (Some charset) ENCODED_STRING_FULL_CHARSET;
   Utf8StringEncoding None ENCODED_UTF8_STRING_EMPTY; Utf8StringEncoding (Some []) ENCODED_UTF8_STRING_EMPTY;
   Utf8StringEncoding (Some tilde) ENCODED_UTF8_STRING_NOT_EMPTY; Utf8StringEncoding (Some charset) ENCODED_UTF8_FULL_CHARSET;
   GeneralizedTimeEncoding None ENCODED_NULL;
   (* "00010101000000Z" and "20241127031458Z" *)
   GeneralizedTimeEncoding (Some (bytes [48; 48; 48; 49; 48; 49; 48; 49; 48; 48; 48; 48; 48; 48; 90])) ENCODED_TIME_ZERO;
   GeneralizedTimeEncoding (Some (bytes [50; 48; 50; 52; 49; 49; 50; 55; 48; 51; 49; 52; 53; 56; 90])) ENCODED_TIME_NOT_ZERO].

(** src/core/test/asn1.cpp:635-646 *)
Definition flat : cmd := fun w =>
  n20_asn1_boolean true n20_asn1_tag_info_no_override
    (n20_asn1_printablestring (Some (string_slice (bytes [0x66; 0x6c; 0x61; 0x74]))) n20_asn1_tag_info_no_override w).
Definition nested : cmd := fun w =>
  n20_asn1_sequence (Some flat) n20_asn1_tag_info_no_override
    (n20_asn1_printablestring (Some (string_slice (bytes [0x6e; 0x65; 0x73; 0x74; 0x65; 0x64]))) n20_asn1_tag_info_no_override w).
(** src/core/test/asn1.cpp:656-661 *)
Definition sequence_tests : list verdict :=
  [SequenceEncoding None ENCODED_SEQUENCE_NULL; SequenceEncoding (Some noop) ENCODED_SEQUENCE_NOOP; SequenceEncoding (Some flat) ENCODED_SEQUENCE_FLAT;
   SequenceEncoding (Some nested) ENCODED_SEQUENCE_NESTED].

(** src/core/test/asn1.cpp:687-701 *)
Definition OID_GOOGLE : oid := N20_ASN1_OBJECT_ID [1; 3; 6; 1; 4; 1; 11129].
Definition INVALID_OID_WITH_TOO_HIGH_ELEM_COUNT : oid := mkOid (N20_ASN1_MAX_OID_ELEMENTS + 1) (repeat 0 10).
Definition object_identifier_tests : list verdict :=
  [ObjectIdentifierEncoding None ENCODED_NULL; ObjectIdentifierEncoding (Some OID_SHA256_WITH_RSA_ENC) ENCODED_OID_SHA256_WITH_RSA_ENC;
   ObjectIdentifierEncoding (Some OID_GOOGLE) ENCODED_OID_GOOGLE; ObjectIdentifierEncoding (Some INVALID_OID_WITH_TOO_HIGH_ELEM_COUNT) ENCODED_NULL].

(** src/core/test/cbor.cpp:28-55, 206-222, 282-298, 320-336. The arguments at which the length of a head changes, and the heads of one type (its first byte
    for 0 is [32 * type]). *)
Definition boundary_rows (major : N) : list (N * list byte) :=
  let b low := 32 * major + low in
  [(0, bytes [b 0]); (1, bytes [b 1]); (23, bytes [b 23]); (24, bytes [b 24; 0x18]); (255, bytes [b 24; 0xff]); (256, bytes [b 25; 0x01; 0x00]);
   (0xffff, bytes [b 25; 0xff; 0xff]); (0x10000, bytes [b 26; 0x00; 0x01; 0x00; 0x00]); (0xffffffff, bytes [b 26; 0xff; 0xff; 0xff; 0xff]);
   (0x100000000, bytes [b 27; 0x00; 0x00; 0x00; 0x01; 0x00; 0x00; 0x00; 0x00]);
   (0xffffffffffffffff, bytes [b 27; 0xff; 0xff; 0xff; 0xff; 0xff; 0xff; 0xff; 0xff])].
Definition cbor_head_tests : list verdict :=
  map (fun '(n, e) => CborHeaderTest n20_cbor_type_map_e n e) (boundary_rows 5) ++
  [CborHeaderTest n20_cbor_type_none_e 0 (bytes [0xf7]); CborHeaderTest 8 0 (bytes [0xf7])] ++
  map (fun '(n, e) => CborTagTest n e) (boundary_rows 6) ++
  map (fun '(n, e) => CborArrayHeaderTest n e) (boundary_rows 4) ++
  map (fun '(n, e) => CborMapHeaderTest n e) (boundary_rows 5).

(** src/core/test/cbor.cpp:77-137 *)
Definition cbor_integer_table : list ((N + Z) * list byte) :=
  map (fun '(n, e) => (inl n, e)) (boundary_rows 0) ++
  map (fun '(n, e) => (inr n, e))
    [(0%Z, bytes [0x00]); (1%Z, bytes [0x01]); (23%Z, bytes [0x17]); (24%Z, bytes [0x18; 0x18]); (255%Z, bytes [0x18; 0xff]);
     (256%Z, bytes [0x19; 0x01; 0x00]); (0xffff%Z, bytes [0x19; 0xff; 0xff]); (0x10000%Z, bytes [0x1a; 0x00; 0x01; 0x00; 0x00]);
     (0xffffffff%Z, bytes [0x1a; 0xff; 0xff; 0xff; 0xff]);
     (0x100000000%Z, bytes [0x1b; 0x00; 0x00; 0x00; 0x01; 0x00; 0x00; 0x00; 0x00]);
     (9223372036854775807%Z, bytes [0x1b; 0x7f; 0xff; 0xff; 0xff; 0xff; 0xff; 0xff; 0xff]);
     ((-1)%Z, bytes [0x20]); ((-24)%Z, bytes [0x37]); ((-25)%Z, bytes [0x38; 0x18]); ((-256)%Z, bytes [0x38; 0xff]);
     ((-257)%Z, bytes [0x39; 0x01; 0x00]); ((-65536)%Z, bytes [0x39; 0xff; 0xff]); ((-65537)%Z, bytes [0x3a; 0x00; 0x01; 0x00; 0x00]);
     ((-4294967296)%Z, bytes [0x3a; 0xff; 0xff; 0xff; 0xff]);
     ((-4294967297)%Z, bytes [0x3b; 0x00; 0x00; 0x00; 0x01; 0x00; 0x00; 0x00; 0x00]);
     ((-9223372036854775808)%Z, bytes [0x3b; 0x7f; 0xff; 0xff; 0xff; 0xff; 0xff; 0xff; 0xff])] ++
  map (fun k => (inr (-4670545 - Z.of_nat k)%Z, bytes [0x3a; 0x00; 0x47; 0x44; 0x50 + N.of_nat k])) (seq 0 10).
Definition cbor_integer_tests (table : list ((N + Z) * list byte)) : list verdict := map (fun '(n, e) => CborIntegerTest n e) table.

(** All of them. *)
Definition core_tests : list verdict :=
  map (fun '(size, pieces, overflow) => StreamPrepend size pieces overflow) stream_rows_of ++ [StreamCounterOverflow] ++
  header_tests ++ header_with_content_tests ++ null_and_boolean_tests ++ integer_tests integer_table ++ int64_tests ++ bitstring_tests ++ string_tests ++
  sequence_tests ++ object_identifier_tests ++ cbor_head_tests ++ cbor_integer_tests cbor_integer_table ++
  [CborWriteNullTest; CborWriteBoolTest; CborWriteByteStringTest; CborWriteStringTest] ++ N20OidEqualsTest.
End WithEnv.
