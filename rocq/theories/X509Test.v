(** The tests of the X.509 writers: src/core/test/x509.cpp:60-491 and the four files src/core/test/x509_ext_*.cpp. The test that signs and verifies
    certificates (src/core/test/x509.cpp:493-) is in CertTest.v.

    As in CoreTest.v, a test is its verdict with the undefined behaviour on the way, and the messages printed on failure are left out. *)
From Coq Require Import List NArith ZArith Bool Strings.Byte.
From Coq Require Strings.String.
From Verif Require Import Base Stream Asn1 Cbor Oid X509 X509Ext ConformCore ConformX509 CryptoTest CoreTest.
Import ListNotations.
Import Coq.Strings.String.StringSyntax.
Open Scope string_scope.
Open Scope list_scope.
Open Scope N_scope.

Section WithEnv.
Context `{E : Env} `{K : Stack} `{X : Cxx}.

(** Like [writes], but the number of bytes is only expected (EXPECT_EQ): the test goes on to compare the bytes when the number is wrong, and fails all the
    same; src/core/test/x509.cpp:124-136 and 390-403. *)
Definition writes_expecting (i size : N) (f : cmd) (expected : list byte) : verdict :=
  let w := f (mkWorld (Some (n20_stream_init (Some (array i size)) size)) []) in
  let s := w_stream w in
  if n20_stream_has_buffer_overflow s then (false, w_ub w)
  else let '(bytes, u) := got s in ((n20_stream_byte_count s =? len expected) && same expected bytes, u ++ w_ub w).

(** ** src/core/test/x509.cpp *)

(** src/core/test/x509.cpp:124-136 *)
Definition NameEncoding (p : option name) (expected : list byte) : verdict := writes_expecting 0 133 (n20_x509_name p) expected.

(** The data pointer of a vector of extensions. *)
Definition extensions_of (v : list extension) : extensions :=
  mkExtensions (len v) match v with [] => if empty_data_null then None else Some [] | _ => Some v end.
(** src/core/test/x509.cpp:184-203. The parameter is a pointer to extensions or a vector. *)
Definition ExtensionEncoding (p : option extensions + list extension) (expected : list byte) : verdict :=
  writes 0 128 (n20_x509_extension match p with inl e => e | inr v => Some (extensions_of v) end) expected.

(** src/core/test/x509.cpp:230-244 *)
Definition BasicConstraintsEncoding (is_ca has_path_length : bool) (path_length : N) (expected : list byte) : verdict :=
  writes 0 128 (n20_x509_ext_basic_constraints_content (Some (mkBasicConstraints is_ca has_path_length path_length))) expected.

(** src/core/test/x509.cpp:252-348: five tests with the same body. *)
Definition key_usage_encoding (k : key_usage) (expected : list byte) : verdict := writes 0 128 (n20_x509_ext_key_usage_content (Some k)) expected.
(** The macros that set a flag, one after the other, on a mask of zeros. *)
Definition key_usage_with (flags : list key_usage_flag) : key_usage := fold_left (fun k f => key_usage_set f k) flags (mkKeyUsage x00 x00).

(** src/core/test/x509.cpp:355-365, 390-403 and 440-491: three tests; that of the zeros uses EXPECT_EQ. *)
Definition CertTBSNullEncoding (expected : list byte) : verdict := writes 0 128 (n20_x509_cert_tbs None) expected.
Definition CertTBSZeroEncoding (expected : list byte) : verdict := writes_expecting 0 128 (n20_x509_cert_tbs (Some zero_tbs)) expected.
Definition cert_tbs_encoding (t : tbs) (expected : list byte) : verdict := writes 0 256 (n20_x509_cert_tbs (Some t)) expected.

(** ** The extensions of DICE *)

(** The body the tests share, for instance src/core/test/x509_ext_open_dice_input.cpp:293-315: first without a buffer, then over 2000 zeros. *)
Definition writes_twice (f : cmd) (expected : list byte) : verdict :=
  let w := f (mkWorld (Some (n20_stream_init None 0)) []) in
  let s := w_stream w in
  and_then
    (n20_stream_has_buffer_overflow s && negb (n20_stream_has_write_position_overflow s) && (len expected =? n20_stream_byte_count s), w_ub w)
    (let w := f (mkWorld (Some (n20_stream_init (Some (repeat x00 2000)) 2000)) []) in
     let s := w_stream w in
     if n20_stream_has_buffer_overflow s then (false, w_ub w)
     else if n20_stream_has_write_position_overflow s then (false, w_ub w)
     else let '(bytes, u) := got s in (same expected bytes, u ++ w_ub w)).
Definition extension_written_twice (o : oid) (critical : bool) (content : cmd) (expected : list byte) : verdict :=
  writes_twice (n20_x509_extension (Some (one_extension o critical content))) expected.

(** src/core/test/x509_ext_open_dice_input.cpp:318-327 and the tests of the same kind in the other files. *)
Definition null_pointer (content : cmd) : verdict :=
  let w := content (mkWorld (Some (n20_stream_init None 0)) []) in
  let s := w_stream w in
  (n20_stream_has_buffer_overflow s && negb (n20_stream_has_write_position_overflow s) && (0 =? n20_stream_byte_count s), w_ub w).

(** src/core/test/x509_ext_open_dice_input.cpp:246-251: v2slice; the same by hand in the other files. *)
Definition v2slice (v : option (list byte)) : slice := match v with Some b => mkSlice (len b) (data b) | None => null_slice end.
(** src/core/test/x509_ext_tcg_dice_tcb_info.cpp:312-317. The data of a string is never a null pointer. *)
Definition to_string_slice (v : option (list byte)) : slice := match v with Some b => mkSlice (len b) (Some b) | None => null_slice end.

(** src/core/test/x509_ext_open_dice_input.cpp:253-316. [mode] is the value of the enumeration. *)
Definition OpenDiceInputEncoding (code_hash code_descriptor configuration_hash configuration_descriptor authority_hash authority_descriptor : option (list byte))
    (mode : N) (profile : option (list byte)) (expected : list byte) : verdict :=
  extension_written_twice OID_OPEN_DICE_INPUT true
    (n20_x509_ext_open_dice_input_content (Some (mkOpenDice (v2slice code_hash) (v2slice code_descriptor) (v2slice configuration_hash)
       (v2slice configuration_descriptor) (v2slice authority_hash) (v2slice authority_descriptor) mode (to_string_slice profile)))) expected.

(** src/core/test/x509_ext_tcg_dice_tcb_info.cpp:296-388. The parameters svn, layer and index are uint64_t, the members int64_t; the assignment keeps the
    value modulo 2^64. [fwids] is the number of elements and the list itself. *)
Definition TcgTcbInfoEncoding (vendor model version : option (list byte)) (svn layer index : N) (fwids : option (N * option (list fwid)))
    (flags flags_mask : list byte) (vendor_info type_ : option (list byte)) (expected : list byte) : verdict :=
  let '(count, list) := match fwids with Some l => l | None => (0, None) end in
  extension_written_twice OID_TCG_DICE_TCB_INFO true
    (n20_x509_ext_tcg_dice_tcb_info_content (Some (mkTcbInfo (to_string_slice vendor) (to_string_slice model) (to_string_slice version)
       (int64_wrap (Z.of_N svn)) (int64_wrap (Z.of_N layer)) (int64_wrap (Z.of_N index)) count list flags flags_mask (v2slice vendor_info) (v2slice type_))))
    expected.
(** src/core/test/x509_ext_tcg_dice_tcb_info.cpp:401-492, for any list *)
Definition tcg_multi_tcb_info_encoding (l : list tcb_info) (expected : list byte) : verdict :=
  extension_written_twice OID_TCG_DICE_MULTI_TCB_INFO true (n20_x509_ext_tcg_dice_multi_tcb_info_content (Some (mkMulti (len l) (Some l)))) expected.

(** src/core/test/x509_ext_tcg_dice_tcb_freshness.cpp:70-119 *)
Definition TcgTcbFreshnessEncoding (nonce : option (list byte)) (expected : list byte) : verdict :=
  extension_written_twice OID_TCG_DICE_TCB_FRESHNESS true (n20_x509_ext_tcg_dice_tcb_freshness_content (Some (v2slice nonce))) expected.
(** src/core/test/x509_ext_tcg_dice_ueid.cpp:68-117. This one is not critical. *)
Definition TcgUeidEncoding (ueid : option (list byte)) (expected : list byte) : verdict :=
  extension_written_twice OID_TCG_DICE_UEID false (n20_x509_ext_tcg_dice_ueid_content (Some (v2slice ueid))) expected.

(** ** The rows of the repository *)

(** src/core/test/x509.cpp:109-119 *)
Definition name_tests : list verdict :=
  [NameEncoding None ENCODED_NAME_NULL;
   NameEncoding (Some (N20_X509_NAME [])) ENCODED_NAME_EMPTY;
   NameEncoding (Some (N20_X509_NAME [N20_X509_RDN OID_COUNTRY_NAME "US"])) ENCODED_NAME_ONE;
   NameEncoding (Some (N20_X509_NAME [N20_X509_RDN OID_COUNTRY_NAME "US"; N20_X509_RDN OID_LOCALITY_NAME "Pittsburgh"])) ENCODED_NAME_TWO;
   NameEncoding (Some (mkName 9 (repeat (mkRdn None (mkSlice 0 None)) 8))) ENCODED_NAME_NULL;
   NameEncoding (Some (N20_X509_NAME
      [N20_X509_RDN OID_COUNTRY_NAME "US"; N20_X509_RDN OID_LOCALITY_NAME "Scranton";
       N20_X509_RDN OID_ORGANIZATION_NAME "Test DICE CA"; N20_X509_RDN OID_COMMON_NAME "DICE Layer 00";
       mkRdn (Some OID_SERIAL_NUMBER) (slice_of TEST_SERIAL)])) ENCODED_NAME_WITH_SERIAL;
   NameEncoding (Some (N20_X509_NAME [mkRdn (Some OID_SERIAL_NUMBER) (mkSlice 5 None)])) ENCODED_NAME_WITH_EMPTY_SERIAL;
   NameEncoding (Some (N20_X509_NAME [mkRdn (Some OID_SERIAL_NUMBER) (mkSlice 0 (Some (text "ignored")))])) ENCODED_NAME_WITH_EMPTY_SERIAL].
(** src/core/test/x509.cpp:138-180 *)
Definition extension_tests : list verdict :=
  let one := mkExtension (Some OID_KEY_USAGE) true (Some (key_usage_content_cb E)) in
  [ExtensionEncoding (inl None) ENCODED_EXTENSIONS_EMPTY;
   ExtensionEncoding (inl (Some (mkExtensions 0 None))) ENCODED_EXTENSIONS_EMPTY;
   ExtensionEncoding (inr [mkExtension (Some OID_KEY_USAGE) false None]) ENCODED_EXTENSIONS_ONE_EMPTY_EXTN_VALUE;
   ExtensionEncoding (inr [one]) ENCODED_EXTENSIONS_ONE;
   ExtensionEncoding (inr [one; mkExtension (Some OID_BASIC_CONSTRAINTS) true (Some (basic_constraints_content_cb E))]) ENCODED_EXTENSIONS_TWO].
(** src/core/test/x509.cpp:218-225 *)
Definition basic_constraints_tests : list verdict :=
  [BasicConstraintsEncoding false false 0 ENCODED_BASIC_CONSTRAINTS_NOT_CA_NO_PATH_LENGTH;
   BasicConstraintsEncoding false true 0 ENCODED_BASIC_CONSTRAINTS_NOT_CA_NO_PATH_LENGTH;
   BasicConstraintsEncoding true false 0 ENCODED_BASIC_CONSTRAINTS_IS_CA_NO_PATH_LENGTH;
   BasicConstraintsEncoding true true 0 ENCODED_BASIC_CONSTRAINTS_IS_CA_HAS_PATH_LENGTH;
   BasicConstraintsEncoding true true 1 ENCODED_BASIC_CONSTRAINTS_IS_CA_HAS_PATH_LENGTH_ONE].
(** src/core/test/x509.cpp:252-348 *)
Definition key_usage_tests : list verdict :=
  [key_usage_encoding (key_usage_with []) ENCODED_KEY_USAGE_ZERO_BITS;
   key_usage_encoding (key_usage_with [KU_digital_signature; KU_key_cert_sign]) ENCODED_KEY_USAGE_SIX_BITS;
   key_usage_encoding (key_usage_with [KU_digital_signature; KU_key_cert_sign; KU_decipher_only]) ENCODED_KEY_USAGE_NINE_BITS;
   key_usage_encoding (key_usage_with [KU_digital_signature; KU_content_commitment; KU_key_encipherment; KU_data_encipherment; KU_key_agreement;
     KU_key_cert_sign; KU_crl_sign; KU_encipher_only; KU_decipher_only]) ENCODED_KEY_USAGE_NINE_BITS_ALL_SET;
   key_usage_encoding (mkKeyUsage xff xff) ENCODED_KEY_USAGE_NINE_BITS_ALL_SET].
(** src/core/test/x509.cpp:351-491 *)
Definition cert_tbs_tests : list verdict :=
  [CertTBSNullEncoding ENCODED_CERT_TBS_NULL; CertTBSZeroEncoding ENCODED_CERT_TBS_ZERO; cert_tbs_encoding (nonzero_tbs E) ENCODED_CERT_TBS_NONZERO].
(** src/core/test/x509_ext_open_dice_input.cpp:215-243 and 318-327. The modes are normal and not configured. *)
Definition open_dice_tests : list verdict :=
  let profile := text "Aurora OpenDICE Profile" in
  [OpenDiceInputEncoding (Some CODE_HASH) (Some CODE_DESCRIPTOR) None (Some CONFIGURATION_INLINE) (Some AUTHORITY_HASH) (Some AUTHORITY_DESCRIPTOR) 1
     (Some profile) EXTENSION_WITH_INLINE_CONFIGURATION;
   OpenDiceInputEncoding (Some CODE_HASH) (Some CODE_DESCRIPTOR) (Some CONFIGURATION_HASH) (Some CONFIGURATION_DESCRIPTOR) (Some AUTHORITY_HASH)
     (Some AUTHORITY_DESCRIPTOR) 1 (Some profile) EXTENSION_WITH_CONFIGURATION_DESCRIPTOR;
   OpenDiceInputEncoding None None None None None None 0 None EXTENSION_WITHOUT_OPTIONALS;
   null_pointer (n20_x509_ext_open_dice_input_content None)].
(** src/core/test/x509_ext_tcg_dice_tcb_info.cpp:269-294 and 390-503 *)
Definition tcb_info_tests : list verdict :=
  let flags := bytes [0x80; 0x80; 0x00; 0x01] in
  let mask := bytes [0xff; 0x80; 0x00; 0x01] in
  [TcgTcbInfoEncoding (Some (text "aurora")) (Some (text "perseus")) (Some (text "1.0.5")) 5 6 7
     (Some (2, Some [mkFwid OID_SHA256 (slice_of TEST_DIGEST_1); mkFwid OID_SHA512 (slice_of TEST_DIGEST_2)])) flags mask
     (Some TEST_VENDOR_INFO) (Some TEST_TYPE) EXPECTED_EXTENSION_WITH_ALL_FIELDS;
   TcgTcbInfoEncoding None None None 5 6 7 None flags mask None None EXPECTED_EXTENSION_WITH_SOME_FIELDS;
   null_pointer (n20_x509_ext_tcg_dice_tcb_info_content None);
   tcg_multi_tcb_info_encoding [full_tcb_info; small_tcb_info] EXPECTED_MULTI_TCB_INFO_EXTENSION;
   null_pointer (n20_x509_ext_tcg_dice_multi_tcb_info_content None)].
(** src/core/test/x509_ext_tcg_dice_tcb_freshness.cpp:66-130 and x509_ext_tcg_dice_ueid.cpp:64-128 *)
Definition freshness_and_ueid_tests : list verdict :=
  [TcgTcbFreshnessEncoding (Some TEST_NONCE) EXPECTED_TCB_FRESHNESS_EXTENSION; null_pointer (n20_x509_ext_tcg_dice_tcb_freshness_content None);
   TcgUeidEncoding (Some TEST_UEID) EXPECTED_UEID_EXTENSION; null_pointer (n20_x509_ext_tcg_dice_ueid_content None)].
Definition x509_tests : list verdict :=
  name_tests ++ extension_tests ++ basic_constraints_tests ++ key_usage_tests ++ cert_tbs_tests ++ open_dice_tests ++ tcb_info_tests ++ freshness_and_ueid_tests.
End WithEnv.
