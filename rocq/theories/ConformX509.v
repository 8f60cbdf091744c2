(** Comparison of the model with the expected bytes of the repository's own tests: X.509 names, extensions and the
    to-be-signed part, and the four DICE extensions.

    As in ConformCore.v these are tests, not proofs.  Not comparable: the test that signs certificates with BoringSSL and
    verifies them (src/core/test/x509.cpp:639-), which states no expected bytes. *)
From Coq Require Import List NArith ZArith Bool Strings.Byte.
From Coq Require Strings.String.
From Verif Require Import Base Stream SpecStream Asn1 Oid X509 X509Ext ConformCore.
Import ListNotations.
Import Coq.Strings.String.StringSyntax.
Open Scope string_scope.
Open Scope list_scope.
Open Scope N_scope.

(** src/core/test/x509.cpp:87 *)
Definition ENCODED_NAME_NULL : list byte :=
  bytes [0x30; 0x02; 0x05; 0x00].
(** src/core/test/x509.cpp:88 *)
Definition ENCODED_NAME_EMPTY : list byte :=
  bytes [0x30; 0x00].
(** src/core/test/x509.cpp:89 *)
Definition ENCODED_NAME_ONE : list byte :=
  bytes [0x30; 0x0d; 0x31; 0x0b; 0x30; 0x09; 0x06; 0x03; 0x55; 0x04; 0x06; 0x13; 0x02; 0x55; 0x53].
(** src/core/test/x509.cpp:91 *)
Definition ENCODED_NAME_TWO : list byte :=
  bytes [0x30; 0x22; 0x31; 0x0b; 0x30; 0x09; 0x06; 0x03; 0x55; 0x04; 0x06; 0x13; 0x02; 0x55; 0x53; 0x31;
    0x13; 0x30; 0x11; 0x06; 0x03; 0x55; 0x04; 0x07; 0x13; 0x0a; 0x50; 0x69; 0x74; 0x74; 0x73; 0x62;
    0x75; 0x72; 0x67; 0x68].
(** src/core/test/x509.cpp:95 *)
Definition ENCODED_NAME_WITH_SERIAL : list byte :=
  bytes [0x30; 0x81; 0x82; 0x31; 0x0b; 0x30; 0x09; 0x06; 0x03; 0x55; 0x04; 0x06; 0x13; 0x02; 0x55; 0x53;
    0x31; 0x11; 0x30; 0x0f; 0x06; 0x03; 0x55; 0x04; 0x07; 0x13; 0x08; 0x53; 0x63; 0x72; 0x61; 0x6e;
    0x74; 0x6f; 0x6e; 0x31; 0x15; 0x30; 0x13; 0x06; 0x03; 0x55; 0x04; 0x0a; 0x13; 0x0c; 0x54; 0x65;
    0x73; 0x74; 0x20; 0x44; 0x49; 0x43; 0x45; 0x20; 0x43; 0x41; 0x31; 0x16; 0x30; 0x14; 0x06; 0x03;
    0x55; 0x04; 0x03; 0x13; 0x0d; 0x44; 0x49; 0x43; 0x45; 0x20; 0x4c; 0x61; 0x79; 0x65; 0x72; 0x20;
    0x30; 0x30; 0x31; 0x31; 0x30; 0x2f; 0x06; 0x03; 0x55; 0x04; 0x05; 0x13; 0x28; 0x30; 0x31; 0x30;
    0x32; 0x30; 0x33; 0x30; 0x34; 0x30; 0x35; 0x30; 0x36; 0x30; 0x37; 0x30; 0x38; 0x30; 0x39; 0x30;
    0x61; 0x30; 0x62; 0x30; 0x63; 0x30; 0x64; 0x30; 0x65; 0x30; 0x66; 0x31; 0x30; 0x31; 0x31; 0x31;
    0x32; 0x31; 0x33; 0x31; 0x34].
(** src/core/test/x509.cpp:106 *)
Definition ENCODED_NAME_WITH_EMPTY_SERIAL : list byte :=
  bytes [0x30; 0x0b; 0x31; 0x09; 0x30; 0x07; 0x06; 0x03; 0x55; 0x04; 0x05; 0x13; 0x00].
(** src/core/test/x509.cpp:161 *)
Definition ENCODED_EXTENSIONS_EMPTY : list byte :=
  [].
(** src/core/test/x509.cpp:162 *)
Definition ENCODED_EXTENSIONS_ONE_EMPTY_EXTN_VALUE : list byte :=
  bytes [0xa3; 0x0b; 0x30; 0x09; 0x30; 0x07; 0x06; 0x03; 0x55; 0x1d; 0x0f; 0x04; 0x00].
(** src/core/test/x509.cpp:164 *)
Definition ENCODED_EXTENSIONS_ONE : list byte :=
  bytes [0xa3; 0x12; 0x30; 0x10; 0x30; 0x0e; 0x06; 0x03; 0x55; 0x1d; 0x0f; 0x01; 0x01; 0xff; 0x04; 0x04;
    0x03; 0x02; 0x05; 0x00].
(** src/core/test/x509.cpp:167 *)
Definition ENCODED_EXTENSIONS_TWO : list byte :=
  bytes [0xa3; 0x20; 0x30; 0x1e; 0x30; 0x0e; 0x06; 0x03; 0x55; 0x1d; 0x0f; 0x01; 0x01; 0xff; 0x04; 0x04;
    0x03; 0x02; 0x05; 0x00; 0x30; 0x0c; 0x06; 0x03; 0x55; 0x1d; 0x13; 0x01; 0x01; 0xff; 0x04; 0x02;
    0x30; 0x00].
(** src/core/test/x509.cpp:208 *)
Definition ENCODED_BASIC_CONSTRAINTS_NOT_CA_NO_PATH_LENGTH : list byte :=
  bytes [0x30; 0x00].
(** src/core/test/x509.cpp:211 *)
Definition ENCODED_BASIC_CONSTRAINTS_IS_CA_NO_PATH_LENGTH : list byte :=
  bytes [0x30; 0x03; 0x01; 0x01; 0xff].
(** src/core/test/x509.cpp:213 *)
Definition ENCODED_BASIC_CONSTRAINTS_IS_CA_HAS_PATH_LENGTH : list byte :=
  bytes [0x30; 0x06; 0x01; 0x01; 0xff; 0x02; 0x01; 0x00].
(** src/core/test/x509.cpp:215 *)
Definition ENCODED_BASIC_CONSTRAINTS_IS_CA_HAS_PATH_LENGTH_ONE : list byte :=
  bytes [0x30; 0x06; 0x01; 0x01; 0xff; 0x02; 0x01; 0x01].
(** src/core/test/x509.cpp:248 *)
Definition ENCODED_KEY_USAGE_ZERO_BITS : list byte :=
  bytes [0x03; 0x01; 0x00].
(** src/core/test/x509.cpp:266 *)
Definition ENCODED_KEY_USAGE_SIX_BITS : list byte :=
  bytes [0x03; 0x02; 0x02; 0x84].
(** src/core/test/x509.cpp:286 *)
Definition ENCODED_KEY_USAGE_NINE_BITS : list byte :=
  bytes [0x03; 0x03; 0x07; 0x84; 0x80].
(** src/core/test/x509.cpp:307 *)
Definition ENCODED_KEY_USAGE_NINE_BITS_ALL_SET : list byte :=
  bytes [0x03; 0x03; 0x07; 0xff; 0x80].
(** src/core/test/x509.cpp:352 *)
Definition ENCODED_CERT_TBS_NULL : list byte :=
  bytes [0x30; 0x00].
(** src/core/test/x509.cpp:368 *)
Definition ENCODED_CERT_TBS_ZERO : list byte :=
  bytes [0x30; 0x3d; 0xa0; 0x03; 0x02; 0x01; 0x02; 0x02; 0x01; 0x00; 0x30; 0x02; 0x05; 0x00; 0x30; 0x00;
    0x30; 0x22; 0x18; 0x0f; 0x31; 0x39; 0x37; 0x30; 0x30; 0x31; 0x30; 0x31; 0x30; 0x30; 0x30; 0x30;
    0x30; 0x30; 0x5a; 0x18; 0x0f; 0x39; 0x39; 0x39; 0x39; 0x31; 0x32; 0x33; 0x31; 0x32; 0x33; 0x35;
    0x39; 0x35; 0x39; 0x5a; 0x30; 0x00; 0x30; 0x07; 0x30; 0x02; 0x05; 0x00; 0x03; 0x01; 0x00].
(** src/core/test/x509.cpp:406 *)
Definition ENCODED_CERT_TBS_NONZERO : list byte :=
  bytes [0x30; 0x81; 0xf8; 0xa0; 0x03; 0x02; 0x01; 0x02; 0x02; 0x14; 0x7f; 0xff; 0xff; 0xff; 0xff; 0xff;
    0xff; 0xff; 0xff; 0xff; 0xff; 0xff; 0xff; 0xff; 0xff; 0xff; 0xff; 0xff; 0xff; 0xff; 0x30; 0x05;
    0x06; 0x03; 0x2b; 0x65; 0x70; 0x30; 0x37; 0x31; 0x0b; 0x30; 0x09; 0x06; 0x03; 0x55; 0x04; 0x06;
    0x13; 0x02; 0x55; 0x53; 0x31; 0x11; 0x30; 0x0f; 0x06; 0x03; 0x55; 0x04; 0x07; 0x13; 0x08; 0x53;
    0x63; 0x72; 0x61; 0x6e; 0x74; 0x6f; 0x6e; 0x31; 0x15; 0x30; 0x13; 0x06; 0x03; 0x55; 0x04; 0x03;
    0x13; 0x0c; 0x54; 0x65; 0x73; 0x74; 0x20; 0x44; 0x49; 0x43; 0x45; 0x20; 0x43; 0x41; 0x30; 0x22;
    0x18; 0x0f; 0x32; 0x30; 0x32; 0x30; 0x30; 0x39; 0x30; 0x32; 0x31; 0x33; 0x32; 0x35; 0x32; 0x36;
    0x5a; 0x18; 0x0f; 0x32; 0x30; 0x32; 0x30; 0x30; 0x39; 0x30; 0x32; 0x31; 0x33; 0x32; 0x35; 0x32;
    0x36; 0x5a; 0x30; 0x37; 0x31; 0x0b; 0x30; 0x09; 0x06; 0x03; 0x55; 0x04; 0x06; 0x13; 0x02; 0x55;
    0x53; 0x31; 0x11; 0x30; 0x0f; 0x06; 0x03; 0x55; 0x04; 0x07; 0x13; 0x08; 0x53; 0x63; 0x72; 0x61;
    0x6e; 0x74; 0x6f; 0x6e; 0x31; 0x15; 0x30; 0x13; 0x06; 0x03; 0x55; 0x04; 0x03; 0x13; 0x0c; 0x54;
    0x65; 0x73; 0x74; 0x20; 0x44; 0x49; 0x43; 0x45; 0x20; 0x43; 0x41; 0x30; 0x2a; 0x30; 0x05; 0x06;
    0x03; 0x2b; 0x65; 0x70; 0x03; 0x21; 0x00; 0x3b; 0xa9; 0x2f; 0xfd; 0xcb; 0x17; 0x66; 0xde; 0x40;
    0xa2; 0x92; 0xf7; 0x93; 0xde; 0x30; 0xf8; 0x0a; 0x23; 0xa8; 0x31; 0x21; 0x5d; 0xd0; 0x07; 0xd8;
    0x63; 0x24; 0x2e; 0xff; 0x68; 0x21; 0x85; 0xa3; 0x12; 0x30; 0x10; 0x30; 0x0e; 0x06; 0x03; 0x55;
    0x1d; 0x0f; 0x01; 0x01; 0xff; 0x04; 0x04; 0x03; 0x02; 0x05; 0x00].
(** src/core/test/x509.cpp:441 *)
Definition public_key_v : list byte :=
  bytes [0x3b; 0xa9; 0x2f; 0xfd; 0xcb; 0x17; 0x66; 0xde; 0x40; 0xa2; 0x92; 0xf7; 0x93; 0xde; 0x30; 0xf8;
    0x0a; 0x23; 0xa8; 0x31; 0x21; 0x5d; 0xd0; 0x07; 0xd8; 0x63; 0x24; 0x2e; 0xff; 0x68; 0x21; 0x85].

(** include/nat20/x509.h:137-138 and :186-192: the macros N20_X509_RDN and N20_X509_NAME.  The array of eight elements is
    filled up with zeros. *)
Definition N20_X509_RDN (type : oid) (value : String.string) : rdn := mkRdn (Some type) (slice_of (text value)).
Definition N20_X509_NAME (l : list rdn) : name :=
  mkName (len l) (l ++ repeat (mkRdn None (mkSlice 0 None)) (8 - length l)).
(** src/core/test/x509.cpp:64-65 *)
Definition TEST_SERIAL : list byte := bytes [1; 2; 3; 4; 5; 6; 7; 8; 9; 10; 11; 12; 13; 14; 15; 16; 17; 18; 19; 20].

(** src/core/test/x509.cpp:67-134.  [NAME_NINE] claims nine elements of an array of eight. *)
Definition name_rows (E : Env) : list (cmd * list byte) :=
  [(n20_x509_name None, ENCODED_NAME_NULL);
   (n20_x509_name (Some (N20_X509_NAME [])), ENCODED_NAME_EMPTY);
   (n20_x509_name (Some (N20_X509_NAME [N20_X509_RDN OID_COUNTRY_NAME "US"])), ENCODED_NAME_ONE);
   (n20_x509_name (Some (N20_X509_NAME [N20_X509_RDN OID_COUNTRY_NAME "US"; N20_X509_RDN OID_LOCALITY_NAME "Pittsburgh"])),
    ENCODED_NAME_TWO);
   (n20_x509_name (Some (mkName 9 (repeat (mkRdn None (mkSlice 0 None)) 8))), ENCODED_NAME_NULL);
   (n20_x509_name (Some (N20_X509_NAME
      [N20_X509_RDN OID_COUNTRY_NAME "US"; N20_X509_RDN OID_LOCALITY_NAME "Scranton";
       N20_X509_RDN OID_ORGANIZATION_NAME "Test DICE CA"; N20_X509_RDN OID_COMMON_NAME "DICE Layer 00";
       mkRdn (Some OID_SERIAL_NUMBER) (slice_of TEST_SERIAL)])), ENCODED_NAME_WITH_SERIAL);
   (n20_x509_name (Some (N20_X509_NAME [mkRdn (Some OID_SERIAL_NUMBER) (mkSlice 5 None)])), ENCODED_NAME_WITH_EMPTY_SERIAL);
   (n20_x509_name (Some (N20_X509_NAME [mkRdn (Some OID_SERIAL_NUMBER) (mkSlice 0 (Some (text "ignored")))])),
    ENCODED_NAME_WITH_EMPTY_SERIAL)].
Example x509_name_conforms : all_agree 133 name_rows = true.
Proof. vm_compute. reflexivity. Qed.

(** src/core/test/x509.cpp:140-206 *)
Definition key_usage_content_cb (E : Env) : cmd := n20_asn1_bitstring (Some (bytes [0x05])) 3 n20_asn1_tag_info_no_override.
Definition basic_constraints_content_cb (E : Env) : cmd := n20_asn1_sequence None n20_asn1_tag_info_no_override.
Definition extensions_one (E : Env) : extensions :=
  mkExtensions 1 (Some [mkExtension (Some OID_KEY_USAGE) true (Some (key_usage_content_cb E))]).
Definition extension_rows (E : Env) : list (cmd * list byte) :=
  [(n20_x509_extension None, ENCODED_EXTENSIONS_EMPTY);
   (n20_x509_extension (Some (mkExtensions 0 None)), ENCODED_EXTENSIONS_EMPTY);
   (n20_x509_extension (Some (mkExtensions 1 (Some [mkExtension (Some OID_KEY_USAGE) false None]))),
    ENCODED_EXTENSIONS_ONE_EMPTY_EXTN_VALUE);
   (n20_x509_extension (Some (extensions_one E)), ENCODED_EXTENSIONS_ONE);
   (n20_x509_extension (Some (mkExtensions 2 (Some
      [mkExtension (Some OID_KEY_USAGE) true (Some (key_usage_content_cb E));
       mkExtension (Some OID_BASIC_CONSTRAINTS) true (Some (basic_constraints_content_cb E))]))), ENCODED_EXTENSIONS_TWO)].
Example x509_extension_conforms : all_agree 128 extension_rows = true.
Proof. vm_compute. reflexivity. Qed.

(** src/core/test/x509.cpp:208-244.  The second row expects the constant of the first. *)
Definition basic_constraints_rows (E : Env) : list (cmd * list byte) :=
  let f ca has n := n20_x509_ext_basic_constraints_content (Some (mkBasicConstraints ca has n)) in
  [(f false false 0, ENCODED_BASIC_CONSTRAINTS_NOT_CA_NO_PATH_LENGTH);
   (f false true 0, ENCODED_BASIC_CONSTRAINTS_NOT_CA_NO_PATH_LENGTH);
   (f true false 0, ENCODED_BASIC_CONSTRAINTS_IS_CA_NO_PATH_LENGTH);
   (f true true 0, ENCODED_BASIC_CONSTRAINTS_IS_CA_HAS_PATH_LENGTH);
   (f true true 1, ENCODED_BASIC_CONSTRAINTS_IS_CA_HAS_PATH_LENGTH_ONE)].
Example x509_basic_constraints_conforms : all_agree 128 basic_constraints_rows = true.
Proof. vm_compute. reflexivity. Qed.

(** src/core/test/x509.cpp:246-349 *)
Definition key_usage_rows (E : Env) : list (cmd * list byte) :=
  let f flags := n20_x509_ext_key_usage_content (Some (fold_left (fun k fl => key_usage_set fl k) flags (mkKeyUsage x00 x00))) in
  [(f [], ENCODED_KEY_USAGE_ZERO_BITS);
   (f [KU_digital_signature; KU_key_cert_sign], ENCODED_KEY_USAGE_SIX_BITS);
   (f [KU_digital_signature; KU_key_cert_sign; KU_decipher_only], ENCODED_KEY_USAGE_NINE_BITS);
   (f [KU_digital_signature; KU_content_commitment; KU_key_encipherment; KU_data_encipherment; KU_key_agreement;
       KU_key_cert_sign; KU_crl_sign; KU_encipher_only; KU_decipher_only], ENCODED_KEY_USAGE_NINE_BITS_ALL_SET);
   (n20_x509_ext_key_usage_content (Some (mkKeyUsage xff xff)), ENCODED_KEY_USAGE_NINE_BITS_ALL_SET)].
Example x509_key_usage_conforms : all_agree 128 key_usage_rows = true.
Proof. vm_compute. reflexivity. Qed.

(** src/core/test/x509.cpp:351-491 *)
Definition zero_tbs : tbs :=
  mkTbs (mkSlice 0 None) (mkAlg None pv_none) (N20_X509_NAME []) (mkValidity (mkSlice 0 None) (mkSlice 0 None))
    (N20_X509_NAME []) (mkSpki (mkAlg None pv_none) 0 None) (mkExtensions 0 None).
Definition nonzero_tbs (E : Env) : tbs :=
  let who := N20_X509_NAME [N20_X509_RDN OID_COUNTRY_NAME "US"; N20_X509_RDN OID_LOCALITY_NAME "Scranton";
                            N20_X509_RDN OID_COMMON_NAME "Test DICE CA"] in
  let time := slice_of (text "20200902132526Z") in
  mkTbs (slice_of (x7f :: repeat xff 19)) (mkAlg (Some OID_ED25519) pv_none) who (mkValidity time time) who
    (mkSpki (mkAlg (Some OID_ED25519) pv_none) 256 (Some public_key_v)) (extensions_one E).
Definition tbs_rows (E : Env) : list (cmd * list byte) :=
  [(n20_x509_cert_tbs None, ENCODED_CERT_TBS_NULL);
   (n20_x509_cert_tbs (Some zero_tbs), ENCODED_CERT_TBS_ZERO);
   (n20_x509_cert_tbs (Some (nonzero_tbs E)), ENCODED_CERT_TBS_NONZERO)].
Example x509_tbs_conforms : all_agree 256 tbs_rows = true.
Proof. vm_compute. reflexivity. Qed.

(** ** The DICE extensions *)
Definition one_extension (o : oid) (critical : bool) (content : cmd) : extensions :=
  mkExtensions 1 (Some [mkExtension (Some o) critical (Some content)]).
Definition null_slice : slice := mkSlice 0 None.

(** src/core/test/x509_ext_open_dice_input.cpp:41 *)
Definition CODE_HASH : list byte :=
  bytes [0x63; 0x63; 0x63; 0x63; 0x63; 0x63; 0x63; 0x63; 0x63; 0x63; 0x63; 0x63; 0x63; 0x63; 0x63; 0x63;
    0x63; 0x63; 0x63; 0x63; 0x63; 0x63; 0x63; 0x63; 0x63; 0x63; 0x63; 0x63; 0x63; 0x63; 0x63; 0x63;
    0x63; 0x63; 0x63; 0x63; 0x63; 0x63; 0x63; 0x63; 0x63; 0x63; 0x63; 0x63; 0x63; 0x63; 0x63; 0x63;
    0x63; 0x63; 0x63; 0x63; 0x63; 0x63; 0x63; 0x63; 0x63; 0x63; 0x63; 0x63; 0x63; 0x63; 0x63; 0x63].
(** src/core/test/x509_ext_open_dice_input.cpp:48 *)
Definition CODE_DESCRIPTOR : list byte :=
  bytes [0x63; 0x6f; 0x64; 0x65].
(** src/core/test/x509_ext_open_dice_input.cpp:50 *)
Definition CONFIGURATION_INLINE : list byte :=
  bytes [0x64; 0x64; 0x64; 0x64; 0x64; 0x64; 0x64; 0x64; 0x64; 0x64; 0x64; 0x64; 0x64; 0x64; 0x64; 0x64;
    0x64; 0x64; 0x64; 0x64; 0x64; 0x64; 0x64; 0x64; 0x64; 0x64; 0x64; 0x64; 0x64; 0x64; 0x64; 0x64;
    0x64; 0x64; 0x64; 0x64; 0x64; 0x64; 0x64; 0x64; 0x64; 0x64; 0x64; 0x64; 0x64; 0x64; 0x64; 0x64;
    0x64; 0x64; 0x64; 0x64; 0x64; 0x64; 0x64; 0x64; 0x64; 0x64; 0x64; 0x64; 0x64; 0x64; 0x64; 0x64].
(** src/core/test/x509_ext_open_dice_input.cpp:57 *)
Definition CONFIGURATION_HASH : list byte :=
  bytes [0x65; 0x65; 0x65; 0x65; 0x65; 0x65; 0x65; 0x65; 0x65; 0x65; 0x65; 0x65; 0x65; 0x65; 0x65; 0x65;
    0x65; 0x65; 0x65; 0x65; 0x65; 0x65; 0x65; 0x65; 0x65; 0x65; 0x65; 0x65; 0x65; 0x65; 0x65; 0x65;
    0x65; 0x65; 0x65; 0x65; 0x65; 0x65; 0x65; 0x65; 0x65; 0x65; 0x65; 0x65; 0x65; 0x65; 0x65; 0x65;
    0x65; 0x65; 0x65; 0x65; 0x65; 0x65; 0x65; 0x65; 0x65; 0x65; 0x65; 0x65; 0x65; 0x65; 0x65; 0x65].
(** src/core/test/x509_ext_open_dice_input.cpp:64 *)
Definition CONFIGURATION_DESCRIPTOR : list byte :=
  bytes [0x63; 0x6f; 0x6e; 0x66; 0x69; 0x67].
(** src/core/test/x509_ext_open_dice_input.cpp:66 *)
Definition AUTHORITY_HASH : list byte :=
  bytes [0x61; 0x61; 0x61; 0x61; 0x61; 0x61; 0x61; 0x61; 0x61; 0x61; 0x61; 0x61; 0x61; 0x61; 0x61; 0x61;
    0x61; 0x61; 0x61; 0x61; 0x61; 0x61; 0x61; 0x61; 0x61; 0x61; 0x61; 0x61; 0x61; 0x61; 0x61; 0x61;
    0x61; 0x61; 0x61; 0x61; 0x61; 0x61; 0x61; 0x61; 0x61; 0x61; 0x61; 0x61; 0x61; 0x61; 0x61; 0x61;
    0x61; 0x61; 0x61; 0x61; 0x61; 0x61; 0x61; 0x61; 0x61; 0x61; 0x61; 0x61; 0x61; 0x61; 0x61; 0x61].
(** src/core/test/x509_ext_open_dice_input.cpp:73 *)
Definition AUTHORITY_DESCRIPTOR : list byte :=
  bytes [0x61; 0x75; 0x74; 0x68].
(** src/core/test/x509_ext_open_dice_input.cpp:76 *)
Definition EXTENSION_WITH_INLINE_CONFIGURATION : list byte :=
  bytes [0xa3; 0x82; 0x01; 0x19; 0x30; 0x82; 0x01; 0x15; 0x30; 0x82; 0x01; 0x11; 0x06; 0x0a; 0x2b; 0x06;
    0x01; 0x04; 0x01; 0xd6; 0x79; 0x02; 0x01; 0x18; 0x01; 0x01; 0xff; 0x04; 0x81; 0xff; 0x30; 0x81;
    0xfc; 0xa0; 0x42; 0x04; 0x40; 0x63; 0x63; 0x63; 0x63; 0x63; 0x63; 0x63; 0x63; 0x63; 0x63; 0x63;
    0x63; 0x63; 0x63; 0x63; 0x63; 0x63; 0x63; 0x63; 0x63; 0x63; 0x63; 0x63; 0x63; 0x63; 0x63; 0x63;
    0x63; 0x63; 0x63; 0x63; 0x63; 0x63; 0x63; 0x63; 0x63; 0x63; 0x63; 0x63; 0x63; 0x63; 0x63; 0x63;
    0x63; 0x63; 0x63; 0x63; 0x63; 0x63; 0x63; 0x63; 0x63; 0x63; 0x63; 0x63; 0x63; 0x63; 0x63; 0x63;
    0x63; 0x63; 0x63; 0x63; 0x63; 0xa1; 0x06; 0x04; 0x04; 0x63; 0x6f; 0x64; 0x65; 0xa3; 0x42; 0x04;
    0x40; 0x64; 0x64; 0x64; 0x64; 0x64; 0x64; 0x64; 0x64; 0x64; 0x64; 0x64; 0x64; 0x64; 0x64; 0x64;
    0x64; 0x64; 0x64; 0x64; 0x64; 0x64; 0x64; 0x64; 0x64; 0x64; 0x64; 0x64; 0x64; 0x64; 0x64; 0x64;
    0x64; 0x64; 0x64; 0x64; 0x64; 0x64; 0x64; 0x64; 0x64; 0x64; 0x64; 0x64; 0x64; 0x64; 0x64; 0x64;
    0x64; 0x64; 0x64; 0x64; 0x64; 0x64; 0x64; 0x64; 0x64; 0x64; 0x64; 0x64; 0x64; 0x64; 0x64; 0x64;
    0x64; 0xa4; 0x42; 0x04; 0x40; 0x61; 0x61; 0x61; 0x61; 0x61; 0x61; 0x61; 0x61; 0x61; 0x61; 0x61;
    0x61; 0x61; 0x61; 0x61; 0x61; 0x61; 0x61; 0x61; 0x61; 0x61; 0x61; 0x61; 0x61; 0x61; 0x61; 0x61;
    0x61; 0x61; 0x61; 0x61; 0x61; 0x61; 0x61; 0x61; 0x61; 0x61; 0x61; 0x61; 0x61; 0x61; 0x61; 0x61;
    0x61; 0x61; 0x61; 0x61; 0x61; 0x61; 0x61; 0x61; 0x61; 0x61; 0x61; 0x61; 0x61; 0x61; 0x61; 0x61;
    0x61; 0x61; 0x61; 0x61; 0x61; 0xa5; 0x06; 0x04; 0x04; 0x61; 0x75; 0x74; 0x68; 0xa6; 0x03; 0x02;
    0x01; 0x01; 0xa7; 0x19; 0x0c; 0x17; 0x41; 0x75; 0x72; 0x6f; 0x72; 0x61; 0x20; 0x4f; 0x70; 0x65;
    0x6e; 0x44; 0x49; 0x43; 0x45; 0x20; 0x50; 0x72; 0x6f; 0x66; 0x69; 0x6c; 0x65].
(** src/core/test/x509_ext_open_dice_input.cpp:132 *)
Definition EXTENSION_WITH_CONFIGURATION_DESCRIPTOR : list byte :=
  bytes [0xa3; 0x82; 0x01; 0x25; 0x30; 0x82; 0x01; 0x21; 0x30; 0x82; 0x01; 0x1d; 0x06; 0x0a; 0x2b; 0x06;
    0x01; 0x04; 0x01; 0xd6; 0x79; 0x02; 0x01; 0x18; 0x01; 0x01; 0xff; 0x04; 0x82; 0x01; 0x0a; 0x30;
    0x82; 0x01; 0x06; 0xa0; 0x42; 0x04; 0x40; 0x63; 0x63; 0x63; 0x63; 0x63; 0x63; 0x63; 0x63; 0x63;
    0x63; 0x63; 0x63; 0x63; 0x63; 0x63; 0x63; 0x63; 0x63; 0x63; 0x63; 0x63; 0x63; 0x63; 0x63; 0x63;
    0x63; 0x63; 0x63; 0x63; 0x63; 0x63; 0x63; 0x63; 0x63; 0x63; 0x63; 0x63; 0x63; 0x63; 0x63; 0x63;
    0x63; 0x63; 0x63; 0x63; 0x63; 0x63; 0x63; 0x63; 0x63; 0x63; 0x63; 0x63; 0x63; 0x63; 0x63; 0x63;
    0x63; 0x63; 0x63; 0x63; 0x63; 0x63; 0x63; 0xa1; 0x06; 0x04; 0x04; 0x63; 0x6f; 0x64; 0x65; 0xa2;
    0x42; 0x04; 0x40; 0x65; 0x65; 0x65; 0x65; 0x65; 0x65; 0x65; 0x65; 0x65; 0x65; 0x65; 0x65; 0x65;
    0x65; 0x65; 0x65; 0x65; 0x65; 0x65; 0x65; 0x65; 0x65; 0x65; 0x65; 0x65; 0x65; 0x65; 0x65; 0x65;
    0x65; 0x65; 0x65; 0x65; 0x65; 0x65; 0x65; 0x65; 0x65; 0x65; 0x65; 0x65; 0x65; 0x65; 0x65; 0x65;
    0x65; 0x65; 0x65; 0x65; 0x65; 0x65; 0x65; 0x65; 0x65; 0x65; 0x65; 0x65; 0x65; 0x65; 0x65; 0x65;
    0x65; 0x65; 0x65; 0xa3; 0x08; 0x04; 0x06; 0x63; 0x6f; 0x6e; 0x66; 0x69; 0x67; 0xa4; 0x42; 0x04;
    0x40; 0x61; 0x61; 0x61; 0x61; 0x61; 0x61; 0x61; 0x61; 0x61; 0x61; 0x61; 0x61; 0x61; 0x61; 0x61;
    0x61; 0x61; 0x61; 0x61; 0x61; 0x61; 0x61; 0x61; 0x61; 0x61; 0x61; 0x61; 0x61; 0x61; 0x61; 0x61;
    0x61; 0x61; 0x61; 0x61; 0x61; 0x61; 0x61; 0x61; 0x61; 0x61; 0x61; 0x61; 0x61; 0x61; 0x61; 0x61;
    0x61; 0x61; 0x61; 0x61; 0x61; 0x61; 0x61; 0x61; 0x61; 0x61; 0x61; 0x61; 0x61; 0x61; 0x61; 0x61;
    0x61; 0xa5; 0x06; 0x04; 0x04; 0x61; 0x75; 0x74; 0x68; 0xa6; 0x03; 0x02; 0x01; 0x01; 0xa7; 0x19;
    0x0c; 0x17; 0x41; 0x75; 0x72; 0x6f; 0x72; 0x61; 0x20; 0x4f; 0x70; 0x65; 0x6e; 0x44; 0x49; 0x43;
    0x45; 0x20; 0x50; 0x72; 0x6f; 0x66; 0x69; 0x6c; 0x65].
(** src/core/test/x509_ext_open_dice_input.cpp:192 *)
Definition EXTENSION_WITHOUT_OPTIONALS : list byte :=
  bytes [0xa3; 0x1c; 0x30; 0x1a; 0x30; 0x18; 0x06; 0x0a; 0x2b; 0x06; 0x01; 0x04; 0x01; 0xd6; 0x79; 0x02;
    0x01; 0x18; 0x01; 0x01; 0xff; 0x04; 0x07; 0x30; 0x05; 0xa6; 0x03; 0x02; 0x01; 0x00].

(** src/core/test/x509_ext_open_dice_input.cpp:225-327 *)
Definition open_dice_rows (E : Env) : list (cmd * list byte) :=
  let ext o := n20_x509_extension (Some (one_extension OID_OPEN_DICE_INPUT true (n20_x509_ext_open_dice_input_content (Some o)))) in
  let profile := slice_of (text "Aurora OpenDICE Profile") in
  [(ext (mkOpenDice (slice_of CODE_HASH) (slice_of CODE_DESCRIPTOR) null_slice (slice_of CONFIGURATION_INLINE)
           (slice_of AUTHORITY_HASH) (slice_of AUTHORITY_DESCRIPTOR) 1 profile), EXTENSION_WITH_INLINE_CONFIGURATION);
   (ext (mkOpenDice (slice_of CODE_HASH) (slice_of CODE_DESCRIPTOR) (slice_of CONFIGURATION_HASH)
           (slice_of CONFIGURATION_DESCRIPTOR) (slice_of AUTHORITY_HASH) (slice_of AUTHORITY_DESCRIPTOR) 1 profile),
    EXTENSION_WITH_CONFIGURATION_DESCRIPTOR);
   (ext (mkOpenDice null_slice null_slice null_slice null_slice null_slice null_slice 0 null_slice),
    EXTENSION_WITHOUT_OPTIONALS);
   (n20_x509_ext_open_dice_input_content None, [])].
Example open_dice_input_conforms : all_agree 2000 open_dice_rows = true.
Proof. vm_compute. reflexivity. Qed.

(** src/core/test/x509_ext_tcg_dice_tcb_info.cpp:48 *)
Definition TEST_DIGEST_1 : list byte :=
  bytes [0xaa; 0xaa; 0xaa; 0xaa; 0xaa; 0xaa; 0xaa; 0xaa; 0xaa; 0xaa; 0xaa; 0xaa; 0xaa; 0xaa; 0xaa; 0xaa;
    0xaa; 0xaa; 0xaa; 0xaa; 0xaa; 0xaa; 0xaa; 0xaa; 0xaa; 0xaa; 0xaa; 0xaa; 0xaa; 0xaa; 0xaa; 0xaa].
(** src/core/test/x509_ext_tcg_dice_tcb_info.cpp:54 *)
Definition TEST_DIGEST_2 : list byte :=
  bytes [0x55; 0x55; 0x55; 0x55; 0x55; 0x55; 0x55; 0x55; 0x55; 0x55; 0x55; 0x55; 0x55; 0x55; 0x55; 0x55;
    0x55; 0x55; 0x55; 0x55; 0x55; 0x55; 0x55; 0x55; 0x55; 0x55; 0x55; 0x55; 0x55; 0x55; 0x55; 0x55;
    0x55; 0x55; 0x55; 0x55; 0x55; 0x55; 0x55; 0x55; 0x55; 0x55; 0x55; 0x55; 0x55; 0x55; 0x55; 0x55;
    0x55; 0x55; 0x55; 0x55; 0x55; 0x55; 0x55; 0x55; 0x55; 0x55; 0x55; 0x55; 0x55; 0x55; 0x55; 0x55].
(** src/core/test/x509_ext_tcg_dice_tcb_info.cpp:96 *)
Definition TEST_TYPE : list byte :=
  bytes [0x54; 0x59; 0x50; 0x45].
(** src/core/test/x509_ext_tcg_dice_tcb_info.cpp:103 *)
Definition TEST_VENDOR_INFO : list byte :=
  bytes [0x56; 0x45; 0x4e; 0x44; 0x4f; 0x53].
(** src/core/test/x509_ext_tcg_dice_tcb_info.cpp:113 *)
Definition EXPECTED_EXTENSION_WITH_ALL_FIELDS : list byte :=
  bytes [0xa3; 0x81; 0xd4; 0x30; 0x81; 0xd1; 0x30; 0x81; 0xce; 0x06; 0x06; 0x67; 0x81; 0x05; 0x05; 0x04;
    0x01; 0x01; 0x01; 0xff; 0x04; 0x81; 0xc0; 0x30; 0x81; 0xbd; 0x80; 0x06; 0x61; 0x75; 0x72; 0x6f;
    0x72; 0x61; 0x81; 0x07; 0x70; 0x65; 0x72; 0x73; 0x65; 0x75; 0x73; 0x82; 0x05; 0x31; 0x2e; 0x30;
    0x2e; 0x35; 0x83; 0x01; 0x05; 0x84; 0x01; 0x06; 0x85; 0x01; 0x07; 0xa6; 0x7e; 0x30; 0x2d; 0x06;
    0x09; 0x60; 0x86; 0x48; 0x01; 0x65; 0x03; 0x04; 0x02; 0x01; 0x04; 0x20; 0xaa; 0xaa; 0xaa; 0xaa;
    0xaa; 0xaa; 0xaa; 0xaa; 0xaa; 0xaa; 0xaa; 0xaa; 0xaa; 0xaa; 0xaa; 0xaa; 0xaa; 0xaa; 0xaa; 0xaa;
    0xaa; 0xaa; 0xaa; 0xaa; 0xaa; 0xaa; 0xaa; 0xaa; 0xaa; 0xaa; 0xaa; 0xaa; 0x30; 0x4d; 0x06; 0x09;
    0x60; 0x86; 0x48; 0x01; 0x65; 0x03; 0x04; 0x02; 0x03; 0x04; 0x40; 0x55; 0x55; 0x55; 0x55; 0x55;
    0x55; 0x55; 0x55; 0x55; 0x55; 0x55; 0x55; 0x55; 0x55; 0x55; 0x55; 0x55; 0x55; 0x55; 0x55; 0x55;
    0x55; 0x55; 0x55; 0x55; 0x55; 0x55; 0x55; 0x55; 0x55; 0x55; 0x55; 0x55; 0x55; 0x55; 0x55; 0x55;
    0x55; 0x55; 0x55; 0x55; 0x55; 0x55; 0x55; 0x55; 0x55; 0x55; 0x55; 0x55; 0x55; 0x55; 0x55; 0x55;
    0x55; 0x55; 0x55; 0x55; 0x55; 0x55; 0x55; 0x55; 0x55; 0x55; 0x55; 0x87; 0x05; 0x00; 0x80; 0x80;
    0x00; 0x01; 0x88; 0x06; 0x56; 0x45; 0x4e; 0x44; 0x4f; 0x53; 0x89; 0x04; 0x54; 0x59; 0x50; 0x45;
    0x8a; 0x05; 0x00; 0xff; 0x80; 0x00; 0x01].
(** src/core/test/x509_ext_tcg_dice_tcb_info.cpp:170 *)
Definition EXPECTED_EXTENSION_WITH_SOME_FIELDS : list byte :=
  bytes [0xa3; 0x2a; 0x30; 0x28; 0x30; 0x26; 0x06; 0x06; 0x67; 0x81; 0x05; 0x05; 0x04; 0x01; 0x01; 0x01;
    0xff; 0x04; 0x19; 0x30; 0x17; 0x83; 0x01; 0x05; 0x84; 0x01; 0x06; 0x85; 0x01; 0x07; 0x87; 0x05;
    0x00; 0x80; 0x80; 0x00; 0x01; 0x8a; 0x05; 0x00; 0xff; 0x80; 0x00; 0x01].
(** src/core/test/x509_ext_tcg_dice_tcb_info.cpp:197 *)
Definition EXPECTED_MULTI_TCB_INFO_EXTENSION : list byte :=
  bytes [0xa3; 0x81; 0xf0; 0x30; 0x81; 0xed; 0x30; 0x81; 0xea; 0x06; 0x06; 0x67; 0x81; 0x05; 0x05; 0x04;
    0x05; 0x01; 0x01; 0xff; 0x04; 0x81; 0xdc; 0x30; 0x81; 0xd9; 0x30; 0x81; 0xbd; 0x80; 0x06; 0x61;
    0x75; 0x72; 0x6f; 0x72; 0x61; 0x81; 0x07; 0x70; 0x65; 0x72; 0x73; 0x65; 0x75; 0x73; 0x82; 0x05;
    0x31; 0x2e; 0x30; 0x2e; 0x35; 0x83; 0x01; 0x05; 0x84; 0x01; 0x06; 0x85; 0x01; 0x07; 0xa6; 0x7e;
    0x30; 0x2d; 0x06; 0x09; 0x60; 0x86; 0x48; 0x01; 0x65; 0x03; 0x04; 0x02; 0x01; 0x04; 0x20; 0xaa;
    0xaa; 0xaa; 0xaa; 0xaa; 0xaa; 0xaa; 0xaa; 0xaa; 0xaa; 0xaa; 0xaa; 0xaa; 0xaa; 0xaa; 0xaa; 0xaa;
    0xaa; 0xaa; 0xaa; 0xaa; 0xaa; 0xaa; 0xaa; 0xaa; 0xaa; 0xaa; 0xaa; 0xaa; 0xaa; 0xaa; 0xaa; 0x30;
    0x4d; 0x06; 0x09; 0x60; 0x86; 0x48; 0x01; 0x65; 0x03; 0x04; 0x02; 0x03; 0x04; 0x40; 0x55; 0x55;
    0x55; 0x55; 0x55; 0x55; 0x55; 0x55; 0x55; 0x55; 0x55; 0x55; 0x55; 0x55; 0x55; 0x55; 0x55; 0x55;
    0x55; 0x55; 0x55; 0x55; 0x55; 0x55; 0x55; 0x55; 0x55; 0x55; 0x55; 0x55; 0x55; 0x55; 0x55; 0x55;
    0x55; 0x55; 0x55; 0x55; 0x55; 0x55; 0x55; 0x55; 0x55; 0x55; 0x55; 0x55; 0x55; 0x55; 0x55; 0x55;
    0x55; 0x55; 0x55; 0x55; 0x55; 0x55; 0x55; 0x55; 0x55; 0x55; 0x55; 0x55; 0x55; 0x55; 0x87; 0x05;
    0x00; 0x80; 0x80; 0x00; 0x01; 0x88; 0x06; 0x56; 0x45; 0x4e; 0x44; 0x4f; 0x53; 0x89; 0x04; 0x54;
    0x59; 0x50; 0x45; 0x8a; 0x05; 0x00; 0xff; 0x80; 0x00; 0x01; 0x30; 0x17; 0x83; 0x01; 0x05; 0x84;
    0x01; 0x06; 0x85; 0x01; 0x07; 0x87; 0x05; 0x00; 0x80; 0x80; 0x00; 0x01; 0x8a; 0x05; 0x00; 0xff;
    0x80; 0x00; 0x01].

(** src/core/test/x509_ext_tcg_dice_tcb_info.cpp:48-113, 266-503 *)
Definition full_tcb_info : tcb_info :=
  mkTcbInfo (slice_of (text "aurora")) (slice_of (text "perseus")) (slice_of (text "1.0.5")) 5 6 7 2
    (Some [mkFwid OID_SHA256 (slice_of TEST_DIGEST_1); mkFwid OID_SHA512 (slice_of TEST_DIGEST_2)])
    (bytes [0x80; 0x80; 0x00; 0x01]) (bytes [0xff; 0x80; 0x00; 0x01]) (slice_of TEST_VENDOR_INFO) (slice_of TEST_TYPE).
Definition small_tcb_info : tcb_info :=
  mkTcbInfo null_slice null_slice null_slice 5 6 7 0 None
    (bytes [0x80; 0x80; 0x00; 0x01]) (bytes [0xff; 0x80; 0x00; 0x01]) null_slice null_slice.
Definition tcb_info_rows (E : Env) : list (cmd * list byte) :=
  let ext t := n20_x509_extension (Some (one_extension OID_TCG_DICE_TCB_INFO true (n20_x509_ext_tcg_dice_tcb_info_content (Some t)))) in
  [(ext full_tcb_info, EXPECTED_EXTENSION_WITH_ALL_FIELDS);
   (ext small_tcb_info, EXPECTED_EXTENSION_WITH_SOME_FIELDS);
   (n20_x509_ext_tcg_dice_tcb_info_content None, []);
   (n20_x509_extension (Some (one_extension OID_TCG_DICE_MULTI_TCB_INFO true
      (n20_x509_ext_tcg_dice_multi_tcb_info_content (Some (mkMulti 2 (Some [full_tcb_info; small_tcb_info])))))),
    EXPECTED_MULTI_TCB_INFO_EXTENSION);
   (n20_x509_ext_tcg_dice_multi_tcb_info_content None, [])].
Example tcb_info_conforms : all_agree 2000 tcb_info_rows = true.
Proof. vm_compute. reflexivity. Qed.

(** src/core/test/x509_ext_tcg_dice_tcb_freshness.cpp:34 *)
Definition TEST_NONCE : list byte :=
  bytes [0x00; 0x01; 0x02; 0x03; 0x04; 0x05; 0x06; 0x07].
(** src/core/test/x509_ext_tcg_dice_tcb_freshness.cpp:46 *)
Definition EXPECTED_TCB_FRESHNESS_EXTENSION : list byte :=
  bytes [0xa3; 0x1d; 0x30; 0x1b; 0x30; 0x19; 0x06; 0x06; 0x67; 0x81; 0x05; 0x05; 0x04; 0x0b; 0x01; 0x01;
    0xff; 0x04; 0x0c; 0x30; 0x0a; 0x04; 0x08; 0x00; 0x01; 0x02; 0x03; 0x04; 0x05; 0x06; 0x07].
(** src/core/test/x509_ext_tcg_dice_ueid.cpp:34 *)
Definition TEST_UEID : list byte :=
  bytes [0x00; 0x01; 0x02; 0x03; 0x04; 0x05; 0x06; 0x07].
(** src/core/test/x509_ext_tcg_dice_ueid.cpp:46 *)
Definition EXPECTED_UEID_EXTENSION : list byte :=
  bytes [0xa3; 0x1a; 0x30; 0x18; 0x30; 0x16; 0x06; 0x06; 0x67; 0x81; 0x05; 0x05; 0x04; 0x04; 0x04; 0x0c;
    0x30; 0x0a; 0x04; 0x08; 0x00; 0x01; 0x02; 0x03; 0x04; 0x05; 0x06; 0x07].

(** src/core/test/x509_ext_tcg_dice_tcb_freshness.cpp:66-130 and x509_ext_tcg_dice_ueid.cpp:64-128 *)
Definition freshness_and_ueid_rows (E : Env) : list (cmd * list byte) :=
  [(n20_x509_extension (Some (one_extension OID_TCG_DICE_TCB_FRESHNESS true
      (n20_x509_ext_tcg_dice_tcb_freshness_content (Some (slice_of TEST_NONCE))))), EXPECTED_TCB_FRESHNESS_EXTENSION);
   (n20_x509_ext_tcg_dice_tcb_freshness_content None, []);
   (n20_x509_extension (Some (one_extension OID_TCG_DICE_UEID false
      (n20_x509_ext_tcg_dice_ueid_content (Some (slice_of TEST_UEID))))), EXPECTED_UEID_EXTENSION);
   (n20_x509_ext_tcg_dice_ueid_content None, [])].
Example freshness_and_ueid_conform : all_agree 2000 freshness_and_ueid_rows = true.
Proof. vm_compute. reflexivity. Qed.
