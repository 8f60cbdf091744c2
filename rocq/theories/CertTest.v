(** The end-to-end certificate test, src/core/test/x509.cpp:497-891: its four sets of parameters, its template and its two certificates.

    Simplified: the checks in between that parse and verify the certificates with BoringSSL (d2i_X509, X509_verify, bssl::CertificateVerify, 762-794 and 859-890)
    are left out; they change nothing that is used later. *)
From Coq Require Import List NArith ZArith Bool Strings.Byte.
From Coq Require Strings.String.
From Verif Require Import Base Stream Asn1 Oid X509 X509Ext Res Crypto Bssl BsslKeys Issue ConformCore ConformX509.
Import ListNotations.
Import Coq.Strings.String.StringSyntax.
Open Scope string_scope.
Open Scope list_scope.
Open Scope N_scope.

(** src/core/test/x509.cpp:525-563: the key type, the two algorithm identifiers and has_path_length. *)
Record cert_params := mkParams { cp_key_type : N; cp_sig_alg : algorithm_identifier; cp_key_alg : algorithm_identifier; cp_has_path_length : bool }.
Definition cert_test_values : list cert_params :=
  [mkParams key_type_ed25519_e (mkAlg (Some OID_ED25519) pv_none) (mkAlg (Some OID_ED25519) pv_none) true;
   mkParams key_type_ed25519_e (mkAlg (Some OID_ED25519) pv_none) (mkAlg (Some OID_ED25519) pv_none) false;
   mkParams key_type_secp256r1_e (mkAlg (Some OID_ECDSA_WITH_SHA256) pv_none) (mkAlg (Some OID_EC_PUBLIC_KEY) (pv_ec_curve (Some OID_SECP256R1))) true;
   mkParams key_type_secp384r1_e (mkAlg (Some OID_ECDSA_WITH_SHA384) pv_none) (mkAlg (Some OID_EC_PUBLIC_KEY) (pv_ec_curve (Some OID_SECP384R1))) true].

Section WithEnv.
Context `{E : Env}.

(** src/core/test/x509.cpp:660-668 *)
Definition cert_key_usage : key_usage := key_usage_set KU_key_cert_sign (key_usage_set KU_digital_signature (mkKeyUsage x00 x00)).
Definition cert_basic_constraints (p : cert_params) : basic_constraints := mkBasicConstraints true (cp_has_path_length p) 1.
(** src/core/test/x509.cpp:669-682 *)
Definition cert_extensions (p : cert_params) : list extension :=
  [mkExtension (Some OID_KEY_USAGE) true (Some (n20_x509_ext_key_usage_content (Some cert_key_usage)));
   mkExtension (Some OID_BASIC_CONSTRAINTS) true (Some (n20_x509_ext_basic_constraints_content (Some (cert_basic_constraints p))))].
Definition dunder_mifflin : name :=
  N20_X509_NAME
    [N20_X509_RDN OID_COUNTRY_NAME "US"; N20_X509_RDN OID_LOCALITY_NAME "Scranton"; N20_X509_RDN OID_ORGANIZATION_NAME "Dunder Mifflin Paper Company, Inc.";
     N20_X509_RDN OID_ORGANIZATION_UNIT_NAME "Dunder Mifflin Information Security"; N20_X509_RDN OID_COMMON_NAME "Dunder Mifflin DICE Authority"].
(** src/core/test/x509.cpp:683-715, apart from the public key, which [template_for] puts in. *)
Definition cert_template (p : cert_params) : tbs :=
  mkTbs (slice_of (bytes [1])) (cp_sig_alg p) dunder_mifflin (mkValidity (mkSlice 0 None) (mkSlice 0 None)) dunder_mifflin
    (mkSpki (cp_key_alg p) 0 None) (mkExtensions 2 (Some (cert_extensions p))).

(** [A] and [A2] are the choices of the allocator before and after the first signing key has been freed: it need not give the same address again. *)
Context `{B : Bssl} (A A2 : Allocator).

(** src/core/test/x509.cpp:639-857.  The arrays are uninitialised there; here they are arguments.  The result is the undefined behaviour met, the heap, and
    the two certificates, or [None] if an ASSERT failed.  For the second key only the public key is fetched; the signed part is that of the first. *)
Definition CertEncoding (fuel : nat) (h : heap) (cdi : N) (p : cert_params)
    (public_key_buffer signature buffer public_key_buffer2 signature2 buffer2 : list byte) : res (list ub * heap * option (list byte * list byte)) :=
  do (h, signing_key) <- GetSigningKey (A := A) fuel h cdi (cp_key_type p) (text "signing key 1");
  do t <- template_for h signing_key (cp_key_type p) (cert_template p) public_key_buffer;
  match t with
  | None => Ret ([], h, None)
  | Some t =>
      do (u, h, cert) <- issue_tbs h signing_key (cp_key_type p) t signature buffer;
      match cert with
      | None => Ret (u, h, None)
      | Some cert =>
          do (h, signing_key2) <- GetSigningKey (A := A2) fuel h cdi (cp_key_type p) (text "signing key 2");
          do t2 <- template_for h signing_key2 (cp_key_type p) t public_key_buffer2;
          match t2 with
          | None => Ret (u, h, None)
          | Some _ =>
              do (u2, h, cert2) <- issue_tbs h signing_key2 (cp_key_type p) t signature2 buffer2;
              Ret (u2 ++ u, h, match cert2 with Some cert2 => Some (cert, cert2) | None => None end)
          end
      end
  end.

(** src/core/test/x509.cpp:497-510: the secret is made before and freed after the test. The context of BoringSSL has no contents (see BsslKeys.v). *)
Definition run_cert_test (fuel : nat) (h : heap) (test_cdi : list byte) (p : cert_params)
    (public_key_buffer signature buffer public_key_buffer2 signature2 buffer2 : list byte) : res (list ub * heap * option (list byte * list byte)) :=
  do (_, h, cdi) <- n20_crypto_boringssl_make_secret (A := A) true h (Some (slice_of test_cdi)) (Some 0);
  let cdi := match cdi with Some a => a | None => 0 end in
  do (u, h, r) <- CertEncoding fuel h cdi p public_key_buffer signature buffer public_key_buffer2 signature2 buffer2;
  do (_, h) <- n20_crypto_boringssl_key_free true h cdi;
  Ret (u, h, r).

End WithEnv.
