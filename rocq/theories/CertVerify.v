(** The whole of the end-to-end certificate test, src/core/test/x509.cpp:497-891, with its checks that parse and verify the certificates with BoringSSL.

    Simplified: the parser and the verifiers are functions of what they are given, so that nothing is said about failing allocations in them; X509_print_ex_fp
    (768 and 865) and the texts after the checks are output only. *)
From Coq Require Import List NArith ZArith Bool Strings.Byte.
From Coq Require Strings.String.
From Verif Require Import Base Stream Asn1 Oid X509 X509Ext Res Crypto Bssl BsslKeys Issue ConformCore ConformX509 CertTest.
Import ListNotations.
Import Coq.Strings.String.StringSyntax.
Open Scope string_scope.
Open Scope list_scope.
Open Scope N_scope.

(** bssl::VerifyError::StatusCode, as far as the test tells them apart. *)
Inductive status_code := PATH_VERIFIED | CERTIFICATE_INVALID_SIGNATURE | OTHER_STATUS (n : N).

(** What BoringSSL gives the test: d2i_X509 and X509_verify; EVP_PKEY_new_raw_public_key for Ed25519; EC_KEY_new_by_curve_name, o2i_ECPublicKey, EVP_PKEY_new and
    EVP_PKEY_assign_EC_KEY together; bssl::VerifyTrustStore::FromDER; bssl::CertificateVerify with this trust store and leaf and all other options as they come,
    of which the test looks at whether a result is there and at the code of the error. *)
Class Pki := {
  x509_object : Type;
  evp_pkey : Type;
  trust_store : Type;
  d2i_X509 : list byte -> option x509_object;
  X509_verify : x509_object -> option evp_pkey -> Z;
  ed25519_evp_pkey : list byte -> option evp_pkey;
  ec_evp_pkey : curve -> list byte -> option evp_pkey;
  trust_store_from_der : list byte -> option trust_store;
  certificate_verify : trust_store -> list byte -> bool * status_code
}.

Section WithEnv.
Context `{E : Env} `{B : Bssl} `{L : Pki} (A A2 : Allocator).

(** src/core/test/x509.cpp:565-608; [None] is the null pointer, each time with a failure added to the test. *)
Definition n20_crypto_key_to_evp_pkey_ptr (key_type : N) (public_key : list byte) : option evp_pkey :=
  if key_type =? key_type_ed25519_e then ed25519_evp_pkey public_key
  else if key_type =? key_type_secp256r1_e then ec_evp_pkey P256 public_key
  else if key_type =? key_type_secp384r1_e then ec_evp_pkey P384 public_key
  else None.
(** public_key and public_key_size (646-658): the key that the template has been given. *)
Definition public_key_of (t : tbs) : list byte :=
  match spki_key (tbs_spki t) with Some d => takeN (spki_bits (tbs_spki t) / 8) d | None => [] end.
(** src/core/test/x509.cpp:512-522, with the verdict of its EXPECT. *)
Definition GetSigningKey_checked (A : Allocator) (fuel : nat) (h : heap) (cdi key_type : N) (label : list byte) : res (heap * N * bool) :=
  do (rc, h, signing_key) <- n20_crypto_boringssl_kdf fuel true h cdi key_type (Some (mkGather 1 (Some [slice_of label]))) (Some 0);
  Ret (h, match signing_key with Some a => a | None => 0 end, error_eqb ok_e rc).

(** src/core/test/x509.cpp:639-891. The last component of the result: no check has failed. *)
Definition CertEncoding_checked (fuel : nat) (h : heap) (cdi : N) (p : cert_params)
    (public_key_buffer signature buffer public_key_buffer2 signature2 buffer2 : list byte) : res (list ub * heap * bool) :=
  let key_type := cp_key_type p in
  do (h, signing_key, expected) <- GetSigningKey_checked A fuel h cdi key_type (text "signing key 1");
  do t <- template_for h signing_key key_type (cert_template p) public_key_buffer;
  match t with
  | None => Ret ([], h, false)
  | Some t =>
      do (u, h, cert) <- issue_tbs h signing_key key_type t signature buffer;
      match cert with
      | None => Ret (u, h, false)
      | Some cert =>
          match d2i_X509 cert with
          | None => Ret (u, h, false)
          | Some x509i =>
              let key := n20_crypto_key_to_evp_pkey_ptr key_type (public_key_of t) in
              if negb (X509_verify x509i key =? 1)%Z then Ret (u, h, false) else
              (* 774-794; the trust store, which is not made for Ed25519 *)
              let path :=
                if negb (key_type =? key_type_ed25519_e) then
                  match trust_store_from_der cert with
                  | None => None
                  | Some store => match certificate_verify store cert with (true, PATH_VERIFIED) => Some (Some store) | _ => None end
                  end
                else Some None in
              match path with
              | None => Ret (u, h, false)
              | Some store =>
                  do (h, signing_key2, expected2) <- GetSigningKey_checked A2 fuel h cdi key_type (text "signing key 2");
                  do t2 <- template_for h signing_key2 key_type t public_key_buffer2;
                  match t2 with
                  | None => Ret (u, h, false)
                  | Some t2 =>
                      do (u2, h, cert2) <- issue_tbs h signing_key2 key_type t signature2 buffer2;
                      match cert2 with
                      | None => Ret (u2 ++ u, h, false)
                      | Some cert2 =>
                          match d2i_X509 cert2 with
                          | None => Ret (u2 ++ u, h, false)
                          | Some x509i2 =>
                              let key2 := n20_crypto_key_to_evp_pkey_ptr key_type (public_key_of t2) in
                              let rejected :=
                                match store with
                                | None => true
                                | Some store => match certificate_verify store cert2 with (false, CERTIFICATE_INVALID_SIGNATURE) => true | _ => false end
                                end in
                              Ret (u2 ++ u, h,
                                   expected && expected2 && match key, key2 with Some _, Some _ => true | _, _ => false end &&
                                   (X509_verify x509i2 key2 =? 1)%Z && (X509_verify x509i2 key =? 0)%Z && rejected)
                          end
                      end
                  end
              end
          end
      end
  end.

(** src/core/test/x509.cpp:497-510. *)
Definition cert_test_passes (fuel : nat) (h : heap) (test_cdi : list byte) (p : cert_params)
    (public_key_buffer signature buffer public_key_buffer2 signature2 buffer2 : list byte) : res (list ub * heap * bool) :=
  do (rc, h, cdi) <- n20_crypto_boringssl_make_secret (A := A) true h (Some (slice_of test_cdi)) (Some 0);
  let set_up := error_eqb ok_e (fst (n20_crypto_boringssl_open (A := A) true)) && error_eqb ok_e rc in
  let cdi := match cdi with Some a => a | None => 0 end in
  do (u, h, passed) <- CertEncoding_checked fuel h cdi p public_key_buffer signature buffer public_key_buffer2 signature2 buffer2;
  do (rc, h) <- n20_crypto_boringssl_key_free true h cdi;
  let torn_down := error_eqb ok_e rc && error_eqb ok_e (n20_crypto_boringssl_close true) in
  Ret (u, h, set_up && passed && torn_down).

End WithEnv.
