(** Model of the certificate issuing procedure of the repository's end-to-end test: src/core/test/x509.cpp, class CertTest and the helpers n20_x509_rs*; and of
    signature_2_asn1_sequence in src/crypto/test/crypto.cpp. *)
From Coq Require Import List NArith ZArith Bool Strings.Byte.
From Verif Require Import Base Stream Asn1 Oid X509 Res Crypto Bssl BsslKeys.
Import ListNotations.
Open Scope N_scope.

Section WithEnv.
Context `{E : Env}.

(** src/core/test/x509.cpp:620-631. [signature] is the object behind the pointer; [dropN n signature] is the pointer [signature + n]. *)
Definition n20_x509_rs_content (signature : list byte) (signature_size : N) : cmd :=
  (n20_asn1_integer (mkSlice (signature_size / 2) (Some (dropN (signature_size / 2) signature))) false false n20_asn1_tag_info_no_override ;;
   n20_asn1_integer (mkSlice (signature_size / 2) (Some signature)) false false n20_asn1_tag_info_no_override)%cmd.

(** src/core/test/x509.cpp:633-635 *)
Definition n20_x509_rs (signature : list byte) (signature_size : N) : cmd :=
  n20_asn1_sequence (Some (n20_x509_rs_content signature signature_size)) n20_asn1_tag_info_no_override.

(** src/core/test/x509.cpp:712-718, 733-739, 747-751: [n20_stream_init] on the whole buffer, the rendering call, the two ASSERTs, and the bytes from
    [n20_stream_data] on. The results: the undefined behaviour met, the buffer afterwards, and the rendered bytes ([None]: an ASSERT fails). *)
Definition render (buffer : list byte) (f : cmd) : list ub * list byte * option slice :=
  let w := f (mkWorld (Some (n20_stream_init (Some buffer) (len buffer))) []) in
  let s := w_stream w in
  let m := match s with Some (mkStream (Some m) _ _ _ _) => m | _ => buffer end in
  (w_ub w, m,
   if n20_stream_has_buffer_overflow s || n20_stream_has_write_position_overflow s then None
   else match n20_stream_data s with
        | Some off => Some (mkSlice (n20_stream_byte_count s) (Some (dropN off m)))
        | None => None
        end).

(** src/crypto/test/crypto.cpp:926-950, for a vector [sig]. The bytes returned, and the undefined behaviour met. The EXPECT is not modelled: the bytes are returned
    all the same. *)
Definition signature_2_asn1_sequence (buffer sig : list byte) : list ub * list byte :=
  let integer_size := len sig / 2 in
  let content := (n20_asn1_integer (mkSlice integer_size (Some (dropN integer_size sig))) false false n20_asn1_tag_info_no_override ;;
                  n20_asn1_integer (mkSlice integer_size (Some sig)) false false n20_asn1_tag_info_no_override)%cmd in
  let w := with_length content (fun n => n20_asn1_header N20_ASN1_CLASS_UNIVERSAL true N20_ASN1_TAG_SEQUENCE n)
             (mkWorld (Some (n20_stream_init (Some buffer) 104)) []) in
  match w_stream w, n20_stream_data (w_stream w) with
  | Some (mkStream (Some m) _ _ _ _), Some off => (w_ub w, takeN (n20_stream_byte_count (w_stream w)) (dropN off m))
  | _, _ => (w_ub w, [])
  end.

Context `{B : Bssl}.

(** src/core/test/x509.cpp:687-709: the template with the key put in. *)
Definition with_key (t : tbs) (public_key : list byte) (public_key_size : N) : tbs :=
  mkTbs (tbs_serial t) (tbs_sig_alg t) (tbs_issuer t) (tbs_validity t) (tbs_subject t)
    (mkSpki (spki_alg (tbs_spki t)) (public_key_size * 8) (Some public_key)) (tbs_exts t).

(** The undefined behaviour met, the heap, and the certificate ([None]: an ASSERT failed and the function returned). *)
Definition issued : Type := list ub * heap * option (list byte).

(** src/core/test/x509.cpp:733-760: the signature is wrapped, for ECDSA, and the certificate assembled. *)
Definition issue_signed (u : list ub) (h : heap) (key_type : N) (t : tbs) (buffer signature : list byte) (signature_size : N) : res issued :=
  do (u, buffer, r) <-
    (if (key_type =? key_type_secp256r1_e) || (key_type =? key_type_secp384r1_e) then
       match render buffer (n20_x509_rs signature signature_size) with
       | (v, buffer, Some der) => do signature <- write_at signature 0 (slice_bytes der); Ret (v ++ u, buffer, Some (signature, sl_size der))
       | (v, buffer, None) => Ret (v ++ u, buffer, None)
       end
     else Ret (u, buffer, Some (signature, signature_size)));
  match r with
  | None => Ret (u, h, None)
  | Some (signature, signature_size) =>
      match render buffer (n20_x509_cert (Some (mkCert (Some t) (tbs_sig_alg t) (signature_size * 8) (Some signature)))) with
      | (v, _, Some c) => Ret (v ++ u, h, Some (slice_bytes c))
      | (v, _, None) => Ret (v ++ u, h, None)
      end
  end.

(** src/core/test/x509.cpp:717-760, and for a second key 814-857: a given signed part is rendered, signed and made into a certificate. *)
Definition issue_tbs (h : heap) (signing_key key_type : N) (t : tbs) (signature buffer : list byte) : res issued :=
  match render buffer (n20_x509_cert_tbs (Some t)) with
  | (u, buffer, Some tbs_der) =>
      do (rc, out, size) <- n20_crypto_boringssl_sign true h signing_key (Some (mkGather 1 (Some [tbs_der]))) (Some signature) (Some (len signature));
      match rc, out, size with
      | ok_e, Some signature, Some signature_size =>
          do (_, h) <- n20_crypto_boringssl_key_free true h signing_key;
          issue_signed u h key_type t buffer signature signature_size
      | _, _, _ => Ret (u, h, None)
      end
  | (u, _, None) => Ret (u, h, None)
  end.

(** src/core/test/x509.cpp:646-715, for any template: the public key of the signing key and the template with it. [None]: an ASSERT failed. *)
Definition template_for (h : heap) (signing_key key_type : N) (t : tbs) (public_key_buffer : list byte) : res (option tbs) :=
  do (rc, out, size) <- n20_crypto_boringssl_key_get_public_key true h signing_key (Some (dropN 1 public_key_buffer)) (Some (len public_key_buffer - 1));
  match rc, out, size with
  | ok_e, Some public_key, Some public_key_size =>
      Ret (Some (if negb (key_type =? key_type_ed25519_e) then with_key t (x04 :: public_key) (public_key_size + 1) else with_key t public_key public_key_size))
  | _, _, _ => Ret None
  end.

(** src/core/test/x509.cpp:646-760, for any template, key and buffers. [public_key_buffer], [signature] and [buffer] are the local arrays (128, 128 and 2000
    octets there). *)
Definition issue (h : heap) (signing_key key_type : N) (t : tbs) (public_key_buffer signature buffer : list byte) : res issued :=
  do t <- template_for h signing_key key_type t public_key_buffer;
  match t with
  | Some t => issue_tbs h signing_key key_type t signature buffer
  | None => Ret ([], h, None)
  end.

Context `{A : Allocator}.

(** src/core/test/x509.cpp:512-522 and 644: the signing key is derived from a secret and a label. EXPECT failures are not fatal there and lead to a NULL handle. *)
Definition GetSigningKey (fuel : nat) (h : heap) (cdi key_type : N) (label : list byte) : res (heap * N) :=
  do (_, h, signing_key) <- n20_crypto_boringssl_kdf fuel true h cdi key_type (Some (mkGather 1 (Some [slice_of label]))) (Some 0);
  match signing_key with Some a => Ret (h, a) | None => Ret (h, 0) end.
Definition issue_from_cdi (fuel : nat) (h : heap) (cdi key_type : N) (label : list byte) (t : tbs) (public_key_buffer signature buffer : list byte) : res issued :=
  do (h, signing_key) <- GetSigningKey fuel h cdi key_type label;
  issue h signing_key key_type t public_key_buffer signature buffer.

End WithEnv.

(** The steps of src/core/test/x509.cpp:646-760 with two keys: the certificate says that [subject]'s public key is that of the template's subject, and is signed
    with [signer] (in the test the first certificate is signed with the subject's own key and the second with another one, 796-857). *)
Definition issue_for `{Env} `{Bssl} (h : heap) (signer signer_type subject subject_type : N) (t : tbs) (public_key_buffer signature buffer : list byte) : res issued :=
  do t <- template_for h subject subject_type t public_key_buffer;
  match t with
  | Some t => issue_tbs h signer signer_type t signature buffer
  | None => Ret ([], h, None)
  end.
