(** What the end-to-end certificate test asks of BoringSSL's X.509 functions, and what these are expected to do. *)
From Coq Require Import List NArith ZArith Bool Strings.Byte.
From Verif Require Import Base Stream SpecStream SpecDigits SpecDer Asn1 SpecAsn1 Oid X509 X509Ext SpecX509 SpecProfile SpecDice.
From Verif Require Import Res Bssl BsslKeys SpecBssl Issue PropIssue PropDice SpecPath.
From Verif Require Import CertVerify.
Import ListNotations.
Open Scope N_scope.

Section WithPki.
Context (L : Pki).

Definition decode_key (p : pkey) (public : list byte) : option evp_pkey :=
  match p with Ed25519 _ => ed25519_evp_pkey public | EC c _ => ec_evp_pkey c public end.

(** All the answers the test is satisfied with, if [cert1] comes with [p1]'s signature and [cert2] with [p2]'s and both say the public key of [p1]. *)
Definition agrees (B : Bssl) (p1 p2 : pkey) (cert1 cert2 : list byte) : Prop :=
  exists x1 x2 k1 k2,
    d2i_X509 cert1 = Some x1 /\ d2i_X509 cert2 = Some x2 /\
    decode_key p1 (public_bytes B p1) = Some k1 /\ decode_key p2 (public_bytes B p2) = Some k2 /\
    X509_verify x1 (Some k1) = 1%Z /\ X509_verify x2 (Some k2) = 1%Z /\ X509_verify x2 (Some k1) = 0%Z /\
    match p1 with
    | Ed25519 _ => True
    | EC _ _ => exists store, trust_store_from_der cert1 = Some store /\
        certificate_verify store cert1 = (true, PATH_VERIFIED) /\ certificate_verify store cert2 = (false, CERTIFICATE_INVALID_SIGNATURE)
    end.

(** The certificates that the library's parser has to take: version 3, and so on. The dates may be encoded as GeneralizedTime whatever the year. *)
Definition well_formed (f : cert_fields) : Prop :=
  let t := cf_tbs f in
  tf_version t = 3%Z /\ serial_conforms (tf_serial t) /\ tf_sig_alg t = cf_sig_alg f /\ tf_issuer t <> [] /\ name_conforms (tf_issuer t) /\
  (exists nb na, instant (tf_not_before t) = Some nb /\ instant (tf_not_after t) = Some na /\ nb <= na) /\
  tf_subject t <> [] /\ name_conforms (tf_subject t) /\ NoDup (map xf_oid (tf_exts t)).

Definition is_ed25519 (f : cert_fields) : Prop := cf_sig_alg f = signature_algorithm (Ed25519 []).

(** The functions do what they are for: [verify] verifies signatures, [view] is the algorithm and the key in an EVP_PKEY, [now] the time.
    The path validation is that of RFC 5280 with the certificate in the trust store as the trust anchor; if nothing is wrong but a signature, it says so. It is not
    needed for Ed25519, which it does not know (src/core/test/x509.cpp:779-780). *)
Record conforms (B : Bssl) (verify : alg_fields -> alg_fields -> list bool -> list byte -> list bool -> bool) (recognised : list N -> bool) (now : N)
    (view : evp_pkey -> alg_fields * list bool) : Prop := mkConforms {
  parses : forall cert f signed, read_cert cert = Some f -> cert_signed_part cert = Some signed -> well_formed f ->
    exists x, d2i_X509 cert = Some x /\
      forall k, X509_verify x (Some k) = if verify (cf_sig_alg f) (fst (view k)) (snd (view k)) signed (cf_signature f) then 1%Z else 0%Z;
  decodes_keys : forall p, exists k, decode_key p (public_bytes B p) = Some k /\ view k = (key_algorithm p, bits_of_bytes (public_bytes B p));
  validates : forall anchor fa, read_cert anchor = Some fa -> well_formed fa -> ~ is_ed25519 fa ->
    exists store, trust_store_from_der anchor = Some store /\
      forall cert f, read_cert cert = Some f -> well_formed f -> ~ is_ed25519 f ->
        let a := mkAuthority (tf_subject (cf_tbs fa)) (tf_key_alg (cf_tbs fa)) (tf_key (cf_tbs fa)) in
        if validate verify recognised now a [cert] then certificate_verify store cert = (true, PATH_VERIFIED)
        else validate (fun _ _ _ _ _ => true) recognised now a [cert] = true -> certificate_verify store cert = (false, CERTIFICATE_INVALID_SIGNATURE) }.
End WithPki.
