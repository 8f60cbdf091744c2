(** What the tests of the key interface are about: the keys they derive, and when they accept a signature. *)
From Coq Require Import List NArith Bool Strings.Byte.
From Coq Require Strings.String.
From Verif Require Import Base SpecSha2 SpecMac Crypto SpecCrypto Bssl BsslKeys SpecBssl CryptoTest.
From Verif Require Import KeyTest.
Import ListNotations.
Import Coq.Strings.String.StringSyntax.
Open Scope string_scope.
Open Scope list_scope.
Open Scope N_scope.

Definition letters (s : String.string) : list byte := String.list_byte_of_string s.
(** The contexts from which the tests derive keys. The two of KDFTest lack the blank after "is", and end with the zero of the literal. *)
Definition kdf_context : list byte := letters "this context isnot the other" ++ [x00].
Definition kdf_other_context : list byte := letters "this context isthe other" ++ [x00].
Definition foo_context : list byte := letters "foo".
Definition sign_context : list byte := letters "sign error test key".
Definition public_context : list byte := letters "public key errors test context".

(** The functions of BoringSSL as the tests see them: at the call with number [i] the calls given by [fs i] fail, and memory comes from [As i]. *)
Definition boringssl_at (B : Bssl) (fs : N -> call -> bool) (As : N -> Allocator) (i : N) : key_members := @boringssl_keys (with_fails (fs i) B) (As i).

(** For the secret of the fixture and one of these contexts: none of the first [fuel] candidates of RFC 6979 is below the order of the curve. *)
Definition starved (B : Bssl) (contexts : list (list byte)) (fuel : nat) : Prop :=
  exists c context, In context contexts /\ forall i, (i < fuel)%nat ->
    suitable (curve_order c) (candidate (HMAC SHA512) 64 (curve_order c) (HKDF_expand SHA512 test_cdi context 32) i) = false.
(** There is a key. *)
Definition derivable (B : Bssl) (contexts : list (list byte)) : Prop :=
  forall c context, In context contexts -> exists d, is_rfc6979_k (HMAC SHA512) 64 (curve_order c) (HKDF_expand SHA512 test_cdi context 32) d.

(** The signature of [signer] is accepted for the public key of [k]. *)
Definition accepts (B : Bssl) (V : Verifier) (k signer : key) (message : list byte) : Prop :=
  match k, signer with
  | SigningKey (Ed25519 seed), SigningKey (Ed25519 seed') => ed25519_verify (ed25519_public seed) message (ed25519_sign seed' message) = true
  | SigningKey (EC c d), SigningKey (EC _ d') =>
      let alg := match c with P256 => sha2_256_e | P384 => sha2_384_e end in
      on_curve c (ec_public c d) = true /\ ecdsa_verify c (ec_public c d) alg message (ecdsa_sign c d' alg message) = true
  | _, _ => False
  end.
(** What KDFTest is to find out: for each type of signing key, a key derived again from the same context is the same, and one derived from the other is not, as far as signatures
    of one message tell. *)
Definition told_apart (B : Bssl) (V : Verifier) : Prop :=
  forall ty k other, In ty [1; 2; 3] -> derived B test_cdi kdf_context ty k -> derived B test_cdi kdf_other_context ty other ->
    accepts B V k k (letters "my message") /\ ~ accepts B V k other (letters "my message").

(** No call that checks a signature fails. *)
Definition checks_work (V : Verifier) : Prop := forall ty c, check_fails ty c = false.
(** The second number of an ECDSA signature is never zero (FIPS 186-4 section 6.4: another one is made in this case). *)
Definition nonzero_s (B : Bssl) : Prop := forall c d alg m r s, in_field c r -> in_field c s -> ecdsa_sign c d alg m = ecdsa_der r s -> s <> 0.
