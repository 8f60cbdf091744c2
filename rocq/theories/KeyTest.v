(** The tests of the key interface, src/crypto/test/crypto.cpp:114-150 and 926-1367, with src/crypto/test/crypto_boringssl.cpp:33-47.

    A test gets the handle of the fixture's secret and the heap. It ends with the heap and with [None] if an ASSERT failed (the function returns there), or else with
    whether a failure was added on the way (ADD_FAILURE, after which the test goes on).
    Simplified: the messages printed on failure are left out. Variables and arrays that are uninitialised there are zero here; only calls write to them. *)
From Coq Require Import List NArith Bool Strings.Byte.
From Coq Require Strings.String.
From Verif Require Import Base Res Crypto Bssl BsslKeys Issue CryptoTest.
Import ListNotations.
Import Coq.Strings.String.StringSyntax.
Open Scope string_scope.
Open Scope list_scope.
Open Scope N_scope.

(** The function pointers of n20_crypto_context_t (include/nat20/crypto.h:488-740) with their first parameter; [false] is a NULL context. *)
Record key_members := mkKeyMembers {
  m_kdf : bool -> nat -> heap -> N -> N -> option gather -> option N -> res (error * heap * option N);
  m_sign : bool -> heap -> N -> option gather -> ptr -> option N -> res outcome;
  m_public : bool -> heap -> N -> ptr -> option N -> res outcome;
  m_free : bool -> heap -> N -> res (error * heap)
}.
(** src/crypto/crypto_boringssl.cpp:1020-1028 *)
Definition boringssl_keys `{Bssl} `{Allocator} : key_members :=
  mkKeyMembers (fun ctx fuel => n20_crypto_boringssl_kdf fuel ctx) n20_crypto_boringssl_sign n20_crypto_boringssl_key_get_public_key n20_crypto_boringssl_key_free.

(** What the tests use of BoringSSL to check a signature: whether a call fails ([second]: the second time [verify] is called for a key type), whether a point is on
    the curve, and whether a signature is right. *)
Inductive check_call :=
| v_raw_public | v_ec_key_new | v_pkey_new | v_assign | v_md_ctx_new (second : bool) | v_init (second : bool) | v_update (second : bool).
Class Verifier := {
  check_fails : N -> check_call -> bool;                                     (* key type, call *)
  ed25519_verify : list byte -> list byte -> list byte -> bool;              (* public key, message, signature *)
  on_curve : curve -> list byte -> bool;                                     (* the X9.62 encoding *)
  ecdsa_verify : curve -> list byte -> N -> list byte -> list byte -> bool   (* public key, digest algorithm, message, the DER encoding *)
}.
(** The EVP_PKEY of a public key. *)
Inductive public_key := EdPublic (p : list byte) | EcPublic (c : curve) (p : list byte).

(** ** Test code *)

(** A string literal and its terminating zero. *)
Definition c_string (s : String.string) : list byte := literal (String.list_byte_of_string s).
(** [{n, (uint8_t* ) "..."}] *)
Definition piece (n : N) (s : String.string) : slice := mkSlice n (Some (c_string s)).
Definition gathered (l : list slice) : option gather := Some (mkGather (len l) (Some l)).
(** A variable for a handle, or the size, whose address was handed to a call. *)
Definition value_of (v : option N) : N := match v with Some n => n | None => 0 end.

Definition checked {S} (h : heap) (b : bool) (k : res (option S * heap)) : res (option S * heap) := if b then k else Ret (None, h).
Notation "'CHECK' h 'THAT' b ; k" := (checked h b k) (at level 200, h at level 10, b at level 100, k at level 200, right associativity).
Fixpoint for_keys {T S} (l : list T) (s : S) (h : heap) (body : T -> S -> heap -> res (option S * heap)) : res (option S * heap) :=
  match l with
  | [] => Ret (Some s, h)
  | x :: l => do (o, h) <- body x s h; match o with Some s => for_keys l s h body | None => Ret (None, h) end
  end.

Section Tests.
Context `{E : Env} `{X : Cxx} `{V : Verifier} (m : N -> key_members) (fuel : nat).

(** A number for a call in the loop over the key types: [m] may give other functions for every call that a test makes. *)
Definition site (key_type i : N) : N := 100 * (key_type + 1) + i.

(** src/crypto/test/crypto.cpp:954-1012: whether a failure is added, and the result. The checks for an EC key and its group being there are left out.
    Simplified: what [signature_2_asn1_sequence] reads outside the vector counts as undefined, see Issue.v. *)
Definition verify (key_type : N) (second : bool) (key : public_key) (message signature : list byte) : res (bool * bool) :=
  if check_fails key_type (v_md_ctx_new second) then Ret (true, false) else
  if check_fails key_type (v_init second) then Ret (true, false) else
  match key with
  | EcPublic c p =>
      let md := match c with P256 => sha2_256_e | P384 => sha2_384_e end in
      if check_fails key_type (v_update second) then Ret (true, false) else
      match signature_2_asn1_sequence (zeros 104) signature with
      | ([], sig) => Ret (false, ecdsa_verify c p md message sig)
      | (u :: _, _) => Undef u
      end
  | EdPublic p => Ret (false, ed25519_verify p message signature)
  end.

(** src/crypto/test/crypto.cpp:1106-1136: [None] if an ASSERT fails. EVP_PKEY_new_raw_public_key wants 32 bytes. *)
Definition import_key (key_type : N) (pub_key : list byte) : option public_key :=
  if key_type =? key_type_ed25519_e then
    if check_fails key_type v_raw_public || negb (len pub_key =? 32) then None else Some (EdPublic pub_key)
  else
    let c := if key_type =? key_type_secp256r1_e then P256 else P384 in
    let p := x04 :: pub_key in
    if check_fails key_type v_ec_key_new || negb (on_curve c p) || check_fails key_type v_pkey_new || check_fails key_type v_assign then None else Some (EcPublic c p).

(** src/crypto/test/crypto.cpp:1027-1031 *)
Definition signing_types : list N := [key_type_ed25519_e; key_type_secp256r1_e; key_type_secp384r1_e].
(** src/crypto/test/crypto.cpp:1033-1039, and with line 1078 *)
Definition the_context : option gather := gathered [piece 15 "this context is "; piece 4 "not "; piece 10 "the other"].
Definition other_context : option gather := gathered [piece 15 "this context is "; piece 0 "not "; piece 10 "the other"].
Definition my_message : list byte := String.list_byte_of_string "my message".
Definition message_in : option gather := gathered [piece 10 "my message"].

(** src/crypto/test/crypto.cpp:1025-1153 *)
Definition KDFTest (cdi : N) (h : heap) : res (option bool * heap) :=
  for_keys signing_types false h (fun key_type added h =>
    do (rc, h, derived_key_sign) <- m_kdf (m (site key_type 1)) true fuel h cdi key_type the_context (Some 0);
    CHECK h THAT error_eqb ok_e rc;
    let derived_key_sign := value_of derived_key_sign in
    do (rc, h, derived_key_verify) <- m_kdf (m (site key_type 2)) true fuel h cdi key_type the_context (Some 0);
    CHECK h THAT error_eqb ok_e rc;
    let derived_key_verify := value_of derived_key_verify in
    do (rc, _, sig_size) <- m_sign (m (site key_type 3)) true h derived_key_sign message_in None (Some 0);
    CHECK h THAT error_eqb insufficient_buffer_size_e rc;
    let signature := zeros (value_of sig_size) in
    do (rc, out, sig_size) <- m_sign (m (site key_type 4)) true h derived_key_sign message_in (data signature) sig_size;
    CHECK h THAT error_eqb ok_e rc;
    CHECK h THAT (value_of sig_size <=? len signature);
    let signature := takeN (value_of sig_size) (contents out) in
    do (rc, h, derived_key_other) <- m_kdf (m (site key_type 5)) true fuel h cdi key_type other_context (Some 0);
    CHECK h THAT error_eqb ok_e rc;
    let derived_key_other := value_of derived_key_other in
    let other_signature := zeros 96 in
    do (rc, out, sig_size) <- m_sign (m (site key_type 6)) true h derived_key_other message_in (data other_signature) (Some 96);
    CHECK h THAT error_eqb ok_e rc;
    CHECK h THAT (value_of sig_size <=? len other_signature);
    let other_signature := takeN (value_of sig_size) (contents out) in
    do (rc, _, pub_key_size) <- m_public (m (site key_type 7)) true h derived_key_verify None (Some 0);
    CHECK h THAT error_eqb insufficient_buffer_size_e rc;
    let pub_key := zeros (value_of pub_key_size) in
    do (rc, out, pub_key_size) <- m_public (m (site key_type 8)) true h derived_key_verify (data pub_key) pub_key_size;
    CHECK h THAT error_eqb ok_e rc;
    CHECK h THAT says pub_key_size (len pub_key);
    match import_key key_type (contents out) with
    | None => Ret (None, h)
    | Some evp_pub_key =>
        do (added1, b) <- verify key_type false evp_pub_key my_message signature;
        CHECK h THAT b;
        do (added2, b) <- verify key_type true evp_pub_key my_message other_signature;
        CHECK h THAT negb b;
        do (rc, h) <- m_free (m (site key_type 9)) true h derived_key_sign;
        CHECK h THAT error_eqb ok_e rc;
        do (rc, h) <- m_free (m (site key_type 10)) true h derived_key_verify;
        CHECK h THAT error_eqb ok_e rc;
        do (rc, h) <- m_free (m (site key_type 11)) true h derived_key_other;
        CHECK h THAT error_eqb ok_e rc;
        Ret (Some (added || added1 || added2), h)
    end).

(** src/crypto/test/crypto.cpp:1170-1200, for each ineligible type: derive a key, see it refused, free it. *)
Definition refused_as_secret (at_ cdi key_type : N) (invalid_key : option N) (ineligible : N) (h : heap) (k : option N -> heap -> res (option bool * heap)) : res (option bool * heap) :=
  do (rc, h, invalid_key) <- m_kdf (m (at_ + 1)) true fuel h cdi ineligible (gathered [piece 3 "foo"]) invalid_key;
  CHECK h THAT error_eqb ok_e rc;
  do (rc, h, _) <- m_kdf (m (at_ + 2)) true fuel h (value_of invalid_key) key_type None None;
  CHECK h THAT error_eqb invalid_key_e rc;
  do (rc, h) <- m_free (m (at_ + 3)) true h (value_of invalid_key);
  CHECK h THAT error_eqb ok_e rc;
  k invalid_key h.

(** src/crypto/test/crypto.cpp:1155-1233 *)
Definition KDFErrorsTest (cdi : N) (h : heap) : res (option bool * heap) :=
  do (o, h) <- for_keys [key_type_cdi_e; key_type_ed25519_e; key_type_secp256r1_e; key_type_secp384r1_e] false h (fun key_type added h =>
    do (rc, h, _) <- m_kdf (m (site key_type 1)) false fuel h 0 key_type None None;
    CHECK h THAT error_eqb invalid_context_e rc;
    do (rc, h, _) <- m_kdf (m (site key_type 2)) true fuel h 0 key_type None None;
    CHECK h THAT error_eqb unexpected_null_key_in_e rc;
    refused_as_secret (site key_type 20) cdi key_type (Some 0) key_type_ed25519_e h (fun invalid_key h =>
    refused_as_secret (site key_type 40) cdi key_type invalid_key key_type_secp256r1_e h (fun invalid_key h =>
    refused_as_secret (site key_type 60) cdi key_type invalid_key key_type_secp384r1_e h (fun _ h =>
    do (rc, h, _) <- m_kdf (m (site key_type 3)) true fuel h cdi key_type None None;
    CHECK h THAT error_eqb unexpected_null_key_out_e rc;
    do (rc, h, key_out) <- m_kdf (m (site key_type 4)) true fuel h cdi key_type None (Some 0);
    CHECK h THAT error_eqb unexpected_null_data_e rc;
    do (rc, h, key_out) <- m_kdf (m (site key_type 5)) true fuel h cdi key_type (Some (mkGather 1 None)) key_out;
    CHECK h THAT error_eqb unexpected_null_list_e rc;
    do (rc, h, key_out) <- m_kdf (m (site key_type 6)) true fuel h cdi key_type (Some (mkGather 1 (Some [mkSlice 3 None]))) key_out;
    CHECK h THAT error_eqb unexpected_null_slice_e rc;
    Ret (Some added, h)))));
  match o with
  | None => Ret (None, h)
  | Some added =>
      do (rc, h, _) <- m_kdf (m 7) true fuel h cdi minus_one (gathered [piece 3 "foo"]) (Some 0);
      CHECK h THAT error_eqb invalid_key_type_e rc;
      Ret (Some added, h)
  end.

(** src/crypto/test/crypto.cpp:1235-1298. The signing keys are not freed. *)
Definition SignErrorsTest (cdi : N) (h : heap) : res (option bool * heap) :=
  do (rc, _, _) <- m_sign (m 1) false h 0 None None None;
  CHECK h THAT error_eqb invalid_context_e rc;
  do (rc, _, _) <- m_sign (m 2) true h 0 None None None;
  CHECK h THAT error_eqb unexpected_null_key_in_e rc;
  do (rc, _, _) <- m_sign (m 3) true h cdi None None None;
  CHECK h THAT error_eqb unexpected_null_size_e rc;
  do (rc, _, _) <- m_sign (m 4) true h cdi None None (Some 0);
  CHECK h THAT error_eqb invalid_key_e rc;
  for_keys [(key_type_ed25519_e, 64); (key_type_secp256r1_e, 64); (key_type_secp384r1_e, 96)] false h (fun '(key_type, want_signature_size) added h =>
    do (rc, h, signing_key) <- m_kdf (m (site key_type 5)) true fuel h cdi key_type (gathered [piece 19 "sign error test key"]) (Some 0);
    CHECK h THAT error_eqb ok_e rc;
    let signing_key := value_of signing_key in
    do (rc, _, signature_size) <- m_sign (m (site key_type 6)) true h signing_key None None (Some 30000);
    CHECK h THAT error_eqb insufficient_buffer_size_e rc;
    CHECK h THAT says signature_size want_signature_size;
    do (rc, signature_buffer, signature_size) <- m_sign (m (site key_type 7)) true h signing_key None (Some (zeros 104)) (Some (want_signature_size - 1));
    CHECK h THAT error_eqb insufficient_buffer_size_e rc;
    CHECK h THAT says signature_size want_signature_size;
    do (rc, signature_buffer, signature_size) <- m_sign (m (site key_type 8)) true h signing_key None signature_buffer signature_size;
    CHECK h THAT error_eqb unexpected_null_data_e rc;
    do (rc, signature_buffer, signature_size) <- m_sign (m (site key_type 9)) true h signing_key (Some (mkGather 1 None)) signature_buffer signature_size;
    CHECK h THAT error_eqb unexpected_null_list_e rc;
    do (rc, signature_buffer, signature_size) <- m_sign (m (site key_type 10)) true h signing_key (Some (mkGather 1 (Some [mkSlice 5 None]))) signature_buffer signature_size;
    CHECK h THAT error_eqb unexpected_null_slice_e rc;
    Ret (Some added, h)).

(** src/crypto/test/crypto.cpp:1300-1362 *)
Definition GetPublicKeyErrorsTest (cdi : N) (h : heap) : res (option bool * heap) :=
  do (rc, _, _) <- m_public (m 1) false h 0 None None;
  CHECK h THAT error_eqb invalid_context_e rc;
  do (rc, _, _) <- m_public (m 2) true h 0 None None;
  CHECK h THAT error_eqb unexpected_null_key_in_e rc;
  do (rc, _, _) <- m_public (m 3) true h cdi None None;
  CHECK h THAT error_eqb unexpected_null_size_e rc;
  do (rc, _, _) <- m_public (m 4) true h cdi None (Some 0);
  CHECK h THAT error_eqb invalid_key_e rc;
  for_keys [(key_type_ed25519_e, 32); (key_type_secp256r1_e, 64); (key_type_secp384r1_e, 96)] false h (fun '(key_type, want_key_size) added h =>
    do (rc, h, key) <- m_kdf (m (site key_type 5)) true fuel h cdi key_type (gathered [piece 30 "public key errors test context"]) (Some 0);
    CHECK h THAT error_eqb ok_e rc;
    let key := value_of key in
    do (rc, _, public_key_size) <- m_public (m (site key_type 6)) true h key None (Some 100);
    CHECK h THAT error_eqb insufficient_buffer_size_e rc;
    CHECK h THAT says public_key_size want_key_size;
    do (rc, _, public_key_size) <- m_public (m (site key_type 7)) true h key (Some (zeros 100)) (Some (want_key_size - 1));
    CHECK h THAT error_eqb insufficient_buffer_size_e rc;
    CHECK h THAT says public_key_size want_key_size;
    do (rc, _, public_key_size) <- m_public (m (site key_type 8)) true h key (Some (zeros 256)) (Some 256);
    CHECK h THAT error_eqb ok_e rc;
    CHECK h THAT says public_key_size want_key_size;
    do (rc, h) <- m_free (m (site key_type 9)) true h key;
    CHECK h THAT error_eqb ok_e rc;
    Ret (Some added, h)).

(** src/crypto/test/crypto.cpp:1364-1367 *)
Definition KeyFreeErrorsTest (cdi : N) (h : heap) : res (option bool * heap) :=
  do (rc, h) <- m_free (m 1) false h 0;
  CHECK h THAT error_eqb invalid_context_e rc;
  do (rc, h) <- m_free (m 2) true h 0;
  CHECK h THAT error_eqb ok_e rc;
  Ret (Some false, h).
End Tests.

(** ** The fixture, for BoringSSL *)

Section Fixture.
Context `{E : Env} `{X : Cxx} `{V : Verifier} `{B : Bssl} `{A : Allocator}.

(** src/crypto/test/crypto.cpp:138-150. The context is the same one again. *)
Definition OpenClose (cdi : N) (h : heap) : res (option bool * heap) :=
  CHECK h THAT error_eqb ok_e (n20_crypto_boringssl_close true);
  CHECK h THAT error_eqb unexpected_null_e (fst (n20_crypto_boringssl_open false));
  CHECK h THAT error_eqb unexpected_null_e (n20_crypto_boringssl_close false);
  CHECK h THAT error_eqb ok_e (fst (n20_crypto_boringssl_open true));
  Ret (Some false, h).

(** src/crypto/test/crypto_boringssl.cpp:33-37 *)
Definition test_cdi : list byte := bytes
  [0xa4; 0x32; 0xb4; 0x34; 0x94; 0x4f; 0x59; 0xcf; 0xdb; 0xf7; 0x04; 0x46; 0x95; 0x9c; 0xee; 0x08;
   0x7f; 0x6b; 0x87; 0x60; 0xd8; 0xef; 0xb4; 0xcf; 0xed; 0xf2; 0xf6; 0x29; 0x33; 0x88; 0xf0; 0x64;
   0xbb; 0xe0; 0x21; 0xf5; 0x87; 0x1c; 0x6c; 0x0c; 0x30; 0x2b; 0x32; 0x4f; 0x4c; 0x44; 0xd1; 0x26;
   0xca; 0x35; 0x6b; 0xc3; 0xc5; 0x0e; 0x17; 0xc6; 0x21; 0xad; 0x1d; 0x32; 0xbd; 0x6e; 0x35; 0x08].

(** src/crypto/test/crypto.cpp:124-135 and src/crypto/test/crypto_boringssl.cpp:39-47: SetUp, the test unless an ASSERT of SetUp failed, TearDown. Whether no failure
    was recorded, and the heap. *)
Definition run_key_test (test : N -> heap -> res (option bool * heap)) (h : heap) : res (bool * heap) :=
  do (rc, h, cdi) <- n20_crypto_boringssl_make_secret true h (Some (slice_of test_cdi)) (Some 0);
  let cdi := value_of cdi in
  let set_up := error_eqb ok_e (fst (n20_crypto_boringssl_open true)) && error_eqb ok_e rc in
  do (o, h) <- (if set_up then test cdi h else Ret (None, h));
  do (rc, h) <- n20_crypto_boringssl_key_free true h cdi;
  let torn_down := error_eqb ok_e rc && error_eqb ok_e (n20_crypto_boringssl_close true) in
  Ret (match o with Some added => negb added && torn_down | None => false end, h).
End Fixture.
