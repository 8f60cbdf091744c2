(** The tests of the digest interface, src/crypto/test/crypto.cpp:60-923 and src/crypto/test/crypto_nat20.cpp:41-91.

    A test is a function of the context under test that ends with [Some _] if it reaches its end and with [None] if an ASSERT fails.
    Simplified: the messages printed on failure are left out. *)
From Coq Require Import List NArith Bool Strings.Byte.
From Verif Require Import Base Res Sha256 Sha512 Crypto Bssl BsslKeys TestUtils.
Import ListNotations.
Open Scope N_scope.

(** The function pointers of n20_crypto_digest_context_t (include/nat20/crypto.h:155-475) with their first parameter; [false] is a NULL context. *)
Record digest_members := mkMembers {
  m_digest : bool -> digest_fn; m_hmac : bool -> hmac_fn; m_hkdf : bool -> hkdf_fn; m_extract : bool -> extract_fn; m_expand : bool -> expand_fn
}.
(** src/crypto/nat20/crypto.c:461-467: the functions get the digest context with their siblings. *)
Definition nat20_members `{Env} `{Libc} : digest_members :=
  let c := n20_crypto_digest_context in
  mkMembers n20_digest
    (fun ctx => n20_hmac (if ctx then Some (ctx_digest c) else None))
    (fun ctx => n20_hkdf (if ctx then Some (ctx_extract c, ctx_expand c) else None))
    (fun ctx => n20_hkdf_extract (if ctx then Some (ctx_hmac c) else None))
    (fun ctx => n20_hkdf_expand (if ctx then Some (ctx_hmac c) else None)).
(** src/crypto/crypto_boringssl.cpp:1030-1045 *)
Definition boringssl_members `{Bssl} : digest_members :=
  mkMembers n20_crypto_boringssl_digest n20_crypto_boringssl_hmac n20_crypto_boringssl_hkdf n20_crypto_boringssl_hkdf_extract n20_crypto_boringssl_hkdf_expand.

(** std::vector::data of an empty vector is NULL or not, as the C++ library likes. *)
Class Cxx := { empty_data_null : bool }.
Definition data `{Cxx} (v : list byte) : ptr := match v with [] => if empty_data_null then None else Some [] | _ => Some v end.
Definition slice_for `{Cxx} (v : list byte) : slice := mkSlice (len v) (data v).
(** The vector whose data pointer was handed to a call, afterwards. *)
Definition contents (p : ptr) : list byte := match p with Some d => d | None => [] end.
Definition zeros (n : N) : list byte := repeat x00 (N.to_nat n).

(** ASSERT_EQ and the like. *)
Definition assert_that {S} (b : bool) (k : res (option S)) : res (option S) := if b then k else Ret None.
Notation "'ASSERT' b ; k" := (assert_that b k) (at level 200, b at level 100, k at level 200, right associativity).
Definition same (a b : list byte) : bool := if list_eq_dec byte_eq_dec a b then true else false.
Definition says (size : option N) (n : N) : bool := match size with Some m => m =? n | None => false end.

(** A loop over test cases, with what the body leaves in the variables declared outside. *)
Fixpoint for_each {A S} (l : list A) (s : S) (body : A -> S -> res (option S)) : res (option S) :=
  match l with
  | [] => Ret (Some s)
  | x :: l => do o <- body x s; match o with Some s => for_each l s body | None => Ret None end
  end.

(** (n20_crypto_digest_algorithm_t)-1, with enumerations of 32 bits. *)
Definition minus_one : N := 2 ^ 32 - 1.
(** The table of most tests, with the sizes. *)
Definition test_algorithms : list (N * N) := [(sha2_224_e, 28); (sha2_256_e, 32); (sha2_384_e, 48); (sha2_512_e, 64)].
Definition N20_SLICE_NULL : slice := mkSlice 0 None.
Definition null_of_3 : slice := mkSlice 3 None.
Definition null_of_4 : slice := mkSlice 4 None.
Definition foo : list byte := bytes [102; 111; 111].
Definition bar : list byte := bytes [98; 97; 114].
Definition foobar : list byte := bytes [102; 111; 111; 98; 97; 114].
Definition key3 : list byte := bytes [107; 101; 121].
(** String literals have a zero at the end. *)
Definition literal (s : list byte) : list byte := s ++ [x00].
Definition snafu : slice := mkSlice 0 (Some (literal (bytes [115; 110; 97; 102; 117]))).
Definition deadbeef : list byte := bytes [0xde; 0xad; 0xbe; 0xef].

Section WithTable.
Context `{X : Cxx} (c : digest_members).

(** ** The tests with vectors *)

(** src/crypto/test/crypto.cpp:152-168 *)
Definition SHA2TestVectorTest (sha2TestVectors : list (N * list byte * list byte)) : res (option unit) :=
  for_each sha2TestVectors tt (fun '(alg, msg, want_digest) _ =>
    let buffers := if 0 <? len msg then [mkSlice (len msg) (data msg)] else [N20_SLICE_NULL] in
    let got_digest := zeros (len want_digest) in
    do (rc, out, got_size) <- m_digest c true alg (Some [mkGather 1 (Some buffers)]) 1 (data got_digest) (Some (len got_digest));
    ASSERT error_eqb ok_e rc;
    ASSERT says got_size (len want_digest);
    ASSERT same want_digest (contents out);
    Ret (Some tt)).

(** src/crypto/test/crypto.cpp:170-190. [resize] to a size that is not larger. *)
Definition HmacTest (hmacTestVectors : list (N * list byte * list byte * list byte)) : res (option unit) :=
  for_each hmacTestVectors tt (fun '(alg, key, msg, want_hmac) _ =>
    do (rc, out, got_hmac_size) <- m_hmac c true alg (slice_for key) (Some (mkGather 1 (Some [slice_for msg]))) (data (zeros 64)) (Some 64);
    ASSERT error_eqb rc ok_e;
    ASSERT match got_hmac_size with Some n => len want_hmac <=? n | None => false end;
    ASSERT same want_hmac (takeN (len want_hmac) (contents out));
    Ret (Some tt)).

(** src/crypto/test/crypto.cpp:192-213: name, algorithm, IKM, salt, info, PRK and key. *)
Definition hkdf_vector : Type := N * list byte * list byte * list byte * list byte * list byte.
Definition HkdfTest (hkdfTestVectors : list hkdf_vector) : res (option unit) :=
  for_each hkdfTestVectors tt (fun '(alg, ikm, salt, info, _, want_key) _ =>
    do (rc, out) <- m_hkdf c true alg (slice_for ikm) (slice_for salt) (slice_for info) (len want_key) (data (zeros (len want_key)));
    ASSERT error_eqb rc ok_e;
    ASSERT same want_key (contents out);
    Ret (Some tt)).
(** src/crypto/test/crypto.cpp:215-232: the size is not looked at. *)
Definition HkdfExtractTest (hkdfTestVectors : list hkdf_vector) : res (option unit) :=
  for_each hkdfTestVectors tt (fun '(alg, ikm, salt, _, want_prk, _) _ =>
    do (rc, out, _) <- m_extract c true alg (slice_for ikm) (slice_for salt) (data (zeros (len want_prk))) (Some (len want_prk));
    ASSERT error_eqb rc ok_e;
    ASSERT same want_prk (contents out);
    Ret (Some tt)).
(** src/crypto/test/crypto.cpp:234-250 *)
Definition HkdfExpandTest (hkdfTestVectors : list hkdf_vector) : res (option unit) :=
  for_each hkdfTestVectors tt (fun '(alg, _, _, info, prk, want_key) _ =>
    do (rc, out) <- m_expand c true alg (slice_for prk) (slice_for info) (len want_key) (data (zeros (len want_key)));
    ASSERT error_eqb rc ok_e;
    ASSERT same want_key (contents out);
    Ret (Some tt)).

(** ** Digest *)

(** src/crypto/test/crypto.cpp:252-298 *)
Definition DigestBufferSizeTest : res (option (option N)) :=
  for_each test_algorithms (Some 0) (fun '(alg, want_size) got_size =>
    do (rc, _, got_size) <- m_digest c true alg None 0 None got_size;
    ASSERT error_eqb insufficient_buffer_size_e rc;
    ASSERT says got_size want_size;
    do (rc, buffer, got_size) <- m_digest c true alg None 0 (Some deadbeef) (Some 4);
    ASSERT error_eqb insufficient_buffer_size_e rc;
    ASSERT says got_size want_size;
    ASSERT same deadbeef (contents buffer);
    do (rc, _, got_size) <- m_digest c true alg (Some [mkGather 1 (Some [N20_SLICE_NULL])]) 1 (Some (zeros 80)) (Some 80);
    ASSERT error_eqb ok_e rc;
    ASSERT says got_size want_size;
    Ret (Some got_size)).

(** src/crypto/test/crypto.cpp:300-362 *)
Definition DigestErrorsTest : res (option unit) :=
  for_each test_algorithms tt (fun '(alg, _) _ =>
    do (rc, _, _) <- m_digest c false alg None 0 None None;
    ASSERT error_eqb invalid_context_e rc;
    do (rc, _, _) <- m_digest c true minus_one None 0 None None;
    ASSERT error_eqb unknown_algorithm_e rc;
    do (rc, _, _) <- m_digest c true alg None 0 None None;
    ASSERT error_eqb unexpected_null_size_e rc;
    do (rc, _, _) <- m_digest c true alg None 0 None (Some 1000);
    ASSERT error_eqb insufficient_buffer_size_e rc;
    do (rc, buffer, _) <- m_digest c true alg None 0 (Some (zeros 80)) (Some 4);
    ASSERT error_eqb insufficient_buffer_size_e rc;
    do (rc, buffer, got_size) <- m_digest c true alg None 0 buffer (Some 80);
    ASSERT error_eqb unexpected_null_data_e rc;
    do (rc, buffer, got_size) <- m_digest c true alg (Some [mkGather 1 None]) 1 buffer got_size;
    ASSERT error_eqb unexpected_null_list_e rc;
    do (rc, buffer, got_size) <- m_digest c true alg (Some [mkGather 1 (Some [null_of_3])]) 1 buffer got_size;
    ASSERT error_eqb unexpected_null_slice_e rc;
    Ret (Some tt)).

(** src/crypto/test/crypto.cpp:364-462: "foobar" in six ways. *)
Definition DigestSkipEmpty : res (option unit) :=
  for_each test_algorithms tt (fun '(alg, want_size) _ =>
    let s_foo := mkSlice 3 (Some foo) in
    let s_bar := mkSlice 3 (Some bar) in
    do (rc, want, got_digest_size) <- m_digest c true alg (Some [mkGather 3 (Some [s_foo; s_bar; N20_SLICE_NULL]); mkGather 0 None]) 1 (Some (zeros want_size)) (Some want_size);
    ASSERT error_eqb ok_e rc;
    let want_digest := contents want in
    do (rc, got_digest, got_digest_size) <-
      m_digest c true alg (Some [mkGather 3 (Some [s_foo; N20_SLICE_NULL; s_bar]); mkGather 0 None]) 1 (Some (zeros want_size)) got_digest_size;
    ASSERT error_eqb ok_e rc;
    ASSERT same want_digest (contents got_digest);
    do (rc, got_digest, got_digest_size) <-
      m_digest c true alg (Some [mkGather 3 (Some [N20_SLICE_NULL; s_foo; s_bar]); mkGather 0 None]) 1 (Some (zeros want_size)) got_digest_size;
    ASSERT error_eqb ok_e rc;
    ASSERT same want_digest (contents got_digest);
    do (rc, got_digest, got_digest_size) <-
      m_digest c true alg (Some [mkGather 3 (Some [snafu; s_foo; s_bar]); mkGather 0 None]) 1 (Some (zeros want_size)) got_digest_size;
    ASSERT error_eqb ok_e rc;
    ASSERT same want_digest (contents got_digest);
    do (rc, got_digest, got_digest_size) <-
      m_digest c true alg (Some [mkGather 3 (Some [snafu; s_foo; s_bar]); mkGather 0 None]) 2 (Some (zeros want_size)) got_digest_size;
    ASSERT error_eqb ok_e rc;
    ASSERT same want_digest (contents got_digest);
    do (rc, got_digest, got_digest_size) <-
      m_digest c true alg (Some [mkGather 0 None; mkGather 3 (Some [snafu; s_foo; s_bar])]) 2 (Some (zeros want_size)) got_digest_size;
    ASSERT error_eqb ok_e rc;
    ASSERT same want_digest (contents got_digest);
    Ret (Some tt)).

(** src/crypto/test/crypto.cpp:464-535: the sizes of the four slices change. *)
Definition DigestMultipleGatherLists : res (option unit) :=
  for_each test_algorithms tt (fun '(alg, want_size) _ =>
    let msg n1 n2 n3 n4 :=
      [mkGather 2 (Some [mkSlice n1 (Some (literal foo)); mkSlice n2 (Some (literal bar))]);
       mkGather 2 (Some [mkSlice n3 (Some (literal foo)); mkSlice n4 (Some (literal bar))])] in
    do (rc, want, got_size) <- m_digest c true alg (Some (msg 3 3 0 0)) 2 (Some (zeros want_size)) (Some want_size);
    ASSERT error_eqb ok_e rc;
    ASSERT says got_size want_size;
    let want_digest := contents want in
    do (rc, got_digest, got_size) <- m_digest c true alg (Some (msg 0 0 3 3)) 2 (Some (zeros want_size)) got_size;
    ASSERT error_eqb ok_e rc;
    ASSERT says got_size want_size;
    ASSERT same want_digest (contents got_digest);
    do (rc, got_digest, got_size) <- m_digest c true alg (Some (msg 3 0 0 3)) 2 (Some (zeros want_size)) got_size;
    ASSERT error_eqb ok_e rc;
    ASSERT says got_size want_size;
    ASSERT same want_digest (contents got_digest);
    Ret (Some tt)).

(** ** HMAC *)

(** src/crypto/test/crypto.cpp:537-606 *)
Definition HmacErrorsTest : res (option unit) :=
  for_each test_algorithms tt (fun '(alg, _) _ =>
    let key := mkSlice 0 None in
    do (rc, _, _) <- m_hmac c false alg key None None None;
    ASSERT error_eqb invalid_context_e rc;
    do (rc, _, _) <- m_hmac c true alg key None None None;
    ASSERT error_eqb unexpected_null_size_e rc;
    do (rc, _, mac_size) <- m_hmac c true minus_one key None None (Some 80);
    ASSERT error_eqb unknown_algorithm_e rc;
    do (rc, _, mac_size) <- m_hmac c true alg null_of_4 None None mac_size;
    ASSERT error_eqb unexpected_null_slice_key_e rc;
    do (rc, _, mac_size) <- m_hmac c true alg key None None mac_size;
    ASSERT error_eqb insufficient_buffer_size_e rc;
    do (rc, mac_buffer, _) <- m_hmac c true alg key None (Some deadbeef) (Some 4);
    ASSERT error_eqb insufficient_buffer_size_e rc;
    ASSERT same deadbeef (contents mac_buffer);
    do (rc, buffer, mac_size) <- m_hmac c true alg key None (Some (zeros 80)) (Some 80);
    ASSERT error_eqb unexpected_null_data_e rc;
    do (rc, buffer, mac_size) <- m_hmac c true alg key (Some (mkGather 1 None)) buffer mac_size;
    ASSERT error_eqb unexpected_null_list_e rc;
    do (rc, buffer, mac_size) <- m_hmac c true alg key (Some (mkGather 1 (Some [null_of_3]))) buffer mac_size;
    ASSERT error_eqb unexpected_null_slice_e rc;
    Ret (Some tt)).

(** src/crypto/test/crypto.cpp:608-674 *)
Definition HmacSkipEmpty : res (option unit) :=
  for_each test_algorithms tt (fun '(alg, want_size) _ =>
    let key := mkSlice 3 (Some key3) in
    let s_foo := mkSlice 3 (Some foo) in
    let s_bar := mkSlice 3 (Some bar) in
    do (rc, want, _) <- m_hmac c true alg key (Some (mkGather 3 (Some [s_foo; s_bar; N20_SLICE_NULL]))) (Some (zeros want_size)) (Some want_size);
    ASSERT error_eqb ok_e rc;
    let want_mac := contents want in
    do (rc, got_mac, _) <- m_hmac c true alg key (Some (mkGather 3 (Some [s_foo; N20_SLICE_NULL; s_bar]))) (Some (zeros want_size)) (Some want_size);
    ASSERT error_eqb ok_e rc;
    ASSERT same want_mac (contents got_mac);
    do (rc, got_mac, _) <- m_hmac c true alg key (Some (mkGather 3 (Some [N20_SLICE_NULL; s_foo; s_bar]))) (Some (zeros want_size)) (Some want_size);
    ASSERT error_eqb ok_e rc;
    ASSERT same want_mac (contents got_mac);
    do (rc, got_mac, _) <- m_hmac c true alg key (Some (mkGather 3 (Some [snafu; s_foo; s_bar]))) (Some (zeros want_size)) (Some want_size);
    ASSERT error_eqb ok_e rc;
    ASSERT same want_mac (contents got_mac);
    Ret (Some tt)).

(** src/crypto/test/crypto.cpp:676-721 *)
Definition HmacBufferSizeTest : res (option unit) :=
  for_each test_algorithms tt (fun '(alg, want_size) _ =>
    let key := mkSlice 3 (Some key3) in
    let msg := mkGather 1 (Some [mkSlice 6 (Some foobar)]) in
    do (rc, _, mac_size) <- m_hmac c true alg key (Some msg) (Some (zeros (want_size + 4))) (Some (want_size + 4));
    ASSERT error_eqb ok_e rc;
    ASSERT says mac_size want_size;
    do (rc, mac, mac_size) <- m_hmac c true alg key (Some msg) (Some (zeros (want_size + 4))) (option_map (fun n => n - 4) mac_size);
    ASSERT error_eqb insufficient_buffer_size_e rc;
    ASSERT says mac_size want_size;
    ASSERT same (zeros (want_size + 4)) (contents mac);
    do (rc, _, mac_size) <- m_hmac c true alg key (Some msg) None (Some 0);
    ASSERT error_eqb insufficient_buffer_size_e rc;
    ASSERT says mac_size want_size;
    Ret (Some tt)).

(** ** HKDF *)

(** src/crypto/test/crypto.cpp:723-777 *)
Definition HkdfErrorsTest : res (option unit) :=
  for_each test_algorithms tt (fun '(alg, _) _ =>
    let empty := mkSlice 0 None in
    do (rc, buffer) <- m_hkdf c false alg empty empty empty 80 (Some (zeros 80));
    ASSERT error_eqb invalid_context_e rc;
    do (rc, buffer) <- m_hkdf c true minus_one empty empty empty 80 buffer;
    ASSERT error_eqb unknown_algorithm_e rc;
    do (rc, buffer) <- m_hkdf c true alg null_of_4 empty empty 80 buffer;
    ASSERT error_eqb unexpected_null_slice_ikm_e rc;
    do (rc, buffer) <- m_hkdf c true alg empty null_of_4 empty 80 buffer;
    ASSERT error_eqb unexpected_null_slice_salt_e rc;
    do (rc, buffer) <- m_hkdf c true alg empty empty null_of_4 80 buffer;
    ASSERT error_eqb unexpected_null_slice_info_e rc;
    do (rc, _) <- m_hkdf c true alg empty empty empty 80 None;
    ASSERT error_eqb insufficient_buffer_size_e rc;
    Ret (Some tt)).

(** src/crypto/test/crypto.cpp:779-832 *)
Definition HkdfExtractErrorsTest : res (option unit) :=
  for_each test_algorithms tt (fun '(alg, _) _ =>
    let empty := mkSlice 0 None in
    do (rc, buffer, prk_size) <- m_extract c false alg empty empty (Some (zeros 80)) (Some 80);
    ASSERT error_eqb invalid_context_e rc;
    do (rc, buffer, prk_size) <- m_extract c true minus_one empty empty buffer prk_size;
    ASSERT error_eqb unknown_algorithm_e rc;
    do (rc, buffer, prk_size) <- m_extract c true alg null_of_4 empty buffer prk_size;
    ASSERT error_eqb unexpected_null_slice_ikm_e rc;
    do (rc, buffer, prk_size) <- m_extract c true alg empty null_of_4 buffer prk_size;
    ASSERT error_eqb unexpected_null_slice_salt_e rc;
    do (rc, _, prk_size) <- m_extract c true alg empty empty None prk_size;
    ASSERT error_eqb insufficient_buffer_size_e rc;
    do (rc, prk_buffer, _) <- m_extract c true alg empty empty (Some deadbeef) (Some 4);
    ASSERT error_eqb insufficient_buffer_size_e rc;
    ASSERT same deadbeef (contents prk_buffer);
    Ret (Some tt)).

(** src/crypto/test/crypto.cpp:834-879 *)
Definition HkdfExtractBufferSizeTest : res (option unit) :=
  for_each test_algorithms tt (fun '(alg, want_size) _ =>
    let key := mkSlice 3 (Some key3) in
    let salt := mkSlice 6 (Some foobar) in
    do (rc, _, prk_size) <- m_extract c true alg key salt (Some (zeros (want_size + 4))) (Some (want_size + 4));
    ASSERT error_eqb ok_e rc;
    ASSERT says prk_size want_size;
    do (rc, prk, prk_size) <- m_extract c true alg key salt (Some (zeros (want_size + 4))) (option_map (fun n => n - 4) prk_size);
    ASSERT error_eqb insufficient_buffer_size_e rc;
    ASSERT says prk_size want_size;
    ASSERT same (zeros (want_size + 4)) (contents prk);
    do (rc, _, prk_size) <- m_extract c true alg key salt None (Some 0);
    ASSERT error_eqb insufficient_buffer_size_e rc;
    ASSERT says prk_size want_size;
    Ret (Some tt)).

(** src/crypto/test/crypto.cpp:881-924 *)
Definition HkdfExpandErrorsTest : res (option unit) :=
  for_each test_algorithms tt (fun '(alg, _) _ =>
    let empty := mkSlice 0 None in
    do (rc, buffer) <- m_expand c false alg empty empty 80 (Some (zeros 80));
    ASSERT error_eqb invalid_context_e rc;
    do (rc, buffer) <- m_expand c true minus_one empty empty 80 buffer;
    ASSERT error_eqb unknown_algorithm_e rc;
    do (rc, buffer) <- m_expand c true alg null_of_4 empty 80 buffer;
    ASSERT error_eqb unexpected_null_slice_prk_e rc;
    do (rc, buffer) <- m_expand c true alg empty null_of_4 80 buffer;
    ASSERT error_eqb unexpected_null_slice_info_e rc;
    do (rc, _) <- m_expand c true alg empty empty 80 None;
    ASSERT error_eqb insufficient_buffer_size_e rc;
    Ret (Some tt)).

End WithTable.

(** src/crypto/test/crypto_nat20.cpp:53-91: one vector, with the functions of sha.h themselves. An EXPECT that fails, or FAIL, gives [false]. *)
Definition ShaDigestTest `{Env} `{Cxx} (v : N * list byte * list byte) : res bool :=
  let '(alg, msg, want_digest) := v in
  if alg =? sha2_224_e then
    do s <- n20_sha224_update (Some n20_sha224_init) (slice_for msg);
    do (_, got_digest) <- n20_sha224_finalize s (Some (zeros 28)); Ret (same (contents got_digest) want_digest)
  else if alg =? sha2_256_e then
    do s <- n20_sha256_update (Some n20_sha256_init) (slice_for msg);
    do (_, got_digest) <- n20_sha256_finalize s (Some (zeros 32)); Ret (same (contents got_digest) want_digest)
  else if alg =? sha2_384_e then
    do s <- n20_sha384_update (Some n20_sha384_init) (slice_for msg);
    do (_, got_digest) <- n20_sha384_finalize s (Some (zeros 48)); Ret (same (contents got_digest) want_digest)
  else if alg =? sha2_512_e then
    do s <- n20_sha512_update (Some n20_sha512_init) (slice_for msg);
    do (_, got_digest) <- n20_sha512_finalize s (Some (zeros 64)); Ret (same (contents got_digest) want_digest)
  else Ret false.

(** The vectors of the files as the tests take them apart (structured bindings; src/crypto/test/test_vectors.h:24-48). A value of the wrong type cannot occur there:
    the readers are typed. A missing one stands for a value-initialised field. *)
Definition octets (v : option value) : option (list byte) := match v with Some (Octets b) => Some b | None => Some [] | _ => None end.
Definition alg_of (v : option value) : option N := match v with Some (Alg a) => Some a | None => Some 0 | _ => None end.
Definition sha2_tuple (v : list (option value)) : option (N * list byte * list byte) :=
  match v with
  | [_; a; m; d] => match alg_of a, octets m, octets d with Some a, Some m, Some d => Some (a, m, d) | _, _, _ => None end
  | _ => None
  end.
Definition hmac_tuple (v : list (option value)) : option (N * list byte * list byte * list byte) :=
  match v with
  | [_; a; k; m; d] => match alg_of a, octets k, octets m, octets d with Some a, Some k, Some m, Some d => Some (a, k, m, d) | _, _, _, _ => None end
  | _ => None
  end.
Definition hkdf_tuple (v : list (option value)) : option hkdf_vector :=
  match v with
  | [_; a; i; s; f; p; k] =>
      match alg_of a, octets i, octets s, octets f, octets p, octets k with
      | Some a, Some i, Some s, Some f, Some p, Some k => Some (a, i, s, f, p, k)
      | _, _, _, _, _, _ => None
      end
  | _ => None
  end.
Fixpoint all_some {A} (l : list (option A)) : option (list A) :=
  match l with
  | [] => Some []
  | None :: _ => None
  | Some x :: l => match all_some l with Some l => Some (x :: l) | None => None end
  end.
(** src/crypto/test/test_vectors.cpp:46-66: the vectors are read when the program starts, an exception ends it. *)
Definition with_vectors {T} (fields : list (field value)) (tuple : list (option value) -> option T) (fuel : nat) (file : option str)
    (test : list T -> res (option unit)) : res (option unit) :=
  do o <- read_all_vectors_from_file fuel fields file;
  match o with
  | Vectors l => match all_some (map tuple l) with Some l => test l | None => Ret None end
  | _ => Ret None
  end.
