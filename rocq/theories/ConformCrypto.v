(** Comparison of the model with the repository's own tests of the crypto functions: the error codes, the sizes reported
    and the buffers left alone, for both implementations.

    These are tests, not proofs.  The rows are those of /repo/src/crypto/test/crypto.cpp and crypto_boringssl.cpp that do
    not compute a digest, or only a few; the test vectors of /repo/src/crypto/test need too many digests for a check in every build. *)
From Coq Require Import List NArith ZArith Bool Strings.Byte.
From Verif Require Import Base Res Crypto Bssl BsslKeys PropBssl PropKeys ConformCore.
Import ListNotations.
Open Scope N_scope.

Definition conform_bssl : Bssl := toy none_fails.
Definition conform_allocator : Allocator := {| fresh := above |}.

(** The functions of a digest context; the first argument says whether the context pointer is not NULL.
    src/crypto/test/crypto.cpp:1398-1413 runs the tests for both implementations. *)
Record digest_impl := {
  impl_digest : bool -> digest_fn; impl_hmac : bool -> hmac_fn; impl_hkdf : bool -> hkdf_fn;
  impl_extract : bool -> extract_fn; impl_expand : bool -> expand_fn }.
Definition if_context {A} (c : bool) (x : A) : option A := if c then Some x else None.
Definition nat20_impl (E : Env) : digest_impl :=
  let libc := {| memcpy_null_ok := true |} in
  let digest c := @n20_digest E c in
  let hmac c := @n20_hmac libc (if_context c (digest true)) in
  let extract c := @n20_hkdf_extract (if_context c (hmac true)) in
  let expand c := @n20_hkdf_expand E libc (if_context c (hmac true)) in
  let hkdf c := @n20_hkdf (if_context c (extract true, expand true)) in
  {| impl_digest := digest; impl_hmac := hmac; impl_hkdf := hkdf; impl_extract := extract; impl_expand := expand |}.
Definition bssl_impl : digest_impl :=
  {| impl_digest := @n20_crypto_boringssl_digest conform_bssl; impl_hmac := @n20_crypto_boringssl_hmac conform_bssl;
     impl_hkdf := @n20_crypto_boringssl_hkdf conform_bssl; impl_extract := @n20_crypto_boringssl_hkdf_extract conform_bssl;
     impl_expand := @n20_crypto_boringssl_hkdf_expand conform_bssl |}.
Definition digest_impls : list digest_impl := [bssl_impl; nat20_impl {| size_width := W64; host_little_endian := true; stray := fun _ => x00 |}].

(** The algorithms of the tests with their digest sizes, and (n20_crypto_digest_algorithm_t)-1. *)
Definition algorithms : list (N * N) := [(sha2_224_e, 28); (sha2_256_e, 32); (sha2_384_e, 48); (sha2_512_e, 64)].
Definition minus_one : N := 0xffffffff.

(** A row: a call, the error expected, and what is expected of size and buffer where the test looks at them. *)
Definition same_ptr (a b : ptr) : bool :=
  match a, b with Some a, Some b => same_bytes a b | None, None => true | _, _ => false end.
Definition reports (call : res outcome) (e : error) : bool := match call with Ret (e', _, _) => error_eqb e e' | _ => false end.
Definition reports_size (call : res outcome) (e : error) (size : N) : bool :=
  match call with Ret (e', _, Some n) => error_eqb e e' && (n =? size) | _ => false end.
Definition reports_buffer (call : res outcome) (e : error) (size : N) (out : ptr) : bool :=
  match call with Ret (e', out', Some n) => error_eqb e e' && (n =? size) && same_ptr out out' | _ => false end.
Definition reports2 (call : res (error * ptr)) (e : error) : bool := match call with Ret (e', _) => error_eqb e e' | _ => false end.
Definition for_all_impls (f : digest_impl -> N * N -> list bool) : bool :=
  forallb (fun i => forallb (fun a => forallb (fun b => b) (f i a)) algorithms) digest_impls.

Definition deadbeef : ptr := Some (bytes [0xde; 0xad; 0xbe; 0xef]).
Definition zeroes (n : N) : ptr := Some (repeat x00 (N.to_nat n)).
Definition null_list : gather := mkGather 1 None.
Definition list_of (s : slice) : gather := mkGather 1 (Some [s]).
Definition empty_slice : slice := mkSlice 0 None.
Definition bad_slice (n : N) : slice := mkSlice n None.
Definition slice_of_text (l : list N) : slice := mkSlice (len l) (Some (bytes l)).

(** src/crypto/test/crypto.cpp:252-298 and 300-362 *)
Definition digest_rows (i : digest_impl) (a : N * N) : list bool :=
  let (alg, size) := a in
  let digest := impl_digest i in
  [reports_size (digest true alg None 0 None (Some 0)) insufficient_buffer_size_e size;
   reports_buffer (digest true alg None 0 deadbeef (Some 4)) insufficient_buffer_size_e size deadbeef;
   reports (digest false alg None 0 None None) invalid_context_e;
   reports (digest true minus_one None 0 None None) unknown_algorithm_e;
   reports (digest true alg None 0 None None) unexpected_null_size_e;
   reports (digest true alg None 0 None (Some 1000)) insufficient_buffer_size_e;
   reports (digest true alg None 0 (zeroes 80) (Some 4)) insufficient_buffer_size_e;
   reports (digest true alg None 0 (zeroes 80) (Some 80)) unexpected_null_data_e;
   reports (digest true alg (Some [null_list]) 1 (zeroes 80) (Some 80)) unexpected_null_list_e;
   reports (digest true alg (Some [list_of (bad_slice 3)]) 1 (zeroes 80) (Some 80)) unexpected_null_slice_e].
Example digest_errors_conform : for_all_impls digest_rows = true.
Proof. vm_compute. reflexivity. Qed.

(** src/crypto/test/crypto.cpp:537-607 and 703-719 *)
Definition hmac_rows (i : digest_impl) (a : N * N) : list bool :=
  let (alg, size) := a in
  let hmac := impl_hmac i in
  let message := Some (list_of (slice_of_text [0x66; 0x6f; 0x6f; 0x62; 0x61; 0x72])) in
  let key := slice_of_text [0x6b; 0x65; 0x79] in
  [reports (hmac false alg empty_slice None None None) invalid_context_e;
   reports (hmac true alg empty_slice None None None) unexpected_null_size_e;
   reports (hmac true minus_one empty_slice None None (Some 80)) unknown_algorithm_e;
   reports (hmac true alg (bad_slice 4) None None (Some 80)) unexpected_null_slice_key_e;
   reports (hmac true alg empty_slice None None (Some 80)) insufficient_buffer_size_e;
   reports_buffer (hmac true alg empty_slice None deadbeef (Some 4)) insufficient_buffer_size_e size deadbeef;
   reports (hmac true alg empty_slice None (zeroes 80) (Some 80)) unexpected_null_data_e;
   reports (hmac true alg empty_slice (Some null_list) (zeroes 80) (Some 80)) unexpected_null_list_e;
   reports (hmac true alg empty_slice (Some (list_of (bad_slice 3))) (zeroes 80) (Some 80)) unexpected_null_slice_e;
   reports_buffer (hmac true alg key message (zeroes (size + 4)) (Some (size - 4))) insufficient_buffer_size_e size (zeroes (size + 4));
   reports_size (hmac true alg key message None (Some 0)) insufficient_buffer_size_e size].
Example hmac_errors_conform : for_all_impls hmac_rows = true.
Proof. vm_compute. reflexivity. Qed.

(** src/crypto/test/crypto.cpp:723-777 *)
Definition hkdf_rows (digests : bool) (i : digest_impl) (a : N * N) : list bool :=
  let (alg, _) := a in
  let hkdf := impl_hkdf i in
  [reports2 (hkdf false alg empty_slice empty_slice empty_slice 80 (zeroes 80)) invalid_context_e;
   reports2 (hkdf true minus_one empty_slice empty_slice empty_slice 80 (zeroes 80)) unknown_algorithm_e;
   reports2 (hkdf true alg (bad_slice 4) empty_slice empty_slice 80 (zeroes 80)) unexpected_null_slice_ikm_e;
   reports2 (hkdf true alg empty_slice (bad_slice 4) empty_slice 80 (zeroes 80)) unexpected_null_slice_salt_e;
   if digests then reports2 (hkdf true alg empty_slice empty_slice (bad_slice 4) 80 (zeroes 80)) unexpected_null_slice_info_e else true;
   if digests then reports2 (hkdf true alg empty_slice empty_slice empty_slice 80 None) insufficient_buffer_size_e else true].
Example hkdf_errors_conform : for_all_impls (hkdf_rows false) = true.
Proof. vm_compute. reflexivity. Qed.
(** The last two rows make src/crypto/nat20/crypto.c extract a key first, so they are run for one algorithm only. *)
Example hkdf_errors_after_extract_conform :
  forallb (fun i => forallb (fun b => b) (hkdf_rows true i (sha2_256_e, 32))) digest_impls = true.
Proof. vm_compute. reflexivity. Qed.

(** src/crypto/test/crypto.cpp:779-832 and 862-877 *)
Definition extract_rows (i : digest_impl) (a : N * N) : list bool :=
  let (alg, size) := a in
  let extract := impl_extract i in
  let key := slice_of_text [0x6b; 0x65; 0x79] in
  let salt := slice_of_text [0x66; 0x6f; 0x6f; 0x62; 0x61; 0x72] in
  [reports (extract false alg empty_slice empty_slice (zeroes 80) (Some 80)) invalid_context_e;
   reports (extract true minus_one empty_slice empty_slice (zeroes 80) (Some 80)) unknown_algorithm_e;
   reports (extract true alg (bad_slice 4) empty_slice (zeroes 80) (Some 80)) unexpected_null_slice_ikm_e;
   reports (extract true alg empty_slice (bad_slice 4) (zeroes 80) (Some 80)) unexpected_null_slice_salt_e;
   reports (extract true alg empty_slice empty_slice None (Some 80)) insufficient_buffer_size_e;
   reports_buffer (extract true alg empty_slice empty_slice deadbeef (Some 4)) insufficient_buffer_size_e size deadbeef;
   reports_buffer (extract true alg key salt (zeroes (size + 4)) (Some (size - 4))) insufficient_buffer_size_e size (zeroes (size + 4));
   reports_size (extract true alg key salt None (Some 0)) insufficient_buffer_size_e size].
Example extract_errors_conform : for_all_impls extract_rows = true.
Proof. vm_compute. reflexivity. Qed.

(** src/crypto/test/crypto.cpp:881-925 *)
Definition expand_rows (i : digest_impl) (a : N * N) : list bool :=
  let (alg, _) := a in
  let expand := impl_expand i in
  [reports2 (expand false alg empty_slice empty_slice 80 (zeroes 80)) invalid_context_e;
   reports2 (expand true minus_one empty_slice empty_slice 80 (zeroes 80)) unknown_algorithm_e;
   reports2 (expand true alg (bad_slice 4) empty_slice 80 (zeroes 80)) unexpected_null_slice_prk_e;
   reports2 (expand true alg empty_slice (bad_slice 4) 80 (zeroes 80)) unexpected_null_slice_info_e;
   reports2 (expand true alg empty_slice empty_slice 80 None) insufficient_buffer_size_e].
Example expand_errors_conform : for_all_impls expand_rows = true.
Proof. vm_compute. reflexivity. Qed.

(** src/crypto/test/crypto.cpp:138-150 *)
Example open_close_conform :
  (forall B A, fst (@n20_crypto_boringssl_open B A true) = ok_e /\ @n20_crypto_boringssl_open B A false = (unexpected_null_e, None)) /\
  n20_crypto_boringssl_close true = ok_e /\ n20_crypto_boringssl_close false = unexpected_null_e /\
  forall E libc, fst (@n20_crypto_nat20_open E libc true) = ok_e /\ fst (@n20_crypto_nat20_open E libc false) = unexpected_null_e /\
    n20_crypto_nat20_close true = ok_e /\ n20_crypto_nat20_close false = unexpected_null_e.
Proof. repeat split. Qed.

(** The keys of the tests: the secret, and one key of each type that cannot derive a key.  The tests derive those, which takes
    many digests; here they are put in place. *)
Definition cdi_at : N := 1.
Definition key_types : list (N * N * N) := [(2, key_type_ed25519_e, 64); (3, key_type_secp256r1_e, 64); (4, key_type_secp384r1_e, 96)].
Definition public_sizes : list (N * N) := [(2, 32); (3, 64); (4, 96)].
Definition conform_heap : heap :=
  [(1, mkKey key_type_cdi_e (Cdi (repeat x00 64))); (2, mkKey key_type_ed25519_e (Evp (Ed25519 (repeat x01 32))));
   (3, mkKey key_type_secp256r1_e (Evp (EC P256 5))); (4, mkKey key_type_secp384r1_e (Evp (EC P384 7)))].
Definition creates_nothing (call : res (error * heap * option N)) (e : error) (key_out : option N) : bool :=
  match call with
  | Ret (e', h, k) =>
      error_eqb e e' && (len h =? len conform_heap) &&
      match k, key_out with Some a, Some b => a =? b | None, None => true | _, _ => false end
  | _ => false
  end.

(** src/crypto/test/crypto.cpp:1155-1225, without the last call, which expands the secret first *)
Definition kdf_rows (type_ : N) : list bool :=
  let kdf := @n20_crypto_boringssl_kdf conform_bssl conform_allocator 1 in
  [creates_nothing (kdf false conform_heap 0 type_ None None) invalid_context_e None;
   creates_nothing (kdf true conform_heap 0 type_ None None) unexpected_null_key_in_e None;
   creates_nothing (kdf true conform_heap 2 type_ None None) invalid_key_e None;
   creates_nothing (kdf true conform_heap 3 type_ None None) invalid_key_e None;
   creates_nothing (kdf true conform_heap 4 type_ None None) invalid_key_e None;
   creates_nothing (kdf true conform_heap cdi_at type_ None None) unexpected_null_key_out_e None;
   creates_nothing (kdf true conform_heap cdi_at type_ None (Some 0)) unexpected_null_data_e (Some 0);
   creates_nothing (kdf true conform_heap cdi_at type_ (Some null_list) (Some 0)) unexpected_null_list_e (Some 0);
   creates_nothing (kdf true conform_heap cdi_at type_ (Some (list_of (bad_slice 3))) (Some 0)) unexpected_null_slice_e (Some 0)].
Example kdf_errors_conform :
  forallb (fun t => forallb (fun b => b) (kdf_rows t)) [key_type_cdi_e; key_type_ed25519_e; key_type_secp256r1_e; key_type_secp384r1_e] = true.
Proof. vm_compute. reflexivity. Qed.

(** src/crypto/test/crypto.cpp:1235-1298 *)
Definition sign_row (k : N * N * N) : list bool :=
  let '(at_, _, size) := k in
  let sign := @n20_crypto_boringssl_sign conform_bssl in
  let full := zeroes 104 in
  [reports_size (sign true conform_heap at_ None None (Some 30000)) insufficient_buffer_size_e size;
   reports_size (sign true conform_heap at_ None full (Some (size - 1))) insufficient_buffer_size_e size;
   reports (sign true conform_heap at_ None full (Some size)) unexpected_null_data_e;
   reports (sign true conform_heap at_ (Some null_list) full (Some size)) unexpected_null_list_e;
   reports (sign true conform_heap at_ (Some (list_of (bad_slice 5))) full (Some size)) unexpected_null_slice_e].
Example sign_errors_conform :
  let sign := @n20_crypto_boringssl_sign conform_bssl in
  forallb (fun b => b)
    [reports (sign false conform_heap 0 None None None) invalid_context_e;
     reports (sign true conform_heap 0 None None None) unexpected_null_key_in_e;
     reports (sign true conform_heap cdi_at None None None) unexpected_null_size_e;
     reports (sign true conform_heap cdi_at None None (Some 0)) invalid_key_e] = true /\
  forallb (fun k => forallb (fun b => b) (sign_row k)) key_types = true.
Proof. vm_compute. split; reflexivity. Qed.

(** src/crypto/test/crypto.cpp:1300-1362 *)
Definition public_row (k : N * N) : list bool :=
  let (at_, size) := k in
  let public := @n20_crypto_boringssl_key_get_public_key conform_bssl in
  [reports_size (public true conform_heap at_ None (Some 100)) insufficient_buffer_size_e size;
   reports_size (public true conform_heap at_ (zeroes 100) (Some (size - 1))) insufficient_buffer_size_e size;
   reports_size (public true conform_heap at_ (zeroes 256) (Some 256)) ok_e size].
Example public_key_errors_conform :
  let public := @n20_crypto_boringssl_key_get_public_key conform_bssl in
  forallb (fun b => b)
    [reports (public false conform_heap 0 None None) invalid_context_e;
     reports (public true conform_heap 0 None None) unexpected_null_key_in_e;
     reports (public true conform_heap cdi_at None None) unexpected_null_size_e;
     reports (public true conform_heap cdi_at None (Some 0)) invalid_key_e] = true /\
  forallb (fun k => forallb (fun b => b) (public_row k)) public_sizes = true.
Proof. vm_compute. split; reflexivity. Qed.

(** src/crypto/test/crypto.cpp:1364-1367 *)
Example key_free_errors_conform :
  n20_crypto_boringssl_key_free false conform_heap 0 = Ret (invalid_context_e, conform_heap) /\
  n20_crypto_boringssl_key_free true conform_heap 0 = Ret (ok_e, conform_heap).
Proof. split; reflexivity. Qed.

(** src/crypto/test/crypto_boringssl.cpp:335-363 *)
Example make_secret_errors_conform :
  let make_secret := @n20_crypto_boringssl_make_secret conform_allocator in
  let test_cdi := Some (repeat x00 64) in
  forallb (fun b => b)
    [creates_nothing (make_secret false conform_heap None None) invalid_context_e None;
     creates_nothing (make_secret true conform_heap None None) unexpected_null_data_e None;
     creates_nothing (make_secret true conform_heap (Some (mkSlice 0 test_cdi)) None) unexpected_null_data_e None;
     creates_nothing (make_secret true conform_heap (Some (mkSlice 64 None)) None) unexpected_null_data_e None;
     creates_nothing (make_secret true conform_heap (Some (mkSlice 64 test_cdi)) None) unexpected_null_key_out_e None] = true.
Proof. vm_compute. reflexivity. Qed.
