# Formal model of libnat20 in Rocq/Coq 8.16.1

The C and C++ code of libnat20 is modelled in Gallina, function by function, and the 62 properties of `properties.jsonl` are proved about the
model for all inputs. `MANIFEST.json` maps properties to theorems. Build: `cd rocq && coq_makefile -f _CoqProject -o Makefile && make`.

## Trusted base

* The Coq 8.16.1 kernel (including its VM, used by `vm_compute`; `coqchk` rechecks the files without it).
* Axioms: none. `Print Assumptions` stands behind every property theorem and prints "Closed under the global context" for each. (`coqchk` also
  lists seven constants of `Coq.ssr.ssrunder.Under_rel`: members of a standard library module sealed by a module type, which appear as soon as
  that library is loaded. No theorem here depends on them.)
* The fidelity of the model: that the definitions in the model files say what the cited lines of C say. Every definition names file and lines. The
  model cannot be run against the C code here. What stands in for that:
  * `ConformCore.v`, `ConformX509.v`, `ConformCrypto.v` run the model on the tables of the repository's own tests (src/core/test, src/crypto/test) and compare with the bytes, sizes
    and error codes expected there. All rows agree. They are tests, not proofs. Left out: tests that call BoringSSL to verify certificates (modelled in `CertVerify.v`, C66), and rows that need many digests.
  * Outside the build, by extracting the model to OCaml, all vectors of src/crypto/test/test_data (1275 HMAC, 1512 HKDF; the HKDF ones also as extract and expand) and the 33 RFC 6979 vectors of
    src/crypto/test/crypto_boringssl.cpp were run once. All agree. The SHA-2 vector file is not in the repository. The extraction is not part of this development.
  * Some rows of the repository's tests reach undefined behaviour in the model although the bytes agree: the integer of size 0, every little endian integer, and the most negative CBOR integer
    (findings of C17 and C08).
* The specifications in `Spec*.v`: they are short, do not mention the model, and come from X.690, RFC 5280, RFC 8949, TCG DICE, FIPS 180-4, FIPS 198-1, RFC 5869, RFC 6979. They were written without access to
  these documents (no network), from knowledge of them; the known-answer `Example`s and the comparison with the repository's tests are the only cross-check.
* No functors, module types, plugins, switched-off checks or unfinished proofs are used.

## How the code is modelled

* One definition per C function. Model files: `Base`, `Stream`, `Asn1`, `Cbor`, `Oid`, `X509`, `X509Ext`, `Res`, `Sha256`, `Sha512`, `Crypto`, `Bssl`, `BsslKeys`, `TestUtils`, `Issue`, `CertTest`, `CertVerify`, `CryptoTest`, `KeyTest`, `KgenTest`, `Shared`, `Overlap`.
* Environment (class `Env`, a parameter of everything): width of `size_t` (32 or 64 bits), host byte order, and the bytes that reads outside an object would see.
  Theorems quantify over all of it. `Libc` says whether `memcpy` accepts NULL with size 0.
* Rendering code (`core/`): a command transforms the stream and a log of undefined behaviour (out-of-bounds read or write, NULL dereference, `memcpy` with NULL, signed overflow, pointer
  outside its object). Execution continues with arbitrary bytes, so a theorem that allows some entry of the log says that it is the only one. Memory is bytes of separate objects: a pointer is NULL or the bytes from
  it to the end of its object.
* Crypto code: results are `Ret`, `Undef` (undefined behaviour, stops) or `OutOfFuel`. Fuel only bounds loops whose end depends on data (RFC 6979, the file reader); the theorems
  say which fuel suffices, or that none does.
* Machine integers are `N` with explicit wrap-around (`wrap8/32/64`, `wrap_sz`), or `Z` for signed ones with overflow logged.
* Callbacks are arbitrary commands. Function pointers in crypto contexts are arguments.
* BoringSSL and the C++ library are not modelled. BoringSSL's functions are the class `Bssl`: what each computes, and for every call whether it fails. Theorems quantify over all instances; where the result matters they assume
  that the instance computes SHA-2, HMAC and HKDF (`computes_sha2`), or returns DER signatures and X9.62 points (`signs`, `publishes`). `new` is an arbitrary allocator returning fresh addresses.

### Modelled code

| file | lines | where |
|----|----|----|
| src/core/stream.c, include/nat20/stream.h | all functions | `Stream.v` |
| src/core/asn1.c, include/nat20/asn1.h | all functions | `Asn1.v` |
| src/core/cbor.c, include/nat20/cbor.h | all functions | `Cbor.v` |
| src/core/oid.c, include/nat20/oid.h | comparison, all OID constants | `Oid.v` |
| src/core/x509.c, include/nat20/x509.h | all functions, key usage macros | `X509.v` |
| src/core/x509_ext_*.c | all functions | `X509Ext.v` |
| src/crypto/nat20/sha256.c, sha512.c | all functions | `Sha256.v`, `Sha512.v` |
| src/crypto/nat20/crypto.c | all functions | `Crypto.v` |
| src/core/stream.c | n20_stream_prepend again (64-79), with a source in the stream's own memory; programs of rendering calls that take their arguments from it | `Overlap.v` |
| src/crypto/nat20/crypto.c | all functions again, with the caller's buffers in one memory where they may overlap | `Shared.v` |
| src/crypto/crypto_boringssl.cpp | all functions | `Bssl.v`, `BsslKeys.v` |
| src/testing/*.cpp, include/nat20/testing/*.h | all functions | `TestUtils.v` |
| src/crypto/test/test_vectors.cpp | field definitions and readers | `TestUtils.v` |
| src/core/test/x509.cpp | the issuing procedure 512-522, 616-760 (any template, key and buffers instead of the fixed ones; `issue_for`: with one key for the subject and another one for the signature) | `Issue.v` |
| src/core/test/x509.cpp | the end-to-end test itself: its parameters, template, secret and two certificates, 497-510, 525-563, 639-857 (without the calls that verify the results with BoringSSL) | `CertTest.v` |
| src/core/test/x509.cpp | the same with the verification, 565-608, 762-794, 859-891 (BoringSSL's X.509 functions are the class `Pki`) | `CertVerify.v` |
| src/core/test/stream.cpp, asn1.cpp, cbor.cpp, oid.cpp | all tests with their rows (without the messages printed on failure); the bytes on the stack are a parameter, class `Stack` | `CoreTest.v` |
| src/core/test/x509.cpp, x509_ext_open_dice_input.cpp, x509_ext_tcg_dice_tcb_info.cpp, x509_ext_tcg_dice_tcb_freshness.cpp, x509_ext_tcg_dice_ueid.cpp | the tests of the writers with their rows (without the messages printed on failure) | `X509Test.v` |
| src/crypto/test/crypto.cpp | the 16 tests of the digest interface 60-112, 152-924 | `CryptoTest.v` |
| src/crypto/test/crypto_nat20.cpp | all (41-91) | `CryptoTest.v` |
| src/crypto/test/crypto.cpp | the 6 tests of the key interface 114-150, 926-1367, and the helpers of crypto_boringssl.cpp 33-47 (the calls that verify signatures are parameters, class `Verifier`) | `KeyTest.v` |
| src/crypto/test/crypto_boringssl.cpp | 68-363: the three tests of the RFC 6979 generator with their 33 vectors, and the test of make_secret; BN_hex2bn as documented | `KgenTest.v` |
| src/crypto/test/crypto.cpp | `signature_2_asn1_sequence` 926-950 | `Issue.v` |

### Not modelled

* The test programs (`src/*/test/*.cpp` other than the above), CMake files, documentation.
* The inside of BoringSSL; C++ object lifetimes other than those of key objects; exceptions of the C++ library (allocation failure).
* Timing and other side channels; what the compiler may do to `memset` calls that wipe secrets (C41 is about the abstract machine).
* Wiping in the BoringSSL back end. Read off the text only: crypto_boringssl.cpp wipes none of its own vectors, so derived seeds, the state of the RFC 6979 generator and the bits of a freed secret stay in freed memory; C41 is about the nat20 back end.
* Overlap of caller's buffers (an output buffer that aliases an input), other than for the digest functions of the nat20 back end (C58) and the stream (C61; there a call with several inputs reads them when it starts); gather lists, slices and size parameters inside of an output buffer.
* Concurrency: the code has no shared state.
* Read errors of `std::ifstream`, locale effects on stream output.

## Properties

| id | theorems in | how stated and proved |
|----|----|----|
| C01–C04 | `PropStream` | invariant `shows` relates a stream to the bytes written so far; preserved by every operation, so it holds after every operation list, also beyond overflow |
| C05, C06 | `PropApi` | `renders P f b`: on every stream `f` appends exactly `b`, NULL stays NULL, undefined behaviour only as `P` allows. Every public rendering call, and every program of them, renders; two-pass sizing follows |
| C07–C10 | `PropCbor` | an RFC 8949 reader (`SpecCbor`) recovers head, integer, string and, by induction, every value tree |
| C11–C16, C18, C19, C21 | `PropAsn1` | a strict DER reader (`SpecDer`) recovers class, tag, length, value and accepts one encoding per value |
| C17 | `PropAsn1`, `PropInt` | the exact log of the integer renderer |
| C20 | `PropX509`, `PropOid` | equality of arc lists; all library OIDs are distinct and equal to the registration tree written out in `PropOid` |
| C22–C25 | `PropX509` | readers for names, extensions, basic constraints, key usage |
| C26–C28 | `PropX509Cert` | an X.509 reader recovers all fields, hence two inputs with the same bytes denote the same certificate |
| C29–C31 | `PropX509Ext` | readers for the DICE extensions |
| C32 | `PropSha` | FIPS 180-4 with constants computed from roots of primes; invariant over the update list |
| C33–C35 | `PropCrypto` | decision table of `digest`, refinement to the hash of the concatenation |
| C36, C37 | `PropCrypto` | FIPS 198-1 over any digest function; decision table |
| C38–C40 | `PropCrypto` | RFC 5869; decision tables |
| C41 | `PropCrypto` | the final contents of the local buffers are part of the modelled result |
| C42 | `PropBssl`, `PropBsslFail` | exact decision tables of the BoringSSL back end, with a row for every BoringSSL call that can fail; the exact argument sets on which both back ends agree |
| C43 | `PropBssl`, `PropUnwrap` | for every DER signature of two integers of the coordinate size; and for any bytes in the buffer at all: the conversion is defined exactly if both integers lie in the buffer, `r` has at most one byte more than the field and `s` fits the output, and then every byte of the output is known (an over-long `s` covers `r`; BoringSSL writes no such signature) |
| C44 | `PropBssl`, `PropKeysFail` | RFC 6979 as an inductive relation, for every HMAC function; the exact error for every set of failing calls, through any number of rejected candidates |
| C45 | `PropKeys` | histories of calls over a heap of key objects; in each call other calls of BoringSSL may fail and memory may come from another allocator (within one call a BoringSSL function either always fails or never) |
| C49 | `PropKeys`, `PropKeysFail` | decision tables, with a row for every BoringSSL call that can fail |
| C50 | `PropIssue` | composes C26, C45 and C49: the exact outcome for every set of failing calls and buffer size; the reader of C26 applied to what is issued |
| C51 | `PropDice` | a reader (`SpecDice`) that dispatches on the registered identifiers; composes C23–C26, C29–C31 and C50. The callbacks are allowed to render too much: that no value is too long follows from the length of the certificate |
| C52 | `PropProfile` | the field requirements of RFC 5280 as a predicate on what the reader of C26 finds (`SpecProfile`), proved equivalent to conditions on the caller's structures. Only PrintableString and GeneralizedTime are in the reader, so a certificate with other types would not be accepted by it at all. Out of scope: uniqueness of serial numbers, critical flags, and the order of not_before and not_after |
| C53 | `PropClient` | programs as trees of calls and answers (`SpecClient`), run on the function tables that the two `open` functions store; by induction on the program from C33–C42. Programs own their buffers (no aliasing) and see failures only through BoringSSL's fixed pattern `fails` |
| C54 | `PropCertTest` | instance of the lemmas behind C50 for the test's own template (`CertTest`): the expected fields are written out as object identifiers, texts and extension bytes; the size by adding up the encodings, with keys of at most 97 and signatures of at most 104 octets. Two allocators, before and after the first signing key is freed, so that its address may or may not come back |
| C55 | `PropProgram` | programs as trees over the whole context (`SpecProgram`), run through the members of the table; by induction on the program from the one-step theorem behind C45 and from C53. The two client programs are analysed on the interface alone (`lawful`, `ends`), so their results hold for any implementation of it. Failures and allocator may change with every step, as in C45; no aliasing |
| C56 | `PropSuite` | the contract as a predicate on function tables (`conforms`, from the error tables of C34, C37 and C40), right vectors by the specifications of SHA-2, HMAC and HKDF (`SpecSuite`); the tests by one lemma for each call, with the contract and not with an implementation. That the tables of the two back ends conform is from C34, C37, C40 and C42, the files from C48 |
| C57 | `PropKeyTest` | the tests with the members of the BoringSSL context, one step lemma for each kind of check from the one-step theorem behind C45; the keys in question by `derived` (`SpecKeyTest`), BoringSSL's verification by an arbitrary function. Every call in a test has a number, and what fails and where the allocator puts a key may differ from one call to the next; s = 0 is excluded since `signature_2_asn1_sequence` then reads behind the signature (C17) |
| C58 | `PropShared` | the functions of crypto.c on offsets of one memory (`Shared`). Digest, HMAC and extract are refined to those of `Crypto` on what the pointers see at the call, then C34 and C37; expand by induction on the blocks against a block-by-block effect on the memory (`SpecShared`), and that against RFC 5869 under the disjointness that is needed |
| C59 | `PropPort` | a relation between a call on one platform and the same call on another (`SpecPort`): equal arguments, callbacks that write the same bytes on both; preserved by every rendering function, hence by programs, which may serve as callbacks again. The digest functions by C53 on both |
| C60 | `PropKgen` | reading a hexadecimal number as BN_hex2bn does against `writes` (`SpecKgen`), then the theorems of C44 about the generator; the tables by evaluation. That the vectors are right is proved for one of them only (C60_case); evaluating all would take the checker an hour |
| C61 | `PropOverlap` | induction over the history with the invariant `shows` of C05: a copy from within is a copy of the bytes that are there now, plus a mark for an overlap; for programs, no call changes the first bytes before the output reaches them |
| C62 | `PropCoreTest`, `PropCoreRows` | right is said with the strict readers of `SpecDer` and `SpecCbor` (`expects_value`, `shortest_head` in `SpecCoreTest`): the expected bytes decode to the value; since those readers accept one encoding only, this is equality with the rendering lemmas' bytes (`decodes_iff`, `shortest_head_iff`), and the three rounds with their patched tags are one (`under_each_tag_decides`); the rows by these theorems or by computation with an arbitrary stack |
| C63 | `PropUnique` | `X509Unique` shows for every reader of `SpecX509` that what it accepts is `enc_tlv` of the denotation it returns; with the round trips of C22–C31 the written bytes are the only ones read as the same fields |
| C64 | `PropX509Test`, `PropX509TestExt` | right is said with the readers of `SpecX509`: the expected bytes read as the fields of the row. From `rend` of the writer and the uniqueness of C63 (`reads_instead`), so no hypothesis on the size is needed; the extension tests by `extension_decides` (the content is shorter than the extensions). The rows by these theorems or by computation with an arbitrary stack |
| C65 | `PropPath` | `SpecPath` is a validator over bytes in the terms of RFC 5280 6.1 (no revocation, policies or name constraints; names compared by their octets), with any signature verification; by induction over the chain, with the readers of C26 and C51 for each certificate and max_path_length as the minimum of what is left of the constraints; `certified` says that a certificate has come from `issue_for`, `arranged` what is left to the caller |
| C66 | `PropCertVerify` | the steps of C54 with the checks in between (`CertVerify`, BoringSSL's X.509 functions are the class `Pki`); `agrees` lists the answers the test is satisfied with; `conforms` (`SpecCertVerify`) says what these functions are for, with the path validation of C65, about certificates with well-formed fields only and not about Ed25519 where the test's comment says it is not supported |
| C67 | `PropCallback` | a session (`SpecCallback`) is the code with its callbacks left open: a tree of calls and of what it does with each world that a callback may leave behind. The theorems say that one session, made before the callbacks are known, describes the code for all of them, and which calls are on each of its paths. Code whose calls differ has no such session (C67_twice, C67_never). A call whose outcome is thrown away altogether would not be seen: the model has one call wherever the C code has one |
| C46–C48 | `PropTest` | inductive descriptions of hex text, dump rows and vector files; the parsers and the reader decide exactly these |

Every property has at least one `Example` with a concrete case (213 for 313 theorems). Not every single theorem has its own: theorems about the same function share
one, and some (such as the `_refuted` ones of existential form) are themselves witnesses.

C17, C35 and C39 are counted as proved for a restated claim. The claims first intended (no read outside the slice; NULL lists are reported; over-long output is rejected) are false of the
code; `properties.jsonl` now says so and gives the exact behaviour, which is what is proved. The statements of C46 to C48 were also corrected after reading the code more closely.

## Findings

Claims one would expect that are false of the code. Each is a theorem with a witness unless marked (noted only).

| where | what | theorem |
|----|----|----|
| asn1.c:207-218 | integer 0 or -1: one byte behind (little-endian: before) the slice is read; with an empty slice the output depends on it | C17_* |
| asn1.c:133-154 | first OID subidentifier truncated to one byte (2.999) | C19_asn1_oid_first_subidentifier_refuted |
| asn1.c:281-306 | bit counts above SIZE_MAX-7 wrap: the contents are lost | C59_bitstring_refuted; excluded by the size bound in C18 |
| asn1.c (little-endian integers) | forms the pointer `buffer - 1` | C17_asn1_integer_stray_read_exact |
| cbor.c (write_int) | INT64_MIN: signed overflow | C08_cbor_int_min_overflows_refuted |
| cbor.c (write_header) | type 7 with arguments 24..31 is not well-formed | C07_cbor_header_simple_24_to_31_refuted |
| cbor.c (strings) | `memcpy(dst, NULL, 0)` for an empty NULL string | C09_cbor_strings_verbatim allows exactly that |
| oid.c | arc counts above 10 in both operands read out of bounds | C20_oid_equals_unchecked_count_refuted |
| x509.c (name) | NULL or more than 8 elements renders SEQUENCE { NULL } | C22_name_fallback |
| x509.c (key usage) | mask 80 01 set by hand is not minimal DER | C25_key_usage_minimal_for_all_masks_refuted |
| x509.c | `public_key_info(NULL)` and `validity(NULL)` dereference NULL | C06_null_context_refuted |
| x509_ext_tcg_dice_tcb_info.c | multi TCB info with a NULL list renders an empty SEQUENCE | C30_multi_tcb_info_null_list |
| x509_ext_tcg_dice_ueid.c, tcb_freshness.c | a NULL buffer renders an empty OCTET STRING | follows from C31 with C21 |
| sha256.c, sha512.c | the bit count wraps from 2^61 bytes on | excluded in C32 |
| crypto.c (digest) | a later NULL gather list is dereferenced | C35_later_null_list_refuted |
| crypto.c (digest) | `msg_count = 0` still reads `msg_in[0]` | in `digest_pre` |
| crypto.c (hmac) | `memcpy(K, NULL, 0)` for an empty NULL key | C37_null_key_refuted |
| crypto.c (digest, hmac) | unknown_algorithm is reported before null_size, the header lists them the other way round; extract's null_size is not documented | C34, C37, C40 tables |
| crypto.c (hkdf_expand) | more than 255 blocks: success, the counter wraps | C39_overlong_refuted, C39_counter_repeats |
| crypto.c (hkdf_expand) | the error of `hmac` is ignored | C40_hmac_error_ignored_refuted |
| crypto_boringssl.cpp (digest) | EVP_MD_CTX_new unchecked | C42_digest_allocation_refuted |
| crypto_boringssl.cpp (hmac, digest) | precedence of errors and NULL lists differ from the nat20 back end | C42_hmac_agrees_iff, C42_later_null_list_differs |
| crypto_boringssl.cpp (rfc6979) | never ends for orders 0 and 1 (not reachable with P-256 and P-384) | C44_small_order |
| crypto_boringssl.cpp (keys) | freed handles dangle | C45_use_after_free_refuted |
| crypto_boringssl.cpp (sign) | a failing EVP_DigestSignFinal leaves 104 in the size parameter | C49_size_after_failure_refuted |
| x509.c (validity) | dates before 2050 are GeneralizedTime, RFC 5280 4.1.2.5 demands UTCTime; the default not_before is such a date | C52_default_not_before_refuted |
| x509.c (certificate) | serial 0 or too long, characters outside PrintableString, repeated extensions, an empty issuer and differing signature algorithms are rendered without complaint | C52_profile_exact |
| nat20/crypto.c (hkdf_expand) | expanding over the pseudorandom key (or the info) reports success, but the key is wrong from the second block on, and include/nat20/crypto.h:425-467 does not forbid it | C58_expand_in_place_refuted, C58_expand_over_prk |
| test/asn1.cpp (IntegerEncoding) | the row without bytes expects NULL: it passes only if the data pointer of an empty std::vector is NULL, which the standard does not promise; otherwise the code reads around the vector | C62_asn1_integer_empty, C62_core_tests_pass |
| test/cbor.cpp (CborArrayHeaderTest, CborMapHeaderTest) | the rows from 2^32 on are cut to a size_t of 32 bits and fail there | C62_cbor_counts, C62_core_tests_pass |
| test/asn1.cpp, cbor.cpp, stream.cpp | on every platform the suite reads outside of vectors, forms pointers before them and overflows an int64_t; where empty vectors have a NULL pointer it also calls `memcpy(…, NULL, 0)` | C62_core_tests_undefined |
| test/x509_ext_tcg_dice_tcb_info.cpp | svn, layer and index are uint64_t parameters assigned to int64_t members: from 2^63 on a test would expect a negative number | C64_tcb_info, C64_tcb_info_case |
| test/x509_ext_open_dice_input.cpp, x509_ext_tcg_dice_tcb_info.cpp | whether an empty vector is written as an empty field or left out depends on its data pointer, which the standard leaves open; no row of the repository has one | C64_open_dice, C64_open_dice_case |
| test/x509.cpp (issuing) | when a check fails after the key was derived, the key object is leaked | C50_from_cdi |
| test/crypto.cpp (HmacTest) | a MAC that is cut off is accepted, even an empty one | C56_vectors, case C56_short_mac |
| test/crypto.cpp (HkdfExtractTest) | the size is not compared: a pseudorandom key with zeros behind it is accepted | C56_vectors, case C56_long_prk |
| test/crypto.cpp (HmacErrorsTest) | gives an empty NULL key with a sufficient buffer: `memcpy(K, NULL, 0)` on nat20; so do the 504 of the 1512 HKDF vectors that have an empty salt, if `std::vector::data` is NULL for an empty vector | C56_null_key_refuted |
| test/crypto.cpp | `(n20_crypto_digest_algorithm_t)-1` is outside of the range of the enumeration in C++ | noted only |
| test/crypto.cpp (SignErrorsTest) | its three signing keys are never freed | C57_sign_errors_leak, case C57_leak_case |
| test/crypto.cpp (KDFTest) | the contexts are `this context isnot the other` and `this context isthe other`, each with the zero of the literal (noted only); with s = 0 in a signature it would read one byte behind the buffer | hypothesis `nonzero_s` |
| test_vector_reader.h | hex parser accepts `1g` | C46_parser_strict_refuted |
| test_vector_reader.h | a truncated last vector is dropped silently; a reader without fields never ends | C48_truncated_last_vector_dropped, C48_no_fields_never_ends |

## Wrong programs

`seeded/LOG.jsonl` records mutations of the model, one realistic bug each, made in a scratch copy. How to read it: the build of the mutant stops at the statements in `stopped_at`;
`theorems` are the property theorems that depend on one of these by name. That is weaker than showing each listed theorem false of the mutant: a proof script
can also break although its statement still holds. A mutant that builds completely is a survivor and is logged as such.
