{"id": "C01", "title": "Stream writes never leave the caller's buffer", "statement": "After n20_stream_init(s, buffer, n), any sequence of n20_stream_prepend / n20_stream_put calls (of any lengths, including after an overflow) writes only inside buffer[0..n); every byte of memory after the window and every byte of the window that is not part of the rendered output keeps its value.", "quantifier": "every buffer, every buffer size, every finite sequence of prepend/put calls with any readable sources, 32-bit and 64-bit size_t", "why_tests_cant": "There are unboundedly many call sequences and sizes; the interesting ones sit at exact capacity and at size_t wrap-around, which a test cannot allocate.", "anchors": ["src/core/stream.c: n20_stream_init, n20_stream_prepend, n20_stream_put"]}
{"id": "C02", "title": "Stream byte count is exact even without a buffer", "statement": "n20_stream_byte_count always equals the total number of bytes requested to be written so far (modulo 2^w where w is the width of size_t), no matter whether the buffer was NULL, too small, or large enough.", "quantifier": "every initial buffer/size (including NULL) and every finite sequence of writes", "why_tests_cant": "The claim is about all histories of writes, including ones whose sum wraps size_t.", "anchors": ["src/core/stream.c: n20_stream_byte_count, n20_stream_prepend"]}
{"id": "C03", "title": "Stream overflow flags are precise and sticky", "statement": "n20_stream_has_buffer_overflow is true if and only if the buffer was NULL or the total number of bytes written exceeds the buffer size; n20_stream_has_write_position_overflow is true if and only if that total reached 2^w; once true, neither flag ever becomes false again, even if the wrapped count later drops below the buffer size; position overflow implies buffer overflow. A NULL stream reports both as true.", "quantifier": "every initial buffer/size and every finite sequence of writes", "why_tests_cant": "Stickiness after wrap-around is a property of all continuations of a history.", "anchors": ["src/core/stream.c: n20_stream_has_buffer_overflow, n20_stream_has_write_position_overflow, n20_stream_prepend"]}
{"id": "C04", "title": "Stream content is the reverse concatenation of the writes", "statement": "If no overflow is reported, the n20_stream_byte_count bytes at n20_stream_data are exactly the concatenation of the written chunks, most recent first, they occupy the end of the buffer, and the unused front of the buffer is untouched. Even after an overflow the buffer still holds, at its end, an intact suffix of the output: bytes once written are never altered.", "quantifier": "every buffer, size, and finite sequence of writes", "why_tests_cant": "Quantifies over all histories; tests sample a handful.", "anchors": ["src/core/stream.c: n20_stream_prepend, n20_stream_data"]}
{"id": "C05", "title": "Two-pass sizing works for every renderer", "statement": "For every rendering function of the library (ASN.1, CBOR, X.509, extensions), rendering once with a NULL buffer yields a byte count k such that rendering the same input into any buffer of at least k bytes reports no overflow and produces the same k bytes, and rendering into any smaller buffer reports an overflow and the same byte count k. The rendered bytes do not depend on the buffer, its size, or what was rendered before.", "quantifier": "every rendering function, every input, every buffer size, every prior stream history", "why_tests_cant": "It is a relation between pairs of runs over all buffer sizes and inputs.", "anchors": ["src/core/stream.c", "src/core/asn1.c", "src/core/cbor.c", "src/core/x509.c", "src/core/x509_ext_open_dice_input.c", "src/core/x509_ext_tcg_dice_tcb_info.c"]}
{"id": "C06", "title": "NULL streams are safe no-ops", "statement": "Every rendering function called with a NULL stream leaves all memory unchanged and does not dereference the NULL pointer.", "quantifier": "every rendering function and every input", "why_tests_cant": "All inputs of about forty functions.", "anchors": ["src/core/stream.c", "src/core/asn1.c", "src/core/cbor.c", "src/core/x509.c"]}
{"id": "C07", "title": "CBOR headers decode to exactly what was written, in shortest form", "statement": "The bytes emitted by n20_cbor_write_header(type, n) are a well-formed RFC 8949 initial byte plus argument that decodes to major type `type` and argument n, and no shorter well-formed encoding of the same head exists (deterministic encoding). Types above 7 produce the single byte 0xf7 (undefined).", "quantifier": "every major type value and all 2^64 arguments", "why_tests_cant": "2^64 arguments times 8 types.", "anchors": ["src/core/cbor.c: n20_cbor_write_header"]}
{"id": "C08", "title": "CBOR signed integers round-trip", "statement": "n20_cbor_write_int(n) renders a CBOR integer whose decoded value is n, for every int64_t, and n20_cbor_write_uint likewise for every uint64_t. (For n = INT64_MIN the C expression -n overflows; recorded as a finding.)", "quantifier": "all 2^64 signed and unsigned 64-bit integers", "why_tests_cant": "The domain is 2^64 values and the critical one is a single point.", "anchors": ["src/core/cbor.c: n20_cbor_write_int, n20_cbor_write_uint"]}
{"id": "C09", "title": "CBOR strings carry exactly the given bytes", "statement": "n20_cbor_write_byte_string / n20_cbor_write_text_string render one item of the right major type whose payload is exactly the slice; a slice with size > 0 and NULL buffer renders CBOR null.", "quantifier": "every slice", "why_tests_cant": "Every length, including those where the length field changes width.", "anchors": ["src/core/cbor.c: n20_cbor_write_byte_string, n20_cbor_write_text_string"]}
{"id": "C10", "title": "CBOR documents built back to front decode to the intended tree", "statement": "If a caller renders an arbitrarily nested value (ints, byte/text strings, arrays, maps, tags, bools, null) by writing children last-to-first and then the array/map/tag header, the resulting bytes decode under RFC 8949 to exactly that value with no bytes left over; distinct values give distinct, prefix-free encodings.", "quantifier": "every finite CBOR value tree", "why_tests_cant": "Unbounded nesting and sizes; needs induction over the tree.", "anchors": ["src/core/cbor.c"]}
{"id": "C11", "title": "ASN.1 identifier/length octets are DER", "statement": "The bytes emitted by n20_asn1_header(class, constructed, tag, len) are the X.690 DER identifier and length octets: a strict DER reader recovers exactly class, constructed bit, tag number and length, and rejects any longer form of the same header.", "quantifier": "classes 0..3, both constructed flags, all 2^32 tags, all size_t lengths", "why_tests_cant": "About 2^99 argument combinations.", "anchors": ["src/core/asn1.c: n20_asn1_header, n20_asn1_base128_int"]}
{"id": "C12", "title": "Base-128 integers are minimal and invertible", "statement": "n20_asn1_base128_int(n) emits the minimal big-endian base-128 form of n (continuation bit on every byte but the last, no leading 0x80) and decoding gives n back.", "quantifier": "all 2^64 values", "why_tests_cant": "2^64 values.", "anchors": ["src/core/asn1.c: n20_asn1_base128_int"]}
{"id": "C13", "title": "Length prefixes always match the content, at any nesting depth", "statement": "n20_asn1_header_with_content and n20_asn1_sequence, given any callback that renders some bytes c (fewer than 2^w), produce exactly one TLV whose content octets are c, whatever the stream held before; nested callbacks compose. A NULL callback gives empty content.", "quantifier": "every callback that only appends to the front of the stream, every tag override, every stream state, every nesting", "why_tests_cant": "Quantifies over arbitrary user callbacks and nesting depth.", "anchors": ["src/core/asn1.c: n20_asn1_header_with_content, n20_asn1_sequence"]}
{"id": "C14", "title": "Tag overrides do what X.680 says", "statement": "With an implicit override the element's class and tag number are replaced by context-specific/tag while the constructed bit and content stay the same; with an explicit override the unmodified element is wrapped in a constructed context-specific TLV; with no override nothing changes. Where a function falls back to ASN.1 NULL (NULL OID, too many arcs, NULL integer buffer, NULL time) the override is ignored.", "quantifier": "every element-rendering function, every tag number, every content", "why_tests_cant": "Product of all element functions, all tag numbers and all contents.", "anchors": ["src/core/asn1.c: n20_asn1_null, n20_asn1_header_with_content, n20_asn1_object_identifier, n20_asn1_integer, n20_asn1_generalized_time"]}
{"id": "C15", "title": "ASN.1 integers have the right value and minimal encoding", "statement": "n20_asn1_integer renders the DER INTEGER of the number held in a non-empty byte slice, for big- and little-endian input, signed and unsigned: the content octets' two's-complement value equals the input value and the encoding is minimal, so equal numbers always encode identically however much padding the input had.", "quantifier": "every non-empty byte string, both byte orders, both signedness flags", "why_tests_cant": "All byte strings of all lengths.", "anchors": ["src/core/asn1.c: n20_asn1_integer"]}
{"id": "C16", "title": "64-bit integer helpers are correct on either endianness", "statement": "n20_asn1_uint64(n) and n20_asn1_int64(n) render the DER INTEGER of n on little-endian and on big-endian hosts.", "quantifier": "all 2^64 values of each, both host byte orders", "why_tests_cant": "2^64 values, and the big-endian host is normally not tested at all.", "anchors": ["src/core/asn1.c: n20_asn1_uint64, n20_asn1_int64"]}
{"id": "C17", "title": "When rendering an integer reads outside its slice", "statement": "The intended claim, that n20_asn1_integer reads only the bytes of its slice, is false of the code: the leading-byte strip loop dereferences before comparing with the end. Exactly: for every non-NULL slice (also an empty one) and every stream, the call reads outside the object holding the slice if and only if all bytes are 00 (or, with two_complement, all are ff), i.e. the number is 0 or -1, and either the input is little-endian or nothing lies behind the slice in its object; for little-endian input the pointer before the slice is always formed; no other undefined behaviour occurs. For an empty slice with two_complement the output depends on the stray byte.", "quantifier": "every slice, both byte orders, both signedness flags, every value of the adjacent memory", "why_tests_cant": "An out-of-bounds read of one byte is invisible to ordinary tests since the result does not normally depend on it.", "anchors": ["src/core/asn1.c: n20_asn1_integer_internal_content"]}
{"id": "C18", "title": "Bit strings carry exactly the requested bits", "statement": "n20_asn1_bitstring(b, bits) renders a DER BIT STRING whose decoded bit sequence is exactly the first `bits` bits of b, with padding bits zero and the right unused-bits count; a NULL buffer gives the empty bit string.", "quantifier": "every buffer and every bit count up to SIZE_MAX-7 that the buffer can supply", "why_tests_cant": "All bit counts and buffer contents. For bits > SIZE_MAX-7 the byte computation wraps (finding).", "anchors": ["src/core/asn1.c: n20_asn1_bitstring"]}
{"id": "C19", "title": "Object identifiers round-trip", "statement": "n20_asn1_object_identifier renders an OID whose DER decoding is the given arc list, and different arc lists render differently, for every arc list of 2..10 arcs with first arc <= 2 and 40*arc0+arc1 < 128. NULL or more than 10 arcs renders ASN.1 NULL. (For valid OIDs such as 2.999 the first subidentifier is truncated to one byte: finding.)", "quantifier": "every arc list of up to 10 32-bit arcs", "why_tests_cant": "2^320 arc lists; the failing class is not among the library's own constants.", "anchors": ["src/core/asn1.c: n20_asn1_object_identifier", "src/core/oid.c"]}
{"id": "C20", "title": "OID comparison is equality, and the library OIDs are the registered ones", "statement": "n20_asn1_oid_equals returns true exactly when both pointers are NULL or both OIDs have the same arc count and the same arcs (ignoring unused array slots); it is reflexive, symmetric and transitive; it reads only the element array provided the arc count is at most 10. The library's OID constants are pairwise different, and each has exactly the arcs registered for the algorithm, attribute or extension it is named after.", "quantifier": "every pair of OIDs", "why_tests_cant": "All pairs of arc arrays; garbage in unused slots.", "anchors": ["src/core/oid.c: n20_asn1_oid_equals", "src/core/oid.c: N20_ASN1_DEFINE_OID"]}
{"id": "C21", "title": "Strings, booleans, NULL and times render their value verbatim", "statement": "n20_asn1_octetstring, printablestring, utf8_string and generalized_time render one TLV with the right universal tag and exactly the slice's bytes as content (NULL slices give empty content; NULL time gives ASN.1 NULL); n20_asn1_boolean renders 0xff / 0x00; n20_asn1_null renders an empty NULL.", "quantifier": "every slice, boolean and tag override", "why_tests_cant": "All lengths and contents, incl. lengths where the length octets grow.", "anchors": ["src/core/asn1.c: n20_asn1_octetstring, n20_asn1_printablestring, n20_asn1_utf8_string, n20_asn1_generalized_time, n20_asn1_boolean, n20_asn1_null"]}
{"id": "C22", "title": "X.509 names are rendered in order and completely", "statement": "n20_x509_name renders a SEQUENCE with one SET{SEQUENCE{type OID, PrintableString}} per element, in the given order; a serialNumber element is rendered as the lower-case hex of its bytes; more than 8 elements or NULL renders SEQUENCE{NULL}. Distinct element lists give distinct encodings.", "quantifier": "every name of up to 8 elements with any strings and OIDs", "why_tests_cant": "All strings/OIDs/counts; order reversal bugs hide behind palindromic tests.", "anchors": ["src/core/x509.c: n20_x509_name, n20_x509_rdn_content, n20_x509_serial_as_hex_content"]}
{"id": "C23", "title": "X.509 extension lists are rendered in order and completely", "statement": "n20_x509_extension renders [3]{SEQUENCE OF SEQUENCE{OID, BOOLEAN TRUE iff critical, OCTET STRING content}} with the extensions in the given order and each callback's output as the octet string content; nothing at all for a NULL or empty list.", "quantifier": "every extension list, with arbitrary content callbacks", "why_tests_cant": "Quantifies over callbacks and list lengths.", "anchors": ["src/core/x509.c: n20_x509_extension"]}
{"id": "C24", "title": "Basic constraints say what the caller asked", "statement": "n20_x509_ext_basic_constraints_content decodes to (CA flag, path length): not CA gives an empty SEQUENCE (path length never emitted), CA gives TRUE and the path length iff requested, for every 32-bit path length. NULL context renders nothing.", "quantifier": "all flags and all 2^32 path lengths", "why_tests_cant": "2^32 path lengths, where 0 and values >= 128 need different treatment.", "anchors": ["src/core/x509.c: n20_x509_ext_basic_constraints_content"]}
{"id": "C25", "title": "Key usage is the exact flag set in minimal named-bit-list form", "statement": "For any set of the nine key usages selected through the N20_X509_KEY_USAGE_SET_* macros, the rendered BIT STRING has exactly those named bits set and no trailing zero bits (DER named bit list). For arbitrary masks no bit beyond the ninth is ever rendered.", "quantifier": "all 512 flag sets in any setting order; all 2^16 masks", "why_tests_cant": "Tests cover four masks.", "anchors": ["src/core/x509.c: n20_x509_ext_key_usage_content", "include/nat20/x509.h: N20_X509_KEY_USAGE_SET_*"]}
{"id": "C26", "title": "Certificates decode to the fields they were built from", "statement": "The bytes rendered by n20_x509_cert_tbs / n20_x509_cert are DER that an independent X.509 reader decodes to exactly the caller's version (3), serial number value, signature algorithm, issuer, validity (defaults 19700101000000Z / 99991231235959Z when absent), subject, public key bits, and extension list.", "quantifier": "every certificate structure whose OIDs are encodable, with arbitrary strings, serials, keys and extension callbacks", "why_tests_cant": "The whole input space of certificates.", "anchors": ["src/core/x509.c: n20_x509_cert, n20_x509_cert_tbs"]}
{"id": "C27", "title": "What is signed is what is shipped", "statement": "The first element inside the SEQUENCE rendered by n20_x509_cert is byte-for-byte the output of n20_x509_cert_tbs for the same TBS structure, regardless of signature, algorithm and buffer history, so a signature computed over the separately rendered TBS verifies against the certificate.", "quantifier": "every certificate, every signature, every stream state", "why_tests_cant": "A relation between two renderings over all inputs.", "anchors": ["src/core/x509.c: n20_x509_cert_content, n20_x509_cert_tbs"]}
{"id": "C28", "title": "To-be-signed bytes are unambiguous", "statement": "Two TBS structures that render to the same bytes denote the same certificate fields: no two different certificates share a signed encoding.", "quantifier": "all pairs of TBS structures with encodable OIDs", "why_tests_cant": "Injectivity over an infinite domain.", "anchors": ["src/core/x509.c: n20_x509_cert_tbs_content"]}
{"id": "C29", "title": "Open DICE input extension round-trips", "statement": "n20_x509_ext_open_dice_input_content renders SEQUENCE of explicitly tagged fields [0]..[7] in ascending order; decoding recovers exactly the present fields (a NULL buffer means absent), and the mode is always present. NULL context renders nothing.", "quantifier": "every combination of present/absent fields with arbitrary bytes and every mode value", "why_tests_cant": "2^7 presence patterns times arbitrary contents.", "anchors": ["src/core/x509_ext_open_dice_input.c"]}
{"id": "C30", "title": "TCG DICE TCB info round-trips", "statement": "n20_x509_ext_tcg_dice_tcb_info_content renders SEQUENCE of implicitly tagged fields [0]..[10] ascending; decoding recovers vendor, model, version, svn, layer, index (signed 64-bit values), the FWID list in order (algorithm OID and digest), flags and flags mask, vendor info and type; multi TCB info is the SEQUENCE of those in order. NULL context renders nothing.", "quantifier": "every TCB info structure and list", "why_tests_cant": "Arbitrary lists, strings and integers.", "anchors": ["src/core/x509_ext_tcg_dice_tcb_info.c"]}
{"id": "C31", "title": "UEID and TCB freshness extensions round-trip", "statement": "The UEID and TCB freshness extensions render SEQUENCE{OCTET STRING} holding exactly the given bytes; NULL context renders nothing.", "quantifier": "every byte string", "why_tests_cant": "All lengths.", "anchors": ["src/core/x509_ext_tcg_dice_ueid.c", "src/core/x509_ext_tcg_dice_tcb_freshness.c"]}
{"id": "C32", "title": "SHA-2 output is FIPS 180-4", "statement": "n20_sha{224,256,384,512}_init/update*/finalize compute the FIPS 180-4 digest of the concatenation of all update slices, for every message shorter than 2^61 bytes.", "quantifier": "every message and every way of cutting it into updates (including empty and NULL slices)", "why_tests_cant": "All messages and all partitions; padding edge cases at every block residue.", "anchors": ["src/crypto/nat20/sha256.c", "src/crypto/nat20/sha512.c"]}
{"id": "C33", "title": "Digest over gather lists depends only on the concatenation", "statement": "A successful n20 digest call returns the hash of the concatenation of all slices in order; regrouping the same bytes into different slices or (for msg_count > 1) lists never changes the result, and the reported size is the digest size of the algorithm.", "quantifier": "every algorithm, every gather list partition", "why_tests_cant": "Infinite family of partitions.", "anchors": ["src/crypto/nat20/crypto.c: n20_crypto_digest_internal"]}
{"id": "C34", "title": "Digest error contract", "statement": "digest returns exactly the documented error in the documented precedence (invalid context, unknown algorithm, NULL size, insufficient size or NULL output with the size set to the requirement, NULL message, NULL list, NULL slice), and on every error the output buffer is unchanged; on success exactly digest-size bytes are written.", "quantifier": "every combination of arguments", "why_tests_cant": "Product of all argument faults; precedence between simultaneous faults is rarely tested.", "anchors": ["src/crypto/nat20/crypto.c: n20_crypto_digest_internal, n20_crypto_digest", "include/nat20/crypto.h"]}
{"id": "C35", "title": "NULL inner gather lists: the first is rejected, later ones are dereferenced", "statement": "The intended claim, that digest reports unexpected-null-list for any gather list with non-zero count and NULL list pointer, is false of the code for msg_count > 1. Exactly: such a first list is always rejected with the output unchanged, and such a later list (behind well-formed ones) is always dereferenced.", "quantifier": "every list of gather lists", "why_tests_cant": "Requires malformed second lists, which the suite never builds.", "anchors": ["src/crypto/nat20/crypto.c: n20_crypto_digest_internal"]}
{"id": "C36", "title": "HMAC is FIPS 198-1 for every key and message", "statement": "A successful hmac call returns H((K0 xor opad) || H((K0 xor ipad) || message)) with K0 the zero-padded key, or the zero-padded hash of the key if it is longer than the block, for all four algorithms and any message partition.", "quantifier": "every algorithm, key of any length, message partition", "why_tests_cant": "All key lengths (block boundary) and messages.", "anchors": ["src/crypto/nat20/crypto.c: n20_crypto_hmac_internal"]}
{"id": "C37", "title": "HMAC error contract", "statement": "hmac returns exactly the documented error in a fixed precedence, leaves the output unchanged on error, supports size queries, and writes exactly digest-size bytes on success.", "quantifier": "every combination of arguments", "why_tests_cant": "Product of all argument faults.", "anchors": ["src/crypto/nat20/crypto.c: n20_crypto_hmac_internal, n20_crypto_hmac"]}
{"id": "C38", "title": "HKDF is RFC 5869", "statement": "hkdf_extract, hkdf_expand and hkdf return the RFC 5869 result for every IKM, salt, info and every output length up to 255 hash lengths; output of length L is a prefix of the output of any longer length; an absent salt equals a salt of HashLen zeros.", "quantifier": "every algorithm, IKM, salt, info, length", "why_tests_cant": "All lengths (partial last block) and inputs.", "anchors": ["src/crypto/nat20/crypto.c: n20_crypto_hkdf, n20_crypto_hkdf_extract, n20_crypto_hkdf_expand"]}
{"id": "C39", "title": "HKDF over-long requests: accepted, with a repeating block counter", "statement": "The intended claim, that hkdf_expand does not return success for more than 255*HashLen bytes (RFC 5869), is false of the code. Exactly: every longer request succeeds and returns the blocks T(1), T(2), ... of RFC 5869 continued with the one-byte counter modulo 256.", "quantifier": "every requested length", "why_tests_cant": "Nobody requests more than 255 blocks in a test.", "anchors": ["src/crypto/nat20/crypto.c: n20_crypto_hkdf_expand"]}
{"id": "C40", "title": "HKDF error contract", "statement": "hkdf, hkdf_extract and hkdf_expand return the documented errors in a fixed precedence and do not modify the output on error; a zero-length request succeeds and writes nothing.", "quantifier": "every combination of arguments", "why_tests_cant": "Product of all argument faults.", "anchors": ["src/crypto/nat20/crypto.c"]}
{"id": "C41", "title": "Secrets are wiped on every exit path", "statement": "Whatever the arguments and outcome, when digest, hmac, hkdf_extract, hkdf_expand or hkdf return, the local buffers that held key material, the inner digest, the PRK and hash state are all zero.", "quantifier": "every argument combination, success and every error path", "why_tests_cant": "Stack contents after return are not observable by tests.", "anchors": ["src/crypto/nat20/crypto.c"]}
{"id": "C42", "title": "When both crypto back ends agree", "statement": "For well-formed arguments the nat20 and BoringSSL back ends give the same error code, size and output for digest, hmac and hkdf, given that BoringSSL's primitives meet their specifications; the exact argument sets on which they differ are characterised.", "quantifier": "every argument combination", "why_tests_cant": "Differential claim over all inputs including malformed ones.", "anchors": ["src/crypto/nat20/crypto.c", "src/crypto/crypto_boringssl.cpp"]}
{"id": "C43", "title": "ECDSA signatures are returned as fixed-size R||S", "statement": "For every DER ECDSA signature (r, s) that BoringSSL can return for P-256 or P-384, sign outputs exactly the big-endian r followed by s, each left-padded to the field size, and reports twice the field size. For any other content of the DER buffer, the conversion is defined exactly if both integers lie in the buffer, r is at most one byte longer than the field and s fits the output; every output byte is then determined by the buffer.", "quantifier": "all r, s in range, including those with leading zero bytes or the high bit set; all buffer contents", "why_tests_cant": "Short r or s occur with probability 2^-8 or less per byte; needs all values.", "anchors": ["src/crypto/crypto_boringssl.cpp: bssl sign ECDSA branch"]}
{"id": "C44", "title": "Deterministic nonce/key candidate generation follows RFC 6979", "statement": "The k generation used for deriving EC keys computes the RFC 6979 section 3.2 candidate sequence and only ever returns a value in [1, q-1].", "quantifier": "every group order, seed, message digest and HMAC behaviour", "why_tests_cant": "Rejection-sampling retries are practically unreachable in tests.", "anchors": ["src/crypto/crypto_boringssl.cpp: rfc6979_k_generation"]}
{"id": "C45", "title": "Key handles keep their type and are usable until freed", "statement": "For any history of make_secret, kdf, sign, get_public_key and free calls: an operation on a live handle sees the key it was created with, freeing one handle affects no other, secrets cannot sign or export a public key, derived signing keys cannot be used as KDF input, and key derivation depends only on the secret, the key type and the concatenated context.", "quantifier": "every finite history of key operations", "why_tests_cant": "All interleavings of create/use/free.", "anchors": ["src/crypto/crypto_boringssl.cpp: n20_crypto_boringssl_kdf, sign, key_get_public_key, key_free, make_secret"]}
{"id": "C46", "title": "Hex encoding round-trips; which strings the hex parser accepts", "statement": "Parsing the output of hex() yields the original bytes for every byte string, and hex() writes two lower case digits per byte. The parser accepts exactly the even-length strings in which every pair starts with a hex digit. (So the stronger claim that it rejects every non-hex digit is false: a bad second digit such as in '1g' is accepted; finding.)", "quantifier": "every byte string / every character string", "why_tests_cant": "All strings.", "anchors": ["src/testing/test_utils.cpp: hex", "include/nat20/testing/test_vector_reader.h: hex_string_parser"]}
{"id": "C47", "title": "Hexdump shows every byte once, in order", "statement": "hexdump output consists, for every input, of lines of 16 bytes (the last may be shorter) in two groups of eight: two lower case digits per byte, one space between bytes, two between the groups. Without blanks and newlines it is the hex text of the input, so no byte is lost, doubled or moved.", "quantifier": "every byte string", "why_tests_cant": "All lengths incl. partial last lines.", "anchors": ["src/testing/test_utils.cpp: hexdump"]}
{"id": "C48", "title": "Test-vector reader returns every vector or reports an error", "statement": "For every file content and every non-empty field list the reader ends; it returns the complete vectors in order, or throws at the first pair whose key or value does not fit. A file written from any SHA-2, HMAC or HKDF vectors is read back as these vectors. (A truncated final vector is silently dropped, and a reader without fields never ends: findings.)", "quantifier": "every file content", "why_tests_cant": "All files.", "anchors": ["src/testing/test_vector_reader.cpp", "include/nat20/testing/test_vector_reader.h"]}
{"id": "C49", "title": "Key operations: error contract and two-pass sizing", "statement": "sign, key_get_public_key, kdf and make_secret of the BoringSSL back end report exactly the first applicable error of a fixed table, create a key or write output only on success, tell the required size when the buffer is missing or too small, and succeed with exactly that size; with failing BoringSSL calls they report a resource or implementation-specific error and change no buffer, heap or handle. (A failing EVP_DigestSignFinal leaves 104 in the size parameter: finding.)", "quantifier": "every heap of keys, every argument combination, every pattern of failing BoringSSL calls", "why_tests_cant": "Arbitrary combinations of bad arguments and failing calls.", "anchors": ["src/crypto/crypto_boringssl.cpp: n20_crypto_boringssl_kdf, sign, key_get_public_key, make_secret", "include/nat20/crypto.h:495-676"]}
{"id": "C50", "title": "The issuing procedure yields a certificate that parses back and verifies under the key it carries", "statement": "The procedure of the end-to-end certificate test (derive a key from a secret, get its public key, render the TBS certificate with that key, sign it, wrap an ECDSA signature as SEQUENCE of two INTEGERs, assemble the certificate) either fails one of its checks or returns a certificate that the reader of C26 maps to the template's fields, the public key of the derived key, and a signature of exactly the bytes of the signed part under that key. It fails exactly when a call fails or a buffer is too short, it frees the key it derived exactly when it reaches the end of signing, and with sufficient buffers and no failing call it succeeds. The SEQUENCE wrapping is DER for the two halves as unsigned integers (with a second half of zero at the end of the object one byte outside it is read, see C17).", "quantifier": "every secret, label, key type, template, allocator, buffer size and pattern of failing BoringSSL calls", "why_tests_cant": "The test issues three fixed certificates from one secret; it cannot enumerate keys, signatures (r or s short, top bit set, zero) or buffer sizes.", "anchors": ["src/core/test/x509.cpp:512-522,616-760", "src/crypto/test/crypto.cpp:926-950", "src/core/x509.c", "src/crypto/crypto_boringssl.cpp"]}
{"id": "C51", "title": "A verifier that knows the registered extension identifiers recovers exactly the DICE claims that were put into a certificate", "statement": "For a certificate whose extensions were made with the library's callbacks (basic constraints, key usage, open profile for DICE input, TCG TCB info, multi TCB info, UEID, TCB freshness) under the object identifiers the headers name for them, mixed in any order, number and criticality with extensions made by other code under other identifiers, a strict reader that dispatches on the registered identifiers recovers exactly the list of claims, in order, each with its criticality; no extension is taken for another, and certificates with equal bytes make equal claims. This holds in particular for every certificate that the issuing procedure of C50 returns, which is signed with the key derived from the secret and carries that key.", "quantifier": "every list of extension inputs, every certificate around them, every secret, label, key type and allocator, every stream", "why_tests_cant": "The tests render one extension at a time, or one fixed certificate, and compare bytes; they never read a certificate, and the combinations of kinds, orders and contents are unbounded.", "anchors": ["include/nat20/x509.h:300-350", "src/core/x509.c", "src/core/x509_ext_open_dice_input.c", "src/core/x509_ext_tcg_dice_tcb_info.c", "src/core/x509_ext_tcg_dice_ueid.c", "src/core/x509_ext_tcg_dice_tcb_freshness.c", "src/core/oid.c:20-57", "src/core/test/x509.cpp:512-522,616-760"]}
{"id": "C52", "title": "Which inputs give certificates within the field requirements of RFC 5280", "statement": "A rendered certificate, as found by the reader of C26, meets the field requirements of RFC 5280 (version 3 beside extensions, a positive serial number of at most 20 octets, equal inner and outer signature algorithm, a non-empty issuer, PrintableString contents from its character set, validity times that are real dates in the form YYYYMMDDHHMMSSZ and not before 2050, because only later dates may be GeneralizedTime, and no extension identifier twice) exactly if the caller's input meets a stated list of conditions; the documented bound on serial numbers (20 octets, the first below 0x80) is exactly the 20-octet limit on the encoding. The library checks none of these, and its default for a missing not_before, 19700101000000Z, is never conforming (refuted: must be UTCTime).", "quantifier": "every certificate input, every stream, every set of extension callbacks", "why_tests_cant": "The tests compare bytes of a handful of fixed certificates; whether arbitrary serials, names, times and extension lists leave the profile needs a characterisation of all inputs.", "anchors": ["src/core/x509.c", "include/nat20/x509.h:560-800", "RFC 5280 4.1.1.2, 4.1.2.1-4.1.2.6, 4.2"]}
{"id": "C53", "title": "The digest contexts of the two back ends are interchangeable", "statement": "For every program that uses the digest interface of an opened context by any sequence of calls, each depending on the previous answers, and hands over sound arguments (never more than 255 HKDF blocks, and never an unknown algorithm together with a missing size to hmac): on the nat20 context it gets exactly the documented answers and nothing undefined happens; on the BoringSSL context, whichever BoringSSL calls fail (except the unchecked EVP_MD_CTX_new), each answer is the documented one or a resource error that leaves the buffers alone; without failing calls both contexts give the same result. In particular asking for the size and then again with a buffer of that size yields the digest, MAC or pseudorandom key, and extract followed by expand yields what hkdf yields. Opening with NULL and closing NULL report an error.", "quantifier": "every program over the interface (any number of calls, any data), every pattern of failing BoringSSL calls, both word sizes", "why_tests_cant": "The tests run fixed vectors through each function separately; they never compose calls and cannot quantify over programs.", "anchors": ["include/nat20/crypto.h:155-475", "src/crypto/nat20/crypto.c", "src/crypto/crypto_boringssl.cpp:1020-1046"]}
{"id": "C54", "title": "The end-to-end certificate test reaches its end for every secret and issues what it says", "statement": "Each of the four instances of the end-to-end certificate test passes all its checks on library calls for every secret instead of the fixed one and whatever is in its uninitialised arrays of 128 and 2000 octets, provided no BoringSSL call fails and the two keys exist: neither certificate exceeds 675 octets, so nothing overflows; the reader of C26 finds in both the fields written down in the test (names, serial 1, default validity, algorithms of the key, key usage and basic constraints, both critical) with the first public key; both have the same signed part, the first signed with the first key and the second with the second key, and they are equal only if these signatures are. Keys and secret are freed: the heap is as before. Undefined behaviour is met only in encoding the path length (see C17).", "quantifier": "every secret, contents of the arrays, allocator, word size and byte order, every BoringSSL whose calls succeed and return values of the documented form", "why_tests_cant": "The test runs with one 64-octet secret, so with one key and signature per instance; key- and signature-dependent lengths (leading zeros, top bits) and overflow of its buffers are not exercised.", "anchors": ["src/core/test/x509.cpp:497-891", "include/nat20/x509.h:137-192"]}
{"id": "C55", "title": "Every allowed program on the BoringSSL context gets lawful answers and leaves exactly the keys it should", "statement": "Take any program that uses the context stored by n20_crypto_boringssl_open: calls to kdf, sign, key_get_public_key, key_free, make_secret and the digest functions, each depending on the answers to those before. If each call it can get to, whatever lawful answers it has got, has sound arguments and NULL or live handles, then whichever BoringSSL calls fail (except EVP_MD_CTX_new, see C42) nothing undefined happens, and it ends with a result that the interface allows and a heap with exactly the keys that the interface says exist; only the derivation of an elliptic curve key may go on for ever, if none of its candidates is suitable. For instance: deriving a key, asking for the signature size, signing and freeing leaves the heap as it was whatever fails, what comes out is a signature by the derived key, and without failing calls one comes out; and deriving a chain of secrets of any length, freeing each once the next exists, always ends with the iterated HKDF-Expand of the first secret in its place or, after a failure, with no key of the chain left.", "quantifier": "every program, table of keys, pattern of failing BoringSSL calls, allocator, word size, secret, labels, messages and length of chain", "why_tests_cant": "Tests run a few fixed sequences of calls without failures; programs that react to answers, and the absence of leaks under failures, range over unboundedly many sequences.", "anchors": ["src/crypto/crypto_boringssl.cpp:1020-1046", "include/nat20/crypto.h:488-740", "include/nat20/crypto_bssl/crypto.h"]}
{"id": "C56", "title": "The tests of the digest interface pass exactly if the implementation and the vectors are right", "statement": "Take any implementation of the digest interface that keeps the documented contract. Each test with vectors ends, and passes exactly if the vectors are right: digests, HMACs (a shortened one is accepted), HKDF keys, extracted pseudorandom keys (zeros behind one are accepted) and expanded keys, also when the vectors come from a file with blanks and comments. All other tests of the interface (buffer sizes, errors, empty slices, several gather lists) pass. Both back ends keep the contract, BoringSSL if none of its calls fails, so the whole test program passes on each exactly if its vectors are right. The test of the functions in sha.h likewise. Conversely, whatever the implementation: if the tests with vectors pass and the vectors are right, it computed the functions on them. On the nat20 back end this needs a C library that allows to copy nothing from NULL: otherwise the test of HMAC errors has undefined behaviour, and so has a vector with an empty key or salt if the C++ library gives NULL for an empty vector.", "quantifier": "every conforming implementation, list of vectors that fit memory, vector file, word size, C and C++ library", "why_tests_cant": "It is a statement about the tests themselves: they run on two implementations with fixed vectors and cannot show that they would accept every right implementation and vector and what wrong ones they let through.", "anchors": ["src/crypto/test/crypto.cpp:60-924", "src/crypto/test/crypto_nat20.cpp:41-91", "src/crypto/test/test_vectors.cpp:46-66", "include/nat20/crypto.h:155-475"]}
{"id": "C57", "title": "The tests of the key interface end soundly, and pass exactly if derived keys can be told apart", "statement": "Run the tests of the key interface on the BoringSSL back end with any keys already there, whichever BoringSSL calls fail. None has undefined behaviour. The tests for error codes fail only if some call of BoringSSL failed, keep all other keys, and when they pass the heap is as before; except that SignErrorsTest, when it passes, leaves exactly three new keys behind (Ed25519, P-256 and P-384), under three different new handles. KDFTest, when it passes, leaves the heap as before and for each type of signing key the key derived again from the same context verifies and the one derived from the other context does not; when it fails, a call failed, a check could not be made, or this is not so. With a verification that accepts exactly the signatures of the key itself, this means that the keys for the two contexts differ. Without failing calls, and if the keys exist (a suitable candidate of RFC 6979), all tests end and pass, KDFTest exactly under this condition. It is assumed that ECDSA never makes a signature with s = 0.", "quantifier": "every table of keys, pattern of failing BoringSSL calls and allocator (both different at every call if need be), word size, C++ library, signature scheme and verification", "why_tests_cant": "It is about the tests themselves: they do not look at the heap, cannot make calls of BoringSSL fail, and cannot show what their passing means.", "anchors": ["src/crypto/test/crypto.cpp:114-150", "src/crypto/test/crypto.cpp:926-1367", "src/crypto/test/crypto_boringssl.cpp:33-47"]}
{"id": "C58", "title": "Buffers of the digest interface may overlap, except that HKDF expand needs its key and info until the last block", "statement": "On the nat20 back end, with inputs and outputs anywhere in one memory: digest, HMAC and HKDF extract behave for every overlap as their contracts say for the bytes that the inputs have at the time of the call, and change the memory only at the output. HKDF expand produces the output of RFC 5869 if key and info share no byte with the output blocks before the last one; HKDF if the info does not, wherever input key and salt lie. In general expand has exactly the block by block effect in which each block is computed from what is then at key and info; in particular expanding over a key of one block uses the first output block as the key for all later ones, so that expanding in place gives a wrong result with a success code. Argument errors leave the memory alone.", "quantifier": "every memory, placement of the buffers, algorithm, length, word size and behaviour of memcpy with NULL", "why_tests_cant": "The tests never let buffers overlap, and the header does not say what happens then.", "anchors": ["src/crypto/nat20/crypto.c:59-467", "include/nat20/crypto.h:425-467"]}
{"id": "C59", "title": "The same calls write the same bytes on every platform", "statement": "Every program of public rendering calls, with nested callbacks and extensions, run on two platforms that differ in the width of size_t, the byte order and the bytes next to the buffers, writes the same bytes: both streams report the same size, also in a sizing pass with a NULL buffer, and where the buffers suffice they hold the same contents. The exceptions are outputs too large for size_t of one platform, bit strings whose length plus 7 exceeds size_t of one platform, and empty signed integers. Callers of the digest functions of the nat20 back end get the same answers on both.", "quantifier": "every pair of platforms, every program, every argument that is memory-safe on both, every pair of buffers", "why_tests_cant": "A test runs on one platform at a time, and the project's tests have only little-endian 64 bit hosts to run on.", "anchors": ["src/core/stream.c:25-83", "src/core/asn1.c:25-450", "src/core/cbor.c:20-109", "src/core/x509.c:25-321", "src/core/x509_ext_tcg_dice_tcb_info.c:25-148", "src/crypto/nat20/crypto.c:59-467"]}
{"id": "C60", "title": "The tests of the RFC 6979 generator pass exactly for right vectors", "statement": "The three tests of rfc6979_k_generation pass if and only if the generator ends with the number that the vector's text writes with the prescribed number of digits. With SHA-2 behind the digest calls that is the number RFC 6979 section 3.2 prescribes for the curve's order, private key and message, whichever calls fail; a wrong vector makes the test fail. The 33 vectors are usable: hexadecimal numbers of the right length and within the order of the curve, with every algorithm and every one of the four messages (two texts, empty, absent) exactly once for each curve. The test of make_secret passes with every library and allocator and leaves the heap as it was.", "quantifier": "every BoringSSL behaviour and failure pattern, every vector text, message and algorithm, every number of loop iterations, every heap", "why_tests_cant": "A test cannot tell whether it would notice a wrong generator or a wrong vector, for instance one whose text is cut off or has a character that ends the number.", "anchors": ["src/crypto/test/crypto_boringssl.cpp:68-363", "src/crypto/crypto_boringssl.cpp:405-595"]}
{"id": "C61", "title": "Inputs in the stream's own memory", "statement": "Rendered inputs may lie in the memory that the stream writes to. For every history of n20_stream_prepend calls whose sources lie anywhere in that memory the byte count and the overflow flags are those of separate sources and nothing outside the window or in front of the output is written. An overlapping copy, which is undefined, takes place exactly if a source that fits reaches into the place of its own copy; if none does and all fits, the output is what the sources held when they were copied. Sources in front of everything written act as separate copies. Every program of rendering calls whose inputs lie in the first bytes of the buffer behaves as with copies of them if these bytes and the output fit side by side; otherwise input can be overwritten before it is read although the output fits.", "quantifier": "every memory, window size, history and program of calls, every position of the sources, every size_t width", "why_tests_cant": "Tests render from separate objects; whether in-place use is safe depends on the positions and on the order of the calls.", "anchors": ["src/core/stream.c:64-83", "include/nat20/stream.h:184-212"]}
{"id": "C62", "title": "The tests of the core library pass exactly for right expectations", "statement": "Each test of src/core/test/stream.cpp, asn1.cpp and cbor.cpp passes, for every row it could be given, if and only if the row is right: the expected bytes are the DER encoding of the value (and short enough for the buffer also with the explicit tag), or the shortest CBOR head of the argument, or the overflow flag says whether the pieces fit. Integer tests read outside of the vector exactly for 0 and -1 and, in little-endian order, always form the pointer before it; otherwise only NULL pieces handed to memcpy and the most negative CBOR integer are undefined. All tests with the rows of the repository, those of oid.cpp included, pass if and only if the data pointer of an empty std::vector is NULL and a size_t has 64 bits; the suite has undefined behaviour on every platform.", "quantifier": "every row (value, expected bytes, tag, buffer size, pieces, callback), every content of the stack, every size_t width and byte order, either choice of the data pointer of empty vectors", "why_tests_cant": "A test cannot tell whether it would notice a wrong expectation, nor whether it passes on another platform or only by what an empty vector's pointer or a stray byte happens to be.", "anchors": ["src/core/test/stream.cpp:26-114", "src/core/test/asn1.cpp:46-726", "src/core/test/cbor.cpp:28-352", "src/core/test/oid.cpp:20-54"]}
{"id": "C63", "title": "There is one encoding", "statement": "For every name, extension list, basic constraints, key usage, TBS certificate, certificate, OpenDICE input, TCB info, multi TCB info, UEID and TCB freshness the library can write, the bytes written are the only byte string that a strict DER reader reads as the same fields: any byte string that reads as those fields is the one the library writes.", "quantifier": "every structure that meets the preconditions of C22-C31 and can be sized, every candidate byte string, both size_t widths and byte orders", "why_tests_cant": "A test compares against one expected string; it cannot show that no other string means the same, which is what makes byte-for-byte comparison of certificates sound.", "anchors": ["src/core/x509.c:28-321", "src/core/x509_ext_open_dice_input.c:22-78", "src/core/x509_ext_tcg_dice_tcb_info.c:22-148", "src/core/x509_ext_tcg_dice_ueid.c:22-37", "src/core/x509_ext_tcg_dice_tcb_freshness.c:22-41"]}
{"id": "C64", "title": "The tests of the X.509 writers pass exactly for right expectations", "statement": "Each test of src/core/test/x509.cpp (names, extensions, basic constraints, key usage, TBS certificates) and of the x509_ext files (OpenDICE input, TCB info, multi TCB info, freshness, UEID) passes, for every row it could be given, if and only if a strict DER reader finds in the expected bytes exactly the fields the row asks for, and they fit the test's buffer. A missing or oversized name is expected as a sequence of a NULL; an empty vector of a DICE field is expected as a field exactly if its data pointer is not NULL; svn, layer and index from 2^63 on are expected as negative numbers. The tests with the rows of the repository all pass on every platform, whatever is on the stack; their only undefined behaviour is that of the integer writer.", "quantifier": "every row that meets the preconditions of the writers, every expected byte string, every content of the stack, every size_t width and byte order, either choice of the data pointer of empty vectors", "why_tests_cant": "A test cannot tell whether it would notice a wrong expectation, nor whether it passes on another platform.", "anchors": ["src/core/test/x509.cpp:60-491", "src/core/test/x509_ext_open_dice_input.cpp:215-327", "src/core/test/x509_ext_tcg_dice_tcb_info.cpp:269-503", "src/core/test/x509_ext_tcg_dice_tcb_freshness.cpp:66-130", "src/core/test/x509_ext_tcg_dice_ueid.cpp:64-128"]}
{"id": "C65", "title": "Certificates made with the library chain up as RFC 5280 demands", "statement": "A relying party that follows the path validation of RFC 5280 section 6.1, reading the certificates' bytes only, accepts a chain of certificates made with the library if and only if every signature verifies under the key the certificate before it is for, each issuer name is the subject name before it, the time is within every period, no extension occurs twice, every critical extension is known, and every certificate but the last has a basic constraints extension saying CA, no key usage extension without keyCertSign, and a path length constraint, if any, not smaller than the number of intermediate certificates behind it that are not self-issued. If each certificate is signed with the key of the one before and says the algorithms of the keys, then the signatures need no further condition. A certificate signed with another key makes the path invalid. Without dates a certificate is valid from 1970 to the end of 9999. Making such a certificate with any two keys has one outcome.", "quantifier": "every chain length, every template the writers accept, every pair of keys, every behaviour of signature verification, every set of recognised extensions, every time, every set of failing BoringSSL calls, every buffer, every size_t width and byte order", "why_tests_cant": "The test checks one self-issued certificate and one with a wrong signer; how extensions, names, dates and path lengths of several certificates play together for a verifier depends on all of them and on the chain length.", "anchors": ["src/core/test/x509.cpp:646-857", "src/core/x509.c:246-329", "include/nat20/x509.h:395-535"]}
{"id": "C66", "title": "The end-to-end certificate test passes exactly if a wrong signer is noticed", "statement": "The end-to-end test of src/core/test/x509.cpp, with its parsing and verification of the two certificates, gives exactly one verdict for every secret and every behaviour of BoringSSL's X.509 functions: it passes if and only if they parse both certificates, decode both public keys, verify the first certificate under the first key and the second under the second but not under the first, and, for keys on a curve, validate the first certificate against itself as trust anchor and report an invalid signature for the second. If these functions do what RFC 5280 and their documentation say, and keys accept their own signatures, it passes if and only if the second key's signature on the common signed part is not accepted under the first key; it never passes if the two keys sign alike. The table of keys is as before in every case.", "quantifier": "every secret, every instance of the test, every behaviour of the X.509 functions and of signature verification, every content of the arrays, every allocator, every size_t width and byte order, every time from 1970 to 9999", "why_tests_cant": "A test cannot tell what it would have noticed: whether it depends on the secret, on stale stack contents or on an allocator that returns the freed key's address, and which answers of the verifier it rests on.", "anchors": ["src/core/test/x509.cpp:497-510", "src/core/test/x509.cpp:565-608", "src/core/test/x509.cpp:639-891"]}
{"id": "C67", "title": "Content callbacks are called exactly once, the last one first", "statement": "Rendering an element calls its content callback exactly once, with the caller's stream as it was, and before anything is written. Rendering an extension list, a to-be-signed part or a certificate calls the callback of every extension that has one exactly once, from the last to the first, and none beyond the count; this is so whatever the callbacks do to the stream, and also if the stream is NULL or has overflowed. In documents of nested elements the callbacks are called in the order in which the document is written. So a callback may keep state, for example consume its input, without a separate measuring call spoiling it.", "quantifier": "all callbacks, all classes, tags and tag overrides, all extension lists, certificates and documents of nested elements, all streams, every size_t width and byte order", "why_tests_cant": "The tests use callbacks that always write the same bytes into a large enough buffer; code that calls them an extra time to measure their content, skips them after an overflow, or stops at a failing one would pass.", "anchors": ["src/core/asn1.c:390-420", "src/core/x509.c:92-138", "src/core/x509.c:261-321", "include/nat20/asn1.h:612-675", "include/nat20/x509.h:223-262"]}
