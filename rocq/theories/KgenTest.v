(** The tests of the RFC 6979 generator and of make_secret, src/crypto/test/crypto_boringssl.cpp:68-363.

    A test ends with [Some _] if it reaches its end and with [None] if an ASSERT fails.
    Simplified: the messages printed on failure are left out, and BN_new and BN_hex2bn find the memory they need. *)
From Coq Require Import List NArith ZArith Bool Strings.Byte.
From Coq Require Strings.String.
From Verif Require Import Base Res Crypto Bssl BsslKeys CryptoTest KeyTest.
Import ListNotations.
Import Coq.Strings.String.StringSyntax.
Open Scope string_scope.
Open Scope list_scope.
Open Scope N_scope.

(** OPENSSL_isxdigit and the value, BoringSSL crypto/mem.c and crypto/internal.h. *)
Definition from_xdigit (c : byte) : option N :=
  let n := b2n c in
  if (48 <=? n) && (n <=? 57) then Some (n - 48)
  else if (97 <=? n) && (n <=? 102) then Some (n - 87)
  else if (65 <=? n) && (n <=? 70) then Some (n - 55)
  else None.
(** The leading digits: how many there are and their value, after [count] of value [v]. *)
Fixpoint hex_run (s : list byte) (count v : N) : N * N :=
  match s with
  | [] => (count, v)
  | c :: s => match from_xdigit c with Some d => hex_run s (count + 1) (16 * v + d) | None => (count, v) end
  end.
(** BN_hex2bn as documented in openssl/bn.h: the leading hexadecimal number, which may have a minus sign, is stored; the result is the number of characters
    it takes up. The zero at the end of a C string is not a digit. *)
Definition BN_hex2bn (s : list byte) : N * Z :=
  match s with
  | x2d :: s => let '(n, v) := hex_run s 0 0 in (n + 1, (- Z.of_N v)%Z)
  | _ => let '(n, v) := hex_run s 0 0 in (n, Z.of_N v)
  end.
Definition chars (s : String.string) : list byte := String.list_byte_of_string s.

(** src/crypto/test/crypto_boringssl.cpp:68-71 *)
Definition SAMPLE_MSG : option (list byte) := Some (chars "sample").
Definition TEST_MSG : option (list byte) := Some (chars "test").
Definition EMPTY_MSG : option (list byte) := Some [].
Definition NULL_MSG : option (list byte) := None.

Section WithBssl.
Context `{B : Bssl} (fuel : nat).

(** What the three tests have in common: generate, and compare (BN_cmp) with [k]. *)
Definition k_comparison (x : list byte) (m : option (list byte)) (alg q : N) (k : Z) : res (option unit) :=
  do result <- rfc6979_k_generation fuel x m alg q;
  match result with
  | inl _ => Ret None
  | inr got_k => ASSERT (k =? Z.of_N got_k)%Z; Ret (Some tt)
  end.

(** src/crypto/test/crypto_boringssl.cpp:87-109, for any private key, message, algorithm and strings: all tests are instances. The first test parses [k_str] after
    generating instead of before, which makes no difference to the outcome. *)
Definition k_test (digits : N) (x : list byte) (q_str : list byte) (alg : N) (m : option (list byte)) (k_str : list byte) : res (option unit) :=
  let '(nq, q) := BN_hex2bn q_str in
  ASSERT nq =? digits;
  let '(nk, k) := BN_hex2bn k_str in
  ASSERT nk =? digits;
  k_comparison x m alg (Z.to_N q) k.

(** src/crypto/test/crypto_boringssl.cpp:87-109 *)
Definition x_163 : list byte := bytes
  [0x00; 0x9a; 0x4d; 0x67; 0x92; 0x29; 0x5a; 0x7f; 0x73; 0x0f; 0xc3; 0xf2; 0xb4; 0x9c; 0xbc; 0x0f; 0x62; 0xe8; 0x62; 0x27; 0x2f].
Definition q_163 : list byte := chars "4000000000000000000020108A2E0CC0D99F8A5EF".
Definition Test_rfc6979_k_generation : res (option unit) :=
  k_test 41 x_163 q_163 sha2_256_e SAMPLE_MSG (chars "23AF4074C90A02B3FE61D286D5C87F425E6BDD81B").

(** src/crypto/test/crypto_boringssl.cpp:189-212 *)
Definition x_256 : list byte := bytes
  [0xc9; 0xaf; 0xa9; 0xd8; 0x45; 0xba; 0x75; 0x16; 0x6b; 0x5c; 0x21; 0x57; 0x67; 0xb1; 0xd6; 0x93; 0x4e; 0x50; 0xc3; 0xdb; 0x36; 0xe8; 0x9b; 0x12; 0x7b; 0x8a;
   0x62; 0x2b; 0x12; 0x0f; 0x67; 0x21].
Definition q_256 : list byte := chars "FFFFFFFF00000000FFFFFFFFFFFFFFFFBCE6FAADA7179E84F3B9CAC2FC632551".
Definition Test_rfc6979_k_P_256_generation (alg : N) (m : option (list byte)) (k_str : list byte) : res (option unit) :=
  k_test 64 x_256 q_256 alg m k_str.

(** src/crypto/test/crypto_boringssl.cpp:308-334 *)
Definition x_384 : list byte := bytes
  [0x6b; 0x9d; 0x3d; 0xad; 0x2e; 0x1b; 0x8c; 0x1c; 0x05; 0xb1; 0x98; 0x75; 0xb6; 0x65; 0x9f; 0x4d; 0xe2; 0x3c; 0x3b; 0x66; 0x7b; 0xf2; 0x97; 0xba; 0x9a; 0xa4;
   0x77; 0x40; 0x78; 0x71; 0x37; 0xd8; 0x96; 0xd5; 0x72; 0x4e; 0x4c; 0x70; 0xa8; 0x25; 0xf8; 0x72; 0xc9; 0xea; 0x60; 0xd2; 0xed; 0xf5].
Definition q_384 : list byte := chars
  "FFFFFFFFFFFFFFFFFFFFFFFFFFFFFFFFFFFFFFFFFFFFFFFFC7634D81F4372DDF581A0DB248B0A77AECEC196ACCC52973".
Definition Test_rfc6979_k_P_384_generation (alg : N) (m : option (list byte)) (k_str : list byte) : res (option unit) :=
  k_test 96 x_384 q_384 alg m k_str.

End WithBssl.

(** src/crypto/test/crypto_boringssl.cpp:116-176: the parameters for P-256. *)
Definition vectors_256 : list (N * option (list byte) * String.string) :=
  [(sha2_224_e, SAMPLE_MSG, "103F90EE9DC52E5E7FB5132B7033C63066D194321491862059967C715985D473");
   (sha2_256_e, SAMPLE_MSG, "A6E3C57DD01ABE90086538398355DD4C3B17AA873382B0F24D6129493D8AAD60");
   (sha2_384_e, SAMPLE_MSG, "09F634B188CEFD98E7EC88B1AA9852D734D0BC272F7D2A47DECC6EBEB375AAD4");
   (sha2_512_e, SAMPLE_MSG, "5FA81C63109BADB88C1F367B47DA606DA28CAD69AA22C4FE6AD7DF73A7173AA5");
   (sha2_224_e, TEST_MSG, "669F4426F2688B8BE0DB3A6BD1989BDAEFFF84B649EEB84F3DD26080F667FAA7");
   (sha2_256_e, TEST_MSG, "D16B6AE827F17175E040871A1C7EC3500192C4C92677336EC2537ACAEE0008E0");
   (sha2_384_e, TEST_MSG, "16AEFFA357260B04B1DD199693960740066C1A8F3E8EDD79070AA914D361B3B8");
   (sha2_512_e, TEST_MSG, "6915D11632ACA3C40D5D51C08DAF9C555933819548784480E93499000D9F0B7F");
   (sha2_224_e, EMPTY_MSG, "e6a082bf249944014406a9280befd1aa2369a98b31fe1eed9fa91098363cd60b");
   (sha2_256_e, EMPTY_MSG, "3c7eca3784e9809c912f21d6c1894e70b8a709d3222982ae499b270bac245246");
   (sha2_384_e, EMPTY_MSG, "bbbe969da70f10ecb28a059dad2589817cd64d7917dabb82cb6c52164415d530");
   (sha2_512_e, EMPTY_MSG, "2d255f20e3aa839fcb4116e2819568ae8e15be3db130bac7c38ec5eba003ccd2");
   (sha2_224_e, NULL_MSG, "402ea153bb5ccccc8f87abb88a647a27eb2e7a51b92ece286dcb991e83a7efd3");
   (sha2_256_e, NULL_MSG, "c3e0374fbfa3752b760374a626c649ed798b7146e869c2482cb17a54c94ebae3");
   (sha2_384_e, NULL_MSG, "b868001fb7f5ed86ae0de3db439fe10bc56bf63ce776aeb6a2b011283d19ca17");
   (sha2_512_e, NULL_MSG, "bbbb46f35c82170d767ed845f4a7d942bcc3ccc82bb39eb0f3b607ee18867ea2")].
(** src/crypto/test/crypto_boringssl.cpp:219-295: the parameters for P-384. *)
Definition vectors_384 : list (N * option (list byte) * String.string) :=
  [(sha2_224_e, SAMPLE_MSG, "A4E4D2F0E729EB786B31FC20AD5D849E304450E0AE8E3E341134A5C1AFA03CAB8083EE4E3C45B06A5899EA56C51B5879");
   (sha2_256_e, SAMPLE_MSG, "180AE9F9AEC5438A44BC159A1FCB277C7BE54FA20E7CF404B490650A8ACC414E375572342863C899F9F2EDF9747A9B60");
   (sha2_384_e, SAMPLE_MSG, "94ED910D1A099DAD3254E9242AE85ABDE4BA15168EAF0CA87A555FD56D10FBCA2907E3E83BA95368623B8C4686915CF9");
   (sha2_512_e, SAMPLE_MSG, "92FC3C7183A883E24216D1141F1A8976C5B0DD797DFA597E3D7B32198BD35331A4E966532593A52980D0E3AAA5E10EC3");
   (sha2_224_e, TEST_MSG, "18FA39DB95AA5F561F30FA3591DC59C0FA3653A80DAFFA0B48D1A4C6DFCBFF6E3D33BE4DC5EB8886A8ECD093F2935726");
   (sha2_256_e, TEST_MSG, "0CFAC37587532347DC3389FDC98286BBA8C73807285B184C83E62E26C401C0FAA48DD070BA79921A3457ABFF2D630AD7");
   (sha2_384_e, TEST_MSG, "015EE46A5BF88773ED9123A5AB0807962D193719503C527B031B4C2D225092ADA71F4A459BC0DA98ADB95837DB8312EA");
   (sha2_512_e, TEST_MSG, "3780C4F67CB15518B6ACAE34C9F83568D2E12E47DEAB6C50A4E4EE5319D1E8CE0E2CC8A136036DC4B9C00E6888F66B6C");
   (sha2_224_e, EMPTY_MSG, "9f505a478bed79931bfddfea0b9716f70e40f62d7d0adf30bb150d12a6347d15732a04d05e476dc2c4d53a8af47cb38b");
   (sha2_256_e, EMPTY_MSG, "116adedf47ab686d7a08423f10f71ec8f7a50377e1b0064a34e10c003ec9ec01e07530d15422b4eb44231470388e5c1a");
   (sha2_384_e, EMPTY_MSG, "7854122f919247f959d67fa203d21d82492833774cf53d2cff2a140b7613550716c29249efaa6477798834bd138397cf");
   (sha2_512_e, EMPTY_MSG, "3d17a14dc514d778ec13054653bfa748666d9c6e0d4d1d75b66c5cadd6506ef4a76967423746a3f47118bea059434338");
   (sha2_224_e, NULL_MSG, "5d466efc7b95beff2bc2e4790e22091afc20afbcbe1e9d3cec9f4bcb468218dd20e133333dc252d07d101d4150423b65");
   (sha2_256_e, NULL_MSG, "e4bb15ea89ee2b6e4093f2e95cd931b6abbbeed39a0ee99cda944a6a083b2401034203492fa593dcdffd7a1495c3fd2a");
   (sha2_384_e, NULL_MSG, "27d6797656786c57d7bfc0ac25eb421aa6d0ff4864c82792e68d08f7945eb5ba514d1c9a5a583980e00b4bda1cbf1656");
   (sha2_512_e, NULL_MSG, "589de498de6c4c596445d6ebec4c29336b15f5feccb4af3a911a28ab0bac78ee81e0218fefaf5f105e7f896d92e1ede1")].

(** src/crypto/test/crypto_boringssl.cpp:336-363. The context lives between open and close; none of the calls may touch the heap [h]. *)
Definition TestMakeSecretErrors `{Bssl} `{Allocator} (h : heap) : res (option heap) :=
  match n20_crypto_boringssl_open true with
  | (rc, Some _) =>
      ASSERT error_eqb ok_e rc;
      do (rc, h, _) <- n20_crypto_boringssl_make_secret false h None None;
      ASSERT error_eqb invalid_context_e rc;
      do (rc, h, _) <- n20_crypto_boringssl_make_secret true h None None;
      ASSERT error_eqb unexpected_null_data_e rc;
      do (rc, h, _) <- n20_crypto_boringssl_make_secret true h (Some (mkSlice 0 (Some test_cdi))) None;
      ASSERT error_eqb unexpected_null_data_e rc;
      do (rc, h, _) <- n20_crypto_boringssl_make_secret true h (Some (mkSlice (len test_cdi) None)) None;
      ASSERT error_eqb unexpected_null_data_e rc;
      do (rc, h, _) <- n20_crypto_boringssl_make_secret true h (Some (mkSlice (len test_cdi) (Some test_cdi))) None;
      ASSERT error_eqb unexpected_null_key_out_e rc;
      ASSERT error_eqb ok_e (n20_crypto_boringssl_close true);
      Ret (Some h)
  | (_, None) => Ret None
  end.
