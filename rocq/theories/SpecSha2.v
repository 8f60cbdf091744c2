(** SHA-2 as defined in FIPS 180-4, over byte strings (FIPS 180-4 allows any number of bits; the code only hashes whole bytes). *)
From Coq Require Import List NArith Bool Strings.Byte.
From Verif Require Import Base SpecDigits.
Import ListNotations.
Open Scope N_scope.

(** ** Constants (sections 4.2.2, 4.2.3, 5.3)

    The literals are tied to their definition, the fractional parts of roots of the first primes, by
    [C32_constants_are_root_fractions] in PropSha.v. *)
Definition fips_K256 : list N :=
  [0x428a2f98; 0x71374491; 0xb5c0fbcf; 0xe9b5dba5; 0x3956c25b; 0x59f111f1; 0x923f82a4; 0xab1c5ed5;
   0xd807aa98; 0x12835b01; 0x243185be; 0x550c7dc3; 0x72be5d74; 0x80deb1fe; 0x9bdc06a7; 0xc19bf174;
   0xe49b69c1; 0xefbe4786; 0x0fc19dc6; 0x240ca1cc; 0x2de92c6f; 0x4a7484aa; 0x5cb0a9dc; 0x76f988da;
   0x983e5152; 0xa831c66d; 0xb00327c8; 0xbf597fc7; 0xc6e00bf3; 0xd5a79147; 0x06ca6351; 0x14292967;
   0x27b70a85; 0x2e1b2138; 0x4d2c6dfc; 0x53380d13; 0x650a7354; 0x766a0abb; 0x81c2c92e; 0x92722c85;
   0xa2bfe8a1; 0xa81a664b; 0xc24b8b70; 0xc76c51a3; 0xd192e819; 0xd6990624; 0xf40e3585; 0x106aa070;
   0x19a4c116; 0x1e376c08; 0x2748774c; 0x34b0bcb5; 0x391c0cb3; 0x4ed8aa4a; 0x5b9cca4f; 0x682e6ff3;
   0x748f82ee; 0x78a5636f; 0x84c87814; 0x8cc70208; 0x90befffa; 0xa4506ceb; 0xbef9a3f7; 0xc67178f2].
Definition fips_K512 : list N :=
  [0x428a2f98d728ae22; 0x7137449123ef65cd; 0xb5c0fbcfec4d3b2f; 0xe9b5dba58189dbbc;
   0x3956c25bf348b538; 0x59f111f1b605d019; 0x923f82a4af194f9b; 0xab1c5ed5da6d8118;
   0xd807aa98a3030242; 0x12835b0145706fbe; 0x243185be4ee4b28c; 0x550c7dc3d5ffb4e2;
   0x72be5d74f27b896f; 0x80deb1fe3b1696b1; 0x9bdc06a725c71235; 0xc19bf174cf692694;
   0xe49b69c19ef14ad2; 0xefbe4786384f25e3; 0x0fc19dc68b8cd5b5; 0x240ca1cc77ac9c65;
   0x2de92c6f592b0275; 0x4a7484aa6ea6e483; 0x5cb0a9dcbd41fbd4; 0x76f988da831153b5;
   0x983e5152ee66dfab; 0xa831c66d2db43210; 0xb00327c898fb213f; 0xbf597fc7beef0ee4;
   0xc6e00bf33da88fc2; 0xd5a79147930aa725; 0x06ca6351e003826f; 0x142929670a0e6e70;
   0x27b70a8546d22ffc; 0x2e1b21385c26c926; 0x4d2c6dfc5ac42aed; 0x53380d139d95b3df;
   0x650a73548baf63de; 0x766a0abb3c77b2a8; 0x81c2c92e47edaee6; 0x92722c851482353b;
   0xa2bfe8a14cf10364; 0xa81a664bbc423001; 0xc24b8b70d0f89791; 0xc76c51a30654be30;
   0xd192e819d6ef5218; 0xd69906245565a910; 0xf40e35855771202a; 0x106aa07032bbd1b8;
   0x19a4c116b8d2d0c8; 0x1e376c085141ab53; 0x2748774cdf8eeb99; 0x34b0bcb5e19b48a8;
   0x391c0cb3c5c95a63; 0x4ed8aa4ae3418acb; 0x5b9cca4f7763e373; 0x682e6ff3d6b2b8a3;
   0x748f82ee5defb2fc; 0x78a5636f43172f60; 0x84c87814a1f0ab72; 0x8cc702081a6439ec;
   0x90befffa23631e28; 0xa4506cebde82bde9; 0xbef9a3f7b2c67915; 0xc67178f2e372532b;
   0xca273eceea26619c; 0xd186b8c721c0c207; 0xeada7dd6cde0eb1e; 0xf57d4f7fee6ed178;
   0x06f067aa72176fba; 0x0a637dc5a2c898a6; 0x113f9804bef90dae; 0x1b710b35131c471b;
   0x28db77f523047d84; 0x32caab7b40c72493; 0x3c9ebe0a15c9bebc; 0x431d67c49c100d4c;
   0x4cc5d4becb3e42b6; 0x597f299cfc657e2a; 0x5fcb6fab3ad6faec; 0x6c44198c4a475817].
Definition fips_H224 : list N :=
  [0xc1059ed8; 0x367cd507; 0x3070dd17; 0xf70e5939; 0xffc00b31; 0x68581511; 0x64f98fa7; 0xbefa4fa4].
Definition fips_H256 : list N :=
  [0x6a09e667; 0xbb67ae85; 0x3c6ef372; 0xa54ff53a; 0x510e527f; 0x9b05688c; 0x1f83d9ab; 0x5be0cd19].
Definition fips_H384 : list N :=
  [0xcbbb9d5dc1059ed8; 0x629a292a367cd507; 0x9159015a3070dd17; 0x152fecd8f70e5939;
   0x67332667ffc00b31; 0x8eb44a8768581511; 0xdb0c2e0d64f98fa7; 0x47b5481dbefa4fa4].
Definition fips_H512 : list N :=
  [0x6a09e667f3bcc908; 0xbb67ae8584caa73b; 0x3c6ef372fe94f82b; 0xa54ff53a5f1d36f1;
   0x510e527fade682d1; 0x9b05688c2b3e6c1f; 0x1f83d9abfb41bd6b; 0x5be0cd19137e2179].

Definition prime_b (n : N) : bool :=
  (2 <=? n) && forallb (fun d => negb (N.modulo n d =? 0)) (filter (fun d => d <? n) (map N.of_nat (seq 2 20))).
Definition first_primes (k : nat) : list N := firstn k (filter prime_b (map N.of_nat (seq 0 410))).

(** [x] is the first [w] bits of the fractional part of the [r]-th root of [p]: root = i + x / 2^w + less than 2^-w. *)
Definition root_fraction (r w p x : N) : Prop :=
  x < 2 ^ w /\ exists i, (i * 2 ^ w + x) ^ r <= p * 2 ^ (r * w) < (i * 2 ^ w + x + 1) ^ r.

(** ** The family (sections 4.1, 5.2, 6): word size in bytes, rotation amounts, constants, and the size of the length field. *)
Record sha2 := mkSha2 {
  wbytes : N;
  Sig0 : N * N * N; Sig1 : N * N * N;     (* rotations of the capital sigmas *)
  sig0 : N * N * N; sig1 : N * N * N;     (* two rotations and a shift *)
  consts : list N;
  iv : list N;
  out_bytes : N
}.
Definition with32 h n := mkSha2 4 (2, 13, 22) (6, 11, 25) (7, 18, 3) (17, 19, 10) fips_K256 h n.
Definition with64 h n := mkSha2 8 (28, 34, 39) (14, 18, 41) (1, 8, 7) (19, 61, 6) fips_K512 h n.
Definition SHA224 := with32 fips_H224 28.
Definition SHA256 := with32 fips_H256 32.
Definition SHA384 := with64 fips_H384 48.
Definition SHA512 := with64 fips_H512 64.

Section Family.
Variable A : sha2.

Definition wbits : N := 8 * wbytes A.
Definition modulus : N := 2 ^ wbits.
Definition block_bytes : N := 16 * wbytes A.

(** Rotation and shift to the right (section 3.2), in arithmetic terms. *)
Definition ROTR (n x : N) : N := x / 2 ^ n + (x mod 2 ^ n) * 2 ^ (wbits - n).
Definition SHR (n x : N) : N := x / 2 ^ n.
(** Choose and majority, bit by bit. *)
Definition Ch (x y z : N) : N := N.lor (N.land x y) (N.ldiff z x).
Definition Maj (x y z : N) : N := N.lor (N.lor (N.land x y) (N.land x z)) (N.land y z).
Definition rot3 (r : N * N * N) (x : N) : N := let '(a, b, c) := r in N.lxor (N.lxor (ROTR a x) (ROTR b x)) (ROTR c x).
Definition rot2shr (r : N * N * N) (x : N) : N := let '(a, b, c) := r in N.lxor (N.lxor (ROTR a x) (ROTR b x)) (SHR c x).

(** The message schedule: words 16 and up from the previous ones. *)
Fixpoint extend (n : nat) (ws : list N) : list N :=
  match n with
  | O => ws
  | S n =>
      let t := length ws in
      let w i := nth (t - i) ws 0 in
      extend n (ws ++ [(rot2shr (sig1 A) (w 2%nat) + w 7%nat + rot2shr (sig0 A) (w 15%nat) + w 16%nat) mod modulus])
  end.
Definition schedule (block : list N) : list N := extend (length (consts A) - 16) block.

(** One round, the compression function. *)
Definition regs : Type := N * N * N * N * N * N * N * N.
Definition round (s : regs) (kw : N * N) : regs :=
  let '(a, b, c, d, e, f, g, h) := s in
  let '(k, w) := kw in
  let T1 := h + rot3 (Sig1 A) e + Ch e f g + k + w in
  let T2 := rot3 (Sig0 A) a + Maj a b c in
  ((T1 + T2) mod modulus, a, b, c, (d + T1) mod modulus, e, f, g).
Definition to_regs (l : list N) : regs :=
  (nth 0 l 0, nth 1 l 0, nth 2 l 0, nth 3 l 0, nth 4 l 0, nth 5 l 0, nth 6 l 0, nth 7 l 0).
Definition of_regs (s : regs) : list N := let '(a, b, c, d, e, f, g, h) := s in [a; b; c; d; e; f; g; h].
Definition compress (hs : list N) (block : list N) : list N :=
  let s := fold_left round (combine (consts A) (schedule block)) (to_regs hs) in
  map (fun p => (fst p + snd p) mod modulus) (combine hs (of_regs s)).

(** Padding (section 5.1): a one bit, zeros up to a whole number of blocks, and the length in bits in two words. *)
Definition pad (m : list byte) : list byte :=
  let used := len m + 1 + 2 * wbytes A in
  m ++ [x80] ++ repeat x00 (N.to_nat ((block_bytes - used mod block_bytes) mod block_bytes)) ++
  be_bytes (N.to_nat (2 * wbytes A)) (8 * len m).

(** Cutting into pieces of [n] (sections 5.2, 6). *)
Definition pieces (n : N) (l : list byte) : list (list byte) :=
  map (fun i => takeN n (dropN (n * N.of_nat i) l)) (seq 0 (N.to_nat (len l / n))).
Definition words (block : list byte) : list N := map be_val (pieces (wbytes A) block).

Definition digest_words (m : list byte) : list N :=
  fold_left (fun hs b => compress hs (words b)) (pieces block_bytes (pad m)) (iv A).
Definition hash (m : list byte) : list byte :=
  takeN (out_bytes A) (flat_map (be_bytes (N.to_nat (wbytes A))) (digest_words m)).
End Family.
