(** Model of src/crypto/nat20/sha512.c. Words are numbers below 2^64; [uint64_t] arithmetic wraps. *)
From Coq Require Import List NArith ZArith Bool Strings.Byte.
From Verif Require Import Base Res.
Import ListNotations.
Open Scope N_scope.

(** include/nat20/crypto/nat20/sha.h: n20_sha384_sha512_state_t. *)
Record sha512_state := mkSha512 { W512 : list N; H512 : list N; fill512 : N; total512 : N }.

(** src/crypto/nat20/sha512.c:20-33 *)
Definition n20_sha512_init : sha512_state := mkSha512 (repeat 0 16)
  [0x6a09e667f3bcc908; 0xbb67ae8584caa73b; 0x3c6ef372fe94f82b; 0xa54ff53a5f1d36f1;
   0x510e527fade682d1; 0x9b05688c2b3e6c1f; 0x1f83d9abfb41bd6b; 0x5be0cd19137e2179]
  0 0.

(** src/crypto/nat20/sha512.c:35-48 *)
Definition n20_sha384_init : sha512_state := mkSha512 (repeat 0 16)
  [0xcbbb9d5dc1059ed8; 0x629a292a367cd507; 0x9159015a3070dd17; 0x152fecd8f70e5939;
   0x67332667ffc00b31; 0x8eb44a8768581511; 0xdb0c2e0d64f98fa7; 0x47b5481dbefa4fa4]
  0 0.

(** src/crypto/nat20/sha512.c:51-71 *)
Definition K_512 : list N :=
  [0x428a2f98d728ae22; 0x7137449123ef65cd; 0xb5c0fbcfec4d3b2f; 0xe9b5dba58189dbbc;
   0x3956c25bf348b538; 0x59f111f1b605d019; 0x923f82a4af194f9b; 0xab1c5ed5da6d8118;
   0xd807aa98a3030242; 0x12835b0145706fbe; 0x243185be4ee4b28c; 0x550c7dc3d5ffb4e2;
   0x72be5d74f27b896f; 0x80deb1fe3b1696b1; 0x9bdc06a725c71235; 0xc19bf174cf692694;
   0xe49b69c19ef14ad2; 0xefbe4786384f25e3; 0x0fc19dc68b8cd5b5; 0x240ca1cc77ac9c65;
   0x2de92c6f592b0275; 0x4a7484aa6ea6e483; 0x5cb0a9dcbd41fbd4; 0x76f988da831153b5;
   0x983e5152ee66dfab; 0xa831c66d2db43210; 0xb00327c898fb213f; 0xbf597fc7beef0ee4;
   0xc6e00bf33da88fc2; 0xd5a79147930aa725; 0x06ca6351e003826f; 0x142929670a0e6e70;
   0x27b70a8546d22ffc; 0x2e1b21385c26c926; 0x4d2c6dfc5ac42aed; 0x53380d139d95b3df;
   0x650a73548baf63de; 0x766a0abb3c77b2a8; 0x81c2c92e47edaee6; 0x92722c851482353b;
   0xa2bfe8a14cf10364; 0xa81a664bbc423001; 0xc24b8b70d0f89791; 0xc76c51a30654be30;
   0xd192e819d6ef5218; 0xd69906245565a910; 0xf40e35855771202a; 0x106aa07032bbd1b8;
   0x19a4c116b8d2d0c8; 0x1e376c085141ab53; 0x2748774cdf8eeb99; 0x34b0bcb5e19b48a8;
   0x391c0cb3c5c95a63; 0x4ed8aa4ae3418acb; 0x5b9cca4f7763e373; 0x682e6ff3d6b2b8a3;
   0x748f82ee5defb2fc; 0x78a5636f43172f60; 0x84c87814a1f0ab72; 0x8cc702081a6439ec;
   0x90befffa23631e28; 0xa4506cebde82bde9; 0xbef9a3f7b2c67915; 0xc67178f2e372532b;
   0xca273eceea26619c; 0xd186b8c721c0c207; 0xeada7dd6cde0eb1e; 0xf57d4f7fee6ed178;
   0x06f067aa72176fba; 0x0a637dc5a2c898a6; 0x113f9804bef90dae; 0x1b710b35131c471b;
   0x28db77f523047d84; 0x32caab7b40c72493; 0x3c9ebe0a15c9bebc; 0x431d67c49c100d4c;
   0x4cc5d4becb3e42b6; 0x597f299cfc657e2a; 0x5fcb6fab3ad6faec; 0x6c44198c4a475817].

(** src/crypto/nat20/sha512.c:73-85 *)
Definition ch512 (x y z : N) : N := N.lxor (N.land x y) (N.land (N.lnot x 64) z).
Definition majority512 (x y z : N) : N := N.lxor (N.lxor (N.land x y) (N.land x z)) (N.land y z).
Definition rotr512 (x n : N) : N := N.lor (N.shiftr x n) (wrap64 (N.shiftl x (64 - n))).
Definition SIGMA0_512 (x : N) : N := N.lxor (N.lxor (rotr512 x 28) (rotr512 x 34)) (rotr512 x 39).
Definition SIGMA1_512 (x : N) : N := N.lxor (N.lxor (rotr512 x 14) (rotr512 x 18)) (rotr512 x 41).
Definition sigma0_512 (x : N) : N := N.lxor (N.lxor (rotr512 x 1) (rotr512 x 8)) (N.shiftr x 7).
Definition sigma1_512 (x : N) : N := N.lxor (N.lxor (rotr512 x 19) (rotr512 x 61)) (N.shiftr x 6).

Section WithEnv.
Context `{Env}.

(** src/crypto/nat20/sha512.c:87-95: [(-i + x) & 0x07] in [size_t]. *)
Definition R_INDEX512 (i x : N) : N := N.land (wrap_sz (sub_sz 0 i + x)) 7.
(** src/crypto/nat20/sha512.c:96 *)
Definition W_INDEX512 (i : N) : N := N.land i 15.

(** src/crypto/nat20/sha512.c:110-116,123-129: the common part of both round loops, from the schedule word [t1]; returns [R] and the last [t1]. *)
Definition sha512_round (j t1 : N) (R : list N) : res (list N * N) :=
  do h <- get R (R_INDEX512 j 7);
  let t1 := wrap64 (t1 + h) in
  do e <- get R (R_INDEX512 j 4);
  let t1 := wrap64 (t1 + SIGMA1_512 e) in
  do f <- get R (R_INDEX512 j 5);
  do g <- get R (R_INDEX512 j 6);
  let t1 := wrap64 (t1 + ch512 e f g) in
  do kj <- get K_512 j;
  let t1 := wrap64 (t1 + kj) in
  do a <- get R (R_INDEX512 j 0);
  do b <- get R (R_INDEX512 j 1);
  do c <- get R (R_INDEX512 j 2);
  do R <- set R (R_INDEX512 j 7) (wrap64 (wrap64 (t1 + SIGMA0_512 a) + majority512 a b c));
  do d <- get R (R_INDEX512 j 3);
  do R <- set R (R_INDEX512 j 3) (wrap64 (d + t1));
  Ret (R, t1).

(** src/crypto/nat20/sha512.c:107-117 (one iteration) *)
Definition sha512_round_lo (j : N) (s : list N * list N * N) : res (list N * list N * N) :=
  let '(W, R, _) := s in
  do t1 <- get W j;
  do (R, t1) <- sha512_round j t1 R;
  Ret (W, R, t1).

(** src/crypto/nat20/sha512.c:120-121 and the round (one iteration of the second loop) *)
Definition sha512_round_hi (j : N) (s : list N * list N * N) : res (list N * list N * N) :=
  let '(W, R, _) := s in
  do w2 <- get W (W_INDEX512 (j - 2));
  do w7 <- get W (W_INDEX512 (j - 7));
  do w15 <- get W (W_INDEX512 (j - 15));
  do w16 <- get W (W_INDEX512 j);
  let t1 := wrap64 (w16 + wrap64 (wrap64 (sigma1_512 w2 + w7) + sigma0_512 w15)) in
  do W <- set W (W_INDEX512 j) t1;
  do (R, t1) <- sha512_round j t1 R;
  Ret (W, R, t1).

(** src/crypto/nat20/sha512.c:98-141. Also returns the final contents of the locals [R] and [t1]. *)
Definition n20_sha512_main_locals (st : sha512_state) : res (sha512_state * (list N * N)) :=
  do R <- for_range 0 8 (fun j R => do h <- get (H512 st) j; set R j h) (repeat 0 8);
  do s <- for_range 0 16 sha512_round_lo (W512 st, R, 0);
  do (W, R, t1) <- for_range 16 80 sha512_round_hi s;
  do hs <- for_range 0 8 (fun j hs => do h <- get hs j; do r <- get R j; set hs j (wrap64 (h + r))) (H512 st);
  do R <- for_range 0 8 (fun j R => set R j 0) R;
  let t1 := 0 in
  Ret (mkSha512 W hs 0 (total512 st), (R, t1)).
Definition n20_sha512_main (st : sha512_state) : res sha512_state :=
  do (st, _) <- n20_sha512_main_locals st; Ret st.

(** [state->W[i >> 3] <<= 8; state->W[i >> 3] |= b]: src/crypto/nat20/sha512.c:156-157 and the padding loops. *)
Definition sha512_put (i : N) (b : byte) (W : list N) : res (list N) :=
  do x <- get W (N.shiftr i 3);
  do W <- set W (N.shiftr i 3) (wrap64 (N.shiftl x 8));
  do x <- get W (N.shiftr i 3);
  set W (N.shiftr i 3) (N.lor x (b2n b)).

(** src/crypto/nat20/sha512.c:155-158: the inner loop, from [j] and [i]; [n] bounds the iterations by [128 - j]. *)
Fixpoint sha512_fill (n : nat) (data : list byte) (size j i : N) (W : list N) : res (N * N * list N) :=
  match n with
  | O => Ret (j, i, W)
  | S n =>
      if i <? size then
        do b <- get data i;
        do W <- sha512_put j b W;
        sha512_fill n data size (j + 1) (i + 1) W
      else Ret (j, i, W)
  end.

(** src/crypto/nat20/sha512.c:143-166: the while loop. [fuel] is the number of iterations; each but the first consumes at least one byte, so
    one more than the data size is enough. *)
Fixpoint sha512_absorb (fuel : nat) (data : list byte) (size i : N) (st : sha512_state) : res sha512_state :=
  if i <? size then
    match fuel with
    | O => OutOfFuel
    | S fuel =>
        do (j, i, W) <- sha512_fill (N.to_nat (128 - fill512 st)) data size (fill512 st) i (W512 st);
        let st' := mkSha512 W (H512 st) (fill512 st) (total512 st) in
        if j <? 128 then Ret (mkSha512 W (H512 st) j (total512 st))
        else do st' <- n20_sha512_main st'; sha512_absorb fuel data size i st'
    end
  else Ret st.
Definition n20_sha512_update (st : option sha512_state) (data : slice) : res (option sha512_state) :=
  match st, sl_buf data with
  | None, _ | _, None => Ret st
  | Some st, Some d =>
      let st := mkSha512 (W512 st) (H512 st) (fill512 st) (wrap64 (total512 st + sl_size data)) in
      do st <- sha512_absorb (S (N.to_nat (sl_size data))) d (sl_size data) 0 st;
      Ret (Some st)
  end.
(** src/crypto/nat20/sha512.c:168-169 *)
Definition n20_sha384_update := n20_sha512_update.

(** src/crypto/nat20/sha512.c:231-233 *)
Definition sha512_output (hs : list N) (digest_size : N) (digest : ptr) : res ptr :=
  for_range 0 digest_size (fun i digest =>
    do h <- get hs (N.shiftr i 3);
    let v := N.land (N.shiftr h (8 * (7 - N.land i 7))) 255 in
    match digest with
    | None => Undef UBNullDeref
    | Some d => do d <- set d i (n2b v); Ret (Some d)
    end) digest.

(** src/crypto/nat20/sha512.c:171-234 *)
Definition n20_sha384_sha512_finalize (st : option sha512_state) (digest : ptr) (digest_size : N)
  : res (option sha512_state * ptr) :=
  match st with
  | None => Ret (None, digest)
  | Some st =>
      let i := fill512 st in
      do W <- sha512_put i x80 (W512 st);
      let i := i + 1 in
      do (i, st) <- (if 112 <? i then
                       do W <- for_range i 128 (fun i W => sha512_put i x00 W) W;
                       do st <- n20_sha512_main (mkSha512 W (H512 st) (fill512 st) (total512 st));
                       Ret (0, st)
                     else Ret (i, mkSha512 W (H512 st) (fill512 st) (total512 st)));
      do W <- for_range i 120 (fun i W => sha512_put i x00 W) (W512 st);
      let i := N.max i 120 in
      let bit_size := wrap64 (total512 st * 8) in
      do W <- for_range i 128 (fun i W => sha512_put i (n2b (N.land (N.shiftr bit_size (8 * (127 - i))) 255)) W) W;
      do st <- n20_sha512_main (mkSha512 W (H512 st) (fill512 st) (total512 st));
      do digest <- sha512_output (H512 st) digest_size digest;
      Ret (Some st, digest)
  end.

(** src/crypto/nat20/sha512.c:236-238, 240-242 *)
Definition n20_sha512_finalize st digest := n20_sha384_sha512_finalize st digest 64.
Definition n20_sha384_finalize st digest := n20_sha384_sha512_finalize st digest 48.

End WithEnv.
