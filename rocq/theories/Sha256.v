(** Model of src/crypto/nat20/sha256.c. Words are numbers below 2^32; [uint32_t] arithmetic wraps. *)
From Coq Require Import List NArith ZArith Bool Strings.Byte.
From Verif Require Import Base Res.
Import ListNotations.
Open Scope N_scope.

(** include/nat20/crypto/nat20/sha.h: n20_sha224_sha256_state_t. *)
Record sha256_state := mkSha256 { W256 : list N; H256 : list N; fill256 : N; total256 : N }.

(** src/crypto/nat20/sha256.c:20-33 *)
Definition n20_sha256_init : sha256_state := mkSha256 (repeat 0 16)
  [0x6a09e667; 0xbb67ae85; 0x3c6ef372; 0xa54ff53a;
   0x510e527f; 0x9b05688c; 0x1f83d9ab; 0x5be0cd19]
  0 0.

(** src/crypto/nat20/sha256.c:35-48 *)
Definition n20_sha224_init : sha256_state := mkSha256 (repeat 0 16)
  [0xc1059ed8; 0x367cd507; 0x3070dd17; 0xf70e5939;
   0xffc00b31; 0x68581511; 0x64f98fa7; 0xbefa4fa4]
  0 0.

(** src/crypto/nat20/sha256.c:51-59 *)
Definition K_256 : list N :=
  [0x428a2f98; 0x71374491; 0xb5c0fbcf; 0xe9b5dba5; 0x3956c25b; 0x59f111f1; 0x923f82a4; 0xab1c5ed5;
   0xd807aa98; 0x12835b01; 0x243185be; 0x550c7dc3; 0x72be5d74; 0x80deb1fe; 0x9bdc06a7; 0xc19bf174;
   0xe49b69c1; 0xefbe4786; 0x0fc19dc6; 0x240ca1cc; 0x2de92c6f; 0x4a7484aa; 0x5cb0a9dc; 0x76f988da;
   0x983e5152; 0xa831c66d; 0xb00327c8; 0xbf597fc7; 0xc6e00bf3; 0xd5a79147; 0x06ca6351; 0x14292967;
   0x27b70a85; 0x2e1b2138; 0x4d2c6dfc; 0x53380d13; 0x650a7354; 0x766a0abb; 0x81c2c92e; 0x92722c85;
   0xa2bfe8a1; 0xa81a664b; 0xc24b8b70; 0xc76c51a3; 0xd192e819; 0xd6990624; 0xf40e3585; 0x106aa070;
   0x19a4c116; 0x1e376c08; 0x2748774c; 0x34b0bcb5; 0x391c0cb3; 0x4ed8aa4a; 0x5b9cca4f; 0x682e6ff3;
   0x748f82ee; 0x78a5636f; 0x84c87814; 0x8cc70208; 0x90befffa; 0xa4506ceb; 0xbef9a3f7; 0xc67178f2].

(** src/crypto/nat20/sha256.c:61-73 *)
Definition ch256 (x y z : N) : N := N.lxor (N.land x y) (N.land (N.lnot x 32) z).
Definition majority256 (x y z : N) : N := N.lxor (N.lxor (N.land x y) (N.land x z)) (N.land y z).
Definition rotr256 (x n : N) : N := N.lor (N.shiftr x n) (wrap32 (N.shiftl x (32 - n))).
Definition SIGMA0_256 (x : N) : N := N.lxor (N.lxor (rotr256 x 2) (rotr256 x 13)) (rotr256 x 22).
Definition SIGMA1_256 (x : N) : N := N.lxor (N.lxor (rotr256 x 6) (rotr256 x 11)) (rotr256 x 25).
Definition sigma0_256 (x : N) : N := N.lxor (N.lxor (rotr256 x 7) (rotr256 x 18)) (N.shiftr x 3).
Definition sigma1_256 (x : N) : N := N.lxor (N.lxor (rotr256 x 17) (rotr256 x 19)) (N.shiftr x 10).

Section WithEnv.
Context `{Env}.

(** src/crypto/nat20/sha256.c:75-83: [(-i + x) & 0x07] in [size_t]. *)
Definition R_INDEX256 (i x : N) : N := N.land (wrap_sz (sub_sz 0 i + x)) 7.
(** src/crypto/nat20/sha256.c:84 *)
Definition W_INDEX256 (i : N) : N := N.land i 15.

(** src/crypto/nat20/sha256.c:98-104,111-117: the common part of both round loops, from the schedule word [t1]; returns [R] and the last [t1]. *)
Definition sha256_round (j t1 : N) (R : list N) : res (list N * N) :=
  do h <- get R (R_INDEX256 j 7);
  let t1 := wrap32 (t1 + h) in
  do e <- get R (R_INDEX256 j 4);
  let t1 := wrap32 (t1 + SIGMA1_256 e) in
  do f <- get R (R_INDEX256 j 5);
  do g <- get R (R_INDEX256 j 6);
  let t1 := wrap32 (t1 + ch256 e f g) in
  do kj <- get K_256 j;
  let t1 := wrap32 (t1 + kj) in
  do a <- get R (R_INDEX256 j 0);
  do b <- get R (R_INDEX256 j 1);
  do c <- get R (R_INDEX256 j 2);
  do R <- set R (R_INDEX256 j 7) (wrap32 (wrap32 (t1 + SIGMA0_256 a) + majority256 a b c));
  do d <- get R (R_INDEX256 j 3);
  do R <- set R (R_INDEX256 j 3) (wrap32 (d + t1));
  Ret (R, t1).

(** src/crypto/nat20/sha256.c:95-105 (one iteration) *)
Definition sha256_round_lo (j : N) (s : list N * list N * N) : res (list N * list N * N) :=
  let '(W, R, _) := s in
  do t1 <- get W j;
  do (R, t1) <- sha256_round j t1 R;
  Ret (W, R, t1).

(** src/crypto/nat20/sha256.c:108-109 and the round (one iteration of the second loop) *)
Definition sha256_round_hi (j : N) (s : list N * list N * N) : res (list N * list N * N) :=
  let '(W, R, _) := s in
  do w2 <- get W (W_INDEX256 (j - 2));
  do w7 <- get W (W_INDEX256 (j - 7));
  do w15 <- get W (W_INDEX256 (j - 15));
  do w16 <- get W (W_INDEX256 j);
  let t1 := wrap32 (w16 + wrap32 (wrap32 (sigma1_256 w2 + w7) + sigma0_256 w15)) in
  do W <- set W (W_INDEX256 j) t1;
  do (R, t1) <- sha256_round j t1 R;
  Ret (W, R, t1).

(** src/crypto/nat20/sha256.c:86-129. Also returns the final contents of the locals [R] and [t1]. *)
Definition n20_sha256_main_locals (st : sha256_state) : res (sha256_state * (list N * N)) :=
  do R <- for_range 0 8 (fun j R => do h <- get (H256 st) j; set R j h) (repeat 0 8);
  do s <- for_range 0 16 sha256_round_lo (W256 st, R, 0);
  do (W, R, t1) <- for_range 16 64 sha256_round_hi s;
  do hs <- for_range 0 8 (fun j hs => do h <- get hs j; do r <- get R j; set hs j (wrap32 (h + r))) (H256 st);
  do R <- for_range 0 8 (fun j R => set R j 0) R;
  let t1 := 0 in
  Ret (mkSha256 W hs 0 (total256 st), (R, t1)).
Definition n20_sha256_main (st : sha256_state) : res sha256_state :=
  do (st, _) <- n20_sha256_main_locals st; Ret st.

(** [state->W[i >> 2] <<= 8; state->W[i >> 2] |= b]: src/crypto/nat20/sha256.c:145-146 and the padding loops. *)
Definition sha256_put (i : N) (b : byte) (W : list N) : res (list N) :=
  do x <- get W (N.shiftr i 2);
  do W <- set W (N.shiftr i 2) (wrap32 (N.shiftl x 8));
  do x <- get W (N.shiftr i 2);
  set W (N.shiftr i 2) (N.lor x (b2n b)).

(** src/crypto/nat20/sha256.c:144-147: the inner loop, from [j] and [i]; [n] bounds the iterations by [64 - j]. *)
Fixpoint sha256_fill (n : nat) (data : list byte) (size j i : N) (W : list N) : res (N * N * list N) :=
  match n with
  | O => Ret (j, i, W)
  | S n =>
      if i <? size then
        do b <- get data i;
        do W <- sha256_put j b W;
        sha256_fill n data size (j + 1) (i + 1) W
      else Ret (j, i, W)
  end.

(** src/crypto/nat20/sha256.c:131-154: the while loop. [fuel] is the number of iterations; each but the first consumes at least one byte, so
    one more than the data size is enough. *)
Fixpoint sha256_absorb (fuel : nat) (data : list byte) (size i : N) (st : sha256_state) : res sha256_state :=
  if i <? size then
    match fuel with
    | O => OutOfFuel
    | S fuel =>
        do (j, i, W) <- sha256_fill (N.to_nat (64 - fill256 st)) data size (fill256 st) i (W256 st);
        let st' := mkSha256 W (H256 st) (fill256 st) (total256 st) in
        if j <? 64 then Ret (mkSha256 W (H256 st) j (total256 st))
        else do st' <- n20_sha256_main st'; sha256_absorb fuel data size i st'
    end
  else Ret st.
Definition n20_sha256_update (st : option sha256_state) (data : slice) : res (option sha256_state) :=
  match st, sl_buf data with
  | None, _ | _, None => Ret st
  | Some st, Some d =>
      let st := mkSha256 (W256 st) (H256 st) (fill256 st) (wrap64 (total256 st + sl_size data)) in
      do st <- sha256_absorb (S (N.to_nat (sl_size data))) d (sl_size data) 0 st;
      Ret (Some st)
  end.
(** src/crypto/nat20/sha256.c:156-157 *)
Definition n20_sha224_update := n20_sha256_update.

(** src/crypto/nat20/sha256.c:215-217 *)
Definition sha256_output (hs : list N) (digest_size : N) (digest : ptr) : res ptr :=
  for_range 0 digest_size (fun i digest =>
    do h <- get hs (N.shiftr i 2);
    let v := N.land (N.shiftr h (8 * (3 - N.land i 3))) 255 in
    match digest with
    | None => Undef UBNullDeref
    | Some d => do d <- set d i (n2b v); Ret (Some d)
    end) digest.

(** src/crypto/nat20/sha256.c:159-218 *)
Definition n20_sha224_sha256_finalize (st : option sha256_state) (digest : ptr) (digest_size : N)
  : res (option sha256_state * ptr) :=
  match st with
  | None => Ret (None, digest)
  | Some st =>
      let i := fill256 st in
      do W <- sha256_put i x80 (W256 st);
      let i := i + 1 in
      do (i, st) <- (if 56 <? i then
                       do W <- for_range i 64 (fun i W => sha256_put i x00 W) W;
                       do st <- n20_sha256_main (mkSha256 W (H256 st) (fill256 st) (total256 st));
                       Ret (0, st)
                     else Ret (i, mkSha256 W (H256 st) (fill256 st) (total256 st)));
      do W <- for_range i 56 (fun i W => sha256_put i x00 W) (W256 st);
      let i := N.max i 56 in
      let bit_size := wrap64 (total256 st * 8) in
      do W <- for_range i 64 (fun i W => sha256_put i (n2b (N.land (N.shiftr bit_size (8 * (63 - i))) 255)) W) W;
      do st <- n20_sha256_main (mkSha256 W (H256 st) (fill256 st) (total256 st));
      do digest <- sha256_output (H256 st) digest_size digest;
      Ret (Some st, digest)
  end.

(** src/crypto/nat20/sha256.c:220-222, 224-226 *)
Definition n20_sha256_finalize st digest := n20_sha224_sha256_finalize st digest 32.
Definition n20_sha224_finalize st digest := n20_sha224_sha256_finalize st digest 28.

End WithEnv.
