(** Property C32: the SHA-2 functions of sha256.c and sha512.c compute the FIPS 180-4 hash, however the message is cut into
    updates. *)
From Coq Require Import List NArith ZArith Bool Strings.Byte Lia.
From Coq Require Import ZifyBool ZifyNat ZifyN.
From Verif Require Import Base BaseFacts Res SpecDigits SpecSha2 ShaFacts Sha256 Sha512 Sha256Proofs Sha512Proofs.
Import ListNotations.
Open Scope N_scope.

(** Any number of updates, then one finalize. *)
Fixpoint feed {S} (update : option S -> slice -> res (option S)) (st : option S) (l : list slice) : res (option S) :=
  match l with
  | [] => Ret st
  | s :: l => do st <- update st s; feed update st l
  end.

(** The message: the bytes of all slices in order; a slice with a NULL buffer has none. *)
Definition message (l : list slice) : list byte := flat_map slice_bytes l.


Lemma feed256 (E : Env) h n l : forall st m, Forall slice_ok l -> rep256 h n st m -> total256 st = len m mod 18446744073709551616 ->
  exists st', feed n20_sha256_update (Some st) l = Ret (Some st') /\ rep256 h n st' (m ++ message l) /\
    total256 st' = len (m ++ message l) mod 18446744073709551616.
Proof.
  induction l as [|s l IH]; intros st m Hl Hr Ht; cbn [feed message flat_map].
  - exists st. rewrite app_nil_r. now splits.
  - inversion_clear Hl as [|? ? Hs Hl']. destruct (update256_ok h n st m s Hs Hr Ht) as (st1 & E1 & R1 & T1). rewrite E1. cbn [bind].
    destruct (IH st1 _ Hl' R1 T1) as (st2 & E2 & R2 & T2). exists st2. rewrite <- app_assoc in R2, T2. now splits.
Qed.

Lemma init256 (E : Env) h n : len h = 8 -> Forall (fun x => x < 2 ^ 32) h ->
  rep256 h n (mkSha256 (repeat 0 16) h 0 0) [].
Proof.
  intros H1 H2. exists [], []. cbn [W256 H256 fill256]. splits; try assumption; try reflexivity.
  apply words_ok_nil; [reflexivity|]. repeat constructor.
Qed.

Lemma hash256 (E : Env) h n l d : len h = 8 -> Forall (fun x => x < 2 ^ 32) h -> n <= 32 -> n <= len d ->
  Forall slice_ok l -> len (message l) < 2 ^ 61 ->
  exists st, (do st <- feed n20_sha256_update (Some (mkSha256 (repeat 0 16) h 0 0)) l; n20_sha224_sha256_finalize st (Some d) n) =
    Ret (Some st, Some (hash (with32 h n) (message l) ++ dropN n d)).
Proof.
  intros H1 H2 Hn Hd Hl Hm.
  destruct (feed256 E h n l (mkSha256 (repeat 0 16) h 0 0) [] Hl (init256 E h n H1 H2) eq_refl) as (st & E1 & R1 & T1). rewrite E1. cbn [bind].
  exact (finalize256_ok h n st (message l) n d R1 T1 Hm Hn Hd eq_refl).
Qed.

Lemma feed512 (E : Env) h n l : forall st m, Forall slice_ok l -> rep512 h n st m -> total512 st = len m mod 18446744073709551616 ->
  exists st', feed n20_sha512_update (Some st) l = Ret (Some st') /\ rep512 h n st' (m ++ message l) /\
    total512 st' = len (m ++ message l) mod 18446744073709551616.
Proof.
  induction l as [|s l IH]; intros st m Hl Hr Ht; cbn [feed message flat_map].
  - exists st. rewrite app_nil_r. now splits.
  - inversion_clear Hl as [|? ? Hs Hl']. destruct (update512_ok h n st m s Hs Hr Ht) as (st1 & E1 & R1 & T1). rewrite E1. cbn [bind].
    destruct (IH st1 _ Hl' R1 T1) as (st2 & E2 & R2 & T2). exists st2. rewrite <- app_assoc in R2, T2. now splits.
Qed.

Lemma init512 (E : Env) h n : len h = 8 -> Forall (fun x => x < 2 ^ 64) h ->
  rep512 h n (mkSha512 (repeat 0 16) h 0 0) [].
Proof.
  intros H1 H2. exists [], []. cbn [W512 H512 fill512]. splits; try assumption; try reflexivity.
  apply words_ok_nil; [reflexivity|]. repeat constructor.
Qed.

Lemma hash512 (E : Env) h n l d : len h = 8 -> Forall (fun x => x < 2 ^ 64) h -> n <= 64 -> n <= len d ->
  Forall slice_ok l -> len (message l) < 2 ^ 61 ->
  exists st, (do st <- feed n20_sha512_update (Some (mkSha512 (repeat 0 16) h 0 0)) l; n20_sha384_sha512_finalize st (Some d) n) =
    Ret (Some st, Some (hash (with64 h n) (message l) ++ dropN n d)).
Proof.
  intros H1 H2 Hn Hd Hl Hm.
  destruct (feed512 E h n l (mkSha512 (repeat 0 16) h 0 0) [] Hl (init512 E h n H1 H2) eq_refl) as (st & E1 & R1 & T1). rewrite E1. cbn [bind].
  exact (finalize512_ok h n st (message l) n d R1 T1 Hm Hn Hd eq_refl).
Qed.

Theorem C32_sha224 : forall (E : Env) l d, Forall slice_ok l -> len (message l) < 2 ^ 61 -> 28 <= len d ->
  exists st, (do st <- feed n20_sha224_update (Some n20_sha224_init) l; n20_sha224_finalize st (Some d)) =
    Ret (Some st, Some (hash SHA224 (message l) ++ dropN 28 d)).
Proof.
  intros E l d Hl Hm Hd. apply (hash256 E fips_H224 28); try assumption; try reflexivity; try discriminate.
  repeat (constructor; [reflexivity|]). constructor.
Qed.
Print Assumptions C32_sha224.

Theorem C32_sha256 : forall (E : Env) l d, Forall slice_ok l -> len (message l) < 2 ^ 61 -> 32 <= len d ->
  exists st, (do st <- feed n20_sha256_update (Some n20_sha256_init) l; n20_sha256_finalize st (Some d)) =
    Ret (Some st, Some (hash SHA256 (message l) ++ dropN 32 d)).
Proof.
  intros E l d Hl Hm Hd. apply (hash256 E fips_H256 32); try assumption; try reflexivity; try discriminate.
  repeat (constructor; [reflexivity|]). constructor.
Qed.
Print Assumptions C32_sha256.

Theorem C32_sha384 : forall (E : Env) l d, Forall slice_ok l -> len (message l) < 2 ^ 61 -> 48 <= len d ->
  exists st, (do st <- feed n20_sha384_update (Some n20_sha384_init) l; n20_sha384_finalize st (Some d)) =
    Ret (Some st, Some (hash SHA384 (message l) ++ dropN 48 d)).
Proof.
  intros E l d Hl Hm Hd. apply (hash512 E fips_H384 48); try assumption; try reflexivity; try discriminate.
  repeat (constructor; [reflexivity|]). constructor.
Qed.
Print Assumptions C32_sha384.

Theorem C32_sha512 : forall (E : Env) l d, Forall slice_ok l -> len (message l) < 2 ^ 61 -> 64 <= len d ->
  exists st, (do st <- feed n20_sha512_update (Some n20_sha512_init) l; n20_sha512_finalize st (Some d)) =
    Ret (Some st, Some (hash SHA512 (message l) ++ dropN 64 d)).
Proof.
  intros E l d Hl Hm Hd. apply (hash512 E fips_H512 64); try assumption; try reflexivity; try discriminate.
  repeat (constructor; [reflexivity|]). constructor.
Qed.
Print Assumptions C32_sha512.

(** Without a state or data buffer nothing happens. *)
Theorem C32_null_no_op : forall (E : Env) s d,
  n20_sha256_update None s = Ret None /\ n20_sha512_update None s = Ret None /\
  n20_sha256_finalize None d = Ret (None, d) /\ n20_sha512_finalize None d = Ret (None, d) /\
  (sl_buf s = None -> forall st, n20_sha256_update (Some st) s = Ret (Some st)) /\
  (sl_buf s = None -> forall st, n20_sha512_update (Some st) s = Ret (Some st)).
Proof. intros E s d. splits; try reflexivity; intros Hs st; unfold n20_sha256_update, n20_sha512_update; now rewrite Hs. Qed.
Print Assumptions C32_null_no_op.

(** ** The constants *)

Definition root_fraction_b (r w : N) (px : N * N) : bool :=
  let '(p, x) := px in
  (x <? 2 ^ w) && existsb (fun i => ((i * 2 ^ w + x) ^ r <=? p * 2 ^ (r * w)) && (p * 2 ^ (r * w) <? (i * 2 ^ w + x + 1) ^ r))
                    [1; 2; 3; 4; 5; 6; 7].
Lemma root_fractions r w ps xs : length ps = length xs -> forallb (root_fraction_b r w) (combine ps xs) = true ->
  Forall2 (root_fraction r w) ps xs.
Proof.
  revert xs. induction ps as [|p ps IH]; intros [|x xs] Hl Hb; try discriminate; constructor.
  - cbn [combine forallb root_fraction_b] in Hb. apply andb_prop in Hb. destruct Hb as [Hb _]. apply andb_prop in Hb. destruct Hb as [H1 H2].
    split; [now apply N.ltb_lt|]. apply existsb_exists in H2. destruct H2 as (i & _ & H2). exists i. apply andb_prop in H2.
    split; [now apply N.leb_le|now apply N.ltb_lt].
  - apply IH; [now injection Hl|]. cbn [combine forallb] in Hb. now apply andb_prop in Hb.
Qed.

(** The round constants are the cube root fractions of the first 64 and 80 primes, the initial values the square root fractions of
    the first eight (SHA-256, SHA-512) and the ninth to sixteenth (SHA-384) primes; SHA-224 takes the low halves of the latter. *)
Theorem C32_constants_are_root_fractions :
  Forall2 (root_fraction 3 32) (first_primes 64) K_256 /\ Forall2 (root_fraction 3 64) (first_primes 80) K_512 /\
  Forall2 (root_fraction 2 32) (first_primes 8) (H256 n20_sha256_init) /\
  Forall2 (root_fraction 2 64) (first_primes 8) (H512 n20_sha512_init) /\
  Forall2 (root_fraction 2 64) (skipn 8 (first_primes 16)) (H512 n20_sha384_init) /\
  H256 n20_sha224_init = map (fun x => x mod 2 ^ 32) (H512 n20_sha384_init).
Proof.
  splits; [apply root_fractions..|]; vm_compute; reflexivity.
Qed.
Print Assumptions C32_constants_are_root_fractions.

#[local] Instance env64 : Env := {| size_width := W64; host_little_endian := true; stray := fun _ => x00 |}.

(** "abc" in four pieces, one empty and one NULL; the digest is the FIPS example. *)
Definition abc_slices : list slice := [slice_of [x61]; slice_of []; mkSlice 5 None; mkSlice 2 (Some [x62; x63; x64])].
Lemma abc_slices_ok : Forall slice_ok abc_slices /\ len (message abc_slices) < 2 ^ 61.
Proof. split; [|reflexivity]. repeat constructor; vm_compute; congruence. Qed.
Example C32_sha224_example :
  match (do st <- feed n20_sha224_update (Some n20_sha224_init) abc_slices; n20_sha224_finalize st (Some (repeat xff 29))) with
  | Ret (_, Some out) => out = bytes [0x23; 0x09; 0x7d; 0x22; 0x34; 0x05; 0xd8; 0x22; 0x86; 0x42; 0xa4; 0x77; 0xbd; 0xa2; 0x55; 0xb3; 0x2a; 0xad; 0xbc; 0xe4; 0xbd; 0xa0; 0xb3; 0xf7; 0xe3; 0x6c; 0x9d; 0xa7; 0xff]
  | _ => False
  end.
Proof. vm_compute. reflexivity. Qed.
Example C32_sha256_example :
  match (do st <- feed n20_sha256_update (Some n20_sha256_init) abc_slices; n20_sha256_finalize st (Some (repeat xff 33))) with
  | Ret (_, Some out) => out = bytes [0xba; 0x78; 0x16; 0xbf; 0x8f; 0x01; 0xcf; 0xea; 0x41; 0x41; 0x40; 0xde; 0x5d; 0xae; 0x22; 0x23; 0xb0; 0x03; 0x61; 0xa3; 0x96; 0x17; 0x7a; 0x9c; 0xb4; 0x10; 0xff; 0x61; 0xf2; 0x00; 0x15; 0xad; 0xff]
  | _ => False
  end.
Proof. vm_compute. reflexivity. Qed.
Example C32_sha384_example :
  match (do st <- feed n20_sha384_update (Some n20_sha384_init) abc_slices; n20_sha384_finalize st (Some (repeat xff 49))) with
  | Ret (_, Some out) => out = bytes [0xcb; 0x00; 0x75; 0x3f; 0x45; 0xa3; 0x5e; 0x8b; 0xb5; 0xa0; 0x3d; 0x69; 0x9a; 0xc6; 0x50; 0x07; 0x27; 0x2c; 0x32; 0xab; 0x0e; 0xde; 0xd1; 0x63; 0x1a; 0x8b; 0x60; 0x5a; 0x43; 0xff; 0x5b; 0xed; 0x80; 0x86; 0x07; 0x2b; 0xa1; 0xe7; 0xcc; 0x23; 0x58; 0xba; 0xec; 0xa1; 0x34; 0xc8; 0x25; 0xa7; 0xff]
  | _ => False
  end.
Proof. vm_compute. reflexivity. Qed.
Example C32_sha512_example :
  match (do st <- feed n20_sha512_update (Some n20_sha512_init) abc_slices; n20_sha512_finalize st (Some (repeat xff 65))) with
  | Ret (_, Some out) => out = bytes [0xdd; 0xaf; 0x35; 0xa1; 0x93; 0x61; 0x7a; 0xba; 0xcc; 0x41; 0x73; 0x49; 0xae; 0x20; 0x41; 0x31; 0x12; 0xe6; 0xfa; 0x4e; 0x89; 0xa9; 0x7e; 0xa2; 0x0a; 0x9e; 0xee; 0xe6; 0x4b; 0x55; 0xd3; 0x9a; 0x21; 0x92; 0x99; 0x2a; 0x27; 0x4f; 0xc1; 0xa8; 0x36; 0xba; 0x3c; 0x23; 0xa3; 0xfe; 0xeb; 0xbd; 0x45; 0x4d; 0x44; 0x23; 0x64; 0x3c; 0xe8; 0x0e; 0x2a; 0x9a; 0xc9; 0x4f; 0xa5; 0x4c; 0xa4; 0x9f; 0xff]
  | _ => False
  end.
Proof. vm_compute. reflexivity. Qed.
