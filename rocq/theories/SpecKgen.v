(** When a test of the RFC 6979 generator is right (C60). *)
From Coq Require Import List NArith Bool Strings.Byte.
From Verif Require Import Base SpecDigits SpecSha2 SpecMac SpecCrypto SpecBssl SpecTest.
Import ListNotations.
Open Scope N_scope.

(** The text [s] begins with a hexadecimal number of exactly [n] digits, and its value is [k]. *)
Definition writes (n : N) (s : list byte) (k : N) : Prop :=
  exists ds rest vs, s = ds ++ rest /\ len ds = n /\ map digit ds = map Some vs /\ undigits 16 vs = k /\
    match rest with [] => True | c :: _ => digit c = None end.

(** A vector is right: its text is the number that RFC 6979 generates with HMAC and the hash function [A] for the order [q]. *)
Definition right_k (n : N) (A : sha2) (q : N) (x : list byte) (m : option (list byte)) (s : list byte) : Prop :=
  exists k, writes n s k /\ is_rfc6979_k (HMAC A) (N.to_nat (out_bytes A)) q (k_data q x (option_map (hash A) m)) k.
