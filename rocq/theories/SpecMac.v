(** HMAC (FIPS 198-1) and HKDF (RFC 5869) over any SHA-2 function of SpecSha2.v. *)
From Coq Require Import List NArith Bool Strings.Byte.
From Verif Require Import Base SpecSha2.
Import ListNotations.
Open Scope N_scope.

Section Mac.
Variable A : sha2.

(** FIPS 198-1 section 4, steps 1-3: the key, or its hash if it is longer than a block, padded with zeros to a block. *)
Definition K0 (key : list byte) : list byte :=
  let k := if len key <=? block_bytes A then key else hash A key in
  k ++ repeat x00 (N.to_nat (block_bytes A - len k)).
(** Steps 4 and 7: exclusive or with a constant byte. *)
Definition xor_with (v : N) (l : list byte) : list byte := map (fun b => n2b (N.lxor (b2n b) v)) l.
(** Steps 4-9. *)
Definition HMAC (key text : list byte) : list byte :=
  hash A (xor_with 0x5c (K0 key) ++ hash A (xor_with 0x36 (K0 key) ++ text)).

(** RFC 5869 section 2.2. *)
Definition HKDF_extract (salt ikm : list byte) : list byte := HMAC salt ikm.
(** RFC 5869 section 2.3: T(n), and the first L octets of T(1) | T(2) | ... The RFC requires L <= 255 HashLen, so that the counter fits
    one octet; here the counter octet is taken modulo 256 and larger L are not excluded. *)
Fixpoint T (prk info : list byte) (n : nat) : list byte :=
  match n with
  | O => []
  | S n' => HMAC prk (T prk info n' ++ info ++ [n2b (N.of_nat n)])
  end.
Definition blocks (L : N) : N := (L + out_bytes A - 1) / out_bytes A.
Definition HKDF_expand (prk info : list byte) (L : N) : list byte :=
  takeN L (flat_map (T prk info) (seq 1 (N.to_nat (blocks L)))).
Definition HKDF (salt ikm info : list byte) (L : N) : list byte := HKDF_expand (HKDF_extract salt ikm) info L.
End Mac.
