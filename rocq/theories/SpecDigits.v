(** Positional notation: the mathematical notion that DER, CBOR and fixed-width integers are built from. *)
From Coq Require Import List NArith ZArith Bool Strings.Byte.
From Verif Require Import Base.
Import ListNotations.
Open Scope N_scope.

(** The value of a big-endian digit list. *)
Definition undigits (base : N) (ds : list N) : N := fold_left (fun a d => a * base + d) ds 0.

(** Little-endian digits of [n]; at least one digit. [fuel] bounds the number of digits. *)
Fixpoint digits_le (fuel : nat) (base n : N) : list N :=
  match fuel with
  | O => []
  | S f => (n mod base) :: (if n / base =? 0 then [] else digits_le f base (n / base))
  end.

(** The big-endian digits of [n] without leading zeros ([0] for zero). *)
Definition digits (base n : N) : list N := rev (digits_le (S (N.size_nat n)) base n).

(** Big-endian value of bytes, and the [k]-byte big-endian form of a number (modulo 256^k). *)
Definition be_val (bs : list byte) : N := undigits 256 (map b2n bs).
Fixpoint be_bytes (k : nat) (n : N) : list byte :=
  match k with O => [] | S k' => be_bytes k' (n / 256) ++ [n2b n] end.

(** The bits of a byte / byte string, most significant first. *)
Definition bits_of_byte (b : byte) : list bool :=
  map (fun i => N.testbit (b2n b) i) [7; 6; 5; 4; 3; 2; 1; 0].
Definition bits_of_bytes (bs : list byte) : list bool := flat_map bits_of_byte bs.
