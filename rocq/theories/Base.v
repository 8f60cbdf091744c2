(** Shared vocabulary of the model: bytes, machine integers, pointers, the environment, and undefined behaviour. *)
From Coq Require Import List NArith ZArith Bool Strings.Byte.
Import ListNotations.
Open Scope N_scope.

(** ** Bytes *)

(** Conversion to [uint8_t]: reduction modulo 256 (C11 6.3.1.3p2). *)
Definition n2b (n : N) : byte :=
  match Byte.of_N (n mod 256) with Some b => b | None => x00 end.

Definition b2n (b : byte) : N := Byte.to_N b.

(** Byte literals: [bytes [0x30; 0x02]]. *)
Definition bytes (l : list N) : list byte := map n2b l.

Definition byte_eqb (a b : byte) : bool := b2n a =? b2n b.

Definition len {A} (l : list A) : N := N.of_nat (length l).
Definition takeN {A} (n : N) (l : list A) : list A := firstn (N.to_nat n) l.
Definition dropN {A} (n : N) (l : list A) : list A := skipn (N.to_nat n) l.

Arguments n2b : simpl never.
Arguments b2n : simpl never.
Arguments len {A} _ : simpl never.
Arguments takeN {A} _ _ : simpl never.
Arguments dropN {A} _ _ : simpl never.

(** ** Environment

    What the C implementation leaves open and the code depends on:
    - the width of [size_t];
    - the host byte order ([LITTLE_ENDIAN == BYTE_ORDER] in src/core/asn1.c:263,271);
    - the bytes a stray read (one outside the object) would see, as a function of the signed offset from the start of
      the object.  Such a read is always logged as undefined behaviour as well. *)
Inductive width := W32 | W64.

Class Env := {
  size_width : width;
  host_little_endian : bool;
  stray : Z -> byte
}.

(** Number of values of [size_t]. *)
Definition SZ `{Env} : N :=
  match size_width with W32 => 4294967296 | W64 => 18446744073709551616 end.

(** Arithmetic in [size_t], [uint64_t], [uint32_t] and [uint8_t] wraps. *)
Definition wrap_sz `{Env} (n : N) : N := n mod SZ.
Definition wrap64 (n : N) : N := n mod 18446744073709551616.
Definition wrap32 (n : N) : N := n mod 4294967296.
Definition wrap8 (n : N) : N := n mod 256.
(** [a - b] in [size_t]. *)
Definition sub_sz `{Env} (a b : N) : N := (a + (SZ - b mod SZ)) mod SZ.

(** ** Undefined behaviour

    Executing undefined behaviour is recorded, not assumed away. *)
Inductive ub :=
| UBReadOob          (* read outside the object *)
| UBWriteOob         (* write outside the object *)
| UBNullDeref        (* access through a null pointer *)
| UBMemcpyNull       (* memcpy with a null pointer and size 0 (C11 7.24.1p2) *)
| UBSignedOverflow   (* signed arithmetic overflow (C11 6.5p5) *)
| UBPtrArith.        (* forming a pointer outside [start, one past end] (C11 6.5.6p8) *)

(** ** Pointers and slices

    A readable pointer is [None] (NULL) or the bytes from the pointer to the end of its object. *)
Definition ptr := option (list byte).

(** include/nat20/types.h: n20_slice_t and n20_string_slice_t (same layout: size and buffer). *)
Record slice := mkSlice { sl_size : N; sl_buf : ptr }.

(** The precondition every function taking a slice relies on: the size is a [size_t], and a non-NULL buffer has at least
    [size] bytes. *)
Definition slice_ok `{Env} (s : slice) : Prop :=
  sl_size s < SZ /\
  match sl_buf s with None => True | Some d => sl_size s <= len d end.

(** The bytes a slice denotes: none when the buffer is NULL. *)
Definition slice_bytes (s : slice) : list byte :=
  match sl_buf s with None => [] | Some d => takeN (sl_size s) d end.

(** A slice over a whole byte list. *)
Definition slice_of (l : list byte) : slice := mkSlice (len l) (Some l).

Definition slice_null : slice := mkSlice 0 None.

(** Reading byte [i] of an object; the second component is the undefined behaviour incurred. *)
Definition deref `{Env} (d : list byte) (i : Z) : byte :=
  if ((0 <=? i) && (i <? Z.of_N (len d)))%Z
  then nth (Z.to_nat i) d x00
  else stray i.
Definition deref_ub (d : list byte) (i : Z) : list ub :=
  if ((0 <=? i) && (i <? Z.of_N (len d)))%Z then [] else [UBReadOob].

(** Reading [n] bytes from the start of an object, as [memcpy] does. *)
Definition load `{Env} (d : list byte) (n : N) : list byte :=
  takeN n d ++ map (fun i => stray (Z.of_nat i)) (seq (length d) (N.to_nat (n - len d))).
Definition load_ub (d : list byte) (n : N) : list ub :=
  if n <=? len d then [] else [UBReadOob].

(** The pointer [&d[i]]. An out-of-range pointer has no readable bytes. *)
Definition ptr_at (d : list byte) (i : Z) : ptr :=
  if (0 <=? i)%Z then Some (skipn (Z.to_nat i) d) else Some [].
