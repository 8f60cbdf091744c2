(** Model of src/core/cbor.c (with include/nat20/cbor.h). *)
From Coq Require Import List NArith ZArith Bool Strings.Byte.
From Verif Require Import Base Stream.
Import ListNotations.
Open Scope N_scope.
Open Scope cmd_scope.

(** include/nat20/cbor.h:39-94 n20_cbor_type_t, as the value after the conversion to unsigned int at cbor.c:24. *)
Definition n20_cbor_type_none_e : N := 0xff.
Definition n20_cbor_type_uint_e : N := 0.
Definition n20_cbor_type_nint_e : N := 1.
Definition n20_cbor_type_bytes_e : N := 2.
Definition n20_cbor_type_string_e : N := 3.
Definition n20_cbor_type_array_e : N := 4.
Definition n20_cbor_type_map_e : N := 5.
Definition n20_cbor_type_tag_e : N := 6.
Definition n20_cbor_type_simple_float_e : N := 7.

(** include/nat20/cbor.h:105-112 *)
Definition N20_SIMPLE_FALSE : N := 20.
Definition N20_SIMPLE_TRUE : N := 21.
Definition N20_SIMPLE_NULL : N := 22.
Definition N20_SIMPLE_UNDEFINED : N := 23.

Section WithEnv.
Context `{E : Env}.

(** src/core/cbor.c:51-54: the for loop, from iteration [i] on with [k] iterations left. *)
Fixpoint cbor_value_loop (k : nat) (i : N) (n : N) : cmd :=
  match k with
  | O => skip
  | S k' => n20_stream_prepend (Some [n2b (N.shiftr n (i * 8))]) 1 ;; cbor_value_loop k' (i + 1) n
  end.

(** src/core/cbor.c:23-57. [n] is a uint64_t. *)
Definition n20_cbor_write_header (cbor_type : N) (n : N) : cmd :=
  let '(cbor_type, n) :=
    if 7 <? cbor_type then (n20_cbor_type_simple_float_e, N20_SIMPLE_UNDEFINED) else (cbor_type, n) in
  let header := wrap8 (N.shiftl cbor_type 5) in
  if n <? 24 then n20_stream_prepend (Some [n2b (N.lor header n)]) 1
  else
    let '(header, value_size) :=
      if n <? 0x100 then (N.lor header 24, 1%nat)
      else if n <? 0x10000 then (N.lor header 25, 2%nat)
      else if n <? 0x100000000 then (N.lor header 26, 4%nat)
      else (N.lor header 27, 8%nat) in
    cbor_value_loop value_size 0 n ;;
    n20_stream_prepend (Some [n2b header]) 1.

(** src/core/cbor.c:59-61 *)
Definition n20_cbor_write_null : cmd := n20_cbor_write_header n20_cbor_type_simple_float_e N20_SIMPLE_NULL.

(** src/core/cbor.c:63-65 *)
Definition n20_cbor_write_bool (b : bool) : cmd :=
  n20_cbor_write_header n20_cbor_type_simple_float_e (if b then N20_SIMPLE_TRUE else N20_SIMPLE_FALSE).

(** src/core/cbor.c:67-69 *)
Definition n20_cbor_write_tag (tag : N) : cmd := n20_cbor_write_header n20_cbor_type_tag_e tag.

(** src/core/cbor.c:71-73 *)
Definition n20_cbor_write_uint (n : N) : cmd := n20_cbor_write_header n20_cbor_type_uint_e n.

(** Signed 64-bit arithmetic: the wrapped result, and whether the exact one was out of range. *)
Definition int64_wrap (z : Z) : Z := ((z + 2 ^ 63) mod 2 ^ 64 - 2 ^ 63)%Z.
Definition int64_ub (z : Z) : list ub :=
  if ((- 2 ^ 63 <=? z) && (z <? 2 ^ 63))%Z then [] else [UBSignedOverflow].

(** src/core/cbor.c:75-81. [-n - 1] is computed in int64_t; an overflow is logged and the result wraps. *)
Definition n20_cbor_write_int (n : Z) : cmd :=
  if (0 <=? n)%Z then n20_cbor_write_uint (Z.to_N (n mod 2 ^ 64))
  else
    let m := int64_wrap (- n) in
    let r := int64_wrap (m - 1) in
    log (int64_ub (- n) ++ int64_ub (m - 1)) ;;
    n20_cbor_write_header n20_cbor_type_nint_e (Z.to_N (r mod 2 ^ 64)).

(** src/core/cbor.c:83-91 and 93-101 differ only in the major type. *)
Definition cbor_string (type_ : N) (s : slice) : cmd :=
  if (0 <? sl_size s) && match sl_buf s with None => true | Some _ => false end
  then n20_cbor_write_null
  else n20_stream_prepend (sl_buf s) (sl_size s) ;; n20_cbor_write_header type_ (sl_size s).

(** src/core/cbor.c:83-91 *)
Definition n20_cbor_write_byte_string (bytes : slice) : cmd := cbor_string n20_cbor_type_bytes_e bytes.

(** src/core/cbor.c:93-101 *)
Definition n20_cbor_write_text_string (text : slice) : cmd := cbor_string n20_cbor_type_string_e text.

(** src/core/cbor.c:103-105 *)
Definition n20_cbor_write_array_header (len_ : N) : cmd := n20_cbor_write_header n20_cbor_type_array_e len_.

(** src/core/cbor.c:107-109 *)
Definition n20_cbor_write_map_header (len_ : N) : cmd := n20_cbor_write_header n20_cbor_type_map_e len_.

End WithEnv.
