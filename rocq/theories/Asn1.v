(** Model of src/core/asn1.c (with include/nat20/asn1.h). *)
From Coq Require Import List NArith ZArith Bool Strings.Byte.
From Verif Require Import Base Stream.
Import ListNotations.
Open Scope N_scope.
Open Scope cmd_scope.

(** include/nat20/asn1.h: class and tag constants. *)
Definition N20_ASN1_CLASS_UNIVERSAL : N := 0.
Definition N20_ASN1_CLASS_CONTEXT_SPECIFIC : N := 2.
Definition N20_ASN1_TAG_BOOLEAN : N := 0x1.
Definition N20_ASN1_TAG_INTEGER : N := 0x2.
Definition N20_ASN1_TAG_BIT_STRING : N := 0x3.
Definition N20_ASN1_TAG_OCTET_STRING : N := 0x4.
Definition N20_ASN1_TAG_NULL : N := 0x5.
Definition N20_ASN1_TAG_OBJECT_IDENTIFIER : N := 0x6.
Definition N20_ASN1_TAG_UTF8_STRING : N := 0xc.
Definition N20_ASN1_TAG_SEQUENCE : N := 0x10.
Definition N20_ASN1_TAG_SET : N := 0x11.
Definition N20_ASN1_TAG_PRINTABLE_STRING : N := 0x13.
Definition N20_ASN1_TAG_GENERALIZED_TIME : N := 0x18.

(** include/nat20/asn1.h: n20_asn1_tag_info_t. The code only compares the type with the last two, so every value outside the enumeration acts as the first. *)
Inductive tag_info_type := TI_no_override | TI_implicit | TI_explicit.
Record tag_info := mkTagInfo { ti_type : tag_info_type; ti_tag : N }.

(** src/core/asn1.c:39-52. The int argument is converted to uint32_t. *)
Definition n20_asn1_tag_info_no_override : tag_info := mkTagInfo TI_no_override 0.
Definition n20_asn1_tag_info_explicit (tag : Z) : tag_info :=
  mkTagInfo TI_explicit (Z.to_N (tag mod 4294967296)).
Definition n20_asn1_tag_info_implicit (tag : Z) : tag_info :=
  mkTagInfo TI_implicit (Z.to_N (tag mod 4294967296)).

Section WithEnv.
Context `{E : Env}.

(** [n20_stream_prepend(s, &c, 1)] for a local byte [c]. *)
Definition prepend1 (c : byte) : cmd := n20_stream_prepend (Some [c]) 1.

(** src/core/asn1.c:30-36, the do-while loop. [fuel] bounds the iterations; [S (N.size_nat n)] always suffices since
    each iteration shifts [n] right. *)
Fixpoint base128_loop (fuel : nat) (t : byte) (n : N) : cmd :=
  match fuel with
  | O => skip
  | S f =>
      prepend1 t ;;
      (let n' := N.shiftr n 7 in
       let t' := n2b (N.lor 0x80 (N.land n' 0x7f)) in
       if n' =? 0 then skip else base128_loop f t' n')
  end.

(** src/core/asn1.c:25-37 *)
Definition n20_asn1_base128_int (n : N) : cmd :=
  base128_loop (S (N.size_nat n)) (n2b (N.land n 0x7f)) n.

(** src/core/asn1.c:72-86: the do-while loop over the length bytes, followed by the length-of-length byte. *)
Fixpoint header_len_loop (fuel : nat) (l : byte) (len_ : N) (nbytes : N) : cmd :=
  match fuel with
  | O => skip
  | S f =>
      let nbytes' := nbytes + 1 in
      prepend1 l ;;
      (let len' := N.shiftr len_ 8 in
       let l' := n2b (N.land len' 0xff) in
       if len' =? 0
       then prepend1 (n2b (N.lor (N.land nbytes' 0x7f) 0x80))
       else header_len_loop f l' len' nbytes')
  end.

(** src/core/asn1.c:54-112. [class_] is a uint8_t, [header |= class_ << 6] is truncated to uint8_t. *)
Definition n20_asn1_header (class_ : N) (constructed : bool) (tag : N) (len_ : N) : cmd :=
  (if len_ <=? 127
   then prepend1 (n2b len_)
   else header_len_loop (S (N.size_nat len_)) (n2b (N.land len_ 0xff)) len_ 0) ;;
  (if 30 <? tag then n20_asn1_base128_int tag else skip) ;;
  (let header := if 30 <? tag then 0x1f else N.land tag 0x1f in
   let header := wrap8 (N.lor header (N.shiftl class_ 6)) in
   let header := if constructed then N.lor header 0x20 else header in
   prepend1 (n2b header)).

(** src/core/asn1.c:114-131 *)
Definition n20_asn1_null (ti : tag_info) : cmd :=
  let tag := match ti_type ti with TI_implicit => ti_tag ti | _ => N20_ASN1_TAG_NULL end in
  let class_ := match ti_type ti with
                | TI_implicit => N20_ASN1_CLASS_CONTEXT_SPECIFIC
                | _ => N20_ASN1_CLASS_UNIVERSAL
                end in
  match ti_type ti with
  | TI_explicit =>
      with_length (n20_asn1_header class_ false tag 0)
        (fun n => n20_asn1_header N20_ASN1_CLASS_CONTEXT_SPECIFIC true (ti_tag ti) n)
  | _ => n20_asn1_header class_ false tag 0
  end.

(** src/core/asn1.c:390-420. [content_cb] is the callback applied to its context; None is a NULL callback. *)
Definition n20_asn1_header_with_content
    (class_ : N) (constructed : bool) (tag : N) (content_cb : option cmd) (ti : tag_info) : cmd :=
  let content := match content_cb with Some f => f | None => skip end in
  let class' := match ti_type ti with TI_implicit => N20_ASN1_CLASS_CONTEXT_SPECIFIC | _ => class_ end in
  let tag' := match ti_type ti with TI_implicit => ti_tag ti | _ => tag end in
  let inner := with_length content (fun n => n20_asn1_header class' constructed tag' n) in
  match ti_type ti with
  | TI_explicit =>
      with_length inner (fun n => n20_asn1_header N20_ASN1_CLASS_CONTEXT_SPECIFIC true (ti_tag ti) n)
  | _ => inner
  end.

(** include/nat20/oid.h: n20_asn1_object_identifier_t. [oid_elements] is the array of N20_ASN1_MAX_OID_ELEMENTS (10)
    uint32_t arcs. *)
Record oid := mkOid { oid_elem_count : N; oid_elements : list N }.
Definition N20_ASN1_MAX_OID_ELEMENTS : N := 10.

(** [oid->elements[i]]. Reads beyond the array do not occur in asn1.c (the count is checked first); they yield 0 here and
    are accounted for in Oid.v. *)
Definition oid_element (o : oid) (i : N) : N := nth (N.to_nat i) (oid_elements o) 0.

(** src/core/asn1.c:141-144, [while (e > 2) { --e; base128(elements[e]); }] *)
Fixpoint oid_loop (e : nat) (o : oid) : cmd :=
  match e with
  | O => skip
  | S e' => if Nat.ltb 2 e then n20_asn1_base128_int (oid_element o (N.of_nat e')) ;; oid_loop e' o else skip
  end.

(** src/core/asn1.c:133-154. [h] is a uint8_t: both the assignment and the addition truncate. *)
Definition n20_asn1_object_identifier_content (o : oid) : cmd :=
  let e := N.min (oid_elem_count o) 2 in     (* value of e after the loop *)
  oid_loop (N.to_nat (oid_elem_count o)) o ;;
  (let h := if e =? 2 then wrap8 (oid_element o 1) else 0 in
   let h := if 0 <? e then wrap8 (h + wrap32 (oid_element o 0 * 40)) else h in
   prepend1 (n2b h)).

(** src/core/asn1.c:156-174 *)
Definition n20_asn1_object_identifier (o : option oid) (ti : tag_info) : cmd :=
  match o with
  | None => n20_asn1_null n20_asn1_tag_info_no_override
  | Some o =>
      if N20_ASN1_MAX_OID_ELEMENTS <? oid_elem_count o
      then n20_asn1_null n20_asn1_tag_info_no_override
      else n20_asn1_header_with_content N20_ASN1_CLASS_UNIVERSAL false N20_ASN1_TAG_OBJECT_IDENTIFIER
             (Some (n20_asn1_object_identifier_content o)) ti
  end.

(** src/core/asn1.c:207-209 and 216-218: "while ( *msb == v and msb != end) msb += inc". Note the order: the byte at msb is read
    before the comparison with [end]. Returns the final [msb] and the undefined behaviour incurred. *)
Fixpoint strip_loop (fuel : nat) (d : list byte) (v : byte) (msb end_ inc : Z) : Z * list ub :=
  match fuel with
  | O => (msb, [])
  | S f =>
      let u := deref_ub d msb in
      if byte_eqb (deref d msb) v && negb (msb =? end_)%Z
      then let '(r, u') := strip_loop f d v (msb + inc)%Z end_ inc in (r, u' ++ u)
      else (msb, u)
  end.

(** src/core/asn1.c:224-227: [while (msb != end) { end -= inc; prepend(s, end, 1); }] *)
Fixpoint copy_loop (fuel : nat) (d : list byte) (msb end_ inc : Z) : cmd :=
  match fuel with
  | O => skip
  | S f =>
      if (msb =? end_)%Z then skip
      else n20_stream_prepend (ptr_at d (end_ - inc)) 1 ;; copy_loop f d msb (end_ - inc)%Z inc
  end.

Definition high_bit (b : byte) : bool := N.testbit (b2n b) 7.

(** src/core/asn1.c:182-232. [d] is the memory at n.buffer (non-NULL), [size] is n.size. Pointers into the buffer are
    indices. For little-endian input [end] is formed as [buffer - 1], outside the object. *)
Definition n20_asn1_integer_internal_content (d : list byte) (size : N) (little_endian two_complement : bool) : cmd :=
  let msb := (if little_endian then Z.of_N size - 1 else 0)%Z in
  let end_ := (if little_endian then -1 else Z.of_N size)%Z in
  let inc := (if little_endian then -1 else 1)%Z in
  let fuel := S (N.to_nat size) in
  let ub0 := if little_endian then [UBPtrArith] else [] in
  let ub1 := if two_complement then deref_ub d msb else [] in
  let negative := two_complement && high_bit (deref d msb) in
  let '(msb, ub2) := strip_loop fuel d (if negative then xff else x00) msb end_ inc in
  let at_end := (msb =? end_)%Z in
  let ub3 := if at_end then [] else deref_ub d msb in
  let add_extra :=
    if negative then at_end || negb (high_bit (deref d msb)) else at_end || high_bit (deref d msb) in
  let extra := if negative then xff else x00 in
  log (ub3 ++ ub2 ++ ub1 ++ ub0) ;;
  copy_loop (N.to_nat size) d msb end_ inc ;;
  when add_extra (prepend1 extra).

(** src/core/asn1.c:234-258 *)
Definition n20_asn1_integer (n : slice) (little_endian two_complement : bool) (ti : tag_info) : cmd :=
  match sl_buf n with
  | None => n20_asn1_null n20_asn1_tag_info_no_override
  | Some d =>
      n20_asn1_header_with_content N20_ASN1_CLASS_UNIVERSAL false N20_ASN1_TAG_INTEGER
        (Some (n20_asn1_integer_internal_content d (sl_size n) little_endian two_complement)) ti
  end.

(** The object representation of a 64-bit integer [n] (given modulo 2^64) on the host. *)
Fixpoint le_bytes (k : nat) (n : N) : list byte :=
  match k with O => [] | S k' => n2b n :: le_bytes k' (n / 256) end.
Definition object_rep64 (n : N) : list byte :=
  if host_little_endian then le_bytes 8 n else rev (le_bytes 8 n).

(** src/core/asn1.c:260-266 *)
Definition n20_asn1_uint64 (n : N) (ti : tag_info) : cmd :=
  n20_asn1_integer (mkSlice 8 (Some (object_rep64 n))) host_little_endian false ti.

(** src/core/asn1.c:268-274 *)
Definition n20_asn1_int64 (n : Z) (ti : tag_info) : cmd :=
  n20_asn1_integer (mkSlice 8 (Some (object_rep64 (Z.to_N (n mod 18446744073709551616)))))
    host_little_endian true ti.

(** src/core/asn1.c:299-302: [while (bytes) { --bytes; prepend(s, &b[bytes], 1); }] *)
Fixpoint bitstring_loop (nbytes : nat) (d : list byte) : cmd :=
  match nbytes with
  | O => skip
  | S n => n20_stream_prepend (ptr_at d (Z.of_nat n)) 1 ;; bitstring_loop n d
  end.

(** src/core/asn1.c:281-306. [(bits + 7) >> 3] is computed in size_t. *)
Definition n20_asn1_bitstring_content (b : ptr) (bits : N) : cmd :=
  let bits := match b with Some _ => bits | None => 0 end in
  let nbytes := N.shiftr (wrap_sz (bits + 7)) 3 in
  let unused := N.land (8 - N.land bits 7) 7 in
  (if nbytes =? 0 then skip
   else
     match b with
     | None => log [UBNullDeref]
     | Some d =>
         let last := nbytes - 1 in
         let c := N.ldiff (b2n (deref d (Z.of_N last))) (N.shiftl 1 unused - 1) in
         log (deref_ub d (Z.of_N last)) ;;
         prepend1 (n2b c) ;;
         bitstring_loop (N.to_nat last) d
     end) ;;
  prepend1 (n2b unused).

(** src/core/asn1.c:308-325 *)
Definition n20_asn1_bitstring (b : ptr) (bits : N) (ti : tag_info) : cmd :=
  n20_asn1_header_with_content N20_ASN1_CLASS_UNIVERSAL false N20_ASN1_TAG_BIT_STRING
    (Some (n20_asn1_bitstring_content b bits)) ti.

(** src/core/asn1.c:327-332 *)
Definition n20_asn1_stringish_content (s : option slice) : cmd :=
  match s with
  | None => skip
  | Some s => match sl_buf s with
              | None => skip
              | Some d => n20_stream_prepend (Some d) (sl_size s)
              end
  end.

(** src/core/asn1.c:334-346 *)
Definition n20_asn1_stringish (tag : N) (s : option slice) (ti : tag_info) : cmd :=
  n20_asn1_header_with_content N20_ASN1_CLASS_UNIVERSAL false tag (Some (n20_asn1_stringish_content s)) ti.

(** src/core/asn1.c:348-352 *)
Definition n20_asn1_octetstring (s : option slice) (ti : tag_info) : cmd :=
  n20_asn1_stringish N20_ASN1_TAG_OCTET_STRING s ti.

(** src/core/asn1.c:354-363. A NULL string becomes the null slice. *)
Definition n20_asn1_printablestring (str : option slice) (ti : tag_info) : cmd :=
  n20_asn1_stringish N20_ASN1_TAG_PRINTABLE_STRING
    (Some (match str with Some s => s | None => slice_null end)) ti.

(** src/core/asn1.c:365-374 *)
Definition n20_asn1_utf8_string (str : option slice) (ti : tag_info) : cmd :=
  n20_asn1_stringish N20_ASN1_TAG_UTF8_STRING
    (Some (match str with Some s => s | None => slice_null end)) ti.

(** src/core/asn1.c:376-388 *)
Definition n20_asn1_generalized_time (time_str : option slice) (ti : tag_info) : cmd :=
  match time_str with
  | None => n20_asn1_null n20_asn1_tag_info_no_override
  | Some s => n20_asn1_stringish N20_ASN1_TAG_GENERALIZED_TIME (Some s) ti
  end.

(** src/core/asn1.c:422-433 *)
Definition n20_asn1_sequence (content_cb : option cmd) (ti : tag_info) : cmd :=
  n20_asn1_header_with_content N20_ASN1_CLASS_UNIVERSAL true N20_ASN1_TAG_SEQUENCE content_cb ti.

(** src/core/asn1.c:435-440 *)
Definition n20_asn1_boolean_content (v : bool) : cmd := prepend1 (if v then xff else x00).

(** src/core/asn1.c:442-450 *)
Definition n20_asn1_boolean (v : bool) (ti : tag_info) : cmd :=
  n20_asn1_header_with_content N20_ASN1_CLASS_UNIVERSAL false N20_ASN1_TAG_BOOLEAN
    (Some (n20_asn1_boolean_content v)) ti.

End WithEnv.
