(** Distinguished Encoding Rules (ITU-T X.690), independent of the model: a writer and a strict reader for TLVs and for
    the contents of the universal types used by the library. *)
From Coq Require Import List NArith ZArith Bool Strings.Byte.
From Verif Require Import Base SpecDigits.
Import ListNotations.
Open Scope N_scope.

(** A data value: class (0 universal, 1 application, 2 context-specific, 3 private), primitive/constructed, tag number and
    content octets. *)
Record tlv := Tlv { t_class : N; t_constructed : bool; t_tag : N; t_content : list byte }.

(** ** Writer *)

(** Base-128 digits, big-endian, bit 8 set on all but the last (X.690 8.1.2.4.2, 8.19.2). *)
Fixpoint mark_more (ds : list N) : list byte :=
  match ds with
  | [] => []
  | [d] => [n2b d]
  | d :: r => n2b (128 + d) :: mark_more r
  end.
Definition enc_base128 (n : N) : list byte := mark_more (digits 128 n).

(** Identifier octets (X.690 8.1.2). *)
Definition enc_ident (class : N) (constructed : bool) (tag : N) : list byte :=
  let top := class * 64 + (if constructed then 32 else 0) in
  if tag <? 31 then [n2b (top + tag)] else n2b (top + 31) :: enc_base128 tag.

(** Length octets, definite form, fewest octets (X.690 8.1.3, 10.1). *)
Definition enc_len (n : N) : list byte :=
  if n <? 128 then [n2b n]
  else let ds := digits 256 n in n2b (128 + len ds) :: map n2b ds.

Definition enc_tlv (t : tlv) : list byte :=
  enc_ident (t_class t) (t_constructed t) (t_tag t) ++ enc_len (len (t_content t)) ++ t_content t.

(** ** Strict reader: every function returns the value and the remaining input. *)

Fixpoint read_base128_from (acc : N) (bs : list byte) : option (N * list byte) :=
  match bs with
  | [] => None
  | b :: r =>
      let acc' := acc * 128 + b2n b mod 128 in
      if b2n b <? 128 then Some (acc', r) else read_base128_from acc' r
  end.
(** No leading 0x80 octet (X.690 8.19.2, 8.1.2.4.2 c). *)
Definition read_base128 (bs : list byte) : option (N * list byte) :=
  match bs with
  | [] => None
  | b :: _ => if b2n b =? 128 then None else read_base128_from 0 bs
  end.

Definition read_ident (bs : list byte) : option (N * bool * N * list byte) :=
  match bs with
  | [] => None
  | b :: r =>
      let class := b2n b / 64 in
      let constructed := N.odd (b2n b / 32) in
      let low := b2n b mod 32 in
      if low <? 31 then Some (class, constructed, low, r)
      else match read_base128 r with
           | Some (tag, r') => if tag <? 31 then None else Some (class, constructed, tag, r')
           | None => None
           end
  end.

(** Rejects the indefinite form (0x80), the reserved form (0xff) and any length not in the fewest octets. *)
Definition read_len (bs : list byte) : option (N * list byte) :=
  match bs with
  | [] => None
  | b :: r =>
      let v := b2n b in
      if v <? 128 then Some (v, r)
      else if (v =? 128) || (v =? 255) then None
      else
        let k := v - 128 in
        let ds := takeN k r in
        if (len r <? k) || (be_val ds <? 128) || (b2n (hd x00 ds) =? 0) then None
        else Some (be_val ds, dropN k r)
  end.

(** A whole header: class, constructed, tag number and length. *)
Definition read_header (bs : list byte) : option (N * bool * N * N * list byte) :=
  match read_ident bs with
  | Some (class, constructed, tag, r) =>
      match read_len r with
      | Some (n, r') => Some (class, constructed, tag, n, r')
      | None => None
      end
  | None => None
  end.

Definition read_tlv (bs : list byte) : option (tlv * list byte) :=
  match read_ident bs with
  | Some (class, constructed, tag, r) =>
      match read_len r with
      | Some (n, r') =>
          if len r' <? n then None
          else Some (Tlv class constructed tag (takeN n r'), dropN n r')
      | None => None
      end
  | None => None
  end.

(** [b] is the encoding of the data value [t], recognisable in front of anything else. *)
Definition decodes (b : list byte) (t : tlv) : Prop := forall rest, read_tlv (b ++ rest) = Some (t, rest).

(** All the TLVs of a byte string, nothing left over. *)
Fixpoint read_tlvs_fuel (fuel : nat) (bs : list byte) : option (list tlv) :=
  match bs with
  | [] => Some []
  | _ => match fuel with
         | O => None
         | S f => match read_tlv bs with
                  | Some (t, r) => match read_tlvs_fuel f r with
                                   | Some ts => Some (t :: ts)
                                   | None => None
                                   end
                  | None => None
                  end
         end
  end.
(** Every TLV has at least two octets, so [length bs] steps always suffice. *)
Definition read_tlvs (bs : list byte) : option (list tlv) := read_tlvs_fuel (length bs) bs.

(** ** Tag overrides (X.680 31.2) *)
Inductive tagging := Untagged | Implicit (tag : N) | Explicit (tag : N).
Definition retag (g : tagging) (t : tlv) : tlv :=
  match g with
  | Untagged => t
  | Implicit n => Tlv 2 (t_constructed t) n (t_content t)
  | Explicit n => Tlv 2 true n (enc_tlv t)
  end.

(** ** Universal types *)
Definition tlv_boolean (b : bool) : tlv := Tlv 0 false 1 [if b then xff else x00].
Definition tlv_integer (content : list byte) : tlv := Tlv 0 false 2 content.
Definition tlv_bitstring (content : list byte) : tlv := Tlv 0 false 3 content.
Definition tlv_octetstring (content : list byte) : tlv := Tlv 0 false 4 content.
Definition tlv_null : tlv := Tlv 0 false 5 [].
Definition tlv_oid (content : list byte) : tlv := Tlv 0 false 6 content.
Definition tlv_utf8string (content : list byte) : tlv := Tlv 0 false 12 content.
Definition tlv_sequence (content : list byte) : tlv := Tlv 0 true 16 content.
Definition tlv_set (content : list byte) : tlv := Tlv 0 true 17 content.
Definition tlv_printablestring (content : list byte) : tlv := Tlv 0 false 19 content.
Definition tlv_generalizedtime (content : list byte) : tlv := Tlv 0 false 24 content.

(** INTEGER contents (X.690 8.3): two's complement, big-endian, fewest octets. *)
Definition twos_val (bs : list byte) : Z :=
  match bs with
  | [] => 0
  | b :: _ => if b2n b <? 128 then Z.of_N (be_val bs)
              else (Z.of_N (be_val bs) - 256 ^ Z.of_nat (length bs))%Z
  end.
(** The first nine bits are neither all zero nor all one (8.3.2). *)
Definition int_minimal (bs : list byte) : bool :=
  match bs with
  | [] => false
  | [_] => true
  | a :: b :: _ => negb (((b2n a =? 0) && (b2n b <? 128)) || ((b2n a =? 255) && negb (b2n b <? 128)))
  end.
Definition read_int (bs : list byte) : option Z :=
  if int_minimal bs then Some (twos_val bs) else None.
(** The fewest octets whose two's complement range contains [z]. *)
Definition int_octets (z : Z) : nat :=
  S (N.to_nat (N.size (Z.to_N (if (z <? 0)%Z then - z - 1 else z)%Z) / 8)).
Definition enc_int (z : Z) : list byte :=
  be_bytes (int_octets z) (Z.to_N (z mod 256 ^ Z.of_nat (int_octets z))).

(** OBJECT IDENTIFIER contents (X.690 8.19). *)
Definition enc_oid (arcs : list N) : list byte :=
  match arcs with
  | a :: b :: r => enc_base128 (40 * a + b) ++ flat_map enc_base128 r
  | _ => []
  end.
Fixpoint read_subids (fuel : nat) (bs : list byte) : option (list N) :=
  match bs with
  | [] => Some []
  | _ => match fuel with
         | O => None
         | S f => match read_base128 bs with
                  | Some (n, r) => match read_subids f r with
                                   | Some ns => Some (n :: ns)
                                   | None => None
                                   end
                  | None => None
                  end
         end
  end.
Definition read_oid (bs : list byte) : option (list N) :=
  match read_subids (length bs) bs with
  | Some (s :: r) =>
      if s <? 40 then Some (0 :: s :: r)
      else if s <? 80 then Some (1 :: (s - 40) :: r)
      else Some (2 :: (s - 80) :: r)
  | _ => None
  end.
(** Arc lists that name an OID: the second arc is below 40 under roots 0 and 1. *)
Definition oid_valid (arcs : list N) : Prop :=
  match arcs with
  | a :: b :: _ => a <= 2 /\ (a < 2 -> b < 40)
  | _ => False
  end.

(** BIT STRING contents (X.690 8.6, 11.2.1): number of unused bits, then the bits, padded with zeros. *)
Definition octet (bits : list bool) : byte :=
  n2b (undigits 2 (map (fun b : bool => if b then 1 else 0) (firstn 8 (bits ++ repeat false 7)))).
Fixpoint pack_bits (bits : list bool) : list byte :=
  match bits with
  | [] => []
  | a :: b :: c :: d :: e :: f :: g :: h :: r => octet [a; b; c; d; e; f; g; h] :: pack_bits r
  | short => [octet short]
  end.
Definition enc_bits (bits : list bool) : list byte :=
  n2b ((8 - len bits mod 8) mod 8) :: pack_bits bits.
Definition read_bits (bs : list byte) : option (list bool) :=
  match bs with
  | [] => None
  | u :: r =>
      let n := 8 * len r in
      if (7 <? b2n u) || (n <? b2n u) then None
      else
        let all := bits_of_bytes r in
        if existsb (fun b => b) (dropN (n - b2n u) all) then None
        else Some (takeN (n - b2n u) all)
  end.
(** BOOLEAN contents (X.690 11.1). *)
Definition read_bool (bs : list byte) : option bool :=
  match bs with
  | [b] => if b2n b =? 255 then Some true else if b2n b =? 0 then Some false else None
  | _ => None
  end.
