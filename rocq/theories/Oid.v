(** Model of src/core/oid.c (with include/nat20/oid.h). *)
From Coq Require Import List NArith ZArith Bool Strings.Byte.
From Verif Require Import Base Asn1.
Import ListNotations.
Open Scope N_scope.

(** include/nat20/oid.h:68-72 N20_ASN1_OBJECT_ID: the count of the given arcs; the array is zero-filled. *)
Definition N20_ASN1_OBJECT_ID (arcs : list N) : oid := mkOid (len arcs) (arcs ++ repeat 0 (10 - length arcs)).

(** src/core/oid.c:20-57, the library's object identifiers. *)
Definition OID_RSA_ENCRYPTION := N20_ASN1_OBJECT_ID [1; 2; 840; 113549; 1; 1; 1].
Definition OID_SHA256_WITH_RSA_ENC := N20_ASN1_OBJECT_ID [1; 2; 840; 113549; 1; 1; 11].
Definition OID_ED25519 := N20_ASN1_OBJECT_ID [1; 3; 101; 112].
Definition OID_EC_PUBLIC_KEY := N20_ASN1_OBJECT_ID [1; 2; 840; 10045; 2; 1].
Definition OID_SECP256R1 := N20_ASN1_OBJECT_ID [1; 2; 840; 10045; 3; 1; 7].
Definition OID_SECP384R1 := N20_ASN1_OBJECT_ID [1; 3; 132; 0; 34].
Definition OID_SHA224 := N20_ASN1_OBJECT_ID [2; 16; 840; 1; 101; 3; 4; 2; 4].
Definition OID_SHA256 := N20_ASN1_OBJECT_ID [2; 16; 840; 1; 101; 3; 4; 2; 1].
Definition OID_SHA384 := N20_ASN1_OBJECT_ID [2; 16; 840; 1; 101; 3; 4; 2; 2].
Definition OID_SHA512 := N20_ASN1_OBJECT_ID [2; 16; 840; 1; 101; 3; 4; 2; 3].
Definition OID_ECDSA_WITH_SHA224 := N20_ASN1_OBJECT_ID [1; 2; 840; 10045; 4; 3; 1].
Definition OID_ECDSA_WITH_SHA256 := N20_ASN1_OBJECT_ID [1; 2; 840; 10045; 4; 3; 2].
Definition OID_ECDSA_WITH_SHA384 := N20_ASN1_OBJECT_ID [1; 2; 840; 10045; 4; 3; 3].
Definition OID_ECDSA_WITH_SHA512 := N20_ASN1_OBJECT_ID [1; 2; 840; 10045; 4; 3; 4].
Definition OID_LOCALITY_NAME := N20_ASN1_OBJECT_ID [2; 5; 4; 7].
Definition OID_COUNTRY_NAME := N20_ASN1_OBJECT_ID [2; 5; 4; 6].
Definition OID_STATE_OR_PROVINCE_NAME := N20_ASN1_OBJECT_ID [2; 5; 4; 8].
Definition OID_ORGANIZATION_NAME := N20_ASN1_OBJECT_ID [2; 5; 4; 10].
Definition OID_ORGANIZATION_UNIT_NAME := N20_ASN1_OBJECT_ID [2; 5; 4; 11].
Definition OID_COMMON_NAME := N20_ASN1_OBJECT_ID [2; 5; 4; 3].
Definition OID_SERIAL_NUMBER := N20_ASN1_OBJECT_ID [2; 5; 4; 5].
Definition OID_BASIC_CONSTRAINTS := N20_ASN1_OBJECT_ID [2; 5; 29; 19].
Definition OID_KEY_USAGE := N20_ASN1_OBJECT_ID [2; 5; 29; 15].
Definition OID_OPEN_DICE_INPUT := N20_ASN1_OBJECT_ID [1; 3; 6; 1; 4; 1; 11129; 2; 1; 24].
Definition OID_TCG_DICE_TCB_INFO := N20_ASN1_OBJECT_ID [2; 23; 133; 5; 4; 1].
Definition OID_TCG_DICE_MULTI_TCB_INFO := N20_ASN1_OBJECT_ID [2; 23; 133; 5; 4; 5].
Definition OID_TCG_DICE_UEID := N20_ASN1_OBJECT_ID [2; 23; 133; 5; 4; 4].
Definition OID_TCG_DICE_TCB_FRESHNESS := N20_ASN1_OBJECT_ID [2; 23; 133; 5; 4; 11].

Definition all_oids : list oid :=
  [OID_RSA_ENCRYPTION; OID_SHA256_WITH_RSA_ENC; OID_ED25519; OID_EC_PUBLIC_KEY; OID_SECP256R1; OID_SECP384R1; OID_SHA224;
   OID_SHA256; OID_SHA384; OID_SHA512; OID_ECDSA_WITH_SHA224; OID_ECDSA_WITH_SHA256; OID_ECDSA_WITH_SHA384;
   OID_ECDSA_WITH_SHA512; OID_LOCALITY_NAME; OID_COUNTRY_NAME; OID_STATE_OR_PROVINCE_NAME; OID_ORGANIZATION_NAME;
   OID_ORGANIZATION_UNIT_NAME; OID_COMMON_NAME; OID_SERIAL_NUMBER; OID_BASIC_CONSTRAINTS; OID_KEY_USAGE;
   OID_OPEN_DICE_INPUT; OID_TCG_DICE_TCB_INFO; OID_TCG_DICE_MULTI_TCB_INFO; OID_TCG_DICE_UEID;
   OID_TCG_DICE_TCB_FRESHNESS].

(** Reading [elements[i]]: logged when outside the array. The value read there is left open ([junk]). *)
Definition elem_ub (o : oid) (i : nat) : list ub := if N.of_nat i <? len (oid_elements o) then [] else [UBReadOob].
Definition elem (junk : nat -> N) (o : oid) (i : nat) : N :=
  if N.of_nat i <? len (oid_elements o) then nth i (oid_elements o) 0 else junk i.

(** src/core/oid.c:67-72: the comparison loop from index [i] with [k] iterations left. *)
Fixpoint oid_equals_loop (junk1 junk2 : nat -> N) (k : nat) (i : nat) (o1 o2 : oid) : bool * list ub :=
  match k with
  | O => (true, [])
  | S k' =>
      let u := elem_ub o1 i ++ elem_ub o2 i in
      if elem junk1 o1 i =? elem junk2 o2 i
      then let '(r, u') := oid_equals_loop junk1 junk2 k' (S i) o1 o2 in (r, u' ++ u)
      else (false, u)
  end.

(** src/core/oid.c:59-73. [junk1], [junk2]: what lies behind the arrays. *)
Definition n20_asn1_oid_equals_full (junk1 junk2 : nat -> N) (oid1 oid2 : option oid) : bool * list ub :=
  match oid1, oid2 with
  | None, None => (true, [])
  | None, Some _ | Some _, None => (false, [])
  | Some o1, Some o2 =>
      if negb (oid_elem_count o1 =? oid_elem_count o2) then (false, [])
      else oid_equals_loop junk1 junk2 (N.to_nat (oid_elem_count o1)) 0 o1 o2
  end.

(** With what lies behind an array read as zero (only used where the count is within the array). *)
Definition n20_asn1_oid_equals (oid1 oid2 : option oid) : bool * list ub :=
  n20_asn1_oid_equals_full (fun _ => 0) (fun _ => 0) oid1 oid2.
