(** Vocabulary linking the arguments of the ASN.1 functions to the mathematical values they denote. *)
From Coq Require Import List NArith ZArith Bool Strings.Byte.
From Verif Require Import Base SpecDigits SpecDer Asn1.
Import ListNotations.
Open Scope N_scope.

(** What an n20_asn1_tag_info_t asks for. *)
Definition tagging_of (ti : tag_info) : tagging :=
  match ti_type ti with
  | TI_no_override => Untagged
  | TI_implicit => Implicit (ti_tag ti)
  | TI_explicit => Explicit (ti_tag ti)
  end.

(** The arcs of an n20_asn1_object_identifier_t: the first [elem_count] of its elements. *)
Definition oid_arcs (o : oid) : list N := takeN (oid_elem_count o) (oid_elements o).
(** Well-formed C objects: ten elements. *)
Definition oid_ok (o : oid) : Prop := len (oid_elements o) = 10 /\ Forall (fun a => a < 4294967296) (oid_elements o).

(** The number held in a slice, most significant byte first or last, unsigned or two's complement. *)
Definition number_of (bs : list byte) (little_endian two_complement : bool) : Z :=
  let be := if little_endian then rev bs else bs in
  if two_complement then twos_val be else Z.of_N (be_val be).

(** Argument ranges of the C types: a tag number is a uint32_t; slices are readable. *)
Definition ti_ok (ti : tag_info) : Prop := ti_tag ti < 2 ^ 32.
Definition opt_slice_ok `{Env} (s : option slice) : Prop := match s with None => True | Some s => slice_ok s end.

(** The bytes denoted by a possibly NULL pointer to a slice. *)
Definition opt_slice_bytes (s : option slice) : list byte := match s with None => [] | Some s => slice_bytes s end.
