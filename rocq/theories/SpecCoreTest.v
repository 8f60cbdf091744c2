(** What it takes for a core test to be right, independently of the code under test and of the way the tests are written. *)
From Coq Require Import List NArith ZArith Bool Strings.Byte.
From Verif Require Import Base SpecDigits SpecDer SpecCbor.
Import ListNotations.
Open Scope N_scope.

(** A test with verdict [fst v] and undefined behaviour [snd v] passes exactly if [right], and on the way only [allowed] undefined behaviour occurs. *)
Definition decides (v : bool * list ub) (right : Prop) (allowed : ub -> Prop) : Prop := (fst v = true <-> right) /\ Forall allowed (snd v).

(** The expected bytes are the DER encoding of a value of the universal type with tag number [tag] and a content that reads as [v]; with an explicit tag,
    two more bytes, they still fit into 128 bytes. *)
Definition expects_value {A} (expected : list byte) (constructed : bool) (tag : N) (read : list byte -> option A) (v : A) : Prop :=
  (exists content, decodes expected (Tlv 0 constructed tag content) /\ read content = Some v) /\ len expected <= 126.
(** Contents that stand for themselves. *)
Definition verbatim (content : list byte) : option (list byte) := Some content.

(** The expected bytes are the head of a CBOR item with a given major type and argument, and no head for them is shorter (RFC 8949 section 4.2.1). *)
Definition shortest_head (expected : list byte) (major n : N) : Prop :=
  (exists w, read_head expected = Some (major, n, w, [])) /\
  forall other w, read_head other = Some (major, n, w, []) -> len expected <= len other.
