(** Specification of CBOR (RFC 8949): a reader for definite-length items, written independently of the writer. *)
From Coq Require Import List NArith ZArith Bool Strings.Byte.
From Verif Require Import Base SpecDigits.
Import ListNotations.
Open Scope N_scope.

(** The head of a data item (RFC 8949 section 3): major type, and the argument, in any of its well-formed widths. The
    third component is the number of argument bytes (it distinguishes simple values from floats in major type 7).
    Additional information 28..30 is reserved, 31 is indefinite length (not supported here); a simple value below 32 in
    the two-byte form is not well-formed (section 3.3). *)
Definition read_head (bs : list byte) : option (N * N * N * list byte) :=
  match bs with
  | [] => None
  | b :: r =>
      let major := b2n b / 32 in
      let info := b2n b mod 32 in
      if info <? 24 then Some (major, info, 0, r)
      else if info <? 28 then
        let w := 2 ^ (info - 24) in
        if w <=? len r then
          let v := be_val (takeN w r) in
          if (major =? 7) && (info =? 24) && (v <? 32) then None
          else Some (major, v, w, dropN w r)
        else None
      else None
  end.

(** The generic data model (RFC 8949 section 2). [CFloat w bits] is a float of [w] bytes. *)
Inductive cval :=
| CInt (z : Z)
| CBytes (b : list byte)
| CText (b : list byte)
| CArray (l : list cval)
| CMap (l : list (cval * cval))
| CTag (t : N) (v : cval)
| CSimple (n : N)
| CFloat (w bits : N).

Definition CBool (b : bool) : cval := CSimple (if b then 21 else 20).
Definition CNull : cval := CSimple 22.
Definition CUndefined : cval := CSimple 23.

Fixpoint pair_up (l : list cval) : list (cval * cval) :=
  match l with k :: v :: r => (k, v) :: pair_up r | _ => [] end.

(** Reading one item, and [n] consecutive items. [fuel] bounds the recursion. *)
Fixpoint read_item (fuel : nat) (bs : list byte) : option (cval * list byte) :=
  match fuel with
  | O => None
  | S f =>
      match read_head bs with
      | None => None
      | Some (major, v, w, r) =>
          match major with
          | 0 => Some (CInt (Z.of_N v), r)
          | 1 => Some (CInt (-1 - Z.of_N v), r)
          | 2 => if v <=? len r then Some (CBytes (takeN v r), dropN v r) else None
          | 3 => if v <=? len r then Some (CText (takeN v r), dropN v r) else None
          | 4 => match read_items f v r with Some (l, r') => Some (CArray l, r') | None => None end
          | 5 => match read_items f (2 * v) r with Some (l, r') => Some (CMap (pair_up l), r') | None => None end
          | 6 => match read_item f r with Some (x, r') => Some (CTag v x, r') | None => None end
          | _ => if w <=? 1 then Some (CSimple v, r) else Some (CFloat w v, r)
          end
      end
  end
with read_items (fuel : nat) (n : N) (bs : list byte) : option (list cval * list byte) :=
  match fuel with
  | O => None
  | S f =>
      if n =? 0 then Some ([], bs)
      else match read_item f bs with
           | None => None
           | Some (x, r) =>
               match read_items f (n - 1) r with
               | None => None
               | Some (l, r') => Some (x :: l, r')
               end
           end
  end.

(** Decoding: every level of recursion but at most one consumes input, so this fuel never runs out (CborFacts.v). *)
Definition cbor_read (bs : list byte) : option (cval * list byte) := read_item (2 * length bs + 2) bs.

(** What a value tree must satisfy to be representable: RFC 8949 integer, length, tag and simple value ranges. *)
Fixpoint cval_ok (v : cval) : Prop :=
  match v with
  | CInt z => (- 2 ^ 64 <= z < 2 ^ 64)%Z
  | CBytes b | CText b => len b < 2 ^ 64
  | CArray l => len l < 2 ^ 64 /\ fold_right (fun x P => cval_ok x /\ P) True l
  | CMap l => len l < 2 ^ 64 /\ fold_right (fun kv P => cval_ok (fst kv) /\ cval_ok (snd kv) /\ P) True l
  | CTag t v => t < 2 ^ 64 /\ cval_ok v
  | CSimple n => n < 24 \/ 32 <= n < 256
  | CFloat w bits => False
  end.

(** [b] is an encoding of the value [v], recognisable in front of anything else. *)
Definition cbor_decodes (b : list byte) (v : cval) : Prop := forall rest, cbor_read (b ++ rest) = Some (v, rest).
