(** Two platforms: what it means that the same calls are made on both and that the same bytes come out (C59). *)
From Coq Require Import List NArith ZArith Bool Strings.Byte.
From Verif Require Import Base Stream SpecStream Asn1 SpecAsn1 Cbor Oid X509 X509Ext SpecApi.
Import ListNotations.
Open Scope N_scope.

Section TwoPlatforms.
(** They may differ in the width of size_t, the byte order, and what lies next to the memory areas. *)
Variables E1 E2 : Env.

(** Code [f1] on the first and [f2] on the second write the same bytes, whatever the stream (unless it is more than
    size_t can count on one of them). *)
Definition agree (f1 f2 : cmd) : Prop :=
  exists b1 b2, @renders E1 tolerable f1 b1 /\ @renders E2 tolerable f2 b2 /\
    (len b1 < @SZ E1 -> len b2 < @SZ E2 -> b1 = b2).

Definition agree_cb (cb1 cb2 : option cmd) : Prop :=
  match cb1, cb2 with None, None => True | Some f1, Some f2 => agree f1 f2 | _, _ => False end.

(** A bit string short enough for the arithmetic of both (see C59_bitstring_refuted). *)
Definition bits_portable (b : ptr) (bits : N) : Prop := b <> None -> bits + 7 < @SZ E1 /\ bits + 7 < @SZ E2.
(** A signed integer is not empty (see C59_integer_refuted). *)
Definition integer_portable (s : slice) (two_complement : bool) : Prop :=
  two_complement = true -> sl_buf s <> None -> 0 < sl_size s.

Definition same_ext (e1 e2 : extension) : Prop :=
  ext_oid e1 = ext_oid e2 /\ ext_critical e1 = ext_critical e2 /\ agree_cb (ext_content_cb e1) (ext_content_cb e2).
Definition same_exts (x1 x2 : extensions) : Prop :=
  exts_count x1 = exts_count x2 /\
  match exts_list x1, exts_list x2 with
  | None, None => True
  | Some l1, Some l2 => Forall2 same_ext l1 l2
  | _, _ => False
  end.
Definition same_tbs (t1 t2 : tbs) : Prop :=
  tbs_serial t1 = tbs_serial t2 /\ tbs_sig_alg t1 = tbs_sig_alg t2 /\ tbs_issuer t1 = tbs_issuer t2 /\
  tbs_validity t1 = tbs_validity t2 /\ tbs_subject t1 = tbs_subject t2 /\ tbs_spki t1 = tbs_spki t2 /\
  same_exts (tbs_exts t1) (tbs_exts t2) /\ bits_portable (spki_key (tbs_spki t1)) (spki_bits (tbs_spki t1)).
Definition same_opt {A} (same : A -> A -> Prop) (o1 o2 : option A) : Prop :=
  match o1, o2 with None, None => True | Some a1, Some a2 => same a1 a2 | _, _ => False end.
Definition same_cert (c1 c2 : cert) : Prop :=
  same_opt same_tbs (c_tbs c1) (c_tbs c2) /\ c_sig_alg c1 = c_sig_alg c2 /\ c_sig_bits c1 = c_sig_bits c2 /\
  c_signature c1 = c_signature c2 /\ bits_portable (c_signature c1) (c_sig_bits c1).

Definition portable (c : call) : Prop :=
  match c with
  | CInteger s _ tc _ => integer_portable s tc
  | CBitstring b n _ => bits_portable b n
  | CPublicKey (Some p) => bits_portable (spki_key p) (spki_bits p)
  | _ => True
  end.

(** The same call: equal arguments, except that callbacks need only agree. *)
Definition alike (c1 c2 : call) : Prop :=
  match c1, c2 with
  | CWithContent k1 s1 t1 cb1 ti1, CWithContent k2 s2 t2 cb2 ti2 =>
      k1 = k2 /\ s1 = s2 /\ t1 = t2 /\ ti1 = ti2 /\ agree_cb cb1 cb2
  | CSequence cb1 ti1, CSequence cb2 ti2 => ti1 = ti2 /\ agree_cb cb1 cb2
  | CExtension x1, CExtension x2 => same_opt same_exts x1 x2
  | CTbs t1, CTbs t2 => same_opt same_tbs t1 t2
  | CCert x1, CCert x2 => same_opt same_cert x1 x2
  | _, _ => c1 = c2 /\ portable c1
  end.

End TwoPlatforms.
