(** The requirements of RFC 5280 on certificate fields that do not depend on the key or the signature, independent of the model. They are stated about the fields
    found by the reader of SpecX509, which only accepts GeneralizedTime and PrintableString. *)
From Coq Require Import List NArith ZArith Bool Strings.Byte.
From Verif Require Import Base Stream SpecStream SpecDigits SpecDer Asn1 SpecAsn1 Oid X509 X509Ext SpecX509.
Import ListNotations.
Open Scope N_scope.

(** X.680 41.4, table 10: letters, digits, space and ' ( ) + , - . / : = ? *)
Definition printable_char (b : byte) : bool :=
  let n := b2n b in
  ((65 <=? n) && (n <=? 90)) || ((97 <=? n) && (n <=? 122)) || ((48 <=? n) && (n <=? 57)) ||
  existsb (N.eqb n) [32; 39; 40; 41; 43; 44; 45; 46; 47; 58; 61; 63].
Definition printable (s : list byte) : Prop := forallb printable_char s = true.

(** RFC 5280 4.1.2.5.2: YYYYMMDDHHMMSSZ, with a date of the Gregorian calendar. The year, if so. *)
Definition digit (b : byte) : option N := if (48 <=? b2n b) && (b2n b <=? 57) then Some (b2n b - 48) else None.
Definition number (s : list byte) : option N := let? ds := map_opt digit s in Some (undigits 10 ds).
Definition leap (y : N) : bool := (y mod 4 =? 0) && (negb (y mod 100 =? 0) || (y mod 400 =? 0)).
Definition days (y m : N) : N := if m =? 2 then (if leap y then 29 else 28) else if (m =? 4) || (m =? 6) || (m =? 9) || (m =? 11) then 30 else 31.
Definition time_year (s : list byte) : option N :=
  let field i n := number (takeN n (dropN i s)) in
  let? y := field 0 4 in let? mo := field 4 2 in let? d := field 6 2 in let? h := field 8 2 in let? mi := field 10 2 in let? se := field 12 2 in
  if (len s =? 15) && (b2n (nth 14 s x00) =? 90) && (1 <=? mo) && (mo <=? 12) && (1 <=? d) && (d <=? days y mo) && (h <? 24) && (mi <? 60) && (se <? 60)
  then Some y else None.
(** 4.1.2.5: dates through the year 2049 MUST be encoded as UTCTime. *)
Definition time_conforms (s : list byte) : Prop := exists y, time_year s = Some y /\ 2050 <= y.

(** 4.1.2.2: positive, at most 20 octets. *)
Definition serial_conforms (z : Z) : Prop := (0 < z)%Z /\ len (enc_int z) <= 20.

Definition name_conforms (n : list attribute) : Prop := Forall (fun a => printable (snd a)) n.

Definition in_profile (f : cert_fields) : Prop :=
  let t := cf_tbs f in
  tf_version t = 3%Z /\                              (* 4.1.2.1, with extensions *)
  serial_conforms (tf_serial t) /\
  tf_sig_alg t = cf_sig_alg f /\                     (* 4.1.1.2 *)
  tf_issuer t <> [] /\ name_conforms (tf_issuer t) /\ (* 4.1.2.4 *)
  time_conforms (tf_not_before t) /\ time_conforms (tf_not_after t) /\
  name_conforms (tf_subject t) /\
  NoDup (map xf_oid (tf_exts t)).                    (* 4.2 *)

(** ** What a caller has to see to *)

(** The documentation of serial_number (include/nat20/x509.h:730-747): up to 20 octets, the first of 20 below 0x80. Leading zeros do not count. *)
Fixpoint without_zeros (bs : list byte) : list byte :=
  match bs with b :: r => if b2n b =? 0 then without_zeros r else bs | [] => [] end.
Definition serial_given (bs : list byte) : Prop :=
  let s := without_zeros bs in s <> [] /\ len s <= 20 /\ (len s = 20 -> b2n (hd x00 s) < 128).
(** Attribute values are printable, except for serial numbers, which are printed in hexadecimal. *)
Definition name_given (n : name) : Prop :=
  Forall (fun r => arcs_of (rdn_type r) <> serial_number_arcs -> printable (slice_bytes (rdn_value r))) (takeN (name_count n) (name_elements n)).
Definition profile_given (t : tbs) (c : cert) : Prop :=
  serial_given (slice_bytes (tbs_serial t)) /\
  alg_of (tbs_sig_alg t) = alg_of (c_sig_alg c) /\
  name_count (tbs_issuer t) <> 0 /\ name_given (tbs_issuer t) /\
  (sl_buf (v_not_before (tbs_validity t)) <> None /\ time_conforms (slice_bytes (v_not_before (tbs_validity t)))) /\
  (sl_buf (v_not_after (tbs_validity t)) <> None -> time_conforms (slice_bytes (v_not_after (tbs_validity t)))) /\
  name_given (tbs_subject t) /\
  NoDup (map (fun x => arcs_of (ext_oid x)) (used_exts (tbs_exts t))).
