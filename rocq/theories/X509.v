(** Model of src/core/x509.c (with include/nat20/x509.h). A callback together with its context is a [cmd]. *)
From Coq Require Import List NArith ZArith Bool Strings.Byte.
From Verif Require Import Base Stream Asn1 Oid.
Import ListNotations.
Open Scope N_scope.
Open Scope cmd_scope.

(** include/nat20/x509.h:76-117. The union of [string] and [bytes] is one slice (same layout). *)
Record rdn := mkRdn { rdn_type : option oid; rdn_value : slice }.
(** include/nat20/x509.h:153-164 *)
Record name := mkName { name_count : N; name_elements : list rdn }.
Definition N20_X509_NAME_MAX_NAME_ELEMENTS : N := 8.
(** include/nat20/x509.h:226-262 *)
Record extension := mkExtension { ext_oid : option oid; ext_critical : bool; ext_content_cb : option cmd }.
(** include/nat20/x509.h:277-301 *)
Record extensions := mkExtensions { exts_count : N; exts_list : option (list extension) }.
(** include/nat20/x509.h:379-398 *)
Record basic_constraints := mkBasicConstraints { bc_is_ca : bool; bc_has_path_length : bool; bc_path_length : N }.
(** include/nat20/x509.h:517-526: the two bytes of key_usage_mask. *)
Record key_usage := mkKeyUsage { ku_mask0 : byte; ku_mask1 : byte }.
(** include/nat20/x509.h:448-486: the macros N20_X509_KEY_USAGE_SET_xxx. *)
Inductive key_usage_flag :=
| KU_digital_signature | KU_content_commitment | KU_key_encipherment | KU_data_encipherment | KU_key_agreement
| KU_key_cert_sign | KU_crl_sign | KU_encipher_only | KU_decipher_only.
Definition or_byte (b : byte) (m : N) : byte := n2b (N.lor (b2n b) m).
Definition key_usage_set (f : key_usage_flag) (k : key_usage) : key_usage :=
  let set0 m := mkKeyUsage (or_byte (ku_mask0 k) m) (ku_mask1 k) in
  let set1 m := mkKeyUsage (ku_mask0 k) (or_byte (ku_mask1 k) m) in
  match f with
  | KU_digital_signature => set0 0x80
  | KU_content_commitment => set0 0x40
  | KU_key_encipherment => set0 0x20
  | KU_data_encipherment => set0 0x10
  | KU_key_agreement => set0 0x08
  | KU_key_cert_sign => set0 0x04
  | KU_crl_sign => set0 0x02
  | KU_encipher_only => set0 0x01
  | KU_decipher_only => set1 0x80
  end.
(** include/nat20/x509.h:555-611. [pv_other]: any value outside the enumeration (the switch has no default). *)
Inductive alg_params := pv_none | pv_null | pv_ec_curve (curve : option oid) | pv_other.
(** include/nat20/x509.h:624-635 *)
Record algorithm_identifier := mkAlg { alg_oid : option oid; alg_parameters : alg_params }.
(** include/nat20/x509.h:655-680 *)
Record public_key_info := mkSpki { spki_alg : algorithm_identifier; spki_bits : N; spki_key : ptr }.
(** include/nat20/x509.h:690-710 *)
Record validity := mkValidity { v_not_before : slice; v_not_after : slice }.
(** include/nat20/x509.h:729-795 *)
Record tbs := mkTbs {
  tbs_serial : slice;
  tbs_sig_alg : algorithm_identifier;
  tbs_issuer : name;
  tbs_validity : validity;
  tbs_subject : name;
  tbs_spki : public_key_info;
  tbs_exts : extensions
}.
(** include/nat20/x509.h:809-862 *)
Record cert := mkCert {
  c_tbs : option tbs;
  c_sig_alg : algorithm_identifier;
  c_sig_bits : N;
  c_signature : ptr
}.

(** src/core/x509.c:22-23 *)
Definition n20_x509_no_expiration : slice :=
  slice_of (bytes [0x39;0x39;0x39;0x39;0x31;0x32;0x33;0x31;0x32;0x33;0x35;0x39;0x35;0x39;0x5a]).  (* 99991231235959Z *)
Definition n20_x509_unix_epoch : slice :=
  slice_of (bytes [0x31;0x39;0x37;0x30;0x30;0x31;0x30;0x31;0x30;0x30;0x30;0x30;0x30;0x30;0x5a]).  (* 19700101000000Z *)

(** src/core/x509.c:25-26 *)
Definition nibble2ascii (n : N) : byte :=
  nth (N.to_nat n) (bytes [0x30;0x31;0x32;0x33;0x34;0x35;0x36;0x37;0x38;0x39;0x61;0x62;0x63;0x64;0x65;0x66]) x00.

Section WithEnv.
Context `{E : Env}.

(** src/core/x509.c:33-38: the loop body for i = k-1, ..., 0 *)
Fixpoint serial_hex_loop (k : nat) (d : list byte) : cmd :=
  match k with
  | O => skip
  | S i =>
      log (deref_ub d (Z.of_nat i)) ;;
      (let c := b2n (deref d (Z.of_nat i)) in
       n20_stream_prepend (Some [nibble2ascii (N.shiftr c 4); nibble2ascii (N.land c 0x0f)]) 2) ;;
      serial_hex_loop i d
  end.

(** src/core/x509.c:28-40 *)
Definition n20_x509_serial_as_hex_content (s : slice) : cmd :=
  match sl_buf s with
  | None => skip
  | Some d => serial_hex_loop (N.to_nat (sl_size s)) d
  end.

(** src/core/x509.c:42-52 *)
Definition n20_x509_serial_as_hex_string (s : slice) (ti : tag_info) : cmd :=
  n20_asn1_header_with_content N20_ASN1_CLASS_UNIVERSAL false N20_ASN1_TAG_PRINTABLE_STRING
    (Some (n20_x509_serial_as_hex_content s)) ti.

(** src/core/x509.c:54-64 *)
Definition n20_x509_rdn_content (r : rdn) : cmd :=
  let '(is_serial, u) := n20_asn1_oid_equals (rdn_type r) (Some OID_SERIAL_NUMBER) in
  log u ;;
  (if is_serial
   then n20_x509_serial_as_hex_string (rdn_value r) n20_asn1_tag_info_no_override
   else n20_asn1_printablestring (Some (rdn_value r)) n20_asn1_tag_info_no_override) ;;
  n20_asn1_object_identifier (rdn_type r) n20_asn1_tag_info_no_override.

(** src/core/x509.c:66-74 *)
Definition n20_x509_rdn (r : rdn) : cmd :=
  with_length (n20_asn1_sequence (Some (n20_x509_rdn_content r)) n20_asn1_tag_info_no_override)
    (fun n => n20_asn1_header N20_ASN1_CLASS_UNIVERSAL true N20_ASN1_TAG_SET n).

(** src/core/x509.c:83-85: elements count-1, ..., 0. An element outside the array is an out-of-bounds read. *)
Fixpoint name_loop (k : nat) (els : list rdn) : cmd :=
  match k with
  | O => skip
  | S i => (match nth_error els i with Some r => n20_x509_rdn r | None => log [UBReadOob] end) ;; name_loop i els
  end.

(** src/core/x509.c:76-86 *)
Definition n20_x509_name_content (n : option name) : cmd :=
  match n with
  | None => n20_asn1_null n20_asn1_tag_info_no_override
  | Some n =>
      if N20_X509_NAME_MAX_NAME_ELEMENTS <? name_count n
      then n20_asn1_null n20_asn1_tag_info_no_override
      else name_loop (N.to_nat (name_count n)) (name_elements n)
  end.

(** src/core/x509.c:88-90 *)
Definition n20_x509_name (n : option name) : cmd :=
  n20_asn1_sequence (Some (n20_x509_name_content n)) n20_asn1_tag_info_no_override.

(** src/core/x509.c:100-128: one extension. Both lengths are measured from the same mark, the start of the iteration. *)
Definition extension_item (x : extension) : cmd :=
  with_length
    (with_length (match ext_content_cb x with Some f => f | None => skip end)
       (fun n => n20_asn1_header N20_ASN1_CLASS_UNIVERSAL false N20_ASN1_TAG_OCTET_STRING n) ;;
     when (ext_critical x) (n20_asn1_boolean true n20_asn1_tag_info_no_override) ;;
     n20_asn1_object_identifier (ext_oid x) n20_asn1_tag_info_no_override)
    (fun n => n20_asn1_header N20_ASN1_CLASS_UNIVERSAL true N20_ASN1_TAG_SEQUENCE n).

(** src/core/x509.c:97-129: extensions count-1, ..., 0 *)
Fixpoint extension_loop (k : nat) (l : list extension) : cmd :=
  match k with
  | O => skip
  | S i => (match nth_error l i with Some x => extension_item x | None => log [UBReadOob] end) ;; extension_loop i l
  end.

(** src/core/x509.c:132-138, with n20_x509_extension_content (92-130) as the callback. *)
Definition n20_x509_extension (x : option extensions) : cmd :=
  match x with
  | None => skip
  | Some x =>
      match exts_list x with
      | None => skip
      | Some l =>
          if exts_count x =? 0 then skip
          else n20_asn1_sequence (Some (extension_loop (N.to_nat (exts_count x)) l)) (n20_asn1_tag_info_explicit 3)
      end
  end.

(** src/core/x509.c:140-158. path_length is a uint32_t. *)
Definition n20_x509_ext_basic_constraints_content (bc : option basic_constraints) : cmd :=
  match bc with
  | None => skip
  | Some bc =>
      with_length
        (when (bc_is_ca bc)
           (when (bc_has_path_length bc) (n20_asn1_uint64 (bc_path_length bc) n20_asn1_tag_info_no_override) ;;
            n20_asn1_boolean true n20_asn1_tag_info_no_override))
        (fun n => n20_asn1_header N20_ASN1_CLASS_UNIVERSAL true N20_ASN1_TAG_SEQUENCE n)
  end.

(** src/core/x509.c:168-185: the number of bits. [bits] and [c] are uint8_t. *)
Definition key_usage_bits (m0 m1 : N) : N :=
  if negb (m1 =? 0) then 9
  else if negb (m0 =? 0) then
    let bits := 8 in
    let c := m0 in
    let '(bits, c) := if N.land c 0xf =? 0 then (bits - 4, N.shiftr c 4) else (bits, c) in
    let '(bits, c) := if N.land c 3 =? 0 then (bits - 2, N.shiftr c 2) else (bits, c) in
    if N.land c 1 =? 0 then bits - 1 else bits
  else 0.

(** src/core/x509.c:160-188 *)
Definition n20_x509_ext_key_usage_content (ku : option key_usage) : cmd :=
  match ku with
  | None => skip
  | Some ku =>
      n20_asn1_bitstring (Some [ku_mask0 ku; ku_mask1 ku]) (key_usage_bits (b2n (ku_mask0 ku)) (b2n (ku_mask1 ku)))
        n20_asn1_tag_info_no_override
  end.

(** src/core/x509.c:190-208 *)
Definition n20_x509_algorithm_identifier_content (a : option algorithm_identifier) : cmd :=
  match a with
  | None => skip
  | Some a =>
      match alg_parameters a with
      | pv_none | pv_other => skip
      | pv_null => n20_asn1_null n20_asn1_tag_info_no_override
      | pv_ec_curve c => n20_asn1_object_identifier c n20_asn1_tag_info_no_override
      end ;;
      n20_asn1_object_identifier (alg_oid a) n20_asn1_tag_info_no_override
  end.

(** src/core/x509.c:210-216 *)
Definition n20_x509_algorithm_identifier (a : option algorithm_identifier) : cmd :=
  n20_asn1_sequence (Some (n20_x509_algorithm_identifier_content a)) n20_asn1_tag_info_no_override.

(** src/core/x509.c:218-225. The context is dereferenced unchecked. *)
Definition n20_x509_public_key_info_content (p : option public_key_info) : cmd :=
  match p with
  | None => log [UBNullDeref]
  | Some p =>
      n20_asn1_bitstring (spki_key p) (spki_bits p) n20_asn1_tag_info_no_override ;;
      n20_x509_algorithm_identifier (Some (spki_alg p))
  end.

(** src/core/x509.c:227-233 *)
Definition n20_x509_public_key_info (p : option public_key_info) : cmd :=
  n20_asn1_sequence (Some (n20_x509_public_key_info_content p)) n20_asn1_tag_info_no_override.

Definition or_default (s dflt : slice) : slice := match sl_buf s with Some _ => s | None => dflt end.

(** src/core/x509.c:235-247. The context is dereferenced unchecked. *)
Definition n20_x509_validity_content (v : option validity) : cmd :=
  match v with
  | None => log [UBNullDeref]
  | Some v =>
      n20_asn1_generalized_time (Some (or_default (v_not_after v) n20_x509_no_expiration)) n20_asn1_tag_info_no_override ;;
      n20_asn1_generalized_time (Some (or_default (v_not_before v) n20_x509_unix_epoch)) n20_asn1_tag_info_no_override
  end.

(** src/core/x509.c:249-252 *)
Definition n20_x509_validity (v : option validity) : cmd :=
  n20_asn1_sequence (Some (n20_x509_validity_content v)) n20_asn1_tag_info_no_override.

(** src/core/x509.c:254-259 *)
Definition n20_x509_version_3 : cmd :=
  n20_stream_prepend (Some (bytes [0xa0; 0x03; 0x02; 0x01; 0x02])) 5.

(** src/core/x509.c:261-303 *)
Definition n20_x509_cert_tbs_content (t : option tbs) : cmd :=
  match t with
  | None => skip
  | Some t =>
      n20_x509_extension (Some (tbs_exts t)) ;;
      n20_x509_public_key_info (Some (tbs_spki t)) ;;
      n20_x509_name (Some (tbs_subject t)) ;;
      n20_x509_validity (Some (tbs_validity t)) ;;
      n20_x509_name (Some (tbs_issuer t)) ;;
      n20_x509_algorithm_identifier (Some (tbs_sig_alg t)) ;;
      (if sl_size (tbs_serial t) =? 0
       then n20_asn1_uint64 0 n20_asn1_tag_info_no_override
       else n20_asn1_integer (tbs_serial t) false false n20_asn1_tag_info_no_override) ;;
      n20_x509_version_3
  end.

(** src/core/x509.c:305-307 *)
Definition n20_x509_cert_tbs (t : option tbs) : cmd :=
  n20_asn1_sequence (Some (n20_x509_cert_tbs_content t)) n20_asn1_tag_info_no_override.

(** src/core/x509.c:309-317 *)
Definition n20_x509_cert_content (c : option cert) : cmd :=
  match c with
  | None => skip
  | Some c =>
      n20_asn1_bitstring (c_signature c) (c_sig_bits c) n20_asn1_tag_info_no_override ;;
      n20_x509_algorithm_identifier (Some (c_sig_alg c)) ;;
      n20_x509_cert_tbs (c_tbs c)
  end.

(** src/core/x509.c:319-321 *)
Definition n20_x509_cert (c : option cert) : cmd :=
  n20_asn1_sequence (Some (n20_x509_cert_content c)) n20_asn1_tag_info_no_override.

End WithEnv.
