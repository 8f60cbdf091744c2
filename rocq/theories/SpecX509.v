(** X.509 certificates (RFC 5280) and their extensions, independent of the model: what a certificate says, and a strict
    DER reader that recovers it. At the end, the fields denoted by the C structures. *)
From Coq Require Import List NArith ZArith Bool Strings.Byte.
From Verif Require Import Base Stream SpecStream SpecDigits SpecDer Asn1 SpecAsn1 Oid X509 X509Ext.
Import ListNotations.
Open Scope N_scope.

(** ** Reader combinators *)
Definition bind {A B} (a : option A) (f : A -> option B) : option B :=
  match a with Some x => f x | None => None end.
Notation "'let?' x ':=' a 'in' b" := (bind a (fun x => b)) (at level 200, x pattern, right associativity).

Fixpoint map_opt {A B} (f : A -> option B) (l : list A) : option (list B) :=
  match l with
  | [] => Some []
  | a :: r => let? b := f a in let? r' := map_opt f r in Some (b :: r')
  end.

(** Exactly one data value and nothing behind it. *)
Definition read_one (bs : list byte) : option tlv :=
  match read_tlv bs with Some (t, []) => Some t | _ => None end.
(** The content of a data value of the given class, form and tag. *)
Definition expect (class : N) (constructed : bool) (tag : N) (t : tlv) : option (list byte) :=
  if (t_class t =? class) && Bool.eqb (t_constructed t) constructed && (t_tag t =? tag) then Some (t_content t) else None.

Definition get_sequence (t : tlv) : option (list tlv) := let? c := expect 0 true 16 t in read_tlvs c.
Definition get_set (t : tlv) : option (list tlv) := let? c := expect 0 true 17 t in read_tlvs c.
Definition get_int (t : tlv) : option Z := let? c := expect 0 false 2 t in read_int c.
Definition get_bits (t : tlv) : option (list bool) := let? c := expect 0 false 3 t in read_bits c.
Definition get_octets (t : tlv) : option (list byte) := expect 0 false 4 t.
Definition get_oid (t : tlv) : option (list N) := let? c := expect 0 false 6 t in read_oid c.
Definition get_utf8 (t : tlv) : option (list byte) := expect 0 false 12 t.
Definition get_printable (t : tlv) : option (list byte) := expect 0 false 19 t.
Definition get_time (t : tlv) : option (list byte) := expect 0 false 24 t.
(** [n] EXPLICIT *)
Definition get_explicit (n : N) (t : tlv) : option tlv := let? c := expect 2 true n t in read_one c.

(** ** Certificates *)
Inductive params := NoParams | NullParams | CurveParams (curve : list N).
Record alg_fields := AlgFields { af_oid : list N; af_params : params }.
(** One attribute per relative distinguished name: type and value. *)
Definition attribute := (list N * list byte)%type.
Record ext_fields := ExtFields { xf_oid : list N; xf_critical : bool; xf_value : list byte }.
Record tbs_fields := TbsFields {
  tf_version : Z;
  tf_serial : Z;
  tf_sig_alg : alg_fields;
  tf_issuer : list attribute;
  tf_not_before : list byte;
  tf_not_after : list byte;
  tf_subject : list attribute;
  tf_key_alg : alg_fields;
  tf_key : list bool;
  tf_exts : list ext_fields
}.
Record cert_fields := CertFields { cf_tbs : tbs_fields; cf_sig_alg : alg_fields; cf_signature : list bool }.

(** AlgorithmIdentifier ::= SEQUENCE { algorithm OBJECT IDENTIFIER, parameters ANY OPTIONAL } *)
Definition parse_alg (t : tlv) : option alg_fields :=
  let? ts := get_sequence t in
  match ts with
  | [o] => let? a := get_oid o in Some (AlgFields a NoParams)
  | [o; p] =>
      let? a := get_oid o in
      if (t_tag p =? 5) then let? c := expect 0 false 5 p in match c with [] => Some (AlgFields a NullParams) | _ => None end
      else let? c := get_oid p in Some (AlgFields a (CurveParams c))
  | _ => None
  end.

(** RelativeDistinguishedName ::= SET OF SEQUENCE { type OBJECT IDENTIFIER, value PrintableString }, one per set *)
Definition parse_attribute (t : tlv) : option attribute :=
  let? ss := get_set t in
  match ss with
  | [s] =>
      let? ts := get_sequence s in
      match ts with
      | [o; v] => let? a := get_oid o in let? b := get_printable v in Some (a, b)
      | _ => None
      end
  | _ => None
  end.
(** Name ::= SEQUENCE OF RelativeDistinguishedName *)
Definition parse_name (t : tlv) : option (list attribute) :=
  let? ts := get_sequence t in map_opt parse_attribute ts.

(** Validity ::= SEQUENCE { notBefore GeneralizedTime, notAfter GeneralizedTime } *)
Definition parse_validity (t : tlv) : option (list byte * list byte) :=
  let? ts := get_sequence t in
  match ts with
  | [b; a] => let? nb := get_time b in let? na := get_time a in Some (nb, na)
  | _ => None
  end.

(** SubjectPublicKeyInfo ::= SEQUENCE { AlgorithmIdentifier, BIT STRING } *)
Definition parse_spki (t : tlv) : option (alg_fields * list bool) :=
  let? ts := get_sequence t in
  match ts with
  | [a; k] => let? alg := parse_alg a in let? key := get_bits k in Some (alg, key)
  | _ => None
  end.

(** Extension ::= SEQUENCE { extnID, critical BOOLEAN DEFAULT FALSE, extnValue OCTET STRING }. DER forbids encoding the
    default. *)
Definition parse_ext (t : tlv) : option ext_fields :=
  let? ts := get_sequence t in
  match ts with
  | [o; v] => let? a := get_oid o in let? b := get_octets v in Some (ExtFields a false b)
  | [o; c; v] =>
      let? a := get_oid o in
      let? k := expect 0 false 1 c in
      let? critical := read_bool k in
      let? b := get_octets v in
      if critical then Some (ExtFields a true b) else None
  | _ => None
  end.
(** [3] EXPLICIT SEQUENCE SIZE (1..MAX) OF Extension *)
Definition parse_exts (t : tlv) : option (list ext_fields) :=
  let? s := get_explicit 3 t in
  let? ts := get_sequence s in
  match ts with [] => None | _ => map_opt parse_ext ts end.

(** Version is [0] EXPLICIT INTEGER; the integer 2 means v3. Unique identifiers are not supported. *)
Definition parse_tbs (t : tlv) : option tbs_fields :=
  let? ts := get_sequence t in
  match ts with
  | v :: n :: g :: i :: d :: s :: k :: es =>
      let? v' := get_explicit 0 v in
      let? version := get_int v' in
      let? serial := get_int n in
      let? sig_alg := parse_alg g in
      let? issuer := parse_name i in
      let? (nb, na) := parse_validity d in
      let? subject := parse_name s in
      let? (kalg, key) := parse_spki k in
      let? exts := match es with [] => Some [] | [e] => parse_exts e | _ => None end in
      Some (TbsFields (version + 1) serial sig_alg issuer nb na subject kalg key exts)
  | _ => None
  end.

(** Certificate ::= SEQUENCE { TBSCertificate, AlgorithmIdentifier, BIT STRING } *)
Definition parse_cert (t : tlv) : option cert_fields :=
  let? ts := get_sequence t in
  match ts with
  | [b; a; s] =>
      let? tf := parse_tbs b in let? alg := parse_alg a in let? sig := get_bits s in Some (CertFields tf alg sig)
  | _ => None
  end.

Definition read_tbs (bs : list byte) : option tbs_fields := let? t := read_one bs in parse_tbs t.
Definition read_cert (bs : list byte) : option cert_fields := let? t := read_one bs in parse_cert t.
Definition read_name (bs : list byte) : option (list attribute) := let? t := read_one bs in parse_name t.
(** The bytes of the first element of a certificate: what the signature covers. *)
Definition cert_signed_part (bs : list byte) : option (list byte) :=
  match read_tlv bs with
  | Some (t, []) =>
      let? c := expect 0 true 16 t in
      let? (_, rest) := read_tlv c in Some (takeN (len c - len rest) c)
  | _ => None
  end.

(** ** Extensions *)

(** BasicConstraints ::= SEQUENCE { cA BOOLEAN DEFAULT FALSE, pathLenConstraint INTEGER OPTIONAL } *)
Definition parse_basic_constraints (t : tlv) : option (bool * option Z) :=
  let? ts := get_sequence t in
  match ts with
  | [] => Some (false, None)
  | c :: r =>
      let? k := expect 0 false 1 c in
      let? ca := read_bool k in
      if ca then
        match r with
        | [] => Some (true, None)
        | [p] => let? n := get_int p in Some (true, Some n)
        | _ => None
        end
      else None
  end.
Definition read_basic_constraints (bs : list byte) := let? t := read_one bs in parse_basic_constraints t.

(** KeyUsage ::= BIT STRING with named bits; DER drops trailing zero bits (X.690 11.2.2). *)
Definition read_key_usage (bs : list byte) : option (list bool) :=
  let? t := read_one bs in
  let? bits := get_bits t in
  match rev bits with false :: _ => None | _ => Some bits end.

(** Bit numbers of the named bits (RFC 5280 4.2.1.3). *)
Definition key_usage_bit (f : key_usage_flag) : nat :=
  match f with
  | KU_digital_signature => 0 | KU_content_commitment => 1 | KU_key_encipherment => 2 | KU_data_encipherment => 3
  | KU_key_agreement => 4 | KU_key_cert_sign => 5 | KU_crl_sign => 6 | KU_encipher_only => 7 | KU_decipher_only => 8
  end.
(** TCG DICE Attestation Architecture 1.1, 6.1.1: OperationalFlags. *)
Definition operational_flag_bit (f : operational_flag) : nat :=
  match f with
  | OF_not_configured => 0 | OF_not_secure => 1 | OF_recovery => 2 | OF_debug => 3 | OF_not_replay_protected => 4
  | OF_not_integrity_protected => 5 | OF_not_runtime_measured => 6 | OF_not_immutable => 7 | OF_not_tcb => 8
  | OF_fixed_width => 31
  end.

(** Takes the first data value if it has context tag [n]; [f] reads it. *)
Definition opt_field {A} (n : N) (f : tlv -> option A) (ts : list tlv) : option (option A * list tlv) :=
  match ts with
  | t :: r => if (t_class t =? 2) && (t_tag t =? n) then let? a := f t in Some (Some a, r) else Some (None, ts)
  | [] => Some (None, [])
  end.

(** Open profile for DICE: [SEQUENCE] of eight EXPLICIT fields, in ascending order. *)
Record open_dice_fields := OpenDiceFields {
  odf_code_hash : option (list byte);
  odf_code_descriptor : option (list byte);
  odf_configuration_hash : option (list byte);
  odf_configuration_descriptor : option (list byte);
  odf_authority_hash : option (list byte);
  odf_authority_descriptor : option (list byte);
  odf_mode : option Z;
  odf_profile_name : option (list byte)
}.
Definition parse_open_dice (t : tlv) : option open_dice_fields :=
  let exp {A} n (f : tlv -> option A) := fun t => let? x := get_explicit n t in f x in
  let? ts := get_sequence t in
  let? (f0, ts) := opt_field 0 (exp 0 get_octets) ts in
  let? (f1, ts) := opt_field 1 (exp 1 get_octets) ts in
  let? (f2, ts) := opt_field 2 (exp 2 get_octets) ts in
  let? (f3, ts) := opt_field 3 (exp 3 get_octets) ts in
  let? (f4, ts) := opt_field 4 (exp 4 get_octets) ts in
  let? (f5, ts) := opt_field 5 (exp 5 get_octets) ts in
  let? (f6, ts) := opt_field 6 (exp 6 get_int) ts in
  let? (f7, ts) := opt_field 7 (exp 7 get_utf8) ts in
  match ts with [] => Some (OpenDiceFields f0 f1 f2 f3 f4 f5 f6 f7) | _ => None end.
Definition read_open_dice (bs : list byte) := let? t := read_one bs in parse_open_dice t.

(** TCG DICE attestation architecture: DiceTcbInfo, IMPLICIT fields in ascending order. *)
Record tcb_fields := TcbFields {
  tcf_vendor : option (list byte);
  tcf_model : option (list byte);
  tcf_version : option (list byte);
  tcf_svn : option Z;
  tcf_layer : option Z;
  tcf_index : option Z;
  tcf_fwids : option (list (list N * list byte));
  tcf_flags : option (list bool);
  tcf_vendor_info : option (list byte);
  tcf_type : option (list byte);
  tcf_flags_mask : option (list bool)
}.
(** FWID ::= SEQUENCE { hashAlg OBJECT IDENTIFIER, digest OCTET STRING } *)
Definition parse_fwid (t : tlv) : option (list N * list byte) :=
  let? ts := get_sequence t in
  match ts with
  | [o; d] => let? a := get_oid o in let? b := get_octets d in Some (a, b)
  | _ => None
  end.
Definition parse_tcb (t : tlv) : option tcb_fields :=
  let? ts := get_sequence t in
  let? (f0, ts) := opt_field 0 (expect 2 false 0) ts in
  let? (f1, ts) := opt_field 1 (expect 2 false 1) ts in
  let? (f2, ts) := opt_field 2 (expect 2 false 2) ts in
  let? (f3, ts) := opt_field 3 (fun t => let? c := expect 2 false 3 t in read_int c) ts in
  let? (f4, ts) := opt_field 4 (fun t => let? c := expect 2 false 4 t in read_int c) ts in
  let? (f5, ts) := opt_field 5 (fun t => let? c := expect 2 false 5 t in read_int c) ts in
  let? (f6, ts) := opt_field 6 (fun t => let? c := expect 2 true 6 t in let? l := read_tlvs c in map_opt parse_fwid l) ts in
  let? (f7, ts) := opt_field 7 (fun t => let? c := expect 2 false 7 t in read_bits c) ts in
  let? (f8, ts) := opt_field 8 (expect 2 false 8) ts in
  let? (f9, ts) := opt_field 9 (expect 2 false 9) ts in
  let? (f10, ts) := opt_field 10 (fun t => let? c := expect 2 false 10 t in read_bits c) ts in
  match ts with [] => Some (TcbFields f0 f1 f2 f3 f4 f5 f6 f7 f8 f9 f10) | _ => None end.
Definition read_tcb (bs : list byte) := let? t := read_one bs in parse_tcb t.
Definition read_multi_tcb (bs : list byte) : option (list tcb_fields) :=
  let? t := read_one bs in let? ts := get_sequence t in map_opt parse_tcb ts.

(** SEQUENCE { OCTET STRING } (UEID and TCB freshness) *)
Definition read_octets_in_sequence (bs : list byte) : option (list byte) :=
  let? t := read_one bs in
  let? ts := get_sequence t in
  match ts with [o] => get_octets o | _ => None end.

(** ** What the C structures denote *)

(** Object identifiers that the library can render faithfully (property C19). *)
Definition oid_encodable (o : oid) : Prop :=
  oid_ok o /\ 2 <= oid_elem_count o <= 10 /\ oid_valid (oid_arcs o) /\ 40 * oid_element o 0 + oid_element o 1 < 128.
Definition oid_given (o : option oid) : Prop := match o with Some o => oid_encodable o | None => False end.
Definition arcs_of (o : option oid) : list N := match o with Some o => oid_arcs o | None => [] end.

(** Two lower-case hexadecimal digits per byte. *)
Definition hex_digit (n : N) : byte := n2b (if n <? 10 then 48 + n else 87 + n).
Definition hex_lower (bs : list byte) : list byte := flat_map (fun b => [hex_digit (b2n b / 16); hex_digit (b2n b mod 16)]) bs.

(** id-at-serialNumber *)
Definition serial_number_arcs : list N := [2; 5; 4; 5].
Definition attribute_of (r : rdn) : attribute :=
  (arcs_of (rdn_type r),
   if list_eq_dec N.eq_dec (arcs_of (rdn_type r)) serial_number_arcs
   then hex_lower (slice_bytes (rdn_value r)) else slice_bytes (rdn_value r)).
Definition name_of (n : name) : list attribute := map attribute_of (takeN (name_count n) (name_elements n)).

Definition alg_of (a : algorithm_identifier) : alg_fields :=
  AlgFields (arcs_of (alg_oid a))
    match alg_parameters a with
    | pv_none | pv_other => NoParams
    | pv_null => NullParams
    | pv_ec_curve c => CurveParams (arcs_of c)
    end.

(** [values] are the contents rendered by the callbacks. *)
Definition ext_of (x : extension) (value : list byte) : ext_fields := ExtFields (arcs_of (ext_oid x)) (ext_critical x) value.
Definition used_exts (x : extensions) : list extension :=
  match exts_list x with Some l => takeN (exts_count x) l | None => [] end.
Definition exts_of (x : extensions) (values : list (list byte)) : list ext_fields :=
  map (fun p => ext_of (fst p) (snd p)) (combine (used_exts x) values).

(** The bits a bit string argument denotes. *)
Definition key_bits (b : ptr) (bits : N) : list bool :=
  match b with None => [] | Some d => takeN bits (bits_of_bytes d) end.

(** "99991231235959Z" and "19700101000000Z" (RFC 5280 4.1.2.5 and the library's documentation). *)
Definition text_no_expiration : list byte := bytes [57; 57; 57; 57; 49; 50; 51; 49; 50; 51; 53; 57; 53; 57; 90].
Definition text_epoch : list byte := bytes [49; 57; 55; 48; 48; 49; 48; 49; 48; 48; 48; 48; 48; 48; 90].
Definition time_or (s : slice) (dflt : list byte) : list byte := match sl_buf s with Some _ => slice_bytes s | None => dflt end.

Definition tbs_of (t : tbs) (values : list (list byte)) : tbs_fields :=
  TbsFields 3 (Z.of_N (be_val (slice_bytes (tbs_serial t)))) (alg_of (tbs_sig_alg t)) (name_of (tbs_issuer t))
    (time_or (v_not_before (tbs_validity t)) text_epoch) (time_or (v_not_after (tbs_validity t)) text_no_expiration)
    (name_of (tbs_subject t)) (alg_of (spki_alg (tbs_spki t))) (key_bits (spki_key (tbs_spki t)) (spki_bits (tbs_spki t)))
    (exts_of (tbs_exts t) values).
Definition cert_of (t : tbs) (c : cert) (values : list (list byte)) : cert_fields :=
  CertFields (tbs_of t values) (alg_of (c_sig_alg c)) (key_bits (c_signature c) (c_sig_bits c)).

(** Preconditions: pointers and counts are consistent, object identifiers can be rendered. *)
Definition rdn_ok `{Env} (r : rdn) : Prop := oid_given (rdn_type r) /\ slice_ok (rdn_value r).
Definition name_ok `{Env} (n : name) : Prop :=
  name_count n <= 8 /\ name_count n <= len (name_elements n) /\ Forall rdn_ok (takeN (name_count n) (name_elements n)).
Definition alg_ok (a : algorithm_identifier) : Prop :=
  oid_given (alg_oid a) /\ match alg_parameters a with pv_ec_curve c => oid_given c | _ => True end.
(** A bit string argument: enough readable bits, and few enough for the size computation in size_t. *)
Definition bitstring_ok `{Env} (b : ptr) (bits : N) : Prop :=
  match b with None => True | Some d => bits <= 8 * len d /\ bits + 7 < SZ end.
Definition exts_ok (x : extensions) : Prop :=
  match exts_list x with None => True | Some l => exts_count x <= len l end /\
  Forall (fun e => oid_given (ext_oid e)) (used_exts x).
(** The callbacks render [values] (a NULL callback renders nothing). *)
Definition callbacks `{Env} (allowed : ub -> Prop) (xs : list extension) (values : list (list byte)) : Prop :=
  Forall2 (fun x v => match ext_content_cb x with Some f => renders allowed f v | None => v = [] end) xs values.
Definition tbs_ok `{Env} (t : tbs) : Prop :=
  slice_ok (tbs_serial t) /\ (sl_size (tbs_serial t) = 0 \/ sl_buf (tbs_serial t) <> None) /\
  alg_ok (tbs_sig_alg t) /\ name_ok (tbs_issuer t) /\
  slice_ok (v_not_before (tbs_validity t)) /\ slice_ok (v_not_after (tbs_validity t)) /\
  name_ok (tbs_subject t) /\ alg_ok (spki_alg (tbs_spki t)) /\
  bitstring_ok (spki_key (tbs_spki t)) (spki_bits (tbs_spki t)) /\ exts_ok (tbs_exts t).
Definition cert_ok `{Env} (t : tbs) (c : cert) : Prop :=
  c_tbs c = Some t /\ tbs_ok t /\ alg_ok (c_sig_alg c) /\ bitstring_ok (c_signature c) (c_sig_bits c).

(** A sizing pass (NULL buffer) reports no write position overflow: the output is shorter than the range of size_t. *)
Definition sizing_succeeds `{Env} (f : cmd) : Prop :=
  n20_stream_has_write_position_overflow (w_stream (f (mkWorld (Some (n20_stream_init None 0)) []))) = false.

(** A slice with a NULL buffer is an absent field. *)
Definition opt_bytes (s : slice) : option (list byte) := match sl_buf s with Some _ => Some (slice_bytes s) | None => None end.
Definition open_dice_of (o : open_dice_input) : open_dice_fields :=
  OpenDiceFields (opt_bytes (od_code_hash o)) (opt_bytes (od_code_descriptor o)) (opt_bytes (od_configuration_hash o))
    (opt_bytes (od_configuration_descriptor o)) (opt_bytes (od_authority_hash o)) (opt_bytes (od_authority_descriptor o))
    (Some (Z.of_N (od_mode o))) (opt_bytes (od_profile_name o)).
Definition open_dice_ok `{Env} (o : open_dice_input) : Prop :=
  slice_ok (od_code_hash o) /\ slice_ok (od_code_descriptor o) /\ slice_ok (od_configuration_hash o) /\
  slice_ok (od_configuration_descriptor o) /\ slice_ok (od_authority_hash o) /\ slice_ok (od_authority_descriptor o) /\
  od_mode o < 2 ^ 64 /\ slice_ok (od_profile_name o).

Definition fwid_of (f : fwid) : list N * list byte := (oid_arcs (fw_algo f), slice_bytes (fw_digest f)).
Definition tcb_of (t : tcb_info) : tcb_fields :=
  TcbFields (opt_bytes (ti_vendor t)) (opt_bytes (ti_model t)) (opt_bytes (ti_version t))
    (Some (ti_svn t)) (Some (ti_layer t)) (Some (ti_index t))
    match ti_fwids t with Some l => Some (map fwid_of (takeN (ti_fwids_count t) l)) | None => None end
    (Some (bits_of_bytes (ti_flags t))) (opt_bytes (ti_vendor_info t)) (opt_bytes (ti_type_ t))
    (Some (bits_of_bytes (ti_flags_mask t))).
Definition int64_ok (z : Z) : Prop := (- 2 ^ 63 <= z < 2 ^ 63)%Z.
Definition tcb_ok `{Env} (t : tcb_info) : Prop :=
  slice_ok (ti_vendor t) /\ slice_ok (ti_model t) /\ slice_ok (ti_version t) /\
  int64_ok (ti_svn t) /\ int64_ok (ti_layer t) /\ int64_ok (ti_index t) /\
  match ti_fwids t with
  | Some l => ti_fwids_count t <= len l /\
              Forall (fun f => oid_encodable (fw_algo f) /\ slice_ok (fw_digest f)) (takeN (ti_fwids_count t) l)
  | None => True
  end /\
  len (ti_flags t) = 4 /\ len (ti_flags_mask t) = 4 /\ slice_ok (ti_vendor_info t) /\ slice_ok (ti_type_ t).
