(** Properties C26-C28: certificates. The vocabulary is explained at the head of PropX509.v. *)
From Coq Require Import List NArith ZArith Bool Strings.Byte Lia.
From Coq Require Import ZifyBool ZifyNat ZifyN.
From Verif Require Import Base BaseFacts Stream SpecStream StreamProofs SpecDigits SpecDer DerFacts Asn1 SpecAsn1 Asn1Proofs
  Oid X509 X509Ext SpecX509 RendProofs X509Facts X509Proofs PropX509.
Import ListNotations.
Open Scope N_scope.

(** Undefined behaviour allowed in the callbacks is allowed in the certificate. The integer writer may read one byte
    outside its input when the number is zero (property C17): either this is tolerated ([stray_reads] allowed), or the
    serial number is not zero. *)
Definition serial_allowed (allowed : ub -> Prop) (t : tbs) : Prop :=
  (forall u, stray_reads u -> allowed u) \/ be_val (slice_bytes (tbs_serial t)) <> 0.

(** ** C26 *)
Theorem C26_tbs_round_trip : forall (E : Env) allowed t vs,
  tbs_ok t -> callbacks allowed (used_exts (tbs_exts t)) vs -> serial_allowed allowed t ->
  sizing_succeeds (n20_x509_cert_tbs (Some t)) ->
  exists b, renders allowed (n20_x509_cert_tbs (Some t)) b /\ len b < SZ /\ read_tbs b = Some (tbs_of t vs).
Proof.
  intros E allowed t vs Ht Hv Hu Hs. destruct (rend_sized _ _ _ (rend_tbs allowed t vs Ht Hv Hu) Hs) as [HR HL].
  eexists. splits; [exact HR|exact HL|]. apply read_tbs_enc; [now apply tbs_of_ok|now apply small_SZ].
Qed.
Print Assumptions C26_tbs_round_trip.

Theorem C26_cert_round_trip : forall (E : Env) allowed t c vs,
  cert_ok t c -> callbacks allowed (used_exts (tbs_exts t)) vs -> serial_allowed allowed t ->
  sizing_succeeds (n20_x509_cert (Some c)) ->
  exists b, renders allowed (n20_x509_cert (Some c)) b /\ len b < SZ /\ read_cert b = Some (cert_of t c vs).
Proof.
  intros E allowed t c vs Ht Hv Hu Hs. destruct (rend_sized _ _ _ (rend_cert allowed t c vs Ht Hv Hu) Hs) as [HR HL].
  eexists. splits; [exact HR|exact HL|]. apply read_cert_enc; [now apply cert_of_ok|now apply small_SZ].
Qed.
Print Assumptions C26_cert_round_trip.

(** NULL structures give empty sequences. *)
Theorem C26_null : forall (E : Env),
  renders clean (n20_x509_cert_tbs None) [x30; x00] /\ renders clean (n20_x509_cert None) [x30; x00].
Proof.
  intro E. pose proof SZ_lo.
  split; apply (sequence_renders clean (Some skip) [] n20_asn1_tag_info_no_override); try apply renders_skip;
    change (len _) with 0; lia.
Qed.
Print Assumptions C26_null.

(** ** C27 *)
(** The certificate and its TBS part are rendered by separate calls, on any streams. *)
Theorem C27_signed_is_shipped : forall (E : Env) allowed t c vs,
  cert_ok t c -> callbacks allowed (used_exts (tbs_exts t)) vs -> serial_allowed allowed t ->
  sizing_succeeds (n20_x509_cert (Some c)) ->
  exists whole part, renders allowed (n20_x509_cert (Some c)) whole /\ renders allowed (n20_x509_cert_tbs (Some t)) part /\
    cert_signed_part whole = Some part.
Proof.
  intros E allowed t c vs Hc Hv Hu Hs. destruct (rend_sized _ _ _ (rend_cert allowed t c vs Hc Hv Hu) Hs) as [HR HL].
  destruct Hc as (_ & Ht & _).
  exists (enc_tlv (tlv_cert (cert_of t c vs))), (enc_tlv (tlv_tbs (tbs_of t vs))). splits; [exact HR| |].
  - apply (rend_small _ _ _ (rend_tbs allowed t vs Ht Hv Hu)).
    eapply N.lt_trans; [|exact HL]. unfold tlv_cert. cbn [cert_of cf_tbs].
    pose proof (len_enc_tlv (tlv_sequence (enc_tlvs [tlv_tbs (tbs_of t vs); tlv_alg (cf_sig_alg (cert_of t c vs));
      tlv_bitstring (enc_bits (cf_signature (cert_of t c vs)))]))) as [_ H1].
    cbn [t_content tlv_sequence] in H1. rewrite enc_tlvs_cons in *.
    rewrite len_app in H1. eapply N.le_lt_trans; [|exact H1]. apply N.le_add_r.
  - apply cert_signed_part_enc; [reflexivity|now apply small_SZ].
Qed.
Print Assumptions C27_signed_is_shipped.

(** Hence two certificates over the same TBS, with any signatures, contain the same signed bytes. *)
Theorem C27_signature_independent : forall (E : Env) allowed t c1 c2 vs,
  cert_ok t c1 -> cert_ok t c2 -> callbacks allowed (used_exts (tbs_exts t)) vs -> serial_allowed allowed t ->
  sizing_succeeds (n20_x509_cert (Some c1)) -> sizing_succeeds (n20_x509_cert (Some c2)) ->
  exists b1 b2, renders allowed (n20_x509_cert (Some c1)) b1 /\ renders allowed (n20_x509_cert (Some c2)) b2 /\
    cert_signed_part b1 = cert_signed_part b2 /\ cert_signed_part b1 <> None.
Proof.
  intros E allowed t c1 c2 vs H1 H2 Hv Hu S1 S2.
  destruct (C27_signed_is_shipped E allowed t c1 vs H1 Hv Hu S1) as (b1 & p1 & R1 & P1 & G1).
  destruct (rend_sized _ _ _ (rend_cert allowed t c1 vs H1 Hv Hu) S1) as [R1' L1].
  destruct (rend_sized _ _ _ (rend_cert allowed t c2 vs H2 Hv Hu) S2) as [R2' L2].
  do 2 eexists. splits; [exact R1'|exact R2'| |];
    unfold tlv_cert in *; rewrite !cert_signed_part_enc by (reflexivity || now apply small_SZ); [reflexivity|discriminate].
Qed.
Print Assumptions C27_signature_independent.

(** ** C28 *)
(** The fields, with the names as the caller gave them. *)
Definition raw_tbs (t : tbs) (vs : list (list byte)) :=
  (tbs_of t vs, raw_elements (tbs_issuer t), raw_elements (tbs_subject t)).

Theorem C28_tbs_unambiguous : forall (E : Env) allowed t1 t2 vs1 vs2 b,
  tbs_ok t1 -> tbs_ok t2 -> callbacks allowed (used_exts (tbs_exts t1)) vs1 -> callbacks allowed (used_exts (tbs_exts t2)) vs2 ->
  serial_allowed allowed t1 -> serial_allowed allowed t2 -> len b < SZ ->
  renders allowed (n20_x509_cert_tbs (Some t1)) b -> renders allowed (n20_x509_cert_tbs (Some t2)) b ->
  raw_tbs t1 vs1 = raw_tbs t2 vs2.
Proof.
  intros E allowed t1 t2 vs1 vs2 b H1 H2 V1 V2 U1 U2 Hb R1 R2.
  destruct (C26_tbs_round_trip E allowed t1 vs1 H1 V1 U1) as (b1 & R1' & _ & P1); [now apply (sizing_spec allowed _ b R1)|].
  destruct (C26_tbs_round_trip E allowed t2 vs2 H2 V2 U2) as (b2 & R2' & _ & P2); [now apply (sizing_spec allowed _ b R2)|].
  rewrite <- (renders_det _ _ _ _ _ Hb R1 R1') in P1. rewrite <- (renders_det _ _ _ _ _ Hb R2 R2') in P2.
  assert (HE : tbs_of t1 vs1 = tbs_of t2 vs2) by congruence. unfold raw_tbs.
  rewrite HE, (name_of_raw (tbs_issuer t1) (tbs_issuer t2)), (name_of_raw (tbs_subject t1) (tbs_subject t2)); [reflexivity| |].
  - exact (f_equal tf_subject HE).
  - exact (f_equal tf_issuer HE).
Qed.
Print Assumptions C28_tbs_unambiguous.

(** The same for certificates including their signatures. *)
Theorem C28_cert_unambiguous : forall (E : Env) allowed t1 t2 c1 c2 vs1 vs2 b,
  cert_ok t1 c1 -> cert_ok t2 c2 ->
  callbacks allowed (used_exts (tbs_exts t1)) vs1 -> callbacks allowed (used_exts (tbs_exts t2)) vs2 ->
  serial_allowed allowed t1 -> serial_allowed allowed t2 -> len b < SZ ->
  renders allowed (n20_x509_cert (Some c1)) b -> renders allowed (n20_x509_cert (Some c2)) b ->
  cert_of t1 c1 vs1 = cert_of t2 c2 vs2.
Proof.
  intros E allowed t1 t2 c1 c2 vs1 vs2 b H1 H2 V1 V2 U1 U2 Hb R1 R2.
  destruct (C26_cert_round_trip E allowed t1 c1 vs1 H1 V1 U1) as (b1 & R1' & _ & P1); [now apply (sizing_spec allowed _ b R1)|].
  destruct (C26_cert_round_trip E allowed t2 c2 vs2 H2 V2 U2) as (b2 & R2' & _ & P2); [now apply (sizing_spec allowed _ b R2)|].
  rewrite <- (renders_det _ _ _ _ _ Hb R1 R1') in P1. rewrite <- (renders_det _ _ _ _ _ Hb R2 R2') in P2. congruence.
Qed.
Print Assumptions C28_cert_unambiguous.

(** ** A concrete certificate, for C26-C28 *)
#[local] Existing Instance env64.

Definition example_tbs : tbs :=
  mkTbs (slice_of (bytes [0x00; 0x01; 0xff])) (mkAlg (Some OID_ED25519) pv_none) example_name
    (mkValidity slice_null (slice_of text_epoch)) example_name
    (mkSpki (mkAlg (Some OID_EC_PUBLIC_KEY) (pv_ec_curve (Some OID_SECP256R1))) 12 (Some (bytes [0xab; 0xcd])))
    example_exts.
Definition example_cert : cert := mkCert (Some example_tbs) (mkAlg (Some OID_ED25519) pv_null) 8 (Some (bytes [0x5a])).
Definition example_values : list (list byte) := [bytes [0x30; 0x00]; []].

Lemma example_cert_ok : @cert_ok env64 example_tbs example_cert.
Proof.
  pose proof example_name_ok. pose proof example_exts_ok.
  assert (A : forall o, encodable_b o = true -> oid_given (Some o)) by apply oid_given_example.
  assert (V : forall bs, len bs < 2 ^ 32 -> slice_ok (slice_of bs)).
  { intros bs Hb. split; [cbn [slice_of sl_size]; eapply N.lt_le_trans; [exact Hb|vm_compute; congruence]|apply N.le_refl]. }
  split; [reflexivity|]. split; [|split].
  - unfold tbs_ok, example_tbs. cbn [tbs_serial tbs_sig_alg tbs_issuer tbs_validity
        tbs_subject tbs_spki tbs_exts v_not_before v_not_after spki_alg spki_key spki_bits].
    splits; try assumption; try (apply V; vm_compute; reflexivity).
    + right. discriminate.
    + split; [apply A; vm_compute; reflexivity|exact I].
    + split; [vm_compute; reflexivity|exact I].
    + split; apply A; vm_compute; reflexivity.
    + split; [vm_compute; congruence|vm_compute; reflexivity].
  - split; [apply A; vm_compute; reflexivity|exact I].
  - split; [vm_compute; congruence|vm_compute; reflexivity].
Qed.

Example C26_example :
  @cert_ok env64 example_tbs example_cert /\
  callbacks clean (used_exts (tbs_exts example_tbs)) example_values /\ serial_allowed clean example_tbs /\
  sizing_succeeds (n20_x509_cert (Some example_cert)) /\
  read_cert (rendered (n20_x509_cert (Some example_cert))) = Some (cert_of example_tbs example_cert example_values) /\
  cert_of example_tbs example_cert example_values =
    CertFields
      (TbsFields 3 511 (AlgFields [1; 3; 101; 112] NoParams)
        [([2; 5; 4; 3], bytes [0x4a; 0x6f]); ([2; 5; 4; 5], bytes [0x30; 0x66; 0x61; 0x31])]
        text_epoch text_epoch
        [([2; 5; 4; 3], bytes [0x4a; 0x6f]); ([2; 5; 4; 5], bytes [0x30; 0x66; 0x61; 0x31])]
        (AlgFields [1; 2; 840; 10045; 2; 1] (CurveParams [1; 2; 840; 10045; 3; 1; 7]))
        [true; false; true; false; true; false; true; true; true; true; false; false]
        [ExtFields [2; 5; 29; 19] true (bytes [0x30; 0x00]); ExtFields [2; 5; 29; 15] false []])
      (AlgFields [1; 3; 101; 112] NullParams) [false; true; false; true; true; false; true; false].
Proof.
  splits; [exact example_cert_ok|exact example_callbacks| |vm_compute; reflexivity|vm_compute; reflexivity|vm_compute; reflexivity].
  right. vm_compute. discriminate.
Qed.

Example C27_example :
  cert_signed_part (rendered (n20_x509_cert (Some example_cert))) = Some (rendered (n20_x509_cert_tbs (Some example_tbs))).
Proof. vm_compute. reflexivity. Qed.
(** Another signature, of another length, over the same part. *)
Example C27_independent_case :
  let c2 := mkCert (Some example_tbs) (mkAlg (Some OID_ED25519) pv_null) 12 (Some (bytes [0xff; 0xf0])) in
  @cert_ok env64 example_tbs c2 /\ sizing_succeeds (n20_x509_cert (Some c2)) /\
  rendered (n20_x509_cert (Some c2)) <> rendered (n20_x509_cert (Some example_cert)) /\
  cert_signed_part (rendered (n20_x509_cert (Some c2))) = cert_signed_part (rendered (n20_x509_cert (Some example_cert))).
Proof.
  cbv zeta. split; [|splits; [vm_compute; reflexivity|vm_compute; discriminate|vm_compute; reflexivity]].
  destruct example_cert_ok as (H1 & H2 & H3 & H4). split; [reflexivity|]. split; [exact H2|]. split; [exact H3|].
  split; [vm_compute; congruence|vm_compute; reflexivity].
Qed.

(** Two structures with the same fields: a leading zero in the serial number, and the default time given explicitly. *)
Example C28_example :
  let t2 := mkTbs (slice_of (bytes [0x01; 0xff])) (tbs_sig_alg example_tbs) (tbs_issuer example_tbs)
    (mkValidity (slice_of text_epoch) (slice_of text_epoch)) (tbs_subject example_tbs) (tbs_spki example_tbs) (tbs_exts example_tbs) in
  rendered (n20_x509_cert_tbs (Some example_tbs)) = rendered (n20_x509_cert_tbs (Some t2)) /\
  raw_tbs example_tbs example_values = raw_tbs t2 example_values.
Proof. split; vm_compute; reflexivity. Qed.
(** Bits behind the signature do not count. *)
Example C28_cert_case :
  let c2 := mkCert (Some example_tbs) (mkAlg (Some OID_ED25519) pv_null) 8 (Some (bytes [0x5a; 0x77])) in
  @cert_ok env64 example_tbs c2 /\ c2 <> example_cert /\
  rendered (n20_x509_cert (Some c2)) = rendered (n20_x509_cert (Some example_cert)) /\
  cert_of example_tbs c2 example_values = cert_of example_tbs example_cert example_values.
Proof.
  cbv zeta. split; [|splits; [discriminate|vm_compute; reflexivity|vm_compute; reflexivity]].
  destruct example_cert_ok as (H1 & H2 & H3 & H4). split; [reflexivity|]. split; [exact H2|]. split; [exact H3|].
  split; [vm_compute; congruence|vm_compute; reflexivity].
Qed.
