(** Property C54: the end-to-end certificate test reaches its end for every secret and issues two certificates with its fields and one signed part
    (src/core/test/x509.cpp:497-891). *)
From Coq Require Import Strings.String.
From Coq Require Import List NArith ZArith Bool Strings.Byte Lia.
From Coq Require Import ZifyBool ZifyNat ZifyN.
From Verif Require Import Base BaseFacts Stream SpecStream StreamProofs SpecDigits DigitsFacts SpecDer DerFacts Asn1 SpecAsn1 Asn1Proofs
  Oid X509 X509Ext SpecX509 RendProofs X509Facts X509Proofs PropX509 PropX509Cert.
From Verif Require Import Res SpecSha2 Crypto SpecMac SpecCrypto PropCrypto Bssl BsslKeys SpecBssl BsslProofs Rfc6979Proofs KeyProofs PropBssl PropKeys
  FailProofs PropKeysFail.
From Verif Require Import Issue PropIssue ConformCore ConformX509.
From Verif Require Import CertTest.
Import ListNotations.
Open Scope N_scope.

(** ** Specification: the fields of the certificates, for a kind of key, with and without a path length, with a public key *)
Section Fields.
#[local] Arguments text s%string.
Definition test_name : list attribute :=
  [([2; 5; 4; 6], text "US"); ([2; 5; 4; 7], text "Scranton"); ([2; 5; 4; 10], text "Dunder Mifflin Paper Company, Inc.");
   ([2; 5; 4; 11], text "Dunder Mifflin Information Security"); ([2; 5; 4; 3], text "Dunder Mifflin DICE Authority")].
(** RFC 8410 3; RFC 5758 3.2 and RFC 5480 2.1.1. *)
Definition test_sig_alg (p : pkey) : alg_fields :=
  AlgFields (match p with Ed25519 _ => [1; 3; 101; 112] | EC P256 _ => [1; 2; 840; 10045; 4; 3; 2] | EC P384 _ => [1; 2; 840; 10045; 4; 3; 3] end) NoParams.
Definition test_key_alg (p : pkey) : alg_fields :=
  match p with
  | Ed25519 _ => AlgFields [1; 3; 101; 112] NoParams
  | EC P256 _ => AlgFields [1; 2; 840; 10045; 2; 1] (CurveParams [1; 2; 840; 10045; 3; 1; 7])
  | EC P384 _ => AlgFields [1; 2; 840; 10045; 2; 1] (CurveParams [1; 3; 132; 0; 34])
  end.
(** digitalSignature and keyCertSign; a CA, with path length 1 or none. Both critical. *)
Definition test_exts (path : bool) : list ext_fields :=
  [ExtFields [2; 5; 29; 15] true (bytes [0x03; 0x02; 0x02; 0x84]);
   ExtFields [2; 5; 29; 19] true (bytes (if path then [0x30; 0x06; 0x01; 0x01; 0xff; 0x02; 0x01; 0x01] else [0x30; 0x03; 0x01; 0x01; 0xff]))].
Definition test_fields (p : pkey) (path : bool) (public : list byte) : tbs_fields :=
  TbsFields 3 1 (test_sig_alg p) test_name (text "19700101000000Z") (text "99991231235959Z") test_name (test_key_alg p) (bits_of_bytes public) (test_exts path).
Definition test_label (i : N) : list byte := text (if i =? 1 then "signing key 1" else "signing key 2").
End Fields.

(** ** The template *)
Definition test_values (path : bool) : list (list byte) := map xf_value (test_exts path).

Lemma test_name_ok (E : Env) : name_ok dunder_mifflin.
Proof.
  pose proof SZ_lo as HSZ.
  assert (HF : Forall rdn_ok (takeN (name_count dunder_mifflin) (name_elements dunder_mifflin))).
  { change (takeN (name_count dunder_mifflin) (name_elements dunder_mifflin)) with (takeN 5 (name_elements dunder_mifflin)).
    cbn [takeN dunder_mifflin N20_X509_NAME name_elements app N.to_nat Pos.to_nat Pos.iter_op firstn].
    assert (A : forall o, encodable_b o = true -> oid_given (Some o)) by apply oid_given_example.
    assert (V : forall bs : list byte, len bs < 64 -> slice_ok (slice_of bs)) by (intros bs Hb; split; [cbn [slice_of sl_size]; lia|apply N.le_refl]).
    repeat (apply Forall_cons; [split; [apply A; vm_compute; reflexivity|apply V; vm_compute; reflexivity]|]). apply Forall_nil. }
  unfold name_ok. splits; try exact HF; vm_compute; try congruence.
Qed.
Lemma test_template_ok (E : Env) row : In row cert_test_values -> tbs_ok (cert_template row).
Proof.
  intro Hin. pose proof SZ_lo as HSZ.
  assert (A : forall o, encodable_b o = true -> oid_given (Some o)) by apply oid_given_example.
  assert (V : slice_ok (mkSlice 0 None)) by (split; [cbn [sl_size]; lia|exact I]).
  assert (G : alg_ok (cp_sig_alg row) /\ alg_ok (cp_key_alg row)).
  { unfold cert_test_values in Hin. repeat (destruct Hin as [<-|Hin]; [split; (split; cbn [cp_sig_alg cp_key_alg alg_oid alg_parameters]; try exact I; apply A; vm_compute; reflexivity)|]).
    destruct Hin. }
  unfold tbs_ok, cert_template. cbn [tbs_serial tbs_sig_alg tbs_issuer tbs_validity tbs_subject tbs_spki tbs_exts v_not_before v_not_after spki_alg spki_key spki_bits].
  splits; try apply test_name_ok; try exact V; try apply G.
  - split; [cbn [slice_of sl_size]; change (len (bytes [1])) with 1; lia|apply N.le_refl].
  - right. discriminate.
  - cbn [bitstring_ok]. exact I.
  - split; [vm_compute; congruence|]. cbn [used_exts]. unfold cert_extensions, used_exts, takeN. cbn [exts_list exts_count N.to_nat Pos.to_nat Pos.iter_op firstn].
    repeat (apply Forall_cons; [cbn [ext_oid]; apply A; vm_compute; reflexivity|]). apply Forall_nil.
Qed.
Lemma test_callbacks (E : Env) (allowed : ub -> Prop) row : (forall u, stray_reads u -> allowed u) \/ cp_has_path_length row = false ->
  callbacks allowed (used_exts (tbs_exts (cert_template row))) (test_values (cp_has_path_length row)).
Proof.
  intro HA. pose proof SZ_lo as HSZ.
  change (used_exts (tbs_exts (cert_template row))) with (cert_extensions row). unfold cert_extensions, test_values, test_exts. cbn [map xf_value].
  assert (S : forall bs : list byte, len bs < 64 -> len bs < SZ) by (intros; lia).
  constructor; [|constructor; [|constructor]]; cbn [ext_content_cb].
  - pose proof (rend_key_usage allowed cert_key_usage) as H. apply rend_small in H; [|apply S; vm_compute; reflexivity].
    replace (bytes [0x03; 0x02; 0x02; 0x84]) with (enc_tlv (tlv_bitstring (enc_bits (takeN (key_usage_bits (b2n (ku_mask0 cert_key_usage)) (b2n (ku_mask1 cert_key_usage)))
      (bits_of_bytes [ku_mask0 cert_key_usage; ku_mask1 cert_key_usage]))))) by (vm_compute; reflexivity). exact H.
  - pose proof (rend_basic_constraints allowed (cert_basic_constraints row)) as H. destruct row as [ty sa ka path]. cbn [cp_has_path_length cert_basic_constraints bc_is_ca bc_has_path_length bc_path_length andb] in *.
    apply rend_small in H; [|destruct HA as [HA|HA]; [now left|now right]|reflexivity|apply S; destruct path; vm_compute; reflexivity].
    replace (bytes (if path then [0x30; 0x06; 0x01; 0x01; 0xff; 0x02; 0x01; 0x01] else [0x30; 0x03; 0x01; 0x01; 0xff]))
      with (enc_tlv (tlv_basic_constraints true (path_of (cert_basic_constraints (mkParams ty sa ka path))))) by (destruct path; vm_compute; reflexivity).
    exact H.
Qed.
Lemma test_serial (E : Env) allowed row : serial_allowed allowed (cert_template row).
Proof. right. vm_compute. discriminate. Qed.
Lemma test_template_fields (E : Env) row p pub : In row cert_test_values -> type_of p = cp_key_type row ->
  with_public (tbs_of (cert_template row) (test_values (cp_has_path_length row))) pub = test_fields p (cp_has_path_length row) pub.
Proof.
  intros Hin Hty. unfold cert_test_values in Hin.
  repeat (destruct Hin as [<-|Hin]; [destruct p as [seed|[] d]; try discriminate Hty; reflexivity|]). destruct Hin.
Qed.

(** ** Its size *)
Lemma len_enc_len_le n : n < 65536 -> len (enc_len n) <= 3.
Proof.
  intro Hn. unfold enc_len. destruct (N.ltb_spec n 128) as [|H]; [lens; lia|]. cbv zeta. rewrite len_cons.
  pose proof (len_digits_le 256 n 2 ltac:(lia) ltac:(lia) Hn) as Hd. unfold len in *. rewrite map_length. lia.
Qed.
Lemma len_tlv_le t : t_tag t < 31 -> len (t_content t) < 65536 -> len (enc_tlv t) <= 4 + len (t_content t).
Proof.
  intros Ht Hc. unfold enc_tlv, enc_ident. destruct (N.ltb_spec (t_tag t) 31); [|lia]. pose proof (len_enc_len_le _ Hc).
  lens. lia.
Qed.
Lemma len_tlv_short t : t_tag t < 31 -> len (t_content t) < 128 -> len (enc_tlv t) = 2 + len (t_content t).
Proof.
  intros Ht Hc. unfold enc_tlv, enc_ident, enc_len. destruct (N.ltb_spec (t_tag t) 31); [|lia]. destruct (N.ltb_spec (len (t_content t)) 128); [|lia]. lens. lia.
Qed.
Lemma len_sequence_le ts : len (enc_tlvs ts) < 65536 -> len (enc_tlv (tlv_sequence (enc_tlvs ts))) <= 4 + len (enc_tlvs ts).
Proof. intro H. now apply (len_tlv_le (tlv_sequence (enc_tlvs ts))). Qed.
Lemma len_bitstring bs : len bs < 127 -> len (enc_tlv (tlv_bitstring (enc_bits (bits_of_bytes bs)))) = 3 + len bs.
Proof.
  intro H. assert (Hc : len (enc_bits (bits_of_bytes bs)) = 1 + len bs) by (unfold enc_bits; rewrite len_cons, pack_bits_of_bytes; reflexivity).
  rewrite len_tlv_short; [cbn [tlv_bitstring t_content]; lia|reflexivity|cbn [tlv_bitstring t_content]; lia].
Qed.
Lemma len_tlvs_cons t ts : len (enc_tlvs (t :: ts)) = len (enc_tlv t) + len (enc_tlvs ts).
Proof. now rewrite enc_tlvs_cons, len_app. Qed.

Lemma test_size (B : Bssl) p q path : signs B -> publishes B -> len (cert_under B q (test_fields p path (public_bytes B p))) <= 675.
Proof.
  intros Hs Hp.
  assert (Hk : len (enc_tlv (tlv_alg (test_key_alg p))) + len (public_bytes B p) <= 115 /\ len (public_bytes B p) <= 97).
  { destruct p as [seed|c d]; cbn [public_bytes].
    - rewrite (proj1 Hp). split; [vm_compute; congruence|lia].
    - destruct (proj2 Hp c d) as (x & y & _ & _ & ->). rewrite len_cons, len_app, !len_be_bytes. destruct c; split; vm_compute; congruence. }
  assert (Hg : forall m, len (signature_bytes B q m) <= 104).
  { intro m. destruct q as [seed|c d]; cbn [signature_bytes].
    - rewrite (proj1 Hs). lia.
    - destruct c; [destruct (proj2 Hs P256 d 1 m) as (r & s & Hr & Hss & ->)|destruct (proj2 Hs P384 d 2 m) as (r & s & Hr & Hss & ->)];
        now apply (der_short _ _ _ Hr Hss). }
  assert (Ha : len (enc_tlv (tlv_alg (test_sig_alg p))) <= 12) by (destruct p as [seed|[] d]; vm_compute; congruence).
  assert (Hn : len (enc_tlv (tlv_name test_name)) = 166) by (vm_compute; reflexivity).
  assert (He : len (enc_tlvs (exts_tlvs (test_exts path))) <= 40) by (destruct path; vm_compute; congruence).
  assert (Hv : len (enc_tlv (tlv_validity (text "19700101000000Z") (text "99991231235959Z"))) = 36) by (vm_compute; reflexivity).
  unfold cert_under. set (signed := enc_tlv (tlv_tbs (test_fields p path (public_bytes B p)))).
  assert (HS : len signed <= 552).
  { unfold signed, tlv_tbs, test_fields. cbn [tf_version tf_serial tf_sig_alg tf_issuer tf_not_before tf_not_after tf_subject tf_key_alg tf_key tf_exts app].
    assert (Hki : len (enc_tlv (tlv_spki (test_key_alg p) (bits_of_bytes (public_bytes B p)))) <= 120).
    { assert (HT : len (t_content (tlv_spki (test_key_alg p) (bits_of_bytes (public_bytes B p)))) <= 118).
      { unfold tlv_spki. cbn [tlv_sequence t_content]. rewrite !len_tlvs_cons, len_bitstring by lia. change (len (enc_tlvs [])) with 0. lia. }
      rewrite len_tlv_short by (reflexivity || lia). lia. }
    match goal with |- len (enc_tlv (tlv_sequence (enc_tlvs ?ts))) <= _ => assert (HT : len (enc_tlvs ts) <= 548);
      [|pose proof (len_sequence_le ts); lia] end.
    rewrite !len_tlvs_cons, Hn, Hv. change (len (enc_tlv (Tlv 2 true 0 _))) with 5. change (len (enc_tlv (tlv_integer (enc_int 1)))) with 3. lia. }
  unfold tlv_cert. cbn [cf_tbs cf_sig_alg cf_signature]. change (tf_sig_alg (test_fields p path (public_bytes B p))) with (test_sig_alg p).
  match goal with |- len (enc_tlv (tlv_sequence (enc_tlvs ?ts))) <= _ => assert (HT : len (enc_tlvs ts) <= 671);
    [|pose proof (len_sequence_le ts); lia] end.
  specialize (Hg signed). rewrite !len_tlvs_cons, len_bitstring by lia. fold signed. change (len (enc_tlvs [])) with 0. lia.
Qed.

(** ** The procedure *)
Lemma get_signing_key (E : Env) (B : Bssl) (A : Allocator) (table : table) cdi ty label secret p :
  no_failure B -> computes_sha2 B -> allocator_ok A -> lookup table 0 = None -> len label < SZ ->
  lookup table cdi = Some (SecretKey secret) -> derived B secret label ty (SigningKey p) ->
  exists n, forall fuel, (n <= fuel)%nat ->
    GetSigningKey fuel (heap_of table) cdi ty label = Ret (heap_of ((fresh (heap_of table), SigningKey p) :: table), fresh (heap_of table)).
Proof.
  intros Hnf Hsha Ha Hnull Hlab Hsec Hder. set (g := mkGather 1 (Some [slice_of label])).
  assert (Hcz : (cdi =? 0) = false) by (destruct (N.eqb_spec cdi 0) as [->|]; [congruence|reflexivity]).
  assert (Hk : handle_key table cdi = Some (SecretKey secret)) by (unfold handle_key; now rewrite Hcz).
  assert (Hok : op_ok (live (heap_of table)) (Kdf true cdi ty (Some g) (Some 0))).
  { split; [right; now rewrite live_lookup, Hsec|now apply label_ok]. }
  assert (Hty : is_none (kind_of ty) = false) by (unfold derived in Hder; destruct (kind_of ty); [reflexivity|contradiction]).
  assert (He : first_error (kdf_errors true (handle_key table cdi) ty (Some g) (Some 0)) = ok_e).
  { unfold kdf_errors. rewrite Hk, Hty. reflexivity. }
  destruct (C49_kdf_succeeds E B A table true cdi ty (Some g) (Some 0) secret (SigningKey p) Hnf Hsha Hok He Hk) as [n Hn].
  { unfold g. now rewrite label_message. }
  exists n. intros fuel Hf. unfold GetSigningKey. fold g. rewrite (Hn fuel Hf). reflexivity.
Qed.
Lemma none_fail (B : Bssl) l : no_failure B -> existsb fails l = false.
Proof. intro H. induction l as [|x l IH]; [reflexivity|]. cbn [existsb]. now rewrite H, IH. Qed.
Lemma test_label_len (E : Env) i : len (test_label i) < SZ.
Proof. pose proof SZ_lo. unfold test_label. assert (HL : len (text (if i =? 1 then "signing key 1" else "signing key 2")) = 13) by (destruct (i =? 1); reflexivity). rewrite HL. lia. Qed.

(** Every instance of the test gets to its end, for every secret, whatever is in its arrays; the heap is as before. The certificates have the fields above, with the
    first public key, around the same signed part; the first is signed with the first key, the second with the second, and they are the same only if the
    signatures are. Undefined behaviour is only met in the encoding of the path length (C17). *)
Theorem C54_cert_encoding : forall (E : Env) (B : Bssl) (A A2 : Allocator) (table : table) test_cdi row p1 p2,
  no_failure B -> computes_sha2 B -> signs B -> publishes B -> allocator_ok A -> allocator_ok A2 -> lookup table 0 = None ->
  0 < len test_cdi < SZ -> In row cert_test_values ->
  derived B test_cdi (test_label 1) (cp_key_type row) (SigningKey p1) -> derived B test_cdi (test_label 2) (cp_key_type row) (SigningKey p2) ->
  let f := test_fields p1 (cp_has_path_length row) (public_bytes B p1) in
  exists n signed cert1 cert2,
    cert_signed_part cert1 = Some signed /\ read_cert cert1 = Some (CertFields f (test_sig_alg p1) (bits_of_bytes (signature_bytes B p1 signed))) /\
    cert_signed_part cert2 = Some signed /\ read_cert cert2 = Some (CertFields f (test_sig_alg p1) (bits_of_bytes (signature_bytes B p2 signed))) /\
    len cert1 <= 675 /\ len cert2 <= 675 /\
    (cert1 = cert2 <-> signature_bytes B p1 signed = signature_bytes B p2 signed) /\
    forall fuel public_key_buffer signature buffer public_key_buffer2 signature2 buffer2, (n <= fuel)%nat ->
      len public_key_buffer = 128 -> len signature = 128 -> len buffer = 2000 -> len public_key_buffer2 = 128 -> len signature2 = 128 -> len buffer2 = 2000 ->
      exists u, Forall stray_reads u /\ (cp_has_path_length row = false -> u = []) /\
        run_cert_test A A2 fuel (heap_of table) test_cdi row public_key_buffer signature buffer public_key_buffer2 signature2 buffer2 =
          Ret (u, heap_of table, Some (cert1, cert2)).
Proof.
  intros E B A A2 table cdi row p1 p2 Hnf Hsha Hs Hp Ha Ha2 Hnull Hcdi Hin Hd1 Hd2 f. pose proof SZ_lo as HSZ.
  set (path := cp_has_path_length row) in *. set (ty := cp_key_type row) in *.
  pose proof (derived_type _ _ _ _ _ Hd1) as Ht1. pose proof (derived_type _ _ _ _ _ Hd2) as Ht2.
  set (allowed := fun u => stray_reads u /\ path = true).
  assert (Htok : tbs_ok (cert_template row)) by now apply test_template_ok.
  assert (Hcb : callbacks allowed (used_exts (tbs_exts (cert_template row))) (test_values path)).
  { apply test_callbacks. fold path. destruct path; [left; intros u Hu; now split|now right]. }
  pose proof (test_serial E allowed row) as Hser.
  pose proof (test_template_fields E row p1 (public_bytes B p1) Hin Ht1) as Hf. fold path in Hf. fold f in Hf.
  (* the keys *)
  destruct (fresh_lookup A table Ha) as [F0 Z0]. set (c := fresh (Allocator := A) (heap_of table)) in *.
  set (T := (c, SecretKey cdi) :: table).
  assert (NT : lookup T 0 = None) by (unfold T; rewrite lookup_cons; destruct (N.eqb_spec c 0); [contradiction|assumption]).
  assert (ST : lookup T c = Some (SecretKey cdi)) by (unfold T; now rewrite lookup_cons, N.eqb_refl).
  destruct (fresh_lookup A T Ha) as [F1 Z1]. set (a := fresh (Allocator := A) (heap_of T)) in *. destruct (fresh_lookup A2 T Ha2) as [F2 Z2]. set (b := fresh (Allocator := A2) (heap_of T)) in *.
  destruct (get_signing_key E B A T c ty (test_label 1) cdi p1 Hnf Hsha Ha NT (test_label_len E 1) ST Hd1) as [n1 G1].
  destruct (get_signing_key E B A2 T c ty (test_label 2) cdi p2 Hnf Hsha Ha2 NT (test_label_len E 2) ST Hd2) as [n2 G2]. fold a in G1. fold b in G2.
  assert (K : forall x p, lookup ((x, SigningKey p) :: T) x = Some (SigningKey p)) by (intros x p; now rewrite lookup_cons, N.eqb_refl).
  assert (KN : forall x p, x <> 0 -> lookup ((x, SigningKey p) :: T) 0 = None) by (intros x p Hx; rewrite lookup_cons; destruct (N.eqb_spec x 0); [contradiction|assumption]).
  assert (KF : forall x p, lookup T x = None -> filter (fun y => negb (fst y =? x)) ((x, SigningKey p) :: T) = T) by (intros x p Hx; now apply filter_new).
  set (cert1 := cert_under B p1 f). set (cert2 := cert_under B p2 f).
  assert (L1 : len cert1 <= 675) by now apply test_size. assert (L2 : len cert2 <= 675) by now apply test_size.
  pose proof (cert_under_signed B p1 f) as LS. fold cert1 in LS.
  pose proof (cert_under_reads E B p1 (cert_template row) (test_values path) (public_bytes B p1) Htok) as R1.
  pose proof (cert_under_reads E B p2 (cert_template row) (test_values path) (public_bytes B p1) Htok) as R2.
  cbv zeta in R1, R2. rewrite Hf in R1, R2. fold cert1 in R1. fold cert2 in R2. destruct R1 as [S1 R1]; [lia|]. destruct R2 as [S2 R2]; [lia|].
  assert (Halg : alg_of (tbs_sig_alg (cert_template row)) = test_sig_alg p1) by (apply (f_equal tf_sig_alg) in Hf; exact Hf).
  rewrite Halg in R1, R2.
  exists (Nat.max n1 n2), (enc_tlv (tlv_tbs f)), cert1, cert2. splits; try assumption.
  { split; intro H.
    - rewrite H in R1. rewrite R1 in R2. injection R2 as R2. apply (f_equal pack_bits) in R2. now rewrite !pack_bits_of_bytes in R2.
    - unfold cert1, cert2, cert_under. now rewrite H. }
  intros fuel pkb sigb buffer pkb2 sigb2 buffer2 Hfuel B1 B2 B3 B4 B5 B6.
  destruct (template_for_ok E B _ a p1 allowed _ _ Hp (K a p1) (KN a p1 Z1) Htok Hcb Hser pkb ltac:(lia)) as (t1 & T1 & Ok1 & Fd1 & Cb1 & Se1).
  rewrite Hf in Fd1. rewrite Hnf in T1.
  destruct (template_for_ok E B _ b p2 allowed _ _ Hp (K b p2) (KN b p2 Z2) Ok1 Cb1 Se1 pkb2 ltac:(lia)) as (t2 & T2 & _). rewrite Hnf in T2.
  destruct (issue_tbs_ok E B _ a p1 allowed t1 _ Hs (K a p1) (KN a p1 Z1) Ok1 Cb1 Se1 sigb buffer ltac:(lia) ltac:(lia)) as (u1 & U1 & I1).
  destruct (issue_tbs_ok E B _ b p2 allowed t1 _ Hs (K b p2) (KN b p2 Z2) Ok1 Cb1 Se1 sigb2 buffer2 ltac:(lia) ltac:(lia)) as (u2 & U2 & I2).
  rewrite Fd1, none_fail, KF in I1 by assumption. rewrite Fd1, none_fail, KF in I2 by assumption. fold cert1 in I1. fold cert2 in I2. cbn [orb] in I1, I2. rewrite B3 in I1. rewrite B6 in I2.
  replace (2000 <? len (enc_tlv (tlv_tbs f))) with false in I1, I2 by lia. replace (2000 <? len cert1) with false in I1 by lia. replace (2000 <? len cert2) with false in I2 by lia.
  exists (u2 ++ u1).
  assert (HU : Forall allowed (u2 ++ u1)) by (apply Forall_app; now split).
  splits.
  - eapply Forall_impl; [|exact HU]. now intros x [Hx _].
  - intro Hpath. destruct (u2 ++ u1) as [|x l]; [reflexivity|]. inversion HU as [|? ? [_ Hx] _]. congruence.
  - unfold run_cert_test. rewrite bssl_make_secret_ok by (split; [cbn [slice_of sl_size]; lia|apply N.le_refl]).
    assert (He : first_error (secret_errors true (Some (slice_of cdi)) (Some 0)) = ok_e).
    { unfold secret_errors. cbn [negb slice_of sl_buf sl_size is_none]. replace (len cdi =? 0) with false by lia. reflexivity. }
    rewrite He. cbn [bind].
    assert (Hb : slice_bytes (slice_of cdi) = cdi) by (unfold slice_bytes, slice_of; cbn [sl_buf sl_size]; now rewrite takeN_all by apply N.le_refl).
    rewrite Hb. fold c. change ((c, object (SecretKey cdi)) :: heap_of table) with (heap_of T).
    unfold CertEncoding. fold ty. change (ConformCore.text "signing key 1") with (test_label 1). change (ConformCore.text "signing key 2") with (test_label 2).
    rewrite G1 by lia. cbn [bind]. rewrite <- Ht1 in *. rewrite T1. cbn [bind]. rewrite I1. cbn [bind]. rewrite G2 by lia. cbn [bind].
    rewrite <- Ht2 in *. rewrite T2. cbn [bind]. rewrite I2. cbn [bind].
    rewrite bssl_free_ok; [|right; now rewrite live_lookup, ST|exact NT]. cbn [bind]. unfold T. now rewrite filter_new.
Qed.
Print Assumptions C54_cert_encoding.

(** ** Examples *)
(** What the values of the extensions say; the sizes with the toy BoringSSL; two keys give two certificates. *)
Example C54_fields_case :
  map (fun x => (xf_oid x, xf_critical x)) (test_exts true) = [([2; 5; 29; 15], true); ([2; 5; 29; 19], true)] /\
  read_key_usage (nth 0 (test_values true) []) = Some [true; false; false; false; false; true] /\
  read_basic_constraints (nth 1 (test_values true) []) = Some (true, Some 1%Z) /\ read_basic_constraints (nth 1 (test_values false) []) = Some (true, None) /\
  let size p := len (cert_under (toy none_fails) p (test_fields p true (public_bytes (toy none_fails) p))) in
  size (EC P384 (255 * 256 ^ 47)) = 667 /\ size (EC P256 1) = 581 /\ size (Ed25519 (bytes [5])) = 549 /\
  len (enc_tlv (tlv_cert (CertFields (test_fields (EC P384 1) true (repeat x00 97)) (test_sig_alg (EC P384 1)) (bits_of_bytes (repeat x00 104))))) = 675 /\
  cert_under (toy none_fails) (EC P256 1) (test_fields (EC P256 1) true []) <> cert_under (toy none_fails) (EC P256 2) (test_fields (EC P256 1) true []).
Proof. cbv zeta. splits; try (vm_compute; reflexivity). vm_compute. discriminate. Qed.
(** The second row of the table, for the secret 06 07 and a table with a key. *)
Example C54_example : exists n cert1 cert2,
  forall fuel, (n <= fuel)%nat ->
    @run_cert_test env64 (toy none_fails) bump skip fuel (heap_of issue_table) (bytes [6; 7]) (nth 1 cert_test_values (mkParams 0 (mkAlg None pv_none) (mkAlg None pv_none) true))
      (repeat x00 128) (repeat x00 128) (repeat x00 2000) (repeat x00 128) (repeat x00 128) (repeat x00 2000) = Ret ([], heap_of issue_table, Some (cert1, cert2)) /\
    option_map (fun f => (tf_serial (cf_tbs f), tf_key (cf_tbs f))) (read_cert cert2) =
      Some (1%Z, bits_of_bytes (be_bytes 32 (be_val (HKDF_expand SHA512 (bytes [6; 7]) (test_label 1) 32)))).
Proof.
  destruct (C54_cert_encoding env64 (toy none_fails) bump skip issue_table (bytes [6; 7]) (nth 1 cert_test_values (mkParams 0 (mkAlg None pv_none) (mkAlg None pv_none) true))
    (Ed25519 (HKDF_expand SHA512 (bytes [6; 7]) (test_label 1) 32)) (Ed25519 (HKDF_expand SHA512 (bytes [6; 7]) (test_label 2) 32)))
    as (n & signed & cert1 & cert2 & _ & _ & _ & R2 & _ & _ & _ & H); try reflexivity; try (intros ?; reflexivity);
    try exact (toy_sha2 _); try exact (toy_signs _); try exact (toy_publishes _); try exact bump_ok; try exact skip_ok.
  { split; [reflexivity|vm_compute; reflexivity]. }
  { right. left. reflexivity. }
  exists n, cert1, cert2. intros fuel Hf.
  destruct (H fuel (repeat x00 128) (repeat x00 128) (repeat x00 2000) (repeat x00 128) (repeat x00 128) (repeat x00 2000) Hf) as (u & _ & Hu & HR);
    [vm_compute; reflexivity..|].
  rewrite (Hu eq_refl) in HR. split; [exact HR|]. rewrite R2. reflexivity.
Qed.
