(** Property C50: issuing a certificate with the BoringSSL back end, from the secret to the signed certificate (src/core/test/x509.cpp:512-522, 616-760). *)
From Coq Require Import List NArith ZArith Bool Strings.Byte Lia.
From Coq Require Import ZifyBool ZifyNat ZifyN.
From Verif Require Import Base BaseFacts Stream SpecStream StreamProofs SpecDigits DigitsFacts SpecDer DerFacts Asn1 SpecAsn1 Asn1Proofs
  Oid X509 X509Ext SpecX509 RendProofs X509Facts X509Proofs PropX509Cert.
From Verif Require PropApi.
From Verif Require Import Res SpecSha2 Crypto SpecMac SpecCrypto PropCrypto Bssl BsslKeys SpecBssl BsslProofs Rfc6979Proofs KeyProofs PropBssl PropKeys
  FailProofs PropKeysFail.
From Verif Require Import Issue.
Import ListNotations.
Open Scope N_scope.

(** ** Specification *)

(** What a signing key produces: the public key in the form it has in a certificate (RFC 5480 2.2: the uncompressed point; RFC 8410 4) and the signature
    (RFC 5758 3.2: the DER encoding; RFC 8410 6). P-256 goes with SHA-256 (1), P-384 with SHA-384 (2). *)
Definition public_bytes (B : Bssl) (p : pkey) : list byte :=
  match p with Ed25519 seed => ed25519_public seed | EC c d => ec_public c d end.
Definition signature_bytes (B : Bssl) (p : pkey) (m : list byte) : list byte :=
  match p with Ed25519 seed => ed25519_sign seed m | EC P256 d => ecdsa_sign P256 d 1 m | EC P384 d => ecdsa_sign P384 d 2 m end.
(** The value of n20_crypto_key_type_t that goes with it. *)
Definition type_of (p : pkey) : N := match p with EC P256 _ => 1 | EC P384 _ => 2 | Ed25519 _ => 3 end.
(** The BoringSSL calls that issuing a certificate depends on. *)
Definition calls_of (p : pkey) : list call :=
  match p with
  | Ed25519 _ => [c_raw_public; c_md_ctx_new; c_sign_init; c_sign]
  | EC _ _ => [c_i2d; c_md_ctx_new; c_sign_init; c_sign_update 0; c_sign_final]
  end.
(** The fields of the template with another subject public key. *)
Definition with_public (f : tbs_fields) (pub : list byte) : tbs_fields :=
  TbsFields (tf_version f) (tf_serial f) (tf_sig_alg f) (tf_issuer f) (tf_not_before f) (tf_not_after f) (tf_subject f) (tf_key_alg f)
    (bits_of_bytes pub) (tf_exts f).
(** [cert] is the certificate for the template, with the public key of [p], signed with [p]: its reader gives the fields, and the signature is the one of
    exactly the bytes that are in the certificate. *)
Definition signed_by (B : Bssl) (p : pkey) (t : tbs) (vs : list (list byte)) (signed cert : list byte) : Prop :=
  cert_signed_part cert = Some signed /\
  read_cert cert = Some (CertFields (with_public (tbs_of t vs) (public_bytes B p)) (alg_of (tbs_sig_alg t)) (bits_of_bytes (signature_bytes B p signed))).

(** ** Rendering into a buffer *)
Lemma takeN_front {A} n (l m : list A) : len l = n -> takeN n (l ++ m) = l.
Proof. intros <-. apply takeN_app_len. Qed.
Lemma dropN_front {A} n (l m : list A) : len l = n -> dropN n (l ++ m) = m.
Proof. intros <-. apply dropN_app_len. Qed.
Lemma render_ok (E : Env) P f b buffer : rend P f b -> len buffer < SZ ->
  exists u m, render buffer f = (u, m, if len b <=? len buffer then Some (slice_of b) else None) /\ Forall P u /\ len m = len buffer.
Proof.
  intros (b0 & [_ HR] & E0) Hl. unfold render.
  assert (Hok : buffer_ok (Some buffer) (len buffer)) by (split; [assumption|apply N.le_refl]).
  destruct (HR _ [] (Some buffer) (len buffer) [] Hok (shows_init _ _ Hok)) as (s & v & Hs & S1 & Hu & HP).
  rewrite Hs, Hu, !app_nil_r in *. destruct S1 as (C1 & W1 & B1 & Z1 & lost & kept & K1 & K2 & K3 & K4). cbv zeta.
  rewrite dropN_all, app_nil_r in K4 by apply N.le_refl.
  exists v, (takeN (len buffer - len kept) buffer ++ kept). split; [|split; [assumption|]].
  2:{ rewrite len_app, len_takeN. lia. }
  rewrite B1, W1. destruct s as [bg sz wp bo wpo]. cbn [s_begin] in K4. subst bg.
  destruct (N.leb_spec (len b) (len buffer)) as [Hb|Hb].
  - assert (Eb : b0 = b) by (apply E0; right; lia). clear E0 HR. rewrite Eb in *. clear b0 Eb. rewrite K3 in K1 by assumption. cbn [app] in K1. subst kept.
    replace (len buffer <? len b) with false by lia. replace (SZ <=? len b) with false by lia. cbn [orb].
    rewrite C1, N.mod_small by lia. unfold n20_stream_data. rewrite Z1.
    assert (Hw : s_wp {| s_begin := Some (takeN (len buffer - len b) buffer ++ b); s_size := sz; s_wp := wp; s_bo := bo; s_wpo := wpo |} = len b).
    { unfold n20_stream_byte_count in C1. rewrite C1. apply N.mod_small. lia. }
    rewrite Hw, sub_sz_le by lia.
    rewrite dropN_app_r by (lens; lia). lens.
    match goal with |- context [dropN ?k b] => replace k with 0 by lia end. now rewrite dropN_0.
  - destruct (N.ltb_spec (len b0) SZ) as [H0|H0].
    + assert (Eb : b0 = b) by (apply E0; now left). rewrite Eb. replace (len buffer <? len b) with true by lia. reflexivity.
    + replace (len buffer <? len b0) with true by lia. reflexivity.
Qed.

(** ** The wrapping of raw signatures *)
Lemma coordinate_bounds c : 32 <= coordinate c <= 48.
Proof. destruct c; cbn; lia. Qed.
Lemma len_coordinate c n : len (be_bytes (N.to_nat (coordinate c)) n) = coordinate c.
Proof. rewrite len_be_bytes. apply N2Nat.id. Qed.
Lemma coordinate_value c n : in_field c n -> be_val (be_bytes (N.to_nat (coordinate c)) n) = n.
Proof. intro H. rewrite be_val_be_bytes, N2Nat.id. now apply N.mod_small. Qed.

Lemma rend_rs_content (E : Env) (P : ub -> Prop) c r s rest : in_field c r -> in_field c s ->
  ((forall u, stray_reads u -> P u) \/ rest <> [] \/ s <> 0) ->
  rend P (n20_x509_rs_content (raw_signature c r s ++ rest) (2 * coordinate c))
    (enc_tlv (tlv_integer (enc_int (Z.of_N r))) ++ enc_tlv (tlv_integer (enc_int (Z.of_N s)))).
Proof.
  intros Hr Hs HP. pose proof (coordinate_bounds c) as Hc. unfold n20_x509_rs_content, raw_signature.
  replace (2 * coordinate c / 2) with (coordinate c) by (rewrite N.mul_comm, N.div_mul; lia).
  rewrite <- app_assoc. rewrite dropN_front by apply len_coordinate.
  apply rend_seq.
  - set (d := be_bytes (N.to_nat (coordinate c)) s ++ rest).
    assert (Hd : takeN (coordinate c) d = be_bytes (N.to_nat (coordinate c)) s) by (unfold d; now apply takeN_front, len_coordinate).
    assert (Hn : number_of (takeN (coordinate c) d) false false = Z.of_N s) by (rewrite Hd; unfold number_of; cbv zeta; now rewrite coordinate_value).
    rewrite <- Hn. apply (rend_integer P d (coordinate c) false false n20_asn1_tag_info_no_override); [lia|unfold d; rewrite len_app, len_coordinate; lia|].
    destruct HP as [HP|HP].
    + eapply Forall_impl; [exact HP|]. apply int_ub_stray.
    + rewrite int_ub_clean; [constructor|lia|unfold d; rewrite len_app, len_coordinate; lia|]. rewrite Hn. destruct HP as [HP|HP].
      * right. unfold d. rewrite len_app, len_coordinate. destruct rest; [contradiction|]. rewrite len_cons. lia.
      * left. lia.
  - set (d := be_bytes (N.to_nat (coordinate c)) r ++ be_bytes (N.to_nat (coordinate c)) s ++ rest).
    assert (Hd : takeN (coordinate c) d = be_bytes (N.to_nat (coordinate c)) r) by (unfold d; now apply takeN_front, len_coordinate).
    assert (Hn : number_of (takeN (coordinate c) d) false false = Z.of_N r) by (rewrite Hd; unfold number_of; cbv zeta; now rewrite coordinate_value).
    assert (Hl : coordinate c < len d) by (unfold d; rewrite !len_app, !len_coordinate; lia).
    rewrite <- Hn. apply (rend_integer P d (coordinate c) false false n20_asn1_tag_info_no_override); [lia|lia|].
    rewrite int_ub_clean; [constructor|lia|lia|]. now right.
Qed.

Lemma rend_rs (E : Env) (P : ub -> Prop) c r s rest : in_field c r -> in_field c s ->
  ((forall u, stray_reads u -> P u) \/ rest <> [] \/ s <> 0) ->
  rend P (n20_x509_rs (raw_signature c r s ++ rest) (2 * coordinate c)) (ecdsa_der r s).
Proof. intros Hr Hs HP. apply (rend_sequence P _ _ n20_asn1_tag_info_no_override). now apply rend_rs_content. Qed.
Lemma der_short c r s : in_field c r -> in_field c s -> len (ecdsa_der r s) <= 104.
Proof.
  intros Hr Hs. apply (unwrap_ok c r s (repeat x00 96) Hr Hs). destruct c; vm_compute; congruence.
Qed.

(** The raw signature of crypto.h, wherever it lies, is wrapped into the DER encoding. The byte behind the object is looked at only if the signature ends the object and
    its second half is zero (C17). *)
Theorem C50_rs : forall (E : Env) c r s rest, in_field c r -> in_field c s ->
  renders (fun u => stray_reads u /\ s = 0 /\ rest = []) (n20_x509_rs (raw_signature c r s ++ rest) (2 * coordinate c)) (ecdsa_der r s).
Proof.
  intros E c r s rest Hr Hs. apply rend_small.
  - apply rend_rs; [assumption|assumption|]. destruct rest as [|x rest]; [|right; left; discriminate].
    destruct (N.eq_dec s 0) as [->|Hz]; [left; now split|right; now right].
  - pose proof (der_short c r s Hr Hs). pose proof SZ_lo. lia.
Qed.
Print Assumptions C50_rs.

Lemma rs_eq (E : Env) d n :
  with_length (n20_asn1_integer (mkSlice (n / 2) (Some (dropN (n / 2) d))) false false n20_asn1_tag_info_no_override ;;
               n20_asn1_integer (mkSlice (n / 2) (Some d)) false false n20_asn1_tag_info_no_override)%cmd
    (fun k => n20_asn1_header N20_ASN1_CLASS_UNIVERSAL true N20_ASN1_TAG_SEQUENCE k) = n20_x509_rs d n.
Proof. unfold n20_x509_rs, n20_asn1_sequence, n20_asn1_header_with_content, n20_x509_rs_content. cbv zeta. cbn [ti_type n20_asn1_tag_info_no_override]. reflexivity. Qed.
(** The helper of the crypto tests: 104 octets are always enough. *)
Theorem C50_signature_2_asn1_sequence : forall (E : Env) c r s buffer, in_field c r -> in_field c s -> len buffer = 104 ->
  exists u, signature_2_asn1_sequence buffer (raw_signature c r s) = (u, ecdsa_der r s) /\ Forall stray_reads u /\ (s <> 0 -> u = []).
Proof.
  intros E c r s buffer Hr Hs Hb. pose proof SZ_lo.
  pose proof (C50_rs E c r s [] Hr Hs) as HR. rewrite app_nil_r in HR. pose proof (der_short c r s Hr Hs) as Hd.
  destruct HR as [_ HR]. assert (Hok : buffer_ok (Some buffer) 104) by (split; [lia|rewrite Hb; apply N.le_refl]).
  destruct (HR _ [] (Some buffer) 104 [] Hok (shows_init _ _ Hok)) as (st & v & H1 & S1 & Hu & HP). exists v. split.
  - unfold signature_2_asn1_sequence. cbv zeta. rewrite rs_eq. replace (len (raw_signature c r s)) with (2 * coordinate c) by (unfold raw_signature; rewrite len_app, !len_coordinate; lia).
    rewrite H1, Hu. rewrite !app_nil_r in *. pose proof (PropApi.shows_contents E st buffer 104 _ ltac:(lia) ltac:(lia) S1 Hd) as HC.
    unfold stream_contents in HC. destruct st as [[m|] sz wp bo wpo]; cbn [s_begin] in HC.
    + destruct (n20_stream_data _) as [off|]; [now rewrite HC|]. exfalso. apply (f_equal len) in HC. unfold ecdsa_der in HC.
      match type of HC with _ = len (enc_tlv ?x) => pose proof (len_enc_tlv x) as [_ Hx] end. change (@len byte []) with 0 in HC. lia.
    + exfalso. clear - S1. destruct S1 as (_ & _ & _ & _ & lost & kept & _ & _ & _ & H). discriminate.
  - split; [eapply Forall_impl; [|exact HP]; now intros u [Hst _]|]. intro Hz. destruct v as [|u v]; [reflexivity|].
    inversion_clear HP as [|? ? [_ [Hc _]] _]. contradiction.
Qed.
Print Assumptions C50_signature_2_asn1_sequence.

(** ** Issuing *)
Lemma key_bits_front (d rest : list byte) n : n = len d * 8 -> key_bits (Some (d ++ rest)) n = bits_of_bytes d.
Proof.
  intros ->. cbn [key_bits]. unfold bits_of_bytes. rewrite flat_map_app. apply takeN_front. change (len (bits_of_bytes d) = len d * 8).
  rewrite len_bits_of_bytes. lia.
Qed.
Lemma serial_with_key (E : Env) P t k n : serial_ub P (tbs_serial t) -> serial_ub P (tbs_serial (with_key t k n)).
Proof. exact (fun H => H). Qed.
Lemma tbs_of_with_key t vs pub rest n : n = len pub -> tbs_of (with_key t (pub ++ rest) n) vs = with_public (tbs_of t vs) pub.
Proof.
  intros ->. unfold tbs_of, with_public, with_key.
  cbn [tbs_serial tbs_sig_alg tbs_issuer tbs_validity tbs_subject tbs_spki tbs_exts spki_alg spki_key spki_bits tf_version tf_serial tf_sig_alg tf_issuer tf_not_before
    tf_not_after tf_subject tf_key_alg tf_exts]. now rewrite key_bits_front.
Qed.
Lemma tbs_ok_with_key (E : Env) t pub n : tbs_ok t -> n <= len pub -> n * 8 + 7 < SZ -> tbs_ok (with_key t pub n).
Proof.
  intros (H1 & H2 & H3 & H4 & H5 & H6 & H7 & H8 & _ & H10) Hn Hz. unfold tbs_ok, with_key.
  cbn [tbs_serial tbs_sig_alg tbs_issuer tbs_validity tbs_subject tbs_spki tbs_exts spki_alg spki_key spki_bits]. splits; try assumption.
  unfold bitstring_ok. lia.
Qed.

Section Steps.
Context (E : Env) (B : Bssl) (table : table) (a : N) (p : pkey).
Hypothesis Hsigns : signs B.
Hypothesis Hpublishes : publishes B.
Hypothesis Hkey : lookup table a = Some (SigningKey p).
Hypothesis Hnull : lookup table 0 = None.

Lemma key_not_null : (a =? 0) = false.
Proof. destruct (N.eqb_spec a 0) as [->|]; [congruence|reflexivity]. Qed.
Lemma key_behind : handle_key table a = Some (SigningKey p).
Proof. unfold handle_key. now rewrite key_not_null. Qed.
Lemma key_live : handle_ok (live (heap_of table)) a.
Proof. right. now rewrite live_lookup, Hkey. Qed.

Definition public_call : call := match p with Ed25519 _ => c_raw_public | EC _ _ => c_i2d end.
Lemma public_step out size : public_octets (Some (SigningKey p)) <= size -> size <= len out ->
  exists pub, public_of B (Some (SigningKey p)) pub /\ len pub = public_octets (Some (SigningKey p)) /\
    exists e sz, e <> ok_e /\
    n20_crypto_boringssl_key_get_public_key true (heap_of table) a (Some out) (Some size) =
      Ret (if fails public_call then (e, Some out, sz)
           else (ok_e, Some (pub ++ dropN (len pub) out), Some (len pub))).
Proof.
  intros H1 H2. destruct (C49_public_failures_exact E B table true a (Some out) (Some size) Hpublishes) as (pub & Hp & HR); [split; [exact key_live|exact H2]|].
  rewrite key_behind in *. exists pub. split; [exact Hp|].
  assert (Hl : len pub = public_octets (Some (SigningKey p))).
  { destruct p as [seed|c d]; cbn [public_of public_octets] in *.
    - subst pub. apply Hpublishes.
    - destruct (proj2 Hpublishes c d) as (x & y & _ & _ & Hxy). rewrite Hxy in Hp. injection Hp as <-. rewrite len_app, !len_be_bytes. destruct c; reflexivity. }
  split; [exact Hl|]. rewrite Hl, HR. clear HR.
  unfold report, public_rows, public_errors, too_small. cbn [negb is_none wrong_kind is_secret Bool.eqb orb app].
  replace (size <? public_octets (Some (SigningKey p))) with false by lia. unfold first_error. cbn [find fst].
  exists (if is_ec (Some (SigningKey p)) then no_resources_e else implementation_specific_e), (Some size).
  unfold public_call. destruct p as [seed|c d]; cbn [is_ec]; (split; [discriminate|]); cbn [fst]; destruct (fails _); reflexivity.
Qed.

Definition sign_calls : list call :=
  match p with Ed25519 _ => [c_md_ctx_new; c_sign_init; c_sign] | EC _ _ => [c_md_ctx_new; c_sign_init; c_sign_update 0; c_sign_final] end.
Lemma sign_step m out size : m <> [] -> len m < SZ -> signature_octets (Some (SigningKey p)) <= size -> size <= len out ->
  exists sig, signature_of B (Some (SigningKey p)) m sig /\ len sig = signature_octets (Some (SigningKey p)) /\
    exists e sz, e <> ok_e /\
    n20_crypto_boringssl_sign true (heap_of table) a (Some (mkGather 1 (Some [slice_of m]))) (Some out) (Some size) =
      Ret (if existsb fails sign_calls then (e, Some out, sz)
           else (ok_e, Some (sig ++ dropN (len sig) out), Some (len sig))).
Proof.
  intros Hm Hz H1 H2.
  assert (Hg : bssl_gather_ok (mkGather 1 (Some [slice_of m]))).
  { left. split.
    - change (1 <= 1). lia.
    - constructor; [|constructor]. split; cbn [sl_size sl_buf slice_of]; [assumption|lia]. }
  destruct (C49_sign_failures_exact E B table true a (Some (mkGather 1 (Some [slice_of m]))) (Some out) (Some size) Hsigns) as (sig & Hs & HR);
    [split; [exact key_live|split; [exact Hg|exact H2]]|].
  rewrite key_behind in *.
  assert (Hmsg : message_bytes (one (Some (mkGather 1 (Some [slice_of m])))) 1 = m).
  { cbn [one]. unfold message_bytes. change (takeN 1 [mkGather 1 (Some [slice_of m])]) with [mkGather 1 (Some [slice_of m])]. cbn [flat_map].
    unfold gather_bytes, slices. cbn [g_list g_count]. change (takeN 1 [slice_of m]) with [slice_of m]. cbn [flat_map]. rewrite !app_nil_r.
    unfold slice_bytes, slice_of. cbn [sl_buf sl_size]. now rewrite takeN_all by apply N.le_refl. }
  rewrite Hmsg in Hs. exists sig. split; [exact Hs|].
  assert (Hl : len sig = signature_octets (Some (SigningKey p))).
  { destruct p as [seed|c d]; cbn [signature_of signature_octets] in *.
    - subst sig. apply Hsigns.
    - destruct Hs as (r & s & _ & _ & _ & ->). unfold raw_signature. rewrite len_app, !len_be_bytes. destruct c; reflexivity. }
  split; [exact Hl|]. rewrite Hl, HR. clear HR.
  assert (Hne : (sl_size (slice_of m) =? 0) = false).
  { cbn [slice_of sl_size]. destruct m; [contradiction|]. rewrite len_cons. lia. }
  assert (Hmiss : missing (slice_of m) = false) by reflexivity.
  assert (Hhas : has_missing (one (Some (mkGather 1 (Some [slice_of m])))) 1 = false) by reflexivity.
  unfold sign_report, sign_rows, too_small. cbn [negb is_none wrong_kind is_secret Bool.eqb orb].
  replace (size <? signature_octets (Some (SigningKey p))) with false by lia.
  unfold sign_calls. destruct p as [seed|c d].
  - exists (if fails c_md_ctx_new then no_resources_e else implementation_specific_e), (Some size). split; [now destruct (fails c_md_ctx_new)|].
    rewrite Hhas. unfold failed, report, first_error. cbn [find fst app is_ec andb existsb is_none].
    destruct (fails c_md_ctx_new); [reflexivity|]. cbn [option_map snd fst find]. destruct (fails c_sign_init); [reflexivity|]. cbn [option_map snd fst find one is_none head_null_list].
    change (null_list (mkGather 1 (Some [slice_of m]))) with false. cbn [find fst]. destruct (fails c_sign); reflexivity.
  - change (slices (mkGather 1 (Some [slice_of m]))) with [slice_of m]. cbn [update_rows]. rewrite Hne, Hmiss. cbn [negb andb].
    exists (if fails c_md_ctx_new then no_resources_e else implementation_specific_e),
      (if fails c_md_ctx_new || fails c_sign_init || fails (c_sign_update 0) then Some size else Some 104). split; [now destruct (fails c_md_ctx_new)|].
    unfold failed, report, first_error. cbn [find fst app is_ec andb existsb is_none one head_null_list].
    change (null_list (mkGather 1 (Some [slice_of m]))) with false.
    destruct (fails c_md_ctx_new); [reflexivity|]. cbn [option_map snd fst find]. destruct (fails c_sign_init); [reflexivity|]. cbn [option_map snd fst find].
    destruct (fails (c_sign_update 0)); [reflexivity|]. cbn [option_map snd fst find is_none andb]. destruct (fails c_sign_final); reflexivity.
Qed.
End Steps.

(** The certificate around a signature that starts the object [d]. *)
Lemma rend_signed (E : Env) P t vs d rest n k : tbs_ok t -> callbacks P (used_exts (tbs_exts t)) vs -> serial_ub P (tbs_serial t) ->
  n = len d -> n * 8 + 7 < SZ -> k = tbs_of t vs ->
  rend P (n20_x509_cert (Some (mkCert (Some t) (tbs_sig_alg t) (n * 8) (Some (d ++ rest)))))
    (enc_tlv (tlv_cert (CertFields k (alg_of (tbs_sig_alg t)) (bits_of_bytes d)))).
Proof.
  intros Ht Hv Hu Hn Hz ->. rewrite <- (key_bits_front d rest (n * 8)) by now subst n.
  apply (rend_cert P t (mkCert (Some t) (tbs_sig_alg t) (n * 8) (Some (d ++ rest))) vs); [|assumption|assumption].
  repeat split; try assumption; try (apply Ht). cbn [c_signature c_sig_bits bitstring_ok]. rewrite len_app. lia.
Qed.
(** Parts are not longer than the whole. *)
Lemma cert_len f : len (enc_tlv (tlv_tbs (cf_tbs f))) <= len (enc_tlv (tlv_cert f)) /\ len (pack_bits (cf_signature f)) <= len (enc_tlv (tlv_cert f)).
Proof.
  unfold tlv_cert. set (x := tlv_tbs (cf_tbs f)). set (y := tlv_alg (cf_sig_alg f)). set (z := tlv_bitstring (enc_bits (cf_signature f))).
  pose proof (len_enc_tlv (tlv_sequence (enc_tlvs [x; y; z]))) as [_ H]. cbn [t_content tlv_sequence] in H.
  assert (HL : len (enc_tlvs [x; y; z]) = len (enc_tlv x) + (len (enc_tlv y) + (len (enc_tlv z) + len (enc_tlvs [])))) by now rewrite !enc_tlvs_cons, !len_app.
  split; [lia|].
  pose proof (len_enc_tlv z) as [_ Hz]. 
  assert (HB : len (pack_bits (cf_signature f)) < len (t_content z)) by (unfold z, enc_bits; cbn [t_content tlv_bitstring]; rewrite len_cons; lia). lia.
Qed.

Lemma issue_signed_ok (E : Env) (B : Bssl) P u h p t vs buffer sig sigb m k :
  tbs_ok t -> callbacks P (used_exts (tbs_exts t)) vs -> serial_ub P (tbs_serial t) -> Forall P u -> len buffer < SZ ->
  signs B -> signature_of B (Some (SigningKey p)) m sig -> len sig = signature_octets (Some (SigningKey p)) -> 104 <= len sigb -> k = tbs_of t vs ->
  let cert := enc_tlv (tlv_cert (CertFields k (alg_of (tbs_sig_alg t)) (bits_of_bytes (signature_bytes B p m)))) in
  exists v, Forall P v /\
    issue_signed u h (type_of p) t buffer (sig ++ dropN (len sig) sigb) (len sig) = Ret (v, h, if len buffer <? len cert then None else Some cert).
Proof.
  intros Ht Hv Hu HP Hb Hs Hsig Hl Ho Hk cert. pose proof SZ_lo as HSZ. unfold issue_signed.
  destruct p as [seed|c d].
  - cbn [type_of signature_of signature_octets signature_bytes] in *. change ((3 =? key_type_secp256r1_e) || (3 =? key_type_secp384r1_e)) with false.
    cbv iota. cbn [bind].
    destruct (render_ok E P _ _ buffer (rend_signed E P t vs sig (dropN (len sig) sigb) (len sig) k Ht Hv Hu eq_refl ltac:(lia) Hk) Hb) as (w & mem & Hr & Hw & _).
    rewrite Hr. subst sig. fold cert. exists (w ++ u). split; [apply Forall_app; split; assumption|].
    destruct (N.leb_spec (len cert) (len buffer)); destruct (N.ltb_spec (len buffer) (len cert)); try lia; [|reflexivity].
    unfold slice_bytes, slice_of. cbn [sl_buf sl_size]. now rewrite takeN_all by apply N.le_refl.
  - replace ((type_of (EC c d) =? key_type_secp256r1_e) || (type_of (EC c d) =? key_type_secp384r1_e)) with true by now destruct c.
    cbn [signature_of] in Hsig. destruct Hsig as (r & s & Hr & Hsf & Hder & ->).
    assert (Hm : signature_bytes B (EC c d) m = ecdsa_der r s) by (rewrite <- Hder; destruct c; reflexivity).
    assert (Hrl : len (raw_signature c r s) = 2 * coordinate c) by (unfold raw_signature; rewrite len_app, !len_coordinate; lia).
    pose proof (coordinate_bounds c) as Hc. pose proof (der_short c r s Hr Hsf) as Hd.
    assert (Hrest : dropN (len (raw_signature c r s)) sigb <> []).
    { intro Hn. apply (f_equal len) in Hn. rewrite len_dropN in Hn. change (@len byte []) with 0 in Hn. lia. }
    pose proof (rend_rs E P c r s _ Hr Hsf (or_intror (or_introl Hrest))) as HRS. rewrite <- Hrl in HRS.
    destruct (render_ok E P _ _ buffer HRS Hb) as (w1 & mem1 & E1 & W1 & L1).
    rewrite E1. unfold cert. rewrite Hm. clear cert.
    set (cert := enc_tlv (tlv_cert (CertFields k (alg_of (tbs_sig_alg t)) (bits_of_bytes (ecdsa_der r s))))).
    assert (Hin : len (ecdsa_der r s) <= len cert).
    { pose proof (proj2 (cert_len (CertFields k (alg_of (tbs_sig_alg t)) (bits_of_bytes (ecdsa_der r s))))) as H. cbn [cf_signature] in H.
      now rewrite pack_bits_of_bytes in H. }
    destruct (N.leb_spec (len (ecdsa_der r s)) (len buffer)) as [H1|H1].
    + assert (Hsl : slice_bytes (slice_of (ecdsa_der r s)) = ecdsa_der r s).
      { unfold slice_bytes, slice_of. cbn [sl_buf sl_size]. now rewrite takeN_all by apply N.le_refl. }
      rewrite Hsl. unfold write_at. rewrite len_app, len_dropN.
      destruct (N.leb_spec (0 + len (ecdsa_der r s)) (len (raw_signature c r s) + (len sigb - len (raw_signature c r s)))) as [H2|H2]; [|lia].
      cbn [bind]. rewrite takeN_0. cbn [app slice_of sl_size].
      destruct (render_ok E P _ _ mem1 (rend_signed E P t vs (ecdsa_der r s) (dropN (0 + len (ecdsa_der r s)) (raw_signature c r s ++ dropN (len (raw_signature c r s)) sigb))
         (len (ecdsa_der r s)) k Ht Hv Hu eq_refl ltac:(lia) Hk) ltac:(lia)) as (w2 & mem2 & E2 & W2 & _).
      cbn [slice_of sl_size] in E2. rewrite E2. fold cert. exists (w2 ++ w1 ++ u). split; [apply Forall_app; split; [assumption|apply Forall_app; split; assumption]|]. rewrite L1.
      destruct (N.leb_spec (len cert) (len buffer)); destruct (N.ltb_spec (len buffer) (len cert)); try lia; [|reflexivity].
      unfold slice_bytes, slice_of. cbn [sl_buf sl_size]. now rewrite takeN_all by apply N.le_refl.
    + cbn [bind]. exists (w1 ++ u). split; [apply Forall_app; split; assumption|]. destruct (N.ltb_spec (len buffer) (len cert)); [reflexivity|lia].
Qed.

Lemma tlv_nonempty x : enc_tlv x <> [].
Proof. intro H. apply (f_equal len) in H. pose proof (len_enc_tlv x) as [_ Hx]. change (@len byte []) with 0 in H. lia. Qed.
Lemma public_bytes_of (B : Bssl) p pub : public_of B (Some (SigningKey p)) pub -> len pub = public_octets (Some (SigningKey p)) ->
  public_bytes B p = (match p with Ed25519 _ => [] | EC _ _ => [x04] end) ++ pub.
Proof. destruct p as [seed|c d]; cbn [public_of public_bytes app]; congruence. Qed.
Lemma calls_split (B : Bssl) p : existsb fails (calls_of p) = fails (public_call p) || existsb fails (sign_calls p).
Proof. destruct p; reflexivity. Qed.

(** The certificate with given fields in the signed part, signed with [p]. *)
Definition cert_under (B : Bssl) (p : pkey) (f : tbs_fields) : list byte :=
  enc_tlv (tlv_cert (CertFields f (tf_sig_alg f) (bits_of_bytes (signature_bytes B p (enc_tlv (tlv_tbs f)))))).
Lemma cert_under_signed (B : Bssl) p f : len (enc_tlv (tlv_tbs f)) <= len (cert_under B p f).
Proof. apply (proj1 (cert_len (CertFields f (tf_sig_alg f) (bits_of_bytes (signature_bytes B p (enc_tlv (tlv_tbs f))))))). Qed.
Lemma cert_under_reads (E : Env) (B : Bssl) p t vs pub : tbs_ok t ->
  let f := with_public (tbs_of t vs) pub in
  len (cert_under B p f) < SZ ->
  cert_signed_part (cert_under B p f) = Some (enc_tlv (tlv_tbs f)) /\
  read_cert (cert_under B p f) = Some (CertFields f (alg_of (tbs_sig_alg t)) (bits_of_bytes (signature_bytes B p (enc_tlv (tlv_tbs f))))).
Proof.
  intros Ht f Hc. unfold cert_under in *. change (tf_sig_alg f) with (alg_of (tbs_sig_alg t)) in *. set (G := CertFields f _ _) in *. split.
  - apply cert_signed_part_enc; [reflexivity|now apply small_SZ].
  - apply (read_cert_enc G); [|now apply small_SZ]. split; [|apply alg_of_ok; apply Ht].
    destruct (tbs_of_ok t vs Ht) as (K1 & K2 & K3 & K4 & K5). unfold G. cbn [cf_tbs]. unfold f, tbsf_ok, with_public.
    cbn [tf_version tf_serial tf_sig_alg tf_issuer tf_not_before tf_not_after tf_subject tf_key_alg tf_key tf_exts]. now splits.
Qed.

(** A given signed part, signed with any key. *)
Lemma issue_tbs_ok (E : Env) (B : Bssl) (table : table) a p allowed t vs : signs B ->
  lookup table a = Some (SigningKey p) -> lookup table 0 = None ->
  tbs_ok t -> callbacks allowed (used_exts (tbs_exts t)) vs -> serial_allowed allowed t ->
  let signed := enc_tlv (tlv_tbs (tbs_of t vs)) in
  let cert := cert_under B p (tbs_of t vs) in
  forall signature buffer, 104 <= len signature < SZ -> len buffer < SZ ->
    let failing := existsb fails (sign_calls p) in
    exists u, Forall allowed u /\
      issue_tbs (heap_of table) a (type_of p) t signature buffer =
        Ret (u,
             if failing || (len buffer <? len signed) then heap_of table else heap_of (filter (fun x => negb (fst x =? a)) table),
             if failing || (len buffer <? len cert) then None else Some cert).
Proof.
  intros Hs Hkey Hnull Ht Hv Hu signed cert sigb buffer Hsb Hb failing. pose proof SZ_lo as HSZ.
  assert (Hpart : len signed <= len cert) by apply cert_under_signed.
  assert (Hso : signature_octets (Some (SigningKey p)) <= 96) by (destruct p as [seed|[] d]; cbn [signature_octets]; lia).
  unfold issue_tbs.
  destruct (render_ok E allowed _ _ buffer (rend_tbs allowed t vs Ht Hv Hu) Hb) as (u & m & R2 & HPu & Hm).
  fold signed in R2. rewrite R2. clear R2.
  destruct (N.leb_spec (len signed) (len buffer)) as [H2|H2].
  2:{ exists u. split; [assumption|]. replace (len buffer <? len signed) with true by lia. replace (len buffer <? len cert) with true by lia.
      now rewrite !orb_true_r. }
  replace (len buffer <? len signed) with false by lia. rewrite orb_false_r.
  destruct (sign_step E B table a p Hs Hkey Hnull signed sigb (len sigb)) as (sig & Hsig & Hsl & e2 & z2 & He2 & R2);
    [apply tlv_nonempty|lia|lia|apply N.le_refl|].
  rewrite R2. clear R2. unfold failing. destruct (existsb fails (sign_calls p)); cbn [orb bind].
  { exists u. split; [assumption|]. destruct e2; try reflexivity. contradiction. }
  rewrite bssl_free_ok by (assumption || exact (key_live table a p Hkey)). cbn [bind].
  destruct (issue_signed_ok E B allowed u (heap_of (filter (fun x => negb (fst x =? a)) table)) p t vs m sig sigb signed (tbs_of t vs) Ht Hv Hu HPu ltac:(lia) Hs Hsig Hsl
    ltac:(lia) eq_refl) as (w & HPw & R3).
  rewrite R3. rewrite Hm. exists w. split; [assumption|reflexivity].
Qed.

(** The template gets the public key of the signing key. *)
Lemma template_for_ok (E : Env) (B : Bssl) (table : table) a p allowed t vs : publishes B ->
  lookup table a = Some (SigningKey p) -> lookup table 0 = None ->
  tbs_ok t -> callbacks allowed (used_exts (tbs_exts t)) vs -> serial_allowed allowed t ->
  forall public_key_buffer, 98 <= len public_key_buffer < SZ ->
  exists t1, template_for (heap_of table) a (type_of p) t public_key_buffer = Ret (if fails (public_call p) then None else Some t1) /\
    tbs_ok t1 /\ tbs_of t1 vs = with_public (tbs_of t vs) (public_bytes B p) /\ callbacks allowed (used_exts (tbs_exts t1)) vs /\ serial_allowed allowed t1.
Proof.
  intros Hp Hkey Hnull Ht Hv Hu pkb Hpk. pose proof SZ_lo as HSZ.
  assert (Ho : public_octets (Some (SigningKey p)) <= 96) by (destruct p as [seed|[] d]; cbn [public_octets]; lia).
  destruct (public_step E B table a p Hp Hkey Hnull (dropN 1 pkb) (len pkb - 1)) as (pub & Hpub & Hlen & e1 & z1 & He1 & R1);
    [lia|rewrite len_dropN; lia|].
  pose proof (public_bytes_of B p pub Hpub Hlen) as Hpb.
  set (rest := dropN (len pub) (dropN 1 pkb)).
  set (t1 := if negb (type_of p =? key_type_ed25519_e) then with_key t (x04 :: pub ++ rest) (len pub + 1) else with_key t (pub ++ rest) (len pub)).
  assert (H1 : t1 = with_key t (public_bytes B p ++ rest) (len (public_bytes B p))).
  { unfold t1. rewrite Hpb. destruct p as [seed|[] d]; cbn [type_of app]; [reflexivity| |]; rewrite len_cons; (replace (len pub + 1) with (1 + len pub) by lia); reflexivity. }
  assert (Hlb : len (public_bytes B p) <= 97) by (rewrite Hpb, len_app; assert (len (match p with Ed25519 _ => [] | EC _ _ => [x04] end) <= 1) by (destruct p; vm_compute; congruence); lia).
  exists t1. split; [|rewrite H1; splits].
  - unfold template_for. rewrite R1. destruct (fails (public_call p)); cbn [bind]; [|reflexivity]. destruct e1; try reflexivity. contradiction.
  - apply tbs_ok_with_key; [assumption|rewrite len_app; lia|lia].
  - now apply tbs_of_with_key.
  - exact Hv.
  - exact Hu.
Qed.

(** All of it, with the bytes of the certificate. *)
Lemma issue_exact (E : Env) (B : Bssl) (table : table) a p allowed t vs : signs B -> publishes B ->
  lookup table a = Some (SigningKey p) -> lookup table 0 = None ->
  tbs_ok t -> callbacks allowed (used_exts (tbs_exts t)) vs -> serial_allowed allowed t ->
  let f := with_public (tbs_of t vs) (public_bytes B p) in
  forall public_key_buffer signature buffer,
    98 <= len public_key_buffer < SZ -> 104 <= len signature < SZ -> len buffer < SZ ->
    let failing := existsb fails (calls_of p) in
    exists u, Forall allowed u /\
      issue (heap_of table) a (type_of p) t public_key_buffer signature buffer =
        Ret (u,
             if failing || (len buffer <? len (enc_tlv (tlv_tbs f))) then heap_of table else heap_of (filter (fun x => negb (fst x =? a)) table),
             if failing || (len buffer <? len (cert_under B p f)) then None else Some (cert_under B p f)).
Proof.
  intros Hs Hp Hkey Hnull Ht Hv Hu f pkb sigb buffer Hpk Hsb Hb failing.
  destruct (template_for_ok E B table a p allowed t vs Hp Hkey Hnull Ht Hv Hu pkb Hpk) as (t1 & R1 & Ht1 & Hf & Hv1 & Hu1).
  unfold issue. rewrite R1. unfold failing. rewrite calls_split. destruct (fails (public_call p)); cbn [orb bind].
  { exists []. split; [constructor|reflexivity]. }
  destruct (issue_tbs_ok E B table a p allowed t1 vs Hs Hkey Hnull Ht1 Hv1 Hu1 sigb buffer Hsb Hb) as (u & HPu & R2).
  rewrite Hf in R2. exists u. split; [exact HPu|exact R2].
Qed.

(** For every key, template and set of failing BoringSSL calls there is one byte string [signed] and one certificate, whatever the contents of the buffers. The procedure
    issues it if no call fails and it fits, and nothing otherwise. There is no undefined behaviour beyond that of the callbacks. The key is freed
    if the signing succeeds. *)
Theorem C50_issue : forall (E : Env) (B : Bssl) (table : table) a p allowed t vs, signs B -> publishes B ->
  lookup table a = Some (SigningKey p) -> lookup table 0 = None ->
  tbs_ok t -> callbacks allowed (used_exts (tbs_exts t)) vs -> serial_allowed allowed t ->
  exists signed cert,
    (len cert < SZ -> signed_by B p t vs signed cert) /\ len signed <= len cert /\
    forall public_key_buffer signature buffer,
      98 <= len public_key_buffer < SZ -> 104 <= len signature < SZ -> len buffer < SZ ->
      let failing := existsb fails (calls_of p) in
      exists u, Forall allowed u /\
        issue (heap_of table) a (type_of p) t public_key_buffer signature buffer =
          Ret (u,
               if failing || (len buffer <? len signed) then heap_of table else heap_of (filter (fun x => negb (fst x =? a)) table),
               if failing || (len buffer <? len cert) then None else Some cert).
Proof.
  intros E B table a p allowed t vs Hs Hp Hkey Hnull Ht Hv Hu.
  set (F := with_public (tbs_of t vs) (public_bytes B p)).
  exists (enc_tlv (tlv_tbs F)), (cert_under B p F). split; [|split].
  - intro Hc. exact (cert_under_reads E B p t vs _ Ht Hc).
  - apply cert_under_signed.
  - exact (issue_exact E B table a p allowed t vs Hs Hp Hkey Hnull Ht Hv Hu).
Qed.
Print Assumptions C50_issue.

(** Read backwards: what a certificate that was issued says. *)
Theorem C50_issued : forall (E : Env) (B : Bssl) (table : table) a p allowed t vs public_key_buffer signature buffer u h cert, signs B -> publishes B ->
  lookup table a = Some (SigningKey p) -> lookup table 0 = None ->
  tbs_ok t -> callbacks allowed (used_exts (tbs_exts t)) vs -> serial_allowed allowed t ->
  98 <= len public_key_buffer < SZ -> 104 <= len signature < SZ -> len buffer < SZ ->
  issue (heap_of table) a (type_of p) t public_key_buffer signature buffer = Ret (u, h, Some cert) ->
  Forall allowed u /\ (exists signed, signed_by B p t vs signed cert) /\ len cert <= len buffer /\
  (forall c, In c (calls_of p) -> fails c = false) /\ h = heap_of (filter (fun x => negb (fst x =? a)) table).
Proof.
  intros E B table a p allowed t vs pkb sigb buffer u h cert Hs Hp Hkey Hnull Ht Hv Hu Hpk Hsb Hb HR.
  destruct (C50_issue E B table a p allowed t vs Hs Hp Hkey Hnull Ht Hv Hu) as (signed & c & Hc & Hn & HI).
  destruct (HI pkb sigb buffer Hpk Hsb Hb) as (u' & HP & HR'). clear HI. rewrite HR' in HR. clear HR'.
  destruct (existsb fails (calls_of p)) eqn:Ef; cbn [orb] in HR; [discriminate|]. destruct (N.ltb_spec (len buffer) (len c)) as [Hl|Hl]; [discriminate|].
  assert (Hcz : len c < SZ) by lia. specialize (Hc Hcz). injection HR as <- <- <-. splits; try assumption.
  - now exists signed.
  - intros x Hx. destruct (fails x) eqn:Ex; [|reflexivity]. assert (existsb fails (calls_of p) = true) by (apply existsb_exists; now exists x). congruence.
  - replace (len buffer <? len signed) with false by lia. reflexivity.
Qed.
Print Assumptions C50_issued.

(** ** From the secret *)
Lemma filter_absent (t : table) a : lookup t a = None -> filter (fun x => negb (fst x =? a)) t = t.
Proof.
  unfold lookup. induction t as [|[b k] t IH]; [reflexivity|]. cbn [find filter fst]. destruct (b =? a); [discriminate|]. cbn [negb]. intro H. now rewrite IH.
Qed.
Lemma filter_new (t : table) a k : lookup t a = None -> filter (fun x => negb (fst x =? a)) ((a, k) :: t) = t.
Proof. intro H. cbn [filter fst]. rewrite N.eqb_refl. cbn [negb]. now apply filter_absent. Qed.
Lemma derived_type (B : Bssl) secret ctx ty p : derived B secret ctx ty (SigningKey p) -> type_of p = ty.
Proof.
  unfold derived. destruct (kind_of ty) as [[|[c|]]|] eqn:Ek; [discriminate| | |contradiction].
  - intros (d & _ & H). injection H as ->. unfold kind_of in Ek. destruct ty as [|[[|[]|]|[|[]|]|]]; try discriminate; injection Ek as <-; reflexivity.
  - intro H. injection H as ->. unfold kind_of in Ek. destruct ty as [|[[|[]|]|[|[]|]|]]; try discriminate; reflexivity.
Qed.
Lemma label_message label : message_bytes (one (Some (mkGather 1 (Some [slice_of label])))) 1 = label.
Proof.
  cbn [one]. unfold message_bytes. change (takeN 1 [mkGather 1 (Some [slice_of label])]) with [mkGather 1 (Some [slice_of label])]. cbn [flat_map].
  unfold gather_bytes, slices. cbn [g_list g_count]. change (takeN 1 [slice_of label]) with [slice_of label]. cbn [flat_map]. rewrite !app_nil_r.
  unfold slice_bytes, slice_of. cbn [sl_buf sl_size]. now rewrite takeN_all by apply N.le_refl.
Qed.
Lemma label_ok (E : Env) label : len label < SZ -> bssl_gather_ok (mkGather 1 (Some [slice_of label])).
Proof.
  intro H. left. split; [change (1 <= 1); lia|]. constructor; [|constructor]. split; cbn [sl_size sl_buf slice_of]; [assumption|lia].
Qed.
Lemma fresh_lookup (A : Allocator) t : allocator_ok A -> lookup t (fresh (heap_of t)) = None /\ fresh (heap_of t) <> 0.
Proof.
  intro H. destruct (H (heap_of t)) as [H1 H2]. split; [|assumption]. rewrite find_heap in H2. now destruct (lookup t (fresh (heap_of t))).
Qed.

(** A certificate issued for a secret and a label is signed with the key derived from them and certifies that same key; afterwards the heap is as before. If none is
    issued, the heap is as before or has the derived key in addition: it is not freed when a later step fails. No outcome is undefined. *)
Theorem C50_from_cdi : forall (E : Env) (B : Bssl) (A : Allocator) (table : table) cdi ty label allowed t vs fuel public_key_buffer signature buffer,
  computes_sha2 B -> signs B -> publishes B -> allocator_ok A -> lookup table 0 = None -> handle_ok (live (heap_of table)) cdi -> len label < SZ ->
  tbs_ok t -> callbacks allowed (used_exts (tbs_exts t)) vs -> serial_allowed allowed t ->
  98 <= len public_key_buffer < SZ -> 104 <= len signature < SZ -> len buffer < SZ ->
  match issue_from_cdi fuel (heap_of table) cdi ty label t public_key_buffer signature buffer with
  | Ret (u, h, Some cert) => Forall allowed u /\ h = heap_of table /\ len cert <= len buffer /\
      exists secret p signed, lookup table cdi = Some (SecretKey secret) /\ derived B secret label ty (SigningKey p) /\ signed_by B p t vs signed cert
  | Ret (u, h, None) => Forall allowed u /\
      (h = heap_of table \/
       exists secret k, lookup table cdi = Some (SecretKey secret) /\ derived B secret label ty k /\ h = heap_of ((fresh (heap_of table), k) :: table))
  | Undef _ => False
  | OutOfFuel => n20_crypto_boringssl_kdf fuel true (heap_of table) cdi ty (Some (mkGather 1 (Some [slice_of label]))) (Some 0) = OutOfFuel
  end.
Proof.
  intros E B A table cdi ty label allowed t vs fuel pkb sigb buffer Hsha Hs Hp Ha Hnull Hcdi Hlab Ht Hv Hu Hpk Hsb Hb.
  set (g := mkGather 1 (Some [slice_of label])).
  assert (Hok : op_ok (live (heap_of table)) (Kdf true cdi ty (Some g) (Some 0))) by (split; [assumption|now apply label_ok]).
  unfold issue_from_cdi, GetSigningKey. fold g.
  destruct (n20_crypto_boringssl_kdf fuel true (heap_of table) cdi ty (Some g) (Some 0)) as [[[rc h] hd]|x|] eqn:Ek; cbn [bind]; [| |reflexivity].
  2:{ pose proof (C49_kdf_failures_exact E B A fuel table true cdi ty (Some g) (Some 0) Hsha Hok) as HX. cbv zeta in HX. rewrite Ek in HX.
      destruct (failed _); [discriminate|]. destruct (found_key _ _ _ _); discriminate. }
  destruct (C49_kdf_contract E B A fuel table true cdi ty (Some g) (Some 0) rc h hd Hsha Hok Ek) as (_ & Hbad & Hgood).
  assert (Hnone : forall h', issue h' 0 ty t pkb sigb buffer = Ret ([], h', None)) by reflexivity.
  destruct rc; try (destruct Hbad as [-> ->]; [discriminate|]; cbn [bind]; rewrite Hnone; (split; [constructor|now left])).
  destruct (Hgood eq_refl) as (secret & k & Hsec & Hder & -> & ->). clear Hbad Hgood Hnone. cbn [bind]. unfold g in Hder. rewrite label_message in Hder.
  destruct (fresh_lookup A table Ha) as [Hf Hz]. set (a := fresh (heap_of table)) in *.
  change ((a, object k) :: heap_of table) with (heap_of ((a, k) :: table)).
  destruct k as [bits|p].
  - unfold issue, template_for, n20_crypto_boringssl_key_get_public_key, load_key. rewrite find_heap, lookup_cons, N.eqb_refl.
    destruct (N.eqb_spec a 0); [contradiction|]. cbn [negb bind option_map object k_type]. change (public_key_size 4) with (@None N). cbv iota. cbn [bind]. split; [constructor|right]. exists secret, (SecretKey bits). splits; [|assumption|reflexivity].
    unfold handle_key in Hsec. destruct (cdi =? 0); [discriminate|assumption].
  - pose proof (derived_type _ _ _ _ _ Hder) as <-.
    assert (Hkey : lookup ((a, SigningKey p) :: table) a = Some (SigningKey p)) by now rewrite lookup_cons, N.eqb_refl.
    assert (Hnull' : lookup ((a, SigningKey p) :: table) 0 = None) by (rewrite lookup_cons; destruct (N.eqb_spec a 0); [contradiction|assumption]).
    destruct (issue (heap_of ((a, SigningKey p) :: table)) a (type_of p) t pkb sigb buffer) as [[[u h] [cert|]]|x|] eqn:Ei.
    + destruct (C50_issued E B _ a p allowed t vs pkb sigb buffer u h cert Hs Hp Hkey Hnull' Ht Hv Hu Hpk Hsb Hb Ei) as (H1 & (signed & H2) & H3 & _ & ->).
      rewrite filter_new by assumption. splits; [assumption|reflexivity|assumption|]. exists secret, p, signed. splits; try assumption.
      unfold handle_key in Hsec. destruct (cdi =? 0); [discriminate|assumption].
    + destruct (C50_issue E B _ a p allowed t vs Hs Hp Hkey Hnull' Ht Hv Hu) as (signed & c & _ & _ & HI).
      destruct (HI pkb sigb buffer Hpk Hsb Hb) as (u' & HP & HR). rewrite HR in Ei. injection Ei as <- <- _. split; [assumption|].
      destruct (existsb fails (calls_of p) || (len buffer <? len signed)); [right|left; rewrite N.eqb_refl; cbn [negb]; now rewrite filter_absent].
      exists secret, (SigningKey p). splits; [|assumption|reflexivity]. unfold handle_key in Hsec. destruct (cdi =? 0); [discriminate|assumption].
    + destruct (C50_issue E B _ a p allowed t vs Hs Hp Hkey Hnull' Ht Hv Hu) as (signed & c & _ & _ & HI).
      destruct (HI pkb sigb buffer Hpk Hsb Hb) as (u' & HP & HR). rewrite HR in Ei. discriminate.
    + destruct (C50_issue E B _ a p allowed t vs Hs Hp Hkey Hnull' Ht Hv Hu) as (signed & c & _ & _ & HI).
      destruct (HI pkb sigb buffer Hpk Hsb Hb) as (u' & HP & HR). rewrite HR in Ei. discriminate.
Qed.
Print Assumptions C50_from_cdi.

Lemma from_cdi_exact : forall (E : Env) (B : Bssl) (A : Allocator) (table : table) cdi ty label allowed t vs secret p,
  no_failure B -> computes_sha2 B -> signs B -> publishes B -> allocator_ok A -> lookup table 0 = None -> len label < SZ ->
  lookup table cdi = Some (SecretKey secret) -> derived B secret label ty (SigningKey p) ->
  tbs_ok t -> callbacks allowed (used_exts (tbs_exts t)) vs -> serial_allowed allowed t ->
  let cert := cert_under B p (with_public (tbs_of t vs) (public_bytes B p)) in
  exists n, forall fuel public_key_buffer signature buffer, (n <= fuel)%nat ->
      98 <= len public_key_buffer < SZ -> 104 <= len signature < SZ -> len cert <= len buffer < SZ ->
      exists u, Forall allowed u /\ issue_from_cdi fuel (heap_of table) cdi ty label t public_key_buffer signature buffer = Ret (u, heap_of table, Some cert).
Proof.
  intros E B A table cdi ty label allowed t vs secret p Hnf Hsha Hs Hp Ha Hnull Hlab Hsec Hder Ht Hv Hu cert.
  set (g := mkGather 1 (Some [slice_of label])).
  assert (Hcz : (cdi =? 0) = false) by (destruct (N.eqb_spec cdi 0) as [->|]; [congruence|reflexivity]).
  assert (Hk : handle_key table cdi = Some (SecretKey secret)) by (unfold handle_key; now rewrite Hcz).
  assert (Hok : op_ok (live (heap_of table)) (Kdf true cdi ty (Some g) (Some 0))).
  { split; [right; now rewrite live_lookup, Hsec|now apply label_ok]. }
  assert (Hty : is_none (kind_of ty) = false) by (unfold derived in Hder; destruct (kind_of ty); [reflexivity|contradiction]).
  assert (He : first_error (kdf_errors true (handle_key table cdi) ty (Some g) (Some 0)) = ok_e).
  { unfold kdf_errors. rewrite Hk, Hty. reflexivity. }
  destruct (C49_kdf_succeeds E B A table true cdi ty (Some g) (Some 0) secret (SigningKey p) Hnf Hsha Hok He Hk) as [n Hn].
  { unfold g. now rewrite label_message. }
  destruct (fresh_lookup A table Ha) as [Hf Hz]. set (a := fresh (heap_of table)) in *.
  assert (Hkey : lookup ((a, SigningKey p) :: table) a = Some (SigningKey p)) by now rewrite lookup_cons, N.eqb_refl.
  assert (Hnull' : lookup ((a, SigningKey p) :: table) 0 = None) by (rewrite lookup_cons; destruct (N.eqb_spec a 0); [contradiction|assumption]).
  pose proof (issue_exact E B _ a p allowed t vs Hs Hp Hkey Hnull' Ht Hv Hu) as HI. cbv zeta in HI. fold cert in HI.
  set (signed := enc_tlv (tlv_tbs _)) in HI. assert (Hle : len signed <= len cert) by apply cert_under_signed.
  exists n. intros fuel pkb sigb buffer Hfuel Hpk Hsb Hb.
  destruct (HI pkb sigb buffer Hpk Hsb ltac:(lia)) as (u & HPu & HR). exists u. split; [exact HPu|].
  unfold issue_from_cdi, GetSigningKey. fold g. rewrite (Hn fuel Hfuel). cbn [bind].
  change ((a, object (SigningKey p)) :: heap_of table) with (heap_of ((a, SigningKey p) :: table)).
  rewrite <- (derived_type _ _ _ _ _ Hder), HR.
  assert (Hx : existsb fails (calls_of p) = false).
  { destruct (existsb fails (calls_of p)) eqn:Ex; [|reflexivity]. apply existsb_exists in Ex. destruct Ex as (x & _ & Ex). rewrite Hnf in Ex. discriminate. }
  rewrite Hx, filter_new by assumption. cbn [orb]. replace (len buffer <? len signed) with false by lia. replace (len buffer <? len cert) with false by lia. reflexivity.
Qed.

(** Conversely, when no BoringSSL call fails, the key exists and the buffer is large enough, the certificate is issued. *)
Theorem C50_from_cdi_complete : forall (E : Env) (B : Bssl) (A : Allocator) (table : table) cdi ty label allowed t vs secret p,
  no_failure B -> computes_sha2 B -> signs B -> publishes B -> allocator_ok A -> lookup table 0 = None -> len label < SZ ->
  lookup table cdi = Some (SecretKey secret) -> derived B secret label ty (SigningKey p) ->
  tbs_ok t -> callbacks allowed (used_exts (tbs_exts t)) vs -> serial_allowed allowed t ->
  exists n signed cert, (len cert < SZ -> signed_by B p t vs signed cert) /\
    forall fuel public_key_buffer signature buffer, (n <= fuel)%nat ->
      98 <= len public_key_buffer < SZ -> 104 <= len signature < SZ -> len cert <= len buffer < SZ ->
      exists u, issue_from_cdi fuel (heap_of table) cdi ty label t public_key_buffer signature buffer = Ret (u, heap_of table, Some cert).
Proof.
  intros E B A table cdi ty label allowed t vs secret p Hnf Hsha Hs Hp Ha Hnull Hlab Hsec Hder Ht Hv Hu.
  destruct (from_cdi_exact E B A table cdi ty label allowed t vs secret p Hnf Hsha Hs Hp Ha Hnull Hlab Hsec Hder Ht Hv Hu) as [n Hn].
  eexists n, _, _. split; [exact (cert_under_reads E B p t vs _ Ht)|].
  intros fuel pkb sigb buffer Hf Hpk Hsb Hb. destruct (Hn fuel pkb sigb buffer Hf Hpk Hsb Hb) as (u & _ & HR). now exists u.
Qed.
Print Assumptions C50_from_cdi_complete.

(** ** Examples: the template of the examples of C26, with the toy BoringSSL *)
#[local] Existing Instance PropX509.env64.
Definition issue_table : table := [(3, SigningKey (Ed25519 (bytes [5]))); (4, SecretKey (bytes [6])); (5, SigningKey (EC P256 7))].
Definition issue_key (p : pkey) (a size : N) (B : Bssl) : res issued :=
  @issue PropX509.env64 B (heap_of issue_table) a (type_of p) example_tbs (repeat x00 98) (repeat x00 104) (repeat x00 (N.to_nat size)).
(** The certificate, and the table of keys afterwards. *)
Definition outcome_of (r : res issued) : option (option (cert_fields * list byte) * heap) :=
  match r with
  | Ret ([], h, Some c) => match read_cert c, cert_signed_part c with Some f, Some s => Some (Some (f, s), h) | _, _ => None end
  | Ret ([], h, None) => Some (None, h)
  | _ => None
  end.
Example C50_example :
  @tbs_ok PropX509.env64 example_tbs /\ callbacks clean (used_exts (tbs_exts example_tbs)) example_values /\ serial_allowed clean example_tbs /\
  lookup issue_table 5 = Some (SigningKey (EC P256 7)) /\ lookup issue_table 0 = None /\
  match outcome_of (issue_key (EC P256 7) 5 400 (toy none_fails)) with
  | Some (Some (f, s), h) =>
      cf_signature f = bits_of_bytes (ecdsa_der (be_val s mod 256 ^ 32) 7) /\ tf_key (cf_tbs f) = bits_of_bytes (x04 :: be_bytes 32 7 ++ be_bytes 32 1) /\
      tf_serial (cf_tbs f) = 511%Z /\ h = [(3, object (SigningKey (Ed25519 (bytes [5])))); (4, object (SecretKey (bytes [6])))]
  | _ => False
  end /\
  match outcome_of (issue_key (Ed25519 (bytes [5])) 3 400 (toy none_fails)) with
  | Some (Some (f, s), h) => cf_signature f = bits_of_bytes (be_bytes 32 (be_val s) ++ be_bytes 32 5) /\ tf_key (cf_tbs f) = bits_of_bytes (be_bytes 32 5)
  | _ => False
  end.
Proof.
  splits; [apply example_cert_ok|apply C26_example|apply C26_example|reflexivity|reflexivity| |]; vm_compute; repeat split.
Qed.
(** Too short a buffer: for the certificate (the key is gone all the same) and already for the signed part. A failing call. *)
Example C50_no_certificate :
  option_map fst (outcome_of (issue_key (EC P256 7) 5 260 (toy none_fails))) = Some None /\
  option_map (fun x => len (snd x)) (outcome_of (issue_key (EC P256 7) 5 260 (toy none_fails))) = Some 2 /\
  outcome_of (issue_key (EC P256 7) 5 200 (toy none_fails)) = Some (None, heap_of issue_table) /\
  outcome_of (issue_key (EC P256 7) 5 400 (toy (fun c => match c with c_sign_final => true | _ => false end))) = Some (None, heap_of issue_table).
Proof. splits; vm_compute; reflexivity. Qed.
(** Wrapping: a value with the top bit set and a short one; a second half of zero at the end of the object is read across the end. *)
Example C50_wrap_example :
  signature_2_asn1_sequence (repeat x00 104) (be_bytes 32 (255 * 256 ^ 31) ++ be_bytes 32 258) =
    ([], bytes ([0x30; 0x27; 0x02; 0x21; 0x00; 0xff]) ++ repeat x00 31 ++ bytes [0x02; 0x02; 0x01; 0x02]) /\
  fst (signature_2_asn1_sequence (repeat x00 104) (be_bytes 32 1 ++ be_bytes 32 0)) = [UBReadOob] /\
  fst (fst (render (repeat x00 104) (n20_x509_rs (be_bytes 32 1 ++ be_bytes 32 0 ++ [x00]) 64))) = [].
Proof. splits; vm_compute; reflexivity. Qed.
(** From the secret behind handle 4: the key type is Ed25519, the template is the one above. *)
Example C50_from_cdi_example : exists n signed cert,
  forall fuel buffer, (n <= fuel)%nat -> len cert <= len buffer < SZ ->
    exists u, @issue_from_cdi PropX509.env64 (toy none_fails) bump fuel (heap_of issue_table) 4 3 (bytes [0x6b; 0x65; 0x79]) example_tbs
                (repeat x00 98) (repeat x00 104) buffer = Ret (u, heap_of issue_table, Some cert) /\
      signed_by (toy none_fails) (Ed25519 (HKDF_expand SHA512 (bytes [6]) (bytes [0x6b; 0x65; 0x79]) 32)) example_tbs example_values signed cert.
Proof.
  destruct (C50_from_cdi_complete PropX509.env64 (toy none_fails) bump issue_table 4 3 (bytes [0x6b; 0x65; 0x79]) clean example_tbs example_values (bytes [6])
    (Ed25519 (HKDF_expand SHA512 (bytes [6]) (bytes [0x6b; 0x65; 0x79]) 32))) as (n & signed & cert & H1 & H2);
    try (intros ?; reflexivity); try exact (toy_sha2 _); try exact (toy_signs _); try exact (toy_publishes _); try exact bump_ok; try reflexivity; try apply example_cert_ok; try apply C26_example.
  exists n, signed, cert. intros fuel buffer Hf Hb.
  destruct (H2 fuel (repeat x00 98) (repeat x00 104) buffer Hf) as [u Hu]; [split; [vm_compute; congruence|reflexivity]..|exact Hb|].
  exists u. split; [exact Hu|]. apply H1. lia.
Qed.
