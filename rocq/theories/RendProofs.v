(** A compositional form of [renders]: the bytes are the specified ones as soon as the output fits in size_t. *)
From Coq Require Import List NArith ZArith Bool Lia Strings.Byte.
From Coq Require Import ZifyBool ZifyNat ZifyN.
From Verif Require Import Base BaseFacts Stream SpecStream StreamProofs SpecDigits DigitsFacts SpecDer DerFacts Asn1 SpecAsn1
  Asn1Proofs Oid X509 X509Ext SpecX509.
Import ListNotations.
Open Scope N_scope.

Section WithEnv.
Context `{E : Env}.

(** [f] always renders something; if either that or [b] is shorter than the range of size_t, it is [b]. *)
Definition rend (P : ub -> Prop) (f : cmd) (b : list byte) : Prop :=
  exists b0, renders P f b0 /\ (len b0 < SZ \/ len b < SZ -> b0 = b).

Lemma rend_renders P f b : renders P f b -> rend P f b.
Proof. intro. exists b. auto. Qed.

Lemma rend_small P f b : rend P f b -> len b < SZ -> renders P f b.
Proof. intros (b0 & H & E0) Hl. now rewrite <- (E0 (or_intror Hl)). Qed.

Lemma rend_eq P f a b : a = b -> rend P f a -> rend P f b.
Proof. now intros ->. Qed.

Lemma rend_ext P f g b : (forall w, f w = g w) -> rend P f b -> rend P g b.
Proof. intros H (b0 & R & E0). exists b0. split; [now apply (renders_ext P f)|assumption]. Qed.

Lemma rend_skip P : rend P skip [].
Proof. apply rend_renders, renders_skip. Qed.

Lemma rend_seq P f g a b : rend P f a -> rend P g b -> rend P (f ;; g)%cmd (b ++ a).
Proof.
  intros (a0 & Ra & Ea) (b0 & Rb & Eb). exists (b0 ++ a0). split; [now apply renders_seq|].
  rewrite !len_app. intro H. rewrite Ea, Eb; [reflexivity| |]; destruct H; (left; lia) || (right; lia).
Qed.

Lemma rend_log (P : ub -> Prop) u : Forall P u -> rend P (log u) [].
Proof. intro. now apply rend_renders, renders_log. Qed.

Lemma rend_log_seq (P : ub -> Prop) u f b : Forall P u -> rend P f b -> rend P (log u ;; f)%cmd b.
Proof. intros. eapply rend_eq; [apply app_nil_r|]. apply rend_seq; [now apply rend_log|assumption]. Qed.

Lemma rend_when P (c : bool) f b : (c = true -> rend P f b) -> rend P (when c f) (if c then b else []).
Proof. destruct c; intro H; [now apply H|apply rend_skip]. Qed.

Lemma rend_header P f a c k t : rend P f a -> c < 4 ->
  rend P (with_length f (fun n => n20_asn1_header c k t n)) (enc_tlv (Tlv c k t a)).
Proof.
  intros (a0 & Ra & Ea) Hc. pose proof SZ_hi. pose proof SZ_pos.
  exists ((enc_ident c k t ++ enc_len (len a0 mod SZ)) ++ a0). split.
  - apply renders_with_length; [assumption| |].
    + eapply renders_eq; [|apply header_renders]; [now rewrite N.mod_small|].
      pose proof (N.mod_lt (len a0) SZ). change (2 ^ 64) with 18446744073709551616. lia.
    + intros n Hn. eexists. apply header_renders. change (2 ^ 64) with 18446744073709551616. lia.
  - intro H1. assert (a0 = a).
    { apply Ea. destruct H1 as [H1|H1]; [rewrite len_app in H1; left; lia|].
      right. pose proof (len_enc_tlv (Tlv c k t a)). cbn in *. lia. }
    subst a0. assert (len a < SZ).
    { destruct H1 as [H1|H1]; [rewrite len_app in H1; lia|].
      pose proof (len_enc_tlv (Tlv c k t a)). cbn in *. lia. }
    unfold enc_tlv. cbn [t_class t_constructed t_tag t_content]. rewrite N.mod_small by assumption. now rewrite app_assoc.
Qed.

Lemma rend_hwc P c k t f a ti : rend P f a -> c < 4 ->
  rend P (n20_asn1_header_with_content c k t (Some f) ti) (enc_tlv (retag (tagging_of ti) (Tlv c k t a))).
Proof.
  intros Hf Hc. unfold n20_asn1_header_with_content, tagging_of. cbv zeta.
  destruct ti as [[] tg]; cbn [ti_type ti_tag retag t_content t_constructed].
  - now apply rend_header.
  - now apply rend_header.
  - apply rend_header; [now apply rend_header|reflexivity].
Qed.

Lemma rend_sequence P f a ti : rend P f a ->
  rend P (n20_asn1_sequence (Some f) ti) (enc_tlv (retag (tagging_of ti) (tlv_sequence a))).
Proof. intro. now apply rend_hwc. Qed.

Lemma rend_null P ti : rend P (n20_asn1_null ti) (enc_tlv (retag (tagging_of ti) tlv_null)).
Proof. apply rend_renders, null_renders. Qed.

Lemma rend_oid P o ti : oid_ok o -> oid_elem_count o <= 10 ->
  rend P (n20_asn1_object_identifier (Some o) ti) (enc_tlv (retag (tagging_of ti) (tlv_oid (oid_octets o)))).
Proof.
  intros Hok Hc. unfold n20_asn1_object_identifier, N20_ASN1_MAX_OID_ELEMENTS.
  destruct (N.ltb_spec 10 (oid_elem_count o)); [lia|]. apply rend_hwc; [|reflexivity].
  now apply rend_renders, oid_content_renders.
Qed.

Lemma rend_oid_given P o : oid_given o ->
  rend P (n20_asn1_object_identifier o n20_asn1_tag_info_no_override) (enc_tlv (tlv_oid (enc_oid (arcs_of o)))).
Proof.
  destruct o as [o|]; [|intros []]. intros (Hok & Hc & Hv & Hs). cbn [arcs_of].
  rewrite <- oid_octets_enc by assumption. apply (rend_oid P o n20_asn1_tag_info_no_override); [assumption|lia].
Qed.

Lemma rend_integer (P : ub -> Prop) d size le tc ti : 0 < size -> size <= len d -> Forall P (int_ub d size le tc) ->
  rend P (n20_asn1_integer (mkSlice size (Some d)) le tc ti)
    (enc_tlv (retag (tagging_of ti) (tlv_integer (enc_int (number_of (takeN size d) le tc))))).
Proof.
  intros H0 Hs HP. unfold n20_asn1_integer. cbn [sl_buf sl_size].
  pose proof (read_int_unique _ _ (int_octets_value d size le tc H0 Hs)) as HU. rewrite <- HU.
  apply rend_hwc; [now apply rend_renders, integer_content_renders|reflexivity].
Qed.

Lemma rend_uint64 (P : ub -> Prop) n ti : (forall u, stray_reads u -> P u) -> ti_ok ti -> n < 2 ^ 64 ->
  rend P (n20_asn1_uint64 n ti) (enc_tlv (retag (tagging_of ti) (tlv_integer (enc_int (Z.of_N n))))).
Proof. intros HP Hti Hn. apply rend_renders, (renders_weaken stray_reads); [exact HP|now apply uint64_renders]. Qed.

Lemma rend_int64 (P : ub -> Prop) z ti : (forall u, stray_reads u -> P u) -> ti_ok ti -> int64_ok z ->
  rend P (n20_asn1_int64 z ti) (enc_tlv (retag (tagging_of ti) (tlv_integer (enc_int z)))).
Proof. intros HP Hti Hz. apply rend_renders, (renders_weaken stray_reads); [exact HP|now apply int64_renders]. Qed.

Lemma rend_bitstring P b bits ti : bitstring_ok b bits ->
  rend P (n20_asn1_bitstring b bits ti)
    (enc_tlv (retag (tagging_of ti) (tlv_bitstring (enc_bits (key_bits b bits))))).
Proof.
  intro Hok. apply rend_hwc; [|reflexivity]. apply rend_renders.
  destruct b as [d|]; cbn [key_bits]; [destruct Hok; now apply bitstring_content_renders|].
  apply bitstring_null_content_renders.
Qed.

Lemma rend_stringish P tag s ti : slice_ok s ->
  rend P (n20_asn1_stringish tag (Some s) ti) (enc_tlv (retag (tagging_of ti) (Tlv 0 false tag (slice_bytes s)))).
Proof.
  intro Hs. apply rend_hwc; [|reflexivity]. apply rend_renders. now apply (stringish_content_renders P (Some s)).
Qed.
Lemma rend_octetstring P s ti : slice_ok s ->
  rend P (n20_asn1_octetstring (Some s) ti) (enc_tlv (retag (tagging_of ti) (tlv_octetstring (slice_bytes s)))).
Proof. apply rend_stringish. Qed.
Lemma rend_printablestring P s ti : slice_ok s ->
  rend P (n20_asn1_printablestring (Some s) ti) (enc_tlv (retag (tagging_of ti) (tlv_printablestring (slice_bytes s)))).
Proof. apply rend_stringish. Qed.
Lemma rend_utf8_string P s ti : slice_ok s ->
  rend P (n20_asn1_utf8_string (Some s) ti) (enc_tlv (retag (tagging_of ti) (tlv_utf8string (slice_bytes s)))).
Proof. apply rend_stringish. Qed.
Lemma rend_time P s ti : slice_ok s ->
  rend P (n20_asn1_generalized_time (Some s) ti) (enc_tlv (retag (tagging_of ti) (tlv_generalizedtime (slice_bytes s)))).
Proof. apply rend_stringish. Qed.
Lemma rend_boolean P v ti :
  rend P (n20_asn1_boolean v ti) (enc_tlv (retag (tagging_of ti) (tlv_boolean v))).
Proof. apply rend_hwc; [|reflexivity]. apply rend_renders, renders_prepend1. Qed.

(** ** The sizing pass *)
Lemma sizing_spec P f b : renders P f b -> sizing_succeeds f <-> len b < SZ.
Proof.
  intros [_ H]. unfold sizing_succeeds.
  assert (Hok : buffer_ok None 0) by (split; [apply SZ_pos|exact I]).
  destruct (H (n20_stream_init None 0) [] None 0 [] Hok (shows_init None 0 Hok)) as (s' & v & -> & (_ & -> & _) & _).
  rewrite app_nil_r. destruct (N.leb_spec SZ (len b)); split; (lia || easy).
Qed.

Lemma rend_sized P f b : rend P f b -> sizing_succeeds f -> renders P f b /\ len b < SZ.
Proof.
  intros (b0 & R & E0) Hs. apply (sizing_spec P f b0 R) in Hs. rewrite <- (E0 (or_introl Hs)). auto.
Qed.

End WithEnv.
