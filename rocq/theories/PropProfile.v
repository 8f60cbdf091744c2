(** Property C52: which inputs give certificates within the profile of RFC 5280. *)
From Coq Require Import Strings.String.
From Coq Require Import List NArith ZArith Bool Strings.Byte Lia.
From Coq Require Import ZifyBool ZifyNat ZifyN.
From Verif Require Import Base BaseFacts Stream SpecStream StreamProofs SpecDigits DigitsFacts SpecDer DerFacts Asn1 SpecAsn1 Asn1Proofs
  Oid X509 X509Ext SpecX509 RendProofs X509Facts X509Proofs PropAsn1 PropX509 PropX509Cert PropX509Ext.
From Verif Require Import SpecProfile.
Import ListNotations.
Open Scope N_scope.

(** ** Serial numbers *)
Lemma without_zeros_spec bs : be_val (without_zeros bs) = be_val bs /\
  match without_zeros bs with [] => True | b :: _ => b2n b <> 0 end.
Proof.
  induction bs as [|b bs IH]; [split; [reflexivity|exact I]|]. cbn [without_zeros]. destruct (N.eqb_spec (b2n b) 0) as [Hb|Hb].
  - destruct IH as [-> IH]. split; [|exact IH]. now rewrite be_val_cons, Hb.
  - split; [reflexivity|exact Hb].
Qed.
Lemma enc_int_positive b r : b2n b <> 0 -> enc_int (Z.of_N (be_val (b :: r))) = if b2n b <? 128 then b :: r else x00 :: b :: r.
Proof.
  intro Hb. symmetry. apply read_int_unique. unfold read_int. destruct (N.ltb_spec (b2n b) 128) as [H|H].
  - replace (int_minimal (b :: r)) with true; [now rewrite twos_val_pos|]. cbn [int_minimal]. destruct r; [reflexivity|]. pose proof (b2n_lt b). lia.
  - replace (int_minimal (x00 :: b :: r)) with true by (cbn [int_minimal]; change (b2n x00) with 0; lia).
    rewrite twos_val_pos by reflexivity. now rewrite be_val_00.
Qed.
Lemma serial_conforms_iff bs : serial_conforms (Z.of_N (be_val bs)) <-> serial_given bs.
Proof.
  unfold serial_conforms, serial_given. cbv zeta. destruct (without_zeros_spec bs) as [<- Hz]. destruct (without_zeros bs) as [|b r].
  - split; [intros [H _]; change (be_val []) with 0 in H; lia|intros [H _]; congruence].
  - rewrite enc_int_positive by assumption. cbn [hd]. rewrite be_val_cons.
    assert (0 < 256 ^ len r) by (apply N.neq_0_lt_0, N.pow_nonzero; lia).
    assert (0 < b2n b * 256 ^ len r) by nia.
    destruct (N.ltb_spec (b2n b) 128) as [Hs|Hs]; rewrite ?len_cons; (split; [intros [_ H1]|intros (_ & H1 & H2)]); (split; [try discriminate; lia|]); try split; lia.
Qed.

(** ** Names *)
Lemma hex_printable bs : printable (hex_lower bs).
Proof.
  unfold printable, hex_lower. induction bs as [|b bs IH]; [reflexivity|]. cbn [flat_map]. rewrite forallb_app, IH, andb_true_r.
  revert b. apply byte_check. vm_compute. reflexivity.
Qed.
Lemma name_conforms_iff n : name_conforms (name_of n) <-> name_given n.
Proof.
  unfold name_conforms, name_given, name_of. rewrite Forall_map. split; intro H; (eapply Forall_impl; [|exact H]); intros r Hr; unfold attribute_of in *; cbn [snd] in *.
  - intro Hn. now destruct (list_eq_dec _ _ _).
  - destruct (list_eq_dec _ _ _); [apply hex_printable|now apply Hr].
Qed.
Lemma name_of_nil n : name_count n <= len (name_elements n) -> (name_of n <> [] <-> name_count n <> 0).
Proof.
  intro Hl. unfold name_of. split; intros H E; apply H.
  - rewrite E. now rewrite takeN_0.
  - apply (f_equal len) in E. unfold len in E at 1. rewrite map_length in E. change (N.of_nat (length (takeN (name_count n) (name_elements n))) = 0) in E.
    fold (len (takeN (name_count n) (name_elements n))) in E. rewrite len_takeN in E. lia.
Qed.

(** ** Times *)
Lemma epoch_not : ~ time_conforms text_epoch.
Proof. intros (y & Hy & H). vm_compute in Hy. injection Hy as <-. lia. Qed.
Lemma no_expiration_ok : time_conforms text_no_expiration.
Proof. exists 9999. split; [vm_compute; reflexivity|lia]. Qed.

Lemma exts_oids x vs : length (used_exts x) = length vs -> map xf_oid (exts_of x vs) = map (fun e => arcs_of (ext_oid e)) (used_exts x).
Proof.
  unfold exts_of. generalize (used_exts x) as l. intro l. revert vs. induction l as [|e l IH]; intros [|v vs] H; try discriminate; [reflexivity|].
  cbn [combine map fst snd ext_of xf_oid]. f_equal. apply IH. cbn in H. congruence.
Qed.

(** A rendered certificate is within the profile if and only if the caller provides what the profile requires of the input. *)
Theorem C52_profile_exact : forall (E : Env) allowed t c vs b,
  cert_ok t c -> callbacks allowed (used_exts (tbs_exts t)) vs -> serial_allowed allowed t ->
  renders allowed (n20_x509_cert (Some c)) b -> len b < SZ ->
  exists f, read_cert b = Some f /\ (in_profile f <-> profile_given t c).
Proof.
  intros E allowed t c vs b Hc HV Hu HR Hl.
  destruct (C26_cert_round_trip E allowed t c vs Hc HV Hu) as (b' & HR' & _ & Hread); [now apply (sizing_spec allowed _ b HR)|].
  rewrite <- (renders_det _ _ _ _ _ Hl HR HR') in Hread. eexists. split; [exact Hread|].
  destruct Hc as (_ & (_ & _ & _ & (_ & Hn & _) & _) & _).
  unfold in_profile, profile_given. cbv zeta. cbn [cert_of cf_tbs cf_sig_alg tbs_of tf_version tf_serial tf_sig_alg tf_issuer tf_not_before tf_not_after tf_subject tf_exts].
  rewrite serial_conforms_iff, !name_conforms_iff, (name_of_nil _ Hn), exts_oids by exact (Forall2_length _ _ _ HV).
  unfold time_or. pose proof epoch_not. pose proof no_expiration_ok.
  destruct (sl_buf (v_not_before (tbs_validity t))), (sl_buf (v_not_after (tbs_validity t))); intuition congruence.
Qed.
Print Assumptions C52_profile_exact.

(** The default start of validity (a NULL [not_before]) is never within the profile: 1970 would have to be encoded as UTCTime, and the library has only
    GeneralizedTime. *)
Theorem C52_default_not_before_refuted : forall (E : Env) allowed t c vs b,
  cert_ok t c -> callbacks allowed (used_exts (tbs_exts t)) vs -> serial_allowed allowed t ->
  renders allowed (n20_x509_cert (Some c)) b -> len b < SZ -> sl_buf (v_not_before (tbs_validity t)) = None ->
  exists f, read_cert b = Some f /\ tf_not_before (cf_tbs f) = text_epoch /\ ~ in_profile f.
Proof.
  intros E allowed t c vs b Hc HV Hu HR Hl Hd.
  destruct (C26_cert_round_trip E allowed t c vs Hc HV Hu) as (b' & HR' & _ & Hread); [now apply (sizing_spec allowed _ b HR)|].
  rewrite <- (renders_det _ _ _ _ _ Hl HR HR') in Hread.
  destruct (C52_profile_exact E allowed t c vs b Hc HV Hu HR Hl) as (f & Hf & HP). rewrite Hread in Hf. injection Hf as <-.
  eexists. split; [exact Hread|]. split.
  - cbn. unfold time_or. now rewrite Hd.
  - intro H. apply HP in H. destruct H as (_ & _ & _ & _ & (H & _) & _). congruence.
Qed.
Print Assumptions C52_default_not_before_refuted.

(** The documentation of the serial number: up to 20 octets, of which the first is below 0x80 if there are 20, take at most 20 octets in the certificate. One more
    octet, or a 20th with the top bit set, takes more. *)
Lemma documented_length bs : len bs <= 20 -> (len bs = 20 -> b2n (hd x00 bs) < 128) -> len (enc_int (Z.of_N (be_val bs))) <= 20.
Proof.
  intros Hl Ht. destruct (N.eq_dec (be_val bs) 0) as [H0|H0]; [rewrite H0; vm_compute; congruence|].
  apply serial_conforms_iff. unfold serial_given. cbv zeta.
  assert (G : forall l, len (without_zeros l) <= len l /\ (len (without_zeros l) = len l -> without_zeros l = l)).
  { induction l as [|b l [IH1 IH2]]; [split; [apply N.le_refl|reflexivity]|]. cbn [without_zeros]. destruct (_ =? 0); [|split; [apply N.le_refl|reflexivity]].
    rewrite len_cons. split; [lia|]. intro. lia. }
  destruct (G bs) as [G1 G2]. destruct (without_zeros_spec bs) as [HV _].
  split; [intros E; rewrite E in HV; apply H0; rewrite <- HV; reflexivity|]. split; [lia|]. intro H20. rewrite G2 by lia. apply Ht. lia.
Qed.
Theorem C52_documented_serial : forall (E : Env) d n, 0 < n -> n <= len d -> n + 40 <= SZ ->
  exists b content,
    renders stray_reads (n20_asn1_integer (mkSlice n (Some d)) false false n20_asn1_tag_info_no_override) b /\
    decodes b (tlv_integer content) /\ read_int content = Some (Z.of_N (be_val (takeN n d))) /\
    (n <= 20 -> (n = 20 -> b2n (hd x00 d) < 128) -> len content <= 20) /\
    (b2n (hd x00 d) <> 0 -> len content <= 20 -> n <= 20 /\ (n = 20 -> b2n (hd x00 d) < 128)).
Proof.
  intros E d n H0 Hn HZ.
  destruct (C15_asn1_integer_value E d n false false n20_asn1_tag_info_no_override) as (b & content & HR & HD & HI & _); [lia|lia|lia|reflexivity|].
  exists b, content.
  assert (Hhd : hd x00 (takeN n d) = hd x00 d).
  { unfold takeN. destruct d as [|x d]; [change (len []) with 0 in Hn; lia|]. destruct (N.to_nat n) eqn:Ek; [lia|]. reflexivity. }
  assert (Hlen : len (takeN n d) = n) by (rewrite len_takeN; lia).
  change (number_of (takeN n d) false false) with (Z.of_N (be_val (takeN n d))) in HI.
  splits; [exact HR|exact HD|exact HI| |]; rewrite (read_int_unique _ _ HI).
  - intros H1 H2. apply documented_length; rewrite ?Hlen, ?Hhd; assumption.
  - rewrite <- Hhd. destruct (takeN n d) as [|x r]; [change (len []) with 0 in Hlen; lia|]. cbn [hd]. intro Hx.
    rewrite enc_int_positive by assumption. rewrite <- Hlen. destruct (N.ltb_spec (b2n x) 128); rewrite ?len_cons; lia.
Qed.
Print Assumptions C52_documented_serial.

(** ** Examples *)
Section Examples.
#[local] Existing Instance env64.
Definition text (s : String.string) : list byte := String.list_byte_of_string s.
Arguments text s%string.
(** The certificate of C26 with other validities and names. *)
Definition profile_tbs (serial issuer : list byte) (not_before : slice) (xs : extensions) : tbs :=
  let n := mkName 2 [mkRdn (Some OID_COMMON_NAME) (slice_of issuer); mkRdn (Some OID_SERIAL_NUMBER) (slice_of (bytes [0; 0xff]))] in
  mkTbs (slice_of serial) (tbs_sig_alg example_tbs) n (mkValidity not_before slice_null) n (tbs_spki example_tbs) xs.
Definition profile_cert (t : tbs) (outer : algorithm_identifier) : cert := mkCert (Some t) outer 8 (Some (bytes [0x5a])).
Definition twice : extensions := mkExtensions 2 (Some [mkExtension (Some OID_KEY_USAGE) true None; mkExtension (Some OID_KEY_USAGE) false None]).
Definition once : extensions := mkExtensions 1 (Some [mkExtension (Some OID_KEY_USAGE) true None; mkExtension (Some OID_KEY_USAGE) false None]).
Definition fields_of (serial issuer : list byte) (not_before : slice) (xs : extensions) (outer : algorithm_identifier) : option cert_fields :=
  read_cert (rendered (n20_x509_cert (Some (profile_cert (profile_tbs serial issuer not_before xs) outer)))).
Definition good_outer : algorithm_identifier := tbs_sig_alg example_tbs.
Definition y2050 : slice := slice_of (text "20500101000000Z").
(** Within the profile; and one violation of each requirement. *)
Example C52_example :
  (exists f, fields_of (bytes [1]) (text "Ann (1)") y2050 once good_outer = Some f /\ in_profile f) /\
  profile_given (profile_tbs (bytes [1]) (text "Ann (1)") y2050 once) (profile_cert (profile_tbs (bytes [1]) (text "Ann (1)") y2050 once) good_outer).
Proof.
  assert (HT : time_conforms (text "20500101000000Z")) by (exists 2050; split; [vm_compute; reflexivity|apply N.le_refl]).
  split.
  - eexists. split; [vm_compute; reflexivity|]. unfold in_profile. cbv zeta.
    cbn [cf_tbs cf_sig_alg tf_version tf_serial tf_sig_alg tf_issuer tf_not_before tf_not_after tf_subject tf_exts map].
    splits; try reflexivity; try discriminate; try exact HT; try exact no_expiration_ok.
    + split; [reflexivity|vm_compute; congruence].
    + repeat (apply Forall_cons; [vm_compute; reflexivity|]). apply Forall_nil.
    + repeat (apply Forall_cons; [vm_compute; reflexivity|]). apply Forall_nil.
    + constructor; [easy|constructor].
  - unfold profile_given, profile_tbs, name_given. cbn [tbs_serial tbs_issuer tbs_subject tbs_validity v_not_before v_not_after sl_buf slice_null].
    splits; try reflexivity; try discriminate; try exact HT; try congruence.
    + split; [discriminate|]. split; [vm_compute; congruence|]. intro H. vm_compute in H. discriminate.
    + repeat (apply Forall_cons; [intro H; vm_compute; try reflexivity; now elim H|]). apply Forall_nil.
    + repeat (apply Forall_cons; [intro H; vm_compute; try reflexivity; now elim H|]). apply Forall_nil.
    + constructor; [easy|constructor].
Qed.
Example C52_violations :
  option_map (fun f => tf_not_before (cf_tbs f)) (fields_of (bytes [1]) (text "Ann") slice_null once good_outer) = Some text_epoch /\
  time_year (text "20491231235959Z") = Some 2049 /\ time_year (text "20500229000000Z") = None /\ time_year (text "20520229000000Z") = Some 2052 /\
  time_year (text "205001010000Z") = None /\ time_year text_epoch = Some 1970 /\
  option_map (fun f => tf_serial (cf_tbs f)) (fields_of (bytes [0]) (text "Ann") y2050 once good_outer) = Some 0%Z /\
  ~ printable (text "Ann*") /\ option_map (fun f => map snd (tf_issuer (cf_tbs f))) (fields_of (bytes [1]) (text "Ann*") y2050 once good_outer) = Some [text "Ann*"; text "00ff"] /\
  option_map (fun f => map xf_oid (tf_exts (cf_tbs f))) (fields_of (bytes [1]) (text "Ann") y2050 twice good_outer) = Some [[2; 5; 29; 15]; [2; 5; 29; 15]] /\
  option_map (fun f => cf_sig_alg f) (fields_of (bytes [1]) (text "Ann") y2050 once (mkAlg (Some OID_SHA256) pv_none)) =
    Some (AlgFields [2; 16; 840; 1; 101; 3; 4; 2; 1] NoParams).
Proof. splits; vm_compute; try reflexivity. discriminate. Qed.
(** Serial numbers: 20 octets, 20 with the top bit set, 21 of which the first two are zero. *)
Example C52_serial_case :
  len (rendered (n20_asn1_integer (slice_of (repeat x7f 20)) false false n20_asn1_tag_info_no_override)) = 22 /\
  len (rendered (n20_asn1_integer (slice_of (repeat x80 20)) false false n20_asn1_tag_info_no_override)) = 23 /\
  len (rendered (n20_asn1_integer (slice_of (x00 :: x00 :: repeat x80 19)) false false n20_asn1_tag_info_no_override)) = 22.
Proof. splits; vm_compute; reflexivity. Qed.
End Examples.
