(** C64: the TBS certificate, the extensions of DICE, and the rows of the repository. *)
From Coq Require Import List NArith ZArith Bool Lia Strings.Byte.
From Verif Require Import Base BaseFacts Stream SpecStream StreamProofs SpecDigits SpecDer DerFacts Asn1 SpecAsn1 Asn1Proofs Cbor Oid X509 X509Ext SpecX509 RendProofs X509Facts
  X509Proofs PropX509 PropX509Ext PropX509Cert.
From Verif Require Import ConformCore ConformX509 CryptoTest CoreTest SpecCoreTest CoreTestProofs.
From Verif Require Import X509Unique PropUnique.
From Verif Require Import X509Test PropX509Test.
Import ListNotations.
Open Scope N_scope.

Theorem C64_tbs : forall (E : Env) (K : Stack) allowed t values expected, tbs_ok t -> callbacks allowed (used_exts (tbs_exts t)) values -> serial_allowed allowed t ->
  decides (cert_tbs_encoding t expected) (read_tbs expected = Some (tbs_of t values) /\ len expected <= 256) allowed.
Proof.
  intros E K allowed t vs expected Ht Hv Hs. pose proof SZ_lo.
  apply (reads_instead allowed (n20_x509_cert_tbs (Some t)) read_tbs (fun a => enc_tlv (tlv_tbs a))); [lia|now apply rend_tbs|exact read_tbs_unique| |].
  - intros HL. apply read_tbs_enc; [now apply tbs_of_ok|now apply small_SZ].
  - intros b Hb. apply writes_decides; [lia|exact Hb].
Qed.
Print Assumptions C64_tbs.
Theorem C64_tbs_null : forall (E : Env) (K : Stack) expected, decides (CertTBSNullEncoding expected) (decodes expected (Tlv 0 true 16 [])) clean.
Proof.
  intros E K expected. pose proof SZ_lo. assert (Ht : tlv_ok (Tlv 0 true 16 [])) by (split; reflexivity).
  assert (HR : renders clean (n20_x509_cert_tbs None) [x30; x00]) by apply C26_null.
  eapply decides_iff; [apply writes_decides; [|exact HR]; lia|]. rewrite (decodes_iff _ _ Ht). change (enc_tlv (Tlv 0 true 16 [])) with [x30; x00].
  split; [now intros [-> _]|]. intros ->. split; [reflexivity|]. vm_compute. discriminate.
Qed.
Print Assumptions C64_tbs_null.

(** A TBS certificate of zeros is expected with NULL for each missing object identifier, and with the default validity. *)
Definition zero_tbs_parts : list tlv :=
  let empty := Tlv 0 true 16 [] in
  let no_algorithm := Tlv 0 true 16 (bytes [0x05; 0x00]) in
  [Tlv 2 true 0 (bytes [0x02; 0x01; 0x02]); Tlv 0 false 2 (bytes [0x00]); no_algorithm; empty;
   Tlv 0 true 16 (enc_tlvs [Tlv 0 false 24 text_epoch; Tlv 0 false 24 text_no_expiration]); empty;
   Tlv 0 true 16 (enc_tlvs [no_algorithm; Tlv 0 false 3 (bytes [0x00])])].
Lemma rend_zero_tbs (E : Env) : rend stray_reads (n20_x509_cert_tbs (Some zero_tbs)) (enc_tlv (Tlv 0 true 16 (enc_tlvs zero_tbs_parts))).
Proof.
  pose proof SZ_lo. assert (HA : rend stray_reads (n20_x509_algorithm_identifier (Some (mkAlg None pv_none))) (enc_tlv (Tlv 0 true 16 (bytes [0x05; 0x00])))).
  { apply (rend_sequence stray_reads _ _ n20_asn1_tag_info_no_override). cbn [n20_x509_algorithm_identifier_content alg_parameters alg_oid].
    change (bytes [0x05; 0x00]) with (enc_tlv tlv_null ++ []). apply rend_seq; [apply rend_skip|apply rend_renders, object_identifier_null_renders; exact I]. }
  assert (HN : rend stray_reads (n20_x509_name (Some (N20_X509_NAME []))) (enc_tlv (Tlv 0 true 16 []))).
  { apply (rend_name stray_reads (N20_X509_NAME [])). split; [vm_compute; discriminate|]. split; [vm_compute; discriminate|constructor]. }
  apply (rend_sequence stray_reads _ _ n20_asn1_tag_info_no_override). unfold zero_tbs_parts. cbv zeta. rewrite !enc_tlvs_cons.
  cbn [n20_x509_cert_tbs_content zero_tbs tbs_exts tbs_spki tbs_subject tbs_validity tbs_issuer tbs_sig_alg tbs_serial sl_size N.eqb].
  repeat match goal with |- rend _ (andthen _ _) _ => apply rend_seq end.
  - apply rend_renders. eapply renders_weaken; [|apply C23_no_extensions; now right]. intros ? [].
  - apply (rend_sequence stray_reads _ _ n20_asn1_tag_info_no_override). cbn [n20_x509_public_key_info_content spki_alg spki_key spki_bits].
    change (enc_tlvs []) with (@nil byte). rewrite app_nil_r. apply rend_seq; [|exact HA]. exact (rend_bitstring stray_reads None 0 n20_asn1_tag_info_no_override I).
  - exact HN.
  - apply (rend_validity stray_reads (mkValidity (mkSlice 0 None) (mkSlice 0 None))); (split; [cbn; lia|exact I]).
  - exact HN.
  - exact HA.
  - apply (rend_uint64 stray_reads 0 n20_asn1_tag_info_no_override); [auto|reflexivity|reflexivity].
  - apply rend_renders. apply (renders_prepend_all stray_reads (bytes [0xa0; 0x03; 0x02; 0x01; 0x02])). vm_compute len. lia.
Qed.
Theorem C64_tbs_zero : forall (E : Env) (K : Stack) expected,
  decides (CertTBSZeroEncoding expected) (exists content, decodes expected (Tlv 0 true 16 content) /\ read_tlvs content = Some zero_tbs_parts) stray_reads.
Proof.
  intros E K expected. pose proof SZ_lo. destruct (rend_zero_tbs E) as (b & HR & HE).
  assert (HL : len (enc_tlv (Tlv 0 true 16 (enc_tlvs zero_tbs_parts))) = 63) by (vm_compute; reflexivity).
  assert (HOK : tlv_ok (Tlv 0 true 16 (enc_tlvs zero_tbs_parts))) by (split; vm_compute; reflexivity).
  rewrite HE in HR by (right; rewrite HL; lia).
  eapply decides_iff; [apply (writes_expecting_decides stray_reads 0 128 _ _ expected ltac:(lia) HR)|]. rewrite HL. split.
  - intros [<- _]. exists (enc_tlvs zero_tbs_parts). split; [now apply (decodes_iff _ _ HOK)|]. vm_compute. reflexivity.
  - intros (c & Hd & Hc). apply read_tlvs_canonical in Hc. subst c. apply (decodes_iff _ _ HOK) in Hd. split; [now rewrite Hd|lia].
Qed.
Print Assumptions C64_tbs_zero.

(** ** The extensions of DICE *)

(** One extension whose content [read] takes for [v]. *)
Definition expects_one_extension {A} (expected : list byte) (id : list N) (critical : bool) (read : list byte -> option A) (v : A) : Prop :=
  len expected <= 2000 /\ exists content, read_exts expected = Some [ExtFields id critical content] /\ read content = Some v.

Lemma content_shorter x : len (xf_value x) < len (enc_tlv (tlv_exts [x])).
Proof.
  unfold tlv_exts, tlv_ext. cbn [map].
  repeat match goal with |- _ < len (enc_tlv (Tlv ?a ?b ?c ?d)) => eapply N.lt_trans; [|apply (proj2 (len_enc_tlv (Tlv a b c d)))]; cbn [t_content] end.
  unfold tlv_sequence. eapply N.lt_trans; [|apply (proj2 (len_enc_tlv (Tlv 0 true 16 _)))]. cbn [t_content]. rewrite enc_tlvs_one.
  eapply N.lt_trans; [|apply (proj2 (len_enc_tlv (Tlv 0 true 16 _)))]. cbn [t_content].
  unfold enc_tlvs. cbn [map concat]. rewrite map_app, concat_app, !len_app. cbn [map concat]. rewrite app_nil_r.
  pose proof (proj2 (len_enc_tlv (tlv_octetstring (xf_value x)))) as HL. cbn [tlv_octetstring t_content] in *. lia.
Qed.

Lemma extension_decides {A} (E : Env) (P : ub -> Prop) o id critical f (read : list byte -> option A) (enc : A -> list byte) v expected :
  oid_encodable o -> oid_arcs o = id -> rend P f (enc v) -> (forall bs a, read bs = Some a -> bs = enc a) -> (len (enc v) < SZ -> read (enc v) = Some v) ->
  decides (extension_written_twice o critical f expected) (expects_one_extension expected id critical read v) P.
Proof.
  intros Ho <- (b & HR & HE) HU HV. pose proof SZ_lo. unfold extension_written_twice. set (x := one_extension o critical f).
  assert (HT : used_exts x = [mkExtension (Some o) critical (Some f)]) by reflexivity.
  assert (Hx : exts_ok x) by (split; [vm_compute; discriminate|rewrite HT; constructor; [exact Ho|constructor]]).
  assert (HC : callbacks P (used_exts x) [b]) by (rewrite HT; constructor; [exact HR|constructor]).
  destruct (rend_some_exts P x [b] Hx HC ltac:(discriminate)) as [HN HX].
  assert (HO : exts_of x [b] = [ExtFields (oid_arcs o) critical b]) by reflexivity.
  assert (HD : decides (writes_twice (n20_x509_extension (Some x)) expected) (read_exts expected = Some (exts_of x [b]) /\ len expected <= 2000) P).
  { apply (reads_instead P (n20_x509_extension (Some x)) read_exts (fun a => enc_tlv (tlv_exts a))); [lia|exact HX|exact read_exts_unique| |].
    - intros HL. apply read_exts_enc; [exact HN|now apply exts_of_ok|now apply small_SZ].
    - intros b' Hb. apply writes_twice_decides. exact Hb. }
  rewrite HO in HD. eapply decides_iff; [exact HD|]. unfold expects_one_extension. split.
  - intros [Hr HL]. split; [exact HL|]. exists b. split; [exact Hr|]. apply read_exts_unique in Hr.
    pose proof (content_shorter (ExtFields (oid_arcs o) critical b)) as HS. cbn [xf_value] in HS. rewrite <- Hr in HS.
    rewrite HE by (left; lia). apply HV. rewrite <- HE by (left; lia). lia.
  - intros [HL (c & Hr & Hc)]. split; [|exact HL]. assert (b = c); [|now subst c]. apply HU in Hc. subst c. apply HE. right.
    apply read_exts_unique in Hr. pose proof (content_shorter (ExtFields (oid_arcs o) critical (enc v))) as HS. cbn [xf_value] in HS. rewrite <- Hr in HS. lia.
Qed.

(** What a vector is taken for: the data pointer of an empty one may be NULL, and then the field is left out. A string without characters is a field. *)
Definition vector_field `{Cxx} (v : option (list byte)) : option (list byte) := match v with Some [] => if empty_data_null then None else Some [] | _ => v end.
Definition vector_fits `{Env} (v : option (list byte)) : Prop := match v with Some b => len b < SZ | None => True end.
Lemma v2slice_field `{Cxx} v : opt_bytes (v2slice v) = vector_field v.
Proof.
  destruct v as [[|b v]|]; [|unfold opt_bytes, slice_bytes; cbn [v2slice data sl_buf sl_size vector_field]; now rewrite takeN_all by lia|reflexivity].
  unfold opt_bytes, v2slice, data, vector_field. cbn [sl_buf]. now destruct empty_data_null.
Qed.
Lemma string_field v : opt_bytes (to_string_slice v) = v.
Proof. destruct v as [v|]; [|reflexivity]. unfold opt_bytes, slice_bytes. cbn [to_string_slice sl_buf sl_size]. now rewrite takeN_all by lia. Qed.
Lemma v2slice_ok `{Env} `{Cxx} v : vector_fits v -> slice_ok (v2slice v).
Proof.
  pose proof SZ_lo. destruct v as [[|b v]|]; intros HF.
  - unfold v2slice, data. rewrite len_nil. destruct empty_data_null; split; cbn [sl_size sl_buf]; try rewrite len_nil; first [exact I|lia].
  - split; [exact HF|]. cbn [v2slice data sl_size sl_buf]. lia.
  - split; [cbn; lia|exact I].
Qed.
Lemma string_ok `{Env} v : vector_fits v -> slice_ok (to_string_slice v).
Proof. pose proof SZ_lo. destruct v as [v|]; intros HF; split; [exact HF|cbn [to_string_slice sl_size sl_buf]; lia|cbn; lia|exact I]. Qed.

Theorem C64_open_dice : forall (E : Env) (X : Cxx) code_hash code_descriptor configuration_hash configuration_descriptor authority_hash authority_descriptor mode
    profile expected, Forall vector_fits [code_hash; code_descriptor; configuration_hash; configuration_descriptor; authority_hash; authority_descriptor; profile] -> mode < 2 ^ 64 ->
  decides (OpenDiceInputEncoding code_hash code_descriptor configuration_hash configuration_descriptor authority_hash authority_descriptor mode profile expected)
    (expects_one_extension expected [1; 3; 6; 1; 4; 1; 11129; 2; 1; 24] true read_open_dice
       (OpenDiceFields (vector_field code_hash) (vector_field code_descriptor) (vector_field configuration_hash) (vector_field configuration_descriptor)
          (vector_field authority_hash) (vector_field authority_descriptor) (Some (Z.of_N mode)) profile)) stray_reads.
Proof.
  intros E X v1 v2 v3 v4 v5 v6 mode v7 expected HF Hm.  repeat (apply Forall_cons_iff in HF as [? HF]).
  unfold OpenDiceInputEncoding. set (o := mkOpenDice _ _ _ _ _ _ _ _).
  assert (Ho : open_dice_ok o) by (unfold open_dice_ok, o; cbn; splits; try (now apply v2slice_ok); [exact Hm|now apply string_ok]).
  assert (HO : open_dice_of o = OpenDiceFields (vector_field v1) (vector_field v2) (vector_field v3) (vector_field v4) (vector_field v5) (vector_field v6) (Some (Z.of_N mode)) v7).
  { unfold open_dice_of, o. cbn [od_code_hash od_code_descriptor od_configuration_hash od_configuration_descriptor od_authority_hash od_authority_descriptor od_mode od_profile_name].
    now rewrite !v2slice_field, string_field. }
  rewrite <- HO. apply (extension_decides E stray_reads OID_OPEN_DICE_INPUT) with (enc := fun a => enc_tlv (tlv_open_dice a)).
  - apply all_oids_encodable. unfold all_oids. simpl. auto 60.
  - reflexivity.
  - apply rend_open_dice; [auto|exact Ho].
  - exact read_open_dice_unique.
  - intros HL. apply read_open_dice_enc. now apply small_SZ.
Qed.
Print Assumptions C64_open_dice.

(** The parameters for svn, layer and index are unsigned, the members signed: a number from 2^63 on is expected as a negative one. *)
Definition as_int64 (n : N) : Z := if n <? 2 ^ 63 then Z.of_N n else (Z.of_N n - 2 ^ 64)%Z.
Lemma as_int64_wrap n : n < 2 ^ 64 -> int64_wrap (Z.of_N n) = as_int64 n /\ int64_ok (as_int64 n).
Proof.
  intros Hn. unfold as_int64, int64_wrap, int64_ok. assert (HZ : (Z.of_N n < 2 ^ 64)%Z) by lia.
  destruct (N.ltb_spec n (2 ^ 63)) as [Hs|Hs].
  - assert (Hs' : (Z.of_N n < 2 ^ 63)%Z) by lia. split; [|lia]. rewrite Z.mod_small by lia. lia.
  - assert (Hs' : (2 ^ 63 <= Z.of_N n)%Z) by lia. split; [|lia].
    rewrite <- (Z_mod_plus_full _ (-1)), Z.mod_small by lia. lia.
Qed.
(** The list of firmware identifiers that is passed on; without a pointer there is none. *)
Definition fwids_field (fwids : option (N * option (list fwid))) : option (list (list N * list byte)) :=
  match fwids with Some (n, Some l) => Some (map (fun f => (oid_arcs (fw_algo f), slice_bytes (fw_digest f))) (takeN n l)) | _ => None end.
Definition fwids_ok `{Env} (fwids : option (N * option (list fwid))) : Prop :=
  match fwids with Some (n, Some l) => n <= len l /\ Forall (fun f => oid_encodable (fw_algo f) /\ slice_ok (fw_digest f)) (takeN n l) | _ => True end.

Theorem C64_tcb_info : forall (E : Env) (X : Cxx) vendor model version svn layer index fwids flags flags_mask vendor_info type_ expected,
  Forall vector_fits [vendor; model; version; vendor_info; type_] -> Forall (fun n => n < 2 ^ 64) [svn; layer; index] -> fwids_ok fwids ->
  len flags = 4 -> len flags_mask = 4 ->
  decides (TcgTcbInfoEncoding vendor model version svn layer index fwids flags flags_mask vendor_info type_ expected)
    (expects_one_extension expected [2; 23; 133; 5; 4; 1] true read_tcb
       (TcbFields vendor model version (Some (as_int64 svn)) (Some (as_int64 layer)) (Some (as_int64 index)) (fwids_field fwids)
          (Some (bits_of_bytes flags)) (vector_field vendor_info) (vector_field type_) (Some (bits_of_bytes flags_mask)))) stray_reads.
Proof.
  intros E X v1 v2 v3 svn layer index fwids flags mask v4 v5 expected HF HN HW H4 H4'. repeat (apply Forall_cons_iff in HF as [? HF]).
  repeat (apply Forall_cons_iff in HN as [? HN]). unfold TcgTcbInfoEncoding.
  destruct (as_int64_wrap svn ltac:(assumption)) as [-> ?], (as_int64_wrap layer ltac:(assumption)) as [-> ?], (as_int64_wrap index ltac:(assumption)) as [-> ?].
  destruct (match fwids with Some l => l | None => (0, None) end) as [count list] eqn:EF. set (t := mkTcbInfo _ _ _ _ _ _ _ _ _ _ _ _).
  assert (Ht : tcb_ok t).
  { unfold tcb_ok, t. cbn [ti_vendor ti_model ti_version ti_svn ti_layer ti_index ti_fwids ti_fwids_count ti_flags ti_flags_mask ti_vendor_info ti_type_].
    splits; try assumption; try (now apply string_ok); try (now apply v2slice_ok).
    destruct fwids as [[n [l|]]|]; injection EF as <- <-; [exact HW|exact I|exact I]. }
  assert (HO : tcb_of t = TcbFields v1 v2 v3 (Some (as_int64 svn)) (Some (as_int64 layer)) (Some (as_int64 index)) (fwids_field fwids)
          (Some (bits_of_bytes flags)) (vector_field v4) (vector_field v5) (Some (bits_of_bytes mask))).
  { unfold tcb_of, t. cbn [ti_vendor ti_model ti_version ti_svn ti_layer ti_index ti_fwids ti_fwids_count ti_flags ti_flags_mask ti_vendor_info ti_type_].
    rewrite !v2slice_field, !string_field. f_equal. destruct fwids as [[n [l|]]|]; injection EF as <- <-; reflexivity. }
  rewrite <- HO. apply (extension_decides E stray_reads OID_TCG_DICE_TCB_INFO) with (enc := fun a => enc_tlv (tlv_tcb a)).
  - apply all_oids_encodable. unfold all_oids. simpl. auto 60.
  - reflexivity.
  - apply rend_tcb; [auto|exact Ht].
  - exact read_tcb_unique.
  - intros HL. apply read_tcb_enc; [now apply tcb_of_ok|now apply small_SZ].
Qed.
Print Assumptions C64_tcb_info.

Theorem C64_multi_tcb_info : forall (E : Env) l expected, Forall tcb_ok l ->
  decides (tcg_multi_tcb_info_encoding l expected) (expects_one_extension expected [2; 23; 133; 5; 4; 5] true read_multi_tcb (map tcb_of l)) stray_reads.
Proof.
  intros E l expected HF. unfold tcg_multi_tcb_info_encoding.
  apply (extension_decides E stray_reads OID_TCG_DICE_MULTI_TCB_INFO) with (enc := fun a => enc_tlv (tlv_sequence (enc_tlvs (map tlv_tcb a)))).
  - apply all_oids_encodable. unfold all_oids. simpl. auto 60.
  - reflexivity.
  - pose proof (rend_multi_tcb stray_reads (mkMulti (len l) (Some l)) l ltac:(auto) eq_refl) as HR. cbn [mt_count] in HR. rewrite takeN_all in HR by lia. apply HR; [lia|exact HF].
  - exact read_multi_tcb_unique.
  - intros HL. apply read_multi_tcb_enc; [|now apply small_SZ]. apply Forall_map. eapply Forall_impl; [|exact HF]. intros a Ha. now apply tcb_of_ok.
Qed.
Print Assumptions C64_multi_tcb_info.

(** A missing vector is expected as an empty string of octets. *)
Definition octets_field (v : option (list byte)) : list byte := match v with Some b => b | None => [] end.
Lemma v2slice_bytes `{Cxx} v : slice_bytes (v2slice v) = octets_field v.
Proof.
  destruct v as [[|b v]|]; [|unfold slice_bytes; cbn [v2slice data sl_buf sl_size octets_field]; now rewrite takeN_all by lia|reflexivity].
  unfold slice_bytes, v2slice, data. cbn [sl_buf sl_size]. now destruct empty_data_null.
Qed.
Theorem C64_freshness : forall (E : Env) (X : Cxx) nonce expected, vector_fits nonce ->
  decides (TcgTcbFreshnessEncoding nonce expected) (expects_one_extension expected [2; 23; 133; 5; 4; 11] true read_octets_in_sequence (octets_field nonce)) clean.
Proof.
  intros E X v expected Hv. rewrite <- v2slice_bytes. apply (extension_decides E clean OID_TCG_DICE_TCB_FRESHNESS) with (enc := fun a => enc_tlv (tlv_sequence (enc_tlvs [tlv_octetstring a]))).
  - apply all_oids_encodable. unfold all_oids. simpl. auto 60.
  - reflexivity.
  - apply rend_octets_seq. now apply v2slice_ok.
  - exact read_octets_in_sequence_unique.
  - intros HL. apply read_octets_in_sequence_enc. now apply small_SZ.
Qed.
Print Assumptions C64_freshness.
Theorem C64_ueid : forall (E : Env) (X : Cxx) ueid expected, vector_fits ueid ->
  decides (TcgUeidEncoding ueid expected) (expects_one_extension expected [2; 23; 133; 5; 4; 4] false read_octets_in_sequence (octets_field ueid)) clean.
Proof.
  intros E X v expected Hv. rewrite <- v2slice_bytes. apply (extension_decides E clean OID_TCG_DICE_UEID) with (enc := fun a => enc_tlv (tlv_sequence (enc_tlvs [tlv_octetstring a]))).
  - apply all_oids_encodable. unfold all_oids. simpl. auto 60.
  - reflexivity.
  - apply rend_octets_seq. now apply v2slice_ok.
  - exact read_octets_in_sequence_unique.
  - intros HL. apply read_octets_in_sequence_enc. now apply small_SZ.
Qed.
Print Assumptions C64_ueid.

(** A test without a structure passes for a content writer that writes nothing, and only then. *)
Theorem C64_null_pointer : forall (E : Env) allowed f b, renders allowed f b -> decides (null_pointer f) (b = []) allowed.
Proof.
  intros E allowed f b [_ HR]. pose proof SZ_lo. assert (H0 : buffer_ok None 0) by (split; [lia|exact I]).
  destruct (HR _ [] _ _ _ H0 (shows_init _ _ H0)) as (s & v & E1 & S1 & E2 & F). rewrite !app_nil_r in *.
  unfold null_pointer. cbv zeta. rewrite E1, E2. pose proof S1 as (HC & HW & HB & _). rewrite HC, HW, HB. split; [|exact F]. cbn [fst andb].
  rewrite andb_true_iff, N.eqb_eq, negb_true_iff, N.leb_gt. split.
  - intros [Hl Hm]. rewrite N.mod_small in Hm by exact Hl. destruct b; [reflexivity|]. unfold len in Hm. cbn [length] in Hm. lia.
  - intros ->. rewrite len_nil. split; [lia|]. now rewrite N.mod_small by lia.
Qed.
Print Assumptions C64_null_pointer.

(** ** The rows of the repository *)

(** ** The rows of the repository *)
Lemma computed_rows (E : Env) (K : Stack) (X : Cxx) :
  name_tests = repeat (true, []) 8 /\ extension_tests = repeat (true, []) 5 /\ key_usage_tests = repeat (true, []) 5 /\
  CertTBSNullEncoding ENCODED_CERT_TBS_NULL = (true, []) /\ cert_tbs_encoding (nonzero_tbs E) ENCODED_CERT_TBS_NONZERO = (true, []) /\
  null_pointer (n20_x509_ext_open_dice_input_content None) = (true, []) /\
  null_pointer (n20_x509_ext_tcg_dice_tcb_info_content None) = (true, []) /\ null_pointer (n20_x509_ext_tcg_dice_multi_tcb_info_content None) = (true, []) /\
  freshness_and_ueid_tests = repeat (true, []) 4.
Proof. destruct E as [[] le st]; (do 8 (split; [vm_compute; reflexivity|])); destruct X as [[]]; vm_compute; reflexivity. Qed.

Lemma decides_true v P allowed : decides v P allowed -> P -> fst v = true /\ Forall allowed (snd v).
Proof. intros [H1 H2] HP. split; [now apply H1|exact H2]. Qed.
Ltac one_extension_read := split; [vm_compute; discriminate|eexists; split; vm_compute; reflexivity].
Definition tame (v : verdict) : Prop := fst v = true /\ Forall stray_reads (snd v).
Lemma tame_clean v : v = (true, []) -> tame v.
Proof. intros ->. split; [reflexivity|constructor]. Qed.
Lemma tame_repeat l n : l = repeat (true, []) n -> Forall tame l.
Proof. intros ->. apply Forall_forall. intros v Hv. apply repeat_spec in Hv. now apply tame_clean. Qed.

Lemma basic_constraints_rows (E : Env) (K : Stack) : Forall tame basic_constraints_tests.
Proof.
  assert (HR : forall ca has n e, n < 2 ^ 32 -> read_basic_constraints e = Some (ca, if ca && has then Some (Z.of_N n) else None) -> tame (BasicConstraintsEncoding ca has n e)).
  { intros ca has n e Hn. apply decides_true. now apply C64_basic_constraints. }
  unfold basic_constraints_tests. repeat (apply Forall_cons; [apply HR; vm_compute; reflexivity|]). constructor.
Qed.
Lemma tbs_rows_tame (E : Env) (K : Stack) (X : Cxx) : Forall tame cert_tbs_tests.
Proof.
  destruct (computed_rows E K X) as (_ & _ & _ & H1 & H2 & _). unfold cert_tbs_tests.
  apply Forall_cons; [now apply tame_clean|]. apply Forall_cons; [|apply Forall_cons; [now apply tame_clean|constructor]].
  apply (decides_true _ _ _ (C64_tbs_zero E K ENCODED_CERT_TBS_ZERO)). exists (enc_tlvs zero_tbs_parts). split; [|vm_compute; reflexivity].
  apply decodes_iff; [split; vm_compute; reflexivity|vm_compute; reflexivity].
Qed.
Lemma vectors_fit (E : Env) l : forallb (fun v => match v with Some b => len b <? 4294967296 | None => true end) l = true -> Forall vector_fits l.
Proof.
  intros HB. pose proof SZ_lo. pose proof (proj1 (forallb_forall _ _) HB) as HF. apply Forall_forall. intros v Hv. specialize (HF v Hv). destruct v; [|exact I].
  cbn [vector_fits]. lia.
Qed.
Lemma open_dice_rows (E : Env) (K : Stack) (X : Cxx) : Forall tame open_dice_tests.
Proof.
  destruct (computed_rows E K X) as (_ & _ & _ & _ & _ & H1 & _). unfold open_dice_tests. cbv zeta.
  do 3 (apply Forall_cons; [eapply decides_true; [apply C64_open_dice; [apply vectors_fit; vm_compute; reflexivity|reflexivity]|one_extension_read]|]).
  apply Forall_cons; [now apply tame_clean|constructor].
Qed.
Lemma tcb_ok_full (E : Env) : Forall tcb_ok [full_tcb_info; small_tcb_info].
Proof.
  pose proof SZ_lo. assert (HS : forall l, len l < 4294967296 -> slice_ok (slice_of l)) by (intros l Hl; split; cbn [slice_of sl_size sl_buf]; lia).
  repeat apply Forall_cons; [| |constructor]; unfold tcb_ok, full_tcb_info, small_tcb_info; cbn [ti_vendor ti_model ti_version ti_svn ti_layer ti_index ti_fwids ti_fwids_count ti_flags ti_flags_mask ti_vendor_info ti_type_];
    splits; try exact I; try (apply HS; vm_compute; reflexivity); try (split; [cbn; lia|exact I]); try (split; vm_compute; first [reflexivity|discriminate]).
  - vm_compute. discriminate.
  - assert (HO : forall o, In o all_oids -> oid_encodable o) by exact all_oids_encodable.
    change (takeN 2 ?l) with l. apply Forall_cons; [|apply Forall_cons; [|constructor]]; (split; [apply HO; unfold all_oids; simpl; auto 60|apply HS; vm_compute; reflexivity]).
Qed.
Lemma tcb_rows (E : Env) (K : Stack) (X : Cxx) : Forall tame tcb_info_tests.
Proof.
  destruct (computed_rows E K X) as (_ & _ & _ & _ & _ & _ & H1 & H2 & _). unfold tcb_info_tests. cbv zeta. pose proof (tcb_ok_full E) as HT.
  assert (HW : fwids_ok (Some (2, Some [mkFwid OID_SHA256 (slice_of TEST_DIGEST_1); mkFwid OID_SHA512 (slice_of TEST_DIGEST_2)]))).
  { apply Forall_inv in HT. exact (proj1 (proj2 (proj2 (proj2 (proj2 (proj2 (proj2 HT))))))). }
  assert (HN : Forall (fun n => n < 2 ^ 64) [5; 6; 7]) by (repeat constructor).
  apply Forall_cons; [eapply decides_true; [apply C64_tcb_info; [apply vectors_fit; vm_compute; reflexivity|exact HN|exact HW|reflexivity|reflexivity]|one_extension_read]|].
  apply Forall_cons; [eapply decides_true; [apply C64_tcb_info; [apply vectors_fit; vm_compute; reflexivity|exact HN|exact I|reflexivity|reflexivity]|one_extension_read]|].
  apply Forall_cons; [now apply tame_clean|].
  apply Forall_cons; [eapply decides_true; [apply C64_multi_tcb_info; exact HT|one_extension_read]|].
  apply Forall_cons; [now apply tame_clean|constructor].
Qed.

(** On every platform, whatever is on the stack, all the tests pass; the only undefined behaviour is that of the integer writer. *)
Theorem C64_rows_pass : forall (E : Env) (K : Stack) (X : Cxx), Forall (fun v => fst v = true /\ Forall stray_reads (snd v)) x509_tests.
Proof.
  intros E K X. change (fun v : verdict => fst v = true /\ Forall stray_reads (snd v)) with tame. unfold x509_tests.
  destruct (computed_rows E K X) as (H1 & H2 & H3 & _ & _ & _ & _ & _ & H4).
  rewrite !Forall_app. splits; [exact (tame_repeat _ _ H1)|exact (tame_repeat _ _ H2)|apply basic_constraints_rows|exact (tame_repeat _ _ H3)|now apply tbs_rows_tame|
    apply open_dice_rows; exact K|apply tcb_rows; exact K|exact (tame_repeat _ _ H4)].
Qed.
Print Assumptions C64_rows_pass.

(** ** Cases *)
Section Examples.
#[local] Existing Instance env64.
#[local] Instance stack_of_zeros : Stack := {| stack_byte := fun _ _ => x00 |}.
Definition real_data : Cxx := {| empty_data_null := false |}.
#[local] Instance null_data : Cxx := {| empty_data_null := true |}.

(** Expected bytes that are right pass; with a trailing byte, a length in long form, or one of the bytes changed they do not. *)
Definition country : name := mkName 1 [mkRdn (Some OID_COUNTRY_NAME) (slice_of (bytes [0x55; 0x53]))].
Definition country_bytes : list byte := bytes [0x30; 0x0d; 0x31; 0x0b; 0x30; 0x09; 0x06; 0x03; 0x55; 0x04; 0x06; 0x13; 0x02; 0x55; 0x53].
Example C64_name_case :
  name_ok country /\ read_name country_bytes = Some (name_of country) /\ fst (NameEncoding (Some country) country_bytes) = true /\
  fst (NameEncoding (Some country) (country_bytes ++ [x00])) = false /\ fst (NameEncoding (Some country) (x30 :: x81 :: tl country_bytes)) = false /\
  fst (NameEncoding (Some country) (removelast country_bytes ++ [x52])) = false /\
  fst (NameEncoding None (bytes [0x30; 0x02; 0x05; 0x00])) = true /\ fst (NameEncoding None country_bytes) = false.
Proof.
  split; [|splits; vm_compute; reflexivity]. split; [vm_compute; discriminate|]. split; [vm_compute; discriminate|]. apply Forall_cons; [|constructor].
  split; [apply all_oids_encodable; unfold all_oids; simpl; auto 60|]. split; vm_compute; [reflexivity|discriminate].
Qed.

(** A critical extension with a callback that writes two bytes and one without a callback; and no extensions at all. *)
Example C64_extensions_case :
  extension_parameter_ok (inl (Some example_exts)) /\ callbacks clean (given_extensions (inl (Some example_exts))) [bytes [0x30; 0x00]; []] /\
  expects_extensions (rendered (n20_x509_extension (Some example_exts))) (given_extensions (inl (Some example_exts))) [bytes [0x30; 0x00]; []] /\
  fst (ExtensionEncoding (inl (Some example_exts)) (rendered (n20_x509_extension (Some example_exts)))) = true /\
  fst (@ExtensionEncoding _ _ null_data (inr []) []) = true /\ fst (@ExtensionEncoding _ _ real_data (inr []) []) = true /\
  fst (@ExtensionEncoding _ _ real_data (inr []) [x30; x00]) = false.
Proof. split; [exact example_exts_ok|]. split; [exact example_callbacks|]. splits; vm_compute; reflexivity. Qed.

(** A path length of 1 is expected as 1, not as a number with a superfluous byte; without the authority flag it is not expected at all. *)
Example C64_basic_constraints_case :
  fst (BasicConstraintsEncoding true true 1 (bytes [0x30; 0x06; 0x01; 0x01; 0xff; 0x02; 0x01; 0x01])) = true /\
  fst (BasicConstraintsEncoding true true 1 (bytes [0x30; 0x07; 0x01; 0x01; 0xff; 0x02; 0x02; 0x00; 0x01])) = false /\
  fst (BasicConstraintsEncoding false true 1 (bytes [0x30; 0x03; 0x02; 0x01; 0x01])) = false /\ fst (BasicConstraintsEncoding false true 1 (bytes [0x30; 0x00])) = true /\
  fst (key_usage_encoding (key_usage_with [KU_digital_signature; KU_key_cert_sign]) (bytes [0x03; 0x02; 0x02; 0x84])) = true /\
  fst (key_usage_encoding (key_usage_with [KU_digital_signature; KU_key_cert_sign]) (bytes [0x03; 0x02; 0x02; 0x86])) = false.
Proof. splits; vm_compute; reflexivity. Qed.

(** The TBS certificate of C26. *)
Example C64_tbs_case :
  tbs_ok example_tbs /\ callbacks clean (used_exts (tbs_exts example_tbs)) example_values /\ serial_allowed clean example_tbs /\
  fst (cert_tbs_encoding example_tbs (rendered (n20_x509_cert_tbs (Some example_tbs)))) = true /\ fst (cert_tbs_encoding example_tbs ENCODED_CERT_TBS_NONZERO) = false /\
  fst (CertTBSZeroEncoding ENCODED_CERT_TBS_ZERO) = true /\ fst (CertTBSZeroEncoding ENCODED_CERT_TBS_NULL) = false.
Proof.
  destruct C26_example as (H1 & H2 & H3 & _). split; [exact (proj1 (proj2 H1))|]. split; [exact H2|]. split; [exact H3|]. splits; vm_compute; reflexivity.
Qed.

(** An empty vector: the field is expected if its data pointer is not NULL, and must be left out if it is. *)
Definition with_code_hash : list byte := bytes [0xa3; 0x20; 0x30; 0x1e; 0x30; 0x1c; 0x06; 0x0a; 0x2b; 0x06; 0x01; 0x04; 0x01; 0xd6; 0x79; 0x02; 0x01; 0x18; 0x01; 0x01; 0xff;
  0x04; 0x0b; 0x30; 0x09; 0xa0; 0x02; 0x04; 0x00; 0xa6; 0x03; 0x02; 0x01; 0x01].
Definition without_code_hash : list byte := bytes [0xa3; 0x1c; 0x30; 0x1a; 0x30; 0x18; 0x06; 0x0a; 0x2b; 0x06; 0x01; 0x04; 0x01; 0xd6; 0x79; 0x02; 0x01; 0x18; 0x01; 0x01; 0xff;
  0x04; 0x07; 0x30; 0x05; 0xa6; 0x03; 0x02; 0x01; 0x01].
Definition empty_code_hash (X : Cxx) := OpenDiceInputEncoding (Some []) None None None None None 1 None.
Example C64_open_dice_case :
  fst (empty_code_hash real_data with_code_hash) = true /\ fst (empty_code_hash real_data without_code_hash) = false /\
  fst (empty_code_hash null_data with_code_hash) = false /\ fst (empty_code_hash null_data without_code_hash) = true.
Proof. splits; vm_compute; reflexivity. Qed.

(** The security version number 2^64 - 1 is expected as -1. *)
Definition minus_one : list byte := bytes [0xa3; 0x2a; 0x30; 0x28; 0x30; 0x26; 0x06; 0x06; 0x67; 0x81; 0x05; 0x05; 0x04; 0x01; 0x01; 0x01; 0xff; 0x04; 0x19; 0x30; 0x17;
  0x83; 0x01; 0xff; 0x84; 0x01; 0x00; 0x85; 0x01; 0x00; 0x87; 0x05; 0x00; 0x00; 0x00; 0x00; 0x00; 0x8a; 0x05; 0x00; 0x00; 0x00; 0x00; 0x00].
Example C64_tcb_info_case :
  let four := repeat x00 4 in
  fst (TcgTcbInfoEncoding None None None (2 ^ 64 - 1) 0 0 None four four None None minus_one) = true /\
  fst (TcgTcbInfoEncoding None None None 255 0 0 None four four None None minus_one) = false /\
  Forall (fun n => n < 2 ^ 64) [2 ^ 64 - 1; 0; 0] /\ len four = 4.
Proof. intros four. split; [vm_compute; reflexivity|]. split; [vm_compute; reflexivity|]. split; [repeat constructor|reflexivity]. Qed.
Example C64_null_pointer_case :
  renders clean (n20_x509_ext_tcg_dice_ueid_content None) [] /\ fst (null_pointer (n20_x509_ext_tcg_dice_ueid_content None)) = true /\
  renders clean (n20_x509_cert_tbs None) [x30; x00] /\ fst (null_pointer (n20_x509_cert_tbs None)) = false /\ length x509_tests = 39%nat.
Proof.
  split; [apply C31_null|]. split; [vm_compute; reflexivity|]. split; [apply C26_null|]. split; vm_compute; reflexivity.
Qed.
(** Three octets of a device identifier and of a nonce; each is expected under its own object identifier only. *)
Example C64_octets_case :
  let ueid := bytes [0xa3; 0x15; 0x30; 0x13; 0x30; 0x11; 0x06; 0x06; 0x67; 0x81; 0x05; 0x05; 0x04; 0x04; 0x04; 0x07; 0x30; 0x05; 0x04; 0x03; 0x01; 0x02; 0x03] in
  let nonce := bytes [0xa3; 0x18; 0x30; 0x16; 0x30; 0x14; 0x06; 0x06; 0x67; 0x81; 0x05; 0x05; 0x04; 0x0b; 0x01; 0x01; 0xff; 0x04; 0x07; 0x30; 0x05; 0x04; 0x03; 0x01; 0x02; 0x03] in
  vector_fits (Some (bytes [1; 2; 3])) /\ fst (TcgUeidEncoding (Some (bytes [1; 2; 3])) ueid) = true /\ fst (TcgUeidEncoding (Some (bytes [1; 2; 3])) nonce) = false /\
  fst (TcgTcbFreshnessEncoding (Some (bytes [1; 2; 3])) nonce) = true /\ fst (TcgTcbFreshnessEncoding (Some (bytes [1; 2; 3])) ueid) = false.
Proof. cbv zeta. splits; vm_compute; reflexivity. Qed.
(** Two components. *)
Example C64_multi_tcb_info_case :
  Forall tcb_ok [example_tcb; example_tcb] /\
  fst (tcg_multi_tcb_info_encoding [example_tcb; example_tcb] (rendered (n20_x509_extension (Some (mkExtensions 1 (Some [mkExtension (Some OID_TCG_DICE_MULTI_TCB_INFO) true
    (Some (n20_x509_ext_tcg_dice_multi_tcb_info_content (Some (mkMulti 2 (Some [example_tcb; example_tcb])))))])))))) = true /\
  fst (tcg_multi_tcb_info_encoding [example_tcb; example_tcb] minus_one) = false.
Proof. split; [repeat constructor; apply example_tcb_ok|]. split; vm_compute; reflexivity. Qed.
End Examples.
