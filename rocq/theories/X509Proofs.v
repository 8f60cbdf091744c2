(** What the X.509 model renders. *)
From Coq Require Import List NArith ZArith Bool Lia Strings.Byte.
From Coq Require Import ZifyBool ZifyNat ZifyN.
From Verif Require Import Base BaseFacts Stream SpecStream StreamProofs SpecDigits DigitsFacts SpecDer DerFacts Asn1 SpecAsn1
  Asn1Proofs Oid X509 X509Ext SpecX509 RendProofs X509Facts.
Import ListNotations.
Open Scope N_scope.

(** ** OID comparison *)
Lemma elem_in j o i : (i < length (oid_elements o))%nat -> elem j o i = nth i (oid_elements o) 0 /\ elem_ub o i = [].
Proof. intro H. unfold elem, elem_ub, len. destruct (N.ltb_spec (N.of_nat i) (N.of_nat (length (oid_elements o)))); [auto|lia]. Qed.

Lemma skipn_nth_cons' {A} (d : A) (l : list A) n : (n < length l)%nat -> skipn n l = nth n l d :: skipn (S n) l.
Proof.
  revert n. induction l as [|a l IH]; intros n H; [cbn in H; lia|].
  destruct n; [reflexivity|]. cbn [skipn nth]. apply IH. cbn in H. lia.
Qed.

Lemma oid_equals_loop_spec j1 j2 o1 o2 : forall k i,
  (i + k <= length (oid_elements o1))%nat -> (i + k <= length (oid_elements o2))%nat ->
  snd (oid_equals_loop j1 j2 k i o1 o2) = [] /\
  (fst (oid_equals_loop j1 j2 k i o1 o2) = true <->
   firstn k (skipn i (oid_elements o1)) = firstn k (skipn i (oid_elements o2))).
Proof.
  induction k as [|k IH]; intros i H1 H2; [cbn; tauto|]. cbn [oid_equals_loop].
  destruct (elem_in j1 o1 i ltac:(lia)) as [-> ->]. destruct (elem_in j2 o2 i ltac:(lia)) as [-> ->].
  rewrite (skipn_nth_cons' 0 (oid_elements o1)), (skipn_nth_cons' 0 (oid_elements o2)) by lia. cbn [firstn].
  destruct (IH (S i) ltac:(lia) ltac:(lia)) as [I1 I2].
  destruct (oid_equals_loop j1 j2 k (S i) o1 o2) as [r u]. cbn [fst snd] in *. subst u.
  destruct (N.eqb_spec (nth i (oid_elements o1) 0) (nth i (oid_elements o2) 0)) as [->|Hn]; cbn [fst snd].
  - split; [reflexivity|]. rewrite I2. split; [now intros ->|]. intro H. now injection H.
  - split; [reflexivity|]. split; [discriminate|]. intro H. injection H. intros. contradiction.
Qed.

(** Two valid pointers. *)
Lemma oid_equals_spec j1 j2 o1 o2 :
  oid_elem_count o1 <= len (oid_elements o1) -> oid_elem_count o2 <= len (oid_elements o2) ->
  snd (n20_asn1_oid_equals_full j1 j2 (Some o1) (Some o2)) = [] /\
  (fst (n20_asn1_oid_equals_full j1 j2 (Some o1) (Some o2)) = true <-> oid_arcs o1 = oid_arcs o2).
Proof.
  intros H1 H2. unfold n20_asn1_oid_equals_full, oid_arcs, takeN.
  destruct (N.eqb_spec (oid_elem_count o1) (oid_elem_count o2)) as [He|Hn]; cbn [negb].
  - destruct (oid_equals_loop_spec j1 j2 o1 o2 (N.to_nat (oid_elem_count o1)) 0) as [I1 I2]; [unfold len in *; lia|unfold len in *; lia|].
    split; [assumption|]. cbn [skipn] in I2. now rewrite <- He.
  - split; [reflexivity|]. split; [discriminate|]. intro H. exfalso. apply (f_equal (@length N)) in H.
    rewrite !firstn_length in H. unfold len in *. lia.
Qed.

Section WithEnv.
Context `{E : Env}.

(** ** Names *)
Lemma nibble_hex n : n < 16 -> nibble2ascii n = hex_digit n.
Proof.
  intro H. assert (n = 0 \/ n = 1 \/ n = 2 \/ n = 3 \/ n = 4 \/ n = 5 \/ n = 6 \/ n = 7 \/ n = 8 \/ n = 9 \/ n = 10 \/
    n = 11 \/ n = 12 \/ n = 13 \/ n = 14 \/ n = 15) by lia.
  repeat (destruct H0 as [->|H0]; [reflexivity|]). now subst.
Qed.

Lemma hex_lower_snoc l c : hex_lower (l ++ [c]) = hex_lower l ++ [hex_digit (b2n c / 16); hex_digit (b2n c mod 16)].
Proof. unfold hex_lower. now rewrite flat_map_app. Qed.

Lemma firstn_snoc {A} (d : A) (l : list A) n : (n < length l)%nat -> firstn (S n) l = firstn n l ++ [nth n l d].
Proof.
  revert n. induction l as [|a l IH]; intros n H; [cbn in H; lia|].
  destruct n; [reflexivity|]. cbn [firstn nth app]. f_equal. apply IH. cbn in H. lia.
Qed.

Lemma serial_hex_loop_renders P d : forall k, (k <= length d)%nat ->
  renders P (serial_hex_loop k d) (hex_lower (firstn k d)).
Proof.
  induction k as [|k IH]; intro Hk; [apply renders_skip|]. cbn [serial_hex_loop].
  rewrite (firstn_snoc x00) by lia. rewrite hex_lower_snoc.
  apply renders_seq; [|apply IH; lia].
  assert (HD : deref_ub d (Z.of_nat k) = [] /\ deref d (Z.of_nat k) = nth k d x00).
  { unfold deref_ub, deref, len.
    assert (((0 <=? Z.of_nat k) && (Z.of_nat k <? Z.of_N (N.of_nat (length d))))%Z = true) as -> by lia.
    now rewrite Nat2Z.id. }
  destruct HD as [-> ->]. eapply renders_eq; [apply app_nil_r|]. apply renders_seq; [apply renders_log; constructor|].
  cbv zeta. set (c := nth k d x00). pose proof (b2n_lt c).
  rewrite shiftr_div. change 15 with (2 ^ 4 - 1). rewrite land_mod. change (2 ^ 4) with 16.
  rewrite !nibble_hex; [|apply N.mod_lt; lia|apply N.div_lt_upper_bound; lia].
  pose proof SZ_lo. apply (renders_prepend_all P [_; _]). lens. lia.
Qed.

Lemma serial_hex_renders P s : slice_ok s ->
  renders P (n20_x509_serial_as_hex_content s) (hex_lower (slice_bytes s)).
Proof.
  destruct s as [n [d|]]; intros [H1 H2]; cbn in *; [|apply renders_skip].
  apply serial_hex_loop_renders. unfold len in H2. lia.
Qed.

Lemma rend_rdn (P : ub -> Prop) r : rdn_ok r -> rend P (n20_x509_rdn r) (enc_tlv (tlv_attribute (attribute_of r))).
Proof.
  intros [Ho Hs]. unfold n20_x509_rdn, tlv_attribute, enc_tlvs. cbn [map concat]. rewrite !app_nil_r.
  apply rend_header; [|reflexivity].
  apply (rend_sequence P _ _ n20_asn1_tag_info_no_override).
  unfold n20_x509_rdn_content, n20_asn1_oid_equals.
  destruct (rdn_type r) as [o|] eqn:Et; [|destruct Ho].
  destruct Ho as (Hok & Hc & Hv & Hlt).
  destruct (oid_equals_spec (fun _ => 0) (fun _ => 0) o OID_SERIAL_NUMBER) as [HU HB];
    [destruct Hok; lia|vm_compute; congruence|].
  destruct (n20_asn1_oid_equals_full _ _ _ _) as [q u]. cbn [fst snd] in *. subst u.
  apply rend_seq.
  - eapply rend_log_seq; [constructor|]. unfold attribute_of. rewrite Et. cbn [arcs_of snd].
    change (oid_arcs OID_SERIAL_NUMBER) with serial_number_arcs in HB.
    destruct q.
    + destruct (list_eq_dec N.eq_dec (oid_arcs o) serial_number_arcs) as [_|Hn]; [|exfalso; apply Hn; now apply HB].
      apply (rend_hwc P 0 false 19 _ _ n20_asn1_tag_info_no_override); [|reflexivity].
      now apply rend_renders, serial_hex_renders.
    + destruct (list_eq_dec N.eq_dec (oid_arcs o) serial_number_arcs) as [He|_]; [apply HB in He; discriminate|].
      now apply (rend_printablestring P _ n20_asn1_tag_info_no_override).
  - unfold attribute_of. rewrite Et. cbn [fst]. apply rend_oid_given. cbn. unfold oid_encodable. auto.
Qed.

Lemma enc_tlvs_cons t ts : enc_tlvs (t :: ts) = enc_tlv t ++ enc_tlvs ts.
Proof. reflexivity. Qed.
Lemma enc_tlvs_snoc ts t : enc_tlvs (ts ++ [t]) = enc_tlvs ts ++ enc_tlv t.
Proof. unfold enc_tlvs. rewrite map_app, concat_app. cbn. now rewrite app_nil_r. Qed.
Lemma enc_tlvs_one t : enc_tlvs [t] = enc_tlv t.
Proof. unfold enc_tlvs. cbn. apply app_nil_r. Qed.

Lemma nth_error_firstn {A} (l : list A) k : (k < length l)%nat ->
  exists x, nth_error l k = Some x /\ firstn (S k) l = firstn k l ++ [x].
Proof.
  revert k. induction l as [|a l IH]; intros k H; [cbn in H; lia|].
  destruct k; [now exists a|]. destruct (IH k) as (x & H1 & H2); [cbn in H; lia|]. exists x. split; [exact H1|].
  cbn [firstn app] in *. now rewrite H2.
Qed.

(** The loops "for elements count-1, ..., 0 do f". *)
Lemma down_loop_rend {A} P (f : A -> cmd) (g : A -> tlv) (ok : A -> Prop) (loop : nat -> list A -> cmd) l :
  (forall l, loop O l = skip) ->
  (forall k l, loop (S k) l = ((match nth_error l k with Some x => f x | None => log [UBReadOob] end) ;; loop k l)%cmd) ->
  (forall x, In x l -> ok x -> rend P (f x) (enc_tlv (g x))) ->
  forall k, (k <= length l)%nat -> Forall ok (firstn k l) -> rend P (loop k l) (enc_tlvs (map g (firstn k l))).
Proof.
  intros L0 LS Hf. induction k as [|k IH]; intros Hk HF; [rewrite L0; apply rend_skip|].
  rewrite LS. destruct (nth_error_firstn l k) as (x & -> & Hx); [lia|]. rewrite Hx in *.
  apply Forall_app in HF as [HF1 HF2]. inversion HF2; subst.
  rewrite map_app. cbn [map]. rewrite enc_tlvs_snoc. apply rend_seq; [|apply IH; [lia|assumption]].
  apply Hf; [|assumption]. rewrite <- (firstn_skipn (S k) l), Hx. apply in_or_app. left. apply in_or_app. right. now left.
Qed.

Lemma rend_name (P : ub -> Prop) n : name_ok n -> rend P (n20_x509_name (Some n)) (enc_tlv (tlv_name (name_of n))).
Proof.
  intros (H8 & Hl & HF). unfold n20_x509_name. apply (rend_sequence P _ _ n20_asn1_tag_info_no_override).
  unfold n20_x509_name_content, N20_X509_NAME_MAX_NAME_ELEMENTS. destruct (N.ltb_spec 8 (name_count n)); [lia|].
  unfold name_of, takeN in *. rewrite map_map.
  apply (down_loop_rend P n20_x509_rdn (fun r => tlv_attribute (attribute_of r)) rdn_ok name_loop); try reflexivity.
  - intros x _ Hx. now apply rend_rdn.
  - unfold len in Hl. lia.
  - exact HF.
Qed.

(** ** Extensions *)
Definition value_of (P : ub -> Prop) (x : extension) (v : list byte) : Prop :=
  match ext_content_cb x with Some f => renders P f v | None => v = [] end.

Lemma rend_extension_item (P : ub -> Prop) x v : oid_given (ext_oid x) -> value_of P x v ->
  rend P (extension_item x) (enc_tlv (tlv_ext (ext_of x v))).
Proof.
  intros Ho Hv. unfold extension_item, tlv_ext. apply rend_header; [|reflexivity].
  rewrite enc_tlvs_cons. cbn [ext_of xf_oid xf_critical xf_value].
  apply rend_seq; [|now apply rend_oid_given].
  assert (HV : rend P (match ext_content_cb x with Some f => f | None => skip end) v).
  { unfold value_of in Hv. destruct (ext_content_cb x); [now apply rend_renders|]. subst. apply rend_skip. }
  eapply rend_eq with (a := (if ext_critical x then enc_tlv (tlv_boolean true) else []) ++ enc_tlv (tlv_octetstring v)).
  { destruct (ext_critical x); cbn [app]; rewrite ?enc_tlvs_cons; change (enc_tlvs []) with (@nil byte); now rewrite app_nil_r. }
  apply rend_seq.
  - now apply rend_header.
  - apply rend_when. intros _. apply (rend_boolean P true n20_asn1_tag_info_no_override).
Qed.

Lemma combine_firstn_S {A B} (l : list A) (vs : list B) k x v :
  nth_error l k = Some x -> nth_error vs k = Some v ->
  combine (firstn (S k) l) (firstn (S k) vs) = combine (firstn k l) (firstn k vs) ++ [(x, v)].
Proof.
  revert vs k. induction l as [|a l IH]; intros vs k H1 H2; [now destruct k|].
  destruct vs as [|b vs]; [now destruct k|]. destruct k.
  - cbn in *. congruence.
  - cbn [nth_error] in *. cbn [firstn combine app] in *. f_equal. now apply IH.
Qed.

Lemma Forall2_length {A B} (R : A -> B -> Prop) l m : Forall2 R l m -> length l = length m.
Proof. induction 1; cbn; congruence. Qed.

Lemma rend_extension_loop (P : ub -> Prop) l : forall k vs, (k <= length l)%nat ->
  Forall (fun e => oid_given (ext_oid e)) (firstn k l) -> Forall2 (value_of P) (firstn k l) vs ->
  rend P (extension_loop k l) (enc_tlvs (map (fun p => tlv_ext (ext_of (fst p) (snd p))) (combine (firstn k l) vs))).
Proof.
  induction k as [|k IH]; intros vs Hk HF HV; [apply rend_skip|].
  cbn [extension_loop]. destruct (nth_error_firstn l k) as (x & -> & Hx); [lia|].
  rewrite Hx in *. apply Forall_app in HF as [HF1 HF2]. inversion HF2; subst.
  apply Forall2_app_inv_l in HV as (vs1 & vs2 & HV1 & HV2 & ->).
  inversion HV2 as [|? v ? vs3 Hv Hr]; subst. inversion Hr; subst.
  assert (HC : combine (firstn k l ++ [x]) (vs1 ++ [v]) = combine (firstn k l) vs1 ++ [(x, v)]).
  { apply Forall2_length in HV1. revert HV1. generalize (firstn k l). clear. intro l. revert vs1.
    induction l as [|a l IH]; intros [|b vs1] HL; cbn in *; try discriminate; [reflexivity|].
    f_equal. apply IH. congruence. }
  rewrite HC, map_app. cbn [map]. rewrite enc_tlvs_snoc. apply rend_seq.
  - now apply rend_extension_item.
  - apply IH; [lia|assumption|assumption].
Qed.

Lemma rend_extension (P : ub -> Prop) x vs : exts_ok x -> callbacks P (used_exts x) vs ->
  rend P (n20_x509_extension (Some x)) (enc_tlvs (exts_tlvs (exts_of x vs))).
Proof.
  intros [Hl Ho] HV. unfold n20_x509_extension, exts_of, used_exts in *.
  destruct (exts_list x) as [l|]; [|apply rend_skip].
  destruct (N.eqb_spec (exts_count x) 0) as [E0|En].
  - rewrite E0, takeN_0. apply rend_skip.
  - unfold takeN in *.
    assert (HN : exists p ps, combine (firstn (N.to_nat (exts_count x)) l) vs = p :: ps).
    { pose proof (Forall2_length _ _ _ HV) as HL. unfold len in Hl.
      destruct (firstn (N.to_nat (exts_count x)) l) as [|a l'] eqn:El.
      - apply (f_equal (@length _)) in El. rewrite firstn_length in El. cbn in El. lia.
      - destruct vs as [|v vs]; [discriminate|]. cbn. eauto. }
    destruct HN as (p & ps & HN).
    match goal with |- rend _ _ (enc_tlvs (exts_tlvs ?L)) => replace (exts_tlvs L) with [tlv_exts L] by (rewrite HN; reflexivity) end.
    rewrite enc_tlvs_one. unfold tlv_exts. rewrite map_map.
    apply (rend_sequence P _ _ (n20_asn1_tag_info_explicit 3)).
    apply rend_extension_loop; [unfold len in Hl; lia|assumption|assumption].
Qed.

(** ** Algorithm identifiers, keys, validity *)
Lemma rend_alg (P : ub -> Prop) a : alg_ok a -> rend P (n20_x509_algorithm_identifier (Some a)) (enc_tlv (tlv_alg (alg_of a))).
Proof.
  intros [Ho Hp]. apply (rend_sequence P _ _ n20_asn1_tag_info_no_override).
  cbn [n20_x509_algorithm_identifier_content]. rewrite enc_tlvs_cons.
  apply rend_seq; [|now apply rend_oid_given].
  unfold alg_of. cbn [af_params].
  destruct (alg_parameters a); cbn [params_tlvs]; rewrite ?enc_tlvs_one.
  - apply rend_skip.
  - apply (rend_null P n20_asn1_tag_info_no_override).
  - now apply rend_oid_given.
  - apply rend_skip.
Qed.

Lemma rend_spki (P : ub -> Prop) p : alg_ok (spki_alg p) -> bitstring_ok (spki_key p) (spki_bits p) ->
  rend P (n20_x509_public_key_info (Some p))
    (enc_tlv (tlv_spki (alg_of (spki_alg p)) (key_bits (spki_key p) (spki_bits p)))).
Proof.
  intros Ha Hb. apply (rend_sequence P _ _ n20_asn1_tag_info_no_override).
  cbn [n20_x509_public_key_info_content]. rewrite enc_tlvs_cons, enc_tlvs_one.
  apply rend_seq; [|now apply rend_alg].
  now apply (rend_bitstring P _ _ n20_asn1_tag_info_no_override).
Qed.

Lemma or_default_bytes s d : slice_bytes (or_default s d) = time_or s (slice_bytes d).
Proof. unfold or_default, time_or. now destruct (sl_buf s). Qed.
Lemma or_default_ok s d : slice_ok s -> slice_ok d -> slice_ok (or_default s d).
Proof. unfold or_default. now destruct (sl_buf s). Qed.

Lemma rend_validity (P : ub -> Prop) v : slice_ok (v_not_before v) -> slice_ok (v_not_after v) ->
  rend P (n20_x509_validity (Some v))
    (enc_tlv (tlv_validity (time_or (v_not_before v) text_epoch) (time_or (v_not_after v) text_no_expiration))).
Proof.
  intros Hb Ha. pose proof SZ_lo. apply (rend_sequence P _ _ n20_asn1_tag_info_no_override).
  cbn [n20_x509_validity_content]. rewrite enc_tlvs_cons, enc_tlvs_one.
  change text_epoch with (slice_bytes n20_x509_unix_epoch). change text_no_expiration with (slice_bytes n20_x509_no_expiration).
  rewrite <- !or_default_bytes.
  apply rend_seq; apply (rend_time P _ n20_asn1_tag_info_no_override); apply or_default_ok; try assumption;
    (split; [vm_compute sl_size; lia|vm_compute; congruence]).
Qed.

(** ** Certificates *)

(** The undefined behaviour of rendering the serial number. *)
Definition serial_ub (P : ub -> Prop) (s : slice) : Prop :=
  (forall u, stray_reads u -> P u) \/ be_val (slice_bytes s) <> 0.

Lemma rend_serial (P : ub -> Prop) s : slice_ok s -> sl_size s = 0 \/ sl_buf s <> None -> serial_ub P s ->
  rend P (if sl_size s =? 0 then n20_asn1_uint64 0 n20_asn1_tag_info_no_override
          else n20_asn1_integer s false false n20_asn1_tag_info_no_override)
    (enc_tlv (tlv_integer (enc_int (Z.of_N (be_val (slice_bytes s)))))).
Proof.
  intros [Hs1 Hs2] Hor HP. destruct s as [n [d|]]; cbn [sl_size sl_buf slice_bytes] in *.
  - destruct (N.eqb_spec n 0) as [->|Hn].
    + unfold serial_ub in HP. cbn [slice_bytes sl_buf sl_size] in HP. rewrite takeN_0 in *.
      destruct HP as [HP|HP]; [|now elim HP].
      apply (rend_uint64 P 0 n20_asn1_tag_info_no_override); [assumption|reflexivity|reflexivity].
    + apply (rend_integer P d n false false n20_asn1_tag_info_no_override); [lia|assumption|].
      destruct HP as [HP|HP].
      * eapply Forall_impl; [exact HP|]. apply int_ub_stray.
      * cbn [slice_bytes sl_buf sl_size] in HP. rewrite int_ub_clean; [constructor|lia|assumption|].
        left. unfold number_of. cbv zeta. split; lia.
  - destruct Hor as [->|Hor]; [|now elim Hor]. cbn.
    unfold serial_ub in HP. cbn [slice_bytes sl_buf sl_size] in HP.
    destruct HP as [HP|HP]; [|now elim HP].
    apply (rend_uint64 P 0 n20_asn1_tag_info_no_override); [assumption|reflexivity|reflexivity].
Qed.

Lemma rend_tbs (P : ub -> Prop) t vs : tbs_ok t -> callbacks P (used_exts (tbs_exts t)) vs -> serial_ub P (tbs_serial t) ->
  rend P (n20_x509_cert_tbs (Some t)) (enc_tlv (tlv_tbs (tbs_of t vs))).
Proof.
  intros (H1 & H2 & H3 & H4 & H5 & H6 & H7 & H8 & H9 & H10) HV HU. pose proof SZ_lo.
  apply (rend_sequence P _ _ n20_asn1_tag_info_no_override).
  cbn [n20_x509_cert_tbs_content app]. rewrite !enc_tlvs_cons. cbn [tbs_of tf_version tf_serial tf_sig_alg tf_issuer
    tf_not_before tf_not_after tf_subject tf_key_alg tf_key tf_exts].
  repeat match goal with |- rend _ (andthen _ _) _ => apply rend_seq end.
  - now apply rend_extension.
  - now apply rend_spki.
  - now apply rend_name.
  - now apply rend_validity.
  - now apply rend_name.
  - now apply rend_alg.
  - now apply rend_serial.
  - apply rend_renders. apply (renders_prepend_all P (bytes [0xa0; 0x03; 0x02; 0x01; 0x02])). vm_compute len. lia.
Qed.

Lemma rend_cert (P : ub -> Prop) t c vs : cert_ok t c -> callbacks P (used_exts (tbs_exts t)) vs -> serial_ub P (tbs_serial t) ->
  rend P (n20_x509_cert (Some c)) (enc_tlv (tlv_cert (cert_of t c vs))).
Proof.
  intros (H1 & H2 & H3 & H4) HV HU. apply (rend_sequence P _ _ n20_asn1_tag_info_no_override).
  cbn [n20_x509_cert_content]. rewrite !enc_tlvs_cons. cbn [cert_of cf_tbs cf_sig_alg cf_signature].
  repeat match goal with |- rend _ (andthen _ _) _ => apply rend_seq end.
  - change (enc_tlvs []) with (@nil byte). rewrite app_nil_r.
    now apply (rend_bitstring P _ _ n20_asn1_tag_info_no_override).
  - now apply rend_alg.
  - rewrite H1. now apply rend_tbs.
Qed.

(** ** The fields denoted by well-formed structures can be read back. *)
Lemma oid_given_valid o : oid_given o -> oid_valid (arcs_of o).
Proof. destruct o; [|intros []]. intros (_ & _ & H & _). exact H. Qed.
Lemma alg_of_ok a : alg_ok a -> algf_ok (alg_of a).
Proof.
  intros [H1 H2]. split; [now apply oid_given_valid|]. unfold alg_of. cbn.
  destruct (alg_parameters a); try exact I. now apply oid_given_valid.
Qed.
Lemma name_of_ok n : name_ok n -> namef_ok (name_of n).
Proof.
  intros (_ & _ & HF). unfold namef_ok, name_of. apply Forall_map. eapply Forall_impl; [|exact HF].
  intros r [Hr _]. now apply oid_given_valid.
Qed.
Lemma exts_of_ok x vs : exts_ok x -> extsf_ok (exts_of x vs).
Proof.
  intros [_ HF]. unfold extsf_ok, exts_of. apply Forall_map. apply Forall_forall. intros [e v] Hin.
  apply in_combine_l in Hin. rewrite Forall_forall in HF. cbn. apply oid_given_valid. now apply HF.
Qed.
Lemma tbs_of_ok t vs : tbs_ok t -> tbsf_ok (tbs_of t vs).
Proof.
  intros (H1 & H2 & H3 & H4 & H5 & H6 & H7 & H8 & H9 & H10).
  repeat split; cbn; try (now apply alg_of_ok); try (now apply name_of_ok). now apply exts_of_ok.
Qed.
Lemma cert_of_ok t c vs : cert_ok t c -> certf_ok (cert_of t c vs).
Proof. intros (H1 & H2 & H3 & H4). split; [now apply tbs_of_ok|now apply alg_of_ok]. Qed.

Lemma small_SZ b : len b < SZ -> small b.
Proof. unfold small. pose proof SZ_pow. lia. Qed.

(** ** Extension contents *)
Definition path_of (b : basic_constraints) : option Z :=
  if bc_is_ca b && bc_has_path_length b then Some (Z.of_N (bc_path_length b)) else None.

Lemma rend_basic_constraints (P : ub -> Prop) b : (forall u, stray_reads u -> P u) \/ bc_is_ca b && bc_has_path_length b = false ->
  bc_path_length b < 2 ^ 32 ->
  rend P (n20_x509_ext_basic_constraints_content (Some b)) (enc_tlv (tlv_basic_constraints (bc_is_ca b) (path_of b))).
Proof.
  intros HP Hn. apply rend_header; [|reflexivity]. destruct b as [ca hp pl]. cbn [bc_is_ca bc_has_path_length bc_path_length] in *.
  unfold path_of. cbn [bc_is_ca bc_has_path_length bc_path_length].
  destruct ca; [|apply rend_skip]. cbn [when]. rewrite enc_tlvs_cons.
  apply rend_seq; [|apply (rend_boolean P true n20_asn1_tag_info_no_override)].
  destruct hp; cbn [andb when]; [|apply rend_skip]. rewrite enc_tlvs_one.
  destruct HP as [HP|HP]; [|discriminate].
  apply (rend_uint64 P pl n20_asn1_tag_info_no_override); [assumption|reflexivity|].
  change (2 ^ 64) with 18446744073709551616. change (2 ^ 32) with 4294967296 in Hn. lia.
Qed.

Lemma rend_key_usage (P : ub -> Prop) k :
  rend P (n20_x509_ext_key_usage_content (Some k))
    (enc_tlv (tlv_bitstring (enc_bits (takeN (key_usage_bits (b2n (ku_mask0 k)) (b2n (ku_mask1 k)))
      (bits_of_bytes [ku_mask0 k; ku_mask1 k]))))).
Proof.
  apply (rend_bitstring P (Some [ku_mask0 k; ku_mask1 k]) _ n20_asn1_tag_info_no_override).
  assert (key_usage_bits (b2n (ku_mask0 k)) (b2n (ku_mask1 k)) <= 9).
  { unfold key_usage_bits. destruct (negb _); [lia|]. destruct (negb _); [|lia].
    destruct (_ =? 0); cbn; destruct (_ =? 0); cbn; destruct (_ =? 0); lia. }
  pose proof SZ_lo. split; [lens; lia|lia].
Qed.

(** Fields rendered from last to first. *)
Lemma rend_if_present (P : ub -> Prop) s f (g : list byte -> tlv) rest l :
  (slice_ok s -> rend P f (enc_tlv (g (slice_bytes s)))) -> slice_ok s ->
  rend P rest (enc_tlvs (fields l)) ->
  rend P (rest ;; if_present s f)%cmd (enc_tlvs (fields (option_map g (opt_bytes s) :: l))).
Proof.
  intros Hf Hs Hr. rewrite fields_cons. unfold if_present, opt_bytes.
  destruct (sl_buf s); cbn [option_map].
  - change ([g (slice_bytes s)] ++ fields l) with (g (slice_bytes s) :: fields l). rewrite enc_tlvs_cons.
    apply rend_seq; auto.
  - eapply rend_eq; [|apply rend_seq; [exact Hr|apply rend_skip]]. reflexivity.
Qed.
Lemma rend_field (P : ub -> Prop) f t rest l : rend P f (enc_tlv t) -> rend P rest (enc_tlvs (fields l)) ->
  rend P (rest ;; f)%cmd (enc_tlvs (fields (Some t :: l))).
Proof. intros. rewrite fields_cons. cbn [app]. rewrite enc_tlvs_cons. now apply rend_seq. Qed.
Lemma rend_first_present (P : ub -> Prop) s f (g : list byte -> tlv) :
  (slice_ok s -> rend P f (enc_tlv (g (slice_bytes s)))) -> slice_ok s ->
  rend P (if_present s f) (enc_tlvs (fields [option_map g (opt_bytes s)])).
Proof.
  intros Hf Hs. unfold if_present, opt_bytes. destruct (sl_buf s); cbn [option_map].
  - change (fields [Some (g (slice_bytes s))]) with [g (slice_bytes s)]. rewrite enc_tlvs_one. auto.
  - apply rend_skip.
Qed.

Lemma rend_open_dice (P : ub -> Prop) o : (forall u, stray_reads u -> P u) -> open_dice_ok o ->
  rend P (n20_x509_ext_open_dice_input_content (Some o)) (enc_tlv (tlv_open_dice (open_dice_of o))).
Proof.
  intros HP (H0 & H1 & H2 & H3 & H4 & H5 & H6 & H7). apply (rend_sequence P _ _ n20_asn1_tag_info_no_override).
  unfold open_dice_sequence_content, open_dice_tlvs. cbv zeta.
  cbn [open_dice_of odf_code_hash odf_code_descriptor odf_configuration_hash odf_configuration_descriptor odf_authority_hash
    odf_authority_descriptor odf_mode odf_profile_name].
  repeat match goal with
  | |- rend _ (andthen _ (if_present _ _)) _ => apply rend_if_present; [intro; now apply rend_octetstring|assumption|]
  end.
  cbn [option_map]. apply rend_field.
  - apply (rend_uint64 P (od_mode o) (n20_asn1_tag_info_explicit 6)); [assumption|reflexivity|assumption].
  - apply rend_first_present; [|assumption]. intro. now apply (rend_utf8_string P _ (n20_asn1_tag_info_explicit 7)).
Qed.

Lemma rend_octets_seq (P : ub -> Prop) s : slice_ok s ->
  rend P (n20_asn1_sequence (Some (n20_asn1_octetstring (Some s) n20_asn1_tag_info_no_override)) n20_asn1_tag_info_no_override)
    (enc_tlv (tlv_sequence (enc_tlvs [tlv_octetstring (slice_bytes s)]))).
Proof.
  intro Hs. apply (rend_sequence P _ _ n20_asn1_tag_info_no_override). rewrite enc_tlvs_one.
  now apply (rend_octetstring P _ n20_asn1_tag_info_no_override).
Qed.

Lemma rend_fwid (P : ub -> Prop) f : oid_encodable (fw_algo f) /\ slice_ok (fw_digest f) ->
  rend P (n20_asn1_sequence (Some (fwid_content f)) n20_asn1_tag_info_no_override) (enc_tlv (tlv_fwid (fwid_of f))).
Proof.
  intros [Ho Hs]. apply (rend_sequence P _ _ n20_asn1_tag_info_no_override).
  unfold fwid_content. rewrite enc_tlvs_cons, enc_tlvs_one. apply rend_seq.
  - now apply (rend_octetstring P _ n20_asn1_tag_info_no_override).
  - now apply (rend_oid_given P (Some (fw_algo f))).
Qed.

Lemma bits32 d : len d = 4 -> key_bits (Some d) 32 = bits_of_bytes d.
Proof. intro H. cbn [key_bits]. apply takeN_all. rewrite len_bits_of_bytes. lia. Qed.

Lemma rend_tcb (P : ub -> Prop) t : (forall u, stray_reads u -> P u) -> tcb_ok t ->
  rend P (n20_x509_ext_tcg_dice_tcb_info_content (Some t)) (enc_tlv (tlv_tcb (tcb_of t))).
Proof.
  intros HP (H0 & H1 & H2 & H3 & H4 & H5 & H6 & H7 & H8 & H9 & H10). pose proof SZ_lo.
  apply (rend_sequence P _ _ n20_asn1_tag_info_no_override).
  unfold tcb_info_sequence_content, tcb_tlvs. cbv zeta.
  cbn [tcb_of tcf_vendor tcf_model tcf_version tcf_svn tcf_layer tcf_index tcf_fwids tcf_flags tcf_vendor_info tcf_type
    tcf_flags_mask].
  assert (HB : forall d n, len d = 4 ->
    rend P (n20_asn1_bitstring (Some d) 32 (n20_asn1_tag_info_implicit n))
      (enc_tlv (Tlv 2 false (Z.to_N (n mod 4294967296)) (enc_bits (bits_of_bytes d))))).
  { intros d n Hd. rewrite <- bits32 by assumption.
    apply (rend_bitstring P (Some d) 32 (n20_asn1_tag_info_implicit n)). split; lia. }
  assert (HI : forall z n, int64_ok z ->
    rend P (n20_asn1_int64 z (n20_asn1_tag_info_implicit n)) (enc_tlv (Tlv 2 false (Z.to_N (n mod 4294967296)) (enc_int z)))).
  { intros z n Hz. apply (rend_int64 P z (n20_asn1_tag_info_implicit n)); [assumption| |assumption].
    unfold ti_ok, n20_asn1_tag_info_implicit. cbn [ti_tag]. change (2 ^ 32) with 4294967296. lia. }
  do 3 (apply rend_if_present; [intro; now apply rend_utf8_string|assumption|]).
  cbn [option_map].
  apply rend_field; [now apply HI|]. apply rend_field; [now apply HI|]. apply rend_field; [now apply HI|].
  match goal with |- rend _ (andthen ?r ?f) (enc_tlvs (fields (option_map ?g ?o :: ?l))) =>
    assert (HR : rend P r (enc_tlvs (fields l))) end.
  { apply rend_field; [now apply (HB _ 7%Z)|].
    do 2 (apply rend_if_present; [intro; now apply rend_octetstring|assumption|]).
    cbn [fields flat_map app]. rewrite enc_tlvs_one. now apply (HB _ 10%Z). }
  destruct (ti_fwids t) as [l|]; cbn [option_map].
  - apply rend_field; [|exact HR].
    match goal with |- rend _ _ (enc_tlv (Tlv 2 true 6 ?a)) =>
      apply (rend_sequence P _ a (n20_asn1_tag_info_implicit 6)) end. destruct H6 as [Hl HF]. unfold takeN in *.
    rewrite map_map.
    apply (down_loop_rend P (fun f => n20_asn1_sequence (Some (fwid_content f)) n20_asn1_tag_info_no_override)
      (fun f => tlv_fwid (fwid_of f)) (fun f => oid_encodable (fw_algo f) /\ slice_ok (fw_digest f)) fwid_list_loop);
      try reflexivity.
    + intros x _ Hx. now apply rend_fwid.
    + unfold len in Hl. lia.
    + exact HF.
  - rewrite fields_cons. eapply rend_eq; [|apply rend_seq; [exact HR|apply rend_skip]]. reflexivity.
Qed.

Lemma rend_multi_tcb (P : ub -> Prop) m l : (forall u, stray_reads u -> P u) -> mt_list m = Some l -> mt_count m <= len l ->
  Forall tcb_ok (takeN (mt_count m) l) ->
  rend P (n20_x509_ext_tcg_dice_multi_tcb_info_content (Some m))
    (enc_tlv (tlv_sequence (enc_tlvs (map tlv_tcb (map tcb_of (takeN (mt_count m) l)))))).
Proof.
  intros HP Hm Hl HF. apply (rend_sequence P _ _ n20_asn1_tag_info_no_override). rewrite Hm, map_map. unfold takeN in *.
  apply (down_loop_rend P (fun t => n20_x509_ext_tcg_dice_tcb_info_content (Some t)) (fun t => tlv_tcb (tcb_of t)) tcb_ok
    multi_tcb_loop); try reflexivity.
  - intros x _ Hx. now apply rend_tcb.
  - unfold len in Hl. lia.
  - exact HF.
Qed.

Lemma tcb_of_ok t : tcb_ok t -> tcbf_ok (tcb_of t).
Proof.
  intros (_ & _ & _ & _ & _ & _ & H & _). unfold tcbf_ok. cbn [tcb_of tcf_fwids]. destruct (ti_fwids t); [|exact I].
  destruct H as [_ H]. apply Forall_map. eapply Forall_impl; [|exact H]. intros f [(_ & _ & Hf & _) _]. exact Hf.
Qed.

End WithEnv.
