(** Properties C20 and C22-C25: object identifiers, names, extension lists, basic constraints and key usage.

    [renders allowed f b] (SpecStream.v): on every stream, with every buffer and history, [f] writes exactly [b] in front
    of what is there, and the only undefined behaviour is [allowed]. The readers ([read_cert], [read_name], ...), the
    denotations ([cert_of], [name_of], ...) and the preconditions ([cert_ok], ...) are in SpecX509.v.
    [sizing_succeeds f]: a sizing pass of [f] over a NULL buffer reports no write position overflow. *)
From Coq Require Import List NArith ZArith Bool Strings.Byte Lia.
From Coq Require Import ZifyBool ZifyNat ZifyN.
From Verif Require Import Base BaseFacts Stream SpecStream StreamProofs SpecDigits SpecDer DerFacts Asn1 SpecAsn1 Asn1Proofs
  Oid X509 X509Ext SpecX509 RendProofs X509Facts X509Proofs.
Import ListNotations.
Open Scope N_scope.

#[local] Instance env64 : Env := {| size_width := W64; host_little_endian := true; stray := fun _ => x00 |}.

(** Runs a renderer on a fresh 512-byte buffer; used by the examples only. *)
Definition rendered (f : cmd) : list byte :=
  match w_stream (f (mkWorld (Some (n20_stream_init (Some (repeat x00 512)) 512)) [])) with
  | Some s => stream_contents s
  | None => []
  end.

(** ** C20 *)
Definition oid_readable (o : option oid) : Prop :=
  match o with None => True | Some o => oid_elem_count o <= 10 /\ len (oid_elements o) = 10 end.

(** Whatever lies behind the arrays ([junk]), the result is equality of the arcs; nothing outside is read. *)
Theorem C20_oid_equals_is_equality : forall junk1 junk2 o1 o2, oid_readable o1 -> oid_readable o2 ->
  (fst (n20_asn1_oid_equals_full junk1 junk2 o1 o2) = true <-> option_map oid_arcs o1 = option_map oid_arcs o2) /\
  snd (n20_asn1_oid_equals_full junk1 junk2 o1 o2) = [].
Proof.
  intros j1 j2 [o1|] [o2|] H1 H2; try (cbn; split; [split; easy|reflexivity]).
  destruct H1, H2. destruct (oid_equals_spec j1 j2 o1 o2) as [HU HB]; [lia|lia|]. split; [|assumption].
  rewrite HB. cbn. split; [now intros ->|congruence].
Qed.
Print Assumptions C20_oid_equals_is_equality.

Theorem C20_oid_equals_equivalence : forall j1 j2 j3 o1 o2 o3, oid_readable o1 -> oid_readable o2 -> oid_readable o3 ->
  fst (n20_asn1_oid_equals_full j1 j1 o1 o1) = true /\
  fst (n20_asn1_oid_equals_full j1 j2 o1 o2) = fst (n20_asn1_oid_equals_full j2 j1 o2 o1) /\
  (fst (n20_asn1_oid_equals_full j1 j2 o1 o2) = true -> fst (n20_asn1_oid_equals_full j2 j3 o2 o3) = true ->
   fst (n20_asn1_oid_equals_full j1 j3 o1 o3) = true).
Proof.
  intros j1 j2 j3 o1 o2 o3 H1 H2 H3.
  assert (S : forall a b x y, oid_readable x -> oid_readable y ->
    fst (n20_asn1_oid_equals_full a b x y) = true <-> option_map oid_arcs x = option_map oid_arcs y)
    by (intros; now apply C20_oid_equals_is_equality).
  split; [now apply S|]. split.
  - apply Bool.eq_iff_eq_true. rewrite !S by assumption. split; congruence.
  - rewrite !S by assumption. congruence.
Qed.
Print Assumptions C20_oid_equals_equivalence.
(** Elements behind the count (77 and 78 here) play no role. *)
Example C20_equivalence_case :
  let o1 := mkOid 2 [2; 5; 77; 0; 0; 0; 0; 0; 0; 0] in let o2 := mkOid 2 [2; 5; 78; 0; 0; 0; 0; 0; 0; 0] in
  oid_readable (Some o1) /\ oid_readable (Some o2) /\ oid_readable None /\
  fst (n20_asn1_oid_equals (Some o1) (Some o2)) = true /\ fst (n20_asn1_oid_equals (Some o2) (Some o1)) = true /\
  fst (n20_asn1_oid_equals None None) = true /\ fst (n20_asn1_oid_equals None (Some o2)) = false.
Proof.
  cbv zeta. splits; [split; [vm_compute; congruence|reflexivity]|split; [vm_compute; congruence|reflexivity]|exact I|vm_compute; reflexivity..].
Qed.

(** The library's constants are pairwise different, so comparing against them discriminates. *)
Theorem C20_library_oids_distinct : forall i j a b,
  nth_error all_oids i = Some a -> nth_error all_oids j = Some b ->
  fst (n20_asn1_oid_equals (Some a) (Some b)) = true -> i = j.
Proof.
  assert (H : forallb (fun i => forallb (fun j =>
      match nth_error all_oids i, nth_error all_oids j with
      | Some a, Some b => if fst (n20_asn1_oid_equals (Some a) (Some b)) then Nat.eqb i j else true
      | _, _ => true end) (seq 0 28)) (seq 0 28) = true) by (vm_compute; reflexivity).
  intros i j a b Ha Hb HE.
  assert (Hi : (i < 28)%nat) by (apply (proj1 (nth_error_Some all_oids i)); congruence).
  assert (Hj : (j < 28)%nat) by (apply (proj1 (nth_error_Some all_oids j)); congruence).
  rewrite forallb_forall in H. specialize (H i). rewrite forallb_forall in H.
  specialize (H ltac:(apply in_seq; lia) j ltac:(apply in_seq; lia)). rewrite Ha, Hb, HE in H. now apply Nat.eqb_eq.
Qed.
Print Assumptions C20_library_oids_distinct.
Example C20_distinct_case : nth_error all_oids 3 <> None /\
  forall a, nth_error all_oids 3 = Some a -> map (fun b => fst (n20_asn1_oid_equals (Some a) (Some b))) (firstn 5 all_oids) = [false; false; false; true; false].
Proof. split; [discriminate|]. intros a H. injection H as <-. vm_compute. reflexivity. Qed.

(** The bound on the arc count is needed: with 11 arcs the function reads behind both arrays, and what lies there decides. *)
Theorem C20_oid_equals_unchecked_count_refuted : exists o, len (oid_elements o) = 10 /\
  n20_asn1_oid_equals_full (fun _ => 0) (fun _ => 1) (Some o) (Some o) = (false, [UBReadOob; UBReadOob]).
Proof. exists (mkOid 11 (repeat 7 10)). split; vm_compute; reflexivity. Qed.
Print Assumptions C20_oid_equals_unchecked_count_refuted.

Example C20_example :
  oid_readable (Some OID_SHA256) /\
  fst (n20_asn1_oid_equals (Some OID_SHA256) (Some (mkOid 9 [2; 16; 840; 1; 101; 3; 4; 2; 1; 77]))) = true /\
  fst (n20_asn1_oid_equals (Some OID_SHA256) (Some OID_SHA384)) = false /\
  fst (n20_asn1_oid_equals (Some OID_SHA256) None) = false.
Proof. splits; try (vm_compute; reflexivity). split; [vm_compute; congruence|reflexivity]. Qed.

(** ** C22 *)
Theorem C22_name_round_trip : forall (E : Env) n, name_ok n -> sizing_succeeds (n20_x509_name (Some n)) ->
  exists b, renders clean (n20_x509_name (Some n)) b /\ len b < SZ /\ read_name b = Some (name_of n).
Proof.
  intros E n Hn Hs. destruct (rend_sized _ _ _ (rend_name clean n Hn) Hs) as [HR HL].
  eexists. splits; [exact HR|exact HL|]. apply read_name_enc; [now apply name_of_ok|now apply small_SZ].
Qed.
Print Assumptions C22_name_round_trip.

(** The elements as the caller gave them: type and raw bytes (a serial number not yet in hexadecimal). *)
Definition raw_element (r : rdn) : list N * list byte := (arcs_of (rdn_type r), slice_bytes (rdn_value r)).
Definition raw_elements (n : name) : list (list N * list byte) :=
  map raw_element (takeN (name_count n) (name_elements n)).

Lemma attribute_of_raw r1 r2 : attribute_of r1 = attribute_of r2 -> raw_element r1 = raw_element r2.
Proof.
  unfold attribute_of, raw_element. intro H. injection H as H1 H2. rewrite H1 in *.
  destruct (list_eq_dec _ _ _); [apply hex_lower_inj in H2|]; congruence.
Qed.
Lemma name_of_raw n1 n2 : name_of n1 = name_of n2 -> raw_elements n1 = raw_elements n2.
Proof.
  unfold name_of, raw_elements. generalize (takeN (name_count n1) (name_elements n1)), (takeN (name_count n2) (name_elements n2)).
  induction l as [|a l IH]; intros [|b m] H; cbn in *; try discriminate; [reflexivity|].
  f_equal; [apply attribute_of_raw; congruence|apply IH; congruence].
Qed.

Theorem C22_name_injective : forall (E : Env) n1 n2 b, name_ok n1 -> name_ok n2 -> len b < SZ ->
  renders clean (n20_x509_name (Some n1)) b -> renders clean (n20_x509_name (Some n2)) b ->
  raw_elements n1 = raw_elements n2.
Proof.
  intros E n1 n2 b H1 H2 Hb R1 R2.
  destruct (C22_name_round_trip E n1 H1) as (b1 & R1' & _ & P1); [now apply (sizing_spec clean _ b R1)|].
  destruct (C22_name_round_trip E n2 H2) as (b2 & R2' & _ & P2); [now apply (sizing_spec clean _ b R2)|].
  rewrite <- (renders_det _ _ _ _ _ Hb R1 R1') in P1. rewrite <- (renders_det _ _ _ _ _ Hb R2 R2') in P2.
  apply name_of_raw. congruence.
Qed.
Print Assumptions C22_name_injective.

(** NULL and over-long names: SEQUENCE { NULL }. *)
Theorem C22_name_fallback : forall (E : Env) n, match n with None => True | Some n => 8 < name_count n end ->
  exists b, renders clean (n20_x509_name n) b /\ decodes b (Tlv 0 true 16 [x05; x00]).
Proof.
  intros E n Hn. pose proof SZ_lo. exists (enc_tlv (tlv_sequence (enc_tlv tlv_null))). split.
  - apply (sequence_renders clean (Some _) _ n20_asn1_tag_info_no_override).
    + unfold n20_x509_name_content, N20_X509_NAME_MAX_NAME_ELEMENTS. destruct n as [n|]; [|apply null_plain_renders].
      destruct (N.ltb_spec 8 (name_count n)); [apply null_plain_renders|lia].
    + change (len _) with 2. lia.
  - apply enc_decodes. split; reflexivity.
Qed.
Print Assumptions C22_name_fallback.
Example C22_fallback_case :
  rendered (n20_x509_name None) = bytes [0x30; 2; 5; 0] /\ rendered (n20_x509_name (Some (mkName 9 []))) = bytes [0x30; 2; 5; 0].
Proof. split; vm_compute; reflexivity. Qed.

Definition example_name : name :=
  mkName 2 [mkRdn (Some OID_COMMON_NAME) (slice_of (bytes [0x4a; 0x6f]));
            mkRdn (Some OID_SERIAL_NUMBER) (slice_of (bytes [0x0f; 0xa1]))].

(** All the library's object identifiers can be rendered. *)
Definition encodable_b (o : oid) : bool :=
  (len (oid_elements o) =? 10) && forallb (fun a => a <? 4294967296) (oid_elements o) &&
  (2 <=? oid_elem_count o) && (oid_elem_count o <=? 10) &&
  match oid_arcs o with a :: b :: _ => (a <=? 2) && (negb (a <? 2) || (b <? 40)) | _ => false end &&
  (40 * oid_element o 0 + oid_element o 1 <? 128).
Lemma encodable_b_ok o : encodable_b o = true -> oid_encodable o.
Proof.
  unfold encodable_b, oid_encodable, oid_ok. rewrite !andb_true_iff. intros [[[[[H1 H2] H3] H4] H5] H6].
  splits; try lia.
  - rewrite forallb_forall in H2. apply Forall_forall. intros a Ha. apply N.ltb_lt. now apply H2.
  - unfold oid_valid. destruct (oid_arcs o) as [|a [|b l]]; try discriminate. lia.
Qed.
Lemma all_oids_encodable o : In o all_oids -> oid_encodable o.
Proof.
  assert (H : forallb encodable_b all_oids = true) by (vm_compute; reflexivity).
  rewrite forallb_forall in H. intro Hi. apply encodable_b_ok. now apply H.
Qed.
Lemma oid_given_example o : encodable_b o = true -> oid_given (Some o).
Proof. apply encodable_b_ok. Qed.
Ltac slices := split; [vm_compute; reflexivity|vm_compute; congruence].

Lemma example_name_ok : name_ok example_name.
Proof.
  split; [vm_compute; congruence|]. split; [vm_compute; congruence|].
  change (takeN _ _) with (name_elements example_name). unfold example_name. cbn [name_elements].
  repeat (constructor; [split; [apply oid_given_example; vm_compute; reflexivity|slices]|]). constructor.
Qed.
Example C22_example :
  name_ok example_name /\ sizing_succeeds (n20_x509_name (Some example_name)) /\
  rendered (n20_x509_name (Some example_name))
    = bytes [0x30; 0x1c; 0x31; 0x0b; 0x30; 0x09; 0x06; 0x03; 0x55; 0x04; 0x03; 0x13; 0x02; 0x4a; 0x6f;
             0x31; 0x0d; 0x30; 0x0b; 0x06; 0x03; 0x55; 0x04; 0x05; 0x13; 0x04; 0x30; 0x66; 0x61; 0x31].
Proof. splits; [exact example_name_ok|vm_compute; reflexivity|vm_compute; reflexivity]. Qed.
(** A name that differs behind its count: the same bytes, the same elements. *)
Example C22_injective_case :
  let n2 := mkName 2 (name_elements example_name ++ [mkRdn None (slice_of (bytes [1]))]) in
  name_ok n2 /\ n2 <> example_name /\ rendered (n20_x509_name (Some n2)) = rendered (n20_x509_name (Some example_name)) /\
  raw_elements n2 = raw_elements example_name.
Proof.
  cbv zeta. splits; [| |vm_compute; reflexivity|vm_compute; reflexivity].
  - split; [vm_compute; congruence|]. split; [vm_compute; congruence|]. exact (proj2 (proj2 example_name_ok)).
  - unfold example_name. cbn. discriminate.
Qed.

(** ** C23 *)
Definition read_exts (bs : list byte) : option (list ext_fields) := let? t := read_one bs in parse_exts t.

(** [vs] are the bytes rendered by the callbacks, which may be any code that renders some bytes. *)
Theorem C23_extensions_round_trip : forall (E : Env) allowed x vs, exts_ok x -> callbacks allowed (used_exts x) vs ->
  used_exts x <> [] -> sizing_succeeds (n20_x509_extension (Some x)) ->
  exists b, renders allowed (n20_x509_extension (Some x)) b /\ len b < SZ /\ read_exts b = Some (exts_of x vs).
Proof.
  intros E allowed x vs Hx Hv Hne Hs. destruct (rend_sized _ _ _ (rend_extension allowed x vs Hx Hv) Hs) as [HR HL].
  eexists. splits; [exact HR|exact HL|]. apply small_SZ in HL.
  assert (Hn : exts_of x vs <> []).
  { unfold exts_of. apply Forall2_length in Hv. destruct (used_exts x), vs; try discriminate; congruence. }
  pose proof (exts_of_ok x vs Hx) as Ho. unfold read_exts.
  destruct (exts_of x vs) as [|e l] eqn:Ex; [congruence|]. cbn [exts_tlvs] in *. rewrite enc_tlvs_one in *.
  rewrite read_one_enc; [|reflexivity|exact HL]. cbn [bind]. apply parse_exts_enc; [discriminate|exact Ho|exact HL].
Qed.
Print Assumptions C23_extensions_round_trip.

Theorem C23_no_extensions : forall (E : Env) x,
  match x with None => True | Some x => exts_list x = None \/ exts_count x = 0 end ->
  renders clean (n20_x509_extension x) [].
Proof.
  intros E [x|] Hx; [|apply renders_skip]. unfold n20_x509_extension.
  destruct (exts_list x); [|apply renders_skip]. destruct Hx as [Hx|Hx]; [discriminate|].
  rewrite Hx. apply renders_skip.
Qed.
Print Assumptions C23_no_extensions.
Example C23_none_case :
  rendered (n20_x509_extension None) = [] /\ rendered (n20_x509_extension (Some (mkExtensions 3 None))) = [] /\
  rendered (n20_x509_extension (Some (mkExtensions 0 (Some [mkExtension None true None])))) = [].
Proof. splits; vm_compute; reflexivity. Qed.

(** The list holds the given extensions in order: object identifier, critical flag, value. *)
Theorem C23_extensions_in_order : forall (E : Env) allowed x vs i e v, callbacks allowed (used_exts x) vs ->
  nth_error (used_exts x) i = Some e -> nth_error vs i = Some v ->
  nth_error (exts_of x vs) i = Some (ExtFields (arcs_of (ext_oid e)) (ext_critical e) v) /\
  length (exts_of x vs) = length (used_exts x).
Proof.
  intros E allowed x vs i e v Hc He Hv. apply Forall2_length in Hc. unfold exts_of. split.
  - rewrite nth_error_map. replace (nth_error (combine (used_exts x) vs) i) with (Some (e, v)); [reflexivity|].
    clear Hc. revert vs i He Hv. induction (used_exts x) as [|a l IH]; intros vs i He Hv; [now destruct i|].
    destruct vs; [now destruct i|]. destruct i; cbn in *; [congruence|auto].
  - rewrite map_length, combine_length. lia.
Qed.
Print Assumptions C23_extensions_in_order.

(** Example: two extensions, the first critical with an empty key usage value, the second with opaque bytes. *)
Definition opaque (bs : list byte) : cmd := n20_stream_prepend (Some bs) (len bs).
Definition example_exts : extensions :=
  mkExtensions 2 (Some [mkExtension (Some OID_BASIC_CONSTRAINTS) true (Some (opaque (bytes [0x30; 0x00])));
                        mkExtension (Some OID_KEY_USAGE) false None]).
Lemma example_exts_ok : exts_ok example_exts.
Proof.
  split; [vm_compute; congruence|].
  repeat (constructor; [apply oid_given_example; vm_compute; reflexivity|]). constructor.
Qed.
Lemma example_callbacks : callbacks clean (used_exts example_exts) [bytes [0x30; 0x00]; []].
Proof.
  constructor; [|constructor; [reflexivity|constructor]].
  cbn [ext_content_cb]. apply renders_prepend_all. vm_compute. reflexivity.
Qed.
Example C23_example :
  exts_ok example_exts /\ callbacks clean (used_exts example_exts) [bytes [0x30; 0x00]; []] /\
  used_exts example_exts <> [] /\ sizing_succeeds (n20_x509_extension (Some example_exts)) /\
  read_exts (rendered (n20_x509_extension (Some example_exts))) =
    Some [ExtFields [2; 5; 29; 19] true (bytes [0x30; 0x00]); ExtFields [2; 5; 29; 15] false []].
Proof.
  splits; [exact example_exts_ok|exact example_callbacks|discriminate|vm_compute; reflexivity|vm_compute; reflexivity].
Qed.
Example C23_order_case :
  nth_error (used_exts example_exts) 1 <> None /\ nth_error [bytes [0x30; 0x00]; []] 1 = Some [] /\
  nth_error (exts_of example_exts [bytes [0x30; 0x00]; []]) 1 = Some (ExtFields [2; 5; 29; 15] false []).
Proof. splits; [discriminate|reflexivity|vm_compute; reflexivity]. Qed.

(** ** C24 *)
Theorem C24_basic_constraints_round_trip : forall (E : Env) bc, bc_path_length bc < 2 ^ 32 ->
  exists b, renders stray_reads (n20_x509_ext_basic_constraints_content (Some bc)) b /\
    read_basic_constraints b =
      Some (bc_is_ca bc, if bc_is_ca bc && bc_has_path_length bc then Some (Z.of_N (bc_path_length bc)) else None).
Proof.
  intros E bc Hp. pose proof SZ_lo.
  assert (HL : len (enc_tlv (tlv_basic_constraints (bc_is_ca bc) (path_of bc))) < 32).
  { assert (HI : len (enc_int (Z.of_N (bc_path_length bc))) <= N.of_nat 5).
    { apply enc_int_len_le; [lia|]. unfold fits. cbn. lia. }
    unfold path_of, tlv_basic_constraints.
    destruct (bc_is_ca bc), (bc_has_path_length bc); cbn [andb]; [|vm_compute; reflexivity..].
    rewrite enc_tlvs_cons, enc_tlvs_one. revert HI. generalize (enc_int (Z.of_N (bc_path_length bc))). intros l HI.
    destruct l as [|? [|? [|? [|? [|? [|]]]]]]; try (vm_compute; reflexivity). unfold len in HI. cbn [length] in HI. lia. }
  assert (HR := rend_small _ _ _ (rend_basic_constraints stray_reads bc (or_introl (fun u Hu => Hu)) Hp)).
  eexists. split; [apply HR; lia|]. fold (path_of bc). apply read_basic_constraints_enc; [|apply small_SZ; lia].
  unfold path_of. now intros ->.
Qed.
Print Assumptions C24_basic_constraints_round_trip.

(** Without a path length there is no undefined behaviour at all. *)
Theorem C24_basic_constraints_clean : forall (E : Env) bc, bc_path_length bc < 2 ^ 32 ->
  bc_is_ca bc && bc_has_path_length bc = false ->
  exists b, renders clean (n20_x509_ext_basic_constraints_content (Some bc)) b /\
    b = if bc_is_ca bc then [x30; x03; x01; x01; xff] else [x30; x00].
Proof.
  intros E bc Hp Hn. pose proof SZ_lo.
  assert (HR := rend_small _ _ _ (rend_basic_constraints clean bc (or_intror Hn) Hp)).
  unfold path_of in HR. rewrite Hn in HR. eexists. split.
  - apply HR. destruct (bc_is_ca bc); vm_compute len; lia.
  - destruct (bc_is_ca bc); vm_compute; reflexivity.
Qed.
Print Assumptions C24_basic_constraints_clean.
Example C24_clean_case :
  rendered (n20_x509_ext_basic_constraints_content (Some (mkBasicConstraints true false 7))) = [x30; x03; x01; x01; xff] /\
  rendered (n20_x509_ext_basic_constraints_content (Some (mkBasicConstraints false true 7))) = [x30; x00].
Proof. split; vm_compute; reflexivity. Qed.

Theorem C24_basic_constraints_null : forall (E : Env), renders clean (n20_x509_ext_basic_constraints_content None) [].
Proof. intros. apply renders_skip. Qed.
Print Assumptions C24_basic_constraints_null.

Example C24_example :
  rendered (n20_x509_ext_basic_constraints_content (Some (mkBasicConstraints true true 300)))
    = bytes [0x30; 0x07; 0x01; 0x01; 0xff; 0x02; 0x02; 0x01; 0x2c] /\
  rendered (n20_x509_ext_basic_constraints_content (Some (mkBasicConstraints false true 300))) = bytes [0x30; 0x00].
Proof. split; vm_compute; reflexivity. Qed.

(** ** C25 *)
Definition all_bytes : list byte := map (fun n => n2b (N.of_nat n)) (seq 0 256).
Lemma in_all_bytes b : In b all_bytes.
Proof.
  unfold all_bytes. apply in_map_iff. exists (N.to_nat (b2n b)). rewrite N2Nat.id, n2b_b2n. split; [reflexivity|].
  apply in_seq. pose proof (b2n_lt b). lia.
Qed.
Lemma byte_check (P : byte -> bool) : forallb P all_bytes = true -> forall b, P b = true.
Proof. intros H b. rewrite forallb_forall in H. apply H, in_all_bytes. Qed.

(** The bits of the mask, numbered as in RFC 5280. *)
Definition mask_bit (k : key_usage) (i : nat) : bool := nth i (bits_of_bytes [ku_mask0 k; ku_mask1 k]) false.
Definition two_masks (b : byte) : bool := Byte.eqb b x00 || Byte.eqb b x80.

Lemma nth_bits_app a b i : (i < 8)%nat -> nth i (bits_of_bytes (a :: b)) false = nth i (bits_of_bytes [a]) false.
Proof.
  intro H. unfold bits_of_bytes. cbn [flat_map]. rewrite app_nil_r.
  rewrite app_nth1; [reflexivity|]. now rewrite length_bits_of_byte.
Qed.

Lemma key_usage_set_bits f k : two_masks (ku_mask1 k) = true ->
  two_masks (ku_mask1 (key_usage_set f k)) = true /\
  forall i, (i < 9)%nat -> mask_bit (key_usage_set f k) i = (Nat.eqb i (key_usage_bit f) || mask_bit k i)%bool.
Proof.
  intro Hm. destruct k as [m0 m1]. cbn [ku_mask1] in Hm.
  assert (H1 : m1 = x00 \/ m1 = x80).
  { unfold two_masks in Hm. apply orb_true_iff in Hm as [Hm|Hm]; apply byte_dec_bl in Hm; auto. }
  assert (HC : forall b, forallb (fun m1 => forallb (fun i =>
      Bool.eqb (mask_bit (key_usage_set f (mkKeyUsage b m1)) i) (Nat.eqb i (key_usage_bit f) || mask_bit (mkKeyUsage b m1) i))
      (seq 0 9)) [x00; x80] = true).
  { apply byte_check. destruct f; vm_compute; reflexivity. }
  specialize (HC m0). rewrite forallb_forall in HC. split.
  - destruct H1 as [-> | ->]; destruct f; reflexivity.
  - intros i Hi. specialize (HC m1 ltac:(cbn; intuition)). rewrite forallb_forall in HC.
    apply Bool.eqb_prop, HC, in_seq. lia.
Qed.

Definition key_usage_of (flags : list key_usage_flag) : key_usage :=
  fold_left (fun k f => key_usage_set f k) flags (mkKeyUsage x00 x00).

Lemma key_usage_bit_lt f : (key_usage_bit f < 9)%nat.
Proof. destruct f; cbn; lia. Qed.
Lemma key_usage_bit_inj f g : key_usage_bit f = key_usage_bit g -> f = g.
Proof. destruct f, g; cbn; congruence. Qed.

Lemma key_usage_of_bits flags :
  two_masks (ku_mask1 (key_usage_of flags)) = true /\
  forall f, mask_bit (key_usage_of flags) (key_usage_bit f) = true <-> In f flags.
Proof.
  unfold key_usage_of.
  assert (G : forall l k, two_masks (ku_mask1 k) = true ->
    two_masks (ku_mask1 (fold_left (fun k f => key_usage_set f k) l k)) = true /\
    forall f, mask_bit (fold_left (fun k f => key_usage_set f k) l k) (key_usage_bit f) = true <->
      In f l \/ mask_bit k (key_usage_bit f) = true).
  { induction l as [|g l IH]; intros k Hk; [cbn; intuition|]. cbn [fold_left].
    destruct (key_usage_set_bits g k Hk) as [H1 H2]. destruct (IH _ H1) as [H3 H4]. split; [exact H3|].
    intro f. rewrite H4, H2 by apply key_usage_bit_lt. cbn [In]. rewrite orb_true_iff, Nat.eqb_eq.
    split; [intros [H|[H|H]]; auto; left; left; symmetry; now apply key_usage_bit_inj|intuition (subst; auto)]. }
  destruct (G flags (mkKeyUsage x00 x00) eq_refl) as [H1 H2]. split; [exact H1|].
  intro f. rewrite H2. split; [intros [H|H]; [exact H|destruct f; discriminate H]|auto].
Qed.

(** Which bits are sent: the first [n] of the mask; the ninth and the last one sent are right. *)
Lemma key_usage_sent m0 m1 : two_masks m1 = true ->
  let bits := takeN (key_usage_bits (b2n m0) (b2n m1)) (bits_of_bytes [m0; m1]) in
  (match rev bits with false :: _ => False | _ => True end) /\
  forall i, (i < 9)%nat -> nth i bits false = mask_bit (mkKeyUsage m0 m1) i.
Proof.
  intro Hm.
  assert (H1 : m1 = x00 \/ m1 = x80).
  { unfold two_masks in Hm. apply orb_true_iff in Hm as [Hm|Hm]; apply byte_dec_bl in Hm; auto. }
  assert (HC : forall b, forallb (fun m1 =>
      let bits := takeN (key_usage_bits (b2n b) (b2n m1)) (bits_of_bytes [b; m1]) in
      (match rev bits with false :: _ => false | _ => true end) &&
      forallb (fun i => Bool.eqb (nth i bits false) (mask_bit (mkKeyUsage b m1) i)) (seq 0 9)) [x00; x80] = true)
    by (apply byte_check; vm_compute; reflexivity).
  specialize (HC m0). rewrite forallb_forall in HC. specialize (HC m1 ltac:(cbn; intuition)). cbv zeta in *.
  apply andb_true_iff in HC as [HC1 HC2]. split.
  - destruct (rev _) as [|[|] ?]; easy.
  - intros i Hi. rewrite forallb_forall in HC2. apply Bool.eqb_prop, HC2, in_seq. lia.
Qed.

Lemma key_usage_bits_le m0 m1 : key_usage_bits m0 m1 <= 9.
Proof.
  unfold key_usage_bits. destruct (negb (m1 =? 0)); [lia|]. destruct (negb (m0 =? 0)); [|lia].
  destruct (N.land m0 0xf =? 0).
  - destruct (N.land (N.shiftr m0 4) 3 =? 0); match goal with |- context [if ?c then _ else _] => destruct c end; lia.
  - destruct (N.land m0 3 =? 0); match goal with |- context [if ?c then _ else _] => destruct c end; lia.
Qed.

Lemma key_usage_renders_read (E : Env) k :
  let bits := takeN (key_usage_bits (b2n (ku_mask0 k)) (b2n (ku_mask1 k))) (bits_of_bytes [ku_mask0 k; ku_mask1 k]) in
  exists b, renders clean (n20_x509_ext_key_usage_content (Some k)) b /\
    len bits <= 9 /\ (let? t := read_one b in get_bits t) = Some bits.
Proof.
  intro bits. pose proof SZ_lo. pose proof (key_usage_bits_le (b2n (ku_mask0 k)) (b2n (ku_mask1 k))) as HK.
  assert (HB : len bits <= 9) by (unfold bits; rewrite len_takeN; lia).
  assert (HL : len (enc_tlv (tlv_bitstring (enc_bits bits))) < 16).
  { clearbody bits. clear HK. unfold len in HB.
    do 10 (destruct bits as [|? bits]; [vm_compute; reflexivity|]). cbn [length] in HB. lia. }
  eexists. splits; [apply (rend_small _ _ _ (rend_key_usage clean k)); fold bits; lia|exact HB|].
  fold bits. rewrite read_one_enc; [|reflexivity|apply small_SZ; lia]. cbn [bind]. apply get_bits_enc.
Qed.

(** Whatever macros are applied in whatever order to an empty mask, the reader (which insists on the minimal form)
    finds exactly the named bits, and no others. *)
Theorem C25_key_usage_exact : forall (E : Env) flags,
  exists b bits, renders clean (n20_x509_ext_key_usage_content (Some (key_usage_of flags))) b /\
    read_key_usage b = Some bits /\ len bits <= 9 /\ forall f, nth (key_usage_bit f) bits false = true <-> In f flags.
Proof.
  intros E flags. destruct (key_usage_of_bits flags) as [Hm Hb].
  destruct (key_usage_of flags) as [m0 m1] eqn:Ek. cbn [ku_mask1] in Hm.
  destruct (key_usage_sent m0 m1 Hm) as [Hr Hn].
  destruct (key_usage_renders_read E (mkKeyUsage m0 m1)) as (b & HR & HB & Hread). cbn [ku_mask0 ku_mask1] in *.
  exists b. eexists. splits; [exact HR| |exact HB|].
  - unfold read_key_usage. destruct (read_one b) as [t|]; [|discriminate]. cbn [bind] in *. rewrite Hread. cbn [bind].
    destruct (rev _) as [|[|] ?]; [reflexivity|reflexivity|destruct Hr].
  - intro f. rewrite Hn by apply key_usage_bit_lt. apply Hb.
Qed.
Print Assumptions C25_key_usage_exact.

(** For arbitrary masks at most nine bits are sent, and they are the first bits of the mask. *)
Theorem C25_key_usage_any_mask : forall (E : Env) k,
  exists b bits, renders clean (n20_x509_ext_key_usage_content (Some k)) b /\
    (let? t := read_one b in get_bits t) = Some bits /\ len bits <= 9 /\
    forall i, (i < 9)%nat -> nth i bits false = mask_bit k i.
Proof.
  intros E k. destruct (key_usage_renders_read E k) as (b & HR & HB & Hread).
  exists b. eexists. splits; [exact HR|exact Hread|exact HB|]. clear. destruct k as [m0 m1]. cbn [ku_mask0 ku_mask1].
  intros i Hi.
  destruct (two_masks m1) eqn:Hm; [now apply key_usage_sent|].
  replace (key_usage_bits (b2n m0) (b2n m1)) with 9.
  - unfold takeN, mask_bit. cbn [ku_mask0 ku_mask1].
    change (N.to_nat 9) with 9%nat. rewrite <- (firstn_skipn 9 (bits_of_bytes [m0; m1])) at 2.
    rewrite app_nth1; [reflexivity|]. rewrite firstn_length. unfold bits_of_bytes. cbn [flat_map]. rewrite !app_length, !length_bits_of_byte. cbn [length]. lia.
  - unfold key_usage_bits. destruct (N.eqb_spec (b2n m1) 0) as [H0|]; [|reflexivity].
    exfalso. rewrite <- (n2b_b2n m1), H0 in Hm. discriminate.
Qed.
Print Assumptions C25_key_usage_any_mask.
(** Bits behind the ninth are not sent. *)
Example C25_any_mask_case :
  rendered (n20_x509_ext_key_usage_content (Some (mkKeyUsage x04 xff))) = bytes [3; 3; 7; 4; 0x80] /\
  rendered (n20_x509_ext_key_usage_content (Some (mkKeyUsage x00 x00))) = bytes [3; 1; 0].
Proof. split; vm_compute; reflexivity. Qed.

(** Masks that no macro produces can leave the minimal form: the reader rejects mask 80 01. *)
Theorem C25_key_usage_minimal_for_all_masks_refuted :
  read_key_usage (rendered (n20_x509_ext_key_usage_content (Some (mkKeyUsage x80 x01)))) = None.
Proof. vm_compute. reflexivity. Qed.
Print Assumptions C25_key_usage_minimal_for_all_masks_refuted.

Theorem C25_key_usage_null : forall (E : Env), renders clean (n20_x509_ext_key_usage_content None) [].
Proof. intros. apply renders_skip. Qed.
Print Assumptions C25_key_usage_null.

Example C25_example :
  rendered (n20_x509_ext_key_usage_content (Some (key_usage_of [KU_key_cert_sign; KU_digital_signature])))
    = bytes [0x03; 0x02; 0x02; 0x84] /\
  rendered (n20_x509_ext_key_usage_content (Some (key_usage_of [KU_decipher_only; KU_key_cert_sign; KU_digital_signature])))
    = bytes [0x03; 0x03; 0x07; 0x84; 0x80] /\
  read_key_usage (bytes [0x03; 0x02; 0x02; 0x84]) = Some [true; false; false; false; false; true].
Proof. splits; vm_compute; reflexivity. Qed.
