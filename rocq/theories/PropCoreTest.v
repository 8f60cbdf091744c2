(** C62: the tests of the core library pass exactly if what they expect is right. *)
From Coq Require Import List NArith ZArith Bool Lia Strings.Byte.
From Verif Require Import Base BaseFacts Stream SpecStream StreamProofs SpecDigits DigitsFacts SpecDer DerFacts Asn1 SpecAsn1 Asn1Proofs PropAsn1 PropInt.
From Verif Require Import SpecCbor CborFacts Cbor CborProofs Oid ConformCore CryptoTest.
From Verif Require Import CoreTest SpecCoreTest CoreTestProofs.
Import ListNotations.
Open Scope N_scope.

(** A stack for the examples, and a library whose empty vectors have a NULL data pointer. *)
Definition counting_stack : Stack := {| stack_byte i k := n2b (N.of_nat k + i) |}.
Definition null_data : Cxx := {| empty_data_null := true |}.
#[local] Existing Instances env64 counting_stack null_data.

(** ** The stream *)

Lemma piece_renders `{E : Env} `{X : Cxx} pieces b : In b pieces -> len b < SZ ->
  renders (fun u => u = UBMemcpyNull /\ empty_data_null = true /\ In [] pieces) (n20_stream_prepend (data b) (len b)) b.
Proof.
  intros Hin Hb. destruct b as [|x r]; [|now apply renders_prepend_all]. cbn [data]. destruct empty_data_null eqn:En.
  - apply renders_prepend_null0. auto.
  - now apply renders_prepend_all.
Qed.
Lemma pieces_renders `{E : Env} `{X : Cxx} all pieces : incl pieces all -> len (concat (rev pieces)) < SZ ->
  renders (fun u => u = UBMemcpyNull /\ empty_data_null = true /\ In [] all)
    (fun w => fold_left (fun w b => n20_stream_prepend (data b) (len b) w) pieces w) (concat (rev pieces)).
Proof.
  induction pieces as [|b pieces IH]; intros HI HL; [apply renders_skip|].
  cbn [rev] in *. rewrite concat_app, len_app in HL. cbn [concat] in HL. rewrite app_nil_r in HL.
  rewrite concat_app. cbn [concat]. rewrite app_nil_r.
  apply (renders_seq _ (n20_stream_prepend (data b) (len b)) (fun w => fold_left _ pieces w)).
  - apply piece_renders; [apply HI; now left|lia].
  - apply IH; [|lia]. intros x Hx. apply HI. now right.
Qed.

(** For every buffer size and every sequence of vectors: the test passes exactly if it says rightly whether they all fit. With a library whose empty vectors have
    a NULL data pointer, prepending one of them hands NULL to memcpy; nothing else is undefined. *)
Theorem C62_stream_prepend : forall (E : Env) (K : Stack) (X : Cxx) size pieces has_overflow,
  size < SZ -> len (concat pieces) < SZ ->
  decides (StreamPrepend size pieces has_overflow) (has_overflow = (size <? len (concat pieces)))
    (fun u => u = UBMemcpyNull /\ empty_data_null = true /\ In [] pieces).
Proof.
  intros E K X size pieces ov Hs HL.
  assert (HC : len (concat (rev pieces)) = len (concat pieces)).
  { clear. induction pieces as [|b r IH]; [reflexivity|]. cbn [rev concat]. rewrite concat_app, !len_app. cbn [concat]. rewrite app_nil_r. lia. }
  rewrite <- HC in HL |- *. set (b := concat (rev pieces)) in *.
  destruct (pieces_renders pieces pieces (incl_refl _) HL) as [_ HR].
  destruct (HR _ [] _ _ _ (array_ok 0 size Hs) (shows_init _ _ (array_ok 0 size Hs))) as (s & v & E1 & S1 & E2 & F).
  fold b in S1. rewrite !app_nil_r in *. unfold StreamPrepend. cbv zeta. fold b. rewrite E1, E2.
  pose proof S1 as (HB & HW & HO & _). rewrite HO, HW, HB, N.mod_small by lia. rewrite N.eqb_refl.
  destruct (N.leb_spec SZ (len b)); [lia|]. cbn [negb].
  destruct (Bool.eqb ov (size <? len b)) eqn:Eb; cbn [negb].
  - apply eqb_prop in Eb. destruct ov.
    + split; [|exact F]. cbn. tauto.
    + symmetry in Eb. apply N.ltb_ge in Eb as Ho. rewrite (got_shows s (array 0 size) size b Hs (len_array _ _) S1 Ho).
      split; [|exact F]. cbn [fst]. rewrite same_spec, Eb. tauto.
  - apply eqb_false_iff in Eb. split; [|exact F]. cbn. split; [discriminate|contradiction].
Qed.
Print Assumptions C62_stream_prepend.
Example C62_stream_prepend_case :
  StreamPrepend 3 [bytes [1]; []; bytes [2; 3]] false = (true, [UBMemcpyNull]) /\ fst (StreamPrepend 3 [bytes [1]; []; bytes [2; 3]] true) = false /\
  StreamPrepend 2 [bytes [1]; bytes [2; 3]] true = (true, []) /\ fst (StreamPrepend 2 [bytes [1]; bytes [2; 3]] false) = false.
Proof. splits; vm_compute; reflexivity. Qed.

(** On every platform. *)
Theorem C62_stream_counter_overflow : forall (E : Env) (K : Stack), StreamCounterOverflow = (true, []).
Proof. intros [[] le st] K; vm_compute; reflexivity. Qed.
Print Assumptions C62_stream_counter_overflow.

(** ** ASN.1 *)

Theorem C62_asn1_header : forall (E : Env) (K : Stack) class constructed tag n expected,
  class < 4 -> tag < 2 ^ 32 -> n < SZ ->
  decides (HeaderEncoding class constructed tag n expected) (read_header expected = Some (class, constructed, tag, n, [])) clean.
Proof.
  intros E K c k t n expected Hc Ht Hn. pose proof SZ_hi. pose proof SZ_lo.
  assert (Hn' : n < 2 ^ 64) by (change (2 ^ 64) with 18446744073709551616; lia).
  eapply decides_iff; [apply (writes_decides clean 0 128 _ (enc_ident c k t ++ enc_len n)); [lia|]|].
  - pose proof (header_renders clean c k t n Hn') as HR. rewrite N.mod_small in HR by assumption. exact HR.
  - pose proof (read_header_enc c k t n [] Hc Hn') as HE. rewrite app_nil_r in HE. split.
    + intros [<- _]. exact HE.
    + intros HH. apply read_header_canonical in HH. rewrite app_nil_r in HH. split; [now symmetry|].
      pose proof (len_enc_ident_le c k t Ht). pose proof (len_enc_len_le n Hn'). rewrite len_app. lia.
Qed.
Print Assumptions C62_asn1_header.
Example C62_asn1_header_case :
  read_header (bytes [0xbf; 0x86; 0x28; 0x82; 0x01; 0xc2]) = Some (2, true, 808, 450, []) /\
  HeaderEncoding 2 true 808 450 (bytes [0xbf; 0x86; 0x28; 0x82; 0x01; 0xc2]) = (true, []) /\
  fst (HeaderEncoding 2 true 808 450 (bytes [0xbf; 0x86; 0x28; 0x83; 0x00; 0x01; 0xc2])) = false.
Proof. splits; vm_compute; reflexivity. Qed.

(** With any callback that writes some bytes, and under any tag. *)
Theorem C62_asn1_header_with_content : forall (E : Env) (K : Stack) allowed f content ti expected,
  match f with Some g => renders allowed g content | None => content = [] end ->
  len content + 32 <= SZ -> ti_ok ti ->
  decides (HeaderWithContentEncoding f expected ti) (decodes expected (retag (tagging_of ti) (Tlv 0 false 0 content)) /\ len expected <= 128) allowed.
Proof.
  intros E K P f a ti expected Hf Ha Hti. pose proof SZ_pow as HP. pose proof SZ_lo.
  pose proof (retag_content_small ti 0 false 0 a Hti ltac:(reflexivity) Ha) as Hsm.
  assert (Hok : tlv_ok (retag (tagging_of ti) (Tlv 0 false 0 a))) by (split; [destruct ti as [[] ?]; reflexivity|lia]).
  eapply decides_iff; [apply (writes_decides P 0 128 _ (enc_tlv (retag (tagging_of ti) (Tlv 0 false 0 a)))); [lia|]|].
  - now apply hwc_renders.
  - rewrite (decodes_iff _ _ Hok). intuition (subst; auto).
Qed.
Print Assumptions C62_asn1_header_with_content.
Example C62_asn1_header_with_content_case :
  HeaderWithContentEncoding (Some (prepend_zeros 2)) (bytes [0xa5; 4; 0; 2; 0; 0]) (n20_asn1_tag_info_explicit 5) = (true, []) /\
  fst (HeaderWithContentEncoding (Some (prepend_zeros 2)) (bytes [0x85; 2; 0; 0]) (n20_asn1_tag_info_explicit 5)) = false /\
  renders clean (prepend_zeros 2) [x00; x00].
Proof. splits; [vm_compute; reflexivity|vm_compute; reflexivity|]. apply (renders_prepend_all clean [x00; x00]). reflexivity. Qed.

Theorem C62_asn1_null : forall (E : Env) (K : Stack) expected,
  decides (NullEncoding expected) (decodes expected (Tlv 0 false 5 [])) clean /\
  decides (NullEncodingImplicitTag expected) (decodes expected (Tlv 2 false 7 [])) clean /\
  decides (NullEncodingExplicitTag expected) (decodes expected (Tlv 2 true 7 [x05; x00])) clean.
Proof.
  intros E K expected. pose proof SZ_lo.
  assert (HN : forall ti t, retag (tagging_of ti) tlv_null = t -> tlv_ok t -> len (enc_tlv t) <= 128 ->
    decides (writes 0 128 (n20_asn1_null ti) expected) (decodes expected t) clean).
  { intros ti t Ht Hok HL. eapply decides_iff; [apply (writes_decides clean 0 128 _ _ _ ltac:(lia) (null_renders clean ti))|].
    rewrite Ht, (decodes_iff _ _ Hok). intuition (subst; auto). }
  splits; (apply HN; [reflexivity|split; reflexivity|vm_compute; discriminate]).
Qed.
Print Assumptions C62_asn1_null.
Example C62_asn1_null_case :
  NullEncodingExplicitTag (bytes [0xa7; 2; 5; 0]) = (true, []) /\ fst (NullEncodingExplicitTag (bytes [0x87; 0])) = false /\
  NullEncodingImplicitTag (bytes [0x87; 0]) = (true, []).
Proof. splits; vm_compute; reflexivity. Qed.

Theorem C62_asn1_boolean : forall (E : Env) (K : Stack) v expected,
  decides (BooleanEncoding v expected) (exists content, decodes expected (Tlv 0 false 1 content) /\ read_bool content = Some v) clean.
Proof.
  intros E K v expected. pose proof SZ_lo.
  eapply decides_iff; [apply (writes_decides clean 0 128 _ _ _ ltac:(lia) (boolean_renders clean v n20_asn1_tag_info_no_override ltac:(reflexivity)))|].
  change (retag (tagging_of n20_asn1_tag_info_no_override) (tlv_boolean v)) with (tlv_boolean v).
  assert (Hok : tlv_ok (tlv_boolean v)) by (split; reflexivity). split.
  - intros [<- _]. exists [if v then xff else x00]. split; [apply (enc_decodes _ Hok)|now destruct v].
  - intros (c & HD & HR). assert (c = [if v then xff else x00]) as ->.
    { destruct c as [|b [|b' r]]; [discriminate| |discriminate]. unfold read_bool in HR. pose proof (n2b_b2n b) as HB.
      destruct (N.eqb_spec (b2n b) 255) as [H1|H1]; [injection HR as <-; now rewrite <- HB, H1|].
      destruct (N.eqb_spec (b2n b) 0) as [H2|H2]; [injection HR as <-; now rewrite <- HB, H2|discriminate]. }
    apply (decodes_iff _ _ Hok) in HD. subst. split; [reflexivity|]. destruct v; vm_compute; discriminate.
Qed.
Print Assumptions C62_asn1_boolean.
(** BER would allow any byte but 0 for true, DER and the test do not. *)
Example C62_asn1_boolean_case : BooleanEncoding true (bytes [1; 1; 0xff]) = (true, []) /\ fst (BooleanEncoding true (bytes [1; 1; 1])) = false.
Proof. splits; vm_compute; reflexivity. Qed.

(** The log of a test begins with that of its first call. *)
Lemma under_each_tag_log `{E : Env} `{K : Stack} f expected u :
  In u (w_ub (f n20_asn1_tag_info_no_override (mkWorld (Some (n20_stream_init (Some (array 0 128)) 128)) []))) -> In u (snd (under_each_tag f expected)).
Proof.
  intros H. assert (HW : In u (snd (patched 0 f expected n20_asn1_tag_info_no_override))).
  { unfold patched. cbn [tag_patch_encoded ti_type n20_asn1_tag_info_no_override]. rewrite and_then_true. unfold writes. cbv zeta.
    destruct (n20_stream_has_buffer_overflow _); [exact H|]. destruct (negb _); [exact H|]. destruct (got _). cbn. apply in_or_app. now right. }
  unfold under_each_tag, and_then at 1. destruct (fst _); [|exact HW]. cbn. apply in_or_app. now right.
Qed.

Lemma len_enc_number `{E : Env} bs tc : bs <> [] -> len (enc_int (number_of bs false tc)) <= len bs + 1.
Proof.
  intros Hd. assert (H0 : 0 < len bs) by (destruct bs; [contradiction|rewrite len_cons; lia]).
  pose proof (read_int_unique _ _ (int_octets_value bs (len bs) false tc H0 ltac:(lia))) as HV. rewrite takeN_len in HV. rewrite <- HV.
  unfold int_octets_of. cbv zeta. rewrite takeN_len, len_app. cbn [be_of].
  set (x := if tc && high_bit (deref bs (idx false (len bs) 0)) then xff else x00).
  assert (len (skipn (lead x bs) bs) <= len bs) by (unfold len; rewrite skipn_length; lia).
  destruct (skipn _ _); [lens; lia|]. destruct (Bool.eqb _ _); lens; lia.
Qed.
Lemma number_of_rev bs tc : number_of (rev bs) true tc = number_of bs false tc.
Proof. unfold number_of. now rewrite rev_involutive. Qed.
Lemma all_sign_rev bs tc : all_sign (rev bs) tc <-> all_sign bs tc.
Proof.
  assert (HF : forall x, Forall (eq x) (rev bs) <-> Forall (eq x) bs) by (intros x; exact (be_of_forall true x bs)).
  unfold all_sign. now rewrite !HF.
Qed.
Lemma read_int_iff v c : read_int c = Some v <-> c = enc_int v.
Proof. split; [apply read_int_unique|intros ->; apply read_enc_int]. Qed.

Lemma integer_decides (E : Env) (K : Stack) d le tc expected z : d <> [] -> len d + 40 <= SZ -> number_of d le tc = z -> len (enc_int z) <= len d + 1 ->
  let v := under_each_tag (n20_asn1_integer (mkSlice (len d) (Some d)) le tc) expected in
  decides v (expects_value expected false 2 read_int z) stray_reads /\
  (In UBReadOob (snd v) <-> all_sign d tc) /\ (In UBPtrArith (snd v) <-> le = true).
Proof.
  intros Hd HL Hz Hlen v. pose proof SZ_pow as HP.
  assert (H0 : 0 < len d) by (destruct d; [contradiction|rewrite len_cons; lia]).
  assert (HR : forall ti, In ti three -> renders (fun u => In u (int_ub d (len d) le tc)) (n20_asn1_integer (mkSlice (len d) (Some d)) le tc ti)
    (enc_tlv (retag (tagging_of ti) (Tlv 0 false 2 (enc_int z))))).
  { intros ti Hti. apply three_ok in Hti.
    pose proof (integer_renders_gen (fun u => In u (int_ub d (len d) le tc)) d (len d) le tc ti H0 ltac:(lia)) as HG. rewrite takeN_len, Hz in HG. apply HG.
    - apply Forall_forall. auto.
    - apply retag_content_small; [assumption|reflexivity|lia]. }
  destruct (value_decides _ _ false 2 read_int z (enc_int z) expected HR ltac:(reflexivity) ltac:(discriminate) ltac:(lia) (read_int_iff z)) as [HV HF].
  fold v in HV, HF.
  assert (HM : incl (int_ub d (len d) le tc) (snd v)).
  { intros u Hu. apply under_each_tag_log. assert (HM : emits (n20_asn1_integer (mkSlice (len d) (Some d)) le tc n20_asn1_tag_info_no_override) (int_ub d (len d) le tc)).
    { unfold n20_asn1_integer. cbn [sl_buf sl_size]. apply emits_hwc. apply integer_content_emits. lia. }
    destruct (HM (mkWorld (Some (n20_stream_init (Some (array 0 128)) 128)) [])) as (l & Hl & HI). rewrite Hl. apply in_or_app. left. now apply HI. }
  rewrite Forall_forall in HF. splits.
  - split; [exact HV|]. apply Forall_forall. intros u Hu. pose proof (int_ub_stray d (len d) le tc) as HS. rewrite Forall_forall in HS. auto.
  - pose proof (int_ub_read d (len d) le tc ltac:(lia)) as HI. rewrite takeN_len in HI.
    split; [intros Hu; apply HF, HI in Hu; tauto|]. intros Ha. apply HM, HI. tauto.
  - rewrite <- (int_ub_arith d (len d) le tc). split; [apply HF|apply HM].
Qed.

(** For every number, given by any number of bytes: both tests pass exactly if the expected bytes are its DER encoding (and short enough for the buffer). They read
    outside of the vector exactly if the number is 0 or -1, in the little-endian one the pointer before the vector is always formed, and nothing else is
    undefined. *)
Theorem C62_asn1_integer : forall (E : Env) (K : Stack) (X : Cxx) bytes two_complement expected,
  bytes <> [] -> len bytes + 40 <= SZ ->
  let right := expects_value expected false 2 read_int (number_of bytes false two_complement) in
  let big := IntegerEncodingBigEndian bytes two_complement expected in
  let little := IntegerEncodingLittleEndian bytes two_complement expected in
  decides big right stray_reads /\ decides little right stray_reads /\
  (In UBReadOob (snd big) <-> all_sign bytes two_complement) /\ ~ In UBPtrArith (snd big) /\
  (In UBReadOob (snd little) <-> all_sign bytes two_complement) /\ In UBPtrArith (snd little).
Proof.
  intros E K X bs tc expected Hb HL right big little.
  assert (HD : forall l, l <> [] -> data l = Some l) by (intros [|? ?]; [contradiction|reflexivity]).
  assert (Hr : rev bs <> []) by (intros HH; apply Hb; apply (f_equal (@rev byte)) in HH; now rewrite rev_involutive in HH).
  assert (Hlr : len (rev bs) = len bs) by (unfold len; now rewrite rev_length).
  pose proof (len_enc_number bs tc Hb) as Hn.
  destruct (integer_decides E K bs false tc expected _ Hb HL eq_refl Hn) as (B1 & B2 & B3).
  destruct (integer_decides E K (rev bs) true tc expected _ Hr ltac:(lia) (number_of_rev bs tc) ltac:(lia)) as (L1 & L2 & L3).
  assert (EB : big = under_each_tag (n20_asn1_integer (mkSlice (len bs) (Some bs)) false tc) expected) by (unfold big, IntegerEncodingBigEndian; now rewrite HD).
  assert (EL : little = under_each_tag (n20_asn1_integer (mkSlice (len (rev bs)) (Some (rev bs))) true tc) expected)
    by (unfold little, IntegerEncodingLittleEndian; cbv zeta; now rewrite HD, Hlr).
  rewrite <- EB in *. rewrite <- EL in *. rewrite all_sign_rev in L2. splits; try assumption.
  - intros HI. apply B3 in HI. discriminate.
  - now apply L3.
Qed.
Print Assumptions C62_asn1_integer.
Example C62_asn1_integer_case :
  number_of (bytes [0xff; 0xff; 0x7f]) false true = (-129)%Z /\ IntegerEncodingBigEndian (bytes [0xff; 0xff; 0x7f]) true (bytes [2; 2; 0xff; 0x7f]) = (true, []) /\
  fst (IntegerEncodingLittleEndian (bytes [0xff; 0xff; 0x7f]) true (bytes [2; 2; 0xff; 0x7f])) = true /\
  fst (IntegerEncodingBigEndian (bytes [0xff; 0xff; 0x7f]) false (bytes [2; 2; 0xff; 0x7f])) = false /\
  fst (IntegerEncodingBigEndian (bytes [0]) false (bytes [2; 1; 0])) = true /\ snd (IntegerEncodingBigEndian (bytes [0]) false (bytes [2; 1; 0])) <> [].
Proof. splits; try (vm_compute; reflexivity). vm_compute. discriminate. Qed.

(** Without bytes the code writes NULL only if the data pointer of the empty vector is NULL. Otherwise it writes an integer, reading the bytes around the vector. *)
Theorem C62_asn1_integer_empty : forall (E : Env) (K : Stack) (X : Cxx) two_complement expected,
  let big := IntegerEncodingBigEndian [] two_complement expected in
  let little := IntegerEncodingLittleEndian [] two_complement expected in
  if empty_data_null
  then decides big (decodes expected tlv_null) clean /\ decides little (decodes expected tlv_null) clean
  else (decodes expected tlv_null -> fst big = false /\ fst little = false) /\ In UBReadOob (snd big) /\ In UBReadOob (snd little) /\
       Forall stray_reads (snd big ++ snd little).
Proof.
  intros E K X tc expected big little. pose proof SZ_lo. pose proof SZ_pow as HP.
  subst big little. unfold IntegerEncodingBigEndian, IntegerEncodingLittleEndian. cbn [rev data]. destruct empty_data_null.
  - split; apply under_each_tag_null; intros ti; apply integer_null_renders.
  - assert (HW : forall le, let v := under_each_tag (n20_asn1_integer (mkSlice (len (@nil byte)) (Some [])) le tc) expected in
      (decodes expected tlv_null -> fst v = false) /\ In UBReadOob (snd v) /\ Forall stray_reads (snd v)).
    { intros le v. set (c := int_octets_of [] 0 le tc).
      assert (HO : len c <= 1).
      { unfold c, int_octets_of. cbv zeta. change (takeN 0 []) with (@nil byte). replace (be_of le []) with (@nil byte) by now destruct le. rewrite skipn_nil.
        rewrite app_nil_r. lens. lia. }
      assert (HR : forall ti, In ti three -> renders stray_reads (n20_asn1_integer (mkSlice 0 (Some [])) le tc ti) (enc_tlv (retag (tagging_of ti) (Tlv 0 false 2 c)))).
      { intros ti Hti. apply three_ok in Hti. unfold n20_asn1_integer. cbn [sl_buf sl_size]. apply hwc_renders; [apply integer_content_renders; [lens; lia|]|reflexivity|].
        - apply int_ub_stray.
        - apply retag_content_small; [assumption|reflexivity|]. lia. }
      destruct (under_each_tag_decides _ _ _ expected HR ltac:(reflexivity) ltac:(reflexivity) ltac:(discriminate)) as [HV HF].
      { split; [reflexivity|]. cbn [t_content]. lia. }
      change (under_each_tag (n20_asn1_integer (mkSlice 0 (Some [])) le tc) expected) with v in HV, HF.
      splits; [|clear HV HF|exact HF].
      - intros HD. destruct (fst v); [|reflexivity]. destruct HV as [HV _]. destruct (HV eq_refl) as [HV' _]. specialize (HD []). specialize (HV' []). rewrite HD in HV'. discriminate.
      - apply under_each_tag_log. assert (HM : emits (n20_asn1_integer (mkSlice 0 (Some [])) le tc n20_asn1_tag_info_no_override) (int_ub [] 0 le tc)).
        { unfold n20_asn1_integer. cbn [sl_buf sl_size]. apply emits_hwc. apply integer_content_emits. lens. lia. }
        destruct (HM (mkWorld (Some (n20_stream_init (Some (array 0 128)) 128)) [])) as (l & Hl & HI).
        change (len (@nil byte)) with 0. rewrite Hl. apply in_or_app. left. apply HI, int_ub_read; [lens; lia|].
        split; [left; constructor|now right]. }
    destruct (HW false) as (A1 & A2 & A3), (HW true) as (B1 & B2 & B3).
    split; [intros HD; exact (conj (A1 HD) (B1 HD))|]. exact (conj A2 (conj B2 (proj2 (Forall_app _ _ _) (conj A3 B3)))).
Qed.
Print Assumptions C62_asn1_integer_empty.
Example C62_asn1_integer_empty_case :
  IntegerEncodingBigEndian [] false (bytes [5; 0]) = (true, []) /\
  fst (@IntegerEncodingBigEndian _ _ {| empty_data_null := false |} [] false (bytes [5; 0])) = false.
Proof. split; vm_compute; reflexivity. Qed.

Theorem C62_asn1_int64 : forall (E : Env) (K : Stack) (n : N + Z) expected,
  match n with inl n => n < 2 ^ 64 | inr z => (- 2 ^ 63 <= z < 2 ^ 63)%Z end ->
  decides (Int64Encoding n expected) (expects_value expected false 2 read_int (match n with inl n => Z.of_N n | inr z => z end)) stray_reads.
Proof.
  intros E K n expected Hn. unfold Int64Encoding. set (v := match n with inl n => Z.of_N n | inr z => z end).
  assert (HL : len (enc_int v) <= N.of_nat 9).
  { apply enc_int_len_le; [lia|]. unfold fits. change (256 ^ (Z.of_nat 9 - 1))%Z with 18446744073709551616%Z. subst v.
    destruct n as [n|z]; [change (2 ^ 64) with 18446744073709551616 in Hn|change (2 ^ 63)%Z with 9223372036854775808%Z in Hn]; lia. }
  apply (value_decides _ _ _ _ _ _ (enc_int v)); [|reflexivity|discriminate|change (2 ^ 64) with 18446744073709551616; lia|apply read_int_iff].
  intros ti Hti. apply three_ok in Hti. destruct n as [n|z]; [now apply uint64_renders|now apply int64_renders].
Qed.
Print Assumptions C62_asn1_int64.
Example C62_asn1_int64_case :
  fst (Int64Encoding (inr (-129)%Z) (bytes [2; 2; 0xff; 0x7f])) = true /\ fst (Int64Encoding (inr (-128)%Z) (bytes [2; 2; 0xff; 0x80])) = false /\
  fst (Int64Encoding (inl (2 ^ 64 - 1)) (bytes [2; 9; 0; 0xff; 0xff; 0xff; 0xff; 0xff; 0xff; 0xff; 0xff])) = true.
Proof. splits; vm_compute; reflexivity. Qed.

(** Any bits, of which the first few are encoded. *)
Theorem C62_asn1_bitstring : forall (E : Env) (K : Stack) (X : Cxx) bits bits_size expected,
  bits_size <= 8 * len bits -> bits_size + 7 < SZ ->
  decides (BitStringEncoding bits bits_size expected) (expects_value expected false 3 read_bits (takeN bits_size (bits_of_bytes bits))) clean.
Proof.
  intros E K X bits n expected Hb Hs. pose proof SZ_pow as HP. pose proof SZ_lo. unfold BitStringEncoding. set (l := takeN n (bits_of_bytes bits)).
  assert (HB : bits_of_ptr (data bits) n = l).
  { subst l. destruct bits as [|b r]; [|reflexivity]. cbn [data]. assert (n = 0) as -> by (lens; lia). destruct empty_data_null; reflexivity. }
  assert (HO : bits_ok (data bits) n) by (destruct bits as [|b r]; [cbn [data]; destruct empty_data_null; [exact I|split; assumption]|split; assumption]).
  assert (Hlen : len l = n) by (unfold l; rewrite len_takeN, len_bits_of_bytes; lia).
  assert (Hc : len (enc_bits l) + 32 <= SZ).
  { unfold enc_bits. rewrite len_cons. pose proof (len_pack l). pose proof (pad_lt l). lia. }
  apply (value_decides _ _ _ _ _ _ (enc_bits l)); [|reflexivity|discriminate|lia|].
  - intros ti Hti. apply three_ok in Hti. rewrite <- HB. apply bitstring_renders; [exact HO|]. rewrite HB. now apply retag_content_small.
  - intros c. split; [apply read_bits_canonical|intros ->; apply read_enc_bits].
Qed.
Print Assumptions C62_asn1_bitstring.
Example C62_asn1_bitstring_case :
  BitStringEncoding (bytes [0xa5; 0xff]) 11 (bytes [3; 3; 5; 0xa5; 0xe0]) = (true, []) /\
  fst (BitStringEncoding (bytes [0xa5; 0xff]) 11 (bytes [3; 3; 5; 0xa5; 0xff])) = false.
Proof. split; vm_compute; reflexivity. Qed.

Lemma verbatim_iff v c : verbatim c = Some v <-> c = v.
Proof. unfold verbatim. split; [congruence|now intros ->]. Qed.
Lemma slice_for_ok `{E : Env} `{X : Cxx} b : len b < SZ -> slice_ok (slice_for b) /\ slice_bytes (slice_for b) = b.
Proof.
  intros Hb. unfold slice_for, slice_ok, slice_bytes. cbn [sl_size sl_buf]. destruct b as [|x r]; [cbn [data]; destruct empty_data_null; splits; auto; lens; lia|].
  cbn [data]. rewrite takeN_len. splits; auto. lia.
Qed.
Lemma string_slice_ok `{E : Env} s : len s < SZ -> slice_ok (string_slice s) /\ slice_bytes (string_slice s) = s.
Proof.
  intros Hs. unfold string_slice, slice_ok, slice_bytes, literal. cbn [sl_size sl_buf]. splits; [exact Hs|rewrite len_app; lia|].
  unfold takeN, len. rewrite Nat2N.id. now rewrite firstn_app, firstn_all, Nat.sub_diag, app_nil_r.
Qed.

Theorem C62_asn1_octetstring : forall (E : Env) (K : Stack) (X : Cxx) bytes expected, len bytes + 32 <= SZ ->
  decides (OctetStringEncoding bytes expected) (expects_value expected false 4 verbatim bytes) clean.
Proof.
  intros E K X b expected Hb. pose proof SZ_pow as HP. destruct (slice_for_ok b ltac:(lia)) as [HO HB].
  apply (value_decides _ _ _ _ _ _ b); [|reflexivity|discriminate|lia|apply verbatim_iff].
  intros ti Hti. apply three_ok in Hti. pose proof (octetstring_renders clean (Some (slice_for b)) ti HO) as HR. cbn [opt_slice_bytes] in HR. rewrite HB in HR.
  apply HR. now apply retag_content_small.
Qed.
Print Assumptions C62_asn1_octetstring.
(** The longest string for which the explicitly tagged encoding fits, and one byte more. *)
Example C62_asn1_octetstring_case :
  let string n := repeat x2a n in
  OctetStringEncoding (string 124%nat) (bytes [4; 124] ++ string 124%nat) = (true, []) /\ fst (OctetStringEncoding (string 125%nat) (bytes [4; 125] ++ string 125%nat)) = false.
Proof. split; vm_compute; reflexivity. Qed.

(** Strings; none at all is written as an empty one, or, for a time, as NULL. *)
Theorem C62_asn1_strings : forall (E : Env) (K : Stack) s expected,
  match s with Some s => len s + 32 <= SZ | None => True end ->
  let text := match s with Some s => s | None => [] end in
  decides (PrintableStringEncoding s expected) (expects_value expected false 19 verbatim text) clean /\
  decides (Utf8StringEncoding s expected) (expects_value expected false 12 verbatim text) clean /\
  decides (GeneralizedTimeEncoding s expected)
    (match s with Some s => expects_value expected false 24 verbatim s | None => decodes expected tlv_null end) clean.
Proof.
  intros E K s expected Hs text. pose proof SZ_pow as HP. pose proof SZ_lo.
  assert (HT : len text + 32 <= SZ) by (subst text; destruct s; [exact Hs|lens; lia]).
  assert (HO : opt_slice_ok (option_map string_slice s) /\ opt_slice_bytes (option_map string_slice s) = text).
  { subst text. destruct s as [s|]; [apply string_slice_ok; lia|split; [exact I|reflexivity]]. }
  destruct HO as [HO HB]. splits.
  - apply (value_decides _ _ _ _ _ _ text); [|reflexivity|discriminate|lia|apply verbatim_iff].
    intros ti Hti. apply three_ok in Hti. pose proof (printablestring_renders clean _ ti HO) as HR. rewrite HB in HR. apply HR. now apply retag_content_small.
  - apply (value_decides _ _ _ _ _ _ text); [|reflexivity|discriminate|lia|apply verbatim_iff].
    intros ti Hti. apply three_ok in Hti. pose proof (utf8_string_renders clean _ ti HO) as HR. rewrite HB in HR. apply HR. now apply retag_content_small.
  - destruct s as [s|]; [|apply under_each_tag_null; intros ti; apply generalized_time_null_renders]. cbn [option_map opt_slice_bytes opt_slice_ok] in HB, HO. subst text.
    apply (value_decides _ _ _ _ _ _ s); [|reflexivity|discriminate|lia|apply verbatim_iff].
    intros ti Hti. apply three_ok in Hti. pose proof (generalized_time_renders clean _ ti HO) as HR. rewrite HB in HR. apply HR. now apply retag_content_small.
Qed.
Print Assumptions C62_asn1_strings.
Example C62_asn1_strings_case :
  PrintableStringEncoding (Some (bytes [0x4e; 0x4f])) (bytes [19; 2; 0x4e; 0x4f]) = (true, []) /\ fst (Utf8StringEncoding (Some (bytes [0x4e; 0x4f])) (bytes [19; 2; 0x4e; 0x4f])) = false /\
  GeneralizedTimeEncoding None (bytes [5; 0]) = (true, []) /\ PrintableStringEncoding None (bytes [19; 0]) = (true, []).
Proof. splits; vm_compute; reflexivity. Qed.

(** With any callback that writes some bytes. *)
Theorem C62_asn1_sequence : forall (E : Env) (K : Stack) allowed f content expected,
  match f with Some g => renders allowed g content | None => content = [] end -> len content + 32 <= SZ ->
  decides (SequenceEncoding f expected) (expects_value expected true 16 verbatim content) allowed.
Proof.
  intros E K P f a expected Hf Ha. pose proof SZ_pow as HP.
  apply (value_decides _ _ _ _ _ _ a); [|reflexivity|discriminate|lia|apply verbatim_iff].
  intros ti Hti. apply three_ok in Hti. apply sequence_renders; [exact Hf|]. now apply retag_content_small.
Qed.
Print Assumptions C62_asn1_sequence.
Example C62_asn1_sequence_case :
  SequenceEncoding (Some flat) (bytes [0x30; 9; 1; 1; 0xff; 19; 4; 0x66; 0x6c; 0x61; 0x74]) = (true, []) /\
  fst (SequenceEncoding (Some flat) (bytes [0x30; 9; 19; 4; 0x66; 0x6c; 0x61; 0x74; 1; 1; 0xff])) = false.
Proof. split; vm_compute; reflexivity. Qed.

(** Object identifiers the encoder supports (C19), and those it replaces by NULL. *)
Theorem C62_asn1_object_identifier : forall (E : Env) (K : Stack) o expected,
  (forall o', o = Some o' -> oid_ok o' -> 2 <= oid_elem_count o' <= 10 -> oid_valid (oid_arcs o') -> 40 * oid_element o' 0 + oid_element o' 1 < 128 ->
    decides (ObjectIdentifierEncoding o expected) (expects_value expected false 6 read_oid (oid_arcs o')) clean) /\
  (match o with Some o' => 10 < oid_elem_count o' | None => True end -> decides (ObjectIdentifierEncoding o expected) (decodes expected tlv_null) clean).
Proof.
  intros E K o expected. pose proof SZ_pow as HP. pose proof SZ_lo. split.
  - intros o' -> Hok Hc Hv Hs. pose proof (oid_octets_enc o' Hok Hc Hs) as HE. pose proof (oid_octets_small o' Hok ltac:(lia)) as Hlen.
    apply (value_decides _ _ _ _ _ _ (oid_octets o')); [|reflexivity|discriminate|lia|].
    + intros ti Hti. apply three_ok in Hti. apply object_identifier_renders; [assumption|lia|]. apply retag_content_small; [assumption|reflexivity|lia].
    + intros c. rewrite HE. split; [apply read_oid_canonical|intros ->; now apply read_enc_oid].
  - intros Ho. apply under_each_tag_null. intros ti. now apply object_identifier_null_renders.
Qed.
Print Assumptions C62_asn1_object_identifier.
Example C62_asn1_object_identifier_case :
  oid_ok OID_GOOGLE /\ oid_valid (oid_arcs OID_GOOGLE) /\
  ObjectIdentifierEncoding (Some OID_GOOGLE) (bytes [6; 7; 0x2b; 6; 1; 4; 1; 0xd6; 0x79]) = (true, []) /\
  fst (ObjectIdentifierEncoding (Some OID_GOOGLE) (bytes [6; 8; 0x2b; 6; 1; 4; 1; 0x80; 0xd6; 0x79])) = false.
Proof.
  split; [split; [reflexivity|unfold OID_GOOGLE; repeat (apply Forall_cons; [reflexivity|]); apply Forall_nil]|].
  split; [split; [discriminate|reflexivity]|]. split; vm_compute; reflexivity.
Qed.

(** ** CBOR *)
Lemma len_enc_head m n : n < 2 ^ 64 -> len (enc_head m n) <= 9.
Proof.
  intros Hn. unfold enc_head, head_width. rewrite len_cons. rewrite len_be_bytes.
  destruct (_ <? _); [lia|]. destruct (_ <? _); [lia|]. destruct (_ <? _); [lia|]. destruct (_ <? _); lia.
Qed.
Lemma head_decides `{E : Env} `{K : Stack} (P : ub -> Prop) f m n expected : renders P f (enc_head m n) -> m < 8 -> n < 2 ^ 64 -> ~ (m = 7 /\ 24 <= n < 32) ->
  decides (writes_cbor 0 f expected) (shortest_head expected m n) P.
Proof.
  intros HR Hm Hn H7. eapply decides_iff; [apply (writes_cbor_decides P 0 f _ expected HR)|].
  rewrite (shortest_head_iff expected m n Hm Hn H7). pose proof (len_enc_head m n Hn). split; [intros [<- _]; reflexivity|intros ->; split; [reflexivity|lia]].
Qed.

(** Every major type and argument; an unknown type stands for "undefined", the simple value 23. The exception is what C07 says about simple values. *)
Theorem C62_cbor_header : forall (E : Env) (K : Stack) type_ n expected,
  n < 2 ^ 64 -> ~ (type_ = 7 /\ 24 <= n < 32) ->
  decides (CborHeaderTest type_ n expected) (if type_ <? 8 then shortest_head expected type_ n else shortest_head expected 7 23) clean.
Proof.
  intros E K t n expected Hn H7. destruct (N.ltb_spec t 8) as [Ht|Ht].
  - apply head_decides; try assumption. now apply cbor_header_renders.
  - apply (head_decides clean _ 7 23); [|reflexivity|reflexivity|lia]. apply (cbor_header_undefined_renders clean t n). lia.
Qed.
Print Assumptions C62_cbor_header.
Example C62_cbor_header_case :
  CborHeaderTest 5 256 (bytes [0xb9; 1; 0]) = (true, []) /\ fst (CborHeaderTest 5 256 (bytes [0xba; 0; 0; 1; 0])) = false /\ CborHeaderTest 9 256 (bytes [0xf7]) = (true, []).
Proof. splits; vm_compute; reflexivity. Qed.

(** The number of elements of an array or a map is a size_t: what does not fit is cut off before the call. *)
Theorem C62_cbor_counts : forall (E : Env) (K : Stack) n expected, n < 2 ^ 64 ->
  decides (CborTagTest n expected) (shortest_head expected 6 n) clean /\
  decides (CborArrayHeaderTest n expected) (shortest_head expected 4 (n mod SZ)) clean /\
  decides (CborMapHeaderTest n expected) (shortest_head expected 5 (n mod SZ)) clean.
Proof.
  intros E K n expected Hn. pose proof SZ_pow as HP. pose proof SZ_pos as H0.
  assert (Hw : n mod SZ < 2 ^ 64) by (pose proof (N.mod_lt n SZ ltac:(lia)); lia).
  splits; (apply head_decides; [now apply cbor_header_renders|reflexivity|assumption|lia]).
Qed.
Print Assumptions C62_cbor_counts.
(** With a size_t of 32 bits, 2^32 elements are none. *)
Definition env32 : Env := {| size_width := W32; host_little_endian := true; stray := fun _ => x00 |}.
Example C62_cbor_counts_case :
  CborArrayHeaderTest (2 ^ 32) (bytes [0x9b; 0; 0; 0; 1; 0; 0; 0; 0]) = (true, []) /\ fst (@CborArrayHeaderTest env32 _ (2 ^ 32) (bytes [0x9b; 0; 0; 0; 1; 0; 0; 0; 0])) = false /\
  @CborArrayHeaderTest env32 _ (2 ^ 32) (bytes [0x80]) = (true, []).
Proof. splits; vm_compute; reflexivity. Qed.

(** The least number is negated on the way, which overflows. *)
Theorem C62_cbor_integer : forall (E : Env) (K : Stack) (n : N + Z) expected,
  match n with inl n => n < 2 ^ 64 | inr z => (- 2 ^ 63 <= z < 2 ^ 63)%Z end ->
  decides (CborIntegerTest n expected)
    (match n with
     | inl n => shortest_head expected 0 n
     | inr z => if (z <? 0)%Z then shortest_head expected 1 (Z.to_N (- 1 - z)) else shortest_head expected 0 (Z.to_N z)
     end) (fun u => u = UBSignedOverflow /\ n = inr (- 2 ^ 63)%Z).
Proof.
  intros E K [n|z] expected Hn; unfold CborIntegerTest.
  - apply head_decides; [|reflexivity|exact Hn|lia]. now apply cbor_header_renders.
  - pose proof (cbor_int_renders (fun u => u = UBSignedOverflow /\ @inr N Z z = inr (- 2 ^ 63)%Z) z Hn ltac:(intros ->; auto)) as HR. cbn [enc_item] in HR.
    change (2 ^ 63)%Z with 9223372036854775808%Z in *.
    destruct (Z.ltb_spec z 0); destruct (Z.leb_spec 0 z); try lia; (apply head_decides; [exact HR|reflexivity|change (2 ^ 64) with 18446744073709551616; lia|lia]).
Qed.
Print Assumptions C62_cbor_integer.
Example C62_cbor_integer_case :
  CborIntegerTest (inr (-25)%Z) (bytes [0x38; 0x18]) = (true, []) /\ fst (CborIntegerTest (inr (-25)%Z) (bytes [0x38; 0x19])) = false /\
  CborIntegerTest (inr (- 2 ^ 63)%Z) (bytes [0x3b; 0x7f; 0xff; 0xff; 0xff; 0xff; 0xff; 0xff; 0xff]) = (true, [UBSignedOverflow; UBSignedOverflow]).
Proof. splits; vm_compute; reflexivity. Qed.

(** The tests that compare a number of bytes as well: null, booleans, byte strings and text strings, whatever number and bytes they were to expect. *)
Theorem C62_cbor_sized : forall (E : Env) (K : Stack) i size expected,
  decides (writes_cbor_sized i n20_cbor_write_null size expected) (shortest_head expected 7 22 /\ size = len expected) clean /\
  (forall b, decides (writes_cbor_sized i (n20_cbor_write_bool b) size expected) (shortest_head expected 7 (if b then 21 else 20) /\ size = len expected) clean) /\
  (forall d, len d < SZ ->
    decides (writes_cbor_sized i (n20_cbor_write_byte_string (slice_of d)) size expected)
      ((exists head, shortest_head head 2 (len d) /\ expected = head ++ d) /\ size = len expected /\ len expected <= 20) clean /\
    decides (writes_cbor_sized i (n20_cbor_write_text_string (slice_of d)) size expected)
      ((exists head, shortest_head head 3 (len d) /\ expected = head ++ d) /\ size = len expected /\ len expected <= 20) clean).
Proof.
  intros E K i size expected. pose proof SZ_hi as HZ.
  assert (HH : forall f n, renders clean f (enc_head 7 n) -> n < 24 -> decides (writes_cbor_sized i f size expected) (shortest_head expected 7 n /\ size = len expected) clean).
  { intros f n HR Hn. assert (H64 : n < 2 ^ 64) by (change (2 ^ 64) with 18446744073709551616; lia). eapply decides_iff; [apply (writes_cbor_sized_decides clean i f size _ expected HR)|].
    rewrite (shortest_head_iff expected 7 n) by (assumption || lia). assert (HL : len (enc_head 7 n) <= 9) by (now apply len_enc_head). split; [intros (<- & -> & _); now split|intros [-> ->]; splits; [reflexivity..|lia]]. }
  split; [|split].
  - apply HH; [apply cbor_header_renders; reflexivity|lia].
  - intros []; (apply HH; [apply cbor_header_renders; reflexivity|lia]).
  - intros d Hd.
    assert (Hs : slice_ok (slice_of d)) by (split; [exact Hd|apply N.le_refl]).
    assert (Hb : slice_bytes (slice_of d) = d) by (unfold slice_bytes, slice_of; cbn [sl_buf sl_size]; now rewrite takeN_all by apply N.le_refl).
    assert (HS : forall f m, renders clean f (enc_head m (len d) ++ d) -> m < 7 -> decides (writes_cbor_sized i f size expected)
      ((exists head, shortest_head head m (len d) /\ expected = head ++ d) /\ size = len expected /\ len expected <= 20) clean).
    { intros f m HR Hm. eapply decides_iff; [apply (writes_cbor_sized_decides clean i f size _ expected HR)|].
      assert (H64 : len d < 2 ^ 64) by (change (2 ^ 64) with 18446744073709551616; lia). split.
      - intros (<- & -> & HL). splits; [|reflexivity|exact HL]. exists (enc_head m (len d)). split; [|reflexivity]. apply shortest_head_iff; (assumption || lia || reflexivity).
      - intros ((head & HH1 & ->) & -> & HL). apply shortest_head_iff in HH1; [|lia|assumption|lia]. subst head. now splits. }
    split; (apply HS; [|lia]); rewrite <- Hb at 2 3; (apply cbor_string_renders; [reflexivity|exact Hs|discriminate|discriminate]).
Qed.
Print Assumptions C62_cbor_sized.
Example C62_cbor_sized_case :
  writes_cbor_sized 0 (n20_cbor_write_byte_string (slice_of (bytes [1; 2]))) 3 (bytes [0x42; 1; 2]) = (true, []) /\
  fst (writes_cbor_sized 0 (n20_cbor_write_byte_string (slice_of (bytes [1; 2]))) 3 (bytes [0x58; 2; 1; 2])) = false /\
  fst (writes_cbor_sized 0 (n20_cbor_write_bool true) 0 (bytes [0xf5])) = false /\ fst (writes_cbor_sized 0 n20_cbor_write_null 1 (bytes [0xf7])) = false.
Proof. splits; vm_compute; reflexivity. Qed.
