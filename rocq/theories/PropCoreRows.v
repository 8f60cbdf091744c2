(** C62: the tests of the core library with the rows of the repository. *)
From Coq Require Import List NArith ZArith Bool Lia Strings.Byte.
From Verif Require Import Base BaseFacts Stream SpecStream StreamProofs SpecDigits DigitsFacts SpecDer DerFacts Asn1 SpecAsn1 Asn1Proofs PropAsn1 PropInt.
From Verif Require Import SpecCbor CborFacts Cbor CborProofs Oid ConformCore CryptoTest.
From Verif Require Import CoreTest SpecCoreTest CoreTestProofs PropCoreTest.
Import ListNotations.
Open Scope N_scope.

Definition passes (v : verdict) : Prop := fst v = true.
Definition no_null_copy (u : ub) : Prop := u <> UBMemcpyNull.

(** Whatever is on the stack and on every platform, these pass without undefined behaviour. *)
Lemma computed_tests (E : Env) (K : Stack) (X : Cxx) :
  header_tests ++ header_with_content_tests ++ null_and_boolean_tests ++ bitstring_tests ++ string_tests ++ sequence_tests ++ object_identifier_tests ++
  [CborWriteNullTest; CborWriteBoolTest; CborWriteByteStringTest; CborWriteStringTest] ++ N20OidEqualsTest = repeat (true, []) 61.
Proof. destruct E as [[] le st], X as [[]]; vm_compute; reflexivity. Qed.

Lemma expects_enc {A} expected k tag (read : list byte -> option A) v enc :
  expected = enc_tlv (Tlv 0 k tag enc) -> read enc = Some v -> len enc < 2 ^ 64 -> len expected <= 126 -> expects_value expected k tag read v.
Proof.
  intros HE HR HL H. split; [|exact H]. exists enc. split; [|exact HR]. assert (Hok : tlv_ok (Tlv 0 k tag enc)) by (split; [reflexivity|exact HL]).
  now apply (decodes_iff _ _ Hok).
Qed.
Lemma integer_rows_right : Forall (fun '(b, tc, e) => b = [] /\ decodes e tlv_null \/
  b <> [] /\ len b <= 100 /\ expects_value e false 2 read_int (number_of b false tc)) integer_table.
Proof.
  unfold integer_table. repeat apply Forall_cons; try apply Forall_nil;
    try (right; split; [discriminate|split; [vm_compute; discriminate|eapply expects_enc; [|apply read_enc_int| |]; [vm_compute; reflexivity|vm_compute; reflexivity|vm_compute; discriminate]]]).
  left. split; [reflexivity|]. apply (decodes_iff _ tlv_null); [split; reflexivity|reflexivity].
Qed.
Lemma integer_tests_verdicts (E : Env) (K : Stack) (X : Cxx) :
  (Forall passes (integer_tests integer_table) <-> empty_data_null = true) /\ Forall (fun v => Forall stray_reads (snd v)) (integer_tests integer_table).
Proof.
  pose proof SZ_lo. pose proof integer_rows_right as HR. rewrite Forall_forall in HR.
  assert (HE : forall b tc e, In (b, tc, e) integer_table ->
    (empty_data_null = true -> passes (IntegerEncodingBigEndian b tc e) /\ passes (IntegerEncodingLittleEndian b tc e)) /\
    Forall stray_reads (snd (IntegerEncodingBigEndian b tc e)) /\ Forall stray_reads (snd (IntegerEncodingLittleEndian b tc e))).
  { intros b tc e Hin. destruct (HR _ Hin) as [[-> HD]|(Hb & HL & HV)].
    - pose proof (C62_asn1_integer_empty E K X tc e) as HC. cbv zeta in HC. destruct empty_data_null.
      + destruct HC as [[H1 F1] [H2 F2]]. split; [intros _; split; [now apply H1|now apply H2]|].
        split; [revert F1|revert F2]; apply Forall_impl; intros ? [].
      + destruct HC as (_ & _ & _ & F). apply Forall_app in F. split; [discriminate|exact F].
    - destruct (C62_asn1_integer E K X b tc e Hb ltac:(lia)) as ([H1 F1] & [H2 F2] & _). split; [intros _; split; [now apply H1|now apply H2]|now split]. }
  unfold integer_tests. split.
  - split.
    + intros HF. apply Forall_app in HF as [HF _]. unfold integer_table in HF at 1. cbn [map] in HF. apply Forall_inv in HF.
      pose proof (C62_asn1_integer_empty E K X false ENCODED_NULL) as HC. cbv zeta in HC. destruct empty_data_null; [reflexivity|].
      destruct HC as [HC _]. destruct HC as [HC _]; [apply (decodes_iff _ tlv_null); [split; reflexivity|reflexivity]|].
      unfold passes in HF. change BYTES_EMPTY with (@nil byte) in HF. congruence.
    + intros Hd. apply Forall_app. split; apply Forall_forall; intros v Hv; apply in_map_iff in Hv as ([[b tc] e] & <- & Hin); now apply (HE b tc e Hin).
  - apply Forall_app. split; apply Forall_forall; intros v Hv; apply in_map_iff in Hv as ([[b tc] e] & <- & Hin); now apply (HE b tc e Hin).
Qed.

Definition int64_table : list ((N + Z) * list byte) :=
  [(inl 0, ENCODED_0); (inl 127, ENCODED_127); (inl 128, ENCODED_128); (inl 256, ENCODED_256);
   (inr 0%Z, ENCODED_0); (inr 127%Z, ENCODED_127); (inr 128%Z, ENCODED_128); (inr 256%Z, ENCODED_256); (inr (-128)%Z, ENCODED_MINUS_128); (inr (-129)%Z, ENCODED_MINUS_129)].
Lemma int64_tests_pass (E : Env) (K : Stack) : Forall passes int64_tests /\ Forall (fun v => Forall stray_reads (snd v)) int64_tests.
Proof.
  change int64_tests with (map (fun '(n, e) => Int64Encoding n e) int64_table).
  assert (HE : forall n e, In (n, e) int64_table -> passes (Int64Encoding n e) /\ Forall stray_reads (snd (Int64Encoding n e))).
  { assert (HF : Forall (fun '(n, e) => match n with inl n => n < 2 ^ 64 | inr z => (- 2 ^ 63 <= z < 2 ^ 63)%Z end /\
      expects_value e false 2 read_int (match n with inl n => Z.of_N n | inr z => z end)) int64_table).
    { unfold int64_table. repeat apply Forall_cons; try apply Forall_nil; (split;
        [first [reflexivity|split; [vm_compute; discriminate|reflexivity]]|
         eapply expects_enc; [|apply read_enc_int| |]; [vm_compute; reflexivity|vm_compute; reflexivity|vm_compute; discriminate]]). }
    rewrite Forall_forall in HF. intros n e Hin. destruct (HF _ Hin) as [Hn HV]. destruct (C62_asn1_int64 E K n e Hn) as [H1 F1]. split; [now apply H1|exact F1]. }
  split; apply Forall_forall; intros v Hv; apply in_map_iff in Hv as ([n e] & <- & Hin); now apply (HE n e Hin).
Qed.

Lemma stream_tests_pass (E : Env) (K : Stack) (X : Cxx) : let tests := map (fun '(size, pieces, overflow) => StreamPrepend size pieces overflow) stream_rows_of in
  Forall passes tests /\ Forall (fun v => Forall (fun u => u = UBMemcpyNull /\ empty_data_null = true) (snd v)) tests.
Proof.
  intros tests. pose proof SZ_lo.
  assert (HE : Forall (fun '(size, pieces, overflow) => size < 100 /\ len (concat pieces) < 100 /\ overflow = (size <? len (concat pieces))) stream_rows_of).
  { vm_compute. repeat constructor. }
  rewrite Forall_forall in HE. subst tests. split; apply Forall_forall; intros v Hv; apply in_map_iff in Hv as ([[size pieces] ov] & <- & Hin);
    destruct (HE _ Hin) as (H1 & H2 & H3); destruct (C62_stream_prepend E K X size pieces ov ltac:(lia) ltac:(lia)) as [HP HF]; [now apply HP|].
  revert HF. apply Forall_impl. tauto.
Qed.

Lemma cbor_tests_verdicts (E : Env) (K : Stack) :
  (Forall passes cbor_head_tests <-> size_width = W64) /\ Forall (fun v => snd v = []) cbor_head_tests /\
  Forall passes (cbor_integer_tests cbor_integer_table) /\ Forall (fun v => Forall (eq UBSignedOverflow) (snd v)) (cbor_integer_tests cbor_integer_table).
Proof.
  destruct E as [[] le st]; splits; try (vm_compute; repeat constructor; fail).
  - split; [|discriminate]. intros HF. rewrite Forall_forall in HF. pose proof (proj2 (forallb_forall (fun v : verdict => fst v) _) HF) as HT. vm_compute in HT. discriminate.
Qed.

(** On every platform, whatever is on the stack: all the tests pass exactly if the data pointer of an empty std::vector is NULL, which the standard does not
    promise, and a size_t has 64 bits. *)
Theorem C62_core_tests_pass : forall (E : Env) (K : Stack) (X : Cxx),
  Forall (fun v => fst v = true) core_tests <-> empty_data_null = true /\ size_width = W64.
Proof.
  intros E K X. change (fun v : verdict => fst v = true) with passes. unfold core_tests.
  pose proof (computed_tests E K X) as HC. assert (HC' : Forall passes (repeat (true, []) 61)) by (apply Forall_forall; intros v Hv; now apply repeat_spec in Hv as ->).
  rewrite <- HC in HC'. clear HC. rewrite !Forall_app in HC'.
  destruct (integer_tests_verdicts E K X) as [HI _]. destruct (int64_tests_pass E K) as [H64 _]. destruct (stream_tests_pass E K X) as [HS _].
  destruct (cbor_tests_verdicts E K) as (HH & _ & HN & _).
  assert (HO : Forall passes [StreamCounterOverflow]) by (rewrite C62_stream_counter_overflow; repeat constructor).
  rewrite !Forall_app, HI, HH. tauto.
Qed.
Print Assumptions C62_core_tests_pass.

(** The suite is not free of undefined behaviour anywhere: it reads and forms pointers outside of vectors and overflows an int64_t; and it hands NULL to memcpy exactly
    if the data pointer of an empty std::vector is NULL. So one of the two goes wrong on every platform: a test, or a call of memcpy. *)
Theorem C62_core_tests_undefined : forall (E : Env) (K : Stack) (X : Cxx),
  let undefined := concat (map snd core_tests) in
  In UBReadOob undefined /\ In UBPtrArith undefined /\ In UBSignedOverflow undefined /\ (In UBMemcpyNull undefined <-> empty_data_null = true) /\
  Forall (fun u => stray_reads u \/ u = UBSignedOverflow \/ u = UBMemcpyNull) undefined.
Proof.
  intros E K X undefined.
  assert (HI : forall v u, In v core_tests -> In u (snd v) -> In u undefined) by (intros v u H1 H2; apply in_concat; exists (snd v); split; [now apply in_map|exact H2]).
  assert (H0 : In (IntegerEncodingLittleEndian BYTES_0 false ENCODED_0) core_tests).
  { unfold core_tests, integer_tests. rewrite !in_app_iff. do 5 right. left. right. apply in_map_iff. exists (BYTES_0, false, ENCODED_0). split; [reflexivity|simpl; auto]. }
  destruct (C62_asn1_integer E K X BYTES_0 false ENCODED_0 ltac:(discriminate)) as (_ & _ & _ & _ & H1 & H2); [pose proof SZ_lo; change (len BYTES_0) with 1; lia|].
  assert (HB : all_sign BYTES_0 false) by (left; repeat constructor).
  assert (HF : Forall (fun v => Forall (fun u => stray_reads u \/ u = UBSignedOverflow \/ u = UBMemcpyNull /\ empty_data_null = true) (snd v)) core_tests).
  { pose proof (computed_tests E K X) as HC.
    assert (HC' : Forall (fun v : verdict => Forall (fun u => stray_reads u \/ u = UBSignedOverflow \/ u = UBMemcpyNull /\ empty_data_null = true) (snd v)) (repeat (true, []) 61))
      by (apply Forall_forall; intros v Hv; apply repeat_spec in Hv as ->; constructor).
    rewrite <- HC in HC'. clear HC. rewrite !Forall_app in HC'.
    destruct (integer_tests_verdicts E K X) as [_ HI']. destruct (int64_tests_pass E K) as [_ H64]. destruct (stream_tests_pass E K X) as [_ HS].
    destruct (cbor_tests_verdicts E K) as (_ & HH & _ & HN).
    unfold core_tests. rewrite !Forall_app. splits; try tauto.
    - revert HS. apply Forall_impl. intros v. apply Forall_impl. tauto.
    - rewrite C62_stream_counter_overflow. repeat constructor.
    - revert HI'. apply Forall_impl. intros v. apply Forall_impl. tauto.
    - revert H64. apply Forall_impl. intros v. apply Forall_impl. tauto.
    - revert HH. apply Forall_impl. intros v ->. constructor.
    - revert HN. apply Forall_impl. intros v. apply Forall_impl. intros u <-. tauto. }
  assert (HU : Forall (fun u => stray_reads u \/ u = UBSignedOverflow \/ u = UBMemcpyNull /\ empty_data_null = true) undefined).
  { apply Forall_forall. intros u Hu. apply in_concat in Hu as (l & Hl & Hu). apply in_map_iff in Hl as (v & <- & Hv). rewrite Forall_forall in HF. specialize (HF v Hv).
    rewrite Forall_forall in HF. auto. }
  splits.
  - now apply (HI _ _ H0), H1.
  - now apply (HI _ _ H0), H2.
  - apply (HI (CborIntegerTest (inr (-9223372036854775808)%Z) (bytes [0x3b; 0x7f; 0xff; 0xff; 0xff; 0xff; 0xff; 0xff; 0xff]))).
    + unfold core_tests, cbor_integer_tests. rewrite !in_app_iff. do 12 right. left. apply in_map_iff.
      exists (inr (-9223372036854775808)%Z, bytes [0x3b; 0x7f; 0xff; 0xff; 0xff; 0xff; 0xff; 0xff; 0xff]). split; [reflexivity|].
      unfold cbor_integer_table. apply in_or_app. right. apply in_or_app. left. simpl. auto 30.
    + destruct E as [[] le st]; vm_compute; auto.
  - split.
    + intros Hu. rewrite Forall_forall in HU. destruct (HU _ Hu) as [[HH|HH]|[HH|[_ HH]]]; congruence.
    + intros Hd. apply (HI (StreamPrepend 1 [[]] false)).
      * unfold core_tests. apply in_or_app. left. apply in_map_iff. exists (1, [[]], false). split; [reflexivity|simpl; auto].
      * destruct E as [[] le st], X as [[]]; try discriminate; vm_compute; auto.
  - revert HU. apply Forall_impl. tauto.
Qed.
Print Assumptions C62_core_tests_undefined.

(** A platform on which they all pass. *)
Example C62_core_tests_case :
  len (@core_tests env64 counting_stack null_data) = 202 /\ forallb (fun v : verdict => fst v) (@core_tests env64 counting_stack null_data) = true.
Proof. split; vm_compute; reflexivity. Qed.
