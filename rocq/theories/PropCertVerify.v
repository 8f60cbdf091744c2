(** Property C66: the end-to-end certificate test with its verification (src/core/test/x509.cpp:497-891). *)
From Coq Require Import Strings.String.
From Coq Require Import List NArith ZArith Bool Strings.Byte Lia.
From Coq Require Import ZifyBool ZifyNat ZifyN.
From Verif Require Import Base BaseFacts Stream SpecStream StreamProofs SpecDigits DigitsFacts SpecDer DerFacts Asn1 SpecAsn1 Asn1Proofs
  Oid X509 X509Ext SpecX509 RendProofs X509Facts X509Proofs PropX509 PropX509Cert.
From Verif Require Import Res SpecSha2 Crypto SpecMac SpecCrypto PropCrypto Bssl BsslKeys SpecBssl BsslProofs Rfc6979Proofs KeyProofs PropBssl PropKeys
  FailProofs PropKeysFail.
From Verif Require Import Issue PropIssue ConformCore ConformX509 CertTest PropCertTest SpecDice PropDice SpecProfile SpecPath PropPath.
From Verif Require Import CertVerify SpecCertVerify.
Import ListNotations.
Open Scope N_scope.

Lemma get_signing_key_checked (E : Env) (B : Bssl) (A : Allocator) (table : table) cdi ty label secret p :
  no_failure B -> computes_sha2 B -> allocator_ok A -> lookup table 0 = None -> len label < SZ ->
  lookup table cdi = Some (SecretKey secret) -> derived B secret label ty (SigningKey p) ->
  exists n, forall fuel, (n <= fuel)%nat ->
    GetSigningKey_checked A fuel (heap_of table) cdi ty label = Ret (heap_of ((fresh (heap_of table), SigningKey p) :: table), fresh (heap_of table), true).
Proof.
  intros Hnf Hsha Ha Hnull Hlab Hsec Hder. set (g := mkGather 1 (Some [slice_of label])).
  assert (Hcz : (cdi =? 0) = false) by (destruct (N.eqb_spec cdi 0) as [->|]; [congruence|reflexivity]).
  assert (Hk : handle_key table cdi = Some (SecretKey secret)) by (unfold handle_key; now rewrite Hcz).
  assert (Hok : op_ok (live (heap_of table)) (Kdf true cdi ty (Some g) (Some 0))).
  { split; [right; now rewrite live_lookup, Hsec|now apply label_ok]. }
  assert (Hty : is_none (kind_of ty) = false) by (unfold derived in Hder; destruct (kind_of ty); [reflexivity|contradiction]).
  assert (He : first_error (kdf_errors true (handle_key table cdi) ty (Some g) (Some 0)) = ok_e).
  { unfold kdf_errors. rewrite Hk, Hty. reflexivity. }
  destruct (C49_kdf_succeeds E B A table true cdi ty (Some g) (Some 0) secret (SigningKey p) Hnf Hsha Hok He Hk) as [n Hn].
  { unfold g. now rewrite label_message. }
  exists n. intros fuel Hf. unfold GetSigningKey_checked. fold g. rewrite (Hn fuel Hf). reflexivity.
Qed.

(** The key that is put into the template is the one that is decoded. *)
Lemma template_public (E : Env) t vs f pub : tbs_ok t -> tbs_of t vs = f -> tf_key f = bits_of_bytes pub -> public_key_of t = pub.
Proof.
  intros Hok <- Hk. destruct Hok as (_ & _ & _ & _ & _ & _ & _ & _ & Hb & _). unfold public_key_of.
  cbn [tbs_of tf_key] in Hk. destruct (spki_key (tbs_spki t)) as [d|]; cbn [key_bits bitstring_ok] in *.
  - assert (HL : len (takeN (spki_bits (tbs_spki t)) (bits_of_bytes d)) = spki_bits (tbs_spki t)) by (rewrite len_takeN, len_bits_of_bytes; lia).
    rewrite Hk, len_bits_of_bytes in HL. rewrite <- HL in *. replace (8 * len pub / 8) with (len pub) by (rewrite N.mul_comm, N.div_mul; lia).
    assert (Hd : d = takeN (len pub) d ++ dropN (len pub) d) by (symmetry; apply takeN_dropN).
    rewrite Hd in Hk at 1. change (key_bits (Some (takeN (len pub) d ++ dropN (len pub) d)) (8 * len pub) = bits_of_bytes pub) in Hk.
    rewrite key_bits_front in Hk by (rewrite len_takeN; lia). apply (f_equal pack_bits) in Hk. now rewrite !pack_bits_of_bytes in Hk.
  - apply (f_equal pack_bits) in Hk. rewrite pack_bits_of_bytes in Hk. now rewrite <- Hk.
Qed.

(** The verdict, whatever BoringSSL's X.509 functions answer; the certificates are those of C54. *)
Theorem C66_verdict : forall (E : Env) (B : Bssl) (L : Pki) (A A2 : Allocator) (table : table) test_cdi row p1 p2,
  no_failure B -> computes_sha2 B -> signs B -> publishes B -> allocator_ok A -> allocator_ok A2 -> lookup table 0 = None ->
  0 < len test_cdi < SZ -> In row cert_test_values ->
  derived B test_cdi (test_label 1) (cp_key_type row) (SigningKey p1) -> derived B test_cdi (test_label 2) (cp_key_type row) (SigningKey p2) ->
  let f := test_fields p1 (cp_has_path_length row) (public_bytes B p1) in
  exists n signed cert1 cert2,
    cert_signed_part cert1 = Some signed /\ read_cert cert1 = Some (CertFields f (test_sig_alg p1) (bits_of_bytes (signature_bytes B p1 signed))) /\
    cert_signed_part cert2 = Some signed /\ read_cert cert2 = Some (CertFields f (test_sig_alg p1) (bits_of_bytes (signature_bytes B p2 signed))) /\
    forall fuel public_key_buffer signature buffer public_key_buffer2 signature2 buffer2, (n <= fuel)%nat ->
      len public_key_buffer = 128 -> len signature = 128 -> len buffer = 2000 -> len public_key_buffer2 = 128 -> len signature2 = 128 -> len buffer2 = 2000 ->
      exists u passed, Forall stray_reads u /\ (cp_has_path_length row = false -> u = []) /\
        cert_test_passes A A2 fuel (heap_of table) test_cdi row public_key_buffer signature buffer public_key_buffer2 signature2 buffer2 =
          Ret (u, heap_of table, passed) /\
        (passed = true <-> agrees L B p1 p2 cert1 cert2).
Proof.
  intros E B L A A2 table cdi row p1 p2 Hnf Hsha Hs Hp Ha Ha2 Hnull Hcdi Hin Hd1 Hd2 f. pose proof SZ_lo as HSZ.
  set (path := cp_has_path_length row) in *. set (ty := cp_key_type row) in *.
  pose proof (derived_type _ _ _ _ _ Hd1) as Ht1. pose proof (derived_type _ _ _ _ _ Hd2) as Ht2.
  set (allowed := fun u => stray_reads u /\ path = true).
  assert (Htok : tbs_ok (cert_template row)) by now apply test_template_ok.
  assert (Hcb : callbacks allowed (used_exts (tbs_exts (cert_template row))) (test_values path)).
  { apply test_callbacks. fold path. destruct path; [left; intros u Hu; now split|now right]. }
  pose proof (test_serial E allowed row) as Hser.
  pose proof (test_template_fields E row p1 (public_bytes B p1) Hin Ht1) as Hf. fold path in Hf. fold f in Hf.
  destruct (fresh_lookup A table Ha) as [F0 Z0]. set (c := fresh (Allocator := A) (heap_of table)) in *.
  set (T := (c, SecretKey cdi) :: table).
  assert (NT : lookup T 0 = None) by (unfold T; rewrite lookup_cons; destruct (N.eqb_spec c 0); [contradiction|assumption]).
  assert (ST : lookup T c = Some (SecretKey cdi)) by (unfold T; now rewrite lookup_cons, N.eqb_refl).
  destruct (fresh_lookup A T Ha) as [F1 Z1]. set (a := fresh (Allocator := A) (heap_of T)) in *. destruct (fresh_lookup A2 T Ha2) as [F2 Z2]. set (b := fresh (Allocator := A2) (heap_of T)) in *.
  destruct (get_signing_key_checked E B A T c ty (test_label 1) cdi p1 Hnf Hsha Ha NT (test_label_len E 1) ST Hd1) as [n1 G1].
  destruct (get_signing_key_checked E B A2 T c ty (test_label 2) cdi p2 Hnf Hsha Ha2 NT (test_label_len E 2) ST Hd2) as [n2 G2]. fold a in G1. fold b in G2.
  assert (K : forall x p, lookup ((x, SigningKey p) :: T) x = Some (SigningKey p)) by (intros x p; now rewrite lookup_cons, N.eqb_refl).
  assert (KN : forall x p, x <> 0 -> lookup ((x, SigningKey p) :: T) 0 = None) by (intros x p Hx; rewrite lookup_cons; destruct (N.eqb_spec x 0); [contradiction|assumption]).
  assert (KF : forall x p, lookup T x = None -> filter (fun y => negb (fst y =? x)) ((x, SigningKey p) :: T) = T) by (intros x p Hx; now apply filter_new).
  set (cert1 := cert_under B p1 f). set (cert2 := cert_under B p2 f).
  assert (L1 : len cert1 <= 675) by now apply test_size. assert (L2 : len cert2 <= 675) by now apply test_size.
  pose proof (cert_under_signed B p1 f) as LS. fold cert1 in LS.
  pose proof (cert_under_reads E B p1 (cert_template row) (test_values path) (public_bytes B p1) Htok) as R1.
  pose proof (cert_under_reads E B p2 (cert_template row) (test_values path) (public_bytes B p1) Htok) as R2.
  cbv zeta in R1, R2. rewrite Hf in R1, R2. fold cert1 in R1. fold cert2 in R2. destruct R1 as [S1 R1]; [lia|]. destruct R2 as [S2 R2]; [lia|].
  assert (Halg : alg_of (tbs_sig_alg (cert_template row)) = test_sig_alg p1) by (apply (f_equal tf_sig_alg) in Hf; exact Hf).
  rewrite Halg in R1, R2.
  exists (Nat.max n1 n2), (enc_tlv (tlv_tbs f)), cert1, cert2. splits; try assumption.
  intros fuel pkb sigb buffer pkb2 sigb2 buffer2 Hfuel B1 B2 B3 B4 B5 B6.
  destruct (template_for_ok E B _ a p1 allowed _ _ Hp (K a p1) (KN a p1 Z1) Htok Hcb Hser pkb ltac:(lia)) as (t1 & T1 & Ok1 & Fd1 & Cb1 & Se1).
  rewrite Hf in Fd1. rewrite Hnf in T1.
  destruct (template_for_ok E B _ b p2 allowed _ _ Hp (K b p2) (KN b p2 Z2) Ok1 Cb1 Se1 pkb2 ltac:(lia)) as (t2 & T2 & Ok2 & Fd2 & _). rewrite Hnf in T2.
  assert (P1 : public_key_of t1 = public_bytes B p1) by (apply (template_public E t1 _ _ _ Ok1 Fd1); reflexivity).
  assert (P2 : public_key_of t2 = public_bytes B p2) by (apply (template_public E t2 _ _ _ Ok2 Fd2); reflexivity).
  destruct (issue_tbs_ok E B _ a p1 allowed t1 _ Hs (K a p1) (KN a p1 Z1) Ok1 Cb1 Se1 sigb buffer ltac:(lia) ltac:(lia)) as (u1 & U1 & I1).
  destruct (issue_tbs_ok E B _ b p2 allowed t1 _ Hs (K b p2) (KN b p2 Z2) Ok1 Cb1 Se1 sigb2 buffer2 ltac:(lia) ltac:(lia)) as (u2 & U2 & I2).
  rewrite Fd1, none_fail, KF in I1 by assumption. rewrite Fd1, none_fail, KF in I2 by assumption. fold cert1 in I1. fold cert2 in I2. cbn [orb] in I1, I2. rewrite B3 in I1. rewrite B6 in I2.
  replace (2000 <? len (enc_tlv (tlv_tbs f))) with false in I1, I2 by lia. replace (2000 <? len cert1) with false in I1 by lia. replace (2000 <? len cert2) with false in I2 by lia.
  assert (A1 : Forall stray_reads u1 /\ (path = false -> u1 = [])).
  { split; [eapply Forall_impl; [|exact U1]; now intros x [Hx _]|]. intro Hpath. destruct U1 as [|x l [_ Hx] _]; [reflexivity|congruence]. }
  assert (A2' : Forall stray_reads (u2 ++ u1) /\ (path = false -> u2 ++ u1 = [])).
  { split; [apply Forall_app; split; [eapply Forall_impl; [|exact U2]; now intros x [Hx _]|apply A1]|].
    intro Hpath. rewrite (proj2 A1 Hpath). destruct U2 as [|x l [_ Hx] _]; [reflexivity|congruence]. }
  assert (KK : forall p, ty = type_of p -> forall k, n20_crypto_key_to_evp_pkey_ptr ty k = decode_key L p k).
  { intros p -> k. destruct p as [seed|[] d]; reflexivity. }
  assert (EE : (ty =? key_type_ed25519_e) = match p1 with Ed25519 _ => true | EC _ _ => false end).
  { rewrite <- Ht1. destruct p1 as [seed|[] d]; reflexivity. }
  unfold cert_test_passes. rewrite bssl_make_secret_ok by (split; [cbn [slice_of sl_size]; lia|apply N.le_refl]).
  assert (He : first_error (secret_errors true (Some (slice_of cdi)) (Some 0)) = ok_e).
  { unfold secret_errors. cbn [negb slice_of sl_buf sl_size is_none]. replace (len cdi =? 0) with false by lia. reflexivity. }
  rewrite He. cbn [bind].
  assert (Hb : slice_bytes (slice_of cdi) = cdi) by (unfold slice_bytes, slice_of; cbn [sl_buf sl_size]; now rewrite takeN_all by apply N.le_refl).
  rewrite Hb. fold c. change ((c, object (SecretKey cdi)) :: heap_of table) with (heap_of T).
  unfold CertEncoding_checked. fold ty. cbv zeta.
  change (ConformCore.text "signing key 1") with (test_label 1). change (ConformCore.text "signing key 2") with (test_label 2).
  rewrite G1 by lia. cbn [bind].
  assert (FR : n20_crypto_boringssl_key_free true (heap_of T) c = Ret (ok_e, heap_of table)).
  { rewrite bssl_free_ok; [|right; now rewrite live_lookup, ST|exact NT]. unfold T. now rewrite filter_new. }
  rewrite Ht1 in T1, I1. rewrite Ht2 in T2, I2. rewrite T1. cbn [bind]. rewrite I1. cbn [bind].
  assert (FAIL : forall u (P : Prop), (Forall stray_reads u /\ (path = false -> u = [])) -> ~ P ->
    exists u' passed, Forall stray_reads u' /\ (path = false -> u' = []) /\
      (do (u0, h, ok) <- Ret (u, heap_of T, false);
       do (rc, h0) <- n20_crypto_boringssl_key_free true h c;
       Ret (u0, h0, error_eqb ok_e (fst (n20_crypto_boringssl_open (A := A) true)) && error_eqb ok_e ok_e && ok &&
                    (error_eqb ok_e rc && error_eqb ok_e (n20_crypto_boringssl_close true)))) = Ret (u', heap_of table, passed) /\
      (passed = true <-> P)).
  { intros u P [Ha1 Hb1] HP. exists u, false. cbn [bind]. rewrite FR. cbn [bind].
    replace (_ && _) with false; [|symmetry; cbn; reflexivity]. splits; try assumption; [reflexivity|]. split; [discriminate|tauto]. }
  rewrite (KK p1) by congruence. rewrite P1.
  destruct (d2i_X509 cert1) as [x1|] eqn:D1; [|apply FAIL; [exact A1|intros (x & ? & ? & ? & Hx & _); congruence]].
  destruct (Z.eqb_spec (X509_verify x1 (decode_key L p1 (public_bytes B p1))) 1) as [V1|V1]; cbn [negb];
    [|apply FAIL; [exact A1|intros (x & x2 & k1 & k2 & Hx & _ & Hk & _ & Hv & _); congruence]].
  rewrite EE.
  set (path_step := if negb match p1 with Ed25519 _ => true | EC _ _ => false end then _ else _).
  assert (PS : (exists store, path_step = Some store /\
                  match p1 with
                  | Ed25519 _ => store = None
                  | EC _ _ => exists st, store = Some st /\ trust_store_from_der cert1 = Some st /\ certificate_verify st cert1 = (true, PATH_VERIFIED)
                  end) \/ path_step = None /\ ~ agrees L B p1 p2 cert1 cert2).
  { unfold path_step. destruct p1 as [seed|curve d]; cbn [negb]; [left; now exists None|].
    destruct (trust_store_from_der cert1) as [st|] eqn:TS.
    - destruct (certificate_verify st cert1) as [[|] [| |m]] eqn:CV;
        [left; exists (Some st); split; [reflexivity|]; now exists st|right; split; [reflexivity|]..];
        intros (x & x2 & k1 & k2 & _ & _ & _ & _ & _ & _ & _ & store & Hst & Hcv & _); congruence.
    - right. split; [reflexivity|]. intros (x & x2 & k1 & k2 & _ & _ & _ & _ & _ & _ & _ & store & Hst & _). congruence. }
  destruct PS as [(store & -> & HST)|[-> HN]]; [|apply FAIL; [exact A1|exact HN]].
  rewrite G2 by lia. cbn [bind]. rewrite T2. cbn [bind]. rewrite I2. cbn [bind]. rewrite (KK p2) by congruence. rewrite P2.
  destruct (d2i_X509 cert2) as [x2|] eqn:D2; [|apply FAIL; [exact A2'|intros (x & ? & ? & ? & _ & Hx & _); congruence]].
  cbn [bind]. rewrite FR. cbn [bind]. eexists _, _. split; [apply A2'|]. split; [apply A2'|]. split; [reflexivity|].
  change (error_eqb ok_e (fst (n20_crypto_boringssl_open (A := A) true))) with true. change (error_eqb ok_e ok_e) with true.
  change (error_eqb ok_e (n20_crypto_boringssl_close true)) with true. cbn [andb]. rewrite andb_true_r.
  rewrite !andb_true_iff, !Z.eqb_eq. unfold agrees. split.
  - intros [[[HK V2] V3] HR]. destruct (decode_key L p1 (public_bytes B p1)) as [k1|] eqn:K1; [|discriminate].
    destruct (decode_key L p2 (public_bytes B p2)) as [k2|] eqn:K2; [|discriminate].
    exists x1, x2, k1, k2. splits; try assumption; try reflexivity. destruct p1 as [seed|curve d]; [exact I|].
    destruct HST as (st & -> & H1 & H2). exists st. splits; try assumption.
    destruct (certificate_verify st cert2) as [[|] [| |m]]; try discriminate. reflexivity.
  - intros (y1 & y2 & k1 & k2 & H1 & H2 & H3 & H4 & H5 & H6 & H7 & H8). rewrite D1 in H1. rewrite D2 in H2. injection H1 as <-. injection H2 as <-.
    rewrite H3, H4. splits; try assumption; [reflexivity|]. destruct p1 as [seed|curve d]; [now rewrite HST|].
    destruct HST as (st & -> & G3 & G4), H8 as (st' & G5 & G6 & G7). rewrite G3 in G5. injection G5 as <-. now rewrite G7.
Qed.
Print Assumptions C66_verdict.

(** The fields of the certificates are fit for the parser. *)
Lemma test_well_formed (B : Bssl) p path pub sig : well_formed (CertFields (test_fields p path pub) (test_sig_alg p) sig).
Proof.
  unfold well_formed. cbn [cf_tbs cf_sig_alg test_fields tf_version tf_serial tf_sig_alg tf_issuer tf_not_before tf_not_after tf_subject tf_exts].
  assert (HN : name_conforms test_name) by (repeat (constructor; [vm_compute; reflexivity|]); constructor).
  splits; try reflexivity; try discriminate; try exact HN.
  - split; [reflexivity|vm_compute; congruence].
  - exists 19700101000000, 99991231235959. splits; [vm_compute; reflexivity|vm_compute; reflexivity|discriminate].
  - cbn [test_exts map xf_oid]. constructor; [|constructor; [|constructor]]; [|intros []]. intros [H|[]]. discriminate.
Qed.
(** One certificate with these fields under one with the same names: only the signature is left to look at. *)
Lemma test_validate verify recognised now cert p path pub sig signed q :
  19700101000000 <= now <= 99991231235959 ->
  read_cert cert = Some (CertFields (test_fields p path pub) (test_sig_alg p) sig) -> cert_signed_part cert = Some signed ->
  validate verify recognised now (mkAuthority test_name (key_algorithm q) (bits_of_bytes pub)) [cert] =
    verify (signature_algorithm p) (key_algorithm q) (bits_of_bytes pub) signed sig.
Proof.
  intros Hnow HR HS. unfold validate. cbn [length validate_from]. unfold process. rewrite HR, HS. cbn [SpecX509.bind].
  cbn [cf_tbs cf_sig_alg cf_signature test_fields tf_sig_alg tf_issuer tf_exts au_alg au_key au_name].
  assert (HA : same_alg (test_sig_alg p) (test_sig_alg p) = true) by (unfold same_alg; now destruct alg_eq_dec).
  assert (HM : same_name test_name test_name = true) by (unfold same_name; now destruct list_eq_dec).
  assert (HP : in_period now (test_fields p path pub) = true).
  { unfold in_period. cbn [test_fields tf_not_before tf_not_after].
    replace (instant (text "19700101000000Z")) with (Some 19700101000000) by (vm_compute; reflexivity).
    replace (instant (text "99991231235959Z")) with (Some 99991231235959) by (vm_compute; reflexivity). lia. }
  assert (HX : extensions_accepted recognised (test_exts path) = true) by (destruct path; reflexivity).
  fold (test_fields p path pub). rewrite HA, HM, HX, HP. cbn [andb]. rewrite !andb_true_r.
  change (test_sig_alg p) with (signature_algorithm p). now destruct (verify _ _ _ _ _).
Qed.

(** With such functions, what the test asks for is that the second certificate is not accepted under the first key. *)
Lemma agrees_iff (B : Bssl) (L : Pki) verify recognised now view p1 p2 path cert1 cert2 signed :
  conforms L B verify recognised now view -> accepts_own B verify -> 19700101000000 <= now <= 99991231235959 -> type_of p2 = type_of p1 ->
  let f := test_fields p1 path (public_bytes B p1) in
  cert_signed_part cert1 = Some signed -> read_cert cert1 = Some (CertFields f (test_sig_alg p1) (bits_of_bytes (signature_bytes B p1 signed))) ->
  cert_signed_part cert2 = Some signed -> read_cert cert2 = Some (CertFields f (test_sig_alg p1) (bits_of_bytes (signature_bytes B p2 signed))) ->
  (agrees L B p1 p2 cert1 cert2 <->
   verify (signature_algorithm p1) (key_algorithm p1) (bits_of_bytes (public_bytes B p1)) signed (bits_of_bytes (signature_bytes B p2 signed)) = false).
Proof.
  intros [HP HK HV] Hown Hnow HT f S1 R1 S2 R2. unfold f in *. clear f.
  assert (SA : signature_algorithm p1 = signature_algorithm p2) by (destruct p1 as [|[]], p2 as [|[]]; try discriminate HT; reflexivity).
  set (v := verify _ _ _ _ _).
  destruct (HP _ _ _ R1 S1 (test_well_formed B _ _ _ _)) as (x1 & D1 & V1). destruct (HP _ _ _ R2 S2 (test_well_formed B _ _ _ _)) as (x2 & D2 & V2).
    destruct (HK p1) as (k1 & K1 & W1), (HK p2) as (k2 & K2 & W2). cbn [cf_sig_alg cf_signature] in V1, V2.
    change (test_sig_alg p1) with (signature_algorithm p1) in V1, V2.
    assert (X1 : X509_verify x1 (Some k1) = 1%Z) by (rewrite V1, W1; cbn [fst snd]; now rewrite Hown).
    assert (X2 : X509_verify x2 (Some k2) = 1%Z) by (rewrite V2, W2; cbn [fst snd]; rewrite SA; now rewrite Hown).
    assert (X3 : X509_verify x2 (Some k1) = if v then 1%Z else 0%Z) by (rewrite V2, W1; reflexivity).
    split.
    - intros (y1 & y2 & l1 & l2 & Y1 & Y2 & Y3 & Y4 & Y5 & Y6 & Y7 & _). rewrite D2 in Y2. injection Y2 as <-. rewrite K1 in Y3. injection Y3 as <-.
      rewrite X3 in Y7. now destruct v.
    - intro Hv. rewrite Hv in X3. exists x1, x2, k1, k2. splits; try assumption. destruct p1 as [seed|curve d]; [exact I|].
      assert (NE : forall sig, ~ is_ed25519 (CertFields (test_fields (EC curve d) (path) (public_bytes B (EC curve d))) (test_sig_alg (EC curve d)) sig))
        by (intros sig HE; destruct curve; discriminate HE).
      destruct (HV _ _ R1 (test_well_formed B _ _ _ _) (NE _)) as (store & TS & HC). cbn [cf_tbs test_fields tf_subject tf_key_alg tf_key] in HC.
      exists store. split; [exact TS|].
      pose proof (HC _ _ R1 (test_well_formed B _ _ _ _) (NE _)) as C1. pose proof (HC _ _ R2 (test_well_formed B _ _ _ _) (NE _)) as C2. cbv zeta in C1, C2.
      change (test_key_alg (EC curve d)) with (key_algorithm (EC curve d)) in C1, C2.
      rewrite (test_validate verify recognised now cert1 _ _ _ _ _ _ Hnow R1 S1), Hown in C1. split; [exact C1|].
      rewrite !(test_validate _ recognised now cert2 _ _ _ _ _ _ Hnow R2 S2) in C2. fold v in C2. rewrite Hv in C2. now apply C2.
Qed.

(** With a BoringSSL that does what it is for, the test passes exactly if the second key's signature is not accepted under the first key. *)
Theorem C66_conforming : forall (E : Env) (B : Bssl) (L : Pki) verify recognised now view (A A2 : Allocator) (table : table) test_cdi row p1 p2,
  no_failure B -> computes_sha2 B -> signs B -> publishes B -> allocator_ok A -> allocator_ok A2 -> lookup table 0 = None ->
  0 < len test_cdi < SZ -> In row cert_test_values ->
  derived B test_cdi (test_label 1) (cp_key_type row) (SigningKey p1) -> derived B test_cdi (test_label 2) (cp_key_type row) (SigningKey p2) ->
  conforms L B verify recognised now view -> accepts_own B verify -> 19700101000000 <= now <= 99991231235959 ->
  exists n signed cert1 cert2,
    cert_signed_part cert1 = Some signed /\ cert_signed_part cert2 = Some signed /\
    forall fuel public_key_buffer signature buffer public_key_buffer2 signature2 buffer2, (n <= fuel)%nat ->
      len public_key_buffer = 128 -> len signature = 128 -> len buffer = 2000 -> len public_key_buffer2 = 128 -> len signature2 = 128 -> len buffer2 = 2000 ->
      exists u, Forall stray_reads u /\ (cp_has_path_length row = false -> u = []) /\
        cert_test_passes A A2 fuel (heap_of table) test_cdi row public_key_buffer signature buffer public_key_buffer2 signature2 buffer2 =
          Ret (u, heap_of table,
               negb (verify (signature_algorithm p1) (key_algorithm p1) (bits_of_bytes (public_bytes B p1)) signed (bits_of_bytes (signature_bytes B p2 signed)))).
Proof.
  intros E B L verify recognised now view A A2 table cdi row p1 p2 Hnf Hsha Hs Hp Ha Ha2 Hnull Hcdi Hin Hd1 Hd2 HC Hown Hnow.
  destruct (C66_verdict E B L A A2 table cdi row p1 p2 Hnf Hsha Hs Hp Ha Ha2 Hnull Hcdi Hin Hd1 Hd2) as (n & signed & cert1 & cert2 & S1 & R1 & S2 & R2 & H).
  exists n, signed, cert1, cert2. split; [exact S1|]. split; [exact S2|]. intros fuel b1 b2 b3 b4 b5 b6 Hf H1 H2 H3 H4 H5 H6.
  destruct (H fuel b1 b2 b3 b4 b5 b6 Hf H1 H2 H3 H4 H5 H6) as (u & passed & U1 & U2 & HR & HI). exists u. splits; try assumption. rewrite HR. do 2 f_equal.
  assert (HT : type_of p2 = type_of p1) by (rewrite (derived_type _ _ _ _ _ Hd1); exact (derived_type _ _ _ _ _ Hd2)).
  rewrite (agrees_iff B L verify recognised now view p1 p2 _ cert1 cert2 signed HC Hown Hnow HT S1 R1 S2 R2) in HI.
  set (v := verify _ _ _ _ _) in *. destruct passed, v; intuition congruence.
Qed.
Print Assumptions C66_conforming.

(** In particular it does not pass if both keys sign alike. *)
Theorem C66_same_signature : forall (E : Env) (B : Bssl) (L : Pki) verify recognised now view (A A2 : Allocator) (table : table) test_cdi row p1 p2,
  no_failure B -> computes_sha2 B -> signs B -> publishes B -> allocator_ok A -> allocator_ok A2 -> lookup table 0 = None ->
  0 < len test_cdi < SZ -> In row cert_test_values ->
  derived B test_cdi (test_label 1) (cp_key_type row) (SigningKey p1) -> derived B test_cdi (test_label 2) (cp_key_type row) (SigningKey p2) ->
  conforms L B verify recognised now view -> accepts_own B verify -> 19700101000000 <= now <= 99991231235959 ->
  (forall m, signature_bytes B p1 m = signature_bytes B p2 m) ->
  exists n, forall fuel public_key_buffer signature buffer public_key_buffer2 signature2 buffer2, (n <= fuel)%nat ->
      len public_key_buffer = 128 -> len signature = 128 -> len buffer = 2000 -> len public_key_buffer2 = 128 -> len signature2 = 128 -> len buffer2 = 2000 ->
      exists u, cert_test_passes A A2 fuel (heap_of table) test_cdi row public_key_buffer signature buffer public_key_buffer2 signature2 buffer2 =
                  Ret (u, heap_of table, false).
Proof.
  intros E B L verify recognised now view A A2 table cdi row p1 p2 Hnf Hsha Hs Hp Ha Ha2 Hnull Hcdi Hin Hd1 Hd2 HC Hown Hnow Hsame.
  destruct (C66_conforming E B L verify recognised now view A A2 table cdi row p1 p2 Hnf Hsha Hs Hp Ha Ha2 Hnull Hcdi Hin Hd1 Hd2 HC Hown Hnow)
    as (n & signed & cert1 & cert2 & _ & _ & H).
  exists n. intros fuel b1 b2 b3 b4 b5 b6 Hf H1 H2 H3 H4 H5 H6. destruct (H fuel b1 b2 b3 b4 b5 b6 Hf H1 H2 H3 H4 H5 H6) as (u & _ & _ & HR).
  exists u. rewrite HR. do 2 f_equal. rewrite <- Hsame. now rewrite Hown.
Qed.
Print Assumptions C66_same_signature.

(** ** Examples: X.509 functions that go with the toy BoringSSL *)
Definition toy_pki : Pki := {|
  x509_object := cert_fields * list byte;
  evp_pkey := alg_fields * list bool;
  trust_store := authority;
  d2i_X509 cert := match read_cert cert, cert_signed_part cert with Some f, Some signed => Some (f, signed) | _, _ => None end;
  X509_verify x k :=
    match k with
    | Some k => if toy_verify (cf_sig_alg (fst x)) (fst k) (snd k) (snd x) (cf_signature (fst x)) then 1%Z else 0%Z
    | None => 0%Z
    end;
  ed25519_evp_pkey public := Some (key_algorithm (Ed25519 []), bits_of_bytes public);
  ec_evp_pkey c public := Some (key_algorithm (EC c 0), bits_of_bytes public);
  trust_store_from_der cert :=
    match read_cert cert with Some f => Some (mkAuthority (tf_subject (cf_tbs f)) (tf_key_alg (cf_tbs f)) (tf_key (cf_tbs f))) | None => None end;
  certificate_verify a cert :=
    if validate toy_verify no_other today a [cert] then (true, PATH_VERIFIED)
    else if validate (fun _ _ _ _ _ => true) no_other today a [cert] then (false, CERTIFICATE_INVALID_SIGNATURE) else (false, OTHER_STATUS 1) |}.
Lemma toy_conforms f : conforms toy_pki (toy f) toy_verify no_other today (fun k => k).
Proof.
  split.
  - intros cert g signed HR HS _. exists (g, signed). cbn. rewrite HR, HS. now split.
  - intros p. exists (key_algorithm p, bits_of_bytes (public_bytes (toy f) p)). split; [|reflexivity]. now destruct p as [seed|[] d].
  - intros anchor fa HR _ _. eexists. split; [cbn; now rewrite HR|]. intros cert g _ _ _. cbv zeta. cbn [certificate_verify toy_pki].
    destruct (validate toy_verify _ _ _ _); [reflexivity|]. now intros ->.
Qed.
(** The second row of the table: the test passes if the two seeds, taken as numbers, differ. *)
Example C66_example : exists n,
  forall fuel, (n <= fuel)%nat ->
    @cert_test_passes env64 (toy none_fails) toy_pki bump skip fuel (heap_of issue_table) (bytes [6; 7]) (nth 1 cert_test_values (mkParams 0 (mkAlg None pv_none) (mkAlg None pv_none) true))
      (repeat x00 128) (repeat x00 128) (repeat x00 2000) (repeat x00 128) (repeat x00 128) (repeat x00 2000) =
      Ret ([], heap_of issue_table, negb (be_val (HKDF_expand SHA512 (bytes [6; 7]) (test_label 1) 32) mod 256 ^ 32 =? be_val (HKDF_expand SHA512 (bytes [6; 7]) (test_label 2) 32) mod 256 ^ 32)).
Proof.
  set (s1 := HKDF_expand SHA512 (bytes [6; 7]) (test_label 1) 32). set (s2 := HKDF_expand SHA512 (bytes [6; 7]) (test_label 2) 32).
  destruct (C66_conforming env64 (toy none_fails) toy_pki toy_verify no_other today (fun k => k) bump skip issue_table (bytes [6; 7])
    (nth 1 cert_test_values (mkParams 0 (mkAlg None pv_none) (mkAlg None pv_none) true)) (Ed25519 s1) (Ed25519 s2))
    as (n & signed & cert1 & cert2 & _ & _ & H); try reflexivity; try (intros ?; reflexivity);
    try exact (toy_sha2 _); try exact (toy_signs _); try exact (toy_publishes _); try exact bump_ok; try exact skip_ok; try exact (toy_conforms _); try exact (toy_accepts _).
  { split; [reflexivity|vm_compute; reflexivity]. }
  { right. left. reflexivity. }
  { split; vm_compute; discriminate. }
  clearbody s1 s2. exists n. intros fuel Hf.
  destruct (H fuel (repeat x00 128) (repeat x00 128) (repeat x00 2000) (repeat x00 128) (repeat x00 128) (repeat x00 2000) Hf) as (u & _ & Hu & HR);
    [vm_compute; reflexivity..|].
  rewrite (Hu eq_refl) in HR. etransitivity; [exact HR|].
  apply (f_equal (fun x => Ret ([], heap_of issue_table, negb x))).
  change (signature_bytes (toy none_fails) (Ed25519 s2) signed) with (be_bytes 32 (be_val signed) ++ be_bytes 32 (be_val s2)).
  change (public_bytes (toy none_fails) (Ed25519 s1)) with (be_bytes 32 (be_val s1)).
  assert (HV : toy_verify (signature_algorithm (Ed25519 s1)) (key_algorithm (Ed25519 s1)) (bits_of_bytes (be_bytes 32 (be_val s1))) signed
                 (bits_of_bytes (be_bytes 32 (be_val signed) ++ be_bytes 32 (be_val s2))) =
               same_bits (bits_of_bytes (be_bytes 32 (be_val signed) ++ be_bytes 32 (be_val s2))) (bits_of_bytes (be_bytes 32 (be_val signed) ++ be_bytes 32 (be_val s1)))).
  { unfold toy_verify. rewrite pack_bits_of_bytes. reflexivity. }
  etransitivity; [exact HV|]. unfold same_bits.
  destruct (list_eq_dec bool_dec _ _) as [e|e]; symmetry; [apply N.eqb_eq|apply N.eqb_neq].
  - apply (f_equal pack_bits) in e. rewrite !pack_bits_of_bytes in e. apply app_inv_head in e. apply (f_equal be_val) in e. now rewrite !be_val_be_bytes in e.
  - intro H0. apply e. do 2 f_equal. change 32 with (N.of_nat 32) in H0. rewrite <- !be_val_be_bytes in H0.
    apply be_val_inj in H0; [now symmetry|now rewrite !length_be_bytes].
Qed.
(** With keys on a curve: two keys, and the same one twice. *)
Example C66_curve_case :
  let cert p := cert_under (toy none_fails) p (test_fields (EC P256 1) true (public_bytes (toy none_fails) (EC P256 1))) in
  agrees toy_pki (toy none_fails) (EC P256 1) (EC P256 2) (cert (EC P256 1)) (cert (EC P256 2)) /\
  ~ agrees toy_pki (toy none_fails) (EC P256 1) (EC P256 1) (cert (EC P256 1)) (cert (EC P256 1)).
Proof.
  intro cert.
  assert (H : forall p, (exists d, p = EC P256 d) -> forall signed, cert_signed_part (cert (EC P256 1)) = Some signed -> cert_signed_part (cert p) = Some signed ->
    read_cert (cert p) = Some (CertFields (test_fields (EC P256 1) true (public_bytes (toy none_fails) (EC P256 1))) (test_sig_alg (EC P256 1)) (bits_of_bytes (signature_bytes (toy none_fails) p signed))) ->
    read_cert (cert (EC P256 1)) = Some (CertFields (test_fields (EC P256 1) true (public_bytes (toy none_fails) (EC P256 1))) (test_sig_alg (EC P256 1)) (bits_of_bytes (signature_bytes (toy none_fails) (EC P256 1) signed))) ->
    (agrees toy_pki (toy none_fails) (EC P256 1) p (cert (EC P256 1)) (cert p) <->
     toy_verify (signature_algorithm (EC P256 1)) (key_algorithm (EC P256 1)) (bits_of_bytes (public_bytes (toy none_fails) (EC P256 1))) signed (bits_of_bytes (signature_bytes (toy none_fails) p signed)) = false)).
  { intros p [d ->] signed S1 S2 R2 R1.
    apply (agrees_iff (toy none_fails) toy_pki toy_verify no_other today (fun k => k) (EC P256 1) (EC P256 d) true _ _ signed (toy_conforms _) (toy_accepts _)); try assumption; [|reflexivity].
    split; vm_compute; discriminate. }
  set (row := nth 2 cert_test_values (mkParams 0 (mkAlg None pv_none) (mkAlg None pv_none) true)).
  assert (Hin : In row cert_test_values) by (apply nth_In; vm_compute; lia).
  pose proof (test_template_fields env64 row (EC P256 1) (public_bytes (toy none_fails) (EC P256 1)) Hin eq_refl) as Hf.
  change (cp_has_path_length row) with true in Hf.
  set (f := test_fields (EC P256 1) true (public_bytes (toy none_fails) (EC P256 1))) in *. set (signed := enc_tlv (tlv_tbs f)).
  assert (R : forall p, cert_signed_part (cert p) = Some signed /\
    read_cert (cert p) = Some (CertFields f (test_sig_alg (EC P256 1)) (bits_of_bytes (signature_bytes (toy none_fails) p signed)))).
  { intro p. pose proof (@SZ_lo env64) as HSZ. pose proof (test_size (toy none_fails) (EC P256 1) p true (toy_signs _) (toy_publishes _)) as HL. fold f in HL.
    pose proof (cert_under_reads env64 (toy none_fails) p (cert_template row) (test_values true) (public_bytes (toy none_fails) (EC P256 1)) (test_template_ok env64 row Hin)) as HR.
    cbv zeta in HR. rewrite Hf in HR. apply HR. lia. }
  split.
  - apply (H (EC P256 2) (ex_intro _ 2 eq_refl) signed); try apply R; vm_compute; reflexivity.
  - rewrite (H (EC P256 1) (ex_intro _ 1 eq_refl) signed) by apply R. rewrite (toy_accepts none_fails (EC P256 1) signed). discriminate.
Qed.
