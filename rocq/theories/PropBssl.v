(** Properties C42-C44: the BoringSSL back end (src/crypto/crypto_boringssl.cpp): digest, HMAC, HKDF, signature format and RFC 6979. *)
From Coq Require Import List NArith ZArith Bool Strings.Byte Lia.
From Coq Require Import ZifyBool ZifyNat ZifyN.
From Verif Require Import Base BaseFacts Res SpecDigits DigitsFacts SpecDer SpecSha2 ShaFacts Crypto SpecMac SpecCrypto CryptoProofs PropCrypto.
From Verif Require Import Bssl BsslKeys SpecBssl BsslProofs Rfc6979Proofs KeyProofs.
Import ListNotations.
Open Scope N_scope.

(** ** A concrete BoringSSL, for the examples *)

(** SHA-2, HMAC and HKDF are the real ones, and so are the orders of the curves. Signatures and public keys have the right form only. *)
Definition order256 : N := 0xFFFFFFFF00000000FFFFFFFFFFFFFFFFBCE6FAADA7179E84F3B9CAC2FC632551.
Definition order384 : N := 0xFFFFFFFFFFFFFFFFFFFFFFFFFFFFFFFFFFFFFFFFFFFFFFFFC7634D81F4372DDF581A0DB248B0A77AECEC196ACCC52973.
Definition toy (f : call -> bool) : Bssl := {|
  fails := f;
  evp_digest alg m := result alg (fun A => hash A m);
  bssl_hmac alg k m := result alg (fun A => HMAC A k m);
  bssl_hkdf_extract alg s i := result alg (fun A => HKDF_extract A s i);
  bssl_hkdf_expand alg p i L :=
    match algorithm alg with Some A => if L <=? 255 * out_bytes A then Some (HKDF_expand A p i L) else None | None => None end;
  ed25519_public seed := be_bytes 32 (be_val seed);
  ed25519_sign seed m := be_bytes 32 (be_val m) ++ be_bytes 32 (be_val seed);
  curve_order c := match c with P256 => order256 | P384 => order384 end;
  ec_public c d := x04 :: be_bytes (N.to_nat (coordinate c)) (d mod 256 ^ coordinate c) ++ be_bytes (N.to_nat (coordinate c)) 1;
  ecdsa_sign c d alg m := ecdsa_der (be_val m mod 256 ^ coordinate c) (d mod 256 ^ coordinate c) |}.
Definition none_fails (_ : call) : bool := false.
Lemma toy_sha2 f : computes_sha2 (toy f).
Proof.
  intros alg A HA. unfold toy, evp_digest, bssl_hmac, bssl_hkdf_extract, bssl_hkdf_expand, result. rewrite HA. splits; reflexivity.
Qed.
Lemma coordinate_pos c : 256 ^ coordinate c <> 0.
Proof. apply N.pow_nonzero. discriminate. Qed.
Lemma toy_signs f : signs (toy f).
Proof.
  split.
  - intros seed m. unfold toy, ed25519_sign. rewrite len_app, !len_be_bytes. reflexivity.
  - intros c d alg m. exists (be_val m mod 256 ^ coordinate c), (d mod 256 ^ coordinate c).
    splits; try reflexivity; apply N.mod_lt, coordinate_pos.
Qed.
Lemma toy_publishes f : publishes (toy f).
Proof.
  split.
  - intro seed. unfold toy, ed25519_public. now rewrite len_be_bytes.
  - intros c d. exists (d mod 256 ^ coordinate c), 1. splits; try reflexivity.
    + apply N.mod_lt, coordinate_pos.
    + unfold in_field. now destruct c.
Qed.

(** ** C42 *)

(** The contract of include/nat20/crypto.h with any failures of BoringSSL calls: the documented outcome, or a resource or implementation
    specific error that leaves buffer and size alone. [bssl_digest_pre] also allows NULL lists behind the first. *)
Theorem C42_digest_contract : forall (E : Env) (B : Bssl) ctx alg ms count out size,
  computes_sha2 B -> fails c_md_ctx_new = false -> bssl_digest_pre ms count out size ->
  n20_crypto_boringssl_digest ctx alg ms count out size = Ret (digest_report ctx alg ms count out size) \/
  exists e, resource_error B e /\ n20_crypto_boringssl_digest ctx alg ms count out size = Ret (e, out, size).
Proof.
  intros E B ctx alg ms count out size Hc Hn Hp. destruct (digest_failing B ctx alg ms count out size Hn) as [->|H]; [left|right; exact H].
  exact (@bssl_digest_ok E (reliable B) ctx alg ms count out size (reliable_ok B) Hc Hp).
Qed.
Print Assumptions C42_digest_contract.
Theorem C42_hmac_contract : forall (E : Env) (B : Bssl) ctx alg key m out size, computes_sha2 B -> bssl_hmac_pre key m out size ->
  n20_crypto_boringssl_hmac ctx alg key m out size = Ret (bssl_hmac_report ctx alg key m out size) \/
  exists e, resource_error B e /\ n20_crypto_boringssl_hmac ctx alg key m out size = Ret (e, out, size).
Proof.
  intros E B ctx alg key m out size Hc Hp. destruct (hmac_failing B ctx alg key m out size) as [->|H]; [left|right; exact H].
  exact (@bssl_hmac_ok E (reliable B) ctx alg key m out size (reliable_ok B) Hc Hp).
Qed.
Print Assumptions C42_hmac_contract.
Theorem C42_extract_contract : forall (E : Env) (B : Bssl) ctx alg ikm salt out size, computes_sha2 B -> bssl_extract_pre ikm salt out size ->
  n20_crypto_boringssl_hkdf_extract ctx alg ikm salt out size = Ret (extract_report ctx alg ikm salt out size) \/
  exists e, resource_error B e /\ n20_crypto_boringssl_hkdf_extract ctx alg ikm salt out size = Ret (e, out, size).
Proof.
  intros E B ctx alg ikm salt out size Hc Hp. destruct (extract_failing B ctx alg ikm salt out size) as [->|H]; [left|right; exact H].
  exact (@bssl_extract_ok E (reliable B) ctx alg ikm salt out size (reliable_ok B) Hc Hp).
Qed.
Print Assumptions C42_extract_contract.
Theorem C42_expand_contract : forall (E : Env) (B : Bssl) ctx alg prk info L out, computes_sha2 B -> bssl_expand_pre prk info L out ->
  n20_crypto_boringssl_hkdf_expand ctx alg prk info L out = Ret (bssl_expand_report ctx alg prk info L out) \/
  exists e, resource_error B e /\ n20_crypto_boringssl_hkdf_expand ctx alg prk info L out = Ret (e, out).
Proof.
  intros E B ctx alg prk info L out Hc Hp. destruct (expand_failing B ctx alg prk info L out) as [->|H]; [left|right; exact H].
  exact (@bssl_expand_ok E (reliable B) ctx alg prk info L out (reliable_ok B) Hc Hp).
Qed.
Print Assumptions C42_expand_contract.
Theorem C42_hkdf_contract : forall (E : Env) (B : Bssl) ctx alg ikm salt info L out, computes_sha2 B -> bssl_hkdf_pre ikm salt info L out ->
  n20_crypto_boringssl_hkdf ctx alg ikm salt info L out = Ret (bssl_hkdf_report ctx alg ikm salt info L out) \/
  exists e, resource_error B e /\ n20_crypto_boringssl_hkdf ctx alg ikm salt info L out = Ret (e, out).
Proof.
  intros E B ctx alg ikm salt info L out Hc Hp. destruct (hkdf_failing B ctx alg ikm salt info L out) as [->|H]; [left|right; exact H].
  exact (@bssl_hkdf_ok E (reliable B) ctx alg ikm salt info L out (reliable_ok B) Hc Hp).
Qed.
Print Assumptions C42_hkdf_contract.

(** The result of EVP_MD_CTX_new is used without a check: if it runs out of memory, digest dereferences NULL, for every well-formed call. *)
Theorem C42_digest_allocation_refuted : forall (E : Env) (B : Bssl) alg A g more count d size, fails c_md_ctx_new = true ->
  algorithm alg = Some A -> out_bytes A <= size -> null_list g = false ->
  n20_crypto_boringssl_digest true alg (Some (g :: more)) count (Some d) (Some size) = Undef UBNullDeref.
Proof.
  intros E B alg A g more count d size Hf HA Hs Hg. unfold n20_crypto_boringssl_digest. cbn [negb].
  rewrite md_known, bssl_size, HA, Hf. cbn [is_none negb]. unfold required. rewrite HA.
  destruct (N.ltb_spec size (out_bytes A)); [lia|]. cbn [orb null]. change (get (g :: more) 0) with (Ret g). cbn [bind].
  rewrite null_is_none. change (negb (g_count g =? 0) && is_none (g_list g)) with (null_list g). now rewrite Hg.
Qed.
Print Assumptions C42_digest_allocation_refuted.

(** Agreement of the two back ends, with the same arguments and no failing BoringSSL call. *)
Lemma digest_pre_bssl (E : Env) ms count out size : digest_pre ms count out size -> bssl_digest_pre ms count out size.
Proof.
  intros (Ho & Hm & _). split; [assumption|]. destruct ms as [[|g more]|]; [assumption| |exact I]. destruct Hm as (Hc & Hg & Hr).
  split; [assumption|]. destruct (N.eq_dec count 0) as [->|Hn]; [rewrite takeN_0; constructor|].
  change (g :: more) with ([g] ++ more). rewrite takeN_app_r by (change (len [g]) with 1; lia). change (len [g]) with 1. cbn [app]. constructor; [exact Hg|].
  eapply Forall_impl; [|exact Hr]. intros x Hx. now left.
Qed.
Theorem C42_digest_agrees : forall (E : Env) (M : Libc) (B : Bssl) alg ms count out size, no_failure B -> computes_sha2 B ->
  digest_pre ms count out size -> n20_crypto_boringssl_digest true alg ms count out size = the_digest alg ms count out size.
Proof.
  intros E M B alg ms count out size Hf Hc Hp. rewrite the_digest_meets by assumption.
  exact (bssl_digest_ok true alg ms count out size Hf Hc (digest_pre_bssl E ms count out size Hp)).
Qed.
Print Assumptions C42_digest_agrees.

(** HMAC: they differ exactly if both the algorithm is unknown and the size missing. *)
Theorem C42_hmac_agrees_iff : forall (E : Env) (M : Libc) (B : Bssl) alg key m out size, no_failure B -> computes_sha2 B ->
  hmac_pre key m out size ->
  (n20_crypto_boringssl_hmac true alg key m out size = the_hmac alg key m out size <-> ~ (algorithm alg = None /\ size = None)).
Proof.
  intros E M B alg key m out size Hf Hc Hp. rewrite the_hmac_meets by assumption.
  assert (Hb : bssl_hmac_pre key m out size) by (destruct Hp as ((Hk & _) & Ho & Hm & _); now splits).
  rewrite (bssl_hmac_ok true alg key m out size Hf Hc Hb).
  unfold bssl_hmac_report, hmac_report, bssl_hmac_errors, hmac_errors, report, first_error. cbn [negb find fst].
  destruct size as [size|]; cbn [is_none].
  - split; [intros _ [_ H]; discriminate|]. intros _. destruct (algorithm alg); reflexivity.
  - destruct (algorithm alg) as [A|]; cbn [is_none]; split; try reflexivity; try discriminate; try (intros _ [H _]; discriminate).
    intro H. exfalso. apply H. now split.
Qed.
Print Assumptions C42_hmac_agrees_iff.
Theorem C42_extract_agrees : forall (E : Env) (M : Libc) (B : Bssl) alg ikm salt out size, no_failure B -> computes_sha2 B ->
  extract_pre ikm salt out size -> n20_crypto_boringssl_hkdf_extract true alg ikm salt out size = the_extract alg ikm salt out size.
Proof.
  intros E M B alg ikm salt out size Hf Hc Hp. rewrite the_extract_meets by assumption.
  assert (Hb : bssl_extract_pre ikm salt out size) by (destruct Hp as ((Hk & _) & Hi & _ & Ho); now splits).
  exact (bssl_extract_ok true alg ikm salt out size Hf Hc Hb).
Qed.
Print Assumptions C42_extract_agrees.

(** HKDF: they differ exactly if more than 255 blocks are asked for and nothing else is wrong. *)
Lemma first_error_last l b e : first_error (l ++ [(b, e)]) = match first_error l with ok_e => if find fst l then ok_e else if b then e else ok_e | x => x end.
Proof.
  rewrite first_error_app. unfold first_error. destruct (find fst l) as [[b' e']|]; cbn [find fst]; [now destruct e'|now destruct b].
Qed.
Lemma report_key_inj l1 l2 L r out : first_error l1 = first_error l2 <-> report_key l1 L r out = report_key l2 L r out.
Proof.
  unfold report_key, report. split; [now intros ->|]. intro H. now injection H.
Qed.
Lemma longer l b : Forall (fun p => snd p <> ok_e) l ->
  (first_error l = first_error (l ++ [(b, implementation_specific_e)]) <-> ~ (first_error l = ok_e /\ b = true)).
Proof.
  intro Hl. rewrite first_error_last. unfold first_error. destruct (find fst l) as [[b' e']|] eqn:Ef.
  - destruct (find_some _ _ Ef) as [Hi _]. rewrite Forall_forall in Hl. specialize (Hl _ Hi). cbn in Hl.
    split; [intros _ [H _]; contradiction|]. intros _. now destruct e'.
  - destruct b; split; try discriminate; try reflexivity; try (intros _ [_ H]; discriminate). intro H. exfalso. apply H. now split.
Qed.
Theorem C42_expand_agrees_iff : forall (E : Env) (M : Libc) (B : Bssl) alg prk info L out, no_failure B -> computes_sha2 B ->
  expand_pre prk info L out ->
  (n20_crypto_boringssl_hkdf_expand true alg prk info L out = the_expand alg prk info L out <->
   ~ (first_error (expand_errors true alg prk info L out) = ok_e /\ 255 * required alg < L)).
Proof.
  intros E M B alg prk info L out Hf Hc Hp. rewrite the_expand_meets by assumption.
  assert (Hb : bssl_expand_pre prk info L out) by (destruct Hp as ((Hk & _) & Hi & _ & Ho); now splits).
  rewrite (bssl_expand_ok true alg prk info L out Hf Hc Hb). unfold bssl_expand_report, expand_report, bssl_expand_errors.
  rewrite <- N.ltb_lt. change (255 * required alg <? L) with (too_long alg L).
  rewrite <- longer by (unfold expand_errors; repeat constructor; discriminate). split; intro H.
  - injection H as H _. symmetry. exact H.
  - f_equal. symmetry. now apply report_key_inj.
Qed.
Print Assumptions C42_expand_agrees_iff.
Theorem C42_hkdf_agrees_iff : forall (E : Env) (M : Libc) (B : Bssl) alg ikm salt info L out, no_failure B -> computes_sha2 B ->
  hkdf_pre ikm salt info L out ->
  (n20_crypto_boringssl_hkdf true alg ikm salt info L out = the_hkdf alg ikm salt info L out <->
   ~ (first_error (hkdf_errors true alg ikm salt info L out) = ok_e /\ 255 * required alg < L)).
Proof.
  intros E M B alg ikm salt info L out Hf Hc Hp. rewrite the_hkdf_meets by assumption.
  assert (Hb : bssl_hkdf_pre ikm salt info L out) by (destruct Hp as ((Hk & _) & Hi & _ & Hn & _ & Ho); now splits).
  rewrite (bssl_hkdf_ok true alg ikm salt info L out Hf Hc Hb). unfold bssl_hkdf_report, hkdf_report, bssl_hkdf_errors.
  rewrite <- N.ltb_lt. change (255 * required alg <? L) with (too_long alg L).
  rewrite <- longer by (unfold hkdf_errors; repeat constructor; discriminate). split; intro H.
  - injection H as H _. symmetry. exact H.
  - f_equal. symmetry. now apply report_key_inj.
Qed.
Print Assumptions C42_hkdf_agrees_iff.

(** Digest, outside [digest_pre]: a NULL list behind the first is skipped here, while the nat20 back end dereferences it. *)
Theorem C42_later_null_list_differs : forall (E : Env) (M : Libc) (B : Bssl) alg A before g after d size, no_failure B -> computes_sha2 B ->
  algorithm alg = Some A -> out_bytes A <= size <= len d -> before <> [] -> Forall gather_ok (before ++ after) ->
  existsb missing (flat_map slices (before ++ after)) = false -> null_list g = true ->
  let ms := before ++ g :: after in
  n20_crypto_boringssl_digest true alg (Some ms) (len ms) (Some d) (Some size) =
    Ret (ok_e, Some (hash A (flat_map gather_bytes (before ++ after)) ++ dropN (out_bytes A) d), Some (out_bytes A)) /\
  the_digest alg (Some ms) (len ms) (Some d) (Some size) = Undef UBNullDeref.
Proof.
  intros E M B alg A before g after d size Hf Hc HA Hs Hne Hok Hm Hg ms.
  assert (Hgl : g_list g = None) by (unfold null_list in Hg; destruct (g_list g); [now rewrite andb_false_r in Hg|reflexivity]).
  assert (Hsl : slices g = []) by (unfold slices; now rewrite Hgl).
  apply Forall_app in Hok. destruct Hok as [Hb Ha]. rewrite flat_map_app, existsb_app in Hm. apply orb_false_elim in Hm. destruct Hm as [Hm1 Hm2].
  split.
  - rewrite (bssl_digest_ok true alg (Some ms) (len ms) (Some d) (Some size) Hf Hc); cycle 1.
    { split; [cbn; lia|]. destruct ms as [|x y] eqn:Em; [destruct before; discriminate|]. rewrite <- Em. split; [lia|]. rewrite takeN_all by lia.
      subst ms. apply Forall_app. split; [|constructor].
      - eapply Forall_impl; [|exact Hb]. now left.
      - now right.
      - eapply Forall_impl; [|exact Ha]. now left. }
    unfold digest_report, report, result, digest_errors, has_missing, message_bytes, required. rewrite HA, takeN_all by lia. cbn [negb is_none].
    replace (head_null_list (Some ms)) with false; cycle 1.
    { subst ms. destruct before as [|g0 before]; [contradiction|]. cbn [app head_null_list]. inversion_clear Hb as [|? ? [Hc0 _] _].
      unfold null_list. unfold slices in Hc0. destruct (g_list g0); [now rewrite andb_false_r|].
      change (len []) with 0 in Hc0. replace (g_count g0) with 0 by lia. reflexivity. }
    unfold too_small. cbn [is_none orb]. destruct (N.ltb_spec size (out_bytes A)); [lia|]. cbn [first_error find fst].
    subst ms. rewrite !flat_map_app. cbn [flat_map]. replace (gather_bytes g) with (@nil byte) by (unfold gather_bytes; now rewrite Hsl). rewrite Hsl. cbn [app]. rewrite existsb_app, Hm1, Hm2. reflexivity.
  - unfold ms. apply (C35_later_null_list_refuted E M alg A); try assumption. rewrite len_app, len_cons. lia.
Qed.
Print Assumptions C42_later_null_list_differs.

#[local] Instance env64 : Env := {| size_width := W64; host_little_endian := true; stray := fun _ => x00 |}.
#[local] Instance libc : Libc := {| memcpy_null_ok := true |}.
#[local] Instance bssl0 : Bssl := toy none_fails.
Lemma bssl0_reliable : no_failure bssl0.
Proof. intro. reflexivity. Qed.

(** The hypotheses hold of the concrete BoringSSL; the two back ends on a message in three lists, and where they differ. *)
Example C42_cases :
  no_failure bssl0 /\ computes_sha2 bssl0 /\ digest_pre (Some split2) 3 (Some (repeat x00 32)) (Some 32) /\
  first_error (digest_errors true sha2_256_e (Some split2) 3 (Some (repeat x00 32)) (Some 32)) = ok_e /\
  n20_crypto_boringssl_hmac true 9 jefe (Some what_cut) (Some (repeat x00 32)) None = Ret (unexpected_null_size_e, Some (repeat x00 32), None) /\
  the_hmac 9 jefe (Some what_cut) (Some (repeat x00 32)) None = Ret (unknown_algorithm_e, Some (repeat x00 32), None) /\
  first_error (expand_errors true sha2_256_e (text [1]) (text [2]) 8161 (Some (repeat x00 8161))) = ok_e /\ 255 * required sha2_256_e < 8161.
Proof.
  split; [exact bssl0_reliable|]. split; [apply toy_sha2|]. split; [apply digest_preb_ok; vm_compute; reflexivity|].
  splits; vm_compute; reflexivity.
Qed.
(** The first difference again: a list that says it has three slices but is NULL, behind a sound one. *)
Example C42_later_case :
  @n20_crypto_boringssl_digest (toy none_fails) true sha2_256_e (Some (split1 ++ [mkGather 3 None])) 2 (Some (repeat x00 32)) (Some 32) =
    Ret (ok_e, Some (hash SHA256 (bytes [1; 2; 3; 4])), Some 32) /\
  the_digest sha2_256_e (Some (split1 ++ [mkGather 3 None])) 2 (Some (repeat x00 32)) (Some 32) = Undef UBNullDeref.
Proof.
  assert (Hg : Forall gather_ok split1).
  { constructor; [|constructor]. apply gather_okb_ok. vm_compute. reflexivity. }
  destruct (C42_later_null_list_differs env64 libc bssl0 sha2_256_e SHA256 split1 (mkGather 3 None) [] (repeat x00 32) 32) as [H1 H2];
    [exact bssl0_reliable|apply toy_sha2|reflexivity|now vm_compute|discriminate|now rewrite app_nil_r|reflexivity|reflexivity|].
  split; [|exact H2]. rewrite app_nil_r in H1. change (flat_map gather_bytes split1) with (bytes [1; 2; 3; 4]) in H1.
  change (dropN (out_bytes SHA256) (repeat x00 32)) with (@nil byte) in H1. rewrite app_nil_r in H1. exact H1.
Qed.
(** A failing call, and the missing check. *)
Example C42_failing :
  resource_error (toy (fun c => match c with c_hmac_init => true | _ => false end)) no_resources_e /\
  @n20_crypto_boringssl_hmac (toy (fun c => match c with c_hmac_init => true | _ => false end)) true sha2_256_e jefe (Some what_cut)
    (Some (repeat x00 32)) (Some 32) = Ret (no_resources_e, Some (repeat x00 32), Some 32) /\
  @n20_crypto_boringssl_digest (toy (fun c => match c with c_md_ctx_new => true | _ => false end)) true sha2_256_e (Some split2) 3
    (Some (repeat x00 32)) (Some 32) = Undef UBNullDeref.
Proof. split; [split; [now left|now exists c_hmac_init]|]. split; vm_compute; reflexivity. Qed.

(** ** C43 *)

(** The conversion of the DER signature: r and s as unsigned big-endian numbers of the size of the field. *)
Theorem C43_unwrap : forall c r s out, in_field c r -> in_field c s -> 2 * coordinate c <= len out ->
  exists R S, unwrap_signature (ecdsa_der r s) out (2 * coordinate c) = Ret (R ++ S ++ dropN (2 * coordinate c) out) /\
    len R = coordinate c /\ len S = coordinate c /\ be_val R = r /\ be_val S = s /\
    len (ecdsa_der r s) <= 104.
Proof.
  intros c r s out Hr Hs Ho. destruct (unwrap_ok c r s out Hr Hs Ho) as [H1 H2].
  exists (be_bytes (N.to_nat (coordinate c)) r), (be_bytes (N.to_nat (coordinate c)) s). rewrite H1, !len_be_bytes, N2Nat.id, !be_val_be_bytes, N2Nat.id.
  unfold raw_signature. rewrite <- app_assoc. rewrite !N.mod_small by assumption. splits; try reflexivity. assumption.
Qed.
Print Assumptions C43_unwrap.

(** The type of a key object for a curve, and the digest used with it. *)
Definition ec_type (c : curve) : N := match c with P256 => key_type_secp256r1_e | P384 => key_type_secp384r1_e end.
Definition ec_digest (c : curve) : N := match c with P256 => sha2_256_e | P384 => sha2_384_e end.
Theorem C43_sign : forall (E : Env) (B : Bssl) h a c d g out size r s, no_failure B ->
  a <> 0 -> find_key h a = Some (mkKey (ec_type c) (Evp (EC c d))) ->
  bssl_gather_ok g -> null_list g = false -> existsb missing (slices g) = false -> 2 * coordinate c <= size <= len out ->
  ecdsa_sign c d (ec_digest c) (gather_bytes g) = ecdsa_der r s -> in_field c r -> in_field c s ->
  exists R S, n20_crypto_boringssl_sign true h a (Some g) (Some out) (Some size) =
      Ret (ok_e, Some (R ++ S ++ dropN (2 * coordinate c) out), Some (2 * coordinate c)) /\
    len R = coordinate c /\ len S = coordinate c /\ be_val R = r /\ be_val S = s.
Proof.
  intros E B h a c d g out size r s Hf Hz Hk Hg Hn Hm Ho Hd Hr Hs.
  destruct (C43_unwrap c r s out Hr Hs ltac:(lia)) as (R & S & U1 & U2 & U3 & U4 & U5 & U6). exists R, S. split; [|now splits].
  unfold n20_crypto_boringssl_sign, load_key. rewrite Hk, !Hf. cbn [negb]. destruct (N.eqb_spec a 0); [contradiction|]. cbn [bind k_type as_evp k_body].
  replace (ec_type c =? key_type_cdi_e) with false by now destruct c.
  replace (sign_params (ec_type c)) with (Some (2 * coordinate c, Some (ec_digest c))) by now destruct c.
  cbv iota. destruct (N.ltb_spec size (2 * coordinate c)); [lia|]. unfold sign_ecdsa. rewrite !Hf.
  rewrite null_is_none. change (negb (g_count g =? 0) && is_none (g_list g)) with (null_list g). rewrite Hn.
  assert (One : exists acc, match g_list g with
                          | Some l => bssl_slices (fun i => fails (c_sign_update i)) (N.to_nat (g_count g)) 0 l []
                          | None => Ret (ok_e, [])
                          end = Ret (ok_e, acc) /\ acc = gather_bytes g).
  { destruct (g_list g) as [l|] eqn:El.
    - destruct (one_list _ g l [] (fun i => Hf (c_sign_update i)) El Hg) as (acc & E1 & A1). rewrite Hm in E1. exists acc. split; [exact E1|now apply A1].
    - unfold gather_bytes. rewrite slices_null by assumption. exists []. split; reflexivity. }
  destruct One as (acc & E1 & ->). rewrite E1. cbn [bind]. rewrite Hd. destruct (N.ltb_spec 104 (len (ecdsa_der r s))); [lia|]. rewrite U1. reflexivity.
Qed.
Print Assumptions C43_sign.

(** r with a leading zero octet (31 octets), s with the top bit set (33 octets in DER). *)
Definition small_r : N := 2 ^ 246 + 5.
Definition big_s : N := 2 ^ 255 + 9.
Example C43_case : in_field P256 small_r /\ in_field P256 big_s /\
  len (ecdsa_der small_r big_s) = 2 + 2 + 31 + 2 + 33 /\
  unwrap_signature (ecdsa_der small_r big_s) (repeat xff 65) 64 =
    Ret (x00 :: be_bytes 31 small_r ++ be_bytes 32 big_s ++ [xff]).
Proof. splits; vm_compute; reflexivity. Qed.
Example C43_sign_case :
  n20_crypto_boringssl_sign true [(1, mkKey 1 (Evp (EC P256 big_s)))] 1 (Some (mkGather 2 (Some [text [7]; text [8]])))
    (Some (repeat xff 65)) (Some 65) =
  Ret (ok_e, Some (be_bytes 32 0x0708 ++ be_bytes 32 big_s ++ [xff]), Some 64).
Proof. vm_compute. reflexivity. Qed.

(** ** C44 *)

(** Whatever the HMAC and digest functions, as long as their outputs have the size of the algorithm: the result is the first suitable
    candidate of RFC 6979 section 3.2. *)
Theorem C44_any_hmac : forall (B : Bssl) fuel x m alg q ds, no_failure B -> 0 < ds ->
  (forall k d, len (bssl_hmac alg k d) = ds) -> (forall d, len (evp_digest alg d) = ds) ->
  digest_enum_to_bssl_evp_md alg = true -> bssl_digest_enum_to_size alg = ds ->
  forall r, rfc6979_k_generation fuel x m alg q = Ret r ->
  exists k, r = inr k /\ is_rfc6979_k (bssl_hmac alg) (N.to_nat ds) q (k_data q x (option_map (evp_digest alg) m)) k.
Proof.
  intros B fuel x m alg q ds Hf Hds Hh Hd H1 H2 r Hr. rewrite (k_generation_ok alg ds q Hf Hds Hh fuel x m H1 H2 Hd) in Hr.
  destruct (first_suitable _ _ _ _ _) as [k|] eqn:Ef; [|discriminate]. injection Hr as <-. exists k. split; [reflexivity|].
  eapply first_suitable_spec. exact Ef.
Qed.
Print Assumptions C44_any_hmac.

(** With SHA-2, and any failing calls: every answer is that value or an error, ... *)
Theorem C44_rfc6979 : forall (B : Bssl) fuel x m alg A q r, computes_sha2 B -> algorithm alg = Some A ->
  rfc6979_k_generation fuel x m alg q = Ret r ->
  (exists k, r = inr k /\ is_rfc6979_k (HMAC A) (N.to_nat (out_bytes A)) q (k_data q x (option_map (hash A) m)) k) \/
  (exists e, r = inl e /\ resource_error B e).
Proof.
  intros B fuel x m alg A q r Hc HA Hr. destruct (k_generation_failing B fuel x m alg q) as [H|(e & He & H)]; rewrite H in Hr.
  - rewrite (k_generation_sha2 (reliable B) fuel x m alg A q (reliable_ok B) Hc HA) in Hr.
    destruct (first_suitable _ _ _ _ _) as [k|] eqn:Ef; [|discriminate]. injection Hr as <-. left. exists k. split; [reflexivity|].
    eapply first_suitable_spec. exact Ef.
  - injection Hr as <-. right. exists e. now split.
Qed.
Print Assumptions C44_rfc6979.
(** ... and if there is such a value, the loop finds it. *)
Theorem C44_found : forall (B : Bssl) x m alg A q k, no_failure B -> computes_sha2 B -> algorithm alg = Some A ->
  is_rfc6979_k (HMAC A) (N.to_nat (out_bytes A)) q (k_data q x (option_map (hash A) m)) k ->
  exists n, forall fuel, (n <= fuel)%nat -> rfc6979_k_generation fuel x m alg q = Ret (inr k).
Proof.
  intros B x m alg A q k Hf Hc HA Hk. destruct (first_suitable_complete _ _ _ _ _ Hk) as [n Hn]. exists n. intros fuel Hl.
  rewrite (k_generation_sha2 B fuel x m alg A q Hf Hc HA). now rewrite Hn.
Qed.
Print Assumptions C44_found.
(** The range, whatever BoringSSL computes and whichever calls fail. *)
Theorem C44_range : forall (B : Bssl) fuel x m alg q k, rfc6979_k_generation fuel x m alg q = Ret (inr k) -> 1 <= k <= q - 1.
Proof.
  intros B fuel x m alg q k Hr. apply k_range in Hr. unfold suitable in Hr. lia.
Qed.
Print Assumptions C44_range.
(** At most one value qualifies. *)
Theorem C44_unique : forall H hlen q data k1 k2, is_rfc6979_k H hlen q data k1 -> is_rfc6979_k H hlen q data k2 -> k1 = k2.
Proof. exact rfc6979_unique. Qed.
Print Assumptions C44_unique.
(** For an order of 0 or 1 the loop never ends. *)
Theorem C44_small_order : forall (B : Bssl) fuel x m alg A q, no_failure B -> computes_sha2 B -> algorithm alg = Some A -> q <= 1 ->
  rfc6979_k_generation fuel x m alg q = OutOfFuel.
Proof.
  intros B fuel x m alg A q Hf Hc HA Hq. rewrite (k_generation_sha2 B fuel x m alg A q Hf Hc HA).
  destruct (first_suitable _ _ _ _ _) as [k|] eqn:Ef; [|reflexivity]. apply first_suitable_spec in Ef.
  destruct Ef as (i & _ & Hk & _). unfold suitable in Hk. lia.
Qed.
Print Assumptions C44_small_order.
(** With the order 1 no candidate is ever in range. *)
Example C44_small_order_case : @rfc6979_k_generation (toy none_fails) 2 [x01] None sha2_256_e 1 = OutOfFuel.
Proof. apply (C44_small_order (toy none_fails) 2 [x01] None sha2_256_e SHA256 1); [intro; reflexivity|apply toy_sha2|reflexivity|lia|exact I..]. Qed.

(** RFC 6979 A.2.5: P-256, SHA-256, message "sample". *)
Definition rfc6979_x : list byte := be_bytes 32 0xC9AFA9D845BA75166B5C215767B1D6934E50C3DB36E89B127B8A622B120F6721.
Definition sample : list byte := bytes [0x73; 0x61; 0x6d; 0x70; 0x6c; 0x65].
Definition rfc6979_k : N := 0xA6E3C57DD01ABE90086538398355DD4C3B17AA873382B0F24D6129493D8AAD60.
Example C44_rfc6979_vector : rfc6979_k_generation 1 rfc6979_x (Some sample) sha2_256_e order256 = Ret (inr rfc6979_k).
Proof.
  rewrite (k_generation_sha2 bssl0 1 rfc6979_x (Some sample) sha2_256_e SHA256 order256 bssl0_reliable (toy_sha2 _) eq_refl).
  with_strategy transparent [hash] vm_compute. reflexivity.
Qed.

(** So this is the only number that qualifies, and it is in the range. *)
Example C44_case : is_rfc6979_k (HMAC SHA256) 32 order256 (k_data order256 rfc6979_x (Some (hash SHA256 sample))) rfc6979_k /\ 1 <= rfc6979_k <= order256 - 1 /\
  no_failure bssl0 /\ (forall d, len (@evp_digest bssl0 sha2_256_e d) = 32) /\ (forall k d, len (@bssl_hmac bssl0 sha2_256_e k d) = 32).
Proof.
  splits; [| | |exact bssl0_reliable| |]; [|vm_compute; discriminate|vm_compute; discriminate| |].
  - destruct (C44_rfc6979 bssl0 1 rfc6979_x (Some sample) sha2_256_e SHA256 order256 _ (toy_sha2 _) eq_refl C44_rfc6979_vector) as [(k & Hk & H)|(e & He & _)]; [|discriminate].
    injection Hk as <-. exact H.
  - intro d. destruct (toy_sha2 none_fails sha2_256_e SHA256 eq_refl) as (H & _). rewrite H. apply (known_len SHA256); exact (algorithm_known sha2_256_e SHA256 eq_refl).
  - intros k d. destruct (toy_sha2 none_fails sha2_256_e SHA256 eq_refl) as (_ & H & _). rewrite H. apply (HMAC_len SHA256); exact (algorithm_known sha2_256_e SHA256 eq_refl).
Qed.
