(** Property C42, failing calls: the exact outcome of the BoringSSL back end for every set of failing BoringSSL calls. The contracts in PropBssl.v
    allow an error when some call fails; here every failing call that is reached must be reported, with its error, and in its place. *)
From Coq Require Import List NArith ZArith Bool Strings.Byte Lia.
From Coq Require Import ZifyBool ZifyNat ZifyN.
From Verif Require Import Base BaseFacts Res SpecSha2 ShaFacts Crypto SpecMac SpecCrypto CryptoProofs.
From Verif Require Import Bssl SpecBssl BsslProofs PropBssl.
Import ListNotations.
Open Scope N_scope.

(** ** The error tables of SpecCrypto.v and SpecBssl.v with rows for the calls that can fail *)
Definition digest_rows (B : Bssl) ctx alg ms count out size : list (bool * error) :=
  [ (negb ctx, invalid_context_e);
    (is_none (algorithm alg), unknown_algorithm_e);
    (is_none size, unexpected_null_size_e);
    (too_small out size (required alg), insufficient_buffer_size_e);
    (is_none ms, unexpected_null_data_e);
    (head_null_list ms, unexpected_null_list_e);
    (fails c_digest_init, no_resources_e);
    (has_missing ms count, unexpected_null_slice_e) ].
Definition hmac_rows (B : Bssl) ctx alg key m out size : list (bool * error) :=
  [ (negb ctx, invalid_context_e);
    (is_none size, unexpected_null_size_e);
    (fails c_hmac_ctx_new, no_resources_e);
    (is_none (algorithm alg), unknown_algorithm_e);
    (missing key, unexpected_null_slice_key_e);
    (too_small out size (required alg), insufficient_buffer_size_e);
    (is_none m, unexpected_null_data_e);
    (head_null_list (one m), unexpected_null_list_e);
    (fails c_hmac_init, no_resources_e);
    (has_missing (one m) 1, unexpected_null_slice_e);
    (fails c_hmac_final, implementation_specific_e) ].
Definition extract_rows (B : Bssl) ctx alg ikm salt out size : list (bool * error) :=
  extract_errors ctx alg ikm salt out size ++ [(fails c_hkdf_extract, implementation_specific_e)].
(** Nothing is called if no output is asked for. *)
Definition expand_rows (B : Bssl) ctx alg prk info L out : list (bool * error) :=
  expand_errors ctx alg prk info L out ++ [(negb (L =? 0) && fails c_hkdf_expand || too_long alg L, implementation_specific_e)].
Definition hkdf_rows (B : Bssl) ctx alg ikm salt info L out : list (bool * error) :=
  hkdf_errors ctx alg ikm salt info L out ++ [(fails c_hkdf || too_long alg L, implementation_specific_e)].

Theorem C42_digest_failures_exact : forall (E : Env) (B : Bssl) ctx alg ms count out size,
  computes_sha2 B -> fails c_md_ctx_new = false -> bssl_digest_pre ms count out size ->
  n20_crypto_boringssl_digest ctx alg ms count out size =
    Ret (report (digest_rows B ctx alg ms count out size) (required alg) (result alg (fun A => hash A (message_bytes ms count))) out size).
Proof.
  intros E B ctx alg ms count out size Hc Hn (Ho & Hm). unfold n20_crypto_boringssl_digest, digest_rows, report, result.
  rewrite md_known, bssl_size, Hn. destruct ctx; cbn [negb]; [|reflexivity].
  unfold required. destruct (algorithm alg) as [A|] eqn:EA; cbn [is_none negb]; [|reflexivity].
  destruct (Hc _ _ EA) as (Hh & _). pose proof (algorithm_known _ _ EA) as HA.
  destruct size as [size|]; [|reflexivity]. unfold too_small. rewrite null_is_none, orb_comm. cbn [is_none].
  destruct out as [d|]; [|reflexivity]. cbn [is_none orb out_ok] in *. destruct (N.ltb_spec size (out_bytes A)) as [|Hs]; [reflexivity|].
  destruct ms as [[|g more]|]; [contradiction| |reflexivity]. destruct Hm as (Hk & Hg).
  cbn [get nth_error N.to_nat bind is_none head_null_list]. rewrite null_is_none. change (negb (g_count g =? 0) && is_none (g_list g)) with (null_list g).
  destruct (null_list g); [reflexivity|]. destruct (fails c_digest_init); [reflexivity|].
  pose proof (bssl_lists_ok (g :: more) (N.to_nat count) 0 []) as P. rewrite N2Nat.id, dropN_0 in P.
  destruct (P ltac:(lia) Hg) as (acc & E1 & A1). rewrite E1. cbn [bind has_missing].
  destruct (existsb missing (flat_map slices (takeN count (g :: more)))) eqn:Em; [reflexivity|].
  rewrite (A1 eq_refl), Hh. cbn [app first_error find fst].
  change (flat_map gather_bytes (takeN count (g :: more))) with (message_bytes (Some (g :: more)) count).
  assert (Hl := known_len A (message_bytes (Some (g :: more)) count) HA). rewrite store_ok by lia. cbn [bind]. now rewrite Hl.
Qed.
Print Assumptions C42_digest_failures_exact.

Theorem C42_hmac_failures_exact : forall (E : Env) (B : Bssl) ctx alg key m out size, computes_sha2 B -> bssl_hmac_pre key m out size ->
  n20_crypto_boringssl_hmac ctx alg key m out size =
    Ret (report (hmac_rows B ctx alg key m out size) (required alg)
           (result alg (fun A => HMAC A (slice_bytes key) (message_bytes (one m) 1))) out size).
Proof.
  intros E B ctx alg key m out size Hc (Hk & Ho & Hm). unfold n20_crypto_boringssl_hmac, hmac_rows, report, result.
  rewrite md_known, bssl_size, bssl_null. destruct ctx; cbn [negb]; [|reflexivity].
  destruct size as [size|]; [|reflexivity]. cbn [is_none]. destruct (fails c_hmac_ctx_new); [reflexivity|].
  unfold required. destruct (algorithm alg) as [A|] eqn:EA; cbn [is_none negb]; [|reflexivity].
  destruct (Hc _ _ EA) as (_ & Hh & _). pose proof (algorithm_known _ _ EA) as HA.
  destruct (missing key) eqn:Emk; [reflexivity|].
  unfold too_small. rewrite null_is_none, orb_comm.
  destruct out as [d|]; [|reflexivity]. cbn [is_none orb out_ok] in *. destruct (N.ltb_spec size (out_bytes A)) as [|Hs]; [reflexivity|].
  destruct m as [g|]; [|reflexivity]. cbn [is_none one head_null_list]. rewrite null_is_none.
  change (negb (g_count g =? 0) && is_none (g_list g)) with (null_list g). destruct (null_list g) eqn:En; [reflexivity|].
  rewrite input_ok by assumption. cbn [bind]. destruct (fails c_hmac_init); [reflexivity|].
  assert (One : exists acc, match g_list g with
                            | Some l => bssl_slices never (N.to_nat (g_count g)) 0 l []
                            | None => Ret (ok_e, [])
                            end = Ret (if existsb missing (slices g) then unexpected_null_slice_e else ok_e, acc) /\
                            (existsb missing (slices g) = false -> acc = gather_bytes g)).
  { destruct (g_list g) as [l|] eqn:El.
    - exact (one_list never g l [] (fun _ => eq_refl) El Hm).
    - unfold gather_bytes. rewrite slices_null by assumption. exists []. split; reflexivity. }
  destruct One as (acc & E1 & A1). rewrite E1. cbn [bind]. unfold has_missing. change (takeN 1 [g]) with [g]. cbn [flat_map]. rewrite app_nil_r.
  destruct (existsb missing (slices g)) eqn:Em; [reflexivity|]. destruct (fails c_hmac_final); [reflexivity|].
  rewrite (A1 eq_refl), Hh, bytes_one. cbn [first_error find fst].
  assert (Hl := HMAC_len A (slice_bytes key) (gather_bytes g) HA). rewrite store_ok by lia. cbn [bind]. now rewrite Hl.
Qed.
Print Assumptions C42_hmac_failures_exact.

Theorem C42_extract_failures_exact : forall (E : Env) (B : Bssl) ctx alg ikm salt out size, computes_sha2 B -> bssl_extract_pre ikm salt out size ->
  n20_crypto_boringssl_hkdf_extract ctx alg ikm salt out size =
    Ret (report (extract_rows B ctx alg ikm salt out size) (required alg)
           (result alg (fun A => HKDF_extract A (slice_bytes salt) (slice_bytes ikm))) out size).
Proof.
  intros E B ctx alg ikm salt out size Hc (Hi & Hs & Ho).
  unfold n20_crypto_boringssl_hkdf_extract, extract_rows, extract_errors, report, result.
  rewrite md_known, bssl_size, !bssl_null. destruct ctx; cbn [negb app]; [|reflexivity].
  unfold required. destruct (algorithm alg) as [A|] eqn:EA; cbn [is_none negb]; [|reflexivity].
  destruct (Hc _ _ EA) as (_ & _ & Hh & _). pose proof (algorithm_known _ _ EA) as HA.
  destruct (missing ikm) eqn:Emi; [reflexivity|]. destruct (missing salt) eqn:Ems; [reflexivity|].
  destruct size as [size|]; [|reflexivity]. unfold too_small. rewrite null_is_none, orb_comm. cbn [is_none].
  destruct out as [d|]; [|reflexivity]. cbn [is_none orb out_ok] in *. destruct (N.ltb_spec size (out_bytes A)) as [|Hz]; [reflexivity|].
  rewrite !input_ok by assumption. cbn [bind]. destruct (fails c_hkdf_extract); [reflexivity|]. cbn [first_error find fst]. rewrite Hh.
  assert (Hl : len (HKDF_extract A (slice_bytes salt) (slice_bytes ikm)) = out_bytes A) by (apply HMAC_len; assumption).
  rewrite store_ok by lia. cbn [bind]. now rewrite Hl.
Qed.
Print Assumptions C42_extract_failures_exact.

Theorem C42_expand_failures_exact : forall (E : Env) (B : Bssl) ctx alg prk info L out, computes_sha2 B -> bssl_expand_pre prk info L out ->
  n20_crypto_boringssl_hkdf_expand ctx alg prk info L out =
    Ret (report_key (expand_rows B ctx alg prk info L out) L
           (result alg (fun A => HKDF_expand A (slice_bytes prk) (slice_bytes info) L)) out).
Proof.
  intros E B ctx alg prk info n out Hc (Hp & Hi & Hn & Ho).
  unfold n20_crypto_boringssl_hkdf_expand, expand_rows, expand_errors, report_key, report, result, too_long.
  rewrite md_known, !bssl_null. destruct ctx; cbn [negb app]; [|reflexivity].
  unfold required. destruct (algorithm alg) as [A|] eqn:EA; cbn [is_none negb]; [|reflexivity].
  destruct (Hc _ _ EA) as (_ & _ & _ & Hh). pose proof (algorithm_known _ _ EA) as HA. pose proof (known_out A HA) as Hout.
  destruct (missing prk) eqn:Emp; [reflexivity|]. destruct (missing info) eqn:Emi; [reflexivity|].
  destruct (N.eqb_spec n 0) as [->|Hz].
  - cbn [negb andb orb]. rewrite andb_false_r. destruct (N.ltb_spec (255 * out_bytes A) 0); [lia|]. cbn [first_error find fst].
    destruct out as [d|]; [|reflexivity]. rewrite dropN_0. pose proof (HKDF_expand_len A (slice_bytes prk) (slice_bytes info) 0 HA) as Hl.
    now rewrite (len_0 _ Hl).
  - rewrite null_is_none. destruct out as [d|]; [|reflexivity]. cbn [is_none andb negb].
    rewrite !input_ok by assumption. cbn [bind]. destruct (fails c_hkdf_expand); [reflexivity|]. cbn [orb]. rewrite Hh.
    destruct (N.leb_spec n (255 * out_bytes A)); destruct (N.ltb_spec (255 * out_bytes A) n); try lia; [|reflexivity].
    pose proof (HKDF_expand_len A (slice_bytes prk) (slice_bytes info) n HA) as Hl.
    rewrite store_ok by lia. cbn [bind first_error find fst]. now rewrite Hl.
Qed.
Print Assumptions C42_expand_failures_exact.

Theorem C42_hkdf_failures_exact : forall (E : Env) (B : Bssl) ctx alg ikm salt info L out, computes_sha2 B -> bssl_hkdf_pre ikm salt info L out ->
  n20_crypto_boringssl_hkdf ctx alg ikm salt info L out =
    Ret (report_key (hkdf_rows B ctx alg ikm salt info L out) L
           (result alg (fun A => HKDF A (slice_bytes salt) (slice_bytes ikm) (slice_bytes info) L)) out).
Proof.
  intros E B ctx alg ikm salt info n out Hc (Hk & Hs & Hi & Hn & Ho).
  unfold n20_crypto_boringssl_hkdf, hkdf_rows, hkdf_errors, report_key, report, result, too_long.
  rewrite md_known, !bssl_null. destruct ctx; cbn [negb app]; [|reflexivity].
  unfold required. destruct (algorithm alg) as [A|] eqn:EA; cbn [is_none negb]; [|reflexivity].
  destruct (Hc _ _ EA) as (_ & _ & Hx & Hh). pose proof (algorithm_known _ _ EA) as HA. pose proof (known_out A HA) as Hout.
  destruct (missing ikm) eqn:Emk; [reflexivity|]. destruct (missing salt) eqn:Ems; [reflexivity|]. destruct (missing info) eqn:Emi; [reflexivity|].
  rewrite null_is_none, andb_comm. destruct (is_none out && negb (n =? 0)) eqn:Eo; [reflexivity|].
  rewrite !input_ok by assumption. cbn [bind]. destruct (fails c_hkdf); [reflexivity|]. cbn [orb]. rewrite Hx, Hh.
  pose proof (HKDF_expand_len A (HKDF_extract A (slice_bytes salt) (slice_bytes ikm)) (slice_bytes info) n HA) as Hl.
  destruct (N.leb_spec n (255 * out_bytes A)); destruct (N.ltb_spec (255 * out_bytes A) n); try lia; [|reflexivity].
  cbn [first_error find fst]. unfold HKDF. destruct out as [d|].
  - rewrite store_ok by lia. cbn [bind]. now rewrite Hl.
  - cbn [is_none andb] in Eo. destruct (N.eqb_spec n 0) as [->|]; [|discriminate]. now rewrite (len_0 _ Hl).
Qed.
Print Assumptions C42_hkdf_failures_exact.

(** Three of the calls failing, one at a time, with arguments that are otherwise fine. *)
#[local] Instance env64 : Env := {| size_width := W64; host_little_endian := true; stray := fun _ => x00 |}.
Lemma slice_of_ok1 b : slice_ok (slice_of [b]).
Proof. split; vm_compute; congruence. Qed.
Definition only_new (c : call) : bool := match c with c_hmac_ctx_new => true | _ => false end.
Definition only_init (c : call) : bool := match c with c_hmac_init => true | _ => false end.
Definition only_final (c : call) : bool := match c with c_hmac_final => true | _ => false end.
Example C42_failures_exact_case :
  let out := Some (repeat x00 32) in let m := Some (mkGather 1 (Some [slice_of [x61]])) in
  let run f := @n20_crypto_boringssl_hmac (toy f) true 1 (slice_of [x6b]) m out (Some 32) in
  bssl_hmac_pre (slice_of [x6b]) m out (Some 32) /\
  run only_new = Ret (no_resources_e, out, Some 32) /\ run only_init = Ret (no_resources_e, out, Some 32) /\
  run only_final = Ret (implementation_specific_e, out, Some 32).
Proof.
  cbv zeta. split; [|split; [|split]]; [|vm_compute; reflexivity..].
  unfold bssl_hmac_pre, bssl_gather_ok. split; [exact (slice_of_ok1 _)|]. split; [vm_compute; congruence|].
  left. split; [vm_compute; congruence|]. change (slices _) with [slice_of [x61]]. constructor; [exact (slice_of_ok1 _)|constructor].
Qed.
