(** Digest, HMAC and HKDF of the BoringSSL back end meet the contracts of SpecBssl.v; the two back ends compared. *)
From Coq Require Import List NArith ZArith Bool Strings.Byte Lia.
From Coq Require Import ZifyBool ZifyNat ZifyN.
From Verif Require Import Base BaseFacts Res SpecDigits DigitsFacts SpecSha2 ShaFacts Crypto SpecMac SpecCrypto CryptoProofs Bssl BsslKeys SpecBssl.
Import ListNotations.
Open Scope N_scope.

Lemma md_known alg : digest_enum_to_bssl_evp_md alg = negb (is_none (algorithm alg)).
Proof.
  revert alg. refine (alg_cases _ _ _ _ _ _); try reflexivity.
  intros alg Ha. rewrite algorithm_none by assumption. unfold digest_enum_to_bssl_evp_md, sha2_224_e, sha2_256_e, sha2_384_e, sha2_512_e.
  repeat match goal with |- context [alg =? ?k] => destruct (N.eqb_spec alg k); [lia|] end. reflexivity.
Qed.
Lemma bssl_size alg : bssl_digest_enum_to_size alg = required alg.
Proof. exact (enum_size alg). Qed.
Lemma bssl_null s : bssl_null_slice s = missing s.
Proof. unfold bssl_null_slice, missing. now destruct (sl_buf s). Qed.
Lemma null_is_none {A} (p : option A) : null p = is_none p.
Proof. now destruct p. Qed.

(** The same BoringSSL without failures. *)
Definition reliable (B : Bssl) : Bssl :=
  {| fails := fun _ => false; evp_digest := @evp_digest B; bssl_hmac := @bssl_hmac B; bssl_hkdf_extract := @bssl_hkdf_extract B;
     bssl_hkdf_expand := @bssl_hkdf_expand B; ed25519_public := @ed25519_public B; ed25519_sign := @ed25519_sign B;
     curve_order := @curve_order B; ec_public := @ec_public B; ecdsa_sign := @ecdsa_sign B |}.
Lemma reliable_ok B : no_failure (reliable B).
Proof. intro. reflexivity. Qed.

Section Proofs.
Context {E : Env}.

Lemma input_ok s : slice_ok s -> missing s = false -> input s = Ret (slice_bytes s).
Proof.
  intros [_ Hs] Hm. unfold input, missing, slice_bytes in *. destruct (sl_buf s).
  - destruct (N.ltb_spec (len l) (sl_size s)); [lia|reflexivity].
  - cbn [is_none andb] in Hm. destruct (sl_size s =? 0); [reflexivity|discriminate].
Qed.

Lemma bssl_slices_ok upd l : (forall i, upd i = false) -> forall n i acc, i + N.of_nat n <= len l ->
  Forall slice_ok (takeN (N.of_nat n) (dropN i l)) ->
  exists acc', bssl_slices upd n i l acc =
      Ret (if existsb missing (takeN (N.of_nat n) (dropN i l)) then unexpected_null_slice_e else ok_e, acc') /\
    (existsb missing (takeN (N.of_nat n) (dropN i l)) = false ->
     acc' = acc ++ flat_map slice_bytes (takeN (N.of_nat n) (dropN i l))).
Proof.
  intros Hu. induction n; intros i acc Hi Hs.
  - cbn [bssl_slices N.of_nat]. rewrite takeN_0. cbn [existsb flat_map]. exists acc. rewrite app_nil_r. now split.
  - replace (N.of_nat (S n)) with (1 + N.of_nat n) in * by lia. rewrite (take_step l i (N.of_nat n) slice_null) in * by lia.
    inversion_clear Hs as [|? ? Hs1 Hs2]. cbn [bssl_slices existsb flat_map].
    rewrite (get_ok l i slice_null) by lia. cbn [bind]. set (s := nth (N.to_nat i) l slice_null) in *.
    destruct (N.eqb_spec (sl_size s) 0) as [Es|Es].
    + assert (Eb : slice_bytes s = []). { unfold slice_bytes. rewrite Es. destruct (sl_buf s); reflexivity. }
      assert (Em : missing s = false). { unfold missing. rewrite Es. cbn [N.eqb negb]. apply andb_false_r. }
      rewrite Em, Eb. cbn [orb app]. apply IHn; [lia|assumption].
    + destruct (missing s) eqn:Em.
      * replace (null (sl_buf s)) with true. { cbn [orb]. exists acc. split; [reflexivity|discriminate]. }
        unfold missing in Em. now destruct (sl_buf s).
      * replace (null (sl_buf s)) with false.
        -- cbn [orb]. rewrite input_ok by assumption. cbn [bind]. rewrite Hu, app_assoc. apply IHn; [lia|assumption].
        -- unfold missing in Em. destruct (N.eqb_spec (sl_size s) 0); [contradiction|]. now destruct (sl_buf s).
Qed.

(** The slices of one gather list. *)
Lemma one_list upd g l acc : (forall i, upd i = false) -> g_list g = Some l -> bssl_gather_ok g ->
  exists acc', bssl_slices upd (N.to_nat (g_count g)) 0 l acc = Ret (if existsb missing (slices g) then unexpected_null_slice_e else ok_e, acc') /\
    (existsb missing (slices g) = false -> acc' = acc ++ gather_bytes g).
Proof.
  intros Hu Hl [[Hc Hs]|Hn]; [|congruence]. unfold gather_bytes, slices in *. rewrite Hl in *.
  pose proof (bssl_slices_ok upd l Hu (N.to_nat (g_count g)) 0 acc) as P. rewrite N2Nat.id, dropN_0 in P.
  apply P; [|assumption]. rewrite len_takeN in Hc. lia.
Qed.

Lemma slices_null g : g_list g = None -> slices g = [].
Proof. unfold slices. now intros ->. Qed.
Lemma slices_zero g : g_count g = 0 -> slices g = [].
Proof. unfold slices. intros ->. destruct (g_list g); [apply takeN_0|reflexivity]. Qed.

Lemma bssl_lists_ok l : forall n i acc, i + N.of_nat n <= len l -> Forall bssl_gather_ok (takeN (N.of_nat n) (dropN i l)) ->
  exists acc', bssl_lists n i l acc =
      Ret (if existsb missing (flat_map slices (takeN (N.of_nat n) (dropN i l))) then unexpected_null_slice_e else ok_e, acc') /\
    (existsb missing (flat_map slices (takeN (N.of_nat n) (dropN i l))) = false ->
     acc' = acc ++ flat_map gather_bytes (takeN (N.of_nat n) (dropN i l))).
Proof.
  induction n; intros i acc Hi Hs.
  - cbn [bssl_lists N.of_nat]. rewrite takeN_0. cbn [existsb flat_map]. exists acc. rewrite app_nil_r. now split.
  - replace (N.of_nat (S n)) with (1 + N.of_nat n) in * by lia. rewrite (take_step l i (N.of_nat n) (mkGather 0 None)) in * by lia.
    inversion_clear Hs as [|? ? Hs1 Hs2]. cbn [bssl_lists existsb flat_map].
    rewrite (get_ok l i (mkGather 0 None)) by lia. cbn [bind]. set (g := nth (N.to_nat i) l (mkGather 0 None)) in *.
    rewrite existsb_app.
    assert (Empty : slices g = [] -> exists acc', bssl_lists n (i + 1) l acc =
      Ret (if existsb missing (slices g) || existsb missing (flat_map slices (takeN (N.of_nat n) (dropN (i + 1) l))) then unexpected_null_slice_e else ok_e, acc') /\
      (existsb missing (slices g) || existsb missing (flat_map slices (takeN (N.of_nat n) (dropN (i + 1) l))) = false ->
       acc' = acc ++ gather_bytes g ++ flat_map gather_bytes (takeN (N.of_nat n) (dropN (i + 1) l)))).
    { intro Es. unfold gather_bytes at 1. rewrite Es. cbn [existsb orb flat_map app]. apply IHn; [lia|assumption]. }
    destruct (g_list g) as [sl|] eqn:El; [|apply Empty; now apply slices_null].
    destruct (N.eqb_spec (g_count g) 0) as [Ez|Ez]. { apply Empty. now apply slices_zero. }
    destruct (one_list never g sl acc (fun _ => eq_refl) El Hs1) as (acc1 & E1 & A1). rewrite E1. cbn [bind].
    destruct (existsb missing (slices g)) eqn:Em; cbn [orb].
    + exists acc1. split; [reflexivity|discriminate].
    + rewrite app_assoc, <- A1 by reflexivity. apply IHn; [lia|assumption].
Qed.

Lemma store_ok d src : len src <= len d -> store (Some d) src = Ret (Some (src ++ dropN (len src) d)).
Proof. intro Hl. unfold store. destruct (N.leb_spec (len src) (len d)); [reflexivity|lia]. Qed.

Section Back.
Context {B : Bssl}.

(** ** digest *)
Theorem bssl_digest_ok ctx alg ms count out size : no_failure B -> computes_sha2 B -> bssl_digest_pre ms count out size ->
  n20_crypto_boringssl_digest ctx alg ms count out size = Ret (digest_report ctx alg ms count out size).
Proof.
  intros Hf Hc (Ho & Hm). unfold n20_crypto_boringssl_digest, digest_report, digest_errors, report, result.
  rewrite md_known, bssl_size, !Hf. destruct ctx; cbn [negb]; [|reflexivity].
  unfold required. destruct (algorithm alg) as [A|] eqn:EA; cbn [is_none negb]; [|reflexivity].
  destruct (Hc _ _ EA) as (Hh & _). pose proof (algorithm_known _ _ EA) as HA.
  destruct size as [size|]; [|reflexivity]. unfold too_small. rewrite null_is_none, orb_comm. cbn [is_none].
  destruct out as [d|]; [|reflexivity]. cbn [is_none orb out_ok] in *. destruct (N.ltb_spec size (out_bytes A)) as [|Hs]; [reflexivity|].
  destruct ms as [[|g more]|]; [contradiction| |reflexivity]. destruct Hm as (Hn & Hg).
  cbn [get nth_error N.to_nat bind is_none head_null_list]. rewrite null_is_none. change (negb (g_count g =? 0) && is_none (g_list g)) with (null_list g).
  destruct (null_list g); [reflexivity|].
  pose proof (bssl_lists_ok (g :: more) (N.to_nat count) 0 []) as P. rewrite N2Nat.id, dropN_0 in P.
  destruct (P ltac:(lia) Hg) as (acc & E1 & A1). rewrite E1. cbn [bind has_missing].
  destruct (existsb missing (flat_map slices (takeN count (g :: more)))) eqn:Em; [reflexivity|].
  rewrite (A1 eq_refl), Hh. cbn [app first_error find fst].
  change (flat_map gather_bytes (takeN count (g :: more))) with (message_bytes (Some (g :: more)) count).
  assert (Hl := known_len A (message_bytes (Some (g :: more)) count) HA). rewrite store_ok by lia. cbn [bind]. now rewrite Hl.
Qed.

(** ** hmac *)
Theorem bssl_hmac_ok ctx alg key m out size : no_failure B -> computes_sha2 B -> bssl_hmac_pre key m out size ->
  n20_crypto_boringssl_hmac ctx alg key m out size = Ret (bssl_hmac_report ctx alg key m out size).
Proof.
  intros Hf Hc (Hk & Ho & Hm). unfold n20_crypto_boringssl_hmac, bssl_hmac_report, bssl_hmac_errors, report, result.
  rewrite md_known, bssl_size, bssl_null, !Hf. destruct ctx; cbn [negb]; [|reflexivity].
  destruct size as [size|]; [|reflexivity]. cbn [is_none].
  unfold required. destruct (algorithm alg) as [A|] eqn:EA; cbn [is_none negb]; [|reflexivity].
  destruct (Hc _ _ EA) as (_ & Hh & _). pose proof (algorithm_known _ _ EA) as HA.
  destruct (missing key) eqn:Emk; [reflexivity|].
  unfold too_small. rewrite null_is_none, orb_comm.
  destruct out as [d|]; [|reflexivity]. cbn [is_none orb out_ok] in *. destruct (N.ltb_spec size (out_bytes A)) as [|Hs]; [reflexivity|].
  destruct m as [g|]; [|reflexivity]. cbn [is_none one head_null_list]. rewrite null_is_none.
  change (negb (g_count g =? 0) && is_none (g_list g)) with (null_list g). destruct (null_list g) eqn:En; [reflexivity|].
  rewrite input_ok by assumption. cbn [bind].
  assert (One : exists acc, match g_list g with
                            | Some l => bssl_slices never (N.to_nat (g_count g)) 0 l []
                            | None => Ret (ok_e, [])
                            end = Ret (if existsb missing (slices g) then unexpected_null_slice_e else ok_e, acc) /\
                            (existsb missing (slices g) = false -> acc = gather_bytes g)).
  { destruct (g_list g) as [l|] eqn:El.
    - exact (one_list never g l [] (fun _ => eq_refl) El Hm).
    - unfold gather_bytes. rewrite slices_null by assumption. exists []. split; reflexivity. }
  destruct One as (acc & E1 & A1). rewrite E1. cbn [bind]. unfold has_missing. change (takeN 1 [g]) with [g]. cbn [flat_map]. rewrite app_nil_r.
  destruct (existsb missing (slices g)) eqn:Em; [reflexivity|].
  rewrite (A1 eq_refl), Hh, bytes_one. cbn [first_error find fst].
  assert (Hl := HMAC_len A (slice_bytes key) (gather_bytes g) HA). rewrite store_ok by lia. cbn [bind]. now rewrite Hl.
Qed.

(** ** HKDF *)
Theorem bssl_extract_ok ctx alg ikm salt out size : no_failure B -> computes_sha2 B -> bssl_extract_pre ikm salt out size ->
  n20_crypto_boringssl_hkdf_extract ctx alg ikm salt out size = Ret (extract_report ctx alg ikm salt out size).
Proof.
  intros Hf Hc (Hi & Hs & Ho). unfold n20_crypto_boringssl_hkdf_extract, extract_report, extract_errors, report, result.
  rewrite md_known, bssl_size, !bssl_null, !Hf. destruct ctx; cbn [negb]; [|reflexivity].
  unfold required. destruct (algorithm alg) as [A|] eqn:EA; cbn [is_none negb]; [|reflexivity].
  destruct (Hc _ _ EA) as (_ & _ & Hh & _). pose proof (algorithm_known _ _ EA) as HA.
  destruct (missing ikm) eqn:Emi; [reflexivity|]. destruct (missing salt) eqn:Ems; [reflexivity|].
  destruct size as [size|]; [|reflexivity]. unfold too_small. rewrite null_is_none, orb_comm. cbn [is_none].
  destruct out as [d|]; [|reflexivity]. cbn [is_none orb out_ok] in *. destruct (N.ltb_spec size (out_bytes A)) as [|Hz]; [reflexivity|].
  rewrite !input_ok by assumption. cbn [bind first_error find fst]. rewrite Hh.
  assert (Hl : len (HKDF_extract A (slice_bytes salt) (slice_bytes ikm)) = out_bytes A) by (apply HMAC_len; assumption).
  rewrite store_ok by lia. cbn [bind]. now rewrite Hl.
Qed.

Lemma HKDF_expand_len A prk info n : known A -> len (HKDF_expand A prk info n) = n.
Proof.
  intro HA. unfold HKDF_expand. pose proof (known_out A HA). rewrite len_takeN, T_blocks_len by assumption.
  apply N.min_l. rewrite N2Nat.id. unfold blocks.
  pose proof (N.div_mod (n + out_bytes A - 1) (out_bytes A) ltac:(lia)). pose proof (N.mod_lt (n + out_bytes A - 1) (out_bytes A) ltac:(lia)). nia.
Qed.

Theorem bssl_expand_ok ctx alg prk info n out : no_failure B -> computes_sha2 B -> bssl_expand_pre prk info n out ->
  n20_crypto_boringssl_hkdf_expand ctx alg prk info n out = Ret (bssl_expand_report ctx alg prk info n out).
Proof.
  intros Hf Hc (Hp & Hi & Hn & Ho). unfold n20_crypto_boringssl_hkdf_expand, bssl_expand_report, bssl_expand_errors, expand_errors, report_key, report, result, too_long.
  rewrite md_known, !bssl_null, !Hf. destruct ctx; cbn [negb app]; [|reflexivity].
  unfold required. destruct (algorithm alg) as [A|] eqn:EA; cbn [is_none negb]; [|reflexivity].
  destruct (Hc _ _ EA) as (_ & _ & _ & Hh). pose proof (algorithm_known _ _ EA) as HA. pose proof (known_out A HA) as Hout.
  destruct (missing prk) eqn:Emp; [reflexivity|]. destruct (missing info) eqn:Emi; [reflexivity|].
  destruct (N.eqb_spec n 0) as [->|Hz].
  - cbn [negb]. rewrite andb_false_r. destruct (N.ltb_spec (255 * out_bytes A) 0); [lia|]. cbn [first_error find fst].
    destruct out as [d|]; [|reflexivity]. rewrite dropN_0. pose proof (HKDF_expand_len A (slice_bytes prk) (slice_bytes info) 0 HA) as Hl.
    now rewrite (len_0 _ Hl).
  - rewrite null_is_none. destruct out as [d|]; [|reflexivity]. cbn [is_none andb].
    rewrite !input_ok by assumption. cbn [bind]. rewrite Hh.
    destruct (N.leb_spec n (255 * out_bytes A)); destruct (N.ltb_spec (255 * out_bytes A) n); try lia; [|reflexivity].
    pose proof (HKDF_expand_len A (slice_bytes prk) (slice_bytes info) n HA) as Hl.
    rewrite store_ok by lia. cbn [bind first_error find fst]. now rewrite Hl.
Qed.

Theorem bssl_hkdf_ok ctx alg ikm salt info n out : no_failure B -> computes_sha2 B -> bssl_hkdf_pre ikm salt info n out ->
  n20_crypto_boringssl_hkdf ctx alg ikm salt info n out = Ret (bssl_hkdf_report ctx alg ikm salt info n out).
Proof.
  intros Hf Hc (Hk & Hs & Hi & Hn & Ho). unfold n20_crypto_boringssl_hkdf, bssl_hkdf_report, bssl_hkdf_errors, hkdf_errors, report_key, report, result, too_long.
  rewrite md_known, !bssl_null, !Hf. destruct ctx; cbn [negb app]; [|reflexivity].
  unfold required. destruct (algorithm alg) as [A|] eqn:EA; cbn [is_none negb]; [|reflexivity].
  destruct (Hc _ _ EA) as (_ & _ & Hx & Hh). pose proof (algorithm_known _ _ EA) as HA. pose proof (known_out A HA) as Hout.
  destruct (missing ikm) eqn:Emk; [reflexivity|]. destruct (missing salt) eqn:Ems; [reflexivity|]. destruct (missing info) eqn:Emi; [reflexivity|].
  rewrite null_is_none, andb_comm. destruct (is_none out && negb (n =? 0)) eqn:Eo; [reflexivity|].
  rewrite !input_ok by assumption. cbn [bind]. rewrite Hx, Hh.
  pose proof (HKDF_expand_len A (HKDF_extract A (slice_bytes salt) (slice_bytes ikm)) (slice_bytes info) n HA) as Hl.
  destruct (N.leb_spec n (255 * out_bytes A)); destruct (N.ltb_spec (255 * out_bytes A) n); try lia; [|reflexivity].
  cbn [first_error find fst]. unfold HKDF. destruct out as [d|].
  - rewrite store_ok by lia. cbn [bind]. now rewrite Hl.
  - cbn [is_none andb] in Eo. destruct (N.eqb_spec n 0) as [->|]; [|discriminate]. now rewrite (len_0 _ Hl).
Qed.
End Back.

(** ** Failures: whatever fails, the result is the one without failures or an error with nothing written *)
Definition failing {T} (B : Bssl) (x y : res T) (z : error -> T) : Prop :=
  x = y \/ exists e, resource_error B e /\ x = Ret (z e).
Lemma no_res B c : @fails B c = true -> resource_error B no_resources_e.
Proof. intro Hf. split; [now left|now exists c]. Qed.
Lemma impl_spec B c : @fails B c = true -> resource_error B implementation_specific_e.
Proof. intro Hf. split; [now right|now exists c]. Qed.
Ltac failed :=
  first [ right; exists no_resources_e; split; [eapply no_res; eassumption|reflexivity]
        | right; exists implementation_specific_e; split; [eapply impl_spec; eassumption|reflexivity] ].
Ltac walk :=
  repeat first
    [ left; reflexivity
    | failed
    | progress cbn [bind]
    | match goal with x : (error * list byte)%type |- _ => destruct x as [[] ?] end
    | match goal with
      | |- context [if ?b then _ else _] => destruct b
      | |- context [match ?x with Some _ => _ | None => _ end] => destruct x
      | |- context [bind ?x _] => destruct x as [?| |]; cbn [bind]
      end ].

Lemma digest_failing B ctx alg ms count out size : @fails B c_md_ctx_new = false ->
  failing B (@n20_crypto_boringssl_digest B ctx alg ms count out size)
            (@n20_crypto_boringssl_digest (reliable B) ctx alg ms count out size) (fun e => (e, out, size)).
Proof.
  intro Hn. unfold failing, n20_crypto_boringssl_digest. rewrite Hn. cbn [reliable fails evp_digest].
  destruct (@fails B c_digest_init) eqn:E1; [|left; reflexivity]. walk.
Qed.
Lemma hmac_failing B ctx alg key m out size :
  failing B (@n20_crypto_boringssl_hmac B ctx alg key m out size)
            (@n20_crypto_boringssl_hmac (reliable B) ctx alg key m out size) (fun e => (e, out, size)).
Proof.
  unfold failing, n20_crypto_boringssl_hmac. cbn [reliable fails bssl_hmac].
  destruct (@fails B c_hmac_ctx_new) eqn:E1. { walk. }
  destruct (@fails B c_hmac_init) eqn:E2. { walk. }
  destruct (@fails B c_hmac_final) eqn:E3; [|left; reflexivity].
  walk.
Qed.
Lemma extract_failing B ctx alg ikm salt out size :
  failing B (@n20_crypto_boringssl_hkdf_extract B ctx alg ikm salt out size)
            (@n20_crypto_boringssl_hkdf_extract (reliable B) ctx alg ikm salt out size) (fun e => (e, out, size)).
Proof.
  unfold failing, n20_crypto_boringssl_hkdf_extract. cbn [reliable fails bssl_hkdf_extract].
  destruct (@fails B c_hkdf_extract) eqn:E1; [|left; reflexivity]. walk.
Qed.
Lemma expand_failing B ctx alg prk info n out :
  failing B (@n20_crypto_boringssl_hkdf_expand B ctx alg prk info n out)
            (@n20_crypto_boringssl_hkdf_expand (reliable B) ctx alg prk info n out) (fun e => (e, out)).
Proof.
  unfold failing, n20_crypto_boringssl_hkdf_expand. cbn [reliable fails bssl_hkdf_expand].
  destruct (@fails B c_hkdf_expand) eqn:E1; [|left; reflexivity]. walk.
Qed.
Lemma hkdf_failing B ctx alg ikm salt info n out :
  failing B (@n20_crypto_boringssl_hkdf B ctx alg ikm salt info n out)
            (@n20_crypto_boringssl_hkdf (reliable B) ctx alg ikm salt info n out) (fun e => (e, out)).
Proof.
  unfold failing, n20_crypto_boringssl_hkdf. cbn [reliable fails bssl_hkdf_expand bssl_hkdf_extract].
  destruct (@fails B c_hkdf) eqn:E1; [|left; reflexivity]. walk.
Qed.
End Proofs.
