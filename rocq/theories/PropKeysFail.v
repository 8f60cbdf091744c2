(** Properties C44 and C49, failing calls: the exact outcome of RFC 6979 generation and of the key operations for every set of failing BoringSSL
    calls. The contracts in PropBssl.v and PropKeys.v allow an error when some call fails; here every failing call that is reached must be
    reported, with its error, and in its place. *)
From Coq Require Import List NArith ZArith Bool Strings.Byte Lia.
From Coq Require Import ZifyBool ZifyNat ZifyN.
From Verif Require Import Base BaseFacts Res SpecDigits DigitsFacts SpecSha2 ShaFacts Crypto SpecMac SpecCrypto CryptoProofs.
From Verif Require Import Bssl BsslKeys SpecBssl BsslProofs Rfc6979Proofs KeyProofs PropBssl FailProofs.

Import ListNotations.
Open Scope N_scope.

(** ** C44 *)

(** [found]: the number of the first suitable candidate among the first [fuel] ones. The rows are those of FailProofs.v. *)
Definition first_found (A : sha2) (q : N) (data : list byte) (fuel : nat) : option nat :=
  find (fun i => suitable q (candidate (HMAC A) (N.to_nat (out_bytes A)) q data i)) (seq 0 fuel).
Theorem C44_failures_exact : forall (B : Bssl) fuel x m alg A q, computes_sha2 B -> algorithm alg = Some A ->
  let data := k_data q x (option_map (hash A) m) in
  let found := first_found A q data fuel in
  rfc6979_k_generation fuel x m alg q =
  match failed (generation_rows B (out_bytes A) q m fuel found), found with
  | Some e, _ => Ret (inl e)
  | None, Some i => Ret (inr (candidate (HMAC A) (N.to_nat (out_bytes A)) q data i))
  | None, None => OutOfFuel
  end.
Proof.
  intros B fuel x m alg A q Hc HA data found. rewrite (k_generation_fail_sha2 B fuel x m alg A q Hc HA). fold data. fold (first_found A q data fuel). fold found.
  unfold guarded, fail. now destruct (failed _).
Qed.
Print Assumptions C44_failures_exact.

(** ** C49: sign *)
Fixpoint update_rows (B : Bssl) (i : N) (l : list slice) : list (bool * error) :=
  match l with
  | [] => []
  | s :: l => (missing s, unexpected_null_slice_e) :: (negb (sl_size s =? 0) && fails (c_sign_update i), implementation_specific_e)
              :: update_rows B (i + 1) l
  end.
Definition sign_rows (B : Bssl) ctx k msg out size : list (bool * error) :=
  [ (negb ctx, invalid_context_e);
    (is_none k, unexpected_null_key_in_e);
    (is_none size, unexpected_null_size_e);
    (wrong_kind false k, invalid_key_e);
    (fails c_md_ctx_new, no_resources_e);
    (too_small out size (signature_octets k), insufficient_buffer_size_e) ] ++
  match k with
  | Some (SigningKey (EC _ _)) =>
      [ (is_none msg, unexpected_null_data_e);
        (head_null_list (one msg), unexpected_null_list_e);
        (fails c_sign_init, implementation_specific_e) ] ++
      update_rows B 0 (match msg with Some g => slices g | None => [] end)
  | _ =>
      [ (fails c_sign_init, implementation_specific_e);
        (is_none msg, unexpected_null_data_e);
        (head_null_list (one msg), unexpected_null_list_e);
        (has_missing (one msg) 1, unexpected_null_slice_e);
        (fails c_sign, implementation_specific_e) ]
  end.
(** The last call for ECDSA: when it fails, the size parameter is already overwritten. *)
Definition is_ec (k : option key) : bool := match k with Some (SigningKey (EC _ _)) => true | _ => false end.
Definition sign_report (B : Bssl) ctx k msg sig out size : outcome :=
  if is_none (failed (sign_rows B ctx k msg out size)) && is_ec k && fails c_sign_final then (implementation_specific_e, out, Some 104)
  else report (sign_rows B ctx k msg out size) (signature_octets k) sig out size.

Lemma slices_rows (E : Env) (B : Bssl) l : forall n i acc, i + N.of_nat n <= len l -> Forall slice_ok (takeN (N.of_nat n) (dropN i l)) ->
  exists acc', bssl_slices (fun i => fails (c_sign_update i)) n i l acc =
      Ret (match failed (update_rows B i (takeN (N.of_nat n) (dropN i l))) with Some e => e | None => ok_e end, acc') /\
    (failed (update_rows B i (takeN (N.of_nat n) (dropN i l))) = None ->
     acc' = acc ++ flat_map slice_bytes (takeN (N.of_nat n) (dropN i l))).
Proof.
  induction n as [|n IHn]; intros i acc Hi Hs.
  - cbn [bssl_slices N.of_nat]. rewrite takeN_0. cbn [flat_map]. exists acc. rewrite app_nil_r. now split.
  - replace (N.of_nat (S n)) with (1 + N.of_nat n) in * by lia. rewrite (take_step l i (N.of_nat n) slice_null) in * by lia.
    inversion_clear Hs as [|? ? Hs1 Hs2]. cbn [bssl_slices update_rows flat_map].
    rewrite (get_ok l i slice_null) by lia. cbn [bind]. set (s := nth (N.to_nat i) l slice_null) in *.
    unfold missing. destruct (N.eqb_spec (sl_size s) 0) as [Es|Es].
    + assert (Eb : slice_bytes s = []). { unfold slice_bytes. rewrite Es. destruct (sl_buf s); reflexivity. }
      rewrite Eb. cbn [negb andb app]. rewrite andb_false_r. apply IHn; [lia|assumption].
    + rewrite null_is_none. cbn [negb andb]. rewrite andb_true_r. destruct (is_none (sl_buf s)) eqn:En.
      * exists acc. split; [reflexivity|discriminate].
      * rewrite input_ok; [|assumption|unfold missing; now rewrite En]. cbn [bind]. destruct (fails (c_sign_update i)) eqn:Ef.
        -- exists acc. split; [reflexivity|discriminate].
        -- destruct (IHn (i + 1) (acc ++ slice_bytes s) ltac:(lia) Hs2) as (acc' & E1 & A1). exists acc'. split; [exact E1|].
           intro Hn. rewrite (A1 Hn), <- app_assoc. reflexivity.
Qed.
Lemma update_not_ok B l : forall i e, failed (update_rows B i l) = Some e -> e = unexpected_null_slice_e \/ e = implementation_specific_e.
Proof.
  unfold failed. induction l as [|s l IH]; intros i e; [discriminate|]. cbn [update_rows find fst].
  destruct (missing s); [cbn; intro H; injection H as <-; now left|]. destruct (_ && _); [cbn; intro H; injection H as <-; now right|]. apply IH.
Qed.

Theorem C49_sign_failures_exact : forall (E : Env) (B : Bssl) t ctx a m out size, signs B -> op_ok (live (heap_of t)) (Sign ctx a m out size) ->
  exists sig, signature_of B (handle_key t a) (message_bytes (one m) 1) sig /\
    n20_crypto_boringssl_sign ctx (heap_of t) a m out size = Ret (sign_report B ctx (handle_key t a) m sig out size).
Proof.
  intros E B t ctx a m out size [Hed Hec] (Ha & Hm & Ho). destruct (load_heap t a Ha) as [Hz Hl].
  assert (Hex : exists sig, signature_of B (handle_key t a) (message_bytes (one m) 1) sig).
  { unfold signature_of. destruct (handle_key t a) as [[?|[seed|c d]]|]; try (now exists []); try (eexists; reflexivity).
    destruct (Hec c d (match c with P256 => 1 | P384 => 2 end) (message_bytes (one m) 1)) as (r & s & Hr & Hs & Es).
    exists (raw_signature c r s), r, s. now splits. }
  destruct Hex as [sig Hsig]. exists sig. split; [assumption|].
  unfold n20_crypto_boringssl_sign, sign_report, report, first_error, failed, sign_rows. rewrite Hz. destruct ctx; cbn [negb]; [|reflexivity].
  destruct (handle_key t a) as [k|]; cbn [is_none]; [|reflexivity]. destruct size as [size|]; [|reflexivity]. cbn [is_none]. rewrite Hl. cbn [bind].
  destruct k as [bits|p]; [reflexivity|]. cbn [wrong_kind is_secret Bool.eqb negb].
  destruct p as [seed|c d].
  - destruct (gather_vec_ok m Hm) as (acc & E1 & A1).
    cbn [object k_type k_body as_evp bind signature_octets]. change (3 =? key_type_cdi_e) with false. change (sign_params 3) with (Some (64, @None N)).
    cbv iota. destruct (fails c_md_ctx_new); [reflexivity|]. unfold too_small.
    destruct out as [d|]; [|reflexivity]. cbn [is_none orb out_ok] in *. destruct (N.ltb_spec size 64); [reflexivity|].
    unfold sign_ed25519. destruct (fails c_sign_init); [reflexivity|]. rewrite E1. cbn [bind app].
    unfold gather_errors, first_error in A1 |- *. cbn [find fst is_none] in A1 |- *. destruct (is_none m); [reflexivity|].
    destruct (head_null_list (one m)); [reflexivity|]. destruct (has_missing (one m) 1); [reflexivity|].
    rewrite (A1 eq_refl). destruct (fails c_sign); [reflexivity|]. cbn [signature_of] in Hsig. subst sig.
    rewrite (write_start d _ 64) by (try apply Hed; lia). cbn [bind]. now rewrite Hed.
  - assert (Hp : exists md, sign_params (k_type (object (SigningKey (EC c d)))) = Some (2 * coordinate c, Some md) /\
                            md = match c with P256 => 1 | P384 => 2 end /\ k_body (object (SigningKey (EC c d))) = Evp (EC c d) /\
                            k_type (object (SigningKey (EC c d))) =? key_type_cdi_e = false /\
                            signature_octets (Some (SigningKey (EC c d))) = 2 * coordinate c) by (destruct c; eexists; splits; reflexivity).
    destruct Hp as (md & P1 & P2 & P3 & P4 & P5). rewrite P4. unfold as_evp. rewrite P3. cbn [bind]. rewrite P1, P5.
    destruct (fails c_md_ctx_new); [reflexivity|]. unfold too_small.
    destruct out as [o|]; [|reflexivity]. cbn [is_none orb out_ok] in *. destruct (N.ltb_spec size (2 * coordinate c)); [reflexivity|].
    unfold sign_ecdsa. destruct m as [g|]; [|reflexivity]. cbn [is_none one head_null_list].
    rewrite null_is_none. change (negb (g_count g =? 0) && is_none (g_list g)) with (null_list g). destruct (null_list g) eqn:En; [reflexivity|].
    destruct (fails c_sign_init); [reflexivity|]. cbn [app find fst].
    assert (One : exists acc, match g_list g with
                            | Some l => bssl_slices (fun i => fails (c_sign_update i)) (N.to_nat (g_count g)) 0 l []
                            | None => Ret (ok_e, [])
                            end = Ret (match failed (update_rows B 0 (slices g)) with Some e => e | None => ok_e end, acc) /\
                            (failed (update_rows B 0 (slices g)) = None -> acc = gather_bytes g)).
    { destruct (g_list g) as [l|] eqn:El.
      - destruct Hm as [[Hc Hs]|Hn]; [|congruence]. unfold gather_bytes, slices in *. rewrite El in *.
        pose proof (slices_rows E B l (N.to_nat (g_count g)) 0 []) as P. rewrite N2Nat.id, dropN_0 in P.
        apply P; [|assumption]. rewrite len_takeN in Hc. lia.
      - unfold gather_bytes. rewrite slices_null by assumption. exists []. split; reflexivity. }
    destruct One as (acc2 & E2 & A2). rewrite E2. cbn [bind]. pose proof (update_not_ok B (slices g) 0) as Hno. unfold failed in *.
    destruct (find fst (update_rows B 0 (slices g))) as [[b e]|]; cbn [option_map snd is_none andb] in *.
    { destruct (Hno _ eq_refl) as [-> | ->]; reflexivity. }
    cbn [is_ec andb]. rewrite (A2 eq_refl). destruct (fails c_sign_final); [reflexivity|].
    cbn [signature_of one] in Hsig. rewrite bytes_one, <- P2 in Hsig. destruct Hsig as (r & s & Hr & Hs & Es & ->). rewrite Es.
    destruct (unwrap_ok c r s o Hr Hs ltac:(lia)) as [U1 U2]. rewrite U1. destruct (N.ltb_spec 104 (len (ecdsa_der r s))); [lia|]. reflexivity.
Qed.
Print Assumptions C49_sign_failures_exact.

(** ** C49: key_get_public_key *)
Definition public_rows (B : Bssl) ctx k out size : list (bool * error) :=
  public_errors ctx k out size ++
  [ if is_ec k then (fails c_i2d, no_resources_e) else (fails c_raw_public, implementation_specific_e) ].
Theorem C49_public_failures_exact : forall (E : Env) (B : Bssl) t ctx a out size, publishes B -> op_ok (live (heap_of t)) (Public ctx a out size) ->
  exists pub, public_of B (handle_key t a) pub /\
    n20_crypto_boringssl_key_get_public_key ctx (heap_of t) a out size =
      Ret (report (public_rows B ctx (handle_key t a) out size) (public_octets (handle_key t a)) pub out size).
Proof.
  intros E B t ctx a out size Hpub (Ha & Ho). destruct (@bssl_public_ok (reliable B) t ctx a out size (reliable_ok B) Hpub Ha Ho) as (pub & Hp & P).
  exists pub. split; [exact Hp|]. destruct (load_heap t a Ha) as [Hz Hl]. revert P.
  unfold n20_crypto_boringssl_key_get_public_key, public_rows, report, public_errors. rewrite Hz. destruct ctx; cbn [negb]; [|intros _; reflexivity].
  destruct (handle_key t a) as [k|]; cbn [is_none]; [|intros _; reflexivity].
  destruct size as [size|]; [|intros _; reflexivity]. cbn [is_none]. rewrite Hl. cbn [bind].
  destruct k as [bits|[seed|c d]]; [intros _; reflexivity| |].
  - cbn [object k_type k_body as_evp bind public_octets]. change (3 =? key_type_ed25519_e) with true. change (public_key_size 3) with (Some 32). cbv iota.
    unfold too_small. destruct out as [o|]; [|intros _; reflexivity]. cbn [is_none orb]. destruct (N.ltb_spec size 32); [intros _; reflexivity|].
    cbn [negb is_ec app wrong_kind is_secret Bool.eqb]. change (@fails (reliable B) c_raw_public) with false. intro P.
    destruct (fails c_raw_public); [reflexivity|]. exact P.
  - assert (Hk : public_key_size (k_type (object (SigningKey (EC c d)))) = Some (2 * coordinate c) /\
                 k_body (object (SigningKey (EC c d))) = Evp (EC c d) /\
                 negb (k_type (object (SigningKey (EC c d))) =? key_type_secp256r1_e) && negb (k_type (object (SigningKey (EC c d))) =? key_type_secp384r1_e) = false /\
                 public_octets (Some (SigningKey (EC c d))) = 2 * coordinate c) by (destruct c; splits; reflexivity).
    destruct Hk as (P1 & P2 & P3 & P4). rewrite P1, P4. unfold too_small.
    destruct out as [o|]; [|intros _; reflexivity]. cbn [is_none orb]. destruct (N.ltb_spec size (2 * coordinate c)); [intros _; reflexivity|].
    unfold as_evp. rewrite P2. cbn [bind]. rewrite P3. cbn [is_ec app wrong_kind is_secret Bool.eqb negb]. change (@fails (reliable B) c_i2d) with false. intro P.
    destruct (fails c_i2d); [reflexivity|]. exact P.
Qed.
Print Assumptions C49_public_failures_exact.

(** ** C49: kdf *)
Definition ec_key_rows (B : Bssl) (q : N) (fuel : nat) (found : option nat) : list (bool * error) :=
  [(fails c_get_order, implementation_specific_e)] ++ generation_rows B 64 q None fuel found ++
  match found with
  | None => []
  | Some _ => [ (fails c_point_new, no_resources_e); (fails c_point_mul, implementation_specific_e); (fails c_ec_key_new, no_resources_e);
                (fails c_set_group, implementation_specific_e); (fails c_set_private, implementation_specific_e);
                (fails c_set_public, implementation_specific_e); (fails c_pkey_new, no_resources_e) ]
  end.
Definition kdf_rows (B : Bssl) ctx k ty context (key_out : option N) (found : curve -> option nat) (fuel : nat) : list (bool * error) :=
  [ (negb ctx, invalid_context_e);
    (is_none k, unexpected_null_key_in_e);
    (wrong_kind true k, invalid_key_e);
    (is_none key_out, unexpected_null_key_out_e);
    (is_none context, unexpected_null_data_e);
    (head_null_list (one context), unexpected_null_list_e);
    (has_missing (one context) 1, unexpected_null_slice_e);
    (fails c_hkdf_expand, implementation_specific_e) ] ++
  match kind_of ty with
  | None => [(true, invalid_key_type_e)]
  | Some Secret => []
  | Some (Signing None) => [(fails c_new_ed_key, implementation_specific_e)]
  | Some (Signing (Some c)) => ec_key_rows B (curve_order c) fuel (found c)
  end.
Definition secret_of (k : option key) : list byte := match k with Some (SecretKey bits) => bits | _ => [] end.
(** The derived key, if it is found among the first [fuel] candidates. *)
Definition found_key (B : Bssl) (seed : list byte) (ty : N) (found : curve -> option nat) : option key :=
  match kind_of ty with
  | Some Secret => Some (SecretKey seed)
  | Some (Signing None) => Some (SigningKey (Ed25519 seed))
  | Some (Signing (Some c)) => option_map (fun i => SigningKey (EC c (candidate (HMAC SHA512) 64 (curve_order c) seed i))) (found c)
  | None => None
  end.
Theorem C49_kdf_failures_exact : forall (E : Env) (B : Bssl) (A : Allocator) fuel t ctx a ty g ko, computes_sha2 B ->
  op_ok (live (heap_of t)) (Kdf ctx a ty g ko) ->
  let seed := HKDF_expand SHA512 (secret_of (handle_key t a)) (message_bytes (one g) 1) 32 in
  let found c := first_found SHA512 (curve_order c) seed fuel in
  n20_crypto_boringssl_kdf fuel ctx (heap_of t) a ty g ko =
  match failed (kdf_rows B ctx (handle_key t a) ty g ko found fuel), found_key B seed ty found with
  | Some e, _ => Ret (e, heap_of t, ko)
  | None, Some k => Ret (ok_e, (fresh (heap_of t), object k) :: heap_of t, Some (fresh (heap_of t)))
  | None, None => OutOfFuel
  end.
Proof.
  intros E B A fuel t ctx a ty g ko Hc (Ha & Hm) seed found. destruct (load_heap t a Ha) as [Hz Hl].
  unfold n20_crypto_boringssl_kdf, failed, kdf_rows. rewrite Hz.
  destruct ctx; cbn [negb]; [|reflexivity]. destruct (handle_key t a) as [k|]; cbn [is_none]; [|reflexivity]. rewrite Hl. cbn [bind].
  destruct k as [bits|[sd|[] d]]; try reflexivity. cbn [object k_type k_body as_cdi bind wrong_kind is_secret Bool.eqb negb].
  change (4 =? key_type_cdi_e) with true. cbn [negb]. destruct ko as [ko|]; [|reflexivity]. cbn [is_none].
  destruct (gather_vec_ok g Hm) as (acc & E1 & A1). rewrite E1. cbn [bind app].
  unfold gather_errors, first_error in A1 |- *. cbn [find fst] in A1 |- *.
  destruct (is_none g); [reflexivity|]. destruct (head_null_list (one g)); [reflexivity|]. destruct (has_missing (one g) 1); [reflexivity|].
  rewrite (A1 eq_refl). destruct (Hc 3 SHA512 eq_refl) as (_ & _ & _ & Hx). change sha2_512_e with 3. rewrite Hx.
  change (32 <=? 255 * out_bytes SHA512) with true. cbv iota. destruct (fails c_hkdf_expand); [reflexivity|].
  cbn [secret_of] in seed. fold seed. set (rows := match kind_of ty with None => _ | Some _ => _ end).
  assert (K : kdf_key fuel ty seed = guarded rows (match found_key B seed ty found with Some k => Ret (inr (object k)) | None => OutOfFuel end)).
  { unfold rows, found_key. clear - Hc. clearbody seed. revert ty.
    assert (EC : forall ty c, (forall d, object (SigningKey (EC c d)) = mkKey ty (Evp (EC c d))) -> kdf_ec fuel ty c seed =
       guarded (ec_key_rows B (curve_order c) fuel (found c))
         match option_map (fun i => SigningKey (EC c (candidate (HMAC SHA512) 64 (curve_order c) seed i))) (found c) with
         | Some k => Ret (inr (object k))
         | None => OutOfFuel
         end).
    { intros ty c Ho. unfold kdf_ec, ec_key_rows. cbn [app]. rewrite need_if, guarded_cons. destruct (fails c_get_order); [reflexivity|].
      rewrite (k_generation_fail_sha2 B fuel seed None sha2_512_e SHA512 _ Hc eq_refl). unfold k_data. cbn [option_map]. rewrite app_nil_r.
      fold (first_found SHA512 (curve_order c) seed fuel). fold (found c). change (out_bytes SHA512) with 64.
      rewrite guarded_try, guarded_app. f_equal. destruct (found c) as [i|]; [|reflexivity]. cbn [bind option_map].
      rewrite !need_if, !guarded_cons, guarded_nil, Ho. reflexivity. }
    refine (kind_cases _ _ _ _ _ _).
    - exact (EC 1 P256 (fun _ => eq_refl)).
    - exact (EC 2 P384 (fun _ => eq_refl)).
    - unfold kdf_key. cbn [kind_of]. rewrite guarded_cons. change (3 =? key_type_ed25519_e) with true. cbv iota. now rewrite need_if.
    - reflexivity.
    - intros ty Ht. rewrite Ht. unfold kdf_key, key_type_ed25519_e, key_type_cdi_e, key_type_secp256r1_e, key_type_secp384r1_e.
      destruct (N.eqb_spec ty 3) as [->|]; [discriminate|]. destruct (N.eqb_spec ty 4) as [->|]; [discriminate|].
      destruct (N.eqb_spec ty 1) as [->|]; [discriminate|]. destruct (N.eqb_spec ty 2) as [->|]; [discriminate|]. reflexivity. }
  rewrite K. unfold guarded, failed, fail. destruct (find fst rows) as [[b e]|]; [reflexivity|]. cbn [option_map].
  destruct (found_key B seed ty found); reflexivity.
Qed.
Print Assumptions C49_kdf_failures_exact.

(** ** Examples *)
#[local] Instance env64 : Env := {| size_width := W64; host_little_endian := true; stray := fun _ => x00 |}.
(** For this seed and order the first candidate is rejected, so that the HMAC that prepares the second one is reached. *)
Definition only_second (c : call) : bool := match c with c_try_update O => true | _ => false end.
Example C44_failures_exact_case : first_found SHA256 3 [x01] 2 = Some 1%nat /\
  @rfc6979_k_generation (toy only_second) 2 [x01] None sha2_256_e 3 = Ret (inl implementation_specific_e) /\
  failed (generation_rows (toy only_second) 32 3 None 2 (Some 1%nat)) = Some implementation_specific_e.
Proof. with_strategy transparent [hash] (split; [|split]; vm_compute; reflexivity). Qed.

(** Two slices, the first of them empty; adding the second one to the digest fails. *)
Definition only_update (c : call) : bool := match c with c_sign_update 1 => true | _ => false end.
Definition only_raw (c : call) : bool := match c with c_raw_public => true | _ => false end.
Definition only_order (c : call) : bool := match c with c_get_order => true | _ => false end.
Definition keys3 : table := [(1, SigningKey (EC P256 5)); (2, SigningKey (Ed25519 [x07])); (3, SecretKey [x08])].
Definition two_slices : gather := mkGather 2 (Some [mkSlice 0 None; slice_of [x61]]).
#[local] Instance first_free : Allocator := {| fresh := fun _ => 9 |}.
Lemma slices2_ok : bssl_gather_ok two_slices.
Proof.
  left. split; [vm_compute; congruence|]. change (slices two_slices) with [mkSlice 0 None; slice_of [x61]].
  repeat apply Forall_cons; [| |apply Forall_nil]; split; vm_compute; solve [congruence | exact I].
Qed.
Example C49_failures_exact_case :
  let out := Some (repeat x00 64) in
  op_ok (live (heap_of keys3)) (Sign true 1 (Some two_slices) out (Some 64)) /\
  @n20_crypto_boringssl_sign (toy only_update) true (heap_of keys3) 1 (Some two_slices) out (Some 64) = Ret (implementation_specific_e, out, Some 64) /\
  op_ok (live (heap_of keys3)) (Public true 2 out (Some 64)) /\
  @n20_crypto_boringssl_key_get_public_key (toy only_raw) true (heap_of keys3) 2 out (Some 64) = Ret (implementation_specific_e, out, Some 64) /\
  op_ok (live (heap_of keys3)) (Kdf true 3 1 (Some two_slices) (Some 0)) /\
  @n20_crypto_boringssl_kdf (toy only_order) _ 1 true (heap_of keys3) 3 1 (Some two_slices) (Some 0) =
    Ret (implementation_specific_e, heap_of keys3, Some 0).
Proof.
  cbv zeta. split; [|split; [|split; [|split; [|split]]]].
  - split; [right; vm_compute; reflexivity|]. split; [exact slices2_ok|vm_compute; congruence].
  - vm_compute; reflexivity.
  - split; [right; vm_compute; reflexivity|vm_compute; congruence].
  - vm_compute; reflexivity.
  - split; [right; vm_compute; reflexivity|exact slices2_ok].
  - with_strategy transparent [hash] (vm_compute; reflexivity).
Qed.
