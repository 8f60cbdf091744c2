(** Keys of the BoringSSL back end: signatures, public keys, derivation and handles meet SpecBssl.v. *)
From Coq Require Import List NArith ZArith Bool Strings.Byte Lia.
From Coq Require Import ZifyBool ZifyNat ZifyN.
From Verif Require Import Base BaseFacts Res SpecDigits DigitsFacts SpecDer DerFacts SpecSha2 ShaFacts Crypto SpecMac SpecCrypto CryptoProofs
  Bssl BsslKeys SpecBssl BsslProofs Rfc6979Proofs.
Import ListNotations.
Open Scope N_scope.

(** ** Unwrapping a DER signature *)
Lemma be_bytes_0 a : be_bytes a 0 = repeat x00 a.
Proof.
  induction a as [|a IH]; [reflexivity|]. rewrite be_bytes_S. change (0 / 256) with 0. rewrite IH. change [n2b 0] with (repeat x00 1).
  rewrite <- repeat_app. now rewrite Nat.add_1_r.
Qed.
Lemma be_bytes_pad a b n : n < 256 ^ N.of_nat b -> be_bytes (a + b) n = repeat x00 a ++ be_bytes b n.
Proof.
  revert n. induction b as [|b IH]; intros n Hn.
  - change (256 ^ N.of_nat 0) with 1 in Hn. assert (n = 0) by lia. subst n. rewrite Nat.add_0_r, be_bytes_0. cbn [be_bytes]. now rewrite app_nil_r.
  - rewrite Nat.add_succ_r, !be_bytes_S, IH, app_assoc; [reflexivity|]. apply N.div_lt_upper_bound; [lia|].
    replace (N.of_nat (S b)) with (N.succ (N.of_nat b)) in Hn by lia. now rewrite N.pow_succ_r' in Hn.
Qed.

Lemma enc_int_N n : enc_int (Z.of_N n) = be_bytes (int_octets (Z.of_N n)) n.
Proof.
  unfold enc_int. set (k := int_octets (Z.of_N n)). rewrite <- (be_bytes_mod k n). f_equal.
  rewrite <- (N2Z.id (n mod 256 ^ N.of_nat k)), N2Z.inj_mod, N2Z.inj_pow. now rewrite nat_N_Z.
Qed.
Lemma int_octets_N n : int_octets (Z.of_N n) = S (N.to_nat (N.size n / 8)).
Proof. unfold int_octets. destruct (Z.ltb_spec (Z.of_N n) 0); [lia|]. now rewrite N2Z.id. Qed.

(** The content octets of an INTEGER below 256^k: at most one leading zero, then at most k octets. *)
Lemma int_trim k n : n < 256 ^ k -> exists z t,
  enc_int (Z.of_N n) = z ++ t /\ len z = (if len (enc_int (Z.of_N n)) =? k + 1 then 1 else 0) /\
  len t <= k /\ be_bytes (N.to_nat k) n = repeat x00 (N.to_nat (k - len t)) ++ t.
Proof.
  intro Hn. rewrite enc_int_N, int_octets_N, len_be_bytes. set (o := N.size n / 8).
  assert (Hs : N.size n <= 8 * k). { apply size_le_iff. now rewrite pow256 in Hn. }
  assert (Ho : o <= k) by (unfold o; apply N.div_le_upper_bound; lia).
  assert (Hd : n < 256 ^ (o + 1)).
  { rewrite pow256. apply size_le_iff. pose proof (N.div_mod (N.size n) 8 ltac:(lia)). pose proof (N.mod_lt (N.size n) 8 ltac:(lia)). unfold o. lia. }
  destruct (N.eqb_spec (N.of_nat (S (N.to_nat o))) (k + 1)) as [Ek|Ek].
  - assert (o = k) by lia. subst k. exists [x00], (be_bytes (N.to_nat o) n). rewrite len_be_bytes. splits.
    + change (S (N.to_nat o)) with (1 + N.to_nat o)%nat. rewrite be_bytes_pad; [reflexivity|]. now rewrite N2Nat.id.
    + reflexivity.
    + lia.
    + now replace (N.to_nat (o - N.of_nat (N.to_nat o))) with O by lia.
  - exists [], (be_bytes (S (N.to_nat o)) n). rewrite len_be_bytes. splits; try reflexivity; [lia|].
    rewrite <- be_bytes_pad. 2: now replace (N.of_nat (S (N.to_nat o))) with (o + 1) by lia. f_equal. lia.
Qed.

Lemma get_at {A} (l m : list A) x i : len l = i -> get (l ++ x :: m) i = Ret x.
Proof.
  intros <-. unfold get. rewrite nth_error_app2; rewrite length_len; [|lia]. now rewrite Nat.sub_diag.
Qed.
Lemma read_mid a b c off n : len a = off -> len b = n -> read_at (a ++ b ++ c) off n = Ret b.
Proof.
  intros <- <-. unfold read_at. rewrite !len_app. destruct (N.leb_spec (len a + len b) (len a + (len b + len c))); [|lia].
  now rewrite dropN_app_len, takeN_app_len.
Qed.
Lemma write_mid a b c off src : len a = off -> len b = len src -> write_at (a ++ b ++ c) off src = Ret (a ++ src ++ c).
Proof.
  intros <- Hb. unfold write_at. rewrite !len_app. destruct (N.leb_spec (len a + len src) (len a + (len b + len c))); [|lia].
  rewrite takeN_app_len, <- Hb. replace (len a + len b) with (len (a ++ b)) by apply len_app. rewrite (app_assoc a b c), dropN_app_len. reflexivity.
Qed.
Lemma repeat_split {A} (x : A) a b : repeat x (a + b) = repeat x a ++ repeat x b.
Proof. apply repeat_app. Qed.

Lemma der_shape r s n : r < 256 ^ n -> s < 256 ^ n -> n <= 48 ->
  let ri := enc_int (Z.of_N r) in let si := enc_int (Z.of_N s) in
  len ri <= n + 1 /\ len si <= n + 1 /\
  ecdsa_der r s = [x30; n2b (4 + len ri + len si)] ++ [x02; n2b (len ri)] ++ ri ++ [x02; n2b (len si)] ++ si.
Proof.
  intros Hr Hs Hn ri si.
  assert (L : forall m, m < 256 ^ n -> len (enc_int (Z.of_N m)) <= n + 1).
  { intros m Hm. destruct (int_trim n m Hm) as (z & t & -> & Hz & Ht & _). rewrite len_app, Hz. destruct (_ =? _); lia. }
  pose proof (L r Hr) as Lr. pose proof (L s Hs) as Ls. fold ri in Lr. fold si in Ls. splits; try assumption.
  unfold ecdsa_der. fold ri. fold si.
  assert (T : forall x, len x <= 49 -> enc_tlv (tlv_integer x) = [x02; n2b (len x)] ++ x).
  { intros x Hx. unfold enc_tlv, tlv_integer. cbn [t_class t_constructed t_tag t_content]. unfold enc_len. destruct (N.ltb_spec (len x) 128); [reflexivity|lia]. }
  rewrite !T by lia. unfold enc_tlv, tlv_sequence. cbn [t_class t_constructed t_tag t_content].
  replace (len (([x02; n2b (len ri)] ++ ri) ++ [x02; n2b (len si)] ++ si)) with (4 + len ri + len si) by (lens; lia).
  unfold enc_len. destruct (N.ltb_spec (4 + len ri + len si) 128); [|lia]. rewrite <- !app_assoc. reflexivity.
Qed.

Theorem unwrap_ok c r s out : in_field c r -> in_field c s -> 2 * coordinate c <= len out ->
  unwrap_signature (ecdsa_der r s) out (2 * coordinate c) = Ret (raw_signature c r s ++ dropN (2 * coordinate c) out) /\
  len (ecdsa_der r s) <= 104.
Proof.
  unfold in_field, raw_signature. set (n := coordinate c). intros Hr Hs Ho. assert (Hn : 32 <= n <= 48) by (subst n; destruct c; cbn; lia).
  destruct (der_shape r s n Hr Hs ltac:(lia)) as (Lr & Ls & Ed). rewrite Ed. clear Ed.
  destruct (int_trim n r Hr) as (zr & tr & Er & Zr & Tr & Br). destruct (int_trim n s Hs) as (zs & ts & Es & Zs & Ts & Bs).
  set (ri := enc_int (Z.of_N r)) in *. set (si := enc_int (Z.of_N s)) in *. split; [|lens; lia].
  set (a := [x30; n2b (4 + len ri + len si)]). unfold unwrap_signature.
  replace (2 * n / 2) with n by (symmetry; rewrite N.mul_comm; apply N.div_mul; lia).
  change (a ++ [x02; n2b (len ri)] ++ ri ++ [x02; n2b (len si)] ++ si) with ((a ++ [x02]) ++ n2b (len ri) :: ri ++ [x02; n2b (len si)] ++ si).
  rewrite get_at by reflexivity. cbn [bind]. rewrite b2n_n2b_small by lia.
  replace ((a ++ [x02]) ++ n2b (len ri) :: ri ++ [x02; n2b (len si)] ++ si)
    with ((a ++ [x02; n2b (len ri)] ++ ri ++ [x02]) ++ n2b (len si) :: si) by (rewrite <- !app_assoc; reflexivity).
  rewrite get_at by (lens; change (len a) with 2; lia). cbn [bind]. rewrite b2n_n2b_small by lia.
  replace (if len ri =? n + 1 then (4 + 1, len ri - 1) else (4, len ri)) with (4 + len zr, len tr); cycle 1.
  { assert (len ri = len zr + len tr) by (rewrite Er; apply len_app). destruct (len ri =? n + 1); rewrite Zr in *; f_equal; lia. }
  replace (if len si =? n + 1 then (6 + len ri + 1, len si - 1) else (6 + len ri, len si)) with (6 + len ri + len zs, len ts); cycle 1.
  { assert (len si = len zs + len ts) by (rewrite Es; apply len_app). destruct (len si =? n + 1); rewrite Zs in *; f_equal; lia. }
  cbn [fst snd].
  assert (W0 : write_at out 0 (repeat x00 (N.to_nat (2 * n))) = Ret (repeat x00 (N.to_nat (2 * n)) ++ dropN (2 * n) out)).
  { unfold write_at. rewrite len_repeat, N2Nat.id. destruct (N.leb_spec (0 + 2 * n) (len out)); [|lia]. rewrite takeN_0. reflexivity. }
  rewrite W0. cbn [bind]. destruct (N.ltb_spec n (len tr)); [lia|]. destruct (N.ltb_spec (n + n) (len ts)); [lia|]. cbn [orb].
  replace ((a ++ [x02; n2b (len ri)] ++ ri ++ [x02]) ++ n2b (len si) :: si)
    with ((a ++ [x02; n2b (len ri)] ++ zr) ++ tr ++ [x02; n2b (len si)] ++ si) at 1
    by (rewrite Er, <- !app_assoc; reflexivity).
  rewrite read_mid; [|lens; change (len a) with 2; lia|reflexivity]. cbn [bind].
  replace (repeat x00 (N.to_nat (2 * n)) ++ dropN (2 * n) out)
    with (repeat x00 (N.to_nat (n - len tr)) ++ repeat x00 (N.to_nat (len tr)) ++ repeat x00 (N.to_nat n) ++ dropN (2 * n) out); cycle 1.
  { rewrite !app_assoc, <- !repeat_app. do 2 f_equal. lia. }
  rewrite write_mid by (rewrite len_repeat; lia). cbn [bind].
  replace ((a ++ [x02; n2b (len ri)] ++ ri ++ [x02]) ++ n2b (len si) :: si)
    with ((a ++ [x02; n2b (len ri)] ++ ri ++ [x02; n2b (len si)] ++ zs) ++ ts ++ [])
    by (rewrite app_nil_r, Es, <- !app_assoc; reflexivity).
  rewrite read_mid; [|lens; change (len a) with 2; lia|reflexivity]. cbn [bind].
  replace (repeat x00 (N.to_nat (n - len tr)) ++ tr ++ repeat x00 (N.to_nat n) ++ dropN (2 * n) out)
    with ((be_bytes (N.to_nat n) r ++ repeat x00 (N.to_nat (n - len ts))) ++ repeat x00 (N.to_nat (len ts)) ++ dropN (2 * n) out); cycle 1.
  { rewrite Br, <- !app_assoc. do 2 f_equal. rewrite app_assoc, <- repeat_app. do 2 f_equal. lia. }
  rewrite write_mid; [|rewrite len_app, len_be_bytes, len_repeat; lia|rewrite len_repeat; lia].
  rewrite Bs, <- !app_assoc. reflexivity.
Qed.

(** ** Handles *)
Lemma find_heap t a : find_key (heap_of t) a = option_map object (lookup t a).
Proof.
  unfold find_key, heap_of, lookup. induction t as [|[b k] t IH]; [reflexivity|]. cbn [map find fst snd].
  destruct (b =? a); [reflexivity|]. exact IH.
Qed.
Lemma live_lookup t a : live (heap_of t) a = negb (is_none (lookup t a)).
Proof.
  unfold live, heap_of, lookup. induction t as [|[b k] t IH]; [reflexivity|]. cbn [map existsb find fst snd].
  destruct (b =? a); [reflexivity|]. exact IH.
Qed.
Lemma remove_heap t a : remove_key (heap_of t) a = heap_of (filter (fun p => negb (fst p =? a)) t).
Proof.
  unfold remove_key, heap_of. induction t as [|[b k] t IH]; [reflexivity|]. cbn [map filter fst snd].
  destruct (b =? a); cbn [negb]; [exact IH|]. cbn [map fst snd]. now rewrite IH.
Qed.

Section Proofs.
Context {E : Env} {B : Bssl}.

Lemma load_heap t a : handle_ok (live (heap_of t)) a -> (a =? 0) = is_none (handle_key t a) /\
  match handle_key t a with Some k => load_key (heap_of t) a = Ret (object k) | None => True end.
Proof.
  intros Ha. unfold handle_key. destruct (N.eqb_spec a 0) as [->|Hz]; [now split|]. destruct Ha as [?|Ha]; [contradiction|].
  rewrite live_lookup in Ha. destruct (lookup t a) as [k|] eqn:El; [|discriminate]. split; [reflexivity|].
  unfold load_key. rewrite find_heap, El. reflexivity.
Qed.

Definition gather_errors (m : option gather) : list (bool * error) :=
  [ (is_none m, unexpected_null_data_e); (head_null_list (one m), unexpected_null_list_e); (has_missing (one m) 1, unexpected_null_slice_e) ].
Lemma has_missing_one g : has_missing (Some [g]) 1 = existsb missing (slices g).
Proof. unfold has_missing. change (takeN 1 [g]) with [g]. cbn [flat_map]. now rewrite app_nil_r. Qed.
Lemma gather_vec_ok m : match m with None => True | Some g => bssl_gather_ok g end ->
  exists acc, gather_list_to_vector m = Ret (first_error (gather_errors m), acc) /\
    (first_error (gather_errors m) = ok_e -> acc = message_bytes (one m) 1).
Proof.
  intro Hm. destruct m as [g|]; [|exists []; split; [reflexivity|discriminate]].
  unfold gather_list_to_vector, gather_errors. cbn [one is_none head_null_list]. rewrite has_missing_one, bytes_one.
  unfold null_list. destruct (g_list g) as [l|] eqn:El.
  - destruct (one_list never g l [] (fun _ => eq_refl) El Hm) as (acc & E1 & A1). cbn [is_none]. rewrite andb_false_r, E1.
    exists acc. destruct (existsb missing (slices g)); split; try reflexivity; try discriminate. intros _. now apply A1.
  - cbn [is_none]. rewrite andb_true_r, slices_null by assumption. destruct (g_count g =? 0); cbn [negb].
    + exists []. split; [reflexivity|]. intros _. unfold gather_bytes. now rewrite slices_null.
    + exists []. split; [reflexivity|discriminate].
Qed.
Lemma first_error_pass b e l : b = false -> first_error ((b, e) :: l) = first_error l.
Proof. now intros ->. Qed.

Lemma write_start out src n : len src = n -> n <= len out -> write_at out 0 src = Ret (src ++ dropN n out).
Proof. intros <- Hn. unfold write_at. rewrite N.add_0_l. destruct (N.leb_spec (len src) (len out)); [|lia]. now rewrite takeN_0. Qed.

(** ** sign *)
Theorem bssl_sign_ok t ctx a m out size : no_failure B -> signs B -> handle_ok (live (heap_of t)) a ->
  match m with None => True | Some g => bssl_gather_ok g end -> out_ok out size ->
  exists sig, signature_of B (handle_key t a) (message_bytes (one m) 1) sig /\
    n20_crypto_boringssl_sign ctx (heap_of t) a m out size =
      Ret (report (sign_errors ctx (handle_key t a) m out size) (signature_octets (handle_key t a)) sig out size).
Proof.
  intros Hf [Hed Hec] Ha Hm Ho. destruct (load_heap t a Ha) as [Hz Hl].
  assert (Hex : exists sig, signature_of B (handle_key t a) (message_bytes (one m) 1) sig).
  { unfold signature_of. destruct (handle_key t a) as [[?|[seed|c d]]|]; try (now exists []); try (eexists; reflexivity).
    destruct (Hec c d (match c with P256 => 1 | P384 => 2 end) (message_bytes (one m) 1)) as (r & s & Hr & Hs & Es).
    exists (raw_signature c r s), r, s. now splits. }
  destruct Hex as [sig Hsig]. exists sig. split; [assumption|].
  unfold n20_crypto_boringssl_sign, report, sign_errors. rewrite Hz, !Hf. destruct ctx; cbn [negb]; [|reflexivity].
  destruct (handle_key t a) as [k|]; cbn [is_none]; [|reflexivity]. destruct size as [size|]; [|reflexivity]. cbn [is_none]. rewrite Hl. cbn [bind].
  destruct k as [bits|p]; [reflexivity|]. cbn [wrong_kind is_secret Bool.eqb negb].
  destruct (gather_vec_ok m Hm) as (acc & E1 & A1).
  destruct p as [seed|c d].
  - cbn [object k_type k_body as_evp bind signature_octets]. change (3 =? key_type_cdi_e) with false. change (sign_params 3) with (Some (64, @None N)).
    cbv iota. unfold too_small.
    destruct out as [d|]; [|reflexivity]. cbn [is_none orb out_ok] in *. destruct (N.ltb_spec size 64); [reflexivity|].
    unfold sign_ed25519. rewrite !Hf, E1. cbn [bind]. 
    match goal with |- context [first_error ((false, invalid_context_e) :: ?l)] =>
      change (first_error ((false, invalid_context_e) :: l)) with (first_error (gather_errors m)) end.
    destruct (first_error (gather_errors m)) eqn:Eg; try reflexivity; [|exfalso; revert Eg; clear; unfold gather_errors, first_error;
      destruct (is_none m), (head_null_list (one m)), (has_missing (one m) 1); discriminate].
    rewrite (A1 eq_refl). cbn [signature_of] in Hsig. subst sig. rewrite (write_start d _ 64) by (try apply Hed; lia). cbn [bind]. now rewrite Hed.
  - assert (Hp : exists md, sign_params (k_type (object (SigningKey (EC c d)))) = Some (2 * coordinate c, Some md) /\
                            md = match c with P256 => 1 | P384 => 2 end /\ k_body (object (SigningKey (EC c d))) = Evp (EC c d) /\
                            k_type (object (SigningKey (EC c d))) =? key_type_cdi_e = false /\
                            signature_octets (Some (SigningKey (EC c d))) = 2 * coordinate c) by (destruct c; eexists; splits; reflexivity).
    destruct Hp as (md & P1 & P2 & P3 & P4 & P5). rewrite P4. unfold as_evp. rewrite P3. cbn [bind]. rewrite P1, P5. unfold too_small.
    destruct out as [o|]; [|reflexivity]. cbn [is_none orb out_ok] in *. destruct (N.ltb_spec size (2 * coordinate c)); [reflexivity|].
    unfold sign_ecdsa. rewrite !Hf. destruct m as [g|]; [|reflexivity]. cbn [is_none one head_null_list].
    rewrite null_is_none. change (negb (g_count g =? 0) && is_none (g_list g)) with (null_list g). destruct (null_list g) eqn:En; [reflexivity|].
    rewrite has_missing_one.
    assert (One : exists acc, match g_list g with
                            | Some l => bssl_slices (fun i => fails (c_sign_update i)) (N.to_nat (g_count g)) 0 l []
                            | None => Ret (ok_e, [])
                            end = Ret (if existsb missing (slices g) then unexpected_null_slice_e else ok_e, acc) /\
                            (existsb missing (slices g) = false -> acc = gather_bytes g)).
    { destruct (g_list g) as [l|] eqn:El.
      - exact (one_list _ g l [] (fun i => Hf (c_sign_update i)) El Hm).
      - unfold gather_bytes. rewrite slices_null by assumption. exists []. split; reflexivity. }
    destruct One as (acc2 & E2 & A2). rewrite E2. cbn [bind]. destruct (existsb missing (slices g)) eqn:Em; [reflexivity|].
    rewrite (A2 eq_refl). cbn [signature_of one] in Hsig. rewrite bytes_one, <- P2 in Hsig. destruct Hsig as (r & s & Hr & Hs & Es & ->). rewrite Es.
    destruct (unwrap_ok c r s o Hr Hs ltac:(lia)) as [U1 U2]. rewrite U1. destruct (N.ltb_spec 104 (len (ecdsa_der r s))); [lia|]. reflexivity.
Qed.

(** ** key_get_public_key *)
Theorem bssl_public_ok t ctx a out size : no_failure B -> publishes B -> handle_ok (live (heap_of t)) a -> out_ok out size ->
  exists pub, public_of B (handle_key t a) pub /\
    n20_crypto_boringssl_key_get_public_key ctx (heap_of t) a out size =
      Ret (report (public_errors ctx (handle_key t a) out size) (public_octets (handle_key t a)) pub out size).
Proof.
  intros Hf [Hed Hec] Ha Ho. destruct (load_heap t a Ha) as [Hz Hl].
  assert (Hex : exists pub, public_of B (handle_key t a) pub).
  { unfold public_of. destruct (handle_key t a) as [[?|[seed|c d]]|]; try (now exists []); try (eexists; reflexivity).
    destruct (Hec c d) as (x & y & Hx & Hy & Exy). eexists. exact Exy. }
  destruct Hex as [pub Hpub]. exists pub. split; [assumption|].
  unfold n20_crypto_boringssl_key_get_public_key, report, public_errors. rewrite Hz. destruct ctx; cbn [negb]; [|reflexivity].
  destruct (handle_key t a) as [k|]; cbn [is_none]; [|reflexivity]. destruct size as [size|]; [|reflexivity]. cbn [is_none]. rewrite Hl. cbn [bind].
  destruct k as [bits|p]; [reflexivity|]. cbn [wrong_kind is_secret Bool.eqb negb].
  destruct p as [seed|c d].
  - cbn [object k_type k_body as_evp bind public_octets]. change (3 =? key_type_ed25519_e) with true. change (public_key_size 3) with (Some 32). cbv iota. unfold too_small.
    destruct out as [o|]; [|reflexivity]. cbn [is_none orb out_ok] in *. destruct (N.ltb_spec size 32); [reflexivity|].
    cbn [negb]. rewrite Hf. cbn [public_of] in Hpub. subst pub. rewrite (write_start o _ 32) by (try apply Hed; lia). cbn [bind]. now rewrite Hed.
  - assert (Hp : public_key_size (k_type (object (SigningKey (EC c d)))) = Some (2 * coordinate c) /\
                 k_body (object (SigningKey (EC c d))) = Evp (EC c d) /\
                 negb (k_type (object (SigningKey (EC c d))) =? key_type_secp256r1_e) && negb (k_type (object (SigningKey (EC c d))) =? key_type_secp384r1_e) = false /\
                 public_octets (Some (SigningKey (EC c d))) = 2 * coordinate c) by (destruct c; splits; reflexivity).
    destruct Hp as (P1 & P2 & P3 & P4). rewrite P1, P4. unfold too_small.
    destruct out as [o|]; [|reflexivity]. cbn [is_none orb out_ok] in *. destruct (N.ltb_spec size (2 * coordinate c)); [reflexivity|].
    unfold as_evp. rewrite P2. cbn [bind]. rewrite P3, Hf. cbn [public_of] in Hpub. destruct (Hec c d) as (x & y & Hx & Hy & Exy).
    rewrite Hpub in *. injection Exy as ->. set (xy := be_bytes _ x ++ _).
    assert (Hxy : len xy = 2 * coordinate c) by (unfold xy; rewrite len_app, !len_be_bytes; lia).
    rewrite len_cons, Hxy, (N.add_comm 1), N.eqb_refl. cbn [negb get nth_error N.to_nat bind b2n N.eqb].
    change (b2n x04 =? 4) with true. cbn [negb].
    replace (x04 :: xy) with ([x04] ++ xy ++ []) by (rewrite app_nil_r; reflexivity). rewrite read_mid by (reflexivity || assumption). cbn [bind].
    rewrite (write_start o _ _ Hxy) by lia. reflexivity.
Qed.

(** ** make_secret and key_free *)
Context {A : Allocator}.
Theorem bssl_make_secret_ok h ctx s ko : match s with None => True | Some s => slice_ok s end ->
  n20_crypto_boringssl_make_secret ctx h s ko =
  Ret (match first_error (secret_errors ctx s ko), s with
       | ok_e, Some s => (ok_e, (fresh h, object (SecretKey (slice_bytes s))) :: h, Some (fresh h))
       | e, _ => (e, h, ko)
       end).
Proof.
  intro Hs. unfold n20_crypto_boringssl_make_secret, secret_errors. destruct ctx; cbn [negb]; [|reflexivity].
  destruct s as [s|]; [|reflexivity]. rewrite null_is_none. destruct (is_none (sl_buf s) || (sl_size s =? 0)) eqn:En; [reflexivity|].
  destruct ko as [ko|]; [|reflexivity]. rewrite input_ok; [reflexivity|assumption|]. unfold missing. destruct (sl_buf s); [reflexivity|discriminate].
Qed.
Theorem bssl_free_ok t ctx a : handle_ok (live (heap_of t)) a -> lookup t 0 = None ->
  n20_crypto_boringssl_key_free ctx (heap_of t) a =
  Ret (if ctx then (ok_e, heap_of (filter (fun p => negb (fst p =? a)) t)) else (invalid_context_e, heap_of t)).
Proof.
  intros Ha H0. destruct (load_heap t a Ha) as [Hz Hl]. unfold n20_crypto_boringssl_key_free. destruct ctx; cbn [negb]; [|reflexivity].
  rewrite <- remove_heap. destruct (N.eqb_spec a 0) as [->|Hn].
  - do 2 f_equal. clear - H0. unfold remove_key, heap_of, lookup in *. induction t as [|[b k] t IH]; [reflexivity|]. cbn [map filter find fst snd] in *.
    destruct (b =? 0); [discriminate|]. cbn [negb]. now rewrite <- IH.
  - destruct (handle_key t a) as [k|]; [|discriminate]. rewrite Hl. reflexivity.
Qed.

(** ** kdf *)
Lemma first_error_app l1 l2 : first_error (l1 ++ l2) = match find fst l1 with Some (_, e) => e | None => first_error l2 end.
Proof. unfold first_error. induction l1 as [|[b e] l1 IH]; [reflexivity|]. cbn [app find fst]. destruct b; [reflexivity|exact IH]. Qed.

(** [derived] as a function of the number of candidates looked at. *)
Definition derive (fuel : nat) (bits context : list byte) (ty : N) : option key :=
  let seed := HKDF_expand SHA512 bits context 32 in
  match kind_of ty with
  | Some Secret => Some (SecretKey seed)
  | Some (Signing None) => Some (SigningKey (Ed25519 seed))
  | Some (Signing (Some c)) => option_map (fun d => SigningKey (EC c d)) (first_suitable (HMAC SHA512) 64 (curve_order c) seed fuel)
  | None => None
  end.
Lemma derive_derived fuel bits context ty k : derive fuel bits context ty = Some k -> derived B bits context ty k.
Proof.
  unfold derive, derived. destruct (kind_of ty) as [[|[c|]]|]; intro Hd; try (now injection Hd as <-); [|discriminate].
  destruct (first_suitable _ _ _ _ fuel) as [d|] eqn:Ef; [|discriminate]. injection Hd as <-. exists d. split; [|reflexivity].
  eapply first_suitable_spec. exact Ef.
Qed.
Lemma derived_derive bits context ty k : derived B bits context ty k -> exists n, forall fuel, (n <= fuel)%nat -> derive fuel bits context ty = Some k.
Proof.
  unfold derive, derived. destruct (kind_of ty) as [[|[c|]]|]; try (intros ->; exists O; reflexivity); [|contradiction].
  intros (d & Hd & ->). destruct (first_suitable_complete _ _ _ _ _ Hd) as [n Hn]. exists n. intros fuel Hl. now rewrite Hn.
Qed.
Lemma derived_unique bits context ty k1 k2 : derived B bits context ty k1 -> derived B bits context ty k2 -> k1 = k2.
Proof.
  unfold derived. destruct (kind_of ty) as [[|[c|]]|]; try (intros -> ->; reflexivity); [|contradiction].
  intros (d1 & H1 & ->) (d2 & H2 & ->). now rewrite (rfc6979_unique _ _ _ _ _ _ H1 H2).
Qed.

Lemma kdf_ec_ok fuel ty c seed : no_failure B -> computes_sha2 B ->
  kdf_ec fuel ty c seed = match first_suitable (HMAC SHA512) 64 (curve_order c) seed fuel with
                          | Some d => Ret (inr (mkKey ty (Evp (EC c d))))
                          | None => OutOfFuel
                          end.
Proof.
  intros Hf Hc. unfold kdf_ec. rewrite !Hf. cbn [negb]. rewrite (k_generation_sha2 B fuel seed None sha2_512_e SHA512) by (assumption || reflexivity).
  unfold k_data. cbn [option_map]. rewrite app_nil_r. change (N.to_nat (out_bytes SHA512)) with 64%nat.
  destruct (first_suitable _ _ _ _ _); reflexivity.
Qed.
Lemma kind_cases (P : N -> Prop) : P 1 -> P 2 -> P 3 -> P 4 -> (forall ty, kind_of ty = None -> P ty) -> forall ty, P ty.
Proof. intros H1 H2 H3 H4 Hn ty. destruct ty as [|[[[]|[]|]|[[]|[]|]|]]; try assumption; apply Hn; reflexivity. Qed.
Lemma kdf_key_ok fuel ty bits context : no_failure B -> computes_sha2 B ->
  kdf_key fuel ty (HKDF_expand SHA512 bits context 32) =
  match kind_of ty with
  | None => Ret (inl invalid_key_type_e)
  | Some _ => match derive fuel bits context ty with Some k => Ret (inr (object k)) | None => OutOfFuel end
  end.
Proof.
  intros Hf Hc. unfold derive. set (seed := HKDF_expand SHA512 bits context 32). revert ty. refine (kind_cases _ _ _ _ _ _).
  - change (kdf_key fuel 1 seed) with (kdf_ec fuel 1 P256 seed). rewrite kdf_ec_ok by assumption. cbn [kind_of]. now destruct (first_suitable _ _ _ _ _).
  - change (kdf_key fuel 2 seed) with (kdf_ec fuel 2 P384 seed). rewrite kdf_ec_ok by assumption. cbn [kind_of]. now destruct (first_suitable _ _ _ _ _).
  - unfold kdf_key. rewrite Hf. reflexivity.
  - reflexivity.
  - intros ty Ht. rewrite Ht. unfold kdf_key, key_type_ed25519_e, key_type_cdi_e, key_type_secp256r1_e, key_type_secp384r1_e.
    destruct (N.eqb_spec ty 3) as [->|]; [discriminate|]. destruct (N.eqb_spec ty 4) as [->|]; [discriminate|].
    destruct (N.eqb_spec ty 1) as [->|]; [discriminate|]. destruct (N.eqb_spec ty 2) as [->|]; [discriminate|]. reflexivity.
Qed.

Definition kdf_result (fuel : nat) (t : table) ctx a ty c ko : res (error * heap * option N) :=
  match first_error (kdf_errors ctx (handle_key t a) ty c ko) with
  | ok_e =>
      match handle_key t a with
      | Some (SecretKey bits) =>
          match derive fuel bits (message_bytes (one c) 1) ty with
          | Some k => Ret (ok_e, (fresh (heap_of t), object k) :: heap_of t, Some (fresh (heap_of t)))
          | None => OutOfFuel
          end
      | _ => Ret (ok_e, heap_of t, ko)
      end
  | e => Ret (e, heap_of t, ko)
  end.
Theorem bssl_kdf_ok fuel t ctx a ty c ko : no_failure B -> computes_sha2 B -> handle_ok (live (heap_of t)) a ->
  match c with None => True | Some g => bssl_gather_ok g end ->
  n20_crypto_boringssl_kdf fuel ctx (heap_of t) a ty c ko = kdf_result fuel t ctx a ty c ko.
Proof.
  intros Hf Hc Ha Hm. destruct (load_heap t a Ha) as [Hz Hl]. unfold n20_crypto_boringssl_kdf, kdf_result, kdf_errors. rewrite Hz, !Hf.
  destruct ctx; cbn [negb]; [|reflexivity]. destruct (handle_key t a) as [k|]; cbn [is_none]; [|reflexivity]. rewrite Hl. cbn [bind].
  destruct k as [bits|[seed|[] d]]; try reflexivity. cbn [object k_type k_body as_cdi bind wrong_kind is_secret Bool.eqb negb].
  change (4 =? key_type_cdi_e) with true. cbn [negb]. destruct ko as [ko|]; [|reflexivity]. cbn [is_none].
  destruct (gather_vec_ok c Hm) as (acc & E1 & A1). rewrite E1. cbn [bind].
  match goal with |- context [first_error ((false, invalid_context_e) :: ?l)] =>
    change (first_error ((false, invalid_context_e) :: l)) with (first_error (gather_errors c ++ [(is_none (kind_of ty), invalid_key_type_e)])) end.
  assert (Hg : gather_errors c = [(is_none c, unexpected_null_data_e); (head_null_list (one c), unexpected_null_list_e); (has_missing (one c) 1, unexpected_null_slice_e)]) by reflexivity.
  rewrite Hg in A1 |- *. cbn [app]. unfold first_error in A1 |- *. cbn [find fst] in A1 |- *.
  destruct (is_none c); [reflexivity|]. destruct (head_null_list (one c)); [reflexivity|]. destruct (has_missing (one c) 1); [reflexivity|].
  rewrite (A1 eq_refl). destruct (Hc 3 SHA512 eq_refl) as (_ & _ & _ & Hx). change sha2_512_e with 3. rewrite Hx.
  change (32 <=? 255 * out_bytes SHA512) with true. cbv iota. rewrite kdf_key_ok by assumption.
  destruct (kind_of ty) as [kd|] eqn:Ek; [|reflexivity]. cbn [is_none].
  destruct (derive fuel bits (message_bytes (one c) 1) ty); reflexivity.
Qed.
End Proofs.

(** ** With failing calls *)
Section Failing.
Context `{E : Env} (B : Bssl) `{A : Allocator}.

Ltac failed :=
  first [ right; exists no_resources_e; split; [eapply no_res; eassumption|reflexivity]
        | right; exists implementation_specific_e; split; [eapply impl_spec; eassumption|reflexivity] ].
Lemma slices_failing (f : N -> call) : forall n i l acc,
  bssl_slices (fun i => @fails B (f i)) n i l acc = bssl_slices (fun _ => false) n i l acc \/
  exists e acc', resource_error B e /\ bssl_slices (fun i => @fails B (f i)) n i l acc = Ret (e, acc').
Proof.
  induction n as [|n IH]; intros i l acc; [left; reflexivity|]. cbn [bssl_slices].
  destruct (get l i) as [s| |]; cbn [bind]; try (left; reflexivity). destruct (sl_size s =? 0); [apply IH|].
  destruct (null (sl_buf s)); [left; reflexivity|]. destruct (input s) as [b| |]; cbn [bind]; try (left; reflexivity).
  destruct (@fails B (f i)) eqn:Ef; [|apply IH].
  right. exists implementation_specific_e. eexists. split; [eapply impl_spec; eassumption|reflexivity].
Qed.
Lemma kdf_key_failing fuel ty seed : failing B (@kdf_key B fuel ty seed) (@kdf_key (reliable B) fuel ty seed) inl_of.
Proof.
  unfold kdf_key. destruct (_ =? _); [cbn [reliable fails negb]; chase|]. destruct (_ =? _); [chase|]. destruct (_ || _); [|chase].
  unfold kdf_ec. cbn [reliable fails negb]. change (@curve_order (reliable B)) with (@curve_order B). apply failing_need1; [tauto|]. apply failing_try; [apply k_generation_failing|].
  intros k. chase.
Qed.
Lemma kdf_failing fuel ctx h a ty c ko :
  failing B (@n20_crypto_boringssl_kdf B A fuel ctx h a ty c ko)
            (@n20_crypto_boringssl_kdf (reliable B) A fuel ctx h a ty c ko) (fun e => (e, h, ko)).
Proof.
  unfold n20_crypto_boringssl_kdf. destruct (negb ctx); [left; reflexivity|]. destruct (a =? 0); [left; reflexivity|].
  destruct (load_key h a) as [k| |]; cbn [bind]; try (left; reflexivity). destruct (negb _); [left; reflexivity|].
  destruct (as_cdi k) as [bits| |]; cbn [bind]; try (left; reflexivity). destruct ko as [ko|]; [|left; reflexivity].
  destruct (gather_list_to_vector c) as [[[] v]| |]; cbn [bind]; try (left; reflexivity). cbn [reliable fails bssl_hkdf_expand].
  destruct (@fails B c_hkdf_expand) eqn:E1; [failed|]. destruct (bssl_hkdf_expand sha2_512_e bits v 32) as [seed|]; [|left; reflexivity].
  destruct (kdf_key_failing fuel ty seed) as [->|(e & He & ->)]; [left; reflexivity|]. cbn [bind inl_of]. right. exists e. now split.
Qed.

Definition failing_size (x y : res outcome) (out : ptr) (size : option N) : Prop :=
  x = y \/ exists e n, resource_error B e /\ x = Ret (e, out, Some n) /\ (size = Some n \/ n = 104).
Ltac failed_size n :=
  right; first [ exists no_resources_e, n; split; [eapply no_res; eassumption|split; [reflexivity|now (left + right)]]
               | exists implementation_specific_e, n; split; [eapply impl_spec; eassumption|split; [reflexivity|now (left + right)]] ].
Lemma sign_failing ctx h a m out size :
  failing_size (@n20_crypto_boringssl_sign B ctx h a m out size) (@n20_crypto_boringssl_sign (reliable B) ctx h a m out size) out size.
Proof.
  unfold n20_crypto_boringssl_sign, failing_size. destruct (negb ctx); [left; reflexivity|]. destruct (a =? 0); [left; reflexivity|].
  destruct size as [size|]; [|left; reflexivity]. destruct (load_key h a) as [k| |]; cbn [bind]; try (left; reflexivity).
  destruct (_ =? _); [left; reflexivity|]. destruct (as_evp k) as [p| |]; cbn [bind]; try (left; reflexivity).
  change (@fails (reliable B) c_md_ctx_new) with false. cbv iota. destruct (@fails B c_md_ctx_new) eqn:E1; [failed_size size|].
  destruct (sign_params (k_type k)) as [[n [md|]]|]; [| |left; reflexivity]; (destruct out as [o|]; [|left; reflexivity]);
    (destruct (size <? n); [left; reflexivity|]).
  - unfold sign_ecdsa. destruct m as [g|]; [|left; reflexivity]. destruct (_ && _); [left; reflexivity|].
    change (@fails (reliable B) c_sign_init) with false. cbv iota. destruct (@fails B c_sign_init) eqn:E2; [failed_size size|].
    assert (H : match g_list g with
                | None => Ret (ok_e, [])
                | Some l => bssl_slices (fun i => @fails B (c_sign_update i)) (N.to_nat (g_count g)) 0 l []
                end =
                match g_list g with
                | None => Ret (ok_e, [])
                | Some l => bssl_slices (fun i => @fails (reliable B) (c_sign_update i)) (N.to_nat (g_count g)) 0 l []
                end \/
                exists e acc', resource_error B e /\
                match g_list g with
                | None => Ret (ok_e, [])
                | Some l => bssl_slices (fun i => @fails B (c_sign_update i)) (N.to_nat (g_count g)) 0 l []
                end = Ret (e, acc')).
    { destruct (g_list g) as [l|]; [apply slices_failing|left; reflexivity]. }
    destruct H as [->|(e & acc & He & ->)].
    + match goal with |- bind ?x _ = _ \/ _ => destruct x as [[[] v]| |] end; cbn [bind]; try (left; reflexivity).
      destruct p as [seed|c d]; [left; reflexivity|]. change (@fails (reliable B) c_sign_final) with false. cbv iota.
      destruct (@fails B c_sign_final) eqn:E3; [|left; reflexivity]. failed_size 104.
    + cbn [bind]. right. exists e, size. split; [assumption|]. split; [|now left]. destruct He as [[-> | ->] _]; reflexivity.
  - unfold sign_ed25519. change (@fails (reliable B) c_sign_init) with false. cbv iota. destruct (@fails B c_sign_init) eqn:E2; [failed_size size|].
    destruct (gather_list_to_vector m) as [[[] v]| |]; cbn [bind]; try (left; reflexivity).
    destruct p as [seed|c d]; [|left; reflexivity]. change (@fails (reliable B) c_sign) with false. cbv iota zeta.
    destruct (@fails B c_sign) eqn:E3; [failed_size size|left; reflexivity].
Qed.
Lemma public_failing ctx h a out size :
  failing B (@n20_crypto_boringssl_key_get_public_key B ctx h a out size)
            (@n20_crypto_boringssl_key_get_public_key (reliable B) ctx h a out size) (fun e => (e, out, size)).
Proof.
  unfold n20_crypto_boringssl_key_get_public_key. destruct (negb ctx); [left; reflexivity|]. destruct (a =? 0); [left; reflexivity|].
  destruct size as [size|]; [|left; reflexivity]. destruct (load_key h a) as [k| |]; cbn [bind]; try (left; reflexivity).
  destruct (public_key_size (k_type k)) as [n|]; [|left; reflexivity]. destruct out as [o|]; [|left; reflexivity].
  destruct (size <? n); [left; reflexivity|]. destruct (as_evp k) as [p| |]; cbn [bind]; try (left; reflexivity).
  destruct p as [seed|c d].
  - destruct (negb _); [left; reflexivity|]. change (@fails (reliable B) c_raw_public) with false. cbv iota.
    destruct (@fails B c_raw_public) eqn:E1; [failed|left; reflexivity].
  - destruct (_ && _); [left; reflexivity|]. change (@fails (reliable B) c_i2d) with false. cbv iota.
    destruct (@fails B c_i2d) eqn:E1; [failed|left; reflexivity].
Qed.
End Failing.

(** ** One call *)
Section Step.
Context `{E : Env} (B : Bssl) `{A : Allocator}.
Hypotheses (Hc : computes_sha2 B) (Hs : signs B) (Hp : publishes B) (Ha : allocator_ok A).

Lemma fresh_heap t : fresh (heap_of t) <> 0 /\ lookup t (fresh (heap_of t)) = None.
Proof. destruct (Ha (heap_of t)) as [Hz Hn]. split; [assumption|]. rewrite find_heap in Hn. now destruct (lookup t _). Qed.
Lemma lookup_cons a k t b : lookup ((a, k) :: t) b = if a =? b then Some k else lookup t b.
Proof. unfold lookup. cbn [find fst]. now destruct (a =? b). Qed.
Lemma lookup_filter t a b : lookup (filter (fun p => negb (fst p =? a)) t) b = if a =? b then None else lookup t b.
Proof.
  induction t as [|[c k] t IH]; [now destruct (a =? b)|]. cbn [filter fst]. rewrite lookup_cons.
  destruct (N.eqb_spec c a) as [->|Hca]; cbn [negb].
  - rewrite IH. now destruct (a =? b).
  - rewrite lookup_cons, IH. destruct (N.eqb_spec c b) as [->|], (N.eqb_spec a b) as [->|]; try reflexivity. contradiction.
Qed.
Lemma no_ok e : resource_error B e -> e <> ok_e.
Proof. intros [[-> | ->] _]; discriminate. Qed.

Theorem call_lawful fuel t o : lookup t 0 = None -> op_ok (live (heap_of t)) o ->
  (exists r t', call_op fuel (heap_of t) o = Ret (r, heap_of t') /\ lawful B t o r t' /\ lookup t' 0 = None) \/
  (call_op fuel (heap_of t) o = OutOfFuel /\
   exists ctx a ty g ko c bits, o = Kdf ctx a ty g ko /\ kind_of ty = Some (Signing (Some c)) /\ handle_key t a = Some (SecretKey bits) /\
     first_suitable (HMAC SHA512) 64 (curve_order c) (HKDF_expand SHA512 bits (message_bytes (one g) 1) 32) fuel = None).
Proof.
  intros H0 Ho. destruct (fresh_heap t) as [Fz Fn].
  assert (Hcons : forall k, lookup ((fresh (heap_of t), k) :: t) 0 = None).
  { intro k. rewrite lookup_cons. destruct (N.eqb_spec (fresh (heap_of t)) 0); [contradiction|assumption]. }
  destruct o as [ctx s ko|ctx a ty c ko|ctx a m out size|ctx a out size|ctx a]; cbn [op_ok call_op lawful] in *.
  - left. rewrite bssl_make_secret_ok by assumption. cbn [bind].
    assert (Hok : first_error (secret_errors ctx s ko) = ok_e -> s <> None) by (intros Hk ->; destruct ctx; discriminate).
    destruct (first_error (secret_errors ctx s ko)) eqn:Ee;
      try (eexists; exists t; split; [reflexivity|]; split; [|assumption]; split; [left; now rewrite Ee|split; reflexivity]).
    destruct s as [s|]; [|now contradiction (Hok eq_refl)].
    eexists. exists ((fresh (heap_of t), SecretKey (slice_bytes s)) :: t). split; [reflexivity|]. split; [|apply Hcons].
    split; [now left|]. exists (fresh (heap_of t)), (SecretKey (slice_bytes s)). now splits.
  - destruct Ho as [Hh Hg]. destruct (kdf_failing B fuel ctx (heap_of t) a ty c ko) as [->|(e & He & ->)].
    + rewrite (@bssl_kdf_ok E (reliable B) A fuel t ctx a ty c ko (reliable_ok B) Hc Hh Hg). unfold kdf_result.
      assert (Hok : first_error (kdf_errors ctx (handle_key t a) ty c ko) = ok_e -> exists bits, handle_key t a = Some (SecretKey bits)).
      { unfold kdf_errors. destruct ctx; [|discriminate]. destruct (handle_key t a) as [[bits|p]|]; try discriminate. now exists bits. }
      destruct (first_error (kdf_errors ctx (handle_key t a) ty c ko)) eqn:Ee;
        try (left; eexists; exists t; cbn [bind]; split; [reflexivity|]; split; [|assumption]; split; [left; now rewrite Ee|split; reflexivity]).
      destruct (Hok eq_refl) as [bits Hb]. pose proof Ee as Ee1. rewrite Hb in Ee1 |- *. destruct (derive fuel bits (message_bytes (one c) 1) ty) as [k|] eqn:Ed.
      * left. eexists. exists ((fresh (heap_of t), k) :: t). cbn [bind]. split; [reflexivity|]. split; [|apply Hcons].
        split; [left; now rewrite Ee1|]. exists (fresh (heap_of t)), k. splits; try assumption; try reflexivity.
        exists bits. split; [reflexivity|]. exact (derive_derived _ _ _ _ _ Ed).
      * right. split; [reflexivity|]. unfold derive in Ed. destruct (kind_of ty) as [[|[c0|]]|] eqn:Ek; try discriminate.
        -- exists ctx, a, ty, c, ko, c0, bits. splits; try reflexivity; try assumption.
           change (@curve_order (reliable B) c0) with (@curve_order B c0) in Ed. destruct (first_suitable _ _ _ _ _); [discriminate|reflexivity].
        -- exfalso. revert Ee. unfold kdf_errors, first_error. rewrite Hb, Ek. destruct ctx, ko, c; cbn [negb is_none wrong_kind is_secret Bool.eqb find fst]; try discriminate.
           destruct (head_null_list _); [discriminate|]. destruct (has_missing _ _); discriminate.
    + left. eexists. exists t. cbn [bind]. split; [reflexivity|]. split; [|assumption]. split; [now right|].
      destruct e; try (split; reflexivity). now apply no_ok in He.
  - left. destruct Ho as (Hh & Hg & Hout). destruct (sign_failing B ctx (heap_of t) a m out size) as [->|(e & n & He & -> & Hn)].
    + destruct (@bssl_sign_ok E (reliable B) t ctx a m out size (reliable_ok B) Hs Hh Hg Hout) as (sig & H1 & ->).
      eexists. exists t. cbn [bind]. split; [reflexivity|]. split; [|assumption]. split; [reflexivity|]. left. exists sig. now split.
    + eexists. exists t. cbn [bind]. split; [reflexivity|]. split; [|assumption]. split; [reflexivity|]. right. exists e, n. now splits.
  - left. destruct Ho as (Hh & Hout). destruct (public_failing B ctx (heap_of t) a out size) as [->|(e & He & ->)].
    + destruct (@bssl_public_ok (reliable B) t ctx a out size (reliable_ok B) Hp Hh Hout) as (pub & H1 & ->).
      eexists. exists t. cbn [bind]. split; [reflexivity|]. split; [|assumption]. split; [reflexivity|]. left. exists pub. now split.
    + eexists. exists t. cbn [bind]. split; [reflexivity|]. split; [|assumption]. split; [reflexivity|]. right. exists e. now split.
  - left. rewrite bssl_free_ok by assumption. destruct ctx; cbn [bind]; eexists.
    + exists (filter (fun p => negb (fst p =? a)) t). split; [reflexivity|]. split; [now split|]. rewrite lookup_filter. now destruct (a =? 0).
    + exists t. split; [reflexivity|]. split; [now split|assumption].
Qed.

End Step.

Theorem history_lawful `{E : Env} (B : Bssl) : computes_sha2 B -> signs B -> publishes B ->
  forall h tr h', history B h tr h' -> forall t, h = heap_of t -> lookup t 0 = None ->
  exists t', lawful_history B t tr t' /\ h' = heap_of t' /\ lookup t' 0 = None.
Proof.
  intros Hc Hs Hp. induction 1 as [h|A fuel f h o r h1 tr h2 Ha Ho Hcall _ IH]; intros t -> H0.
  - exists t. splits; try assumption; constructor.
  - destruct (call_lawful (with_fails f B) Hc Hs Hp Ha fuel t o H0 Ho) as [(r' & t1 & Hr & Hl & H1)|(Hr & _)]; rewrite Hr in Hcall; [|discriminate].
    injection Hcall as <- <-. destruct (IH t1 eq_refl H1) as (t2 & L2 & E2 & Z2). exists t2. splits; try assumption. now apply lawful_cons with t1.
Qed.
