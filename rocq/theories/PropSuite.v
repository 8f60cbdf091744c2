(** Property C56: the tests of the digest interface. *)
From Coq Require Import Strings.String.
From Coq Require Import List NArith ZArith Bool Strings.Byte Lia.
From Coq Require Import ZifyBool ZifyNat ZifyN.
From Verif Require Import TestUtils SpecTest TestProofs PropTest.
From Verif Require Import Base BaseFacts Res SpecSha2 ShaFacts Sha256 Sha512 PropSha Crypto SpecMac SpecCrypto CryptoProofs PropCrypto Bssl BsslKeys SpecBssl BsslProofs PropBssl.
From Verif Require Import SpecClient PropClient.
From Verif Require Import CryptoTest SpecSuite.
Import ListNotations.
Open Scope N_scope.

(** ** Pieces *)
Lemma one_slice s : message_bytes (Some [mkGather 1 (Some [s])]) 1 = slice_bytes s.
Proof. change ((slice_bytes s ++ []) ++ [] = slice_bytes s). now rewrite !app_nil_r. Qed.
Lemma one_missing s : has_missing (Some [mkGather 1 (Some [s])]) 1 = missing s.
Proof. change (missing s || false = missing s). apply orb_false_r. Qed.
Lemma same_eq a b : same a b = true <-> a = b.
Proof. unfold same. destruct (list_eq_dec byte_eq_dec a b); split; auto; discriminate. Qed.
Lemma same_refl a : same a a = true.
Proof. now apply same_eq. Qed.
Lemma says_refl n : says (Some n) n = true.
Proof. apply N.eqb_refl. Qed.
Lemma len_zeros n : len (zeros n) = n.
Proof. unfold zeros. rewrite len_repeat. lia. Qed.
Lemma dropN_zeros n m : dropN n (zeros m) = repeat x00 (N.to_nat (m - n)).
Proof.
  destruct (N.leb_spec n m) as [H|H].
  - unfold zeros. replace (N.to_nat m) with (N.to_nat n + N.to_nat (m - n))%nat by lia. rewrite repeat_app.
    pose proof (len_repeat x00 (N.to_nat n)) as Hl. rewrite N2Nat.id in Hl. rewrite <- Hl at 1. apply dropN_app_len.
  - rewrite dropN_all by (rewrite len_zeros; lia). replace (N.to_nat (m - n)) with O by lia. reflexivity.
Qed.
Lemma contents_data `{Cxx} v : contents (data v) = v.
Proof. destruct v; [|reflexivity]. unfold data. now destruct empty_data_null. Qed.
Lemma data_out `{Cxx} v n : n <= len v -> out_ok (data v) (Some n).
Proof. intro H1. unfold out_ok, data. destruct v; [destruct empty_data_null; [exact I|exact H1]|exact H1]. Qed.
Lemma slice_for_ok `{Env} `{Cxx} v : len v < SZ -> slice_ok (slice_for v).
Proof. intro H1. unfold slice_ok, slice_for. cbn. split; [exact H1|]. unfold data. destruct v; [destruct empty_data_null|]; cbn; try exact I; lia. Qed.
Lemma slice_for_bytes `{Cxx} v : slice_bytes (slice_for v) = v.
Proof. unfold slice_bytes, slice_for, data. destruct v; cbn [sl_buf sl_size]; [now destruct empty_data_null|]. now rewrite takeN_len. Qed.
Lemma slice_for_there `{Cxx} v : missing (slice_for v) = false.
Proof. unfold missing, slice_for, data. destruct v; cbn [sl_buf sl_size]; [|reflexivity]. now destruct empty_data_null. Qed.
Lemma slice_for_key `{Env} `{Libc} `{Cxx} v : (empty_data_null = true -> memcpy_null_ok = true) -> fits_memory v -> key_ok (slice_for v).
Proof.
  intros Hn [H2 H3]. unfold key_ok. rewrite slice_for_bytes. splits; [now apply slice_for_ok|lia|]. unfold slice_for, data. cbn [sl_buf].
  destruct v; [|discriminate]. destruct empty_data_null; [auto|discriminate].
Qed.
Lemma okm_data `{Env} `{Cxx} L : L < SZ -> okm_ok L (data (zeros L)).
Proof.
  intro H1. split; [exact H1|]. pose proof (len_zeros L) as Hz. unfold data. destruct (zeros L); [|rewrite Hz; lia]. destruct empty_data_null; [exact I|]. rewrite Hz. lia.
Qed.
Lemma data_none `{Cxx} v : is_none (data v) && negb (len v =? 0) = false.
Proof. unfold data. destruct v; [destruct empty_data_null; reflexivity|reflexivity]. Qed.
Lemma alg_known alg A : algorithm alg = Some A -> known A.
Proof. apply algorithm_known. Qed.

Lemma for_each_iff {T} (P : T -> Prop) body : forall l,
  (forall x, In x l -> exists o : option unit, body x tt = Ret o /\ (o = Some tt <-> P x)) ->
  exists o, for_each l tt body = Ret o /\ (o = Some tt <-> Forall P l).
Proof.
  induction l as [|x l IH]; intro H; cbn [for_each].
  - exists (Some tt). split; [reflexivity|]. split; [constructor|reflexivity].
  - destruct (H x (or_introl eq_refl)) as (o & -> & Ho). cbn [bind]. destruct o as [[]|].
    + destruct IH as (o & -> & Hl); [intros; apply H; now right|]. exists o. split; [reflexivity|]. rewrite Hl. split.
      * constructor; [now apply Ho|assumption].
      * now inversion 1.
    + exists None. split; [reflexivity|]. split; [discriminate|]. inversion 1; subst. now apply Ho.
Qed.
Lemma for_each_pass {T S} body : forall (l : list T) (s : S),
  (forall x s, In x l -> exists s', body x s = Ret (Some s')) -> exists s', for_each l s body = Ret (Some s').
Proof.
  induction l as [|x l IH]; intros s H; cbn [for_each]; [now exists s|].
  destruct (H x s (or_introl eq_refl)) as (s' & ->). cbn [bind]. apply IH. intros. apply H. now right.
Qed.
Lemma not_an_algorithm : algorithm minus_one = None.
Proof. unfold algorithm. apply nth_error_None. cbn [length]. unfold minus_one. lia. Qed.

(** Preconditions of concrete calls, by computation. *)
Definition small_slice (s : slice) : bool := (sl_size s <? 4294967296) && match sl_buf s with None => true | Some d => sl_size s <=? len d end.
Lemma small_slice_ok `{Env} s : small_slice s = true -> slice_ok s.
Proof.
  unfold small_slice, slice_ok. intro Hb. apply andb_prop in Hb. destruct Hb as [H1 H2]. apply N.ltb_lt in H1. pose proof SZ_lo. split; [lia|].
  destruct (sl_buf s); [now apply N.leb_le|exact I].
Qed.
Definition small_gather (g : gather) : bool := (g_count g <=? len (slices g)) && forallb small_slice (slices g).
Lemma small_gather_ok `{Env} g : small_gather g = true -> gather_ok g.
Proof.
  unfold small_gather. intro Hb. apply andb_prop in Hb. destruct Hb as [H1 H2]. split; [now apply N.leb_le|].
  apply Forall_forall. intros s Hs. apply small_slice_ok. rewrite forallb_forall in H2. now apply H2.
Qed.
Definition small_digest (ms : option (list gather)) (count : N) (out : ptr) (size : option N) : bool :=
  out_okb out size &&
  match ms with
  | None => true
  | Some [] => false
  | Some (g :: more) => (count <=? len (g :: more)) && (small_gather g || is_none (g_list g)) && forallb small_gather (takeN (count - 1) more)
  end && (len (message_bytes ms count) <? 2305843009213693952).
Lemma small_digest_ok `{Env} ms count out size : small_digest ms count out size = true -> digest_pre ms count out size.
Proof.
  unfold small_digest, digest_pre. intro Hb. apply andb_prop in Hb. destruct Hb as [Hb H3]. apply andb_prop in Hb. destruct Hb as [H1 H2]. splits.
  - now apply out_okb_ok.
  - destruct ms as [[|g more]|]; [discriminate| |exact I]. apply andb_prop in H2. destruct H2 as [H2 H5]. apply andb_prop in H2. destruct H2 as [H2 H4].
    splits.
    + now apply N.leb_le.
    + apply orb_prop in H4. destruct H4 as [H4|H4]; [left; now apply small_gather_ok|right]. destruct (g_list g); [discriminate|reflexivity].
    + apply Forall_forall. intros x Hx. apply small_gather_ok. rewrite forallb_forall in H5. now apply H5.
  - now apply N.ltb_lt.
Qed.
(** The key is there, or a NULL key is fine. *)
Definition small_key (null : bool) (key : slice) : bool :=
  small_slice key && (len (slice_bytes key) <? 2305843009213693952) && (negb (is_none (sl_buf key)) || null).
Lemma small_key_ok `{Env} `{Libc} null key : (null = true -> memcpy_null_ok = true) -> small_key null key = true -> key_ok key.
Proof.
  intros Hn. unfold small_key, key_ok. intro Hb. apply andb_prop in Hb. destruct Hb as [Hb H3]. apply andb_prop in Hb. destruct Hb as [H1 H2]. splits.
  - now apply small_slice_ok.
  - now apply N.ltb_lt.
  - intro Hk. rewrite Hk in H3. exact (Hn H3).
Qed.
Definition small_hmac null key m out size : bool :=
  small_key null key && out_okb out size && match m with None => true | Some g => small_gather g || is_none (g_list g) end &&
  (128 + len (message_bytes (one m) 1) <? 2305843009213693952).
Lemma small_hmac_ok `{Env} `{Libc} null key m out size : (null = true -> memcpy_null_ok = true) -> small_hmac null key m out size = true -> hmac_pre key m out size.
Proof.
  intros Hn. unfold small_hmac, hmac_pre. intro Hb. apply andb_prop in Hb. destruct Hb as [Hb H4]. apply andb_prop in Hb. destruct Hb as [Hb H3].
  apply andb_prop in Hb. destruct Hb as [H1 H2]. splits.
  - now apply small_key_ok with null.
  - now apply out_okb_ok.
  - destruct m as [g|]; [|exact I]. apply orb_prop in H3. destruct H3 as [H3|H3]; [left; now apply small_gather_ok|right].
    destruct (g_list g); [discriminate|reflexivity].
  - now apply N.ltb_lt.
Qed.
Definition small_extract null ikm salt out size : bool :=
  small_key null salt && small_slice ikm && (128 + len (slice_bytes ikm) <? 2305843009213693952) && out_okb out size.
Lemma small_extract_ok `{Env} `{Libc} null ikm salt out size : (null = true -> memcpy_null_ok = true) ->
  small_extract null ikm salt out size = true -> extract_pre ikm salt out size.
Proof.
  intros Hn. unfold small_extract, extract_pre. intro Hb. apply andb_prop in Hb. destruct Hb as [Hb H4]. apply andb_prop in Hb. destruct Hb as [Hb H3].
  apply andb_prop in Hb. destruct Hb as [H1 H2]. splits.
  - now apply small_key_ok with null.
  - now apply small_slice_ok.
  - now apply N.ltb_lt.
  - now apply out_okb_ok.
Qed.
Definition small_okm (L : N) (out : ptr) : bool := (L <? 4294967296) && match out with Some d => L <=? len d | None => true end.
Lemma small_okm_ok `{Env} L out : small_okm L out = true -> okm_ok L out.
Proof.
  unfold small_okm, okm_ok. intro Hb. apply andb_prop in Hb. destruct Hb as [H1 H2]. apply N.ltb_lt in H1. pose proof SZ_lo. split; [lia|].
  destruct out; [now apply N.leb_le|exact I].
Qed.
Definition small_expand null prk info L out : bool :=
  small_key null prk && small_slice info && (193 + len (slice_bytes info) <? 2305843009213693952) && small_okm L out.
Lemma small_expand_ok `{Env} `{Libc} null prk info L out : (null = true -> memcpy_null_ok = true) ->
  small_expand null prk info L out = true -> expand_pre prk info L out.
Proof.
  intros Hn. unfold small_expand, expand_pre. intro Hb. apply andb_prop in Hb. destruct Hb as [Hb H4]. apply andb_prop in Hb. destruct Hb as [Hb H3].
  apply andb_prop in Hb. destruct Hb as [H1 H2]. splits.
  - now apply small_key_ok with null.
  - now apply small_slice_ok.
  - now apply N.ltb_lt.
  - now apply small_okm_ok.
Qed.
Definition small_hkdf null ikm salt info L out : bool :=
  small_expand null salt info L out && small_slice ikm && (128 + len (slice_bytes ikm) <? 2305843009213693952).
Lemma small_hkdf_ok `{Env} `{Libc} null ikm salt info L out : (null = true -> memcpy_null_ok = true) ->
  small_hkdf null ikm salt info L out = true -> hkdf_pre ikm salt info L out.
Proof.
  intros Hn. unfold small_hkdf, hkdf_pre. intro Hb. apply andb_prop in Hb. destruct Hb as [Hb H4]. apply andb_prop in Hb. destruct Hb as [Hb H3].
  apply (small_expand_ok null) in Hb; [|exact Hn]. destruct Hb as (P1 & P2 & P3 & P4). splits; try assumption; try apply P4.
  - now apply small_slice_ok.
  - now apply N.ltb_lt.
Qed.

Section Conforming.
Context (E : Env) (M : Libc) (X : Cxx) (c : digest_members) (Hc : conforms c).


(** What successful calls return. *)
Lemma digest_good alg A ms count d n : algorithm alg = Some A -> digest_pre (Some ms) count (Some d) (Some n) -> out_bytes A <= n ->
  head_null_list (Some ms) = false -> has_missing (Some ms) count = false ->
  m_digest c true alg (Some ms) count (Some d) (Some n) = Ret (ok_e, Some (hash A (message_bytes (Some ms) count) ++ dropN (out_bytes A) d), Some (out_bytes A)).
Proof.
  intros HA Hp Hn H1 H2. destruct Hc as (Hd & _). rewrite Hd by assumption. unfold digest_report, digest_errors, result, required, too_small. rewrite HA, H1, H2.
  destruct (N.ltb_spec n (out_bytes A)); [lia|]. reflexivity.
Qed.
Lemma hmac_good alg A key g d n : algorithm alg = Some A -> hmac_pre key (Some g) (Some d) (Some n) -> out_bytes A <= n ->
  missing key = false -> null_list g = false -> has_missing (Some [g]) 1 = false ->
  m_hmac c true alg key (Some g) (Some d) (Some n) = Ret (ok_e, Some (HMAC A (slice_bytes key) (gather_bytes g) ++ dropN (out_bytes A) d), Some (out_bytes A)).
Proof.
  intros HA Hp Hn H0 H1 H2. destruct Hc as (_ & Hd & _). rewrite Hd; [|assumption|intros (_ & Hx & _); congruence].
  unfold hmac_report, hmac_errors, result, required, too_small. cbn [one head_null_list]. rewrite HA, H0, H1, H2.
  destruct (N.ltb_spec n (out_bytes A)); [lia|]. unfold report. cbn [negb is_none orb first_error find fst].
  replace (message_bytes (Some [g]) 1) with (gather_bytes g); [reflexivity|]. change (gather_bytes g = gather_bytes g ++ []). now rewrite app_nil_r.
Qed.
Lemma extract_good alg A ikm salt d n : algorithm alg = Some A -> extract_pre ikm salt (Some d) (Some n) -> out_bytes A <= n ->
  missing ikm = false -> missing salt = false ->
  m_extract c true alg ikm salt (Some d) (Some n) = Ret (ok_e, Some (HKDF_extract A (slice_bytes salt) (slice_bytes ikm) ++ dropN (out_bytes A) d), Some (out_bytes A)).
Proof.
  intros HA Hp Hn H1 H2. destruct Hc as (_ & _ & Hd & _). rewrite Hd by assumption. unfold extract_report, extract_errors, result, required, too_small. rewrite HA, H1, H2.
  destruct (N.ltb_spec n (out_bytes A)); [lia|]. reflexivity.
Qed.
Lemma expand_good alg A prk info L out : algorithm alg = Some A -> expand_pre prk info L out -> L <= 255 * out_bytes A ->
  missing prk = false -> missing info = false -> is_none out && negb (L =? 0) = false ->
  m_expand c true alg prk info L out =
    Ret (ok_e, match out with Some d => Some (HKDF_expand A (slice_bytes prk) (slice_bytes info) L ++ dropN L d) | None => None end).
Proof.
  intros HA Hp Hn H1 H2 H3. destruct Hc as (_ & _ & _ & Hd & _).
  rewrite Hd; [|assumption|unfold required; now rewrite HA]. unfold expand_report, expand_errors, result. rewrite HA, H1, H2, H3. now destruct out.
Qed.
Lemma hkdf_good alg A ikm salt info L out : algorithm alg = Some A -> hkdf_pre ikm salt info L out -> L <= 255 * out_bytes A ->
  missing ikm = false -> missing salt = false -> missing info = false -> is_none out && negb (L =? 0) = false ->
  m_hkdf c true alg ikm salt info L out =
    Ret (ok_e, match out with Some d => Some (HKDF A (slice_bytes salt) (slice_bytes ikm) (slice_bytes info) L ++ dropN L d) | None => None end).
Proof.
  intros HA Hp Hn H1 H2 H3 H4. destruct Hc as (_ & _ & _ & _ & Hd).
  rewrite Hd; [|assumption|unfold required; now rewrite HA]. unfold hkdf_report, hkdf_errors, result. rewrite HA, H1, H2, H3, H4. now destruct out.
Qed.
(** What the others return: only the error matters. *)
Lemma digest_bad ctx alg ms count out size : digest_pre ms count out size ->
  m_digest c ctx alg ms count out size = Ret (digest_report ctx alg ms count out size).
Proof. destruct Hc as (Hd & _). apply Hd. Qed.

Lemma data_some (v : list byte) : v <> [] -> data v = Some v.
Proof. now destruct v. Qed.
Lemma zeros_some n : 0 < n -> data (zeros n) = Some (zeros n).
Proof. intro H. apply data_some. intro Hz. pose proof (len_zeros n) as Hl. rewrite Hz, len_nil in Hl. lia. Qed.

Lemma sha2_vectors vs : Forall sha2_fits vs ->
  exists o, SHA2TestVectorTest c vs = Ret o /\ (o = Some tt <-> Forall sha2_right vs).
Proof.
  intro Hf. rewrite Forall_forall in Hf. apply for_each_iff. intros [[alg msg] want] Hin. specialize (Hf _ Hin). destruct Hf as [[F1 F2] [F3 F4]].
  cbv beta iota zeta. set (buffers := if 0 <? len msg then _ else _).
  assert (Hs : exists s, buffers = [s] /\ slice_ok s /\ slice_bytes s = msg /\ missing s = false).
  { unfold buffers. destruct msg as [|b msg].
    - eexists. split; [reflexivity|]. splits; try reflexivity. split; [|exact I]. cbn [sl_size N20_SLICE_NULL]. pose proof (SZ_lo (H := E)). lia.
    - rewrite len_cons. destruct (N.ltb_spec 0 (1 + len msg)); [|lia]. rewrite <- len_cons with (a := b). eexists. split; [reflexivity|]. fold (slice_for (b :: msg)).
      splits; [now apply slice_for_ok|apply slice_for_bytes|apply slice_for_there]. }
  destruct Hs as (s & -> & S1 & S2 & S3). rewrite len_zeros.
  assert (Hm : message_bytes (Some [mkGather 1 (Some [s])]) 1 = msg) by (now rewrite one_slice).
  assert (Hp : digest_pre (Some [mkGather 1 (Some [s])]) 1 (data (zeros (len want))) (Some (len want))).
  { unfold digest_pre. split; [apply data_out; rewrite len_zeros; lia|]. split; [|rewrite Hm; lia]. split; [discriminate|]. split; [|constructor].
    left. split; [discriminate|]. constructor; [exact S1|constructor]. }
  unfold sha2_right. destruct (algorithm alg) as [A|] eqn:HA.
  2: { rewrite digest_bad by exact Hp. unfold digest_report, digest_errors. rewrite HA. exists None. split; [reflexivity|]. split; [discriminate|]. now intros (A & Ha & _). }
  pose proof (known_len A msg (alg_known _ _ HA)) as Hl. pose proof (known_out A (alg_known _ _ HA)) as Ho.
  destruct (N.ltb_spec (len want) (out_bytes A)) as [Hlt|Hge].
  { rewrite digest_bad by exact Hp. unfold digest_report, digest_errors, required, too_small. rewrite HA. destruct (N.ltb_spec (len want) (out_bytes A)); [|lia].
    rewrite orb_true_r. exists None. split; [reflexivity|]. split; [discriminate|]. intros (A' & Ha & ->). injection Ha as <-. lia. }
  rewrite zeros_some in * by lia. rewrite (digest_good alg A) by (try assumption; try reflexivity; rewrite one_missing; exact S3).
  rewrite Hm. cbn [bind error_eqb assert_that says contents]. destruct (N.eqb_spec (out_bytes A) (len want)) as [He|He].
  - cbn [assert_that]. rewrite dropN_all by (rewrite len_zeros; lia). rewrite app_nil_r. destruct (same want (hash A msg)) eqn:Hsame.
    + exists (Some tt). split; [reflexivity|]. split; [|reflexivity]. intros _. exists A. split; [reflexivity|]. now apply same_eq.
    + exists None. split; [reflexivity|]. split; [discriminate|]. intros (A' & Ha & Hw). injection Ha as <-. apply same_eq in Hw. congruence.
  - exists None. split; [reflexivity|]. split; [discriminate|]. intros (A' & Ha & Hw). injection Ha as <-. subst want. congruence.
Qed.

Context (Hnull : empty_data_null = true -> memcpy_null_ok = true).

Lemma hmac_vectors vs : Forall hmac_fits vs ->
  exists o, HmacTest c vs = Ret o /\ (o = Some tt <-> Forall hmac_right vs).
Proof.
  intro Hf. rewrite Forall_forall in Hf. apply for_each_iff. intros [[[alg key] msg] want] Hin. specialize (Hf _ Hin). destruct Hf as (F1 & [F2 F3] & F4).
  cbv beta iota zeta. rewrite zeros_some by reflexivity.
  assert (Hm : gather_bytes (mkGather 1 (Some [slice_for msg])) = msg).
  { change (slice_bytes (slice_for msg) ++ [] = msg). now rewrite slice_for_bytes, app_nil_r. }
  assert (Hp : hmac_pre (slice_for key) (Some (mkGather 1 (Some [slice_for msg]))) (Some (zeros 64)) (Some 64)).
  { unfold hmac_pre. split; [now apply slice_for_key|]. split; [change (64 <= len (zeros 64)); rewrite len_zeros; lia|]. split.
    - left. split; [discriminate|]. constructor; [now apply slice_for_ok|constructor].
    - cbn [one]. rewrite one_slice, slice_for_bytes. lia. }
  unfold hmac_right. destruct (algorithm alg) as [A|] eqn:HA.
  2: { destruct Hc as (_ & Hd & _). rewrite Hd; [|exact Hp|intros (_ & _ & ?); discriminate]. unfold hmac_report, hmac_errors. rewrite HA.
       exists None. split; [reflexivity|]. split; [discriminate|]. now intros (A & rest & Ha & _). }
  pose proof (known_out A (alg_known _ _ HA)) as Ho. pose proof (HMAC_len A key msg (alg_known _ _ HA)) as Hl.
  rewrite (hmac_good alg A) by (try assumption; try reflexivity; try lia; try (rewrite one_missing); apply slice_for_there).
  rewrite Hm, slice_for_bytes. cbn [bind error_eqb assert_that contents]. destruct (N.leb_spec (len want) (out_bytes A)) as [Hle|Hgt]; cbn [assert_that].
  - rewrite takeN_app_l by lia. destruct (same want (takeN (len want) (HMAC A key msg))) eqn:Hsame.
    + exists (Some tt). split; [reflexivity|]. split; [|reflexivity]. intros _. exists A, (dropN (len want) (HMAC A key msg)). split; [reflexivity|].
      apply same_eq in Hsame. rewrite Hsame at 1. symmetry. apply takeN_dropN.
    + exists None. split; [reflexivity|]. split; [discriminate|]. intros (A' & rest & Ha & Hw). injection Ha as <-.
      rewrite Hw, takeN_app_len, same_refl in Hsame. discriminate.
  - exists None. split; [reflexivity|]. split; [discriminate|]. intros (A' & rest & Ha & Hw). injection Ha as <-. rewrite Hw, len_app in Hl. lia.
Qed.

Lemma extract_vectors vs : Forall hkdf_fits vs ->
  exists o, HkdfExtractTest c vs = Ret o /\ (o = Some tt <-> Forall extract_right vs).
Proof.
  intro Hf. rewrite Forall_forall in Hf. apply for_each_iff. intros [[[[[alg ikm] salt] info] want] key] Hin. specialize (Hf _ Hin). destruct Hf as ([F1 F1'] & F2 & F3 & F4 & F5 & F6).
  cbv beta iota zeta.
  assert (Hp : extract_pre (slice_for ikm) (slice_for salt) (data (zeros (len want))) (Some (len want))).
  { unfold extract_pre. split; [now apply slice_for_key|]. split; [now apply slice_for_ok|]. rewrite slice_for_bytes. split; [lia|]. apply data_out. rewrite len_zeros. lia. }
  unfold extract_right. destruct (algorithm alg) as [A|] eqn:HA.
  2: { destruct Hc as (_ & _ & Hd & _). rewrite Hd by exact Hp. unfold extract_report, extract_errors. rewrite HA.
       exists None. split; [reflexivity|]. split; [discriminate|]. now intros (A & rest & Ha & _). }
  pose proof (known_out A (alg_known _ _ HA)) as Ho.
  assert (Hl : len (HKDF_extract A salt ikm) = out_bytes A) by (apply HMAC_len, (alg_known _ _ HA)).
  destruct (N.ltb_spec (len want) (out_bytes A)) as [Hlt|Hge].
  { destruct Hc as (_ & _ & Hd & _). rewrite Hd by exact Hp. unfold extract_report, extract_errors, required, too_small. rewrite HA, !slice_for_there.
    destruct (N.ltb_spec (len want) (out_bytes A)); [|lia].
    rewrite orb_true_r. exists None. split; [reflexivity|]. split; [discriminate|]. intros (A' & n & Ha & ->). injection Ha as <-. rewrite len_app in Hlt. lia. }
  rewrite zeros_some in * by lia. rewrite (extract_good alg A) by (try assumption; apply slice_for_there).
  rewrite !slice_for_bytes. cbn [bind error_eqb assert_that contents].
  assert (Hz : dropN (out_bytes A) (zeros (len want)) = repeat x00 (N.to_nat (len want - out_bytes A))) by apply dropN_zeros. rewrite Hz.
  destruct (same want _) eqn:Hsame; cbn [assert_that].
  - exists (Some tt). split; [reflexivity|]. split; [|reflexivity]. intros _. exists A, (N.to_nat (len want - out_bytes A)). split; [reflexivity|]. now apply same_eq.
  - exists None. split; [reflexivity|]. split; [discriminate|]. intros (A' & n & Ha & Hw). injection Ha as <-.
    assert (Hn : n = N.to_nat (len want - out_bytes A)) by (rewrite Hw, len_app, len_repeat, Hl; lia). rewrite <- Hn in Hsame. rewrite Hw, same_refl in Hsame. discriminate.
Qed.

Lemma expand_vectors vs : Forall hkdf_fits vs ->
  exists o, HkdfExpandTest c vs = Ret o /\ (o = Some tt <-> Forall expand_right vs).
Proof.
  intro Hf. rewrite Forall_forall in Hf. apply for_each_iff. intros [[[[[alg ikm] salt] info] prk] want] Hin. specialize (Hf _ Hin).
  destruct Hf as (F1 & F2 & [F3 F3'] & F4 & [F5 F5'] & F6). cbv beta iota zeta.
  assert (Hp : expand_pre (slice_for prk) (slice_for info) (len want) (data (zeros (len want)))).
  { unfold expand_pre. split; [now apply slice_for_key|]. split; [now apply slice_for_ok|]. rewrite slice_for_bytes. split; [lia|]. now apply okm_data. }
  unfold expand_right. destruct (algorithm alg) as [A|] eqn:HA.
  2: { destruct Hc as (_ & _ & _ & Hd & _). rewrite Hd; [|exact Hp|congruence]. unfold expand_report, expand_errors. rewrite HA.
       exists None. split; [reflexivity|]. split; [discriminate|]. now intros (A & Ha & _). }
  assert (HL : len want <= 255 * out_bytes A). { specialize (F6 ltac:(discriminate)). unfold required in F6. now rewrite HA in F6. }
  rewrite (expand_good alg A); try assumption; try apply slice_for_there.
  2: { pose proof (data_none (zeros (len want))) as Hd. now rewrite len_zeros in Hd. }
  rewrite !slice_for_bytes. cbn [bind error_eqb assert_that]. pose proof (HKDF_expand_len A prk info (len want) (alg_known _ _ HA)) as Hl.
  replace (contents _) with (HKDF_expand A prk info (len want)).
  2: { destruct (data (zeros (len want))) as [d|] eqn:Hd.
       - pose proof (contents_data (zeros (len want))) as Hcd. rewrite Hd in Hcd. cbn in Hcd. subst d. cbn [contents]. rewrite dropN_all by (rewrite len_zeros; lia). now rewrite app_nil_r.
       - cbn [contents]. apply len_0. rewrite Hl. rewrite <- (len_zeros (len want)), <- (contents_data (zeros (len want))), Hd. reflexivity. }
  destruct (same want _) eqn:Hsame; cbn [assert_that].
  - exists (Some tt). split; [reflexivity|]. split; [|reflexivity]. intros _. exists A. split; [reflexivity|]. now apply same_eq.
  - exists None. split; [reflexivity|]. split; [discriminate|]. intros (A' & Ha & Hw). injection Ha as <-. apply same_eq in Hw. congruence.
Qed.

Lemma hkdf_vectors vs : Forall hkdf_fits vs ->
  exists o, HkdfTest c vs = Ret o /\ (o = Some tt <-> Forall hkdf_right vs).
Proof.
  intro Hf. rewrite Forall_forall in Hf. apply for_each_iff. intros [[[[[alg ikm] salt] info] prk] want] Hin. specialize (Hf _ Hin).
  destruct Hf as ([F1 F1'] & F2 & [F3 F3'] & F4 & [F5 F5'] & F6). cbv beta iota zeta.
  assert (Hp : hkdf_pre (slice_for ikm) (slice_for salt) (slice_for info) (len want) (data (zeros (len want)))).
  { unfold hkdf_pre. split; [now apply slice_for_key|]. rewrite !slice_for_bytes. split; [now apply slice_for_ok|]. split; [lia|]. split; [now apply slice_for_ok|].
    split; [lia|]. now apply okm_data. }
  unfold hkdf_right. destruct (algorithm alg) as [A|] eqn:HA.
  2: { destruct Hc as (_ & _ & _ & _ & Hd). rewrite Hd; [|exact Hp|congruence]. unfold hkdf_report, hkdf_errors. rewrite HA.
       exists None. split; [reflexivity|]. split; [discriminate|]. now intros (A & Ha & _). }
  assert (HL : len want <= 255 * out_bytes A). { specialize (F6 ltac:(discriminate)). unfold required in F6. now rewrite HA in F6. }
  rewrite (hkdf_good alg A); try assumption; try apply slice_for_there.
  2: { pose proof (data_none (zeros (len want))) as Hd. now rewrite len_zeros in Hd. }
  rewrite !slice_for_bytes. cbn [bind error_eqb assert_that].
  assert (Hl : len (HKDF A salt ikm info (len want)) = len want) by (apply HKDF_expand_len, (alg_known _ _ HA)).
  replace (contents _) with (HKDF A salt ikm info (len want)).
  2: { destruct (data (zeros (len want))) as [d|] eqn:Hd.
       - pose proof (contents_data (zeros (len want))) as Hcd. rewrite Hd in Hcd. cbn in Hcd. subst d. cbn [contents]. rewrite dropN_all by (rewrite len_zeros; lia). now rewrite app_nil_r.
       - cbn [contents]. apply len_0. rewrite Hl. rewrite <- (len_zeros (len want)), <- (contents_data (zeros (len want))), Hd. reflexivity. }
  destruct (same want _) eqn:Hsame; cbn [assert_that].
  - exists (Some tt). split; [reflexivity|]. split; [|reflexivity]. intros _. exists A. split; [reflexivity|]. now apply same_eq.
  - exists None. split; [reflexivity|]. split; [discriminate|]. intros (A' & Ha & Hw). injection Ha as <-. apply same_eq in Hw. congruence.
Qed.

(** ** The tests without vectors *)
Definition out_after (e : error) (n : N) (r : list byte) (o : ptr) : ptr :=
  match e with ok_e => match o with Some d => Some (r ++ dropN n d) | None => None end | _ => o end.
Definition size_after (e : error) (n : N) (z : option N) : option N := match e with ok_e | insufficient_buffer_size_e => Some n | _ => z end.
Lemma the_report l n r o z : report l n r o z = (first_error l, out_after (first_error l) n r o, size_after (first_error l) n z).
Proof. unfold report. destruct (first_error l), o; reflexivity. Qed.
Definition passes {S} (P : S -> Prop) (t : res (option S)) : Prop := exists s, t = Ret (Some s) /\ P s.

Lemma assert_step {S} (P : S -> Prop) b (k : res (option S)) : b = true -> passes P k -> passes P (ASSERT b; k).
Proof. now intros ->. Qed.
Lemma digest_step {S} (P : S -> Prop) x a m n o z e msg (k : outcome -> res (option S)) : digest_pre m n o z -> first_error (digest_errors x a m n o z) = e ->
  message_bytes m n = msg ->
  passes P (k (e, out_after e (required a) (SpecCrypto.result a (fun A => hash A msg)) o, size_after e (required a) z)) -> passes P (bind (m_digest c x a m n o z) k).
Proof. destruct Hc as (H & _). intros Hp <- <-. rewrite H by exact Hp. unfold digest_report. rewrite the_report. exact (fun h => h). Qed.
Lemma hmac_step {S} (P : S -> Prop) x a key m o z e k0 msg (k : outcome -> res (option S)) : hmac_pre key m o z -> ~ (x = true /\ algorithm a = None /\ z = None) ->
  first_error (hmac_errors x a key m o z) = e -> slice_bytes key = k0 -> message_bytes (one m) 1 = msg ->
  passes P (k (e, out_after e (required a) (SpecCrypto.result a (fun A => HMAC A k0 msg)) o, size_after e (required a) z)) -> passes P (bind (m_hmac c x a key m o z) k).
Proof. destruct Hc as (_ & H & _). intros Hp Hx <- <- <-. rewrite H by assumption. unfold hmac_report. rewrite the_report. exact (fun h => h). Qed.
Lemma extract_step {S} (P : S -> Prop) x a ikm salt o z e (k : outcome -> res (option S)) : extract_pre ikm salt o z -> first_error (extract_errors x a ikm salt o z) = e ->
  passes P (k (e, out_after e (required a) (SpecCrypto.result a (fun A => HKDF_extract A (slice_bytes salt) (slice_bytes ikm))) o, size_after e (required a) z)) ->
  passes P (bind (m_extract c x a ikm salt o z) k).
Proof. destruct Hc as (_ & _ & H & _). intros Hp <-. rewrite H by assumption. unfold extract_report. rewrite the_report. exact (fun h => h). Qed.
Lemma expand_step {S} (P : S -> Prop) x a prk info L o e (k : error * ptr -> res (option S)) : expand_pre prk info L o -> (algorithm a <> None -> L <= 255 * required a) ->
  first_error (expand_errors x a prk info L o) = e ->
  passes P (k (e, out_after e L (SpecCrypto.result a (fun A => HKDF_expand A (slice_bytes prk) (slice_bytes info) L)) o)) -> passes P (bind (m_expand c x a prk info L o) k).
Proof. destruct Hc as (_ & _ & _ & H & _). intros Hp Hx <-. rewrite H by assumption. unfold expand_report, report_key. rewrite the_report. exact (fun h => h). Qed.
Lemma hkdf_step {S} (P : S -> Prop) x a ikm salt info L o e (k : error * ptr -> res (option S)) : hkdf_pre ikm salt info L o -> (algorithm a <> None -> L <= 255 * required a) ->
  first_error (hkdf_errors x a ikm salt info L o) = e ->
  passes P (k (e, out_after e L (SpecCrypto.result a (fun A => HKDF A (slice_bytes salt) (slice_bytes ikm) (slice_bytes info) L)) o)) -> passes P (bind (m_hkdf c x a ikm salt info L o) k).
Proof. destruct Hc as (_ & _ & _ & _ & H). intros Hp Hx <-. rewrite H by assumption. unfold hkdf_report, report_key. rewrite the_report. exact (fun h => h). Qed.

Ltac calc := vm_compute; reflexivity.
Ltac pre := first [apply small_digest_ok; calc
  | apply (small_hmac_ok false); [discriminate|calc] | apply (small_extract_ok false); [discriminate|calc]
  | apply (small_hmac_ok true); [intros _; assumption|calc] | apply (small_extract_ok true); [intros _; assumption|calc]
  | apply (small_expand_ok true); [intros _; assumption|calc] | apply (small_hkdf_ok true); [intros _; assumption|calc]].
Ltac allowed := first [rewrite not_an_algorithm; congruence | intros (? & ? & ?); discriminate | intros _; apply N.leb_le; calc].
Ltac row := unfold digest_errors, hmac_errors, extract_errors, expand_errors, hkdf_errors, required; try rewrite not_an_algorithm; calc.
Ltac step := lazymatch goal with
  | |- passes _ (bind (m_digest _ _ _ _ _ _ _) _) => eapply digest_step; [pre|row|calc|]
  | |- passes _ (bind (m_hmac _ _ _ _ _ _ _) _) => eapply hmac_step; [pre|allowed|row|calc|calc|]
  | |- passes _ (bind (m_extract _ _ _ _ _ _ _) _) => eapply extract_step; [pre|row|]
  | |- passes _ (bind (m_expand _ _ _ _ _ _ _) _) => eapply expand_step; [pre|allowed|row|]
  | |- passes _ (bind (m_hkdf _ _ _ _ _ _ _ _) _) => eapply hkdf_step; [pre|allowed|row|]
  | |- passes _ (assert_that _ _) => apply assert_step; [cbn [contents]; lazymatch goal with |- same ?a ?a = true => apply same_refl | |- _ => calc end|]
  end; cbn [out_after size_after option_map].
Ltac calls := apply for_each_pass; intros [alg n] ? Hin; cbv beta iota zeta; cbn in Hin; repeat destruct Hin as [Hin|Hin]; try contradiction; injection Hin as <- <-;
  match goal with |- exists s, ?t = Ret (Some s) => assert (Hpass : passes (fun _ => True) t); [|destruct Hpass as (s' & Hpass & _); now exists s'] end;
  repeat step; (eexists; split; [reflexivity|exact I]).
Lemma digest_errors_pass : exists s, DigestErrorsTest c = Ret (Some s).
Proof. calls. Qed.
Lemma digest_skip_empty_pass : exists s, DigestSkipEmpty c = Ret (Some s).
Proof. calls. Qed.
Lemma digest_multiple_pass : exists s, DigestMultipleGatherLists c = Ret (Some s).
Proof. calls. Qed.
Lemma hmac_skip_empty_pass : exists s, HmacSkipEmpty c = Ret (Some s).
Proof. calls. Qed.
Lemma hmac_buffer_size_pass : exists s, HmacBufferSizeTest c = Ret (Some s).
Proof. calls. Qed.
Lemma hkdf_extract_buffer_size_pass : exists s, HkdfExtractBufferSizeTest c = Ret (Some s).
Proof. calls. Qed.
Lemma for_each_inv {T S} (P : S -> Prop) body : forall (l : list T) (s : S), P s ->
  (forall x s, In x l -> P s -> passes P (body x s)) -> exists s', for_each l s body = Ret (Some s').
Proof.
  induction l as [|x l IH]; intros s Hs H; cbn [for_each]; [now exists s|].
  destruct (H x s (or_introl eq_refl) Hs) as (s' & -> & Hs'). cbn [bind]. apply IH; [exact Hs'|]. intros. apply H; [now right|assumption].
Qed.
Lemma digest_buffer_size_pass : exists s, DigestBufferSizeTest c = Ret (Some s).
Proof.
  apply (for_each_inv (fun s => exists n, s = Some n)); [now exists 0|]. intros [alg n] s Hin (m & ->). cbv beta iota zeta. cbn in Hin.
  repeat destruct Hin as [Hin|Hin]; try contradiction; injection Hin as <- <-;
  repeat step; (eexists; split; [reflexivity|eexists; reflexivity]).
Qed.

Context (Hcopy : memcpy_null_ok = true).
Lemma hmac_errors_pass : exists s, HmacErrorsTest c = Ret (Some s).
Proof. calls. Qed.
Lemma hkdf_errors_pass : exists s, HkdfErrorsTest c = Ret (Some s).
Proof. calls. Qed.
Lemma hkdf_extract_errors_pass : exists s, HkdfExtractErrorsTest c = Ret (Some s).
Proof. calls. Qed.
Lemma hkdf_expand_errors_pass : exists s, HkdfExpandErrorsTest c = Ret (Some s).
Proof. calls. Qed.
End Conforming.

(** ** The two back ends *)
Lemma nat20_conforms (E : Env) (M : Libc) : conforms nat20_members.
Proof.
  unfold conforms. cbn [nat20_members m_digest m_hmac m_extract m_expand m_hkdf]. splits; intros.
  - now apply C34_digest_contract.
  - now apply (C37_hmac_contract E M).
  - now apply (C40_extract_contract E M).
  - now apply (C40_expand_contract E M).
  - now apply (C40_hkdf_contract E M).
Qed.
Lemma boringssl_conforms (E : Env) (M : Libc) (B : Bssl) : computes_sha2 B -> no_failure B -> conforms boringssl_members.
Proof.
  intros Hs Hf. assert (HF : forall e, ~ resource_error B e) by (intros e (_ & f & Hcall); rewrite (Hf f) in Hcall; discriminate).
  unfold conforms. cbn [boringssl_members m_digest m_hmac m_extract m_expand m_hkdf]. splits.
  - intros ctx alg ms count out size Hp.
    destruct (C42_digest_contract E B ctx alg ms count out size Hs (Hf _) (digest_pre_bssl E ms count out size Hp)) as [->|(e & He & _)]; [reflexivity|]. now apply HF in He.
  - intros ctx alg key m out size Hp Hx.
    assert (Hb : bssl_hmac_pre key m out size) by (destruct Hp as ((Hk & _) & Ho & Hm & _); now splits).
    destruct (C42_hmac_contract E B ctx alg key m out size Hs Hb) as [->|(e & He & _)]; [|now apply HF in He]. destruct ctx; [|reflexivity].
    f_equal. apply hmac_reports. intros [? ?]. apply Hx. auto.
  - intros ctx alg ikm salt out size Hp.
    assert (Hb : bssl_extract_pre ikm salt out size) by (destruct Hp as ((Hk & _) & Hi & _ & Ho); now splits).
    destruct (C42_extract_contract E B ctx alg ikm salt out size Hs Hb) as [->|(e & He & _)]; [reflexivity|]. now apply HF in He.
  - intros ctx alg prk info L out Hp Hx.
    assert (Hb : bssl_expand_pre prk info L out) by (destruct Hp as ((Hk & _) & Hi & _ & Ho); now splits).
    destruct (C42_expand_contract E B ctx alg prk info L out Hs Hb) as [->|(e & He & _)]; [|now apply HF in He]. destruct ctx; [|reflexivity].
    f_equal. now apply expand_reports.
  - intros ctx alg ikm salt info L out Hp Hx.
    assert (Hb : bssl_hkdf_pre ikm salt info L out) by (destruct Hp as ((Hk & _) & Hi & _ & Hj & _ & Ho); now splits).
    destruct (C42_hkdf_contract E B ctx alg ikm salt info L out Hs Hb) as [->|(e & He & _)]; [|now apply HF in He]. destruct ctx; [|reflexivity].
    f_equal. now apply hkdf_reports.
Qed.

(** ** C56 *)

(** For every implementation of the digest interface that keeps the documented contract and all vectors that fit: the tests with vectors end, and they pass exactly if
    the vectors are right. If empty vectors have a NULL pointer, the C library must allow to copy nothing from it. *)
Theorem C56_vectors : forall (E : Env) (M : Libc) (X : Cxx) c, conforms c -> (empty_data_null = true -> memcpy_null_ok = true) ->
  (forall vs, Forall sha2_fits vs -> exists o, SHA2TestVectorTest c vs = Ret o /\ (o = Some tt <-> Forall sha2_right vs)) /\
  (forall vs, Forall hmac_fits vs -> exists o, HmacTest c vs = Ret o /\ (o = Some tt <-> Forall hmac_right vs)) /\
  (forall vs, Forall hkdf_fits vs ->
     (exists o, HkdfTest c vs = Ret o /\ (o = Some tt <-> Forall hkdf_right vs)) /\
     (exists o, HkdfExtractTest c vs = Ret o /\ (o = Some tt <-> Forall extract_right vs)) /\
     (exists o, HkdfExpandTest c vs = Ret o /\ (o = Some tt <-> Forall expand_right vs))).
Proof.
  intros E M X c Hc Hn. splits.
  - intros vs. now apply (sha2_vectors E M X c Hc).
  - intros vs. now apply (hmac_vectors E M X c Hc Hn).
  - intros vs Hf. splits; [now apply (hkdf_vectors E M X c Hc Hn)|now apply (extract_vectors E M X c Hc Hn)|now apply (expand_vectors E M X c Hc Hn)].
Qed.
Print Assumptions C56_vectors.

(** All other tests pass for every such implementation; those in the second list give NULL keys. *)
Theorem C56_fixed_tests : forall (E : Env) (M : Libc) (X : Cxx) c, conforms c ->
  (exists size, DigestBufferSizeTest c = Ret (Some size)) /\
  Forall (fun test => test c = Ret (Some tt)) [DigestErrorsTest; DigestSkipEmpty; DigestMultipleGatherLists; HmacSkipEmpty; HmacBufferSizeTest; HkdfExtractBufferSizeTest] /\
  (memcpy_null_ok = true -> Forall (fun test => test c = Ret (Some tt)) [HmacErrorsTest; HkdfErrorsTest; HkdfExtractErrorsTest; HkdfExpandErrorsTest]).
Proof.
  assert (U : forall t : res (option unit), (exists s, t = Ret (Some s)) -> t = Ret (Some tt)) by (intros t ([] & H); exact H).
  intros E M X c Hc. splits.
  - exact (digest_buffer_size_pass E M c Hc).
  - repeat apply Forall_cons; try apply Forall_nil; apply U.
    + exact (digest_errors_pass E M c Hc).
    + exact (digest_skip_empty_pass E M c Hc).
    + exact (digest_multiple_pass E M c Hc).
    + exact (hmac_skip_empty_pass E M c Hc).
    + exact (hmac_buffer_size_pass E M c Hc).
    + exact (hkdf_extract_buffer_size_pass E M c Hc).
  - intro Hm. repeat apply Forall_cons; try apply Forall_nil; apply U.
    + exact (hmac_errors_pass E M c Hc Hm).
    + exact (hkdf_errors_pass E M c Hc Hm).
    + exact (hkdf_extract_errors_pass E M c Hc Hm).
    + exact (hkdf_expand_errors_pass E M c Hc Hm).
Qed.
Print Assumptions C56_fixed_tests.

(** Both back ends keep the contract, BoringSSL if none of its calls fails. *)
Theorem C56_back_ends : forall (E : Env) (M : Libc) (B : Bssl), conforms nat20_members /\ (computes_sha2 B -> no_failure B -> conforms boringssl_members).
Proof. intros E M B. split; [apply nat20_conforms|apply boringssl_conforms]. Qed.
Print Assumptions C56_back_ends.

(** The whole program for each of them. *)
Definition all_pass `{Cxx} (c : digest_members) sha2 hmac hkdf : Prop :=
  SHA2TestVectorTest c sha2 = Ret (Some tt) /\ HmacTest c hmac = Ret (Some tt) /\
  Forall (fun test => test c hkdf = Ret (Some tt)) [HkdfTest; HkdfExtractTest; HkdfExpandTest] /\
  (exists size, DigestBufferSizeTest c = Ret (Some size)) /\
  Forall (fun test => test c = Ret (Some tt))
    [DigestErrorsTest; DigestSkipEmpty; DigestMultipleGatherLists; HmacErrorsTest; HmacSkipEmpty; HmacBufferSizeTest;
     HkdfErrorsTest; HkdfExtractErrorsTest; HkdfExtractBufferSizeTest; HkdfExpandErrorsTest].
Definition right_vectors sha2 hmac hkdf : Prop :=
  Forall sha2_right sha2 /\ Forall hmac_right hmac /\ Forall hkdf_right hkdf /\ Forall extract_right hkdf /\ Forall expand_right hkdf.
Lemma suite (E : Env) (M : Libc) (X : Cxx) c sha2 hmac hkdf : conforms c -> memcpy_null_ok = true ->
  Forall sha2_fits sha2 -> Forall hmac_fits hmac -> Forall hkdf_fits hkdf -> (all_pass c sha2 hmac hkdf <-> right_vectors sha2 hmac hkdf).
Proof.
  intros Hc Hm F1 F2 F3. destruct (C56_vectors E M X c Hc (fun _ => Hm)) as (V1 & V2 & V3).
  destruct (C56_fixed_tests E M X c Hc) as (T1 & T2 & T3). specialize (T3 Hm).
  destruct (V1 sha2 F1) as (o1 & E1 & I1), (V2 hmac F2) as (o2 & E2 & I2), (V3 hkdf F3) as ((o3 & E3 & I3) & (o4 & E4 & I4) & (o5 & E5 & I5)).
  unfold all_pass, right_vectors. rewrite E1, E2. split.
  - intros (A1 & A2 & A3 & _). inversion A3 as [|? ? B3 A4]; subst. inversion A4 as [|? ? B4 A5]; subst. inversion A5 as [|? ? B5 _]; subst.
    rewrite E3 in B3. rewrite E4 in B4. rewrite E5 in B5. splits; [apply I1|apply I2|apply I3|apply I4|apply I5]; congruence.
  - intros (A1 & A2 & A3 & A4 & A5). apply I1 in A1. apply I2 in A2. apply I3 in A3. apply I4 in A4. apply I5 in A5. subst. splits; try reflexivity.
    + repeat apply Forall_cons; try apply Forall_nil; assumption.
    + exact T1.
    + repeat match goal with H : Forall _ (_ :: _) |- _ => apply Forall_cons_iff in H; destruct H end. repeat apply Forall_cons; try apply Forall_nil; assumption.
Qed.
Theorem C56_nat20 : forall (E : Env) (M : Libc) (X : Cxx) sha2 hmac hkdf, memcpy_null_ok = true ->
  Forall sha2_fits sha2 -> Forall hmac_fits hmac -> Forall hkdf_fits hkdf ->
  (all_pass nat20_members sha2 hmac hkdf <-> right_vectors sha2 hmac hkdf).
Proof. intros E M X sha2 hmac hkdf Hm. apply (suite E M X); [apply nat20_conforms|exact Hm]. Qed.
Print Assumptions C56_nat20.
Theorem C56_boringssl : forall (E : Env) (B : Bssl) (X : Cxx) sha2 hmac hkdf, computes_sha2 B -> no_failure B ->
  Forall sha2_fits sha2 -> Forall hmac_fits hmac -> Forall hkdf_fits hkdf ->
  (all_pass boringssl_members sha2 hmac hkdf <-> right_vectors sha2 hmac hkdf).
Proof. intros E B X sha2 hmac hkdf Hs Hf. apply (suite E {| memcpy_null_ok := true |} X); [now apply (boringssl_conforms E)|reflexivity]. Qed.
Print Assumptions C56_boringssl.

(** With a C library for which memcpy from NULL is undefined, as C11 says, HmacErrorsTest is undefined on nat20, and so is a vector with an empty key or salt if the
    vector class uses NULL for it. *)
Theorem C56_null_key_refuted : forall (E : Env) (M : Libc) (X : Cxx), memcpy_null_ok = false ->
  HmacErrorsTest nat20_members = Undef UBMemcpyNull /\
  (empty_data_null = true -> forall alg A msg mac more, algorithm alg = Some A -> HmacTest nat20_members ((alg, [], msg, mac) :: more) = Undef UBMemcpyNull) /\
  (empty_data_null = true -> forall alg A ikm info prk key more, algorithm alg = Some A ->
     HkdfTest nat20_members ((alg, ikm, [], info, prk, key) :: more) = Undef UBMemcpyNull).
Proof.
  intros E M X Hl. splits.
  - unfold HmacErrorsTest, test_algorithms. cbn [for_each]. destruct M as [b]. cbn in Hl. subst b. vm_compute. reflexivity.
  - intros Hx alg A msg mac more HA. unfold HmacTest. cbn [for_each].
    assert (Hs : slice_for [] = slice_null) by (unfold slice_for, data; rewrite Hx; reflexivity). rewrite Hs.
    assert (H : m_hmac nat20_members true alg slice_null (Some (mkGather 1 (Some [slice_for msg]))) (data (zeros 64)) (Some 64) = Undef UBMemcpyNull).
    { rewrite zeros_some by reflexivity. apply (C37_null_key_refuted E M) with (A := A); [exact HA|pose proof (known_out A (alg_known _ _ HA)); lia|exact Hl]. }
    rewrite H. reflexivity.
  - intros Hx alg A ikm info prk key more HA. unfold HkdfTest. cbn [for_each].
    assert (Hs : slice_for [] = slice_null) by (unfold slice_for, data; rewrite Hx; reflexivity). rewrite Hs.
    pose proof (known_out A (alg_known _ _ HA)) as Ho.
    assert (H : forall out, m_hkdf nat20_members true alg (slice_for ikm) slice_null (slice_for info) (len key) out = Undef UBMemcpyNull); [|now rewrite H].
    intro out. change (the_hkdf alg (slice_for ikm) slice_null (slice_for info) (len key) out = Undef UBMemcpyNull).
    unfold the_hkdf, n20_hkdf, n20_hkdf_locals. rewrite enum_size, required_0, !null_missing, !slice_for_there. unfold required. rewrite HA. cbn [is_none].
    change (missing slice_null) with false. cbv iota.
    assert (Hx1 : the_extract alg (slice_for ikm) slice_null (Some (repeat x00 64)) (Some (out_bytes A)) = Undef UBMemcpyNull); [|now rewrite Hx1].
    unfold the_extract, n20_hkdf_extract. rewrite enum_size, required_0, !null_missing, !slice_for_there. unfold required. rewrite HA. cbn [is_none].
    change (missing slice_null) with false. cbv iota. rewrite N.ltb_irrefl. cbn [orb].
    apply (C37_null_key_refuted E M) with (A := A); [exact HA|lia|exact Hl].
Qed.
Print Assumptions C56_null_key_refuted.

Lemma for_each_all {T} (body : T -> unit -> res (option unit)) : forall l, for_each l tt body = Ret (Some tt) -> forall x, In x l -> body x tt = Ret (Some tt).
Proof.
  induction l as [|y l IH]; intros H x Hin; [destruct Hin|]. cbn [for_each] in H. destruct (body y tt) as [o| |] eqn:Hb; try discriminate. cbn [bind] in H.
  destruct o as [[]|]; [|discriminate]. destruct Hin as [->|Hin]; [exact Hb|now apply IH].
Qed.
Lemma asserted {S} b (k : res (option S)) s : (ASSERT b; k) = Ret (Some s) -> b = true /\ k = Ret (Some s).
Proof. destruct b; [auto|discriminate]. Qed.
(** Whatever the implementation: if the tests pass with right vectors, it computed the functions on them. *)
Theorem C56_passing_means : forall (X : Cxx) c,
  (forall vs, Forall sha2_right vs -> SHA2TestVectorTest c vs = Ret (Some tt) -> forall alg msg d, In (alg, msg, d) vs ->
     exists A s out, algorithm alg = Some A /\ slice_bytes s = msg /\
       m_digest c true alg (Some [mkGather 1 (Some [s])]) 1 (data (zeros (len d))) (Some (len d)) = Ret (ok_e, out, Some (out_bytes A)) /\ contents out = hash A msg) /\
  (forall vs, Forall hmac_right vs -> HmacTest c vs = Ret (Some tt) -> forall alg key msg mac, In (alg, key, msg, mac) vs ->
     exists A out n rest, algorithm alg = Some A /\ HMAC A key msg = mac ++ rest /\
       m_hmac c true alg (slice_for key) (Some (mkGather 1 (Some [slice_for msg]))) (Some (zeros 64)) (Some 64) = Ret (ok_e, out, Some n) /\
       len mac <= n /\ takeN (len mac) (contents out) = mac) /\
  (forall vs, Forall hkdf_right vs -> HkdfTest c vs = Ret (Some tt) -> forall alg ikm salt info prk key, In (alg, ikm, salt, info, prk, key) vs ->
     exists A out, algorithm alg = Some A /\
       m_hkdf c true alg (slice_for ikm) (slice_for salt) (slice_for info) (len key) (data (zeros (len key))) = Ret (ok_e, out) /\ contents out = HKDF A salt ikm info (len key)).
Proof.
  intros X c. splits.
  - intros vs Hr Ht alg msg d Hin. rewrite Forall_forall in Hr. destruct (Hr _ Hin) as (A & HA & Hd). apply (for_each_all _ _ Ht) in Hin. cbv beta iota zeta in Hin.
    set (buffers := if 0 <? len msg then _ else _) in Hin.
    assert (Hs : exists s, buffers = [s] /\ slice_bytes s = msg).
    { unfold buffers. destruct msg as [|b msg]; [exists N20_SLICE_NULL; now split|]. rewrite len_cons. destruct (N.ltb_spec 0 (1 + len msg)); [|lia].
      rewrite <- len_cons with (a := b). exists (slice_for (b :: msg)). split; [reflexivity|apply slice_for_bytes]. }
    destruct Hs as (s & Hs & Hb). rewrite Hs, len_zeros in Hin. exists A, s. destruct (m_digest _ _ _ _ _ _ _) as [[[rc out] size]| |]; try discriminate. cbn [bind] in Hin.
    apply asserted in Hin. destruct Hin as [H1 Hin]. apply asserted in Hin. destruct Hin as [H2 Hin]. apply asserted in Hin. destruct Hin as [H3 _].
    exists out. destruct rc; try discriminate. destruct size as [n|]; [|discriminate]. apply N.eqb_eq in H2. apply same_eq in H3. subst n.
    splits; [assumption..| |congruence]. rewrite Hd, (known_len A msg (alg_known _ _ HA)). reflexivity.
  - intros vs Hr Ht alg key msg mac Hin. rewrite Forall_forall in Hr. destruct (Hr _ Hin) as (A & rest & HA & Hd). apply (for_each_all _ _ Ht) in Hin. cbv beta iota zeta in Hin.
    rewrite zeros_some in Hin by reflexivity. destruct (m_hmac _ _ _ _ _ _ _) as [[[rc out] size]| |]; try discriminate. cbn [bind] in Hin.
    apply asserted in Hin. destruct Hin as [H1 Hin]. apply asserted in Hin. destruct Hin as [H2 Hin]. apply asserted in Hin. destruct Hin as [H3 _].
    destruct rc; try discriminate. destruct size as [n|]; [|discriminate]. apply N.leb_le in H2. apply same_eq in H3. exists A, out, n, rest. splits; auto.
  - intros vs Hr Ht alg ikm salt info prk key Hin. rewrite Forall_forall in Hr. destruct (Hr _ Hin) as (A & HA & Hd). apply (for_each_all _ _ Ht) in Hin. cbv beta iota zeta in Hin.
    destruct (m_hkdf _ _ _ _ _ _ _ _) as [[rc out]| |]; try discriminate. cbn [bind] in Hin.
    apply asserted in Hin. destruct Hin as [H1 Hin]. apply asserted in Hin. destruct Hin as [H3 _].
    destruct rc; try discriminate. apply same_eq in H3. exists A, out. splits; [assumption|reflexivity|congruence].
Qed.
Print Assumptions C56_passing_means.

Lemma direct {S} (update : option S -> slice -> res (option S)) (finalize : option S -> ptr -> res (option S * ptr)) st0 s n st alg A msg d :
  (do st <- feed update st0 [s]; finalize st (Some (zeros n))) = Ret (Some st, Some (hash A (message [s]) ++ dropN n (zeros n))) ->
  message [s] = msg -> n = out_bytes A -> algorithm alg = Some A ->
  exists o, (do st <- update st0 s; do (_, got) <- finalize st (Some (zeros n)); Ret (same (contents got) d)) = Ret o /\
    (o = true <-> exists A, algorithm alg = Some A /\ d = hash A msg).
Proof.
  intros H Hm Hn HA. cbn [feed] in H. destruct (update st0 s) as [st1| |]; try discriminate. cbn [bind] in *. rewrite H. cbn [bind contents].
  rewrite Hm, dropN_zeros, N.sub_diag, app_nil_r. eexists. split; [reflexivity|]. rewrite same_eq. split; [intros <-; eauto|].
  intros (A' & HA' & ->). congruence.
Qed.
(** The functions of sha.h, called directly. *)
Theorem C56_sha_functions : forall (E : Env) (X : Cxx) alg msg d, fits_memory msg ->
  exists o, ShaDigestTest (alg, msg, d) = Ret o /\ (o = true <-> sha2_right (alg, msg, d)).
Proof.
  intros E X alg msg d [F1 F2].
  assert (Hl : Forall slice_ok [slice_for msg]) by (constructor; [now apply slice_for_ok|constructor]).
  assert (Hm : message [slice_for msg] = msg) by (change (slice_bytes (slice_for msg) ++ [] = msg); now rewrite slice_for_bytes, app_nil_r).
  assert (Hb : len (message [slice_for msg]) < 2 ^ 61) by (rewrite Hm; lia).
  unfold ShaDigestTest, sha2_right.
  repeat match goal with |- context [alg =? ?k] => destruct (N.eqb_spec alg k) as [->|?] end.
  - destruct (C32_sha224 E [slice_for msg] (zeros 28) Hl Hb ltac:(rewrite len_zeros; lia)) as (st & H). exact (direct _ _ _ _ _ _ sha2_224_e SHA224 msg d H Hm eq_refl eq_refl).
  - destruct (C32_sha256 E [slice_for msg] (zeros 32) Hl Hb ltac:(rewrite len_zeros; lia)) as (st & H). exact (direct _ _ _ _ _ _ sha2_256_e SHA256 msg d H Hm eq_refl eq_refl).
  - destruct (C32_sha384 E [slice_for msg] (zeros 48) Hl Hb ltac:(rewrite len_zeros; lia)) as (st & H). exact (direct _ _ _ _ _ _ sha2_384_e SHA384 msg d H Hm eq_refl eq_refl).
  - destruct (C32_sha512 E [slice_for msg] (zeros 64) Hl Hb ltac:(rewrite len_zeros; lia)) as (st & H). exact (direct _ _ _ _ _ _ sha2_512_e SHA512 msg d H Hm eq_refl eq_refl).
  - exists false. split; [reflexivity|]. split; [discriminate|]. intros (A & HA & _).
    assert (Hn : algorithm alg = None); [|congruence]. apply nth_error_None. cbn [length]. unfold sha2_224_e, sha2_256_e, sha2_384_e, sha2_512_e in *. lia.
Qed.
Print Assumptions C56_sha_functions.

(** From the files: whatever blanks and comments they have, the test passes exactly if the vectors in the file are right. *)
Definition sha2_values (v : list byte * (N * list byte * list byte)) : list value := let '(name, (alg, msg, d)) := v in [Text name; Alg alg; Octets msg; Octets d].
Definition hmac_values (v : list byte * (N * list byte * list byte * list byte)) : list value :=
  let '(name, (alg, key, msg, mac)) := v in [Text name; Alg alg; Octets key; Octets msg; Octets mac].
Definition hkdf_values (v : list byte * hkdf_vector) : list value :=
  let '(name, (alg, ikm, salt, info, prk, key)) := v in [Text name; Alg alg; Octets ikm; Octets salt; Octets info; Octets prk; Octets key].
Lemma from_file {T} (fields : list (field value)) tuple (values : list byte * T -> list value) file gs vs fuel (test : list T -> res (option unit)) (P : T -> Prop) :
  fields <> [] -> (forall v, tuple (map Some (values v)) = Some (snd v)) ->
  file_pairs file (List.concat gs) -> Forall2 (good (map plain fields)) gs (map values vs) -> (length file < fuel)%nat ->
  (exists o, test (map snd vs) = Ret o /\ (o = Some tt <-> Forall P (map snd vs))) ->
  exists o, with_vectors fields tuple fuel (Some file) test = Ret o /\ (o = Some tt <-> Forall P (map snd vs)).
Proof.
  intros Hf Ht Hp Hg Hl Hr. unfold with_vectors. rewrite (C48_all_vectors_in_order _ fields file gs _ Hf Hp Hg fuel Hl). cbn [bind].
  assert (Hs : all_some (map tuple (map (map Some) (map values vs))) = Some (map snd vs)); [|now rewrite Hs].
  clear - Ht. induction vs as [|v vs IH]; [reflexivity|]. cbn [map all_some]. now rewrite Ht, IH.
Qed.
Theorem C56_files : forall (E : Env) (M : Libc) (X : Cxx) c, conforms c -> (empty_data_null = true -> memcpy_null_ok = true) ->
  (forall file gs vs fuel, file_pairs file (List.concat gs) -> Forall2 (good (map plain SHA2TestVectorReader)) gs (map sha2_values vs) -> (length file < fuel)%nat ->
     Forall sha2_fits (map snd vs) ->
     exists o, with_vectors SHA2TestVectorReader sha2_tuple fuel (Some file) (SHA2TestVectorTest c) = Ret o /\ (o = Some tt <-> Forall sha2_right (map snd vs))) /\
  (forall file gs vs fuel, file_pairs file (List.concat gs) -> Forall2 (good (map plain HmacTestVectorReader)) gs (map hmac_values vs) -> (length file < fuel)%nat ->
     Forall hmac_fits (map snd vs) ->
     exists o, with_vectors HmacTestVectorReader hmac_tuple fuel (Some file) (HmacTest c) = Ret o /\ (o = Some tt <-> Forall hmac_right (map snd vs))) /\
  (forall file gs vs fuel, file_pairs file (List.concat gs) -> Forall2 (good (map plain HkdfTestVectorReader)) gs (map hkdf_values vs) -> (length file < fuel)%nat ->
     Forall hkdf_fits (map snd vs) ->
     (exists o, with_vectors HkdfTestVectorReader hkdf_tuple fuel (Some file) (HkdfTest c) = Ret o /\ (o = Some tt <-> Forall hkdf_right (map snd vs))) /\
     (exists o, with_vectors HkdfTestVectorReader hkdf_tuple fuel (Some file) (HkdfExtractTest c) = Ret o /\ (o = Some tt <-> Forall extract_right (map snd vs))) /\
     (exists o, with_vectors HkdfTestVectorReader hkdf_tuple fuel (Some file) (HkdfExpandTest c) = Ret o /\ (o = Some tt <-> Forall expand_right (map snd vs)))).
Proof.
  intros E M X c Hc Hn. destruct (C56_vectors E M X c Hc Hn) as (V1 & V2 & V3). splits.
  - intros file gs vs fuel Hp Hg Hl Hf. apply (from_file _ _ sha2_values file gs); try assumption; [discriminate|now intros [? [[? ?] ?]]|now apply V1].
  - intros file gs vs fuel Hp Hg Hl Hf. apply (from_file _ _ hmac_values file gs); try assumption; [discriminate|now intros [? [[[? ?] ?] ?]]|now apply V2].
  - intros file gs vs fuel Hp Hg Hl Hf. destruct (V3 _ Hf) as (H1 & H2 & H3).
    splits; (apply (from_file _ _ hkdf_values file gs); try assumption; [discriminate|now intros [? [[[[[? ?] ?] ?] ?] ?]]]).
Qed.
Print Assumptions C56_files.

(** *** Cases *)
#[local] Instance env64 : Env := {| size_width := W64; host_little_endian := true; stray := fun _ => x00 |}.
#[local] Instance libc : Libc := {| memcpy_null_ok := true |}.
#[local] Instance cxx : Cxx := {| empty_data_null := true |}.
Definition abc_digest : list byte :=
  bytes [0xba; 0x78; 0x16; 0xbf; 0x8f; 0x01; 0xcf; 0xea; 0x41; 0x41; 0x40; 0xde; 0x5d; 0xae; 0x22; 0x23; 0xb0; 0x03; 0x61; 0xa3; 0x96; 0x17; 0x7a; 0x9c; 0xb4; 0x10; 0xff; 0x61; 0xf2; 0x00; 0x15; 0xad].
Example C56_sha2_case :
  SHA2TestVectorTest nat20_members [(sha2_256_e, bytes [97; 98; 99], abc_digest)] = Ret (Some tt) /\
  SHA2TestVectorTest nat20_members [(sha2_256_e, bytes [97; 98; 99], abc_digest); (sha2_256_e, [], abc_digest)] = Ret None /\
  ShaDigestTest (sha2_256_e, bytes [97; 98; 99], abc_digest) = Ret true.
Proof. vm_compute. repeat split. Qed.
(** A MAC that is cut off, even to nothing, and a pseudorandom key with zeros behind it are accepted. *)
Example C56_short_mac : forall alg A key msg n, algorithm alg = Some A -> fits_memory key -> fits_memory msg ->
  HmacTest nat20_members [(alg, key, msg, takeN n (HMAC A key msg))] = Ret (Some tt) /\ HmacTest nat20_members [(alg, key, msg, [])] = Ret (Some tt).
Proof.
  intros alg A key msg n HA F1 F2.
  assert (G : forall mac rest, HMAC A key msg = mac ++ rest -> HmacTest nat20_members [(alg, key, msg, mac)] = Ret (Some tt)).
  { intros mac rest Hm. destruct (C56_vectors env64 libc cxx nat20_members (nat20_conforms _ _) (fun _ => eq_refl)) as (_ & V & _).
    destruct (V [(alg, key, msg, mac)]) as (o & Ho & Hi).
    - constructor; [|constructor]. split; [exact F1|]. split; [exact F2|]. pose proof (HMAC_len A key msg (alg_known _ _ HA)) as Hl. rewrite Hm, len_app in Hl.
      pose proof (known_out A (alg_known _ _ HA)). pose proof (SZ_lo (H := env64)). unfold fits_memory. lia.
    - rewrite Ho. f_equal. apply Hi. constructor; [|constructor]. exists A, rest. auto. }
  split; [apply (G _ (dropN n (HMAC A key msg))); symmetry; apply takeN_dropN|now apply (G [] (HMAC A key msg))].
Qed.
Example C56_long_prk : forall alg A ikm salt, algorithm alg = Some A -> fits_memory ikm -> fits_memory salt ->
  HkdfExtractTest nat20_members [(alg, ikm, salt, [], HKDF_extract A salt ikm ++ [x00; x00], [])] = Ret (Some tt).
Proof.
  intros alg A ikm salt HA F1 F2. destruct (C56_vectors env64 libc cxx nat20_members (nat20_conforms _ _) (fun _ => eq_refl)) as (_ & _ & V).
  destruct (V [(alg, ikm, salt, [], HKDF_extract A salt ikm ++ [x00; x00], [])]) as (_ & (o & Ho & Hi) & _).
  - assert (Hl : len (HKDF_extract A salt ikm) = out_bytes A) by (apply HMAC_len, (alg_known _ _ HA)). pose proof (known_out A (alg_known _ _ HA)). pose proof (SZ_lo (H := env64)).
    constructor; [|constructor]. unfold hkdf_fits, fits_memory. rewrite len_app, Hl, !len_cons, len_nil in *. splits; try assumption; try lia; try apply F1; try apply F2.
  - rewrite Ho. f_equal. apply Hi. constructor; [|constructor]. exists A, 2%nat. auto.
Qed.
(** A digest function with a bit wrong is found out by a right vector; so is one that swaps two errors. *)
Definition broken_digest : digest_members :=
  mkMembers (fun ctx alg ms count out size => do (rc, out, size) <- n20_digest ctx alg ms count out size;
      Ret (match rc with unexpected_null_list_e => unexpected_null_data_e | _ => rc end, option_map (map (fun b => if byte_eqb b xba then xbb else b)) out, size))
    (m_hmac nat20_members) (m_hkdf nat20_members) (m_extract nat20_members) (m_expand nat20_members).
Example C56_broken_case :
  SHA2TestVectorTest broken_digest [(sha2_256_e, bytes [97; 98; 99], abc_digest)] = Ret None /\ DigestErrorsTest broken_digest = Ret None /\ DigestErrorsTest nat20_members = Ret (Some tt).
Proof. vm_compute. repeat split. Qed.
(** Right vectors for every algorithm. *)
Example C56_suite_case : forall alg A key msg ikm salt info L, algorithm alg = Some A -> L <= 255 * out_bytes A ->
  fits_memory key -> fits_memory msg -> fits_memory ikm -> fits_memory salt -> fits_memory info ->
  all_pass nat20_members [(alg, msg, hash A msg)] [(alg, key, msg, HMAC A key msg)] [(alg, ikm, salt, info, HKDF_extract A salt ikm, HKDF A salt ikm info L)].
Proof.
  intros alg A key msg ikm salt info L HA HL F1 F2 F3 F4 F5. pose proof (alg_known _ _ HA) as Hk. pose proof (known_out A Hk) as Ho. pose proof (SZ_lo (H := env64)) as Hz.
  assert (Q : forall b : list byte, len b <= 255 * 64 -> fits_memory b) by (intros b Hb; unfold fits_memory; lia).
  pose proof (known_len A msg Hk) as L1. pose proof (HMAC_len A key msg Hk) as L2. assert (L3 : len (HKDF_extract A salt ikm) = out_bytes A) by (apply HMAC_len, Hk).
  assert (L4 : len (HKDF A salt ikm info L) = L) by (apply HKDF_expand_len, Hk).
  apply (C56_nat20 env64 libc cxx); [reflexivity|..].
  - constructor; [|constructor]. split; [exact F2|apply Q; lia].
  - constructor; [|constructor]. split; [exact F1|]. split; [exact F2|apply Q; lia].
  - constructor; [|constructor]. unfold hkdf_fits. rewrite L4. splits; try assumption; try (apply Q; lia). intros _. unfold required. now rewrite HA.
  - unfold right_vectors. splits; (constructor; [|constructor]).
    + now exists A.
    + exists A, []. now rewrite app_nil_r.
    + exists A. now rewrite L4.
    + exists A, O. now rewrite app_nil_r.
    + exists A. now rewrite L4.
Qed.
(** A file. *)
Definition abc_pairs : list (list byte * list byte) := vector_pairs sha2_format (sha2_values (SpecTest.text "abc"%string, (sha2_256_e, bytes [97; 98; 99], abc_digest))).
Example C56_file_case :
  let file := List.concat (map pair_line abc_pairs) in
  file_pairs file (List.concat [abc_pairs]) /\
  Forall2 (good (map plain SHA2TestVectorReader)) [abc_pairs] (map sha2_values [(SpecTest.text "abc"%string, (sha2_256_e, bytes [97; 98; 99], abc_digest))]) /\
  with_vectors SHA2TestVectorReader sha2_tuple 200 (Some file) (SHA2TestVectorTest nat20_members) = Ret (Some tt) /\
  with_vectors SHA2TestVectorReader sha2_tuple 200 (Some (file ++ SpecTest.text "Nam: x"%string)) (SHA2TestVectorTest nat20_members) = Ret None.
Proof.
  cbv zeta. splits.
  - cbn [List.concat]. rewrite app_nil_r. apply written_pairs. repeat apply Forall_cons; try apply Forall_nil; (split; [split; [literal_tight|literal_free]|split; [literal_free|split; [literal_tight|literal_free]]]).
  - constructor; [|constructor]. repeat (constructor; [split; [reflexivity|vm_compute; reflexivity]|]). constructor.
  - vm_compute. reflexivity.
  - vm_compute. reflexivity.
Qed.
