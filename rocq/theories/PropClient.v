(** Property C53: the contexts that the two back ends hand out are interchangeable. *)
From Coq Require Import List NArith ZArith Bool Strings.Byte Lia.
From Coq Require Import ZifyBool ZifyNat ZifyN.
From Verif Require Import Base BaseFacts Res SpecSha2 ShaFacts Crypto SpecMac SpecCrypto CryptoProofs PropCrypto Bssl BsslKeys SpecBssl BsslProofs PropBssl.
From Verif Require Import SpecClient.
Import ListNotations.
Open Scope N_scope.

(** ** Contexts that serve the interface *)
Definition serves `{Env} `{Libc} (faults : bool) (c : digest_context) : Prop :=
  (forall alg ms count out size, digest_pre ms count out size ->
     exists a, ctx_digest c alg ms count out size = Ret a /\ answers faults (digest_report true alg ms count out size) out size a) /\
  (forall alg key m out size, hmac_pre key m out size -> ~ (algorithm alg = None /\ size = None) ->
     exists a, ctx_hmac c alg key m out size = Ret a /\ answers faults (hmac_report true alg key m out size) out size a) /\
  (forall alg ikm salt out size, extract_pre ikm salt out size ->
     exists a, ctx_extract c alg ikm salt out size = Ret a /\ answers faults (extract_report true alg ikm salt out size) out size a) /\
  (forall alg prk info L out, expand_pre prk info L out -> (algorithm alg <> None -> L <= 255 * required alg) ->
     exists a, ctx_expand c alg prk info L out = Ret a /\ answers_key faults (expand_report true alg prk info L out) out a) /\
  (forall alg ikm salt info L out, hkdf_pre ikm salt info L out -> (algorithm alg <> None -> L <= 255 * required alg) ->
     exists a, ctx_hkdf c alg ikm salt info L out = Ret a /\ answers_key faults (hkdf_report true alg ikm salt info L out) out a).

Lemma run_serves `{Env} `{Libc} {R} faults c (p : client R) : serves faults c -> careful faults p -> exists r, run c p = Ret r /\ yields faults p r.
Proof.
  intros (H1 & H2 & H3 & H4 & H5). induction p as [r|alg ms count out size k IH|alg key m out size k IH|alg ikm salt out size k IH|alg prk info L out k IH|alg ikm salt info L out k IH];
    cbn [careful run].
  - intros _. exists r. split; [reflexivity|constructor].
  - intros (Hp & Hk). destruct (H1 alg ms count out size Hp) as (a & -> & Ha). destruct (IH a (Hk a Ha)) as (r & Hr & Hy).
    exists r. split; [exact Hr|now apply y_digest with a].
  - intros (Hp & Hn & Hk). destruct (H2 alg key m out size Hp Hn) as (a & -> & Ha). destruct (IH a (Hk a Ha)) as (r & Hr & Hy).
    exists r. split; [exact Hr|now apply y_hmac with a].
  - intros (Hp & Hk). destruct (H3 alg ikm salt out size Hp) as (a & -> & Ha). destruct (IH a (Hk a Ha)) as (r & Hr & Hy).
    exists r. split; [exact Hr|now apply y_extract with a].
  - intros (Hp & Hn & Hk). destruct (H4 alg prk info L out Hp Hn) as (a & -> & Ha). destruct (IH a (Hk a Ha)) as (r & Hr & Hy).
    exists r. split; [exact Hr|now apply y_expand with a].
  - intros (Hp & Hn & Hk). destruct (H5 alg ikm salt info L out Hp Hn) as (a & -> & Ha). destruct (IH a (Hk a Ha)) as (r & Hr & Hy).
    exists r. split; [exact Hr|now apply y_hkdf with a].
Qed.
Lemma yields_det {R} (p : client R) r1 r2 : yields false p r1 -> yields false p r2 -> r1 = r2.
Proof.
  intros Hy. revert r2. induction Hy; intros r2 H2; inversion H2; subst; try reflexivity;
    repeat match goal with Ha : answers false _ _ _ _ |- _ => destruct Ha as [->|[Hx _]]; [|discriminate] | Ha : answers_key false _ _ _ |- _ => destruct Ha as [->|[Hx _]]; [|discriminate] end; auto.
Qed.

Lemma nat20_serves (E : Env) (M : Libc) : serves false n20_crypto_digest_context.
Proof.
  unfold serves. splits; intros; eexists; (split; [|left; reflexivity]); cbn [n20_crypto_digest_context ctx_digest ctx_hmac ctx_extract ctx_expand ctx_hkdf].
  - now apply (the_digest_meets E M).
  - now apply (the_hmac_meets E M).
  - now apply (the_extract_meets E M).
  - now apply (the_expand_meets E M).
  - now apply (the_hkdf_meets E M).
Qed.
Lemma hmac_reports alg key m out size : ~ (algorithm alg = None /\ size = None) -> bssl_hmac_report true alg key m out size = hmac_report true alg key m out size.
Proof.
  intro H. unfold bssl_hmac_report, hmac_report, bssl_hmac_errors, hmac_errors, report, first_error. cbn [negb find fst].
  destruct size; [now destruct (algorithm alg)|]. destruct (algorithm alg); [reflexivity|]. elim H. now split.
Qed.
Lemma expand_reports alg prk info L out : (algorithm alg <> None -> L <= 255 * required alg) -> bssl_expand_report true alg prk info L out = expand_report true alg prk info L out.
Proof.
  intro H. unfold bssl_expand_report, expand_report, bssl_expand_errors. apply report_key_inj. unfold expand_errors, first_error, too_long. cbn [app find fst negb].
  destruct (algorithm alg); [|reflexivity]. cbn [is_none]. specialize (H ltac:(discriminate)).
  destruct (N.ltb_spec (255 * required alg) L); [lia|]. destruct (missing prk), (missing info), (is_none out && negb (L =? 0)); reflexivity.
Qed.
Lemma hkdf_reports alg ikm salt info L out : (algorithm alg <> None -> L <= 255 * required alg) -> bssl_hkdf_report true alg ikm salt info L out = hkdf_report true alg ikm salt info L out.
Proof.
  intro H. unfold bssl_hkdf_report, hkdf_report, bssl_hkdf_errors. apply report_key_inj. unfold hkdf_errors, first_error, too_long. cbn [app find fst negb].
  destruct (algorithm alg); [|reflexivity]. cbn [is_none]. specialize (H ltac:(discriminate)).
  destruct (N.ltb_spec (255 * required alg) L); [lia|]. destruct (missing ikm), (missing salt), (missing info), (is_none out && negb (L =? 0)); reflexivity.
Qed.
Lemma bssl_serves (E : Env) (M : Libc) (B : Bssl) (Al : Allocator) faults : computes_sha2 B -> (faults = false -> no_failure B) -> fails c_md_ctx_new = false ->
  serves faults (cc_digest_ctx bssl_ctx).
Proof.
  intros Hc Hf Hn.
  assert (HF : forall e, resource_error B e -> faults = true /\ fault e).
  { intros e (He & c & Hcall). split; [|exact He]. destruct faults; [reflexivity|]. rewrite (Hf eq_refl c) in Hcall. discriminate. }
  unfold serves, answers, answers_key. cbn [bssl_ctx cc_digest_ctx ctx_digest ctx_hmac ctx_extract ctx_expand ctx_hkdf]. splits.
  - intros alg ms count out size Hp.
    destruct (C42_digest_contract E B true alg ms count out size Hc Hn (digest_pre_bssl E ms count out size Hp)) as [->|(e & He & ->)];
      eexists; (split; [reflexivity|]); [now left|right]. destruct (HF e He). eauto.
  - intros alg key m out size Hp Hx.
    assert (Hb : bssl_hmac_pre key m out size) by (destruct Hp as ((Hk & _) & Ho & Hm & _); now splits).
    destruct (C42_hmac_contract E B true alg key m out size Hc Hb) as [->|(e & He & ->)]; eexists; (split; [reflexivity|]); [left; now apply hmac_reports|right].
    destruct (HF e He). eauto.
  - intros alg ikm salt out size Hp.
    assert (Hb : bssl_extract_pre ikm salt out size) by (destruct Hp as ((Hk & _) & Hi & _ & Ho); now splits).
    destruct (C42_extract_contract E B true alg ikm salt out size Hc Hb) as [->|(e & He & ->)]; eexists; (split; [reflexivity|]); [now left|right].
    destruct (HF e He). eauto.
  - intros alg prk info L out Hp Hx.
    assert (Hb : bssl_expand_pre prk info L out) by (destruct Hp as ((Hk & _) & Hi & _ & Ho); now splits).
    destruct (C42_expand_contract E B true alg prk info L out Hc Hb) as [->|(e & He & ->)]; eexists; (split; [reflexivity|]); [left; now apply expand_reports|right].
    destruct (HF e He). eauto.
  - intros alg ikm salt info L out Hp Hx.
    assert (Hb : bssl_hkdf_pre ikm salt info L out) by (destruct Hp as ((Hk & _) & Hi & _ & Hj & _ & Ho); now splits).
    destruct (C42_hkdf_contract E B true alg ikm salt info L out Hc Hb) as [->|(e & He & ->)]; eexists; (split; [reflexivity|]); [left; now apply hkdf_reports|right].
    destruct (HF e He). eauto.
Qed.

(** ** C53 *)

(** Opening reports NULL, and otherwise success and a context; closing only looks at NULL. *)
Theorem C53_open_close : forall (E : Env) (M : Libc) (B : Bssl) (Al : Allocator),
  (exists c, n20_crypto_nat20_open true = (ok_e, Some c)) /\ n20_crypto_nat20_open false = (unexpected_null_e, None) /\
  (exists c, n20_crypto_boringssl_open true = (ok_e, Some c)) /\ n20_crypto_boringssl_open false = (unexpected_null_e, None) /\
  n20_crypto_nat20_close true = ok_e /\ n20_crypto_nat20_close false = unexpected_null_e /\
  n20_crypto_boringssl_close true = ok_e /\ n20_crypto_boringssl_close false = unexpected_null_e.
Proof. intros E M B Al. splits; try reflexivity; eexists; reflexivity. Qed.
Print Assumptions C53_open_close.

(** A careful program gets the documented answers from the nat20 back end, and nothing undefined happens. *)
Theorem C53_nat20 : forall (E : Env) (M : Libc) R (p : client R) c,
  n20_crypto_nat20_open true = (ok_e, Some c) -> careful false p -> exists r, run c p = Ret r /\ yields false p r.
Proof. intros E M R p c Ho Hp. injection Ho as <-. exact (run_serves false _ p (nat20_serves E M) Hp). Qed.
Print Assumptions C53_nat20.

(** With BoringSSL, whichever of its calls fail (except EVP_MD_CTX_new, see C42_digest_allocation_refuted), each answer is the documented one or a resource error
    that leaves the buffers alone. *)
Theorem C53_boringssl : forall (E : Env) (M : Libc) (B : Bssl) (Al : Allocator) R (p : client R) c,
  computes_sha2 B -> fails c_md_ctx_new = false ->
  n20_crypto_boringssl_open true = (ok_e, Some c) -> careful true p -> exists r, run (cc_digest_ctx c) p = Ret r /\ yields true p r.
Proof.
  intros E M B Al R p c Hc Hn Ho Hp. injection Ho as <-.
  refine (run_serves true _ p (bssl_serves E M B Al true Hc _ Hn) Hp). discriminate.
Qed.
Print Assumptions C53_boringssl.

(** Without failing calls no careful program can tell the back ends apart. *)
Theorem C53_interchangeable : forall (E : Env) (M : Libc) (B : Bssl) (Al : Allocator) R (p : client R) c1 c2,
  computes_sha2 B -> no_failure B ->
  n20_crypto_nat20_open true = (ok_e, Some c1) -> n20_crypto_boringssl_open true = (ok_e, Some c2) -> careful false p ->
  exists r, run c1 p = Ret r /\ run (cc_digest_ctx c2) p = Ret r /\ yields false p r.
Proof.
  intros E M B Al R p c1 c2 Hc Hf H1 H2 Hp. injection H1 as <-. injection H2 as <-.
  destruct (run_serves false _ p (nat20_serves E M) Hp) as (r1 & Hr1 & Hy1).
  destruct (run_serves false _ p (bssl_serves E M B Al false Hc (fun _ => Hf) (Hf _)) Hp) as (r2 & Hr2 & Hy2).
  exists r1. splits; try assumption. now rewrite (yields_det p r1 r2 Hy1 Hy2).
Qed.
Print Assumptions C53_interchangeable.

(** Asking for the size and then again with a buffer of that size gives the digest, the MAC and the pseudorandom key. *)
Definition digest_call alg ms count : forall R, ptr -> option N -> (outcome -> client R) -> client R := fun _ out size k => Digest alg ms count out size k.
Definition hmac_call alg key m : forall R, ptr -> option N -> (outcome -> client R) -> client R := fun _ out size k => Hmac alg key m out size k.
Definition extract_call alg ikm salt : forall R, ptr -> option N -> (outcome -> client R) -> client R := fun _ out size k => Extract alg ikm salt out size k.

Lemma sized n : out_ok (Some (repeat x00 (N.to_nat n))) (Some n).
Proof. cbn. rewrite len_repeat. lia. Qed.
Lemma whole n (r : list byte) : r ++ dropN n (repeat x00 (N.to_nat n)) = r.
Proof. rewrite dropN_all by (rewrite len_repeat; lia). apply app_nil_r. Qed.
Lemma enough A : too_small (Some (repeat x00 (N.to_nat (out_bytes A)))) (Some (out_bytes A)) (out_bytes A) = false.
Proof. unfold too_small. cbn [is_none orb]. now rewrite N.ltb_irrefl. Qed.

Lemma two_pass_digest (E : Env) (M : Libc) alg A ms count : algorithm alg = Some A -> digest_pre (Some ms) count None None ->
  head_null_list (Some ms) = false -> has_missing (Some ms) count = false ->
  careful false (two_pass (digest_call alg (Some ms) count)) /\
  yields false (two_pass (digest_call alg (Some ms) count)) (Some (hash A (message_bytes (Some ms) count))).
Proof.
  intros HA Hp Hn Hm.
  assert (H1 : digest_report true alg (Some ms) count None (Some 0) = (insufficient_buffer_size_e, None, Some (out_bytes A))).
  { unfold digest_report, digest_errors, report, required. rewrite HA. reflexivity. }
  assert (H2 : digest_report true alg (Some ms) count (Some (repeat x00 (N.to_nat (out_bytes A)))) (Some (out_bytes A)) =
    (ok_e, Some (hash A (message_bytes (Some ms) count)), Some (out_bytes A))).
  { unfold digest_report, digest_errors, report, required, result. rewrite HA, Hn, Hm, enough. cbn [negb is_none first_error find fst]. now rewrite whole. }
  destruct Hp as (_ & Hp & Hl). unfold two_pass, digest_call. cbn [careful]. split.
  - split; [now splits|]. intros a [->|[Hx _]]; [|discriminate]. rewrite H1. cbn [careful]. split; [unfold digest_pre, hmac_pre, extract_pre; splits; try assumption; apply sized|].
    intros a [->|[Hx _]]; [|discriminate]. now rewrite H2.
  - eapply y_digest; [left; reflexivity|]. rewrite H1. eapply y_digest; [left; reflexivity|]. rewrite H2. constructor.
Qed.
Lemma two_pass_hmac (E : Env) (M : Libc) alg A key g : algorithm alg = Some A -> hmac_pre key (Some g) None None ->
  missing key = false -> null_list g = false -> has_missing (Some [g]) 1 = false ->
  careful false (two_pass (hmac_call alg key (Some g))) /\
  yields false (two_pass (hmac_call alg key (Some g))) (Some (HMAC A (slice_bytes key) (gather_bytes g))).
Proof.
  intros HA Hp Hk Hn Hm.
  assert (Hb : message_bytes (one (Some g)) 1 = gather_bytes g) by (cbn; apply app_nil_r).
  assert (H1 : hmac_report true alg key (Some g) None (Some 0) = (insufficient_buffer_size_e, None, Some (out_bytes A))).
  { unfold hmac_report, hmac_errors, report, required. rewrite HA, Hk. reflexivity. }
  assert (H2 : hmac_report true alg key (Some g) (Some (repeat x00 (N.to_nat (out_bytes A)))) (Some (out_bytes A)) =
    (ok_e, Some (HMAC A (slice_bytes key) (gather_bytes g)), Some (out_bytes A))).
  { unfold hmac_report, hmac_errors, report, required, result. rewrite HA, Hk, enough, Hb. cbn [one head_null_list]. rewrite Hn, Hm.
    cbn [negb is_none first_error find fst]. now rewrite whole. }
  destruct Hp as (Hp1 & _ & Hp & Hl). unfold two_pass, hmac_call. cbn [careful]. split.
  - split; [now splits|]. split; [intros [? _]; congruence|]. intros a [->|[Hx _]]; [|discriminate]. rewrite H1. cbn [careful]. split; [unfold digest_pre, hmac_pre, extract_pre; splits; try assumption; apply sized|].
    split; [intros [? _]; congruence|]. intros a [->|[Hx _]]; [|discriminate]. now rewrite H2.
  - eapply y_hmac; [left; reflexivity|]. rewrite H1. eapply y_hmac; [left; reflexivity|]. rewrite H2. constructor.
Qed.
Lemma two_pass_extract (E : Env) (M : Libc) alg A ikm salt : algorithm alg = Some A -> extract_pre ikm salt None None ->
  missing ikm = false -> missing salt = false ->
  careful false (two_pass (extract_call alg ikm salt)) /\
  yields false (two_pass (extract_call alg ikm salt)) (Some (HKDF_extract A (slice_bytes salt) (slice_bytes ikm))).
Proof.
  intros HA Hp Hk Hm.
  assert (H1 : extract_report true alg ikm salt None (Some 0) = (insufficient_buffer_size_e, None, Some (out_bytes A))).
  { unfold extract_report, extract_errors, report, required. rewrite HA, Hk, Hm. reflexivity. }
  assert (H2 : extract_report true alg ikm salt (Some (repeat x00 (N.to_nat (out_bytes A)))) (Some (out_bytes A)) =
    (ok_e, Some (HKDF_extract A (slice_bytes salt) (slice_bytes ikm)), Some (out_bytes A))).
  { unfold extract_report, extract_errors, report, required, result. rewrite HA, Hk, Hm, enough.
    cbn [negb is_none first_error find fst]. now rewrite whole. }
  destruct Hp as (Hp1 & Hp2 & Hp3 & _). unfold two_pass, extract_call. cbn [careful]. split.
  - split; [now splits|]. intros a [->|[Hx _]]; [|discriminate]. rewrite H1. cbn [careful]. split; [unfold digest_pre, hmac_pre, extract_pre; splits; try assumption; apply sized|].
    intros a [->|[Hx _]]; [|discriminate]. now rewrite H2.
  - eapply y_extract; [left; reflexivity|]. rewrite H1. eapply y_extract; [left; reflexivity|]. rewrite H2. constructor.
Qed.
Lemma both (E : Env) (M : Libc) (B : Bssl) (Al : Allocator) R (p : client R) c1 c2 r : computes_sha2 B -> no_failure B ->
  n20_crypto_nat20_open true = (ok_e, Some c1) -> n20_crypto_boringssl_open true = (ok_e, Some c2) -> careful false p /\ yields false p r ->
  run c1 p = Ret r /\ run (cc_digest_ctx c2) p = Ret r.
Proof.
  intros Hc Hf H1 H2 [Hp Hy]. destruct (C53_interchangeable E M B Al R p c1 c2 Hc Hf H1 H2 Hp) as (r' & -> & -> & Hy').
  now rewrite (yields_det p r r' Hy Hy').
Qed.
Theorem C53_two_pass : forall (E : Env) (M : Libc) (B : Bssl) (Al : Allocator) alg A c1 c2, computes_sha2 B -> no_failure B ->
  n20_crypto_nat20_open true = (ok_e, Some c1) -> n20_crypto_boringssl_open true = (ok_e, Some c2) -> algorithm alg = Some A ->
  (forall ms count, digest_pre (Some ms) count None None -> head_null_list (Some ms) = false -> has_missing (Some ms) count = false ->
     let p := two_pass (digest_call alg (Some ms) count) in let r := Ret (Some (hash A (message_bytes (Some ms) count))) in
     run c1 p = r /\ run (cc_digest_ctx c2) p = r) /\
  (forall key g, hmac_pre key (Some g) None None -> missing key = false -> null_list g = false -> has_missing (Some [g]) 1 = false ->
     let p := two_pass (hmac_call alg key (Some g)) in let r := Ret (Some (HMAC A (slice_bytes key) (gather_bytes g))) in
     run c1 p = r /\ run (cc_digest_ctx c2) p = r) /\
  (forall ikm salt, extract_pre ikm salt None None -> missing ikm = false -> missing salt = false ->
     let p := two_pass (extract_call alg ikm salt) in let r := Ret (Some (HKDF_extract A (slice_bytes salt) (slice_bytes ikm))) in
     run c1 p = r /\ run (cc_digest_ctx c2) p = r).
Proof.
  intros E M B Al alg A c1 c2 Hc Hf H1 H2 HA. splits; intros; apply (both E M B Al); try assumption.
  - now apply two_pass_digest.
  - now apply two_pass_hmac.
  - now apply two_pass_extract.
Qed.
Print Assumptions C53_two_pass.

(** Extracting to an array of 64 octets and expanding gives what one call of hkdf gives. *)
Definition hkdf_once (alg : N) (ikm salt info : slice) (L : N) : client (option (list byte)) :=
  Hkdf alg ikm salt info L (Some (repeat x00 (N.to_nat L))) (fun '(rc, out) => match rc with ok_e => Done out | _ => Done None end).
Theorem C53_extract_expand : forall (E : Env) (M : Libc) (B : Bssl) (Al : Allocator) alg A ikm salt info L c1 c2, computes_sha2 B -> no_failure B ->
  n20_crypto_nat20_open true = (ok_e, Some c1) -> n20_crypto_boringssl_open true = (ok_e, Some c2) ->
  algorithm alg = Some A -> hkdf_pre ikm salt info L None -> missing ikm = false -> missing salt = false -> missing info = false -> L <= 255 * out_bytes A ->
  let r := Ret (Some (HKDF A (slice_bytes salt) (slice_bytes ikm) (slice_bytes info) L)) in
  run c1 (extract_expand alg ikm salt info L) = r /\ run (cc_digest_ctx c2) (extract_expand alg ikm salt info L) = r /\
  run c1 (hkdf_once alg ikm salt info L) = r /\ run (cc_digest_ctx c2) (hkdf_once alg ikm salt info L) = r.
Proof.
  intros E M B Al alg A ikm salt info L c1 c2 Hc Hf H1 H2 HA (Hp1 & Hp2 & Hp3 & Hp4 & Hp5 & Hp6 & _) Mi Ms Mf HL r.
  pose proof (algorithm_known alg A HA) as Hk. pose proof (known_out A Hk) as Ho.
  pose proof (HMAC_len A (slice_bytes salt) (slice_bytes ikm) Hk) as Hlen. fold (HKDF_extract A (slice_bytes salt) (slice_bytes ikm)) in Hlen.
  set (prk := HKDF_extract A (slice_bytes salt) (slice_bytes ikm)) in *.
  assert (R1 : extract_report true alg ikm salt (Some (repeat x00 64)) (Some 64) = (ok_e, Some (prk ++ dropN (out_bytes A) (repeat x00 64)), Some (out_bytes A))).
  { unfold extract_report, extract_errors, report, required, result, too_small. rewrite HA, Mi, Ms. cbn [negb is_none orb first_error find fst].
    destruct (N.ltb_spec 64 (out_bytes A)); [lia|]. reflexivity. }
  set (s := mkSlice (out_bytes A) (Some (prk ++ dropN (out_bytes A) (repeat x00 64)))).
  assert (Hs : slice_bytes s = prk) by (unfold slice_bytes, s; cbn [sl_buf sl_size]; rewrite <- Hlen; apply takeN_app_len).
  assert (R2 : expand_report true alg s info L (Some (repeat x00 (N.to_nat L))) =
     (ok_e, Some (HKDF A (slice_bytes salt) (slice_bytes ikm) (slice_bytes info) L))).
  { unfold expand_report, expand_errors, report_key, report, result. rewrite HA, Mf, Hs. cbn [s missing sl_buf is_none andb negb first_error find fst]. now rewrite whole. }
  assert (R3 : hkdf_report true alg ikm salt info L (Some (repeat x00 (N.to_nat L))) =
     (ok_e, Some (HKDF A (slice_bytes salt) (slice_bytes ikm) (slice_bytes info) L))).
  { unfold hkdf_report, hkdf_errors, report_key, report, result. rewrite HA, Mf, Mi, Ms. cbn [is_none andb negb first_error find fst]. now rewrite whole. }
  assert (Hok : okm_ok L (Some (repeat x00 (N.to_nat L)))) by (split; [assumption|rewrite len_repeat; lia]).
  assert (HL' : algorithm alg <> None -> L <= 255 * required alg) by (unfold required; rewrite HA; now intros _).
  assert (P1 : careful false (extract_expand alg ikm salt info L) /\
    yields false (extract_expand alg ikm salt info L) (Some (HKDF A (slice_bytes salt) (slice_bytes ikm) (slice_bytes info) L))).
  { unfold extract_expand. cbn [careful]. split.
    - split; [unfold extract_pre; splits; try assumption; vm_compute; discriminate|]. intros a [->|[Hx _]]; [|discriminate]. rewrite R1. fold s. cbn [careful]. split.
      + unfold expand_pre. splits; try assumption; try apply Hok. unfold key_ok. rewrite Hs, Hlen. splits; try discriminate.
        * unfold slice_ok, s. cbn [sl_size sl_buf]. rewrite len_app, Hlen. pose proof SZ_lo. lia.
        * change (2 ^ 61) with 2305843009213693952. lia.
      + split; [assumption|]. intros a [->|[Hx _]]; [|discriminate]. now rewrite R2.
    - eapply y_extract; [left; reflexivity|]. rewrite R1. fold s. eapply y_expand; [left; reflexivity|]. rewrite R2. constructor. }
  assert (P2 : careful false (hkdf_once alg ikm salt info L) /\
    yields false (hkdf_once alg ikm salt info L) (Some (HKDF A (slice_bytes salt) (slice_bytes ikm) (slice_bytes info) L))).
  { unfold hkdf_once. cbn [careful]. split.
    - split; [unfold hkdf_pre; splits; try assumption; apply Hok|]. split; [assumption|]. intros a [->|[Hx _]]; [|discriminate]. now rewrite R3.
    - eapply y_hkdf; [left; reflexivity|]. rewrite R3. constructor. }
  destruct (both E M B Al _ _ c1 c2 _ Hc Hf H1 H2 P1) as [Q1 Q2]. destruct (both E M B Al _ _ c1 c2 _ Hc Hf H1 H2 P2) as [Q3 Q4]. now splits.
Qed.
Print Assumptions C53_extract_expand.

(** ** Examples *)
#[local] Instance env64 : Env := {| size_width := W64; host_little_endian := true; stray := fun _ => x00 |}.
#[local] Instance libc : Libc := {| memcpy_null_ok := true |}.
#[local] Instance alloc : Allocator := {| fresh := fun h => 1 + fold_right N.max 0 (map fst h) |}.
Definition abc : list gather := [mkGather 2 (Some [slice_of (bytes [97; 98]); slice_of (bytes [99])])].
Definition nat20_ctx : digest_context := n20_crypto_digest_context.
Definition bssl_digest_ctx (f : call -> bool) : digest_context := cc_digest_ctx (@bssl_ctx (toy f) alloc).

(** SHA-256 of "abc" (FIPS 180-2, B.1) in two passes, from both. *)
Example C53_example :
  let p := two_pass (digest_call sha2_256_e (Some abc) 1) in
  let r := Ret (Some (bytes [0xba; 0x78; 0x16; 0xbf; 0x8f; 0x01; 0xcf; 0xea; 0x41; 0x41; 0x40; 0xde; 0x5d; 0xae; 0x22; 0x23; 0xb0; 0x03; 0x61; 0xa3; 0x96; 0x17; 0x7a;
    0x9c; 0xb4; 0x10; 0xff; 0x61; 0xf2; 0x00; 0x15; 0xad])) in
  run nat20_ctx p = r /\ run (bssl_digest_ctx none_fails) p = r.
Proof.
  intros p r.
  destruct (C53_two_pass env64 libc (toy none_fails) alloc sha2_256_e SHA256 nat20_ctx (@bssl_ctx (toy none_fails) alloc)
              (toy_sha2 none_fails) (fun _ => eq_refl) eq_refl eq_refl eq_refl) as (H & _).
  destruct (H abc 1) as [H1 H2]; [apply digest_preb_ok; vm_compute; reflexivity|reflexivity|reflexivity|].
  subst p r. unfold bssl_digest_ctx. rewrite H1, H2. with_strategy transparent [hash] vm_compute. split; reflexivity.
Qed.

(** A program that falls back to a digest if it cannot have a MAC. With a failing HMAC_Final it sees a resource error, and goes on. *)
Definition fallback (alg : N) : client (list error) :=
  Hmac alg (slice_of (bytes [1])) (Some (mkGather 0 None)) (Some (repeat x00 64)) (Some 64) (fun '(rc, out, size) =>
    match rc with ok_e => Done [rc] | _ => Digest alg (Some abc) 1 out size (fun '(rc', _, _) => Done [rc; rc']) end).
Definition hmac_fails (c : call) : bool := match c with c_hmac_final => true | _ => false end.
Example C53_failing_case :
  careful true (fallback sha2_512_e) /\ run nat20_ctx (fallback sha2_512_e) = Ret [ok_e] /\
  run (bssl_digest_ctx hmac_fails) (fallback sha2_512_e) = Ret [implementation_specific_e; ok_e] /\
  yields true (fallback sha2_512_e) [implementation_specific_e; ok_e] /\ ~ yields false (fallback sha2_512_e) [implementation_specific_e; ok_e].
Proof.
  assert (HR : hmac_report true sha2_512_e (slice_of (bytes [1])) (Some (mkGather 0 None)) (Some (repeat x00 64)) (Some 64) =
    (ok_e, Some (HMAC SHA512 (bytes [1]) [] ++ []), Some 64)) by reflexivity.
  assert (HP : hmac_pre (slice_of (bytes [1])) (Some (mkGather 0 None)) (Some (repeat x00 64)) (Some 64)) by (apply hmac_preb_ok; vm_compute; reflexivity).
  splits.
  - unfold fallback. cbn [careful]. split; [exact HP|]. split; [intros [? _]; discriminate|]. intros a [->|(_ & e & He & ->)]; [rewrite HR; exact I|].
    assert (Hd : forall k : outcome -> client (list error), (forall a, careful true (k a)) -> careful true (Digest sha2_512_e (Some abc) 1 (Some (repeat x00 64)) (Some 64) k)).
    { intros k Hk. cbn [careful]. split; [apply digest_preb_ok; vm_compute; reflexivity|]. intros a _. apply Hk. }
    destruct He as [->| ->]; apply Hd; intros [[? ?] ?]; exact I.
  - unfold fallback, nat20_ctx. cbn [run n20_crypto_digest_context ctx_hmac]. fold the_digest. fold the_hmac.
    rewrite (the_hmac_meets env64 libc) by exact HP. now rewrite HR.
  - with_strategy transparent [hash] vm_compute. reflexivity.
  - eapply y_hmac; [right; split; [reflexivity|]; exists implementation_specific_e; split; [now right|reflexivity]|].
    eapply y_digest; [left; reflexivity|]. unfold digest_report, report.
    replace (first_error _) with ok_e by (vm_compute; reflexivity). constructor.
  - intro H. assert (Hy : yields false (fallback sha2_512_e) [ok_e]) by (eapply y_hmac; [left; reflexivity|rewrite HR; constructor]).
    discriminate (yields_det _ _ _ H Hy).
Qed.

(** A careless program can tell them apart. *)
Definition careless : client error := Hmac 9 (slice_of (bytes [1])) None None None (fun '(rc, _, _) => Done rc).
Example C53_careless_case : ~ careful false careless /\ run nat20_ctx careless = Ret unknown_algorithm_e /\
  run (bssl_digest_ctx none_fails) careless = Ret unexpected_null_size_e.
Proof. splits; [|reflexivity|reflexivity]. intros (_ & H & _). apply H. split; reflexivity. Qed.

(** A key in two steps and in one, of 40 bytes. *)
Example C53_extract_expand_case :
  let s l := slice_of (bytes l) in
  hkdf_pre (s [1; 2]) (s [3]) (s [4]) 40 None /\ missing (s [1; 2]) = false /\ missing (s [3]) = false /\ missing (s [4]) = false /\ 40 <= 255 * out_bytes SHA256 /\
  run nat20_ctx (extract_expand sha2_256_e (s [1; 2]) (s [3]) (s [4]) 40) = Ret (Some (HKDF SHA256 (bytes [3]) (bytes [1; 2]) (bytes [4]) 40)) /\
  run (bssl_digest_ctx none_fails) (hkdf_once sha2_256_e (s [1; 2]) (s [3]) (s [4]) 40) = Ret (Some (HKDF SHA256 (bytes [3]) (bytes [1; 2]) (bytes [4]) 40)).
Proof.
  cbv zeta. set (ikm := slice_of (bytes [1; 2])). set (salt := slice_of (bytes [3])). set (info := slice_of (bytes [4])).
  assert (P : hkdf_pre ikm salt info 40 None) by (apply hkdf_preb_ok; vm_compute; reflexivity).
  destruct (C53_extract_expand env64 libc (toy none_fails) alloc sha2_256_e SHA256 ikm salt info 40 nat20_ctx (@bssl_ctx (toy none_fails) alloc)
              (toy_sha2 none_fails) (fun _ => eq_refl) eq_refl eq_refl eq_refl P eq_refl eq_refl eq_refl) as (H1 & _ & _ & H2); [vm_compute; discriminate|].
  splits; [exact P|reflexivity|reflexivity|reflexivity|vm_compute; discriminate|exact H1|exact H2].
Qed.
