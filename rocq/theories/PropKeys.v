(** Properties C45 and C49: key handles of the BoringSSL back end (src/crypto/crypto_boringssl.cpp). *)
From Coq Require Import List NArith ZArith Bool Strings.Byte Lia.
From Coq Require Import ZifyBool ZifyNat ZifyN.
From Verif Require Import Base BaseFacts Res SpecDigits DigitsFacts SpecSha2 Crypto SpecMac SpecCrypto PropCrypto.
From Verif Require Import Bssl BsslKeys SpecBssl BsslProofs Rfc6979Proofs KeyProofs PropBssl.
Import ListNotations.
Open Scope N_scope.

(** ** C45 *)

(** Every history of allowed calls, with any failures of BoringSSL calls and any allocator in each of them, is a history of the table of keys: [lawful] says
    for each kind of call which error it reports, what it returns and what becomes of the table. The heap represents the table. *)
Theorem C45_history : forall (E : Env) (B : Bssl) tr h,
  computes_sha2 B -> signs B -> publishes B -> history B [] tr h ->
  exists t, lawful_history B [] tr t /\ h = heap_of t /\ lookup t 0 = None.
Proof.
  intros E B tr h Hc Hs Hp Hh. exact (history_lawful B Hc Hs Hp [] tr h Hh [] eq_refl eq_refl).
Qed.
Print Assumptions C45_history.

(** No allowed call after any such history is undefined, and the only one that may go on for ever is the derivation of an EC key, when none of
    the candidates it looks at is suitable. *)
Theorem C45_defined : forall (E : Env) (B : Bssl) (A : Allocator) tr h fuel o,
  computes_sha2 B -> signs B -> publishes B -> allocator_ok A -> history B [] tr h -> op_ok (live h) o ->
  (exists r h', call_op fuel h o = Ret (r, h')) \/
  (call_op fuel h o = OutOfFuel /\
   exists ctx a ty g ko c bits, o = Kdf ctx a ty g ko /\ kind_of ty = Some (Signing (Some c)) /\
     find_key h a = Some (object (SecretKey bits)) /\
     forall i, (i < fuel)%nat ->
       suitable (curve_order c) (candidate (HMAC SHA512) 64 (curve_order c) (HKDF_expand SHA512 bits (message_bytes (one g) 1) 32) i) = false).
Proof.
  intros E B A tr h fuel o Hc Hs Hp Ha Hh Ho. destruct (C45_history E B tr h Hc Hs Hp Hh) as (t & _ & -> & H0).
  destruct (call_lawful B Hc Hs Hp Ha fuel t o H0 Ho) as [(r & t' & Hr & _)|(Hr & ctx & a & ty & g & ko & c & bits & H1 & H2 & H3 & H4)].
  - left. exists r, (heap_of t'). exact Hr.
  - right. split; [exact Hr|]. exists ctx, a, ty, g, ko, c, bits. splits; try assumption.
    + rewrite find_heap. unfold handle_key in H3. destruct (a =? 0); [discriminate|]. now rewrite H3.
    + now apply first_suitable_none.
Qed.
Print Assumptions C45_defined.

(** Tables: a key stays until its handle is freed. *)
Lemma lawful_keeps (B : Bssl) t o r t' a k : lawful B t o r t' -> lookup t a = Some k -> o <> Free true a -> lookup t' a = Some k.
Proof.
  intros Hl Hk Hf.
  assert (Hcr : forall errs what ko rc hd, creates B t errs what ko rc hd t' -> lookup t' a = Some k).
  { intros errs what ko rc hd [_ H]. destruct rc; try (destruct H as [_ ->]; exact Hk).
    destruct H as (b & k' & _ & _ & Hn & _ & ->). rewrite lookup_cons. destruct (N.eqb_spec b a) as [->|]; [congruence|exact Hk]. }
  destruct o as [ctx s ko|ctx b ty c ko|ctx b m out size|ctx b out size|ctx b], r as [rc hd|o|rc]; cbn [lawful] in Hl; try contradiction;
    try (eapply Hcr; exact Hl); try (destruct Hl as [-> _]; exact Hk).
  destruct ctx; destruct Hl as [_ ->]; [|exact Hk]. rewrite lookup_filter. destruct (N.eqb_spec b a) as [->|]; [contradiction|exact Hk].
Qed.
Lemma lawful_history_keeps (B : Bssl) t tr t' : lawful_history B t tr t' -> forall a k, lookup t a = Some k ->
  (forall f r, ~ In (f, Free true a, r) tr) -> lookup t' a = Some k.
Proof.
  induction 1 as [t|t f o r t1 tr t2 Hl _ IH]; intros a k Hk Hf; [exact Hk|]. apply IH.
  - eapply (lawful_keeps (with_fails f B)); [exact Hl|exact Hk|]. intros ->. apply (Hf f r). now left.
  - intros f' r' Hi. apply (Hf f' r'). now right.
Qed.

(** A handle keeps its key until it is freed, whatever else is called: in particular freeing other handles does not matter. *)
Theorem C45_keeps_key : forall (E : Env) (B : Bssl) tr1 h1 tr2 h2 a k,
  computes_sha2 B -> signs B -> publishes B -> history B [] tr1 h1 -> history B h1 tr2 h2 ->
  find_key h1 a = Some k -> (forall f r, ~ In (f, Free true a, r) tr2) -> find_key h2 a = Some k.
Proof.
  intros E B tr1 h1 tr2 h2 a k Hc Hs Hp H1 H2 Hk Hf. destruct (C45_history E B tr1 h1 Hc Hs Hp H1) as (t1 & _ & -> & Z1).
  destruct (history_lawful B Hc Hs Hp _ tr2 h2 H2 t1 eq_refl Z1) as (t2 & L2 & -> & _).
  rewrite find_heap in *. destruct (lookup t1 a) as [k1|] eqn:El; [|discriminate]. now rewrite (lawful_history_keeps B t1 tr2 t2 L2 a k1 El Hf).
Qed.
Print Assumptions C45_keeps_key.

(** A new handle is not NULL and differs from all live ones, and stands for the key asked for. *)
Theorem C45_new_secret : forall (E : Env) (B : Bssl) (A : Allocator) tr h ctx s ko fuel a h',
  computes_sha2 B -> signs B -> publishes B -> allocator_ok A -> history B [] tr h -> slice_ok s ->
  call_op fuel h (MakeSecret ctx (Some s) ko) = Ret (RKey ok_e (Some a), h') ->
  a <> 0 /\ live h a = false /\ h' = (a, object (SecretKey (slice_bytes s))) :: h.
Proof.
  intros E B A tr h ctx s ko fuel a h' Hc Hs Hp Ha Hh Hsl Hr. destruct (C45_history E B tr h Hc Hs Hp Hh) as (t & _ & -> & Z).
  destruct (call_lawful B Hc Hs Hp Ha fuel t (MakeSecret ctx (Some s) ko) Z Hsl) as [(r & t' & Hr' & Hl & _)|(Hr' & _)]; rewrite Hr' in Hr; [|discriminate].
  injection Hr as -> <-. cbn [lawful creates] in Hl. destruct Hl as (_ & b & k & Hb & Hz & Hn & -> & ->). injection Hb as <-.
  splits; try assumption; [|reflexivity]. rewrite live_lookup, Hn. reflexivity.
Qed.
Print Assumptions C45_new_secret.
Theorem C45_new_derived : forall (E : Env) (B : Bssl) (A : Allocator) f tr h ctx b ty g ko fuel a h',
  computes_sha2 B -> signs B -> publishes B -> allocator_ok A -> history B [] tr h -> op_ok (live h) (Kdf ctx b ty g ko) ->
  @call_op (with_fails f B) A fuel h (Kdf ctx b ty g ko) = Ret (RKey ok_e (Some a), h') ->
  exists bits k, find_key h b = Some (object (SecretKey bits)) /\ derived B bits (message_bytes (one g) 1) ty k /\
    a <> 0 /\ live h a = false /\ h' = (a, object k) :: h.
Proof.
  intros E B A f tr h ctx b ty g ko fuel a h' Hc Hs Hp Ha Hh Ho Hr. destruct (C45_history E B tr h Hc Hs Hp Hh) as (t & _ & -> & Z).
  destruct (call_lawful (with_fails f B) Hc Hs Hp Ha fuel t _ Z Ho) as [(r & t' & Hr' & Hl & _)|(Hr' & _)]; rewrite Hr' in Hr; [|discriminate].
  injection Hr as -> <-. cbn [lawful creates] in Hl. destruct Hl as (_ & c & k & Hb & Hz & Hn & (bits & Hbits & Hd) & ->). injection Hb as <-.
  exists bits, k. splits; try assumption; try reflexivity.
  - rewrite find_heap. unfold handle_key in Hbits. destruct (b =? 0); [discriminate|]. now rewrite Hbits.
  - rewrite live_lookup, Hn. reflexivity.
Qed.
Print Assumptions C45_new_derived.

(** Freeing a handle removes it and nothing else. *)
Theorem C45_free : forall (E : Env) (B : Bssl) (A : Allocator) tr h fuel a,
  computes_sha2 B -> signs B -> publishes B -> allocator_ok A -> history B [] tr h -> handle_ok (live h) a ->
  exists h', call_op fuel h (Free true a) = Ret (RFree ok_e, h') /\
    find_key h' a = None /\ forall b, b <> a -> find_key h' b = find_key h b.
Proof.
  intros E B A tr h fuel a Hc Hs Hp Ha Hh Ho. destruct (C45_history E B tr h Hc Hs Hp Hh) as (t & _ & -> & Z).
  cbn [call_op]. rewrite bssl_free_ok by assumption. cbn [bind]. eexists. split; [reflexivity|]. split.
  - rewrite find_heap, lookup_filter, N.eqb_refl. reflexivity.
  - intros b Hb. rewrite !find_heap, lookup_filter. destruct (N.eqb_spec a b) as [->|]; [contradiction|reflexivity].
Qed.
Print Assumptions C45_free.

(** The derived key depends only on the secret, the type and the concatenation of the context: in any two situations. *)
Theorem C45_kdf_depends_on : forall (E : Env) (B : Bssl) (A1 A2 : Allocator) f1 f2 tr1 h1 tr2 h2 ctx1 ctx2 b1 b2 ty g1 g2 ko1 ko2 n1 n2 a1 a2 h1' h2',
  computes_sha2 B -> signs B -> publishes B -> allocator_ok A1 -> allocator_ok A2 -> history B [] tr1 h1 -> history B [] tr2 h2 ->
  op_ok (live h1) (Kdf ctx1 b1 ty g1 ko1) -> op_ok (live h2) (Kdf ctx2 b2 ty g2 ko2) ->
  find_key h1 b1 = find_key h2 b2 -> message_bytes (one g1) 1 = message_bytes (one g2) 1 ->
  @call_op (with_fails f1 B) A1 n1 h1 (Kdf ctx1 b1 ty g1 ko1) = Ret (RKey ok_e (Some a1), h1') ->
  @call_op (with_fails f2 B) A2 n2 h2 (Kdf ctx2 b2 ty g2 ko2) = Ret (RKey ok_e (Some a2), h2') ->
  find_key h1' a1 <> None /\ find_key h1' a1 = find_key h2' a2.
Proof.
  intros E B A1 A2 f1 f2 tr1 h1 tr2 h2 ctx1 ctx2 b1 b2 ty g1 g2 ko1 ko2 n1 n2 a1 a2 h1' h2' Hc Hs Hp Ha1 Ha2 H1 H2 O1 O2 Hk Hm R1 R2.
  destruct (C45_new_derived E B A1 f1 tr1 h1 ctx1 b1 ty g1 ko1 n1 a1 h1' Hc Hs Hp Ha1 H1 O1 R1) as (bits1 & k1 & K1 & D1 & _ & _ & ->).
  destruct (C45_new_derived E B A2 f2 tr2 h2 ctx2 b2 ty g2 ko2 n2 a2 h2' Hc Hs Hp Ha2 H2 O2 R2) as (bits2 & k2 & K2 & D2 & _ & _ & ->).
  rewrite K1, K2 in Hk. cbn [object] in Hk. injection Hk as <-. rewrite Hm in D1.
  rewrite (derived_unique bits1 _ ty k1 k2 D1 D2). unfold find_key. cbn [find fst]. rewrite !N.eqb_refl. split; [discriminate|reflexivity].
Qed.
Print Assumptions C45_kdf_depends_on.

(** Secrets neither sign nor have a public key; signing keys are no input for key derivation. This holds in any heap, with any BoringSSL. *)
Theorem C45_secret_never_signs : forall (B : Bssl) h a bits m out size rc out' size',
  find_key h a = Some (object (SecretKey bits)) -> a <> 0 ->
  n20_crypto_boringssl_sign true h a m out (Some size) = Ret (rc, out', size') -> rc = invalid_key_e /\ out' = out /\ size' = Some size.
Proof.
  intros B h a bits m out size rc out' size' Hk Hz Hr. unfold n20_crypto_boringssl_sign, load_key in Hr. rewrite Hk in Hr.
  destruct (N.eqb_spec a 0); [contradiction|]. cbn [negb bind object k_type] in Hr. now injection Hr as <- <- <-.
Qed.
Print Assumptions C45_secret_never_signs.
Theorem C45_secret_no_public_key : forall (B : Bssl) h a bits out size rc out' size',
  find_key h a = Some (object (SecretKey bits)) -> a <> 0 ->
  n20_crypto_boringssl_key_get_public_key true h a out (Some size) = Ret (rc, out', size') -> rc = invalid_key_e /\ out' = out /\ size' = Some size.
Proof.
  intros B h a bits out size rc out' size' Hk Hz Hr. unfold n20_crypto_boringssl_key_get_public_key, load_key in Hr. rewrite Hk in Hr.
  destruct (N.eqb_spec a 0); [contradiction|]. cbn [negb bind object k_type] in Hr. now injection Hr as <- <- <-.
Qed.
Print Assumptions C45_secret_no_public_key.
Theorem C45_signing_key_no_kdf : forall (B : Bssl) (A : Allocator) fuel h a p ty g ko,
  find_key h a = Some (object (SigningKey p)) -> a <> 0 ->
  n20_crypto_boringssl_kdf fuel true h a ty g ko = Ret (invalid_key_e, h, ko).
Proof.
  intros B A fuel h a p ty g ko Hk Hz. unfold n20_crypto_boringssl_kdf, load_key. rewrite Hk.
  destruct (N.eqb_spec a 0); [contradiction|]. destruct p as [seed|[] d]; reflexivity.
Qed.
Print Assumptions C45_signing_key_no_kdf.

(** A freed handle is dangling: every further use is undefined, so the requirement of live handles cannot be dropped. *)
Theorem C45_use_after_free_refuted : forall (B : Bssl) (A : Allocator) fuel h a ty g ko m out size h', a <> 0 ->
  n20_crypto_boringssl_key_free true h a = Ret (ok_e, h') ->
  n20_crypto_boringssl_kdf fuel true h' a ty g ko = Undef UBReadOob /\
  n20_crypto_boringssl_sign true h' a m out (Some size) = Undef UBReadOob /\
  n20_crypto_boringssl_key_get_public_key true h' a out (Some size) = Undef UBReadOob /\
  n20_crypto_boringssl_key_free true h' a = Undef UBReadOob.
Proof.
  intros B A fuel h a ty g ko m out size h' Hz Hf. unfold n20_crypto_boringssl_key_free in Hf. destruct (N.eqb_spec a 0) as [|_]; [contradiction|].
  cbn [negb] in Hf. destruct (load_key h a) as [k| |]; cbn [bind] in Hf; try discriminate. injection Hf as <-.
  assert (Hl : load_key (remove_key h a) a = Undef UBReadOob).
  { unfold load_key, find_key, remove_key. induction h as [|[b x] h IH]; [reflexivity|]. cbn [filter fst].
    destruct (N.eqb_spec b a) as [->|Hb]; cbn [negb]; [exact IH|]. cbn [find fst]. destruct (N.eqb_spec b a); [contradiction|]. exact IH. }
  unfold n20_crypto_boringssl_kdf, n20_crypto_boringssl_sign, n20_crypto_boringssl_key_get_public_key, n20_crypto_boringssl_key_free.
  destruct (N.eqb_spec a 0); [contradiction|]. rewrite Hl. splits; reflexivity.
Qed.
Print Assumptions C45_use_after_free_refuted.

(** ** C49 *)

(** What each key operation reports, with any failing BoringSSL calls; [t] is the table of keys the heap represents. *)
Theorem C49_sign_contract : forall (E : Env) (B : Bssl) t ctx a m out size, signs B -> op_ok (live (heap_of t)) (Sign ctx a m out size) ->
  let k := handle_key t a in
  (exists sig, signature_of B k (message_bytes (one m) 1) sig /\
     n20_crypto_boringssl_sign ctx (heap_of t) a m out size = Ret (report (sign_errors ctx k m out size) (signature_octets k) sig out size)) \/
  (exists e n, resource_error B e /\ (size = Some n \/ n = 104) /\
     n20_crypto_boringssl_sign ctx (heap_of t) a m out size = Ret (e, out, Some n)).
Proof.
  intros E B t ctx a m out size Hs (Hh & Hg & Ho) k. destruct (sign_failing B ctx (heap_of t) a m out size) as [->|(e & n & He & -> & Hn)].
  - left. exact (@bssl_sign_ok E (reliable B) t ctx a m out size (reliable_ok B) Hs Hh Hg Ho).
  - right. exists e, n. now splits.
Qed.
Print Assumptions C49_sign_contract.
Theorem C49_public_contract : forall (E : Env) (B : Bssl) t ctx a out size, publishes B -> op_ok (live (heap_of t)) (Public ctx a out size) ->
  let k := handle_key t a in
  (exists pub, public_of B k pub /\
     n20_crypto_boringssl_key_get_public_key ctx (heap_of t) a out size = Ret (report (public_errors ctx k out size) (public_octets k) pub out size)) \/
  (exists e, resource_error B e /\ n20_crypto_boringssl_key_get_public_key ctx (heap_of t) a out size = Ret (e, out, size)).
Proof.
  intros E B t ctx a out size Hp (Hh & Ho) k. destruct (public_failing B ctx (heap_of t) a out size) as [->|H]; [left|right; exact H].
  exact (@bssl_public_ok (reliable B) t ctx a out size (reliable_ok B) Hp Hh Ho).
Qed.
Print Assumptions C49_public_contract.
Theorem C49_kdf_contract : forall (E : Env) (B : Bssl) (A : Allocator) fuel t ctx a ty g ko rc h hd,
  computes_sha2 B -> op_ok (live (heap_of t)) (Kdf ctx a ty g ko) ->
  n20_crypto_boringssl_kdf fuel ctx (heap_of t) a ty g ko = Ret (rc, h, hd) ->
  (rc = first_error (kdf_errors ctx (handle_key t a) ty g ko) \/ resource_error B rc) /\
  (rc <> ok_e -> h = heap_of t /\ hd = ko) /\
  (rc = ok_e -> exists bits k, handle_key t a = Some (SecretKey bits) /\ derived B bits (message_bytes (one g) 1) ty k /\
     h = (fresh (heap_of t), object k) :: heap_of t /\ hd = Some (fresh (heap_of t))).
Proof.
  intros E B A fuel t ctx a ty g ko rc h hd Hc (Hh & Hg) Hr. destruct (kdf_failing B fuel ctx (heap_of t) a ty g ko) as [H|(e & He & H)]; rewrite H in Hr; clear H.
  - rewrite (@bssl_kdf_ok E (reliable B) A fuel t ctx a ty g ko (reliable_ok B) Hc Hh Hg) in Hr. unfold kdf_result in Hr.
    assert (Hok : first_error (kdf_errors ctx (handle_key t a) ty g ko) = ok_e -> exists bits, handle_key t a = Some (SecretKey bits)).
    { unfold kdf_errors. destruct ctx; [|discriminate]. destruct (handle_key t a) as [[bits|p]|]; try discriminate. now exists bits. }
    destruct (first_error (kdf_errors ctx (handle_key t a) ty g ko)) eqn:Ee;
      try (injection Hr as <- <- <-; split; [left; reflexivity|]; split; [split; reflexivity|discriminate]).
    destruct (Hok eq_refl) as [bits Hb]. rewrite Hb in Hr. destruct (derive fuel bits (message_bytes (one g) 1) ty) as [k|] eqn:Ed; [|discriminate].
    injection Hr as <- <- <-. split; [left; reflexivity|]. split; [contradiction|]. intros _. exists bits, k. splits; try assumption; try reflexivity.
    exact (derive_derived _ _ _ _ _ Ed).
  - injection Hr as <- <- <-. split; [now right|]. split; [split; reflexivity|]. intros ->. now destruct He as [[|] _].
Qed.
Print Assumptions C49_kdf_contract.
(** Derivation succeeds if the table of errors says so, no call fails and, for EC keys, RFC 6979 has a value to give. *)
Theorem C49_kdf_succeeds : forall (E : Env) (B : Bssl) (A : Allocator) t ctx a ty g ko bits k,
  no_failure B -> computes_sha2 B -> op_ok (live (heap_of t)) (Kdf ctx a ty g ko) ->
  first_error (kdf_errors ctx (handle_key t a) ty g ko) = ok_e -> handle_key t a = Some (SecretKey bits) ->
  derived B bits (message_bytes (one g) 1) ty k ->
  exists n, forall fuel, (n <= fuel)%nat ->
    n20_crypto_boringssl_kdf fuel ctx (heap_of t) a ty g ko =
      Ret (ok_e, (fresh (heap_of t), object k) :: heap_of t, Some (fresh (heap_of t))).
Proof.
  intros E B A t ctx a ty g ko bits k Hf Hc (Hh & Hg) He Hb Hd. destruct (derived_derive _ _ _ _ Hd) as [n Hn]. exists n. intros fuel Hl.
  rewrite (bssl_kdf_ok fuel t ctx a ty g ko Hf Hc Hh Hg). unfold kdf_result. rewrite He, Hb, (Hn fuel Hl). reflexivity.
Qed.
Print Assumptions C49_kdf_succeeds.
Theorem C49_make_secret_contract : forall (E : Env) (B : Bssl) (A : Allocator) h ctx s ko, match s with None => True | Some s => slice_ok s end ->
  n20_crypto_boringssl_make_secret ctx h s ko =
  Ret (match first_error (secret_errors ctx s ko), s with
       | ok_e, Some s => (ok_e, (fresh h, object (SecretKey (slice_bytes s))) :: h, Some (fresh h))
       | e, _ => (e, h, ko)
       end).
Proof. intros E B A h ctx s ko Hs. now apply bssl_make_secret_ok. Qed.
Print Assumptions C49_make_secret_contract.

(** Two passes: asked without a buffer, sign and key_get_public_key tell the size they need; with exactly that, sign succeeds, fills all of the
    buffer and reports the same size. *)
Theorem C49_two_pass_sign : forall (E : Env) (B : Bssl) t a p g size out, no_failure B -> signs B -> a <> 0 -> lookup t a = Some (SigningKey p) ->
  bssl_gather_ok g -> null_list g = false -> existsb missing (slices g) = false ->
  let n := signature_octets (Some (SigningKey p)) in
  n20_crypto_boringssl_sign true (heap_of t) a (Some g) None (Some size) = Ret (insufficient_buffer_size_e, None, Some n) /\
  (len out = n -> exists sig, signature_of B (Some (SigningKey p)) (gather_bytes g) sig /\ len sig = n /\
     n20_crypto_boringssl_sign true (heap_of t) a (Some g) (Some out) (Some n) = Ret (ok_e, Some sig, Some n)).
Proof.
  intros E B t a p g size out Hf Hs Hz Hl Hg Hn Hm n.
  assert (Hh : handle_ok (live (heap_of t)) a) by (right; rewrite live_lookup, Hl; reflexivity).
  assert (Hk : handle_key t a = Some (SigningKey p)) by (unfold handle_key; destruct (N.eqb_spec a 0); [contradiction|exact Hl]).
  assert (Hmm : has_missing (one (Some g)) 1 = false) by (cbn [one]; now rewrite has_missing_one).
  split.
  - destruct (bssl_sign_ok t true a (Some g) None (Some size) Hf Hs Hh Hg I) as (sig & _ & ->). rewrite Hk. reflexivity.
  - intro Ho. assert (Ho1 : out_ok (Some out) (Some n)) by (unfold out_ok; rewrite Ho; apply N.le_refl).
    destruct (bssl_sign_ok t true a (Some g) (Some out) (Some n) Hf Hs Hh Hg Ho1) as (sig & Hsig & ->). rewrite Hk in Hsig |- *.
    cbn [one message_bytes] in Hsig. change (takeN 1 [g]) with [g] in Hsig. cbn [flat_map] in Hsig. rewrite app_nil_r in Hsig.
    exists sig. split; [exact Hsig|].
    assert (Hlen : len sig = n).
    { subst n. destruct p as [seed|c d]; cbn [signature_of signature_octets] in *.
      - subst sig. apply Hs.
      - destruct Hsig as (r & s & _ & _ & _ & ->). unfold raw_signature. rewrite len_app, !len_be_bytes. destruct c; reflexivity. }
    split; [exact Hlen|]. unfold report, sign_errors, too_small. cbn [negb is_none wrong_kind is_secret Bool.eqb].
    change (signature_octets (Some (SigningKey p))) with n. rewrite N.ltb_irrefl, Hmm. cbn [one head_null_list orb]. rewrite Hn.
    cbn [first_error find fst]. rewrite dropN_all by (rewrite Ho; apply N.le_refl). now rewrite app_nil_r.
Qed.
Print Assumptions C49_two_pass_sign.
Theorem C49_two_pass_public : forall (E : Env) (B : Bssl) t a p size out, no_failure B -> publishes B -> a <> 0 -> lookup t a = Some (SigningKey p) ->
  let n := public_octets (Some (SigningKey p)) in
  n20_crypto_boringssl_key_get_public_key true (heap_of t) a None (Some size) = Ret (insufficient_buffer_size_e, None, Some n) /\
  (len out = n -> exists pub, public_of B (Some (SigningKey p)) pub /\ len pub = n /\
     n20_crypto_boringssl_key_get_public_key true (heap_of t) a (Some out) (Some n) = Ret (ok_e, Some pub, Some n)).
Proof.
  intros E B t a p size out Hf Hs Hz Hl n.
  assert (Hh : handle_ok (live (heap_of t)) a) by (right; rewrite live_lookup, Hl; reflexivity).
  assert (Hk : handle_key t a = Some (SigningKey p)) by (unfold handle_key; destruct (N.eqb_spec a 0); [contradiction|exact Hl]).
  split.
  - destruct (bssl_public_ok t true a None (Some size) Hf Hs Hh I) as (pub & _ & ->). rewrite Hk. reflexivity.
  - intro Ho. assert (Ho1 : out_ok (Some out) (Some n)) by (unfold out_ok; rewrite Ho; apply N.le_refl).
    destruct (bssl_public_ok t true a (Some out) (Some n) Hf Hs Hh Ho1) as (pub & Hpub & ->). rewrite Hk in Hpub |- *.
    exists pub. split; [exact Hpub|].
    assert (Hlen : len pub = n).
    { subst n. destruct p as [seed|c d]; cbn [public_of public_octets] in *.
      - subst pub. apply Hs.
      - destruct (proj2 Hs c d) as (x & y & _ & _ & Hxy). rewrite Hxy in Hpub. injection Hpub as <-. rewrite len_app, !len_be_bytes. destruct c; reflexivity. }
    split; [exact Hlen|]. unfold report, public_errors, too_small. cbn [negb is_none wrong_kind is_secret Bool.eqb].
    change (public_octets (Some (SigningKey p))) with n. rewrite N.ltb_irrefl. cbn [orb first_error find fst].
    rewrite dropN_all by (rewrite Ho; apply N.le_refl). now rewrite app_nil_r.
Qed.
Print Assumptions C49_two_pass_public.
(** A failing EVP_DigestSignFinal leaves another value in the size parameter than was passed, although nothing was written. *)
Theorem C49_size_after_failure_refuted : exists (B : Bssl) h g,
  signs B /\ n20_crypto_boringssl_sign true h 1 (Some g) (Some (repeat x00 64)) (Some 64) =
    Ret (implementation_specific_e, Some (repeat x00 64), Some 104).
Proof.
  exists (toy (fun c => match c with c_sign_final => true | _ => false end)), [(1, mkKey 1 (Evp (EC P256 5)))], (mkGather 0 None).
  split; [apply toy_signs|]. reflexivity.
Qed.
Print Assumptions C49_size_after_failure_refuted.

(** ** Examples *)
#[local] Instance env64 : Env := {| size_width := W64; host_little_endian := true; stray := fun _ => x00 |}.
#[local] Instance bssl0 : Bssl := toy none_fails.
(** An allocator that counts up. *)
Definition above (h : heap) : N := 1 + fold_right N.max 0 (map fst h).
#[local] Instance bump : Allocator := {| fresh := above |}.
Lemma bump_ok : allocator_ok bump.
Proof.
  intro h. cbn [fresh bump]. unfold above. split; [lia|]. unfold find_key.
  assert (H : forall b, fold_right N.max 0 (map fst h) < b -> find (fun p => fst p =? b) h = None).
  { induction h as [|[c x] h IH]; intros b Hb; [reflexivity|]. cbn [map fold_right fst find] in *. destruct (N.eqb_spec c b); [lia|]. apply IH. lia. }
  rewrite H by lia. reflexivity.
Qed.

(** Another one, which skips a few addresses. *)
Definition skip : Allocator := {| fresh h := 7 + above h |}.
Lemma skip_ok : allocator_ok skip.
Proof.
  intro h. cbn [fresh skip]. unfold above. split; [lia|]. unfold find_key.
  assert (H : forall b, fold_right N.max 0 (map fst h) < b -> find (fun p => fst p =? b) h = None).
  { induction h as [|[c x] h IH]; intros b Hb; [reflexivity|]. cbn [map fold_right fst find] in *. destruct (N.eqb_spec c b); [lia|]. apply IH. lia. }
  rewrite H by lia. reflexivity.
Qed.

(** A secret and a second one derived from it; the first is freed; an attempt to sign with the second. The two calls at the end do not need those of BoringSSL that fail. *)
Definition handle_okb (h : heap) (a : N) : bool := (a =? 0) || live h a.
Lemma handle_okb_ok h a : handle_okb h a = true -> handle_ok (live h) a.
Proof. unfold handle_okb, handle_ok. intro H. apply orb_prop in H. destruct H as [H|H]; [left; now apply N.eqb_eq|now right]. Qed.
Definition ctx_case : gather := mkGather 2 (Some [text [1; 2]; text [3]]).
Lemma ctx_case_ok : bssl_gather_ok ctx_case.
Proof. left. apply gather_okb_ok. vm_compute. reflexivity. Qed.
Definition the_seed : list byte := HKDF_expand SHA512 (bytes [9; 9]) (bytes [1; 2; 3]) 32.
Definition all_fail (c : call) : bool := true.
Example C45_history_case : computes_sha2 bssl0 /\ signs bssl0 /\ publishes bssl0 /\ allocator_ok bump /\
  history bssl0 []
    [ (none_fails, MakeSecret true (Some (text [9; 9])) (Some 0), RKey ok_e (Some 1));
      (none_fails, Kdf true 1 4 (Some ctx_case) (Some 0), RKey ok_e (Some 2));
      (all_fail, Free true 1, RFree ok_e);
      (all_fail, Sign true 2 (Some ctx_case) None (Some 5), ROut (invalid_key_e, None, Some 5)) ]
    [(2, object (SecretKey the_seed))].
Proof.
  split; [apply toy_sha2|]. split; [apply toy_signs|]. split; [apply toy_publishes|]. split; [exact bump_ok|].
  apply (history_cons _ bump 0%nat _ _ _ _ [(1, object (SecretKey (bytes [9; 9])))]).
  { exact bump_ok. }
  { cbn [op_ok]. apply slice_okb_ok. vm_compute. reflexivity. }
  { reflexivity. }
  set (t1 := [(1, SecretKey (bytes [9; 9]))] : table).
  assert (O1 : op_ok (live (heap_of t1)) (Kdf true 1 4 (Some ctx_case) (Some 0))).
  { cbn [op_ok]. split; [apply handle_okb_ok; reflexivity|exact ctx_case_ok]. }
  assert (Hm : message_bytes (one (Some ctx_case)) 1 = bytes [1; 2; 3]) by (vm_compute; reflexivity).
  assert (D1 : derived bssl0 (bytes [9; 9]) (message_bytes (one (Some ctx_case)) 1) 4 (SecretKey the_seed)) by (rewrite Hm; unfold derived, the_seed; change (kind_of 4) with (Some Secret); cbv iota zeta; reflexivity).
  assert (He : first_error (kdf_errors true (handle_key t1 1) 4 (Some ctx_case) (Some 0)) = ok_e) by (vm_compute; reflexivity).
  destruct (C49_kdf_succeeds env64 bssl0 bump t1 true 1 4 (Some ctx_case) (Some 0) _ _ bssl0_reliable (toy_sha2 _) O1 He eq_refl D1) as [n Hn].
  clear Hm D1 He. set (seed := the_seed) in *. clearbody seed.
  apply (history_cons _ bump n _ _ _ _ [(2, object (SecretKey seed)); (1, object (SecretKey (bytes [9; 9])))]).
  { exact bump_ok. }
  { exact O1. }
  { change (with_fails none_fails bssl0) with bssl0. cbn [call_op]. change [(1, object (SecretKey (bytes [9; 9])))] with (heap_of t1). rewrite (Hn n (le_n n)). reflexivity. }
  apply (history_cons _ bump 0%nat _ _ _ _ [(2, object (SecretKey seed))]).
  { exact bump_ok. }
  { cbn [op_ok]. apply handle_okb_ok. reflexivity. }
  { reflexivity. }
  apply (history_cons _ bump 0%nat _ _ _ _ [(2, object (SecretKey seed))]).
  { exact bump_ok. }
  { cbn [op_ok]. split; [apply handle_okb_ok; reflexivity|]. split; [exact ctx_case_ok|exact I]. }
  { reflexivity. }
  constructor.
Qed.
(** Using it afterwards. *)
Example C45_freed_case :
  n20_crypto_boringssl_key_free true [(1, object (SecretKey (bytes [9; 9])))] 1 = Ret (ok_e, []) /\
  n20_crypto_boringssl_kdf 0 true [] 1 4 (Some ctx_case) (Some 0) = Undef UBReadOob.
Proof. split; reflexivity. Qed.
(** An Ed25519 key signs and has a public key; the error rows of the four calls. *)
Definition table_case : table := [(3, SigningKey (Ed25519 (bytes [5]))); (4, SecretKey (bytes [6]))].
Example C49_rows :
  n20_crypto_boringssl_sign true (heap_of table_case) 3 (Some ctx_case) None (Some 0) = Ret (insufficient_buffer_size_e, None, Some 64) /\
  n20_crypto_boringssl_sign true (heap_of table_case) 3 (Some ctx_case) (Some (repeat x00 64)) (Some 64) =
    Ret (ok_e, Some (be_bytes 32 0x010203 ++ be_bytes 32 5), Some 64) /\
  n20_crypto_boringssl_key_get_public_key true (heap_of table_case) 3 (Some (repeat x00 40)) (Some 40) =
    Ret (ok_e, Some (be_bytes 32 5 ++ repeat x00 8), Some 32) /\
  n20_crypto_boringssl_kdf 0 true (heap_of table_case) 4 7 (Some ctx_case) (Some 0) = Ret (invalid_key_type_e, heap_of table_case, Some 0) /\
  n20_crypto_boringssl_kdf 0 true (heap_of table_case) 0 4 (Some ctx_case) (Some 0) = Ret (unexpected_null_key_in_e, heap_of table_case, Some 0) /\
  n20_crypto_boringssl_make_secret true [] (Some slice_null) (Some 0) = Ret (unexpected_null_data_e, [], Some 0).
Proof. splits; vm_compute; reflexivity. Qed.
(** The other theorems of C45. A secret and two Ed25519 keys derived from it, in different programs: other allocators, the same context in other pieces; they are
    the same key. *)
Definition secret_case : table := [(1, SecretKey (bytes [9; 9]))].
Definition ctx_case2 : gather := mkGather 1 (Some [text [1; 2; 3]]).
Lemma ctx_case2_ok : bssl_gather_ok ctx_case2.
Proof. left. apply gather_okb_ok. vm_compute. reflexivity. Qed.
Definition make_it : op := MakeSecret true (Some (text [9; 9])) (Some 0).
Lemma secret_history : history bssl0 [] [(all_fail, make_it, RKey ok_e (Some 1))] (heap_of secret_case).
Proof.
  apply (history_cons _ bump 0%nat _ _ _ _ (heap_of secret_case)); [exact bump_ok| |reflexivity|constructor].
  cbn [op_ok make_it]. apply slice_okb_ok. vm_compute. reflexivity.
Qed.
Lemma kdf_case_ok g : bssl_gather_ok g -> op_ok (live (heap_of secret_case)) (Kdf true 1 3 (Some g) (Some 0)).
Proof. intro Hg. split; [apply handle_okb_ok; reflexivity|exact Hg]. Qed.
Lemma kdf_case (A : Allocator) g : bssl_gather_ok g -> message_bytes (one (Some g)) 1 = bytes [1; 2; 3] ->
  first_error (kdf_errors true (handle_key secret_case 1) 3 (Some g) (Some 0)) = ok_e ->
  exists n, call_op n (heap_of secret_case) (Kdf true 1 3 (Some g) (Some 0)) =
    Ret (RKey ok_e (Some (fresh (heap_of secret_case))), (fresh (heap_of secret_case), object (SigningKey (Ed25519 the_seed))) :: heap_of secret_case).
Proof.
  intros Hg Hm He.
  assert (D : derived bssl0 (bytes [9; 9]) (message_bytes (one (Some g)) 1) 3 (SigningKey (Ed25519 the_seed)))
    by (rewrite Hm; unfold derived, the_seed; change (kind_of 3) with (Some (Signing None)); cbv iota zeta; reflexivity).
  destruct (C49_kdf_succeeds env64 bssl0 A secret_case true 1 3 (Some g) (Some 0) _ _ bssl0_reliable (toy_sha2 _) (kdf_case_ok g Hg) He eq_refl D) as [n Hn].
  exists n. set (seed := the_seed) in *. clearbody seed. cbn [call_op]. rewrite (Hn n (le_n n)). reflexivity.
Qed.
Example C45_derived_case : exists n1 n2 h1 h2,
  history bssl0 [] [(all_fail, make_it, RKey ok_e (Some 1))] (heap_of secret_case) /\
  op_ok (live (heap_of secret_case)) (Kdf true 1 3 (Some ctx_case) (Some 0)) /\ op_ok (live (heap_of secret_case)) (Kdf true 1 3 (Some ctx_case2) (Some 0)) /\
  message_bytes (one (Some ctx_case)) 1 = message_bytes (one (Some ctx_case2)) 1 /\
  @call_op bssl0 bump n1 (heap_of secret_case) (Kdf true 1 3 (Some ctx_case) (Some 0)) = Ret (RKey ok_e (Some 2), h1) /\
  @call_op bssl0 skip n2 (heap_of secret_case) (Kdf true 1 3 (Some ctx_case2) (Some 0)) = Ret (RKey ok_e (Some 9), h2) /\
  find_key h1 2 = Some (object (SigningKey (Ed25519 the_seed))) /\ find_key h2 9 = Some (object (SigningKey (Ed25519 the_seed))) /\
  live (heap_of secret_case) 2 = false /\ live (heap_of secret_case) 9 = false.
Proof.
  destruct (kdf_case bump ctx_case) as [n1 H1]; [exact ctx_case_ok|vm_compute; reflexivity|vm_compute; reflexivity|].
  destruct (kdf_case skip ctx_case2) as [n2 H2]; [exact ctx_case2_ok|vm_compute; reflexivity|vm_compute; reflexivity|].
  exists n1, n2. eexists _, _. split; [exact secret_history|].
  split; [exact (kdf_case_ok _ ctx_case_ok)|]. split; [exact (kdf_case_ok _ ctx_case2_ok)|]. split; [vm_compute; reflexivity|].
  split; [exact H1|]. split; [exact H2|]. splits; reflexivity.
Qed.
(** One of them stays when the secret is freed. *)
Example C45_keeps_case : exists h1 tr1,
  history bssl0 [] tr1 h1 /\ history bssl0 h1 [(all_fail, Free true 1, RFree ok_e)] [(2, object (SigningKey (Ed25519 the_seed)))] /\
  find_key h1 2 = Some (object (SigningKey (Ed25519 the_seed))) /\ find_key h1 1 <> None /\ handle_ok (live h1) 1.
Proof.
  destruct (kdf_case bump ctx_case) as [n H]; [exact ctx_case_ok|vm_compute; reflexivity|vm_compute; reflexivity|].
  set (seed := the_seed) in *. clearbody seed.
  exists ((2, object (SigningKey (Ed25519 seed))) :: heap_of secret_case), [(all_fail, make_it, RKey ok_e (Some 1)); (none_fails, Kdf true 1 3 (Some ctx_case) (Some 0), RKey ok_e (Some 2))].
  splits.
  - apply (history_cons _ bump 0%nat _ _ _ _ (heap_of secret_case)); [exact bump_ok| |reflexivity|].
    { cbn [op_ok make_it]. apply slice_okb_ok. vm_compute. reflexivity. }
    apply (history_cons _ bump n _ _ _ _ ((2, object (SigningKey (Ed25519 seed))) :: heap_of secret_case)); [exact bump_ok|exact (kdf_case_ok _ ctx_case_ok)|exact H|constructor].
  - eapply (history_cons _ bump 0%nat); [exact bump_ok|cbn [op_ok]; apply handle_okb_ok; reflexivity|reflexivity|constructor].
  - reflexivity.
  - discriminate.
  - apply handle_okb_ok. reflexivity.
Qed.
(** The wrong kind of key. *)
Example C45_kind_case :
  n20_crypto_boringssl_sign true (heap_of table_case) 4 (Some ctx_case) (Some (repeat x00 64)) (Some 64) = Ret (invalid_key_e, Some (repeat x00 64), Some 64) /\
  n20_crypto_boringssl_key_get_public_key true (heap_of table_case) 4 (Some (repeat x00 40)) (Some 40) = Ret (invalid_key_e, Some (repeat x00 40), Some 40) /\
  n20_crypto_boringssl_kdf 0 true (heap_of table_case) 3 4 (Some ctx_case) (Some 7) = Ret (invalid_key_e, heap_of table_case, Some 7).
Proof. splits; vm_compute; reflexivity. Qed.
(** Two passes, with an Ed25519 and a P-384 key. *)
Definition ec_case : table := [(5, SigningKey (EC P384 77)); (3, SigningKey (Ed25519 (bytes [5])))].
Example C49_two_pass_case : Forall (fun p => lookup ec_case (fst p) = Some (SigningKey (snd p)) /\ fst p <> 0 /\
    n20_crypto_boringssl_sign true (heap_of ec_case) (fst p) (Some ctx_case) None (Some 0) =
      Ret (insufficient_buffer_size_e, None, Some (signature_octets (Some (SigningKey (snd p))))) /\
    n20_crypto_boringssl_key_get_public_key true (heap_of ec_case) (fst p) None (Some 0) =
      Ret (insufficient_buffer_size_e, None, Some (public_octets (Some (SigningKey (snd p)))))) [(5, EC P384 77); (3, Ed25519 (bytes [5]))] /\
  no_failure bssl0 /\ bssl_gather_ok ctx_case /\ null_list ctx_case = false /\ existsb missing (slices ctx_case) = false /\
  n20_crypto_boringssl_sign true (heap_of ec_case) 5 (Some ctx_case) (Some (repeat x00 96)) (Some 96) =
    Ret (ok_e, Some (be_bytes 48 0x010203 ++ be_bytes 48 77), Some 96).
Proof. splits; [|exact bssl0_reliable|exact ctx_case_ok|reflexivity|vm_compute; reflexivity|vm_compute; reflexivity].
  repeat apply Forall_cons; [..|apply Forall_nil]; (split; [reflexivity|]; split; [discriminate|]; split; vm_compute; reflexivity).
Qed.
