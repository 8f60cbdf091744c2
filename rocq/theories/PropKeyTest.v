(** Property C57: the tests of the key interface. *)
From Coq Require Import Strings.String.
From Coq Require Import List NArith ZArith Bool Strings.Byte Lia.
From Coq Require Import ZifyBool ZifyNat ZifyN.
From Verif Require Import Base BaseFacts Res SpecDigits SpecDer SpecSha2 ShaFacts Crypto SpecMac SpecCrypto CryptoProofs Bssl BsslKeys SpecBssl BsslProofs Rfc6979Proofs KeyProofs PropBssl.
From Verif Require Import Issue PropIssue CryptoTest SpecSuite PropSuite.
From Verif Require Import KeyTest SpecKeyTest.
Import ListNotations.
Open Scope N_scope.

(** ** Stepping through a test *)

(** A run that ends with a value and a heap as described, or has found no candidate; never undefined. *)
Definition finishes {T} (hungry : Prop) (r : res (T * heap)) (Q : T -> table -> Prop) : Prop :=
  match r with
  | Ret (x, h) => exists t, h = heap_of t /\ lookup t 0 = None /\ Q x t
  | OutOfFuel => hungry
  | Undef _ => False
  end.

Lemma finishes_bind {T U} (P : Prop) (r : res (T * heap)) (k : T * heap -> res (U * heap)) Q1 Q2 : finishes P r Q1 ->
  (forall x t, lookup t 0 = None -> Q1 x t -> finishes P (k (x, heap_of t)) Q2) -> finishes P (bind r k) Q2.
Proof. destruct r as [[x h]| |]; cbn; try tauto. intros (t & -> & H0 & HQ) Hk. now apply Hk. Qed.

(** Taking a key out of the table. *)
Definition without (a : N) (t : table) : table := filter (fun p => negb (fst p =? a)) t.
Lemma without_absent a t : lookup t a = None -> without a t = t.
Proof.
  induction t as [|[b k] t IH]; intro H; [reflexivity|]. rewrite lookup_cons in H. unfold without. cbn [filter fst]. destruct (N.eqb_spec b a); [discriminate|].
  cbn [negb]. f_equal. now apply IH.
Qed.
Lemma without_here a k t : lookup t a = None -> without a ((a, k) :: t) = t.
Proof. intro H. unfold without. cbn [filter fst]. rewrite N.eqb_refl. cbn [negb]. now apply without_absent. Qed.
Lemma without_there a b k t : b <> a -> without a ((b, k) :: t) = (b, k) :: without a t.
Proof. intro H. unfold without. cbn [filter fst]. now destruct (N.eqb_spec b a). Qed.

(** A gather list that is allowed in every environment. *)
Lemma small_list `{Env} g : small_gather g = true -> bssl_gather_ok g.
Proof. left. now apply small_gather_ok. Qed.

Section Steps.
Context `{E : Env} (B : Bssl) (fs : N -> call -> bool) (As : N -> Allocator).
Hypotheses (Hc : computes_sha2 B) (Hs : signs B) (Hp : publishes B) (Ha : forall i, allocator_ok (As i)).
Definition failing_calls : Prop := exists i c, fs i c = true.

Lemma live_lookup t a : live (heap_of t) a = negb (is_none (lookup t a)).
Proof.
  unfold live, heap_of, lookup. induction t as [|[b k] t IH]; [reflexivity|]. cbn [map existsb find fst snd]. destruct (b =? a); [reflexivity|]. exact IH.
Qed.
Definition at_hand (t : table) (a : N) : Prop := a = 0 \/ lookup t a <> None.
Lemma at_hand_ok t a : at_hand t a -> handle_ok (live (heap_of t)) a.
Proof. intros [H|H]; [now left|right]. rewrite live_lookup. now destruct (lookup t a). Qed.

(** The gather list is well formed, or NULL. *)
Definition list_ok (g : option gather) : Prop := match g with None => True | Some g => bssl_gather_ok g end.

(** An ASSERT after a call: the code that is expected. *)
Lemma kdf_refuses i fuel t ctx a ty c ko : at_hand t a -> list_ok c -> first_error (kdf_errors ctx (handle_key t a) ty c ko) <> ok_e ->
  @n20_crypto_boringssl_kdf (with_fails (fs i) B) (As i) fuel ctx (heap_of t) a ty c ko <> OutOfFuel.
Proof.
  intros Hh Hg He. destruct (kdf_failing (A := As i) (with_fails (fs i) B) fuel ctx (heap_of t) a ty c ko) as [->|(e & _ & ->)]; [|discriminate].
  rewrite (@bssl_kdf_ok E (reliable (with_fails (fs i) B)) (As i) fuel t ctx a ty c ko (reliable_ok (with_fails (fs i) B)) Hc (at_hand_ok _ _ Hh) Hg). unfold kdf_result.
  now destruct (first_error _).
Qed.
Lemma error_eqb_true a b : error_eqb a b = true -> b = a.
Proof. now destruct a, b. Qed.
Lemma error_eqb_false a b : error_eqb a b = false -> b <> a.
Proof. intros H ->. now destruct a. Qed.

Lemma kdf_step {S} (hungry : Prop) (Q : option S -> table -> Prop) i fuel t ctx a ty c ko e (k : heap -> option N -> res (option S * heap)) :
  lookup t 0 = None -> at_hand t a -> list_ok c ->
  first_error (kdf_errors ctx (handle_key t a) ty c ko) = e ->
  (failing_calls -> Q None t) ->
  match e with
  | ok_e =>
      (forall cv bits, kind_of ty = Some (Signing (Some cv)) -> handle_key t a = Some (SecretKey bits) ->
         first_suitable (HMAC SHA512) 64 (curve_order cv) (HKDF_expand SHA512 bits (message_bytes (one c) 1) 32) fuel = None -> hungry) /\
      forall b new bits, b <> 0 -> lookup t b = None -> handle_key t a = Some (SecretKey bits) -> derived B bits (message_bytes (one c) 1) ty new ->
        lookup ((b, new) :: t) 0 = None -> finishes hungry (k (heap_of ((b, new) :: t)) (Some b)) Q
  | _ => finishes hungry (k (heap_of t) ko) Q
  end ->
  finishes hungry (do (rc, h, ko) <- @n20_crypto_boringssl_kdf (with_fails (fs i) B) (As i) fuel ctx (heap_of t) a ty c ko; CHECK h THAT error_eqb e rc; k h ko) Q.
Proof.
  intros H0 Hh Hg He Hf Hk.
  destruct (call_lawful (with_fails (fs i) B) Hc Hs Hp (Ha i) fuel t (Kdf ctx a ty c ko) H0) as [(r & t' & Hr & Hl & H0')|(Hr & ctx' & a' & ty' & g' & ko' & cv & bits & [= <- <- <- <- <-] & Hki & Hb & Hfs)].
  { cbn [op_ok]. split; [now apply at_hand_ok|exact Hg]. }
  - cbn [call_op] in Hr. destruct (@n20_crypto_boringssl_kdf (with_fails (fs i) B) (As i) fuel ctx (heap_of t) a ty c ko) as [[[rc h] ko2]| |] eqn:Ek; cbn [bind] in Hr; try discriminate.
    injection Hr as <- ->. cbn [bind]. cbn [lawful] in Hl. destruct Hl as [Hrc Hcase]. unfold checked.
    destruct (error_eqb e rc) eqn:Ee.
    + apply error_eqb_true in Ee. subst rc.
      destruct e; try (destruct Hcase as [-> ->]; exact Hk). destruct Hcase as (b & new & -> & Hz & Hn & (bits & Hb & Hd) & ->). now apply (proj2 Hk b new bits).
    + apply error_eqb_false in Ee.
      destruct Hrc as [->|[Hre Hfc]]; [rewrite He in Ee; now contradiction Ee|].
      cbn [finishes]. exists t. destruct Hre as [-> | ->]; destruct Hcase as [_ ->]; splits; try assumption; try reflexivity; apply Hf; now exists i.
  - cbn [call_op] in Hr. destruct (@n20_crypto_boringssl_kdf (with_fails (fs i) B) (As i) fuel ctx (heap_of t) a ty c ko) as [[[rc h] ko2]| |] eqn:Ek; cbn [bind] in Hr; try discriminate.
    cbn [bind finishes]. assert (Hok : e = ok_e).
    { assert (Hdec : {e = ok_e} + {e <> ok_e}) by decide equality. destruct Hdec as [Hd|Hd]; [assumption|]. exfalso. rewrite <- He in Hd. now apply (kdf_refuses i fuel) in Hd. }
    subst e. rewrite Hok in Hk. now apply (proj1 Hk cv bits).
Qed.

Definition plain_code (e : error) : bool := negb (error_eqb e no_resources_e) && negb (error_eqb e implementation_specific_e).
Lemma sign_step {S} (hungry : Prop) (Q : option S -> table -> Prop) i t ctx a m out size e (k : ptr -> option N -> res (option S * heap)) :
  lookup t 0 = None -> at_hand t a -> list_ok m -> out_ok out size -> plain_code e = true ->
  first_error (sign_errors ctx (handle_key t a) m out size) = e ->
  (failing_calls -> Q None t) ->
  (forall sig, signature_of B (handle_key t a) (message_bytes (one m) 1) sig ->
     finishes hungry (k (out_after e (signature_octets (handle_key t a)) sig out) (size_after e (signature_octets (handle_key t a)) size)) Q) ->
  finishes hungry (do (rc, out, size) <- @n20_crypto_boringssl_sign (with_fails (fs i) B) ctx (heap_of t) a m out size; CHECK heap_of t THAT error_eqb e rc; k out size) Q.
Proof.
  intros H0 Hh Hg Hout Hpl He Hf Hk.
  destruct (call_lawful (with_fails (fs i) B) Hc Hs Hp (Ha i) 0 t (Sign ctx a m out size) H0) as [(r & t' & Hr & Hl & H0')|(Hr & ctx' & a' & ty' & g' & ko' & cv & bits & Hx & _)]; [| |discriminate Hx].
  { cbn [op_ok]. splits; [now apply at_hand_ok|exact Hg|exact Hout]. }
  cbn [call_op] in Hr. destruct (@n20_crypto_boringssl_sign (with_fails (fs i) B) ctx (heap_of t) a m out size) as [[[rc o] z]| |] eqn:Ek; cbn [bind] in Hr; try discriminate.
  injection Hr as <- ->. cbn [bind]. cbn [lawful] in Hl. destruct Hl as [-> [(sig & Hsig & Ho)|(e' & n & [Hre Hfc] & Ho & _)]].
  - rewrite the_report, He in Ho. injection Ho as -> -> ->. unfold checked. replace (error_eqb e e) with true by now destruct e. now apply Hk.
  - injection Ho as -> -> ->. unfold checked. destruct (error_eqb e e') eqn:Ee.
    + apply error_eqb_true in Ee. subst e'. destruct Hre as [H1|H1]; rewrite H1 in Hpl; discriminate Hpl.
    + cbn [finishes]. exists t. splits; try assumption; try reflexivity. apply Hf. now exists i.
Qed.
Lemma public_step {S} (hungry : Prop) (Q : option S -> table -> Prop) i t ctx a out size e (k : ptr -> option N -> res (option S * heap)) :
  lookup t 0 = None -> at_hand t a -> out_ok out size -> plain_code e = true ->
  first_error (public_errors ctx (handle_key t a) out size) = e ->
  (failing_calls -> Q None t) ->
  (forall pub, public_of B (handle_key t a) pub ->
     finishes hungry (k (out_after e (public_octets (handle_key t a)) pub out) (size_after e (public_octets (handle_key t a)) size)) Q) ->
  finishes hungry (do (rc, out, size) <- @n20_crypto_boringssl_key_get_public_key (with_fails (fs i) B) ctx (heap_of t) a out size; CHECK heap_of t THAT error_eqb e rc; k out size) Q.
Proof.
  intros H0 Hh Hout Hpl He Hf Hk.
  destruct (call_lawful (with_fails (fs i) B) Hc Hs Hp (Ha i) 0 t (Public ctx a out size) H0) as [(r & t' & Hr & Hl & H0')|(Hr & ctx' & a' & ty' & g' & ko' & cv & bits & Hx & _)]; [| |discriminate Hx].
  { cbn [op_ok]. splits; [now apply at_hand_ok|exact Hout]. }
  cbn [call_op] in Hr. destruct (@n20_crypto_boringssl_key_get_public_key (with_fails (fs i) B) ctx (heap_of t) a out size) as [[[rc o] z]| |] eqn:Ek; cbn [bind] in Hr; try discriminate.
  injection Hr as <- ->. cbn [bind]. cbn [lawful] in Hl. destruct Hl as [-> [(pub & Hpub & Ho)|(e' & [Hre Hfc] & Ho)]].
  - rewrite the_report, He in Ho. injection Ho as -> -> ->. unfold checked. replace (error_eqb e e) with true by now destruct e. now apply Hk.
  - injection Ho as -> -> ->. unfold checked. destruct (error_eqb e e') eqn:Ee.
    + apply error_eqb_true in Ee. subst e'. destruct Hre as [H1|H1]; rewrite H1 in Hpl; discriminate Hpl.
    + cbn [finishes]. exists t. splits; try assumption; try reflexivity. apply Hf. now exists i.
Qed.
Lemma free_step {S} (hungry : Prop) (Q : option S -> table -> Prop) t (ctx : bool) a (k : heap -> res (option S * heap)) :
  lookup t 0 = None -> at_hand t a ->
  finishes hungry (k (heap_of (if ctx then without a t else t))) Q ->
  finishes hungry (do (rc, h) <- n20_crypto_boringssl_key_free ctx (heap_of t) a; CHECK h THAT error_eqb (if ctx then ok_e else invalid_context_e) rc; k h) Q.
Proof.
  intros H0 Hh Hk.
  destruct (call_lawful (with_fails (fs 0) B) Hc Hs Hp (Ha 0) 0 t (Free ctx a) H0) as [(r & t' & Hr & Hl & H0')|(Hr & ctx' & a' & ty' & g' & ko' & cv & bits & Hx & _)]; [| |discriminate Hx].
  { cbn [op_ok]. now apply at_hand_ok. }
  cbn [call_op] in Hr. destruct (n20_crypto_boringssl_key_free ctx (heap_of t) a) as [[rc h]| |] eqn:Ek; cbn [bind] in Hr; try discriminate.
  injection Hr as <- ->. cbn [bind]. cbn [lawful] in Hl. unfold checked. destruct ctx; destruct Hl as [-> ->]; cbn; exact Hk.
Qed.
Lemma checked_step {S} (hungry : Prop) (Q : option S -> table -> Prop) h b (k : res (option S * heap)) : b = true -> finishes hungry k Q -> finishes hungry (CHECK h THAT b; k) Q.
Proof. now intros ->. Qed.
End Steps.

Lemma handle_here b k t : b <> 0 -> handle_key ((b, k) :: t) b = Some k.
Proof. intro H. unfold handle_key. rewrite lookup_cons, N.eqb_refl. now destruct (N.eqb_spec b 0). Qed.
Lemma handle_there a b k t : b <> a -> handle_key ((b, k) :: t) a = handle_key t a.
Proof. intro H. unfold handle_key. rewrite lookup_cons. now destruct (N.eqb_spec b a). Qed.
Lemma handle_null t : handle_key t 0 = None.
Proof. reflexivity. Qed.
Lemma handle_lookup t a k : handle_key t a = Some k -> lookup t a = Some k.
Proof. unfold handle_key. now destruct (a =? 0). Qed.
Lemma handle_at_hand t a k : handle_key t a = Some k -> at_hand t a.
Proof. intro H. right. now rewrite (handle_lookup _ _ _ H). Qed.
Lemma handle_differs t a b k : handle_key t a = Some k -> lookup t b = None -> b <> a.
Proof. intros H Hn ->. apply handle_lookup in H. congruence. Qed.

(** The keys there were are still there. *)
Definition kept (t t' : table) : Prop := forall a k, lookup t a = Some k -> lookup t' a = Some k.
Lemma kept_refl t : kept t t.
Proof. now intros a k. Qed.
Lemma kept_trans t1 t2 t3 : kept t1 t2 -> kept t2 t3 -> kept t1 t3.
Proof. intros H1 H2 a k H. now apply H2, H1. Qed.
Lemma kept_new t b k : lookup t b = None -> kept t ((b, k) :: t).
Proof. intros H a k' Ha. rewrite lookup_cons. destruct (N.eqb_spec b a) as [->|]; [congruence|assumption]. Qed.

(** The loop. *)
Lemma for_keys_step {T S} (hungry : Prop) (Inv : list T -> S -> table -> Prop) (lost : table -> Prop) body : forall l before s t,
  (forall x before s t, In x l -> lookup t 0 = None -> Inv before s t ->
     finishes hungry (body x s (heap_of t)) (fun o t' => match o with Some s' => Inv (before ++ [x]) s' t' | None => lost t' end)) ->
  lookup t 0 = None -> Inv before s t ->
  finishes hungry (for_keys l s (heap_of t) body) (fun o t' => match o with Some s' => Inv (before ++ l) s' t' | None => lost t' end).
Proof.
  induction l as [|x l IH]; intros before s t Hb H0 HI; cbn [for_keys].
  - cbn [finishes]. exists t. rewrite app_nil_r. now splits.
  - eapply finishes_bind; [apply Hb; [now left|assumption|exact HI]|]. intros [s'|] t' H0' HQ.
    + replace (before ++ x :: l) with ((before ++ [x]) ++ l) by now rewrite <- app_assoc. apply IH; [|assumption|exact HQ].
      intros y b s2 t2 Hy. apply Hb. now right.
    + cbn [finishes]. exists t'. now splits.
Qed.

Section Tests.
Context `{E : Env} `{X : Cxx} `{V : Verifier} (B : Bssl) (fs : N -> call -> bool) (As : N -> Allocator) (fuel : nat).
Hypotheses (Hc : computes_sha2 B) (Hs : signs B) (Hp : publishes B) (Ha : forall i, allocator_ok (As i)).

Lemma all_unsuitable cv data : first_suitable (HMAC SHA512) 64 (curve_order cv) data fuel = None ->
  forall i, (i < fuel)%nat -> suitable (curve_order cv) (candidate (HMAC SHA512) 64 (curve_order cv) data i) = false.
Proof.
  unfold first_suitable. intros Hn i Hi. destruct (find _ (seq 0 fuel)) eqn:Ef; [discriminate|]. pose proof (find_none _ _ Ef i) as H. apply H. apply in_seq. lia.
Qed.

(** A key of the given type has been derived. *)
Lemma derived_signing context ty new : In ty [1; 2; 3] -> derived B test_cdi context ty new ->
  exists p, new = SigningKey p /\
    match p with Ed25519 _ => ty = 3 | EC P256 _ => ty = 1 | EC P384 _ => ty = 2 end.
Proof.
  cbn [In]. intros [<-|[<-|[<-|[]]]]; unfold derived; cbn [kind_of].
  - intros (d & _ & ->). now eexists.
  - intros (d & _ & ->). now eexists.
  - intros ->. now eexists.
Qed.

(** The key of the fixture. *)
Definition has_secret (t : table) (cdi : N) : Prop := handle_key t cdi = Some (SecretKey test_cdi).

Lemma refused_step (hungry : Prop) (Q : option bool -> table -> Prop) t at_ cdi ty inv inel k :
  (forall cv, first_suitable (HMAC SHA512) 64 (curve_order cv) (HKDF_expand SHA512 test_cdi foo_context 32) fuel = None -> hungry) ->
  lookup t 0 = None -> has_secret t cdi -> In inel [1; 2; 3] -> inv <> None ->
  (failing_calls fs -> forall t', kept t t' -> Q None t') ->
  (forall inv', inv' <> None -> finishes hungry (k inv' (heap_of t)) Q) ->
  finishes hungry (refused_as_secret (boringssl_at B fs As) fuel at_ cdi ty inv inel (heap_of t) k) Q.
Proof.
  intros Hhu H0 Hcdi Hin Hinv Hf Hk. unfold refused_as_secret. cbn [boringssl_at boringssl_keys m_kdf m_free].
  apply (kdf_step B fs As Hc Hs Hp Ha); try assumption.
  - now apply (handle_at_hand _ _ _ Hcdi).
  - apply small_list. reflexivity.
  - unfold kdf_errors. rewrite Hcdi. destruct inv; [|contradiction]. cbn [In] in Hin. now destruct Hin as [<-|[<-|[<-|[]]]].
  - intro HF. apply Hf; [assumption|apply kept_refl].
  - split.
    + intros cv bits _ Hb. rewrite Hcdi in Hb. injection Hb as <-. apply Hhu.
    + intros b new bits Hz Hn Hb Hd H0'. rewrite Hcdi in Hb. injection Hb as <-. cbn [value_of].
      destruct (derived_signing _ _ _ Hin Hd) as (p & -> & _).
      apply (kdf_step B fs As Hc Hs Hp Ha); try assumption.
      * apply (handle_at_hand _ _ (SigningKey p)). now apply handle_here.
      * exact I.
      * unfold kdf_errors. rewrite handle_here by assumption. reflexivity.
      * intro HF. apply Hf; [assumption|now apply kept_new].
      * apply (free_step B fs As Hc Hs Hp Ha _ _ _ true); [assumption|apply (handle_at_hand _ _ (SigningKey p)); now apply handle_here|].
        rewrite without_here by assumption. now apply Hk.
Qed.

Definition went_well (t : table) (o : option bool) (t' : table) : Prop :=
  match o with Some added => added = false /\ t' = t | None => failing_calls fs /\ kept t t' end.

Ltac at_hand_now := first [now left | eapply handle_at_hand; eassumption].
(** A call that reports an error, with the key behind its handle known. *)
Ltac refuse H :=
  apply (kdf_step B fs As Hc Hs Hp Ha); try assumption;
  [at_hand_now | first [exact I | apply small_list; reflexivity | right; reflexivity]
  | unfold kdf_errors; rewrite ?H; reflexivity | let F := fresh in intro F; split; [exact F|apply kept_refl] |].

Lemma kdf_errors_run t cdi : lookup t 0 = None -> has_secret t cdi ->
  finishes (starved B [foo_context] fuel) (KDFErrorsTest (boringssl_at B fs As) fuel cdi (heap_of t)) (went_well t).
Proof.
  intros H0 Hcdi. unfold KDFErrorsTest.
  assert (Hhu : forall cv, first_suitable (HMAC SHA512) 64 (curve_order cv) (HKDF_expand SHA512 test_cdi foo_context 32) fuel = None -> starved B [foo_context] fuel).
  { intros cv Hn. exists cv, foo_context. split; [now left|]. now apply all_unsuitable. }
  eapply finishes_bind.
  { apply (for_keys_step _ (fun _ added t' => added = false /\ t' = t) (fun t' => failing_calls fs /\ kept t t') _ _ []); [|assumption|now split].
    intros ty before added t1 Hin H1 [-> ->]. cbn [boringssl_at boringssl_keys m_kdf m_free].
    refuse Hcdi. refuse Hcdi.
    do 3 (apply refused_step; [exact Hhu|assumption|exact Hcdi|cbn [In]; tauto|first [discriminate|assumption]|intros HF t' Hk; now split|intros ? ?]).
    refuse Hcdi. refuse Hcdi. refuse Hcdi. refuse Hcdi.
    cbn [finishes]. exists t. now splits. }
  intros [added|] t' H0' HQ.
  - destruct HQ as [-> ->]. cbn [boringssl_at boringssl_keys m_kdf]. refuse Hcdi. cbn [finishes]. exists t. now splits.
  - cbn [finishes]. exists t'. now splits.
Qed.

Lemma key_free_errors_run t cdi : lookup t 0 = None -> finishes False (KeyFreeErrorsTest (boringssl_at B fs As) cdi (heap_of t)) (went_well t).
Proof.
  intros H0. unfold KeyFreeErrorsTest. cbn [boringssl_at boringssl_keys m_free].
  apply (free_step B fs As Hc Hs Hp Ha _ _ _ false); [assumption|now left|]. apply (free_step B fs As Hc Hs Hp Ha _ _ _ true); [assumption|now left|].
  rewrite without_absent by assumption. cbn [finishes]. exists t. now splits.
Qed.
Lemma open_close_run t cdi : lookup t 0 = None -> finishes False (@OpenClose B (As 0) cdi (heap_of t)) (went_well t).
Proof. intro H0. cbn. exists t. now splits. Qed.

(** The derivation of a signing key, in the tests that need one. *)
Lemma signing_key_step {S} (hungry : Prop) (Q : option S -> table -> Prop) i t cdi ty g context (k : heap -> option N -> res (option S * heap)) :
  lookup t 0 = None -> has_secret t cdi -> In ty [1; 2; 3] -> list_ok (Some g) -> message_bytes (one (Some g)) 1 = context ->
  head_null_list (one (Some g)) || has_missing (one (Some g)) 1 = false ->
  (starved B [context] fuel -> hungry) ->
  (failing_calls fs -> Q None t) ->
  (forall b p, b <> 0 -> lookup t b = None -> derived B test_cdi context ty (SigningKey p) ->
     match p with Ed25519 _ => ty = 3 | EC P256 _ => ty = 1 | EC P384 _ => ty = 2 end ->
     lookup ((b, SigningKey p) :: t) 0 = None -> finishes hungry (k (heap_of ((b, SigningKey p) :: t)) (Some b)) Q) ->
  finishes hungry (do (rc, h, ko) <- @n20_crypto_boringssl_kdf (with_fails (fs i) B) (As i) fuel true (heap_of t) cdi ty (Some g) (Some 0); CHECK h THAT error_eqb ok_e rc; k h ko) Q.
Proof.
  intros H0 Hcdi Hin Hg Hm Hn Hhu Hf Hk. apply (kdf_step B fs As Hc Hs Hp Ha); try assumption.
  - now apply (handle_at_hand _ _ _ Hcdi).
  - apply orb_false_elim in Hn. destruct Hn as [Hn1 Hn2]. unfold kdf_errors. rewrite Hcdi, Hn1, Hn2. cbn [In] in Hin. now destruct Hin as [<-|[<-|[<-|[]]]].
  - rewrite Hm. split.
    + intros cv bits _ Hb Hfs. rewrite Hcdi in Hb. injection Hb as <-. apply Hhu. exists cv, context. split; [now left|]. now apply all_unsuitable.
    + intros b new bits Hz Hnb Hb Hd H0'. rewrite Hcdi in Hb. injection Hb as <-.
      destruct (derived_signing _ _ _ Hin Hd) as (p & -> & Hty). now apply Hk.
Qed.

Ltac out_now := unfold out_ok; first [exact I | rewrite ?len_zeros; vm_compute; discriminate].
Ltac lost_now := let F := fresh in intro F; split; [exact F|first [apply kept_refl | now apply kept_new]].
Ltac sign_refuse H :=
  apply (sign_step B fs As Hc Hs Hp Ha); try assumption;
  [at_hand_now | first [exact I | apply small_list; reflexivity | right; reflexivity] | out_now | reflexivity
  | unfold sign_errors; rewrite ?H; reflexivity | lost_now | intros ? _].

(** What SignErrorsTest leaves: new handles of keys of the given types. *)
Definition left_behind (t : table) (types : list N) (t' : table) : Prop :=
  exists l, t' = l ++ t /\ NoDup (map fst l) /\ Forall2 (fun ty p => fst p <> 0 /\ lookup t (fst p) = None /\ derived B test_cdi sign_context ty (snd p)) types (rev l).
Lemma lookup_app_none l t a : lookup (l ++ t) a = None -> lookup l a = None /\ lookup t a = None.
Proof.
  induction l as [|[b k] l IH]; [now split|]. cbn [app]. rewrite !lookup_cons. destruct (b =? a); [discriminate|exact IH].
Qed.
Lemma lookup_none_in l a : lookup l a = None -> ~ In a (map fst l).
Proof.
  induction l as [|[b k] l IH]; [intros _ []|]. rewrite lookup_cons. cbn [map fst In]. destruct (N.eqb_spec b a); [discriminate|]. intros H [?|Hi]; [contradiction|now apply IH].
Qed.
Lemma left_more t types ty t1 b k : left_behind t types t1 -> b <> 0 -> lookup t1 b = None -> derived B test_cdi sign_context ty k ->
  left_behind t (types ++ [ty]) ((b, k) :: t1).
Proof.
  intros (l & -> & Hd & Hf) Hz Hn Hk. apply lookup_app_none in Hn. exists ((b, k) :: l). splits.
  - reflexivity.
  - cbn [map fst]. constructor; [now apply lookup_none_in|assumption].
  - cbn [rev]. apply Forall2_app; [assumption|]. constructor; [|constructor]. now splits.
Qed.

Lemma sign_errors_run t cdi : lookup t 0 = None -> has_secret t cdi ->
  finishes (starved B [sign_context] fuel) (SignErrorsTest (boringssl_at B fs As) fuel cdi (heap_of t))
    (fun o t' => match o with Some added => added = false /\ kept t t' /\ left_behind t [3; 1; 2] t' | None => failing_calls fs /\ kept t t' end).
Proof.
  intros H0 Hcdi. unfold SignErrorsTest. cbn [boringssl_at boringssl_keys m_kdf m_sign].
  sign_refuse Hcdi. sign_refuse Hcdi. sign_refuse Hcdi. sign_refuse Hcdi.
  pose proof (for_keys_step (starved B [sign_context] fuel)
    (fun (before : list (N * N)) added t' => added = false /\ kept t t' /\ left_behind t (map fst before) t') (fun t' => failing_calls fs /\ kept t t')) as Loop.
  apply (Loop _ [(3, 64); (1, 64); (2, 96)] []); clear Loop; [|assumption|splits; [reflexivity|apply kept_refl|exists []; splits; [reflexivity|constructor|constructor]]].
  intros [ty want] before added t1 Hin H1 (-> & Hkept & Hleft). cbv beta iota zeta.
  assert (Hcdi1 : has_secret t1 cdi).
  { pose proof (Hkept _ _ (handle_lookup _ _ _ Hcdi)) as Hl. revert Hcdi. unfold has_secret, handle_key. destruct (cdi =? 0); [discriminate|now intros _]. }
  assert (Hty : In ty [1; 2; 3] /\ forall p, match p with Ed25519 _ => ty = 3 | EC P256 _ => ty = 1 | EC P384 _ => ty = 2 end -> want = signature_octets (Some (SigningKey p))).
  { cbn [In] in Hin |- *. destruct Hin as [[= <- <-]|[[= <- <-]|[[= <- <-]|[]]]]; (split; [tauto|]); intros [?|[] ?]; try discriminate; reflexivity. }
  destruct Hty as [Hty Hwant].
  apply (signing_key_step _ _ _ _ _ _ _ sign_context); try assumption.
  { apply small_list. reflexivity. } { reflexivity. } { reflexivity. } { tauto. } { intro F. now split. }
  intros b p Hz Hn Hd Hp' H0'. cbn [value_of]. assert (Hw := Hwant p Hp'). clear Hwant Hin. subst want.
  assert (Hk : handle_key ((b, SigningKey p) :: t1) b = Some (SigningKey p)) by now apply handle_here.
  assert (Hkept' : kept t ((b, SigningKey p) :: t1)) by (apply (kept_trans t t1); [assumption|now apply kept_new]).
  assert (Hend : forall w : N, left_behind t (map fst (before ++ [(ty, w)])) ((b, SigningKey p) :: t1)).
  { intro w. rewrite map_app. now apply left_more. }
  Ltac sgn Hk := apply (sign_step B fs As Hc Hs Hp Ha); try assumption;
    [at_hand_now|first [exact I | apply small_list; reflexivity | right; reflexivity]|out_now|reflexivity
    |unfold sign_errors; rewrite Hk; reflexivity|let F := fresh in intro F; now split|intros ? _; rewrite ?Hk; cbn [out_after size_after signature_octets]].
  destruct p as [seed|[] d];
    (sgn Hk; apply checked_step; [reflexivity|]; sgn Hk; apply checked_step; [reflexivity|]; sgn Hk; sgn Hk; sgn Hk;
     cbn [finishes]; eexists; splits; [reflexivity|assumption|reflexivity|assumption|apply Hend]).
Qed.

Lemma public_errors_run t cdi : lookup t 0 = None -> has_secret t cdi ->
  finishes (starved B [public_context] fuel) (GetPublicKeyErrorsTest (boringssl_at B fs As) fuel cdi (heap_of t)) (went_well t).
Proof.
  intros H0 Hcdi. unfold GetPublicKeyErrorsTest. cbn [boringssl_at boringssl_keys m_kdf m_public m_free].
  Ltac publ Hk := apply (public_step B fs As Hc Hs Hp Ha); try assumption;
    [at_hand_now|out_now|reflexivity|unfold public_errors; rewrite ?Hk; reflexivity|lost_now|intros ? _; rewrite ?Hk; cbn [out_after size_after public_octets]].
  publ Hcdi. publ Hcdi. publ Hcdi. publ Hcdi.
  apply (for_keys_step (starved B [public_context] fuel) (fun _ added t' => added = false /\ t' = t) (fun t' => failing_calls fs /\ kept t t') _ _ []); [|assumption|now split].
  intros [ty want] before added t1 Hin H1 (-> & ->). cbv beta iota zeta.
  assert (Hty : In ty [1; 2; 3] /\ forall p, match p with Ed25519 _ => ty = 3 | EC P256 _ => ty = 1 | EC P384 _ => ty = 2 end -> want = public_octets (Some (SigningKey p))).
  { cbn [In] in Hin |- *. destruct Hin as [[= <- <-]|[[= <- <-]|[[= <- <-]|[]]]]; (split; [tauto|]); intros [?|[] ?]; try discriminate; reflexivity. }
  destruct Hty as [Hty Hwant].
  apply (signing_key_step _ _ _ _ _ _ _ public_context); try assumption.
  { apply small_list. reflexivity. } { reflexivity. } { reflexivity. } { tauto. } { lost_now. }
  intros b p Hz Hn Hd Hp' H0'. cbn [value_of]. assert (Hw := Hwant p Hp'). clear Hwant Hin. subst want.
  assert (Hk : handle_key ((b, SigningKey p) :: t) b = Some (SigningKey p)) by now apply handle_here.
  destruct p as [seed|[] d];
    (publ Hk; apply checked_step; [reflexivity|]; publ Hk; apply checked_step; [reflexivity|]; publ Hk; apply checked_step; [reflexivity|];
     apply (free_step B fs As Hc Hs Hp Ha _ _ _ true); [assumption|at_hand_now|]; rewrite without_here by assumption;
     cbn [finishes]; exists t; now splits).
Qed.

(** *** KDFTest *)

Lemma derived_once secret context ty k k' : derived B secret context ty k -> derived B secret context ty k' -> k = k'.
Proof.
  unfold derived. destruct (kind_of ty) as [[|[c|]]|]; try congruence; [|tauto].
  intros (d & H1 & ->) (d' & H2 & ->). now rewrite (rfc6979_unique _ _ _ _ _ _ H1 H2).
Qed.
Definition told_for (ty : N) : Prop :=
  forall k other, derived B test_cdi kdf_context ty k -> derived B test_cdi kdf_other_context ty other ->
    accepts B V k k my_message /\ ~ accepts B V k other my_message.

Definition octets (p : pkey) : N := signature_octets (Some (SigningKey p)).
Lemma signature_len p m sig : signature_of B (Some (SigningKey p)) m sig -> len sig = octets p.
Proof.
  destruct p as [seed|c d]; cbn [signature_of].
  - intros ->. now rewrite (proj1 Hs).
  - intros (r & s & _ & _ & _ & ->). unfold raw_signature. rewrite len_app, !len_coordinate. now destruct c.
Qed.
Lemma public_len p pub : public_of B (Some (SigningKey p)) pub -> len pub = public_octets (Some (SigningKey p)).
Proof.
  destruct p as [seed|c d]; cbn [public_of].
  - intros ->. now rewrite (proj1 Hp).
  - intros Hd. destruct (proj2 Hp c d) as (x & y & _ & _ & Hx). rewrite Hx in Hd. injection Hd as <-. rewrite len_app, !len_coordinate. now destruct c.
Qed.
Lemma written n r : len r = n -> 0 < n -> forall m, n <= m -> takeN n (contents (out_after ok_e n r (data (zeros m)))) = r.
Proof.
  intros Hl Hn m Hm. rewrite zeros_some by lia. cbn [out_after contents]. rewrite <- Hl at 1. apply takeN_app_len.
Qed.
Lemma written_all n r : len r = n -> 0 < n -> contents (out_after ok_e n r (data (zeros n))) = r.
Proof.
  intros Hl Hn. rewrite zeros_some by lia. cbn [out_after contents]. rewrite dropN_zeros, N.sub_diag. apply app_nil_r.
Qed.

(** The EVP_PKEY of the public key of [p], and keys of one type. *)
Definition evp (p : pkey) (pub : list byte) : public_key := match p with Ed25519 _ => EdPublic pub | EC c _ => EcPublic c (x04 :: pub) end.
Definition valid_point (p : pkey) : Prop := match p with Ed25519 _ => True | EC c d => on_curve c (ec_public c d) = true end.
Definition type_of (p : pkey) : N := match p with Ed25519 _ => 3 | EC P256 _ => 1 | EC P384 _ => 2 end.

Lemma import_says p pub : public_of B (Some (SigningKey p)) pub ->
  (import_key (type_of p) pub = None /\ (~ checks_work V \/ ~ valid_point p)) \/ (import_key (type_of p) pub = Some (evp p pub) /\ valid_point p).
Proof.
  intro Hpub. pose proof (public_len _ _ Hpub) as Hl. destruct p as [seed|c d].
  - unfold import_key. change (type_of (Ed25519 seed) =? key_type_ed25519_e) with true. cbv iota. rewrite Hl. change (public_octets _ =? 32) with true. cbn [negb].
    destruct (check_fails (type_of (Ed25519 seed)) v_raw_public) eqn:Ef; [left|right; now split]. split; [reflexivity|left]. intro Hw. rewrite Hw in Ef. discriminate.
  - cbn [public_of] in Hpub. cbn [valid_point evp]. rewrite Hpub.
    assert (Hi : import_key (type_of (EC c d)) pub =
      if check_fails (type_of (EC c d)) v_ec_key_new || negb (on_curve c (x04 :: pub)) || check_fails (type_of (EC c d)) v_pkey_new || check_fails (type_of (EC c d)) v_assign then None else Some (EcPublic c (x04 :: pub))).
    { unfold import_key. now destruct c. }
    rewrite Hi. destruct (on_curve c (x04 :: pub)) eqn:Eo; cbn [negb].
    + destruct (check_fails (type_of (EC c d)) v_ec_key_new) eqn:E1; cbn [orb]; [left; split; [reflexivity|left; intro Hw; rewrite Hw in E1; discriminate]|].
      destruct (check_fails (type_of (EC c d)) v_pkey_new) eqn:E2; cbn [orb]; [left; split; [reflexivity|left; intro Hw; rewrite Hw in E2; discriminate]|].
      destruct (check_fails (type_of (EC c d)) v_assign) eqn:E3; cbn [orb]; [left; split; [reflexivity|left; intro Hw; rewrite Hw in E3; discriminate]|].
      right. now split.
    + left. split; [now destruct (check_fails (type_of (EC c d)) v_ec_key_new)|right; discriminate].
Qed.

Lemma verify_says second p p' pub sig : nonzero_s B -> type_of p = type_of p' -> public_of B (Some (SigningKey p)) pub -> valid_point p ->
  signature_of B (Some (SigningKey p')) my_message sig ->
  (verify (type_of p) second (evp p pub) my_message sig = Ret (true, false) /\ ~ checks_work V) \/
  exists b, verify (type_of p) second (evp p pub) my_message sig = Ret (false, b) /\ (b = true <-> accepts B V (SigningKey p) (SigningKey p') my_message).
Proof.
  intros Hnz Ht Hpub Hv Hsig. unfold verify.
  destruct (check_fails (type_of p) (v_md_ctx_new second)) eqn:E1; [left; split; [reflexivity|intro Hw; rewrite Hw in E1; discriminate]|].
  destruct (check_fails (type_of p) (v_init second)) eqn:E2; [left; split; [reflexivity|intro Hw; rewrite Hw in E2; discriminate]|].
  destruct p as [seed|c d], p' as [seed'|c' d']; cbn [evp]; try (destruct c; discriminate Ht); try (destruct c'; discriminate Ht).
  - right. cbn [public_of signature_of accepts] in *. subst pub sig. eexists. split; [reflexivity|]. now split.
  - assert (c' = c) by (destruct c, c'; try discriminate; reflexivity). subst c'. cbn [public_of signature_of accepts valid_point] in *.
    destruct (check_fails (type_of (EC c d)) (v_update second)) eqn:E3; [left; split; [reflexivity|intro Hw; rewrite Hw in E3; discriminate]|]. right.
    destruct Hsig as (r & s & Hr & Hsf & Hd & ->). rewrite Hpub in *.
    destruct (C50_signature_2_asn1_sequence E c r s (zeros 104) Hr Hsf (len_zeros _)) as (u & Hq & _ & Hu). rewrite (Hu (Hnz _ _ _ _ _ _ Hr Hsf Hd)) in Hq. rewrite Hq.
    eexists. split; [reflexivity|]. rewrite <- Hd. destruct c; split; try (intro Hx; split; assumption); now intros [_ Hx].
Qed.

Lemma kdf_run t cdi : nonzero_s B -> lookup t 0 = None -> has_secret t cdi ->
  finishes (starved B [kdf_context; kdf_other_context] fuel) (KDFTest (boringssl_at B fs As) fuel cdi (heap_of t))
    (fun o t' => match o with
                 | Some added => t' = t /\ (added = true -> ~ checks_work V) /\ (added = false -> told_apart B V)
                 | None => (failing_calls fs \/ ~ checks_work V \/ ~ told_apart B V) /\ kept t t'
                 end).
Proof.
  intros Hnz H0 Hcdi. unfold KDFTest.
  pose proof (for_keys_step (starved B [kdf_context; kdf_other_context] fuel)
    (fun (before : list N) added t' => t' = t /\ (added = true -> ~ checks_work V) /\ (added = false -> forall ty, In ty before -> told_for ty))
    (fun t' => (failing_calls fs \/ ~ checks_work V \/ ~ told_apart B V) /\ kept t t')) as Loop.
  match goal with |- finishes _ (for_keys _ _ _ ?b) _ => specialize (Loop b signing_types [] false t) end.
  match type of Loop with ?P -> _ => assert (Hbody : P) end.
  2: { specialize (Loop Hbody H0 (conj eq_refl (conj (fun H : false = true => False_ind _ (diff_false_true H)) (fun _ ty (H : In ty []) => False_ind _ H)))).
       revert Loop. match goal with |- finishes _ ?r _ -> _ => generalize r end. intros r Hr. destruct r as [[o h]| |]; cbn [finishes] in Hr |- *; try assumption.
       destruct Hr as (t' & -> & H0' & HQ). exists t'. splits; try assumption; try reflexivity. destruct o as [added|]; [|assumption].
       destruct HQ as (-> & Hadd & Hall). splits; [reflexivity|assumption|]. intros Hf ty k other Hin. apply (Hall Hf ty). cbn [In app signing_types] in Hin |- *.
       unfold key_type_ed25519_e, key_type_secp256r1_e, key_type_secp384r1_e. tauto. }
  clear Loop. intros ty before added t1 Hin H1 (-> & Hadd & Hall).
  assert (Hty : In ty [1; 2; 3]) by (cbn [In signing_types] in Hin |- *; unfold key_type_ed25519_e, key_type_secp256r1_e, key_type_secp384r1_e in Hin; tauto).
  cbn [boringssl_at boringssl_keys m_kdf m_sign m_public m_free].
  assert (Hs1 : starved B [kdf_context] fuel -> starved B [kdf_context; kdf_other_context] fuel) by (intros (c & x & [<-|[]] & Hx); exists c, kdf_context; split; [now left|assumption]).
  assert (Hs2 : starved B [kdf_other_context] fuel -> starved B [kdf_context; kdf_other_context] fuel) by (intros (c & x & [<-|[]] & Hx); exists c, kdf_other_context; split; [right; now left|assumption]).
  assert (Htype : forall p, match p with Ed25519 _ => ty = 3 | EC P256 _ => ty = 1 | EC P384 _ => ty = 2 end -> type_of p = ty) by (intros [|[]]; cbn; congruence).
  (* the two keys *)
  apply (signing_key_step _ _ _ _ _ _ _ kdf_context); try assumption.
  { apply small_list. reflexivity. } { reflexivity. } { reflexivity. } { intro F. split; [now left|apply kept_refl]. }
  intros b1 p Hz1 Hn1 Hd1 Hp1 H01. cbn [value_of].
  assert (Hcdi1 : has_secret ((b1, SigningKey p) :: t) cdi).
  { unfold has_secret. rewrite handle_there; [assumption|]. now apply (handle_differs t cdi b1 _ Hcdi). }
  apply (signing_key_step _ _ _ _ _ _ _ kdf_context); try assumption.
  { apply small_list. reflexivity. } { reflexivity. } { reflexivity. } { intro F. split; [now left|now apply kept_new]. }
  intros b2 p2 Hz2 Hn2 Hd2 _ H02. cbn [value_of]. assert (Hpp := derived_once _ _ _ _ _ Hd1 Hd2). injection Hpp as <-. clear Hd2.
  assert (Hb12 : b2 <> b1) by (intros ->; rewrite lookup_cons, N.eqb_refl in Hn2; discriminate).
  set (t2 := (b2, SigningKey p) :: (b1, SigningKey p) :: t) in *.
  assert (Hk2 : kept t t2).
  { apply (kept_trans _ ((b1, SigningKey p) :: t)); now apply kept_new. }
  assert (Hh1 : handle_key t2 b1 = Some (SigningKey p)) by (unfold t2; rewrite handle_there by assumption; now apply handle_here).
  assert (Hh2 : handle_key t2 b2 = Some (SigningKey p)) by now apply handle_here.
  assert (Hoct : 0 < octets p <= 96) by (destruct p as [|[]]; cbn; lia).
  (* the signature *)
  apply (sign_step B fs As Hc Hs Hp Ha); try assumption.
  { at_hand_now. } { apply small_list. reflexivity. } { exact I. } { reflexivity. } { unfold sign_errors. rewrite Hh1. reflexivity. } { intro F. split; [now left|assumption]. }
  intros sig0 _. cbn [size_after value_of]. rewrite Hh1. fold (octets p).
  apply (sign_step B fs As Hc Hs Hp Ha); try assumption.
  { at_hand_now. } { apply small_list. reflexivity. } { apply data_out. now rewrite len_zeros. } { reflexivity. }
  { unfold sign_errors. rewrite Hh1. fold (octets p). rewrite zeros_some by lia. cbn. rewrite N.ltb_irrefl. reflexivity. }
  { intro F. split; [now left|assumption]. }
  rewrite Hh1. fold (octets p). intros sig Hsig. change (message_bytes (one message_in) 1) with my_message in Hsig. cbn [size_after value_of].
  apply checked_step; [rewrite len_zeros; apply N.leb_refl|]. rewrite (written _ _ (signature_len _ _ _ Hsig)) by lia.
  (* the other key *)
  assert (Hcdi2 : has_secret t2 cdi).
  { unfold has_secret, t2. rewrite handle_there; [assumption|]. now apply (handle_differs _ cdi b2 _ Hcdi1). }
  apply (signing_key_step _ _ _ _ _ _ _ kdf_other_context); try assumption.
  { apply small_list. reflexivity. } { reflexivity. } { reflexivity. } { intro F. split; [now left|assumption]. }
  intros b3 q Hz3 Hn3 Hd3 Hq H03. cbn [value_of].
  assert (Hb31 : b3 <> b1) by (intros ->; apply handle_lookup in Hh1; congruence).
  assert (Hb32 : b3 <> b2) by (intros ->; apply handle_lookup in Hh2; congruence).
  set (t3 := (b3, SigningKey q) :: t2) in *.
  assert (Hk3 : kept t t3) by (apply (kept_trans _ t2); [assumption|now apply kept_new]).
  assert (Hh3 : handle_key t3 b3 = Some (SigningKey q)) by now apply handle_here.
  assert (Hh23 : handle_key t3 b2 = Some (SigningKey p)) by (unfold t3; now rewrite handle_there).
  assert (Hoct' : 0 < octets q <= 96) by (destruct q as [|[]]; cbn; lia).
  apply (sign_step B fs As Hc Hs Hp Ha); try assumption.
  { at_hand_now. } { apply small_list. reflexivity. } { apply data_out. rewrite len_zeros. lia. } { reflexivity. }
  { unfold sign_errors. rewrite Hh3. rewrite zeros_some by lia. now destruct q as [|[]]. }
  { intro F. split; [now left|assumption]. }
  rewrite Hh3. fold (octets q). intros sig' Hsig'. change (message_bytes (one message_in) 1) with my_message in Hsig'. cbn [size_after value_of].
  apply checked_step; [rewrite len_zeros; now apply N.leb_le|]. rewrite (written _ _ (signature_len _ _ _ Hsig')) by lia.
  (* the public key *)
  assert (Hpo : 0 < public_octets (Some (SigningKey p))) by (destruct p as [|[]]; cbn; lia).
  set (n := public_octets (Some (SigningKey p))) in *.
  apply (public_step B fs As Hc Hs Hp Ha); try assumption.
  { at_hand_now. } { exact I. } { reflexivity. } { unfold public_errors. rewrite Hh23. reflexivity. } { intro F. split; [now left|assumption]. }
  intros pub0 _. cbn [size_after value_of]. rewrite Hh23. fold n.
  apply (public_step B fs As Hc Hs Hp Ha); try assumption.
  { at_hand_now. } { apply data_out. now rewrite len_zeros. } { reflexivity. }
  { unfold public_errors. rewrite Hh23. fold n. rewrite zeros_some by lia. cbn. rewrite N.ltb_irrefl. reflexivity. }
  { intro F. split; [now left|assumption]. }
  rewrite Hh23. fold n. intros pub Hpub. cbn [size_after]. apply checked_step; [rewrite len_zeros; apply says_refl|].
  rewrite written_all by (first [exact (public_len _ _ Hpub)|assumption]).
  (* the checks *)
  pose proof (Htype p Hp1) as Htp. pose proof (Htype q Hq) as Htq. rewrite <- Htp at 1.
  assert (Hnot : (accepts B V (SigningKey p) (SigningKey p) my_message -> accepts B V (SigningKey p) (SigningKey q) my_message) -> ~ told_apart B V).
  { intros Hx Htold. destruct (Htold ty _ _ Hty Hd1 Hd3) as [Ha1 Ha2]. apply Ha2. now apply Hx. }
  destruct (import_says p pub Hpub) as [[-> Hbad]|[-> Hv]].
  { cbn [finishes]. exists t3. splits; [reflexivity|assumption| |assumption]. right. destruct Hbad as [Hbad|Hbad]; [now left|right]. apply Hnot. intro Hx. exfalso. apply Hbad.
    destruct p; [exact I|exact (proj1 Hx)]. }
  pose proof (verify_says false p p pub sig Hnz eq_refl Hpub Hv Hsig) as Hvs. rewrite Htp in Hvs. destruct Hvs as [[-> Hbad]|(b & -> & Hb)]; cbn [bind].
  { unfold checked. cbn [finishes]. exists t3. splits; [reflexivity|assumption| |assumption]. right. now left. }
  destruct b; unfold checked at 1.
  2: { cbn [finishes]. exists t3. splits; [reflexivity|assumption| |assumption]. right. right. apply Hnot. intro Hx. apply Hb in Hx. discriminate. }
  assert (Hfree : forall (r : bool) (Q : option bool -> table -> Prop), Q (Some r) t -> finishes (starved B [kdf_context; kdf_other_context] fuel)
    (do (rc, h) <- n20_crypto_boringssl_key_free true (heap_of t3) b1;
     CHECK h THAT error_eqb ok_e rc;
     do (rc, h) <- n20_crypto_boringssl_key_free true h b2;
     CHECK h THAT error_eqb ok_e rc;
     do (rc, h) <- n20_crypto_boringssl_key_free true h b3;
     CHECK h THAT error_eqb ok_e rc;
     Ret (Some r, h)) Q).
  { intros r Q HQ. apply (free_step B fs As Hc Hs Hp Ha _ _ _ true); [assumption|right; unfold t3; rewrite lookup_cons; destruct (N.eqb_spec b3 b1); [discriminate|]; now rewrite (handle_lookup _ _ _ Hh1)|].
    unfold t3, t2. rewrite !without_there, without_here by assumption.
    assert (Hn2' : lookup t b2 = None) by (rewrite lookup_cons in Hn2; destruct (N.eqb_spec b1 b2); [discriminate|assumption]).
    assert (Hn3' : lookup t b3 = None).
    { unfold t2 in Hn3. rewrite !lookup_cons in Hn3. destruct (N.eqb_spec b2 b3); [discriminate|]. destruct (N.eqb_spec b1 b3); [discriminate|assumption]. }
    assert (Hz : lookup ((b3, SigningKey q) :: t) 0 = None) by (rewrite lookup_cons; destruct (N.eqb_spec b3 0); [contradiction|assumption]).
    apply (free_step B fs As Hc Hs Hp Ha _ _ _ true).
    { rewrite lookup_cons. destruct (N.eqb_spec b3 0); [contradiction|]. rewrite lookup_cons. destruct (N.eqb_spec b2 0); [contradiction|assumption]. }
    { right. rewrite lookup_cons. destruct (N.eqb_spec b3 b2); [contradiction|]. rewrite lookup_cons, N.eqb_refl. discriminate. }
    rewrite without_there, without_here by assumption.
    apply (free_step B fs As Hc Hs Hp Ha _ _ _ true); [assumption|right; rewrite lookup_cons, N.eqb_refl; discriminate|].
    rewrite without_here by assumption. cbn [finishes]. exists t. now splits. }
  assert (Hpq : type_of p = type_of q) by congruence. pose proof (verify_says true p q pub sig' Hnz Hpq Hpub Hv Hsig') as Hvs. rewrite Htp in Hvs.
  destruct Hvs as [[-> Hbad]|(b' & -> & Hb')]; cbn [bind].
  - apply checked_step; [reflexivity|]. apply Hfree. splits; [reflexivity|now intros _|]. destruct added; discriminate.
  - destruct b'.
    + unfold checked. cbn [negb finishes]. exists t3. splits; [reflexivity|assumption| |assumption]. right. right. apply Hnot. intros _. now apply Hb'.
    + apply checked_step; [reflexivity|]. apply Hfree. splits; [reflexivity| |].
      * rewrite !orb_false_r. exact Hadd.
      * rewrite !orb_false_r. intros Hf ty' Hin'. apply in_app_or in Hin'. destruct Hin' as [Hin'|[<-|[]]]; [now apply Hall|].
        intros k other Hk Ho. rewrite <- (derived_once _ _ _ _ _ Hd1 Hk), <- (derived_once _ _ _ _ _ Hd3 Ho). split; [now apply Hb|]. intro Hx. apply Hb' in Hx. discriminate.
Qed.
End Tests.

(** ** The fixture *)

Section Fixture.
Context `{E : Env} (B : Bssl) `{A : Allocator}.
Hypotheses (Hc : computes_sha2 B) (Hs : signs B) (Hp : publishes B) (Ha : allocator_ok A).

Lemma fixture (hungry : Prop) (Q : table -> option bool -> table -> Prop) test t : lookup t 0 = None ->
  (forall cdi t1, lookup t1 0 = None -> has_secret t1 cdi -> finishes hungry (test cdi (heap_of t1)) (fun o t2 => kept t1 t2 /\ Q t1 o t2)) ->
  finishes hungry (run_key_test test (heap_of t)) (fun passed t' => kept t t' /\
    exists cdi o t2, lookup t cdi = None /\ Q ((cdi, SecretKey test_cdi) :: t) o t2 /\ t' = without cdi t2 /\ passed = match o with Some added => negb added | None => false end).
Proof.
  intros H0 Ht. unfold run_key_test.
  destruct (call_lawful B Hc Hs Hp Ha 0 t (MakeSecret true (Some (slice_of test_cdi)) (Some 0)) H0) as [(r & t1 & Hr & Hl & H01)|(_ & ctx' & a' & ty' & g' & ko' & cv & bits & Hx & _)]; [| |discriminate Hx].
  { cbn [op_ok]. apply small_slice_ok. reflexivity. }
  cbn [call_op] in Hr. destruct (n20_crypto_boringssl_make_secret _ _ _ _) as [[[rc h] a]| |] eqn:Em; cbn [bind] in Hr; try discriminate. injection Hr as <- ->. cbn [bind].
  assert (Hrc : rc = ok_e) by (unfold n20_crypto_boringssl_make_secret in Em; cbn in Em; now injection Em).
  subst rc. cbn [lawful] in Hl. destruct Hl as [_ (b & k & -> & Hz & Hn & -> & ->)]. cbn [value_of error_eqb n20_crypto_boringssl_open fst andb].
  change (slice_bytes (slice_of test_cdi)) with test_cdi in *.
  eapply finishes_bind; [apply Ht; [assumption|now apply handle_here]|]. intros o t2 H02 [Hkept HQ]. cbn beta iota.
  assert (Hb2 : lookup t2 b <> None) by (rewrite (Hkept b (SecretKey test_cdi)); [discriminate|now rewrite lookup_cons, N.eqb_refl]).
  rewrite bssl_free_ok by (first [assumption | apply at_hand_ok; now right]). cbn [bind finishes]. exists (without b t2). splits.
  - reflexivity.
  - unfold without. rewrite lookup_filter. now destruct (b =? 0).
  - intros c k Hk. unfold without. rewrite lookup_filter. destruct (N.eqb_spec b c) as [->|Hne]; [congruence|]. apply Hkept. rewrite lookup_cons. now destruct (N.eqb_spec b c).
  - exists b, o, t2. splits; try assumption; try reflexivity. destruct o as [[]|]; reflexivity.
Qed.
End Fixture.

(** ** C57 *)

(** The tests that look for error codes, and the contexts of the keys they derive. *)
Definition error_tests (B : Bssl) (fs : N -> call -> bool) (As : N -> Allocator) (fuel : nat) : list ((N -> heap -> res (option bool * heap)) * list (list byte)) :=
  [(@OpenClose B (As 0), []); (KDFErrorsTest (boringssl_at B fs As) fuel, [foo_context]); (GetPublicKeyErrorsTest (boringssl_at B fs As) fuel, [public_context]);
   (KeyFreeErrorsTest (boringssl_at B fs As), [])].

Theorem C57_error_tests : forall (E : Env) (B : Bssl) (fs : N -> call -> bool) (As : N -> Allocator) fuel t test contexts,
  computes_sha2 B -> signs B -> publishes B -> (forall i, allocator_ok (As i)) -> lookup t 0 = None -> In (test, contexts) (error_tests B fs As fuel) ->
  (exists passed t', run_key_test (A := As 0) test (heap_of t) = Ret (passed, heap_of t') /\ (forall a k, lookup t a = Some k -> lookup t' a = Some k) /\
     (passed = true -> t' = t) /\ (passed = false -> exists i c, fs i c = true)) \/
  (run_key_test (A := As 0) test (heap_of t) = OutOfFuel /\ starved B contexts fuel).
Proof.
  intros E B fs As fuel t test contexts Hc Hs Hp Ha H0 Hin.
  assert (Hrun : forall cdi t1, lookup t1 0 = None -> has_secret t1 cdi -> finishes (starved B contexts fuel) (test cdi (heap_of t1)) (went_well fs t1)).
  { intros cdi t1 H1 H2. cbn [error_tests In] in Hin. destruct Hin as [[= <- <-]|[[= <- <-]|[[= <- <-]|[[= <- <-]|[]]]]].
    - cbn. exists t1. now splits.
    - now apply kdf_errors_run.
    - now apply public_errors_run.
    - unfold KeyFreeErrorsTest. pose proof (key_free_errors_run B fs As Hc Hs Hp Ha t1 cdi H1) as Hk. revert Hk. unfold KeyFreeErrorsTest.
      match goal with |- finishes _ ?r _ -> _ => destruct r as [[o h]| |] end; cbn [finishes]; tauto. }
  pose proof (fixture B Hc Hs Hp (Ha 0) (starved B contexts fuel) (went_well fs) test t H0) as Hfix. 
  assert (Hrun' : forall cdi t1, lookup t1 0 = None -> has_secret t1 cdi -> finishes (starved B contexts fuel) (test cdi (heap_of t1)) (fun o t2 => kept t1 t2 /\ went_well fs t1 o t2)).
  { intros cdi t1 H1 H2. pose proof (Hrun cdi t1 H1 H2) as Hr. destruct (test cdi (heap_of t1)) as [[o h]| |]; cbn [finishes] in Hr |- *; try assumption.
    destruct Hr as (t2 & -> & H3 & HQ). exists t2. splits; try assumption; try reflexivity. destruct o as [added|]; cbn [went_well] in HQ; [|exact (proj2 HQ)].
    destruct HQ as [_ ->]. apply kept_refl. }
  specialize (Hfix Hrun'). destruct (run_key_test (A := As 0) test (heap_of t)) as [[passed h]| |]; cbn [finishes] in Hfix; [left|contradiction|right; now split].
  destruct Hfix as (t' & -> & _ & Hkept & cdi & o & t2 & Hn & HQ & -> & ->). eexists. eexists. splits; [reflexivity|exact Hkept| |].
  - destruct o as [added|]; [|discriminate]. destruct HQ as [_ ->]. intros _. now apply without_here.
  - destruct o as [added|]; [destruct HQ as [-> _]; discriminate|]. intros _. exact (proj1 HQ).
Qed.
Print Assumptions C57_error_tests.

(** SignErrorsTest passes and leaves three keys behind: of types Ed25519, P-256 and P-384, under new handles. *)
Theorem C57_sign_errors_leak : forall (E : Env) (B : Bssl) (fs : N -> call -> bool) (As : N -> Allocator) fuel t,
  computes_sha2 B -> signs B -> publishes B -> (forall i, allocator_ok (As i)) -> lookup t 0 = None ->
  let run := run_key_test (A := As 0) (SignErrorsTest (boringssl_at B fs As) fuel) (heap_of t) in
  (exists passed t', run = Ret (passed, heap_of t') /\ (forall a k, lookup t a = Some k -> lookup t' a = Some k) /\
     (passed = true -> exists a1 a2 a3 k1 k2 k3,
        t' = (a3, k3) :: (a2, k2) :: (a1, k1) :: t /\ NoDup [a1; a2; a3] /\
        Forall (fun a => a <> 0 /\ lookup t a = None) [a1; a2; a3] /\
        derived B test_cdi sign_context 3 k1 /\ derived B test_cdi sign_context 1 k2 /\ derived B test_cdi sign_context 2 k3) /\
     (passed = false -> exists i c, fs i c = true)) \/
  (run = OutOfFuel /\ starved B [sign_context] fuel).
Proof.
  intros E B fs As fuel t Hc Hs Hp Ha H0 run.
  pose proof (fixture B Hc Hs Hp (Ha 0) (starved B [sign_context] fuel)
    (fun t1 o t2 => match o with Some added => added = false /\ kept t1 t2 /\ left_behind B t1 [3; 1; 2] t2 | None => failing_calls fs /\ kept t1 t2 end)
    (SignErrorsTest (boringssl_at B fs As) fuel) t H0) as Hfix.
  fold run in Hfix. match type of Hfix with ?P -> _ => assert (Hrun : P) end.
  { intros cdi t1 H1 H2. pose proof (sign_errors_run B fs As fuel Hc Hs Hp Ha t1 cdi H1 H2) as Hr. destruct (SignErrorsTest (boringssl_at B fs As) fuel cdi (heap_of t1)) as [[o h]| |]; cbn [finishes] in Hr |- *; try assumption.
    destruct Hr as (t2 & -> & H3 & HQ). exists t2. splits; try assumption; try reflexivity. destruct o as [added|]; tauto. }
  specialize (Hfix Hrun). destruct run as [[passed h]| |]; cbn [finishes] in Hfix; [left|contradiction|right; now split].
  destruct Hfix as (t' & -> & _ & Hkept & cdi & o & t2 & Hn & HQ & -> & ->). eexists. eexists. splits; [reflexivity|exact Hkept| |].
  - destruct o as [added|]; [|discriminate]. intros _. destruct HQ as (_ & _ & l & -> & Hd & Hf).
    rewrite <- (rev_involutive l) in Hd |- *. revert Hd Hf. generalize (rev l). clear l Hkept. intros l Hd Hf.
    inversion Hf as [|ty1 [a1 k1] ? l1 (Hz1 & Hn1 & Hd1) Hf1]; subst. inversion Hf1 as [|ty2 [a2 k2] ? l2 (Hz2 & Hn2 & Hd2) Hf2]; subst.
    inversion Hf2 as [|ty3 [a3 k3] ? l3 (Hz3 & Hn3 & Hd3) Hf3]; subst. inversion Hf3; subst. cbn [fst snd] in *. clear Hf Hf1 Hf2 Hf3.
    rewrite lookup_cons in Hn1, Hn2, Hn3. destruct (N.eqb_spec cdi a1); [discriminate|]. destruct (N.eqb_spec cdi a2); [discriminate|]. destruct (N.eqb_spec cdi a3); [discriminate|].
    exists a1, a2, a3, k1, k2, k3. cbn [rev app]. rewrite !without_there, without_here by (first [assumption|congruence]). splits; try assumption; try reflexivity.
    + cbn [rev app map fst] in Hd. apply (NoDup_rev (A := N)) in Hd. exact Hd.
    + repeat constructor; assumption.
  - destruct o as [added|]; [destruct HQ as [-> _]; discriminate|]. intros _. exact (proj1 HQ).
Qed.
Print Assumptions C57_sign_errors_leak.

(** KDFTest, for any BoringSSL, verification included. *)
Theorem C57_kdf_test : forall (E : Env) (X : Cxx) (B : Bssl) (V : Verifier) (fs : N -> call -> bool) (As : N -> Allocator) fuel t,
  computes_sha2 B -> signs B -> publishes B -> nonzero_s B -> (forall i, allocator_ok (As i)) -> lookup t 0 = None ->
  let run := run_key_test (A := As 0) (KDFTest (boringssl_at B fs As) fuel) (heap_of t) in
  (exists passed t', run = Ret (passed, heap_of t') /\ (forall a k, lookup t a = Some k -> lookup t' a = Some k) /\
     (passed = true -> t' = t /\ told_apart B V) /\
     (passed = false -> (exists i c, fs i c = true) \/ ~ checks_work V \/ ~ told_apart B V)) \/
  (run = OutOfFuel /\ starved B [kdf_context; kdf_other_context] fuel).
Proof.
  intros E X B V fs As fuel t Hc Hs Hp Hnz Ha H0 run.
  pose proof (fixture B Hc Hs Hp (Ha 0) (starved B [kdf_context; kdf_other_context] fuel)
    (fun t1 o t2 => match o with Some added => t2 = t1 /\ (added = true -> ~ checks_work V) /\ (added = false -> told_apart B V)
                    | None => (failing_calls fs \/ ~ checks_work V \/ ~ told_apart B V) /\ kept t1 t2 end)
    (KDFTest (boringssl_at B fs As) fuel) t H0) as Hfix.
  fold run in Hfix. match type of Hfix with ?P -> _ => assert (Hrun : P) end.
  { intros cdi t1 H1 H2. pose proof (kdf_run B fs As fuel Hc Hs Hp Ha t1 cdi Hnz H1 H2) as Hr. destruct (KDFTest (boringssl_at B fs As) fuel cdi (heap_of t1)) as [[o h]| |]; cbn [finishes] in Hr |- *; try assumption.
    destruct Hr as (t2 & -> & H3 & HQ). exists t2. splits; try assumption; try reflexivity. destruct o as [added|]; [|tauto]. destruct HQ as [-> _]. apply kept_refl. }
  specialize (Hfix Hrun). destruct run as [[passed h]| |]; cbn [finishes] in Hfix; [left|contradiction|right; now split].
  destruct Hfix as (t' & -> & _ & Hkept & cdi & o & t2 & Hn & HQ & -> & ->). eexists. eexists. splits; [reflexivity|exact Hkept| |].
  - destruct o as [added|]; [|discriminate]. destruct HQ as (-> & _ & Ht). intro Hpass. split; [now apply without_here|]. apply Ht. now destruct added.
  - destruct o as [added|]; [|intros _; exact (proj1 HQ)]. destruct HQ as (_ & Ht & _). intro Hpass. right. left. apply Ht. now destruct added.
Qed.
Print Assumptions C57_kdf_test.

(** With a verifier that accepts the signatures of a key and no others, KDFTest tells whether the two contexts give different keys. *)
Theorem C57_kdf_test_means : forall (B : Bssl) (V : Verifier),
  (forall p q m, match p, q with Ed25519 _, Ed25519 _ => True | EC c _, EC c' _ => c = c' | _, _ => False end ->
     (accepts B V (SigningKey p) (SigningKey q) m <-> p = q)) ->
  (told_apart B V <-> forall ty k other, In ty [1; 2; 3] -> derived B test_cdi kdf_context ty k -> derived B test_cdi kdf_other_context ty other -> k <> other).
Proof.
  intros B V Hv.
  assert (Hshape : forall ty k other, In ty [1; 2; 3] -> derived B test_cdi kdf_context ty k -> derived B test_cdi kdf_other_context ty other ->
    exists p q, k = SigningKey p /\ other = SigningKey q /\ match p, q with Ed25519 _, Ed25519 _ => True | EC c _, EC c' _ => c = c' | _, _ => False end).
  { intros ty k other Hin H1 H2. destruct (derived_signing B _ _ _ Hin H1) as (p & -> & Hp). destruct (derived_signing B _ _ _ Hin H2) as (q & -> & Hq).
    exists p, q. splits; try reflexivity. destruct p as [|[]], q as [|[]]; try exact I; try reflexivity; congruence. }
  split.
  - intros Ht ty k other Hin H1 H2 ->. destruct (Ht ty other other Hin H1 H2) as [Hy Hn]. contradiction.
  - intros Hd ty k other Hin H1 H2. destruct (Hshape ty k other Hin H1 H2) as (p & q & -> & -> & Hpq). split.
    + apply Hv; [now destruct p|reflexivity].
    + intro Hx. apply (Hv _ _ _ Hpq) in Hx. subst q. now apply (Hd ty _ _ Hin H1 H2).
Qed.
Print Assumptions C57_kdf_test_means.

Lemma not_starved (B : Bssl) contexts : derivable B contexts -> exists n, forall fuel, (n <= fuel)%nat -> ~ starved B contexts fuel.
Proof.
  intro Hd. assert (Hn : exists n, forall c context, In context contexts -> exists d, forall fuel, (n <= fuel)%nat ->
    first_suitable (HMAC SHA512) 64 (curve_order c) (HKDF_expand SHA512 test_cdi context 32) fuel = Some d).
  { induction contexts as [|x l IH]; [exists 0%nat; intros c context []|].
    destruct IH as [n Hn]; [intros c y Hy; apply Hd; now right|].
    destruct (Hd P256 x (or_introl eq_refl)) as [d1 H1]. destruct (Hd P384 x (or_introl eq_refl)) as [d2 H2].
    destruct (first_suitable_complete _ _ _ _ _ H1) as [n1 F1]. destruct (first_suitable_complete _ _ _ _ _ H2) as [n2 F2].
    exists (n + n1 + n2)%nat. intros c y [<-|Hy].
    - destruct c; [exists d1|exists d2]; intros fuel Hf; [apply F1|apply F2]; lia.
    - destruct (Hn c y Hy) as [d Hx]. exists d. intros fuel Hf. apply Hx. lia. }
  destruct Hn as [n Hn]. exists n. intros fuel Hf (c & context & Hin & Hall). destruct (Hn c context Hin) as [d Hx]. specialize (Hx fuel Hf).
  unfold first_suitable in Hx. destruct (find _ _) as [i|] eqn:Ef; [|discriminate]. apply find_some in Ef. destruct Ef as [Hi Hsu]. apply in_seq in Hi. rewrite Hall in Hsu by lia. discriminate.
Qed.

(** When no call fails and there are keys, each test passes, given enough steps. *)
Theorem C57_all_pass : forall (E : Env) (X : Cxx) (B : Bssl) (V : Verifier) (fs : N -> call -> bool) (As : N -> Allocator) t,
  computes_sha2 B -> signs B -> publishes B -> nonzero_s B -> (forall i, allocator_ok (As i)) -> lookup t 0 = None -> (forall i c, fs i c = false) -> checks_work V ->
  (derivable B [foo_context; public_context] -> exists n, forall fuel, (n <= fuel)%nat ->
     Forall (fun test => run_key_test (A := As 0) (fst test) (heap_of t) = Ret (true, heap_of t)) (error_tests B fs As fuel)) /\
  (derivable B [sign_context] -> exists n, forall fuel, (n <= fuel)%nat ->
     exists t', run_key_test (A := As 0) (SignErrorsTest (boringssl_at B fs As) fuel) (heap_of t) = Ret (true, heap_of t')) /\
  (derivable B [kdf_context; kdf_other_context] -> exists n, forall fuel, (n <= fuel)%nat ->
     (run_key_test (A := As 0) (KDFTest (boringssl_at B fs As) fuel) (heap_of t) = Ret (true, heap_of t) <-> told_apart B V)).
Proof.
  intros E X B V fs As t Hc Hs Hp Hnz Ha H0 Hf Hw.
  assert (Hnf : ~ exists i c, fs i c = true) by (intros (i & c & Hx); rewrite Hf in Hx; discriminate).
  splits.
  - intro Hd. destruct (not_starved B _ Hd) as [n Hn]. exists n. intros fuel Hfu. specialize (Hn fuel Hfu). apply Forall_forall. intros [test contexts] Hin. cbn [fst].
    destruct (C57_error_tests E B fs As fuel t test contexts Hc Hs Hp Ha H0 Hin) as [(passed & t' & Hr & _ & Hpass & Hfail)|[_ (c & context & Hic & Hst)]].
    + destruct passed; [now rewrite (Hpass eq_refl) in Hr|]. contradiction (Hnf (Hfail eq_refl)).
    + exfalso. apply Hn. exists c, context. split; [|exact Hst]. clear Hst. unfold error_tests in Hin. cbn [In] in Hin |- *.
      destruct Hin as [Hx|[Hx|[Hx|[Hx|[]]]]]; apply (f_equal snd) in Hx; cbn [snd] in Hx; subst contexts; cbn [In] in Hic; tauto.
  - intro Hd. destruct (not_starved B _ Hd) as [n Hn]. exists n. intros fuel Hfu. specialize (Hn fuel Hfu).
    destruct (C57_sign_errors_leak E B fs As fuel t Hc Hs Hp Ha H0) as [(passed & t' & Hr & _ & _ & Hfail)|[_ Hst]]; [|contradiction].
    destruct passed; [now exists t'|]. contradiction (Hnf (Hfail eq_refl)).
  - intro Hd. destruct (not_starved B _ Hd) as [n Hn]. exists n. intros fuel Hfu. specialize (Hn fuel Hfu).
    destruct (C57_kdf_test E X B V fs As fuel t Hc Hs Hp Hnz Ha H0) as [(passed & t' & Hr & _ & Hpass & Hfail)|[_ Hst]]; [|contradiction].
    rewrite Hr. destruct passed.
    + destruct (Hpass eq_refl) as [-> Ht]. now split.
    + split; [discriminate|]. intro Ht. destruct (Hfail eq_refl) as [Hx|[Hx|Hx]]; contradiction.
Qed.
Print Assumptions C57_all_pass.

(** ** Cases *)

(** A BoringSSL with signatures of the right form, in which both curves have the order of P-256, and its verification. *)
Definition demo (f : call -> bool) : Bssl := {|
  fails := f;
  evp_digest := @evp_digest (toy f); bssl_hmac := @bssl_hmac (toy f); bssl_hkdf_extract := @bssl_hkdf_extract (toy f); bssl_hkdf_expand := @bssl_hkdf_expand (toy f);
  ed25519_public := @ed25519_public (toy f); ed25519_sign := @ed25519_sign (toy f);
  curve_order _ := order256;
  ec_public := @ec_public (toy f);
  ecdsa_sign c d alg m := ecdsa_der (be_val m mod 256 ^ coordinate c) (1 + d mod (256 ^ coordinate c - 1)) |}.
Definition demo_verifier : Verifier := {|
  check_fails _ _ := false;
  ed25519_verify p m sig := same sig (be_bytes 32 (be_val m) ++ p);
  on_curve _ _ := true;
  ecdsa_verify c p alg m sig := same sig (ecdsa_der (be_val m mod 256 ^ coordinate c) (1 + be_val (takeN (coordinate c) (dropN 1 p)) mod (256 ^ coordinate c - 1))) |}.
Definition counter : Allocator := {| fresh h := 1 + fold_right N.max 0 (map fst h) |}.

Lemma der_once c r s r' s' : in_field c r -> in_field c s -> in_field c r' -> in_field c s' -> ecdsa_der r s = ecdsa_der r' s' -> s = s'.
Proof.
  intros Hr Hs Hr' Hs' He. set (out := zeros (2 * coordinate c)). assert (Ho : 2 * coordinate c <= len out) by (unfold out; rewrite len_zeros; lia).
  destruct (C43_unwrap c r s out Hr Hs Ho) as (R & S & Hu & HR & HS & _ & <- & _). destruct (C43_unwrap c r' s' out Hr' Hs' Ho) as (R' & S' & Hu' & HR' & HS' & _ & <- & _).
  rewrite He, Hu' in Hu. injection Hu as Hu. apply (f_equal (fun l => takeN (coordinate c) (dropN (coordinate c) l))) in Hu.
  assert (Hd : forall (l m : list byte), len l = coordinate c -> dropN (coordinate c) (l ++ m) = m) by (intros l m <-; apply dropN_app_len).
  assert (Ht : forall (l m : list byte), len l = coordinate c -> takeN (coordinate c) (l ++ m) = l) by (intros l m <-; apply takeN_app_len).
  rewrite !Hd, !Ht in Hu by assumption. now rewrite Hu.
Qed.
Example C57_demo_case : forall f, computes_sha2 (demo f) /\ signs (demo f) /\ publishes (demo f) /\ nonzero_s (demo f).
Proof.
  intro f. assert (Hfield : forall c d, in_field c (1 + d mod (256 ^ coordinate c - 1))).
  { intros c d. unfold in_field. pose proof (N.mod_lt d (256 ^ coordinate c - 1)) as H. assert (256 ^ coordinate c > 1) by now destruct c. generalize dependent (256 ^ coordinate c). intros. lia. }
  assert (Hfield' : forall c m, in_field c (m mod 256 ^ coordinate c)) by (intros c m; apply N.mod_lt, coordinate_pos).
  splits.
  - exact (toy_sha2 f).
  - split; [exact (proj1 (toy_signs f))|]. intros c d alg m. eexists. eexists. splits; [| |reflexivity]; [apply Hfield'|apply Hfield].
  - exact (toy_publishes f).
  - intros c d alg m r s Hr Hsf Hd. cbn [ecdsa_sign demo] in Hd. apply (der_once c) in Hd; try assumption; [|apply Hfield'|apply Hfield]. lia.
Qed.
(** Calls in the loop have different numbers, for all types and all positions up to 99, and none of those of the calls outside. *)
Example C57_sites_case : forall ty i ty' i', i < 100 -> i' < 100 -> i <> site ty' i' /\ (site ty i = site ty' i' -> ty = ty' /\ i = i').
Proof. unfold site. lia. Qed.
(** Another key is in the heap; these tests compute nothing. *)
Definition one_key : table := [(7, SecretKey [x01])].
Example C57_small_case : forall (E : Env) (B : Bssl) (fs : N -> call -> bool) (A : Allocator), A = counter ->
  run_key_test OpenClose (heap_of one_key) = Ret (true, heap_of one_key) /\
  run_key_test (KeyFreeErrorsTest (boringssl_at B fs (fun _ => A))) (heap_of one_key) = Ret (true, heap_of one_key).
Proof. intros E B fs A ->. split; reflexivity. Qed.
(** With a BoringSSL whose calls all fail from the first derivation of a key on, none can be derived; the test fails, and frees its secret. *)
Example C57_failing_case : forall (E : Env) (B : Bssl) (A : Allocator), B = demo none_fails -> A = counter ->
  run_key_test (KDFErrorsTest (boringssl_at B (fun i _ => site key_type_cdi_e 21 <=? i) (fun _ => A)) 5) (heap_of one_key) = Ret (false, heap_of one_key).
Proof. intros E B A -> ->. reflexivity. Qed.
(** The leak: for the keys of SignErrorsTest the first candidate of RFC 6979 is suitable. *)
Lemma counter_ok : allocator_ok counter.
Proof.
  intro h. cbn [fresh counter]. split; [lia|]. unfold find_key. assert (Hl : forall a, In a (map fst h) -> a <= fold_right N.max 0 (map fst h)).
  { induction (map fst h) as [|b l IH]; [intros a []|]. cbn [fold_right]. intros a [->|Hi]; [lia|]. specialize (IH a Hi). lia. }
  destruct (find _ h) as [[a k]|] eqn:Ef; [|reflexivity]. exfalso. apply find_some in Ef. destruct Ef as [Hi He]. cbn [fst] in He. apply N.eqb_eq in He.
  apply (in_map fst) in Hi. specialize (Hl _ Hi). cbn [fst] in Hl. lia.
Qed.
Lemma first_key : suitable order256 (candidate (HMAC SHA512) 64 order256 (HKDF_expand SHA512 test_cdi sign_context 32) 0) = true.
Proof. vm_compute. reflexivity. Qed.
Lemma sign_derivable : derivable (demo none_fails) [sign_context].
Proof. intros c context [<-|[]]. eexists. exists 0%nat. split; [reflexivity|]. split; [exact first_key|]. intros j Hj. inversion Hj. Qed.
Lemma leaks (E : Env) (X : Cxx) (B : Bssl) (V : Verifier) (fs : N -> call -> bool) (As : N -> Allocator) t :
  computes_sha2 B -> signs B -> publishes B -> nonzero_s B -> (forall i, allocator_ok (As i)) -> lookup t 0 = None -> (forall i c, fs i c = false) -> checks_work V -> derivable B [sign_context] ->
  exists n, forall fuel, (n <= fuel)%nat -> exists a1 a2 a3 k1 k2 k3,
  run_key_test (A := As 0) (SignErrorsTest (boringssl_at B fs As) fuel) (heap_of t) = Ret (true, heap_of ((a3, k3) :: (a2, k2) :: (a1, k1) :: t)).
Proof.
  intros Hc Hs Hp Hnz Ha H0 Hf Hw Hd. destruct (C57_all_pass E X B V fs As t Hc Hs Hp Hnz Ha H0 Hf Hw) as (_ & Hl & _).
  destruct (Hl Hd) as [n Hn]. exists n. intros fuel Hfu. destruct (Hn fuel Hfu) as [t' Hr].
  destruct (C57_sign_errors_leak E B fs As fuel t Hc Hs Hp Ha H0) as [(passed & t2 & Hr2 & _ & Hpass & _)|[Hr2 _]]; rewrite Hr in Hr2; [|discriminate].
  injection Hr2 as <- Ht. destruct (Hpass eq_refl) as (a1 & a2 & a3 & k1 & k2 & k3 & -> & _). exists a1, a2, a3, k1, k2, k3. now rewrite Hr, Ht.
Qed.
Example C57_leak_case : forall (E : Env) (X : Cxx) (B : Bssl) (fs : N -> call -> bool) (As : N -> Allocator), B = demo none_fails ->
  fs = (fun _ => none_fails) -> As = (fun _ => counter) -> exists n, forall fuel, (n <= fuel)%nat -> exists a1 a2 a3 k1 k2 k3,
  run_key_test (A := As 0) (SignErrorsTest (boringssl_at B fs As) fuel) (heap_of one_key) = Ret (true, heap_of ((a3, k3) :: (a2, k2) :: (a1, k1) :: one_key)).
Proof.
  intros E X B fs As HB HF HA. destruct (C57_demo_case none_fails) as (Hc & Hs & Hp & Hnz). pose proof sign_derivable as Hd.
  assert (Hf : forall i c, fs i c = false) by (rewrite HF; reflexivity). assert (Ha : forall i, allocator_ok (As i)) by (rewrite HA; intros _; exact counter_ok).
  rewrite <- HB in Hc, Hs, Hp, Hnz, Hd. clear HB HF HA.
  refine (leaks E X B demo_verifier fs As one_key Hc Hs Hp Hnz Ha eq_refl Hf _ Hd). intros ty c. reflexivity.
Qed.
(** KDFTest does not pass when every signature is accepted. *)
Lemma accept_all (E : Env) (X : Cxx) (B : Bssl) (V : Verifier) (fs : N -> call -> bool) (As : N -> Allocator) fuel t :
  computes_sha2 B -> signs B -> publishes B -> nonzero_s B -> (forall i, allocator_ok (As i)) -> lookup t 0 = None -> (forall p m sig, ed25519_verify p m sig = true) ->
  forall t', run_key_test (A := As 0) (KDFTest (boringssl_at B fs As) fuel) (heap_of t) <> Ret (true, t').
Proof.
  intros Hc Hs Hp Hnz Ha H0 Hv t' Hr.
  destruct (C57_kdf_test E X B V fs As fuel t Hc Hs Hp Hnz Ha H0) as [(passed & t2 & Hr2 & _ & Hpass & _)|[Hr2 _]]; rewrite Hr in Hr2; [|discriminate].
  injection Hr2 as <- _. destruct (Hpass eq_refl) as [_ Ht].
  destruct (Ht 3 (SigningKey (Ed25519 (HKDF_expand SHA512 test_cdi kdf_context 32))) (SigningKey (Ed25519 (HKDF_expand SHA512 test_cdi kdf_other_context 32)))) as [_ Hno].
  - cbn [In]. tauto.
  - reflexivity.
  - reflexivity.
  - apply Hno. cbn [accepts]. apply Hv.
Qed.
Example C57_accept_all_case : forall (E : Env) (X : Cxx) (B : Bssl) (fs : N -> call -> bool) (As : N -> Allocator) (V : Verifier) fuel, B = demo none_fails -> As = (fun _ => counter) ->
  (forall p m sig, ed25519_verify p m sig = true) ->
  forall t', run_key_test (A := As 0) (KDFTest (boringssl_at B fs As) fuel) (heap_of one_key) <> Ret (true, t').
Proof.
  intros E X B fs As V fuel HB HA Hv. destruct (C57_demo_case none_fails) as (Hc & Hs & Hp & Hnz).
  assert (Ha : forall i, allocator_ok (As i)) by (rewrite HA; intros _; exact counter_ok).
  rewrite <- HB in Hc, Hs, Hp, Hnz. clear HB HA. exact (accept_all E X B V fs As fuel one_key Hc Hs Hp Hnz Ha eq_refl Hv).
Qed.
