(** Property C60: the tests of the RFC 6979 generator and of make_secret. *)
From Coq Require Import Strings.String.
From Coq Require Import List NArith ZArith Bool Strings.Byte Lia.
From Coq Require Import ZifyBool ZifyNat ZifyN.
From Verif Require Import SpecTest.
From Verif Require Import Base BaseFacts Res SpecDigits DigitsFacts SpecSha2 ShaFacts Crypto SpecMac SpecCrypto CryptoProofs Bssl BsslKeys SpecBssl BsslProofs
  Rfc6979Proofs PropBssl CryptoTest KeyTest.
From Verif Require Import KgenTest SpecKgen.
Import ListNotations.
Open Scope N_scope.

(** ** The numbers in the texts *)
Lemma xdigit_is c : from_xdigit c = digit c.
Proof. destruct c; vm_compute; reflexivity. Qed.

Lemma hex_run_reads ds : forall vs rest n v, map digit ds = map Some vs ->
  hex_run (ds ++ rest) n v = hex_run rest (n + len ds) (fold_left (fun a d => a * 16 + d) vs v).
Proof.
  induction ds as [|c ds IH]; intros [|d vs] rest n v H; try discriminate.
  - cbn [app fold_left]. f_equal. lens. lia.
  - cbn [map] in H. injection H as Hc Hs. cbn [app hex_run fold_left]. rewrite xdigit_is, Hc, (IH vs) by assumption. lens.
    f_equal; [lia|]. f_equal. lia.
Qed.
Lemma hex_run_writes s : exists ds vs rest, s = ds ++ rest /\ map digit ds = map Some vs /\
  match rest with [] => True | c :: _ => digit c = None end /\
  forall n v, hex_run s n v = (n + len ds, fold_left (fun a d => a * 16 + d) vs v).
Proof.
  induction s as [|c s (ds & vs & rest & E1 & E2 & E3 & E4)].
  - exists [], [], []. splits; try reflexivity. intros. cbn. f_equal. lens. lia.
  - destruct (digit c) as [d|] eqn:Ed.
    + exists (c :: ds), (d :: vs), rest. splits; [now rewrite E1|cbn; congruence|exact E3|].
      intros n v. cbn [hex_run fold_left]. rewrite xdigit_is, Ed, E4. lens. f_equal; [lia|]. f_equal. lia.
    + exists [], [], (c :: s). splits; try reflexivity; [exact Ed|]. intros. cbn [hex_run]. rewrite xdigit_is, Ed. f_equal. lens. lia.
Qed.
Lemma rest_stops rest n v : match rest with [] => True | c :: _ => digit c = None end -> hex_run rest n v = (n, v).
Proof. destruct rest as [|c rest]; intro H; [reflexivity|]. cbn [hex_run]. now rewrite xdigit_is, H. Qed.

Lemma hex2bn_plain s : hd_error s <> Some x2d -> BN_hex2bn s = (fst (hex_run s 0 0), Z.of_N (snd (hex_run s 0 0))).
Proof.
  intro H. unfold BN_hex2bn. destruct s as [|c s]; [reflexivity|].
  destruct c; try (destruct (hex_run _ 0 0); reflexivity). now destruct H.
Qed.
(** BN_hex2bn says [n] and a number that is not negative exactly if the text writes it (or is a minus sign and zeros). *)
Lemma hex2bn_writes n s k : writes n s k -> 0 < n -> BN_hex2bn s = (n, Z.of_N k).
Proof.
  intros (ds & rest & vs & -> & Hn & Hm & Hv & Hr) H0.
  rewrite hex2bn_plain.
  - rewrite (hex_run_reads ds vs rest 0 0 Hm), (rest_stops _ _ _ Hr). cbn [fst snd]. unfold undigits in Hv. rewrite Hv. f_equal. lia.
  - destruct ds as [|c ds]; [lens; lia|]. destruct vs as [|d vs]; [discriminate|]. injection Hm as Hc _. cbn. intro E. injection E as ->. discriminate.
Qed.
Lemma hex2bn_positive n s k : BN_hex2bn s = (n, Z.of_N k) -> 0 < k -> writes n s k.
Proof.
  intros H Hk. destruct (option_map (Byte.eqb x2d) (hd_error s)) as [[]|] eqn:Em.
  - destruct s as [|c s]; [discriminate|]. cbn [hd_error option_map] in Em. injection Em as Em. apply Byte.byte_dec_bl in Em. subst c.
    cbn in H. destruct (hex_run s 0 0) as [a v]. injection H as _ H. lia.
  - destruct s as [|c s]; [discriminate|]. cbn [hd_error option_map] in Em.
    rewrite hex2bn_plain in H by (cbn; intro E; injection E as ->; discriminate).
    destruct (hex_run_writes (c :: s)) as (ds & vs & rest & E1 & E2 & E3 & E4). rewrite E4 in H. cbn [fst snd] in H. injection H as H1 H2.
    exists ds, rest, vs. splits; try assumption; unfold undigits; lia.
  - destruct s; [|discriminate]. cbn in H. injection H as _ H. lia.
Qed.

(** ** The tests *)
Section Tests.
Variables (B : Bssl) (alg : N) (A : sha2) (digits : N) (x : list byte) (q_str : list byte) (q : N) (m : option (list byte)) (k_str : list byte).
Hypothesis known_alg : algorithm alg = Some A.
Hypothesis sha2_ok : computes_sha2 B.
Hypothesis some_digits : 0 < digits.
Hypothesis q_right : writes digits q_str q.

Lemma k_test_is fuel : k_test fuel digits x q_str alg m k_str =
  (let '(nk, k) := BN_hex2bn k_str in if nk =? digits then k_comparison fuel x m alg q k else Ret None).
Proof.
  unfold k_test. rewrite (hex2bn_writes digits q_str q q_right some_digits). unfold assert_that. rewrite N.eqb_refl, N2Z.id. reflexivity.
Qed.
Lemma k_test_sound fuel : k_test fuel digits x q_str alg m k_str = Ret (Some tt) -> right_k digits A q x m k_str.
Proof.
  rewrite k_test_is. destruct (BN_hex2bn k_str) as [nk k] eqn:Ek. destruct (N.eqb_spec nk digits) as [->|]; [|discriminate].
  unfold k_comparison. destruct (rfc6979_k_generation fuel x m alg q) as [[e|g]| |] eqn:Eg; try discriminate. cbn [bind]. unfold assert_that.
  destruct (Z.eqb_spec k (Z.of_N g)) as [->|]; [|discriminate]. intros _.
  pose proof (C44_range B fuel x m alg q g Eg) as Hr.
  exists g. split; [apply hex2bn_positive; [exact Ek|lia]|].
  destruct (C44_rfc6979 B fuel x m alg A q (inr g) sha2_ok known_alg Eg) as [(k' & E & H)|(e & E & _)]; [|discriminate]. now injection E as <-.
Qed.
Lemma k_test_complete : no_failure B -> right_k digits A q x m k_str ->
  exists n, forall fuel, (n <= fuel)%nat -> k_test fuel digits x q_str alg m k_str = Ret (Some tt).
Proof.
  intros Hf (k & Hw & Hk). destruct (C44_found B x m alg A q k Hf sha2_ok known_alg Hk) as [n Hn]. exists n. intros fuel Hl.
  rewrite k_test_is, (hex2bn_writes _ _ _ Hw some_digits), N.eqb_refl. unfold k_comparison. rewrite (Hn fuel Hl). cbn [bind]. unfold assert_that.
  now rewrite Z.eqb_refl.
Qed.
Lemma k_test_fails fuel : no_failure B -> ~ right_k digits A q x m k_str ->
  k_test fuel digits x q_str alg m k_str = Ret None \/ k_test fuel digits x q_str alg m k_str = OutOfFuel.
Proof.
  intros Hf Hn. destruct (k_test fuel digits x q_str alg m k_str) as [[[]|]| |] eqn:Et; auto.
  - destruct Hn. now apply k_test_sound with fuel.
  - exfalso. rewrite k_test_is in Et. destruct (BN_hex2bn k_str) as [nk k]. destruct (nk =? digits); [|discriminate]. unfold k_comparison in Et.
    rewrite (k_generation_sha2 B fuel x m alg A q Hf sha2_ok known_alg) in Et. destruct (first_suitable _ _ _ _ _); [|discriminate].
    cbn in Et. unfold assert_that in Et. destruct (_ =? _)%Z; discriminate.
Qed.
End Tests.

(** ** The parameters *)

(** The orders: of the curve K-163 (FIPS 186-4, D.1.3.1; the example of RFC 6979 A.1.2), of P-256 and of P-384. *)
Definition order_163 : N := 0x4000000000000000000020108A2E0CC0D99F8A5EF.
Definition order_384 : N := 0xFFFFFFFFFFFFFFFFFFFFFFFFFFFFFFFFFFFFFFFFFFFFFFFFC7634D81F4372DDF581A0DB248B0A77AECEC196ACCC52973.

(** The private keys of RFC 6979 A.1.2, A.2.5 ([rfc6979_x]) and A.2.6. *)
Definition key_163 : list byte := be_bytes 21 0x09A4D6792295A7F730FC3F2B49CBC0F62E862272F.
Definition key_384 : list byte := be_bytes 48 0x6B9D3DAD2E1B8C1C05B19875B6659F4DE23C3B667BF297BA9AA47740787137D896D5724E4C70A825F872C9EA60D2EDF5.

(** The number in a text all of whose characters are digits. *)
Definition number (s : list byte) : option N :=
  option_map (undigits 16) (fold_right (fun c o => match digit c, o with Some d, Some ds => Some (d :: ds) | _, _ => None end) (Some []) s).
Lemma number_writes s k : number s = Some k -> writes (len s) s k.
Proof.
  unfold number. destruct (fold_right _ _ s) as [vs|] eqn:E; [|discriminate]. intro H. injection H as H.
  exists s, [], vs. splits; [now rewrite app_nil_r|reflexivity| |exact H|exact I].
  clear H. revert vs E. induction s as [|c s IH]; intros vs E; cbn [fold_right] in E; [injection E as <-; reflexivity|].
  destruct (digit c) as [d|] eqn:Ed; [|discriminate]. destruct (fold_right _ _ s) as [ds|]; [|discriminate]. injection E as <-.
  cbn [map]. rewrite Ed. f_equal. now apply IH.
Qed.
Lemma writes_163 : writes 41 q_163 order_163.
Proof. apply (number_writes q_163). vm_compute. reflexivity. Qed.
Lemma writes_256 : writes 64 q_256 order256.
Proof. apply (number_writes q_256). vm_compute. reflexivity. Qed.
Lemma writes_384 : writes 96 q_384 order_384.
Proof. apply (number_writes q_384). vm_compute. reflexivity. Qed.

(** A parameter that a test can fail on for no other reason than the generator: a known algorithm and a number in range. *)
Definition usable (n q : N) (v : N * option (list byte) * String.string) : Prop :=
  exists A k, algorithm (fst (fst v)) = Some A /\ writes n (chars (snd v)) k /\ 1 <= k <= q - 1.
Definition usable_b (n q : N) (v : N * option (list byte) * String.string) : bool :=
  match algorithm (fst (fst v)), number (chars (snd v)) with
  | Some _, Some k => (len (chars (snd v)) =? n) && (1 <=? k) && (k <=? q - 1)
  | _, _ => false
  end.
Lemma usable_b_ok n q v : usable_b n q v = true -> usable n q v.
Proof.
  unfold usable_b, usable. destruct (algorithm _) as [A|]; [|discriminate]. destruct (number _) as [k|] eqn:Ek; [|discriminate]. intro H.
  exists A, k. apply number_writes in Ek. assert (len (chars (snd v)) = n) as <- by lia. splits; [reflexivity|exact Ek|lia|lia].
Qed.
Lemma usable_all n q vs : forallb (usable_b n q) vs = true -> Forall (usable n q) vs.
Proof. intro H. rewrite forallb_forall in H. apply Forall_forall. intros v Hv. now apply usable_b_ok, H. Qed.

(** The tests run every algorithm with every one of the four messages, once for each curve, and every parameter is usable. *)
Theorem C60_parameters :
  (Forall (usable 64 order256) vectors_256 /\ Forall (usable 96 order_384) vectors_384 /\
   exists k, writes 41 (chars "23AF4074C90A02B3FE61D286D5C87F425E6BDD81B") k /\ 1 <= k <= order_163 - 1) /\
  forall vs, vs = vectors_256 \/ vs = vectors_384 ->
    NoDup (map fst vs) /\
    forall alg m, In (alg, m) (map fst vs) <->
      (exists A, algorithm alg = Some A) /\ In m [Some (bytes [0x73; 0x61; 0x6d; 0x70; 0x6c; 0x65]); Some (bytes [0x74; 0x65; 0x73; 0x74]); Some []; None].
Proof.
  split; [splits|].
  - apply usable_all. vm_compute. reflexivity.
  - apply usable_all. vm_compute. reflexivity.
  - eexists. split; [apply (number_writes (chars "23AF4074C90A02B3FE61D286D5C87F425E6BDD81B")); vm_compute; reflexivity|]. split; vm_compute; discriminate.
  - assert (map fst vectors_384 = map fst vectors_256) as Es by reflexivity.
    assert (Hx : forall vs, vs = vectors_256 \/ vs = vectors_384 -> map fst vs = map fst vectors_256) by (intros vs [->| ->]; [reflexivity|exact Es]).
    intros vs Hvs. rewrite (Hx vs Hvs). split.
    + vm_compute. repeat constructor; intro H; repeat (destruct H as [H|H]; [discriminate|]); destruct H.
    + intros alg m. split.
      * intro H. split; [|].
        -- unfold vectors_256 in H. cbn [map fst In] in H. unfold algorithm.
           repeat (destruct H as [H|H]; [injection H as <- <-; eexists; reflexivity|]). destruct H.
        -- change (bytes [0x73; 0x61; 0x6d; 0x70; 0x6c; 0x65]) with (chars "sample"). change (bytes [0x74; 0x65; 0x73; 0x74]) with (chars "test").
           unfold vectors_256, SAMPLE_MSG, TEST_MSG, EMPTY_MSG, NULL_MSG in H. cbn [map fst In] in H.
           repeat (destruct H as [H|H]; [injection H as <- <-; cbn [In]; tauto|]). destruct H.
      * intros [[A HA] Hm].
        assert (alg = sha2_224_e \/ alg = sha2_256_e \/ alg = sha2_384_e \/ alg = sha2_512_e) as Ha.
        { unfold sha2_224_e, sha2_256_e, sha2_384_e, sha2_512_e. destruct (N.lt_ge_cases alg 4) as [Hl|Hl]; [lia|]. unfold algorithm in HA.
          rewrite (proj2 (nth_error_None _ _)) in HA; [discriminate|]. cbn [length]. lia. }
        change (bytes [0x73; 0x61; 0x6d; 0x70; 0x6c; 0x65]) with (chars "sample") in Hm. change (bytes [0x74; 0x65; 0x73; 0x74]) with (chars "test") in Hm.
        unfold vectors_256, SAMPLE_MSG, TEST_MSG, EMPTY_MSG, NULL_MSG. cbn [map fst In] in *.
        destruct Ha as [->|[->|[->| ->]]]; destruct Hm as [<-|[<-|[<-|[<-|[]]]]]; tauto.
Qed.
Print Assumptions C60_parameters.

(** ** When the tests pass *)

(** The three tests with their curves, private keys and number of digits. *)
Inductive generator_test : (forall B : Bssl, nat -> N -> option (list byte) -> list byte -> res (option unit)) -> N -> N -> list byte -> Prop :=
| test_163 : generator_test (fun B fuel alg m s => @k_test B fuel 41 x_163 q_163 alg m s) 41 order_163 key_163
| test_256 : generator_test (fun B fuel => @Test_rfc6979_k_P_256_generation B fuel) 64 order256 rfc6979_x
| test_384 : generator_test (fun B fuel => @Test_rfc6979_k_P_384_generation B fuel) 96 order_384 key_384.

Lemma generator_test_is t n q x : generator_test t n q x ->
  exists qs, writes n qs q /\ 0 < n /\ forall B fuel alg m s, t B fuel alg m s = @k_test B fuel n x qs alg m s.
Proof.
  assert (key_163 = x_163 /\ rfc6979_x = x_256 /\ key_384 = x_384) as (E1 & E2 & E3) by (vm_compute; auto).
  intros []; rewrite ?E1, ?E2, ?E3; eexists; (split; [|split; [|reflexivity]]); try (vm_compute; reflexivity); [exact writes_163|exact writes_256|exact writes_384].
Qed.

(** A test that passes has a right vector, whichever calls fail while it runs. *)
Theorem C60_sound : forall t n q x, generator_test t n q x ->
  forall (B : Bssl) fuel alg A m s, computes_sha2 B -> algorithm alg = Some A ->
  t B fuel alg m s = Ret (Some tt) -> right_k n A q x m s.
Proof.
  intros t n q x Ht B fuel alg A m s Hc HA H. destruct (generator_test_is t n q x Ht) as (qs & Hq & H0 & Heq). rewrite Heq in H.
  eapply k_test_sound; eassumption.
Qed.
Print Assumptions C60_sound.
(** With a right vector it passes, after as many candidates as it takes; ... *)
Theorem C60_complete : forall t n q x, generator_test t n q x ->
  forall (B : Bssl) alg A m s, no_failure B -> computes_sha2 B -> algorithm alg = Some A -> right_k n A q x m s ->
  exists enough, forall fuel, (enough <= fuel)%nat -> t B fuel alg m s = Ret (Some tt).
Proof.
  intros t n q x Ht B alg A m s Hf Hc HA Hr. destruct (generator_test_is t n q x Ht) as (qs & Hq & H0 & Heq).
  destruct (k_test_complete B alg A n x qs q m s HA Hc H0 Hq Hf Hr) as [e He]. exists e. intros fuel Hl. rewrite Heq. now apply He.
Qed.
Print Assumptions C60_complete.
(** ... with a wrong one it fails, if it ends. *)
Theorem C60_wrong_vector_fails : forall t n q x, generator_test t n q x ->
  forall (B : Bssl) fuel alg A m s, no_failure B -> computes_sha2 B -> algorithm alg = Some A -> ~ right_k n A q x m s ->
  t B fuel alg m s = Ret None \/ t B fuel alg m s = OutOfFuel.
Proof.
  intros t n q x Ht B fuel alg A m s Hf Hc HA Hr. destruct (generator_test_is t n q x Ht) as (qs & Hq & H0 & Heq). rewrite Heq.
  eapply k_test_fails; eassumption.
Qed.
Print Assumptions C60_wrong_vector_fails.
(** The tests see every difference: whatever BoringSSL computes and whichever calls fail, a test passes only if the generator gave the number that the
    text writes. *)
Theorem C60_compares : forall t n q x, generator_test t n q x ->
  forall (B : Bssl) fuel alg m s, t B fuel alg m s = Ret (Some tt) <->
  exists k, writes n s k /\ rfc6979_k_generation fuel x m alg q = Ret (inr k).
Proof.
  intros t n q x Ht B fuel alg m s. destruct (generator_test_is t n q x Ht) as (qs & Hq & H0 & Heq). rewrite Heq, (k_test_is B alg n x qs q m s H0 Hq).
  split.
  - destruct (BN_hex2bn s) as [nk k] eqn:Ek. destruct (N.eqb_spec nk n) as [->|]; [|discriminate].
    unfold k_comparison. destruct (rfc6979_k_generation fuel x m alg q) as [[e|g]| |] eqn:Eg; try discriminate. cbn [bind]. unfold assert_that.
    destruct (Z.eqb_spec k (Z.of_N g)) as [->|]; [|discriminate]. intros _. exists g. split; [|reflexivity].
    pose proof (C44_range B fuel x m alg q g Eg) as Hr. apply hex2bn_positive; [exact Ek|lia].
  - intros (k & Hw & Hg). rewrite (hex2bn_writes _ _ _ Hw H0), N.eqb_refl. unfold k_comparison. rewrite Hg. cbn [bind]. unfold assert_that.
    now rewrite Z.eqb_refl.
Qed.
Print Assumptions C60_compares.
(** The test without parameters passes exactly if the generator gives the number of RFC 6979 A.1.2. *)
Theorem C60_first_test : forall (B : Bssl) fuel, Test_rfc6979_k_generation fuel = Ret (Some tt) <->
  rfc6979_k_generation fuel key_163 (Some (bytes [0x73; 0x61; 0x6d; 0x70; 0x6c; 0x65])) sha2_256_e order_163 =
  Ret (inr 0x23AF4074C90A02B3FE61D286D5C87F425E6BDD81B).
Proof.
  intros B fuel. change (Some (bytes [0x73; 0x61; 0x6d; 0x70; 0x6c; 0x65])) with SAMPLE_MSG.
  assert (Hw : writes 41 (chars "23AF4074C90A02B3FE61D286D5C87F425E6BDD81B") 0x23AF4074C90A02B3FE61D286D5C87F425E6BDD81B)
    by (apply number_writes; vm_compute; reflexivity).
  unfold Test_rfc6979_k_generation. rewrite (C60_compares _ _ _ _ test_163). split.
  - intros (k & Hk & Hg). apply hex2bn_writes in Hk; [|reflexivity]. apply hex2bn_writes in Hw; [|reflexivity]. rewrite Hw in Hk.
    injection Hk as Hk. rewrite Hg. do 2 f_equal. lia.
  - intro Hg. eexists. split; [exact Hw|exact Hg].
Qed.
Print Assumptions C60_first_test.

(** A vector of the table that is right, and the test that passes with it; with its last digit changed the test fails. *)
Example C60_case : In (sha2_256_e, SAMPLE_MSG, "A6E3C57DD01ABE90086538398355DD4C3B17AA873382B0F24D6129493D8AAD60"%string) vectors_256 /\
  generator_test (fun B fuel => @Test_rfc6979_k_P_256_generation B fuel) 64 order256 rfc6979_x /\ no_failure bssl0 /\ computes_sha2 bssl0 /\
  right_k 64 SHA256 order256 rfc6979_x SAMPLE_MSG (chars "A6E3C57DD01ABE90086538398355DD4C3B17AA873382B0F24D6129493D8AAD60") /\
  @Test_rfc6979_k_P_256_generation bssl0 1 sha2_256_e SAMPLE_MSG (chars "A6E3C57DD01ABE90086538398355DD4C3B17AA873382B0F24D6129493D8AAD60") = Ret (Some tt) /\
  ~ right_k 64 SHA256 order256 rfc6979_x SAMPLE_MSG (chars "A6E3C57DD01ABE90086538398355DD4C3B17AA873382B0F24D6129493D8AAD61") /\
  @Test_rfc6979_k_P_256_generation bssl0 1 sha2_256_e SAMPLE_MSG (chars "A6E3C57DD01ABE90086538398355DD4C3B17AA873382B0F24D6129493D8AAD61") = Ret None /\
  @Test_rfc6979_k_P_256_generation (toy (fun _ => true)) 1 sha2_256_e SAMPLE_MSG (chars "A6E3C57DD01ABE90086538398355DD4C3B17AA873382B0F24D6129493D8AAD60") = Ret None.
Proof.
  assert (Hk : @rfc6979_k_generation bssl0 1 rfc6979_x SAMPLE_MSG sha2_256_e order256 = Ret (inr rfc6979_k)).
  { change SAMPLE_MSG with (Some sample). exact C44_rfc6979_vector. }
  assert (Hp : @Test_rfc6979_k_P_256_generation bssl0 1 sha2_256_e SAMPLE_MSG (chars "A6E3C57DD01ABE90086538398355DD4C3B17AA873382B0F24D6129493D8AAD60") = Ret (Some tt)).
  { apply (C60_compares _ _ _ _ test_256). exists rfc6979_k. split; [|exact Hk]. apply number_writes. vm_compute. reflexivity. }
  assert (Hn : @Test_rfc6979_k_P_256_generation bssl0 1 sha2_256_e SAMPLE_MSG (chars "A6E3C57DD01ABE90086538398355DD4C3B17AA873382B0F24D6129493D8AAD61") = Ret None).
  { unfold Test_rfc6979_k_P_256_generation. rewrite (k_test_is bssl0 _ 64 x_256 q_256 order256) by (reflexivity || exact writes_256).
    unfold k_comparison. replace x_256 with rfc6979_x by (vm_compute; reflexivity). rewrite Hk. vm_compute. reflexivity. }
  split; [|split; [|split; [|split; [|split; [|split; [exact Hp|split; [|split; [exact Hn|]]]]]]]].
  - unfold vectors_256. cbn [In]. tauto.
  - constructor.
  - exact bssl0_reliable.
  - apply toy_sha2.
  - apply (C60_sound _ _ _ _ test_256 bssl0 1 sha2_256_e); [apply toy_sha2|reflexivity|exact Hp].
  - intro Hr. destruct Hr as (k & Hw & Hr).
    destruct (C60_sound _ _ _ _ test_256 bssl0 1 sha2_256_e SHA256 _ _ (toy_sha2 _) eq_refl Hp) as (k' & Hw' & Hr').
    pose proof (C44_unique _ _ _ _ _ _ Hr Hr') as <-.
    apply hex2bn_writes in Hw; [|reflexivity]. apply hex2bn_writes in Hw'; [|reflexivity].
    assert (Hx : snd (BN_hex2bn (chars "A6E3C57DD01ABE90086538398355DD4C3B17AA873382B0F24D6129493D8AAD60")) <>
      snd (BN_hex2bn (chars "A6E3C57DD01ABE90086538398355DD4C3B17AA873382B0F24D6129493D8AAD61"))) by (vm_compute; discriminate).
    apply Hx. now rewrite Hw, Hw'.
  - unfold Test_rfc6979_k_P_256_generation. rewrite (k_test_is (toy (fun _ => true)) _ 64 x_256 q_256 order256) by (reflexivity || exact writes_256).
    vm_compute. reflexivity.
Qed.

(** ** make_secret *)

(** The test passes with every library and allocator, from every heap, and leaves the heap as it was. *)
Theorem C60_make_secret : forall (B : Bssl) (M : Allocator) (h : heap), TestMakeSecretErrors h = Ret (Some h).
Proof. intros. reflexivity. Qed.
Print Assumptions C60_make_secret.
