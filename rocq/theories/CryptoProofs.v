(** The functions of src/crypto/nat20/crypto.c meet the contracts of SpecCrypto.v. *)
From Coq Require Import List NArith ZArith Bool Strings.Byte Lia.
From Coq Require Import ZifyBool ZifyNat ZifyN.
From Verif Require Import Base BaseFacts Res SpecDigits DigitsFacts SpecSha2 ShaFacts Sha256 Sha512 Sha256Proofs Sha512Proofs PropSha
  Crypto SpecMac SpecCrypto.
Import ListNotations.
Open Scope N_scope.

Opaque hash.

(** ** Sizes of digests *)

Lemma compress_len A hs b : len hs = 8 -> len (compress A hs b) = 8.
Proof.
  intro Hl. unfold compress. destruct (fold_left _ _ _) as [[[[[[[? ?] ?] ?] ?] ?] ?] ?]. cbn [of_regs]. rewrite len_map.
  unfold len in *. rewrite combine_length. cbn [length]. lia.
Qed.
Lemma be_bytes_len k n : len (be_bytes k n) = N.of_nat k.
Proof. revert n. induction k; intro n; cbn [be_bytes]; [reflexivity|]. rewrite len_app, IHk. change (len [n2b n]) with 1. lia. Qed.
Lemma hash_len A m : len (iv A) = 8 -> out_bytes A <= 8 * wbytes A -> len (hash A m) = out_bytes A.
Proof.
  intros Hi Ho. with_strategy transparent [hash] (unfold hash). rewrite len_takeN.
  assert (Hd : len (digest_words A m) = 8).
  { unfold digest_words. generalize (pieces (block_bytes A) (pad A m)). intro bs. revert Hi. generalize (iv A). induction bs; intros hs Hh; [assumption|].
    cbn [fold_left]. apply IHbs. now apply compress_len. }
  assert (Hf : forall l, len (flat_map (be_bytes (N.to_nat (wbytes A))) l) = len l * wbytes A).
  { induction l; [reflexivity|]. cbn [flat_map]. rewrite len_app, IHl, be_bytes_len, len_cons. lia. }
  rewrite Hf, Hd. lia.
Qed.

Definition known (A : sha2) : Prop := A = SHA224 \/ A = SHA256 \/ A = SHA384 \/ A = SHA512.
Lemma known_len A m : known A -> len (hash A m) = out_bytes A.
Proof. intros [-> | [-> | [-> | ->]]]; (apply hash_len; [reflexivity|discriminate]). Qed.
Lemma known_block A : known A -> block_bytes A <= 128.
Proof. intros [-> | [-> | [-> | ->]]]; discriminate. Qed.
Lemma known_out A : known A -> 0 < out_bytes A <= 64.
Proof. intros [-> | [-> | [-> | ->]]]; (split; [reflexivity|discriminate]). Qed.
Lemma known_out_block A : known A -> out_bytes A <= block_bytes A.
Proof. intros [-> | [-> | [-> | ->]]]; discriminate. Qed.

(** ** The algorithm parameter *)
Lemma alg_cases (P : N -> Prop) : P 0 -> P 1 -> P 2 -> P 3 -> (forall alg, 4 <= alg -> P alg) -> forall alg, P alg.
Proof.
  intros H0 H1 H2 H3 H4 alg. destruct (N.eq_dec alg 0); [now subst|]. destruct (N.eq_dec alg 1); [now subst|].
  destruct (N.eq_dec alg 2); [now subst|]. destruct (N.eq_dec alg 3); [now subst|]. apply H4. lia.
Qed.
Lemma algorithm_none alg : 4 <= alg -> algorithm alg = None.
Proof. intro. unfold algorithm. apply nth_error_None. cbn [length]. lia. Qed.
Lemma algorithm_known alg A : algorithm alg = Some A -> known A.
Proof.
  revert alg. refine (alg_cases _ _ _ _ _ _).
  1-4: intro E; injection E as <-; unfold known; tauto.
  intros alg Ha. rewrite algorithm_none by assumption. discriminate.
Qed.
Lemma enum_size alg : digest_enum_to_size alg = required alg.
Proof.
  revert alg. refine (alg_cases _ _ _ _ _ _); try reflexivity.
  intros alg Ha. unfold required. rewrite algorithm_none by assumption. unfold digest_enum_to_size, sha2_224_e, sha2_256_e, sha2_384_e, sha2_512_e.
  repeat match goal with |- context [alg =? ?k] => destruct (N.eqb_spec alg k); [lia|] end. reflexivity.
Qed.
Lemma required_0 alg : (required alg =? 0) = is_none (algorithm alg).
Proof.
  revert alg. refine (alg_cases _ _ _ _ _ _); try reflexivity. intros alg Ha. unfold required. now rewrite algorithm_none.
Qed.
Lemma block_size alg : hmac_block_size alg = option_map block_bytes (algorithm alg).
Proof.
  revert alg. refine (alg_cases _ _ _ _ _ _); try reflexivity.
  intros alg Ha. rewrite algorithm_none by assumption. unfold hmac_block_size, sha2_224_e, sha2_256_e, sha2_384_e, sha2_512_e.
  repeat match goal with |- context [alg =? ?k] => destruct (N.eqb_spec alg k); [lia|] end. reflexivity.
Qed.

Section Proofs.
Context {E : Env} {L : Libc}.

(** ** digest *)

(** The state of algorithm [alg] after absorbing [m]. *)
Definition absorbed (alg : N) (st : digest_state) (m : list byte) : Prop :=
  match st with
  | D256 st =>
      ((alg = 0 /\ rep256 fips_H224 28 st m) \/ (alg = 1 /\ rep256 fips_H256 32 st m)) /\ total256 st = len m mod 18446744073709551616
  | D512 st =>
      ((alg = 2 /\ rep512 fips_H384 48 st m) \/ (alg = 3 /\ rep512 fips_H512 64 st m)) /\ total512 st = len m mod 18446744073709551616
  | DZero => False
  end.

Lemma init_ok alg : match algorithm alg with
                    | None => digest_init alg = None
                    | Some A => exists st, digest_init alg = Some st /\ absorbed alg st []
                    end.
Proof.
  revert alg. refine (alg_cases _ _ _ _ _ _).
  1: change (algorithm 0) with (Some SHA224). 2: change (algorithm 1) with (Some SHA256). 3: change (algorithm 2) with (Some SHA384).
  4: change (algorithm 3) with (Some SHA512).
  1,2: eexists; split; [reflexivity|]; cbn [absorbed]; split; [|reflexivity].
  1: left. 2: right. 
  1: split; [reflexivity|]; apply (init256 E fips_H224 28); [reflexivity|repeat (constructor; [reflexivity|]); constructor].
  1: split; [reflexivity|]; apply (init256 E fips_H256 32); [reflexivity|repeat (constructor; [reflexivity|]); constructor].
  1,2: eexists; split; [reflexivity|]; cbn [absorbed]; split; [|reflexivity].
  1: left. 2: right. 
  1: split; [reflexivity|]; apply (init512 E fips_H384 48); [reflexivity|repeat (constructor; [reflexivity|]); constructor].
  1: split; [reflexivity|]; apply (init512 E fips_H512 64); [reflexivity|repeat (constructor; [reflexivity|]); constructor].
  intros alg Ha. rewrite algorithm_none by assumption. unfold digest_init, sha2_224_e, sha2_256_e, sha2_384_e, sha2_512_e.
  repeat match goal with |- context [alg =? ?k] => destruct (N.eqb_spec alg k); [lia|] end. reflexivity.
Qed.

Lemma digest_update_ok alg st m s : slice_ok s -> absorbed alg st m ->
  exists st', digest_update alg st s = Ret st' /\ absorbed alg st' (m ++ slice_bytes s).
Proof.
  intros Hs Ha. destruct st as [|st|st]; cbn [absorbed] in Ha; [contradiction| |]; destruct Ha as [[[-> Hr]|[-> Hr]] Ht].
  1: destruct (update256_ok fips_H224 28 st m s Hs Hr Ht) as (st' & E1 & R1 & T1).
  2: destruct (update256_ok fips_H256 32 st m s Hs Hr Ht) as (st' & E1 & R1 & T1).
  3: destruct (update512_ok fips_H384 48 st m s Hs Hr Ht) as (st' & E1 & R1 & T1).
  4: destruct (update512_ok fips_H512 64 st m s Hs Hr Ht) as (st' & E1 & R1 & T1).
  1,2: exists (D256 st'). 3,4: exists (D512 st').
  all: unfold digest_update; cbn [N.eqb Pos.eqb orb sha2_224_e sha2_256_e]; rewrite E1; cbn [bind absorbed]; split; [reflexivity|].
  all: split; [|assumption]. 1,3: left. 3,4: right. all: split; [reflexivity|assumption].
Qed.

Lemma digest_final_ok alg st m d A : algorithm alg = Some A -> absorbed alg st m -> len m < 2 ^ 61 -> out_bytes A <= len d ->
  exists st', digest_final alg st (Some d) = Ret (st', Some (hash A m ++ dropN (out_bytes A) d)).
Proof.
  intros EA Ha Hm Hd. change (2 ^ 61) with 2305843009213693952 in Hm.
  destruct st as [|st|st]; cbn [absorbed] in Ha; [contradiction| |]; destruct Ha as [[[-> Hr]|[-> Hr]] Ht];
    [change (algorithm 0) with (Some SHA224) in EA|change (algorithm 1) with (Some SHA256) in EA|
     change (algorithm 2) with (Some SHA384) in EA|change (algorithm 3) with (Some SHA512) in EA]; injection EA as <-;
    cbn [out_bytes SHA224 SHA256 SHA384 SHA512 with32 with64] in Hd.
  1: destruct (finalize256_ok fips_H224 28 st m 28 d Hr Ht Hm ltac:(lia) Hd eq_refl) as (st' & E1).
  2: destruct (finalize256_ok fips_H256 32 st m 32 d Hr Ht Hm ltac:(lia) Hd eq_refl) as (st' & E1).
  3: destruct (finalize512_ok fips_H384 48 st m 48 d Hr Ht Hm ltac:(lia) Hd eq_refl) as (st' & E1).
  4: destruct (finalize512_ok fips_H512 64 st m 64 d Hr Ht Hm ltac:(lia) Hd eq_refl) as (st' & E1).
  all: unfold digest_final, n20_sha224_finalize, n20_sha256_finalize, n20_sha384_finalize, n20_sha512_finalize;
    cbn [N.eqb Pos.eqb orb sha2_224_e sha2_256_e sha2_384_e sha2_512_e]; rewrite E1; cbn [bind]; eexists; reflexivity.
Qed.

Lemma digest_slices_ok alg l : forall n i st m, i + N.of_nat n <= len l -> Forall slice_ok (takeN (N.of_nat n) (dropN i l)) ->
  absorbed alg st m ->
  exists st', digest_slices alg n i (Some l) st =
      Ret (if existsb missing (takeN (N.of_nat n) (dropN i l)) then unexpected_null_slice_e else ok_e, st') /\
    (existsb missing (takeN (N.of_nat n) (dropN i l)) = false ->
     absorbed alg st' (m ++ flat_map slice_bytes (takeN (N.of_nat n) (dropN i l)))).
Proof.
  induction n; intros i st m Hi Hs Ha.
  - cbn [digest_slices N.of_nat]. rewrite takeN_0. cbn [existsb flat_map]. exists st. rewrite app_nil_r. now split.
  - replace (N.of_nat (S n)) with (1 + N.of_nat n) in * by lia. rewrite (take_step l i (N.of_nat n) slice_null) in * by lia.
    inversion_clear Hs as [|? ? Hs1 Hs2]. cbn [digest_slices existsb flat_map].
    rewrite (get_ok l i slice_null) by lia. cbn [bind]. set (s := nth (N.to_nat i) l slice_null) in *.
    assert (Step : forall st1, absorbed alg st1 (m ++ slice_bytes s) ->
      exists st', digest_slices alg n (i + 1) (Some l) st1 =
        Ret (if existsb missing (takeN (N.of_nat n) (dropN (i + 1) l)) then unexpected_null_slice_e else ok_e, st') /\
      (existsb missing (takeN (N.of_nat n) (dropN (i + 1) l)) = false ->
       absorbed alg st' (m ++ slice_bytes s ++ flat_map slice_bytes (takeN (N.of_nat n) (dropN (i + 1) l))))).
    { intros st1 H1. rewrite app_assoc. apply IHn; try assumption. lia. }
    destruct (N.eqb_spec (sl_size s) 0) as [Es|Es].
    + assert (Eb : slice_bytes s = []). { unfold slice_bytes. rewrite Es. destruct (sl_buf s); reflexivity. }
      unfold missing at 1 3. rewrite Es. cbn [N.eqb negb]. rewrite andb_false_r. cbn [orb]. apply Step. now rewrite Eb, app_nil_r.
    + unfold missing at 1 3. destruct (N.eqb_spec (sl_size s) 0); [contradiction|]. destruct (sl_buf s) eqn:Eb.
      * cbn [is_none andb orb negb]. destruct (digest_update_ok alg st m s Hs1 Ha) as (st1 & E1 & A1). rewrite E1. cbn [bind]. now apply Step.
      * cbn [is_none andb orb negb]. exists st. split; [reflexivity|discriminate].
Qed.

Lemma digest_lists_ok alg l : forall n i st m, i + N.of_nat n <= len l -> Forall gather_ok (takeN (N.of_nat n) (dropN i l)) ->
  absorbed alg st m ->
  exists st', digest_lists alg n i l st =
      Ret (if existsb missing (flat_map slices (takeN (N.of_nat n) (dropN i l))) then unexpected_null_slice_e else ok_e, st') /\
    (existsb missing (flat_map slices (takeN (N.of_nat n) (dropN i l))) = false ->
     absorbed alg st' (m ++ flat_map gather_bytes (takeN (N.of_nat n) (dropN i l)))).
Proof.
  induction n; intros i st m Hi Hs Ha.
  - cbn [digest_lists N.of_nat]. rewrite takeN_0. cbn [existsb flat_map]. exists st. rewrite app_nil_r. now split.
  - replace (N.of_nat (S n)) with (1 + N.of_nat n) in * by lia. rewrite (take_step l i (N.of_nat n) (mkGather 0 None)) in * by lia.
    inversion_clear Hs as [|? ? [Hc Hs1] Hs2]. cbn [digest_lists existsb flat_map].
    rewrite (get_ok l i (mkGather 0 None)) by lia. cbn [bind]. set (g := nth (N.to_nat i) l (mkGather 0 None)) in *.
    rewrite existsb_app.
    assert (One : exists st1, digest_slices alg (N.to_nat (g_count g)) 0 (g_list g) st =
        Ret (if existsb missing (slices g) then unexpected_null_slice_e else ok_e, st1) /\
        (existsb missing (slices g) = false -> absorbed alg st1 (m ++ gather_bytes g))).
    { unfold gather_bytes, slices in *. destruct (g_list g) as [sl|].
      - rewrite len_takeN in Hc. destruct (digest_slices_ok alg sl (N.to_nat (g_count g)) 0 st m) as (st1 & E1 & A1).
        + lia.
        + now rewrite N2Nat.id, dropN_0.
        + assumption.
        + rewrite N2Nat.id, dropN_0 in E1, A1. eauto.
      - change (len []) with 0 in Hc. replace (g_count g) with 0 by lia. exists st. cbn. rewrite app_nil_r. now split. }
    destruct One as (st1 & E1 & A1). rewrite E1. cbn [bind]. destruct (existsb missing (slices g)); cbn [orb].
    + exists st1. split; [reflexivity|discriminate].
    + rewrite app_assoc. apply IHn; [lia|assumption|now apply A1].
Qed.

Lemma internal_ok state alg ms count out size : digest_pre ms count out size ->
  exists st, n20_digest_internal state alg ms count out size = Ret (digest_report true alg ms count out size, st).
Proof.
  intros (Ho & Hm & Hl). unfold n20_digest_internal, digest_report, digest_errors, report, result. rewrite enum_size.
  unfold required. pose proof (init_ok alg) as Hi. destruct (algorithm alg) as [A|] eqn:EA; cycle 1.
  { rewrite Hi. cbn [negb is_none first_error find fst]. eauto. }
  destruct Hi as (st0 & Ei & Ha). rewrite Ei. cbn [negb is_none].
  destruct size as [size|]; cycle 1. { cbn [first_error find fst is_none]. eauto. }
  cbn [is_none]. unfold too_small. destruct out as [d|]; cycle 1. { rewrite orb_true_r. cbn [first_error find fst is_none orb]. eauto. }
  rewrite orb_false_r. cbn [is_none orb]. destruct (N.ltb_spec size (out_bytes A)). { cbn [first_error find fst]. eauto. }
  destruct ms as [ms|]; cycle 1. { cbn [first_error find fst is_none]. eauto. }
  destruct ms as [|g more]; [contradiction|]. destruct Hm as (Hc & Hg & Hf).
  change (get (g :: more) 0) with (Ret g). cbn [bind head_null_list is_none].
  change (negb (g_count g =? 0) && match g_list g with Some _ => false | None => true end) with (null_list g).
  destruct (null_list g) eqn:En. { cbn [first_error find fst]. eauto. }
  assert (Hg' : gather_ok g).
  { destruct Hg as [?|Hg]; [assumption|]. unfold null_list in En. rewrite Hg in En. cbn [is_none] in En. rewrite andb_true_r in En.
    unfold gather_ok, slices. rewrite Hg. split; [|constructor]. change (len []) with 0. lia. }
  assert (Hall : Forall gather_ok (takeN count (g :: more))).
  { destruct (N.eq_dec count 0) as [->|]; [constructor|]. replace count with (1 + (count - 1)) by lia.
    rewrite <- (dropN_0 (g :: more)), (take_step (g :: more) 0 (count - 1) g) by (rewrite len_cons; lia). constructor; assumption. }
  destruct (digest_lists_ok alg (g :: more) (N.to_nat count) 0 st0 []) as (st1 & E1 & A1).
  { lia. } { now rewrite N2Nat.id, dropN_0. } { assumption. }
  rewrite N2Nat.id, dropN_0 in E1, A1. rewrite E1. cbn [bind has_missing].
  destruct (existsb missing (flat_map slices (takeN count (g :: more)))) eqn:Ex.
  { cbn [first_error find fst]. eauto. }
  cbn [first_error find fst]. cbn [app] in A1. specialize (A1 eq_refl). cbn [out_ok] in Ho.
  destruct (digest_final_ok alg st1 _ d A EA A1 Hl) as (st2 & E2); [lia|]. rewrite E2. cbn [bind message_bytes]. eauto.
Qed.

Theorem digest_ok ctx alg ms count out size : digest_pre ms count out size ->
  n20_digest ctx alg ms count out size = Ret (digest_report ctx alg ms count out size).
Proof.
  intro Hp. unfold n20_digest, n20_digest_locals. destruct ctx.
  - destruct (internal_ok DZero alg ms count out size Hp) as (st & E1). rewrite E1. reflexivity.
  - reflexivity.
Qed.

(** ** hmac *)

Definition meets_digest (f : digest_fn) : Prop := forall alg ms count out size, digest_pre ms count out size ->
  f alg ms count out size = Ret (digest_report true alg ms count out size).

Lemma xor_loop_ok n v K : n <= len K -> xor_loop n v K = Ret (xor_with v (takeN n K) ++ dropN n K).
Proof.
  intro Hn. unfold xor_loop.
  destruct (for_inv (fun i K' => K' = xor_with v (takeN i K) ++ dropN i K)
    (fun i K => do k <- get K i; set K i (n2b (N.lxor (b2n k) v))) 0 n K) as (K' & E1 & E2).
  - lia.
  - now rewrite takeN_0, dropN_0.
  - intros i K' [_ Hi] ->. set (f := fun b => n2b (N.lxor (b2n b) v)).
    assert (Hi' : i < len K) by lia.
    pose proof (take_step K i (len K) x00 Hi') as Hd. rewrite !takeN_all in Hd by (rewrite len_dropN; lia).
    pose proof (takeN_dropN i K) as Ht. 
    assert (Hx : len (xor_with v (takeN i K)) = i). { unfold xor_with. rewrite len_map, len_takeN. lia. }
    rewrite Hd. rewrite (get_ok _ i x00) by (rewrite len_app, len_cons, Hx; lia). cbn [bind].
    assert (Hn1 : nth (N.to_nat i) (xor_with v (takeN i K) ++ nth (N.to_nat i) K x00 :: dropN (i + 1) K) x00 = nth (N.to_nat i) K x00).
    { rewrite app_nth2; rewrite length_len, Hx; [|lia]. now rewrite Nat.sub_diag. }
    rewrite Hn1, set_ok by (rewrite len_app, len_cons, Hx; lia). eexists. split; [reflexivity|].
    rewrite <- Hx at 1. rewrite takeN_app_len. replace (i + 1) with (len (xor_with v (takeN i K)) + 1) at 1 by lia.
    rewrite dropN_app_r by lia. replace (len (xor_with v (takeN i K)) + 1 - len (xor_with v (takeN i K))) with 1 by lia.
    change (dropN 1 (?a :: ?b)) with b.
    assert (Hs : takeN (i + 1) K = takeN i K ++ [nth (N.to_nat i) K x00]).
    { rewrite <- Ht at 1. rewrite takeN_app_r by (rewrite len_takeN; lia). rewrite len_takeN.
      replace (i + 1 - N.min i (len K)) with (1 + 0) by lia. rewrite (take_step K i 0 x00 Hi'), takeN_0. reflexivity. }
    rewrite Hs. unfold xor_with. rewrite map_app. cbn [map]. rewrite <- app_assoc. reflexivity.
  - rewrite E1, E2. reflexivity.
Qed.

Lemma lxor_lt256 a b : a < 256 -> b < 256 -> N.lxor a b < 256.
Proof. change 256 with (2 ^ 8). apply lxor_lt. Qed.
Lemma xor_twice l : xor_with 0x6a (xor_with 0x36 l) = xor_with 0x5c l.
Proof.
  unfold xor_with. rewrite map_map. apply map_ext. intro b. rewrite b2n_n2b_small.
  - rewrite N.lxor_assoc. reflexivity.
  - apply lxor_lt256; [apply b2n_lt|reflexivity].
Qed.

Lemma len_xor v l : len (xor_with v l) = len l.
Proof. apply len_map. Qed.
Lemma len_K0 A key : known A -> len (K0 A key) = block_bytes A.
Proof.
  intro HA. unfold K0. rewrite len_app, len_repeat. destruct (N.leb_spec (len key) (block_bytes A)).
  - lia.
  - rewrite known_len by assumption. pose proof (known_out_block A HA). lia.
Qed.

Lemma K0_take A key : known A ->
  let k := if len key <=? block_bytes A then key else hash A key in
  takeN (block_bytes A) (k ++ repeat x00 (N.to_nat (128 - len k))) = K0 A key /\
  len (k ++ repeat x00 (N.to_nat (128 - len k))) = 128.
Proof.
  intro HA. cbv zeta. unfold K0. set (k := if len key <=? block_bytes A then key else hash A key).
  assert (Hk : len k <= block_bytes A).
  { unfold k. destruct (N.leb_spec (len key) (block_bytes A)); [assumption|]. rewrite known_len by assumption. now apply known_out_block. }
  pose proof (known_block A HA). split.
  - rewrite takeN_app_r by assumption. f_equal. unfold takeN.
    replace (N.to_nat (128 - len k)) with (N.to_nat (block_bytes A - len k) + N.to_nat (128 - block_bytes A))%nat by lia.
    rewrite repeat_app, firstn_app, repeat_length, Nat.sub_diag, firstn_O, app_nil_r.
    apply firstn_all2. rewrite repeat_length. lia.
  - rewrite len_app, len_repeat. lia.
Qed.

Lemma slice_bytes_app n a b : len a = n -> slice_bytes (mkSlice n (Some (a ++ b))) = a.
Proof. intros <-. cbn. apply takeN_app_len. Qed.

Lemma repeat_drop {A} (x : A) n k : dropN n (repeat x k) = repeat x (k - N.to_nat n).
Proof.
  unfold dropN. generalize (N.to_nat n). clear n. intro n. revert k. induction n; intros k; cbn [skipn]; [now rewrite Nat.sub_0_r|].
  destruct k; [reflexivity|]. apply IHn.
Qed.

Lemma memcpy_ok dst s : slice_ok s -> missing s = false -> (sl_buf s = None -> memcpy_null_ok = true) -> sl_size s <= len dst ->
  memcpy dst (sl_buf s) (sl_size s) = Ret (slice_bytes s ++ dropN (len (slice_bytes s)) dst).
Proof.
  intros [_ Hs] Hm Hn Hd. unfold memcpy, missing, slice_bytes in *. destruct (sl_buf s).
  - destruct (N.ltb_spec (len l) (sl_size s)); [lia|]. destruct (N.ltb_spec (len dst) (sl_size s)); [lia|].
    rewrite len_takeN, N.min_l by lia. reflexivity.
  - cbn [is_none andb] in Hm. destruct (sl_size s =? 0); [|discriminate]. rewrite Hn by reflexivity. change (len []) with 0. now rewrite dropN_0.
Qed.

Lemma slice_len s : slice_ok s -> missing s = false -> len (slice_bytes s) = sl_size s.
Proof.
  intros [_ Hs] Hm. unfold missing, slice_bytes in *. destruct (sl_buf s).
  - rewrite len_takeN. lia.
  - cbn [is_none andb] in Hm. destruct (N.eqb_spec (sl_size s) 0); [|discriminate]. cbn. symmetry. assumption.
Qed.

Lemma bytes_slice s : gather_bytes (mkGather 1 (Some [s])) = slice_bytes s.
Proof. unfold gather_bytes, slices. cbn [g_list g_count]. change (takeN 1 [s]) with [s]. cbn [flat_map]. apply app_nil_r. Qed.
Lemma bytes_one g : message_bytes (Some [g]) 1 = gather_bytes g.
Proof. unfold message_bytes. change (takeN 1 [g]) with [g]. cbn [flat_map]. apply app_nil_r. Qed.
Lemma bytes_two g h : message_bytes (Some [g; h]) 2 = gather_bytes g ++ gather_bytes h.
Proof. unfold message_bytes. change (takeN 2 [g; h]) with [g; h]. cbn [flat_map]. now rewrite app_nil_r. Qed.

Lemma null_missing s : null_slice s = missing s.
Proof. unfold null_slice, missing. now destruct (sl_buf s). Qed.

(** A successful digest. *)
Lemma digest_success digest alg A ms count d size : meets_digest digest -> algorithm alg = Some A ->
  digest_pre (Some ms) count (Some d) (Some size) -> out_bytes A <= size -> head_null_list (Some ms) = false ->
  has_missing (Some ms) count = false ->
  digest alg (Some ms) count (Some d) (Some size) =
    Ret (ok_e, Some (hash A (message_bytes (Some ms) count) ++ dropN (out_bytes A) d), Some (out_bytes A)).
Proof.
  intros Hf HA Hp Hs H1 H2. rewrite Hf by assumption. unfold digest_report, digest_errors, report, result, required. rewrite HA.
  unfold too_small. destruct (N.ltb_spec size (out_bytes A)); [lia|].
  cbn [is_none negb orb]. rewrite H1, H2. reflexivity.
Qed.

Lemma digest_missing digest alg A ms count d size : meets_digest digest -> algorithm alg = Some A ->
  digest_pre (Some ms) count (Some d) (Some size) -> out_bytes A <= size -> head_null_list (Some ms) = false ->
  has_missing (Some ms) count = true ->
  digest alg (Some ms) count (Some d) (Some size) = Ret (unexpected_null_slice_e, Some d, Some size).
Proof.
  intros Hf HA Hp Hs H1 H2. rewrite Hf by assumption. unfold digest_report, digest_errors, report, result, required. rewrite HA.
  unfold too_small. destruct (N.ltb_spec size (out_bytes A)); [lia|].
  cbn [is_none negb orb]. rewrite H1, H2. reflexivity.
Qed.

Lemma hmac_internal_ok digest alg key m out size : meets_digest digest -> hmac_pre key m out size ->
  exists K inner, n20_hmac_internal digest (repeat x00 128) (repeat x00 64) alg key m out size =
    Ret (hmac_report true alg key m out size, (K, inner)).
Proof.
  intros Hf ((Hk1 & Hk2 & Hk3) & Ho & Hm & Hl). change (2 ^ 61) with 2305843009213693952 in *.
  unfold n20_hmac_internal, hmac_report, hmac_errors, report, result. rewrite enum_size, required_0, block_size.
  unfold required. destruct (algorithm alg) as [A|] eqn:EA; cycle 1. { cbn [is_none negb first_error find fst]. eauto. }
  pose proof (algorithm_known alg A EA) as HA. cbn [is_none negb option_map].
  destruct size as [size|]; cycle 1. { cbn [is_none first_error find fst]. eauto. }
  change (match sl_buf key with Some _ => false | None => negb (sl_size key =? 0) end) with (null_slice key). rewrite null_missing.
  cbn [is_none]. destruct (missing key) eqn:Emk. { cbn [first_error find fst]. eauto. }
  unfold too_small. destruct out as [d|]; cycle 1. { cbn [first_error find fst is_none orb]. eauto. }
  cbn [is_none orb]. destruct (N.ltb_spec size (out_bytes A)) as [|Hsz]. { cbn [first_error find fst]. eauto. }
  cbn [out_ok] in Ho. pose proof (known_out A HA) as Hout. pose proof (known_block A HA) as Hblk.
  set (k := if len (slice_bytes key) <=? block_bytes A then slice_bytes key else hash A (slice_bytes key)).
  (* the key block *)
  match goal with |- context [bind ?e _] => replace e with (Ret (ok_e, k ++ repeat x00 (N.to_nat (128 - len k)), out_bytes A)) end; cycle 1.
  { symmetry. pose proof (slice_len key Hk1 Emk) as Hkl. unfold k. rewrite Hkl.
    destruct (N.ltb_spec (block_bytes A) (sl_size key)) as [Hlong|Hshort]; destruct (N.leb_spec (sl_size key) (block_bytes A)); try lia.
    - assert (Hmsg : message_bytes (Some [mkGather 1 (Some [key])]) 1 = slice_bytes key).
      { now rewrite bytes_one, bytes_slice. }
      rewrite (digest_success digest alg A) ; [rewrite Hmsg|assumption..| | | |].
      + cbn [bind local_after size_after]. rewrite repeat_drop, known_len by assumption. repeat f_equal. lia.
      + unfold digest_pre. rewrite Hmsg. splits.
        * cbn [out_ok]. rewrite len_repeat. lia.
        * reflexivity || discriminate.
        * left. split; [discriminate|]. repeat constructor; apply Hk1.
        * constructor.
        * assumption.
      + lia.
      + reflexivity.
      + change (missing key || false = false). now rewrite Emk.
    - rewrite memcpy_ok; try assumption; [|rewrite len_repeat; lia]. cbn [bind]. rewrite repeat_drop, Hkl. repeat f_equal. lia. }
  cbn [bind]. destruct (K0_take A (slice_bytes key) HA) as [HK HKl]. fold k in HK, HKl.
  rewrite xor_loop_ok by lia. cbn [bind]. rewrite HK.
  destruct m as [g|]; cycle 1. { cbn [is_none first_error find fst]. eauto. }
  change (negb (g_count g =? 0) && match g_list g with Some _ => false | None => true end) with (null_list g).
  cbn [is_none one head_null_list]. destruct (null_list g) eqn:En. { cbn [first_error find fst]. eauto. }
  assert (Hg' : gather_ok g).
  { destruct Hm as [?|Hg]; [assumption|]. unfold null_list in En. rewrite Hg in En. cbn [is_none] in En. rewrite andb_true_r in En.
    unfold gather_ok, slices. rewrite Hg. split; [|constructor]. change (len []) with 0. lia. }
  set (rest := dropN (block_bytes A) (k ++ repeat x00 (N.to_nat (128 - len k)))) in *.
  set (ipad := xor_with 0x36 (K0 A (slice_bytes key))).
  assert (Hip : len ipad = block_bytes A). { unfold ipad. rewrite len_xor. now apply len_K0. }
  assert (Hrest : block_bytes A + len rest = 128). { unfold rest. rewrite len_dropN. lia. }
  set (pad1 := mkSlice (block_bytes A) (Some (ipad ++ rest))).
  assert (SZl : block_bytes A < SZ). { pose proof SZ_lo. lia. }
  assert (Hpad1 : gather_ok (mkGather 1 (Some [pad1]))).
  { split; [discriminate|]. repeat constructor; cbn; [assumption|]. rewrite len_app. lia. }
  assert (Hb1 : message_bytes (Some [mkGather 1 (Some [pad1]); g]) 2 = ipad ++ message_bytes (Some [g]) 1).
  { rewrite bytes_two, bytes_one, bytes_slice. unfold pad1. now rewrite slice_bytes_app by assumption. }
  assert (Hpre1 : digest_pre (Some [mkGather 1 (Some [pad1]); g]) 2 (Some (repeat x00 64)) (Some (out_bytes A))).
  { unfold digest_pre. rewrite Hb1. splits.
    - cbn [out_ok]. rewrite len_repeat. lia.
    - discriminate.
    - now left.
    - constructor; [assumption|constructor].
    - cbn [one] in Hl. rewrite len_app. change (2 ^ 61) with 2305843009213693952. lia. }
  assert (Hmiss : has_missing (Some [mkGather 1 (Some [pad1]); g]) 2 = has_missing (Some [g]) 1) by reflexivity.
  pose proof (N.le_refl (out_bytes A)) as Hrefl.
  destruct (has_missing (Some [g]) 1) eqn:Em.
  { rewrite (digest_missing digest alg A) by (assumption || reflexivity). cbn [bind first_error find fst]. eauto. }
  rewrite (digest_success digest alg A) by (assumption || reflexivity). rewrite Hb1. cbn [bind local_after size_after].
  rewrite xor_loop_ok by (rewrite len_app; lia). cbn [bind].
  assert (Htake : takeN (block_bytes A) (ipad ++ rest) = ipad) by (rewrite <- Hip; apply takeN_app_len).
  assert (Hdrop : dropN (block_bytes A) (ipad ++ rest) = rest) by (rewrite <- Hip; apply dropN_app_len).
  rewrite Htake, Hdrop. change (xor_with 0x6a ipad) with (xor_with 0x6a (xor_with 0x36 (K0 A (slice_bytes key)))). rewrite xor_twice.
  set (opad := xor_with 0x5c (K0 A (slice_bytes key))).
  assert (Hop : len opad = block_bytes A). { unfold opad. rewrite len_xor. now apply len_K0. }
  set (pad2 := mkSlice (block_bytes A) (Some (opad ++ rest))).
  set (inner := hash A (ipad ++ message_bytes (Some [g]) 1)).
  assert (Hin : len inner = out_bytes A) by now apply known_len.
  set (in2 := mkSlice (out_bytes A) (Some (inner ++ dropN (out_bytes A) (repeat x00 64)))).
  assert (Hb2 : message_bytes (Some [mkGather 1 (Some [pad2]); mkGather 1 (Some [in2])]) 2 = opad ++ inner).
  { rewrite bytes_two, !bytes_slice. unfold pad2, in2. now rewrite !slice_bytes_app by assumption. }
  rewrite (digest_success digest alg A); try assumption; try reflexivity.
  - rewrite Hb2. cbn [bind first_error find fst]. eexists _, _. reflexivity.
  - unfold digest_pre. rewrite Hb2. splits.
    + exact Ho.
    + discriminate.
    + left. split; [discriminate|]. repeat constructor; cbn; [assumption|]. rewrite len_app. lia.
    + constructor; [|constructor]. split; [discriminate|]. constructor; [|constructor]. split.
      * cbn [sl_size in2]. pose proof SZ_lo. lia.
      * cbn [sl_size sl_buf in2]. rewrite len_app. lia.
    + rewrite len_app. change (2 ^ 61) with 2305843009213693952. lia.
Qed.

Theorem hmac_ok ctx alg key m out size : match ctx with None => True | Some f => meets_digest f end -> hmac_pre key m out size ->
  n20_hmac ctx alg key m out size = Ret (hmac_report (negb (is_none ctx)) alg key m out size).
Proof.
  intros Hc Hp. unfold n20_hmac, n20_hmac_locals. destruct ctx as [f|]; [|reflexivity].
  destruct (hmac_internal_ok f alg key m out size Hc Hp) as (K & inner & E1). rewrite E1. reflexivity.
Qed.

(** ** hkdf *)

Definition meets_hmac (f : hmac_fn) : Prop := forall alg key m out size, hmac_pre key m out size ->
  f alg key m out size = Ret (hmac_report true alg key m out size).

Lemma HMAC_len A k m : known A -> len (HMAC A k m) = out_bytes A.
Proof. intro HA. unfold HMAC. now apply known_len. Qed.

Lemma hmac_success hmac alg A key g d size : meets_hmac hmac -> algorithm alg = Some A ->
  hmac_pre key (Some g) (Some d) (Some size) -> out_bytes A <= size -> missing key = false -> null_list g = false ->
  has_missing (Some [g]) 1 = false ->
  hmac alg key (Some g) (Some d) (Some size) =
    Ret (ok_e, Some (HMAC A (slice_bytes key) (gather_bytes g) ++ dropN (out_bytes A) d), Some (out_bytes A)).
Proof.
  intros Hf HA Hp Hs H1 H2 H3. rewrite Hf by assumption. unfold hmac_report, hmac_errors, report, result, required. rewrite HA.
  unfold too_small. destruct (N.ltb_spec size (out_bytes A)); [lia|].
  cbn [is_none negb orb one head_null_list]. rewrite H1, H2, H3, bytes_one. reflexivity.
Qed.

Theorem extract_ok ctx alg ikm salt out size : match ctx with None => True | Some f => meets_hmac f end ->
  extract_pre ikm salt out size ->
  n20_hkdf_extract ctx alg ikm salt out size = Ret (extract_report (negb (is_none ctx)) alg ikm salt out size).
Proof.
  intros Hc (Hk & Hi & Hl & Ho). unfold n20_hkdf_extract. destruct ctx as [f|]; [|reflexivity].
  unfold extract_report, extract_errors, report, result. rewrite enum_size, required_0, !null_missing.
  unfold required. destruct (algorithm alg) as [A|] eqn:EA; [|reflexivity]. cbn [is_none negb].
  destruct (missing ikm) eqn:E1; [reflexivity|]. destruct (missing salt) eqn:E2; [reflexivity|].
  destruct size as [size|]; [|reflexivity]. unfold too_small. destruct out as [d|]; cycle 1. { rewrite orb_true_r. reflexivity. }
  rewrite orb_false_r. cbn [is_none orb]. destruct (N.ltb_spec size (out_bytes A)); [reflexivity|].
  rewrite (hmac_success f alg A); try assumption.
  - rewrite bytes_slice. reflexivity.
  - unfold hmac_pre. cbn [one]. rewrite bytes_one, bytes_slice. splits; try assumption.
    left. split; [discriminate|]. constructor; [assumption|constructor].
  - reflexivity.
  - change (missing ikm || false = false). now rewrite E1.
Qed.

Lemma T_len A prk info j : known A -> len (T A prk info j) <= 64.
Proof. intro HA. destruct j; cbn [T]; [discriminate|]. rewrite HMAC_len by assumption. apply known_out. assumption. Qed.
Lemma T_blocks_len A prk info q : known A -> forall j, len (flat_map (T A prk info) (seq (S j) q)) = N.of_nat q * out_bytes A.
Proof.
  intro HA. induction q; intro j; [reflexivity|]. cbn [seq flat_map]. rewrite len_app, IHq. cbn [T]. rewrite HMAC_len by assumption. lia.
Qed.

(** The message of block [j + 1]. *)
Lemma block_message A prk info prev j : slice_ok info -> slice_ok prev -> missing info = false -> missing prev = false ->
  slice_bytes prev = T A prk (slice_bytes info) j ->
  let g := mkGather 3 (Some [prev; info; mkSlice 1 (Some [n2b (wrap8 (1 + N.of_nat j))])]) in
  gather_ok g /\ null_list g = false /\ has_missing (Some [g]) 1 = false /\
  HMAC A prk (gather_bytes g) = T A prk (slice_bytes info) (S j).
Proof.
  intros Hi Hp Mi Mp Hb. cbv zeta. splits.
  - split; [discriminate|]. constructor; [assumption|]. constructor; [assumption|]. constructor; [|constructor]. split; [|discriminate].
    cbn [sl_size]. pose proof SZ_lo. lia.
  - reflexivity.
  - change (missing prev || (missing info || (false || false)) = false). now rewrite Mi, Mp.
  - cbn [T]. f_equal. unfold gather_bytes, slices. cbn [g_list g_count].
    change (takeN 3 [?a; ?b; ?c]) with [a; b; c]. cbn [flat_map].
    rewrite Hb. change (slice_bytes (mkSlice 1 (Some [?x]))) with [x]. rewrite app_nil_r. do 3 f_equal.
    unfold wrap8. rewrite n2b_mod. f_equal. lia.
Qed.

Lemma expand_loop_ok hmac alg A prk info : meets_hmac hmac -> algorithm alg = Some A -> key_ok prk -> slice_ok info ->
  193 + len (slice_bytes info) < 2 ^ 61 -> missing prk = false -> missing info = false ->
  forall fuel j ko prev done rest, (N.to_nat ko < fuel)%nat -> ko <= len rest -> ko < SZ -> slice_ok prev -> missing prev = false ->
  slice_bytes prev = T A (slice_bytes prk) (slice_bytes info) j ->
  exists q prev', expand_loop hmac fuel alg prk info prev (wrap8 (1 + N.of_nat j)) (out_bytes A) ko done rest =
      Ret (prev', wrap8 (1 + N.of_nat (j + q)), out_bytes A, ko - N.of_nat q * out_bytes A,
           done ++ flat_map (T A (slice_bytes prk) (slice_bytes info)) (seq (S j) q), dropN (N.of_nat q * out_bytes A) rest) /\
    N.of_nat q * out_bytes A <= ko < N.of_nat q * out_bytes A + out_bytes A /\ slice_ok prev' /\ missing prev' = false /\
    slice_bytes prev' = T A (slice_bytes prk) (slice_bytes info) (j + q).
Proof.
  intros Hf HA Hk Hi Hl Mk Mi. pose proof (algorithm_known alg A HA) as Hkn. pose proof (known_out A Hkn) as Hout.
  induction fuel; intros j ko prev done rest Hfu Hr Hz Hp Mp Hb; [lia|]. cbn [expand_loop].
  destruct (N.leb_spec (out_bytes A) ko) as [Hge|Hlt]; cycle 1.
  { exists O, prev. cbn [N.of_nat seq flat_map]. rewrite N.mul_0_l, N.sub_0_r, dropN_0, app_nil_r, !Nat.add_0_r.
    splits; try assumption; try lia. reflexivity. }
  destruct (block_message A (slice_bytes prk) info prev j Hi Hp Mi Mp Hb) as (G1 & G2 & G3 & G4).
  rewrite (hmac_success hmac alg A); try assumption; [|split; [assumption|] | lia]; cycle 1.
  { splits.
    - cbn [out_ok]. lia.
    - now left.
    - cbn [one]. rewrite bytes_one. unfold gather_bytes, slices. cbn [g_list g_count]. change (takeN 3 [?a; ?b; ?c]) with [a; b; c].
      cbn [flat_map]. rewrite app_nil_r, !len_app, Hb. change (slice_bytes (mkSlice 1 (Some [?x]))) with [x]. change (len [?x]) with 1.
      pose proof (T_len A (slice_bytes prk) (slice_bytes info) j Hkn). lia. }
  rewrite G4. cbn [bind local_after size_after]. set (t := T A (slice_bytes prk) (slice_bytes info) (S j)) in *.
  assert (Ht : len t = out_bytes A). { unfold t. cbn [T]. now rewrite HMAC_len. }
  rewrite len_app, Ht, len_dropN. destruct (N.ltb_spec (out_bytes A + (len rest - out_bytes A)) (out_bytes A)); [lia|].
  assert (E1 : takeN (out_bytes A) (t ++ dropN (out_bytes A) rest) = t). { rewrite <- Ht. apply takeN_app_len. }
  assert (E2 : dropN (out_bytes A) (t ++ dropN (out_bytes A) rest) = dropN (out_bytes A) rest). { rewrite <- Ht at 1. apply dropN_app_len. }
  rewrite E1, E2, sub_sz_le by lia.
  replace (wrap8 (wrap8 (1 + N.of_nat j) + 1)) with (wrap8 (1 + N.of_nat (S j))); cycle 1.
  { unfold wrap8. rewrite N.add_mod_idemp_l by lia. f_equal. lia. }
  destruct (IHfuel (S j) (ko - out_bytes A) (mkSlice (out_bytes A) (Some (t ++ dropN (out_bytes A) rest))) (done ++ t) (dropN (out_bytes A) rest))
    as (q & prev' & E3 & H1 & H2 & H3 & H4).
  - lia.
  - rewrite len_dropN. lia.
  - lia.
  - split; cbn [sl_size sl_buf]; [pose proof SZ_lo; lia|]. rewrite len_app. lia.
  - reflexivity.
  - now apply slice_bytes_app.
  - exists (S q), prev'. rewrite E3, dropN_dropN, <- app_assoc. cbn [seq flat_map]. fold t.
    replace (N.of_nat (S q) * out_bytes A) with (N.of_nat q * out_bytes A + out_bytes A) by lia.
    replace (ko - (N.of_nat q * out_bytes A + out_bytes A)) with (ko - out_bytes A - N.of_nat q * out_bytes A) by lia.
    replace (j + S q)%nat with (S j + q)%nat by lia. splits; try assumption; try reflexivity; lia.
Qed.

Theorem expand_locals_ok ctx alg prk info Lk out : match ctx with None => True | Some f => meets_hmac f end ->
  expand_pre prk info Lk out ->
  exists T, n20_hkdf_expand_locals ctx alg prk info Lk out = Ret (expand_report (negb (is_none ctx)) alg prk info Lk out, T).
Proof.
  intros Hc (Hk & Hi & Hl & (HL & Ho)). unfold n20_hkdf_expand_locals. destruct ctx as [f|]; cycle 1.
  { eexists. reflexivity. }
  unfold expand_report, expand_errors, report_key, report, result. rewrite enum_size, required_0, !null_missing.
  unfold required. destruct (algorithm alg) as [A|] eqn:EA; [|eexists; reflexivity]. cbn [is_none negb].
  destruct (missing prk) eqn:E1; [eexists; reflexivity|]. destruct (missing info) eqn:E2; [eexists; reflexivity|].
  pose proof (algorithm_known alg A EA) as Hkn. pose proof (known_out A Hkn) as Hout.
  destruct (N.eqb_spec Lk 0) as [->|Hnz].
  { cbn [negb]. rewrite andb_false_r. cbn [first_error find fst]. unfold HKDF_expand. rewrite takeN_0. destruct out; [|eexists; reflexivity].
    cbn [app]. rewrite dropN_0. eexists. reflexivity. }
  cbn [negb]. rewrite andb_true_r. destruct out as [d|]; [|eexists; reflexivity]. cbn [is_none first_error find fst].
  destruct (expand_loop_ok f alg A prk info Hc EA Hk Hi Hl E1 E2 (S (N.to_nat Lk)) 0 Lk slice_null [] d) as
    (q & prev & E3 & H1 & H2 & H3 & H4); try assumption; try reflexivity; try lia.
  { split; [cbn; lia|exact I]. }
  change (wrap8 (1 + N.of_nat 0)) with 1 in E3. rewrite E3. cbn [bind app Nat.add] in *.
  set (TT := T A (slice_bytes prk) (slice_bytes info)) in *.
  assert (Hfl : len (flat_map TT (seq 1 q)) = N.of_nat q * out_bytes A) by (apply T_blocks_len; assumption).
  unfold HKDF_expand. fold TT. destruct (N.ltb_spec 0 (Lk - N.of_nat q * out_bytes A)) as [Hr|Hr].
  - destruct (block_message A (slice_bytes prk) info prev q Hi H2 E2 H3 H4) as (G1 & G2 & G3 & G4).
    rewrite (hmac_success f alg A); try assumption; [|split; [assumption|] | lia]; cycle 1.
    { splits.
      - cbn [out_ok]. rewrite len_repeat. lia.
      - now left.
      - cbn [one]. rewrite bytes_one. unfold gather_bytes, slices. cbn [g_list g_count]. change (takeN 3 [?a; ?b; ?c]) with [a; b; c].
        cbn [flat_map]. rewrite app_nil_r, !len_app, H4. change (slice_bytes (mkSlice 1 (Some [?x]))) with [x]. change (len [?x]) with 1.
        pose proof (T_len A (slice_bytes prk) (slice_bytes info) q Hkn). unfold TT. lia. }
    rewrite G4. cbn [bind local_after]. fold TT.
    assert (Ht : len (TT (S q)) = out_bytes A). { unfold TT. cbn [T]. now rewrite HMAC_len. }
    unfold memcpy. rewrite len_app, Ht, !len_dropN, len_repeat.
    match goal with |- context [if ?a <? ?b then Undef UBReadOob else _] => destruct (N.ltb_spec a b); [lia|] end.
    match goal with |- context [if ?a <? ?b then Undef UBWriteOob else _] => destruct (N.ltb_spec a b); [lia|] end.
    cbn [bind]. rewrite takeN_app_l by lia. rewrite dropN_dropN, app_assoc. eexists. repeat f_equal.
    + assert (Hbl : blocks A Lk = N.of_nat (S q)).
      { unfold blocks. symmetry. apply (N.div_unique _ _ _ (Lk - N.of_nat q * out_bytes A - 1)); nia. }
      rewrite Hbl, Nat2N.id, seq_S, flat_map_app. cbn [flat_map Nat.add]. rewrite app_nil_r, takeN_app_r by lia. now rewrite Hfl.
    + lia.
  - assert (HLq : Lk = N.of_nat q * out_bytes A) by lia.
    assert (Hbl : blocks A Lk = N.of_nat q).
    { unfold blocks. symmetry. apply (N.div_unique _ _ _ (out_bytes A - 1)); nia. }
    eexists. rewrite Hbl, Nat2N.id, takeN_all by (rewrite Hfl; lia). rewrite <- HLq. reflexivity.
Qed.

Theorem expand_ok ctx alg prk info Lk out : match ctx with None => True | Some f => meets_hmac f end ->
  expand_pre prk info Lk out ->
  n20_hkdf_expand ctx alg prk info Lk out = Ret (expand_report (negb (is_none ctx)) alg prk info Lk out).
Proof.
  intros Hc Hp. unfold n20_hkdf_expand. destruct (expand_locals_ok ctx alg prk info Lk out Hc Hp) as (T & ->). cbn [bind].
  now destruct (expand_report _ _ _ _ _ _).
Qed.

Definition meets_extract (f : extract_fn) : Prop := forall alg ikm salt out size, extract_pre ikm salt out size ->
  f alg ikm salt out size = Ret (extract_report true alg ikm salt out size).
Definition meets_expand (f : expand_fn) : Prop := forall alg prk info Lk out, expand_pre prk info Lk out ->
  f alg prk info Lk out = Ret (expand_report true alg prk info Lk out).

Theorem hkdf_locals_ok ctx alg ikm salt info Lk out : match ctx with None => True | Some (f, g) => meets_extract f /\ meets_expand g end ->
  hkdf_pre ikm salt info Lk out ->
  exists prk, n20_hkdf_locals ctx alg ikm salt info Lk out = Ret (hkdf_report (negb (is_none ctx)) alg ikm salt info Lk out, prk).
Proof.
  intros Hc (Hk & Hi & Hl & Hn & Hm & Ho). unfold n20_hkdf_locals. destruct ctx as [[f g]|]; cycle 1. { eexists. reflexivity. }
  destruct Hc as [Hf Hg].
  unfold hkdf_report, hkdf_errors, report_key, report, result. rewrite enum_size, required_0, !null_missing.
  unfold required. destruct (algorithm alg) as [A|] eqn:EA; [|eexists; reflexivity]. cbn [is_none negb].
  destruct (missing ikm) eqn:E1; [eexists; reflexivity|]. destruct (missing salt) eqn:E2; [eexists; reflexivity|].
  destruct (missing info) eqn:E3; [eexists; reflexivity|].
  pose proof (algorithm_known alg A EA) as Hkn. pose proof (known_out A Hkn) as Hout.
  rewrite Hf; cycle 1.
  { unfold extract_pre. splits; try assumption; try apply Hk. cbn [out_ok]. rewrite len_repeat. lia. }
  unfold extract_report, extract_errors, report, result, required. rewrite EA, E1, E2. unfold too_small. rewrite N.ltb_irrefl.
  cbn [is_none negb orb first_error find fst bind local_after size_after].
  set (prk := HKDF_extract A (slice_bytes salt) (slice_bytes ikm)).
  assert (Hp : len prk = out_bytes A) by (apply HMAC_len; assumption).
  set (sp := mkSlice (out_bytes A) (Some (prk ++ dropN (out_bytes A) (repeat x00 64)))).
  assert (Hsp : slice_bytes sp = prk) by now apply slice_bytes_app.
  rewrite Hg; cycle 1.
  { unfold expand_pre, key_ok. rewrite Hsp. splits; try assumption.
    - split; cbn [sp sl_size sl_buf]; [pose proof SZ_lo; lia|]. rewrite len_app. lia.
    - change (2 ^ 61) with 2305843009213693952. lia.
    - discriminate. }
  unfold expand_report, expand_errors, report_key, report, result. rewrite EA, E3, Hsp. change (missing sp) with false.
  cbn [is_none negb first_error find fst bind].
  destruct (is_none out && negb (Lk =? 0)); [eexists; reflexivity|]. cbn [bind]. eexists. reflexivity.
Qed.

Theorem hkdf_ok ctx alg ikm salt info Lk out : match ctx with None => True | Some (f, g) => meets_extract f /\ meets_expand g end ->
  hkdf_pre ikm salt info Lk out ->
  n20_hkdf ctx alg ikm salt info Lk out = Ret (hkdf_report (negb (is_none ctx)) alg ikm salt info Lk out).
Proof.
  intros Hc Hp. unfold n20_hkdf. destruct (hkdf_locals_ok ctx alg ikm salt info Lk out Hc Hp) as (T & ->). cbn [bind].
  now destruct (hkdf_report _ _ _ _ _ _ _).
Qed.

End Proofs.
