(** The model of sha256.c computes the FIPS 180-4 compression, padding and digest. (Sha256Proofs.v and Sha512Proofs.v are the same
    argument with different constants.) *)
From Coq Require Import List NArith ZArith Bool Strings.Byte Lia.
From Coq Require Import ZifyBool ZifyNat ZifyN.
From Verif Require Import Base BaseFacts Res SpecDigits DigitsFacts SpecSha2 ShaFacts Sha256.
Import ListNotations.
Open Scope N_scope.

Section WithEnv.
Context `{Env}.
Variables (h0 : list N) (outn : N).
Let A := with32 h0 outn.
Notation M := 4294967296.
Notation word := (fun x => x < M).

Lemma modulus256 : modulus A = M.
Proof. reflexivity. Qed.
Lemma wbits256 : wbits A = 32.
Proof. reflexivity. Qed.
Lemma consts256 : consts A = K_256.
Proof. reflexivity. Qed.
Lemma word_pow256 : 256 ^ 4 = M.
Proof. reflexivity. Qed.

Lemma rotr256_eq x n : x < M -> n <= 32 -> rotr256 x n = ROTR A n x.
Proof. intros Hx Hn. unfold rotr256, wrap32. change 32 with (wbits A) in *. apply rotr_eq; assumption. Qed.
Lemma SIGMA0_256_eq x : x < M -> SIGMA0_256 x = rot3 A (Sig0 A) x.
Proof. intro Hx. unfold SIGMA0_256. rewrite !rotr256_eq by (assumption || lia). reflexivity. Qed.
Lemma SIGMA1_256_eq x : x < M -> SIGMA1_256 x = rot3 A (Sig1 A) x.
Proof. intro Hx. unfold SIGMA1_256. rewrite !rotr256_eq by (assumption || lia). reflexivity. Qed.
Lemma sigma0_256_eq x : x < M -> sigma0_256 x = rot2shr A (sig0 A) x.
Proof. intro Hx. unfold sigma0_256. rewrite !rotr256_eq, N.shiftr_div_pow2 by (assumption || lia). reflexivity. Qed.
Lemma sigma1_256_eq x : x < M -> sigma1_256 x = rot2shr A (sig1 A) x.
Proof. intro Hx. unfold sigma1_256. rewrite !rotr256_eq, N.shiftr_div_pow2 by (assumption || lia). reflexivity. Qed.

Lemma R_INDEX256_eq j x : j < 256 -> x < 8 -> R_INDEX256 j x = (x + 8 - j mod 8) mod 8.
Proof.
  intros Hj Hx. unfold R_INDEX256. change 7 with (N.ones 3). rewrite N.land_ones. change (2 ^ 3) with 8.
  unfold wrap_sz, sub_sz. with_strategy transparent [SZ] (unfold SZ). destruct size_width; lia.
Qed.
Lemma W_INDEX256_eq j : W_INDEX256 j = j mod 16.
Proof. unfold W_INDEX256. change 15 with (N.ones 4). apply N.land_ones. Qed.

(** The registers a..h at the start of round [j]. *)
Definition view256 (R : list N) (j : N) : regs :=
  let r x := nth (N.to_nat (R_INDEX256 j x)) R 0 in (r 0, r 1, r 2, r 3, r 4, r 5, r 6, r 7).

Lemma list8 {T} (R : list T) : len R = 8 -> exists a b c d e f g h, R = [a; b; c; d; e; f; g; h].
Proof.
  unfold len. intro Hl. assert (L : length R = 8%nat) by lia. clear Hl.
  do 8 (destruct R as [|? R]; [discriminate|]). destruct R; [repeat eexists|discriminate].
Qed.

Lemma set8_0 {T} (r0 r1 r2 r3 r4 r5 r6 r7 x : T) : set [r0; r1; r2; r3; r4; r5; r6; r7] 0 x = Ret [x; r1; r2; r3; r4; r5; r6; r7].
Proof. reflexivity. Qed.
Lemma set8_1 {T} (r0 r1 r2 r3 r4 r5 r6 r7 x : T) : set [r0; r1; r2; r3; r4; r5; r6; r7] 1 x = Ret [r0; x; r2; r3; r4; r5; r6; r7].
Proof. reflexivity. Qed.
Lemma set8_2 {T} (r0 r1 r2 r3 r4 r5 r6 r7 x : T) : set [r0; r1; r2; r3; r4; r5; r6; r7] 2 x = Ret [r0; r1; x; r3; r4; r5; r6; r7].
Proof. reflexivity. Qed.
Lemma set8_3 {T} (r0 r1 r2 r3 r4 r5 r6 r7 x : T) : set [r0; r1; r2; r3; r4; r5; r6; r7] 3 x = Ret [r0; r1; r2; x; r4; r5; r6; r7].
Proof. reflexivity. Qed.
Lemma set8_4 {T} (r0 r1 r2 r3 r4 r5 r6 r7 x : T) : set [r0; r1; r2; r3; r4; r5; r6; r7] 4 x = Ret [r0; r1; r2; r3; x; r5; r6; r7].
Proof. reflexivity. Qed.
Lemma set8_5 {T} (r0 r1 r2 r3 r4 r5 r6 r7 x : T) : set [r0; r1; r2; r3; r4; r5; r6; r7] 5 x = Ret [r0; r1; r2; r3; r4; x; r6; r7].
Proof. reflexivity. Qed.
Lemma set8_6 {T} (r0 r1 r2 r3 r4 r5 r6 r7 x : T) : set [r0; r1; r2; r3; r4; r5; r6; r7] 6 x = Ret [r0; r1; r2; r3; r4; r5; x; r7].
Proof. reflexivity. Qed.
Lemma set8_7 {T} (r0 r1 r2 r3 r4 r5 r6 r7 x : T) : set [r0; r1; r2; r3; r4; r5; r6; r7] 7 x = Ret [r0; r1; r2; r3; r4; r5; r6; x].
Proof. reflexivity. Qed.

Lemma madd x y : wrap32 (wrap32 x + y) = wrap32 (x + y).
Proof. unfold wrap32. now rewrite N.add_mod_idemp_l by discriminate. Qed.
Lemma wadd256 a b c d e f g :
  wrap32 (wrap32 (wrap32 (wrap32 (wrap32 (wrap32 (a + b) + c) + d) + e) + f) + g) = (b + c + d + e + a + (f + g)) mod M.
Proof. repeat (rewrite madd; rewrite <- ?N.add_assoc). unfold wrap32. f_equal. lia. Qed.
Lemma wadd'256 a b c d e f :
  wrap32 (f + wrap32 (wrap32 (wrap32 (wrap32 (a + b) + c) + d) + e)) = (f + (b + c + d + e + a)) mod M.
Proof. rewrite N.add_comm. repeat (rewrite madd; rewrite <- ?N.add_assoc). unfold wrap32. f_equal. lia. Qed.

Lemma round256_ok j t1 R : j < 64 -> len R = 8 -> Forall word R ->
  exists R' t', sha256_round j t1 R = Ret (R', t') /\ len R' = 8 /\ Forall word R' /\
    view256 R' (j + 1) = round A (view256 R j) (nth (N.to_nat j) K_256 0, t1).
Proof.
  intros Hj Hl Hf. destruct (list8 R Hl) as (r0 & r1 & r2 & r3 & r4 & r5 & r6 & r7 & ->).
  rewrite Forall_forall in Hf.
  assert (B0 : r0 < M) by (apply Hf; cbn; tauto). assert (B1 : r1 < M) by (apply Hf; cbn; tauto).
  assert (B2 : r2 < M) by (apply Hf; cbn; tauto). assert (B3 : r3 < M) by (apply Hf; cbn; tauto).
  assert (B4 : r4 < M) by (apply Hf; cbn; tauto). assert (B5 : r5 < M) by (apply Hf; cbn; tauto).
  assert (B6 : r6 < M) by (apply Hf; cbn; tauto). assert (B7 : r7 < M) by (apply Hf; cbn; tauto). clear Hl Hf.
  assert (Hq : j mod 8 < 8) by (apply N.mod_lt; discriminate).
  assert (Hn : (j + 1) mod 8 = (j mod 8 + 1) mod 8) by (rewrite N.add_mod_idemp_l; [reflexivity|discriminate]).
  unfold sha256_round, view256. rewrite (get_ok K_256 j 0) by exact Hj. generalize (nth (N.to_nat j) K_256 0) as kj. intro kj.
  rewrite !R_INDEX256_eq by lia. rewrite Hn. clear Hn. generalize dependent (j mod 8). clear j Hj. intros q Hq.
  assert (E : q = 0 \/ q = 1 \/ q = 2 \/ q = 3 \/ q = 4 \/ q = 5 \/ q = 6 \/ q = 7) by lia. clear Hq.
  repeat (destruct E as [->|E]); [..|subst q];
  repeat match goal with |- context [(?a + 8 - ?b) mod 8] =>
    let v := eval vm_compute in ((a + 8 - b) mod 8) in change ((a + 8 - b) mod 8) with v end;
  repeat (match goal with
    | |- context [get ?l ?i] => let v := eval cbv [get nth_error N.to_nat Pos.to_nat Pos.iter_op Init.Nat.add] in (get l i) in change (get l i) with v
    | |- _ => first [rewrite set8_0 | rewrite set8_1 | rewrite set8_2 | rewrite set8_3 | rewrite set8_4 | rewrite set8_5 | rewrite set8_6 | rewrite set8_7]
    end; cbn [bind app]);
  (do 2 eexists; split; [reflexivity|]);
  repeat match goal with |- context [N.to_nat ?c] => let v := eval vm_compute in (N.to_nat c) in change (N.to_nat c) with v end;
  cbn [nth round];
  (split; [reflexivity|split; [repeat (constructor; [first [assumption | apply N.mod_lt; discriminate]|]); constructor|]]);
  change (modulus A) with M; rewrite !SIGMA0_256_eq, !SIGMA1_256_eq by assumption;
  unfold ch256, majority256; rewrite (ch_eq 32) by assumption; rewrite maj_eq; rewrite wadd256, wadd'256; reflexivity.
Qed.

Lemma view_regs256 R j : j < 256 -> j mod 8 = 0 -> view256 R j = to_regs R.
Proof. intros Hj Hm. unfold view256. rewrite !R_INDEX256_eq, Hm by lia. reflexivity. Qed.

(** ** The compression function *)

Lemma copy8 (l : list N) : len l = 8 ->
  for_range 0 8 (fun j R => do h <- get l j; set R j h) (repeat 0 8) = Ret l.
Proof. intro Hl. destruct (list8 l Hl) as (a & b & c & d & e & f & g & h & ->). vm_compute. reflexivity. Qed.
Lemma zero8 (l : list N) : len l = 8 -> for_range 0 8 (fun j R => set R j 0) l = Ret (repeat 0 8).
Proof. intro Hl. destruct (list8 l Hl) as (a & b & c & d & e & f & g & h & ->). vm_compute. reflexivity. Qed.
Lemma zip8 (F : N -> N -> N) (l R : list N) : len l = 8 -> len R = 8 ->
  for_range 0 8 (fun j hs => do h <- get hs j; do r <- get R j; set hs j (F h r)) l =
  Ret (map (fun p => F (fst p) (snd p)) (combine l R)).
Proof.
  intros Hl HR. destruct (list8 l Hl) as (a & b & c & d & e & f & g & h & ->).
  destruct (list8 R HR) as (a' & b' & c' & d' & e' & f' & g' & h' & ->). vm_compute. reflexivity.
Qed.
Lemma of_to_regs (l : list N) : len l = 8 -> of_regs (to_regs l) = l.
Proof. intro Hl. destruct (list8 l Hl) as (a & b & c & d & e & f & g & h & ->). reflexivity. Qed.

Lemma rounds256_ok W R hs : len W = 16 -> Forall word W -> len R = 8 -> Forall word R -> R = hs ->
  exists s W' R' t', for_range 0 16 sha256_round_lo (W, R, 0) = Ret s /\
    for_range 16 64 sha256_round_hi s = Ret (W', R', t') /\
    len W' = 16 /\ Forall word W' /\ len R' = 8 /\
    to_regs R' = fold_left (round A) (combine (consts A) (schedule A W)) (to_regs hs).
Proof.
  intros HW HWf HR HRf Hhs.
  assert (Lc : length (consts A) = N.to_nat 64) by reflexivity.
  assert (LW : length W = 16%nat) by (unfold len in HW; lia).
  assert (Hin : forall j, j < 64 -> nth (N.to_nat j) (schedule A W) 0 < M).
  { intros j Hj. pose proof (schedule_lt A W HWf) as Hs. rewrite Forall_forall in Hs. apply Hs, nth_In.
    rewrite schedule_length; lia. }
  set (P1 := fun j (s : list N * list N * N) => let '(V, R, _) := s in
    V = W /\ len R = 8 /\ Forall word R /\ view256 R j = rounds_upto A W j (to_regs hs)).
  destruct (for_inv P1 sha256_round_lo 0 16 (W, R, 0)) as (s & Es & Hs).
  - lia.
  - unfold P1. splits; try assumption; try reflexivity. subst hs. rewrite view_regs256 by reflexivity. reflexivity.
  - intros k [[V S] t] Hk (-> & L1 & L2 & L3). unfold sha256_round_lo.
    rewrite (get_ok W k 0) by lia. cbn [bind].
    destruct (round256_ok k (nth (N.to_nat k) W 0) S) as (S' & t' & E1 & E2 & E3 & E4); try assumption; [lia|].
    rewrite E1. cbn [bind]. eexists. split; [reflexivity|]. unfold P1. splits; try assumption; try reflexivity.
    rewrite E4, L3, rounds_upto_S by lia. rewrite schedule_lo by lia. reflexivity.
  - set (P2 := fun j (s : list N * list N * N) => let '(V, R, _) := s in
      len V = 16 /\ Forall word V /\
      (forall i, j <= i + 16 -> i < j -> nth (N.to_nat (i mod 16)) V 0 = nth (N.to_nat i) (schedule A W) 0) /\
      len R = 8 /\ Forall word R /\ view256 R j = rounds_upto A W j (to_regs hs)).
    destruct (for_inv P2 sha256_round_hi 16 64 s) as ([[V S] t] & Et & Ht).
    + lia.
    + destruct s as [[V S] t]. destruct Hs as (-> & L1 & L2 & L3). unfold P2. splits; try assumption.
      intros i _ Hi. rewrite N.mod_small by assumption. rewrite schedule_lo; [reflexivity|lia|lia].
    + intros k [[V S] t] Hk (L1 & L2 & L3 & L4 & L5 & L6). unfold sha256_round_hi. rewrite !W_INDEX256_eq.
      assert (Hm : forall i, i mod 16 < 16) by (intro; apply N.mod_lt; discriminate).
      rewrite !(get_ok V _ 0) by (rewrite L1; apply Hm). cbn [bind].
      rewrite (L3 (k - 2)), (L3 (k - 7)), (L3 (k - 15)) by lia.
      replace (nth (N.to_nat (k mod 16)) V 0) with (nth (N.to_nat (k - 16)) (schedule A W) 0)
        by (rewrite <- L3 by lia; do 2 f_equal; lia).
      rewrite set_ok by (rewrite L1; apply Hm). cbn [bind].
      rewrite sigma1_256_eq, sigma0_256_eq by (apply Hin; lia).
      set (x := wrap32 _). assert (Hx : x = nth (N.to_nat k) (schedule A W) 0).
      { rewrite schedule_hi by lia. unfold x, wrap32. change (modulus A) with M.
        rewrite N.add_mod_idemp_r, N.add_assoc by discriminate.
        rewrite <- N.add_assoc, N.add_comm, <- N.add_assoc, N.add_mod_idemp_l by discriminate.
        replace (N.to_nat k - 2)%nat with (N.to_nat (k - 2)) by lia. replace (N.to_nat k - 7)%nat with (N.to_nat (k - 7)) by lia.
        replace (N.to_nat k - 15)%nat with (N.to_nat (k - 15)) by lia. replace (N.to_nat k - 16)%nat with (N.to_nat (k - 16)) by lia.
        f_equal. lia. }
      destruct (round256_ok k x S) as (S' & t' & E1 & E2 & E3 & E4); try assumption; [lia|].
      rewrite E1. cbn [bind]. eexists. split; [reflexivity|]. unfold P2. splits; try assumption.
      * rewrite len_set by (rewrite L1; apply Hm). assumption.
      * rewrite Forall_forall in *. intros y Hy. apply in_app_or in Hy. destruct Hy as [Hy|[<-|Hy]].
        -- apply L2. rewrite <- (takeN_dropN (k mod 16) V). apply in_or_app. now left.
        -- rewrite Hx. apply Hin. lia.
        -- apply L2. rewrite <- (takeN_dropN (k mod 16 + 1) V). apply in_or_app. now right.
      * intros i Hi1 Hi2. rewrite nth_set by (rewrite L1; apply Hm).
        destruct (Nat.eqb_spec (N.to_nat (i mod 16)) (N.to_nat (k mod 16))) as [E|E].
        -- apply N2Nat.inj in E. replace i with k by lia. assumption.
        -- apply L3; [|]; assert (i <> k) by congruence; lia.
      * rewrite E4, L6, rounds_upto_S by lia. rewrite Hx. reflexivity.
    + destruct Ht as (L1 & L2 & _ & L4 & L5 & L6).
      exists s, V, S, t. splits; try assumption.
      rewrite <- (view_regs256 S 64), L6 by reflexivity. unfold rounds_upto. rewrite firstn_all2; [reflexivity|].
      rewrite combine_length. lia.
Qed.

Lemma compress_length hs b : len hs = 8 -> len (compress A hs b) = 8.
Proof.
  intro Hl. unfold compress. destruct (fold_left _ _ _) as [[[[[[[? ?] ?] ?] ?] ?] ?] ?].
  destruct (list8 hs Hl) as (a & b' & c & d & e & f & g & h & ->). reflexivity.
Qed.
Lemma compress_word hs b : Forall word (compress A hs b).
Proof. unfold compress. apply Forall_forall. intros x Hx. apply in_map_iff in Hx. destruct Hx as (p & <- & _). now apply N.mod_lt. Qed.

Lemma main256_ok W hs f t p : words_ok 4 W p -> len p = 64 -> len hs = 8 -> Forall word hs ->
  exists W', n20_sha256_main_locals (mkSha256 W hs f t) = Ret (mkSha256 W' (compress A hs (words A p)) 0 t, (repeat 0 8, 0)) /\
    len W' = 16 /\ Forall word W'.
Proof.
  intros HW Hp Hh Hhf. destruct (words_ok_full A W p) as (EW & LW & FW); [reflexivity|exact HW|exact Hp|].
  unfold n20_sha256_main_locals. cbn [H256 W256 total256]. rewrite copy8 by assumption. cbn [bind].
  destruct HW as (HW1 & HW2 & _).
  destruct (rounds256_ok W hs hs) as (s & W' & R' & t' & E1 & E2 & E3 & E4 & E5 & E6); try assumption; [reflexivity|].
  rewrite E1. cbn [bind]. rewrite E2. cbn [bind].
  rewrite (zip8 (fun h r => wrap32 (h + r))) by assumption. cbn [bind]. rewrite zero8 by assumption. cbn [bind].
  exists W'. splits; try assumption. rewrite <- EW. unfold compress. rewrite <- E6, of_to_regs by assumption. reflexivity.
Qed.
Lemma main256_ok' W hs f t p : words_ok 4 W p -> len p = 64 -> len hs = 8 -> Forall word hs ->
  exists W', n20_sha256_main (mkSha256 W hs f t) = Ret (mkSha256 W' (compress A hs (words A p)) 0 t) /\ words_ok 4 W' [].
Proof.
  intros HW Hp Hh Hf. destruct (main256_ok W hs f t p HW Hp Hh Hf) as (W' & E & L1 & L2). exists W'.
  unfold n20_sha256_main. rewrite E. split; [reflexivity|]. now apply words_ok_nil.
Qed.

(** ** Filling the block *)

Lemma put256_ok W p b : words_ok 4 W p -> len p < 64 ->
  exists W', sha256_put (len p) b W = Ret W' /\ words_ok 4 W' (p ++ [b]).
Proof.
  intros HW Hp. pose proof (words_ok_snoc 4 W p b ltac:(reflexivity) HW Hp) as Hs. cbv zeta in Hs.
  unfold sha256_put. rewrite N.shiftr_div_pow2. change (2 ^ 2) with 4.
  assert (Hk : len p / 4 < 16) by (apply N.div_lt_upper_bound; [discriminate|exact Hp]).
  destruct HW as (HW & _). rewrite (get_ok W _ 0) by lia. cbn [bind]. rewrite set_ok by lia. cbn [bind].
  rewrite (get_ok _ _ 0) by (rewrite len_set; lia). cbn [bind]. rewrite set_ok by (rewrite len_set; lia).
  eexists. split; [reflexivity|]. rewrite nth_set, Nat.eqb_refl by lia.
  rewrite N.shiftl_mul_pow2. change (2 ^ 8) with 256. unfold wrap32. rewrite <- word_pow256.
  rewrite takeN_app_l, takeN_takeN, N.min_id by (rewrite len_takeN; lia).
  rewrite (dropN_app_r (len p / 4 + 1)) by (rewrite len_takeN; lia). rewrite len_takeN, N.min_l by lia.
  replace (len p / 4 + 1 - len p / 4) with 1 by lia. change (dropN 1 (?a :: ?l)) with l. exact Hs.
Qed.

Lemma fill256_ok data size : size <= len data -> forall n W p i, words_ok 4 W p -> len p + N.of_nat n = 64 -> i <= size ->
  exists k W', sha256_fill n data size (len p) i W = Ret (len p + k, i + k, W') /\
    words_ok 4 W' (p ++ takeN k (dropN i data)) /\ i + k <= size /\ len p + k <= 64 /\ (len p + k = 64 \/ i + k = size).
Proof.
  intro Hsz. induction n; intros W p i HW Hp Hi; cbn [sha256_fill].
  - exists 0, W. rewrite !N.add_0_r, takeN_0, app_nil_r. splits; try assumption; try reflexivity; lia.
  - destruct (N.ltb_spec i size).
    + rewrite (get_ok data i x00) by lia. cbn [bind].
      destruct (put256_ok W p (nth (N.to_nat i) data x00) HW) as (W1 & E1 & H1); [lia|]. rewrite E1. cbn [bind].
      destruct (IHn W1 (p ++ [nth (N.to_nat i) data x00]) (i + 1) H1) as (k & W' & E2 & H2 & H3 & H4 & H5);
        [rewrite len_app; change (len [_]) with 1; lia|lia|].
      rewrite len_app in *. change (len [nth (N.to_nat i) data x00]) with 1 in *.
      exists (1 + k), W'. rewrite <- !N.add_assoc in E2. rewrite E2. splits; try reflexivity; try lia.
      rewrite <- app_assoc in H2. cbn [app] in H2.
      replace (takeN (1 + k) (dropN i data)) with (nth (N.to_nat i) data x00 :: takeN k (dropN (i + 1) data)); [assumption|].
      symmetry. apply take_step. lia.
    + exists 0, W. rewrite !N.add_0_r, takeN_0, app_nil_r. splits; try assumption; try reflexivity; try lia.
Qed.

(** ** Hash states *)

(** The state after the bytes [m]: the complete blocks [full] are compressed, the rest [p] is in the word buffer. *)
Definition rep256 (st : sha256_state) (m : list byte) : Prop :=
  exists full p, m = full ++ p /\ len full mod 64 = 0 /\ len p = fill256 st /\ fill256 st < 64 /\
    words_ok 4 (W256 st) p /\ len (H256 st) = 8 /\ Forall word (H256 st) /\
    H256 st = fold_left (fun hs b => compress A hs (words A b)) (pieces 64 full) h0.

Lemma fold_block full b : len full mod 64 = 0 -> len b = 64 ->
  len (full ++ b) mod 64 = 0 /\
  fold_left (fun hs b => compress A hs (words A b)) (pieces 64 (full ++ b)) h0 =
  compress A (fold_left (fun hs b => compress A hs (words A b)) (pieces 64 full) h0) (words A b).
Proof.
  intros Hf Hb. split; [rewrite len_app, Hb; lia|].
  rewrite pieces_app, fold_left_app, (pieces_one 64 b) by (assumption || reflexivity). reflexivity.
Qed.

Lemma absorb256_ok data size : size <= len data -> forall fuel i st m, i <= size -> size - i <= N.of_nat fuel -> rep256 st m ->
  exists st', sha256_absorb fuel data size i st = Ret st' /\ rep256 st' (m ++ takeN (size - i) (dropN i data)) /\ total256 st' = total256 st.
Proof.
  intro Hsz. induction fuel; intros i st m Hi Hfu Hr; cbn [sha256_absorb]; destruct (N.ltb_spec i size) as [Hlt|Hge]; try lia.
  1, 3: exists st; replace (size - i) with 0 by lia; rewrite takeN_0, app_nil_r; now splits.
  destruct Hr as (full & p & Em & E1 & E2 & E3 & E4 & E5 & E6 & E7). rewrite <- E2 in *.
  destruct (fill256_ok data size Hsz (N.to_nat (64 - len p)) (W256 st) p i) as (k & W' & F1 & F2 & F3 & F4 & F5); try assumption; [lia|].
  rewrite F1. cbn [bind]. destruct (N.ltb_spec (len p + k) 64) as [Hj|Hj].
  - eexists. split; [reflexivity|]. split; [|reflexivity].
    replace (size - i) with k by lia.
    exists full, (p ++ takeN k (dropN i data)). cbn [W256 H256 fill256]. splits; try assumption.
    + subst m. now rewrite app_assoc.
    + rewrite len_app, len_takeN, len_dropN. lia.
  - assert (Hb : len (p ++ takeN k (dropN i data)) = 64) by (rewrite len_app, len_takeN, len_dropN; lia).
    destruct (main256_ok' W' (H256 st) (len p) (total256 st) _ F2 Hb E5 E6) as (W2 & G1 & G2). rewrite G1. cbn [bind].
    destruct (IHfuel (i + k) (mkSha256 W2 (compress A (H256 st) (words A (p ++ takeN k (dropN i data)))) 0 (total256 st))
                (m ++ takeN k (dropN i data))) as (st' & I1 & I2 & I3); [lia|lia| |].
    + destruct (fold_block full (p ++ takeN k (dropN i data)) E1 Hb) as (B1 & B2).
      exists (full ++ p ++ takeN k (dropN i data)), []. cbn [W256 H256 fill256]. splits; try assumption; try reflexivity.
      * subst m. now rewrite app_nil_r, app_assoc.
      * now apply compress_length.
      * apply compress_word.
      * rewrite B2, E7. reflexivity.
    + exists st'. splits; [assumption| |assumption].
      replace (takeN (size - i) (dropN i data)) with (takeN k (dropN i data) ++ takeN (size - (i + k)) (dropN (i + k) data)); [now rewrite app_assoc|].
      rewrite (N.add_comm i k), <- dropN_dropN. rewrite <- (takeN_dropN k (dropN i data)) at 3.
      rewrite takeN_app_r by (rewrite len_takeN; lia). rewrite len_takeN, len_dropN.
      do 2 f_equal. lia.
Qed.

Lemma update256_ok st m data : slice_ok data -> rep256 st m -> total256 st = len m mod 18446744073709551616 ->
  exists st', n20_sha256_update (Some st) data = Ret (Some st') /\
    rep256 st' (m ++ slice_bytes data) /\ total256 st' = len (m ++ slice_bytes data) mod 18446744073709551616.
Proof.
  intros [Hs1 Hs2] Hr Ht. unfold n20_sha256_update, slice_bytes. destruct (sl_buf data) as [d|] eqn:Ed.
  - destruct (absorb256_ok d (sl_size data) Hs2 (S (N.to_nat (sl_size data))) 0
      (mkSha256 (W256 st) (H256 st) (fill256 st) (wrap64 (total256 st + sl_size data))) m) as (st' & E1 & E2 & E3); [lia|lia|exact Hr|].
    rewrite E1. cbn [bind]. exists st'. rewrite N.sub_0_r, dropN_0 in E2. splits; [reflexivity|assumption|].
    rewrite E3, len_app, len_takeN, N.min_l by assumption. cbn [total256]. unfold wrap64. rewrite Ht.
    now rewrite N.add_mod_idemp_l by discriminate.
  - exists st. rewrite app_nil_r. now splits.
Qed.

(** ** Padding *)

Lemma range_map (f : N -> byte) lo hi : lo < hi -> 
  map f (map N.of_nat (seq (N.to_nat lo) (N.to_nat (hi + 1 - lo)))) = map f (map N.of_nat (seq (N.to_nat lo) (N.to_nat (hi - lo)))) ++ [f hi].
Proof.
  intro Hl. replace (N.to_nat (hi + 1 - lo)) with (N.to_nat (hi - lo) + 1)%nat by lia.
  rewrite seq_app, !map_app. cbn [seq map]. do 2 f_equal. f_equal. lia.
Qed.

Lemma padloop256_ok (f : N -> byte) W p hi : words_ok 4 W p -> len p <= hi -> hi <= 64 ->
  exists W', for_range (len p) hi (fun i W => sha256_put i (f i) W) W = Ret W' /\
    words_ok 4 W' (p ++ map f (map N.of_nat (seq (length p) (N.to_nat (hi - len p))))).
Proof.
  intros HW H1 H2.
  set (P := fun k W => words_ok 4 W (p ++ map f (map N.of_nat (seq (length p) (N.to_nat (k - len p)))))).
  apply (for_inv P); [assumption| |].
  - unfold P. rewrite N.sub_diag. cbn. now rewrite app_nil_r.
  - intros k V Hk HV. unfold P in HV.
    set (q := map f (map N.of_nat (seq (length p) (N.to_nat (k - len p))))) in *.
    assert (Lq : len (p ++ q) = k).
    { rewrite len_app. unfold q. rewrite !len_map. unfold len at 2. rewrite seq_length. lia. }
    destruct (put256_ok V (p ++ q) (f k) HV) as (V' & E & HV'); [lia|]. rewrite Lq in E. exists V'. split; [assumption|].
    unfold P. replace (N.to_nat (k + 1 - len p)) with (N.to_nat (k - len p) + 1)%nat by lia.
    rewrite seq_app, !map_app. cbn [seq map]. fold q. rewrite <- app_assoc in HV'.
    replace (N.of_nat (length p + N.to_nat (k - len p))) with k by (unfold len in *; lia). assumption.
Qed.
Lemma map_const {T} (l : list T) (b : byte) : map (fun _ => b) l = repeat b (length l).
Proof. induction l; cbn; congruence. Qed.
Lemma zeros256_ok W p hi : words_ok 4 W p -> len p <= hi -> hi <= 64 ->
  exists W', for_range (len p) hi (fun i W => sha256_put i x00 W) W = Ret W' /\
    words_ok 4 W' (p ++ repeat x00 (N.to_nat (hi - len p))).
Proof.
  intros HW H1 H2. destruct (padloop256_ok (fun _ => x00) W p hi HW H1 H2) as (W' & E & HW').
  exists W'. split; [exact E|]. now rewrite map_const, map_length, seq_length in HW'.
Qed.

Lemma len_field b :
  map (fun i => n2b (N.land (N.shiftr b (8 * (63 - i))) 255)) (map N.of_nat (seq 56 8)) = be_bytes 8 b.
Proof.
  cbn [seq map be_bytes app].
  repeat match goal with |- context [N.of_nat ?k] => let v := eval vm_compute in (N.of_nat k) in change (N.of_nat k) with v end.
  repeat match goal with |- context [8 * (?a - ?c)] => let v := eval vm_compute in (8 * (a - c)) in change (8 * (a - c)) with v end.
  change 255 with (N.ones 8). rewrite !N.land_ones. change (2 ^ 8) with 256. rewrite !n2b_mod, !N.shiftr_div_pow2.
  rewrite !N.div_div by discriminate.
  repeat match goal with |- context [2 ^ ?k] => let v := eval vm_compute in (2 ^ k) in change (2 ^ k) with v end.
  repeat match goal with |- context [256 * ?k] => let v := eval vm_compute in (256 * k) in change (256 * k) with v end.
  now rewrite N.div_1_r.
Qed.

Lemma output256_ok hs n d : len hs = 8 -> n <= 4 * 8 -> n <= len d ->
  sha256_output hs n (Some d) = Ret (Some (takeN n (flat_map (be_bytes (N.to_nat 4)) hs) ++ dropN n d)).
Proof.
  intros Hh Hn Hd. set (o := flat_map (be_bytes (N.to_nat 4)) hs).
  assert (Lo : len o = 4 * 8).
  { destruct (list8 hs Hh) as (r0 & r1 & r2 & r3 & r4 & r5 & r6 & r7 & ->). unfold o. cbn [flat_map].
    rewrite !len_app, !len_be_bytes. reflexivity. }
  assert (Ho : forall i, i < 4 * 8 ->
    n2b (N.land (N.shiftr (nth (N.to_nat (i / 4)) hs 0) (8 * (3 - N.land i 3))) 255) = nth (N.to_nat i) o x00).
  { intros i Hi. change 3 with (N.ones 2) at 2. rewrite N.land_ones. change (2 ^ 2) with 4.
    change 255 with (N.ones 8). rewrite N.land_ones. change (2 ^ 8) with 256. rewrite n2b_mod, N.shiftr_div_pow2.
    assert (Hq : i / 4 < 8) by lia. assert (Hr : i mod 4 < 4) by lia.
    replace (N.to_nat i) with (N.to_nat 4 * N.to_nat (i / 4) + N.to_nat (i mod 4))%nat by lia.
    unfold o. clear o Lo. revert Hq Hr. generalize (i / 4) (i mod 4). clear i Hi. intros q r Hq Hr.
    assert (Hn2 : forall (hs : list N) k, (k < length hs)%nat ->
      nth (N.to_nat 4 * k + N.to_nat r)%nat (flat_map (be_bytes (N.to_nat 4)) hs) x00 =
      nth (N.to_nat r) (be_bytes (N.to_nat 4) (nth k hs 0)) x00).
    { clear - Hr. induction hs as [|h hs IH]; intros k Hk; cbn in Hk; [lia|]. cbn [flat_map]. destruct k.
      - rewrite Nat.mul_0_r, Nat.add_0_l. rewrite app_nth1 by (rewrite length_be_bytes; lia). reflexivity.
      - rewrite app_nth2 by (rewrite length_be_bytes; lia). rewrite length_be_bytes.
        replace (N.to_nat 4 * S k + N.to_nat r - N.to_nat 4)%nat with (N.to_nat 4 * k + N.to_nat r)%nat by lia.
        rewrite IH by lia. reflexivity. }
    rewrite Hn2 by (unfold len in Hh; lia). generalize (nth (N.to_nat q) hs 0). intro h.
    rewrite nth_be_bytes by lia. do 2 f_equal. rewrite pow_256. f_equal. lia. }
  unfold sha256_output.
  destruct (for_inv (fun i p => p = Some (takeN i o ++ dropN i d))
    (fun i digest => do h <- get hs (N.shiftr i 2);
      let v := N.land (N.shiftr h (8 * (3 - N.land i 3))) 255 in
      match digest with None => Undef UBNullDeref | Some d => do d <- set d i (n2b v); Ret (Some d) end) 0 n (Some d)) as (s & E & ->).
  - lia.
  - now rewrite takeN_0, dropN_0.
  - intros i s Hi ->. rewrite N.shiftr_div_pow2. change (2 ^ 2) with 4.
    rewrite (get_ok hs (i / 4) 0) by (rewrite Hh; lia). cbn [bind]. cbv zeta. rewrite Ho by lia.
    rewrite set_ok by (rewrite len_app, len_takeN, len_dropN; lia). cbn [bind]. eexists. split; [reflexivity|]. f_equal.
    rewrite takeN_app_l, takeN_takeN, N.min_id by (rewrite len_takeN; lia).
    rewrite dropN_app_r by (rewrite len_takeN; lia). rewrite len_takeN, N.min_l by lia. rewrite dropN_dropN.
    replace (i + 1 - i + i) with (i + 1) by lia.
    unfold takeN at 2. replace (N.to_nat (i + 1)) with (S (N.to_nat i)) by lia.
    rewrite (firstn_snoc o (N.to_nat i) x00) by (unfold len in Lo; lia). rewrite <- app_assoc. reflexivity.
  - exact E.
Qed.

Lemma finalize256_ok st m n d : rep256 st m -> total256 st = len m mod 18446744073709551616 -> len m < 2305843009213693952 ->
  n <= 4 * 8 -> n <= len d -> outn = n ->
  exists st', n20_sha224_sha256_finalize (Some st) (Some d) n = Ret (Some st', Some (hash A m ++ dropN n d)).
Proof.
  intros (full & p & Em & E1 & E2 & E3 & E4 & E5 & E6 & E7) Ht Hm Hn Hd Ho.
  assert (Tot : wrap64 (total256 st * 8) = 8 * len m).
  { rewrite Ht. unfold wrap64. rewrite N.mod_small by lia. rewrite N.mod_small; lia. }
  unfold n20_sha224_sha256_finalize. rewrite <- E2.
  destruct (put256_ok (W256 st) p x80 E4) as (W1 & F1 & F2); [lia|]. rewrite F1. cbn [bind].
  assert (Lp : len p + 1 = len (p ++ [x80])) by (rewrite len_app; reflexivity). rewrite Lp.
  set (p1 := p ++ [x80]) in *.
  (* the last block: the bytes in it are [q], after complete blocks [full'] *)
  assert (Last : exists full' q W' hs', 
    (if 56 <? len p1
     then do W <- for_range (len p1) 64 (fun i W => sha256_put i x00 W) W1;
          do st <- n20_sha256_main (mkSha256 W (H256 st) (len p) (total256 st)); Ret (0, st)
     else Ret (len p1, mkSha256 W1 (H256 st) (len p) (total256 st))) = Ret (len q, mkSha256 W' hs' (if 56 <? len p1 then 0 else len p) (total256 st)) /\
    words_ok 4 W' q /\ len q <= 56 /\ len full' mod 64 = 0 /\ len hs' = 8 /\ Forall word hs' /\
    hs' = fold_left (fun hs b => compress A hs (words A b)) (pieces 64 full') h0 /\
    full' ++ q = m ++ [x80] ++ repeat x00 (N.to_nat (if 56 <? len p1 then 64 - len p1 else 0))).
  { destruct (N.ltb_spec 56 (len p1)) as [Hc|Hc].
    - destruct (zeros256_ok W1 p1 64 F2) as (W2 & G1 & G2); [lia|lia|]. rewrite G1. cbn [bind].
      assert (Hb : len (p1 ++ repeat x00 (N.to_nat (64 - len p1))) = 64) by (rewrite len_app, len_repeat; lia).
      destruct (main256_ok' W2 (H256 st) (len p) (total256 st) _ G2 Hb E5 E6) as (W3 & G3 & G4). rewrite G3. cbn [bind].
      destruct (fold_block full _ E1 Hb) as (B1 & B2).
      eexists; exists []; do 2 eexists. splits; [reflexivity|exact G4|change (len (@nil byte)) with 0; lia|exact B1|now apply compress_length|apply compress_word| |].
      + rewrite B2, E7. reflexivity.
      + subst m p1. rewrite app_nil_r, <- !app_assoc. reflexivity.
    - eexists; exists p1; do 2 eexists. splits; [reflexivity|exact F2|exact Hc|exact E1|exact E5|exact E6|exact E7|].
      subst m p1. change (N.to_nat 0) with 0%nat. cbn [repeat]. now rewrite app_nil_r, app_assoc. }
  destruct Last as (full' & q & W' & hs' & L1 & L2 & L3 & L4 & L5 & L6 & L7 & L8). rewrite L1. clear L1. cbn [bind W256 H256 fill256 total256].
  destruct (zeros256_ok W' q 56 L2) as (W2 & G1 & G2); [lia|lia|]. rewrite G1. cbn [bind].
  rewrite N.max_r by lia. rewrite Tot.
  set (q2 := q ++ repeat x00 (N.to_nat (56 - len q))) in *.
  assert (Lq2 : len q2 = 56) by (unfold q2; rewrite len_app, len_repeat; lia).
  destruct (padloop256_ok (fun i => n2b (N.land (N.shiftr (8 * len m) (8 * (63 - i))) 255)) W2 q2 64 G2) as (W3 & G3 & G4); [lia|lia|].
  rewrite Lq2 in *. rewrite G3. cbn [bind].
  replace (length q2) with (N.to_nat 56) in G4 by (unfold len in Lq2; lia).
  change (N.to_nat (64 - 56)) with 8%nat in G4. change (N.to_nat 56) with 56%nat in G4. rewrite len_field in G4.
  assert (Hb : len (q2 ++ be_bytes 8 (8 * len m)) = 64) by (rewrite len_app, len_be_bytes, Lq2; reflexivity).
  destruct (main256_ok' W3 hs' (if 56 <? len p1 then 0 else len p) (total256 st) _ G4 Hb L5 L6) as (W4 & G5 & G6). rewrite G5. cbn [bind H256].
  destruct (fold_block full' _ L4 Hb) as (B1 & B2).
  rewrite output256_ok by (try assumption; now apply compress_length). cbn [bind].
  eexists. do 4 f_equal. unfold hash. subst outn. change (out_bytes A) with n. change (wbytes A) with 4. f_equal. f_equal.
  unfold digest_words. change (iv A) with h0. change (block_bytes A) with 64. rewrite L7, <- B2. do 2 f_equal.
  unfold q2. rewrite !app_assoc, L8. 
  apply (f_equal len) in L8. rewrite !len_app, len_repeat in L8. change (len [x80]) with 1 in L8. rewrite Em, len_app in L8.
  clear - Em E1 E2 E3 L3 L4 L8 Lp Hm.
  unfold pad. change (block_bytes A) with 64. change (wbytes A) with 4. rewrite <- !app_assoc. do 2 f_equal.
  rewrite (be_bytes_split (N.to_nat (2 * 4)) 8) by (rewrite ?pow_256; lia).
  rewrite !app_assoc, <- !repeat_app. do 2 f_equal. destruct (N.ltb_spec 56 (len p1)); subst m; rewrite len_app; lia.
Qed.

End WithEnv.
