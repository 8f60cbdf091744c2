(** The model of sha512.c computes the FIPS 180-4 compression, padding and digest. (Sha256Proofs.v and Sha512Proofs.v are the same
    argument with different constants.) *)
From Coq Require Import List NArith ZArith Bool Strings.Byte Lia.
From Coq Require Import ZifyBool ZifyNat ZifyN.
From Verif Require Import Base BaseFacts Res SpecDigits DigitsFacts SpecSha2 ShaFacts Sha512.
Import ListNotations.
Open Scope N_scope.

Section WithEnv.
Context `{Env}.
Variables (h0 : list N) (outn : N).
Let A := with64 h0 outn.
Notation M := 18446744073709551616.
Notation word := (fun x => x < M).

Lemma modulus512 : modulus A = M.
Proof. reflexivity. Qed.
Lemma wbits512 : wbits A = 64.
Proof. reflexivity. Qed.
Lemma consts512 : consts A = K_512.
Proof. reflexivity. Qed.
Lemma word_pow512 : 256 ^ 8 = M.
Proof. reflexivity. Qed.

Lemma rotr512_eq x n : x < M -> n <= 64 -> rotr512 x n = ROTR A n x.
Proof. intros Hx Hn. unfold rotr512, wrap64. change 64 with (wbits A) in *. apply rotr_eq; assumption. Qed.
Lemma SIGMA0_512_eq x : x < M -> SIGMA0_512 x = rot3 A (Sig0 A) x.
Proof. intro Hx. unfold SIGMA0_512. rewrite !rotr512_eq by (assumption || lia). reflexivity. Qed.
Lemma SIGMA1_512_eq x : x < M -> SIGMA1_512 x = rot3 A (Sig1 A) x.
Proof. intro Hx. unfold SIGMA1_512. rewrite !rotr512_eq by (assumption || lia). reflexivity. Qed.
Lemma sigma0_512_eq x : x < M -> sigma0_512 x = rot2shr A (sig0 A) x.
Proof. intro Hx. unfold sigma0_512. rewrite !rotr512_eq, N.shiftr_div_pow2 by (assumption || lia). reflexivity. Qed.
Lemma sigma1_512_eq x : x < M -> sigma1_512 x = rot2shr A (sig1 A) x.
Proof. intro Hx. unfold sigma1_512. rewrite !rotr512_eq, N.shiftr_div_pow2 by (assumption || lia). reflexivity. Qed.

Lemma R_INDEX512_eq j x : j < 256 -> x < 8 -> R_INDEX512 j x = (x + 8 - j mod 8) mod 8.
Proof.
  intros Hj Hx. unfold R_INDEX512. change 7 with (N.ones 3). rewrite N.land_ones. change (2 ^ 3) with 8.
  unfold wrap_sz, sub_sz. with_strategy transparent [SZ] (unfold SZ). destruct size_width; lia.
Qed.
Lemma W_INDEX512_eq j : W_INDEX512 j = j mod 16.
Proof. unfold W_INDEX512. change 15 with (N.ones 4). apply N.land_ones. Qed.

(** The registers a..h at the start of round [j]. *)
Definition view512 (R : list N) (j : N) : regs :=
  let r x := nth (N.to_nat (R_INDEX512 j x)) R 0 in (r 0, r 1, r 2, r 3, r 4, r 5, r 6, r 7).

Lemma list8 {T} (R : list T) : len R = 8 -> exists a b c d e f g h, R = [a; b; c; d; e; f; g; h].
Proof.
  unfold len. intro Hl. assert (L : length R = 8%nat) by lia. clear Hl.
  do 8 (destruct R as [|? R]; [discriminate|]). destruct R; [repeat eexists|discriminate].
Qed.

Lemma set8_0 {T} (r0 r1 r2 r3 r4 r5 r6 r7 x : T) : set [r0; r1; r2; r3; r4; r5; r6; r7] 0 x = Ret [x; r1; r2; r3; r4; r5; r6; r7].
Proof. reflexivity. Qed.
Lemma set8_1 {T} (r0 r1 r2 r3 r4 r5 r6 r7 x : T) : set [r0; r1; r2; r3; r4; r5; r6; r7] 1 x = Ret [r0; x; r2; r3; r4; r5; r6; r7].
Proof. reflexivity. Qed.
Lemma set8_2 {T} (r0 r1 r2 r3 r4 r5 r6 r7 x : T) : set [r0; r1; r2; r3; r4; r5; r6; r7] 2 x = Ret [r0; r1; x; r3; r4; r5; r6; r7].
Proof. reflexivity. Qed.
Lemma set8_3 {T} (r0 r1 r2 r3 r4 r5 r6 r7 x : T) : set [r0; r1; r2; r3; r4; r5; r6; r7] 3 x = Ret [r0; r1; r2; x; r4; r5; r6; r7].
Proof. reflexivity. Qed.
Lemma set8_4 {T} (r0 r1 r2 r3 r4 r5 r6 r7 x : T) : set [r0; r1; r2; r3; r4; r5; r6; r7] 4 x = Ret [r0; r1; r2; r3; x; r5; r6; r7].
Proof. reflexivity. Qed.
Lemma set8_5 {T} (r0 r1 r2 r3 r4 r5 r6 r7 x : T) : set [r0; r1; r2; r3; r4; r5; r6; r7] 5 x = Ret [r0; r1; r2; r3; r4; x; r6; r7].
Proof. reflexivity. Qed.
Lemma set8_6 {T} (r0 r1 r2 r3 r4 r5 r6 r7 x : T) : set [r0; r1; r2; r3; r4; r5; r6; r7] 6 x = Ret [r0; r1; r2; r3; r4; r5; x; r7].
Proof. reflexivity. Qed.
Lemma set8_7 {T} (r0 r1 r2 r3 r4 r5 r6 r7 x : T) : set [r0; r1; r2; r3; r4; r5; r6; r7] 7 x = Ret [r0; r1; r2; r3; r4; r5; r6; x].
Proof. reflexivity. Qed.

Lemma madd x y : wrap64 (wrap64 x + y) = wrap64 (x + y).
Proof. unfold wrap64. now rewrite N.add_mod_idemp_l by discriminate. Qed.
Lemma wadd512 a b c d e f g :
  wrap64 (wrap64 (wrap64 (wrap64 (wrap64 (wrap64 (a + b) + c) + d) + e) + f) + g) = (b + c + d + e + a + (f + g)) mod M.
Proof. repeat (rewrite madd; rewrite <- ?N.add_assoc). unfold wrap64. f_equal. lia. Qed.
Lemma wadd'512 a b c d e f :
  wrap64 (f + wrap64 (wrap64 (wrap64 (wrap64 (a + b) + c) + d) + e)) = (f + (b + c + d + e + a)) mod M.
Proof. rewrite N.add_comm. repeat (rewrite madd; rewrite <- ?N.add_assoc). unfold wrap64. f_equal. lia. Qed.

Lemma round512_ok j t1 R : j < 80 -> len R = 8 -> Forall word R ->
  exists R' t', sha512_round j t1 R = Ret (R', t') /\ len R' = 8 /\ Forall word R' /\
    view512 R' (j + 1) = round A (view512 R j) (nth (N.to_nat j) K_512 0, t1).
Proof.
  intros Hj Hl Hf. destruct (list8 R Hl) as (r0 & r1 & r2 & r3 & r4 & r5 & r6 & r7 & ->).
  rewrite Forall_forall in Hf.
  assert (B0 : r0 < M) by (apply Hf; cbn; tauto). assert (B1 : r1 < M) by (apply Hf; cbn; tauto).
  assert (B2 : r2 < M) by (apply Hf; cbn; tauto). assert (B3 : r3 < M) by (apply Hf; cbn; tauto).
  assert (B4 : r4 < M) by (apply Hf; cbn; tauto). assert (B5 : r5 < M) by (apply Hf; cbn; tauto).
  assert (B6 : r6 < M) by (apply Hf; cbn; tauto). assert (B7 : r7 < M) by (apply Hf; cbn; tauto). clear Hl Hf.
  assert (Hq : j mod 8 < 8) by (apply N.mod_lt; discriminate).
  assert (Hn : (j + 1) mod 8 = (j mod 8 + 1) mod 8) by (rewrite N.add_mod_idemp_l; [reflexivity|discriminate]).
  unfold sha512_round, view512. rewrite (get_ok K_512 j 0) by exact Hj. generalize (nth (N.to_nat j) K_512 0) as kj. intro kj.
  rewrite !R_INDEX512_eq by lia. rewrite Hn. clear Hn. generalize dependent (j mod 8). clear j Hj. intros q Hq.
  assert (E : q = 0 \/ q = 1 \/ q = 2 \/ q = 3 \/ q = 4 \/ q = 5 \/ q = 6 \/ q = 7) by lia. clear Hq.
  repeat (destruct E as [->|E]); [..|subst q];
  repeat match goal with |- context [(?a + 8 - ?b) mod 8] =>
    let v := eval vm_compute in ((a + 8 - b) mod 8) in change ((a + 8 - b) mod 8) with v end;
  repeat (match goal with
    | |- context [get ?l ?i] => let v := eval cbv [get nth_error N.to_nat Pos.to_nat Pos.iter_op Init.Nat.add] in (get l i) in change (get l i) with v
    | |- _ => first [rewrite set8_0 | rewrite set8_1 | rewrite set8_2 | rewrite set8_3 | rewrite set8_4 | rewrite set8_5 | rewrite set8_6 | rewrite set8_7]
    end; cbn [bind app]);
  (do 2 eexists; split; [reflexivity|]);
  repeat match goal with |- context [N.to_nat ?c] => let v := eval vm_compute in (N.to_nat c) in change (N.to_nat c) with v end;
  cbn [nth round];
  (split; [reflexivity|split; [repeat (constructor; [first [assumption | apply N.mod_lt; discriminate]|]); constructor|]]);
  change (modulus A) with M; rewrite !SIGMA0_512_eq, !SIGMA1_512_eq by assumption;
  unfold ch512, majority512; rewrite (ch_eq 64) by assumption; rewrite maj_eq; rewrite wadd512, wadd'512; reflexivity.
Qed.

Lemma view_regs512 R j : j < 256 -> j mod 8 = 0 -> view512 R j = to_regs R.
Proof. intros Hj Hm. unfold view512. rewrite !R_INDEX512_eq, Hm by lia. reflexivity. Qed.

(** ** The compression function *)

Lemma copy8 (l : list N) : len l = 8 ->
  for_range 0 8 (fun j R => do h <- get l j; set R j h) (repeat 0 8) = Ret l.
Proof. intro Hl. destruct (list8 l Hl) as (a & b & c & d & e & f & g & h & ->). vm_compute. reflexivity. Qed.
Lemma zero8 (l : list N) : len l = 8 -> for_range 0 8 (fun j R => set R j 0) l = Ret (repeat 0 8).
Proof. intro Hl. destruct (list8 l Hl) as (a & b & c & d & e & f & g & h & ->). vm_compute. reflexivity. Qed.
Lemma zip8 (F : N -> N -> N) (l R : list N) : len l = 8 -> len R = 8 ->
  for_range 0 8 (fun j hs => do h <- get hs j; do r <- get R j; set hs j (F h r)) l =
  Ret (map (fun p => F (fst p) (snd p)) (combine l R)).
Proof.
  intros Hl HR. destruct (list8 l Hl) as (a & b & c & d & e & f & g & h & ->).
  destruct (list8 R HR) as (a' & b' & c' & d' & e' & f' & g' & h' & ->). vm_compute. reflexivity.
Qed.
Lemma of_to_regs (l : list N) : len l = 8 -> of_regs (to_regs l) = l.
Proof. intro Hl. destruct (list8 l Hl) as (a & b & c & d & e & f & g & h & ->). reflexivity. Qed.

Lemma rounds512_ok W R hs : len W = 16 -> Forall word W -> len R = 8 -> Forall word R -> R = hs ->
  exists s W' R' t', for_range 0 16 sha512_round_lo (W, R, 0) = Ret s /\
    for_range 16 80 sha512_round_hi s = Ret (W', R', t') /\
    len W' = 16 /\ Forall word W' /\ len R' = 8 /\
    to_regs R' = fold_left (round A) (combine (consts A) (schedule A W)) (to_regs hs).
Proof.
  intros HW HWf HR HRf Hhs.
  assert (Lc : length (consts A) = N.to_nat 80) by reflexivity.
  assert (LW : length W = 16%nat) by (unfold len in HW; lia).
  assert (Hin : forall j, j < 80 -> nth (N.to_nat j) (schedule A W) 0 < M).
  { intros j Hj. pose proof (schedule_lt A W HWf) as Hs. rewrite Forall_forall in Hs. apply Hs, nth_In.
    rewrite schedule_length; lia. }
  set (P1 := fun j (s : list N * list N * N) => let '(V, R, _) := s in
    V = W /\ len R = 8 /\ Forall word R /\ view512 R j = rounds_upto A W j (to_regs hs)).
  destruct (for_inv P1 sha512_round_lo 0 16 (W, R, 0)) as (s & Es & Hs).
  - lia.
  - unfold P1. splits; try assumption; try reflexivity. subst hs. rewrite view_regs512 by reflexivity. reflexivity.
  - intros k [[V S] t] Hk (-> & L1 & L2 & L3). unfold sha512_round_lo.
    rewrite (get_ok W k 0) by lia. cbn [bind].
    destruct (round512_ok k (nth (N.to_nat k) W 0) S) as (S' & t' & E1 & E2 & E3 & E4); try assumption; [lia|].
    rewrite E1. cbn [bind]. eexists. split; [reflexivity|]. unfold P1. splits; try assumption; try reflexivity.
    rewrite E4, L3, rounds_upto_S by lia. rewrite schedule_lo by lia. reflexivity.
  - set (P2 := fun j (s : list N * list N * N) => let '(V, R, _) := s in
      len V = 16 /\ Forall word V /\
      (forall i, j <= i + 16 -> i < j -> nth (N.to_nat (i mod 16)) V 0 = nth (N.to_nat i) (schedule A W) 0) /\
      len R = 8 /\ Forall word R /\ view512 R j = rounds_upto A W j (to_regs hs)).
    destruct (for_inv P2 sha512_round_hi 16 80 s) as ([[V S] t] & Et & Ht).
    + lia.
    + destruct s as [[V S] t]. destruct Hs as (-> & L1 & L2 & L3). unfold P2. splits; try assumption.
      intros i _ Hi. rewrite N.mod_small by assumption. rewrite schedule_lo; [reflexivity|lia|lia].
    + intros k [[V S] t] Hk (L1 & L2 & L3 & L4 & L5 & L6). unfold sha512_round_hi. rewrite !W_INDEX512_eq.
      assert (Hm : forall i, i mod 16 < 16) by (intro; apply N.mod_lt; discriminate).
      rewrite !(get_ok V _ 0) by (rewrite L1; apply Hm). cbn [bind].
      rewrite (L3 (k - 2)), (L3 (k - 7)), (L3 (k - 15)) by lia.
      replace (nth (N.to_nat (k mod 16)) V 0) with (nth (N.to_nat (k - 16)) (schedule A W) 0)
        by (rewrite <- L3 by lia; do 2 f_equal; lia).
      rewrite set_ok by (rewrite L1; apply Hm). cbn [bind].
      rewrite sigma1_512_eq, sigma0_512_eq by (apply Hin; lia).
      set (x := wrap64 _). assert (Hx : x = nth (N.to_nat k) (schedule A W) 0).
      { rewrite schedule_hi by lia. unfold x, wrap64. change (modulus A) with M.
        rewrite N.add_mod_idemp_r, N.add_assoc by discriminate.
        rewrite <- N.add_assoc, N.add_comm, <- N.add_assoc, N.add_mod_idemp_l by discriminate.
        replace (N.to_nat k - 2)%nat with (N.to_nat (k - 2)) by lia. replace (N.to_nat k - 7)%nat with (N.to_nat (k - 7)) by lia.
        replace (N.to_nat k - 15)%nat with (N.to_nat (k - 15)) by lia. replace (N.to_nat k - 16)%nat with (N.to_nat (k - 16)) by lia.
        f_equal. lia. }
      destruct (round512_ok k x S) as (S' & t' & E1 & E2 & E3 & E4); try assumption; [lia|].
      rewrite E1. cbn [bind]. eexists. split; [reflexivity|]. unfold P2. splits; try assumption.
      * rewrite len_set by (rewrite L1; apply Hm). assumption.
      * rewrite Forall_forall in *. intros y Hy. apply in_app_or in Hy. destruct Hy as [Hy|[<-|Hy]].
        -- apply L2. rewrite <- (takeN_dropN (k mod 16) V). apply in_or_app. now left.
        -- rewrite Hx. apply Hin. lia.
        -- apply L2. rewrite <- (takeN_dropN (k mod 16 + 1) V). apply in_or_app. now right.
      * intros i Hi1 Hi2. rewrite nth_set by (rewrite L1; apply Hm).
        destruct (Nat.eqb_spec (N.to_nat (i mod 16)) (N.to_nat (k mod 16))) as [E|E].
        -- apply N2Nat.inj in E. replace i with k by lia. assumption.
        -- apply L3; [|]; assert (i <> k) by congruence; lia.
      * rewrite E4, L6, rounds_upto_S by lia. rewrite Hx. reflexivity.
    + destruct Ht as (L1 & L2 & _ & L4 & L5 & L6).
      exists s, V, S, t. splits; try assumption.
      rewrite <- (view_regs512 S 80), L6 by reflexivity. unfold rounds_upto. rewrite firstn_all2; [reflexivity|].
      rewrite combine_length. lia.
Qed.

Lemma compress_length hs b : len hs = 8 -> len (compress A hs b) = 8.
Proof.
  intro Hl. unfold compress. destruct (fold_left _ _ _) as [[[[[[[? ?] ?] ?] ?] ?] ?] ?].
  destruct (list8 hs Hl) as (a & b' & c & d & e & f & g & h & ->). reflexivity.
Qed.
Lemma compress_word hs b : Forall word (compress A hs b).
Proof. unfold compress. apply Forall_forall. intros x Hx. apply in_map_iff in Hx. destruct Hx as (p & <- & _). now apply N.mod_lt. Qed.

Lemma main512_ok W hs f t p : words_ok 8 W p -> len p = 128 -> len hs = 8 -> Forall word hs ->
  exists W', n20_sha512_main_locals (mkSha512 W hs f t) = Ret (mkSha512 W' (compress A hs (words A p)) 0 t, (repeat 0 8, 0)) /\
    len W' = 16 /\ Forall word W'.
Proof.
  intros HW Hp Hh Hhf. destruct (words_ok_full A W p) as (EW & LW & FW); [reflexivity|exact HW|exact Hp|].
  unfold n20_sha512_main_locals. cbn [H512 W512 total512]. rewrite copy8 by assumption. cbn [bind].
  destruct HW as (HW1 & HW2 & _).
  destruct (rounds512_ok W hs hs) as (s & W' & R' & t' & E1 & E2 & E3 & E4 & E5 & E6); try assumption; [reflexivity|].
  rewrite E1. cbn [bind]. rewrite E2. cbn [bind].
  rewrite (zip8 (fun h r => wrap64 (h + r))) by assumption. cbn [bind]. rewrite zero8 by assumption. cbn [bind].
  exists W'. splits; try assumption. rewrite <- EW. unfold compress. rewrite <- E6, of_to_regs by assumption. reflexivity.
Qed.
Lemma main512_ok' W hs f t p : words_ok 8 W p -> len p = 128 -> len hs = 8 -> Forall word hs ->
  exists W', n20_sha512_main (mkSha512 W hs f t) = Ret (mkSha512 W' (compress A hs (words A p)) 0 t) /\ words_ok 8 W' [].
Proof.
  intros HW Hp Hh Hf. destruct (main512_ok W hs f t p HW Hp Hh Hf) as (W' & E & L1 & L2). exists W'.
  unfold n20_sha512_main. rewrite E. split; [reflexivity|]. now apply words_ok_nil.
Qed.

(** ** Filling the block *)

Lemma put512_ok W p b : words_ok 8 W p -> len p < 128 ->
  exists W', sha512_put (len p) b W = Ret W' /\ words_ok 8 W' (p ++ [b]).
Proof.
  intros HW Hp. pose proof (words_ok_snoc 8 W p b ltac:(reflexivity) HW Hp) as Hs. cbv zeta in Hs.
  unfold sha512_put. rewrite N.shiftr_div_pow2. change (2 ^ 3) with 8.
  assert (Hk : len p / 8 < 16) by (apply N.div_lt_upper_bound; [discriminate|exact Hp]).
  destruct HW as (HW & _). rewrite (get_ok W _ 0) by lia. cbn [bind]. rewrite set_ok by lia. cbn [bind].
  rewrite (get_ok _ _ 0) by (rewrite len_set; lia). cbn [bind]. rewrite set_ok by (rewrite len_set; lia).
  eexists. split; [reflexivity|]. rewrite nth_set, Nat.eqb_refl by lia.
  rewrite N.shiftl_mul_pow2. change (2 ^ 8) with 256. unfold wrap64. rewrite <- word_pow512.
  rewrite takeN_app_l, takeN_takeN, N.min_id by (rewrite len_takeN; lia).
  rewrite (dropN_app_r (len p / 8 + 1)) by (rewrite len_takeN; lia). rewrite len_takeN, N.min_l by lia.
  replace (len p / 8 + 1 - len p / 8) with 1 by lia. change (dropN 1 (?a :: ?l)) with l. exact Hs.
Qed.

Lemma fill512_ok data size : size <= len data -> forall n W p i, words_ok 8 W p -> len p + N.of_nat n = 128 -> i <= size ->
  exists k W', sha512_fill n data size (len p) i W = Ret (len p + k, i + k, W') /\
    words_ok 8 W' (p ++ takeN k (dropN i data)) /\ i + k <= size /\ len p + k <= 128 /\ (len p + k = 128 \/ i + k = size).
Proof.
  intro Hsz. induction n; intros W p i HW Hp Hi; cbn [sha512_fill].
  - exists 0, W. rewrite !N.add_0_r, takeN_0, app_nil_r. splits; try assumption; try reflexivity; lia.
  - destruct (N.ltb_spec i size).
    + rewrite (get_ok data i x00) by lia. cbn [bind].
      destruct (put512_ok W p (nth (N.to_nat i) data x00) HW) as (W1 & E1 & H1); [lia|]. rewrite E1. cbn [bind].
      destruct (IHn W1 (p ++ [nth (N.to_nat i) data x00]) (i + 1) H1) as (k & W' & E2 & H2 & H3 & H4 & H5);
        [rewrite len_app; change (len [_]) with 1; lia|lia|].
      rewrite len_app in *. change (len [nth (N.to_nat i) data x00]) with 1 in *.
      exists (1 + k), W'. rewrite <- !N.add_assoc in E2. rewrite E2. splits; try reflexivity; try lia.
      rewrite <- app_assoc in H2. cbn [app] in H2.
      replace (takeN (1 + k) (dropN i data)) with (nth (N.to_nat i) data x00 :: takeN k (dropN (i + 1) data)); [assumption|].
      symmetry. apply take_step. lia.
    + exists 0, W. rewrite !N.add_0_r, takeN_0, app_nil_r. splits; try assumption; try reflexivity; try lia.
Qed.

(** ** Hash states *)

(** The state after the bytes [m]: the complete blocks [full] are compressed, the rest [p] is in the word buffer. *)
Definition rep512 (st : sha512_state) (m : list byte) : Prop :=
  exists full p, m = full ++ p /\ len full mod 128 = 0 /\ len p = fill512 st /\ fill512 st < 128 /\
    words_ok 8 (W512 st) p /\ len (H512 st) = 8 /\ Forall word (H512 st) /\
    H512 st = fold_left (fun hs b => compress A hs (words A b)) (pieces 128 full) h0.

Lemma fold_block full b : len full mod 128 = 0 -> len b = 128 ->
  len (full ++ b) mod 128 = 0 /\
  fold_left (fun hs b => compress A hs (words A b)) (pieces 128 (full ++ b)) h0 =
  compress A (fold_left (fun hs b => compress A hs (words A b)) (pieces 128 full) h0) (words A b).
Proof.
  intros Hf Hb. split; [rewrite len_app, Hb; lia|].
  rewrite pieces_app, fold_left_app, (pieces_one 128 b) by (assumption || reflexivity). reflexivity.
Qed.

Lemma absorb512_ok data size : size <= len data -> forall fuel i st m, i <= size -> size - i <= N.of_nat fuel -> rep512 st m ->
  exists st', sha512_absorb fuel data size i st = Ret st' /\ rep512 st' (m ++ takeN (size - i) (dropN i data)) /\ total512 st' = total512 st.
Proof.
  intro Hsz. induction fuel; intros i st m Hi Hfu Hr; cbn [sha512_absorb]; destruct (N.ltb_spec i size) as [Hlt|Hge]; try lia.
  1, 3: exists st; replace (size - i) with 0 by lia; rewrite takeN_0, app_nil_r; now splits.
  destruct Hr as (full & p & Em & E1 & E2 & E3 & E4 & E5 & E6 & E7). rewrite <- E2 in *.
  destruct (fill512_ok data size Hsz (N.to_nat (128 - len p)) (W512 st) p i) as (k & W' & F1 & F2 & F3 & F4 & F5); try assumption; [lia|].
  rewrite F1. cbn [bind]. destruct (N.ltb_spec (len p + k) 128) as [Hj|Hj].
  - eexists. split; [reflexivity|]. split; [|reflexivity].
    replace (size - i) with k by lia.
    exists full, (p ++ takeN k (dropN i data)). cbn [W512 H512 fill512]. splits; try assumption.
    + subst m. now rewrite app_assoc.
    + rewrite len_app, len_takeN, len_dropN. lia.
  - assert (Hb : len (p ++ takeN k (dropN i data)) = 128) by (rewrite len_app, len_takeN, len_dropN; lia).
    destruct (main512_ok' W' (H512 st) (len p) (total512 st) _ F2 Hb E5 E6) as (W2 & G1 & G2). rewrite G1. cbn [bind].
    destruct (IHfuel (i + k) (mkSha512 W2 (compress A (H512 st) (words A (p ++ takeN k (dropN i data)))) 0 (total512 st))
                (m ++ takeN k (dropN i data))) as (st' & I1 & I2 & I3); [lia|lia| |].
    + destruct (fold_block full (p ++ takeN k (dropN i data)) E1 Hb) as (B1 & B2).
      exists (full ++ p ++ takeN k (dropN i data)), []. cbn [W512 H512 fill512]. splits; try assumption; try reflexivity.
      * subst m. now rewrite app_nil_r, app_assoc.
      * now apply compress_length.
      * apply compress_word.
      * rewrite B2, E7. reflexivity.
    + exists st'. splits; [assumption| |assumption].
      replace (takeN (size - i) (dropN i data)) with (takeN k (dropN i data) ++ takeN (size - (i + k)) (dropN (i + k) data)); [now rewrite app_assoc|].
      rewrite (N.add_comm i k), <- dropN_dropN. rewrite <- (takeN_dropN k (dropN i data)) at 3.
      rewrite takeN_app_r by (rewrite len_takeN; lia). rewrite len_takeN, len_dropN.
      do 2 f_equal. lia.
Qed.

Lemma update512_ok st m data : slice_ok data -> rep512 st m -> total512 st = len m mod 18446744073709551616 ->
  exists st', n20_sha512_update (Some st) data = Ret (Some st') /\
    rep512 st' (m ++ slice_bytes data) /\ total512 st' = len (m ++ slice_bytes data) mod 18446744073709551616.
Proof.
  intros [Hs1 Hs2] Hr Ht. unfold n20_sha512_update, slice_bytes. destruct (sl_buf data) as [d|] eqn:Ed.
  - destruct (absorb512_ok d (sl_size data) Hs2 (S (N.to_nat (sl_size data))) 0
      (mkSha512 (W512 st) (H512 st) (fill512 st) (wrap64 (total512 st + sl_size data))) m) as (st' & E1 & E2 & E3); [lia|lia|exact Hr|].
    rewrite E1. cbn [bind]. exists st'. rewrite N.sub_0_r, dropN_0 in E2. splits; [reflexivity|assumption|].
    rewrite E3, len_app, len_takeN, N.min_l by assumption. cbn [total512]. unfold wrap64. rewrite Ht.
    now rewrite N.add_mod_idemp_l by discriminate.
  - exists st. rewrite app_nil_r. now splits.
Qed.

(** ** Padding *)

Lemma range_map (f : N -> byte) lo hi : lo < hi -> 
  map f (map N.of_nat (seq (N.to_nat lo) (N.to_nat (hi + 1 - lo)))) = map f (map N.of_nat (seq (N.to_nat lo) (N.to_nat (hi - lo)))) ++ [f hi].
Proof.
  intro Hl. replace (N.to_nat (hi + 1 - lo)) with (N.to_nat (hi - lo) + 1)%nat by lia.
  rewrite seq_app, !map_app. cbn [seq map]. do 2 f_equal. f_equal. lia.
Qed.

Lemma padloop512_ok (f : N -> byte) W p hi : words_ok 8 W p -> len p <= hi -> hi <= 128 ->
  exists W', for_range (len p) hi (fun i W => sha512_put i (f i) W) W = Ret W' /\
    words_ok 8 W' (p ++ map f (map N.of_nat (seq (length p) (N.to_nat (hi - len p))))).
Proof.
  intros HW H1 H2.
  set (P := fun k W => words_ok 8 W (p ++ map f (map N.of_nat (seq (length p) (N.to_nat (k - len p)))))).
  apply (for_inv P); [assumption| |].
  - unfold P. rewrite N.sub_diag. cbn. now rewrite app_nil_r.
  - intros k V Hk HV. unfold P in HV.
    set (q := map f (map N.of_nat (seq (length p) (N.to_nat (k - len p))))) in *.
    assert (Lq : len (p ++ q) = k).
    { rewrite len_app. unfold q. rewrite !len_map. unfold len at 2. rewrite seq_length. lia. }
    destruct (put512_ok V (p ++ q) (f k) HV) as (V' & E & HV'); [lia|]. rewrite Lq in E. exists V'. split; [assumption|].
    unfold P. replace (N.to_nat (k + 1 - len p)) with (N.to_nat (k - len p) + 1)%nat by lia.
    rewrite seq_app, !map_app. cbn [seq map]. fold q. rewrite <- app_assoc in HV'.
    replace (N.of_nat (length p + N.to_nat (k - len p))) with k by (unfold len in *; lia). assumption.
Qed.
Lemma map_const {T} (l : list T) (b : byte) : map (fun _ => b) l = repeat b (length l).
Proof. induction l; cbn; congruence. Qed.
Lemma zeros512_ok W p hi : words_ok 8 W p -> len p <= hi -> hi <= 128 ->
  exists W', for_range (len p) hi (fun i W => sha512_put i x00 W) W = Ret W' /\
    words_ok 8 W' (p ++ repeat x00 (N.to_nat (hi - len p))).
Proof.
  intros HW H1 H2. destruct (padloop512_ok (fun _ => x00) W p hi HW H1 H2) as (W' & E & HW').
  exists W'. split; [exact E|]. now rewrite map_const, map_length, seq_length in HW'.
Qed.

Lemma len_field b :
  map (fun i => n2b (N.land (N.shiftr b (8 * (127 - i))) 255)) (map N.of_nat (seq 120 8)) = be_bytes 8 b.
Proof.
  cbn [seq map be_bytes app].
  repeat match goal with |- context [N.of_nat ?k] => let v := eval vm_compute in (N.of_nat k) in change (N.of_nat k) with v end.
  repeat match goal with |- context [8 * (?a - ?c)] => let v := eval vm_compute in (8 * (a - c)) in change (8 * (a - c)) with v end.
  change 255 with (N.ones 8). rewrite !N.land_ones. change (2 ^ 8) with 256. rewrite !n2b_mod, !N.shiftr_div_pow2.
  rewrite !N.div_div by discriminate.
  repeat match goal with |- context [2 ^ ?k] => let v := eval vm_compute in (2 ^ k) in change (2 ^ k) with v end.
  repeat match goal with |- context [256 * ?k] => let v := eval vm_compute in (256 * k) in change (256 * k) with v end.
  now rewrite N.div_1_r.
Qed.

Lemma output512_ok hs n d : len hs = 8 -> n <= 8 * 8 -> n <= len d ->
  sha512_output hs n (Some d) = Ret (Some (takeN n (flat_map (be_bytes (N.to_nat 8)) hs) ++ dropN n d)).
Proof.
  intros Hh Hn Hd. set (o := flat_map (be_bytes (N.to_nat 8)) hs).
  assert (Lo : len o = 8 * 8).
  { destruct (list8 hs Hh) as (r0 & r1 & r2 & r3 & r4 & r5 & r6 & r7 & ->). unfold o. cbn [flat_map].
    rewrite !len_app, !len_be_bytes. reflexivity. }
  assert (Ho : forall i, i < 8 * 8 ->
    n2b (N.land (N.shiftr (nth (N.to_nat (i / 8)) hs 0) (8 * (7 - N.land i 7))) 255) = nth (N.to_nat i) o x00).
  { intros i Hi. change 7 with (N.ones 3) at 2. rewrite N.land_ones. change (2 ^ 3) with 8.
    change 255 with (N.ones 8). rewrite N.land_ones. change (2 ^ 8) with 256. rewrite n2b_mod, N.shiftr_div_pow2.
    assert (Hq : i / 8 < 8) by lia. assert (Hr : i mod 8 < 8) by lia.
    replace (N.to_nat i) with (N.to_nat 8 * N.to_nat (i / 8) + N.to_nat (i mod 8))%nat by lia.
    unfold o. clear o Lo. revert Hq Hr. generalize (i / 8) (i mod 8). clear i Hi. intros q r Hq Hr.
    assert (Hn2 : forall (hs : list N) k, (k < length hs)%nat ->
      nth (N.to_nat 8 * k + N.to_nat r)%nat (flat_map (be_bytes (N.to_nat 8)) hs) x00 =
      nth (N.to_nat r) (be_bytes (N.to_nat 8) (nth k hs 0)) x00).
    { clear - Hr. induction hs as [|h hs IH]; intros k Hk; cbn in Hk; [lia|]. cbn [flat_map]. destruct k.
      - rewrite Nat.mul_0_r, Nat.add_0_l. rewrite app_nth1 by (rewrite length_be_bytes; lia). reflexivity.
      - rewrite app_nth2 by (rewrite length_be_bytes; lia). rewrite length_be_bytes.
        replace (N.to_nat 8 * S k + N.to_nat r - N.to_nat 8)%nat with (N.to_nat 8 * k + N.to_nat r)%nat by lia.
        rewrite IH by lia. reflexivity. }
    rewrite Hn2 by (unfold len in Hh; lia). generalize (nth (N.to_nat q) hs 0). intro h.
    rewrite nth_be_bytes by lia. do 2 f_equal. rewrite pow_256. f_equal. lia. }
  unfold sha512_output.
  destruct (for_inv (fun i p => p = Some (takeN i o ++ dropN i d))
    (fun i digest => do h <- get hs (N.shiftr i 3);
      let v := N.land (N.shiftr h (8 * (7 - N.land i 7))) 255 in
      match digest with None => Undef UBNullDeref | Some d => do d <- set d i (n2b v); Ret (Some d) end) 0 n (Some d)) as (s & E & ->).
  - lia.
  - now rewrite takeN_0, dropN_0.
  - intros i s Hi ->. rewrite N.shiftr_div_pow2. change (2 ^ 3) with 8.
    rewrite (get_ok hs (i / 8) 0) by (rewrite Hh; lia). cbn [bind]. cbv zeta. rewrite Ho by lia.
    rewrite set_ok by (rewrite len_app, len_takeN, len_dropN; lia). cbn [bind]. eexists. split; [reflexivity|]. f_equal.
    rewrite takeN_app_l, takeN_takeN, N.min_id by (rewrite len_takeN; lia).
    rewrite dropN_app_r by (rewrite len_takeN; lia). rewrite len_takeN, N.min_l by lia. rewrite dropN_dropN.
    replace (i + 1 - i + i) with (i + 1) by lia.
    unfold takeN at 2. replace (N.to_nat (i + 1)) with (S (N.to_nat i)) by lia.
    rewrite (firstn_snoc o (N.to_nat i) x00) by (unfold len in Lo; lia). rewrite <- app_assoc. reflexivity.
  - exact E.
Qed.

Lemma finalize512_ok st m n d : rep512 st m -> total512 st = len m mod 18446744073709551616 -> len m < 2305843009213693952 ->
  n <= 8 * 8 -> n <= len d -> outn = n ->
  exists st', n20_sha384_sha512_finalize (Some st) (Some d) n = Ret (Some st', Some (hash A m ++ dropN n d)).
Proof.
  intros (full & p & Em & E1 & E2 & E3 & E4 & E5 & E6 & E7) Ht Hm Hn Hd Ho.
  assert (Tot : wrap64 (total512 st * 8) = 8 * len m).
  { rewrite Ht. unfold wrap64. rewrite N.mod_small by lia. rewrite N.mod_small; lia. }
  unfold n20_sha384_sha512_finalize. rewrite <- E2.
  destruct (put512_ok (W512 st) p x80 E4) as (W1 & F1 & F2); [lia|]. rewrite F1. cbn [bind].
  assert (Lp : len p + 1 = len (p ++ [x80])) by (rewrite len_app; reflexivity). rewrite Lp.
  set (p1 := p ++ [x80]) in *.
  (* the last block: the bytes in it are [q], after complete blocks [full'] *)
  assert (Last : exists full' q W' hs', 
    (if 112 <? len p1
     then do W <- for_range (len p1) 128 (fun i W => sha512_put i x00 W) W1;
          do st <- n20_sha512_main (mkSha512 W (H512 st) (len p) (total512 st)); Ret (0, st)
     else Ret (len p1, mkSha512 W1 (H512 st) (len p) (total512 st))) = Ret (len q, mkSha512 W' hs' (if 112 <? len p1 then 0 else len p) (total512 st)) /\
    words_ok 8 W' q /\ len q <= 112 /\ len full' mod 128 = 0 /\ len hs' = 8 /\ Forall word hs' /\
    hs' = fold_left (fun hs b => compress A hs (words A b)) (pieces 128 full') h0 /\
    full' ++ q = m ++ [x80] ++ repeat x00 (N.to_nat (if 112 <? len p1 then 128 - len p1 else 0))).
  { destruct (N.ltb_spec 112 (len p1)) as [Hc|Hc].
    - destruct (zeros512_ok W1 p1 128 F2) as (W2 & G1 & G2); [lia|lia|]. rewrite G1. cbn [bind].
      assert (Hb : len (p1 ++ repeat x00 (N.to_nat (128 - len p1))) = 128) by (rewrite len_app, len_repeat; lia).
      destruct (main512_ok' W2 (H512 st) (len p) (total512 st) _ G2 Hb E5 E6) as (W3 & G3 & G4). rewrite G3. cbn [bind].
      destruct (fold_block full _ E1 Hb) as (B1 & B2).
      eexists; exists []; do 2 eexists. splits; [reflexivity|exact G4|change (len (@nil byte)) with 0; lia|exact B1|now apply compress_length|apply compress_word| |].
      + rewrite B2, E7. reflexivity.
      + subst m p1. rewrite app_nil_r, <- !app_assoc. reflexivity.
    - eexists; exists p1; do 2 eexists. splits; [reflexivity|exact F2|exact Hc|exact E1|exact E5|exact E6|exact E7|].
      subst m p1. change (N.to_nat 0) with 0%nat. cbn [repeat]. now rewrite app_nil_r, app_assoc. }
  destruct Last as (full' & q & W' & hs' & L1 & L2 & L3 & L4 & L5 & L6 & L7 & L8). rewrite L1. clear L1. cbn [bind W512 H512 fill512 total512].
  destruct (zeros512_ok W' q 120 L2) as (W2 & G1 & G2); [lia|lia|]. rewrite G1. cbn [bind].
  rewrite N.max_r by lia. rewrite Tot.
  set (q2 := q ++ repeat x00 (N.to_nat (120 - len q))) in *.
  assert (Lq2 : len q2 = 120) by (unfold q2; rewrite len_app, len_repeat; lia).
  destruct (padloop512_ok (fun i => n2b (N.land (N.shiftr (8 * len m) (8 * (127 - i))) 255)) W2 q2 128 G2) as (W3 & G3 & G4); [lia|lia|].
  rewrite Lq2 in *. rewrite G3. cbn [bind].
  replace (length q2) with (N.to_nat 120) in G4 by (unfold len in Lq2; lia).
  change (N.to_nat (128 - 120)) with 8%nat in G4. change (N.to_nat 120) with 120%nat in G4. rewrite len_field in G4.
  assert (Hb : len (q2 ++ be_bytes 8 (8 * len m)) = 128) by (rewrite len_app, len_be_bytes, Lq2; reflexivity).
  destruct (main512_ok' W3 hs' (if 112 <? len p1 then 0 else len p) (total512 st) _ G4 Hb L5 L6) as (W4 & G5 & G6). rewrite G5. cbn [bind H512].
  destruct (fold_block full' _ L4 Hb) as (B1 & B2).
  rewrite output512_ok by (try assumption; now apply compress_length). cbn [bind].
  eexists. do 4 f_equal. unfold hash. subst outn. change (out_bytes A) with n. change (wbytes A) with 8. f_equal. f_equal.
  unfold digest_words. change (iv A) with h0. change (block_bytes A) with 128. rewrite L7, <- B2. do 2 f_equal.
  unfold q2. rewrite !app_assoc, L8. 
  apply (f_equal len) in L8. rewrite !len_app, len_repeat in L8. change (len [x80]) with 1 in L8. rewrite Em, len_app in L8.
  clear - Em E1 E2 E3 L3 L4 L8 Lp Hm.
  unfold pad. change (block_bytes A) with 128. change (wbytes A) with 8. rewrite <- !app_assoc. do 2 f_equal.
  rewrite (be_bytes_split (N.to_nat (2 * 8)) 8) by (rewrite ?pow_256; lia).
  rewrite !app_assoc, <- !repeat_app. do 2 f_equal. destruct (N.ltb_spec 112 (len p1)); subst m; rewrite len_app; lia.
Qed.

End WithEnv.
