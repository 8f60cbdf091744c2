(** Facts about checked arrays, loops, and the SHA-2 specification shared by both word sizes. *)
From Coq Require Import List NArith ZArith Bool Strings.Byte Lia.
From Coq Require Import ZifyBool ZifyNat ZifyN.
From Verif Require Import Base BaseFacts Res SpecDigits DigitsFacts SpecSha2.
Import ListNotations.
Open Scope N_scope.

#[global] Arguments N.lxor : simpl never.
#[global] Arguments N.ldiff : simpl never.
#[global] Arguments N.lnot : simpl never.

(** ** Arrays and loops *)

Lemma get_ok {A} (a : list A) i d : i < len a -> get a i = Ret (nth (N.to_nat i) a d).
Proof.
  intro Hi. unfold get. destruct (nth_error a (N.to_nat i)) eqn:E.
  - now rewrite (nth_error_nth _ _ d E).
  - apply nth_error_None in E. unfold len in Hi. lia.
Qed.
Lemma set_ok {A} (a : list A) i x : i < len a -> set a i x = Ret (takeN i a ++ x :: dropN (i + 1) a).
Proof. intro Hi. unfold set. destruct (N.ltb_spec i (len a)); [reflexivity|lia]. Qed.
Lemma len_set {A} (a : list A) i x : i < len a -> len (takeN i a ++ x :: dropN (i + 1) a) = len a.
Proof. intro. rewrite len_app, len_cons, len_takeN, len_dropN. lia. Qed.
Lemma nth_set {A} (a : list A) i x k d : i < len a ->
  nth k (takeN i a ++ x :: dropN (i + 1) a) d = if Nat.eqb k (N.to_nat i) then x else nth k a d.
Proof.
  intro Hi. unfold takeN, dropN. unfold len in Hi.
  assert (L : length (firstn (N.to_nat i) a) = N.to_nat i) by (rewrite firstn_length; lia).
  destruct (Nat.eqb_spec k (N.to_nat i)) as [->|Hk].
  - rewrite app_nth2 by lia. rewrite L, Nat.sub_diag. reflexivity.
  - destruct (Nat.lt_ge_cases k (N.to_nat i)).
    + rewrite app_nth1 by lia. rewrite <- (firstn_skipn (N.to_nat i) a) at 2. rewrite app_nth1 by lia. reflexivity.
    + rewrite app_nth2 by lia. rewrite L. replace (k - N.to_nat i)%nat with (S (k - N.to_nat i - 1)) by lia. cbn [nth].
      rewrite <- (firstn_skipn (N.to_nat (i + 1)) a) at 2. rewrite app_nth2 by (rewrite firstn_length; lia).
      rewrite firstn_length. f_equal. lia.
Qed.

Lemma take_step {A} (l : list A) i k d : i < len l ->
  takeN (1 + k) (dropN i l) = nth (N.to_nat i) l d :: takeN k (dropN (i + 1) l).
Proof.
  intro Hi. unfold takeN, dropN, len in *. replace (N.to_nat (1 + k)) with (S (N.to_nat k)) by lia.
  replace (N.to_nat (i + 1)) with (S (N.to_nat i)) by lia.
  assert (Hn : (N.to_nat i < length l)%nat) by lia. clear Hi. revert Hn. generalize (N.to_nat i) (N.to_nat k). clear. intros i k.
  revert i. induction l; intros i Hi; cbn in Hi; [lia|]. destruct i; [reflexivity|]. cbn [skipn nth]. apply IHl. lia.
Qed.

Lemma iterate_inv {S} (P : N -> S -> Prop) body : forall n i s, P i s ->
  (forall k s, i <= k < i + N.of_nat n -> P k s -> exists s', body k s = Ret s' /\ P (k + 1) s') ->
  exists s', iterate n i body s = Ret s' /\ P (i + N.of_nat n) s'.
Proof.
  induction n; intros i s Hs Hb; cbn [iterate].
  - exists s. split; [reflexivity|]. now rewrite N.add_0_r.
  - destruct (Hb i s) as (s1 & E1 & H1); [lia|assumption|]. rewrite E1. cbn [bind].
    destruct (IHn (i + 1) s1 H1) as (s2 & E2 & H2).
    { intros k s' Hk. apply Hb. lia. }
    exists s2. split; [assumption|]. replace (i + N.of_nat (Datatypes.S n)) with (i + 1 + N.of_nat n) by lia. assumption.
Qed.
Lemma for_inv {S} (P : N -> S -> Prop) body lo hi s : lo <= hi -> P lo s ->
  (forall k s, lo <= k < hi -> P k s -> exists s', body k s = Ret s' /\ P (k + 1) s') ->
  exists s', for_range lo hi body s = Ret s' /\ P hi s'.
Proof.
  intros Hl Hs Hb. unfold for_range. destruct (iterate_inv P body (N.to_nat (hi - lo)) lo s Hs) as (s' & E & H).
  - intros k s' Hk. apply Hb. lia.
  - exists s'. split; [assumption|]. now replace (lo + N.of_nat (N.to_nat (hi - lo))) with hi in H by lia.
Qed.

(** ** Bit operations *)

Lemma pow2_pos n : 0 < 2 ^ n.
Proof. apply N.neq_0_lt_0. now apply N.pow_nonzero. Qed.
Lemma pow2_nz n : 2 ^ n <> 0.
Proof. now apply N.pow_nonzero. Qed.
Lemma pow_256 k : 256 ^ k = 2 ^ (8 * k).
Proof. rewrite N.pow_mul_r. reflexivity. Qed.
Lemma pow256_pos k : 0 < 256 ^ k.
Proof. rewrite pow_256. apply pow2_pos. Qed.
Lemma pow256_nz k : 256 ^ k <> 0.
Proof. now apply N.pow_nonzero. Qed.

Lemma lor_low a b k : b < 2 ^ k -> N.lor (a * 2 ^ k) b = a * 2 ^ k + b.
Proof.
  intro Hb. rewrite <- N.lxor_lor, N.add_nocarry_lxor; try reflexivity;
  (apply N.bits_inj; intro i; rewrite N.land_spec, N.bits_0;
   destruct (N.lt_ge_cases i k);
   [rewrite N.mul_pow2_bits_low by assumption; reflexivity|];
   rewrite <- (N.mod_small b (2 ^ k)) by assumption; rewrite N.mod_pow2_bits_high by assumption; apply andb_false_r).
Qed.

Lemma lt_pow2_bits x w i : x < 2 ^ w -> w <= i -> N.testbit x i = false.
Proof. intros Hx Hi. rewrite <- (N.mod_small x (2 ^ w)) by assumption. now apply N.mod_pow2_bits_high. Qed.
Lemma bits_lt_pow2 x w : (forall i, w <= i -> N.testbit x i = false) -> x < 2 ^ w.
Proof.
  intro Hb. replace x with (x mod 2 ^ w); [apply N.mod_lt, pow2_nz|]. apply N.bits_inj. intro i.
  destruct (N.lt_ge_cases i w); [now apply N.mod_pow2_bits_low|]. rewrite N.mod_pow2_bits_high by assumption. now rewrite Hb.
Qed.
Lemma lxor_lt a b w : a < 2 ^ w -> b < 2 ^ w -> N.lxor a b < 2 ^ w.
Proof. intros. apply bits_lt_pow2. intros i Hi. rewrite N.lxor_spec. now rewrite !(lt_pow2_bits _ w). Qed.
Lemma lor_lt a b w : a < 2 ^ w -> b < 2 ^ w -> N.lor a b < 2 ^ w.
Proof. intros. apply bits_lt_pow2. intros i Hi. rewrite N.lor_spec. now rewrite !(lt_pow2_bits _ w). Qed.

Lemma ch_eq w x y z : z < 2 ^ w -> N.lxor (N.land x y) (N.land (N.lnot x w) z) = Ch x y z.
Proof.
  intro Hz. unfold Ch. apply N.bits_inj. intro i. rewrite N.lxor_spec, N.lor_spec, !N.land_spec, N.ldiff_spec.
  destruct (N.lt_ge_cases i w).
  - rewrite N.lnot_spec_low by assumption. now destruct (N.testbit x i), (N.testbit y i), (N.testbit z i).
  - rewrite (lt_pow2_bits z w) by assumption. rewrite andb_false_r. now destruct (N.testbit x i), (N.testbit y i).
Qed.
Lemma maj_eq x y z : N.lxor (N.lxor (N.land x y) (N.land x z)) (N.land y z) = Maj x y z.
Proof.
  unfold Maj. apply N.bits_inj. intro i. rewrite !N.lxor_spec, !N.lor_spec, !N.land_spec.
  now destruct (N.testbit x i), (N.testbit y i), (N.testbit z i).
Qed.
Lemma rotr_eq A x n : x < modulus A -> n <= wbits A ->
  N.lor (N.shiftr x n) (N.shiftl x (wbits A - n) mod modulus A) = ROTR A n x.
Proof.
  intros Hx Hn. unfold ROTR, modulus in *. rewrite N.shiftr_div_pow2, N.shiftl_mul_pow2.
  replace (x * 2 ^ (wbits A - n) mod 2 ^ wbits A) with (x mod 2 ^ n * 2 ^ (wbits A - n)).
  - rewrite N.lor_comm, lor_low, N.add_comm; [reflexivity|].
    apply N.div_lt_upper_bound; [apply pow2_nz|]. rewrite <- N.pow_add_r. now replace (n + (wbits A - n)) with (wbits A) by lia.
  - replace (2 ^ wbits A) with (2 ^ n * 2 ^ (wbits A - n)) by (rewrite <- N.pow_add_r; f_equal; lia).
    now rewrite N.mul_mod_distr_r by apply pow2_nz.
Qed.

Lemma nth_be_bytes k : forall n r, (r < k)%nat -> nth r (be_bytes k n) x00 = n2b (n / 256 ^ N.of_nat (k - 1 - r)).
Proof.
  induction k; intros n r Hr; [lia|]. rewrite be_bytes_S. destruct (Nat.eq_dec r k) as [->|Hne].
  - rewrite app_nth2; rewrite length_be_bytes; [|lia]. rewrite Nat.sub_diag. replace (S k - 1 - k)%nat with 0%nat by lia.
    cbn [nth]. change (256 ^ N.of_nat 0) with 1. now rewrite N.div_1_r.
  - rewrite app_nth1 by (rewrite length_be_bytes; lia). rewrite IHk by lia. rewrite N.div_div by (try discriminate; apply pow256_nz).
    replace (S k - 1 - r)%nat with (S (k - 1 - r)) by lia. rewrite Nat2N.inj_succ, N.pow_succ_r'. reflexivity.
Qed.
Lemma be_bytes_0 k : be_bytes k 0 = repeat x00 k.
Proof.
  induction k; [reflexivity|]. rewrite be_bytes_S. change (0 / 256) with 0. rewrite IHk. change (n2b 0) with x00.
  change (repeat x00 (S k)) with (x00 :: repeat x00 k). now rewrite repeat_cons.
Qed.
Lemma be_bytes_split k j : forall n, (j <= k)%nat -> n < 256 ^ N.of_nat j -> be_bytes k n = repeat x00 (k - j) ++ be_bytes j n.
Proof.
  revert j. induction k; intros j n Hj Hn.
  - replace j with 0%nat by lia. reflexivity.
  - destruct j.
    + change (256 ^ N.of_nat 0) with 1 in Hn. replace n with 0 by lia. rewrite be_bytes_0, app_nil_r. reflexivity.
    + rewrite !be_bytes_S. rewrite (IHk j) by (try lia; rewrite Nat2N.inj_succ, N.pow_succ_r' in Hn; apply N.div_lt_upper_bound; lia).
      now rewrite app_assoc.
Qed.

(** ** The schedule *)

Lemma extend_prefix A n : forall ws k, (k < length ws)%nat -> nth k (extend A n ws) 0 = nth k ws 0.
Proof.
  induction n; intros ws k Hk; cbn [extend]; [reflexivity|].
  rewrite IHn by (rewrite app_length; cbn; lia). now apply app_nth1.
Qed.
Lemma extend_length A n : forall ws, length (extend A n ws) = (n + length ws)%nat.
Proof. induction n; intro ws; cbn [extend]; [reflexivity|]. rewrite IHn, app_length. cbn. lia. Qed.
Lemma extend_nth A n : forall ws t, (16 <= length ws)%nat -> (length ws <= t < n + length ws)%nat ->
  let w i := nth (t - i) (extend A n ws) 0 in
  nth t (extend A n ws) 0 = (rot2shr A (sig1 A) (w 2%nat) + w 7%nat + rot2shr A (sig0 A) (w 15%nat) + w 16%nat) mod modulus A.
Proof.
  induction n; intros ws t Hw Ht; [lia|]. cbn [extend]. set (x := _ mod modulus A).
  destruct (Nat.eq_dec t (length ws)) as [->|Hne].
  - cbv zeta. rewrite !extend_prefix by (rewrite app_length; cbn; lia).
    rewrite app_nth2, Nat.sub_diag by lia. cbn [nth]. unfold x. now rewrite !app_nth1 by lia.
  - apply IHn; rewrite app_length; cbn; lia.
Qed.
Lemma schedule_length A b : length b = 16%nat -> (16 <= length (consts A))%nat ->
  length (schedule A b) = length (consts A).
Proof. intros. unfold schedule. rewrite extend_length. lia. Qed.
Lemma schedule_lo A b k : length b = 16%nat -> (k < 16)%nat -> nth k (schedule A b) 0 = nth k b 0.
Proof. intros. apply extend_prefix. lia. Qed.
Lemma schedule_hi A b t : length b = 16%nat -> (16 <= t < length (consts A))%nat ->
  let w i := nth (t - i) (schedule A b) 0 in
  nth t (schedule A b) 0 = (rot2shr A (sig1 A) (w 2%nat) + w 7%nat + rot2shr A (sig0 A) (w 15%nat) + w 16%nat) mod modulus A.
Proof. intros. apply extend_nth; lia. Qed.

Lemma modulus_pos A : modulus A <> 0.
Proof. apply pow2_nz. Qed.

Lemma schedule_lt A b : Forall (fun x => x < modulus A) b -> Forall (fun x => x < modulus A) (schedule A b).
Proof.
  unfold schedule. generalize (length (consts A) - 16)%nat as n. intro n. revert b.
  induction n; intros b Hb; cbn [extend]; [assumption|]. apply IHn. apply Forall_app. split; [assumption|].
  constructor; [|constructor]. apply N.mod_lt, modulus_pos.
Qed.

Lemma firstn_snoc {A} (l : list A) k d : (k < length l)%nat -> firstn (S k) l = firstn k l ++ [nth k l d].
Proof.
  revert k. induction l; intros k Hk; cbn in Hk; [lia|]. destruct k; cbn; [reflexivity|]. f_equal. apply IHl. lia.
Qed.

(** Round constants and schedule words, up to round [j]. *)
Definition rounds_upto (A : sha2) (b : list N) (j : N) (s : regs) : regs :=
  fold_left (round A) (firstn (N.to_nat j) (combine (consts A) (schedule A b))) s.
Lemma rounds_upto_S A b j s : length b = 16%nat -> (16 <= length (consts A))%nat -> (N.to_nat j < length (consts A))%nat ->
  rounds_upto A b (j + 1) s = round A (rounds_upto A b j s) (nth (N.to_nat j) (consts A) 0, nth (N.to_nat j) (schedule A b) 0).
Proof.
  intros Hb Hc Hj. pose proof (schedule_length A b Hb Hc) as Hl. unfold rounds_upto.
  replace (N.to_nat (j + 1)) with (S (N.to_nat j)) by lia.
  rewrite (firstn_snoc _ _ (0, 0)) by (rewrite combine_length; lia). rewrite fold_left_app. cbn [fold_left].
  now rewrite combine_nth by lia.
Qed.

(** ** Pieces *)

Lemma pieces_app n a b : 0 < n -> len a mod n = 0 -> pieces n (a ++ b) = pieces n a ++ pieces n b.
Proof.
  intros Hn Ha. unfold pieces. rewrite len_app.
  assert (E : len a = n * (len a / n)) by (rewrite (N.div_mod (len a) n) at 1 by lia; rewrite Ha; lia).
  replace ((len a + len b) / n) with (len a / n + len b / n) by (rewrite E at 2; rewrite N.mul_comm, N.div_add_l by lia; lia).
  rewrite N2Nat.inj_add, seq_app, map_app. f_equal.
  - apply map_ext_in. intros i Hi. apply in_seq in Hi. cbn in Hi.
    assert (n * N.of_nat i + n <= len a) by nia.
    rewrite dropN_app_l by lia. apply takeN_app_l. rewrite len_dropN. lia.
  - rewrite Nat.add_0_l. rewrite <- (Nat.add_0_r (N.to_nat (len a / n))) at 1.
    generalize (N.to_nat (len b / n)) as k. generalize 0%nat as o. intros o k. revert o.
    induction k; intro o; cbn [seq map]; [reflexivity|]. f_equal.
    + rewrite dropN_app_r by nia. do 2 f_equal. nia.
    + rewrite <- IHk. now rewrite Nat.add_succ_r.
Qed.
Lemma pieces_nil n : pieces n [] = [].
Proof. unfold pieces. change (len (@nil byte)) with 0. now destruct n. Qed.
Lemma pieces_one n a : 0 < n -> len a = n -> pieces n a = [a].
Proof.
  intros Hn Ha. unfold pieces. rewrite Ha, N.div_same by lia.
  change (N.to_nat 1) with 1%nat. cbn [seq map]. change (N.of_nat 0) with 0. rewrite N.mul_0_r, dropN_0. rewrite <- Ha at 1. now rewrite takeN_len.
Qed.

(** ** Filling words byte by byte *)

(** The bytes of word [k] among the bytes [p] received so far, and the condition that the word array holds them. *)
Definition chunk (n k : N) (p : list byte) : list byte := takeN n (dropN (n * k) p).
Definition words_ok (n : N) (W : list N) (p : list byte) : Prop :=
  len W = 16 /\ Forall (fun x => x < 256 ^ n) W /\
  forall k, k < 16 -> nth (N.to_nat k) W 0 mod 256 ^ len (chunk n k p) = be_val (chunk n k p).

Lemma words_ok_nil n W : len W = 16 -> Forall (fun x => x < 256 ^ n) W -> words_ok n W [].
Proof.
  intros H1 H2. split; [assumption|split; [assumption|]]. intros k Hk. unfold chunk.
  rewrite dropN_all, takeN_all by (change (len (@nil byte)) with 0; lia). apply N.mod_1_r.
Qed.

Lemma len_chunk n k p : len (chunk n k p) = N.min n (len p - n * k).
Proof. unfold chunk. now rewrite len_takeN, len_dropN. Qed.

Lemma words_ok_snoc n W p b : 0 < n -> words_ok n W p -> len p < 16 * n ->
  let k := len p / n in
  let x := nth (N.to_nat k) W 0 in
  words_ok n (takeN k W ++ N.lor ((x * 256) mod 256 ^ n) (b2n b) :: dropN (k + 1) W) (p ++ [b]).
Proof.
  intros Hn (Hl & Hf & Hw) Hp k x.
  assert (Hdm : len p = n * k + len p mod n) by (apply N.div_mod; lia).
  assert (Hr : len p mod n < n) by (apply N.mod_lt; lia).
  assert (Hk : k < 16) by nia.
  assert (Hpow : 256 ^ n = 256 ^ (n - 1) * 256) by (rewrite N.mul_comm, <- N.pow_succ_r'; f_equal; lia).
  pose proof (pow256_pos (n - 1)). pose proof (b2n_lt b) as Hb.
  assert (Hlor : N.lor ((x * 256) mod 256 ^ n) (b2n b) = x mod 256 ^ (n - 1) * 256 + b2n b).
  { rewrite Hpow, N.mul_mod_distr_r by lia. change 256 with (2 ^ 8) at 2 4. apply lor_low. exact Hb. }
  rewrite Hlor.
  assert (Hx : x mod 256 ^ (n - 1) < 256 ^ (n - 1)) by (apply N.mod_lt; lia).
  unfold words_ok. splits.
  - rewrite len_set by lia. assumption.
  - rewrite Forall_forall in *. intros y Hy. apply in_app_or in Hy. destruct Hy as [Hy|[<-|Hy]].
    + apply Hf. rewrite <- (takeN_dropN k W). apply in_or_app. now left.
    + nia.
    + apply Hf. rewrite <- (takeN_dropN (k + 1) W). apply in_or_app. now right.
  - intros i Hi. rewrite nth_set by lia. unfold chunk. destruct (Nat.eqb_spec (N.to_nat i) (N.to_nat k)) as [E|E].
    + apply N2Nat.inj in E. subst i. rewrite dropN_app_l by lia.
      set (q := dropN (n * k) p). assert (Hq : len q = len p mod n) by (unfold q; rewrite len_dropN; lia).
      rewrite (takeN_all n (q ++ [b])) by (rewrite len_app, len_cons; change (len (@nil byte)) with 0; lia).
      specialize (Hw k Hk). unfold chunk in Hw. fold q in Hw. rewrite (takeN_all n q) in Hw by lia. fold x in Hw.
      rewrite be_val_snoc, <- Hw, len_app. change (len [b]) with 1. rewrite N.pow_add_r. change (256 ^ 1) with 256.
      rewrite (N.mul_comm (256 ^ len q) 256). rewrite N.mod_mul_r by (try apply pow256_nz; lia).
      rewrite N.div_add_l, (N.div_small (b2n b)) by lia. rewrite N.add_0_r.
      rewrite (N.add_comm (_ * 256)), N.mod_add, N.mod_small by lia.
      replace ((x mod 256 ^ (n - 1)) mod 256 ^ len q) with (x mod 256 ^ len q); [lia|].
      replace (256 ^ (n - 1)) with (256 ^ len q * 256 ^ (n - 1 - len q)) by (rewrite <- N.pow_add_r; f_equal; lia).
      rewrite N.mod_mul_r by apply pow256_nz. rewrite N.mul_comm, N.mod_add by apply pow256_nz.
      rewrite N.mod_mod by apply pow256_nz. reflexivity.
    + specialize (Hw i Hi). unfold chunk in Hw.
      assert (Hik : i < k \/ k < i) by lia. destruct Hik.
      * rewrite dropN_app_l, takeN_app_l by (rewrite ?len_dropN; nia). assumption.
      * rewrite dropN_all, takeN_all by (rewrite ?len_app; change (len [b]) with 1; change (len (@nil byte)) with 0; nia).
        apply N.mod_1_r.
Qed.

Lemma words_ok_full A W p : 0 < wbytes A -> words_ok (wbytes A) W p -> len p = block_bytes A ->
  W = words A p /\ length (words A p) = 16%nat /\ Forall (fun x => x < modulus A) (words A p).
Proof.
  intros Hn (Hl & Hf & Hw) Hp. unfold block_bytes in Hp.
  assert (E : W = words A p).
  { unfold words, pieces. rewrite Hp, N.div_mul by lia. change (N.to_nat 16) with 16%nat.
    apply (nth_ext _ _ 0 0).
    - rewrite !map_length, seq_length. unfold len in Hl. lia.
    - intros k Hk. unfold len in Hl. rewrite map_map.
      rewrite (nth_indep (map _ _) 0 (be_val (takeN (wbytes A) (dropN (wbytes A * N.of_nat 0) p)))) by (rewrite map_length, seq_length; lia).
      rewrite (map_nth (fun i => be_val (takeN (wbytes A) (dropN (wbytes A * N.of_nat i) p)))), seq_nth, Nat.add_0_l by lia.
      specialize (Hw (N.of_nat k)). rewrite Nat2N.id, len_chunk, Hp in Hw.
      rewrite N.min_l in Hw by nia. rewrite N.mod_small in Hw; [apply Hw; lia|].
      rewrite Forall_forall in Hf. apply Hf, nth_In. lia. }
  rewrite <- E. splits.
  - reflexivity.
  - unfold len in Hl. lia.
  - unfold modulus, wbits. now rewrite <- pow_256.
Qed.
