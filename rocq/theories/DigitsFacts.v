(** Facts about positional notation. *)
From Coq Require Import List NArith ZArith Bool Lia Strings.Byte.
From Coq Require Import ZifyBool ZifyNat ZifyN.
From Verif Require Import Base BaseFacts SpecDigits.
Import ListNotations.
Open Scope N_scope.

Lemma undigits_fold base ds a :
  fold_left (fun a d => a * base + d) ds a = a * base ^ len ds + undigits base ds.
Proof.
  unfold undigits. revert a. induction ds as [|d ds IH]; intro a.
  - cbn [fold_left]. change (len (@nil N)) with 0. rewrite N.pow_0_r. lia.
  - cbn [fold_left]. rewrite IH. rewrite (IH (0 * base + d)). rewrite len_cons, N.pow_add_r, N.pow_1_r. lia.
Qed.

Lemma undigits_nil base : undigits base [] = 0.
Proof. reflexivity. Qed.
Lemma undigits_cons base d ds : undigits base (d :: ds) = d * base ^ len ds + undigits base ds.
Proof. unfold undigits at 1. cbn [fold_left]. rewrite undigits_fold. lia. Qed.
Lemma undigits_app base a b : undigits base (a ++ b) = undigits base a * base ^ len b + undigits base b.
Proof. unfold undigits at 1. rewrite fold_left_app. apply undigits_fold. Qed.
Lemma undigits_snoc base a d : undigits base (a ++ [d]) = undigits base a * base + d.
Proof. unfold undigits. now rewrite fold_left_app. Qed.

Lemma undigits_lt base ds : 0 < base -> Forall (fun d => d < base) ds -> undigits base ds < base ^ len ds.
Proof.
  intros Hb H. induction ds as [|d ds IH] using rev_ind.
  - change (len (@nil N)) with 0. rewrite N.pow_0_r, undigits_nil. lia.
  - apply Forall_app in H as [H1 H2]. inversion H2; subst. specialize (IH H1).
    rewrite undigits_snoc, len_app. change (len [d]) with 1. rewrite N.pow_add_r, N.pow_1_r. nia.
Qed.

Lemma size_nat_size n : N.of_nat (N.size_nat n) = N.size n.
Proof.
  destruct n as [|p]; [reflexivity|]. cbn [N.size_nat N.size].
  induction p; cbn [Pos.size_nat Pos.size]; lia.
Qed.
Lemma lt_pow_size n : n < 2 ^ N.of_nat (N.size_nat n).
Proof. rewrite size_nat_size. apply N.size_gt. Qed.

Lemma digits_le_fuel base : 2 <= base -> forall f f' n,
  n < 2 ^ N.of_nat f -> n < 2 ^ N.of_nat f' -> digits_le (S f) base n = digits_le (S f') base n.
Proof.
  intro Hb. induction f as [|f IH]; intros f' n H H'.
  - change (2 ^ N.of_nat 0) with 1 in H. replace n with 0 by lia.
    cbn [digits_le]. rewrite N.div_0_l by lia. reflexivity.
  - cbn [digits_le]. f_equal. destruct (N.eqb_spec (n / base) 0) as [|Hn]; [reflexivity|].
    destruct f' as [|f'].
    + change (2 ^ N.of_nat 0) with 1 in H'. replace n with 0 in Hn by lia. rewrite N.div_0_l in Hn; lia.
    + apply IH.
      * rewrite Nat2N.inj_succ, N.pow_succ_r' in H.
        apply N.div_lt_upper_bound; [lia|]. nia.
      * rewrite Nat2N.inj_succ, N.pow_succ_r' in H'.
        apply N.div_lt_upper_bound; [lia|]. nia.
Qed.

Lemma div_lt_pow_size base n : 2 <= base -> n / base < 2 ^ N.of_nat (N.size_nat n).
Proof.
  intro. eapply N.le_lt_trans; [|apply lt_pow_size].
  apply N.div_le_upper_bound; [lia|]. nia.
Qed.

Lemma digits_eq base n : 2 <= base ->
  digits base n = if n <? base then [n] else digits base (n / base) ++ [n mod base].
Proof.
  intro Hb. unfold digits.
  change (digits_le (S (N.size_nat n)) base n)
    with (n mod base :: (if n / base =? 0 then [] else digits_le (N.size_nat n) base (n / base))).
  destruct (N.ltb_spec n base) as [Hn|Hn].
  - rewrite N.div_small, N.mod_small by assumption. reflexivity.
  - assert (n / base <> 0).
    { intro E. apply N.div_small_iff in E; lia. }
    destruct (N.eqb_spec (n / base) 0); [contradiction|].
    assert (HS : exists k, N.size_nat n = S k).
    { destruct (N.size_nat n) as [|k] eqn:E; [|eauto]. pose proof (lt_pow_size n). rewrite E in *.
      change (2 ^ N.of_nat 0) with 1 in *. lia. }
    destruct HS as (k & Hk). cbn [rev]. f_equal. rewrite Hk. f_equal.
    apply digits_le_fuel; [assumption| |apply lt_pow_size].
    pose proof (lt_pow_size n) as HL. rewrite Hk, Nat2N.inj_succ, N.pow_succ_r' in HL.
    apply N.div_lt_upper_bound; [lia|]. nia.
Qed.

Lemma N_div_lt n base : 2 <= base -> base <= n -> n / base < n.
Proof. intros. apply N.div_lt; lia. Qed.

(** Induction along the digits of a number. *)
Lemma digits_ind base (P : N -> Prop) : 2 <= base ->
  (forall n, n < base -> P n) -> (forall n, base <= n -> P (n / base) -> P n) -> forall n, P n.
Proof.
  intros Hb H0 H1 n. induction n as [n IH] using (well_founded_induction N.lt_wf_0).
  destruct (N.lt_ge_cases n base); [auto|]. apply H1; [assumption|]. apply IH. now apply N_div_lt.
Qed.

Ltac digits_induction base n Hb Hn IH :=
  pattern n; apply (digits_ind base _ Hb); clear n; [intros n Hn|intros n Hn IH].

Lemma digits_nonempty base n : 2 <= base -> digits base n <> [].
Proof. intros Hb E. rewrite digits_eq in E by assumption. destruct (n <? base); [discriminate|]. now destruct (digits base (n / base)). Qed.

Lemma undigits_digits base n : 2 <= base -> undigits base (digits base n) = n.
Proof.
  intro Hb. digits_induction base n Hb Hn IH; rewrite digits_eq by assumption.
  - destruct (N.ltb_spec n base); [|lia]. unfold undigits. cbn. lia.
  - destruct (N.ltb_spec n base); [lia|]. rewrite undigits_snoc, IH.
    pose proof (N.div_mod n base). lia.
Qed.

Lemma digits_lt base n : 2 <= base -> Forall (fun d => d < base) (digits base n).
Proof.
  intro Hb. digits_induction base n Hb Hn IH; rewrite digits_eq by assumption.
  - destruct (N.ltb_spec n base); [|lia]. constructor; [assumption|constructor].
  - destruct (N.ltb_spec n base); [lia|]. apply Forall_app. split; [assumption|].
    constructor; [apply N.mod_lt; lia|constructor].
Qed.

(** No leading zero, except in the representation of zero. *)
Lemma digits_hd base n : 2 <= base -> 0 < n -> exists d r, digits base n = d :: r /\ 0 < d.
Proof.
  intro Hb. digits_induction base n Hb Hn IH; intro H0; rewrite digits_eq by assumption.
  - destruct (N.ltb_spec n base); [|lia]. eauto.
  - destruct (N.ltb_spec n base); [lia|].
    destruct IH as (d & r & -> & Hd).
    + apply N.div_str_pos. lia.
    + cbn. eauto.
Qed.

Lemma digits_undigits base d ds : 2 <= base ->
  Forall (fun d => d < base) (d :: ds) -> (0 < d \/ ds = []) ->
  digits base (undigits base (d :: ds)) = d :: ds.
Proof.
  intros Hb. induction ds as [|e ds IH] using rev_ind; intros HF Hd.
  - rewrite undigits_cons. change (len (@nil N)) with 0. rewrite N.pow_0_r, undigits_nil.
    inversion HF; subst. rewrite digits_eq by assumption. replace (d * 1 + 0) with d by lia.
    destruct (N.ltb_spec d base); [reflexivity|lia].
  - assert (Hd' : 0 < d) by (destruct Hd as [|E]; [assumption|now destruct ds]).
    rewrite app_comm_cons in *. apply Forall_app in HF as [HF1 HF2]. inversion HF2; subst.
    rewrite undigits_snoc, digits_eq by assumption.
    assert (0 < undigits base (d :: ds)).
    { rewrite undigits_cons. assert (0 < base ^ len ds) by (apply N.neq_0_lt_0, N.pow_nonzero; lia). nia. }
    destruct (N.ltb_spec (undigits base (d :: ds) * base + e) base); [nia|].
    rewrite N.div_add_l, N.div_small, N.add_0_r by lia.
    rewrite IH; [|assumption|now left].
    do 2 f_equal. rewrite N.add_comm, N.mod_add, N.mod_small by lia. reflexivity.
Qed.

Lemma len_digits_le base n k : 2 <= base -> 0 < k -> n < base ^ k -> len (digits base n) <= k.
Proof.
  intro Hb. revert k. digits_induction base n Hb Hn IH; intros k Hk Hlt;
    rewrite digits_eq by assumption.
  - destruct (N.ltb_spec n base); [|lia]. lens. lia.
  - destruct (N.ltb_spec n base); [lia|]. rewrite len_app. change (len [n mod base]) with 1.
    destruct (N.eq_dec k 1) as [->|].
    + rewrite N.pow_1_r in Hlt. lia.
    + assert (len (digits base (n / base)) <= k - 1).
      { apply IH; [lia|]. apply N.div_lt_upper_bound; [lia|].
        replace k with (1 + (k - 1)) in Hlt by lia. now rewrite N.pow_add_r, N.pow_1_r in Hlt. }
      lia.
Qed.

Lemma len_digits_pos base n : 2 <= base -> 0 < len (digits base n).
Proof. intro Hb. pose proof (digits_nonempty base n Hb). destruct (digits base n); [contradiction|]. lens. lia. Qed.

(** ** Bytes *)

Lemma map_b2n_lt bs : Forall (fun d => d < 256) (map b2n bs).
Proof. induction bs; constructor; [apply b2n_lt|assumption]. Qed.

Lemma map_n2b_b2n bs : map n2b (map b2n bs) = bs.
Proof. rewrite map_map. rewrite <- (map_id bs) at 2. apply map_ext. apply n2b_b2n. Qed.

Lemma map_b2n_n2b ds : Forall (fun d => d < 256) ds -> map b2n (map n2b ds) = ds.
Proof. induction 1; [reflexivity|]. cbn. rewrite b2n_n2b_small by assumption. now f_equal. Qed.

Lemma be_val_nil : be_val [] = 0.
Proof. reflexivity. Qed.
Lemma be_val_cons b bs : be_val (b :: bs) = b2n b * 256 ^ len bs + be_val bs.
Proof. unfold be_val. cbn [map]. now rewrite undigits_cons, len_map. Qed.
Lemma be_val_app a b : be_val (a ++ b) = be_val a * 256 ^ len b + be_val b.
Proof. unfold be_val. now rewrite map_app, undigits_app, len_map. Qed.
Lemma be_val_snoc a b : be_val (a ++ [b]) = be_val a * 256 + b2n b.
Proof. unfold be_val. rewrite map_app. apply undigits_snoc. Qed.
Lemma be_val_lt bs : be_val bs < 256 ^ len bs.
Proof. unfold be_val. rewrite <- (len_map b2n). apply undigits_lt; [lia|apply map_b2n_lt]. Qed.

Lemma be_bytes_S k n : be_bytes (S k) n = be_bytes k (n / 256) ++ [n2b n].
Proof. reflexivity. Qed.
Lemma len_be_bytes k n : len (be_bytes k n) = N.of_nat k.
Proof. revert n. induction k; intro n; [reflexivity|]. rewrite be_bytes_S. lens. rewrite IHk. lia. Qed.
Lemma length_be_bytes k n : length (be_bytes k n) = k.
Proof. rewrite length_len, len_be_bytes. lia. Qed.

Lemma be_val_be_bytes k n : be_val (be_bytes k n) = n mod 256 ^ N.of_nat k.
Proof.
  revert n. induction k; intro n.
  - cbn. now rewrite N.mod_1_r.
  - rewrite be_bytes_S, be_val_snoc, IHk, b2n_n2b.
    rewrite Nat2N.inj_succ, N.pow_succ_r'.
    rewrite (N.mul_comm 256), (N.mul_comm (256 ^ _) 256).
    rewrite N.mod_mul_r by (try apply N.pow_nonzero; lia). lia.
Qed.

Lemma be_bytes_be_val bs : be_bytes (length bs) (be_val bs) = bs.
Proof.
  induction bs as [|b bs IH] using rev_ind; [reflexivity|].
  rewrite app_length. cbn [length]. rewrite Nat.add_1_r, be_bytes_S, be_val_snoc.
  rewrite N.div_add_l by lia. rewrite N.div_small by apply b2n_lt. rewrite N.add_0_r, IH. f_equal.
  f_equal. apply b2n_inj. rewrite b2n_n2b, N.add_comm, N.mod_add by lia. apply N.mod_small, b2n_lt.
Qed.

Lemma be_val_inj a b : length a = length b -> be_val a = be_val b -> a = b.
Proof. intros HL HV. rewrite <- (be_bytes_be_val a), <- (be_bytes_be_val b). now rewrite HL, HV. Qed.

Lemma be_bytes_mod k n : be_bytes k (n mod 256 ^ N.of_nat k) = be_bytes k n.
Proof.
  apply be_val_inj; [now rewrite !length_be_bytes|].
  rewrite !be_val_be_bytes. apply N.mod_mod. apply N.pow_nonzero. lia.
Qed.

Lemma pow256_Z k : Z.of_N (256 ^ N.of_nat k) = (256 ^ Z.of_nat k)%Z.
Proof. rewrite N2Z.inj_pow. f_equal. lia. Qed.
