(** The DER writer and the strict DER reader are mutually inverse. *)
From Coq Require Import List NArith ZArith Bool Lia Strings.Byte.
From Coq Require Import ZifyBool ZifyNat ZifyN.
From Verif Require Import Base BaseFacts SpecDigits DigitsFacts SpecDer.
Import ListNotations.
Open Scope N_scope.

(** ** Base 128 *)

Lemma mark_more_snoc ds d : mark_more (ds ++ [d]) = map (fun d => n2b (128 + d)) ds ++ [n2b d].
Proof.
  induction ds as [|e ds IH]; [reflexivity|]. cbn [app map mark_more].
  destruct (ds ++ [d]) eqn:E; [now destruct ds|]. now rewrite IH.
Qed.

Lemma enc_base128_eq n :
  enc_base128 n = (if n <? 128 then [] else map (fun d => n2b (128 + d)) (digits 128 (n / 128))) ++ [n2b (n mod 128)].
Proof.
  unfold enc_base128. rewrite digits_eq by lia. destruct (N.ltb_spec n 128).
  - cbn. now rewrite N.mod_small.
  - now rewrite mark_more_snoc.
Qed.

Lemma len_enc_base128 n : len (enc_base128 n) = len (digits 128 n).
Proof.
  rewrite enc_base128_eq, (digits_eq 128 n) by lia. destruct (n <? 128); lens; lia.
Qed.

Lemma enc_base128_nonempty n : 0 < len (enc_base128 n).
Proof. rewrite len_enc_base128. apply len_digits_pos. lia. Qed.

Lemma read_from_marked ds : forall acc d rest,
  Forall (fun d => d < 128) ds -> d < 128 ->
  read_base128_from acc (map (fun d => n2b (128 + d)) ds ++ [n2b d] ++ rest)
  = Some (fold_left (fun a d => a * 128 + d) (ds ++ [d]) acc, rest).
Proof.
  induction ds as [|e ds IH]; intros acc d rest HF Hd.
  - cbn [map app fold_left read_base128_from]. rewrite b2n_n2b_small by lia.
    destruct (N.ltb_spec d 128); [|lia]. now rewrite N.mod_small.
  - inversion HF; subst. cbn [map app fold_left read_base128_from]. rewrite b2n_n2b_small by lia.
    destruct (N.ltb_spec (128 + e) 128); [lia|].
    rewrite <- (IH _ d rest) by assumption. f_equal.
    replace (128 + e) with (e + 1 * 128) by lia. rewrite N.mod_add, N.mod_small by lia. reflexivity.
Qed.

Lemma read_enc_base128 n rest : read_base128 (enc_base128 n ++ rest) = Some (n, rest).
Proof.
  pose proof (undigits_digits 128 n ltac:(lia)) as HU.
  pose proof (digits_lt 128 n ltac:(lia)) as HF.
  rewrite digits_eq in HU, HF by lia.
  assert (HR : read_base128_from 0 (enc_base128 n ++ rest) = Some (n, rest)).
  { rewrite enc_base128_eq. destruct (N.ltb_spec n 128).
    - cbn [app]. rewrite N.mod_small by assumption.
      change (n2b n :: rest) with (map (fun d => n2b (128 + d)) [] ++ [n2b n] ++ rest).
      rewrite read_from_marked; [|constructor|assumption]. reflexivity.
    - apply Forall_app in HF as [HF1 HF2]. inversion HF2; subst.
      rewrite <- app_assoc, read_from_marked by assumption. unfold undigits in HU. now rewrite HU. }
  unfold read_base128. rewrite HR.
  destruct (enc_base128 n ++ rest) as [|b l] eqn:E.
  - pose proof (enc_base128_nonempty n). apply app_eq_nil in E as [E _]. rewrite E in *. change (len (@nil byte)) with 0 in *. lia.
  - assert (b2n b <> 128); [|now destruct (N.eqb_spec (b2n b) 128)].
    rewrite enc_base128_eq in E. destruct (N.ltb_spec n 128).
    + injection E as <- _. rewrite b2n_n2b_small; [|]; pose proof (N.mod_lt n 128); lia.
    + destruct (digits_hd 128 (n / 128)) as (d & r & Hd & Hp); [lia|apply N.div_str_pos; lia|].
      rewrite Hd in E. injection E as <- _.
      pose proof (digits_lt 128 (n / 128) ltac:(lia)) as HF'. rewrite Hd in HF'. inversion HF'; subst.
      rewrite b2n_n2b_small; lia.
Qed.

Lemma read_base128_from_inv bs : forall acc n rest,
  read_base128_from acc bs = Some (n, rest) ->
  exists ds d, Forall (fun d => d < 128) ds /\ d < 128 /\
    bs = map (fun d => n2b (128 + d)) ds ++ [n2b d] ++ rest /\
    n = fold_left (fun a d => a * 128 + d) (ds ++ [d]) acc.
Proof.
  induction bs as [|b bs IH]; intros acc n rest H; [discriminate|].
  cbn [read_base128_from] in H. pose proof (b2n_lt b).
  destruct (N.ltb_spec (b2n b) 128) as [Hb|Hb].
  - injection H as <- <-. exists [], (b2n b). splits; [constructor|assumption| |].
    + cbn. now rewrite n2b_b2n.
    + cbn. now rewrite N.mod_small.
  - destruct (IH _ _ _ H) as (ds & d & HF & Hd & -> & ->).
    exists (b2n b mod 128 :: ds), d. splits; [|assumption| |reflexivity].
    + constructor; [apply N.mod_lt; lia|assumption].
    + cbn [map app]. f_equal. apply b2n_inj. rewrite b2n_n2b_small; lia.
Qed.

Lemma read_base128_canonical bs n rest : read_base128 bs = Some (n, rest) -> bs = enc_base128 n ++ rest.
Proof.
  unfold read_base128. destruct bs as [|b bs]; [discriminate|].
  destruct (N.eqb_spec (b2n b) 128) as [|Hb]; [discriminate|]. intro H.
  apply read_base128_from_inv in H as (ds & d & HF & Hd & Hbs & Hn).
  unfold enc_base128. fold (undigits 128 (ds ++ [d])) in Hn. subst n.
  assert (HD : digits 128 (undigits 128 (ds ++ [d])) = ds ++ [d]).
  { destruct ds as [|e ds].
    - cbn [app]. apply digits_undigits; [lia| |now right]. constructor; [assumption|constructor].
    - cbn [app]. apply digits_undigits; [lia| |].
      + rewrite app_comm_cons. apply Forall_app. split; [assumption|]. constructor; [assumption|constructor].
      + left. cbn in Hbs. injection Hbs as Hbe _. inversion HF; subst.
        destruct (N.eq_dec e 0) as [->|]; [|lia]. exfalso. apply Hb. rewrite b2n_n2b_small; lia. }
  rewrite HD, mark_more_snoc, Hbs. now rewrite <- app_assoc.
Qed.

(** ** Identifier octets *)

Lemma read_enc_ident c k t rest : c < 4 -> read_ident (enc_ident c k t ++ rest) = Some (c, k, t, rest).
Proof.
  intro Hc. unfold enc_ident. cbv zeta.
  set (top := c * 64 + (if k then 32 else 0)).
  assert (Htop : forall l, l < 32 -> b2n (n2b (top + l)) / 64 = c /\ N.odd (b2n (n2b (top + l)) / 32) = k
                                     /\ b2n (n2b (top + l)) mod 32 = l).
  { intros l Hl. assert (top + l < 256) by (unfold top; destruct k; lia).
    rewrite b2n_n2b_small by assumption. unfold top.
    assert (HD : (c * 64 + (if k then 32 else 0) + l) / 32 = 2 * c + (if k then 1 else 0)).
    { symmetry. apply N.div_unique with l; [assumption|]. destruct k; lia. }
    splits.
    - symmetry. apply N.div_unique with ((if k then 32 else 0) + l); destruct k; lia.
    - rewrite HD. destruct k.
      + now rewrite N.odd_add, N.odd_mul.
      + now rewrite N.add_0_r, N.odd_mul.
    - symmetry. apply N.mod_unique with (2 * c + (if k then 1 else 0)); [assumption|]. destruct k; lia. }
  destruct (N.ltb_spec t 31).
  - cbn [app read_ident]. destruct (Htop t ltac:(lia)) as (-> & -> & ->).
    destruct (N.ltb_spec t 31); [reflexivity|lia].
  - cbn [app read_ident]. destruct (Htop 31 ltac:(lia)) as (-> & -> & ->).
    change (31 <? 31) with false. cbv iota. rewrite read_enc_base128.
    destruct (N.ltb_spec t 31); [lia|reflexivity].
Qed.

Lemma read_ident_canonical bs c k t rest :
  read_ident bs = Some (c, k, t, rest) -> bs = enc_ident c k t ++ rest /\ c < 4.
Proof.
  destruct bs as [|b bs]; [discriminate|]. cbn [read_ident].
  pose proof (b2n_lt b) as Hb.
  assert (Hb' : b = n2b (b2n b / 64 * 64 + (if N.odd (b2n b / 32) then 32 else 0) + b2n b mod 32)).
  { apply b2n_inj.
    assert (HS : forall n, n < 256 -> n / 64 * 64 + (if N.odd (n / 32) then 32 else 0) + n mod 32 = n).
    { intros n Hn.
      assert (n / 32 / 2 = n / 64) by (rewrite N.div_div by lia; reflexivity).
      pose proof (N.div2_odd (n / 32)) as HO. rewrite N.div2_div in HO.
      destruct (N.odd (n / 32)); cbn [N.b2n] in HO; lia. }
    rewrite HS by assumption. rewrite b2n_n2b_small by assumption. reflexivity. }
  assert (Hc : b2n b / 64 < 4) by (apply N.div_lt_upper_bound; lia).
  destruct (N.ltb_spec (b2n b mod 32) 31).
  - intro H'. injection H' as <- <- <- <-. split; [|assumption].
    unfold enc_ident. destruct (N.ltb_spec (b2n b mod 32) 31); [|lia]. cbn [app]. now rewrite <- Hb'.
  - destruct (read_base128 bs) as [[t' r']|] eqn:E; [|discriminate].
    destruct (N.ltb_spec t' 31); [discriminate|]. intro H'. injection H' as <- <- <- <-.
    split; [|assumption]. apply read_base128_canonical in E. subst bs.
    unfold enc_ident. destruct (N.ltb_spec t' 31); [lia|]. cbn [app]. f_equal.
    rewrite Hb' at 1. do 2 f_equal. pose proof (N.mod_lt (b2n b) 32). lia.
Qed.

(** ** Length octets *)

Lemma read_enc_len n rest : n < 2 ^ 64 -> read_len (enc_len n ++ rest) = Some (n, rest).
Proof.
  intro Hn. unfold enc_len. destruct (N.ltb_spec n 128).
  - cbn [app read_len]. rewrite b2n_n2b_small by lia. cbv zeta. destruct (N.ltb_spec n 128); [reflexivity|lia].
  - cbv zeta. set (ds := digits 256 n).
    assert (HL : len ds <= 8) by (apply len_digits_le; [lia|lia|assumption]).
    assert (HP : 0 < len ds) by (apply len_digits_pos; lia).
    assert (HF : Forall (fun d => d < 256) ds) by (apply digits_lt; lia).
    assert (HV : be_val (map n2b ds) = n).
    { unfold be_val. rewrite map_b2n_n2b by assumption. apply undigits_digits. lia. }
    cbn [app read_len]. rewrite b2n_n2b_small by lia. cbv zeta.
    destruct (N.ltb_spec (128 + len ds) 128); [lia|].
    destruct (N.eqb_spec (128 + len ds) 128); [lia|]. destruct (N.eqb_spec (128 + len ds) 255); [lia|]. cbn [orb].
    replace (128 + len ds - 128) with (len (map n2b ds)) by (lens; lia).
    rewrite takeN_app_len, dropN_app_len, HV.
    destruct (N.ltb_spec (len (map n2b ds ++ rest)) (len (map n2b ds))); [lens; lia|].
    destruct (N.ltb_spec n 128); [lia|]. cbn [orb].
    destruct (digits_hd 256 n) as (d & r & Hd & Hp); [lia|lia|].
    unfold ds in *. rewrite Hd in *. cbn [map hd]. inversion HF; subst. rewrite b2n_n2b_small by assumption.
    destruct (N.eqb_spec d 0); [lia|reflexivity].
Qed.

Lemma read_len_canonical bs n rest : read_len bs = Some (n, rest) -> bs = enc_len n ++ rest.
Proof.
  destruct bs as [|b bs]; [discriminate|]. cbn [read_len]. cbv zeta. pose proof (b2n_lt b) as Hb.
  destruct (N.ltb_spec (b2n b) 128) as [H1|H1].
  - intro H. injection H as <- <-. unfold enc_len. destruct (N.ltb_spec (b2n b) 128); [|lia].
    cbn [app]. now rewrite n2b_b2n.
  - destruct (N.eqb_spec (b2n b) 128); [discriminate|]. destruct (N.eqb_spec (b2n b) 255); [discriminate|].
    cbn [orb]. set (k := b2n b - 128).
    destruct (N.ltb_spec (len bs) k) as [|H2]; [discriminate|].
    destruct (N.ltb_spec (be_val (takeN k bs)) 128) as [|H3]; [discriminate|].
    destruct (N.eqb_spec (b2n (hd x00 (takeN k bs))) 0) as [|H4]; [discriminate|]. cbn [orb].
    intro H. injection H as <- <-.
    unfold enc_len. destruct (N.ltb_spec (be_val (takeN k bs)) 128); [lia|]. cbv zeta.
    assert (HD : digits 256 (be_val (takeN k bs)) = map b2n (takeN k bs)).
    { unfold be_val. destruct (takeN k bs) as [|c cs] eqn:E.
      - cbn in H3. lia.
      - cbn [map]. apply digits_undigits; [lia| |].
        + change (b2n c :: map b2n cs) with (map b2n (c :: cs)). apply map_b2n_lt.
        + left. cbn in H4. lia. }
    rewrite HD, map_n2b_b2n, len_map, len_takeN.
    cbn [app]. rewrite takeN_dropN. f_equal. apply b2n_inj. rewrite b2n_n2b_small; lia.
Qed.

(** ** TLVs *)

(** Values the writer can represent: four classes, and lengths below 2^64. *)
Definition tlv_ok (t : tlv) : Prop := t_class t < 4 /\ len (t_content t) < 2 ^ 64.

Lemma read_enc_tlv t rest : tlv_ok t -> read_tlv (enc_tlv t ++ rest) = Some (t, rest).
Proof.
  intros [Hc Hl]. unfold read_tlv, enc_tlv. rewrite <- !app_assoc, read_enc_ident by assumption.
  rewrite read_enc_len by assumption.
  destruct (N.ltb_spec (len (t_content t ++ rest)) (len (t_content t))); [lens; lia|].
  rewrite takeN_app_len, dropN_app_len. now destruct t.
Qed.

Lemma enc_decodes t : tlv_ok t -> decodes (enc_tlv t) t.
Proof. intros H rest. now apply read_enc_tlv. Qed.

Lemma read_header_enc c k t n rest : c < 4 -> n < 2 ^ 64 ->
  read_header ((enc_ident c k t ++ enc_len n) ++ rest) = Some (c, k, t, n, rest).
Proof. intros. unfold read_header. now rewrite <- app_assoc, read_enc_ident, read_enc_len. Qed.

Lemma read_header_canonical bs c k t n rest :
  read_header bs = Some (c, k, t, n, rest) -> bs = (enc_ident c k t ++ enc_len n) ++ rest.
Proof.
  unfold read_header. destruct (read_ident bs) as [[[[c' k'] t'] r]|] eqn:E1; [|discriminate].
  destruct (read_len r) as [[n' r']|] eqn:E2; [|discriminate]. intro H. injection H as -> -> -> -> ->.
  apply read_ident_canonical in E1 as [-> _]. apply read_len_canonical in E2 as ->. now rewrite <- app_assoc.
Qed.

Lemma read_tlv_canonical bs t rest : read_tlv bs = Some (t, rest) -> bs = enc_tlv t ++ rest.
Proof.
  unfold read_tlv. destruct (read_ident bs) as [[[[c k] tg] r]|] eqn:E1; [|discriminate].
  destruct (read_len r) as [[n r']|] eqn:E2; [|discriminate].
  destruct (N.ltb_spec (len r') n); [discriminate|]. intro H'. injection H' as <- <-.
  apply read_ident_canonical in E1 as [-> _]. apply read_len_canonical in E2 as ->.
  unfold enc_tlv. cbn. rewrite <- !app_assoc. do 2 f_equal; [|now rewrite takeN_dropN].
  f_equal. lens. lia.
Qed.

Lemma len_enc_ident_pos c k t : 0 < len (enc_ident c k t).
Proof. unfold enc_ident. destruct (t <? 31); lens; lia. Qed.
Lemma len_enc_len_pos n : 0 < len (enc_len n).
Proof. unfold enc_len. destruct (n <? 128); lens; lia. Qed.
Lemma len_enc_tlv t : 2 <= len (enc_tlv t) /\ len (t_content t) < len (enc_tlv t).
Proof.
  unfold enc_tlv. pose proof (len_enc_ident_pos (t_class t) (t_constructed t) (t_tag t)).
  pose proof (len_enc_len_pos (len (t_content t))). lens. lia.
Qed.

Definition enc_tlvs (ts : list tlv) : list byte := concat (map enc_tlv ts).

Lemma read_tlvs_fuel_enc ts : forall f, Forall tlv_ok ts -> (length (enc_tlvs ts) <= f)%nat ->
  read_tlvs_fuel f (enc_tlvs ts) = Some ts.
Proof.
  induction ts as [|t ts IH]; intros f HF Hf; [now destruct f|].
  inversion HF; subst. unfold enc_tlvs in *. cbn [map concat] in *.
  pose proof (len_enc_tlv t) as [HL _].
  destruct (enc_tlv t ++ concat (map enc_tlv ts)) as [|b l] eqn:E.
  - apply app_eq_nil in E as [E _]. rewrite E in HL. change (len (@nil byte)) with 0 in HL. lia.
  - destruct f as [|f]; [cbn in Hf; lia|]. cbn [read_tlvs_fuel].
    rewrite <- E, read_enc_tlv by assumption. rewrite IH; [reflexivity|assumption|].
    rewrite <- E, app_length in Hf. unfold len in HL. lia.
Qed.

Lemma read_enc_tlvs ts : Forall tlv_ok ts -> read_tlvs (enc_tlvs ts) = Some ts.
Proof. intro. apply read_tlvs_fuel_enc; [assumption|reflexivity]. Qed.

Lemma read_tlvs_canonical bs ts : read_tlvs bs = Some ts -> bs = enc_tlvs ts.
Proof.
  unfold read_tlvs. generalize (length bs). intro f. revert bs ts.
  induction f as [|f IH]; intros bs ts H.
  - destruct bs; [|discriminate]. injection H as <-. reflexivity.
  - cbn [read_tlvs_fuel] in H. destruct bs as [|b bs]; [injection H as <-; reflexivity|].
    destruct (read_tlv (b :: bs)) as [[t r]|] eqn:E; [|discriminate].
    destruct (read_tlvs_fuel f r) as [ts'|] eqn:E2; [|discriminate]. injection H as <-.
    apply read_tlv_canonical in E. apply IH in E2. subst r. exact E.
Qed.

Lemma enc_tlv_inj t u r s : tlv_ok t -> tlv_ok u -> enc_tlv t ++ r = enc_tlv u ++ s -> t = u /\ r = s.
Proof.
  intros Ht Hu HE. pose proof (read_enc_tlv t r Ht) as H. rewrite HE, read_enc_tlv in H by assumption.
  injection H as -> ->. auto.
Qed.

(** ** INTEGER *)

(** [z] has a [k]-octet two's complement form. *)
Definition fits (k : nat) (z : Z) : Prop :=
  (- 128 * 256 ^ (Z.of_nat k - 1) <= z < 128 * 256 ^ (Z.of_nat k - 1))%Z.

Lemma size_le_iff m j : N.size m <= j <-> m < 2 ^ j.
Proof.
  destruct (N.eq_dec m 0) as [->|Hm].
  - cbn. split; [intros _; apply N.neq_0_lt_0, N.pow_nonzero; lia|lia].
  - rewrite N.size_log2 by assumption. rewrite N.le_succ_l. symmetry. apply N.log2_lt_pow2. lia.
Qed.

Lemma fits_iff k z : (1 <= k)%nat -> fits k z <-> (int_octets z <= k)%nat.
Proof.
  intro Hk. unfold fits, int_octets.
  set (m := Z.to_N (if (z <? 0)%Z then - z - 1 else z)%Z).
  assert (HE : (128 * 256 ^ (Z.of_nat k - 1))%Z = Z.of_N (2 ^ (8 * N.of_nat k - 1))).
  { rewrite N2Z.inj_pow. change 128%Z with (2 ^ 7)%Z. change 256%Z with (2 ^ 8)%Z.
    rewrite <- Z.pow_mul_r by lia. rewrite <- Z.pow_add_r by lia. f_equal. lia. }
  transitivity (m < 2 ^ (8 * N.of_nat k - 1)).
  - replace (-128 * 256 ^ (Z.of_nat k - 1))%Z with (- (128 * 256 ^ (Z.of_nat k - 1)))%Z by lia.
    rewrite HE. unfold m. destruct (Z.ltb_spec z 0); lia.
  - rewrite <- size_le_iff. lia.
Qed.

Lemma twos_val_spec b r :
  fits (S (length r)) (twos_val (b :: r)) /\
  Z.of_N (be_val (b :: r)) = (twos_val (b :: r) mod 256 ^ Z.of_nat (S (length r)))%Z.
Proof.
  unfold fits, twos_val. cbn [length].
  pose proof (be_val_lt r) as HL. pose proof (b2n_lt b).
  assert (HP : Z.of_N (256 ^ len r) = (256 ^ Z.of_nat (length r))%Z) by apply pow256_Z.
  replace (Z.of_nat (S (length r)) - 1)%Z with (Z.of_nat (length r)) by lia.
  rewrite Nat2Z.inj_succ, Z.pow_succ_r by lia. rewrite be_val_cons.
  set (P := (256 ^ Z.of_nat (length r))%Z) in *. set (v := be_val r) in *.
  assert (Z.of_N v < P)%Z by lia.
  rewrite N2Z.inj_add, N2Z.inj_mul, HP.
  destruct (N.ltb_spec (b2n b) 128).
  - split; [nia|]. symmetry. apply Z.mod_small. nia.
  - split; [nia|]. apply Z.mod_unique with (-1)%Z; [left; nia|lia].
Qed.

Lemma int_minimal_spec b r :
  int_minimal (b :: r) = true <-> (r = [] \/ ~ fits (length r) (twos_val (b :: r))).
Proof.
  destruct r as [|c r].
  - cbn. intuition.
  - unfold int_minimal, fits, twos_val. cbn [length].
    replace (Z.of_nat (S (length r)) - 1)%Z with (Z.of_nat (length r)) by lia.
    rewrite !Nat2Z.inj_succ, !Z.pow_succ_r by lia. rewrite !be_val_cons.
    pose proof (be_val_lt r) as HL. pose proof (b2n_lt b) as Hb. pose proof (b2n_lt c) as Hc.
    assert (HP : Z.of_N (256 ^ len r) = (256 ^ Z.of_nat (length r))%Z) by apply pow256_Z.
    rewrite len_cons, N.pow_add_r, N.pow_1_r.
    set (P := (256 ^ Z.of_nat (length r))%Z) in *. set (v := be_val r) in *.
    assert (Z.of_N v < P)%Z by lia.
    rewrite !N2Z.inj_add, !N2Z.inj_mul, HP. change (Z.of_N 256) with 256%Z.
    set (B := b2n b) in *. set (C := b2n c) in *. clearbody B C v P.
    rewrite negb_true_iff, orb_false_iff, !andb_false_iff, negb_false_iff, !N.eqb_neq, N.ltb_lt, N.ltb_ge.
    split.
    + intros HM. right. intro HR. destruct (N.ltb_spec B 128).
      * assert (B <> 0 \/ 128 <= C) by lia. nia.
      * assert (B <> 255 \/ C < 128) by lia. nia.
    + intros [HR|HR]; [discriminate|].
      destruct (N.ltb_spec B 128).
      * split; [|lia]. destruct (N.eq_dec B 0) as [->|]; [right|now left].
        destruct (N.lt_ge_cases C 128); [|assumption]. exfalso. apply HR. nia.
      * split; [lia|]. destruct (N.eq_dec B 255) as [->|]; [right|now left].
        destruct (N.lt_ge_cases C 128); [assumption|]. exfalso. apply HR. nia.
Qed.

(** A content is the minimal one iff it has the value and the minimal number of octets. *)
Lemma read_int_unique bs z : read_int bs = Some z -> bs = enc_int z.
Proof.
  unfold read_int. destruct (int_minimal bs) eqn:HM; [|discriminate]. intro H. injection H as <-.
  destruct bs as [|b r]; [discriminate|].
  destruct (twos_val_spec b r) as [HF HV]. apply int_minimal_spec in HM.
  set (z := twos_val (b :: r)) in *.
  assert (HO : int_octets z = S (length r)).
  { apply fits_iff in HF; [|lia].
    destruct HM as [->|HM]; [cbn [length] in *; unfold int_octets in *; lia|].
    destruct (Nat.eq_dec (int_octets z) (S (length r))); [assumption|].
    exfalso. apply HM. apply fits_iff; [unfold int_octets in *; lia|lia]. }
  unfold enc_int. rewrite HO, <- HV, N2Z.id.
  change (S (length r)) with (length (b :: r)). now rewrite be_bytes_be_val.
Qed.

Lemma int_octets_pos z : (1 <= int_octets z)%nat.
Proof. unfold int_octets. lia. Qed.

Lemma enc_int_nonempty z : exists b r, enc_int z = b :: r /\ int_octets z = S (length r).
Proof.
  pose proof (length_be_bytes (int_octets z) (Z.to_N (z mod 256 ^ Z.of_nat (int_octets z)))) as HL.
  unfold enc_int. destruct (be_bytes _ _) as [|b r]; [cbn in HL; pose proof (int_octets_pos z); lia|].
  exists b, r. now rewrite <- HL.
Qed.

Lemma twos_unique k z y : (1 <= k)%nat -> fits k z -> fits k y ->
  (z mod 256 ^ Z.of_nat k = y mod 256 ^ Z.of_nat k)%Z -> z = y.
Proof.
  intros Hk Hz Hy HM. unfold fits in *.
  assert (HP : (256 ^ Z.of_nat k = 256 * 256 ^ (Z.of_nat k - 1))%Z).
  { rewrite <- Z.pow_succ_r by lia. f_equal. lia. }
  set (P := (256 ^ (Z.of_nat k - 1))%Z) in *. rewrite HP in HM.
  assert (0 < P)%Z by (apply Z.pow_pos_nonneg; lia).
  pose proof (Z.div_mod z (256 * P) ltac:(lia)) as E1. pose proof (Z.div_mod y (256 * P) ltac:(lia)) as E2.
  rewrite <- HM in E2. generalize dependent (z / (256 * P))%Z. generalize dependent (y / (256 * P))%Z.
  generalize (z mod (256 * P))%Z. clear HM. intros m q E2 q' E1.
  assert (q = q') by nia. subst. lia.
Qed.

Lemma read_enc_int z : read_int (enc_int z) = Some z.
Proof.
  destruct (enc_int_nonempty z) as (b & r & HE & HO).
  assert (HB : Z.of_N (be_val (b :: r)) = (z mod 256 ^ Z.of_nat (S (length r)))%Z).
  { rewrite <- HE. unfold enc_int. rewrite be_val_be_bytes, <- HO.
    rewrite N2Z.inj_mod, pow256_Z.
    assert (0 < 256 ^ Z.of_nat (int_octets z))%Z by (apply Z.pow_pos_nonneg; lia).
    rewrite Z2N.id by (apply Z.mod_pos_bound; assumption). apply Z.mod_mod. lia. }
  destruct (twos_val_spec b r) as [HF HV].
  assert (HZ : twos_val (b :: r) = z).
  { apply (twos_unique (S (length r))); [lia|assumption| |congruence].
    apply fits_iff; [lia|]. lia. }
  unfold read_int. rewrite HE.
  assert (int_minimal (b :: r) = true) as ->; [|now rewrite HZ].
  apply int_minimal_spec. rewrite HZ. destruct r as [|c r]; [now left|right].
  rewrite fits_iff by (cbn; lia). lia.
Qed.

Lemma enc_int_inj z y : enc_int z = enc_int y -> z = y.
Proof. intro H. pose proof (read_enc_int z) as Hz. rewrite H, read_enc_int in Hz. congruence. Qed.

(** ** OBJECT IDENTIFIER *)

Lemma read_subids_enc ns : forall f, (length (flat_map enc_base128 ns) <= f)%nat ->
  read_subids f (flat_map enc_base128 ns) = Some ns.
Proof.
  induction ns as [|n ns IH]; intros f Hf; [now destruct f|].
  cbn [flat_map] in *. pose proof (enc_base128_nonempty n) as HL.
  destruct (enc_base128 n ++ flat_map enc_base128 ns) as [|b l] eqn:E.
  - apply app_eq_nil in E as [E _]. rewrite E in HL. change (len (@nil byte)) with 0 in HL. lia.
  - destruct f as [|f]; [cbn in Hf; lia|]. cbn [read_subids].
    rewrite <- E, read_enc_base128. rewrite IH; [reflexivity|].
    rewrite <- E, app_length in Hf. unfold len in HL. lia.
Qed.

Lemma read_enc_oid arcs : oid_valid arcs -> read_oid (enc_oid arcs) = Some arcs.
Proof.
  destruct arcs as [|a [|b r]]; [easy|easy|]. intros [Ha Hb].
  unfold read_oid, enc_oid.
  change (enc_base128 (40 * a + b) ++ flat_map enc_base128 r) with (flat_map enc_base128 (40 * a + b :: r)).
  rewrite read_subids_enc by reflexivity.
  destruct (N.ltb_spec (40 * a + b) 40).
  - replace a with 0 by lia. do 2 f_equal.
  - destruct (N.ltb_spec (40 * a + b) 80).
    + assert (a = 1) by lia. subst. do 3 f_equal. lia.
    + assert (a = 2) by lia. subst. do 3 f_equal. lia.
Qed.

Lemma enc_oid_inj a b : oid_valid a -> oid_valid b -> enc_oid a = enc_oid b -> a = b.
Proof. intros Ha Hb HE. pose proof (read_enc_oid a Ha) as H. rewrite HE, read_enc_oid in H by assumption. congruence. Qed.

(** ** BIT STRING *)

Lemma list8 {A} (l : list A) : length l = 8%nat ->
  exists a b c d e f g h, l = [a; b; c; d; e; f; g; h].
Proof.
  do 8 (destruct l as [|? l]; [discriminate|]). destruct l; [|discriminate]. intros _. repeat eexists.
Qed.

Lemma bits_of_octet l : length l = 8%nat -> bits_of_byte (octet l) = l.
Proof.
  intro H. destruct (list8 l H) as (a & b & c & d & e & f & g & h & ->).
  destruct a, b, c, d, e, f, g, h; reflexivity.
Qed.

Lemma octet_bits_of b : octet (bits_of_byte b) = b.
Proof. destruct b; reflexivity. Qed.


Lemma length_bits_of_byte b : length (bits_of_byte b) = 8%nat.
Proof. reflexivity. Qed.
Lemma len_bits_of_bytes bs : len (bits_of_bytes bs) = 8 * len bs.
Proof.
  unfold bits_of_bytes. induction bs; [reflexivity|]. cbn [flat_map]. rewrite len_app, IHbs, len_cons.
  unfold len at 1. rewrite length_bits_of_byte. lia.
Qed.

Lemma pack_bits_8 l r : length l = 8%nat -> pack_bits (l ++ r) = octet l :: pack_bits r.
Proof. intro H. destruct (list8 l H) as (a & b & c & d & e & f & g & h & ->). reflexivity. Qed.

Lemma pack_bits_byte b r : pack_bits (bits_of_byte b ++ r) = b :: pack_bits r.
Proof. rewrite pack_bits_8 by apply length_bits_of_byte. now rewrite octet_bits_of. Qed.

Lemma pack_bits_of_bytes bs : pack_bits (bits_of_bytes bs) = bs.
Proof. induction bs; [reflexivity|]. unfold bits_of_bytes in *. cbn [flat_map]. rewrite pack_bits_byte. now f_equal. Qed.

Lemma bits_ind (P : list bool -> Prop) :
  (forall l, (length l < 8)%nat -> P l) ->
  (forall l r, length l = 8%nat -> P r -> P (l ++ r)) -> forall l, P l.
Proof.
  intros H0 H8 l. remember (length l) as n eqn:Hn. revert l Hn.
  induction n as [n IH] using (well_founded_induction lt_wf). intros l Hn.
  destruct (Nat.lt_ge_cases (length l) 8) as [|Hl]; [auto|].
  rewrite <- (firstn_skipn 8 l). apply H8.
  - rewrite firstn_length. lia.
  - eapply IH; [|reflexivity]. rewrite skipn_length. lia.
Qed.

Definition pad (bits : list bool) : N := (8 - len bits mod 8) mod 8.

Lemma pad_8 l r : length l = 8%nat -> pad (l ++ r) = pad r.
Proof.
  intro H. unfold pad. rewrite len_app. replace (len l) with 8 by (unfold len; lia).
  do 2 f_equal. rewrite N.add_comm. replace (len r + 8) with (len r + 1 * 8) by lia. apply N.mod_add. lia.
Qed.

Lemma bits_of_pack bits : bits_of_bytes (pack_bits bits) = bits ++ repeat false (N.to_nat (pad bits)).
Proof.
  induction bits as [l Hl|l r Hl IH] using bits_ind.
  - do 8 (destruct l as [|? l]; [repeat match goal with b : bool |- _ => destruct b end; reflexivity|]).
    cbn in Hl. lia.
  - rewrite pack_bits_8, pad_8 by assumption. unfold bits_of_bytes in *. cbn [flat_map].
    rewrite IH, bits_of_octet by assumption. now rewrite app_assoc.
Qed.

Lemma pack_pad bits : forall k, k <= pad bits -> pack_bits (bits ++ repeat false (N.to_nat k)) = pack_bits bits.
Proof.
  induction bits as [l Hl|l r Hl IH] using bits_ind; intros k Hk.
  - assert (HK : forall j, (j <= N.to_nat (pad l))%nat -> pack_bits (l ++ repeat false j) = pack_bits l); [|apply HK; lia].
    clear k Hk. intros j Hj.
    do 8 (destruct l as [|? l];
      [match type of Hj with (_ <= ?x)%nat => let y := eval vm_compute in x in change x with y in Hj end;
       do 8 (destruct j as [|j]; [first [exfalso; lia | reflexivity]|]); exfalso; lia|]).
    cbn in Hl. lia.
  - rewrite pad_8 in Hk by assumption. rewrite <- app_assoc, (pack_bits_8 l), (pack_bits_8 l r) by assumption. f_equal. now apply IH.
Qed.

Lemma len_pack bits : 8 * len (pack_bits bits) = len bits + pad bits.
Proof.
  pose proof (bits_of_pack bits) as H. apply (f_equal len) in H.
  rewrite len_bits_of_bytes, len_app, len_repeat in H. lia.
Qed.

Lemma pad_lt bits : pad bits < 8.
Proof. apply N.mod_lt. lia. Qed.

Lemma existsb_repeat_false n : existsb (fun b : bool => b) (repeat false n) = false.
Proof. now induction n. Qed.
Lemma existsb_false_repeat l : existsb (fun b : bool => b) l = false -> l = repeat false (length l).
Proof. induction l as [|[] l IH]; cbn; [reflexivity|discriminate|]. intro. f_equal. auto. Qed.

Lemma read_enc_bits bits : read_bits (enc_bits bits) = Some bits.
Proof.
  unfold enc_bits, read_bits. fold (pad bits). pose proof (pad_lt bits). pose proof (len_pack bits) as HL.
  rewrite b2n_n2b_small by lia. cbv zeta. rewrite HL.
  destruct (N.ltb_spec 7 (pad bits)); [lia|]. destruct (N.ltb_spec (len bits + pad bits) (pad bits)); [lia|]. cbn [orb].
  replace (len bits + pad bits - pad bits) with (len bits) by lia.
  rewrite bits_of_pack, dropN_app_len, takeN_app_len, existsb_repeat_false. reflexivity.
Qed.

Lemma read_bits_canonical bs bits : read_bits bs = Some bits -> bs = enc_bits bits.
Proof.
  destruct bs as [|u r]; [discriminate|]. unfold read_bits. cbv zeta.
  destruct (N.ltb_spec 7 (b2n u)) as [|Hu]; [discriminate|].
  destruct (N.ltb_spec (8 * len r) (b2n u)) as [|Hr]; [discriminate|]. cbn [orb].
  destruct existsb eqn:HE; [discriminate|]. intro H. injection H as <-.
  apply existsb_false_repeat in HE.
  pose proof (len_bits_of_bytes r) as HL.
  set (bits := takeN (8 * len r - b2n u) (bits_of_bytes r)).
  assert (Hlb : len bits = 8 * len r - b2n u) by (unfold bits; rewrite len_takeN; lia).
  assert (Hlen : length (dropN (8 * len r - b2n u) (bits_of_bytes r)) = N.to_nat (b2n u)).
  { rewrite length_len, len_dropN, HL. lia. }
  rewrite Hlen in HE.
  assert (Hall : bits_of_bytes r = bits ++ repeat false (N.to_nat (b2n u))).
  { rewrite <- HE. symmetry. apply takeN_dropN. }
  assert (Hpad : b2n u = pad bits).
  { unfold pad. rewrite Hlb.
    destruct (N.eq_dec (b2n u) 0) as [E0|E0].
    - rewrite E0, N.sub_0_r. rewrite N.mul_comm, N.mod_mul by lia. reflexivity.
    - replace (8 * len r - b2n u) with ((8 - b2n u) + (len r - 1) * 8) by lia.
      rewrite N.mod_add by lia. rewrite (N.mod_small (8 - b2n u)) by lia.
      replace (8 - (8 - b2n u)) with (b2n u) by lia. rewrite N.mod_small; lia. }
  unfold enc_bits. fold (pad bits). rewrite <- Hpad, n2b_b2n. f_equal.
  rewrite <- (pack_pad bits (b2n u)) by lia. rewrite <- Hall. symmetry. apply pack_bits_of_bytes.
Qed.

Lemma enc_bits_inj a b : enc_bits a = enc_bits b -> a = b.
Proof. intro H. pose proof (read_enc_bits a) as Ha. rewrite H, read_enc_bits in Ha. congruence. Qed.

(** The last octet of a bit string: the unused bits are cleared. *)
Lemma pack_prefix_byte b j : 1 <= j <= 8 ->
  pack_bits (takeN j (bits_of_byte b)) = [n2b (N.ldiff (b2n b) (2 ^ (8 - j) - 1))].
Proof.
  intro Hj.
  assert (H : forallb (fun j => match pack_bits (takeN j (bits_of_byte b)) with
                                | [c] => byte_eqb c (n2b (N.ldiff (b2n b) (2 ^ (8 - j) - 1)))
                                | _ => false
                                end) [1; 2; 3; 4; 5; 6; 7; 8] = true) by (destruct b; vm_compute; reflexivity).
  rewrite forallb_forall in H. specialize (H j).
  assert (HI : In j [1; 2; 3; 4; 5; 6; 7; 8]).
  { assert (j = 1 \/ j = 2 \/ j = 3 \/ j = 4 \/ j = 5 \/ j = 6 \/ j = 7 \/ j = 8) by lia. cbn. intuition. }
  specialize (H HI). destruct (pack_bits _) as [|c [|? ?]]; try discriminate.
  apply byte_eqb_eq in H. now subst.
Qed.

Lemma pack_prefix d : forall bits, 0 < bits -> bits <= 8 * len d ->
  pack_bits (takeN bits (bits_of_bytes d)) =
  takeN ((bits - 1) / 8) d ++
  [n2b (N.ldiff (b2n (nth (N.to_nat ((bits - 1) / 8)) d x00)) (2 ^ ((8 - bits mod 8) mod 8) - 1))].
Proof.
  induction d as [|b d IH]; intros bits H0 Hb; [change (len (@nil byte)) with 0 in Hb; lia|].
  rewrite len_cons in Hb. unfold bits_of_bytes in *. cbn [flat_map].
  assert (HL : len (bits_of_byte b) = 8) by reflexivity.
  destruct (N.le_gt_cases bits 8) as [H8|H8].
  - rewrite takeN_app_l by lia. rewrite pack_prefix_byte by lia.
    replace ((bits - 1) / 8) with 0 by (symmetry; apply N.div_small; lia).
    replace ((8 - bits mod 8) mod 8) with (8 - bits); [reflexivity|].
    destruct (N.eq_dec bits 8) as [->|]; [reflexivity|].
    rewrite (N.mod_small bits), N.mod_small by lia. reflexivity.
  - rewrite takeN_app_r, HL by lia. rewrite pack_bits_byte, IH by lia.
    assert (HD : (bits - 1) / 8 = 1 + (bits - 8 - 1) / 8).
    { replace (bits - 1) with ((bits - 8 - 1) + 1 * 8) by lia. rewrite N.div_add by lia. lia. }
    assert (HM : (bits - 8) mod 8 = bits mod 8).
    { replace bits with ((bits - 8) + 1 * 8) at 2 by lia. now rewrite N.mod_add by lia. }
    rewrite HD, HM.
    replace (N.to_nat (1 + (bits - 8 - 1) / 8)) with (S (N.to_nat ((bits - 8 - 1) / 8))) by lia.
    cbn [nth]. unfold takeN at 2. replace (N.to_nat (1 + (bits - 8 - 1) / 8)) with (S (N.to_nat ((bits - 8 - 1) / 8))) by lia.
    reflexivity.
Qed.
