(** Facts about the shared vocabulary. *)
From Coq Require Import List NArith ZArith Bool Lia Strings.Byte.
From Coq Require Import ZifyBool ZifyNat ZifyN.
From Verif Require Import Base.
Import ListNotations.
Open Scope N_scope.

#[global] Arguments N.add : simpl never.
#[global] Arguments N.sub : simpl never.
#[global] Arguments N.mul : simpl never.
#[global] Arguments N.div : simpl never.
#[global] Arguments N.modulo : simpl never.
#[global] Arguments N.pow : simpl never.
#[global] Arguments N.ltb : simpl never.
#[global] Arguments N.leb : simpl never.
#[global] Arguments N.eqb : simpl never.
#[global] Arguments N.land : simpl never.
#[global] Arguments N.lor : simpl never.
#[global] Arguments N.shiftl : simpl never.
#[global] Arguments N.shiftr : simpl never.
#[global] Arguments Z.add : simpl never.
#[global] Arguments Z.sub : simpl never.
#[global] Arguments Z.mul : simpl never.
#[global] Arguments Z.div : simpl never.
#[global] Arguments Z.modulo : simpl never.
#[global] Arguments Z.pow : simpl never.
#[global] Arguments Z.ltb : simpl never.
#[global] Arguments Z.leb : simpl never.
#[global] Arguments Z.eqb : simpl never.

Ltac Zify.zify_post_hook ::= Z.div_mod_to_equations.

(** ** Bytes *)

Lemma b2n_lt b : b2n b < 256.
Proof. unfold b2n. pose proof (Byte.to_N_bounded b). lia. Qed.

Lemma b2n_n2b n : b2n (n2b n) = n mod 256.
Proof.
  unfold b2n, n2b. destruct (Byte.of_N (n mod 256)) eqn:E.
  - now apply Byte.to_of_N.
  - exfalso. apply Byte.of_N_None_iff in E.
    assert (n mod 256 < 256) by (apply N.mod_lt; discriminate). lia.
Qed.

Lemma n2b_b2n b : n2b (b2n b) = b.
Proof.
  unfold n2b. rewrite N.mod_small by apply b2n_lt. unfold b2n. now rewrite Byte.of_to_N.
Qed.

Lemma b2n_inj a b : b2n a = b2n b -> a = b.
Proof. intro E. rewrite <- (n2b_b2n a), <- (n2b_b2n b). now rewrite E. Qed.

Lemma n2b_mod n : n2b (n mod 256) = n2b n.
Proof. apply b2n_inj. rewrite !b2n_n2b. now rewrite N.mod_mod. Qed.

Lemma b2n_n2b_small n : n < 256 -> b2n (n2b n) = n.
Proof. intro. rewrite b2n_n2b. now apply N.mod_small. Qed.

Lemma byte_eqb_eq a b : byte_eqb a b = true <-> a = b.
Proof.
  unfold byte_eqb. rewrite N.eqb_eq. split; [apply b2n_inj | now intros ->].
Qed.

Lemma byte_eqb_refl a : byte_eqb a a = true.
Proof. now apply byte_eqb_eq. Qed.

Lemma byte_eqb_neq a b : byte_eqb a b = false <-> a <> b.
Proof.
  destruct (byte_eqb a b) eqn:E.
  - apply byte_eqb_eq in E. split; [discriminate | congruence].
  - split; [|reflexivity]. intros _ H. apply byte_eqb_eq in H. congruence.
Qed.

(** ** Lists *)

Lemma len_nil {A} : len (@nil A) = 0.
Proof. reflexivity. Qed.
Lemma len_cons {A} (a : A) l : len (a :: l) = 1 + len l.
Proof. unfold len. cbn [length]. lia. Qed.
Lemma len_app {A} (l m : list A) : len (l ++ m) = len l + len m.
Proof. unfold len. rewrite app_length. lia. Qed.
Lemma len_map {A B} (f : A -> B) l : len (map f l) = len l.
Proof. unfold len. now rewrite map_length. Qed.
Lemma len_rev {A} (l : list A) : len (rev l) = len l.
Proof. unfold len. now rewrite rev_length. Qed.
Lemma len_repeat {A} (a : A) n : len (repeat a n) = N.of_nat n.
Proof. unfold len. now rewrite repeat_length. Qed.
Lemma len_takeN {A} n (l : list A) : len (takeN n l) = N.min n (len l).
Proof. unfold len, takeN. rewrite firstn_length. lia. Qed.
Lemma len_dropN {A} n (l : list A) : len (dropN n l) = len l - n.
Proof. unfold len, dropN. rewrite skipn_length. lia. Qed.
Lemma len_0 {A} (l : list A) : len l = 0 -> l = [].
Proof. destruct l; [reflexivity|]. rewrite len_cons. lia. Qed.
Lemma length_len {A} (l : list A) : length l = N.to_nat (len l).
Proof. unfold len. lia. Qed.

Lemma takeN_dropN {A} n (l : list A) : takeN n l ++ dropN n l = l.
Proof. apply firstn_skipn. Qed.
Lemma takeN_all {A} n (l : list A) : len l <= n -> takeN n l = l.
Proof. intro. unfold takeN. apply firstn_all2. unfold len in *. lia. Qed.
Lemma takeN_len {A} (l : list A) : takeN (len l) l = l.
Proof. apply takeN_all. lia. Qed.
Lemma dropN_all {A} n (l : list A) : len l <= n -> dropN n l = [].
Proof. intro. unfold dropN. apply skipn_all2. unfold len in *. lia. Qed.
Lemma takeN_0 {A} (l : list A) : takeN 0 l = [].
Proof. reflexivity. Qed.
Lemma dropN_0 {A} (l : list A) : dropN 0 l = l.
Proof. reflexivity. Qed.
Lemma takeN_app_l {A} n (l m : list A) : n <= len l -> takeN n (l ++ m) = takeN n l.
Proof.
  intro. unfold takeN. rewrite firstn_app.
  replace (N.to_nat n - length l)%nat with 0%nat by (unfold len in *; lia).
  cbn. now rewrite app_nil_r.
Qed.
Lemma takeN_app_len {A} (l m : list A) : takeN (len l) (l ++ m) = l.
Proof. rewrite takeN_app_l by lia. apply takeN_len. Qed.
Lemma dropN_app_l {A} n (l m : list A) : n <= len l -> dropN n (l ++ m) = dropN n l ++ m.
Proof.
  intro. unfold dropN. rewrite skipn_app.
  replace (N.to_nat n - length l)%nat with 0%nat by (unfold len in *; lia). reflexivity.
Qed.
Lemma dropN_app_len {A} (l m : list A) : dropN (len l) (l ++ m) = m.
Proof. rewrite dropN_app_l by lia. now rewrite dropN_all by lia. Qed.
Lemma dropN_app_r {A} n (l m : list A) : len l <= n -> dropN n (l ++ m) = dropN (n - len l) m.
Proof.
  intro. unfold dropN. rewrite skipn_app.
  rewrite skipn_all2 by (unfold len in *; lia). cbn. f_equal. unfold len in *. lia.
Qed.
Lemma takeN_app_r {A} n (l m : list A) : len l <= n -> takeN n (l ++ m) = l ++ takeN (n - len l) m.
Proof.
  intro. unfold takeN. rewrite firstn_app.
  rewrite firstn_all2 by (unfold len in *; lia). do 2 f_equal. unfold len in *. lia.
Qed.
Lemma takeN_takeN {A} a b (l : list A) : takeN a (takeN b l) = takeN (N.min a b) l.
Proof. unfold takeN. rewrite firstn_firstn. f_equal. lia. Qed.
Lemma dropN_dropN {A} a b (l : list A) : dropN a (dropN b l) = dropN (a + b) l.
Proof.
  unfold dropN. rewrite N2Nat.inj_add.
  generalize (N.to_nat a), (N.to_nat b). clear. intros a b. revert l.
  induction b as [|b IH]; intro l; [now rewrite Nat.add_0_r|].
  rewrite Nat.add_succ_r. destruct l; cbn [skipn]; [now destruct a|]. apply IH.
Qed.
Lemma app_inj_len {A} (a b c d : list A) : len a = len c -> a ++ b = c ++ d -> a = c /\ b = d.
Proof.
  intros HL HE.
  assert (a = c) as ->.
  { rewrite <- (takeN_app_len a b), HL, HE. apply takeN_app_len. }
  split; [reflexivity|]. now apply app_inv_head in HE.
Qed.
Lemma app_inj_len_r {A} (a b c d : list A) : len b = len d -> a ++ b = c ++ d -> a = c /\ b = d.
Proof.
  intros HL HE. apply app_inj_len; [|assumption].
  assert (len (a ++ b) = len (c ++ d)) as HH by now rewrite HE.
  rewrite !len_app in HH. lia.
Qed.

(** Ranges of [size_t]. *)
Lemma SZ_lo `{Env} : 4294967296 <= SZ.
Proof. unfold SZ. destruct size_width; lia. Qed.
Lemma SZ_hi `{Env} : SZ <= 18446744073709551616.
Proof. unfold SZ. destruct size_width; lia. Qed.
Lemma SZ_pos `{Env} : 0 < SZ.
Proof. pose proof SZ_lo. lia. Qed.
#[global] Opaque SZ.

Lemma sub_sz_le `{Env} a b : b <= a -> a < SZ -> sub_sz a b = a - b.
Proof.
  intros. unfold sub_sz. rewrite (N.mod_small b) by lia.
  replace (a + (SZ - b)) with ((a - b) + 1 * SZ) by lia.
  rewrite N.mod_add by lia. apply N.mod_small. lia.
Qed.

(** [(a + b) - a = b] in modular arithmetic. *)
Lemma sub_sz_mod `{Env} a b : sub_sz ((b + a) mod SZ) (a mod SZ) = b mod SZ.
Proof.
  pose proof SZ_pos as HP. unfold sub_sz.
  assert (a mod SZ < SZ) by (apply N.mod_lt; lia).
  rewrite (N.mod_small (a mod SZ) SZ) by assumption.
  rewrite N.add_mod_idemp_l by lia.
  rewrite (N.div_mod a SZ) at 1 by lia.
  replace (b + (SZ * (a / SZ) + a mod SZ) + (SZ - a mod SZ))
    with (b + (a / SZ + 1) * SZ) by lia.
  apply N.mod_add. lia.
Qed.

Lemma Forall_len_app {A} (P : A -> Prop) a b : Forall P a -> Forall P b -> Forall P (a ++ b).
Proof. intros. apply Forall_app. now split. Qed.

#[global] Hint Rewrite @len_app @len_cons @len_nil @len_map @len_rev @len_repeat @len_takeN @len_dropN : lens.
Ltac lens := autorewrite with lens in *.

Ltac splits := repeat match goal with |- _ /\ _ => split end.
