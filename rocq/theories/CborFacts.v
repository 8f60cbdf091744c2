(** Facts about the CBOR reader: canonical encodings, round trips, and fuel. *)
From Coq Require Import List NArith ZArith Bool Strings.Byte Lia Wf_nat.
From Verif Require Import Base BaseFacts SpecDigits DigitsFacts SpecCbor.
Import ListNotations.
Open Scope N_scope.

(** The shortest head. *)
Definition head_width (n : N) : nat :=
  if n <? 24 then 0 else if n <? 256 then 1 else if n <? 65536 then 2 else if n <? 4294967296 then 4 else 8.
Definition head_info (n : N) : N :=
  if n <? 24 then n else if n <? 256 then 24 else if n <? 65536 then 25 else if n <? 4294967296 then 26 else 27.
Definition enc_head (major n : N) : list byte := n2b (32 * major + head_info n) :: be_bytes (head_width n) n.

Lemma len_enc_head m n : len (enc_head m n) = 1 + N.of_nat (head_width n).
Proof. unfold enc_head. lens. now rewrite len_be_bytes. Qed.

Lemma div32 m i : m < 8 -> i < 32 -> b2n (n2b (32 * m + i)) / 32 = m /\ b2n (n2b (32 * m + i)) mod 32 = i.
Proof.
  intros Hm Hi. rewrite b2n_n2b_small by lia. split.
  - symmetry. now apply (N.div_unique _ _ _ i).
  - symmetry. now apply (N.mod_unique _ _ m).
Qed.

Lemma read_enc_head m n rest : m < 8 -> n < 2 ^ 64 -> ~ (m = 7 /\ 24 <= n < 32) ->
  read_head (enc_head m n ++ rest) = Some (m, n, N.of_nat (head_width n), rest).
Proof.
  intros Hm Hn H7. change (2 ^ 64) with 18446744073709551616 in Hn.
  assert (HI : head_info n < 32).
  { unfold head_info. repeat match goal with |- context [?a <? ?b] => destruct (N.ltb_spec a b) end; lia. }
  unfold enc_head, read_head. cbn [app]. destruct (div32 m (head_info n) Hm HI) as [-> ->].
  unfold head_info, head_width in *.
  destruct (N.ltb_spec n 24).
  { destruct (N.ltb_spec n 24); [reflexivity|lia]. }
  assert (HK : forall k, n < 256 ^ N.of_nat k -> be_val (takeN (N.of_nat k) (be_bytes k n ++ rest)) = n /\
                         dropN (N.of_nat k) (be_bytes k n ++ rest) = rest).
  { intros k Hk. rewrite <- (len_be_bytes k n), takeN_app_len, dropN_app_len, be_val_be_bytes.
    now rewrite N.mod_small. }
  assert (HL : forall k : nat, (N.of_nat k <=? len (be_bytes k n ++ rest)) = true).
  { intro k. apply N.leb_le. lens. rewrite len_be_bytes. lia. }
  destruct (N.ltb_spec n 256); [|destruct (N.ltb_spec n 65536); [|destruct (N.ltb_spec n 4294967296)]].
  - change (24 <? 24) with false. change (24 <? 28) with true. change (2 ^ (24 - 24)) with (N.of_nat 1). cbv iota.
    rewrite HL. destruct (HK 1%nat) as [-> ->]; [assumption|].
    destruct (N.eqb_spec m 7); [|reflexivity]. destruct (N.ltb_spec n 32); [lia|reflexivity].
  - change (25 <? 24) with false. change (25 <? 28) with true. change (2 ^ (25 - 24)) with (N.of_nat 2). cbv iota.
    rewrite HL. destruct (HK 2%nat) as [-> ->]; [assumption|].
    change (25 =? 24) with false. rewrite andb_false_r. reflexivity.
  - change (26 <? 24) with false. change (26 <? 28) with true. change (2 ^ (26 - 24)) with (N.of_nat 4). cbv iota.
    rewrite HL. destruct (HK 4%nat) as [-> ->]; [assumption|].
    change (26 =? 24) with false. rewrite andb_false_r. reflexivity.
  - change (27 <? 24) with false. change (27 <? 28) with true. change (2 ^ (27 - 24)) with (N.of_nat 8). cbv iota.
    rewrite HL. destruct (HK 8%nat) as [-> ->]; [assumption|].
    change (27 =? 24) with false. rewrite andb_false_r. reflexivity.
Qed.

(** Whatever reads as the same head is at least as long; and equal if as long. *)
Lemma read_head_len bs m n w rest : read_head bs = Some (m, n, w, rest) ->
  m < 8 /\ n < 256 ^ N.max 1 w /\ len bs = 1 + w + len rest /\ (w = 0 -> n < 24) /\ (w = 0 \/ w = 1 \/ w = 2 \/ w = 4 \/ w = 8).
Proof.
  unfold read_head. destruct bs as [|b r]; [discriminate|].
  pose proof (b2n_lt b) as Hb.
  assert (b2n b / 32 < 8) by (apply N.div_lt_upper_bound; lia).
  destruct (N.ltb_spec (b2n b mod 32) 24).
  - intro HE. injection HE as <- <- <- <-. splits; [assumption| |lens; lia|auto|auto].
    change (N.max 1 0) with 1. rewrite N.pow_1_r. lia.
  - destruct (N.ltb_spec (b2n b mod 32) 28); [|discriminate].
    destruct (N.leb_spec (2 ^ (b2n b mod 32 - 24)) (len r)); [|discriminate].
    set (i := b2n b mod 32) in *.
    assert (Hi : i = 24 \/ i = 25 \/ i = 26 \/ i = 27) by lia.
    assert (HW : 2 ^ (i - 24) = 1 \/ 2 ^ (i - 24) = 2 \/ 2 ^ (i - 24) = 4 \/ 2 ^ (i - 24) = 8).
    { destruct Hi as [->|[->|[->| ->]]]; vm_compute; auto. }
    destruct (_ && _); [discriminate|].
    intro HE. injection HE as <- <- <- <-.
    splits; [assumption| |lens; lia|lia|lia].
    pose proof (be_val_lt (takeN (2 ^ (i - 24)) r)) as HV. rewrite len_takeN in HV.
    rewrite N.min_l in HV by assumption. rewrite N.max_r by lia. assumption.
Qed.

Lemma read_head_shortest bs m n w rest : read_head bs = Some (m, n, w, rest) ->
  len (enc_head m n) + len rest <= len bs.
Proof.
  intro H. apply read_head_len in H as (Hm & Hn & HL & H0 & HW). rewrite len_enc_head, HL.
  assert (N.of_nat (head_width n) <= w); [|lia].
  unfold head_width.
  destruct HW as [->|[->|[->|[->| ->]]]];
    repeat match goal with |- context [?a <? ?b] => destruct (N.ltb_spec a b) end;
    match type of Hn with _ < 256 ^ ?k => let v := eval vm_compute in (256 ^ k) in change (256 ^ k) with v in Hn end; lia.
Qed.

(** ** Items *)
Fixpoint enc_item (v : cval) : list byte :=
  match v with
  | CInt z => if (0 <=? z)%Z then enc_head 0 (Z.to_N z) else enc_head 1 (Z.to_N (-1 - z))
  | CBytes b => enc_head 2 (len b) ++ b
  | CText b => enc_head 3 (len b) ++ b
  | CArray l => enc_head 4 (len l) ++ flat_map enc_item l
  | CMap l => enc_head 5 (len l) ++ flat_map (fun kv => enc_item (fst kv) ++ enc_item (snd kv)) l
  | CTag t v => enc_head 6 t ++ enc_item v
  | CSimple n => enc_head 7 n
  | CFloat w bits => n2b (32 * 7 + (24 + N.log2 w)) :: be_bytes (N.to_nat w) bits
  end.

Fixpoint csize (v : cval) : nat :=
  match v with
  | CArray l => S (fold_right (fun x n => csize x + n)%nat 0%nat l)
  | CMap l => S (fold_right (fun kv n => csize (fst kv) + csize (snd kv) + n)%nat 0%nat l)
  | CTag _ v => S (csize v)
  | _ => 1%nat
  end.

Definition flatten (l : list (cval * cval)) : list cval := flat_map (fun kv => [fst kv; snd kv]) l.

Lemma pair_flatten l : pair_up (flatten l) = l.
Proof. induction l as [|[k v] l IH]; [reflexivity|]. cbn. now f_equal. Qed.

Lemma len_flatten l : len (flatten l) = 2 * len l.
Proof. induction l as [|[k v] l IH]; [reflexivity|]. cbn [flatten flat_map app]. fold (flatten l). lens. lia. Qed.

Lemma flat_map_flatten l : flat_map enc_item (flatten l) = flat_map (fun kv => enc_item (fst kv) ++ enc_item (snd kv)) l.
Proof.
  induction l as [|[k v] l IH]; [reflexivity|].
  cbn [flatten flat_map app fst snd]. fold (flatten l). rewrite IH. now rewrite <- app_assoc.
Qed.

Lemma enc_item_nonempty v : 0 < len (enc_item v).
Proof.
  destruct v; cbn [enc_item]; try destruct (_ <=? _)%Z; unfold enc_head; cbn [app]; rewrite len_cons; lia.
Qed.

Lemma read_items_enc l : (forall x, In x l -> forall f rest, (2 * length (enc_item x) <= f)%nat ->
                             read_item f (enc_item x ++ rest) = Some (x, rest)) ->
  forall f rest, (2 * length (flat_map enc_item l) + 1 <= f)%nat ->
  read_items f (len l) (flat_map enc_item l ++ rest) = Some (l, rest).
Proof.
  intro HI. induction l as [|x l IH]; intros f rest Hf; (destruct f as [|f]; [cbn in Hf; lia|]).
  - reflexivity.
  - cbn [read_items flat_map]. lens. destruct (N.eqb_spec (1 + len l) 0); [lia|].
    cbn [flat_map] in Hf. rewrite app_length in Hf. pose proof (enc_item_nonempty x) as HN. unfold len in HN.
    rewrite <- app_assoc, HI; [|now left|lia].
    replace (1 + len l - 1) with (len l) by lia.
    rewrite IH; [reflexivity| |lia]. intros y Hy. apply HI. now right.
Qed.

Lemma fold_size_in l x : In x l -> (csize x <= fold_right (fun x n => csize x + n)%nat 0%nat l)%nat.
Proof. induction l as [|y l IH]; [easy|]. intros [->|H]; cbn; [lia|]. specialize (IH H). lia. Qed.
Lemma fold_size_flatten l :
  fold_right (fun x n => csize x + n)%nat 0%nat (flatten l)
  = fold_right (fun kv n => csize (fst kv) + csize (snd kv) + n)%nat 0%nat l.
Proof. induction l as [|[k v] l IH]; [reflexivity|]. cbn. fold (flatten l). rewrite IH. lia. Qed.
Lemma fold_ok_in (P : cval -> Prop) l : fold_right (fun x Q => P x /\ Q) True l -> forall x, In x l -> P x.
Proof. induction l as [|y l IH]; cbn; [easy|]. intros [H1 H2] x [->|H]; [assumption|]. now apply IH. Qed.
Lemma fold_ok_flatten (P : cval -> Prop) l : fold_right (fun kv Q => P (fst kv) /\ P (snd kv) /\ Q) True l ->
  fold_right (fun x Q => P x /\ Q) True (flatten l).
Proof. induction l as [|[k v] l IH]; cbn; [easy|]. intuition. Qed.

Lemma read_enc_item v : cval_ok v -> forall f rest, (2 * length (enc_item v) <= f)%nat ->
  read_item f (enc_item v ++ rest) = Some (v, rest).
Proof.
  remember (csize v) as n eqn:Hn. revert v Hn.
  induction n as [n IH] using (well_founded_induction lt_wf). intros v Hn Hok f rest Hf.
  assert (exists f', f = S f') as [f' ->].
  { pose proof (enc_item_nonempty v) as H. unfold len in H. destruct f; [lia|eauto]. }
  destruct v as [z|b|b|l|l|t v|k|w bits]; cbn [cval_ok enc_item read_item] in *.
  - destruct (Z.leb_spec 0 z); (rewrite read_enc_head; [|lia|change (2 ^ 64) with 18446744073709551616; lia|lia]).
    + rewrite Z2N.id by lia. reflexivity.
    + rewrite Z2N.id by lia. do 3 f_equal. lia.
  - rewrite <- app_assoc, read_enc_head by (assumption || lia).
    replace (len b <=? len (b ++ rest)) with true by (symmetry; apply N.leb_le; lens; lia).
    now rewrite takeN_app_len, dropN_app_len.
  - rewrite <- app_assoc, read_enc_head by (assumption || lia).
    replace (len b <=? len (b ++ rest)) with true by (symmetry; apply N.leb_le; lens; lia).
    now rewrite takeN_app_len, dropN_app_len.
  - destruct Hok as [Hl Hok]. rewrite <- app_assoc, read_enc_head by (assumption || lia).
    rewrite app_length in Hf. unfold enc_head in Hf. cbn [length] in Hf.
    rewrite read_items_enc; [reflexivity| |lia].
    intros x Hx g r Hg. apply (IH (csize x)); [|reflexivity|exact (fold_ok_in _ _ Hok x Hx)|assumption].
    subst n. cbn [csize]. pose proof (fold_size_in l x Hx). lia.
  - destruct Hok as [Hl Hok]. rewrite <- app_assoc, read_enc_head by (assumption || lia).
    rewrite app_length in Hf. unfold enc_head in Hf. cbn [length] in Hf.
    rewrite <- flat_map_flatten in *. rewrite <- len_flatten.
    rewrite read_items_enc; [now rewrite pair_flatten| |lia].
    intros x Hx g r Hg.
    apply (IH (csize x)); [|reflexivity|exact (fold_ok_in _ _ (fold_ok_flatten _ _ Hok) x Hx)|assumption].
    subst n. cbn [csize]. rewrite <- fold_size_flatten. pose proof (fold_size_in _ x Hx). lia.
  - destruct Hok as [Hl Hok]. rewrite <- app_assoc, read_enc_head by (assumption || lia).
    rewrite app_length in Hf. unfold enc_head in Hf. cbn [length] in Hf.
    rewrite (IH (csize v)); [reflexivity|cbn in Hn; lia|reflexivity|assumption|lia].
  - rewrite read_enc_head; [|lia|change (2 ^ 64) with 18446744073709551616; lia|lia].
    replace (N.of_nat (head_width k) <=? 1) with true; [reflexivity|].
    symmetry. apply N.leb_le. unfold head_width.
    repeat match goal with |- context [?a <? ?b] => destruct (N.ltb_spec a b) end; lia.
  - contradiction.
Qed.

Lemma cbor_read_enc v rest : cval_ok v -> cbor_read (enc_item v ++ rest) = Some (v, rest).
Proof. intro H. apply read_enc_item; [assumption|]. rewrite app_length. lia. Qed.

Lemma enc_item_inj a b r s : cval_ok a -> cval_ok b -> enc_item a ++ r = enc_item b ++ s -> a = b /\ r = s.
Proof.
  intros Ha Hb HE. pose proof (cbor_read_enc a r Ha) as H. rewrite HE, cbor_read_enc in H by assumption.
  injection H as -> ->. auto.
Qed.

(** ** Fuel: any amount from [2 * length bs + 1] on gives the same answer. *)
Lemma read_head_shrinks bs m n w r : read_head bs = Some (m, n, w, r) -> (length r < length bs)%nat.
Proof. intro H. apply read_head_len in H as (_ & _ & HL & _). unfold len in HL. lia. Qed.

Lemma read_shrinks f : (forall bs x r, read_item f bs = Some (x, r) -> (length r < length bs)%nat) /\
                       (forall n bs l r, read_items f n bs = Some (l, r) -> (length r <= length bs)%nat).
Proof.
  induction f as [|f [IH1 IH2]]; [split; intros; discriminate|]. split.
  - intros bs x r. cbn [read_item]. destruct (read_head bs) as [[[[m v] w] r0]|] eqn:EH; [|discriminate].
    apply read_head_shrinks in EH.
    assert (HD : forall k, (length (dropN k r0) <= length r0)%nat) by (intro; unfold dropN; rewrite skipn_length; lia).
    destruct m as [|[[[]|[]|]|[[]|[]|]|]];
      repeat match goal with
             | |- context [if ?c then _ else _] => destruct c
             | |- context [match read_items f ?n ?b with _ => _ end] => destruct (read_items f n b) as [[? ?]|] eqn:?
             | |- context [match read_item f ?b with _ => _ end] => destruct (read_item f b) as [[? ?]|] eqn:?
             end; try discriminate; intro HE; injection HE as <- <-;
      repeat match goal with
             | H : read_items _ _ _ = Some _ |- _ => apply IH2 in H
             | H : read_item _ _ = Some _ |- _ => apply IH1 in H
             end; try lia; try (eapply Nat.le_lt_trans; [apply HD|assumption]).
  - intros n bs l r. cbn [read_items]. destruct (n =? 0); [intro HE; injection HE as <- <-; lia|].
    destruct (read_item f bs) as [[x r0]|] eqn:E1; [|discriminate].
    destruct (read_items f (n - 1) r0) as [[l' r1]|] eqn:E2; [|discriminate].
    intro HE; injection HE as <- <-. apply IH1 in E1. apply IH2 in E2. lia.
Qed.

Lemma read_fuel k : forall bs f g, (length bs <= k)%nat ->
  ((2 * length bs + 1 <= f)%nat -> (2 * length bs + 1 <= g)%nat -> read_item f bs = read_item g bs) /\
  (forall n, (2 * length bs + 2 <= f)%nat -> (2 * length bs + 2 <= g)%nat -> read_items f n bs = read_items g n bs).
Proof.
  induction k as [k IH] using (well_founded_induction lt_wf). intros bs f g Hk.
  assert (HI : forall f g, (2 * length bs + 1 <= f)%nat -> (2 * length bs + 1 <= g)%nat ->
                 read_item f bs = read_item g bs).
  { clear f g. intros f g Hf Hg. destruct f as [|f]; [lia|]. destruct g as [|g]; [lia|]. cbn [read_item].
    destruct (read_head bs) as [[[[m v] w] r0]|] eqn:EH; [|reflexivity].
    apply read_head_shrinks in EH.
    pose proof (IH (length r0) ltac:(lia) r0 f g ltac:(lia)) as [I1 I2].
    rewrite I1, (I2 v), (I2 (2 * v)) by lia. reflexivity. }
  split; [apply HI|].
  intros n Hf Hg. destruct f as [|f]; [lia|]. destruct g as [|g]; [lia|]. cbn [read_items].
  destruct (n =? 0); [reflexivity|]. rewrite (HI f g) by lia.
  destruct (read_item g bs) as [[x r]|] eqn:E1; [|reflexivity].
  apply (proj1 (read_shrinks g)) in E1.
  pose proof (IH (length r) ltac:(lia) r f g ltac:(lia)) as [_ I2]. rewrite I2 by lia. reflexivity.
Qed.

Lemma cbor_read_fuel bs f : (2 * length bs + 2 <= f)%nat -> read_item f bs = cbor_read bs.
Proof. intro H. unfold cbor_read. apply (read_fuel (length bs)); lia. Qed.
