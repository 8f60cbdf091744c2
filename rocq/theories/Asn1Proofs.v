(** Proofs about the ASN.1 model: each function renders the DER the specification asks for. *)
From Coq Require Import List NArith ZArith Bool Lia Strings.Byte.
From Coq Require Import ZifyBool ZifyNat ZifyN.
From Verif Require Import Base BaseFacts Stream SpecStream StreamProofs SpecDigits DigitsFacts SpecDer DerFacts Asn1 SpecAsn1.
Import ListNotations.
Open Scope N_scope.

(** ** Bit twiddling *)
Lemma lor_add a b k : a < 2 ^ k -> N.lor a (b * 2 ^ k) = a + b * 2 ^ k.
Proof.
  intro Ha. rewrite <- N.shiftl_mul_pow2.
  assert (HL : N.land a (N.shiftl b k) = 0).
  { apply N.bits_inj. intro i. rewrite N.land_spec, N.bits_0.
    destruct (N.lt_ge_cases i k).
    - rewrite N.shiftl_spec_low by assumption. apply andb_false_r.
    - replace (N.testbit a i) with false; [reflexivity|].
      symmetry. destruct (N.eq_dec a 0) as [->|]; [apply N.bits_0|].
      apply N.bits_above_log2. apply N.lt_le_trans with k; [apply N.log2_lt_pow2; lia|assumption]. }
  rewrite <- N.lxor_lor by assumption. symmetry. now apply N.add_nocarry_lxor.
Qed.

Lemma land_mod a k : N.land a (2 ^ k - 1) = a mod 2 ^ k.
Proof. rewrite N.sub_1_r, <- N.ones_equiv. apply N.land_ones. Qed.

Lemma shiftr_div a k : N.shiftr a k = a / 2 ^ k.
Proof. apply N.shiftr_div_pow2. Qed.

Section WithEnv.
Context `{E : Env}.

Lemma renders_prepend1 P c : renders P (prepend1 c) [c].
Proof. apply renders_byte. Qed.

Lemma renders_eq P f a b : a = b -> renders P f a -> renders P f b.
Proof. now intros ->. Qed.

Lemma renders_skip_l P f g a : (forall w, f w = w) -> renders P g a -> renders P (f ;; g)%cmd a.
Proof. intros Hf. apply renders_ext. intro w. unfold andthen. now rewrite Hf. Qed.

(** ** Base 128 *)
Lemma base128_loop_renders P f : forall t n, n < 2 ^ N.of_nat f ->
  renders P (base128_loop (S f) t n)
    ((if n / 128 =? 0 then [] else map (fun d => n2b (128 + d)) (digits 128 (n / 128))) ++ [t]).
Proof.
  induction f as [|f IH]; intros t n Hn.
  - change (2 ^ N.of_nat 0) with 1 in Hn. replace n with 0 by lia.
    cbn [base128_loop]. apply (renders_seq P _ _ [t] []); [apply renders_prepend1|].
    cbn. apply renders_skip.
  - change (base128_loop (S (S f)) t n) with
      (prepend1 t ;; (let n' := N.shiftr n 7 in
                      let t' := n2b (N.lor 0x80 (N.land n' 0x7f)) in
                      if n' =? 0 then skip else base128_loop (S f) t' n'))%cmd.
    cbv zeta. apply renders_seq; [apply renders_prepend1|].
    rewrite shiftr_div. change (2 ^ 7) with 128.
    destruct (N.eqb_spec (n / 128) 0) as [|Hz]; [apply renders_skip|].
    eapply renders_eq; [|apply IH].
    + rewrite (digits_eq 128 (n / 128)) by lia.
      replace (n2b (N.lor 128 (N.land (n / 128) 127))) with (n2b (128 + (n / 128) mod 128)).
      * destruct (N.ltb_spec (n / 128) 128) as [Hs|Hs].
        -- rewrite (N.div_small (n / 128)), N.eqb_refl, N.mod_small by assumption. reflexivity.
        -- destruct (N.eqb_spec (n / 128 / 128) 0) as [E0|_].
           ++ apply N.div_small_iff in E0; lia.
           ++ now rewrite map_app.
      * f_equal. change 127 with (2 ^ 7 - 1). rewrite land_mod. change (2 ^ 7) with 128.
        rewrite N.lor_comm. symmetry. change 128 with (1 * 2 ^ 7) at 1 3. rewrite lor_add; [lia|].
        apply N.mod_lt. lia.
    + rewrite Nat2N.inj_succ, N.pow_succ_r' in Hn. apply N.div_lt_upper_bound; lia.
Qed.

Lemma base128_renders P n : renders P (n20_asn1_base128_int n) (enc_base128 n).
Proof.
  unfold n20_asn1_base128_int. eapply renders_eq; [|apply base128_loop_renders, lt_pow_size].
  rewrite enc_base128_eq. change 0x7f with (2 ^ 7 - 1). rewrite land_mod. change (2 ^ 7) with 128. f_equal.
  destruct (N.ltb_spec n 128).
  - rewrite N.div_small by assumption. reflexivity.
  - destruct (N.eqb_spec (n / 128) 0) as [E0|]; [|reflexivity]. apply N.div_small_iff in E0; lia.
Qed.

(** ** Length octets *)
Lemma header_len_loop_renders P f : forall l n k, n < 2 ^ N.of_nat f -> k + N.of_nat f + 1 <= 127 ->
  renders P (header_len_loop (S f) l n k)
    (n2b (128 + (k + 1 + (if n / 256 =? 0 then 0 else len (digits 256 (n / 256))))) ::
     (if n / 256 =? 0 then [] else map n2b (digits 256 (n / 256))) ++ [l]).
Proof.
  assert (HB : forall k, k <= 127 -> n2b (N.lor (N.land k 127) 128) = n2b (128 + k)).
  { intros k Hk. f_equal. change 127 with (2 ^ 7 - 1). rewrite land_mod, N.mod_small by (cbn; lia).
    change 128 with (1 * 2 ^ 7) at 1. rewrite lor_add; cbn; lia. }
  induction f as [|f IH]; intros l n k Hn Hk.
  - change (2 ^ N.of_nat 0) with 1 in Hn. replace n with 0 by lia.
    cbn [header_len_loop]. cbv zeta.
    apply (renders_seq P _ _ [l] [n2b (128 + (k + 1 + 0))]); [apply renders_prepend1|].
    change (N.shiftr 0 8 =? 0) with true. cbv iota.
    replace (n2b (128 + (k + 1 + 0))) with (n2b (N.lor (N.land (k + 1) 127) 128)); [apply renders_prepend1|].
    rewrite HB by lia. f_equal. lia.
  - change (header_len_loop (S (S f)) l n k) with
      (prepend1 l ;;
       (let len' := N.shiftr n 8 in
        let l' := n2b (N.land len' 0xff) in
        if len' =? 0 then prepend1 (n2b (N.lor (N.land (k + 1) 0x7f) 0x80))
        else header_len_loop (S f) l' len' (k + 1)))%cmd.
    cbv zeta. rewrite app_comm_cons. apply renders_seq; [apply renders_prepend1|].
    rewrite shiftr_div. change (2 ^ 8) with 256.
    destruct (N.eqb_spec (n / 256) 0) as [|Hz].
    + rewrite HB by lia. replace (k + 1 + 0) with (k + 1) by lia. apply renders_prepend1.
    + eapply renders_eq; [|apply IH].
      * rewrite (digits_eq 256 (n / 256)) by lia.
        replace (n2b (N.land (n / 256) 255)) with (n2b ((n / 256) mod 256))
          by (f_equal; change 255 with (2 ^ 8 - 1); now rewrite land_mod).
        destruct (N.ltb_spec (n / 256) 256) as [Hs|Hs].
        -- rewrite (N.div_small (n / 256)), N.eqb_refl, N.mod_small by assumption. cbn [map app].
           do 2 f_equal. lens. lia.
        -- destruct (N.eqb_spec (n / 256 / 256) 0) as [E0|_].
           ++ apply N.div_small_iff in E0; lia.
           ++ rewrite map_app. f_equal. f_equal. lens. lia.
      * rewrite Nat2N.inj_succ, N.pow_succ_r' in Hn. apply N.div_lt_upper_bound; lia.
      * lia.
Qed.

(** ** Headers *)

(** Only the low two bits of the class are used. *)
Lemma header_renders P c k t n : n < 2 ^ 64 ->
  renders P (n20_asn1_header c k t n) (enc_ident (c mod 4) k t ++ enc_len n).
Proof.
  intro Hn. unfold n20_asn1_header. cbv zeta.
  apply (renders_eq P _ ((if 30 <? t then [n2b (c mod 4 * 64 + (if k then 32 else 0) + 31)]
                          else [n2b (c mod 4 * 64 + (if k then 32 else 0) + t)])
                         ++ (if 30 <? t then enc_base128 t else []) ++ enc_len n)).
  { unfold enc_ident. cbv zeta. destruct (N.ltb_spec 30 t), (N.ltb_spec t 31); try lia; reflexivity. }
  apply renders_seq.
  - apply renders_seq.
    + unfold enc_len. destruct (N.leb_spec n 127), (N.ltb_spec n 128); try lia; [apply renders_prepend1|].
      cbv zeta. eapply renders_eq; [|apply header_len_loop_renders].
      * rewrite (digits_eq 256 n) by lia.
        replace (n2b (N.land n 255)) with (n2b (n mod 256))
          by (f_equal; change 255 with (2 ^ 8 - 1); now rewrite land_mod).
        destruct (N.ltb_spec n 256) as [Hs|Hs].
        -- rewrite (N.div_small n), N.eqb_refl, N.mod_small by assumption. reflexivity.
        -- destruct (N.eqb_spec (n / 256) 0) as [E0|_].
           ++ apply N.div_small_iff in E0; lia.
           ++ rewrite map_app. f_equal. f_equal. lens. lia.
      * apply lt_pow_size.
      * rewrite size_nat_size. apply size_le_iff in Hn. lia.
    + destruct (30 <? t); [apply base128_renders|apply renders_skip].
  - assert (HB : forall h, h < 32 ->
      n2b (if k then N.lor (wrap8 (N.lor h (N.shiftl c 6))) 32 else wrap8 (N.lor h (N.shiftl c 6)))
      = n2b (c mod 4 * 64 + (if k then 32 else 0) + h)).
    { intros h Hh. assert (HW : wrap8 (N.lor h (N.shiftl c 6)) = h + (c mod 4) * 64).
      { rewrite N.shiftl_mul_pow2, lor_add by (cbn; lia). change (2 ^ 6) with 64. unfold wrap8.
        symmetry. apply N.mod_unique with (c / 4); [pose proof (N.mod_lt c 4); lia|].
        pose proof (N.div_mod c 4). lia. }
      rewrite HW. destruct k; f_equal; [|lia].
      assert (Hl : h + c mod 4 * 64 < 256) by (pose proof (N.mod_lt c 4); lia).
      assert (HH : N.lor (h + c mod 4 * 64) 32 = N.lor h ((1 + c mod 4 * 2) * 2 ^ 5)).
      { change 64 with (2 ^ 6). rewrite <- (lor_add h (c mod 4) 6) by (cbn; lia). rewrite <- N.lor_assoc. f_equal.
        rewrite N.lor_comm. pose proof (N.mod_lt c 4).
        assert (HC : c mod 4 = 0 \/ c mod 4 = 1 \/ c mod 4 = 2 \/ c mod 4 = 3) by lia.
        destruct HC as [->|[->|[->| ->]]]; reflexivity. }
      rewrite HH, lor_add by (cbn; lia). cbn. lia. }
    destruct (N.ltb_spec 30 t).
    + change 31 with 0x1f. rewrite <- HB by lia. destruct k; apply renders_prepend1.
    + replace (N.land t 31) with t.
      2:{ change 31 with (2 ^ 5 - 1). rewrite land_mod, N.mod_small; [reflexivity|cbn; lia]. }
      rewrite <- HB by lia. destruct k; apply renders_prepend1.
Qed.

Lemma SZ_pow : SZ <= 2 ^ 64.
Proof. apply SZ_hi. Qed.

(** ** The length idiom *)
Lemma with_header_renders P f a c k t :
  renders P f a -> len a < SZ -> c < 4 ->
  renders P (with_length f (fun n => n20_asn1_header c k t n)) (enc_tlv (Tlv c k t a)).
Proof.
  intros Hf Hl Hc. unfold enc_tlv. cbn [t_class t_constructed t_tag t_content]. rewrite app_assoc.
  pose proof SZ_hi. pose proof SZ_pos.
  apply renders_with_length; [assumption| |].
  - rewrite N.mod_small by assumption. eapply renders_eq; [|apply header_renders; lia].
    now rewrite N.mod_small.
  - intros n Hn. eexists. apply header_renders. lia.
Qed.


(** ** header_with_content and its relatives *)
Lemma tlv_content_lt t : len (enc_tlv t) < SZ -> len (t_content t) < SZ.
Proof. intro H. pose proof (len_enc_tlv t). lia. Qed.

Lemma hwc_renders P c k t f a ti :
  match f with Some g => renders P g a | None => a = [] end ->
  c < 4 -> len (t_content (retag (tagging_of ti) (Tlv c k t a))) < SZ ->
  renders P (n20_asn1_header_with_content c k t f ti) (enc_tlv (retag (tagging_of ti) (Tlv c k t a))).
Proof.
  intros Hf Hc Hl. unfold n20_asn1_header_with_content, tagging_of in *. cbv zeta.
  assert (Hf' : renders P (match f with Some f => f | None => skip end) a).
  { destruct f; [assumption|]. subst. apply renders_skip. }
  destruct ti as [[] tg]; cbn [ti_type ti_tag retag t_content t_constructed] in *.
  - now apply with_header_renders.
  - apply with_header_renders; [assumption|assumption|reflexivity].
  - apply with_header_renders; [|assumption|reflexivity].
    apply with_header_renders; try assumption. now apply (tlv_content_lt (Tlv c k t a)).
Qed.

Lemma null_renders P ti :
  renders P (n20_asn1_null ti) (enc_tlv (retag (tagging_of ti) tlv_null)).
Proof.
  unfold n20_asn1_null, tagging_of. pose proof SZ_lo.
  destruct ti as [[] tg]; cbn [ti_type ti_tag retag].
  - eapply renders_eq; [|now apply header_renders]. unfold enc_tlv. cbn. now rewrite app_nil_r.
  - eapply renders_eq; [|now apply header_renders]. unfold enc_tlv. cbn. now rewrite app_nil_r.
  - apply with_header_renders; [| |reflexivity].
    + eapply renders_eq; [|now apply header_renders]. unfold enc_tlv. cbn. now rewrite app_nil_r.
    + change (enc_tlv tlv_null) with [x05; x00]. lens. lia.
Qed.

Lemma null_plain_renders P : renders P (n20_asn1_null n20_asn1_tag_info_no_override) (enc_tlv tlv_null).
Proof. apply null_renders. Qed.

(** ** OID *)
Lemma oid_loop_renders P o : forall e, 
  renders P (oid_loop e o) (flat_map enc_base128 (map (fun i => oid_element o (N.of_nat i)) (seq 2 (e - 2)))).
Proof.
  induction e as [|e IH]; [apply renders_skip|]. cbn [oid_loop].
  destruct (Nat.ltb_spec 2 (S e)).
  - replace (S e - 2)%nat with (S (e - 2)) by lia. rewrite seq_S, map_app, flat_map_app. cbn [map flat_map].
    rewrite app_nil_r. replace (2 + (e - 2))%nat with e by lia.
    apply renders_seq; [apply base128_renders|exact IH].
  - replace (S e - 2)%nat with 0%nat by lia. apply renders_skip.
Qed.

(** What is rendered for any element count: the first octet is reduced modulo 256. *)
Definition oid_octets (o : oid) : list byte :=
  let a := match oid_arcs o with [] => 0 | a :: _ => a end in
  let b := match oid_arcs o with _ :: b :: _ => b | _ => 0 end in
  n2b (40 * a + b) :: flat_map enc_base128 (skipn 2 (oid_arcs o)).

Lemma map_nth_seq {A} (d : A) l : forall n k, (k + n <= length l)%nat ->
  map (fun i => nth i l d) (seq k n) = firstn n (skipn k l).
Proof.
  induction n as [|n IH]; intros k Hk; [reflexivity|].
  cbn [seq map]. rewrite IH by lia.
  rewrite <- (firstn_skipn k l) at 1. rewrite app_nth2; rewrite firstn_length; [|lia].
  replace (k - Nat.min k (length l))%nat with 0%nat by lia.
  destruct (skipn k l) as [|x r] eqn:Es.
  - apply (f_equal (@length A)) in Es. rewrite skipn_length in Es. cbn in Es. lia.
  - cbn [nth firstn]. f_equal. f_equal.
    replace (S k) with (1 + k)%nat by lia.
    transitivity (skipn 1 (skipn k l)); [|now rewrite Es].
    clear. revert l. induction k; intro l; [reflexivity|]. destruct l; [reflexivity|]. apply IHk.
Qed.

Lemma oid_content_renders P o : oid_ok o -> oid_elem_count o <= 10 ->
  renders P (n20_asn1_object_identifier_content o) (oid_octets o).
Proof.
  intros [Hok Hu] Hc. unfold n20_asn1_object_identifier_content, oid_octets, oid_arcs. cbv zeta.
  set (e := oid_elem_count o) in *. set (l := oid_elements o) in *.
  match goal with |- renders _ _ (?x :: ?y) => change (x :: y) with ([x] ++ y) end.
  apply renders_seq.
  - eapply renders_eq; [|apply oid_loop_renders]. f_equal.
    unfold oid_element. fold l. unfold takeN.
    erewrite map_ext; [|intro i; rewrite Nat2N.id; reflexivity].
    destruct (Nat.le_gt_cases (N.to_nat e) 2).
    + replace (N.to_nat e - 2)%nat with 0%nat by lia. cbn [seq map]. rewrite skipn_all2; [reflexivity|].
      rewrite firstn_length. lia.
    + rewrite map_nth_seq by (unfold len in Hok; lia). symmetry. apply skipn_firstn_comm.
  - assert (H10 : exists a b r, l = a :: b :: r).
    { destruct l as [|a [|b r]]; lens; try lia. eauto. }
    destruct H10 as (a & b & r & Hl). rewrite Hl in Hu. inversion Hu as [|? ? Ha Hu']; subst. inversion Hu' as [|? ? Hb _]; subst.
    unfold oid_element. fold l. rewrite Hl. cbn [nth N.to_nat].
    change (nth (N.to_nat 1) (a :: b :: r) 0) with b. unfold takeN.
    assert (HE : e = 0 \/ e = 1 \/ 2 <= e) by lia.
    destruct HE as [He|[He|He]].
    + rewrite He. apply renders_prepend1.
    + rewrite He. change (N.min 1 2 =? 2) with false. change (0 <? N.min 1 2) with true. cbv iota.
      change (N.to_nat 1) with 1%nat. cbn [firstn].
      replace (n2b (40 * a + 0)) with (n2b (wrap8 (0 + wrap32 (a * 40)))); [apply renders_prepend1|].
      unfold wrap8, wrap32. rewrite n2b_mod. apply b2n_inj. rewrite !b2n_n2b.
      change 4294967296 with (256 * 16777216). rewrite N.mod_mul_r by lia.
      rewrite N.add_0_l, (N.mul_comm 256 (_ / _ mod _)), N.mod_add, N.mod_mod by lia. f_equal. lia.
    + replace (N.min e 2) with 2 by lia. change (2 =? 2) with true. change (0 <? 2) with true. cbv iota.
      replace (firstn (N.to_nat e) (a :: b :: r)) with (a :: b :: firstn (N.to_nat e - 2) r).
      2:{ replace (N.to_nat e) with (S (S (N.to_nat e - 2))) at 2 by lia. reflexivity. }
      replace (n2b (40 * a + b)) with (n2b (wrap8 (wrap8 b + wrap32 (a * 40)))); [apply renders_prepend1|].
      unfold wrap8, wrap32. rewrite n2b_mod. apply b2n_inj. rewrite !b2n_n2b.
      change 4294967296 with (256 * 16777216). rewrite N.mod_mul_r by lia.
      rewrite (N.mul_comm 256 (_ / _ mod _)), N.add_assoc, N.mod_add by lia.
      rewrite <- N.add_mod by lia. f_equal. lia.
Qed.

Lemma oid_octets_enc o : oid_ok o ->
  2 <= oid_elem_count o <= 10 -> 40 * oid_element o 0 + oid_element o 1 < 128 ->
  oid_octets o = enc_oid (oid_arcs o).
Proof.
  intros [Hok Hu] Hc Hs. unfold oid_octets, enc_oid, oid_arcs, takeN, oid_element in *.
  destruct (oid_elements o) as [|a [|b r]]; lens; try lia.
  replace (N.to_nat (oid_elem_count o)) with (S (S (N.to_nat (oid_elem_count o) - 2))) by lia.
  cbn [firstn skipn nth N.to_nat] in *. change (Pos.to_nat 1) with 1%nat in Hs. cbv iota in Hs.
  rewrite (enc_base128_eq (40 * a + b)). destruct (N.ltb_spec (40 * a + b) 128); [|lia].
  now rewrite N.mod_small.
Qed.

Lemma object_identifier_renders P o ti : oid_ok o -> oid_elem_count o <= 10 ->
  len (t_content (retag (tagging_of ti) (tlv_oid (oid_octets o)))) < SZ ->
  renders P (n20_asn1_object_identifier (Some o) ti) (enc_tlv (retag (tagging_of ti) (tlv_oid (oid_octets o)))).
Proof.
  intros Hok Hc Hl. unfold n20_asn1_object_identifier, N20_ASN1_MAX_OID_ELEMENTS.
  destruct (N.ltb_spec 10 (oid_elem_count o)); [lia|].
  apply hwc_renders; [now apply oid_content_renders|reflexivity|assumption].
Qed.

Lemma object_identifier_null_renders P o ti :
  match o with None => True | Some o => 10 < oid_elem_count o end ->
  renders P (n20_asn1_object_identifier o ti) (enc_tlv tlv_null).
Proof.
  intro H. unfold n20_asn1_object_identifier, N20_ASN1_MAX_OID_ELEMENTS.
  destruct o as [o|]; [|apply null_plain_renders].
  destruct (N.ltb_spec 10 (oid_elem_count o)); [|lia]. apply null_plain_renders.
Qed.


(** ** Integers *)

(** Position [p] (0 = most significant) of a [size]-byte number as an index into its buffer. *)
Definition idx (le : bool) (size : N) (p : nat) : Z :=
  if le then (Z.of_N size - 1 - Z.of_nat p)%Z else Z.of_nat p.
Definition be_of (le : bool) (bs : list byte) : list byte := if le then rev bs else bs.

Lemma be_of_length le bs : length (be_of le bs) = length bs.
Proof. destruct le; [apply rev_length|reflexivity]. Qed.

Lemma nth_takeN {A} (dflt : A) d n p : (p < N.to_nat n)%nat -> nth p (takeN n d) dflt = nth p d dflt.
Proof.
  intro. unfold takeN. revert d p H. induction (N.to_nat n) as [|m IH]; intros d p H; [lia|].
  destruct d, p; try reflexivity. cbn. apply IH. lia.
Qed.

Lemma deref_idx le d size p : size <= len d -> (p < N.to_nat size)%nat ->
  deref d (idx le size p) = nth p (be_of le (takeN size d)) x00 /\ deref_ub d (idx le size p) = [].
Proof.
  intros Hs Hp. unfold deref, deref_ub, idx.
  assert (HB : ((0 <=? (if le then Z.of_N size - 1 - Z.of_nat p else Z.of_nat p)) &&
                ((if le then Z.of_N size - 1 - Z.of_nat p else Z.of_nat p) <? Z.of_N (len d)))%Z = true)
    by (destruct le; lia).
  rewrite HB. split; [|reflexivity]. destruct le; cbn [be_of].
  - rewrite rev_nth by (unfold takeN; rewrite firstn_length; unfold len in *; lia).
    assert (HL : length (takeN size d) = N.to_nat size) by (unfold takeN; rewrite firstn_length; unfold len in *; lia).
    rewrite HL, nth_takeN by lia. f_equal. lia.
  - rewrite nth_takeN by lia. f_equal. lia.
Qed.

Fixpoint lead (x : byte) (v : list byte) : nat :=
  match v with [] => 0 | b :: r => if byte_eqb b x then S (lead x r) else 0 end.

Lemma lead_le x v : (lead x v <= length v)%nat.
Proof. induction v; cbn; [lia|]. destruct byte_eqb; lia. Qed.

Lemma lead_split x v : v = repeat x (lead x v) ++ skipn (lead x v) v.
Proof.
  induction v as [|b v IH]; [reflexivity|]. cbn [lead]. destruct (byte_eqb b x) eqn:Eb; [|reflexivity].
  apply byte_eqb_eq in Eb. subst. cbn. now f_equal.
Qed.

Lemma lead_stop x v b r : skipn (lead x v) v = b :: r -> b <> x.
Proof.
  revert b r. induction v as [|c v IH]; intros b r H; [discriminate|]. cbn [lead] in H.
  destruct (byte_eqb c x) eqn:Ec; [now apply (IH b r)|]. cbn in H. injection H as <- <-.
  now apply byte_eqb_neq.
Qed.

Lemma skipn_nth_cons {A} (dflt : A) v p : (p < length v)%nat -> skipn p v = nth p v dflt :: skipn (S p) v.
Proof.
  revert p. induction v as [|b v IH]; intros p H; [cbn in H; lia|]. destruct p; [reflexivity|]. cbn in *. apply IH. lia.
Qed.

Definition step (le : bool) : Z := if le then (-1)%Z else 1%Z.

Lemma strip_loop_spec le d size x : size <= len d -> forall fuel p,
  (p <= N.to_nat size)%nat -> (N.to_nat size - p < fuel)%nat ->
  let v := be_of le (takeN size d) in
  let k := (p + lead x (skipn p v))%nat in
  strip_loop fuel d x (idx le size p) (idx le size (N.to_nat size)) (step le)
  = (idx le size k, if Nat.eqb k (N.to_nat size) then deref_ub d (idx le size (N.to_nat size)) else []).
Proof.
  intros Hs. cbv zeta. set (v := be_of le (takeN size d)).
  assert (HL : length v = N.to_nat size).
  { unfold v. rewrite be_of_length. unfold takeN. rewrite firstn_length. unfold len in *. lia. }
  induction fuel as [|f IH]; intros p Hp Hf; [lia|].
  cbn [strip_loop].
  destruct (Nat.eq_dec p (N.to_nat size)) as [->|Hne].
  - rewrite Z.eqb_refl. cbn [negb]. rewrite andb_false_r.
    rewrite skipn_all2 by lia. cbn [lead]. rewrite Nat.add_0_r, Nat.eqb_refl. reflexivity.
  - destruct (deref_idx le d size p Hs ltac:(lia)) as [-> ->].
    fold v. rewrite (skipn_nth_cons x00 v p) by lia. cbn [lead].
    assert (HN : (idx le size p =? idx le size (N.to_nat size))%Z = false) by (unfold idx; destruct le; lia).
    rewrite HN. cbn [negb]. rewrite andb_true_r.
    destruct (byte_eqb (nth p v x00) x).
    + replace (idx le size p + step le)%Z with (idx le size (S p)) by (unfold idx, step; destruct le; lia).
      rewrite IH by lia. rewrite Nat.add_succ_r. cbn [Nat.add]. now rewrite app_nil_r.
    + rewrite Nat.add_0_r. destruct (Nat.eqb_spec p (N.to_nat size)); [contradiction|reflexivity].
Qed.

Lemma takeN_1_skipn {A} (dflt : A) d i : (i < length d)%nat -> takeN 1 (skipn i d) = [nth i d dflt].
Proof. intro. rewrite (skipn_nth_cons dflt) by assumption. reflexivity. Qed.

Lemma ptr_at_idx P le d size p : size <= len d -> (p < N.to_nat size)%nat ->
  renders P (n20_stream_prepend (ptr_at d (idx le size p)) 1) [nth p (be_of le (takeN size d)) x00].
Proof.
  intros Hs Hp. destruct (deref_idx le d size p Hs Hp) as [<- _].
  pose proof SZ_lo. unfold ptr_at, deref.
  assert (HR : (0 <= idx le size p < Z.of_N (len d))%Z) by (unfold idx; destruct le; lia).
  destruct (Z.leb_spec 0 (idx le size p)); [|lia].
  destruct (Z.ltb_spec (idx le size p) (Z.of_N (len d))); [|lia]. cbn [andb].
  rewrite <- (takeN_1_skipn x00) by (unfold len in *; lia).
  apply renders_prepend; [|lia].
  unfold len in *. rewrite skipn_length. lia.
Qed.

Lemma copy_loop_spec P le d size k : size <= len d -> (k <= N.to_nat size)%nat ->
  forall e fuel, (k <= e)%nat -> (e <= N.to_nat size)%nat -> (e - k <= fuel)%nat ->
  renders P (copy_loop fuel d (idx le size k) (idx le size e) (step le))
    (firstn (e - k) (skipn k (be_of le (takeN size d)))).
Proof.
  intros Hs Hk. set (v := be_of le (takeN size d)).
  assert (HL : length v = N.to_nat size).
  { unfold v. rewrite be_of_length. unfold takeN. rewrite firstn_length. unfold len in *. lia. }
  induction e as [|e IH]; intros fuel H1 H2 H3.
  - replace (0 - k)%nat with 0%nat by lia. cbn [firstn].
    replace k with 0%nat by lia. destruct fuel; cbn [copy_loop]; [apply renders_skip|].
    rewrite Z.eqb_refl. apply renders_skip.
  - destruct (Nat.eq_dec k (S e)) as [->|Hne].
    + rewrite Nat.sub_diag. cbn [firstn]. destruct fuel; cbn [copy_loop]; [apply renders_skip|].
      rewrite Z.eqb_refl. apply renders_skip.
    + destruct fuel as [|f]; [lia|]. cbn [copy_loop].
      assert (HN : (idx le size k =? idx le size (S e))%Z = false) by (unfold idx; destruct le; lia).
      rewrite HN.
      replace (idx le size (S e) - step le)%Z with (idx le size e) by (unfold idx, step; destruct le; lia).
      replace (firstn (S e - k) (skipn k v)) with (firstn (e - k) (skipn k v) ++ [nth e v x00]).
      * apply renders_seq; [apply ptr_at_idx; [assumption|lia]|]. apply IH; lia.
      * replace (S e - k)%nat with (S (e - k)) by lia.
        clear - HL H1 H2 Hne. rewrite <- (firstn_skipn k v) at 2.
        rewrite app_nth2; rewrite firstn_length; [|lia].
        replace (e - Nat.min k (length v))%nat with (e - k)%nat by lia.
        assert (Hlt : (e - k < length (skipn k v))%nat) by (rewrite skipn_length; lia).
        revert Hlt. generalize (e - k)%nat, (skipn k v). clear.
        intros n l. revert n. induction l as [|a l IH]; intros n Hn; [cbn in Hn; lia|].
        destruct n; [reflexivity|]. cbn in *. f_equal. apply IH. lia.
Qed.

(** The undefined behaviour of the integer content callback. *)
Definition int_ub (d : list byte) (size : N) (le tc : bool) : list ub :=
  let v := be_of le (takeN size d) in
  let x := if tc && high_bit (deref d (idx le size 0)) then xff else x00 in
  (if Nat.eqb (lead x v) (N.to_nat size) then deref_ub d (idx le size (N.to_nat size)) else []) ++
  (if tc then deref_ub d (idx le size 0) else []) ++
  (if le then [UBPtrArith] else []).

(** What the callback renders. *)
Definition int_octets_of (d : list byte) (size : N) (le tc : bool) : list byte :=
  let v := be_of le (takeN size d) in
  let neg := tc && high_bit (deref d (idx le size 0)) in
  let x := if neg then xff else x00 in
  let w := skipn (lead x v) v in
  (match w with
   | [] => [x]
   | b :: _ => if Bool.eqb (high_bit b) neg then [] else [x]
   end) ++ w.

Lemma integer_content_renders (P : ub -> Prop) d size le tc :
  size <= len d -> Forall P (int_ub d size le tc) ->
  renders P (n20_asn1_integer_internal_content d size le tc) (int_octets_of d size le tc).
Proof.
  intros Hs HP. unfold n20_asn1_integer_internal_content. cbv zeta.
  replace (if le then Z.of_N size - 1 else 0)%Z with (idx le size 0) by (unfold idx; destruct le; lia).
  replace (if le then -1 else Z.of_N size)%Z with (idx le size (N.to_nat size)) by (unfold idx; destruct le; lia).
  fold (step le).
  unfold int_ub, int_octets_of in *. cbv zeta in *.
  set (neg := tc && high_bit (deref d (idx le size 0))) in *.
  set (x := if neg then xff else x00) in *.
  set (v := be_of le (takeN size d)) in *.
  pose proof (strip_loop_spec le d size x Hs (S (N.to_nat size)) 0 ltac:(lia) ltac:(lia)) as HS. cbv zeta in HS.
  fold v in HS. cbn [Nat.add skipn] in HS. rewrite HS. clear HS.
  set (k := lead x v) in *.
  assert (HL : length v = N.to_nat size).
  { unfold v. rewrite be_of_length. unfold takeN. rewrite firstn_length. unfold len in *. lia. }
  assert (Hk : (k <= N.to_nat size)%nat) by (rewrite <- HL; apply lead_le).
  assert (Hc : renders P (copy_loop (N.to_nat size) d (idx le size k) (idx le size (N.to_nat size)) (step le)) (skipn k v)).
  { eapply renders_eq; [|apply copy_loop_spec; [assumption|assumption|lia|lia|lia]].
    fold v. apply firstn_all2. rewrite skipn_length. lia. }
  apply renders_seq.
  - eapply renders_eq; [apply app_nil_r|]. apply renders_seq; [|exact Hc].
    apply renders_log.
    assert (Hub3 : (if (idx le size k =? idx le size (N.to_nat size))%Z then [] else deref_ub d (idx le size k)) = []).
    { destruct (Z.eqb_spec (idx le size k) (idx le size (N.to_nat size))); [reflexivity|].
      apply deref_idx; [assumption|]. assert (k <> N.to_nat size) by congruence. lia. }
    rewrite Hub3. exact HP.
  - destruct (Nat.eq_dec k (N.to_nat size)) as [Ek|Ek].
    + rewrite Ek, Z.eqb_refl. cbn [orb]. rewrite (skipn_all2 v) by lia.
      destruct neg; cbn [when]; apply renders_prepend1.
    + assert (HN : (idx le size k =? idx le size (N.to_nat size))%Z = false) by (unfold idx; destruct le; lia).
      rewrite HN. cbn [orb].
      destruct (deref_idx le d size k Hs ltac:(lia)) as [-> _]. fold v.
      rewrite (skipn_nth_cons x00 v k) by lia.
      unfold x. destruct neg, (high_bit (nth k v x00)); cbn [negb Bool.eqb when];
        (apply renders_prepend1 || apply renders_skip).
Qed.

(** *** Value of the rendered octets *)
Lemma high_bit_spec b : high_bit b = negb (b2n b <? 128).
Proof. destruct b; reflexivity. Qed.

(** [be_val bs - 256^length]: the value of a negative number. *)
Definition nval (bs : list byte) : Z := (Z.of_N (be_val bs) - 256 ^ Z.of_nat (length bs))%Z.

Lemma nval_ff bs : nval (xff :: bs) = nval bs.
Proof.
  unfold nval. rewrite be_val_cons. change (b2n xff) with 255. cbn [length].
  rewrite Nat2Z.inj_succ, Z.pow_succ_r by lia.
  assert (HP : Z.of_N (256 ^ len bs) = (256 ^ Z.of_nat (length bs))%Z) by apply pow256_Z.
  lia.
Qed.
Lemma be_val_00 bs : be_val (x00 :: bs) = be_val bs.
Proof. rewrite be_val_cons. change (b2n x00) with 0. lia. Qed.

Lemma nval_repeat k bs : nval (repeat xff k ++ bs) = nval bs.
Proof. induction k; [reflexivity|]. cbn [repeat app]. now rewrite nval_ff. Qed.
Lemma be_val_repeat k bs : be_val (repeat x00 k ++ bs) = be_val bs.
Proof. induction k; [reflexivity|]. cbn [repeat app]. now rewrite be_val_00. Qed.

Lemma twos_val_neg b r : 128 <= b2n b -> twos_val (b :: r) = nval (b :: r).
Proof. intro. unfold twos_val, nval. destruct (N.ltb_spec (b2n b) 128); [lia|reflexivity]. Qed.
Lemma twos_val_pos b r : b2n b < 128 -> twos_val (b :: r) = Z.of_N (be_val (b :: r)).
Proof. intro. unfold twos_val. destruct (N.ltb_spec (b2n b) 128); [reflexivity|lia]. Qed.

Lemma minimal_cons b r : b <> x00 -> b <> xff -> int_minimal (b :: r) = true.
Proof.
  intros H0 Hf. destruct r as [|c r]; [reflexivity|]. cbn.
  destruct (N.eqb_spec (b2n b) 0) as [E0|_]; [exfalso; apply H0, b2n_inj, E0|].
  destruct (N.eqb_spec (b2n b) 255) as [E0|_]; [exfalso; apply Hf, b2n_inj, E0|]. reflexivity.
Qed.

Lemma int_octets_value d size le tc : 0 < size -> size <= len d ->
  read_int (int_octets_of d size le tc) = Some (number_of (takeN size d) le tc).
Proof.
  intros H0 Hs. unfold int_octets_of, number_of. cbv zeta. fold (be_of le (takeN size d)).
  set (v := be_of le (takeN size d)).
  assert (HL : length v = N.to_nat size).
  { unfold v. rewrite be_of_length. unfold takeN. rewrite firstn_length. unfold len in *. lia. }
  destruct (deref_idx le d size 0 Hs ltac:(lia)) as [-> _]. fold v.
  destruct v as [|v0 vr] eqn:Ev; [cbn in HL; lia|]. cbn [nth].
  rewrite <- Ev in *. clear HL.
  destruct (tc && high_bit v0) eqn:Eneg.
  - apply andb_true_iff in Eneg as [-> Hhi]. rewrite high_bit_spec in Hhi.
    assert (HV : twos_val v = nval v) by (rewrite Ev; apply twos_val_neg; lia).
    assert (HN : nval v = nval (skipn (lead xff v) v)) by (rewrite (lead_split xff v) at 1; apply nval_repeat).
    rewrite HV, HN.
    destruct (skipn (lead xff v) v) as [|b r] eqn:Ew.
    + reflexivity.
    + apply lead_stop in Ew. rewrite high_bit_spec.
      destruct (N.ltb_spec (b2n b) 128) as [Hb|Hb]; cbn [negb Bool.eqb app].
      * unfold read_int. assert (int_minimal (xff :: b :: r) = true) as ->.
        { cbn. change (b2n xff) with 255. change (255 =? 0) with false. rewrite N.eqb_refl. cbn.
          destruct (N.ltb_spec (b2n b) 128); [reflexivity|lia]. }
        rewrite twos_val_neg by (change (b2n xff) with 255; lia). now rewrite nval_ff.
      * unfold read_int. rewrite minimal_cons; [|intros ->; change (b2n x00) with 0 in Hb; lia|assumption].
        now rewrite twos_val_neg.
  - assert (HV : (if tc then twos_val v else Z.of_N (be_val v)) = Z.of_N (be_val v)).
    { destruct tc; [|reflexivity]. cbn in Eneg. rewrite high_bit_spec in Eneg. rewrite Ev.
      apply twos_val_pos. lia. }
    assert (HN : be_val v = be_val (skipn (lead x00 v) v)) by (rewrite (lead_split x00 v) at 1; apply be_val_repeat).
    rewrite HV, HN.
    destruct (skipn (lead x00 v) v) as [|b r] eqn:Ew.
    + reflexivity.
    + apply lead_stop in Ew. rewrite high_bit_spec.
      destruct (N.ltb_spec (b2n b) 128) as [Hb|Hb]; cbn [negb Bool.eqb app].
      * unfold read_int. rewrite minimal_cons; [|assumption|intros ->; change (b2n xff) with 255 in Hb; lia].
        now rewrite twos_val_pos.
      * unfold read_int. assert (int_minimal (x00 :: b :: r) = true) as ->.
        { cbn. change (b2n x00) with 0. change (0 =? 255) with false. rewrite N.eqb_refl. cbn.
          destruct (N.ltb_spec (b2n b) 128); [lia|reflexivity]. }
        rewrite twos_val_pos by (change (b2n x00) with 0; lia). now rewrite be_val_00.
Qed.

Lemma int_ub_stray d size le tc : Forall stray_reads (int_ub d size le tc).
Proof.
  assert (HD : forall i, Forall stray_reads (deref_ub d i)).
  { intro i. unfold deref_ub. destruct (_ && _); repeat constructor. }
  unfold int_ub. cbv zeta. repeat apply Forall_len_app.
  - destruct Nat.eqb; [apply HD|constructor].
  - destruct tc; [apply HD|constructor].
  - destruct le; [|constructor]. constructor; [now right|constructor].
Qed.

(** Integers over a non-empty slice. *)
Lemma integer_renders_gen (P : ub -> Prop) d size le tc ti :
  0 < size -> size <= len d -> Forall P (int_ub d size le tc) ->
  len (t_content (retag (tagging_of ti) (tlv_integer (enc_int (number_of (takeN size d) le tc))))) < SZ ->
  renders P (n20_asn1_integer (mkSlice size (Some d)) le tc ti)
    (enc_tlv (retag (tagging_of ti) (tlv_integer (enc_int (number_of (takeN size d) le tc))))).
Proof.
  intros H0 Hs HP Hl. unfold n20_asn1_integer. cbn [sl_buf sl_size].
  pose proof (read_int_unique _ _ (int_octets_value d size le tc H0 Hs)) as HU. rewrite <- HU in *.
  apply hwc_renders; [now apply integer_content_renders|reflexivity|assumption].
Qed.

Lemma integer_null_renders P size le tc ti :
  renders P (n20_asn1_integer (mkSlice size None) le tc ti) (enc_tlv tlv_null).
Proof. apply null_plain_renders. Qed.

(** When is it free of undefined behaviour? Big-endian input, and either some byte is not stripped or there is memory
    behind the slice. *)
Lemma int_ub_clean d size tc : 0 < size -> size <= len d ->
  (number_of (takeN size d) false tc <> 0%Z /\ number_of (takeN size d) false tc <> (-1)%Z) \/ size < len d ->
  int_ub d size false tc = [].
Proof.
  intros H0 Hs Hor. unfold int_ub. cbv zeta. cbn [be_of].
  destruct (deref_idx false d size 0 Hs ltac:(lia)) as [Hd0 Hu0]. cbn [be_of] in Hd0.
  rewrite Hd0, Hu0. replace (if tc then [] else []) with (@nil ub) by now destruct tc. cbn [app].
  rewrite app_nil_r.
  destruct (Nat.eqb_spec (lead (if tc && high_bit (nth 0 (takeN size d) x00) then xff else x00) (takeN size d)) (N.to_nat size))
    as [Ek|]; [|reflexivity].
  destruct Hor as [[Hn0 Hn1]|Hlt].
  - exfalso.
    set (x := if tc && high_bit (nth 0 (takeN size d) x00) then xff else x00) in *.
    pose proof (lead_split x (takeN size d)) as HS.
    assert (HL : length (takeN size d) = N.to_nat size) by (unfold takeN; rewrite firstn_length; unfold len in *; lia).
    rewrite Ek, (skipn_all2 (takeN size d)), app_nil_r in HS by lia.
    destruct (N.to_nat size) as [|m] eqn:Em; [lia|]. cbn [repeat] in HS.
    unfold number_of in *. cbv zeta in *. rewrite HS in Hn0, Hn1.
    assert (Hx0 : nth 0 (takeN size d) x00 = x) by now rewrite HS.
    assert (x = x00 \/ (x = xff /\ tc = true)) as [Hx|[Hx Htc]].
    { subst x. destruct tc; cbn [andb]; [|now left]. destruct (high_bit _); [now right|now left]. }
    + rewrite Hx in Hn0. apply Hn0.
      change (x00 :: repeat x00 m) with (repeat x00 (S m)). rewrite <- (app_nil_r (repeat x00 (S m))).
      destruct tc; [|now rewrite be_val_repeat].
      cbn [repeat app]. rewrite twos_val_pos by (change (b2n x00) with 0; lia).
      rewrite be_val_00, be_val_repeat. reflexivity.
    + rewrite Hx, Htc in Hn1. apply Hn1.
      rewrite twos_val_neg by (change (b2n xff) with 255; lia). rewrite nval_ff.
      rewrite <- (app_nil_r (repeat xff m)), nval_repeat. reflexivity.
  - unfold deref_ub, idx.
    assert (((0 <=? Z.of_nat (N.to_nat size)) && (Z.of_nat (N.to_nat size) <? Z.of_N (len d)))%Z = true) as -> by lia.
    reflexivity.
Qed.

(** ** 64-bit integers *)
Lemma rev_le_bytes k n : rev (le_bytes k n) = be_bytes k n.
Proof. revert n. induction k; intro n; [reflexivity|]. cbn [le_bytes rev]. now rewrite IHk. Qed.
Lemma len_le_bytes k n : len (le_bytes k n) = N.of_nat k.
Proof. rewrite <- len_rev, rev_le_bytes. apply len_be_bytes. Qed.

Lemma object_rep64_be n : be_of host_little_endian (object_rep64 n) = be_bytes 8 n.
Proof.
  unfold object_rep64. destruct host_little_endian; cbn [be_of]; apply rev_le_bytes.
Qed.
Lemma len_object_rep64 n : len (object_rep64 n) = 8.
Proof. unfold object_rep64. destruct host_little_endian; [|rewrite len_rev]; apply len_le_bytes. Qed.

Lemma number_of_rep64_unsigned n : n < 2 ^ 64 -> number_of (object_rep64 n) host_little_endian false = Z.of_N n.
Proof.
  intro Hn. unfold number_of. fold (be_of host_little_endian (object_rep64 n)). rewrite object_rep64_be.
  rewrite be_val_be_bytes, N.mod_small; [reflexivity|assumption].
Qed.

Lemma number_of_rep64_signed z : (- 2 ^ 63 <= z < 2 ^ 63)%Z ->
  number_of (object_rep64 (Z.to_N (z mod 18446744073709551616))) host_little_endian true = z.
Proof.
  intro Hz. unfold number_of. fold (be_of host_little_endian (object_rep64 (Z.to_N (z mod 18446744073709551616)))).
  rewrite object_rep64_be.
  pose proof (length_be_bytes 8 (Z.to_N (z mod 18446744073709551616))) as HL.
  destruct (be_bytes 8 _) as [|b r] eqn:Eb; [discriminate|]. injection HL as HL.
  destruct (twos_val_spec b r) as [HF HV]. rewrite HL in HF, HV.
  apply (twos_unique 8); [lia|assumption| |].
  - unfold fits. change (256 ^ (Z.of_nat 8 - 1))%Z with 72057594037927936%Z. lia.
  - rewrite <- HV, <- Eb, be_val_be_bytes.
    change (256 ^ N.of_nat 8) with 18446744073709551616. change (256 ^ Z.of_nat 8)%Z with 18446744073709551616%Z.
    lia.
Qed.

Lemma enc_int_len_le k z : (1 <= k)%nat -> fits k z -> len (enc_int z) <= N.of_nat k.
Proof. intros Hk H. apply fits_iff in H; [|assumption]. unfold enc_int. rewrite len_be_bytes. lia. Qed.

Lemma len_enc_ident_le c k t : t < 2 ^ 32 -> len (enc_ident c k t) <= 6.
Proof.
  intro Ht. unfold enc_ident. cbv zeta. destruct (t <? 31); lens; [lia|].
  rewrite len_enc_base128. assert (len (digits 128 t) <= 5); [|lia].
  apply len_digits_le; [lia|lia|]. change (128 ^ 5) with 34359738368. change (2 ^ 32) with 4294967296 in Ht. lia.
Qed.
Lemma len_enc_len_le n : n < 2 ^ 64 -> len (enc_len n) <= 9.
Proof.
  intro Hn. unfold enc_len. cbv zeta. destruct (n <? 128); lens; [lia|].
  assert (len (digits 256 n) <= 8); [|lia]. apply len_digits_le; [lia|lia|exact Hn].
Qed.


(** A content of at most [SZ - 32] octets never overflows size_t, whatever the tagging. *)
Lemma retag_content_small ti c k t a : ti_ok ti -> t < 2 ^ 32 -> len a + 32 <= SZ ->
  len (t_content (retag (tagging_of ti) (Tlv c k t a))) < SZ.
Proof.
  intros Hti Ht Ha. pose proof SZ_hi. unfold tagging_of. destruct ti as [[] tg]; cbn; try lia.
  unfold enc_tlv. cbn. pose proof (len_enc_ident_le c k t Ht). pose proof (len_enc_len_le (len a) ltac:(change (2^64) with 18446744073709551616; lia)).
  lens. lia.
Qed.

Lemma uint64_renders n ti : ti_ok ti -> n < 2 ^ 64 ->
  renders stray_reads (n20_asn1_uint64 n ti)
    (enc_tlv (retag (tagging_of ti) (tlv_integer (enc_int (Z.of_N n))))).
Proof.
  intros Hti Hn. unfold n20_asn1_uint64. pose proof (len_object_rep64 n) as HL.
  assert (HN : number_of (takeN 8 (object_rep64 n)) host_little_endian false = Z.of_N n).
  { rewrite takeN_all by lia. now apply number_of_rep64_unsigned. }
  rewrite <- HN. apply integer_renders_gen; [lia|lia|apply int_ub_stray|].
  apply retag_content_small; [assumption|cbn; lia|].
  assert (len (enc_int (number_of (takeN 8 (object_rep64 n)) host_little_endian false)) <= N.of_nat 9).
  { apply enc_int_len_le; [lia|]. rewrite HN. unfold fits.
    change (256 ^ (Z.of_nat 9 - 1))%Z with 18446744073709551616%Z. change (2 ^ 64) with 18446744073709551616 in Hn. lia. }
  pose proof SZ_lo. lia.
Qed.

Lemma int64_renders z ti : ti_ok ti -> (- 2 ^ 63 <= z < 2 ^ 63)%Z ->
  renders stray_reads (n20_asn1_int64 z ti)
    (enc_tlv (retag (tagging_of ti) (tlv_integer (enc_int z)))).
Proof.
  intros Hti Hz. unfold n20_asn1_int64.
  set (n := Z.to_N (z mod 18446744073709551616)). pose proof (len_object_rep64 n) as HL.
  assert (HN : number_of (takeN 8 (object_rep64 n)) host_little_endian true = z).
  { rewrite takeN_all by lia. now apply number_of_rep64_signed. }
  rewrite <- HN. apply integer_renders_gen; [lia|lia|apply int_ub_stray|].
  apply retag_content_small; [assumption|cbn; lia|].
  assert (len (enc_int (number_of (takeN 8 (object_rep64 n)) host_little_endian true)) <= N.of_nat 8).
  { apply enc_int_len_le; [lia|]. rewrite HN. unfold fits.
    change (256 ^ (Z.of_nat 8 - 1))%Z with 72057594037927936%Z. lia. }
  pose proof SZ_lo. lia.
Qed.

(** ** Bit strings *)
Lemma bitstring_loop_renders P d : forall n, (n <= length d)%nat ->
  renders P (bitstring_loop n d) (firstn n d).
Proof.
  pose proof SZ_lo. induction n as [|n IH]; intro Hn; [apply renders_skip|]. cbn [bitstring_loop].
  assert (HF : firstn (S n) d = firstn n d ++ [nth n d x00]).
  { clear - Hn. revert n Hn. induction d as [|a d IH]; intros n Hn; [cbn in Hn; lia|].
    destruct n; [reflexivity|]. cbn [firstn nth app]. f_equal. apply IH. cbn in Hn. lia. }
  rewrite HF. apply renders_seq; [|apply IH; lia].
  unfold ptr_at. destruct (Z.leb_spec 0 (Z.of_nat n)); [|lia]. rewrite Nat2Z.id.
  rewrite <- (takeN_1_skipn x00) by lia. apply renders_prepend; [|lia].
  unfold len. rewrite skipn_length. lia.
Qed.

Lemma bitstring_content_renders P d bits : bits <= 8 * len d -> bits + 7 < SZ ->
  renders P (n20_asn1_bitstring_content (Some d) bits) (enc_bits (takeN bits (bits_of_bytes d))).
Proof.
  intros Hb Hs. unfold n20_asn1_bitstring_content, enc_bits. cbv zeta.
  assert (HT : len (takeN bits (bits_of_bytes d)) = bits) by (rewrite len_takeN, len_bits_of_bytes; lia).
  rewrite HT.
  assert (HU : N.land (8 - N.land bits 7) 7 = (8 - bits mod 8) mod 8)
    by (change 7 with (2 ^ 3 - 1); rewrite !land_mod; reflexivity).
  rewrite HU.
  match goal with |- renders _ _ (?x :: ?y) => change (x :: y) with ([x] ++ y) end.
  apply renders_seq; [|apply renders_prepend1].
  unfold wrap_sz. rewrite N.mod_small by lia. rewrite shiftr_div. change (2 ^ 3) with 8.
  destruct (N.eqb_spec ((bits + 7) / 8) 0) as [Ez|Ez].
  - apply N.div_small_iff in Ez; [|lia]. replace bits with 0 by lia. rewrite takeN_0. apply renders_skip.
  - assert (H0 : 0 < bits).
    { destruct (N.eq_dec bits 0) as [->|]; [|lia]. exfalso. now apply Ez. }
    assert (HD : (bits + 7) / 8 - 1 = (bits - 1) / 8).
    { replace (bits + 7) with ((bits - 1) + 1 * 8) by lia. rewrite N.div_add by lia. lia. }
    rewrite HD. assert (HI : (bits - 1) / 8 < len d) by (apply N.div_lt_upper_bound; lia).
    rewrite pack_prefix by lia.
    assert (HR : deref_ub d (Z.of_N ((bits - 1) / 8)) = [] /\
                 deref d (Z.of_N ((bits - 1) / 8)) = nth (N.to_nat ((bits - 1) / 8)) d x00).
    { unfold deref_ub, deref.
      assert (((0 <=? Z.of_N ((bits - 1) / 8)) && (Z.of_N ((bits - 1) / 8) <? Z.of_N (len d)))%Z = true) as -> by lia.
      split; [reflexivity|]. f_equal. lia. }
    destruct HR as [-> ->].
    apply renders_seq.
    + eapply renders_eq; [apply app_nil_r|]. apply renders_seq; [apply renders_log; constructor|].
      rewrite N.shiftl_1_l. apply renders_prepend1.
    + unfold takeN. apply bitstring_loop_renders. unfold len in *. lia.
Qed.

Lemma bitstring_null_content_renders P bits :
  renders P (n20_asn1_bitstring_content None bits) (enc_bits []).
Proof.
  pose proof SZ_lo. unfold n20_asn1_bitstring_content. cbv zeta.
  unfold wrap_sz. rewrite N.mod_small by lia. change (N.shiftr (0 + 7) 3 =? 0) with true. cbv iota.
  apply renders_skip_l; [reflexivity|]. apply renders_prepend1.
Qed.

(** The bits a bit string argument denotes. *)
Definition bits_of_ptr (b : ptr) (bits : N) : list bool :=
  match b with None => [] | Some d => takeN bits (bits_of_bytes d) end.
Definition bits_ok (b : ptr) (bits : N) : Prop :=
  match b with None => True | Some d => bits <= 8 * len d /\ bits + 7 < SZ end.

Lemma bitstring_renders P b bits ti : bits_ok b bits ->
  len (t_content (retag (tagging_of ti) (tlv_bitstring (enc_bits (bits_of_ptr b bits))))) < SZ ->
  renders P (n20_asn1_bitstring b bits ti)
    (enc_tlv (retag (tagging_of ti) (tlv_bitstring (enc_bits (bits_of_ptr b bits))))).
Proof.
  intros Hok Hl. unfold n20_asn1_bitstring. apply hwc_renders; [|reflexivity|assumption].
  destruct b as [d|]; cbn [bits_of_ptr]; [destruct Hok; now apply bitstring_content_renders|].
  apply bitstring_null_content_renders.
Qed.

(** ** Strings *)
Lemma stringish_content_renders P s : opt_slice_ok s ->
  renders P (n20_asn1_stringish_content s) (opt_slice_bytes s).
Proof.
  intro Hs. destruct s as [[n [d|]]|]; cbn; try apply renders_skip.
  destruct Hs as [H1 H2]. cbn in *. now apply renders_prepend.
Qed.

Lemma stringish_renders P tag s ti : opt_slice_ok s ->
  len (t_content (retag (tagging_of ti) (Tlv 0 false tag (opt_slice_bytes s)))) < SZ ->
  renders P (n20_asn1_stringish tag s ti) (enc_tlv (retag (tagging_of ti) (Tlv 0 false tag (opt_slice_bytes s)))).
Proof.
  intros Hs Hl. unfold n20_asn1_stringish. apply hwc_renders; [|reflexivity|assumption].
  now apply stringish_content_renders.
Qed.

Lemma octetstring_renders P s ti : opt_slice_ok s ->
  len (t_content (retag (tagging_of ti) (tlv_octetstring (opt_slice_bytes s)))) < SZ ->
  renders P (n20_asn1_octetstring s ti) (enc_tlv (retag (tagging_of ti) (tlv_octetstring (opt_slice_bytes s)))).
Proof. apply stringish_renders. Qed.

Lemma printablestring_renders P s ti : opt_slice_ok s ->
  len (t_content (retag (tagging_of ti) (tlv_printablestring (opt_slice_bytes s)))) < SZ ->
  renders P (n20_asn1_printablestring s ti) (enc_tlv (retag (tagging_of ti) (tlv_printablestring (opt_slice_bytes s)))).
Proof.
  intros Hs Hl. unfold n20_asn1_printablestring. destruct s as [s|].
  - now apply (stringish_renders P _ (Some s)).
  - apply (stringish_renders P _ (Some slice_null)); [|assumption]. split; [cbn; pose proof SZ_pos; lia|exact I].
Qed.

Lemma utf8_string_renders P s ti : opt_slice_ok s ->
  len (t_content (retag (tagging_of ti) (tlv_utf8string (opt_slice_bytes s)))) < SZ ->
  renders P (n20_asn1_utf8_string s ti) (enc_tlv (retag (tagging_of ti) (tlv_utf8string (opt_slice_bytes s)))).
Proof.
  intros Hs Hl. unfold n20_asn1_utf8_string. destruct s as [s|].
  - now apply (stringish_renders P _ (Some s)).
  - apply (stringish_renders P _ (Some slice_null)); [|assumption]. split; [cbn; pose proof SZ_pos; lia|exact I].
Qed.

Lemma generalized_time_renders P s ti : slice_ok s ->
  len (t_content (retag (tagging_of ti) (tlv_generalizedtime (slice_bytes s)))) < SZ ->
  renders P (n20_asn1_generalized_time (Some s) ti) (enc_tlv (retag (tagging_of ti) (tlv_generalizedtime (slice_bytes s)))).
Proof. intros Hs Hl. now apply (stringish_renders P _ (Some s)). Qed.

Lemma generalized_time_null_renders P ti :
  renders P (n20_asn1_generalized_time None ti) (enc_tlv tlv_null).
Proof. apply null_plain_renders. Qed.

Lemma sequence_renders P f a ti :
  match f with Some g => renders P g a | None => a = [] end ->
  len (t_content (retag (tagging_of ti) (tlv_sequence a))) < SZ ->
  renders P (n20_asn1_sequence f ti) (enc_tlv (retag (tagging_of ti) (tlv_sequence a))).
Proof. intros. now apply hwc_renders. Qed.

Lemma boolean_renders P v ti : ti_ok ti ->
  renders P (n20_asn1_boolean v ti) (enc_tlv (retag (tagging_of ti) (tlv_boolean v))).
Proof.
  intro Hti. pose proof SZ_lo. apply hwc_renders; [apply renders_prepend1|reflexivity|].
  apply retag_content_small; [assumption|cbn; lia|]. lens. lia.
Qed.

End WithEnv.
