(** The CBOR writer renders canonical heads and items. *)
From Coq Require Import List NArith ZArith Bool Strings.Byte Lia.
From Verif Require Import Base BaseFacts Stream SpecStream StreamProofs SpecDigits DigitsFacts SpecCbor CborFacts Cbor Asn1Proofs.
Import ListNotations.
Open Scope N_scope.

(** Writing nothing from a NULL pointer. *)
Definition null_memcpy : ub -> Prop := fun u => u = UBMemcpyNull.

Section WithEnv.
Context `{E : Env}.

Lemma value_loop_renders P n : forall k i,
  renders P (cbor_value_loop k i n) (be_bytes k (N.shiftr n (i * 8))).
Proof.
  induction k as [|k IH]; intro i; [apply renders_skip|]. cbn [cbor_value_loop].
  rewrite be_bytes_S. apply renders_seq; [apply renders_byte|].
  eapply renders_eq; [|apply IH]. f_equal. rewrite !shiftr_div, N.div_div by (try apply N.pow_nonzero; lia).
  f_equal. replace ((i + 1) * 8) with (i * 8 + 8) by lia. now rewrite N.pow_add_r.
Qed.

Lemma lor_head m i : m < 8 -> i < 32 -> n2b (N.lor (wrap8 (N.shiftl m 5)) i) = n2b (32 * m + i).
Proof.
  intros Hm Hi. f_equal. unfold wrap8. rewrite N.shiftl_mul_pow2. change (2 ^ 5) with 32. rewrite N.mod_small by lia.
  rewrite N.lor_comm. change 32 with (2 ^ 5) at 1. rewrite lor_add by (exact Hi). change (2 ^ 5) with 32. lia.
Qed.

Lemma cbor_header_renders P m n : m < 8 -> renders P (n20_cbor_write_header m n) (enc_head m n).
Proof.
  intro Hm. unfold n20_cbor_write_header. destruct (N.ltb_spec 7 m); [lia|].
  unfold enc_head, head_info, head_width.
  destruct (N.ltb_spec n 24).
  { rewrite lor_head by lia. cbn [be_bytes]. apply renders_byte. }
  pose proof (value_loop_renders P n) as HV.
  assert (HR : forall k i, i < 32 ->
     renders P (cbor_value_loop k 0 n ;; n20_stream_prepend (Some [n2b (N.lor (wrap8 (N.shiftl m 5)) i)]) 1)%cmd
       (n2b (32 * m + i) :: be_bytes k n)).
  { intros k i Hi. rewrite lor_head by lia.
    change (n2b (32 * m + i) :: be_bytes k n) with ([n2b (32 * m + i)] ++ be_bytes k n).
    apply renders_seq; [|apply renders_byte].
    specialize (HV k 0). now rewrite N.mul_0_l, N.shiftr_0_r in HV. }
  change 0x100 with 256. change 0x10000 with 65536. change 0x100000000 with 4294967296.
  destruct (n <? 256); [now apply HR|]. destruct (n <? 65536); [now apply HR|].
  destruct (n <? 4294967296); now apply HR.
Qed.

Lemma cbor_header_undefined_renders P m n : 7 < m -> renders P (n20_cbor_write_header m n) [xf7].
Proof.
  intro Hm. unfold n20_cbor_write_header. destruct (N.ltb_spec 7 m); [|lia]. apply (renders_byte P xf7).
Qed.

Lemma cbor_int_renders (P : ub -> Prop) z : (- 2 ^ 63 <= z < 2 ^ 63)%Z -> (z = - 2 ^ 63 -> P UBSignedOverflow)%Z ->
  renders P (n20_cbor_write_int z) (enc_item (CInt z)).
Proof.
  intros Hz HP. unfold n20_cbor_write_int. cbn [enc_item].
  destruct (Z.leb_spec 0 z).
  - rewrite Z.mod_small by lia. now apply cbor_header_renders.
  - destruct (Z.eq_dec z (- 2 ^ 63)) as [->|Hne].
    + cbv zeta. set (r := (_ mod 2 ^ 64)%Z). vm_compute in r. subst r.
      rewrite <- (app_nil_r (enc_head _ _)). apply renders_seq.
      * apply renders_log. vm_compute int64_ub. repeat constructor; now apply HP.
      * now apply cbor_header_renders.
    + assert (HW : forall y, (- 2 ^ 63 <= y < 2 ^ 63)%Z -> int64_wrap y = y /\ int64_ub y = []).
      { intros y Hy. unfold int64_wrap, int64_ub. split; [rewrite Z.mod_small; lia|].
        destruct (Z.leb_spec (- 2 ^ 63) y); destruct (Z.ltb_spec y (2 ^ 63)); (reflexivity || lia). }
      cbv zeta. destruct (HW (- z)%Z ltac:(lia)) as [-> ->]. destruct (HW (- z - 1)%Z ltac:(lia)) as [-> ->].
      rewrite <- (app_nil_r (enc_head _ _)). apply renders_seq; [apply renders_log; constructor|].
      rewrite Z.mod_small by lia. replace (- z - 1)%Z with (-1 - z)%Z by lia. now apply cbor_header_renders.
Qed.

Lemma renders_prepend_null0 (P : ub -> Prop) : P UBMemcpyNull -> renders P (n20_stream_prepend None 0) [].
Proof.
  intro HP. destruct (renders_prepend P [] 0) as [_ H2]; [lens; lia|apply SZ_pos|]. split.
  - intro u. exists []. splits; auto.
  - intros s u buf size out Hb Hs. specialize (H2 s u buf size out Hb Hs).
    destruct H2 as (s' & v & Hv & Hs' & Hu & Hf).
    destruct Hs as (Hc & Hwp & Hbo & Hsz & Hm).
    unfold n20_stream_prepend in *. cbn [w_stream w_ub] in *.
    destruct (_ || _) eqn:EO.
    + exists s', v. auto.
    + destruct (s_begin s) as [m|] eqn:EB; cbn [memcpy_into] in *.
      * destruct (N.leb_spec (sub_sz (s_size s) (wrap_sz (s_wp s + 0)) + 0) (len m)); cbn [w_stream w_ub] in *.
        -- exists s', [UBMemcpyNull]. splits; auto.
           injection Hv as <-. rewrite !N.add_0_r, takeN_dropN. reflexivity.
        -- exists s', [UBMemcpyNull]. splits; auto.
      * exists s', [UBNullDeref]. destruct buf as [m'|].
        -- destruct Hm as (? & ? & _ & _ & _ & Hm). discriminate.
        -- exfalso. cbn in Hbo. rewrite Hbo, orb_true_r in EO. discriminate.
Qed.

Lemma cbor_string_renders (P : ub -> Prop) t s : t < 8 -> slice_ok s ->
  (sl_size s = 0 -> sl_buf s = None -> P UBMemcpyNull) ->
  (0 < sl_size s -> sl_buf s <> None) ->
  renders P (cbor_string t s) (enc_head t (len (slice_bytes s)) ++ slice_bytes s).
Proof.
  intros Ht [H1 H2] H0 HN. unfold cbor_string, slice_bytes. destruct s as [n [d|]]; cbn [sl_size sl_buf] in *.
  - rewrite andb_false_r. rewrite len_takeN, N.min_l by assumption.
    apply renders_seq; [now apply renders_prepend|now apply cbor_header_renders].
  - destruct (N.ltb_spec 0 n); [now specialize (HN ltac:(lia))|]. assert (n = 0) as -> by lia. cbn [andb].
    apply renders_seq; [apply renders_prepend_null0; auto|now apply cbor_header_renders].
Qed.

End WithEnv.
