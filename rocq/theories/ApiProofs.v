(** Every rendering call renders some byte string, independent of the stream. *)
From Coq Require Import List NArith ZArith Bool Lia Strings.Byte.
From Coq Require Import ZifyBool ZifyNat ZifyN.
From Verif Require Import Base BaseFacts Stream SpecStream StreamProofs SpecDer Asn1 SpecAsn1 Asn1Proofs Cbor SpecCbor CborProofs
  Oid X509 X509Ext X509Proofs SpecX509 SpecApi.
Import ListNotations.
Open Scope N_scope.

Section WithEnv.
Context `{E : Env}.

(** [f] renders something. *)
Definition rok (f : cmd) : Prop := exists b, renders tolerable f b.

Lemma rok_of f b : renders tolerable f b -> rok f.
Proof. intro. now exists b. Qed.
Lemma rok_skip : rok skip.
Proof. exists []. apply renders_skip. Qed.
Lemma rok_log u : Forall tolerable u -> rok (log u).
Proof. intro. exists []. now apply renders_log. Qed.
Lemma rok_seq f g : rok f -> rok g -> rok (f ;; g)%cmd.
Proof. intros [a Ha] [b Hb]. exists (b ++ a). now apply renders_seq. Qed.
Lemma rok_when c f : rok f -> rok (when c f).
Proof. destruct c; [auto|intros; apply rok_skip]. Qed.
Lemma rok_with_length f g : rok f -> (forall n, n < SZ -> rok (g n)) -> rok (with_length f g).
Proof.
  intros [a Ha] Hg. pose proof SZ_pos. destruct (Hg (len a mod SZ)) as [b Hb]; [apply N.mod_lt; lia|].
  exists (b ++ a). now apply renders_with_length.
Qed.
Lemma rok_prepend1 c : rok (prepend1 c).
Proof. eapply rok_of, renders_prepend1. Qed.

Lemma rok_header c k t n : n < SZ -> rok (n20_asn1_header c k t n).
Proof.
  intro Hn. eapply rok_of, header_renders. pose proof SZ_pow. lia.
Qed.
Lemma rok_header_len f c k t : rok f -> rok (with_length f (fun n => n20_asn1_header c k t n)).
Proof. intro. apply rok_with_length; [assumption|]. intros. now apply rok_header. Qed.
Lemma rok_hwc c k t cb ti : cb_ok cb -> rok (n20_asn1_header_with_content c k t cb ti).
Proof.
  intro H. assert (rok (match cb with Some f => f | None => skip end)) by (destruct cb; [exact H|apply rok_skip]).
  unfold n20_asn1_header_with_content. destruct (ti_type ti); repeat apply rok_header_len; assumption.
Qed.
Lemma rok_hwc_some c k t f ti : rok f -> rok (n20_asn1_header_with_content c k t (Some f) ti).
Proof. intro. now apply rok_hwc. Qed.
Lemma rok_sequence f ti : rok f -> rok (n20_asn1_sequence (Some f) ti).
Proof. intro. now apply rok_hwc. Qed.
Lemma rok_null ti : rok (n20_asn1_null ti).
Proof. eapply rok_of, null_renders. Qed.
Lemma rok_base128 n : rok (n20_asn1_base128_int n).
Proof. eapply rok_of, base128_renders. Qed.

Lemma rok_oid o ti : rok (n20_asn1_object_identifier o ti).
Proof.
  destruct o as [o|]; cbn [n20_asn1_object_identifier]; [|apply rok_null].
  destruct (_ <? _); [apply rok_null|]. apply rok_hwc_some, rok_seq; [|apply rok_prepend1].
  generalize (N.to_nat (oid_elem_count o)) as e. induction e as [|e IH]; [apply rok_skip|]. cbn [oid_loop].
  destruct (Nat.ltb 2 (S e)); [|apply rok_skip]. apply rok_seq; [apply rok_base128|exact IH].
Qed.

Lemma tolerable_stray u : stray_reads u -> tolerable u.
Proof. intros [H|H]; unfold tolerable; auto. Qed.
Lemma deref_ub_tolerable d i : Forall tolerable (deref_ub d i).
Proof. unfold deref_ub. destruct (_ && _); repeat constructor. Qed.

Lemma rok_integer s le tc ti : slice_ok s -> rok (n20_asn1_integer s le tc ti).
Proof.
  intros [_ Hs]. unfold n20_asn1_integer. destruct (sl_buf s) as [d|]; [|apply rok_null].
  apply rok_hwc_some. eapply rok_of, integer_content_renders; [exact Hs|].
  eapply Forall_impl; [|apply int_ub_stray]. exact tolerable_stray.
Qed.
Lemma len_rep n : len (object_rep64 n) = 8.
Proof. apply len_object_rep64. Qed.
Lemma rok_uint64 n ti : rok (n20_asn1_uint64 n ti).
Proof. apply rok_integer. pose proof SZ_lo. split; cbn [sl_size sl_buf]; [lia|rewrite len_rep; lia]. Qed.
Lemma rok_int64 z ti : rok (n20_asn1_int64 z ti).
Proof. apply rok_integer. pose proof SZ_lo. split; cbn [sl_size sl_buf]; [lia|rewrite len_rep; lia]. Qed.

Lemma rok_bitstring b bits ti : bits_readable b bits -> rok (n20_asn1_bitstring b bits ti).
Proof.
  intros [H1 H2]. pose proof SZ_lo. apply rok_hwc_some. destruct b as [d|]; [|eapply rok_of, bitstring_null_content_renders].
  destruct (N.lt_ge_cases (bits + 7) SZ) as [Hl|Hg]; [eapply rok_of, bitstring_content_renders; assumption|].
  unfold n20_asn1_bitstring_content. cbv zeta. apply rok_seq; [|apply rok_prepend1].
  replace (wrap_sz (bits + 7)) with (bits + 7 - SZ).
  - rewrite N.shiftr_div_pow2. rewrite N.div_small by (change (2 ^ 3) with 8; lia). apply rok_skip.
  - unfold wrap_sz. apply N.mod_unique with 1; lia.
Qed.

Lemma rok_stringish t s ti : opt_ok slice_ok s -> rok (n20_asn1_stringish t s ti).
Proof. intro H. apply rok_hwc_some. eapply rok_of, stringish_content_renders. destruct s; exact H. Qed.
Lemma null_ok : slice_ok slice_null.
Proof. split; [apply SZ_pos|exact I]. Qed.
Lemma rok_octetstring s ti : slice_ok s -> rok (n20_asn1_octetstring (Some s) ti).
Proof. intro. now apply rok_stringish. Qed.
Lemma rok_printable s ti : opt_ok slice_ok s -> rok (n20_asn1_printablestring s ti).
Proof. intro. apply rok_stringish. destruct s; [assumption|exact null_ok]. Qed.
Lemma rok_utf8 s ti : opt_ok slice_ok s -> rok (n20_asn1_utf8_string s ti).
Proof. intro. apply rok_stringish. destruct s; [assumption|exact null_ok]. Qed.
Lemma rok_time s ti : opt_ok slice_ok s -> rok (n20_asn1_generalized_time s ti).
Proof. intro. destruct s; [now apply rok_stringish|apply rok_null]. Qed.
Lemma rok_boolean b ti : rok (n20_asn1_boolean b ti).
Proof. apply rok_hwc_some, rok_prepend1. Qed.

Lemma rok_cbor_header t n : rok (n20_cbor_write_header t n).
Proof.
  destruct (N.lt_ge_cases t 8); [eapply rok_of, cbor_header_renders; assumption|].
  eapply rok_of, cbor_header_undefined_renders. lia.
Qed.
Lemma rok_cbor_string t s : slice_ok s -> rok (cbor_string t s).
Proof.
  intros [H1 H2]. unfold cbor_string. destruct (_ && _) eqn:Ec; [apply rok_cbor_header|].
  apply rok_seq; [|apply rok_cbor_header]. destruct (sl_buf s) as [d|].
  - eapply rok_of, renders_prepend; assumption.
  - rewrite andb_true_r in Ec. replace (sl_size s) with 0 by lia. eapply rok_of, renders_prepend_null0. unfold tolerable. auto.
Qed.

(** Loops running down an array. *)
Lemma rok_down_loop {A} (f : A -> cmd) (ok : A -> Prop) (loop : nat -> list A -> cmd) l :
  (forall l, loop O l = skip) ->
  (forall k l, loop (S k) l = ((match nth_error l k with Some x => f x | None => log [UBReadOob] end) ;; loop k l)%cmd) ->
  (forall x, ok x -> rok (f x)) ->
  forall k, Forall ok (firstn k l) -> rok (loop k l).
Proof.
  intros L0 LS Hf. induction k as [|k IH]; intro HF; [rewrite L0; apply rok_skip|].
  rewrite LS. apply rok_seq.
  - destruct (nth_error l k) as [x|] eqn:Ex; [|apply rok_log; repeat constructor].
    apply Hf. rewrite Forall_forall in HF. apply HF.
    destruct (nth_error_firstn l k) as (y & Hy & Hs); [apply nth_error_Some; congruence|].
    rewrite Hs. apply in_or_app. right. left. congruence.
  - apply IH. rewrite Forall_forall in *. intros y Hy. apply HF.
    destruct (Nat.lt_ge_cases k (length l)) as [Hk|Hk].
    + destruct (nth_error_firstn l k Hk) as (z & _ & ->). apply in_or_app. now left.
    + rewrite firstn_all2 in * by lia. exact Hy.
Qed.

Lemma oid_equals_serial_ub o : snd (n20_asn1_oid_equals o (Some OID_SERIAL_NUMBER)) = [] \/
  exists l, snd (n20_asn1_oid_equals o (Some OID_SERIAL_NUMBER)) = l /\ Forall tolerable l.
Proof.
  right. eexists. split; [reflexivity|]. unfold n20_asn1_oid_equals, n20_asn1_oid_equals_full.
  destruct o as [o|]; [|constructor]. destruct (negb _); [constructor|].
  generalize (N.to_nat (oid_elem_count o)) as k. intro k. generalize 0%nat as i.
  induction k as [|k IH]; intro i; [constructor|]. cbn [oid_equals_loop].
  assert (HE : forall o i, Forall tolerable (elem_ub o i)).
  { intros o' i'. unfold elem_ub. destruct (_ <? _); repeat constructor. }
  destruct (elem _ o i =? elem _ OID_SERIAL_NUMBER i); [|cbn [snd]; apply Forall_app; split; apply HE].
  specialize (IH (S i)). destruct (oid_equals_loop _ _ k _ _ _) as [r u]. cbn [snd] in *.
  repeat (apply Forall_app; split); auto.
Qed.

Lemma rok_rdn r : slice_ok (rdn_value r) -> rok (n20_x509_rdn r).
Proof.
  intro Hs. apply rok_header_len, rok_sequence. unfold n20_x509_rdn_content.
  destruct (oid_equals_serial_ub (rdn_type r)) as [Hu|(l & Hu & Hl)];
    destruct (n20_asn1_oid_equals (rdn_type r) (Some OID_SERIAL_NUMBER)) as [b u]; cbn [snd] in Hu; subst u;
    (apply rok_seq; [apply rok_seq|apply rok_oid]; [apply rok_log; assumption || constructor|]);
    (destruct b; [apply rok_hwc_some; eapply rok_of, serial_hex_renders; assumption|now apply rok_printable]).
Qed.

Lemma rok_name n : opt_ok name_safe n -> rok (n20_x509_name n).
Proof.
  intro Hn. apply rok_sequence. destruct n as [n|]; [|apply rok_null]. cbn [n20_x509_name_content].
  destruct (_ <? _); [apply rok_null|]. destruct Hn as [_ HF].
  apply (rok_down_loop n20_x509_rdn (fun r => slice_ok (rdn_value r)) name_loop); try reflexivity; [exact rok_rdn|].
  rewrite <- (firstn_skipn (N.to_nat (name_count n)) (name_elements n)) in HF. now apply Forall_app in HF as [HF _].
Qed.

Lemma rok_extension x : opt_ok exts_safe x -> rok (n20_x509_extension x).
Proof.
  intro Hx. destruct x as [x|]; [|apply rok_skip]. cbn [n20_x509_extension opt_ok] in *. unfold exts_safe in Hx. destruct (exts_list x) as [l|]; [|apply rok_skip].
  destruct (_ =? _); [apply rok_skip|]. destruct Hx as [_ HF]. apply rok_sequence.
  apply (rok_down_loop extension_item (fun e => cb_ok (ext_content_cb e)) extension_loop); try reflexivity; [|exact HF].
  intros e He. apply rok_header_len. apply rok_seq; [apply rok_seq; [|apply rok_when, rok_boolean]|apply rok_oid].
  apply rok_header_len. destruct (ext_content_cb e); [exact He|apply rok_skip].
Qed.

Lemma rok_alg a : rok (n20_x509_algorithm_identifier a).
Proof.
  apply rok_sequence. destruct a as [a|]; [|apply rok_skip]. apply rok_seq; [|apply rok_oid].
  destruct (alg_parameters a); try apply rok_skip; [apply rok_null|apply rok_oid].
Qed.
Lemma rok_spki p : spki_safe p -> rok (n20_x509_public_key_info (Some p)).
Proof. intro. apply rok_sequence, rok_seq; [now apply rok_bitstring|apply rok_alg]. Qed.
Lemma or_default_safe s d : slice_ok s -> slice_ok d -> slice_ok (or_default s d).
Proof. unfold or_default. now destruct (sl_buf s). Qed.
Lemma default_times_ok : slice_ok n20_x509_no_expiration /\ slice_ok n20_x509_unix_epoch.
Proof. pose proof SZ_lo. split; (split; [change (sl_size _) with 15; lia|vm_compute; congruence]). Qed.
Lemma rok_validity v : validity_safe v -> rok (n20_x509_validity (Some v)).
Proof.
  intros [H1 H2]. destruct default_times_ok. apply rok_sequence, rok_seq; apply rok_time; cbn [opt_ok]; now apply or_default_safe.
Qed.
Lemma rok_tbs t : opt_ok tbs_safe t -> rok (n20_x509_cert_tbs t).
Proof.
  intro Ht. apply rok_sequence. destruct t as [t|]; [|apply rok_skip]. destruct Ht as (H1 & H2 & H3 & H4 & H5 & H6).
  pose proof SZ_lo. cbn [n20_x509_cert_tbs_content].
  repeat match goal with |- rok (andthen _ _) => apply rok_seq end.
  - now apply rok_extension.
  - now apply rok_spki.
  - now apply rok_name.
  - now apply rok_validity.
  - now apply rok_name.
  - apply rok_alg.
  - destruct (_ =? _); [apply rok_uint64|now apply rok_integer].
  - eapply rok_of, renders_prepend; [vm_compute; congruence|lia].
Qed.
Lemma rok_cert c : opt_ok cert_safe c -> rok (n20_x509_cert c).
Proof.
  intro Hc. apply rok_sequence. destruct c as [c|]; [|apply rok_skip]. destruct Hc as [H1 H2].
  repeat match goal with |- rok (andthen _ _) => apply rok_seq end; cbn [n20_x509_cert_content].
  apply rok_seq; [apply rok_seq|].
  - now apply rok_bitstring.
  - apply rok_alg.
  - now apply rok_tbs.
Qed.

Lemma rok_if_present s f : rok f -> rok (if_present s f).
Proof. intro. unfold if_present. destruct (sl_buf s); [assumption|apply rok_skip]. Qed.
Lemma rok_bits32 d ti : len d = 4 -> rok (n20_asn1_bitstring (Some d) 32 ti).
Proof. intro. pose proof SZ_lo. apply rok_bitstring. split; [lia|lia]. Qed.
Ltac roks :=
  repeat match goal with
  | |- rok (andthen _ _) => apply rok_seq
  | |- rok (if_present _ _) => apply rok_if_present
  | |- rok (n20_asn1_uint64 _ _) => apply rok_uint64
  | |- rok (n20_asn1_int64 _ _) => apply rok_int64
  | |- rok (n20_asn1_octetstring (Some _) _) => apply rok_octetstring; assumption
  | |- rok (n20_asn1_utf8_string (Some _) _) => apply rok_utf8; cbn [opt_ok]; assumption
  | |- rok (n20_asn1_bitstring (Some _) 32 _) => apply rok_bits32; assumption
  end.
Lemma rok_open_dice o : open_dice_safe o -> rok (n20_x509_ext_open_dice_input_content (Some o)).
Proof.
  intros (H1 & H2 & H3 & H4 & H5 & H6 & H7). apply rok_sequence. unfold open_dice_sequence_content. roks.
Qed.
Lemma rok_tcb t : tcb_safe t -> rok (n20_x509_ext_tcg_dice_tcb_info_content (Some t)).
Proof.
  intros (H1 & H2 & H3 & H4 & H5 & H6 & H7 & H8). apply rok_sequence. unfold tcb_info_sequence_content. roks.
  destruct (ti_fwids t) as [l|]; [|apply rok_skip]. destruct H4 as [_ HF]. apply rok_sequence.
  apply (rok_down_loop (fun f => n20_asn1_sequence (Some (fwid_content f)) n20_asn1_tag_info_no_override)
    (fun f => slice_ok (fw_digest f)) fwid_list_loop); try reflexivity; [|exact HF].
  intros f Hf. apply rok_sequence, rok_seq; [now apply rok_octetstring|apply rok_oid].
Qed.
Lemma rok_multi m : multi_safe m -> rok (n20_x509_ext_tcg_dice_multi_tcb_info_content (Some m)).
Proof.
  intro Hm. apply rok_sequence. unfold multi_safe in Hm. destruct (mt_list m) as [l|]; [|apply rok_skip]. destruct Hm as [_ HF].
  apply (rok_down_loop (fun t => n20_x509_ext_tcg_dice_tcb_info_content (Some t)) tcb_safe multi_tcb_loop); try reflexivity;
    [exact rok_tcb|exact HF].
Qed.

Lemma rok_basic_constraints b : rok (n20_x509_ext_basic_constraints_content b).
Proof.
  destruct b as [b|]; [|apply rok_skip]. apply rok_header_len, rok_when, rok_seq; [apply rok_when, rok_uint64|apply rok_boolean].
Qed.
Lemma key_usage_bits_le9 m0 m1 : key_usage_bits m0 m1 <= 9.
Proof.
  unfold key_usage_bits. destruct (negb (m1 =? 0)); [lia|]. destruct (negb (m0 =? 0)); [|lia].
  destruct (N.land m0 0xf =? 0).
  - destruct (N.land (N.shiftr m0 4) 3 =? 0); match goal with |- context [if ?c then _ else _] => destruct c end; lia.
  - destruct (N.land m0 3 =? 0); match goal with |- context [if ?c then _ else _] => destruct c end; lia.
Qed.
Lemma rok_key_usage k : rok (n20_x509_ext_key_usage_content k).
Proof.
  destruct k as [k|]; [|apply rok_skip]. pose proof SZ_lo. apply rok_bitstring.
  assert (key_usage_bits (b2n (ku_mask0 k)) (b2n (ku_mask1 k)) <= 9) by apply key_usage_bits_le9. split; [lia|lens; lia].
Qed.

Theorem call_renders c : call_ok c -> rok (exec_call c).
Proof.
  destruct c; cbn [call_ok exec_call]; intro H.
  - destruct H as [H1 H2]. destruct src as [d|]; [eapply rok_of, renders_prepend; assumption|subst n].
    eapply rok_of, renders_prepend_null0. unfold tolerable. auto.
  - eapply rok_of, renders_byte.
  - apply rok_base128.
  - now apply rok_header.
  - apply rok_null.
  - apply rok_oid.
  - now apply rok_integer.
  - apply rok_uint64.
  - apply rok_int64.
  - now apply rok_bitstring.
  - now apply rok_stringish.
  - now apply rok_printable.
  - now apply rok_utf8.
  - now apply rok_time.
  - apply rok_boolean.
  - now apply rok_hwc.
  - now apply rok_hwc.
  - apply rok_cbor_header.
  - apply rok_cbor_header.
  - apply rok_cbor_header.
  - apply rok_cbor_header.
  - apply rok_cbor_header.
  - eapply rok_of, cbor_int_renders; [exact H|]. intros _. unfold tolerable. auto.
  - now apply rok_cbor_string.
  - now apply rok_cbor_string.
  - apply rok_cbor_header.
  - apply rok_cbor_header.
  - now apply rok_name.
  - now apply rok_extension.
  - apply rok_basic_constraints.
  - apply rok_key_usage.
  - apply rok_alg.
  - destruct p; [now apply rok_spki|destruct H].
  - destruct v; [now apply rok_validity|destruct H].
  - now apply rok_tbs.
  - now apply rok_cert.
  - destruct o; [now apply rok_open_dice|apply rok_skip].
  - destruct s; [now apply rok_sequence, rok_octetstring|apply rok_skip].
  - destruct s; [now apply rok_sequence, rok_octetstring|apply rok_skip].
  - destruct t; [now apply rok_tcb|apply rok_skip].
  - destruct m; [now apply rok_multi|apply rok_skip].
Qed.

End WithEnv.
