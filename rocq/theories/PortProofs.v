(** Every rendering call writes the same bytes on two platforms. The lemmas follow those of ApiProofs.v. *)
From Coq Require Import List NArith ZArith Bool Lia Strings.Byte.
From Coq Require Import ZifyBool ZifyNat ZifyN.
From Verif Require Import Base BaseFacts Stream SpecStream StreamProofs SpecDer Asn1 SpecAsn1 Asn1Proofs Cbor SpecCbor CborProofs
  Oid X509 X509Ext X509Proofs SpecX509 SpecApi ApiProofs SpecDigits DigitsFacts.
From Verif Require Import SpecPort.
Import ListNotations.
Open Scope N_scope.

Section TwoPlatforms.
Variables E1 E2 : Env.
Notation SZ1 := (@SZ E1).
Notation SZ2 := (@SZ E2).
Notation agree := (agree E1 E2).

Lemma agree_of f1 f2 b : @renders E1 tolerable f1 b -> @renders E2 tolerable f2 b -> agree f1 f2.
Proof. intros H1 H2. exists b, b. auto. Qed.
Lemma agree_skip : agree skip skip.
Proof. apply agree_of with []; apply renders_skip. Qed.
Lemma agree_log u1 u2 : Forall tolerable u1 -> Forall tolerable u2 -> agree (log u1) (log u2).
Proof. intros. apply agree_of with []; now apply renders_log. Qed.
Lemma agree_seq f1 f2 g1 g2 : agree f1 f2 -> agree g1 g2 -> agree (f1 ;; g1)%cmd (f2 ;; g2)%cmd.
Proof.
  intros (a1 & a2 & A1 & A2 & A) (b1 & b2 & B1 & B2 & B). exists (b1 ++ a1), (b2 ++ a2).
  splits; [now apply renders_seq|now apply renders_seq|]. lens. intros. f_equal; [apply B|apply A]; lia.
Qed.
Lemma agree_when c f1 f2 : agree f1 f2 -> agree (when c f1) (when c f2).
Proof. destruct c; [auto|intros; apply agree_skip]. Qed.
Lemma agree_with_length f1 f2 g1 g2 : agree f1 f2 ->
  (forall n, n < SZ1 -> @rok E1 (g1 n)) -> (forall n, n < SZ2 -> @rok E2 (g2 n)) ->
  (forall n, n < SZ1 -> n < SZ2 -> agree (g1 n) (g2 n)) -> agree (@with_length E1 f1 g1) (@with_length E2 f2 g2).
Proof.
  intros (a1 & a2 & A1 & A2 & A) G1 G2 G.
  pose proof (@SZ_pos E1). pose proof (@SZ_pos E2).
  destruct (G1 (len a1 mod SZ1)) as [c1 C1]; [apply N.mod_lt; lia|].
  destruct (G2 (len a2 mod SZ2)) as [c2 C2]; [apply N.mod_lt; lia|].
  destruct (N.lt_ge_cases (len a1) SZ1) as [L1|L1]; [destruct (N.lt_ge_cases (len a2) SZ2) as [L2|L2]|].
  - specialize (A L1 L2). subst a2. destruct (G (len a1) L1 L2) as (b1 & b2 & B1 & B2 & B).
    exists (b1 ++ a1), (b2 ++ a1). splits.
    + apply renders_with_length; [assumption|now rewrite N.mod_small|exact G1].
    + apply renders_with_length; [assumption|now rewrite N.mod_small|exact G2].
    + lens. intros. f_equal. apply B; lia.
  - exists (c1 ++ a1), (c2 ++ a2). splits; [now apply renders_with_length|now apply renders_with_length|]. lens. lia.
  - exists (c1 ++ a1), (c2 ++ a2). splits; [now apply renders_with_length|now apply renders_with_length|]. lens. lia.
Qed.
Lemma agree_prepend1 c : agree (@prepend1 E1 c) (@prepend1 E2 c).
Proof. apply agree_of with [c]; apply renders_prepend1. Qed.
Lemma agree_header c k t n : n < SZ1 -> n < SZ2 -> agree (@n20_asn1_header E1 c k t n) (@n20_asn1_header E2 c k t n).
Proof.
  intros H1 H2. pose proof (@SZ_pow E1). pose proof (@SZ_pow E2). eapply agree_of; apply header_renders; lia.
Qed.
Lemma agree_header_len f1 f2 c k t : agree f1 f2 ->
  agree (@with_length E1 f1 (fun n => @n20_asn1_header E1 c k t n)) (@with_length E2 f2 (fun n => @n20_asn1_header E2 c k t n)).
Proof. intro. apply agree_with_length; intros; try (now apply rok_header); [assumption|]. now apply agree_header. Qed.
Lemma agree_hwc c k t cb1 cb2 ti : agree_cb E1 E2 cb1 cb2 ->
  agree (@n20_asn1_header_with_content E1 c k t cb1 ti) (@n20_asn1_header_with_content E2 c k t cb2 ti).
Proof.
  intro H. assert (agree (match cb1 with Some f => f | None => skip end) (match cb2 with Some f => f | None => skip end)).
  { destruct cb1, cb2; try (now destruct H); [exact H|apply agree_skip]. }
  unfold n20_asn1_header_with_content. destruct (ti_type ti); repeat apply agree_header_len; assumption.
Qed.
Lemma agree_hwc_some c k t f1 f2 ti : agree f1 f2 ->
  agree (@n20_asn1_header_with_content E1 c k t (Some f1) ti) (@n20_asn1_header_with_content E2 c k t (Some f2) ti).
Proof. intro. now apply agree_hwc. Qed.
Lemma agree_sequence f1 f2 ti : agree f1 f2 -> agree (@n20_asn1_sequence E1 (Some f1) ti) (@n20_asn1_sequence E2 (Some f2) ti).
Proof. intro. now apply agree_hwc. Qed.
Lemma agree_null ti : agree (@n20_asn1_null E1 ti) (@n20_asn1_null E2 ti).
Proof. eapply agree_of; apply null_renders. Qed.
Lemma agree_base128 n : agree (@n20_asn1_base128_int E1 n) (@n20_asn1_base128_int E2 n).
Proof. eapply agree_of; apply base128_renders. Qed.

Lemma agree_oid o ti : agree (@n20_asn1_object_identifier E1 o ti) (@n20_asn1_object_identifier E2 o ti).
Proof.
  destruct o as [o|]; cbn [n20_asn1_object_identifier]; [|apply agree_null].
  destruct (_ <? _); [apply agree_null|]. apply agree_hwc_some, agree_seq; [|apply agree_prepend1].
  generalize (N.to_nat (oid_elem_count o)) as e. induction e as [|e IH]; [apply agree_skip|]. cbn [oid_loop].
  destruct (Nat.ltb 2 (S e)); [|apply agree_skip]. apply agree_seq; [apply agree_base128|exact IH].
Qed.

Lemma int_ub_tolerable (E : Env) d size le tc : Forall tolerable (int_ub d size le tc).
Proof. eapply Forall_impl; [|apply int_ub_stray]. exact tolerable_stray. Qed.

Lemma int_octets_same d size le tc : size <= len d -> (tc = true -> 0 < size) ->
  @int_octets_of E1 d size le tc = @int_octets_of E2 d size le tc.
Proof.
  intros Hs Htc. unfold int_octets_of. destruct tc; [|reflexivity]. specialize (Htc eq_refl). cbn [andb].
  replace (@deref E1 d (idx le size 0)) with (@deref E2 d (idx le size 0)); [reflexivity|].
  unfold deref, idx. destruct le.
  - destruct (Z.leb_spec 0 (Z.of_N size - 1 - Z.of_nat 0)), (Z.ltb_spec (Z.of_N size - 1 - Z.of_nat 0) (Z.of_N (len d)));
      try lia; reflexivity.
  - destruct (Z.leb_spec 0 (Z.of_nat 0)), (Z.ltb_spec (Z.of_nat 0) (Z.of_N (len d))); try lia; reflexivity.
Qed.

Lemma agree_integer s le tc ti : @slice_ok E1 s -> @slice_ok E2 s -> integer_portable s tc ->
  agree (@n20_asn1_integer E1 s le tc ti) (@n20_asn1_integer E2 s le tc ti).
Proof.
  intros [_ Hs] _ Hp. unfold n20_asn1_integer, integer_portable in *. destruct (sl_buf s) as [d|]; [|apply agree_null].
  apply agree_hwc_some. apply agree_of with (@int_octets_of E1 d (sl_size s) le tc).
  - apply integer_content_renders; [exact Hs|apply int_ub_tolerable].
  - rewrite int_octets_same; [|exact Hs|intro; apply Hp; congruence].
    apply integer_content_renders; [exact Hs|apply int_ub_tolerable].
Qed.

(** The eight bytes of a 64-bit integer in the byte order of the host. *)
Lemma int_octets_rep n tc :
  @int_octets_of E1 (@object_rep64 E1 n) 8 (@host_little_endian E1) tc =
  @int_octets_of E2 (@object_rep64 E2 n) 8 (@host_little_endian E2) tc.
Proof.
  assert (HV : forall E : Env, be_of (@host_little_endian E) (takeN 8 (@object_rep64 E n)) = be_bytes 8 n).
  { intro E. rewrite <- object_rep64_be. f_equal. rewrite <- (len_object_rep64 n) at 1. apply takeN_len. }
  assert (HD : forall E : Env, @deref E (@object_rep64 E n) (idx (@host_little_endian E) 8 0) = nth 7 (le_bytes 8 n) x00).
  { intro E. unfold deref. rewrite len_object_rep64. unfold object_rep64, idx. destruct (@host_little_endian E).
    - reflexivity.
    - assert (HL : length (le_bytes 8 n) = 8%nat) by (pose proof (len_le_bytes 8 n); unfold len in *; lia).
      change (nth 0 (rev (le_bytes 8 n)) x00 = nth 7 (le_bytes 8 n) x00). rewrite rev_nth by (rewrite HL; lia). now rewrite HL. }
  unfold int_octets_of. now rewrite !HV, !HD.
Qed.
Lemma agree_rep n tc ti :
  agree (@n20_asn1_integer E1 (mkSlice 8 (Some (@object_rep64 E1 n))) (@host_little_endian E1) tc ti)
        (@n20_asn1_integer E2 (mkSlice 8 (Some (@object_rep64 E2 n))) (@host_little_endian E2) tc ti).
Proof.
  apply agree_hwc_some. cbn [sl_size].
  apply agree_of with (@int_octets_of E1 (@object_rep64 E1 n) 8 (@host_little_endian E1) tc); [|rewrite int_octets_rep]; apply integer_content_renders;
    try apply int_ub_tolerable; rewrite len_object_rep64; lia.
Qed.
Lemma agree_uint64 n ti : agree (@n20_asn1_uint64 E1 n ti) (@n20_asn1_uint64 E2 n ti).
Proof. apply agree_rep. Qed.
Lemma agree_int64 z ti : agree (@n20_asn1_int64 E1 z ti) (@n20_asn1_int64 E2 z ti).
Proof. apply agree_rep. Qed.

Lemma agree_bitstring b bits ti : @bits_readable E1 b bits -> bits_portable E1 E2 b bits ->
  agree (@n20_asn1_bitstring E1 b bits ti) (@n20_asn1_bitstring E2 b bits ti).
Proof.
  intros [_ H] Hp. apply agree_hwc_some. destruct b as [d|]; [|eapply agree_of; apply bitstring_null_content_renders].
  destruct Hp as [P1 P2]; [discriminate|]. eapply agree_of; apply bitstring_content_renders; assumption.
Qed.
Lemma agree_bits b bits ti : match b with None => True | Some d => bits <= 8 * len d end -> bits <= 32 ->
  agree (@n20_asn1_bitstring E1 b bits ti) (@n20_asn1_bitstring E2 b bits ti).
Proof.
  intros H Hb. pose proof (@SZ_lo E1). pose proof (@SZ_lo E2). apply agree_bitstring; [split; [lia|exact H]|]. intros _. lia.
Qed.

Lemma agree_stringish t s ti : opt_ok (@slice_ok E1) s -> opt_ok (@slice_ok E2) s ->
  agree (@n20_asn1_stringish E1 t s ti) (@n20_asn1_stringish E2 t s ti).
Proof. intros H1 H2. apply agree_hwc_some. eapply agree_of; apply stringish_content_renders; destruct s; assumption. Qed.
Lemma agree_octetstring s ti : @slice_ok E1 s -> @slice_ok E2 s ->
  agree (@n20_asn1_octetstring E1 (Some s) ti) (@n20_asn1_octetstring E2 (Some s) ti).
Proof. intros. now apply agree_stringish. Qed.
Lemma agree_printable s ti : opt_ok (@slice_ok E1) s -> opt_ok (@slice_ok E2) s ->
  agree (@n20_asn1_printablestring E1 s ti) (@n20_asn1_printablestring E2 s ti).
Proof. intros. apply agree_stringish; (destruct s; [assumption|apply null_ok]). Qed.
Lemma agree_utf8 s ti : opt_ok (@slice_ok E1) s -> opt_ok (@slice_ok E2) s ->
  agree (@n20_asn1_utf8_string E1 s ti) (@n20_asn1_utf8_string E2 s ti).
Proof. intros. apply agree_stringish; (destruct s; [assumption|apply null_ok]). Qed.
Lemma agree_time s ti : opt_ok (@slice_ok E1) s -> opt_ok (@slice_ok E2) s ->
  agree (@n20_asn1_generalized_time E1 s ti) (@n20_asn1_generalized_time E2 s ti).
Proof. intros. destruct s; [now apply agree_stringish|apply agree_null]. Qed.
Lemma agree_boolean b ti : agree (@n20_asn1_boolean E1 b ti) (@n20_asn1_boolean E2 b ti).
Proof. apply agree_hwc_some, agree_prepend1. Qed.

Lemma agree_cbor_header t n : agree (@n20_cbor_write_header E1 t n) (@n20_cbor_write_header E2 t n).
Proof.
  destruct (N.lt_ge_cases t 8); [eapply agree_of; apply cbor_header_renders; assumption|].
  eapply agree_of; apply cbor_header_undefined_renders; lia.
Qed.
Lemma agree_cbor_string t s : @slice_ok E1 s -> @slice_ok E2 s -> agree (@cbor_string E1 t s) (@cbor_string E2 t s).
Proof.
  intros [H1 H2] [H3 _]. unfold cbor_string. destruct (_ && _) eqn:Ec; [apply agree_cbor_header|].
  apply agree_seq; [|apply agree_cbor_header]. destruct (sl_buf s) as [d|].
  - eapply agree_of; apply renders_prepend; assumption.
  - rewrite andb_true_r in Ec. replace (sl_size s) with 0 by lia. eapply agree_of; apply renders_prepend_null0; unfold tolerable; auto.
Qed.

Lemma agree_down_loop {A} (f1 f2 : A -> cmd) (same : A -> A -> Prop) (loop1 loop2 : nat -> list A -> cmd) :
  (forall l, loop1 O l = skip) ->
  (forall k l, loop1 (S k) l = ((match nth_error l k with Some x => f1 x | None => log [UBReadOob] end) ;; loop1 k l)%cmd) ->
  (forall l, loop2 O l = skip) ->
  (forall k l, loop2 (S k) l = ((match nth_error l k with Some x => f2 x | None => log [UBReadOob] end) ;; loop2 k l)%cmd) ->
  (forall x y, same x y -> agree (f1 x) (f2 y)) ->
  forall k l1 l2, Forall2 same (firstn k l1) (firstn k l2) -> agree (loop1 k l1) (loop2 k l2).
Proof.
  intros L0 LS M0 MS Hf. induction k as [|k IH]; intros l1 l2 HF; [rewrite L0, M0; apply agree_skip|].
  rewrite LS, MS.
  assert (HX : match nth_error l1 k, nth_error l2 k with Some x, Some y => same x y | None, None => True | _, _ => False end
               /\ Forall2 same (firstn k l1) (firstn k l2)).
  { clear - HF. revert l1 l2 HF. induction k as [|k IH]; intros [|x l1] [|y l2] HF; inversion HF; subst; cbn; auto.
    destruct (IH l1 l2) as [I1 I2]; [assumption|]. split; [exact I1|now constructor]. }
  destruct HX as [HX HF']. apply agree_seq; [|now apply IH].
  destruct (nth_error l1 k), (nth_error l2 k); try (now destruct HX); [now apply Hf|].
  apply agree_log; repeat constructor.
Qed.
Lemma Forall2_same {A} (P Q : A -> Prop) l : Forall P l -> Forall Q l -> Forall2 (fun x y => x = y /\ P x /\ Q x) l l.
Proof. induction 1; intro HQ; inversion HQ; subst; constructor; auto. Qed.

Lemma agree_rdn r : @slice_ok E1 (rdn_value r) -> @slice_ok E2 (rdn_value r) ->
  agree (@n20_x509_rdn E1 r) (@n20_x509_rdn E2 r).
Proof.
  intros H1 H2. apply agree_header_len, agree_sequence. unfold n20_x509_rdn_content.
  assert (HU : Forall tolerable (snd (n20_asn1_oid_equals (rdn_type r) (Some OID_SERIAL_NUMBER)))).
  { destruct (oid_equals_serial_ub (rdn_type r)) as [->|(l & -> & Hl)]; [constructor|exact Hl]. }
  destruct (n20_asn1_oid_equals (rdn_type r) (Some OID_SERIAL_NUMBER)) as [b u]. cbn [snd] in HU.
  apply agree_seq; [apply agree_seq; [now apply agree_log|]|apply agree_oid].
  destruct b; [apply agree_hwc_some; eapply agree_of; apply serial_hex_renders; assumption|now apply agree_printable].
Qed.

Lemma Forall_firstn {A} (P : A -> Prop) k l : Forall P l -> Forall P (firstn k l).
Proof. intro H. rewrite <- (firstn_skipn k l) in H. now apply Forall_app in H. Qed.

Lemma agree_name n : opt_ok (@name_safe E1) n -> opt_ok (@name_safe E2) n -> agree (@n20_x509_name E1 n) (@n20_x509_name E2 n).
Proof.
  intros H1 H2. apply agree_sequence. destruct n as [n|]; [|apply agree_null]. cbn [n20_x509_name_content].
  destruct (_ <? _); [apply agree_null|]. destruct H1 as [_ F1], H2 as [_ F2].
  eapply agree_down_loop with (f1 := @n20_x509_rdn E1) (f2 := @n20_x509_rdn E2); try reflexivity;
    [|apply Forall2_same; apply Forall_firstn; [exact F1|exact F2]].
  cbn beta. intros x y (<- & Hx & Hy). now apply agree_rdn.
Qed.

Lemma Forall2_firstn {A} (R : A -> A -> Prop) k l1 l2 : Forall2 R l1 l2 -> Forall2 R (firstn k l1) (firstn k l2).
Proof. intro H. revert k. induction H; intros [|k]; constructor; auto. Qed.

Lemma agree_extension x1 x2 : same_opt (same_exts E1 E2) x1 x2 -> agree (@n20_x509_extension E1 x1) (@n20_x509_extension E2 x2).
Proof.
  destruct x1 as [x1|], x2 as [x2|]; intro H; try (now destruct H); [|apply agree_skip]. destruct H as [HC H].
  cbn [n20_x509_extension]. rewrite <- HC.
  destruct (exts_list x1) as [l1|], (exts_list x2) as [l2|]; try (now destruct H); [|apply agree_skip].
  destruct (_ =? _); [apply agree_skip|]. apply agree_sequence.
  eapply agree_down_loop with (f1 := @extension_item E1) (f2 := @extension_item E2); try reflexivity;
    [|apply Forall2_firstn; exact H].
  intros e1 e2 (Ho & Hc & Hb). unfold extension_item. rewrite <- Ho, <- Hc.
  apply agree_header_len, agree_seq; [apply agree_seq; [|apply agree_when, agree_boolean]|apply agree_oid].
  apply agree_header_len.
  destruct (ext_content_cb e1), (ext_content_cb e2); try (now destruct Hb); [exact Hb|apply agree_skip].
Qed.

Lemma agree_alg a : agree (@n20_x509_algorithm_identifier E1 a) (@n20_x509_algorithm_identifier E2 a).
Proof.
  apply agree_sequence. destruct a as [a|]; [|apply agree_skip]. apply agree_seq; [|apply agree_oid].
  destruct (alg_parameters a); try apply agree_skip; [apply agree_null|apply agree_oid].
Qed.
Lemma agree_spki p : @spki_safe E1 p -> bits_portable E1 E2 (spki_key p) (spki_bits p) ->
  agree (@n20_x509_public_key_info E1 (Some p)) (@n20_x509_public_key_info E2 (Some p)).
Proof. intros. apply agree_sequence, agree_seq; [now apply agree_bitstring|apply agree_alg]. Qed.
Lemma agree_validity v : @validity_safe E1 v -> @validity_safe E2 v ->
  agree (@n20_x509_validity E1 (Some v)) (@n20_x509_validity E2 (Some v)).
Proof.
  intros [H1 H2] [H3 H4]. destruct (@default_times_ok E1), (@default_times_ok E2).
  apply agree_sequence, agree_seq; apply agree_time; cbn [opt_ok]; now apply or_default_safe.
Qed.
Lemma agree_tbs t1 t2 : opt_ok (@tbs_safe E1) t1 -> opt_ok (@tbs_safe E2) t2 -> same_opt (same_tbs E1 E2) t1 t2 ->
  agree (@n20_x509_cert_tbs E1 t1) (@n20_x509_cert_tbs E2 t2).
Proof.
  intros S1 S2 H. apply agree_sequence. destruct t1 as [t1|], t2 as [t2|]; try (now destruct H); [|apply agree_skip].
  destruct S1 as (S1 & S2' & S3 & S4 & S5 & S6), S2 as (T1 & T2 & T3 & T4 & T5 & T6).
  destruct H as (H1 & H2 & H3 & H4 & H5 & H6 & H7 & H8). cbn [n20_x509_cert_tbs_content].
  rewrite <- H1, <- H2, <- H3, <- H4, <- H5, <- H6 in *. pose proof (@SZ_lo E1). pose proof (@SZ_lo E2).
  repeat match goal with |- agree (andthen _ _) (andthen _ _) => apply agree_seq end.
  - now apply agree_extension.
  - now apply agree_spki.
  - now apply agree_name.
  - now apply agree_validity.
  - now apply agree_name.
  - apply agree_alg.
  - destruct (_ =? _); [apply agree_uint64|apply agree_integer; try assumption]. discriminate.
  - eapply agree_of; (apply renders_prepend; [vm_compute; congruence|lia]).
Qed.
Lemma agree_cert c1 c2 : opt_ok (@cert_safe E1) c1 -> opt_ok (@cert_safe E2) c2 -> same_opt (same_cert E1 E2) c1 c2 ->
  agree (@n20_x509_cert E1 c1) (@n20_x509_cert E2 c2).
Proof.
  intros S1 S2 H. apply agree_sequence. destruct c1 as [c1|], c2 as [c2|]; try (now destruct H); [|apply agree_skip].
  destruct S1 as [S1 S1'], S2 as [S2 S2'], H as (H1 & H2 & H3 & H4 & H5). cbn [n20_x509_cert_content].
  rewrite <- H2, <- H3, <- H4.
  apply agree_seq; [apply agree_seq|].
  - now apply agree_bitstring.
  - apply agree_alg.
  - now apply agree_tbs.
Qed.

Lemma agree_if_present s f1 f2 : agree f1 f2 -> agree (if_present s f1) (if_present s f2).
Proof. intro. unfold if_present. destruct (sl_buf s); [assumption|apply agree_skip]. Qed.
Ltac agrees :=
  repeat match goal with
  | |- agree (andthen _ _) (andthen _ _) => apply agree_seq
  | |- agree (if_present _ _) (if_present _ _) => apply agree_if_present
  | |- agree (n20_asn1_uint64 _ _) _ => apply agree_uint64
  | |- agree (n20_asn1_int64 _ _) _ => apply agree_int64
  | |- agree (n20_asn1_octetstring (Some _) _) _ => apply agree_octetstring; assumption
  | |- agree (n20_asn1_utf8_string (Some _) _) _ => apply agree_utf8; cbn [opt_ok]; assumption
  | |- agree (n20_asn1_bitstring (Some _) 32 _) _ => apply agree_bits; lia
  end.
Lemma agree_open_dice o : @open_dice_safe E1 o -> @open_dice_safe E2 o ->
  agree (@n20_x509_ext_open_dice_input_content E1 (Some o)) (@n20_x509_ext_open_dice_input_content E2 (Some o)).
Proof.
  intros (H1 & H2 & H3 & H4 & H5 & H6 & H7) (K1 & K2 & K3 & K4 & K5 & K6 & K7).
  apply agree_sequence. unfold open_dice_sequence_content. agrees.
Qed.
Lemma agree_tcb t : @tcb_safe E1 t -> @tcb_safe E2 t ->
  agree (@n20_x509_ext_tcg_dice_tcb_info_content E1 (Some t)) (@n20_x509_ext_tcg_dice_tcb_info_content E2 (Some t)).
Proof.
  intros (H1 & H2 & H3 & H4 & H5 & H6 & H7 & H8) (K1 & K2 & K3 & K4 & K5 & K6 & K7 & K8).
  apply agree_sequence. unfold tcb_info_sequence_content. agrees.
  destruct (ti_fwids t) as [l|]; [|apply agree_skip]. destruct H4 as [_ HF], K4 as [_ KF]. apply agree_sequence.
  eapply agree_down_loop with
    (f1 := fun f => @n20_asn1_sequence E1 (Some (@fwid_content E1 f)) n20_asn1_tag_info_no_override)
    (f2 := fun f => @n20_asn1_sequence E2 (Some (@fwid_content E2 f)) n20_asn1_tag_info_no_override); try reflexivity;
    [|apply Forall2_same; [exact HF|exact KF]].
  cbn beta. intros f g (<- & Hf & Hg). apply agree_sequence, agree_seq; [now apply agree_octetstring|apply agree_oid].
Qed.
Lemma agree_multi m : @multi_safe E1 m -> @multi_safe E2 m ->
  agree (@n20_x509_ext_tcg_dice_multi_tcb_info_content E1 (Some m)) (@n20_x509_ext_tcg_dice_multi_tcb_info_content E2 (Some m)).
Proof.
  intros Hm Km. apply agree_sequence. unfold multi_safe in *. destruct (mt_list m) as [l|]; [|apply agree_skip].
  destruct Hm as [_ HF], Km as [_ KF].
  eapply agree_down_loop with
    (f1 := fun t => @n20_x509_ext_tcg_dice_tcb_info_content E1 (Some t))
    (f2 := fun t => @n20_x509_ext_tcg_dice_tcb_info_content E2 (Some t)); try reflexivity;
    [|apply Forall2_same; [exact HF|exact KF]].
  cbn beta. intros x y (<- & Hx & Hy). now apply agree_tcb.
Qed.
Lemma agree_basic_constraints b :
  agree (@n20_x509_ext_basic_constraints_content E1 b) (@n20_x509_ext_basic_constraints_content E2 b).
Proof.
  destruct b as [b|]; [|apply agree_skip].
  apply agree_header_len, agree_when, agree_seq; [apply agree_when, agree_uint64|apply agree_boolean].
Qed.
Lemma agree_key_usage k : agree (@n20_x509_ext_key_usage_content E1 k) (@n20_x509_ext_key_usage_content E2 k).
Proof.
  destruct k as [k|]; [|apply agree_skip]. apply agree_bits;
    pose proof (key_usage_bits_le9 (b2n (ku_mask0 k)) (b2n (ku_mask1 k))); [lens|]; lia.
Qed.

Theorem calls_agree c1 c2 : @call_ok E1 c1 -> @call_ok E2 c2 -> alike E1 E2 c1 c2 ->
  agree (@exec_call E1 c1) (@exec_call E2 c2).
Proof.
  intros H K HA.
  destruct c1, c2; try (now destruct HA); cbn [call_ok exec_call alike] in *;
    try (destruct HA as [HE HP]; injection HE; intros; subst; clear HE; cbn [portable] in HP).
  - destruct H as [H1 H2], K as [K1 K2]. destruct src0 as [d|]; [eapply agree_of; apply renders_prepend; assumption|subst n0].
    eapply agree_of; apply renders_prepend_null0; unfold tolerable; auto.
  - eapply agree_of; apply renders_byte.
  - apply agree_base128.
  - now apply agree_header.
  - apply agree_null.
  - apply agree_oid.
  - now apply agree_integer.
  - apply agree_uint64.
  - apply agree_int64.
  - now apply agree_bitstring.
  - now apply agree_stringish.
  - now apply agree_printable.
  - now apply agree_utf8.
  - now apply agree_time.
  - apply agree_boolean.
  - destruct HA as (<- & <- & <- & <- & HC). now apply agree_hwc.
  - destruct HA as (<- & HC). now apply agree_hwc.
  - apply agree_cbor_header.
  - apply agree_cbor_header.
  - apply agree_cbor_header.
  - apply agree_cbor_header.
  - apply agree_cbor_header.
  - eapply agree_of; (apply cbor_int_renders; [exact H|]; intros _; unfold tolerable; auto).
  - now apply agree_cbor_string.
  - now apply agree_cbor_string.
  - apply agree_cbor_header.
  - apply agree_cbor_header.
  - now apply agree_name.
  - now apply agree_extension.
  - apply agree_basic_constraints.
  - apply agree_key_usage.
  - apply agree_alg.
  - destruct p0; [now apply agree_spki|destruct H].
  - destruct v0; [now apply agree_validity|destruct H].
  - now apply agree_tbs.
  - now apply agree_cert.
  - destruct o0; [now apply agree_open_dice|apply agree_skip].
  - destruct s0; [now apply agree_sequence, agree_octetstring|apply agree_skip].
  - destruct s0; [now apply agree_sequence, agree_octetstring|apply agree_skip].
  - destruct t0; [now apply agree_tcb|apply agree_skip].
  - destruct m0; [now apply agree_multi|apply agree_skip].
Qed.

End TwoPlatforms.
